(** Property theorems: a HammingIndex from documents to search results (C85). *)
From Verif Require Import PyBase PyFacts PyMore Bits BitsProofs HammingDb HammingDbProofs Time Freq FreqDim Axis Persist PersistProofs Json JsonProofs IndexSearch IndexSearchProofs IndexSearchProofs2 IndexSearchProofs3.
From Verif Require Index IndexProofs.
From Coq Require Import NArith String Sorting.Permutation Sorting.Sorted.
Import ListNotations.

(** C85: building, searching, reading results *)
Theorem C85_search :
  forall (new_id : nat -> HammingDb.id) (argp : list N -> nat -> list nat)
    (args : list N -> list nat) (cs : Z) (extra : extras) (before after : list act) 
    (q : feature) (code : list N) (n : nat) (threads : option nat) (sort : bool),
  fresh_ids new_id ->
  argpartition_contract argp ->
  argsort_contract args ->
  code_size cs ->
  extras_ok extra ->
  Forall (act_ok cs) before ->
  Forall (act_ok cs) after ->
  contents extra before <> [] ->
  Index.encode_query q = Ok code ->
  well_formed_code cs code ->
  threads_ok threads ->
  exists (r : search_results) (h1 : hindex),
    search_call (run new_id argp args (open_index empty_db false extra 0) before) q n threads sort =
    (Ok r, h1) /\
    sr_query r = code /\
    index_len h1 = Datatypes.length (contents extra before) /\
    (let
     '(items, ended, h2, r') := iterate argp args (run new_id argp args h1 after) r in
      let all := contents extra (before ++ after) in
      (Datatypes.length all <= n -> items = [] /\ ended = Some ValueError) /\
      (n < Datatypes.length all ->
       exists hits rest : list entry,
         nearest code sort n all hits rest /\ (items, ended) = yielded (map (seen_by extra) hits)) /\
      iterate argp args h2 r' = ([], None, h2, r')).
Proof. exact (@index_search). Qed.
Print Assumptions C85_search.
Theorem C85_build :
  forall (new_id : nat -> HammingDb.id) (argp : list N -> nat -> list nat)
    (args : list N -> list nat) (cs : Z) (extra : extras) (docs : list doc),
  fresh_ids new_id ->
  code_size cs ->
  extras_ok extra ->
  Forall (doc_ok cs) docs ->
  exists h : hindex,
    add_all new_id (open_index empty_db false extra 0) docs = (Ok tt, h) /\
    h = run new_id argp args (open_index empty_db false extra 0) (map Mine docs) /\
    index_len h = Datatypes.length (flat_map (entries_of extra) docs) /\
    flat_map (entries_of extra) docs = contents extra (map Mine docs) /\
    Datatypes.length (flat_map (entries_of extra) docs) =
    fold_right (fun (d : doc) (n : nat) => Datatypes.length (doc_slices d) + n) 0 docs.
Proof. exact (@build_all). Qed.
Print Assumptions C85_build.
Theorem C85_plain_results :
  forall hits : list entry,
  yielded (map (seen_by []) hits) = (map (fun e : entry => (e_doc e, e_ts e, None)) hits, None).
Proof. exact (@plain_results). Qed.
Print Assumptions C85_plain_results.
Theorem C85_extra_results :
  forall (extra : list (string * (string -> timeslice -> json))) (hits : list entry),
  extra <> [] ->
  Forall (fun e : entry => e_extra e <> None) hits ->
  yielded (map (seen_by extra) hits) =
  (map (fun e : entry => (e_doc e, e_ts e, e_extra e)) hits, None).
Proof. exact (@extra_results). Qed.
Print Assumptions C85_extra_results.
Theorem C85_missing_extra :
  forall (extra : list (string * (string -> timeslice -> json))) (a : list entry) 
    (e : entry) (b : list entry),
  extra <> [] ->
  Forall (fun e0 : entry => e_extra e0 <> None) a ->
  e_extra e = None ->
  yielded (map (seen_by extra) (a ++ e :: b)) =
  (map (fun e0 : entry => (e_doc e0, e_ts e0, e_extra e0)) a, Some KeyError).
Proof. exact (@missing_extra). Qed.
Print Assumptions C85_missing_extra.
Theorem C85_constant_rate_slices :
  forall (freq dur : td) (rows : list feature) (i : nat),
  i < Datatypes.length rows ->
  exists (row : feature) (ts : timeslice),
    nth_error rows i = Some row /\
    nth_error (constant_rate_slices freq dur rows) i = Some (ts, row) /\
    ts_duration ts = Some dur /\ ps (ts_start ts) = (Z.of_nat i * ps freq)%Z.
Proof. exact (@constant_rate_nth). Qed.
Print Assumptions C85_constant_rate_slices.
Theorem C85_constant_rate_documents :
  forall (cs : Z) (i : string) (freq dur : td) (rows : list feature),
  nonneg_td dur ->
  (0 <= td_count freq)%Z ->
  (td_count freq * Zlen rows < 2 ^ 63)%Z ->
  Forall
    (fun row : feature =>
     exists code : list N, Index.encode_query row = Ok code /\ well_formed_code cs code) rows ->
  doc_ok cs {| doc_id := i; doc_slices := constant_rate_slices freq dur rows |}.
Proof. exact (@constant_rate_ok). Qed.
Print Assumptions C85_constant_rate_documents.
Theorem C85_stored_text :
  forall j : json, textual j = true -> loads (dumps j) = Ok j.
Proof. exact (@loads_dumps). Qed.
Print Assumptions C85_stored_text.
Theorem C85_not_json :
  forall (t : list N) (e : exn), loads t = Raise e -> e = ValueError.
Proof. exact (@loads_errors). Qed.
Print Assumptions C85_not_json.
Theorem C85_hex_digits :
  forall c d : N,
  unhex c = Some d <->
  c = (48 + d)%N /\ (d < 10)%N \/ (c = (87 + d)%N \/ c = (55 + d)%N) /\ (10 <= d < 16)%N.
Proof. exact (@hex_digits). Qed.
Print Assumptions C85_hex_digits.
Theorem C85_stored_ascii :
  forall j : json, Forall (fun c : N => (c < 128)%N) (dumps j).
Proof. exact (@dumps_ascii). Qed.
Print Assumptions C85_stored_ascii.
Theorem C85_nothing_indexed :
  forall (new_id : nat -> HammingDb.id) (extra : extras) (q : feature) 
    (n : nat) (threads : option nat) (sort : bool) (fuel : nat),
  search_call (open_index empty_db false extra 0) q n threads sort =
  (Raise ValueError, open_index empty_db false extra 0) /\
  random_search_call new_id fuel (open_index empty_db false extra 0) n threads sort =
  Some (Raise ValueError, open_index empty_db false extra 0) /\
  index_len (open_index empty_db false extra 0) = 0.
Proof. exact (@search_nothing_indexed). Qed.
Print Assumptions C85_nothing_indexed.
Theorem C85_first_code_unusable :
  forall (new_id : nat -> HammingDb.id) (extra : extras) (i : string) (ts : timeslice)
    (data : feature) (rest : list (timeslice * feature)) (code : list N),
  readable_ts ts ->
  Index.encode_query data = Ok code ->
  (Zlen code mod 8)%Z <> 0%Z \/ code = [] ->
  add new_id (open_index empty_db false extra 0)
    {| doc_id := i; doc_slices := (ts, data) :: rest |} =
  (Raise ValueError, open_index empty_db false extra 0).
Proof. exact (@first_code_unusable). Qed.
Print Assumptions C85_first_code_unusable.
Theorem C85_later_code_wrong_size :
  forall (new_id : nat -> HammingDb.id) (argp : list N -> nat -> list nat)
    (args : list N -> list nat) (cs : Z) (extra : extras) (acts : list act) 
    (i : string) (pre : list (timeslice * feature)) (ts : timeslice) (data : feature)
    (code : list N) (post : list (timeslice * feature)),
  fresh_ids new_id ->
  code_size cs ->
  extras_ok extra ->
  Forall (act_ok cs) acts ->
  let h := run new_id argp args (open_index empty_db false extra 0) acts in
  contents extra (acts ++ [Mine {| doc_id := i; doc_slices := pre |}]) <> [] ->
  Forall (slice_ok cs) pre ->
  readable_ts ts ->
  Index.encode_query data = Ok code ->
  Zlen code <> cs ->
  code <> [] ->
  let failed := add new_id h {| doc_id := i; doc_slices := pre ++ (ts, data) :: post |} in
  let stopped := add new_id h {| doc_id := i; doc_slices := pre |} in
  fst failed = Raise ValueError /\
  hi_disk (snd failed) = hi_disk (snd stopped) /\ fst stopped = Ok tt.
Proof. exact (@later_code_wrong_size). Qed.
Print Assumptions C85_later_code_wrong_size.
Theorem C85_wrong_query_size :
  forall (new_id : nat -> HammingDb.id) (argp : list N -> nat -> list nat)
    (args : list N -> list nat) (cs : Z) (extra : extras) (acts : list act) 
    (q : feature) (code : list N) (n : nat) (threads : option nat) (sort : bool),
  fresh_ids new_id ->
  code_size cs ->
  extras_ok extra ->
  Forall (act_ok cs) acts ->
  contents extra acts <> [] ->
  Index.encode_query q = Ok code ->
  Zlen code <> cs ->
  exists (r : search_results) (h1 : hindex),
    search_call (run new_id argp args (open_index empty_db false extra 0) acts) q n threads sort =
    (Ok r, h1) /\
    (exists (h2 : hindex) (r' : search_results),
       iterate argp args h1 r = ([], Some ValueError, h2, r')).
Proof. exact (@wrong_query_size). Qed.
Print Assumptions C85_wrong_query_size.
Theorem C85_bad_query :
  forall (new_id : nat -> HammingDb.id) (argp : list N -> nat -> list nat)
    (args : list N -> list nat) (cs : Z) (extra : extras) (acts : list act) 
    (n : nat) (threads : option nat) (sort : bool),
  fresh_ids new_id ->
  code_size cs ->
  extras_ok extra ->
  Forall (act_ok cs) acts ->
  fst
    (search_call (run new_id argp args (open_index empty_db false extra 0) acts) Index.FOther n
       threads sort) = Raise ValueError.
Proof. exact (@bad_query). Qed.
Print Assumptions C85_bad_query.
Theorem C85_writeonly :
  forall (argp : list N -> nat -> list nat) (args : list N -> list nat) 
    (d : db) (extra : extras) (draws : nat) (q : feature) (code : list N) 
    (n : nat) (threads : option nat) (sort : bool) (r : search_results) 
    (h1 : hindex),
  search_call (open_index d true extra draws) q n threads sort = (Ok r, h1) ->
  Index.encode_query q = Ok code ->
  exists (h2 : hindex) (r' : search_results),
    iterate argp args h1 r = ([], Some RuntimeError, h2, r').
Proof. exact (@writeonly_search). Qed.
Print Assumptions C85_writeonly.
Theorem C85_len_misses_others_refuted :
  forall (new_id : nat -> HammingDb.id) (argp : list N -> nat -> list nat)
    (args : list N -> list nat) (cs : Z) (extra : extras) (wo : bool) (ex : extras) 
    (d : doc),
  fresh_ids new_id ->
  code_size cs ->
  extras_ok ex ->
  doc_ok cs d ->
  let h := run new_id argp args (open_index empty_db false extra 0) [Theirs wo ex d] in
  Datatypes.length (db_entries (hi_disk h)) = Datatypes.length (doc_slices d) /\ index_len h = 0.
Proof. exact (@len_misses_others). Qed.
Print Assumptions C85_len_misses_others_refuted.
Theorem C85_random_search :
  forall (new_id : nat -> HammingDb.id) (argp : list N -> nat -> list nat)
    (args : list N -> list nat) (cs : Z) (extra : extras) (acts : list act) 
    (fuel n : nat) (threads : option nat) (sort : bool) (r : search_results) 
    (h1 : hindex),
  fresh_ids new_id ->
  argpartition_contract argp ->
  argsort_contract args ->
  code_size cs ->
  extras_ok extra ->
  Forall (act_ok cs) acts ->
  contents extra acts <> [] ->
  threads_ok threads ->
  random_search_call new_id fuel (run new_id argp args (open_index empty_db false extra 0) acts) n
    threads sort = Some (Ok r, h1) ->
  let all := contents extra acts in
  exists chosen : entry,
    In chosen all /\
    sr_query r = e_code chosen /\
    (let
     '(items, ended, _, _) := iterate argp args h1 r in
      (Datatypes.length all <= n -> items = [] /\ ended = Some ValueError) /\
      (n < Datatypes.length all ->
       exists hits rest : list entry,
         nearest (sr_query r) sort n all hits rest /\
         (items, ended) = yielded (map (seen_by extra) hits) /\
         (1 <= n ->
          exists e : entry,
            In e hits /\
            bit_distance (sr_query r) (e_code e) = 0 /\
            (sort = true -> bit_distance (sr_query r) (e_code (hd e hits)) = 0)))).
Proof. exact (@random_search_spec). Qed.
Print Assumptions C85_random_search.
Theorem C85_random_empty_refuted :
  forall (new_id : nat -> HammingDb.id) (fuel : nat) (p : proc) (d : db) (draws : nat),
  db_entries d = [] -> random_code new_id fuel p d draws = None.
Proof. exact (@random_empty). Qed.
Print Assumptions C85_random_empty_refuted.
Theorem C85_random_ends :
  forall (new_id : nat -> HammingDb.id) (p : proc) (d : db) (draws i : nat)
    (kv : HammingDb.id * bytes),
  draws <= i ->
  In kv (db_entries d) ->
  (new_id i <= fst kv)%N -> random_code new_id (S (i - draws)) p d draws <> None.
Proof. exact (@random_ends). Qed.
Print Assumptions C85_random_ends.
Theorem C85_page_query :
  forall (argp : list N -> nat -> list nat) (args : list N -> list nat)
    (render : timeslice -> string -> json) (h : hindex) (code : list N) 
    (n : nat),
  Forall (fun b : N => (b < 256)%N) code ->
  search_page argp args render h (b64encode (map Z.of_N code)) n =
  (let (r0, h0) := search_call h (Index.FBytes code) n None false in
   match r0 with
   | Ok r =>
       let
       '(results, ended, h1, _) := iterate argp args h0 r in
        (serialize_results render code results ended, h1)
   | Raise e => (Raise e, h0)
   end).
Proof. exact (@page_query). Qed.
Print Assumptions C85_page_query.
Theorem C85_page_never_served_refuted :
  forall (argp : list N -> nat -> list nat) (args : list N -> list nat)
    (render : timeslice -> string -> json) (h : hindex) (query : string) 
    (n : nat), exists e : exn, fst (search_page argp args render h query n) = Raise e.
Proof. exact (@page_never_served). Qed.
Print Assumptions C85_page_never_served_refuted.
Theorem C85_page_plain_refuted :
  forall (render : timeslice -> string -> json) (query : bytes)
    (results : list (string * timeslice)),
  serialize_results render query (map (fun p : string * timeslice => (fst p, snd p, None)) results)
    None = Raise TypeError.
Proof. exact (@page_plain_results). Qed.
Print Assumptions C85_page_plain_refuted.
Theorem C85_page_extra_refuted :
  forall (render : timeslice -> string -> json) (query : bytes) (i : string) 
    (ts : timeslice) (x : json) (rest : list (string * timeslice * option json))
    (ended : option exn),
  serialize_results render query ((i, ts, Some x) :: rest) ended = Raise ValueError.
Proof. exact (@page_extra_results). Qed.
Print Assumptions C85_page_extra_refuted.
Theorem C85_example_ready :
  fresh_ids ex_ids /\ code_size 8 /\ extras_ok ex_extra /\ Forall (doc_ok 8) ex_docs.
Proof. exact (@ex_ready). Qed.
Print Assumptions C85_example_ready.
Theorem C85_example_search :
  let h := snd (add_all ex_ids (open_index empty_db false ex_extra 0) ex_docs) in
  index_len h = 5 /\
  (let (r0, h1) := search_call h (ex_row 255) 3 None true in
   match r0 with
   | Ok r => fst (fst (iterate (fun (a : list N) (_ : nat) => ref_argsort a) ref_argsort h1 r))
   | Raise _ => ([], None)
   end) =
  ([("a/1"%string, mk_timeslice (Some (ex_ms 1000)) (Some (ex_ms 500)),
     Some (JObj [("title"%string, JStr "a/1")]));
    ("a/1"%string, mk_timeslice (Some (ex_ms 1000)) (Some (ex_ms 1000)),
     Some (JObj [("title"%string, JStr "a/1")]));
    ("b"%string, mk_timeslice (Some (ex_ms 250)) (Some (ex_ms 0)),
     Some (JObj [("title"%string, JStr "b")]))], None).
Proof. exact (@ex_search). Qed.
Print Assumptions C85_example_search.

