(** Model of HammingIndex as a whole (zounds/index/index.py): building the index
    from documents, searching it, reading the results, and the search page
    (zounds/ui/search.py).  The event listener is in Index.v. *)
From Verif Require Import PyBase PyFacts PyMore Bits HammingDb Time Freq FreqDim Axis Persist Json.
From Verif Require Index.
From Coq Require Import NArith String.
Import ListNotations.

Notation feature := Index.feature.

(** A document as [add] sees it: its id and what [iter_slices] of the stored
    feature yields. *)
Record doc := { doc_id : string; doc_slices : list (timeslice * feature) }.

(** constantrate.py:21-24 iter_slices of a ConstantRateTimeSeries whose first
    dimension has this frequency and duration *)
Definition constant_rate_slices (freq dur : td) (rows : list feature) : list (timeslice * feature) :=
  map (fun ir => (mk_timeslice (Some dur) (Some {| td_count := td_count freq * Z.of_nat (fst ir); td_unit := td_unit freq |}),
                  snd ir))
      (combine (seq 0 (List.length rows)) rows).

(** keyword arguments of __init__ beyond the named ones (index.py:31): functions of
    the document and the slice *)
Definition extras := list (string * (string -> timeslice -> json)).

(** index.py:22-64 HammingIndex: the database on disk (shared with other
    processes), the open HammingDb ([None] until there is one) and the
    constructor's arguments.  [hi_draws] counts the random ids drawn so far. *)
Record hindex := {
  hi_disk : db;
  hi_proc : option proc;
  hi_writeonly : bool;
  hi_extra : extras;
  hi_draws : nat
}.
Definition with_db (h : hindex) (p : option proc) (d : db) (n : nat) : hindex :=
  {| hi_disk := d; hi_proc := p; hi_writeonly := hi_writeonly h; hi_extra := hi_extra h; hi_draws := n |}.

(** index.py:49-53 (end of __init__): no database yet is not an error *)
Definition open_index (d : db) (writeonly : bool) (extra : extras) (draws : nat) : hindex :=
  let h := {| hi_disk := d; hi_proc := None; hi_writeonly := writeonly; hi_extra := extra; hi_draws := draws |} in
  match open_db d None writeonly with
  | Ok (p, d) => with_db h (Some p) d draws
  | Raise _ => h
  end.

(** index.py:86-89 __len__ *)
Definition index_len (h : hindex) : nat :=
  match hi_proc h with None => 0 | Some _ => List.length (db_entries (hi_disk h)) end.

(** index.py:99-104 _init_hamming_db: an empty code counts as none *)
Definition init_hamming_db (h : hindex) (code : option bytes) : result (proc * db) :=
  match hi_proc h with
  | Some p => Ok (p, hi_disk h)
  | None =>
      let code_size := match code with Some (b :: c) => Some (Zlen (b :: c)) | _ => None end in
      open_db (hi_disk h) code_size (hi_writeonly h)
  end.

(** index.py:113-119 _collect_extra_data *)
Definition collect_extra_data (extra : extras) (_id : string) (ts : timeslice) : option json :=
  match extra with
  | [] => None
  | _ => Some (JObj (map (fun kf => (fst kf, snd kf _id ts)) extra))
  end.

(** index.py:133-138: the value stored beside the code *)
Definition encoded_ts (extra : extras) (_id : string) (ts : timeslice) : result json :=
  do j <- encode_timeslice ts;
  match j with
  | JObj fields =>
      Ok (JObj (("_id"%string, JStr _id) :: fields ++
                match collect_extra_data extra _id ts with
                | Some x => [("extra_data"%string, x)] | None => [] end))
  | _ => Raise TypeError
  end.

Section Index.
  (** hammingdb.py:138-139 _new_id: the n-th random id drawn *)
  Variable new_id : nat -> HammingDb.id.

  (** index.py:131-141: one slice.  The timestamp written by line 141 is in
      Index.v; transactions commit. *)
  Definition add_slice (h : hindex) (_id : string) (ts : timeslice) (data : feature) : result unit * hindex :=
    match Index.encode_query data with
    | Raise e => (Raise e, h)
    | Ok code =>
        match encoded_ts (hi_extra h) _id ts with
        | Raise e => (Raise e, h)
        | Ok j =>
            match init_hamming_db h (Some code) with
            | Raise e => (Raise e, h)
            | Ok (p, d) =>
                let '(r, p', d') := HammingDb.append p d (new_id (hi_draws h)) code (dumps j) Commit in
                (r, with_db h (Some p') d' (S (hi_draws h)))
            end
        end
    end.
  (** index.py:121-141 add *)
  Fixpoint add_slices (h : hindex) (_id : string) (l : list (timeslice * feature)) : result unit * hindex :=
    match l with
    | [] => (Ok tt, h)
    | (ts, data) :: l =>
        match add_slice h _id ts data with
        | (Ok _, h) => add_slices h _id l
        | (Raise e, h) => (Raise e, h)
        end
    end.
  Definition add (h : hindex) (d : doc) : result unit * hindex := add_slices h (doc_id d) (doc_slices d).
  (** index.py:109-111 add_all *)
  Fixpoint add_all (h : hindex) (docs : list doc) : result unit * hindex :=
    match docs with
    | [] => (Ok tt, h)
    | d :: docs =>
        match add h d with
        | (Ok _, h) => add_all h docs
        | (Raise e, h) => (Raise e, h)
        end
    end.

  Definition hit : Type := string * timeslice * option json.

  (** index.py:170-177 _parse_result *)
  Definition parse_result (extra : extras) (value : bytes) : result hit :=
    do d <- loads value;
    do ts <- decode_timeslice d;
    do i <- jget d "_id";
    match i with
    | JStr i =>
        match extra with
        | [] => Ok (i, ts, None)
        | _ => do x <- jget d "extra_data"; Ok (i, ts, Some x)
        end
    | _ => Raise TypeError       (* ids are strings *)
    end.

  (** index.py:11-19 SearchResults: the query and a generator, not yet started.
      A generator can be run once. *)
  Inductive generator :=
  | Pending (code : bytes) (n_results : nat) (threads : option nat) (sort : bool)
  | Exhausted.
  Record search_results := { sr_query : bytes; sr_results : generator }.

  (** index.py:202-208 search: the call itself.  hammingdb.py:172 [search] is a
      generator function: none of its body runs here. *)
  Definition search_call (h : hindex) (q : feature) (n_results : nat) (threads : option nat) (sort : bool)
    : result search_results * hindex :=
    match init_hamming_db h None with
    | Raise e => (Raise e, h)
    | Ok (p, d) =>
        let h := with_db h (Some p) d (hi_draws h) in
        match Index.encode_query q with
        | Raise e => (Raise e, h)
        | Ok code => (Ok {| sr_query := code; sr_results := Pending code n_results threads sort |}, h)
        end
    end.

  (** hammingdb.py:158-166 _random_code: draw ids until some key is not below the
      draw (cursor.set_range); [None]: still drawing after [fuel] draws *)
  Fixpoint random_code (fuel : nat) (p : proc) (d : db) (draws : nat) : option (bytes * nat) :=
    match fuel with
    | O => None
    | S f =>
        match find (fun kv => (new_id draws <=? fst kv)%N) (db_entries d) with
        | Some kv => Some (firstn (Z.to_nat (p_code_size p)) (snd kv), S draws)
        | None => random_code f p d (S draws)
        end
    end.
  (** index.py:195-200 random_search (hammingdb.py:168-170) *)
  Definition random_search_call (fuel : nat) (h : hindex) (n_results : nat) (threads : option nat) (sort : bool)
    : option (result search_results * hindex) :=
    match init_hamming_db h None with
    | Raise e => Some (Raise e, h)
    | Ok (p, d) =>
        match random_code fuel p d (hi_draws h) with
        | None => None
        | Some (code, draws) =>
            Some (Ok {| sr_query := code; sr_results := Pending code n_results threads sort |},
                  with_db h (Some p) d draws)
        end
    end.

  (** A generator of results that may raise: the items yielded before, and the
      exception. *)
  Fixpoint yielded {A} (l : list (result A)) : list A * option exn :=
    match l with
    | [] => ([], None)
    | Ok a :: l => let '(r, e) := yielded l in (a :: r, e)
    | Raise e :: _ => ([], Some e)
    end.

  Variable argpartition : list N -> nat -> list nat.
  Variable argsort : list N -> list nat.

  (** [for result in results] (index.py:17-19), run to its end: what it yields, the
      exception it ends with, and the index and the SearchResults afterwards. *)
  Definition iterate (h : hindex) (r : search_results) : list hit * option exn * hindex * search_results :=
    let r' := {| sr_query := sr_query r; sr_results := Exhausted |} in
    match sr_results r, hi_proc h with
    | Pending code n threads sort, Some p =>
        let '(found, p') := search argpartition argsort p (hi_disk h) code n threads sort in
        let h' := with_db h (Some p') (hi_disk h) (hi_draws h) in
        match found with
        | Raise e => ([], Some e, h', r')
        | Ok values => (yielded (map (parse_result (hi_extra h)) values), h', r')
        end
    | _, _ => ([], None, h, r')
    end.

  (** ** The search page *)
  (** Python values handed to the standard library's json.dumps, which does not
      know bytes. *)
  Inductive pyval := VBytes (b : bytes) | VJson (j : json) | VDict (o : list (string * pyval)).
  Fixpoint json_dumps (v : pyval) : result json :=
    match v with
    | VBytes _ => Raise TypeError
    | VJson j => Ok j
    | VDict o =>
        do o <- (fix go (o : list (string * pyval)) :=
           match o with
           | [] => Ok []
           | (k, v) :: r => do j <- json_dumps v; do r <- go r; Ok ((k, j) :: r)
           end) o;
        Ok (JObj o)
    end.
  Definition b64_bytes (b : list N) : bytes :=
    map Ascii.N_of_ascii (list_ascii_of_string (b64encode (map Z.of_N b))).
  (** [for _id, ts in context.value] (serializer.py:292-294): triples do not unpack *)
  Definition unpack_pair (x : hit) : result (string * timeslice) :=
    match x with (i, ts, None) => Ok (i, ts) | (_, _, Some _) => Raise ValueError end.
  (** serializer.py:263-267, 289-294 SearchResultsSerializer.serialize: [render] is
      _result (serializer.py:246-253) *)
  Definition serialize_results (render : timeslice -> string -> json) (query : bytes)
             (results : list hit) (ended : option exn) : result json :=
    do pairs <- mapM unpack_pair results;
    match ended with
    | Some e => Raise e
    | None =>
        let output := [("results"%string, VJson (JArr (map (fun p => render (snd p) (fst p)) pairs)))] in
        let output := output ++ [("query"%string, VBytes (b64_bytes query))] in
        json_dumps (VDict output)
    end.
  (** search.py:33-46 SearchHandler.get with a query: the text of the argument is
      base64 of the packed code *)
  Definition search_page (render : timeslice -> string -> json) (h : hindex) (query : string) (n_results : nat)
    : result json * hindex :=
    match b64decode query with
    | Raise e => (Raise e, h)
    | Ok bs =>
        let bits := Index.decode_query (map Z.to_N bs) in
        match search_call h (Index.FUint8 (map (fun b : bool => if b then 1%N else 0%N) bits)) n_results None false with
        | (Raise e, h) => (Raise e, h)
        | (Ok r, h) =>
            let '(results, ended, h, _) := iterate h r in
            (serialize_results render (sr_query r) results ended, h)
        end
    end.
End Index.
