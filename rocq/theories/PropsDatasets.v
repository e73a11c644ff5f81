(** Property theorems: datasets (C50, C51, C52). *)
From Verif Require Import PyBase PyFacts PyMore Datasets DatasetsProofs.
Local Open Scope Z_scope.

(** C50: [ingest ok skip parallel dataset store store' log]: a run of ingest() that takes the
    store of documents from [store] to [store']; [parallel] is the number of worker threads or
    processes, None for the default; every interleaving of the workers is such a run. *)
Theorem C50_every_item_once_partial :
  forall (ok : meta -> bool) (skip : bool) (cores : nat) (dataset : list meta)
    (store store' : list Z) (log : list event),
  ingest ok skip (Some cores) dataset store store' log ->
  Permutation.Permutation dataset (map event_item log) /\
  (forall u : Z,
   In u store' <->
   In u store \/ (exists m : meta, In (Processed m) log /\ m_url m = Some u /\ ok m = true)) /\
  (forall m : meta,
   In (Skipped m) log -> skip = true /\ (exists u : Z, m_url m = Some u /\ In u store')) /\
  (forall m : meta, In (Errored m) log -> m_url m = None) /\
  (forall m : meta, In (Processed m) log -> m_url m <> None).
Proof. exact (@ingest_parallel). Qed.
Print Assumptions C50_every_item_once_partial.
Theorem C50_all_stored_partial :
  forall (ok : meta -> bool) (skip : bool) (cores : nat) (dataset : list meta)
    (store store' : list Z) (log : list event) (m : meta) (u : Z),
  ingest ok skip (Some cores) dataset store store' log ->
  In m dataset -> m_url m = Some u -> ok m = true -> In u store'.
Proof. exact (@ingest_complete). Qed.
Print Assumptions C50_all_stored_partial.
Theorem C50_no_skip_partial :
  forall (ok : meta -> bool) (cores : nat) (dataset : list meta) (store store' : list Z)
    (log : list event) (m : meta),
  ingest ok false (Some cores) dataset store store' log ->
  In m dataset -> m_url m <> None -> In (Processed m) log.
Proof. exact (@ingest_all). Qed.
Print Assumptions C50_no_skip_partial.
Theorem C50_skips_exactly_existing_partial :
  forall (ok : meta -> bool) (cores : nat) (dataset : list meta) (store store' : list Z)
    (log : list event),
  NoDup (flat_map url_of dataset) ->
  ingest ok true (Some cores) dataset store store' log ->
  (forall (m : meta) (u : Z),
   In m dataset ->
   m_url m = Some u ->
   (In (Processed m) log <-> ~ In u store) /\ (In (Skipped m) log <-> In u store)) /\
  NoDup (flat_map url_of (map event_item log)).
Proof. exact (@ingest_new). Qed.
Print Assumptions C50_skips_exactly_existing_partial.
Theorem C50_can_finish :
  forall (ok : meta -> bool) (skip : bool) (cores : nat) (dataset : list meta) (store : list Z),
  (0 < cores)%nat ->
  exists (store' : list Z) (log : list event), ingest ok skip (Some cores) dataset store store' log.
Proof. exact (@ingest_parallel_total). Qed.
Print Assumptions C50_can_finish.
Theorem C50_default_does_nothing_refuted :
  forall (ok : meta -> bool) (skip : bool) (dataset : list meta) (store store' : list Z)
    (log : list event), ingest ok skip None dataset store store' log -> store' = store /\ log = [].
Proof. exact (@ingest_default_refuted). Qed.
Print Assumptions C50_default_does_nothing_refuted.
Theorem C50_duplicates_race_refuted :
  exists (m1 m2 : meta) (store' : list Z) (log : list event),
    m_url m1 = m_url m2 /\
    m1 <> m2 /\
    ingest (fun _ : meta => true) true (Some 2%nat) [m1; m2] [] store' log /\
    In (Processed m1) log /\ In (Processed m2) log.
Proof. exact (@ingest_duplicate_refuted). Qed.
Print Assumptions C50_duplicates_race_refuted.

(** C51 *)
Theorem C51_composite :
  forall (A : Type) (datasets : list (list A)), composite datasets = concat datasets.
Proof. exact (@composite_concat). Qed.
Print Assumptions C51_composite.
Theorem C51_composite_members :
  forall (A : Type) (datasets : list (list A)) (x : A),
  In x (composite datasets) <-> (exists d : list A, In d datasets /\ In x d).
Proof. exact (@composite_In). Qed.
Print Assumptions C51_composite_members.
Theorem C51_directory :
  forall (A : Type) (entries : list (A * bool)) (x : A),
  In x (directory entries) <-> In (x, false) entries.
Proof. exact (@directory_In). Qed.
Print Assumptions C51_directory.
Theorem C51_freesound_results_partial :
  forall (A : Type) (pages : list (list A)) (n : Z) (d : A),
  concat pages <> [] ->
  -1 <= n ->
  exists fuel0 : nat,
    forall fuel : nat,
    (fuel0 <= fuel)%nat ->
    freesound pages n fuel =
    map (fun i : nat => nth (i mod length (concat pages)) (concat pages) d)
      (seq 0 (Z.to_nat (n + 1))).
Proof. exact (@freesound_results). Qed.
Print Assumptions C51_freesound_results_partial.
Theorem C51_freesound_count_refuted :
  forall (A : Type) (pages : list (list A)) (n : Z),
  concat pages <> [] ->
  0 <= n ->
  exists fuel0 : nat,
    forall fuel : nat, (fuel0 <= fuel)%nat -> Zlen (freesound pages n fuel) = n + 1.
Proof. exact (@freesound_count). Qed.
Print Assumptions C51_freesound_count_refuted.
Theorem C51_freesound_repeats_refuted :
  exists (pages : list (list Z)) (fuel : nat),
    NoDup (concat pages) /\ freesound pages 5 fuel = [10; 20; 10; 20; 10; 20].
Proof. exact (@freesound_duplicates_refuted). Qed.
Print Assumptions C51_freesound_repeats_refuted.
Theorem C51_freesound_empty_refuted :
  forall (A : Type) (k : nat) (n : Z) (fuel : nat), freesound (repeat (@nil A) k) n fuel = [].
Proof. exact (@freesound_no_results). Qed.
Print Assumptions C51_freesound_empty_refuted.
Theorem C51_archive_partial :
  forall files : list ia_file,
  ia_sound files ->
  map fst (fst (internet_archive files)) = map f_key (filter f_pass files) /\
  snd (internet_archive files) = None.
Proof. exact (@internet_archive_all). Qed.
Print Assumptions C51_archive_partial.
Theorem C51_archive_metadata :
  forall (files : list ia_file) (k m : Z),
  In (k, m) (fst (internet_archive files)) ->
  exists f g : ia_file,
    In f files /\
    f_pass f = true /\
    f_key f = k /\
    In g files /\ f_key g = m /\ (f_source f = Original /\ g = f \/ f_source f = Derivative m).
Proof. exact (@internet_archive_metadata). Qed.
Print Assumptions C51_archive_metadata.
Theorem C51_archive_missing_original_refuted :
  exists (files : list ia_file) (f : ia_file),
    In f files /\
    f_pass f = true /\
    f_source f = Original /\ ~ In (f_key f) (map fst (fst (internet_archive files))).
Proof. exact (@internet_archive_refuted). Qed.
Print Assumptions C51_archive_missing_original_refuted.

(** C52: [ensure_local_file f name call]: one call, which may be killed at any point;
    [calls f name cs]: a history of them *)
Theorem C52_uninterrupted_complete_partial :
  forall (f : Z -> option (list Z)) (name : Z) (r : response) (f' : fs),
  f name = None ->
  ensure_local_file f name (Call r) = (f', Returned) -> f' name = Some (concat (r_chunks r)).
Proof. exact (@fresh_complete). Qed.
Print Assumptions C52_uninterrupted_complete_partial.
Theorem C52_succeeds_partial :
  forall (f : Z -> option (list Z)) (name : Z) (r : response) (n : Z),
  f name = None ->
  r_connects r = true ->
  r_length r = Some n ->
  n <> 0 -> r_broken r = false -> snd (ensure_local_file f name (Call r)) = Returned.
Proof. exact (@fresh_succeeds). Qed.
Print Assumptions C52_succeeds_partial.
Theorem C52_prefix :
  forall (f : Z -> option (list Z)) (name : Z) (call : call_),
  f name = None ->
  let f' := fst (ensure_local_file f name call) in
  (f' name = None \/
   (exists c : list Z, f' name = Some c /\ prefix_of c (concat (r_chunks (response_of call))))) /\
  (forall n : Z, n <> name -> f' n = f n).
Proof. exact (@fresh_prefix). Qed.
Print Assumptions C52_prefix.
Theorem C52_never_refetched :
  forall (f : Z -> option (list Z)) (name : Z) (c : list Z) (call : call_),
  f name = Some c -> fst (ensure_local_file f name call) name = Some c.
Proof. exact (@cached_stays). Qed.
Print Assumptions C52_never_refetched.
Theorem C52_cached_returned :
  forall (f : Z -> option (list Z)) (name : Z) (c : list Z) (r : response),
  f name = Some c -> ensure_local_file f name (Call r) = (f, Returned).
Proof. exact (@cached_returned). Qed.
Print Assumptions C52_cached_returned.
Theorem C52_first_call_decides :
  forall (f : fs) (name : Z) (c : call_) (cs : list call_) (r : response),
  fst (ensure_local_file f name c) name <> None ->
  let f1 := fst (ensure_local_file f name c) in
  snd (ensure_local_file (fst (calls f1 name cs)) name (Call r)) = Returned /\
  fst (ensure_local_file (fst (calls f1 name cs)) name (Call r)) name = f1 name.
Proof. exact (@first_call_decides). Qed.
Print Assumptions C52_first_call_decides.
Theorem C52_crash_refuted :
  forall (name : Z) (body : list Z) (cs : list call_) (r' : response),
  body <> [] ->
  let r :=
    {| r_connects := true; r_length := Some (Zlen body); r_chunks := [body]; r_broken := false |}
    in
  let f1 := fst (ensure_local_file (fun _ : Z => None) name (KilledCall r 2 0)) in
  let f2 := fst (calls f1 name cs) in
  ensure_local_file f2 name (Call r') = (f2, Returned) /\
  f2 name = Some [] /\ concat (r_chunks r) = body.
Proof. exact (@crash_refuted). Qed.
Print Assumptions C52_crash_refuted.
Theorem C52_refused_refuted :
  forall (f : Z -> option (list Z)) (name : Z) (r r' : response),
  f name = None ->
  r_connects r = false \/ r_length r = None ->
  let
  '(f1, o) := ensure_local_file f name (Call r) in
   o = Raised /\ ensure_local_file f1 name (Call r') = (f1, Returned) /\ f1 name = Some [].
Proof. exact (@refused_refuted). Qed.
Print Assumptions C52_refused_refuted.
Theorem C52_same_name_refuted :
  exists (p1 p2 : list Z) (r1 r2 : response),
    p1 <> p2 /\
    file_name p1 0 = file_name p2 0 /\
    concat (r_chunks r1) <> concat (r_chunks r2) /\
    (let f1 := fst (ensure_local_file (fun _ : Z => None) (file_name p1 0) (Call r1)) in
     snd (ensure_local_file f1 (file_name p2 0) (Call r2)) = Returned /\
     fst (ensure_local_file f1 (file_name p2 0) (Call r2)) (file_name p2 0) =
     Some (concat (r_chunks r1))).
Proof. exact (@same_name_refuted). Qed.
Print Assumptions C52_same_name_refuted.
Theorem C52_dataset_cache_refuted :
  forall (A : Type) (u : A) (urls : list A), dataset_cache (u :: urls) = ([], Some TypeError).
Proof. exact (@dataset_cache_refuted). Qed.
Print Assumptions C52_dataset_cache_refuted.

