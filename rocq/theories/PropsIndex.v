(** Property theorems C10-C12. Proofs are in IndexProofs.v. *)
From Verif Require Import PyBase Index IndexProofs.
From Verif Require HammingDb.
From Coq Require Import NArith Sorting.Permutation Sorting.Sorted.

(** C10, the part that holds: if lmdb accepts the key and every crash is outside
    the middle of a document, a restart ends with every slice indexed. *)
Theorem C10_restart_complete_partial :
  forall (n_slices : N -> nat) (final : list log_event) (runs : list (list log_event * nat)),
  log_ordered final -> safe_lives n_slices empty_disk runs final ->
  let '(r, d) := listen n_slices true (lives n_slices true empty_disk runs) final None in
  r = Ok tt /\ incl (expected n_slices final) (k_entries d).
Proof. exact index_complete. Qed.
Print Assumptions C10_restart_complete_partial.

(** Crashes between documents: each slice of each document exactly once, in order. *)
Theorem C10_restart_exact_partial :
  forall (n_slices : N -> nat) (final : list log_event) (runs : list (list log_event * nat)),
  log_ordered final -> clean_lives n_slices empty_disk runs final ->
  let '(r, d) := listen n_slices true (lives n_slices true empty_disk runs) final None in
  r = Ok tt /\ k_entries d = expected n_slices final.
Proof. exact index_exact. Qed.
Print Assumptions C10_restart_exact_partial.

(** Whatever the crashes, nothing but slices of the feature's documents is indexed. *)
Theorem C10_nothing_else :
  forall (n_slices : N -> nat) (str_ok : bool) (final : list log_event) (runs : list (list log_event * nat))
         (crash : option nat), growing runs final ->
  incl (k_entries (snd (listen n_slices str_ok (lives n_slices str_ok empty_disk runs) final crash)))
       (expected n_slices final).
Proof. exact index_nothing_else. Qed.
Print Assumptions C10_nothing_else.

(** Documents of a single slice make every crash point safe. *)
Theorem C10_single_slice_documents_safe :
  forall (n_slices : N -> nat) (evs : list log_event) (k : nat),
  (forall doc, n_slices doc <= 1) -> safe_crash n_slices evs k.
Proof. exact one_slice_safe. Qed.
Print Assumptions C10_single_slice_documents_safe.

(** An uninterrupted first run indexes every slice exactly once, in order. *)
Theorem C10_first_run_exact :
  forall (n_slices : N -> nat) (str_ok : bool) (log : list log_event),
  let '(r, d) := listen n_slices str_ok empty_disk log None in
  r = Ok tt /\ k_entries d = expected n_slices log.
Proof. exact index_first_run. Qed.
Print Assumptions C10_first_run_exact.

(** C10 is false: a crash in the middle of a document loses its other slices. *)
Theorem C10_crash_mid_document_refuted :
  exists (n_slices : N -> nat) (log : list log_event) (k : nat),
    log_ordered log /\
    let d := snd (listen n_slices true empty_disk log (Some k)) in
    let '(r, d') := listen n_slices true d log None in
    r = Ok tt /\ In (10%N, 2) (expected n_slices log) /\ ~ In (10%N, 2) (k_entries d').
Proof. exact index_crash_refuted. Qed.
Print Assumptions C10_crash_mid_document_refuted.

(** C10 is false under Python 3: restarting on an initialised index raises and
    indexes nothing. *)
Theorem C10_restart_python3_refuted :
  forall (n_slices : N -> nat) (d : disk) (log : list log_event) (crash : option nat),
  k_init d = true -> listen n_slices false d log crash = (Raise TypeError, d).
Proof. exact index_restart_py3. Qed.
Print Assumptions C10_restart_python3_refuted.

(** C11 *)
Theorem C11_query_roundtrip :
  forall v : list N,
  exists code, encode_query (FUint8 v) = Ok code /\
  length code = (length v + 7) / 8 /\
  decode_query code = map (fun x => negb (x =? 0)%N) v
     ++ repeat false (if length v mod 8 =? 0 then 0 else 8 - length v mod 8).
Proof. exact query_roundtrip. Qed.
Print Assumptions C11_query_roundtrip.

Theorem C11_uint64_codes_distinct :
  forall v w : list N,
  Forall (fun x => x < 2 ^ 64)%N v -> Forall (fun x => x < 2 ^ 64)%N w ->
  encode_query (FUint64 v) = encode_query (FUint64 w) -> v = w.
Proof. exact encode_uint64_injective. Qed.
Print Assumptions C11_uint64_codes_distinct.

(** The code of a uint64 feature is the one the database reads back as those words. *)
Theorem C11_uint64_codes :
  forall v : list N, Forall (fun x => x < 2 ^ 64)%N v ->
  exists code, encode_query (FUint64 v) = Ok code /\ length code = 8 * length v /\
    Forall (fun b => b < 256)%N code /\ HammingDb.words (length v) code = v.
Proof. exact encode_uint64_words. Qed.
Print Assumptions C11_uint64_codes.

Theorem C11_bytes_and_others :
  forall b : list N, encode_query (FBytes b) = Ok b /\ encode_query FOther = Raise ValueError.
Proof. exact encode_other. Qed.
Print Assumptions C11_bytes_and_others.

(** C12 *)
Theorem C12_brute_force_nearest :
  forall (Row Id D : Type) (dist : Row -> Row -> D) (argsort : list D -> list nat)
         (le : D -> D -> Prop) (gen : list (@doc Row Id)) ids index (q : Row) (n : nat),
  argsort_sorts argsort le ->
  brute_init gen = Ok (ids, index) ->
  exists hits rest,
    Permutation (labelled gen) (hits ++ rest) /\
    length hits = Nat.min n (length (labelled gen)) /\
    brute_search dist argsort ids index q n = Ok (map fst hits) /\
    StronglySorted le (map (fun h => dist q (snd h)) hits) /\
    (forall h o, In h hits -> In o rest -> le (dist q (snd h)) (dist q (snd o))).
Proof. exact (fun Row Id D => brute_main). Qed.
Print Assumptions C12_brute_force_nearest.
