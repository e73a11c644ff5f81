(** Property theorems C04-C09.  Proofs are in NdWindowProofs.v,
    GrowableProofs.v, BitsProofs.v and HammingDbProofs.v. *)
From Verif Require Import PyBase NdWindow NdWindowProofs Growable GrowableProofs
  Bits BitsProofs HammingDb HammingDbProofs.
From Coq Require Import Sorting.Permutation Sorting.Sorted.

(** C04: the strided view has exactly the windows that can be placed, its entry
    [i ++ j] is the entry [i*ss + j] of the array, which lies inside it. *)
Theorem C04_sliding_window_view :
  forall (A : Type) (mem : Z -> A) (a : nd) (ws ss : list Z),
  length (nd_strides a) = length (nd_shape a) ->
  fits (nd_shape a) ws ss ->
  exists v counts,
    sliding_window_view a (STuple ws) (Some (STuple ss)) = Ok v
    /\ nd_shape v = counts ++ ws
    /\ (forall i, in_shape i counts <-> placed i (nd_shape a) ws ss)
    /\ (forall i j, in_shape i counts -> in_shape j ws ->
         in_shape (position i ss j) (nd_shape a)
         /\ nd_get mem v (i ++ j) = nd_get mem a (position i ss j)).
Proof. exact (fun A => sliding_window_view_main). Qed.
Print Assumptions C04_sliding_window_view.

Theorem C04_entries :
  forall (A : Type) (mem : Z -> A) (off n : Z) (sh : list Z) (s : Z) (st : list Z) (i : Z) (r : list Z),
  nd_get mem {| nd_off := off; nd_shape := []; nd_strides := [] |} [] = mem off /\
  nd_get mem {| nd_off := off; nd_shape := n :: sh; nd_strides := s :: st |} (i :: r)
  = nd_get mem {| nd_off := off + i * s; nd_shape := sh; nd_strides := st |} r.
Proof. exact (@nd_entries). Qed.
Print Assumptions C04_entries.

(** C04: flatten=True keeps every window, in row-major order of its place. *)
Theorem C04_sliding_window_flatten :
  forall (A : Type) (mem : Z -> A) (a : nd) (ws ss : list Z),
  length (nd_strides a) = length (nd_shape a) ->
  fits (nd_shape a) ws ss ->
  exists starts inside,
    sliding_window_flat mem a (STuple ws) (Some (STuple ss))
    = Ok (map (fun i => map (fun j => nd_get mem a (position i ss j)) inside) starts)
    /\ StronglySorted lex_lt starts /\ (forall i, In i starts <-> placed i (nd_shape a) ws ss)
    /\ StronglySorted lex_lt inside /\ (forall j, In j inside <-> in_shape j ws).
Proof. exact (fun A => sliding_window_flat_order). Qed.
Print Assumptions C04_sliding_window_flatten.

(** C04: an int is a one-dimensional size; the default step is the window size. *)
Theorem C04_sliding_window_arguments :
  forall (A : Type) (mem : Z -> A) (a : nd) (ws ss : size_arg) (n m : Z),
  sliding_window_view a ws None = sliding_window_view a ws (Some ws) /\
  sliding_window_flat mem a ws None = sliding_window_flat mem a ws (Some ws) /\
  sliding_window_view a (SInt n) (Some ss) = sliding_window_view a (STuple [n]) (Some ss) /\
  sliding_window_view a ws (Some (SInt m)) = sliding_window_view a ws (Some (STuple [m])) /\
  sliding_window_flat mem a (SInt n) (Some ss) = sliding_window_flat mem a (STuple [n]) (Some ss) /\
  sliding_window_flat mem a ws (Some (SInt m)) = sliding_window_flat mem a ws (Some (STuple [m])).
Proof. exact (fun A => sliding_window_arguments). Qed.
Print Assumptions C04_sliding_window_arguments.

Theorem C04_sliding_window_rank_mismatch :
  forall (a : nd) (ws ss : list Z),
  length (nd_shape a) <> length ws \/ length (nd_shape a) <> length ss ->
  sliding_window_view a (STuple ws) (Some (STuple ss)) = Raise ValueError.
Proof. exact sliding_window_rank. Qed.
Print Assumptions C04_sliding_window_rank_mismatch.

Theorem C04_sliding_window_too_large :
  forall (a : nd) (ws ss : list Z) (k : nat) (n w : Z),
  nth_error (nd_shape a) k = Some n -> nth_error ws k = Some w -> (n < w)%Z ->
  sliding_window_view a (STuple ws) (Some (STuple ss)) = Raise ValueError.
Proof. exact sliding_window_too_large. Qed.
Print Assumptions C04_sliding_window_too_large.

(** C05: any sequence of append and extend refines list concatenation. *)
Theorem C05_growable_is_a_list :
  forall (A : Type) (g : growable A) (ops : list (op A)),
  logical_size g <= physical_size g ->
  exists g', run g ops = Ok g'
    /\ logical_size g' <= physical_size g'
    /\ logical_size g' = logical_size g + length (concat (map added ops))
    /\ logical_data g' = logical_data g ++ map Some (concat (map added ops))
    /\ physical_size g <= physical_size g'.
Proof. exact (fun A => growable_main). Qed.
Print Assumptions C05_growable_is_a_list.

Theorem C05_growable_rejects_rate :
  forall (A : Type) (data : list A) (position : nat) (num den : Z),
  (num <= 0)%Z -> Growable.new data position num den = Raise ValueError.
Proof. exact (fun A => growable_rejects). Qed.
Print Assumptions C05_growable_rejects_rate.

(** C05: a new array holds the first [position] items of its data. *)
Theorem C05_growable_new :
  forall (A : Type) (data : list A) (position : nat) (num den : Z), (0 < num)%Z -> position <= length data ->
  exists g, Growable.new data position num den = Ok g /\ logical_size g = position /\
    physical_size g = length data /\ logical_data g = map Some (firstn position data).
Proof. exact (fun A => growable_new). Qed.
Print Assumptions C05_growable_new.

(** C05: no reallocation while there is room. *)
Theorem C05_growable_no_realloc :
  forall (A : Type) (g : growable A) (o : op A) (g' : growable A),
  logical_size g + length (added o) <= physical_size g -> step g o = Ok g' ->
  physical_size g' = physical_size g.
Proof. exact (fun A => growable_no_realloc). Qed.
Print Assumptions C05_growable_no_realloc.

(** C05: the constructor accepts a position beyond the data, for which append
    fails (outside the property's precondition; the constructor does not check it). *)
Theorem C05_growable_position_unchecked :
  exists (g : growable nat) x, Growable.new [] 5 1 1 = Ok g /\ Growable.append g x = Raise IndexError.
Proof. exact growable_position_beyond. Qed.
Print Assumptions C05_growable_position_unchecked.

(** C06: the packed distance is the number of differing bits ... *)
Theorem C06_packed_hamming_distance :
  forall (a : list N) (b : list (list N)),
  Forall is_u64 a -> (N.of_nat (length a) < 2 ^ 57)%N ->
  (forall row, In row b -> length row = length a /\ Forall is_u64 row) ->
  packed_hamming_distance a b = map (fun row => N.of_nat (code_distance a row)) b.
Proof. exact packed_main. Qed.
Print Assumptions C06_packed_hamming_distance.

(** ... for single words too, through the bit-twiddling population count ... *)
Theorem C06_hamming_distance :
  forall (a : N) (b : list N), is_u64 a -> Forall is_u64 b ->
  hamming_distance a b = map (fun x => N.of_nat (differing_bits a x)) b.
Proof. exact hamming_distance_main. Qed.
Print Assumptions C06_hamming_distance.

(** ... and as computed by the code it is a metric. *)
Theorem C06_packed_metric :
  forall a b c : list N,
  Forall is_u64 a -> Forall is_u64 b -> Forall is_u64 c ->
  length a = length b -> length b = length c -> (N.of_nat (length a) < 2 ^ 57)%N ->
  exists ab ba bc ac,
    packed_hamming_distance a [b; c] = [ab; ac] /\
    packed_hamming_distance b [a; c] = [ba; bc] /\
    (ab = 0%N <-> a = b) /\ ab = ba /\ (ac <= ab + bc)%N.
Proof. exact packed_metric. Qed.
Print Assumptions C06_packed_metric.

(** C07: from an empty database, through any history of appends (own and
    foreign, successful or failing at put), searches and reopenings, a search
    returns the payloads of n nearest stored entries, sorted if asked to; n too
    large is an error. *)
Theorem C07_search_nearest :
  forall (argpartition : list N -> nat -> list nat) (argsort : list N -> list nat)
         (cs : Z) (p0 : proc) (d0 : db) (es : list event) (p : proc) (d : db)
         (code : bytes) (n : nat) (threads : option nat) (sort : bool),
  argpartition_contract argpartition -> argsort_contract argsort ->
  (0 <= cs < 2 ^ 60)%Z ->
  open_db {| db_codesize := None; db_entries := [] |} (Some cs) false = Ok (p0, d0) ->
  history argpartition argsort p0 d0 es p d ->
  well_formed_code cs code ->
  match threads with Some t => 1 <= t | None => True end ->
  (length (stored cs es) <= n ->
     fst (search argpartition argsort p d code n threads sort) = Raise ValueError) /\
  (n < length (stored cs es) ->
   exists hits rest : list (id * bytes * bytes),
     Permutation (stored cs es) (hits ++ rest) /\
     length hits = n /\
     fst (search argpartition argsort p d code n threads sort) = Ok (map snd hits) /\
     (forall h o, In h hits -> In o rest ->
        bit_distance code (snd (fst h)) <= bit_distance code (snd (fst o))) /\
     (sort = true -> StronglySorted le (map (fun h => bit_distance code (snd (fst h))) hits))).
Proof. exact search_end_to_end. Qed.
Print Assumptions C07_search_nearest.

(** C08: any number of threads gives the scores, the results and the state of
    the single-threaded search. *)
Theorem C08_threads_scores :
  forall (query : list N) (codes : list (list N)) (t : nat), 1 <= t -> codes <> [] ->
  scores query codes (Some t) = scores query codes None.
Proof. exact scores_threads. Qed.
Print Assumptions C08_threads_scores.

Theorem C08_threads_search :
  forall (argpartition : list N -> nat -> list nat) (argsort : list N -> list nat)
         (p : proc) (d : db) (code : bytes) (n t : nat) (sort : bool), 1 <= t ->
  search argpartition argsort p d code n (Some t) sort
  = search argpartition argsort p d code n None sort.
Proof. exact search_threads. Qed.
Print Assumptions C08_threads_search.

(** C09: after any history, the database holds exactly what was stored and a
    search scores exactly that, each entry once. *)
Theorem C09_view_follows_database :
  forall (argpartition : list N -> nat -> list nat) (argsort : list N -> list nat)
         (cs : Z) (p0 : proc) (d0 : db) (es : list event) (p : proc) (d : db),
  open_db {| db_codesize := None; db_entries := [] |} (Some cs) false = Ok (p0, d0) ->
  history argpartition argsort p0 d0 es p d ->
  Permutation (db_entries d) (map as_value (stored cs es)) /\
  db_codesize d = Some cs /\
  forall code n t s, Zlen code = cs ->
    Permutation (p_codes (snd (search argpartition argsort p d code n t s))) (map fst (stored cs es)).
Proof. exact view_end_to_end. Qed.
Print Assumptions C09_view_follows_database.

Theorem C09_open_rejects :
  forall (d : db) (a : option Z) (w : bool),
  (match db_codesize d with
   | Some cs => exists v, a = Some v /\ v <> 0%Z /\ v <> cs
   | None => a = None \/ exists v, a = Some v /\ (v mod 8 <> 0)%Z
   end) -> open_db d a w = Raise ValueError.
Proof. exact open_rejects. Qed.
Print Assumptions C09_open_rejects.

Theorem C09_append_wrong_size :
  forall (p : proc) (d : db) (k : id) (code data : bytes) (f : txn_fate),
  Zlen code <> p_code_size p -> HammingDb.append p d k code data f = (Raise ValueError, p, d).
Proof. exact append_wrong_size. Qed.
Print Assumptions C09_append_wrong_size.

(** C09 with transactions that fail at commit is false: the failed entry stays
    in memory, and one external append later it hides a stored entry. *)
Theorem C09_commit_failure_refuted :
  exists p d p1 d1 p2 d2,
    good 8 p d
    /\ HammingDb.append p d 7%N (repeat 1%N 8) [] CommitFails = (Raise LmdbError, p1, d1)
    /\ d1 = d
    /\ do_event (fun a _ => ref_argsort a) ref_argsort p1 d1
         (ExternalAppend 9%N (repeat 0%N 8) [42%N]) = (p2, d2)
    /\ In (9%N, repeat 0%N 8 ++ [42%N]) (db_entries d2)
    /\ p_codes (check_external p2 d2) = [(7%N, repeat 1%N 8)]
    /\ fst (search (fun a _ => ref_argsort a) ref_argsort p2 d2 (repeat 0%N 8) 0 None true) = Ok [].
Proof. exact commit_failure_phantom. Qed.
Print Assumptions C09_commit_failure_refuted.
