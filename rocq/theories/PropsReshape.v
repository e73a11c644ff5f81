(** Property theorems: the Reshape preprocessor, examples, batches and chains (C36). *)
From Coq Require Import ZArith Reals.
From Verif Require Import PyBase PyFacts PyMore Freq Preproc PreprocProofs ReshapeMore.
Local Open Scope Z_scope.

(** C36: an array is its shape and its entries in C order; [concat ex] are the entries of the
    array of the examples [ex], [reshape_to (shape, entries) new] is numpy's reshape. *)
Theorem C36_reshape_examples :
  forall (m : nat) (ex0 : list (list R)) (rest new : list Z),
  ex0 <> [] ->
  (forall e : list R, In e ex0 -> length e = m) ->
  (forall s : list Z,
   (forall e : list R, In e ex0 -> reshape_to (rest, e) new = Ok (s, e)) ->
   reshape_op new (Zlen ex0 :: rest, concat ex0) = Ok (Zlen ex0 :: s, concat ex0)) /\
  (forall err : exn,
   (exists e : list R, In e ex0 /\ reshape_to (rest, e) new = Raise err) ->
   reshape_op new (Zlen ex0 :: rest, concat ex0) = Raise err) /\
  (forall y : ndarr,
   reshape_op new (Zlen ex0 :: rest, concat ex0) = Ok y ->
   exists s : list Z,
     y = (Zlen ex0 :: s, concat ex0) /\
     (forall e : list R, In e ex0 -> reshape_to (rest, e) new = Ok (s, e))).
Proof. exact (@reshape_by_example). Qed.
Print Assumptions C36_reshape_examples.
Theorem C36_reshape_batches :
  forall (m : nat) (ex1 ex2 : list (list R)) (rest new s1 s2 : list Z),
  ex1 <> [] ->
  ex2 <> [] ->
  (forall e : list R, In e (ex1 ++ ex2) -> length e = m) ->
  reshape_op new (Zlen ex1 :: rest, concat ex1) = Ok (Zlen ex1 :: s1, concat ex1) ->
  reshape_op new (Zlen ex2 :: rest, concat ex2) = Ok (Zlen ex2 :: s2, concat ex2) ->
  s1 = s2 /\
  reshape_op new (Zlen (ex1 ++ ex2) :: rest, concat (ex1 ++ ex2)) =
  Ok (Zlen (ex1 ++ ex2) :: s1, concat ex1 ++ concat ex2).
Proof. exact (@reshape_batches). Qed.
Print Assumptions C36_reshape_batches.
Theorem C36_reshape_chain :
  forall (n : Z) (rest : list Z) (d : list R) (a b : list Z) (y : ndarr),
  0 <= n -> reshape_op a (n :: rest, d) = Ok y -> reshape_op b y = reshape_op b (n :: rest, d).
Proof. exact (@reshape_twice). Qed.
Print Assumptions C36_reshape_chain.
Theorem C36_reshape_nothing_refuted :
  forall rest new : list Z, In (-1) new -> reshape_op new (0 :: rest, []) = Raise ValueError.
Proof. exact (@reshape_nothing). Qed.
Print Assumptions C36_reshape_nothing_refuted.
Theorem C36_reshape_nothing_any :
  forall rest new : list Z,
  (forall k : Z, In k new -> 0 <= k) -> reshape_op new (0 :: rest, []) = Ok (0 :: new, []).
Proof. exact (@reshape_nothing_any). Qed.
Print Assumptions C36_reshape_nothing_any.
Theorem C36_reshape_misfit_refuted :
  exists new : list Z,
    (forall d : list R, length d = 6%nat -> reshape_op new ([1; 6], d) = Raise ValueError) /\
    reshape_op new ([0; 6], []) = Ok ([0; 5], []).
Proof. exact (@reshape_misfit_nothing). Qed.
Print Assumptions C36_reshape_misfit_refuted.
Theorem C36_reshape_other_number :
  forall (n : Z) (rest : list Z) (y : ndarr),
  0 <= n ->
  (forall k : Z, In k rest -> 0 <= k) ->
  Zlen (snd y) <> n * prodZ rest -> reshape_inverse (n :: rest) y = Raise ValueError.
Proof. exact (@reshape_back_other). Qed.
Print Assumptions C36_reshape_other_number.
Theorem C36_reshape_example :
  forall a b c d e f g h : R,
  reshape_op [2; -1] ([2; 4], [a; b; c; d; e; f; g; h]) = Ok ([2; 2; 2], [a; b; c; d; e; f; g; h]) /\
  reshape_op [3; -1] ([2; 4], [a; b; c; d; e; f; g; h]) = Raise ValueError /\
  reshape_inverse [2; 4] ([2; 2; 2], [a; b; c; d; e; f; g; h]) =
  Ok ([2; 4], [a; b; c; d; e; f; g; h]) /\
  reshape_inverse [2; 4] ([1; 2; 2], [a; b; c; d]) = Raise ValueError /\
  reshape_op [2; 1; 1; 2] ([2; 2; 2], [a; b; c; d; e; f; g; h]) =
  Ok ([2; 2; 1; 1; 2], [a; b; c; d; e; f; g; h]).
Proof. exact (@reshape_example). Qed.
Print Assumptions C36_reshape_example.

