(** Property theorems: two lists of which one has a single position (C84), the errors of dot on audio (C83). *)
From Verif Require Import PyBase PyFacts PyMore Time Freq FreqDim Axis AxisProofs Ops OpsProofs OpsProofs2 OpsProofs5 Masks MasksProofs MasksProofs3 AdvIndex AdvIndexProofs AdvIndexMore.
From Coq Require Import Reals Lra.
Local Open Scope nat_scope.

(** C84: numpy's own result; zounds' dimensions do not fit it (C84_two_lists_refuted) *)
Theorem C84_single_position :
  forall (x : nda) (n0 n1 i : nat) (l : list nat),
  nd_shape x = [n0; n1] ->
  i < n0 ->
  (forall k : nat, In k l -> k < n1) ->
  exists r : nda,
    np_getitem_adv x [NList [Z.of_nat i]; NList (map Z.of_nat l)] = Ok r /\
    nd_shape r = [length l] /\
    (forall k : nat, k < length l -> nd_at r [k] = nd_at x [i; nth k l 0]).
Proof. exact (@single_position). Qed.
Print Assumptions C84_single_position.
Theorem C84_single_position_last :
  forall (x : nda) (n0 n1 j : nat) (l : list nat),
  nd_shape x = [n0; n1] ->
  j < n1 ->
  (forall k : nat, In k l -> k < n0) ->
  exists r : nda,
    np_getitem_adv x [NList (map Z.of_nat l); NList [Z.of_nat j]] = Ok r /\
    nd_shape r = [length l] /\
    (forall k : nat, k < length l -> nd_at r [k] = nd_at x [nth k l 0; j]).
Proof. exact (@single_position_last). Qed.
Print Assumptions C84_single_position_last.
Theorem C84_single_position_example :
  exists x r : nda,
    nd_shape x = [2; 3] /\
    np_getitem_adv x [NList [1%Z]; NList [0%Z; 2%Z]] = Ok r /\
    nd_shape r = [2] /\ nd_at r [1] = 12%R.
Proof. exact (@single_position_example). Qed.
Print Assumptions C84_single_position_example.

(** C83 *)
Theorem C83_dot_audio_errors :
  forall (a : units) (y : nda) (n c k p : nat),
  (nd_shape (data a) = [n; c] -> nd_shape y = [c] -> awu_dot Audio a y = Raise TypeError) /\
  (nd_shape (data a) = [n; c] -> nd_shape y = [c; k] -> awu_dot Audio a y = Raise TypeError) /\
  (nd_shape (data a) = [n] -> nd_shape y = [n; k] -> awu_dot Audio a y = Raise TypeError) /\
  (nd_shape (data a) = [n; c] -> nd_shape y = [p; c; k] -> awu_dot Audio a y = Raise ValueError).
Proof. exact (@dot_audio_errors). Qed.
Print Assumptions C83_dot_audio_errors.

