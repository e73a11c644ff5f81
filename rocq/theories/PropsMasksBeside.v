(** Property theorems: lists of booleans beside other elements of an index (C108). *)
From Verif Require Import PyBase PyFacts PyMore Time Freq FreqDim Axis AxisProofs Ops OpsProofs OpsProofs2 OpsProofs5 Masks MasksProofs MasksProofs3 AdvIndex AdvIndexProofs MasksBeside.
From Coq Require Import Reals Lra.
Local Open Scope nat_scope.

(** C108: [all] is the full slice, [positions l] the places where [l] is true, in order. *)
Theorem C108_columns :
  forall (a : units) (t : timedim) (d1 : dim) (n0 : nat) (l : list bool),
  nd_shape (data a) = [n0; length l] ->
  dims a = [DTime t; d1] ->
  exists (b : units) (u : timedim),
    getitem_bix a [all; Bools l] = Ok b /\
    nd_shape (data b) = [n0; length (positions l)] /\
    dims b = [DTime u; DIdent] /\
    t_size u = Some (Z.of_nat n0) /\
    t_freq u = t_freq t /\
    (t_dur t <> 0%Z -> t_dur u = t_dur t) /\
    (forall p q : nat,
     p < n0 ->
     q < length (positions l) -> nd_at (data b) [p; q] = nd_at (data a) [p; nth q (positions l) 0]).
Proof. exact (@columns_read). Qed.
Print Assumptions C108_columns.
Theorem C108_columns_assign :
  forall (a : units) (t : timedim) (d1 : dim) (n0 : nat) (l : list bool) (v : nda),
  nd_shape (data a) = [n0; length l] ->
  dims a = [DTime t; d1] ->
  nd_shape v = [n0; length (positions l)] ->
  exists r : units,
    setitem_bix a [all; Bools l] v = Ok r /\
    dims r = dims a /\
    nd_shape (data r) = nd_shape (data a) /\
    (forall p q : nat,
     p < n0 ->
     q < length (positions l) -> nd_at (data r) [p; nth q (positions l) 0] = nd_at v [p; q]) /\
    (forall p j : nat,
     p < n0 ->
     j < length l -> nth j l false = false -> nd_at (data r) [p; j] = nd_at (data a) [p; j]).
Proof. exact (@columns_assign). Qed.
Print Assumptions C108_columns_assign.
Theorem C108_columns_length :
  forall (a : units) (n0 n1 : nat) (l : list bool),
  nd_shape (data a) = [n0; n1] ->
  l <> [] ->
  length l <> n1 ->
  getitem_bix a [all; Bools l] = Raise IndexError /\
  (forall v : nda, setitem_bix a [all; Bools l] v = Raise IndexError).
Proof. exact (@columns_length). Qed.
Print Assumptions C108_columns_length.
Theorem C108_columns_times_refuted :
  forall (a : units) (d0 : dim) (t : timedim) (d2 : dim) (n0 n1 i : nat) (l : list bool),
  nd_shape (data a) = [n0; n1; length l] ->
  dims a = [d0; DTime t; d2] ->
  i < n0 ->
  exists (b : units) (u : timedim),
    getitem_bix a [Elem (XInt (Z.of_nat i)); all; Bools l] = Ok b /\
    nd_shape (data b) = [length (positions l); n1] /\
    dims b = [DTime u; DIdent] /\
    t_size u = Some (Z.of_nat (length (positions l))) /\
    t_freq u = t_freq t /\
    (forall p q : nat,
     p < length (positions l) ->
     q < n1 -> nd_at (data b) [p; q] = nd_at (data a) [i; q; nth p (positions l) 0]).
Proof. exact (@bools_label_refuted). Qed.
Print Assumptions C108_columns_times_refuted.
Theorem C108_two_lists_refuted :
  forall (a : units) (d0 d1 : dim) (l0 l1 : list bool),
  nd_shape (data a) = [length l0; length l1] ->
  dims a = [d0; d1] ->
  length (positions l0) = length (positions l1) ->
  getitem_bix a [Bools l0; Bools l1] = Raise ValueError.
Proof. exact (@bools_twice_refuted). Qed.
Print Assumptions C108_two_lists_refuted.
Theorem C108_columns_example :
  exists (a : units) (t : timedim),
    nd_shape (data a) = [2; 3] /\
    dims a = [DTime t; DIdent] /\
    (exists (b : units) (u : timedim),
       getitem_bix a [all; Bools [true; false; true]] = Ok b /\
       dims b = [DTime u; DIdent] /\
       nd_shape (data b) = [2; 2] /\
       nd_at (data b) [1; 1] = 12%R /\ nd_at (data b) [0; 0] = 0%R /\ t_size u = Some 2%Z).
Proof. exact (@columns_case). Qed.
Print Assumptions C108_columns_example.

