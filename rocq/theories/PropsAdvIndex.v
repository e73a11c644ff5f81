(** * Indexing with lists beside integers and slices (C84, continued).

    Model: [AdvIndex] (numpy's rules for lists of integers next to other elements) under the
    array's own bookkeeping of dimensions ([Axis]).  [C84_one_list] says that for one list with
    at most integers next to it this is the indexing of [Ops], about which [PropsOps] proves what
    is read.  [C84_time_label_refuted]: a slice between an integer and a list mislabels the axes;
    [C84_two_lists_refuted]: two lists are paired by numpy and the array then cannot be labelled.
    Assigning goes by the same selection ([C84_one_list_assign], [C84_time_assign_refuted]), and works
    through two lists ([C84_two_lists_assign]). *)
From Verif Require Import PyBase PyFacts PyMore Time Freq FreqDim Axis Ops AdvIndex AdvIndexProofs.
From Coq Require Import Reals.
Local Open Scope nat_scope.
Theorem C84_one_list :
  forall (x : nda) (pre block post : list nix),
  forallb (fun e : nix => negb (ix_adv e)) pre = true ->
  forallb ix_adv block = true ->
  count ix_list block = 1 ->
  forallb (fun e : nix => negb (ix_adv e)) post = true ->
  np_getitem_adv x (pre ++ block ++ post) = np_getitem x (pre ++ block ++ post).
Proof. exact (@one_list). Qed.
Print Assumptions C84_one_list.
Theorem C84_time_label_refuted :
  forall (a : units) (d0 : dim) (t : timedim) (d2 : dim) (n0 n1 n2 i : nat) (l : list nat),
  nd_shape (data a) = [n0; n1; n2] ->
  dims a = [d0; DTime t; d2] ->
  i < n0 ->
  (forall k : nat, In k l -> k < n2) ->
  exists (b : units) (u : timedim),
    getitem_adv a [XInt (Z.of_nat i); XSl None None 1; XList (map Z.of_nat l)] = Ok b /\
    nd_shape (data b) = [length l; n1] /\
    dims b = [DTime u; DIdent] /\
    t_size u = Some (Z.of_nat (length l)) /\
    t_freq u = t_freq t /\
    (forall p q : nat,
     p < length l -> q < n1 -> nd_at (data b) [p; q] = nd_at (data a) [i; q; nth p l 0]).
Proof. exact (@time_label_refuted). Qed.
Print Assumptions C84_time_label_refuted.
Theorem C84_two_lists_refuted :
  forall (a : units) (d0 d1 : dim) (n0 n1 : nat) (l0 l1 : list nat),
  nd_shape (data a) = [n0; n1] ->
  dims a = [d0; d1] ->
  (forall k : nat, In k l0 -> k < n0) ->
  (forall k : nat, In k l1 -> k < n1) ->
  let ix := [XList (map Z.of_nat l0); XList (map Z.of_nat l1)] in
  (length l0 = length l1 ->
   (exists r : nda,
      np_getitem_adv (data a) (map as_is ix) = Ok r /\
      nd_shape r = [length l0] /\
      (forall k : nat, k < length l0 -> nd_at r [k] = nd_at (data a) [nth k l0 0; nth k l1 0])) /\
   getitem_adv a ix = Raise ValueError) /\
  (length l0 <> length l1 ->
   length l0 <> 1 -> length l1 <> 1 -> getitem_adv a ix = Raise IndexError).
Proof. exact (@two_lists_refuted). Qed.
Print Assumptions C84_two_lists_refuted.
Theorem C84_one_list_assign :
  forall (x : nda) (pre block post : list nix) (v : nda),
  forallb (fun e : nix => negb (ix_adv e)) pre = true ->
  forallb ix_adv block = true ->
  count ix_list block = 1 ->
  forallb (fun e : nix => negb (ix_adv e)) post = true ->
  np_setitem_adv x (pre ++ block ++ post) v = np_setitem x (pre ++ block ++ post) v.
Proof. exact (@one_list_assign). Qed.
Print Assumptions C84_one_list_assign.
Theorem C84_time_assign_refuted :
  forall (a : units) (d0 : dim) (t : timedim) (d2 : dim) (n0 n1 n2 i : nat) 
    (l : list nat) (v : nda),
  nd_shape (data a) = [n0; n1; n2] ->
  dims a = [d0; DTime t; d2] ->
  i < n0 ->
  (forall k : nat, In k l -> k < n2) ->
  NoDup l ->
  let assigned := setitem_adv a [XInt (Z.of_nat i); XSl None None 1; XList (map Z.of_nat l)] v in
  (nd_shape v = [n1; length l] ->
   n1 <> length l -> n1 <> 1 -> length l <> 1 -> assigned = Raise ValueError) /\
  (nd_shape v = [length l; n1] ->
   exists r : units,
     assigned = Ok r /\
     dims r = dims a /\
     nd_shape (data r) = nd_shape (data a) /\
     (forall p q : nat, p < length l -> q < n1 -> nd_at (data r) [i; q; nth p l 0] = nd_at v [p; q]) /\
     (forall j q k : nat,
      j < n0 ->
      q < n1 -> k < n2 -> j <> i \/ ~ In k l -> nd_at (data r) [j; q; k] = nd_at (data a) [j; q; k])).
Proof. exact (@time_assign_refuted). Qed.
Print Assumptions C84_time_assign_refuted.
Theorem C84_two_lists_assign :
  forall (a : units) (d0 d1 : dim) (n0 n1 : nat) (l0 l1 : list nat) (v : nda),
  nd_shape (data a) = [n0; n1] ->
  dims a = [d0; d1] ->
  (forall k : nat, In k l0 -> k < n0) ->
  (forall k : nat, In k l1 -> k < n1) ->
  length l0 = length l1 ->
  NoDup (combine l0 l1) ->
  nd_shape v = [length l0] ->
  exists r : units,
    setitem_adv a [XList (map Z.of_nat l0); XList (map Z.of_nat l1)] v = Ok r /\
    dims r = dims a /\
    nd_shape (data r) = nd_shape (data a) /\
    (forall k : nat, k < length l0 -> nd_at (data r) [nth k l0 0; nth k l1 0] = nd_at v [k]) /\
    (forall i j : nat,
     i < n0 ->
     j < n1 -> ~ In (i, j) (combine l0 l1) -> nd_at (data r) [i; j] = nd_at (data a) [i; j]).
Proof. exact (@two_lists_assign). Qed.
Print Assumptions C84_two_lists_assign.

