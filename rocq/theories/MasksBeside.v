(** Lists of booleans beside other elements of an index (zounds/core/axis.py:246-290, 319-336):
    [a[:, [True, False, ...]]].  numpy takes such a list for the list of the places where it is
    true, provided it has the length of its axis; zounds treats it as any other list. *)
From Verif Require Import PyBase PyFacts PyMore Time Freq FreqDim Axis AxisProofs Ops OpsProofs OpsProofs2 OpsProofs5 Masks MasksProofs MasksProofs3 AdvIndex AdvIndexProofs.
From Coq Require Import Reals Lra.
Local Open Scope nat_scope.

(** an element of an index: as in Axis.v, or a list of booleans *)
Inductive bix := Elem (x : aix) | Bools (l : list bool).
(** numpy's reading of the lists of booleans, axis by axis; an empty list is an empty list of
    integers.  Simplified: the length is checked before zounds has translated the other
    elements, which matters only for which of two errors is raised. *)
Fixpoint settle (ell : nat) (sh : list nat) (ix : list bix) : result (list aix) :=
  match ix with
  | [] => Ok []
  | Elem XNone :: rest => do r <- settle ell sh rest; Ok (XNone :: r)
  | Elem XEll :: rest => do r <- settle ell (skipn ell sh) rest; Ok (XEll :: r)
  | Elem x :: rest => do r <- settle ell (tl sh) rest; Ok (x :: r)
  | Bools l :: rest =>
      do _ <- (match l with
               | [] => Ok tt
               | _ => if (hd 0 sh =? length l) && negb (length sh =? 0) then Ok tt else Raise IndexError
               end);
      do r <- settle ell (tl sh) rest;
      Ok (XList (map Z.of_nat (positions l)) :: r)
  end.
Definition takes_axis (b : bix) : bool := match b with Elem XNone | Elem XEll => false | _ => true end.
Definition ell_size (sh : list nat) (ix : list bix) : nat := length sh - count takes_axis ix.
(** axis.py:324-336 and 319-322 *)
Definition getitem_bix (a : units) (index : list bix) : result units :=
  do ix <- settle (ell_size (nd_shape (data a)) index) (nd_shape (data a)) index; getitem_adv a ix.
Definition setitem_bix (a : units) (index : list bix) (v : nda) : result units :=
  do ix <- settle (ell_size (nd_shape (data a)) index) (nd_shape (data a)) index; setitem_adv a ix v.

Definition all : bix := Elem (XSl None None 1%Z).

(** a[:, l] of an array with a time axis: the columns where [l] is true, in order, with the
    times of the rows kept *)
Lemma columns_read (a : units) t d1 n0 l : nd_shape (data a) = [n0; length l] -> dims a = [DTime t; d1] ->
  exists b u, getitem_bix a [all; Bools l] = Ok b /\ nd_shape (data b) = [n0; length (positions l)] /\
    dims b = [DTime u; DIdent] /\ t_size u = Some (Z.of_nat n0) /\ t_freq u = t_freq t /\ (t_dur t <> 0%Z -> t_dur u = t_dur t) /\
    forall p q, p < n0 -> q < length (positions l) -> nd_at (data b) [p; q] = nd_at (data a) [p; nth q (positions l) 0].
Proof.
  intros S D. unfold getitem_bix. rewrite S. unfold all. cbn [settle tl hd length Nat.eqb negb].
  assert (E : (match l with [] => Ok tt | _ :: _ => if (length l =? length l) && true then Ok tt else Raise IndexError end) = Ok tt)
    by (rewrite Nat.eqb_refl; now destruct l).
  rewrite E. cbn [bind].
  assert (Hl : forall k, In k (positions l) -> k < length l) by (intros k I; now apply positions_bound).
  set (ps := positions l) in *. clearbody ps.
  unfold getitem_adv, getitem. rewrite D.
  unfold compute_indices. cbn [compute_from burns int_based andb as_is bind].
  unfold np_getitem_adv, has_list, adv_selection. cbn [existsb orb]. cbn [count filter is_nell length Nat.ltb Nat.leb nix_takes]. rewrite S. cbn [asels].
  change (1 =? 0)%Z with false. cbn [bind].
  rewrite mapM_pick by exact Hl. cbn [bind asels map]. rewrite slice_all.
  cbn [paired]. change (1 =? 1) with true. change (apart _) with false. cbv iota.
  replace (if length ps =? 1 then Some 1 else Some (length ps)) with (Some (length ps)) by (destruct (Nat.eqb_spec (length ps) 1) as [->|]; reflexivity).
  cbn [plain_shape take_while advanced negb length firstn skipn app bind nth]. rewrite seq_length. cbn [nd_build nd_shape].
  unfold new_dims. cbn [new_dims_from].
  change (py_get [DTime t; d1] 0%Z) with (Ok (DTime t)). cbn [bind].
  unfold metaslice_or_dim. change (py_get [n0; length ps] 0%Z) with (Ok n0). cbn [bind dim_metaslice].
  rewrite py_slice_from by (unfold Zlen; cbn; lia). change (Z.to_nat (0 + 1 + 1)) with 2. cbn [skipn bind].
  unfold awu_new. cbn [nd_shape nd_build length Nat.eqb fit_dims fit_dim bind].
  eexists _, _. split; [reflexivity|]. cbn [data dims]. split; [reflexivity|]. split; [reflexivity|].
  split; [reflexivity|]. split; [reflexivity|]. split.
  { intros N. cbn [metaslice mk_timedim t_dur t_freq]. unfold metaslice, mk_timedim. cbn [t_dur t_freq]. destruct (Z.eqb_spec (t_dur t) 0); [contradiction|]. destruct (Z.eqb_spec (t_dur t) 0); [contradiction|reflexivity]. }
  intros p q Hp Hq. change {| nd_shape := ?s; nd_flat := map ?f (all_ix ?s) |} with (nd_build s f).
  rewrite nd_at_build by (repeat constructor; assumption). cbn [adv_source nth hd tl fst snd firstn skipn app].
  rewrite seq_nth by exact Hp. do 3 f_equal. f_equal. destruct (Nat.eqb_spec (length ps) 1); [|reflexivity]. now replace q with 0 by lia.
Qed.

(** a list of another length is an error, unless it is empty *)
Lemma columns_length (a : units) n0 n1 l : nd_shape (data a) = [n0; n1] -> l <> [] -> length l <> n1 ->
  getitem_bix a [all; Bools l] = Raise IndexError /\ (forall v, setitem_bix a [all; Bools l] v = Raise IndexError).
Proof.
  intros S N L. unfold getitem_bix, setitem_bix. rewrite S. unfold all. cbn [settle tl hd].
  destruct l as [|b l]; [contradiction|]. destruct (Nat.eqb_spec n1 (length (b :: l))); [congruence|]. now split.
Qed.

(** a[i, :, l]: the integer and the list are paired around the slice, so the axes come out
    exchanged and the time dimension labels the selected columns *)
Lemma bools_label_refuted (a : units) d0 t d2 n0 n1 i l : nd_shape (data a) = [n0; n1; length l] -> dims a = [d0; DTime t; d2] -> i < n0 ->
  exists b u, getitem_bix a [Elem (XInt (Z.of_nat i)); all; Bools l] = Ok b /\
    nd_shape (data b) = [length (positions l); n1] /\ dims b = [DTime u; DIdent] /\
    t_size u = Some (Z.of_nat (length (positions l))) /\ t_freq u = t_freq t /\
    forall p q, p < length (positions l) -> q < n1 -> nd_at (data b) [p; q] = nd_at (data a) [i; q; nth p (positions l) 0].
Proof.
  intros S D Hi. unfold getitem_bix. rewrite S. unfold all. cbn [settle tl hd length Nat.eqb negb].
  assert (E : (match l with [] => Ok tt | _ :: _ => if (length l =? length l) && true then Ok tt else Raise IndexError end) = Ok tt)
    by (rewrite Nat.eqb_refl; now destruct l).
  rewrite E. cbn [bind]. apply (time_label_refuted a d0 t d2 n0 n1 (length l) i (positions l) S D Hi).
  intros k I. now apply positions_bound.
Qed.

(** two lists of booleans are paired: as many rows as columns, and the dimensions do not fit *)
Lemma bools_twice_refuted (a : units) d0 d1 l0 l1 : nd_shape (data a) = [length l0; length l1] -> dims a = [d0; d1] ->
  length (positions l0) = length (positions l1) ->
  getitem_bix a [Bools l0; Bools l1] = Raise ValueError.
Proof.
  intros S D E. unfold getitem_bix. rewrite S. cbn [settle tl hd length Nat.eqb negb].
  assert (E0 : forall l : list bool, (match l with [] => Ok tt | _ :: _ => if (length l =? length l) && true then Ok tt else Raise IndexError end) = Ok tt)
    by (intros l; rewrite Nat.eqb_refl; now destruct l).
  rewrite !E0. cbn [bind].
  assert (H : forall l k, In k (positions l) -> k < length l) by (intros l k I; now apply positions_bound).
  pose proof (two_lists_refuted a d0 d1 _ _ (positions l0) (positions l1) S D (H l0) (H l1)) as T. cbv zeta in T. destruct T as (A & _).
  now apply A.
Qed.

Example columns_case : exists (a : units) t, nd_shape (data a) = [2; 3] /\ dims a = [DTime t; DIdent] /\
  exists b u, getitem_bix a [all; Bools [true; false; true]] = Ok b /\ dims b = [DTime u; DIdent] /\ nd_shape (data b) = [2; 2] /\
    nd_at (data b) [1; 1] = 12%R /\ nd_at (data b) [0; 0] = 0%R /\ t_size u = Some 2%Z.
Proof.
  set (a := mkAwu (nd_build [2; 3] (fun jx => (INR (nth 0 jx 0%nat) * 10 + INR (nth 1 jx 0%nat))%R)) [DTime (mk_timedim 5 None (Some 2%Z)); DIdent]).
  exists a, (mk_timedim 5 None (Some 2%Z)). split; [reflexivity|]. split; [reflexivity|].
  destruct (columns_read a (mk_timedim 5 None (Some 2%Z)) DIdent 2 [true; false; true] eq_refl eq_refl) as (b & u & G & Sh & D & Sz & _ & _ & V).
  change (positions [true; false; true]) with [0; 2] in *. cbn [length] in *.
  exists b, u. split; [exact G|]. split; [exact D|]. split; [exact Sh|].
  rewrite (V 1 1), (V 0 0) by lia. split; [|split]; [| |exact Sz].
  - cbn -[Rplus Rmult]. simpl. lra.
  - cbn. lra.
Qed.

(** a[:, l] = v: column q of [v] goes to the q-th true place, nothing else changes *)
Lemma columns_assign (a : units) t d1 n0 l v : nd_shape (data a) = [n0; length l] -> dims a = [DTime t; d1] -> nd_shape v = [n0; length (positions l)] ->
  exists r, setitem_bix a [all; Bools l] v = Ok r /\ dims r = dims a /\ nd_shape (data r) = nd_shape (data a) /\
    (forall p q, p < n0 -> q < length (positions l) -> nd_at (data r) [p; nth q (positions l) 0] = nd_at v [p; q]) /\
    (forall p j, p < n0 -> j < length l -> nth j l false = false -> nd_at (data r) [p; j] = nd_at (data a) [p; j]).
Proof.
  intros S D Hv. unfold setitem_bix. rewrite S. unfold all. cbn [settle tl hd length Nat.eqb negb].
  assert (E : (match l with [] => Ok tt | _ :: _ => if (length l =? length l) && true then Ok tt else Raise IndexError end) = Ok tt)
    by (rewrite Nat.eqb_refl; now destruct l).
  rewrite E. cbn [bind].
  assert (Hl : forall k, In k (positions l) -> k < length l) by (intros k I; now apply positions_bound).
  assert (ND : NoDup (positions l)) by (unfold positions; apply NoDup_filter, seq_NoDup).
  assert (Ht : forall k, In k (positions l) -> nth k l false = true) by (intros k I; now apply positions_bound).
  set (ps := positions l) in *. clearbody ps.
  assert (Sel : exists src, adv_selection [n0; length l] [NSl None None 1%Z; NList (map Z.of_nat ps)] = Ok ([n0; length ps], src) /\
    forall p q, p < n0 -> q < length ps -> src [p; q] = [p; nth q ps 0]).
  { unfold adv_selection. cbn [count filter is_nell length Nat.ltb Nat.leb nix_takes asels]. change (1 =? 0)%Z with false. cbn [bind].
    rewrite mapM_pick by exact Hl. cbn [bind asels map]. rewrite slice_all.
    cbn [paired]. change (1 =? 1) with true. change (apart _) with false. cbv iota.
    replace (if length ps =? 1 then Some 1 else Some (length ps)) with (Some (length ps)) by (destruct (Nat.eqb_spec (length ps) 1) as [->|]; reflexivity).
    cbn [plain_shape take_while advanced negb length firstn skipn app bind nth]. rewrite seq_length. eexists. split; [reflexivity|].
    intros p q Hp Hq. cbn [adv_source nth hd tl app]. rewrite seq_nth by exact Hp. do 2 f_equal. f_equal. destruct (Nat.eqb_spec (length ps) 1); [|reflexivity]. now replace q with 0 by lia. }
  destruct Sel as (src & Sel & Src).
  assert (G : forall w, setitem_adv a [XSl None None 1%Z; XList (map Z.of_nat ps)] w = do x <- np_setitem_adv (data a) [NSl None None 1%Z; NList (map Z.of_nat ps)] w; Ok (mkAwu x (dims a)))
    by (intros w; unfold setitem_adv; now rewrite D).
  rewrite G. unfold np_setitem_adv. change (has_list _) with true. cbv iota. rewrite S, Sel. cbn [bind fst snd]. rewrite Hv.
  rewrite broadcast_same. unfold nat_list_eqb at 1. destruct (list_eq_dec Nat.eq_dec [n0; length ps] [n0; length ps]); [|congruence]. cbn [bind].
  eexists. split; [reflexivity|]. cbn [data dims nd_shape nd_build]. split; [reflexivity|]. split; [reflexivity|].
  assert (Sh : forall kx, in_shape [n0; length ps] kx -> exists p q, kx = [p; q] /\ p < n0 /\ q < length ps).
  { intros kx K. inversion K as [|p n0' k1 sh1 P K1]; subst. inversion K1 as [|q n1' k2 sh2 Q K2]; subst. inversion K2; subst. now exists p, q. }
  split.
  - intros p q Hp Hq. change {| nd_shape := ?s; nd_flat := map ?f (all_ix ?s) |} with (nd_build s f).
    rewrite nd_at_build by (repeat constructor; [exact Hp|apply Hl, nth_In, Hq]).
    rewrite (find_source _ _ _ [p; q]); [|repeat constructor; assumption|now apply Src|].
    + unfold bc_index. cbn [length Nat.sub skipn clip]. f_equal. destruct (Nat.eqb_spec (length ps) 1); destruct (Nat.eqb_spec n0 1); repeat f_equal; lia.
    + intros kx K E2. destruct (Sh kx K) as (p' & q' & -> & P' & Q'). rewrite Src in E2 by assumption. injection E2 as -> E2. f_equal. f_equal. exact (proj1 (NoDup_nth ps 0) ND q' q Q' Hq E2).
  - intros p j Hp Hj F. change {| nd_shape := ?s; nd_flat := map ?f (all_ix ?s) |} with (nd_build s f).
    rewrite nd_at_build by (repeat constructor; assumption). rewrite find_no_source; [reflexivity|].
    intros kx K E2. destruct (Sh kx K) as (p' & q' & -> & P' & Q'). rewrite Src in E2 by assumption. injection E2 as _ <-.
    rewrite Ht in F by (now apply nth_In). discriminate.
Qed.
