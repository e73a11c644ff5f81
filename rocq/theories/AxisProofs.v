(** Specifications and proofs for Axis.v. *)
From Verif Require Import PyBase PyFacts PyMore Time Freq FreqDim Axis.
From Coq Require Import Sorting.Sorted.
Local Open Scope Z_scope.

(** ** Which axis an index element addresses (numpy's rule, by counting) *)

(** [k]th element: without an Ellipsis in front, the number of axes consumed in
    front of it; after the Ellipsis, counted from the last axis. *)
Definition axis_of (nd : nat) (index : list aix) (k : nat) : nat :=
  if existsb is_ell (firstn k index)
  then (nd - count consumes (skipn k index))%nat
  else count consumes (firstn k index).

(** An index numpy accepts for [nd] axes: at most one Ellipsis and not more
    axis-consuming elements than axes. *)
Definition np_index (nd : nat) (index : list aix) : Prop :=
  (count is_ell index <= 1)%nat /\ (count consumes index <= nd)%nat.

(** Elements that name physical units (or slices the dimension is asked about). *)
Definition unit_element (x : aix) : bool :=
  match x with XTime _ _ | XTimes _ _ | XBand _ | XHz _ _ => true | _ => false end.

(** No [None] between the place positions are counted from and element [k]. *)
Definition no_none_counted (index : list aix) (k : nat) : Prop :=
  if existsb is_ell (firstn k index)
  then count is_none (skipn k index) = 0%nat
  else count is_none (firstn k index) = 0%nat.

(** Positive sampling period on every time axis. *)
Definition good_dims (ds : list dim) : Prop := forall t, In (DTime t) ds -> 0 < t_freq t.

(** What a unit element means on an axis with dimension [d]: times on a time axis the samples
    [integer_based_slice] says (C14), bands and Hertz on a frequency axis the bins [get_slice]
    says (C21), bands on an explicit frequency axis the columns of the bands with that name
    (C28).  Other combinations reach numpy as they are, which cannot index with them. *)
Definition names_slice (d : dim) (x : aix) (y : nix) : Prop :=
  match d, x with
  | DTime t, XTime s du => exists i j, integer_based_slice t (ITime s du) = Ok (i, j) /\ y = NSl (Some i) (Some j) 1
  | DTime t, XTimes a b => exists i j, integer_based_slice t (Time.ISlice a b) = Ok (i, j) /\ y = NSl (Some i) (Some j) 1
  | DFreq s, XBand q => exists a b, get_slice s (IBand q) = Ok (a, b) /\ y = NSl a b 1
  | DFreq s, XHz lo hi => exists a b, get_slice s (IHertz lo hi) = Ok (a, b) /\ y = NSl a b 1
  | DExp e, XBand q => exists i j, efd_integer_slice e q = Ok (i, j) /\
                         y = NSl (Some (Z.of_nat i)) (Some (Z.of_nat j)) 1
  | _, _ => y = NObj
  end.

(** [ix] is an integer index that means the same as [index]: ints, lists, None
    and Ellipsis unchanged, a slice of ints some slice that selects the same
    positions of every axis (for positive steps), and a unit element replaced
    by what the dimension of the axis it addresses says. *)
Definition means_same (ds : list dim) (axis : nat) (x : aix) (y : nix) : Prop :=
  match x with
  | XTime _ _ | XTimes _ _ | XBand _ | XHz _ _ =>
      exists d, nth_error ds axis = Some d /\ names_slice d x y
  | XSl a b st =>
      exists a' b' st', y = NSl a' b' st' /\
        (0 < st -> forall n, 0 <= n -> slice_positions n a' b' st' = slice_positions n a b st)
  | _ => y = as_is x
  end.
Definition translated (ds : list dim) (index : list aix) (ix : list nix) : Prop :=
  length ix = length index /\
  forall k x, nth_error index k = Some x ->
    exists y, nth_error ix k = Some y /\ means_same ds (axis_of (length ds) index k) x y.

Lemma names_slice_of d x y : unit_element x = true -> dim_int_slice d x = Ok y -> names_slice d x y.
Proof.
  intros U H. destruct d as [|t|s|e], x; try discriminate U; cbn [dim_int_slice as_is] in H; cbn [names_slice];
    try congruence; try discriminate H;
    match type of H with bind ?c _ = _ => destruct c as [[i j]|] eqn:E; [|discriminate H] end;
    cbn [bind] in H; injection H as <-; exists i, j; split; reflexivity.
Qed.

Lemma count_app {A} (p : A -> bool) l m : count p (l ++ m) = (count p l + count p m)%nat.
Proof. unfold count. rewrite filter_app, app_length. reflexivity. Qed.
Lemma count_cons {A} (p : A -> bool) x l : count p (x :: l) = ((if p x then 1 else 0) + count p l)%nat.
Proof. unfold count. simpl. destruct (p x); reflexivity. Qed.
Lemma count_nil {A} (p : A -> bool) : count p [] = 0%nat.
Proof. reflexivity. Qed.
Lemma existsb_count {A} (p : A -> bool) l : existsb p l = negb (count p l =? 0)%nat.
Proof.
  induction l as [|x l IH]; simpl; [reflexivity|]. rewrite count_cons, IH.
  destruct (p x); reflexivity.
Qed.
Lemma count_split l : (count is_ell l + count is_none l + count consumes l = length l)%nat.
Proof.
  induction l as [|x l IH]; [reflexivity|]. rewrite !count_cons. simpl length.
  destruct x; cbn; lia.
Qed.

Lemma py_get_nonneg {A} (l : list A) i : 0 <= i ->
  py_get l i = match nth_error l (Z.to_nat i) with Some x => Ok x | None => Raise IndexError end.
Proof.
  intros H. unfold py_get. destruct (Z.ltb_spec i 0); [lia|].
  destruct (Z.ltb_spec i 0); [lia|reflexivity].
Qed.

(** position [_compute_indices] uses for the element after the prefix [pre] *)
Definition pos_after (ds : list dim) (n : nat) (pre : list aix) : Z :=
  Z.of_nat (length pre) - Z.of_nat (count is_ell pre)
  + Z.of_nat (count is_ell pre) * (Zlen ds - (Z.of_nat n - 1)).

Lemma pos_after_snoc ds n pre x :
  pos_after ds n (pre ++ [x]) =
  pos_after ds n pre + (if is_ell x then Zlen ds - (Z.of_nat n - 1) else 1).
Proof.
  unfold pos_after. rewrite app_length, count_app, count_cons, count_nil. simpl length.
  destruct (is_ell x); lia.
Qed.

Definition elem_ok (ds : list dim) (pos : Z) (x : aix) (y : nix) : Prop :=
  if burns x || is_ell x then y = as_is x
  else exists d, py_get ds pos = Ok d /\ dim_int_slice d x = Ok y.

Lemma compute_from_spec ds n index : forall pre ix,
  compute_from ds (Z.of_nat n) (pos_after ds n pre) index = Ok ix ->
  length ix = length index /\
  forall k x, nth_error index k = Some x ->
    exists y, nth_error ix k = Some y /\
      elem_ok ds (pos_after ds n (pre ++ firstn k index)) x y.
Proof.
  induction index as [|x index IH]; intros pre ix H.
  - injection H as <-. split; [reflexivity|]. intros [|k] x E; discriminate E.
  - assert (Hstep : forall r y,
       compute_from ds (Z.of_nat n) (pos_after ds n (pre ++ [x])) index = Ok r ->
       elem_ok ds (pos_after ds n pre) x y ->
       length (y :: r) = length (x :: index) /\
       forall k x0, nth_error (x :: index) k = Some x0 ->
       exists y0, nth_error (y :: r) k = Some y0 /\
       elem_ok ds (pos_after ds n (pre ++ firstn k (x :: index))) x0 y0).
    { intros r y Hr Hy. destruct (IH _ _ Hr) as [L R]. split; [simpl; f_equal; exact L|].
      intros [|k] x0 E.
      - injection E as <-. exists y. split; [reflexivity|]. simpl. rewrite app_nil_r. exact Hy.
      - simpl in E. destruct (R k x0 E) as (y0 & E0 & H0). exists y0. split; [exact E0|].
        cbn [firstn]. change (x :: firstn k index) with ([x] ++ firstn k index).
        rewrite app_assoc. exact H0. }
    cbn [compute_from] in H.
    destruct (burns x) eqn:B.
    + destruct (compute_from ds (Z.of_nat n) (pos_after ds n pre + 1) index) as [r|] eqn:E;
        [|discriminate]. injection H as <-.
      apply Hstep; [|unfold elem_ok; rewrite B; reflexivity].
      rewrite pos_after_snoc. destruct x; try discriminate B; exact E.
    + destruct x; try discriminate B;
      try (destruct (py_get ds (pos_after ds n pre)) as [d|] eqn:G; [|discriminate];
           cbn [bind] in H;
           match type of H with
           | bind (dim_int_slice ?d ?x) _ = _ =>
               destruct (dim_int_slice d x) as [y|] eqn:D; [|discriminate]; cbn [bind] in H
           end;
           destruct (compute_from ds (Z.of_nat n) (pos_after ds n pre + 1) index) as [r|] eqn:E;
             [|discriminate]; injection H as <-;
           apply Hstep; [rewrite pos_after_snoc; exact E | unfold elem_ok; rewrite B; exists d; split; assumption]).
      destruct (compute_from ds (Z.of_nat n) _ index) as [r|] eqn:E in H; [|discriminate].
      injection H as <-. apply Hstep; [|reflexivity].
      rewrite pos_after_snoc. exact E.
Qed.

(** the number _compute_indices counts to, against the axis addressed *)
Lemma pos_after_axis ds index k x :
  np_index (length ds) index -> nth_error index k = Some x -> consumes x = true ->
  pos_after ds (length index) (firstn k index) =
  Z.of_nat (axis_of (length ds) index k) +
  (if existsb is_ell (firstn k index)
   then - Z.of_nat (count is_none (skipn k index))
   else Z.of_nat (count is_none (firstn k index))).
Proof.
  intros [He Hc] Hk Hx. unfold pos_after, axis_of.
  assert (Ekl : (k < length index)%nat) by (apply nth_error_Some; congruence).
  pose proof (count_split (firstn k index)) as S1. pose proof (count_split (skipn k index)) as S2.
  assert (E1 : forall p, count p index = (count p (firstn k index) + count p (skipn k index))%nat)
    by (intros p; rewrite <- count_app, firstn_skipn; reflexivity).
  rewrite firstn_length in S1. rewrite skipn_length in S2. rewrite firstn_length.
  rewrite existsb_count.
  pose proof (E1 is_ell) as F1. pose proof (E1 is_none) as F2. pose proof (E1 consumes) as F3.
  rewrite F1 in He. rewrite F3 in Hc. unfold Zlen.
  destruct (count is_ell (firstn k index)) as [|[|e]] eqn:Ee; cbn [negb Nat.eqb]; nia.
Qed.

Lemma round2_zero f : 0 < f -> round2 0 f = 0.
Proof.
  intros Hf. unfold round2, round_half_even. change (100 * 0) with 0.
  replace (0 / f) with 0 by (symmetry; apply Z.div_0_l; lia). cbn [Z.mul Z.sub Z.add Z.opp].
  destruct (Z.ltb_spec 0 f); [reflexivity|lia].
Qed.

Lemma slice_positions_empty n a st : 0 <= n -> 0 < st -> slice_positions n a (Some 0) st = [].
Proof.
  intros Hn Hs. unfold slice_positions. destruct (Z.ltb_spec 0 st); [|lia].
  cbn [Z.ltb Z.compare]. destruct (Z.ltb_spec (match a with None => 0 | Some i => Z.max 0 (Z.min n (if i <? 0 then i + n else i)) end) (Z.max 0 (Z.min n 0))) as [L|L]; [|reflexivity].
  destruct a as [i|]; [destruct (i <? 0)|]; lia.
Qed.

Lemma dim_int_slice_ints d a b st y :
  (forall t, d = DTime t -> 0 < t_freq t) ->
  dim_int_slice d (XSl a b st) = Ok y ->
  exists a' b' st', y = NSl a' b' st' /\
    (0 < st -> forall n, 0 <= n -> slice_positions n a' b' st' = slice_positions n a b st).
Proof.
  intros Hd H. destruct d as [|t|s|e]; cbn [dim_int_slice as_is] in H;
    try (injection H as <-; do 3 eexists; split; [reflexivity|reflexivity]).
  specialize (Hd t eq_refl). unfold time_int_slice in H.
  assert (P : forall s du p, s + du = 0 -> integer_based_slice t (ITime s (Some du)) = Ok p -> snd p = 0).
  { intros s du p Es E. unfold integer_based_slice in E. cbn [bind] in E.
    injection E as <-. cbn [snd]. rewrite Es, round2_zero by exact Hd. reflexivity. }
  destruct b as [[|b|b]|]; try (injection H as <-; do 3 eexists; split; [reflexivity|reflexivity]).
  destruct a as [a|].
  - destruct (Z.ltb_spec a 0) as [La|La];
      [|injection H as <-; do 3 eexists; split; [reflexivity|reflexivity]].
    destruct (t_span t) as [e|]; [|discriminate]. cbn [bind] in H.
    destruct (integer_based_slice t (ITime (e + a) (Some (- (e + a))))) as [p|] eqn:E; [|discriminate].
    injection H as <-. do 3 eexists. split; [reflexivity|].
    intros Hs n Hn. rewrite (P _ _ _ (Z.add_opp_diag_r _) E).
    rewrite !slice_positions_empty by lia. reflexivity.
  - destruct (integer_based_slice t (ITime 0 (Some 0))) as [p|] eqn:E; [|discriminate].
    injection H as <-. do 3 eexists. split; [reflexivity|].
    intros Hs n Hn. rewrite (P 0 0 _ eq_refl E).
    rewrite !slice_positions_empty by lia. reflexivity.
Qed.

Theorem compute_indices_translated ds index ix :
  np_index (length ds) index -> good_dims ds ->
  (forall k x, nth_error index k = Some x -> unit_element x = true -> no_none_counted index k) ->
  compute_indices ds index = Ok ix -> translated ds index ix.
Proof.
  intros Hnp Hg Hnn H. unfold compute_indices in H.
  assert (P0 : pos_after ds (length index) [] = 0) by (unfold pos_after; simpl; lia).
  unfold Zlen in H at 1. rewrite <- P0 in H.
  destruct (compute_from_spec _ _ _ _ _ H) as [L R]. split; [exact L|].
  intros k x E. destruct (R k x E) as (y & Ey & Hy). exists y. split; [exact Ey|].
  unfold elem_ok in Hy. cbn [app] in Hy.
  destruct (unit_element x) eqn:U.
  - assert (B : burns x || is_ell x = false) by (destruct x; try discriminate U; reflexivity).
    assert (C : consumes x = true) by (destruct x; try discriminate U; reflexivity).
    rewrite B in Hy. destruct Hy as (d & G & D).
    rewrite (pos_after_axis _ _ _ _ Hnp E C) in G.
    specialize (Hnn k x E U). unfold no_none_counted in Hnn.
    assert (N : nth_error ds (axis_of (length ds) index k) = Some d).
    { destruct (existsb is_ell (firstn k index)); rewrite Hnn in G;
        (rewrite py_get_nonneg in G by lia);
        match type of G with context [nth_error ds ?i] =>
          replace i with (axis_of (length ds) index k) in G by lia end;
        destruct (nth_error ds _); congruence. }
    apply names_slice_of in D; [|exact U].
    unfold means_same. destruct x; try discriminate U; exists d; split; assumption.
  - destruct (burns x || is_ell x) eqn:B.
    + subst y. destruct x; try discriminate U; try reflexivity.
      cbn [means_same as_is]. do 3 eexists. split; [reflexivity|reflexivity].
    + destruct Hy as (d & G & D).
      assert (Gd : forall t, d = DTime t -> 0 < t_freq t).
      { intros t ->. apply Hg. unfold py_get in G.
        destruct (_ <? 0) in G; [discriminate|].
        destruct (nth_error ds _) as [d'|] eqn:N in G; [|discriminate].
        injection G as ->. apply nth_error_In in N. exact N. }
      destruct x; try discriminate U; try discriminate B.
      * cbn [means_same as_is]. destruct d; cbn in D; congruence.
      * cbn [means_same]. eapply dim_int_slice_ints; eassumption.
Qed.

(** The converse: an index numpy accepts is accepted, if the dimensions can
    translate its unit elements. *)
Definition sized_dims (ds : list dim) : Prop := forall t, In (DTime t) ds -> t_size t <> None.
Theorem compute_indices_accepts ds index :
  np_index (length ds) index -> sized_dims ds ->
  count is_none index = 0%nat ->
  (forall i, ~ In (XNpInt i) index) ->
  (forall k x, nth_error index k = Some x -> unit_element x = true ->
     exists d y, nth_error ds (axis_of (length ds) index k) = Some d /\ dim_int_slice d x = Ok y) ->
  exists ix, compute_indices ds index = Ok ix.
Proof.
  intros Hnp Hs Hno Hni Hu. unfold compute_indices.
  assert (P0 : pos_after ds (length index) [] = 0) by (unfold pos_after; simpl; lia).
  unfold Zlen. rewrite <- P0.
  assert (Main : forall suf pre, index = pre ++ suf ->
     exists ix, compute_from ds (Z.of_nat (length index)) (pos_after ds (length index) pre) suf = Ok ix).
  { induction suf as [|x suf IH]; intros pre E; [eexists; reflexivity|].
    destruct (IH (pre ++ [x])) as [r Hr]; [rewrite <- app_assoc; exact E|].
    assert (Ek : nth_error index (length pre) = Some x)
      by (rewrite E, nth_error_app2, Nat.sub_diag by lia; reflexivity).
    assert (Ef : firstn (length pre) index = pre)
      by (rewrite E, firstn_app, Nat.sub_diag, firstn_all, firstn_O, app_nil_r; reflexivity).
    cbn [compute_from]. rewrite pos_after_snoc in Hr.
    destruct (burns x) eqn:B.
    { replace (is_ell x) with false in Hr by (destruct x; try discriminate B; reflexivity).
      rewrite Hr. eexists; reflexivity. }
    destruct (is_ell x) eqn:L.
    { destruct x; try discriminate L. rewrite Hr. eexists; reflexivity. }
    assert (C : consumes x = true).
    { unfold consumes. rewrite L. destruct x; try discriminate B; reflexivity. }
    pose proof (pos_after_axis _ _ _ _ Hnp Ek C) as Pa. rewrite Ef in Pa.
    assert (Pa' : pos_after ds (length index) pre = Z.of_nat (axis_of (length ds) index (length pre))).
    { assert (C0 : forall l, incl l index -> count is_none l = 0%nat).
      { intros l Hl. unfold count in *. destruct (filter is_none l) as [|z zs] eqn:F; [reflexivity|].
        assert (In z (filter is_none l)) as Hz by (rewrite F; left; reflexivity).
        apply filter_In in Hz. destruct Hz as [Hz1 Hz2].
        assert (In z (filter is_none index)) as Hz3 by (apply filter_In; split; [apply Hl; exact Hz1|exact Hz2]).
        destruct (filter is_none index); [destruct Hz3|discriminate Hno]. }
      rewrite (C0 pre), (C0 (skipn (length pre) index)) in Pa.
      - destruct (existsb is_ell pre); lia.
      - intros z Hz. rewrite <- (firstn_skipn (length pre) index). apply in_or_app; right; exact Hz.
      - intros z Hz. rewrite E. apply in_or_app; left; exact Hz. }
    assert (Hax : exists d, nth_error ds (axis_of (length ds) index (length pre)) = Some d).
    { destruct (nth_error ds _) as [d|] eqn:N; [eexists; reflexivity|].
      apply nth_error_None in N. destruct Hnp as [_ Hc]. exfalso.
      assert (Cs : (count consumes index = count consumes pre + (1 + count consumes suf))%nat)
        by (rewrite E, count_app, count_cons, C; reflexivity).
      unfold axis_of in N. rewrite Ef in N.
      destruct (existsb is_ell pre); [|lia].
      replace (skipn (length pre) index) with (x :: suf) in N
        by (rewrite E, skipn_app, Nat.sub_diag, skipn_all; reflexivity).
      rewrite count_cons, C in N. lia. }
    destruct Hax as [d Hd].
    assert (G : py_get ds (pos_after ds (length index) pre) = Ok d)
      by (rewrite Pa', py_get_nonneg, Nat2Z.id, Hd by lia; reflexivity).
    assert (D : exists y, dim_int_slice d x = Ok y).
    { destruct (unit_element x) eqn:U.
      - destruct (Hu _ _ Ek U) as (d' & y & Hd' & Hy). exists y. congruence.
      - destruct x; try discriminate U; try discriminate B; try discriminate L.
        + exfalso. apply (Hni i). rewrite E. apply in_or_app; right; left; reflexivity.
        + destruct d as [|t|s|e]; try (eexists; reflexivity).
          cbn [dim_int_slice]. unfold time_int_slice, integer_based_slice.
          specialize (Hs t). destruct (t_size t) as [sz|] eqn:Sz.
          2:{ exfalso. apply Hs; [apply nth_error_In in Hd; exact Hd|reflexivity]. }
          assert (Sp : exists v, t_span t = Ok v) by (unfold t_span; rewrite Sz; eexists; reflexivity).
          destruct Sp as [v Sp].
          destruct b as [[|?|?]|]; try (eexists; reflexivity).
          destruct a as [a|]; [|eexists; reflexivity].
          destruct (a <? 0); [rewrite Sp; eexists; reflexivity|eexists; reflexivity]. }
    destruct D as [y Hy].
    replace (match x with
             | XEll => do r0 <- compute_from ds (Z.of_nat (length index)) (pos_after ds (length index) pre + (Zlen ds - (Z.of_nat (length index) - 1))) suf; Ok (NEll :: r0)
             | _ => do d0 <- py_get ds (pos_after ds (length index) pre); do y0 <- dim_int_slice d0 x; do r0 <- compute_from ds (Z.of_nat (length index)) (pos_after ds (length index) pre + 1) suf; Ok (y0 :: r0)
             end) with
      (do d0 <- py_get ds (pos_after ds (length index) pre); do y0 <- dim_int_slice d0 x; do r0 <- compute_from ds (Z.of_nat (length index)) (pos_after ds (length index) pre + 1) suf; Ok (y0 :: r0))
      by (destruct x; try discriminate L; reflexivity).
    rewrite G. cbn [bind]. rewrite Hy. cbn [bind]. rewrite Hr. eexists; reflexivity. }
  apply (Main index []). reflexivity.
Qed.

(** ** Dimensions of a result *)

(** Where an axis of the result comes from (numpy's rule for index tuples of
    ints, slices, Ellipsis, None and one list): a new axis, an unmentioned or
    Ellipsis axis, an axis restricted by a slice, an axis picked by a list. *)
Inductive src := SNew | SKeep (ax : nat) | SSel (ax : nat) (x : aix) | SFancy (ax : nat).

Fixpoint sources_from (nd ell ax : nat) (index : list aix) : list src :=
  match index with
  | [] => map SKeep (seq ax (nd - ax))
  | XNone :: r => SNew :: sources_from nd ell ax r
  | XEll :: r => map SKeep (seq ax ell) ++ sources_from nd ell (ax + ell) r
  | XInt _ :: r | XNpInt _ :: r => sources_from nd ell (S ax) r
  | XList _ :: r => SFancy ax :: sources_from nd ell (S ax) r
  | x :: r => SSel ax x :: sources_from nd ell (S ax) r
  end.
Definition sources (nd : nat) (index : list aix) : list src :=
  sources_from nd (nd - count consumes index) 0 index.

(** the same dimension apart from the recorded number of samples *)
Definition same_dim (d e : dim) : Prop :=
  match d, e with
  | DTime t, DTime u => t_freq t = t_freq u /\ t_dur t = t_dur u
  | _, _ => d = e
  end.
(** what the dimension of an axis becomes when the axis is restricted by [x] *)
Definition restricted (d : dim) (x : aix) (e : dim) : Prop :=
  match d with
  | DIdent => e = DIdent
  | DTime _ => same_dim e d
  | DFreq _ | DExp _ =>
      dim_metaslice d x 0 = Ok e \/ dim_metaslice d x 0 = Raise IndexError /\ e = d
  end.
Definition dim_for (ds : list dim) (s : src) (e : dim) : Prop :=
  match s with
  | SNew | SFancy _ => e = DIdent
  | SKeep ax => exists d, nth_error ds ax = Some d /\ same_dim e d
  | SSel ax x => exists d, nth_error ds ax = Some d /\ restricted d x e
  end.
(** a dimension agrees with the size of its axis *)
Definition size_ok (d : dim) (n : nat) : Prop :=
  match d with
  | DTime t => t_size t = Some (Z.of_nat n)
  | DFreq s => scale_len s = n
  | DIdent | DExp _ => True
  end.
Definition consistent (sh : list nat) (ds : list dim) : Prop := Forall2 size_ok ds sh.


(** durations as the TimeDimension constructor leaves them: nonzero unless the
    frequency is *)
Definition norm_dim (d : dim) : Prop :=
  match d with DTime t => t_dur t <> 0 \/ t_freq t = 0 | _ => True end.

Lemma mk_timedim_norm f d n : norm_dim (DTime (mk_timedim f d n)).
Proof.
  unfold norm_dim, mk_timedim; cbn [t_dur t_freq]. destruct d as [d|]; [|destruct (Z.eq_dec f 0); auto].
  destruct (Z.eqb_spec d 0); [destruct (Z.eq_dec f 0); auto|auto].
Qed.
Lemma same_dim_refl d : same_dim d d.
Proof. destruct d; cbn; auto. Qed.
Lemma same_dim_trans a b c : same_dim a b -> same_dim b c -> same_dim a c.
Proof. destruct a, b; cbn; intros H1 H2; try congruence; destruct c; try congruence; destruct H1, H2; split; congruence. Qed.

Lemma fit_dim_spec d n e : norm_dim d -> fit_dim d n = Ok e ->
  size_ok e n /\ norm_dim e /\ same_dim e d.
Proof.
  intros Hn H. destruct d as [|t|s|x]; cbn in H.
  - injection H as <-. cbn; auto.
  - injection H as <-. split; [reflexivity|]. split; [apply mk_timedim_norm|].
    cbn. split; [reflexivity|]. destruct (Z.eqb_spec (t_dur t) 0); [|reflexivity].
    cbn in Hn. destruct Hn; congruence.
  - unfold fdim_validate in H. destruct (Nat.eqb_spec n (scale_len s)); [|discriminate].
    injection H as <-. cbn; auto.
  - injection H as <-. cbn; auto.
Qed.
Lemma fit_dim_id d n : norm_dim d -> size_ok d n -> fit_dim d n = Ok d.
Proof.
  destruct d as [|t|s|x]; cbn; intros Hn Hs; try reflexivity.
  - do 2 f_equal. destruct t as [f du sz]; cbn in *. unfold mk_timedim. cbn. subst sz. f_equal.
    destruct (Z.eqb_spec du 0); [|reflexivity]. destruct Hn; congruence.
  - unfold fdim_validate. subst n. rewrite Nat.eqb_refl. reflexivity.
Qed.

Lemma fit_dims_spec ds : forall sh es, length sh = length ds -> Forall norm_dim ds ->
  fit_dims ds sh = Ok es ->
  consistent sh es /\ Forall norm_dim es /\ Forall2 same_dim es ds.
Proof.
  induction ds as [|d ds IH]; intros [|n sh] es L N H; try discriminate L.
  - injection H as <-. repeat split; constructor.
  - cbn [fit_dims] in H. destruct (fit_dim d n) as [e|] eqn:E; [|discriminate]. cbn [bind] in H.
    destruct (fit_dims ds sh) as [r|] eqn:F; [|discriminate]. injection H as <-.
    inversion N as [|? ? N1 N2]; subst.
    destruct (fit_dim_spec _ _ _ N1 E) as (A & B & C).
    destruct (IH sh r) as (A' & B' & C'); [simpl in L; lia|exact N2|exact F|].
    split; [|split]; constructor; assumption.
Qed.
Lemma fit_dims_id ds sh : Forall norm_dim ds -> consistent sh ds -> fit_dims ds sh = Ok ds.
Proof.
  intros N C. induction C; [reflexivity|]. inversion N; subst. cbn [fit_dims].
  rewrite fit_dim_id by assumption. cbn [bind]. rewrite IHC by assumption. reflexivity.
Qed.
Lemma fit_dims_ok ds : forall sh, length sh = length ds ->
  (forall i s n, nth_error ds i = Some (DFreq s) -> nth_error sh i = Some n -> scale_len s = n) ->
  exists es, fit_dims ds sh = Ok es.
Proof.
  induction ds as [|d ds IH]; intros [|n sh] L H; try discriminate L; [eexists; reflexivity|].
  cbn [fit_dims].
  assert (E : exists e, fit_dim d n = Ok e).
  { destruct d as [|t|s|x]; cbn [fit_dim]; try (eexists; reflexivity).
    unfold fdim_validate. rewrite (H 0%nat s n eq_refl eq_refl). rewrite Nat.eqb_refl. eexists; reflexivity. }
  destruct E as [e E]. rewrite E. cbn [bind].
  destruct (IH sh) as [es F]; [simpl in L; lia| |rewrite F; eexists; reflexivity].
  intros i s m H1 H2. apply (H (S i)); assumption.
Qed.

Lemma metaslice_size d x m n : (forall t, d <> DTime t) -> dim_metaslice d x m = dim_metaslice d x n.
Proof. intros H. destruct d as [|t|s|e]; try reflexivity. exfalso; apply (H t); reflexivity. Qed.

Lemma Forall2_app_inv_len {A B} (R : A -> B -> Prop) l1 l2 m1 m2 :
  Forall2 R l1 m1 -> Forall2 R l2 m2 -> Forall2 R (l1 ++ l2) (m1 ++ m2).
Proof. intros H1 H2. induction H1; simpl; [exact H2|constructor; assumption]. Qed.

Lemma seq_keep_skipn ds ax : Forall2 (dim_for ds) (map SKeep (seq ax (length ds - ax))) (skipn ax ds).
Proof.
  remember (length ds - ax)%nat as k. revert ax Heqk.
  induction k as [|k IH]; intros ax E; simpl.
  - rewrite skipn_all2 by lia. constructor.
  - destruct (nth_error ds ax) as [d|] eqn:N.
    2:{ apply nth_error_None in N. lia. }
    assert (Es : skipn ax ds = d :: skipn (S ax) ds).
    { clear -N. revert ax N. induction ds as [|z ds IH]; intros [|ax] N; try discriminate N.
      - injection N as ->. reflexivity.
      - cbn [skipn]. rewrite (IH ax N). reflexivity. }
    rewrite Es. constructor; [|apply IH; lia].
    exists d. split; [exact N|apply same_dim_refl].
Qed.

Lemma ell_dims_spec ds n : forall ax, (ax + n <= length ds)%nat ->
  ell_dims ds (Z.of_nat ax) n = Ok (firstn n (skipn ax ds)) /\
  Forall2 (dim_for ds) (map SKeep (seq ax n)) (firstn n (skipn ax ds)).
Proof.
  induction n as [|n IH]; intros ax H; [split; [reflexivity|constructor]|].
  destruct (nth_error ds ax) as [d|] eqn:N.
  2:{ apply nth_error_None in N. lia. }
  assert (Es : skipn ax ds = d :: skipn (S ax) ds).
  { clear -N. revert ax N. induction ds as [|z ds IH]; intros [|ax] N; try discriminate N.
    - injection N as ->. reflexivity.
    - cbn [skipn]. rewrite (IH ax N). reflexivity. }
  destruct (IH (S ax)) as [A B]; [lia|].
  cbn [ell_dims seq map]. rewrite py_get_nonneg, Nat2Z.id, N by lia. cbn [bind].
  replace (Z.of_nat ax + 1) with (Z.of_nat (S ax)) by lia. rewrite A, Es. cbn [firstn bind].
  split; [reflexivity|]. constructor; [|exact B].
  exists d. split; [exact N|apply same_dim_refl].
Qed.

Definition fits (nd ell ax : nat) (index : list aix) : Prop :=
  (count is_ell index <= 1)%nat /\
  (ax + count is_ell index * ell + count consumes index <= nd)%nat.

Definition plain (index : list aix) : Prop := forall i, ~ In (XNpInt i) index.

Lemma plain_tl x index : plain (x :: index) -> plain index.
Proof. intros H i Hi. apply (H i). right; exact Hi. Qed.

Lemma skipn_norm ds ax : Forall norm_dim ds -> Forall norm_dim (skipn ax ds).
Proof. intros H. rewrite Forall_forall in *. intros x Hx. apply H. eapply skipn_In; exact Hx. Qed.
Lemma firstn_norm ds k : Forall norm_dim ds -> Forall norm_dim (firstn k ds).
Proof. intros H. rewrite Forall_forall in *. intros x Hx. apply H. eapply firstn_In; exact Hx. Qed.
Lemma metaslice_norm d x n e : norm_dim d -> dim_metaslice d x n = Ok e -> norm_dim e.
Proof.
  intros Hn H. destruct d as [|t|s|f]; cbn [dim_metaslice] in H.
  - injection H as <-. exact I.
  - injection H as <-. apply mk_timedim_norm.
  - destruct x; try discriminate H;
    match type of H with bind ?m _ = _ => destruct m; [|discriminate] end;
    injection H as <-; exact I.
  - destruct x; try discriminate H.
    + destruct (scale_slice_step _ _ _ _); [|discriminate]. cbn [bind] in H.
      destruct (make_efd _ _); [|discriminate]. injection H as <-. exact I.
    + destruct (efd_metaslice_band f q); [|discriminate]. injection H as <-. exact I.
Qed.

(** [_new_dims] yields one dimension per axis of the result, the right one. *)
Lemma new_dims_from_spec ds ell index : forall ax sp emitted sh r,
  fits (length ds) ell ax index -> plain index -> Forall norm_dim ds ->
  (sp <= emitted)%nat ->
  length sh = (emitted + length (sources_from (length ds) ell ax index))%nat ->
  new_dims_from ds (Z.of_nat ell) sh (Z.of_nat ax) (Z.of_nat sp) index = Ok r ->
  Forall2 (dim_for ds) (sources_from (length ds) ell ax index) r /\ Forall norm_dim r.
Proof.
  induction index as [|x index IH]; intros ax sp em sh r F P N Hs L H.
  - cbn [new_dims_from sources_from] in *. injection H as <-.
    rewrite py_slice_from, Nat2Z.id by lia.
    split; [apply seq_keep_skipn|apply skipn_norm; exact N].
  - destruct F as [F1 F2]. rewrite count_cons in F1. rewrite !count_cons in F2.
    pose proof (plain_tl _ _ P) as P'.
    assert (Sel : forall (y : aix) r0, 
       is_ell x = false -> consumes x = true ->
       sources_from (length ds) ell ax (x :: index) = SSel ax x :: sources_from (length ds) ell (S ax) index ->
       (do d <- match py_get ds (Z.of_nat ax) with Ok d => Ok d | Raise _ => Raise UnboundLocalError end;
        do m <- metaslice_or_dim d x sh (Z.of_nat sp);
        do r1 <- new_dims_from ds (Z.of_nat ell) sh (Z.of_nat ax + 1) (Z.of_nat sp + 1) index; Ok (m :: r1)) = Ok r0 ->
       Forall2 (dim_for ds) (sources_from (length ds) ell ax (x :: index)) r0 /\ Forall norm_dim r0).
    { intros _ r0 Le Co E H0. rewrite E in *. rewrite Le, Co in *.
      rewrite py_get_nonneg, Nat2Z.id in H0 by lia.
      destruct (nth_error ds ax) as [d|] eqn:Nd; [|discriminate]. cbn [bind] in H0.
      destruct (metaslice_or_dim d x sh (Z.of_nat sp)) as [m|] eqn:M; [|discriminate]. cbn [bind] in H0.
      replace (Z.of_nat ax + 1) with (Z.of_nat (S ax)) in H0 by lia.
      replace (Z.of_nat sp + 1) with (Z.of_nat (S sp)) in H0 by lia.
      destruct (new_dims_from ds (Z.of_nat ell) sh (Z.of_nat (S ax)) (Z.of_nat (S sp)) index) as [r1|] eqn:R; [|discriminate].
      injection H0 as <-. simpl length in L.
      destruct (IH (S ax) (S sp) (S em) sh r1) as [A B]; try assumption; try lia.
      { split; [lia|]. cbn in F2 |- *. lia. }
      assert (Nd' : norm_dim d) by (rewrite Forall_forall in N; apply N; apply nth_error_In in Nd; exact Nd).
      unfold metaslice_or_dim in M. rewrite py_get_nonneg, Nat2Z.id in M by lia.
      destruct (nth_error sh sp) as [sz|] eqn:Es.
      2:{ apply nth_error_None in Es. lia. }
      cbn [bind] in M.
      assert (Mr : restricted d x m /\ norm_dim m).
      { destruct (dim_metaslice d x sz) as [m'|e'] eqn:D.
        - injection M as ->. split; [|eapply metaslice_norm; eassumption].
          destruct d as [|t|s|f]; cbn [restricted].
          + cbn in D. congruence.
          + cbn in D. injection D as <-. cbn. split; [reflexivity|].
            destruct (Z.eqb_spec (t_dur t) 0); [|reflexivity]. cbn in Nd'. destruct Nd'; congruence.
          + left. rewrite (metaslice_size _ _ 0%nat sz) by congruence. exact D.
          + left. rewrite (metaslice_size _ _ 0%nat sz) by congruence. exact D.
        - destruct e'; try discriminate M. injection M as <-. split; [|exact Nd'].
          destruct d as [|t|s|f]; cbn [restricted].
          + reflexivity.
          + apply same_dim_refl.
          + right. rewrite (metaslice_size _ _ 0%nat sz) by congruence. split; [exact D|reflexivity].
          + right. rewrite (metaslice_size _ _ 0%nat sz) by congruence. split; [exact D|reflexivity]. }
      destruct Mr. split; constructor; try assumption. exists d. split; assumption. }
    destruct x as [| |i|i|l|a b st|st du|a b|q|a b].
    + (* None *)
      cbn [new_dims_from sources_from] in *.
      destruct (new_dims_from ds (Z.of_nat ell) sh (Z.of_nat ax) (Z.of_nat sp) index) as [r1|] eqn:R; [|discriminate].
      injection H as <-. simpl length in L.
      destruct (IH ax sp (S em) sh r1) as [A B]; try assumption; try lia.
      { split; [lia|]. cbn in F2 |- *. lia. }
      split; constructor; try assumption; [reflexivity|exact I].
    + (* Ellipsis *)
      cbn [new_dims_from sources_from is_ell consumes negb andb is_none] in *.
      assert (C0 : count is_ell index = 0%nat) by (cbn in F1; lia).
      rewrite !Nat2Z.id in H.
      destruct (ell_dims_spec ds ell ax) as [EA EB]; [cbn in F2; lia|].
      rewrite EA in H. cbn [bind] in H.
      replace (Z.of_nat ax + Z.of_nat ell) with (Z.of_nat (ax + ell)) in H by lia.
      replace (Z.of_nat sp + Z.of_nat ell) with (Z.of_nat (sp + ell)) in H by lia.
      destruct (new_dims_from ds (Z.of_nat ell) sh _ _ index) as [r1|] eqn:R in H; [|discriminate].
      injection H as <-. rewrite app_length, map_length, seq_length in L.
      destruct (IH (ax + ell)%nat (sp + ell)%nat (em + ell)%nat sh r1) as [A B]; try assumption; try lia.
      { split; [lia|]. rewrite C0. cbn in F2. lia. }
      split; [apply Forall2_app_inv_len; assumption|].
      apply Forall_app. split; [apply firstn_norm, skipn_norm; exact N|exact B].
    + (* int *)
      cbn [new_dims_from sources_from] in *.
      replace (Z.of_nat ax + 1) with (Z.of_nat (S ax)) in H by lia.
      apply (IH (S ax) sp em sh r); try assumption.
      split; [lia|]. cbn in F2 |- *. lia.
    + exfalso. apply (P i). left; reflexivity.
    + (* list *)
      cbn [new_dims_from sources_from] in *.
      replace (Z.of_nat ax + 1) with (Z.of_nat (S ax)) in H by lia.
      replace (Z.of_nat sp + 1) with (Z.of_nat (S sp)) in H by lia.
      destruct (new_dims_from ds (Z.of_nat ell) sh _ _ index) as [r1|] eqn:R in H; [|discriminate].
      injection H as <-. simpl length in L.
      destruct (IH (S ax) (S sp) (S em) sh r1) as [A B]; try assumption; try lia.
      { split; [lia|]. cbn in F2 |- *. lia. }
      split; constructor; try assumption; [reflexivity|exact I].
    + apply (Sel XNone); try reflexivity. exact H.
    + apply (Sel XNone); try reflexivity. exact H.
    + apply (Sel XNone); try reflexivity. exact H.
    + apply (Sel XNone); try reflexivity. exact H.
    + apply (Sel XNone); try reflexivity. exact H.
Qed.
(** [_new_dims] succeeds when the dimensions can be restricted. *)
Lemma new_dims_from_ok ds ell index : forall ax sp sh,
  fits (length ds) ell ax index -> plain index ->
  (forall ax' x d, In (SSel ax' x) (sources_from (length ds) ell ax index) -> nth_error ds ax' = Some d ->
     (exists e, dim_metaslice d x 0 = Ok e) \/ dim_metaslice d x 0 = Raise IndexError) ->
  exists r, new_dims_from ds (Z.of_nat ell) sh (Z.of_nat ax) (Z.of_nat sp) index = Ok r.
Proof.
  induction index as [|x index IH]; intros ax sp sh [F1 F2] P M; [eexists; reflexivity|].
  rewrite count_cons in F1. rewrite !count_cons in F2.
  pose proof (plain_tl _ _ P) as P'.
  assert (Sel : is_ell x = false -> consumes x = true ->
     sources_from (length ds) ell ax (x :: index) = SSel ax x :: sources_from (length ds) ell (S ax) index ->
     exists r0, (do d <- match py_get ds (Z.of_nat ax) with Ok d => Ok d | Raise _ => Raise UnboundLocalError end;
      do m <- metaslice_or_dim d x sh (Z.of_nat sp);
      do r1 <- new_dims_from ds (Z.of_nat ell) sh (Z.of_nat ax + 1) (Z.of_nat sp + 1) index; Ok (m :: r1)) = Ok r0).
  { intros Le Co E. rewrite Le, Co in *. rewrite E in M.
    rewrite py_get_nonneg, Nat2Z.id by lia.
    destruct (nth_error ds ax) as [d|] eqn:Nd.
    2:{ apply nth_error_None in Nd. cbn in F2. lia. }
    cbn [bind].
    assert (Hm : exists m, metaslice_or_dim d x sh (Z.of_nat sp) = Ok m).
    { unfold metaslice_or_dim. rewrite py_get_nonneg, Nat2Z.id by lia.
      destruct (nth_error sh sp) as [sz|]; [|eexists; reflexivity]. cbn [bind].
      destruct (M ax x d (or_introl eq_refl) Nd) as [[e He]|He]; destruct d as [|t|s|f];
        try (eexists; reflexivity);
        rewrite (metaslice_size _ _ sz 0%nat), He by congruence; eexists; reflexivity. }
    destruct Hm as [m Hm]. rewrite Hm. cbn [bind].
    replace (Z.of_nat ax + 1) with (Z.of_nat (S ax)) by lia.
    replace (Z.of_nat sp + 1) with (Z.of_nat (S sp)) by lia.
    destruct (IH (S ax) (S sp) sh) as [r R]; try assumption.
    { split; [lia|]. cbn in F2 |- *. lia. }
    { intros ax' x' d' Hin. apply M. right; exact Hin. }
    rewrite R. eexists; reflexivity. }
  destruct x as [| |i|i|l|a b st|st du|a b|q|a b].
  - cbn [new_dims_from sources_from] in *.
    destruct (IH ax sp sh) as [r R]; try assumption.
    { split; [lia|]. cbn in F2 |- *. lia. }
    { intros ax' x' d' Hin. apply M. right; exact Hin. }
    rewrite R. eexists; reflexivity.
  - cbn [new_dims_from sources_from is_ell consumes negb andb is_none] in *.
    assert (C0 : count is_ell index = 0%nat) by (cbn in F1; lia).
    rewrite !Nat2Z.id.
    destruct (ell_dims_spec ds ell ax) as [EA EB]; [cbn in F2; lia|].
    rewrite EA. cbn [bind].
    replace (Z.of_nat ax + Z.of_nat ell) with (Z.of_nat (ax + ell)) by lia.
    replace (Z.of_nat sp + Z.of_nat ell) with (Z.of_nat (sp + ell)) by lia.
    destruct (IH (ax + ell)%nat (sp + ell)%nat sh) as [r R]; try assumption.
    { split; [lia|]. rewrite C0. cbn in F2. lia. }
    { intros ax' x' d' Hin. apply M. apply in_or_app; right; exact Hin. }
    rewrite R. eexists; reflexivity.
  - cbn [new_dims_from sources_from] in *.
    replace (Z.of_nat ax + 1) with (Z.of_nat (S ax)) by lia.
    apply (IH (S ax) sp sh); try assumption.
    split; [lia|]. cbn in F2 |- *. lia.
  - exfalso. apply (P i). left; reflexivity.
  - cbn [new_dims_from sources_from] in *.
    replace (Z.of_nat ax + 1) with (Z.of_nat (S ax)) by lia.
    replace (Z.of_nat sp + 1) with (Z.of_nat (S sp)) by lia.
    destruct (IH (S ax) (S sp) sh) as [r R]; try assumption.
    { split; [lia|]. cbn in F2 |- *. lia. }
    { intros ax' x' d' Hin. apply M. right; exact Hin. }
    rewrite R. eexists; reflexivity.
  - apply Sel; reflexivity.
  - apply Sel; reflexivity.
  - apply Sel; reflexivity.
  - apply Sel; reflexivity.
  - apply Sel; reflexivity.
Qed.

Lemma dim_for_same ds s e e' : dim_for ds s e -> same_dim e' e -> dim_for ds s e'.
Proof.
  intros H S. destruct s as [|ax|ax x|ax]; cbn [dim_for] in *.
  - subst e. destruct e'; cbn in S; congruence.
  - destruct H as (d & N & H). exists d. split; [exact N|]. eapply same_dim_trans; eassumption.
  - destruct H as (d & N & H). exists d. split; [exact N|].
    destruct d as [|t|sc|f]; cbn [restricted] in *.
    + subst e. destruct e'; cbn in S; congruence.
    + eapply same_dim_trans; eassumption.
    + assert (exists s', e = DFreq s') as [s' ->].
      { destruct H as [H|[_ ->]]; [|eexists; reflexivity]. cbn [dim_metaslice] in H.
        destruct x; try discriminate H;
          match type of H with bind ?m _ = _ => destruct m; [|discriminate] end;
          injection H as <-; eexists; reflexivity. }
      destruct e'; cbn in S; try discriminate S. injection S as ->. exact H.
    + assert (exists s', e = DExp s') as [s' ->].
      { destruct H as [H|[_ ->]]; [|eexists; reflexivity]. cbn [dim_metaslice] in H.
        destruct x; try discriminate H.
        - destruct (scale_slice_step _ _ _ _); [|discriminate]. cbn [bind] in H.
          destruct (make_efd _ _); [|discriminate]. injection H as <-. eexists; reflexivity.
        - destruct (efd_metaslice_band f q); [|discriminate]. injection H as <-. eexists; reflexivity. }
      destruct e'; cbn in S; try discriminate S. injection S as ->. exact H.
  - subst e. destruct e'; cbn in S; congruence.
Qed.
Lemma dim_for_all ds ss es es' : Forall2 (dim_for ds) ss es -> Forall2 same_dim es' es -> Forall2 (dim_for ds) ss es'.
Proof.
  intros H. revert es'. induction H; intros es' S; inversion S; subst; constructor.
  - eapply dim_for_same; eassumption.
  - apply IHForall2; assumption.
Qed.
Lemma Forall2_len {A B} (R : A -> B -> Prop) l m : Forall2 R l m -> length l = length m.
Proof. induction 1; simpl; congruence. Qed.
Lemma same_dims_sym es ds : Forall2 same_dim es ds -> Forall2 same_dim ds es.
Proof.
  induction 1 as [|d e ? ? S]; constructor; [|assumption].
  destruct d, e; cbn in *; try congruence. destruct S; split; congruence.
Qed.

(** Index tuples whose number of axes numpy determines by counting. *)
Definition is_int (x : aix) : bool := match x with XInt _ | XNpInt _ => true | _ => false end.
Definition is_list (x : aix) : bool := match x with XList _ => true | _ => false end.
Definition n_none (x : nix) : bool := match x with NNone => true | _ => false end.
Definition n_int (x : nix) : bool := match x with NInt _ | NNpInt _ => true | _ => false end.
Definition n_list (x : nix) : bool := match x with NList _ => true | _ => false end.
Definition simple (index : list aix) : Prop :=
  (count is_list index <= 1)%nat /\ (count is_list index = 1%nat -> count is_int index = 0%nat).
Definition simple_nix (ix : list nix) : Prop :=
  (count n_list ix <= 1)%nat /\ (count n_list ix = 1%nat -> count n_int ix = 0%nat).

Lemma dim_int_slice_kind d x y : unit_element x = true \/ (exists a b s, x = XSl a b s) ->
  dim_int_slice d x = Ok y -> n_none y = false /\ n_int y = false /\ n_list y = false.
Proof.
  intros Hx H.
  assert (K : (exists a b s, y = NSl a b s) \/ y = NObj).
  { destruct d as [|t|s|e]; destruct x as [| |i|i|l|a b st|st du|a b|q|a b];
      try (exfalso; destruct Hx as [Hx|(?&?&?&Hx)]; discriminate Hx); cbn [dim_int_slice as_is] in H;
      try (injection H as <-; (right; reflexivity) || (left; do 3 eexists; reflexivity));
      try discriminate H;
      try (match type of H with bind ?m _ = _ => destruct m as [[? ?]|]; [|discriminate] end;
           injection H as <-; left; do 3 eexists; reflexivity).
    unfold time_int_slice in H.
    destruct b as [[|b|b]|]; try (injection H as <-; left; do 3 eexists; reflexivity).
    destruct a as [a|]; [destruct (a <? 0)|].
    - destruct (t_span t) as [e|]; [|discriminate]. cbn [bind] in H.
      match type of H with bind ?m _ = _ => destruct m as [[? ?]|]; [|discriminate] end.
      injection H as <-; left; do 3 eexists; reflexivity.
    - injection H as <-; left; do 3 eexists; reflexivity.
    - match type of H with bind ?m _ = _ => destruct m as [[? ?]|]; [|discriminate] end.
      injection H as <-; left; do 3 eexists; reflexivity. }
  destruct K as [(?&?&?&->)| ->]; repeat split.
Qed.

Lemma compute_kinds ds index ix : plain index -> compute_indices ds index = Ok ix ->
  count n_none ix = count is_none index /\ count n_int ix = count is_int index /\
  count n_list ix = count is_list index.
Proof.
  unfold compute_indices. intros P. generalize (Zlen index) as n. generalize 0 as pos. intros pos n.
  revert pos ix. induction index as [|x index IH]; intros pos ix H.
  - injection H as <-. repeat split.
  - pose proof (plain_tl _ _ P) as P'. cbn [compute_from] in H.
    assert (G : forall p r y, compute_from ds n p index = Ok r ->
       n_none y = is_none x -> n_int y = is_int x -> n_list y = is_list x ->
       count n_none (y :: r) = count is_none (x :: index) /\
       count n_int (y :: r) = count is_int (x :: index) /\
       count n_list (y :: r) = count is_list (x :: index)).
    { intros p r y Hr A B C. destruct (IH P' _ _ Hr) as (D & E & F).
      rewrite !count_cons, A, B, C, D, E, F. repeat split. }
    destruct (burns x) eqn:B.
    + destruct (compute_from ds n (pos + 1) index) as [r|] eqn:R; [|discriminate]. injection H as <-.
      apply (G _ _ _ R); destruct x; try discriminate B; reflexivity.
    + destruct x; try discriminate B;
      try (destruct (py_get ds pos) as [d|]; [|discriminate]; cbn [bind] in H;
           match type of H with bind ?m _ = _ => destruct m as [y|] eqn:D; [|discriminate] end; cbn [bind] in H;
           destruct (compute_from ds n (pos + 1) index) as [r|] eqn:R; [|discriminate]; injection H as <-;
           apply dim_int_slice_kind in D; [destruct D as (? & ? & ?); apply (G _ _ _ R); assumption|
             ((left; reflexivity) || (right; do 3 eexists; reflexivity))]).
      * destruct (compute_from ds n _ index) as [r|] eqn:R in H; [|discriminate]. injection H as <-.
        apply (G _ _ _ R); reflexivity.
      * exfalso. apply (P i). left; reflexivity.
Qed.

Lemma sources_length nd index : np_index nd index -> plain index ->
  (length (sources nd index) + count is_int index = nd + count is_none index)%nat.
Proof.
  intros [C1 C2] P. unfold sources.
  assert (G : forall l ax ell, (count is_ell l <= 1)%nat -> (ax + count is_ell l * ell + count consumes l <= nd)%nat ->
     (length (sources_from nd ell ax l) + ax + count is_int l = nd + count is_none l)%nat).
  { induction l as [|x l IH]; intros ax ell A B.
    - cbn [sources_from]. rewrite map_length, seq_length. cbn in B |- *. lia.
    - rewrite !count_cons in *. destruct x; cbn [sources_from is_ell is_none is_int consumes negb andb] in *;
      try (cbn [length]; specialize (IH (S ax) ell); lia).
      + cbn [length]. specialize (IH ax ell). lia.
      + rewrite app_length, map_length, seq_length. specialize (IH (ax + ell)%nat ell).
        assert (Z0 : count is_ell l = 0%nat) by lia. rewrite Z0 in *. lia. }
  specialize (G index 0%nat (nd - count consumes index)%nat C1).
  destruct (count is_ell index) as [|[|]]; lia.
Qed.

Section AwuProofs.
  Context {X : Type} (shape_of : X -> list nat) (np_get : X -> list nix -> result X).

  (** What every ArrayWithUnits satisfies once constructed. *)
  Definition well_formed (a : @awu X) : Prop :=
    consistent (shape_of (data a)) (dims a) /\ Forall norm_dim (dims a).

  Lemma awu_new_spec x ds a : Forall norm_dim ds -> awu_new shape_of x ds = Ok a ->
    data a = x /\ length ds = length (shape_of x) /\ well_formed a /\ Forall2 same_dim (dims a) ds.
  Proof.
    intros N H. unfold awu_new in H.
    destruct (Nat.eqb_spec (length (shape_of x)) (length ds)) as [L|]; [|discriminate].
    destruct (fit_dims ds (shape_of x)) as [es|] eqn:F; [|discriminate]. injection H as <-.
    destruct (fit_dims_spec _ _ _ L N F) as (A & B & C).
    split; [reflexivity|]. split; [congruence|]. split; [split; assumption|assumption].
  Qed.
  Lemma awu_new_mismatch x ds : length (shape_of x) <> length ds -> awu_new shape_of x ds = Raise ValueError.
  Proof. intros H. unfold awu_new. destruct (Nat.eqb_spec (length (shape_of x)) (length ds)); [contradiction|reflexivity]. Qed.

  Lemma awu_new_ok x ds : length (shape_of x) = length ds ->
    (forall i s n, nth_error ds i = Some (DFreq s) -> nth_error (shape_of x) i = Some n -> scale_len s = n) ->
    exists a, awu_new shape_of x ds = Ok a.
  Proof.
    intros L H. unfold awu_new. rewrite (proj2 (Nat.eqb_eq _ _) L).
    destruct (fit_dims_ok ds (shape_of x) L H) as [es F]. rewrite F. eexists; reflexivity.
  Qed.

  (** the result of indexing has one axis per source *)
  Definition np_ndim (nd : nat) (index : list aix) (arr : X) : Prop :=
    length (shape_of arr) = length (sources nd index).

  Lemma new_dims_spec (a : @awu X) index arr r :
    well_formed a -> np_index (length (dims a)) index -> plain index ->
    np_ndim (length (dims a)) index arr ->
    new_dims (dims a) index (shape_of arr) = Ok r ->
    Forall2 (dim_for (dims a)) (sources (length (dims a)) index) r /\ Forall norm_dim r.
  Proof.
    intros [_ N] [C1 C2] P L H. unfold new_dims in H.
    replace (Zlen (dims a) - Z.of_nat (count consumes index)) with
      (Z.of_nat (length (dims a) - count consumes index)) in H by (unfold Zlen; lia).
    eapply (new_dims_from_spec (dims a) _ index 0%nat 0%nat 0%nat (shape_of arr)); try eassumption.
    - split; [exact C1|]. destruct (count is_ell index) as [|[|]]; cbn; lia.
    - lia.
  Qed.

  (** numpy's contract on the number of axes: None adds one, an int removes
      one; for index tuples with at most one list and no list together with ints *)
  Definition np_contract : Prop := forall x ix arr, np_get x ix = Ok arr -> simple_nix ix ->
    (length (shape_of arr) + count n_int ix = length (shape_of x) + count n_none ix)%nat.

  Lemma np_ndim_from_contract a index ix arr :
    np_contract -> well_formed a -> np_index (length (dims a)) index -> plain index -> simple index ->
    compute_indices (dims a) index = Ok ix -> np_get (data a) ix = Ok arr ->
    np_ndim (length (dims a)) index arr.
  Proof.
    intros K [C _] I P S E G. destruct (compute_kinds _ _ _ P E) as (K1 & K2 & K3).
    assert (S' : simple_nix ix).
    { destruct S as [S1 S2]. unfold simple_nix. rewrite K2, K3. split; assumption. }
    pose proof (K _ _ _ G S') as L. rewrite K1, K2 in L.
    pose proof (sources_length (length (dims a)) index I P). pose proof (Forall2_len _ _ _ C).
    unfold np_ndim. lia.
  Qed.

  Theorem getitem_spec (a : @awu X) index r :
    well_formed a -> np_index (length (dims a)) index -> plain index ->
    np_contract -> simple index ->
    getitem shape_of np_get a index = Ok r ->
    well_formed r /\ Forall2 (dim_for (dims a)) (sources (length (dims a)) index) (dims r).
  Proof.
    intros W C P K Sm H. unfold getitem in H.
    destruct (compute_indices (dims a) index) as [ix|] eqn:E1; [|discriminate]. cbn [bind] in H.
    destruct (np_get (data a) ix) as [arr|] eqn:E2; [|discriminate]. cbn [bind] in H.
    destruct (new_dims (dims a) index (shape_of arr)) as [ds|] eqn:E3; [|discriminate]. cbn [bind] in H.
    destruct (new_dims_spec _ _ _ _ W C P (np_ndim_from_contract _ _ _ _ K W C P Sm E1 E2) E3) as [D N].
    destruct (awu_new_spec _ _ _ N H) as (_ & _ & W' & S).
    split; [exact W'|]. eapply dim_for_all; eassumption.
  Qed.

  (** ... and an index numpy accepts is accepted, for arrays without frequency
      axes: no ValueError about the number of dimensions. *)
  Definition no_freq (ds : list dim) : Prop :=
    forall d, In d ds -> d = DIdent \/ exists t, d = DTime t.
  Theorem getitem_accepts a index ix arr :
    well_formed a -> np_index (length (dims a)) index -> plain index -> no_freq (dims a) ->
    np_contract -> simple index ->
    compute_indices (dims a) index = Ok ix -> np_get (data a) ix = Ok arr ->
    exists r, getitem shape_of np_get a index = Ok r /\ data r = arr.
  Proof.
    intros W C P NF K Sm E1 E2.
    pose proof (np_ndim_from_contract _ _ _ _ K W C P Sm E1 E2) as Hnp. unfold getitem. rewrite E1. cbn [bind]. rewrite E2. cbn [bind].
    assert (E3 : exists ds, new_dims (dims a) index (shape_of arr) = Ok ds).
    { unfold new_dims. destruct C as [C1 C2].
      replace (Zlen (dims a) - Z.of_nat (count consumes index)) with
        (Z.of_nat (length (dims a) - count consumes index)) by (unfold Zlen; lia).
      apply (new_dims_from_ok (dims a) _ index 0%nat 0%nat).
      - split; [exact C1|]. destruct (count is_ell index) as [|[|]]; cbn; lia.
      - exact P.
      - intros ax' x d _ Hd. left. apply nth_error_In in Hd. destruct (NF d Hd) as [->|[t ->]]; eexists; reflexivity. }
    destruct E3 as [ds E3]. rewrite E3. cbn [bind].
    destruct (new_dims_spec _ _ _ _ W C P Hnp E3) as [D N].
    assert (L : length (shape_of arr) = length ds) by (rewrite Hnp; exact (Forall2_len _ _ _ D)).
    destruct (awu_new_ok arr ds L) as [r R].
    { intros i s n Hi Hn. exfalso.
      assert (Hs : exists sr, nth_error (sources (length (dims a)) index) i = Some sr /\ dim_for (dims a) sr (DFreq s)).
      { clear -D Hi. revert i Hi. induction D; intros [|i] Hi; try discriminate Hi.
        - injection Hi as ->. eexists; split; [reflexivity|assumption].
        - apply IHD. exact Hi. }
      destruct Hs as (sr & _ & Hs). destruct sr as [|ax|ax x|ax]; cbn in Hs.
      - discriminate.
      - destruct Hs as (d & Hd & Hs). apply nth_error_In in Hd. destruct (NF d Hd) as [->|[t ->]]; cbn in Hs; discriminate.
      - destruct Hs as (d & Hd & Hs). apply nth_error_In in Hd. destruct (NF d Hd) as [->|[t ->]]; cbn in Hs; discriminate.
      - discriminate. }
    exists r. split; [exact R|]. exact (proj1 (awu_new_spec _ _ _ N R)).
  Qed.

  Theorem getitem_data a index r :
    np_index (length (dims a)) index -> good_dims (dims a) ->
    (forall k x, nth_error index k = Some x -> unit_element x = true -> no_none_counted index k) ->
    getitem shape_of np_get a index = Ok r ->
    exists ix, translated (dims a) index ix /\ np_get (data a) ix = Ok (data r).
  Proof.
    intros C G Hn H. unfold getitem in H.
    destruct (compute_indices (dims a) index) as [ix|] eqn:E1; [|discriminate]. cbn [bind] in H.
    destruct (np_get (data a) ix) as [arr|] eqn:E2; [|discriminate]. cbn [bind] in H.
    destruct (new_dims (dims a) index (shape_of arr)) as [ds|] eqn:E3; [|discriminate]. cbn [bind] in H.
    exists ix. split; [eapply compute_indices_translated; eassumption|].
    unfold awu_new in H. destruct (_ =? _)%nat; [|discriminate].
    destruct (fit_dims ds (shape_of arr)); [|discriminate]. injection H as <-. exact E2.
  Qed.

  (** a well-formed array's dimensions re-attach without change *)
  Lemma awu_new_same x ds : consistent (shape_of x) ds -> Forall norm_dim ds ->
    awu_new shape_of x ds = Ok (mkAwu x ds).
  Proof.
    intros C N. unfold awu_new. rewrite <- (Forall2_len _ _ _ C), Nat.eqb_refl.
    rewrite fit_dims_id by assumption. reflexivity.
  Qed.

  Theorem transpose_spec tr (a : @awu X) :
    well_formed a -> shape_of (tr (data a)) = rev (shape_of (data a)) ->
    transpose shape_of tr a = Ok (mkAwu (tr (data a)) (rev (dims a))) /\
    well_formed (mkAwu (tr (data a)) (rev (dims a))).
  Proof.
    intros [C N] S. assert (C' : consistent (shape_of (tr (data a))) (rev (dims a))).
    { rewrite S. unfold consistent in *. clear -C. induction C; simpl; [constructor|].
      apply Forall2_app_inv_len; [assumption|]. constructor; [assumption|constructor]. }
    assert (N' : Forall norm_dim (rev (dims a))) by (apply Forall_rev; exact N).
    split; [apply awu_new_same; assumption|split; assumption].
  Qed.

  (** axis [i] of [nd] is named by [axes], possibly from the end *)
  Definition named (nd : nat) (axes : list Z) (i : nat) : bool :=
    existsb (Z.eqb (Z.of_nat i)) axes || existsb (Z.eqb (Z.of_nat i - Z.of_nat nd)) axes.
  (** the elements at the positions satisfying [p], from position [i] *)
  Fixpoint select {A} (p : nat -> bool) (i : nat) (l : list A) : list A :=
    match l with
    | [] => []
    | x :: l' => if p i then x :: select p (S i) l' else select p (S i) l'
    end.
  (** replace the elements at the positions satisfying [p] *)
  Fixpoint replace_at {A} (p : nat -> bool) (v : A) (i : nat) (l : list A) : list A :=
    match l with
    | [] => []
    | x :: l' => (if p i then v else x) :: replace_at p v (S i) l'
    end.

  Lemma replace_at_F2 {A B} (R : A -> B -> Prop) p v w l m k : R v w -> Forall2 R l m ->
    Forall2 R (replace_at p v k l) (replace_at p w k m).
  Proof. intros Hv H. revert k. induction H; intros k; simpl; constructor; [destruct (p k); assumption|apply IHForall2]. Qed.
  Lemma select_F2 {A B} (R : A -> B -> Prop) p l m k : Forall2 R l m ->
    Forall2 R (select p k l) (select p k m).
  Proof. intros H. revert k. induction H; intros k; simpl; [constructor|]. destruct (p k); [constructor; [assumption|]|]; apply IHForall2. Qed.
  Lemma replace_at_F {A} (R : A -> Prop) p v l k : R v -> Forall R l -> Forall R (replace_at p v k l).
  Proof. intros Hv H. revert k. induction H; intros k; simpl; constructor; [destruct (p k); assumption|apply IHForall]. Qed.
  Lemma select_F {A} (R : A -> Prop) p l k : Forall R l -> Forall R (select p k l).
  Proof. intros H. revert k. induction H; intros k; simpl; [constructor|]. destruct (p k); [constructor; [assumption|]|]; apply IHForall. Qed.

  Lemma reduced_named nd axes i : (i < nd)%nat ->
    reduced (Z.of_nat nd) axes i = named nd axes i.
  Proof.
    intros Hi. unfold reduced, named, norm_axes. induction axes as [|x axes IH]; [reflexivity|].
    cbn [map existsb]. rewrite IH.
    destruct (Z.ltb_spec x 0);
    destruct (Z.eqb_spec (Z.of_nat i) x); destruct (Z.eqb_spec (Z.of_nat i - Z.of_nat nd) x);
    try (destruct (Z.eqb_spec (Z.of_nat i) (Z.of_nat nd + x))); try lia;
    destruct (existsb (Z.eqb (Z.of_nat i)) axes); cbn; try reflexivity; try lia.
  Qed.

  Lemma reduce_dims_spec ds axes keep :
    reduce_dims ds axes keep =
    if keep then replace_at (named (length ds) axes) DIdent 0 ds
    else select (fun i => negb (named (length ds) axes i)) 0 ds.
  Proof.
    unfold reduce_dims. unfold Zlen. remember (length ds) as nd eqn:En.
    assert (G : forall k l, (k + length l <= nd)%nat ->
      (map (fun p => if reduced (Z.of_nat nd) axes (fst p) then DIdent else snd p) (combine (seq k (length l)) l)
       = replace_at (named nd axes) DIdent k l) /\
      (map snd (filter (fun p => negb (reduced (Z.of_nat nd) axes (fst p))) (combine (seq k (length l)) l))
       = select (fun i => negb (named nd axes i)) k l)).
    { intros k l. revert k. induction l as [|d l IH]; intros k H; [split; reflexivity|].
      simpl length in H. destruct (IH (S k)) as [A B]; [lia|].
      cbn [length seq combine map filter fst snd replace_at select].
      rewrite reduced_named by lia. split.
      - f_equal. exact A.
      - destruct (named nd axes k); cbn [negb]; [exact B|]. cbn [map snd]. f_equal. exact B. }
    destruct (G 0%nat ds) as [A B]; [lia|]. rewrite <- En in A, B.
    destruct keep; [exact A|exact B].
  Qed.

  (** sum, max, ... over [axes], numpy's result [r] having the axes it should *)
  Theorem reduction_spec (a : @awu X) (r : X) axes (keep : bool) :
    well_formed a -> shape_of r <> [] ->
    shape_of r = (if keep then replace_at (named (length (dims a)) axes) 1%nat 0 (shape_of (data a))
                  else select (fun i => negb (named (length (dims a)) axes i)) 0 (shape_of (data a))) ->
    let ds := if keep then replace_at (named (length (dims a)) axes) DIdent 0 (dims a)
              else select (fun i => negb (named (length (dims a)) axes i)) 0 (dims a) in
    reduction shape_of a r axes keep = Ok (mkAwu r ds) /\ well_formed (mkAwu r ds).
  Proof.
    intros [C N] Ne S ds. unfold reduction. rewrite reduce_dims_spec. fold ds.
    replace (length (shape_of r) =? 0)%nat with false by (destruct (shape_of r); [congruence|reflexivity]).
    cbn [andb].
    assert (C' : consistent (shape_of r) ds).
    { rewrite S. subst ds. destruct keep; [apply replace_at_F2; [exact I|exact C]|apply select_F2; exact C]. }
    assert (N' : Forall norm_dim ds).
    { subst ds. destruct keep; [apply replace_at_F; [exact I|exact N]|apply select_F; exact N]. }
    split; [apply awu_new_same; assumption|split; assumption].
  Qed.

  (** a reduction over all axes (without keepdims) of an array with axes fails *)
  Theorem reduction_all_axes (a : @awu X) (r : X) axes keep :
    shape_of r = [] -> dims a <> [] -> reduction shape_of a r axes keep = Raise AttributeError.
  Proof.
    intros S D. unfold reduction. rewrite S. destruct (dims a); [congruence|reflexivity].
  Qed.

  (** ** squeeze and reshape *)
  (** numpy's reshape: succeeds exactly when the number of items is kept; every
      axis has the requested size, or was requested as -1 *)
  Definition np_reshape (rs : X -> list Z -> result X) : Prop :=
    (forall x req y, rs x req = Ok y ->
       Forall2 (fun z n => z = -1 \/ z = Z.of_nat n) req (shape_of y) /\
       np_size (shape_of y) = np_size (shape_of x)) /\
    (forall x sh, np_size sh = np_size (shape_of x) -> exists y, rs x (map Z.of_nat sh) = Ok y).

  Lemma np_size_squeeze sh : (forall n, In n sh -> (1 <= n)%nat) -> np_size (squeeze_shape sh) = np_size sh.
  Proof.
    unfold squeeze_shape. induction sh as [|n sh IH]; intros H; [reflexivity|].
    cbn [filter]. destruct (Nat.ltb_spec 1 n).
    - cbn [np_size fold_right]. unfold np_size in IH. rewrite IH; [reflexivity|].
      intros m Hm. apply H. right; exact Hm.
    - assert (n = 1)%nat by (specialize (H n (or_introl eq_refl)); lia). subst n.
      rewrite IH by (intros m Hm; apply H; right; exact Hm). unfold np_size; simpl. lia.
  Qed.
  Lemma squeeze_consistent sh ds : consistent sh ds ->
    consistent (squeeze_shape sh) (squeeze_dims sh ds).
  Proof.
    unfold consistent, squeeze_shape, squeeze_dims. induction 1 as [|d n ds sh H H0 IH]; [constructor|].
    cbn [combine filter fst]. destruct (1 <? n)%nat; [cbn; constructor; assumption|exact IH].
  Qed.
  Lemma squeeze_norm sh ds : Forall norm_dim ds -> Forall norm_dim (squeeze_dims sh ds).
  Proof.
    unfold squeeze_dims. intros N. revert sh. induction N; intros [|n sh]; try constructor.
    cbn [combine filter fst]. destruct (1 <? n)%nat; [cbn; constructor; [assumption|]|]; apply IHN.
  Qed.
  Lemma reshaped_shape rs x sh y : np_reshape rs -> rs x (map Z.of_nat sh) = Ok y -> shape_of y = sh.
  Proof.
    intros [R _] H. destruct (R _ _ _ H) as [F _]. clear -F.
    remember (map Z.of_nat sh) as req. revert sh Heqreq.
    induction F as [|z n req m H F IH]; intros [|k sh] E; try discriminate E; [reflexivity|].
    injection E as -> ->. f_equal; [lia|]. apply IH. reflexivity.
  Qed.
  (** for arrays without an empty axis, squeeze keeps the dimensions of exactly
      the axes longer than one *)
  Theorem squeeze_spec rs (a : @awu X) :
    well_formed a -> np_reshape rs -> (forall n, In n (shape_of (data a)) -> (1 <= n)%nat) ->
    exists r, squeeze shape_of rs a = Ok r /\ well_formed r /\
      shape_of (data r) = filter (fun n => 1 <? n)%nat (shape_of (data a)) /\
      dims r = squeeze_dims (shape_of (data a)) (dims a).
  Proof.
    intros [C N] R P. unfold squeeze.
    destruct (proj2 R (data a) (squeeze_shape (shape_of (data a)))) as [y Hy]; [apply np_size_squeeze; exact P|].
    rewrite Hy. cbn [bind]. pose proof (reshaped_shape _ _ _ _ R Hy) as Sy.
    assert (C' : consistent (shape_of y) (squeeze_dims (shape_of (data a)) (dims a)))
      by (rewrite Sy; apply squeeze_consistent; exact C).
    eexists. split; [apply awu_new_same; [exact C'|apply squeeze_norm; exact N]|].
    split; [split; [exact C'|apply squeeze_norm; exact N]|]. split; [exact Sy|reflexivity].
  Qed.
  (** an array with an empty axis cannot be squeezed (numpy's ValueError) *)
  Theorem squeeze_empty_refuted rs (a : @awu X) :
    (forall x req, np_size (map Z.to_nat req) <> np_size (shape_of x) -> rs x req = Raise ValueError) ->
    In 0%nat (shape_of (data a)) -> squeeze shape_of rs a = Raise ValueError.
  Proof.
    intros R H. unfold squeeze. rewrite R; [reflexivity|].
    assert (Z0 : np_size (shape_of (data a)) = 0%nat).
    { unfold np_size. induction (shape_of (data a)) as [|n sh IH]; [destruct H|].
      destruct H as [->|H]; [reflexivity|]. simpl. rewrite IH by exact H. lia. }
    rewrite Z0, map_map. unfold squeeze_shape.
    assert (Pos : forall sh, np_size (map (fun n => Z.to_nat (Z.of_nat n)) (filter (fun n => 1 <? n)%nat sh)) <> 0%nat).
    { induction sh as [|n sh IH]; [cbn; lia|]. cbn [filter]. destruct (Nat.ltb_spec 1 n); [|exact IH].
      cbn [map np_size fold_right]. unfold np_size in IH. rewrite Nat2Z.id. nia. }
    apply Pos.
  Qed.

  Definition zs_eqb_true a b : zlist_eqb a b = true -> a = b.
  Proof. unfold zlist_eqb. destruct (list_eq_dec Z.eq_dec a b); [auto|discriminate]. Qed.

  Lemma insert_ones_consistent req : forall sh ds sh',
    map Z.of_nat sh = filter (fun z => negb (Z.abs z =? 1)) req ->
    consistent sh ds -> Forall2 (fun z n => z = -1 \/ z = Z.of_nat n) req sh' ->
    consistent sh' (insert_ones req ds).
  Proof.
    induction req as [|z req IH]; intros sh ds sh' E C F; inversion F as [|? n ? sh'' Hz F']; subst; [constructor|].
    cbn [insert_ones]. cbn [filter] in E. destruct (Z.eqb_spec (Z.abs z) 1) as [Ez|Ez]; cbn [negb] in E.
    - constructor; [exact I|]. eapply IH; eassumption.
    - destruct sh as [|m sh]; [discriminate E|]. injection E as E1 E2. inversion C as [|d ? ds' ? Hd C']; subst.
      constructor; [|eapply IH; eassumption].
      replace n with m by lia. exact Hd.
  Qed.
  Lemma insert_ones_norm req ds : Forall norm_dim ds -> Forall norm_dim (insert_ones req ds).
  Proof.
    revert ds. induction req as [|z req IH]; intros ds N; cbn [insert_ones]; [constructor|].
    destruct (Z.abs z =? 1); [constructor; [exact I|apply IH; exact N]|].
    destruct ds as [|d ds]; [apply IH; constructor|]. inversion N; subst. constructor; [assumption|apply IH; assumption].
  Qed.
  Lemma ident_consistent sh {B} (l : list B) : length l = length sh -> consistent sh (map (fun _ => DIdent) l).
  Proof. revert sh. induction l; intros [|n sh] L; try discriminate L; constructor; [exact I|apply IHl; simpl in L; lia]. Qed.

  (** reshape succeeds whenever numpy's does; the result has one dimension per
      axis; adding axes of length one keeps the other dimensions in order; any
      other change of shape gives plain axes *)
  Theorem reshape_spec rs (a : @awu X) req y :
    well_formed a -> np_reshape rs -> (forall n, In n (shape_of (data a)) -> (1 <= n)%nat) ->
    rs (data a) req = Ok y ->
    exists r, reshape shape_of rs a req = Ok r /\ well_formed r /\ shape_of (data r) = shape_of y /\
      (dims r = squeeze_dims (shape_of (data a)) (dims a) \/
       dims r = insert_ones req (dims a) /\ map Z.of_nat (shape_of (data a)) = filter (fun z => negb (Z.abs z =? 1)) req \/
       dims r = map (fun _ => DIdent) req).
  Proof.
    intros W R P Hy. pose proof (proj1 R _ _ _ Hy) as [F _]. unfold reshape.
    destruct (zlist_eqb req _) eqn:E1.
    - apply zs_eqb_true in E1.
      destruct (squeeze_spec rs a W R P) as (r & H & W' & S & D). exists r. split; [exact H|].
      split; [exact W'|]. split; [|left; exact D]. rewrite S.
      assert (Er : req = map Z.of_nat (filter (fun n => 1 <? n)%nat (shape_of (data a)))).
      { rewrite E1. clear -P. induction (shape_of (data a)) as [|n sh IH]; [reflexivity|].
        cbn [map filter]. assert (1 <= n)%nat by (apply P; left; reflexivity).
        rewrite IH by (intros m Hm; apply P; right; exact Hm).
        destruct (Nat.ltb_spec 1 n); destruct (Z.eqb_spec (Z.abs (Z.of_nat n)) 1); cbn [negb]; try lia; reflexivity. }
      symmetry. apply (reshaped_shape rs (data a)); [exact R|]. rewrite <- Er. exact Hy.
    - destruct W as [C N]. destruct (zlist_eqb (map Z.of_nat _) _) eqn:E2.
      + apply zs_eqb_true in E2. rewrite Hy. cbn [bind].
        assert (C' : consistent (shape_of y) (insert_ones req (dims a))) by (eapply insert_ones_consistent; eassumption).
        assert (N' : Forall norm_dim (insert_ones req (dims a))) by (apply insert_ones_norm; exact N).
        eexists. split; [apply awu_new_same; assumption|]. split; [split; assumption|].
        split; [reflexivity|]. right; left. split; [reflexivity|exact E2].
      + rewrite Hy. cbn [bind].
        assert (C' : consistent (shape_of y) (map (fun _ => DIdent) req))
          by (apply ident_consistent; exact (Forall2_len _ _ _ F)).
        assert (N' : Forall norm_dim (map (fun _ : Z => DIdent) req)).
        { apply Forall_forall. intros d Hd. apply in_map_iff in Hd. destruct Hd as (z & <- & _). exact I. }
        eexists. split; [apply awu_new_same; assumption|]. split; [split; assumption|].
        split; [reflexivity|]. right; right. reflexivity.
  Qed.

  (** ** concatenation *)
  Definition agree (d e : dim) : Prop :=
    match d, e with
    | DTime t, DTime u => t_freq t = t_freq u /\ t_dur t = t_dur u
    | DIdent, DIdent => True
    | (DFreq _ | DExp _), (DFreq _ | DExp _) => dim_eq d e = Ok true
    | _, _ => False
    end.
  Lemma dim_eq_agree d e : dim_eq d e = Ok true -> agree d e.
  Proof.
    destruct d as [|t|s|x], e as [|u|s'|y]; cbn [agree]; intros H; try exact I; try exact H; try discriminate H.
    cbn in H. injection H as H. apply andb_prop in H. destruct H as [H1 H2].
    apply Z.eqb_eq in H1, H2. split; assumption.
  Qed.
  Lemma dims_eq_agree ds : forall es, dims_eq ds es = Ok true -> Forall2 agree ds es.
  Proof.
    induction ds as [|d ds IH]; intros [|e es] H; try discriminate H; [constructor|].
    cbn [dims_eq] in H. destruct (dim_eq d e) as [[|]|] eqn:E; try discriminate H.
    constructor; [apply dim_eq_agree; exact E|apply IH; exact H].
  Qed.
  Theorem concat_spec cat (a : @awu X) rest r :
    well_formed a -> concat shape_of cat (a :: rest) = Ok r ->
    well_formed r /\ cat (map data (a :: rest)) = Ok (data r) /\
    Forall2 same_dim (dims r) (dims a) /\
    forall b, In b rest -> Forall2 agree (dims b) (dims a).
  Proof.
    intros [C N] H. unfold concat in H.
    destruct (all_dims_eq (dims a) rest) as [[|]|] eqn:E; try discriminate H. cbn [bind] in H.
    destruct (cat (map data (a :: rest))) as [x|] eqn:Ec; [|discriminate]. cbn [bind] in H.
    destruct (awu_new_spec _ _ _ N H) as (Dx & _ & W & S).
    split; [exact W|]. split; [congruence|]. split; [exact S|].
    clear -E. induction rest as [|b rest IH]; intros c Hc; [destruct Hc|].
    cbn [all_dims_eq] in E. destruct (dims_eq (dims b) (dims a)) as [[|]|] eqn:Eb; try discriminate E.
    destruct Hc as [->|Hc]; [apply dims_eq_agree; exact Eb|apply IH; assumption].
  Qed.

  (** ** windowing along the first axis *)
  Definition rest_ok (ds : list dim) (sh : list nat) : Prop := consistent sh ds /\ Forall norm_dim ds.
  Lemma keep_dims_id ds sh : consistent sh ds -> keep_dims ds sh = Ok ds.
  Proof.
    induction 1 as [|d n ds sh H H0 IH]; [reflexivity|]. cbn [keep_dims].
    destruct d; cbn [modified_dims bind]; rewrite IH; reflexivity.
  Qed.
  (** a time axis becomes two: one sample per window (period [s] samples, each
      lasting [w] samples plus the overlap), then the original rate within the window *)
  Theorem swl_spec win (a : @awu X) t ds n sh w s lo r k :
    well_formed a -> dims a = DTime t :: ds -> shape_of (data a) = n :: sh ->
    0 < t_freq t -> 0 < t_dur t -> 0 < w -> 0 < s ->
    win (data a) w s = Ok (lo, r) -> shape_of r = k :: Z.to_nat w :: sh ->
    (0 < np_size (shape_of r))%nat ->
    exists res, sliding_window_with_leftovers shape_of win a w s = Ok res /\ well_formed res /\ data res = r /\
      dims res = DTime {| t_freq := t_freq t * s; t_dur := t_freq t * w + (t_dur t - t_freq t); t_size := Some (Z.of_nat k) |}
                 :: DTime {| t_freq := t_freq t; t_dur := t_dur t; t_size := Some w |} :: ds.
  Proof.
    intros [C N] Ed Es Hf Hd Hw Hs Hwin Sr Hne. unfold sliding_window_with_leftovers.
    rewrite Hwin. cbn [bind snd]. destruct (Nat.eqb_spec (np_size (shape_of r)) 0) as [E0|_]; [lia|].
    rewrite Ed, Es in *. inversion C as [|? ? ? ? C1 C2]; subst. inversion N as [|? ? N1 N2]; subst.
    cbn [swl_dims modified_dims]. unfold modified_dimension, t_overlap, mk_samplerate.
    destruct (Z.leb_spec (t_freq t) 0); [lia|]. destruct (Z.leb_spec (t_dur t) 0); [lia|]. cbn [bind].
    destruct (Z.eqb_spec s 0); [lia|]. rewrite keep_dims_id by exact C2. cbn [bind app sr_overlap sr_dur sr_freq].
    unfold awu_new. rewrite Sr. cbn [length]. rewrite (Forall2_len _ _ _ C2), Nat.eqb_refl.
    cbn [fit_dims fit_dim bind]. rewrite fit_dims_id by assumption. cbn [bind].
    unfold mk_timedim, sr_overlap; cbn [t_freq t_dur sr_dur sr_freq].
    destruct (Z.eqb_spec (t_freq t * w + (t_dur t - t_freq t)) 0) as [E|E]; [nia|].
    destruct (Z.eqb_spec (t_freq t * w + (t_dur t - t_freq t)) 0) as [E'|_]; [contradiction|].
    destruct (Z.eqb_spec (t_dur t) 0); [lia|].
    rewrite Z2Nat.id by lia.
    eexists. split; [reflexivity|]. cbn [data dims]. split; [|split; reflexivity].
    split; cbn [data dims].
    - rewrite Sr. unfold consistent. constructor; [reflexivity|]. constructor; [cbn; rewrite Z2Nat.id by lia; reflexivity|exact C2].
    - constructor; [cbn; left; exact E|]. constructor; [cbn; left; lia|exact N2].
  Qed.
  (** with a window of one sample [windowed] returns the array unwindowed, and
      the call fails *)
  Theorem swl_window_one_refuted win (a : @awu X) t ds n sh s lo r k :
    well_formed a -> dims a = DTime t :: ds -> shape_of (data a) = n :: sh ->
    0 < t_freq t -> 0 < t_dur t -> 0 < s ->
    win (data a) 1 s = Ok (lo, r) -> shape_of r = k :: sh -> (0 < np_size (shape_of r))%nat ->
    sliding_window_with_leftovers shape_of win a 1 s = Raise ValueError.
  Proof.
    intros [C N] Ed Es Hf Hd Hs Hwin Sr Hne. unfold sliding_window_with_leftovers.
    rewrite Hwin. cbn [bind snd]. destruct (Nat.eqb_spec (np_size (shape_of r)) 0) as [E0|_]; [lia|].
    rewrite Ed, Es in *. inversion C as [|? ? ? ? C1 C2]; subst.
    cbn [swl_dims modified_dims]. unfold modified_dimension, t_overlap, mk_samplerate.
    destruct (Z.leb_spec (t_freq t) 0); [lia|]. destruct (Z.leb_spec (t_dur t) 0); [lia|]. cbn [bind].
    destruct (Z.eqb_spec s 0); [lia|]. rewrite keep_dims_id by exact C2. cbn [bind app].
    apply awu_new_mismatch. rewrite Sr. simpl length. rewrite (Forall2_len _ _ _ C2). lia.
  Qed.

  (** too short for one window: no windows, and the dimensions are kept *)
  Theorem swl_empty win (a : @awu X) d ds n sh w s lo r :
    well_formed a -> dims a = d :: ds -> shape_of (data a) = n :: sh ->
    win (data a) w s = Ok (lo, r) -> shape_of r = 0%nat :: sh ->
    match d with
    | DIdent => sliding_window_with_leftovers shape_of win a w s = Ok (mkAwu r (DIdent :: ds))
    | DTime t => sliding_window_with_leftovers shape_of win a w s =
                   Ok (mkAwu r (DTime {| t_freq := t_freq t; t_dur := t_dur t; t_size := Some 0 |} :: ds))
    | _ => True
    end.
  Proof.
    intros [C N] Ed Es Hwin Sr. unfold sliding_window_with_leftovers. rewrite Hwin. cbn [bind snd].
    rewrite Sr. cbn [np_size fold_right Nat.mul Nat.eqb].
    rewrite Ed, Es in *. inversion C as [|? ? ? ? C1 C2]; subst. inversion N as [|? ? N1 N2]; subst.
    unfold awu_new. rewrite Sr. cbn [length]. rewrite (Forall2_len _ _ _ C2), Nat.eqb_refl.
    destruct d as [|t| |]; try exact I; cbn [fit_dims fit_dim bind]; rewrite fit_dims_id by assumption; cbn [bind].
    - reflexivity.
    - assert (E : mk_timedim (t_freq t) (Some (t_dur t)) (Some (Z.of_nat 0))
                  = {| t_freq := t_freq t; t_dur := t_dur t; t_size := Some 0 |}); [|rewrite E; reflexivity].
      cbn [norm_dim] in N1. unfold mk_timedim. cbn [Z.of_nat].
      destruct (Z.eqb_spec (t_dur t) 0) as [E0|E0]; [|reflexivity]. destruct N1 as [N1|N1]; [contradiction|].
      f_equal. congruence.
  Qed.
  (** windows along an axis without units: every axis of the result loses its units *)
  Theorem swl_identity win (a : @awu X) ds n sh w s lo r k :
    dims a = DIdent :: ds -> shape_of (data a) = n :: sh -> 0 < w -> w <> Z.of_nat n ->
    win (data a) w s = Ok (lo, r) -> shape_of r = k :: Z.to_nat w :: sh -> (0 < np_size (shape_of r))%nat ->
    sliding_window_with_leftovers shape_of win a w s = Ok (mkAwu r (repeat DIdent (2 + length sh))).
  Proof.
    intros Ed Es Hw Hn Hwin Sr Hne. unfold sliding_window_with_leftovers. rewrite Hwin. cbn [bind snd].
    destruct (Nat.eqb_spec (np_size (shape_of r)) 0) as [E0|_]; [lia|]. rewrite Ed, Es.
    cbn [swl_dims modified_dims]. destruct (Z.eqb_spec w 0); [lia|]. destruct (Z.eqb_spec (Z.of_nat n) w); [congruence|].
    cbn [bind]. unfold awu_new. rewrite map_length, Nat.eqb_refl, Sr.
    assert (G : forall l, fit_dims (map (fun _ : nat => DIdent) l) l = Ok (repeat DIdent (length l))).
    { induction l as [|x l IH]; [reflexivity|]. cbn [map fit_dims fit_dim bind]. rewrite IH. reflexivity. }
    rewrite G. reflexivity.
  Qed.
  (** ... and one window of the whole axis is an error *)
  Theorem swl_identity_whole win (a : @awu X) ds n sh s lo r k :
    well_formed a -> dims a = DIdent :: ds -> shape_of (data a) = n :: sh -> (0 < n)%nat ->
    win (data a) (Z.of_nat n) s = Ok (lo, r) -> shape_of r = k :: n :: sh -> (0 < np_size (shape_of r))%nat ->
    sliding_window_with_leftovers shape_of win a (Z.of_nat n) s = Raise ValueError.
  Proof.
    intros [C N] Ed Es Hn Hwin Sr Hne. unfold sliding_window_with_leftovers. rewrite Hwin. cbn [bind snd].
    destruct (Nat.eqb_spec (np_size (shape_of r)) 0) as [E0|_]; [lia|].
    rewrite Ed, Es in *. inversion C as [|? ? ? ? C1 C2]; subst.
    cbn [swl_dims modified_dims]. destruct (Z.eqb_spec (Z.of_nat n) 0); [lia|]. rewrite Z.eqb_refl. cbn [bind].
    rewrite keep_dims_id by exact C2. cbn [bind app].
    apply awu_new_mismatch. rewrite Sr. simpl length. rewrite (Forall2_len _ _ _ C2). lia.
  Qed.

  (** ** numpy integers *)
  Theorem getitem_npint_refuted (a : @awu X) i arr ds :
    dims a = DIdent :: ds -> np_get (data a) [NNpInt i] = Ok arr ->
    length (shape_of arr) = length ds ->
    getitem shape_of np_get a [XNpInt i] = Raise ValueError.
  Proof.
    intros Ed Hn L. unfold getitem. rewrite Ed. cbn [compute_indices compute_from burns].
    unfold compute_indices; cbn [compute_from burns]. rewrite py_get_nonneg by lia. cbn [nth_error Z.to_nat bind].
    cbn [dim_int_slice as_is bind]. rewrite Hn. cbn [bind].
    unfold new_dims. cbn [new_dims_from]. rewrite py_get_nonneg by lia. cbn [nth_error Z.to_nat bind].
    assert (M : metaslice_or_dim DIdent (XNpInt i) (shape_of arr) 0 = Ok DIdent).
    { unfold metaslice_or_dim. rewrite py_get_nonneg by lia. destruct (nth_error (shape_of arr) (Z.to_nat 0)); reflexivity. }
    rewrite M. cbn [bind]. rewrite py_slice_from by lia.
    apply awu_new_mismatch. rewrite L. simpl. lia.
  Qed.
  (** two lists select along one axis, but two dimensions are kept *)
  Theorem getitem_two_lists_refuted (a : @awu X) l1 l2 arr d1 d2 ds :
    dims a = d1 :: d2 :: ds -> np_get (data a) [NList l1; NList l2] = Ok arr ->
    length (shape_of arr) = S (length ds) ->
    getitem shape_of np_get a [XList l1; XList l2] = Raise ValueError.
  Proof.
    intros Ed Hn L. unfold getitem. rewrite Ed. unfold compute_indices; cbn [compute_from burns as_is bind].
    rewrite Hn. cbn [bind]. unfold new_dims. cbn [new_dims_from bind].
    rewrite py_slice_from by lia. apply awu_new_mismatch. rewrite L. simpl. lia.
  Qed.
End AwuProofs.

(** ** Python's slices of ints *)
Definition clip (lo hi n : Z) (i : Z) : Z := Z.max lo (Z.min hi (if i <? 0 then i + n else i)).
Lemma zrange_in c i : In i (zrange c) <-> 0 <= i < c.
Proof.
  unfold zrange. rewrite in_map_iff. split.
  - intros (k & <- & Hk). apply in_seq in Hk. lia.
  - intros H. exists (Z.to_nat i). split; [lia|]. apply in_seq. lia.
Qed.
(** [n] positions, [a:b:step]: for a positive step every position from the start up to the stop
    that lies a multiple of the step behind the start, in increasing order; for a negative step
    downwards likewise *)
Lemma slice_positions_up n a b step : 0 <= n -> 0 < step ->
  let lo := match a with None => 0 | Some i => clip 0 n n i end in
  let hi := match b with None => n | Some i => clip 0 n n i end in
  (forall i, In i (slice_positions n a b step) <-> lo <= i < hi /\ (step | i - lo)) /\
  StronglySorted Z.lt (slice_positions n a b step).
Proof.
  intros Hn Hs lo hi. unfold slice_positions. destruct (Z.ltb_spec 0 step); [|lia]. fold lo hi.
  fold (clip 0 n n). set (a' := match a with None => 0 | Some i => _ end). change a' with lo.
  set (b' := match b with None => n | Some i => _ end). change b' with hi. clearbody lo hi. clear a' b' a b.
  set (c := if lo <? hi then (hi - lo - 1) / step + 1 else 0). split.
  - intros i. rewrite in_map_iff. split.
    + intros (k & <- & Hk). apply zrange_in in Hk. unfold c in Hk. destruct (Z.ltb_spec lo hi); [|lia].
      assert (k <= (hi - lo - 1) / step) by lia.
      assert (k * step <= hi - lo - 1) by (pose proof (Z.mul_div_le (hi - lo - 1) step Hs); nia).
      split; [nia|]. exists k. ring.
    + intros [Hi [k Hk]]. exists k. split; [lia|]. apply zrange_in. unfold c. destruct (Z.ltb_spec lo hi); [|lia].
      assert (0 <= k) by nia. assert (k <= (hi - lo - 1) / step) by (apply Z.div_le_lower_bound; nia). lia.
  - unfold zrange. rewrite map_map. generalize (Z.to_nat c). intros m. clear c.
    assert (G : forall m q, StronglySorted Z.lt (map (fun k => lo + Z.of_nat k * step) (seq q m))).
    { clear - Hs. induction m as [|m IH]; intros q; simpl; constructor; [apply IH|].
      apply Forall_forall. intros z Hz. apply in_map_iff in Hz. destruct Hz as (k & <- & Hk). apply in_seq in Hk. nia. }
    apply G.
Qed.
Lemma slice_positions_down n a b step : 0 <= n -> step < 0 ->
  let hi := match a with None => n - 1 | Some i => clip (-1) (n - 1) n i end in
  let lo := match b with None => -1 | Some i => clip (-1) (n - 1) n i end in
  (forall i, In i (slice_positions n a b step) <-> lo < i <= hi /\ (step | hi - i)) /\
  StronglySorted Z.gt (slice_positions n a b step).
Proof.
  intros Hn Hs hi lo. unfold slice_positions. destruct (Z.ltb_spec 0 step); [lia|].
  fold (clip (-1) (n - 1) n). set (a' := match a with None => n - 1 | Some i => _ end). change a' with hi.
  set (b' := match b with None => -1 | Some i => _ end). change b' with lo. clearbody lo hi. clear a' b' a b.
  set (c := if lo <? hi then (hi - lo - 1) / (- step) + 1 else 0). split.
  - intros i. rewrite in_map_iff. split.
    + intros (k & <- & Hk). apply zrange_in in Hk. unfold c in Hk. destruct (Z.ltb_spec lo hi); [|lia].
      assert (k <= (hi - lo - 1) / (- step)) by lia.
      assert (k * (- step) <= hi - lo - 1) by (pose proof (Z.mul_div_le (hi - lo - 1) (- step) ltac:(lia)); nia).
      split; [nia|]. exists (- k). ring.
    + intros [Hi [k Hk]]. exists (- k). split; [lia|]. apply zrange_in. unfold c. destruct (Z.ltb_spec lo hi); [|lia].
      assert (0 <= - k) by nia. assert (- k <= (hi - lo - 1) / (- step)) by (apply Z.div_le_lower_bound; nia). lia.
  - unfold zrange. rewrite map_map. generalize (Z.to_nat c). intros m. clear c.
    assert (G : forall m q, StronglySorted Z.gt (map (fun k => hi + Z.of_nat k * step) (seq q m))).
    { clear - Hs. induction m as [|m IH]; intros q; simpl; constructor; [apply IH|].
      apply Forall_forall. intros z Hz. apply in_map_iff in Hz. destruct Hz as (k & <- & Hk). apply in_seq in Hk. nia. }
    apply G.
Qed.
Lemma slice_positions_range n a b step i : 0 <= n -> step <> 0 -> In i (slice_positions n a b step) -> 0 <= i < n.
Proof.
  intros Hn Hs. destruct (Z.lt_trichotomy step 0) as [H|[H|H]]; [|lia|].
  - intros Hi. apply (proj1 (slice_positions_down n a b step Hn H)) in Hi. destruct Hi as [Hi _].
    destruct a, b; unfold clip in Hi; lia.
  - intros Hi. apply (proj1 (slice_positions_up n a b step Hn H)) in Hi. destruct Hi as [Hi _].
    destruct a, b; unfold clip in Hi; lia.
Qed.
(** [l[a:b:step]] is the list of the elements at those positions *)
Lemma list_slice_spec {A} (l : list A) a b step : step <> 0 ->
  map Some (list_slice l a b step) = map (fun i => nth_error l (Z.to_nat i)) (slice_positions (Zlen l) a b step).
Proof.
  intros Hs. unfold list_slice.
  assert (G : forall i, In i (slice_positions (Zlen l) a b step) -> (Z.to_nat i < length l)%nat).
  { intros i Hi. apply slice_positions_range in Hi; [|unfold Zlen; lia|assumption]. unfold Zlen in Hi. lia. }
  induction (slice_positions (Zlen l) a b step) as [|i is IH]; [reflexivity|]. cbn [flat_map map].
  specialize (G i (or_introl eq_refl)) as Gi. apply nth_error_Some in Gi.
  destruct (nth_error l (Z.to_nat i)) as [x|]; [|contradiction]. cbn [app map]. f_equal. apply IH.
  intros; apply G; right; assumption.
Qed.

(** ** Non-vacuity and counterexamples *)
Definition t1 : timedim := mk_timedim 1000 None (Some 10).
Definition t2 : timedim := mk_timedim 2000 None (Some 10).
(** three axes, index (Ellipsis, time slice): addresses the last axis *)
Example translated_example :
  compute_indices [DTime t1; DIdent; DTime t2] [XInt 3; XEll; XTime 0 (Some 4000)] =
    Ok [NInt 3; NEll; NSl (Some 0) (Some 2) 1] /\
  np_index 3 [XInt 3; XEll; XTime 0 (Some 4000)] /\ good_dims [DTime t1; DIdent; DTime t2] /\
  axis_of 3 [XInt 3; XEll; XTime 0 (Some 4000)] 2 = 2%nat.
Proof.
  split; [vm_compute; reflexivity|]. split; [split; cbn; lia|]. split; [|reflexivity].
  intros t [H|[H|[H|[]]]]; try discriminate; injection H as <-; cbn; lia.
Qed.
(** [arr[None, ts]] is translated by the dimension of the wrong axis *)
Lemma none_wrong_axis :
  compute_indices [DTime t1; DTime t2] [XNone; XTime 0 (Some 4000)] = Ok [NNone; NSl (Some 0) (Some 2) 1] /\
  axis_of 2 [XNone; XTime 0 (Some 4000)] 1 = 0%nat /\
  dim_int_slice (DTime t1) (XTime 0 (Some 4000)) = Ok (NSl (Some 0) (Some 4) 1).
Proof. repeat split; vm_compute; reflexivity. Qed.
(** [arr[..., ts, None]] too *)
Lemma ellipsis_none_wrong_axis :
  compute_indices [DTime t1; DTime t2] [XEll; XTime 0 (Some 4000); XNone] = Ok [NEll; NSl (Some 0) (Some 4) 1; NNone] /\
  axis_of 2 [XEll; XTime 0 (Some 4000); XNone] 1 = 1%nat /\
  dim_int_slice (DTime t2) (XTime 0 (Some 4000)) = Ok (NSl (Some 0) (Some 2) 1).
Proof. repeat split; vm_compute; reflexivity. Qed.
(** [arr[:0:-1]] on a time axis loses its step: numpy gives 9, 8, ..., 1; here nothing *)
Lemma reverse_to_zero_lost :
  compute_indices [DTime t1] [XSl None (Some 0) (-1)] = Ok [NSl (Some 0) (Some 0) 1] /\
  slice_positions 10 (Some 0) (Some 0) 1 = [] /\
  slice_positions 10 None (Some 0) (-1) = [9; 8; 7; 6; 5; 4; 3; 2; 1].
Proof. repeat split; vm_compute; reflexivity. Qed.

(** a concrete numpy: arrays are their shapes *)
Example getitem_example :
  let np_get := fun (_ : list nat) (_ : list nix) => Ok [1%nat; 2%nat; 7%nat] in
  exists a, awu_new (fun x : list nat => x) [10%nat; 5%nat; 7%nat] [DTime t1; DIdent; DTime t2] = Ok a /\
  well_formed (fun x => x) a /\
  np_index 3 [XNone; XSl (Some 1) (Some 3) 1; XInt 2] /\ plain [XNone; XSl (Some 1) (Some 3) 1; XInt 2] /\
  simple [XNone; XSl (Some 1) (Some 3) 1; XInt 2] /\
  exists r, getitem (fun x => x) np_get a [XNone; XSl (Some 1) (Some 3) 1; XInt 2] = Ok r /\
    map (fun d => match d with DTime t => Some (t_freq t, t_size t) | _ => None end) (dims r)
    = [None; Some (1000, Some 2); Some (2000, Some 7)].
Proof.
  eexists. split; [vm_compute; reflexivity|]. split.
  - split; [repeat constructor|]. apply Forall_forall. intros d [<-|[<-|[<-|[]]]]; cbn; try exact I; left; lia.
  - split; [split; cbn; lia|]. split; [intros i [H|[H|[H|[]]]]; discriminate H|].
    split; [split; cbn; [lia|discriminate]|].
    eexists. split; [vm_compute; reflexivity|reflexivity].
Qed.

(** the contract assumed of numpy can be met *)
Definition toy_get (sh : list nat) (ix : list nix) : result (list nat) :=
  if (count n_int ix <=? length sh)%nat
  then Ok (repeat 2%nat (length sh + count n_none ix - count n_int ix))
  else Raise IndexError.
Example toy_contract : np_contract (fun x : list nat => x) toy_get.
Proof.
  intros x ix arr H _. unfold toy_get in H.
  destruct (Nat.leb_spec (count n_int ix) (length x)); [|discriminate]. injection H as <-.
  rewrite repeat_length. lia.
Qed.
