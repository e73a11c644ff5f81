(** Proofs about Ops.v: reading and writing parts of arrays. *)
From Verif Require Import PyBase PyFacts PyMore Time Freq FreqDim Axis AxisProofs Ops OpsProofs OpsProofs2 OpsProofs3.
From Coq Require Import Reals Lra Sorting.Sorted.
Local Open Scope nat_scope.

(** ** selections *)
(** what the selectors of an array of shape [sh] satisfy: existing positions *)
Fixpoint sound (sh : list nat) (ss : list sel) : Prop :=
  match ss with
  | [] => sh = []
  | TNew :: r => sound sh r
  | TPick i :: r => match sh with n :: sh' => i < n /\ sound sh' r | [] => False end
  | TPos l :: r => match sh with n :: sh' => Forall (fun i => i < n) l /\ sound sh' r | [] => False end
  end.
Fixpoint once (ss : list sel) : Prop :=
  match ss with
  | [] => True
  | TPos l :: r => NoDup l /\ once r
  | _ :: r => once r
  end.
Lemma sound_full sh : sound sh (map full sh).
Proof. induction sh as [|n sh IH]; [reflexivity|]. cbn. split; [apply Forall_forall; intros i Hi; apply in_seq in Hi; lia|exact IH]. Qed.
Lemma sound_full_app sh : forall k r, sound (skipn k sh) r -> sound sh (map full (firstn k sh) ++ r).
Proof.
  induction sh as [|n sh IH]; intros [|k] r H; try exact H. cbn [firstn map app sound full].
  split; [apply Forall_forall; intros i Hi; apply in_seq in Hi; lia|]. apply IH. exact H.
Qed.
Lemma once_full sh r : once r -> once (map full sh ++ r).
Proof. intros H. induction sh as [|n sh IH]; [exact H|]. cbn. split; [apply seq_NoDup|exact IH]. Qed.
Lemma pick_bound n i k : pick n i = Ok k -> k < n /\ (Z.of_nat k = i \/ Z.of_nat k = i + Z.of_nat n)%Z.
Proof.
  unfold pick. destruct ((- Z.of_nat n <=? i)%Z && (i <? Z.of_nat n)%Z) eqn:E; [|discriminate]. intros [= <-].
  destruct (Z.ltb_spec i 0); lia.
Qed.
Lemma sels_sound ell ix : forall sh ss, sels ell sh ix = Ok ss -> sound sh ss.
Proof.
  induction ix as [|x ix IH]; intros sh ss H; cbn [sels] in H.
  - injection H as <-. apply sound_full.
  - destruct x as [| |i|i|l|a b st|]; cbn [sels] in H;
      try (destruct (sels ell sh ix) as [r|] eqn:E; [|discriminate]; injection H as <-; exact (IH _ _ E));
      try (destruct (sels ell (skipn ell sh) ix) as [r|] eqn:E; [|discriminate]; injection H as <-; apply sound_full_app; exact (IH _ _ E));
      destruct sh as [|n sh]; try discriminate H; cbn [bind] in H.
    + destruct (pick n i) as [k|] eqn:P; [|discriminate]. cbn [bind] in H. destruct (sels ell sh ix) as [r|] eqn:E; [|discriminate]. injection H as <-.
      split; [apply (pick_bound _ _ _ P)|exact (IH _ _ E)].
    + destruct (pick n i) as [k|] eqn:P; [|discriminate]. cbn [bind] in H. destruct (sels ell sh ix) as [r|] eqn:E; [|discriminate]. injection H as <-.
      split; [apply (pick_bound _ _ _ P)|exact (IH _ _ E)].
    + destruct (mapM (pick n) l) as [ks|] eqn:P; [|discriminate]. cbn [bind] in H. destruct (sels ell sh ix) as [r|] eqn:E; [|discriminate]. injection H as <-.
      split; [|exact (IH _ _ E)]. apply mapM_inv in P. clear - P. induction P as [|i k l ks Hp P IHp]; constructor; [apply (pick_bound _ _ _ Hp)|exact IHp].
    + destruct (Z.eqb_spec st 0); [discriminate|]. cbn [bind] in H. destruct (sels ell sh ix) as [r|] eqn:E; [|discriminate]. injection H as <-.
      split; [|exact (IH _ _ E)]. apply Forall_forall. intros k Hk. apply in_map_iff in Hk. destruct Hk as (z & <- & Hz).
      apply slice_positions_range in Hz; lia.
Qed.
Definition not_list (x : nix) : bool := match x with NList _ => false | _ => true end.
Lemma positions_once n a b st : (st <> 0)%Z -> NoDup (map Z.to_nat (slice_positions (Z.of_nat n) a b st)).
Proof.
  intros H. assert (P : forall z, In z (slice_positions (Z.of_nat n) a b st) -> (0 <= z)%Z) by (intros z Hz; apply slice_positions_range in Hz; lia).
  assert (D : NoDup (slice_positions (Z.of_nat n) a b st)).
  { destruct (Z.lt_total st 0) as [L|[L|L]]; [|contradiction|].
    - destruct (slice_positions_down (Z.of_nat n) a b st ltac:(lia) L) as [_ St]. induction St as [|z l St IH F]; constructor; [|apply IH; intros; apply P; right; assumption].
      intros I. rewrite Forall_forall in F. specialize (F z I). lia.
    - destruct (slice_positions_up (Z.of_nat n) a b st ltac:(lia) L) as [_ St]. induction St as [|z l St IH F]; constructor; [|apply IH; intros; apply P; right; assumption].
      intros I. rewrite Forall_forall in F. specialize (F z I). lia. }
  revert P D. generalize (slice_positions (Z.of_nat n) a b st) as l. induction l as [|z l IH]; intros P D; [constructor|]. inversion D as [|? ? N D']; subst. cbn [map]. constructor.
  - intros I. apply in_map_iff in I. destruct I as (y & E & Hy). apply N. replace z with y; [exact Hy|].
    pose proof (P z (or_introl eq_refl)). pose proof (P y (or_intror Hy)). lia.
  - apply IH; [intros; apply P; right; assumption|exact D'].
Qed.
Lemma sels_once ell ix : forall sh ss, forallb not_list ix = true -> sels ell sh ix = Ok ss -> once ss.
Proof.
  induction ix as [|x ix IH]; intros sh ss L H; cbn [sels] in H.
  - injection H as <-. rewrite <- (app_nil_r (map full sh)). apply once_full. exact I.
  - cbn [forallb] in L. apply andb_prop in L. destruct L as [Lx L].
    destruct x as [| |i|i|l|a b st|]; cbn [sels] in H; try discriminate Lx;
      try (destruct (sels ell sh ix) as [r|] eqn:E; [|discriminate]; injection H as <-; exact (IH _ _ L E));
      try (destruct (sels ell (skipn ell sh) ix) as [r|] eqn:E; [|discriminate]; injection H as <-; apply once_full; exact (IH _ _ L E));
      destruct sh as [|n sh]; try discriminate H; cbn [bind] in H.
    + destruct (pick n i) as [k|] eqn:P; [|discriminate]. cbn [bind] in H. destruct (sels ell sh ix) as [r|] eqn:E; [|discriminate]. injection H as <-. exact (IH _ _ L E).
    + destruct (pick n i) as [k|] eqn:P; [|discriminate]. cbn [bind] in H. destruct (sels ell sh ix) as [r|] eqn:E; [|discriminate]. injection H as <-. exact (IH _ _ L E).
    + destruct (Z.eqb_spec st 0); [discriminate|]. cbn [bind] in H. destruct (sels ell sh ix) as [r|] eqn:E; [|discriminate]. injection H as <-.
      split; [apply positions_once; assumption|exact (IH _ _ L E)].
Qed.
Lemma source_in_shape ss : forall sh jx, sound sh ss -> in_shape (sel_shape ss) jx -> in_shape sh (sel_source ss jx).
Proof.
  induction ss as [|[|i|l] ss IH]; intros sh jx S I; cbn [sound sel_shape sel_source] in *.
  - subst sh. constructor.
  - inversion I; subst. cbn [tl]. apply IH; assumption.
  - destruct sh as [|n sh]; [contradiction|]. destruct S as [S1 S2]. constructor; [exact S1|]. apply IH; assumption.
  - destruct sh as [|n sh]; [contradiction|]. destruct S as [S1 S2]. inversion I as [|j ? jx' ? Hj Hr]; subst. cbn [hd tl].
    constructor; [|apply IH; assumption]. rewrite Forall_forall in S1. apply S1. apply nth_In. exact Hj.
Qed.
Lemma source_inj ss : forall jx kx, once ss -> in_shape (sel_shape ss) jx -> in_shape (sel_shape ss) kx -> sel_source ss jx = sel_source ss kx -> jx = kx.
Proof.
  induction ss as [|[|i|l] ss IH]; intros jx kx O I K E; cbn [once sel_shape sel_source] in *.
  - inversion I; inversion K; reflexivity.
  - inversion I as [|j ? jx' ? Hj Hr]; subst. inversion K as [|k ? kx' ? Hk Hs]; subst. cbn [tl] in E. f_equal; [lia|]. apply IH; assumption.
  - injection E as E. apply IH; assumption.
  - destruct O as [O1 O2]. inversion I as [|j ? jx' ? Hj Hr]; subst. inversion K as [|k ? kx' ? Hk Hs]; subst. cbn [hd tl] in E.
    injection E as E1 E2. f_equal; [|apply IH; assumption]. rewrite NoDup_nth with (d := 0) in O1. apply O1; assumption.
Qed.
Lemma nat_list_eqb_true a b : nat_list_eqb a b = true <-> a = b.
Proof. unfold nat_list_eqb. destruct (list_eq_dec Nat.eq_dec a b); split; congruence. Qed.

(** ** writing.  [entries_of a i] are the selectors of the index, which reading and
    writing share *)
Definition entries_of (a : units) (i : pyindex) : result (list sel) :=
  do index <- tuplify i; do ix <- compute_indices (dims a) index; selectors (nd_shape (data a)) ix.
(** entry [ix] of the array is entry [jx] of the selection [i] *)
Definition selects (a : units) (i : pyindex) (jx ix : list nat) : Prop :=
  exists ss, entries_of a i = Ok ss /\ in_shape (sel_shape ss) jx /\ sel_source ss jx = ix.
Definition no_lists (i : pyindex) : bool :=
  match i with
  | IxOne x => match x with XList _ => false | _ => true end
  | IxTuple l | IxSlices l => forallb (fun x => match x with XList _ => false | _ => true end) l
  | IxArray _ => true
  | _ => false
  end.
Lemma getitem_entries a i s : getitem_py a i = Ok s -> exists ss, entries_of a i = Ok ss /\ nd_shape (arr_of s) = sel_shape ss /\
  forall jx, in_shape (sel_shape ss) jx -> nd_at (arr_of s) jx = nd_at (data a) (sel_source ss jx).
Proof.
  assert (G : forall r, (do index <- tuplify i; do w <- getitem nd_shape np_getitem a index; Ok (PUnits Plain w)) = Ok r ->
    exists ss, entries_of a i = Ok ss /\ nd_shape (arr_of r) = sel_shape ss /\
    forall jx, in_shape (sel_shape ss) jx -> nd_at (arr_of r) jx = nd_at (data a) (sel_source ss jx)).
  { intros r H. unfold entries_of. destruct (tuplify i) as [index|]; [|discriminate]. cbn [bind] in *. unfold getitem in H.
    destruct (compute_indices (dims a) index) as [ix|]; [|discriminate]. cbn [bind] in *. unfold np_getitem in H.
    destruct (selectors (nd_shape (data a)) ix) as [ss|]; [|discriminate]. cbn [bind] in *. exists ss. split; [reflexivity|].
    match type of H with context [nd_build ?x ?g] => set (arr := nd_build x g) in * end.
    destruct (new_dims (dims a) index (nd_shape arr)) as [ds|]; [|discriminate]. cbn [bind] in H.
    unfold awu_new in H. destruct (_ =? _); [|discriminate]. destruct (fit_dims ds (nd_shape arr)); [|discriminate]. cbn [bind] in H. injection H as <-.
    cbn [arr_of data]. split; [reflexivity|]. intros jx I. unfold arr. rewrite nd_at_build by exact I. reflexivity. }
  intros H. unfold getitem_py in H. destruct i as [x| | | | |]; try (apply G; exact H).
  destruct x as [| |k|k|l|u v w|u v|u v|q|u v]; try (apply G; exact H).
  destruct (ndim (data a)) as [|[|nd]] eqn:Nd; try (apply G; exact H).
  unfold entries_of. cbn [tuplify bind]. change (compute_indices (dims a) [XInt k]) with (Ok [NInt k] : result (list nix)). cbn [bind].
  unfold np_getitem in H. destruct (selectors (nd_shape (data a)) [NInt k]) as [ss|] eqn:E; [|discriminate]. cbn [bind] in H. injection H as <-.
  exists ss. split; [reflexivity|]. cbn [arr_of nd_shape].
  unfold ndim in Nd. destruct (nd_shape (data a)) as [|n [|]]; try discriminate Nd. cbn in E.
  destruct (pick n k) as [p|]; [|discriminate]. cbn [bind] in E. injection E as <-. cbn [sel_shape]. split; [reflexivity|].
  intros jx I. inversion I; subst. cbn [sel_source]. unfold nd_at at 1. cbn [nd_shape nd_flat ravel nth the_item]. unfold the_item. reflexivity.
Qed.
Theorem setitem_spec a i v r : setitem a i v = Ok r ->
  dims r = dims a /\ nd_shape (data r) = nd_shape (data a) /\
  (forall ix, in_shape (nd_shape (data a)) ix -> (forall jx, ~ selects a i jx ix) -> nd_at (data r) ix = nd_at (data a) ix) /\
  (forall ix, in_shape (nd_shape (data a)) ix -> (exists jx, selects a i jx ix) ->
     exists jx kx, selects a i jx ix /\ entry_used (nd_shape v) jx kx /\ nd_at (data r) ix = nd_at v kx).
Proof.
  intros H. unfold setitem in H. unfold selects, entries_of. destruct (tuplify i) as [index|]; [|discriminate]. cbn [bind] in *.
  destruct (compute_indices (dims a) index) as [ix0|]; [|discriminate]. cbn [bind] in *. unfold np_setitem in H.
  destruct (selectors (nd_shape (data a)) ix0) as [ss|] eqn:Es; [|discriminate]. cbn [bind] in *.
  destruct (broadcast (nd_shape v) (sel_shape ss)) as [sh|] eqn:B; [|discriminate].
  destruct (nat_list_eqb sh (sel_shape ss)) eqn:E; [|discriminate]. apply nat_list_eqb_true in E. subst sh. cbn [bind] in H. injection H as <-.
  cbn [dims data nd_shape nd_build]. split; [reflexivity|]. split; [reflexivity|]. split.
  - intros ix I N. rewrite nd_at_build by exact I. destruct (find _ _) as [jx|] eqn:F; [|reflexivity]. exfalso.
    apply find_some in F. destruct F as [F1 F2]. apply nat_list_eqb_true in F2. apply in_rev in F1. apply all_ix_in in F1.
    apply (N jx). exists ss. auto.
  - intros ix I [jx (ss' & E' & J & S)]. injection E' as <-. rewrite nd_at_build by exact I.
    destruct (find _ _) as [kx|] eqn:F.
    + apply find_some in F. destruct F as [F1 F2]. apply nat_list_eqb_true in F2. apply in_rev in F1. apply all_ix_in in F1.
      exists kx, (bc_index (nd_shape v) kx). split; [exists ss; auto|]. split; [eapply bc_index_used; eassumption|reflexivity].
    + exfalso. pose proof (find_none _ _ F jx) as Fn. rewrite <- in_rev in Fn. specialize (Fn (proj2 (all_ix_in _ _) J)).
      apply not_true_iff_false in Fn. apply Fn. apply nat_list_eqb_true. exact S.
Qed.
Lemma compute_no_lists ds n index : forall pos ix, forallb (fun x => match x with XList _ => false | _ => true end) index = true ->
  compute_from ds n pos index = Ok ix -> forallb not_list ix = true.
Proof.
  assert (D : forall d x y, match x with XList _ => false | _ => true end = true -> dim_int_slice d x = Ok y -> not_list y = true).
  { assert (T : forall t a b st y, time_int_slice t a b st = Ok y -> not_list y = true).
    { intros t a b st y H. unfold time_int_slice in H.
      repeat match type of H with
      | context [match ?m with _ => _ end] => destruct m
      | context [bind ?m _] => destruct m; cbn [bind] in H
      end; try discriminate H; injection H as <-; reflexivity. }
    intros d x y Hx H. destruct d as [|t|s|e], x; cbn [dim_int_slice as_is] in H; try discriminate Hx; try discriminate H;
      try (injection H as <-; reflexivity); try (exact (T _ _ _ _ _ H));
      match type of H with context [bind ?m _] => destruct m; [|discriminate H] end; cbn [bind] in H; injection H as <-; reflexivity. }
  induction index as [|x index IH]; intros pos ix L H; cbn [compute_from] in H.
  - injection H as <-. reflexivity.
  - cbn [forallb] in L. apply andb_prop in L. destruct L as [Lx L].
    destruct (burns x).
    + destruct (compute_from ds n (pos + 1) index) as [r|] eqn:E; [|discriminate]. cbn [bind] in H. injection H as <-. cbn [forallb].
      rewrite (IH _ _ L E). destruct x; try reflexivity. discriminate Lx.
    + assert (G : forall r, (do d <- py_get ds pos; do y <- dim_int_slice d x; do r <- compute_from ds n (pos + 1) index; Ok (y :: r)) = Ok r -> forallb not_list r = true).
      { intros r Hr. destruct (py_get ds pos) as [d|]; [|discriminate]. cbn [bind] in Hr. destruct (dim_int_slice d x) as [y|] eqn:Ey; [|discriminate]. cbn [bind] in Hr.
        destruct (compute_from ds n (pos + 1) index) as [q|] eqn:E; [|discriminate]. cbn [bind] in Hr. injection Hr as <-. cbn [forallb].
        rewrite (IH _ _ L E), (D _ _ _ Lx Ey). reflexivity. }
      destruct x; try (apply G; exact H).
      destruct (compute_from ds n _ index) as [r|] eqn:E; [|discriminate]. cbn [bind] in H. injection H as <-. cbn [forallb not_list]. exact (IH _ _ L E).
Qed.
(** without a list of integers in the index no entry is selected twice *)
Theorem selects_once a i jx jx' ix : no_lists i = true -> selects a i jx ix -> selects a i jx' ix -> jx = jx'.
Proof.
  intros N (ss & E & I & S) (ss' & E' & I' & S'). rewrite E in E'. injection E' as <-.
  apply (source_inj ss); [|assumption|assumption|congruence]. unfold entries_of in E.
  destruct (tuplify i) as [index|] eqn:T; [|discriminate]. cbn [bind] in E.
  destruct (compute_indices (dims a) index) as [ix0|] eqn:C; [|discriminate]. cbn [bind] in E. unfold selectors in E.
  destruct (1 <? count is_nell ix0); [discriminate|]. eapply sels_once; [|exact E].
  apply (compute_no_lists (dims a) (Zlen index) index 0%Z); [|exact C].
  destruct i as [x|l|l|l|l|]; cbn [no_lists] in N; try discriminate N; cbn [tuplify] in T.
  - injection T as <-. cbn [forallb]. rewrite N. reflexivity.
  - injection T as <-. exact N.
  - destruct l; [discriminate|]. injection T as <-. exact N.
  - injection T as <-. clear. induction l as [|z l IH]; [reflexivity|exact IH].
Qed.
Theorem selects_in_shape a i jx ix : selects a i jx ix -> in_shape (nd_shape (data a)) ix.
Proof.
  intros (ss & E & I & S). subst ix. apply source_in_shape; [|exact I]. unfold entries_of in E.
  destruct (tuplify i) as [index|]; [|discriminate]. cbn [bind] in E.
  destruct (compute_indices (dims a) index) as [ix0|]; [|discriminate]. cbn [bind] in E. unfold selectors in E.
  destruct (1 <? count is_nell ix0); [discriminate|]. eapply sels_sound. exact E.
Qed.
(** reading gives the selected entries *)
Theorem getitem_selects a i s : getitem_py a i = Ok s ->
  forall jx, in_shape (nd_shape (arr_of s)) jx -> exists ix, selects a i jx ix /\ nd_at (arr_of s) jx = nd_at (data a) ix.
Proof.
  intros H jx I. destruct (getitem_entries _ _ _ H) as (ss & E & S & V). rewrite S in I.
  exists (sel_source ss jx). split; [exists ss; auto|]. apply V. exact I.
Qed.
Lemma in_shape_nth sh jx : in_shape sh jx -> forall p, p < length sh -> nth p jx 0 < nth p sh 1.
Proof.
  intros I. induction I as [|j n jx sh Hj Hr IH]; intros p Hp; [cbn in Hp; lia|].
  destruct p; [exact Hj|]. cbn in *. apply IH; lia.
Qed.
(** what was written is read back *)
Theorem set_then_get a i v r s : setitem a i v = Ok r -> getitem_py r i = Ok s -> no_lists i = true ->
  nd_shape v = nd_shape (arr_of s) -> forall jx, in_shape (nd_shape v) jx -> nd_at (arr_of s) jx = nd_at v jx.
Proof.
  intros Hs Hg N Sv jx I. destruct (setitem_spec _ _ _ _ Hs) as (D & Sh & _ & W).
  assert (Eq : entries_of r i = entries_of a i) by (unfold entries_of; rewrite D, Sh; reflexivity).
  destruct (getitem_entries _ _ _ Hg) as (ss & E & S & V). rewrite Eq in E. rewrite Sv, S in I.
  rewrite V by exact I. assert (Sel : selects a i jx (sel_source ss jx)) by (exists ss; auto).
  destruct (W (sel_source ss jx)) as (jx' & kx & Sel' & (Ik & U) & ->); [eapply selects_in_shape; exact Sel|exists jx; exact Sel|].
  assert (jx' = jx) by (eapply selects_once; [exact N|exact Sel'|exact Sel]). subst jx'. f_equal.
  assert (Lj : length jx = length (nd_shape v)) by (rewrite Sv, S; apply in_shape_length; exact I).
  assert (Lk : length kx = length (nd_shape v)) by (apply in_shape_length; exact Ik).
  apply (nth_ext _ _ 0 0); [congruence|]. intros p Hp. rewrite U by lia. rewrite Lj, Nat.sub_diag. cbn [Nat.add].
  destruct (Nat.eqb_spec (nth p (nd_shape v) 1) 1) as [E1|]; [|reflexivity].
  assert (Ip : nth p jx 0 < nth p (nd_shape v) 1).
  { rewrite Sv, S. apply in_shape_nth; [exact I|]. rewrite Sv, S in Lk. lia. }
  lia.
Qed.
