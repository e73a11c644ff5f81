(** Proofs about Weighting.v. *)
From Verif Require Import PyBase PyFacts PyMore Freq FreqProofs FreqScaleProofs FreqDim FreqDimProofs Weighting.
Local Open Scope R_scope.

(** the published A-weighting curve: 20 log10 R_A(f) + 2.00, with
    R_A(f) = 12200^2 f^4 / ((f^2+20.6^2) sqrt((f^2+107.7^2)(f^2+737.9^2)) (f^2+12200^2)) *)
Definition R_A (f : R) : R :=
  12200 ^ 2 * f ^ 4
  / ((f ^ 2 + 20.6 ^ 2) * sqrt ((f ^ 2 + 107.7 ^ 2) * (f ^ 2 + 737.9 ^ 2)) * (f ^ 2 + 12200 ^ 2)).
Definition a_weight_db (f : R) : R := 20 * (ln (R_A f) / ln 10) + 2.

Lemma a_curve_is_db f : a_curve f = a_weight_db f.
Proof.
  unfold a_curve, a_weight_db, log10, sq, R_A. replace ((f ^ 2) ^ 2) with (f ^ 4) by ring. lra.
Qed.

Lemma fold_min_le r x : fold_left Rmin r x <= x /\ Forall (fun y => fold_left Rmin r x <= y) r.
Proof.
  revert x; induction r as [|y r IH]; intros x; simpl; [split; [lra|constructor]|].
  destruct (IH (Rmin x y)) as [A B].
  pose proof (Rmin_l x y). pose proof (Rmin_r x y). split; [lra|]. constructor; [lra|assumption].
Qed.
Lemma fold_min_in r x : In (fold_left Rmin r x) (x :: r).
Proof.
  revert x; induction r as [|y r IH]; intros x; simpl; [auto|].
  destruct (IH (Rmin x y)) as [H|H]; [|auto].
  rewrite <- H. clear. unfold Rmin. destruct (Rle_dec x y); auto.
Qed.
Lemma np_min_spec l : l <> [] -> In (np_min l) l /\ Forall (fun y => np_min l <= y) l.
Proof.
  destruct l as [|x r]; [contradiction|]. intros _. unfold np_min. split; [apply fold_min_in|].
  destruct (fold_min_le r x). constructor; assumption.
Qed.

(** no band is centred on 0 Hz *)
Definition off_zero (s : scale) : Prop :=
  forall bs, scale_bands s = Ok bs -> Forall (fun b => center b <> 0) bs.
(** every weight is at least one, the least is one, and weights differ as the
    A-weighting curve does *)
Lemma a_weights s : well_formed s -> off_zero s -> (1 <= scale_len s)%nat ->
  exists bs ws, scale_bands s = Ok bs /\ wdata AWeighting s = Ok ws /\ length ws = scale_len s /\
    Forall (fun x => 1 <= x) ws /\ In 1 ws /\
    forall i j a b x y, nth_error bs i = Some a -> nth_error bs j = Some b ->
      nth_error ws i = Some x -> nth_error ws j = Some y ->
      x - y = a_weight_db (center a) - a_weight_db (center b).
Proof.
  intros Hs _ Hl. destruct (well_formed_bands s Hs) as [bs [Hb [Hlen _]]].
  cbn [wdata]. rewrite Hb. cbn [bind].
  set (res := map (fun b => a_curve (center b)) bs).
  assert (Lr : length res = scale_len s) by (unfold res; rewrite map_length; assumption).
  assert (Hne : res <> []) by (intros E; rewrite E in Lr; simpl in Lr; lia).
  destruct (np_min_spec res Hne) as [Hin Hle].
  exists bs, (map (fun r => 1 + (r - np_min res)) res). split; [reflexivity|]. split.
  { destruct res; [contradiction|reflexivity]. }
  split; [rewrite map_length; assumption|]. split.
  { apply Forall_forall. intros x Hx. apply in_map_iff in Hx. destruct Hx as [r [<- Hr]].
    rewrite Forall_forall in Hle. specialize (Hle r Hr). lra. }
  split. { apply in_map_iff. exists (np_min res). split; [lra|assumption]. }
  intros i j a b x y Ha Hb' Hx Hy. rewrite nth_error_map in Hx, Hy. unfold res in Hx, Hy.
  rewrite nth_error_map in Hx, Hy. rewrite Ha in Hx. rewrite Hb' in Hy. cbn [option_map] in Hx, Hy.
  inversion Hx; inversion Hy; subst. rewrite <- !a_curve_is_db. lra.
Qed.

(** * Multiplying and dividing arrays *)
Inductive has_axis : list wdim -> nat -> scale -> Prop :=
| axis_here s rest : has_axis (WFreq s :: rest) 0 s
| axis_later rest i s : has_axis rest i s -> has_axis (WOther :: rest) (S i) s.

Lemma get_factors_axis w dims i s k ndim ws : has_axis dims i s -> wdata w s = Ok ws ->
  get_factors w dims k ndim = Ok ((k + i)%nat, ws).
Proof.
  intros H E. revert k; induction H as [s rest|rest i s H IH]; intros k; simpl.
  - rewrite E. cbn [bind]. rewrite Nat.add_0_r. reflexivity.
  - rewrite IH by assumption. do 2 f_equal. lia.
Qed.
Lemma get_factors_none w dims k ndim : Forall (fun d => d = WOther) dims -> get_factors w dims k ndim = Raise ValueError.
Proof. intros H; revert k; induction H as [|d l E _ IH]; intros k; simpl; [reflexivity|]. subst d. apply IH. Qed.

(** [arr * W]: every element times the weight of its frequency band *)
Lemma multiply_spec w a dims i s ws : has_axis dims i s -> wdata w s = Ok ws ->
  nth i (shape a) 0%nat = length ws ->
  exists r, weight_ufunc Multiply w false a dims = Ok r /\ shape r = shape a /\
    weight_ufunc Multiply w true a dims = Ok (mkNd (shape a) (fun ix => nth (nth i ix 0%nat) ws 0 * at_index a ix)) /\
    forall ix, at_index r ix = at_index a ix * nth (nth i ix 0%nat) ws 0.
Proof.
  intros H E L. unfold weight_ufunc. rewrite (get_factors_axis w dims i s 0 _ ws H E). cbn [bind Nat.add].
  rewrite L, Nat.eqb_refl. eexists; split; [reflexivity|]. split; [reflexivity|]. split; [reflexivity|].
  intros ix. reflexivity.
Qed.

(** dividing by the weighting undoes multiplying by it *)
Lemma divide_undoes w a dims i s ws : has_axis dims i s -> wdata w s = Ok ws ->
  Forall (fun x => 1 <= x) ws -> nth i (shape a) 0%nat = length ws ->
  exists r b, weight_ufunc Multiply w false a dims = Ok r /\ weight_ufunc Divide w false r dims = Ok b /\
    shape b = shape a /\
    forall ix, (nth i ix 0%nat < nth i (shape a) 0%nat)%nat -> at_index b ix = at_index a ix.
Proof.
  intros H E F L. unfold weight_ufunc. rewrite (get_factors_axis w dims i s 0 _ ws H E). cbn [bind Nat.add].
  rewrite L, Nat.eqb_refl. eexists. eexists. split; [reflexivity|]. cbn [shape]. rewrite L, Nat.eqb_refl.
  split; [reflexivity|]. split; [reflexivity|]. intros ix Hix. cbn [at_index apply_ufunc].
  rewrite Forall_forall in F. specialize (F (nth (nth i ix 0%nat) ws 0) ltac:(apply nth_In; exact Hix)).
  field. lra.
Qed.
Lemma a_weighting_invertible a dims i s : has_axis dims i s -> well_formed s -> off_zero s -> (1 <= scale_len s)%nat ->
  nth i (shape a) 0%nat = scale_len s ->
  exists r b, weight_ufunc Multiply AWeighting false a dims = Ok r /\ weight_ufunc Divide AWeighting false r dims = Ok b /\
    shape b = shape a /\
    forall ix, (nth i ix 0%nat < nth i (shape a) 0%nat)%nat -> at_index b ix = at_index a ix.
Proof.
  intros H Hs Hz Hl L. destruct (a_weights s Hs Hz Hl) as [bs [ws [_ [E [Lw [F _]]]]]].
  apply (divide_undoes AWeighting a dims i s ws H E F). congruence.
Qed.
Lemma flat_weighting_identity a dims i s : has_axis dims i s -> nth i (shape a) 0%nat = scale_len s ->
  exists r, weight_ufunc Multiply Flat false a dims = Ok r /\ shape r = shape a /\
    forall ix, (nth i ix 0%nat < nth i (shape a) 0%nat)%nat -> at_index r ix = at_index a ix.
Proof.
  intros H L. destruct (multiply_spec Flat a dims i s (repeat 1 (scale_len s)) H eq_refl) as [r [E [S [_ V]]]].
  { rewrite repeat_length. assumption. }
  exists r. split; [assumption|]. split; [assumption|]. intros ix Hix. rewrite V.
  rewrite (nth_indep _ 0 1) by (rewrite repeat_length; lia). rewrite nth_repeat. lra.
Qed.
Lemma weighting_rejects w a dims first :
  (Forall (fun d => d = WOther) dims -> weight_ufunc Multiply w first a dims = Raise ValueError
     /\ weight_ufunc Divide w first a dims = Raise ValueError) /\
  weight_ufunc OtherUfunc w first a dims = Raise TypeError.
Proof.
  split; [|reflexivity]. intros H. unfold weight_ufunc. rewrite (get_factors_none w dims 0 _ H). split; reflexivity.
Qed.

(** * Slicing and weighting do not commute *)
Lemma nth_error_In_map {A B} (f : A -> B) l x : In x l -> In (f x) (map f l).
Proof. apply in_map. Qed.
(** the weights of some of the bands: the same up to one constant, which is not zero
    unless the band of least weight is among them *)
Lemma weights_of_part bs cs ws vs :
  bs <> [] -> cs <> [] -> incl cs bs -> off_zero (Explicit bs) ->
  wdata AWeighting (Explicit bs) = Ok ws -> wdata AWeighting (Explicit cs) = Ok vs ->
  exists k, 0 <= k /\
    (forall i j b x y, nth_error bs i = Some b -> nth_error cs j = Some b ->
       nth_error ws i = Some x -> nth_error vs j = Some y -> y = x - k) /\
    (k = 0 <-> exists b, In b cs /\ Forall (fun c => a_weight_db (center b) <= a_weight_db (center c)) bs).
Proof.
  intros Hb Hc Hi _. cbn [wdata scale_bands bind].
  set (fb := map (fun b => a_curve (center b)) bs). set (fc := map (fun b => a_curve (center b)) cs).
  assert (Nb : fb <> []) by (unfold fb; destruct bs; [contradiction|discriminate]).
  assert (Nc : fc <> []) by (unfold fc; destruct cs; [contradiction|discriminate]).
  destruct (np_min_spec fb Nb) as [Ib Lb]. destruct (np_min_spec fc Nc) as [Ic Lc].
  intros Ew Ev.
  assert (Ew' : ws = map (fun r => 1 + (r - np_min fb)) fb) by (destruct fb; [contradiction|congruence]).
  assert (Ev' : vs = map (fun r => 1 + (r - np_min fc)) fc) by (destruct fc; [contradiction|congruence]).
  rewrite Forall_forall in Lb, Lc.
  assert (Hin : In (np_min fc) fb).
  { unfold fc in Ic. apply in_map_iff in Ic. destruct Ic as [c [Ec Ic]]. unfold fc. rewrite <- Ec.
    unfold fb. apply in_map_iff. exists c. split; [reflexivity|apply Hi; assumption]. }
  exists (np_min fc - np_min fb). split; [specialize (Lb _ Hin); lra|]. split.
  - intros i j b x y H1 H2 H3 H4. subst ws vs. rewrite nth_error_map in H3, H4. unfold fb in H3 at 2. unfold fc in H4 at 2.
    rewrite nth_error_map, H1 in H3. rewrite nth_error_map, H2 in H4. cbn [option_map] in H3, H4.
    injection H3 as <-. injection H4 as <-. lra.
  - split.
    + intros E. assert (E' : np_min fc = np_min fb) by lra.
      unfold fc in Ic at 2. apply in_map_iff in Ic. destruct Ic as [c [Ec Ic]].
      exists c. split; [assumption|]. apply Forall_forall. intros d Hd. rewrite <- !a_curve_is_db, Ec, E'.
      apply Lb. unfold fb. apply in_map_iff. exists d. auto.
    + intros [b [Hbc Hm]]. rewrite Forall_forall in Hm.
      assert (A : np_min fc <= a_curve (center b)) by (apply Lc; unfold fc; apply in_map_iff; exists b; auto).
      unfold fb in Ib at 2. apply in_map_iff in Ib. destruct Ib as [d [Ed Id]].
      specialize (Hm d Id). rewrite <- !a_curve_is_db in Hm. specialize (Lb _ Hin). lra.
Qed.
Lemma R_A_pos f : f <> 0 -> 0 < R_A f.
Proof.
  intros H. unfold R_A. assert (P : 0 < f ^ 2) by (simpl; nra).
  replace (f ^ 4) with (f ^ 2 * f ^ 2) by ring. set (x := f ^ 2) in *. clearbody x.
  assert (S : 0 < sqrt ((x + 107.7 ^ 2) * (x + 737.9 ^ 2))) by (apply sqrt_lt_R0; nra).
  apply Rdiv_lt_0_compat; [nra|]. apply Rmult_lt_0_compat; [|lra]. apply Rmult_lt_0_compat; [lra|assumption].
Qed.

(** * A band cut out of a FrequencyAdaptive *)
Lemma assign_zero n a b (x : R) : (n <= a)%nat -> assign_slice (repeat 0 n) (a, b) x = repeat 0 n.
Proof.
  intros H. unfold assign_slice; cbn [fst snd].
  assert (S0 : skipn a (repeat 0 n) = []) by (apply skipn_all2; rewrite repeat_length; assumption).
  assert (F0 : firstn a (repeat 0 n) = repeat 0 n) by (apply firstn_all2; rewrite repeat_length; assumption).
  rewrite S0, F0, firstn_nil. simpl. rewrite Nat.add_0_r, S0, app_nil_r. reflexivity.
Qed.
(** [fa[:, band]] keeps the band's columns [a .. b) of the whole array as its
    slice; unless the band sits near the start, all its weights are zero *)
Lemma cut_band_weights q a b x : (b - a <= a)%nat ->
  efd_weights (mkEfd [q] (Explicit [q]) [(a, b)]) [x] = Ok (repeat 0 (b - a)).
Proof. intros H. unfold efd_weights. cbn [eslices last combine fold_left fst snd]. rewrite assign_zero by assumption. reflexivity. Qed.
Lemma cut_band_silenced q a b w m x : (b - a <= a)%nat -> (a < b)%nat ->
  shape x = [m; (b - a)%nat] ->
  exists r, weight_ufunc Multiply w false x [WOther; WExplicit (mkEfd [q] (Explicit [q]) [(a, b)])] = Ok r /\
    forall ix, at_index r ix = 0.
Proof.
  intros H Hab Hs. unfold weight_ufunc. cbn [get_factors].
  assert (E : exists v, wdata w (Explicit [q]) = Ok [v]).
  { destruct w; simpl; eexists; reflexivity. }
  destruct E as [v E]. cbn [escale]. rewrite E. cbn [bind]. rewrite cut_band_weights by assumption. cbn [bind length Nat.sub].
  rewrite Hs. cbn [nth]. rewrite repeat_length, Nat.eqb_refl. eexists. split; [reflexivity|].
  intros ix. cbn [at_index apply_ufunc]. rewrite nth_repeat. lra.
Qed.
Lemma cut_band_refuted :
  exists q1 q2 fa d r, proper q1 /\ proper q2 /\
    fa_new [mkArr 3 [[1; 2; 3]]; mkArr 3 [[4; 5; 6]]] (Explicit [q1; q2]) = Ok fa /\
    fa_get fa q2 = Ok (mkArr 3 [[4; 5; 6]], d) /\
    weight_ufunc Multiply AWeighting false (mkNd [1; 3]%nat (fun ix => nth (nth 1 ix 0%nat) [4; 5; 6] 0)) [WOther; WExplicit d] = Ok r /\
    (forall ix, at_index r ix = 0).
Proof.
  exists (mkBand 100 200), (mkBand 200 300).
  assert (P1 : proper (mkBand 100 200)) by (unfold proper; simpl; lra).
  assert (P2 : proper (mkBand 200 300)) by (unfold proper; simpl; lra).
  destruct (fa_new [mkArr 3 [[1; 2; 3]]; mkArr 3 [[4; 5; 6]]] (Explicit [mkBand 100 200; mkBand 200 300])) as [fa|] eqn:E;
    [|cbn in E; discriminate].
  cbn in E. inversion E; subst fa. clear E.
  set (d := mkEfd [mkBand 200 300] (Explicit [mkBand 200 300]) [(3, 6)%nat]).
  destruct (cut_band_silenced (mkBand 200 300) 3 6 AWeighting 1 (mkNd [1; 3]%nat (fun ix => nth (nth 1 ix 0%nat) [4; 5; 6] 0)))
    as [r [Er Zr]]; [lia|lia|reflexivity|].
  eexists; exists d, r. split; [assumption|]. split; [assumption|]. split; [reflexivity|]. split; [|split; assumption].
  unfold fa_get, efd_integer_slice, efd_metaslice_band, efd_lookup. cbn [snd fst ebands eslices assoc_last fa_slices cumsum combine map cols Nat.add].
  assert (B22 : band_eqb (mkBand 200 300) (mkBand 200 300) = true).
  { unfold band_eqb, Reqb; cbn [bstart bstop]. destruct (Req_EM_T 200 200), (Req_EM_T 300 300); try reflexivity; contradiction. }
  assert (B12 : band_eqb (mkBand 100 200) (mkBand 200 300) = false).
  { unfold band_eqb, Reqb; cbn [bstart bstop]. destruct (Req_EM_T 100 200); [lra|reflexivity]. }
  rewrite B22. unfold make_explicit, span_band. cbn [last bstart bstop bind].
  rewrite make_band_ok by lra. reflexivity.
Qed.

Example weighting_example : exists s, well_formed s /\ off_zero s /\ (1 <= scale_len s)%nat /\
  has_axis [WOther; WFreq s] 1 s.
Proof.
  exists (Explicit [mkBand 0 100; mkBand 50 200]). destruct well_formed_example as [_ [_ [_ W]]].
  split; [assumption|]. split.
  - intros bs H. cbn in H. inversion H; subst. apply Forall_cons; [|apply Forall_cons; [|apply Forall_nil]]; unfold center, bandwidth; cbn [bstart bstop]; lra.
  - split; [simpl; lia|]. apply axis_later, axis_here.
Qed.

(** weights that do not fit the axis are refused, unless there is only one, which every
    element is multiplied by *)
Lemma weighting_misfit w a dims i s ws first u : has_axis dims i s -> wdata w s = Ok ws -> u <> OtherUfunc ->
  nth i (shape a) 0%nat <> length ws -> length ws <> 1%nat -> weight_ufunc u w first a dims = Raise ValueError.
Proof.
  intros H E Hu N1 N2. unfold weight_ufunc. rewrite (get_factors_axis w dims i s 0 _ ws H E). cbn [bind Nat.add].
  destruct (Nat.eqb_spec (length ws) (nth i (shape a) 0%nat)); [congruence|]. destruct (Nat.eqb_spec (length ws) 1); [contradiction|]. destruct u; [reflexivity|reflexivity|contradiction].
Qed.
Lemma weighting_one w a dims i s v : has_axis dims i s -> wdata w s = Ok [v] ->
  nth i (shape a) 0%nat <> 1%nat -> exists r, weight_ufunc Multiply w false a dims = Ok r /\ shape r = shape a /\ forall ix, at_index r ix = at_index a ix * v.
Proof.
  intros H E N1. unfold weight_ufunc. rewrite (get_factors_axis w dims i s 0 _ [v] H E). cbn [bind Nat.add length].
  destruct (Nat.eqb_spec 1 (nth i (shape a) 0%nat)); [congruence|]. cbn [Nat.eqb]. eexists. split; [reflexivity|]. split; reflexivity.
Qed.
(** the weights of an ExplicitFrequencyDimension always lie along the last axis, wherever the
    dimension itself is *)
Lemma explicit_last_axis w a pre d rest ws f : Forall (fun x => x = WOther) pre -> wdata w (escale d) = Ok ws -> efd_weights d ws = Ok f ->
  nth (length pre + length rest) (shape a) 0%nat = length f ->
  exists r, weight_ufunc Multiply w false a (pre ++ WExplicit d :: rest) = Ok r /\ shape r = shape a /\
    forall ix, at_index r ix = at_index a ix * nth (nth (length pre + length rest) ix 0%nat) f 0.
Proof.
  intros Hp E Ef L. unfold weight_ufunc.
  assert (G : forall k n, get_factors w (pre ++ WExplicit d :: rest) k n = Ok ((n - 1)%nat, f)).
  { clear L. induction Hp as [|x pre -> Hp IH]; intros k n; cbn [app get_factors]; [rewrite E; cbn [bind]; rewrite Ef; reflexivity|apply IH]. }
  rewrite G. cbn [bind]. rewrite app_length. cbn [length]. replace (length pre + S (length rest) - 1)%nat with (length pre + length rest)%nat by lia.
  rewrite L, Nat.eqb_refl. eexists. split; [reflexivity|]. split; reflexivity.
Qed.

(** a scale without bands: nothing to take the minimum of *)
Lemma weights_of_nothing fb : (forall s, scale_bands s = Ok [] -> wdata AWeighting s = Raise ValueError) /\
  scale_bands (BarkS fb 0) = Ok [] /\ scale_bands (MelS fb 0) = Ok [] /\ wdata Flat (BarkS fb 0) = Ok [].
Proof. split; [intros s H; cbn [wdata]; rewrite H; reflexivity|]. repeat split. Qed.
