(** Proofs about Rainbow.v (C105). *)
From Verif Require Import PyBase PyMore Spectral SpectralProofs TransformProofs TimeStretch TimeStretchProofs TimeStretchProofs4 Rainbow.
From Coq Require Import Reals Lra Lia.
Local Open Scope R_scope.

(** ** np.mod *)
Lemma np_mod_spec x m : 0 < m -> 0 <= np_mod x m < m /\ exists z, np_mod x m = x - IZR z * m.
Proof.
  intros H. unfold np_mod. destruct (base_Int_part (x / m)) as [A B]. set (n := IZR (Int_part (x / m))) in *.
  assert (E : x / m * m = x) by (field; lra). split; [|exists (Int_part (x / m)); fold n; ring].
  split; [apply (Rmult_le_compat_r m) in A; lra|]. assert (C : (x / m - n) * m < 1 * m) by (apply Rmult_lt_compat_r; lra). lra.
Qed.
(** ** np.unwrap *)
Lemma unwrap_step a b : - PI <= b - a + unwrap_correct a b <= PI /\ exists z, unwrap_correct a b = IZR z * (2 * PI).
Proof.
  pose proof PI_RGT_0 as P. unfold unwrap_correct. set (dd := b - a).
  destruct (Rlt_dec (Rabs dd) PI) as [S|S]; [split; [unfold Rabs in S; destruct (Rcase_abs dd); lra|exists 0%Z; ring]|].
  destruct (np_mod_spec (dd + PI) (2 * PI)) as [[A B] [z Z]]; [lra|]. set (v := np_mod _ _) in *.
  destruct (Req_EM_T (v - PI) (- PI)) as [E|E]; [destruct (Rlt_dec 0 dd)|].
  - split; [lra|]. exists (1 - z)%Z. rewrite minus_IZR. lra.
  - split; [lra|]. exists (- z)%Z. rewrite opp_IZR. lra.
  - split; [lra|]. exists (- z)%Z. rewrite opp_IZR. lra.
Qed.
Lemma unwrapped_step p t : unwrapped p (S t) - unwrapped p t = p (S t) - p t + unwrap_correct (p t) (p (S t)).
Proof. unfold unwrapped. cbn [rsum]. ring. Qed.
(** the unwrapped angles are the angles up to full turns, and never jump by more than half a turn *)
Theorem unwrap_turns p t : exists z, unwrapped p t = p t + IZR z * (2 * PI).
Proof.
  induction t as [|t [z IH]]; [exists 0%Z; unfold unwrapped; cbn [rsum]; ring|].
  destruct (unwrap_step (p t) (p (S t))) as [_ [y Y]]. exists (z + y)%Z. rewrite plus_IZR.
  pose proof (unwrapped_step p t) as E. rewrite Y, IH in E. lra.
Qed.
Theorem unwrap_jumps p t : Rabs (unwrapped p (S t) - unwrapped p t) <= PI.
Proof. rewrite unwrapped_step. destruct (unwrap_step (p t) (p (S t))) as [[A B] _]. apply Rabs_le. lra. Qed.
(** a phase that moves by less than half a turn from frame to frame is recovered from its angles *)
Theorem unwrap_recovers p phi n : (forall t, (t < n)%nat -> exists z, p t = phi t + IZR z * (2 * PI)) ->
  (forall t, (S t < n)%nat -> Rabs (phi (S t) - phi t) < PI) ->
  forall t, (t < n)%nat -> unwrapped p t = phi t + (p 0%nat - phi 0%nat).
Proof.
  intros Hp Hphi. induction t as [|t IH]; intros Ht; [unfold unwrapped; cbn [rsum]; ring|].
  specialize (IH ltac:(lia)). pose proof (unwrapped_step p t) as E. destruct (unwrap_step (p t) (p (S t))) as [[A B] [y Y]].
  destruct (Hp t ltac:(lia)) as [z0 Z0]. destruct (Hp (S t) Ht) as [z1 Z1]. pose proof (Hphi t Ht) as H.
  pose proof PI_RGT_0 as P.
  assert (Q : p (S t) - p t + unwrap_correct (p t) (p (S t)) = phi (S t) - phi t + IZR (z1 - z0 + y) * (2 * PI)) by (rewrite Y, Z1, Z0, plus_IZR, minus_IZR; ring).
  rewrite Q in A, B. assert (W : (z1 - z0 + y = 0)%Z).
  { unfold Rabs in H. set (d := phi (S t) - phi t) in *.
    assert (L : -1 < IZR (z1 - z0 + y) < 1).
    { split; apply Rmult_lt_reg_r with (2 * PI); try lra; destruct (Rcase_abs d); lra. }
    destruct L as [L1 L2]. apply lt_IZR in L1. apply lt_IZR in L2. lia. }
  rewrite W in Q. lra.
Qed.
(** ** np.gradient *)
Theorem gradient_shift n p q c t : (t < n)%nat -> (2 <= n)%nat -> (forall s, (s < n)%nat -> q s = p s + c) -> gradient n q t = gradient n p t.
Proof.
  intros H N E. unfold gradient. destruct (Nat.eqb_spec t 0) as [-> |]; [rewrite !E by lia; ring|].
  destruct (Nat.eqb_spec t (n - 1)) as [-> |]; rewrite !E by lia; [ring|lra].
Qed.
Theorem gradient_linear n p w c t : (t < n)%nat -> (2 <= n)%nat -> (forall s, (s < n)%nat -> p s = w * INR s + c) -> gradient n p t = w.
Proof.
  intros H N E. unfold gradient. destruct (Nat.eqb_spec t 0) as [-> |]; [rewrite !E by lia; cbn [INR]; ring|].
  destruct (Nat.eqb_spec t (n - 1)) as [-> |T].
  - rewrite !E by lia. replace (n - 1)%nat with (S (n - 1 - 1)) at 1 by lia. rewrite S_INR. ring.
  - destruct t as [|t]; [lia|]. rewrite !E by lia. replace (S t - 1)%nat with t by lia. rewrite !S_INR. lra.
Qed.
(** the angles of coefficients with these magnitudes and phases *)
Lemma same_turn a b : cos a = cos b -> sin a = sin b -> exists z, a = b + IZR z * (2 * PI).
Proof.
  intros C S. assert (C1 : cos (a - b) = 1) by (rewrite cos_minus, C, S; pose proof (sin2_cos2 b); unfold Rsqr in *; lra).
  pose proof PI_RGT_0 as P. destruct (np_mod_spec (a - b) (2 * PI)) as [[A B] [z Z]]; [lra|]. exists z.
  set (v := np_mod (a - b) (2 * PI)) in *. assert (Cv : cos v = 1).
  { rewrite Z. rewrite cos_minus, C1. replace (IZR z * (2 * PI)) with (2 * IZR z * PI) by ring.
    assert (S1 : sin (a - b) = 0) by (rewrite sin_minus, C, S; ring). rewrite S1, Rmult_0_l, Rplus_0_r, Rmult_1_l.
    replace (2 * IZR z * PI) with (0 + 2 * IZR z * PI) by ring. rewrite cos_period_Z. apply cos_0. }
  destruct (Req_dec v 0) as [V|V]; [lra|exfalso].
  destruct (Rle_lt_dec v PI) as [L|L].
  - pose proof (cos_decreasing_1 0 v) as D. rewrite cos_0 in D. lra.
  - pose proof (cos_increasing_1 v (2 * PI)) as D. rewrite cos_2PI in D. lra.
Qed.

(** ** Grids and the scaling to the unit interval *)
Lemma flat_map_block {A} (g : nat -> list A) f : forall n a t k d, (forall i, length (g i) = f) -> (k < f)%nat -> (t < n)%nat ->
  nth (t * f + k) (flat_map g (seq a n)) d = nth k (g (a + t)%nat) d.
Proof.
  induction n as [|n IH]; intros a t k d L K T; [lia|]. cbn [seq flat_map]. destruct t as [|t].
  - rewrite app_nth1 by (rewrite L; cbn; lia). cbn. now rewrite Nat.add_0_r.
  - rewrite app_nth2 by (rewrite L; nia). rewrite L. replace (S t * f + k - f)%nat with (t * f + k)%nat by nia. rewrite IH by (assumption || lia). do 2 f_equal. lia.
Qed.
Lemma grid_at n f v t k : (t < n)%nat -> (k < f)%nat -> at_ (grid n f v) (t * f + k) = v t k.
Proof.
  intros T K. unfold at_, grid. rewrite (flat_map_block _ f) by (intros; rewrite ?map_length, ?seq_length; (reflexivity || assumption)). cbn [Nat.add].
  rewrite (nth_indep _ 0 (v t O)) by (rewrite map_length, seq_length; lia). rewrite map_nth, seq_nth by lia. reflexivity.
Qed.
Lemma grid_length n f v : length (grid n f v) = (n * f)%nat.
Proof.
  unfold grid. assert (G : forall l, length (flat_map (fun t => map (v t) (seq 0 f)) l) = (length l * f)%nat).
  { induction l as [|t l IH]; [reflexivity|]. cbn [flat_map length]. rewrite app_length, IH, map_length, seq_length. lia. }
  now rewrite G, seq_length.
Qed.
Lemma in_grid n f v x : In x (grid n f v) <-> exists t k, (t < n)%nat /\ (k < f)%nat /\ x = v t k.
Proof.
  unfold grid. rewrite in_flat_map. split.
  - intros (t & T & K). apply in_map_iff in K as (k & <- & K). apply in_seq in T, K. exists t, k. repeat split; lia.
  - intros (t & k & T & K & ->). exists t. split; [apply in_seq; lia|]. apply in_map_iff. exists k. split; [reflexivity|apply in_seq; lia].
Qed.
Lemma grid_ext n f v w : (forall t k, (t < n)%nat -> (k < f)%nat -> v t k = w t k) -> grid n f v = grid n f w.
Proof.
  intros H. unfold grid. assert (G : forall l, (forall t, In t l -> (t < n)%nat) -> flat_map (fun t => map (v t) (seq 0 f)) l = flat_map (fun t => map (w t) (seq 0 f)) l).
  { induction l as [|t l IH]; intros Hl; [reflexivity|]. cbn [flat_map]. rewrite IH by (intros; apply Hl; now right). f_equal.
    apply map_ext_in. intros k K. apply in_seq in K. apply H; [apply Hl; now left|lia]. }
  apply G. intros t T. apply in_seq in T. lia.
Qed.
(** [unit_scale] in terms of any attained bounds *)
Theorem unit_scale_value x lo hi : In lo x -> In hi x -> (forall v, In v x -> lo <= v <= hi) -> lo < hi ->
  exists y, unit_scale x = Some y /\ length y = length x /\ forall i, (i < length x)%nat -> at_ y i = (at_ x i - lo) / (hi - lo).
Proof.
  intros Hlo Hhi B L. assert (N : x <> []) by (intros ->; contradiction).
  assert (Em : rmin x = lo) by (apply Rle_antisym; [now apply rmin_le|apply B, rmin_in, N]).
  unfold unit_scale. rewrite Em.
  assert (EM : rmax (map (fun v => v - lo) x) = hi - lo).
  { apply Rle_antisym.
    - pose proof (rmax_in (map (fun v => v - lo) x)) as I. destruct x; [contradiction|]. specialize (I ltac:(discriminate)). apply in_map_iff in I as (a & <- & Ha). pose proof (B a Ha). lra.
    - apply rmax_ge. apply in_map_iff. now exists hi. }
  rewrite EM. destruct (Req_EM_T (hi - lo) 0) as [Z|_]; [lra|]. eexists. split; [reflexivity|]. split; [now rewrite !map_length|].
  intros i Hi. unfold at_. rewrite map_map. rewrite (nth_indep _ 0 ((fun v => (v - lo) / (hi - lo)) 0)) by now rewrite map_length.
  now rewrite (map_nth (fun v => (v - lo) / (hi - lo))).
Qed.

(** ** The picture *)
(** one triple of colours for each coefficient: the colour of its hue times its brightness *)
Theorem picture colormap f tf : (2 <= length tf)%nat -> (2 <= f)%nat ->
  exists rows, rainbowgram colormap f tf = Ok rows /\ length rows = length tf /\
    forall t k, (t < length tf)%nat -> (k < f)%nat ->
      length (nth t rows []) = f /\
      length (nth k (nth t rows []) []) = Nat.min 3 (length (colormap (entry (hue (length tf) f tf) (t * f + k)))) /\
      forall c, (c < 3)%nat -> (c < length (colormap (entry (hue (length tf) f tf) (t * f + k))))%nat ->
        nth c (nth k (nth t rows []) []) None =
        option_map (fun b => at_ (colormap (entry (hue (length tf) f tf) (t * f + k))) c * b) (entry (brightness (length tf) f tf) (t * f + k)).
Proof.
  intros N F. unfold rainbowgram. destruct (Nat.eqb_spec (length tf * f) 0) as [E|_]; [nia|].
  destruct (Nat.ltb_spec (length tf) 2); [lia|]. destruct (Nat.ltb_spec f 2); [lia|]. cbn [orb].
  eexists. split; [reflexivity|]. rewrite map_length, seq_length. split; [reflexivity|]. intros t k T K.
  match goal with |- context[map ?g (seq 0 (length tf))] => set (row := g) end.
  assert (Er : nth t (map row (seq 0 (length tf))) [] = row t).
  { rewrite (nth_indep _ [] (row O)) by (rewrite map_length, seq_length; lia). rewrite map_nth, seq_nth by lia. reflexivity. }
  rewrite Er. unfold row. rewrite map_length, seq_length. split; [reflexivity|].
  match goal with |- context[map ?g (seq 0 f)] => set (px := g) end.
  assert (Ep : nth k (map px (seq 0 f)) [] = px k).
  { rewrite (nth_indep _ [] (px O)) by (rewrite map_length, seq_length; lia). rewrite map_nth, seq_nth by lia. reflexivity. }
  rewrite Ep. unfold px. set (col := colormap _). split; [now rewrite map_length, firstn_length|]. intros c C1 C2.
  match goal with |- context[map ?g (firstn 3 col)] => set (h := g) end.
  rewrite (nth_indep _ None (h 0)) by (rewrite map_length, firstn_length; lia). rewrite (map_nth h).
  assert (Ec : nth c (firstn 3 col) 0 = at_ col c). { unfold at_. clear - C1. clearbody col. destruct c as [|[|[|c]]]; [..|lia]; destruct col as [|? [|? [|? ?]]]; reflexivity. }
  rewrite Ec. unfold h. now destruct (entry (brightness (length tf) f tf) (t * f + k)).
Qed.
Theorem too_small_raises colormap f tf : (length tf < 2 \/ f < 2)%nat -> rainbowgram colormap f tf = Raise ValueError.
Proof.
  intros H. unfold rainbowgram. destruct (Nat.eqb_spec (length tf * f) 0); [reflexivity|].
  destruct (Nat.ltb_spec (length tf) 2); [reflexivity|]. destruct (Nat.ltb_spec f 2); [reflexivity|]. lia.
Qed.

(** ** Brightness *)
Definition loud (tf : list (list cplx)) (t k : nat) : R := ln (1 + 1000 * Rabs (fst (coeff tf t k))).
Lemma log_modulus_pos x : log_modulus (Rabs x * 1000) = ln (1 + 1000 * Rabs x).
Proof.
  unfold log_modulus. pose proof (Rabs_pos x) as P. set (a := Rabs x) in *. rewrite (Rabs_right (a * 1000)) by lra.
  destruct (sign_cases (a * 1000)) as [[H E]|[[H E]|[H E]]]; rewrite E; [lra| |rewrite Rmult_1_l; f_equal; ring].
  assert (Z : a = 0) by lra. rewrite Z, Rmult_0_l. replace (1 + 1000 * 0) with 1 by ring. now rewrite ln_1.
Qed.
Lemma loud_le a b : 0 <= a -> 0 <= b -> (ln (1 + 1000 * a) <= ln (1 + 1000 * b) <-> a <= b).
Proof.
  intros A B. split; intros H.
  - destruct (Rle_lt_dec a b) as [|L]; [assumption|]. assert (ln (1 + 1000 * b) < ln (1 + 1000 * a)) by (apply ln_increasing; lra). lra.
  - destruct H as [L| ->]; [left; apply ln_increasing; lra|lra].
Qed.
(** when the real parts are not all of one size, brightness is a number between 0 and 1 that grows
    with the size of the real part, 0 for the smallest and 1 for the largest *)
Theorem brightness_order n f tf t1 k1 t2 k2 : (t1 < n)%nat -> (k1 < f)%nat -> (t2 < n)%nat -> (k2 < f)%nat ->
  Rabs (fst (coeff tf t1 k1)) <> Rabs (fst (coeff tf t2 k2)) ->
  exists b, brightness n f tf = Some b /\
    (forall t k, (t < n)%nat -> (k < f)%nat -> 0 <= at_ b (t * f + k) <= 1) /\
    (forall t k t' k', (t < n)%nat -> (k < f)%nat -> (t' < n)%nat -> (k' < f)%nat ->
      (at_ b (t * f + k) <= at_ b (t' * f + k') <-> Rabs (fst (coeff tf t k)) <= Rabs (fst (coeff tf t' k')))) /\
    (exists t k, (t < n)%nat /\ (k < f)%nat /\ at_ b (t * f + k) = 1) /\ (exists t k, (t < n)%nat /\ (k < f)%nat /\ at_ b (t * f + k) = 0).
Proof.
  intros T1 K1 T2 K2 D. unfold brightness. rewrite (grid_ext n f _ (loud tf)) by (intros; apply log_modulus_pos).
  set (x := grid n f (loud tf)). assert (N : x <> []) by (intros E; apply (f_equal (@length R)) in E; unfold x in E; rewrite grid_length in E; cbn in E; nia).
  pose proof (rmin_in x N) as Imin. pose proof (rmax_in x N) as Imax.
  assert (L : rmin x < rmax x).
  { assert (A : rmin x <= loud tf t1 k1 <= rmax x) by (split; [apply rmin_le|apply rmax_ge]; apply in_grid; exists t1, k1; auto).
    assert (B : rmin x <= loud tf t2 k2 <= rmax x) by (split; [apply rmin_le|apply rmax_ge]; apply in_grid; exists t2, k2; auto).
    destruct (Req_dec (loud tf t1 k1) (loud tf t2 k2)) as [E|E]; [exfalso|lra]. apply D.
    unfold loud in E. apply Rle_antisym; apply loud_le; try apply Rabs_pos; lra. }
  destruct (unit_scale_value x (rmin x) (rmax x) Imin Imax) as (b & Eb & Lb & Vb); [intros; split; [now apply rmin_le|now apply rmax_ge]|exact L|].
  assert (V : forall t k, (t < n)%nat -> (k < f)%nat -> at_ b (t * f + k) = (loud tf t k - rmin x) / (rmax x - rmin x)).
  { intros t k T K. rewrite Vb by (unfold x; rewrite grid_length; nia). unfold x at 1. now rewrite grid_at. }
  assert (IV : 0 < / (rmax x - rmin x)) by (apply Rinv_0_lt_compat; lra).
  exists b. split; [exact Eb|]. split; [|split; [|split]].
  - intros t k T K. apply (unit_scale_range x b); [exact Eb|]. apply nth_In. rewrite Lb. unfold x. rewrite grid_length. nia.
  - intros t k t' k' T K T' K'. rewrite !V by assumption. rewrite <- (loud_le (Rabs (fst (coeff tf t k))) (Rabs (fst (coeff tf t' k')))) by apply Rabs_pos. fold (loud tf t k) (loud tf t' k'). unfold Rdiv. split; intros H.
    + apply Rmult_le_reg_r in H; lra.
    + apply Rmult_le_compat_r; lra.
  - apply in_grid in Imax as (t & k & T & K & E). exists t, k. split; [exact T|]. split; [exact K|]. rewrite V by assumption. rewrite <- E. field. lra.
  - apply in_grid in Imin as (t & k & T & K & E). exists t, k. split; [exact T|]. split; [exact K|]. rewrite V by assumption. rewrite <- E. field. lra.
Qed.
(** ... of the real part only: the imaginary parts do not matter ... *)
Theorem brightness_real n f tf tf' : (forall t k, (t < n)%nat -> (k < f)%nat -> Rabs (fst (coeff tf t k)) = Rabs (fst (coeff tf' t k))) ->
  brightness n f tf = brightness n f tf'.
Proof. intros H. unfold brightness. f_equal. apply grid_ext. intros t k T K. now rewrite H. Qed.
(** ... so when the real parts are all of one size, in particular when they are all 0, every
    colour is not-a-number, however different the coefficients are *)
Theorem brightness_refuted colormap f tf rows : (forall t k, (t < length tf)%nat -> (k < f)%nat -> Rabs (fst (coeff tf t k)) = Rabs (fst (coeff tf 0 0))) ->
  rainbowgram colormap f tf = Ok rows -> forall row px c, In row rows -> In px row -> In c px -> c = None.
Proof.
  intros H. assert (B : (length tf * f <> 0)%nat -> brightness (length tf) f tf = None).
  { intros N. unfold brightness. rewrite (grid_ext _ _ _ (fun _ _ => log_modulus (Rabs (fst (coeff tf 0 0)) * 1000))) by (intros; now rewrite H).
    apply unit_scale_constant_refuted.
    - intros E. apply (f_equal (@length R)) in E. rewrite grid_length in E. cbn in E. lia.
    - intros a b A Bb. apply in_grid in A as (?&?&?&?& ->). apply in_grid in Bb as (?&?&?&?& ->). reflexivity. }
  unfold rainbowgram. destruct (Nat.eqb_spec (length tf * f) 0); [discriminate|]. destruct (_ || _)%bool; [discriminate|]. rewrite B by assumption.
  intros [= <-] row px c R P C. apply in_map_iff in R as (t & <- & _). apply in_map_iff in P as (k & <- & _). apply in_map_iff in C as (v & <- & _). reflexivity.
Qed.

(** ** Hue *)
(** coefficients with these magnitudes and phases, the phases moving by less than half a turn from
    frame to frame *)
Definition polar_form (n f : nat) (tf : list (list cplx)) (r phi : nat -> nat -> R) : Prop :=
  (forall t k, (t < n)%nat -> (k < f)%nat -> 0 < r t k /\ coeff tf t k = (r t k * cos (phi t k), r t k * sin (phi t k))) /\
  (forall t k, (S t < n)%nat -> (k < f)%nat -> Rabs (phi (S t) k - phi t k) < PI).
Lemma magnitude_polar r a : 0 < r -> magnitude (r * cos a, r * sin a) = r.
Proof.
  intros H. unfold magnitude. cbn [fst snd]. replace (r * cos a * (r * cos a) + r * sin a * (r * sin a)) with (r * r * (Rsqr (sin a) + Rsqr (cos a))) by (unfold Rsqr; ring).
  rewrite sin2_cos2, Rmult_1_r. apply sqrt_square. lra.
Qed.
Lemma angle_polar r a : 0 < r -> exists z, angle (r * cos a, r * sin a) = a + IZR z * (2 * PI).
Proof.
  intros H. destruct (polar (r * cos a, r * sin a)) as [C S]. rewrite magnitude_polar in C, S by exact H. cbn [fst snd] in C, S.
  apply same_turn; apply (Rmult_eq_reg_l r); lra.
Qed.
(** the hue is the phase advance, scaled to the unit interval over the picture: whatever the magnitudes *)
Theorem hue_advance n f tf r phi : (2 <= n)%nat -> polar_form n f tf r phi ->
  hue n f tf = unit_scale (grid n f (fun t k => gradient n (fun s => phi s k) t)).
Proof.
  intros N [P J]. unfold hue. f_equal. apply grid_ext. intros t k T K.
  apply (gradient_shift n (fun s => phi s k) _ (angle (coeff tf 0 k) - phi 0%nat k)); [exact T|exact N|]. intros s Hs.
  apply (unwrap_recovers (fun s => angle (coeff tf s k)) (fun s => phi s k) n); [|intros; now apply J|exact Hs].
  intros u U. destruct (P u k U K) as [Hr ->]. now apply angle_polar.
Qed.
(** for bins that turn steadily, [w k] from frame to frame, the hue is [w k] on the scale from the
    slowest to the fastest, in every frame *)
Theorem hue_steady n f tf r w theta lo hi : (2 <= n)%nat ->
  (forall t k, (t < n)%nat -> (k < f)%nat -> 0 < r t k /\ coeff tf t k = (r t k * cos (w k * INR t + theta k), r t k * sin (w k * INR t + theta k))) ->
  (forall k, (k < f)%nat -> - PI < w k < PI /\ lo <= w k <= hi) -> (exists k, (k < f)%nat /\ w k = lo) -> (exists k, (k < f)%nat /\ w k = hi) -> lo < hi ->
  forall t k, (t < n)%nat -> (k < f)%nat -> entry (hue n f tf) (t * f + k) = Some ((w k - lo) / (hi - lo)).
Proof.
  intros N P W [ka [Ka Ea]] [kb [Kb Eb]] L t k T K.
  rewrite (hue_advance n f tf r (fun t k => w k * INR t + theta k) N).
  2:{ split; [exact P|]. intros s j _ Hj. rewrite S_INR. replace (w j * (INR s + 1) + theta j - (w j * INR s + theta j)) with (w j) by ring.
      destruct (W j Hj) as [X _]. now apply Rabs_def1. }
  rewrite (grid_ext n f _ (fun _ k => w k)) by (intros s j Hs Hj; now apply (gradient_linear n _ (w j) (theta j))).
  destruct (unit_scale_value (grid n f (fun _ k => w k)) lo hi) as (y & Ey & Ly & Vy); [| | |exact L|].
  - apply in_grid. exists 0%nat, ka. split; [lia|]. now split.
  - apply in_grid. exists 0%nat, kb. split; [lia|]. now split.
  - intros v Hv. apply in_grid in Hv as (s & j & _ & Hj & ->). now apply W.
  - rewrite Ey. unfold entry. cbn [option_map]. rewrite Vy by (rewrite grid_length; nia). now rewrite grid_at.
Qed.
(** bins that all turn alike have no hue: the colour is the one for not-a-number *)
Theorem hue_alike_refuted n f tf r w theta : (2 <= n)%nat -> (1 <= f)%nat ->
  (forall t k, (t < n)%nat -> (k < f)%nat -> 0 < r t k /\ coeff tf t k = (r t k * cos (w * INR t + theta k), r t k * sin (w * INR t + theta k))) ->
  - PI < w < PI -> hue n f tf = None.
Proof.
  intros N F P W. rewrite (hue_advance n f tf r (fun t k => w * INR t + theta k) N).
  2:{ split; [exact P|]. intros s j _ Hj. rewrite S_INR. replace (w * (INR s + 1) + theta j - (w * INR s + theta j)) with w by ring. now apply Rabs_def1. }
  rewrite (grid_ext n f _ (fun _ _ => w)) by (intros s j Hs Hj; now apply (gradient_linear n _ w (theta j))).
  apply unit_scale_constant_refuted.
  - intros E. apply (f_equal (@length R)) in E. rewrite grid_length in E. cbn in E. nia.
  - intros a b A B. apply in_grid in A as (?&?&?&?& ->). apply in_grid in B as (?&?&?&?& ->). reflexivity.
Qed.
(** loudness does not change the hue *)
Lemma coeff_scaled c tf t k : coeff (map (map (cscale c)) tf) t k = cscale c (coeff tf t k).
Proof.
  unfold coeff. assert (Z : cscale c (0, 0) = (0, 0)) by (unfold cscale; cbn; now rewrite Rmult_0_r).
  rewrite <- Z at 1. change (@nil cplx) with (map (cscale c) []) at 1. now rewrite !map_nth.
Qed.
Theorem hue_loudness n f tf c : 0 < c -> hue n f (map (map (cscale c)) tf) = hue n f tf.
Proof.
  intros H. unfold hue. f_equal. apply grid_ext. intros t k T K.
  assert (E : forall s, angle (coeff (map (map (cscale c)) tf) s k) = angle (coeff tf s k)) by (intros s; rewrite coeff_scaled; now apply angle_scale).
  assert (U : forall s, unwrapped (fun s => angle (coeff (map (map (cscale c)) tf) s k)) s = unwrapped (fun s => angle (coeff tf s k)) s).
  { intros s. unfold unwrapped. rewrite E. f_equal. apply rsum_ext. intros i _. now rewrite !E. }
  unfold gradient. now rewrite !U.
Qed.

(** ** The hypotheses are met: two bins, one standing still, one turning by a quarter *)
Definition quarter : list (list cplx) := [[(1, 0); (2, 0)]; [(1, 0); (0, 2)]; [(1, 0); (-2, 0)]].
Example quarter_example : exists rows, rainbowgram (fun h => match h with Some v => [v; 1 - v; 1; 1] | None => [0; 0; 0; 0] end) 2 quarter = Ok rows /\
  entry (hue 3 2 quarter) 2 = Some 0 /\ entry (hue 3 2 quarter) 3 = Some 1 /\ entry (brightness 3 2 quarter) 1 = Some 1 /\ entry (brightness 3 2 quarter) 3 = Some 0.
Proof.
  set (cm := fun h : option R => match h with Some v => [v; 1 - v; 1; 1] | None => [0; 0; 0; 0] end).
  destruct (picture cm 2 quarter) as (rows & E & _); [cbn; lia|lia|]. exists rows. split; [exact E|].
  pose proof PI_RGT_0 as P0.
  assert (H : forall t k, (t < 3)%nat -> (k < 2)%nat -> entry (hue 3 2 quarter) (t * 2 + k) = Some (((if Nat.eqb k 0 then 0 else PI / 2) - 0) / (PI / 2 - 0))).
  { apply (hue_steady 3 2 quarter (fun _ k => if Nat.eqb k 0 then 1 else 2) (fun k => if Nat.eqb k 0 then 0 else PI / 2) (fun _ => 0) 0 (PI / 2)); [lia| | | | |lra].
    - intros t k T K. destruct k as [|[|]]; [| |lia]; cbn [Nat.eqb].
      + split; [lra|]. rewrite Rmult_0_l, Rplus_0_r, cos_0, sin_0. destruct t as [|[|[|]]]; [| | |lia]; cbn; f_equal; lra.
      + split; [lra|]. destruct t as [|[|[|]]]; [| | |lia]; cbn [INR coeff quarter nth].
        * replace (PI / 2 * 0 + 0) with 0 by ring. rewrite cos_0, sin_0. cbn. f_equal; lra.
        * replace (PI / 2 * 1 + 0) with (PI / 2) by ring. rewrite cos_PI2, sin_PI2. cbn. f_equal; lra.
        * replace (PI / 2 * (1 + 1) + 0) with PI by field. rewrite cos_PI, sin_PI. cbn. f_equal; lra.
    - intros k _. destruct (Nat.eqb k 0); lra.
    - exists 0%nat. split; [lia|reflexivity].
    - exists 1%nat. split; [lia|reflexivity]. }
  split; [refine (eq_trans (H 1%nat 0%nat ltac:(lia) ltac:(lia)) _); cbn [Nat.eqb]; f_equal; field; lra|].
  split; [refine (eq_trans (H 1%nat 1%nat ltac:(lia) ltac:(lia)) _); cbn [Nat.eqb]; f_equal; field; lra|].
  unfold brightness. rewrite (grid_ext 3 2 _ (loud quarter)) by (intros; apply log_modulus_pos).
  assert (L0 : ln (1 + 1000 * 0) = 0) by (rewrite Rmult_0_r, Rplus_0_r; apply ln_1).
  assert (Lv : forall t k, (t < 3)%nat -> (k < 2)%nat -> loud quarter t k = ln (1 + 1000 * (if Nat.eqb k 0 then 1 else if Nat.eqb t 1 then 0 else 2))).
  { intros t k T K. unfold loud. do 3 f_equal. destruct t as [|[|[|]]], k as [|[|]]; try lia; cbn; unfold Rabs; destruct (Rcase_abs _); lra. }
  destruct (unit_scale_value (grid 3 2 (loud quarter)) (ln (1 + 1000 * 0)) (ln (1 + 1000 * 2))) as (y & Ey & Ly & Vy).
  - apply in_grid. exists 1%nat, 1%nat. repeat (split; [lia|]). now rewrite Lv by lia.
  - apply in_grid. exists 0%nat, 1%nat. repeat (split; [lia|]). now rewrite Lv by lia.
  - intros v Hv. apply in_grid in Hv as (t & k & T & K & ->). rewrite Lv by assumption.
    destruct (Nat.eqb k 0); [|destruct (Nat.eqb t 1)]; split; apply loud_le; lra.
  - apply ln_increasing; lra.
  - rewrite Ey. unfold entry. cbn [option_map]. assert (G : ln (1 + 1000 * 0) < ln (1 + 1000 * 2)) by (apply ln_increasing; lra).
    pose proof (grid_at 3 2 (loud quarter) 0 1 ltac:(lia) ltac:(lia)) as A. pose proof (grid_at 3 2 (loud quarter) 1 1 ltac:(lia) ltac:(lia)) as B. cbn [Nat.mul Nat.add] in A, B.
    rewrite !Vy by (rewrite grid_length; lia). rewrite A, B. rewrite !Lv by lia. cbn [Nat.eqb]. split; f_equal; field; lra.
Qed.

(** ** The sounds of a GAN experiment are scaled by their largest sample, not by their peak *)
Theorem experiment_scale_ok x y : experiment_scale x = Ok (Some y) ->
  length y = length x /\ (forall i, (i < length x)%nat -> at_ y i = at_ x i / Rabs (rmax x)) /\ (0 < rmax x -> rmax y = 1) /\
  ((forall v, In v x -> - rmax x <= v) -> forall v, In v y -> -1 <= v <= 1).
Proof.
  destruct x as [|a x]; [discriminate|]. unfold experiment_scale. destruct (Req_EM_T (Rabs (rmax (a :: x))) 0) as [|N]; [discriminate|].
  set (l := a :: x) in *. intros E. assert (Ey : y = map (fun v => v / Rabs (rmax l)) l) by congruence. subst y. clear E. split; [now rewrite map_length|]. split; [|split].
  - intros i Hi. unfold at_. rewrite (nth_indep (map (fun v => v / Rabs (rmax l)) l) 0 ((fun v => v / Rabs (rmax l)) 0)) by (rewrite map_length; exact Hi). now rewrite (map_nth (fun v => v / Rabs (rmax l))).
  - intros P. rewrite (Rabs_right (rmax l)) by lra. apply Rle_antisym.
    + assert (I : In (rmax (map (fun v => v / rmax l) l)) (map (fun v => v / rmax l) l)) by (apply rmax_in; discriminate).
      apply in_map_iff in I as (v & <- & V). apply rmax_ge in V. apply Rmult_le_reg_r with (rmax l); [exact P|]. unfold Rdiv. rewrite Rmult_assoc, Rinv_l; lra.
    + apply rmax_ge. apply in_map_iff. exists (rmax l). split; [field; lra|]. apply rmax_in. discriminate.
  - intros B v V. apply in_map_iff in V as (w & <- & W). pose proof (rmax_ge l w W) as U. pose proof (B w W) as D.
    assert (P : 0 < rmax l) by (destruct (Rle_lt_dec (rmax l) 0); [exfalso; apply N; rewrite Rabs_left1; lra|assumption]).
    rewrite Rabs_right by lra. split; apply Rmult_le_reg_r with (rmax l); try exact P; unfold Rdiv; rewrite Rmult_assoc, Rinv_l; lra.
Qed.
Theorem experiment_scale_refuted x i : rmax x <> 0 -> (i < length x)%nat -> at_ x i < - Rabs (rmax x) ->
  exists y, experiment_scale x = Ok (Some y) /\ at_ y i < -1.
Proof.
  intros M I H. destruct x as [|a x]; [cbn in I; lia|]. set (l := a :: x) in *.
  destruct (experiment_scale l) as [[y|]|e] eqn:E.
  - exists y. split; [reflexivity|]. destruct (experiment_scale_ok l y E) as (_ & V & _). rewrite V by exact I.
    pose proof (Rabs_pos_lt (rmax l) M) as P. apply Rmult_lt_reg_r with (Rabs (rmax l)); [exact P|]. unfold Rdiv. rewrite Rmult_assoc, Rinv_l; lra.
  - exfalso. unfold experiment_scale in E. subst l. destruct (Req_EM_T _ 0) as [Z|]; [|discriminate]. now apply Rabs_no_R0 in M.
  - exfalso. unfold experiment_scale in E. subst l. destruct (Req_EM_T _ 0); discriminate.
Qed.
Example experiment_example : experiment_scale [/ 2; - 1] = Ok (Some [1; -2]).
Proof.
  unfold experiment_scale. cbn [rmax fold_left map]. unfold Rmax. destruct (Rle_dec (/ 2) (- 1)); [lra|]. rewrite Rabs_right by lra.
  destruct (Req_EM_T (/ 2) 0); [lra|]. do 2 f_equal. f_equal; [field|]. f_equal. field.
Qed.
Theorem experiment_scale_empty : experiment_scale [] = Raise ValueError.
Proof. reflexivity. Qed.
(** a chirp: the hue is the speed at each frame, at the ends half a step inside *)
Theorem gradient_chirp n p a b c t : (2 <= n)%nat -> (t < n)%nat -> (forall s, (s < n)%nat -> p s = a * INR s * INR s + b * INR s + c) ->
  gradient n p t = if Nat.eqb t 0 then a + b else if Nat.eqb t (n - 1) then a * (2 * INR t - 1) + b else 2 * a * INR t + b.
Proof.
  intros Hn Ht E. unfold gradient. destruct (Nat.eqb_spec t 0) as [->|N0]; [rewrite !E by lia; cbn [INR]; ring|].
  assert (S1 : INR (t - 1) = INR t - 1) by (rewrite minus_INR by lia; cbn [INR]; ring).
  destruct (Nat.eqb_spec t (n - 1)) as [E1|N1]; rewrite !E by lia; rewrite S1; [ring|]. rewrite S_INR. field.
Qed.
