(** Proofs about the preprocessors (Preproc.v). *)
From Verif Require Import PyBase PyFacts PyMore Freq FreqProofs Preproc.
Local Open Scope R_scope.

Lemma Reqb_spec x y : reflect (x = y) (Reqb x y).
Proof. unfold Reqb. destruct (Req_EM_T x y); constructor; assumption. Qed.
Lemma Rleb_spec0 x y : reflect (x <= y) (Rleb x y).
Proof. unfold Rleb. destruct (Rle_dec x y); constructor; assumption. Qed.
Lemma Rltb_spec0 x y : reflect (x < y) (Rltb x y).
Proof. unfold Rltb. destruct (Rlt_dec x y); constructor; assumption. Qed.

Lemma imap_from_length {A B} (f : nat -> A -> B) l : forall i, length (imap_from f i l) = length l.
Proof. induction l as [|x l IH]; intros i; cbn; [reflexivity|rewrite IH; reflexivity]. Qed.
Lemma imap_length {A B} (f : nat -> A -> B) l : length (imap f l) = length l.
Proof. apply imap_from_length. Qed.
Lemma imap_from_nth {A B} (f : nat -> A -> B) l : forall i k, nth_error (imap_from f i l) k = option_map (f (i + k)%nat) (nth_error l k).
Proof.
  induction l as [|x l IH]; intros i k; cbn [imap_from]; [destruct k; reflexivity|].
  destruct k as [|k]; cbn [nth_error option_map]; [rewrite Nat.add_0_r; reflexivity|].
  rewrite IH. rewrite Nat.add_succ_comm. reflexivity.
Qed.
Lemma imap_nth {A B} (f : nat -> A -> B) l k : nth_error (imap f l) k = option_map (f k) (nth_error l k).
Proof. apply imap_from_nth. Qed.
Lemma map_imap_from {A B C} (f : nat -> A -> B) (g : B -> C) l : forall i, map g (imap_from f i l) = imap_from (fun j x => g (f j x)) i l.
Proof. induction l as [|x l IH]; intros i; cbn; [reflexivity|rewrite IH; reflexivity]. Qed.
Lemma imap_imap_from {A B C} (f : nat -> A -> B) (g : nat -> B -> C) l :
  forall i, imap_from g i (imap_from f i l) = imap_from (fun j x => g j (f j x)) i l.
Proof. induction l as [|x l IH]; intros i; cbn; [reflexivity|rewrite IH; reflexivity]. Qed.
Lemma imap_id_from {A} (f : nat -> A -> A) l : forall i, (forall j x, nth_error l j = Some x -> f (i + j)%nat x = x) -> imap_from f i l = l.
Proof.
  induction l as [|x l IH]; intros i H; cbn; [reflexivity|]. f_equal.
  - specialize (H 0%nat x eq_refl). rewrite Nat.add_0_r in H. exact H.
  - apply IH. intros j y Hy. specialize (H (S j) y Hy). rewrite Nat.add_succ_comm. exact H.
Qed.
Lemma combine_imap {A B C} (f : nat -> A -> B) (g : A -> C) l :
  forall i, combine (imap_from f i l) (map g l) = imap_from (fun j x => (f j x, g x)) i l.
Proof. induction l as [|x l IH]; intros i; cbn; [reflexivity|rewrite IH; reflexivity]. Qed.

Lemma sumR_nonneg l : (forall x, In x l -> 0 <= x) -> 0 <= sumR l.
Proof.
  induction l as [|x l IH]; intros H; cbn; [lra|].
  pose proof (H x (or_introl eq_refl)). pose proof (IH (fun y Hy => H y (or_intror Hy))). lra.
Qed.
Lemma sumR_zero l : (forall x, In x l -> 0 <= x) -> sumR l = 0 -> forall x, In x l -> x = 0.
Proof.
  induction l as [|y l IH]; intros H E x Hx; [destruct Hx|]. cbn in E.
  pose proof (H y (or_introl eq_refl)). pose proof (sumR_nonneg l (fun z Hz => H z (or_intror Hz))).
  destruct Hx as [->|Hx]; [lra|]. apply IH; [intros z Hz; apply H; right; exact Hz|lra|exact Hx].
Qed.
Lemma sumR_map_mult c l : sumR (map (fun x => c * x) l) = c * sumR l.
Proof. induction l as [|x l IH]; cbn; [ring|rewrite IH; ring]. Qed.

Lemma sq_nonneg (l : list R) : forall x, In x (map (fun x => x * x) l) -> 0 <= x.
Proof. intros x Hx. apply in_map_iff in Hx. destruct Hx as (y & <- & _). apply Rle_0_sqr. Qed.
Lemma norm_nonneg r : 0 <= norm r. Proof. apply sqrt_pos. Qed.
Lemma norm_zero_iff r : norm r = 0 <-> forall x, In x r -> x = 0.
Proof.
  unfold norm. split.
  - intros E x Hx. apply sqrt_eq_0 in E; [|apply sumR_nonneg, sq_nonneg].
    assert (Z0 : x * x = 0) by (apply (sumR_zero _ (sq_nonneg r) E); apply in_map_iff; exists x; split; [reflexivity|exact Hx]).
    apply Rmult_integral in Z0. destruct Z0; assumption.
  - intros H. replace (sumR (map (fun x => x * x) r)) with 0; [apply sqrt_0|].
    induction r as [|x r IH]; cbn; [reflexivity|].
    rewrite <- IH by (intros y Hy; apply H; right; exact Hy). rewrite (H x (or_introl eq_refl)). ring.
Qed.
Lemma norm_scale c r : norm (map (fun x => c * x) r) = Rabs c * norm r.
Proof.
  unfold norm. rewrite map_map.
  replace (map (fun x => c * x * (c * x)) r) with (map (fun x => (c * c) * x) (map (fun x => x * x) r))
    by (rewrite map_map; apply map_ext; intros; ring).
  rewrite sumR_map_mult. rewrite sqrt_mult_alt by apply Rle_0_sqr.
  f_equal. change (c * c) with (Rsqr c). apply sqrt_Rsqr_abs.
Qed.

(** *** UnitNorm *)
Theorem unit_norm_roundtrip junk rows :
  unit_norm_inverse (fst (unit_norm junk rows)) (snd (unit_norm junk rows)) = rows.
Proof.
  unfold unit_norm_inverse, unit_norm, imap. cbn [fst snd]. rewrite combine_imap, map_imap_from.
  apply imap_id_from. intros i r _. cbn [fst snd]. rewrite map_imap_from.
  apply imap_id_from. intros j x Hx. unfold div_where. destruct (Reqb_spec (norm r) 0) as [E|E].
  - rewrite E, Rmult_0_r. symmetry. apply (proj1 (norm_zero_iff r) E). apply (nth_error_In _ _ Hx).
  - field. exact E.
Qed.
Theorem unit_norm_unit junk rows i r :
  nth_error rows i = Some r -> (exists x, In x r /\ x <> 0) ->
  exists u, nth_error (fst (unit_norm junk rows)) i = Some u /\ norm u = 1 /\ u = map (fun x => / norm r * x) r.
Proof.
  intros H (x & Hx & Nx). assert (N : norm r <> 0) by (intros E; apply Nx; apply (proj1 (norm_zero_iff r) E x Hx)).
  exists (map (fun x => / norm r * x) r). unfold unit_norm. cbn [fst]. rewrite imap_nth, H. cbn [option_map].
  assert (E : imap (fun j x => div_where x (norm r) (junk i j)) r = map (fun x => / norm r * x) r).
  { unfold imap. generalize 0%nat as k. clear - N. intros k. generalize (norm r) N. intros n Hn. clear N.
    revert k. induction r as [|y r IH]; intros k; cbn; [reflexivity|]. rewrite IH. f_equal.
    unfold div_where. destruct (Reqb_spec n 0); [contradiction|]. field. exact Hn. }
  rewrite E. split; [reflexivity|]. split; [|reflexivity]. rewrite norm_scale.
  pose proof (norm_nonneg r). rewrite Rabs_pos_eq; [field; exact N|].
  left. apply Rinv_0_lt_compat. lra.
Qed.
(** a silent example comes out as whatever was in memory *)
Theorem unit_norm_zero_refuted (row : list R) :
  fst (unit_norm (fun _ j => nth j row 0) [repeat 0 (length row)]) = [row].
Proof.
  unfold unit_norm, imap. cbn [fst imap_from]. f_equal.
  assert (Z0 : norm (repeat 0 (length row)) = 0) by (apply norm_zero_iff; intros x Hx; apply repeat_spec in Hx; exact Hx).
  rewrite Z0.
  assert (G : forall k l, (forall j, nth j l 0 = nth (k + j) row 0) ->
    imap_from (fun j x => div_where x 0 (nth j row 0)) k (repeat 0 (length l)) = l).
  { intros k l; revert k; induction l as [|y l IH]; intros k H; cbn; [reflexivity|]. f_equal.
    - unfold div_where. destruct (Reqb_spec 0 0) as [_|C]; [|contradiction C; reflexivity].
      specialize (H 0%nat). cbn in H. rewrite Nat.add_0_r in H. symmetry; exact H.
    - apply IH. intros j. specialize (H (S j)). cbn [nth] in H. rewrite Nat.add_succ_comm. exact H. }
  apply (G 0%nat row). reflexivity.
Qed.
(** and the inverse of a one-dimensional array of n values has n rows of n *)
Theorem unit_norm_1d_refuted junk d :
  let out := unit_norm junk (map (fun x => [x]) d) in
  let back := unit_norm_inverse_1d (map (fun r => hd 0 r) (fst out)) (snd out) in
  length back = length d /\ (forall r, In r back -> length r = length d) /\
  ((forall x, In x d -> x <> 0) -> back = map (fun x => map (fun y => y / Rabs y * Rabs x) d) d).
Proof.
  cbn zeta. unfold unit_norm_inverse_1d, unit_norm. cbn [fst snd]. rewrite !map_length. split; [reflexivity|]. split.
  { intros r Hr. apply in_map_iff in Hr. destruct Hr as (n & <- & _). rewrite !map_length, imap_length, map_length. reflexivity. }
  intros Nz. assert (N1 : forall x, norm [x] = Rabs x).
  { intros x. unfold norm. cbn [map sumR]. rewrite <- sqrt_Rsqr_abs. f_equal. unfold Rsqr. ring. }
  assert (E : forall k, map (fun r => hd 0 r) (imap_from (fun i r => imap (fun j x => div_where x (norm r) (junk i j)) r) k (map (fun x => [x]) d)) = map (fun y => y / Rabs y) d).
  { clear - Nz N1. induction d as [|x l IH]; intros k; [reflexivity|]. cbn [map imap_from]. f_equal.
    - cbn [imap imap_from hd]. unfold imap. cbn [imap_from hd]. rewrite N1. unfold div_where.
      destruct (Reqb_spec (Rabs x) 0) as [C|_]; [|reflexivity]. exfalso. apply (Rabs_no_R0 x); [apply Nz; left; reflexivity|exact C].
    - apply IH. intros y Hy. apply Nz. right. exact Hy. }
  change (imap ?f ?l) with (imap_from f 0 l). rewrite E. rewrite !map_map. apply map_ext. intros x. rewrite N1, map_map. reflexivity.
Qed.

(** *** MeanStdNormalization *)
Lemma sumR_const (l : list R) c : (forall x, In x l -> x = c) -> sumR l = INR (length l) * c.
Proof.
  induction l as [|x l IH]; intros H; [cbn; ring|]. cbn [sumR length]. rewrite S_INR.
  rewrite IH by (intros y Hy; apply H; right; exact Hy). rewrite (H x (or_introl eq_refl)). ring.
Qed.
Lemma std_zero l : std_of l = 0 -> forall x, In x l -> x = mean_of l.
Proof.
  intros E x Hx. unfold std_of, mean_of at 1 in E. rewrite map_length in E.
  assert (P : 0 < INR (length l)) by (destruct l; [destruct Hx|]; apply lt_0_INR; cbn; lia).
  assert (N : forall z, In z (map (fun x => (x - mean_of l) ^ 2) l) -> 0 <= z).
  { intros z Hz. apply in_map_iff in Hz. destruct Hz as (y & <- & _). apply pow2_ge_0. }
  apply sqrt_eq_0 in E.
  - assert (S0 : sumR (map (fun x => (x - mean_of l) ^ 2) l) = 0).
    { apply (Rmult_eq_reg_r (/ INR (length l))); [|apply Rinv_neq_0_compat; lra]. unfold Rdiv in E. rewrite E. ring. }
    assert (Z0 : (x - mean_of l) ^ 2 = 0) by (apply (sumR_zero _ N S0); apply in_map_iff; exists x; split; [reflexivity|exact Hx]).
    apply Rsqr_0_uniq in Z0 || (replace ((x - mean_of l) ^ 2) with (Rsqr (x - mean_of l)) in Z0 by (unfold Rsqr; ring); apply Rsqr_0_uniq in Z0).
    lra.
  - apply Rmult_le_pos; [apply sumR_nonneg; exact N|left; apply Rinv_0_lt_compat; exact P].
Qed.

Definition meanstd_ok (mean std : list R) (rows : list (list R)) : Prop :=
  forall r j x, In r rows -> nth_error r j = Some x -> nth j std 0 <> 0 \/ x = nth j mean 0.
Theorem meanstd_roundtrip mean std junk rows : meanstd_ok mean std rows ->
  meanstd_inverse mean std (meanstd mean std junk rows) = rows.
Proof.
  intros H. unfold meanstd_inverse, meanstd, imap. rewrite map_imap_from.
  apply imap_id_from. intros i r Hr. rewrite imap_imap_from. apply imap_id_from. intros j x Hx. cbn [Nat.add].
  unfold div_where. destruct (Reqb_spec (nth j std 0) 0) as [E|E].
  - rewrite E. destruct (H r j x (nth_error_In _ _ Hr) Hx) as [C| ->]; [contradiction|ring].
  - field. exact E.
Qed.
Lemma nth_map_seq (f : nat -> R) w j : (j < w)%nat -> nth j (map f (seq 0 w)) 0 = f j.
Proof.
  intros H. rewrite (nth_indep _ 0 (f 0%nat)) by (rewrite map_length, seq_length; exact H).
  rewrite map_nth, seq_nth by exact H. reflexivity.
Qed.
(** the examples it was fitted to come back exactly, constant features included *)
Theorem meanstd_training w junk rows : (forall r, In r rows -> length r = w) ->
  let ms := fit_meanstd w rows in
  meanstd_inverse (fst ms) (snd ms) (meanstd (fst ms) (snd ms) junk rows) = rows.
Proof.
  intros L ms. apply meanstd_roundtrip. intros r j x Hr Hx.
  assert (Hj : (j < w)%nat) by (rewrite <- (L r Hr); apply nth_error_Some; congruence).
  unfold ms, fit_meanstd. cbn [fst snd]. rewrite !nth_map_seq by exact Hj.
  destruct (Req_dec (std_of (column j rows)) 0) as [E|E]; [right|left; exact E].
  apply (std_zero _ E). unfold column. apply in_map_iff. exists r. split; [|exact Hr].
  apply nth_error_nth. exact Hx.
Qed.

Lemma sumR_sub l c : sumR (map (fun x => x - c) l) = sumR l - INR (length l) * c.
Proof. induction l as [|x l IH]; [cbn; ring|]. cbn [map sumR length]. rewrite IH, S_INR. ring. Qed.
Lemma sumR_div l c : sumR (map (fun x => x / c) l) = sumR l / c.
Proof. induction l as [|x l IH]; [cbn; unfold Rdiv; ring|]. cbn [map sumR]. rewrite IH. unfold Rdiv. ring. Qed.
(** each feature that varies has mean 0 and standard deviation 1 afterwards *)
Theorem meanstd_normalised w junk rows j :
  rows <> [] -> (forall r, In r rows -> length r = w) -> (j < w)%nat -> std_of (column j rows) <> 0 ->
  let ms := fit_meanstd w rows in
  let out := meanstd (fst ms) (snd ms) junk rows in
  mean_of (column j out) = 0 /\ std_of (column j out) = 1.
Proof.
  intros Ne L Hj Nz ms out.
  set (m := mean_of (column j rows)). set (s := std_of (column j rows)) in *.
  assert (C : column j out = map (fun x => (x - m) / s) (column j rows)).
  { unfold out, meanstd, column, imap. clear out.
    assert (G : forall i l, (forall r, In r l -> length r = w) ->
      map (fun r => nth j r 0) (imap_from (fun i0 r => imap (fun k x => div_where (x - nth k (fst ms) 0) (nth k (snd ms) 0) (junk i0 k)) r) i l)
      = map (fun x => (x - m) / s) (map (fun r => nth j r 0) l)).
    { intros i l; revert i; induction l as [|r l IH]; intros i Hl; [reflexivity|]. cbn [imap_from map].
      rewrite IH by (intros q Hq; apply Hl; right; exact Hq). f_equal.
      assert (Hr : (j < length r)%nat) by (rewrite (Hl r (or_introl eq_refl)); exact Hj).
      destruct (nth_error r j) as [x|] eqn:E; [|apply nth_error_None in E; lia].
      rewrite (nth_error_nth r j 0 E). apply nth_error_nth. rewrite imap_nth, E. cbn [option_map]. f_equal.
      unfold ms, fit_meanstd. cbn [fst snd]. rewrite !nth_map_seq by exact Hj. fold m s.
      unfold div_where. destruct (Reqb_spec s 0); [contradiction|reflexivity]. }
    apply G. exact L. }
  assert (P : 0 < INR (length (column j rows))).
  { unfold column. rewrite map_length. destruct rows; [contradiction|]. apply lt_0_INR. cbn; lia. }
  assert (M0 : mean_of (column j out) = 0).
  { rewrite C. unfold mean_of. rewrite map_length.
    replace (map (fun x => (x - m) / s) (column j rows)) with (map (fun x => x / s) (map (fun x => x - m) (column j rows)))
      by (rewrite map_map; reflexivity).
    rewrite sumR_div, sumR_sub. unfold m, mean_of. field. split; [lra|exact Nz]. }
  split; [exact M0|]. unfold std_of. rewrite M0. rewrite C.
  rewrite (map_map (fun x => (x - m) / s) (fun x => (x - 0) ^ 2)).
  replace (map (fun x => ((x - m) / s - 0) ^ 2) (column j rows))
    with (map (fun x => x / (s ^ 2)) (map (fun x => (x - m) ^ 2) (column j rows)))
    by (rewrite map_map; apply map_ext; intros x; field; exact Nz).
  unfold mean_of. rewrite sumR_div, !map_length.
  assert (S2 : s ^ 2 = sumR (map (fun x => (x - m) ^ 2) (column j rows)) / INR (length (column j rows))).
  { unfold s, std_of, mean_of at 1. rewrite map_length. fold m. rewrite pow2_sqrt; [reflexivity|].
    apply Rmult_le_pos; [|left; apply Rinv_0_lt_compat; exact P]. apply sumR_nonneg. intros z Hz.
    apply in_map_iff in Hz. destruct Hz as (y & <- & _). apply pow2_ge_0. }
  rewrite <- sqrt_1. f_equal.
  replace (sumR (map (fun x => (x - m) ^ 2) (column j rows)) / s ^ 2 / INR (length (column j rows)))
    with ((sumR (map (fun x => (x - m) ^ 2) (column j rows)) / INR (length (column j rows))) / s ^ 2) by (field; split; first [exact Nz | lra]).
  rewrite <- S2. field. exact Nz.
Qed.
(** a feature that was constant in training is lost in new data *)
Theorem meanstd_constant_refuted junk x m :
  meanstd_inverse [m] [0] (meanstd [m] [0] junk [[x]]) = [[m]].
Proof.
  unfold meanstd_inverse, meanstd, imap. cbn. unfold div_where. destruct (Reqb_spec 0 0) as [_|C]; [|contradiction C; reflexivity].
  do 2 f_equal. ring.
Qed.

(** *** InstanceScaling *)
Lemma max_abs_nonneg r : 0 <= max_abs r.
Proof. induction r as [|x r IH]; cbn; [lra|]. pose proof (Rmax_r (Rabs x) (max_abs r)). unfold max_abs in *. lra. Qed.
Lemma max_abs_le r x : In x r -> Rabs x <= max_abs r.
Proof.
  induction r as [|y r IH]; intros H; [destruct H|]. cbn. destruct H as [->|H]; [apply Rmax_l|].
  eapply Rle_trans; [apply IH; exact H|apply Rmax_r].
Qed.
Lemma max_abs_in r : r <> [] -> exists x, In x r /\ Rabs x = max_abs r.
Proof.
  induction r as [|y r IH]; intros H; [contradiction|]. cbn. destruct r as [|z r].
  - exists y. split; [left; reflexivity|]. cbn. rewrite Rmax_left; [reflexivity|apply Rabs_pos].
  - destruct (IH ltac:(discriminate)) as (x & Hx & E). unfold Rmax. destruct (Rle_dec _ _).
    + exists x. split; [right; exact Hx|exact E].
    + exists y. split; [left; reflexivity|reflexivity].
Qed.
Lemma max_abs_zero r : max_abs r = 0 -> forall x, In x r -> x = 0.
Proof.
  intros E x Hx. apply max_abs_le in Hx. rewrite E in Hx. pose proof (Rabs_pos x).
  destruct (Req_dec x 0) as [Z0|Z0]; [exact Z0|]. apply Rabs_pos_lt in Z0. lra.
Qed.
Theorem instance_scale_roundtrip mv junk rows : mv <> 0 ->
  instance_scale_inverse mv (fst (instance_scale mv junk rows)) (snd (instance_scale mv junk rows)) = rows.
Proof.
  intros Hm. unfold instance_scale_inverse, instance_scale, imap. cbn [fst snd]. rewrite combine_imap, map_imap_from.
  apply imap_id_from. intros i r _. cbn [fst snd]. rewrite map_imap_from. apply imap_id_from. intros j x Hx.
  unfold div_where. destruct (Reqb_spec (max_abs r) 0) as [E|E].
  - rewrite (max_abs_zero r E x (nth_error_In _ _ Hx)), E. field. exact Hm.
  - field. split; assumption.
Qed.
Theorem instance_scale_peak mv junk rows i r :
  0 <= mv -> nth_error rows i = Some r -> (exists x, In x r /\ x <> 0) ->
  exists u, nth_error (fst (instance_scale mv junk rows)) i = Some u /\ max_abs u = mv /\ length u = length r.
Proof.
  intros Hm H (x0 & H0 & N0).
  assert (N : 0 < max_abs r).
  { pose proof (max_abs_le r x0 H0). apply Rabs_pos_lt in N0. lra. }
  exists (map (fun x => mv * (x / max_abs r)) r). unfold instance_scale. cbn [fst]. rewrite imap_nth, H. cbn [option_map].
  assert (E : imap (fun j x => mv * div_where x (max_abs r) (junk i j)) r = map (fun x => mv * (x / max_abs r)) r).
  { unfold imap. generalize 0%nat as k. generalize (max_abs r) N. clear. intros n Hn k. revert k.
    induction r as [|y r IH]; intros k; cbn; [reflexivity|]. rewrite IH. f_equal. f_equal. unfold div_where.
    destruct (Reqb_spec n 0); [lra|reflexivity]. }
  rewrite E. split; [reflexivity|]. split; [|apply map_length].
  apply Rle_antisym.
  - destruct (max_abs_in (map (fun x => mv * (x / max_abs r)) r)) as (y & Hy & <-).
    { destruct r; [destruct H0|discriminate]. }
    apply in_map_iff in Hy. destruct Hy as (x & <- & Hx). apply max_abs_le in Hx.
    unfold Rdiv. rewrite !Rabs_mult, (Rabs_pos_eq mv), (Rabs_pos_eq (/ max_abs r)) by (try assumption; left; apply Rinv_0_lt_compat; exact N).
    rewrite <- (Rmult_1_r mv) at 2. apply Rmult_le_compat_l; [exact Hm|].
    apply (Rmult_le_reg_r (max_abs r)); [exact N|]. rewrite Rmult_assoc, Rinv_l by lra. lra.
  - destruct (max_abs_in r) as (x & Hx & Ex); [destruct r; [destruct H0|discriminate]|].
    eapply Rle_trans; [|apply (max_abs_le _ (mv * (x / max_abs r))); apply in_map_iff; exists x; split; [reflexivity|exact Hx]].
    unfold Rdiv. rewrite !Rabs_mult, (Rabs_pos_eq mv), (Rabs_pos_eq (/ max_abs r)) by (try assumption; left; apply Rinv_0_lt_compat; exact N).
    rewrite Ex, Rinv_r by lra. lra.
Qed.

(** *** Multiply, Weighted *)
Theorem multiply_roundtrip f rows : f <> 0 -> multiply_inverse f (multiply f rows) = Ok rows.
Proof.
  intros Hf. unfold multiply_inverse, multiply. destruct (Reqb_spec f 0); [contradiction|]. f_equal.
  rewrite map_map. rewrite <- (map_id rows) at 2. apply map_ext. intros r. rewrite map_map.
  rewrite <- (map_id r) at 2. apply map_ext. intros x. field. exact Hf.
Qed.
Theorem multiply_zero rows : multiply_inverse 0 rows = Raise ZeroDivisionError.
Proof. unfold multiply_inverse. destruct (Reqb_spec 0 0) as [_|C]; [reflexivity|contradiction C; reflexivity]. Qed.
Theorem weighted_roundtrip w rows : (forall r, In r rows -> length r = length w) -> (forall x, In x w -> x <> 0) ->
  weighted_inverse w (weighted w rows) = rows.
Proof.
  intros L H. unfold weighted_inverse, weighted. rewrite map_map. rewrite <- (map_id rows) at 2. apply map_ext_in.
  intros r Hr. specialize (L r Hr). clear Hr rows. revert w L H. induction r as [|x r IH]; intros [|y w] L H; try discriminate; [reflexivity|].
  cbn. f_equal; [field; apply H; left; reflexivity|]. apply IH; [cbn in L; lia|intros z Hz; apply H; right; exact Hz].
Qed.

(** *** Slicer *)
Lemma nth_firstn_lt {A} (l : list A) : forall n i d, (i < n)%nat -> nth i (firstn n l) d = nth i l d.
Proof. induction l as [|x l IH]; intros [|n] [|i] d H; cbn; try reflexivity; try lia. apply IH. lia. Qed.
Lemma nth_skipn {A} (l : list A) : forall n i d, nth i (skipn n l) d = nth (n + i) l d.
Proof. induction l as [|x l IH]; intros [|n] i d; cbn; try reflexivity; [destruct i; reflexivity|apply IH]. Qed.
Lemma slice_range_bounds s n : (fst (slice_range s n) <= snd (slice_range s n) <= n)%nat.
Proof.
  unfold slice_range. destruct s as [a b]. cbn [fst snd].
  assert (Na : forall i, (0 <= norm_index (Z.of_nat n) i <= Z.of_nat n)%Z) by (intros i; unfold norm_index; destruct (i <? 0)%Z; lia).
  destruct a as [a|], b as [b|]; try pose proof (Na a); try pose proof (Na b); lia.
Qed.
Lemma apply_slice_range {A} s (r : list A) :
  apply_slice s r = firstn (snd (slice_range s (length r)) - fst (slice_range s (length r))) (skipn (fst (slice_range s (length r))) r).
Proof.
  unfold apply_slice, py_slice, slice_range, Zlen. destruct s as [a b]. cbn [fst snd]. f_equal.
  assert (Na : forall i, (0 <= norm_index (Z.of_nat (length r)) i <= Z.of_nat (length r))%Z) by (intros i; unfold norm_index; destruct (i <? 0)%Z; lia).
  destruct a as [a|], b as [b|]; try pose proof (Na a); try pose proof (Na b); lia.
Qed.
(** inside the slice the data, zero elsewhere *)
Theorem slicer_roundtrip s w rows : (forall r, In r rows -> length r = w) ->
  exists back, slicer_inverse s w (slicer s rows) = Ok back /\ length back = length rows /\
    forall i r, nth_error rows i = Some r -> exists q, nth_error back i = Some q /\ length q = w /\
      forall j, (j < w)%nat -> nth j q 0 = if ((fst (slice_range s w) <=? j) && (j <? snd (slice_range s w)))%nat then nth j r 0 else 0.
Proof.
  intros L. set (b := fst (slice_range s w)). set (e := snd (slice_range s w)).
  pose proof (slice_range_bounds s w) as B. fold b e in B.
  set (g := fun r : list R => repeat 0 b ++ firstn (e - b) (skipn b r) ++ repeat 0 (w - e)).
  exists (map g rows). split; [|split; [apply map_length|]].
  - unfold slicer_inverse, slicer.
    assert (E : mapM (put_slice s w) (map (apply_slice s) rows) = mapM (fun r => put_slice s w (apply_slice s r)) rows)
      by (clear; induction rows as [|r rows IH]; cbn; [reflexivity|rewrite IH; reflexivity]).
    rewrite E. apply mapM_ok. intros r Hr. specialize (L r Hr). subst w. rewrite apply_slice_range.
    unfold put_slice. rewrite (surjective_pairing (slice_range s (length r))). cbn [fst snd]. fold b e.
    assert (K : length (firstn (e - b) (skipn b r)) = (e - b)%nat) by (rewrite firstn_length, skipn_length; lia).
    rewrite K, Nat.eqb_refl. reflexivity.
  - intros i r H. exists (g r). split; [rewrite nth_error_map, H; reflexivity|].
    assert (Hr : length r = w) by (apply L, (nth_error_In _ _ H)).
    assert (K : length (firstn (e - b) (skipn b r)) = (e - b)%nat) by (rewrite firstn_length, skipn_length; lia).
    split; [unfold g; rewrite !app_length, !repeat_length, K; lia|].
    intros j Hj. unfold g. destruct (Nat.leb_spec b j), (Nat.ltb_spec j e); cbn [andb].
    + rewrite app_nth2 by (rewrite repeat_length; lia). rewrite repeat_length.
      rewrite app_nth1 by lia. rewrite nth_firstn_lt by lia. rewrite nth_skipn. f_equal. lia.
    + rewrite app_nth2 by (rewrite repeat_length; lia). rewrite repeat_length.
      rewrite app_nth2 by lia. rewrite K. apply nth_repeat.
    + rewrite app_nth1 by (rewrite repeat_length; lia). apply nth_repeat.
    + rewrite app_nth1 by (rewrite repeat_length; lia). apply nth_repeat.
Qed.

(** *** Reshape *)
Lemma np_reshape_same sh (d : list R) : prodZ sh = Zlen d -> (forall n, In n sh -> 0 <= n)%Z -> np_reshape (Zlen d) sh = Ok sh.
Proof.
  intros P N. unfold np_reshape.
  assert (F : filter (fun n => (n =? -1)%Z) sh = []).
  { clear P. induction sh as [|n sh IH]; [reflexivity|]. cbn. pose proof (N n (or_introl eq_refl)).
    destruct (Z.eqb_spec n (-1)); [lia|]. apply IH. intros m Hm. apply N. right; exact Hm. }
  assert (F2 : filter (fun n => negb (n =? -1)%Z) sh = sh).
  { clear P F. induction sh as [|n sh IH]; [reflexivity|]. cbn. pose proof (N n (or_introl eq_refl)).
    destruct (Z.eqb_spec n (-1)); [lia|]. cbn. f_equal. apply IH. intros m Hm. apply N. right; exact Hm. }
  rewrite F, F2, P, Z.eqb_refl. cbn [length].
  assert (A : forallb (fun n => 0 <=? n)%Z sh = true) by (apply forallb_forall; intros n Hn; specialize (N n Hn); lia).
  rewrite A. reflexivity.
Qed.
Theorem reshape_roundtrip new a b :
  prodZ (fst a) = Zlen (snd a) -> (forall n, In n (fst a) -> 0 <= n)%Z ->
  reshape_op new a = Ok b -> snd b = snd a /\ reshape_inverse (fst a) b = Ok a.
Proof.
  intros P N H. unfold reshape_op, reshape_to in H. destruct (np_reshape _ _) as [sh|]; [|discriminate].
  cbn [bind] in H. injection H as <-. split; [reflexivity|]. unfold reshape_inverse, reshape_to. cbn [snd].
  rewrite np_reshape_same by assumption. destruct a; reflexivity.
Qed.

(** *** KMeans *)
Lemma argminR_spec l : l <> [] -> (argminR l < length l)%nat /\
  (forall i, (i < length l)%nat -> nth (argminR l) l 0 <= nth i l 0) /\
  (forall i, (i < argminR l)%nat -> nth (argminR l) l 0 < nth i l 0).
Proof.
  induction l as [|x l IH]; intros H; [contradiction|]. destruct l as [|y l].
  - cbn. split; [lia|]. split; [intros [|i] Hi; cbn in *; [lra|lia]|intros i Hi; lia].
  - destruct (IH ltac:(discriminate)) as (A & B & C). set (l1 := y :: l) in *.
    change (argminR (x :: l1)) with (let j := argminR l1 in if Rleb x (nth j l1 0) then 0%nat else S j).
    cbn zeta. destruct (Rleb_spec0 x (nth (argminR l1) l1 0)) as [L|L].
    + split; [cbn; lia|]. split; [|intros i Hi; lia]. intros [|i] Hi; cbn [nth]; [lra|].
      specialize (B i ltac:(cbn in Hi |- *; lia)). cbn [nth] in *. lra.
    + split; [cbn in *; lia|]. cbn [nth]. split.
      * intros [|i] Hi; [lra|]. apply B. cbn in *. lia.
      * intros [|i] Hi; [lra|]. apply C. lia.
Qed.
Lemma ones_one_hot n k : (k < n)%nat -> ones_of (one_hot n k) = [k].
Proof.
  intros H. unfold ones_of, one_hot. rewrite map_length, seq_length.
  assert (G : forall a m, map fst (filter (fun p => (snd p =? 1)%nat) (combine (seq a m) (map (fun j => if (j =? k)%nat then 1%nat else 0%nat) (seq a m))))
    = if ((a <=? k) && (k <? a + m))%nat then [k] else []).
  { intros a m; revert a; induction m as [|m IH]; intros a.
    - cbn [seq map combine filter]. destruct (Nat.leb_spec a k), (Nat.ltb_spec k (a + 0)); cbn [andb]; try reflexivity; lia.
    - cbn [seq map combine filter snd]. destruct (Nat.eqb_spec a k) as [->|Ne]; cbn [Nat.eqb map fst].
      + rewrite IH. destruct (Nat.leb_spec (S k) k), (Nat.leb_spec k k), (Nat.ltb_spec k (S k + m)), (Nat.ltb_spec k (k + S m)); cbn; try reflexivity; lia.
      + rewrite IH. destruct (Nat.leb_spec (S a) k), (Nat.leb_spec a k), (Nat.ltb_spec k (S a + m)), (Nat.ltb_spec k (a + S m)); cbn; try reflexivity; lia. }
  rewrite G. destruct (Nat.leb_spec 0 k), (Nat.ltb_spec k (0 + n)); cbn; try reflexivity; lia.
Qed.
Theorem kmeans_roundtrip codebook rows : codebook <> [] ->
  exists codes back, kmeans_forward codebook rows = Ok codes /\ kmeans_inverse codebook codes = Ok back /\
    Forall2 (fun r q => In q codebook /\ forall c, In c codebook -> dist r q <= dist r c) rows back /\
    Forall2 (fun r code => exists k, code = one_hot (length codebook) k /\ (k < length codebook)%nat /\
       forall i c, nth_error codebook i = Some c -> dist r (nth k codebook []) <= dist r c /\
         ((i < k)%nat -> dist r (nth k codebook []) < dist r c)) rows codes.
Proof.
  intros Ne. set (best := fun r => argminR (map (dist r) codebook)).
  assert (S : forall r, (best r < length codebook)%nat /\ (forall i c, nth_error codebook i = Some c ->
     dist r (nth (best r) codebook []) <= dist r c /\ ((i < best r)%nat -> dist r (nth (best r) codebook []) < dist r c))).
  { intros r. unfold best. destruct (argminR_spec (map (dist r) codebook)) as (A & B & C).
    { destruct codebook; [contradiction|discriminate]. }
    rewrite map_length in A, B. split; [exact A|]. intros i c Hc.
    assert (Hi : (i < length codebook)%nat) by (apply nth_error_Some; congruence).
    assert (Q : forall k, (k < length codebook)%nat -> nth k (map (dist r) codebook) 0 = dist r (nth k codebook [])).
    { intros k Hk. rewrite (nth_indep _ 0 (dist r [])) by (rewrite map_length; exact Hk). apply map_nth. }
    rewrite <- (Q _ A). rewrite <- (nth_error_nth _ _ [] Hc). rewrite <- (Q _ Hi). split; [apply B; exact Hi|apply C]. }
  exists (map (fun r => one_hot (length codebook) (best r)) rows), (map (fun r => nth (best r) codebook []) rows).
  split; [unfold kmeans_forward; destruct codebook; [contradiction|reflexivity]|]. split.
  - unfold kmeans_inverse.
    assert (F : flat_map ones_of (map (fun r => one_hot (length codebook) (best r)) rows) = map best rows).
    { induction rows as [|r rows IH]; [reflexivity|]. cbn [map flat_map]. rewrite IH, ones_one_hot by apply S. reflexivity. }
    rewrite F. assert (E : mapM (fun k => py_get codebook (Z.of_nat k)) (map best rows) = mapM (fun r => py_get codebook (Z.of_nat (best r))) rows)
      by (clear; induction rows as [|r rows IH]; cbn; [reflexivity|rewrite IH; reflexivity]).
    rewrite E. apply mapM_ok. intros r _. unfold py_get. destruct (Z.ltb_spec (Z.of_nat (best r)) 0); [lia|].
    destruct (Z.ltb_spec (Z.of_nat (best r)) 0); [lia|]. rewrite Nat2Z.id.
    destruct (S r) as [A _]. rewrite (nth_error_nth' codebook [] A). reflexivity.
  - split.
    + induction rows as [|r rows IH]; [constructor|]. cbn [map]. constructor; [|exact IH].
      destruct (S r) as [A B]. split; [apply nth_In; exact A|]. intros c Hc. apply In_nth_error in Hc. destruct Hc as [i Hi].
      apply (B i c Hi).
    + induction rows as [|r rows IH]; [constructor|]. cbn [map]. constructor; [|exact IH].
      exists (best r). destruct (S r) as [A B]. split; [reflexivity|]. split; [exact A|exact B].
Qed.
Lemma dist_zero a b : length a = length b -> dist a b = 0 -> a = b.
Proof.
  unfold dist. rewrite norm_zero_iff. revert b. induction a as [|x a IH]; intros [|y b] L H; try discriminate; [reflexivity|].
  cbn in H. f_equal.
  - specialize (H (x - y) (or_introl eq_refl)). lra.
  - apply IH; [cbn in L; lia|]. intros z Hz. apply H. right. exact Hz.
Qed.
Lemma dist_self a : dist a a = 0.
Proof.
  unfold dist. apply norm_zero_iff. induction a as [|x a IH]; intros y Hy; [destruct Hy|].
  cbn in Hy. destruct Hy as [<-|Hy]; [lra|apply IH; exact Hy].
Qed.
(** centroids themselves come back *)
Theorem kmeans_centroids w codebook rows :
  (forall c, In c codebook -> length c = w) -> (forall r, In r rows -> In r codebook) -> codebook <> [] ->
  exists codes, kmeans_forward codebook rows = Ok codes /\ kmeans_inverse codebook codes = Ok rows.
Proof.
  intros L I Ne. destruct (kmeans_roundtrip codebook rows Ne) as (codes & back & F & B & H & _).
  exists codes. split; [exact F|]. rewrite B. f_equal. clear F B. symmetry.
  induction H as [|r q rows back (Hq & Hd) H IH]; [reflexivity|]. f_equal.
  - apply dist_zero.
    + rewrite (L r (I r (or_introl eq_refl))), (L q Hq). reflexivity.
    + apply Rle_antisym; [|apply norm_nonneg]. rewrite <- (dist_self r). apply Hd. apply I. left; reflexivity.
  - apply IH. intros z Hz. apply I. right; exact Hz.
Qed.

(** *** SimHash, Binarize *)
Lemma dot_scale c p : forall r, dot p (map (fun x => c * x) r) = c * dot p r.
Proof.
  unfold dot. induction p as [|y p IH]; intros [|x r]; cbn; try ring. rewrite IH. ring.
Qed.
Theorem simhash_direction planes rows c : 0 < c ->
  simhash planes (map (map (fun x => c * x)) rows) = simhash planes rows.
Proof.
  intros Hc. unfold simhash. rewrite map_map. apply map_ext. intros r. apply map_ext. intros p. rewrite dot_scale.
  destruct (Rltb_spec0 0 (dot p r)) as [H|H], (Rltb_spec0 0 (c * dot p r)) as [H'|H']; try reflexivity; exfalso.
  - apply H'. apply Rmult_lt_0_compat; assumption.
  - apply H. apply (Rmult_lt_reg_l c); [exact Hc|]. rewrite Rmult_0_r. exact H'.
Qed.
Theorem simhash_opposite planes r : (forall p, In p planes -> dot p r <> 0) ->
  simhash planes [map (fun x => -1 * x) r] = map (map negb) (simhash planes [r]).
Proof.
  intros H. unfold simhash. cbn [map]. f_equal. rewrite map_map. apply map_ext_in. intros p Hp.
  rewrite dot_scale. specialize (H p Hp).
  destruct (Rltb_spec0 0 (dot p r)), (Rltb_spec0 0 (-1 * dot p r)); try reflexivity; exfalso; lra.
Qed.
Theorem simhash_shape planes rows :
  length (simhash planes rows) = length rows /\ forall r, In r (simhash planes rows) -> length r = length planes.
Proof.
  unfold simhash. split; [apply map_length|]. intros r Hr. apply in_map_iff in Hr. destruct Hr as (q & <- & _). apply map_length.
Qed.
(** a row's code does not depend on the other rows *)
Theorem simhash_rowwise planes a b : simhash planes (a ++ b) = simhash planes a ++ simhash planes b.
Proof. apply map_app. Qed.
(** an all-zero row lies on no plane's positive side *)
Theorem simhash_zero planes n : simhash planes [repeat 0 n] = [repeat false (length planes)].
Proof.
  unfold simhash. cbn [map]. f_equal. induction planes as [|p planes IH]; [reflexivity|]. cbn [map length repeat]. f_equal; [|exact IH].
  assert (E : dot p (repeat 0 n) = 0).
  { clear. unfold dot. revert n. induction p as [|y p IH]; intros [|n]; cbn; try reflexivity. rewrite IH. ring. }
  rewrite E. destruct (Rltb_spec0 0 0); [lra|reflexivity].
Qed.

(** which side of which plane *)
Theorem simhash_bits planes rows i j r p :
  nth_error rows i = Some r -> nth_error planes j = Some p ->
  exists code b, nth_error (simhash planes rows) i = Some code /\ nth_error code j = Some b /\
    (b = true <-> 0 < sumR (map (fun xy => fst xy * snd xy) (combine p r))).
Proof.
  intros Hr Hp. unfold simhash. rewrite nth_error_map, Hr. eexists _, _. split; [reflexivity|].
  rewrite nth_error_map, Hp. split; [reflexivity|]. unfold dot. destruct (Rltb_spec0 0 (sumR (map (fun xy => fst xy * snd xy) (combine p r)))); split; intros; try assumption; try reflexivity; try discriminate; contradiction.
Qed.

(** the examples stay apart: the first axis is kept, the others are as requested *)
Theorem reshape_rows n rest new d : (0 <= n)%Z -> Forall (fun k => 0 <= k)%Z new ->
  Zlen d = (n * prodZ new)%Z -> reshape_op new (n :: rest, d) = Ok (n :: new, d).
Proof.
  intros Hn Hp Hd. unfold reshape_op, reshape_to. cbn [fst snd firstn app].
  rewrite np_reshape_same; [reflexivity|exact (eq_sym Hd)|].
  intros k [<-|Hk]; [exact Hn|]. rewrite Forall_forall in Hp. apply Hp. exact Hk.
Qed.
(** Binarize: strictly above the threshold *)
Theorem binarize_spec th rows i j r x : nth_error rows i = Some r -> nth_error r j = Some x ->
  exists bits b, nth_error (binarize th rows) i = Some bits /\ length bits = length r /\
    nth_error bits j = Some b /\ (b = true <-> th < x).
Proof.
  intros Hr Hx. unfold binarize. rewrite nth_error_map, Hr. eexists _, _. split; [reflexivity|].
  split; [apply map_length|]. rewrite nth_error_map, Hx. split; [reflexivity|].
  destruct (Rltb_spec0 th x); split; intros; try assumption; try reflexivity; try discriminate; contradiction.
Qed.

(** ** Concrete cases *)
Example preproc_examples :
  (forall r, In r [[3; 4]; [0; 0]] -> length r = 2%nat) /\
  meanstd_ok [1; 2] [0; 3] [[1; 5]; [1; -4]] /\
  (exists x, In x [3; 4] /\ x <> 0) /\
  (forall r, In r [[3; 4]; [0; 0]] -> length r = length [2; -1]) /\ (forall x, In x [2; -1] -> x <> 0) /\
  (std_of (column 0 [[1; 5]; [3; 5]]) <> 0).
Proof.
  split; [intros r [<-|[<-|[]]]; reflexivity|]. split.
  { intros r j x [<-|[<-|[]]] H; destruct j as [|[|[|j]]]; cbn in H; try discriminate; injection H as <-;
      try (right; reflexivity); left; cbn; lra. }
  split; [exists 3; split; [left; reflexivity|lra]|]. split; [intros r [<-|[<-|[]]]; reflexivity|].
  split; [intros x [<-|[<-|[]]]; lra|].
  intros E. pose proof (std_zero _ E 1 ltac:(left; reflexivity)) as H. unfold mean_of, column in H. cbn in H. lra.
Qed.
Example kmeans_example : (([[0; 0]; [1; 1]] : list (list R)) <> []) /\ forall p, In p [[1; 2]; [-1; 3]] -> dot p [1; 1] <> 0.
Proof. split; [discriminate|]. intros p [<-|[<-|[]]]; cbn; lra. Qed.
