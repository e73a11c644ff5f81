(** DCT and DCT-IV synthesis, sine synthesis, spectral descriptors (C48, C49, C67-C69). *)
From Verif Require Import PyBase PyFacts PyMore Time Spectral SpectralProofs TransformProofs WindowProofs ReconProofs OverlapProofs.
From Coq Require Import Reals Lra Psatz.
Local Open Scope R_scope.

(** ** The DCT chain *)
Lemma idct2_length c : length (idct2_ortho c) = length c.
Proof. unfold idct2_ortho. now rewrite map_length, seq_length. Qed.
Definition dct_resynthesis (wfunc : nat -> option (list R)) (sp : Z) (h N : nat) (x : list R) : result (list R) :=
  dct_synthesize wfunc (half_lapped_dim sp h N) (map dct2_ortho (vorbis_frames h N x)).
(** with the window given again at synthesis: the signal, up to the same gain *)
Lemma dct_reconstruction (sp : Z) (h N : nat) (x : list R) : (0 < sp)%Z -> (0 < h)%nat -> (0 < N)%nat -> length x = ((N + 1) * h)%nat ->
  exists out gain, dct_resynthesis (fun n => Some (oggvorbis n)) sp h N x = Ok out /\ length out = length x
    /\ 1 < gain <= 1 + 128 / (INR (2 * h)) ^ 4
    /\ (forall j, (h <= j < N * h)%nat -> at_ out j = gain * at_ x j).
Proof.
  intros Hsp Hh HN E. unfold dct_resynthesis, dct_synthesize. rewrite synthesize_map.
  destruct (synthesize_half_lapped (fun f => Ok (idct2_ortho (dct2_ortho f))) (fun f => f) (fun n => Some (oggvorbis n)) sp h N (vorbis_frames h N x) Hsp Hh HN) as (out & Eo & L & T).
  - unfold vorbis_frames. now rewrite map_length, frames_count.
  - intros f Hf. pose proof (vorbis_frames_width h N x E) as W. rewrite Forall_forall in W. split; [now rewrite idct2_dct2|exact (W f Hf)].
  - intros w [= <-]. apply oggvorbis_length.
  - rewrite map_id in T. exists out, (vorbis_gain (2 * h)). split; [exact Eo|]. split; [congruence|]. split; [now apply vorbis_gain_bound|].
    intros j Hj. rewrite T. unfold vorbis_frames. rewrite twice_windowed by (try assumption; apply oggvorbis_length).
    rewrite oggvorbis_power; [reflexivity|]. apply Nat.mod_upper_bound. lia.
Qed.
(** with the default synthesizer (identity window), as in its documentation *)
Lemma dct_default_synthesis (sp : Z) (h N : nat) (x : list R) : (0 < sp)%Z -> (0 < h)%nat -> (0 < N)%nat -> length x = ((N + 1) * h)%nat ->
  exists out, dct_resynthesis (fun _ => None) sp h N x = Ok out /\ length out = length x
    /\ (forall j, (h <= j < N * h)%nat -> at_ out j = (at_ (oggvorbis (2 * h)) (j mod h) + at_ (oggvorbis (2 * h)) (j mod h + h)) * at_ x j).
Proof.
  intros Hsp Hh HN E. unfold dct_resynthesis, dct_synthesize. rewrite synthesize_map.
  destruct (synthesize_half_lapped (fun f => Ok (idct2_ortho (dct2_ortho f))) (fun f => f) (fun _ => None) sp h N (vorbis_frames h N x) Hsp Hh HN) as (out & Eo & L & T).
  - unfold vorbis_frames. now rewrite map_length, frames_count.
  - intros f Hf. pose proof (vorbis_frames_width h N x E) as W. rewrite Forall_forall in W. split; [now rewrite idct2_dct2|exact (W f Hf)].
  - discriminate.
  - rewrite map_id in T. exists out. split; [exact Eo|]. split; [congruence|]. intros j Hj. rewrite T.
    pose proof (Nat.div_mod j h ltac:(lia)) as Ej. pose proof (Nat.mod_upper_bound j h ltac:(lia)) as Hr.
    set (k := (j / h)%nat) in *. set (r := (j mod h)%nat) in *. rewrite Nat.mul_comm in Ej. clearbody k r.
    assert (Hk : (1 <= k < N)%nat) by nia. cbn [apply_window]. rewrite map_id.
    rewrite Ej at 1. rewrite total_interior; [|exact Hh|now apply vorbis_frames_width|lia|unfold vorbis_frames; rewrite !map_length, frames_count; lia|exact Hr].
    rewrite !vorbis_frames_at by lia. replace ((k - 1) * h + (r + h))%nat with j by nia. rewrite <- Ej. ring.
Qed.
Lemma vorbis_sum_sq h s : (0 < h)%nat -> (s < h)%nat ->
  (vorbis_raw (2 * h) s + vorbis_raw (2 * h) (s + h)) ^ 2 = 1 + sin (PI * sin (PI / (4 * INR h) * (2 * INR s + 1)) ^ 2).
Proof.
  intros Hh Hs. rewrite <- half_angle by exact Hh. rewrite vorbis_complement by exact Hh. unfold vorbis_raw.
  set (q := sin ((INR s + / 2) / INR (2 * h) * PI) ^ 2). replace (PI * q) with (2 * (/ 2 * PI * q)) by field. rewrite sin_2a.
  set (a := / 2 * PI * q). pose proof (sin2_cos2 a) as T. unfold Rsqr in T. cbn [pow]. lra.
Qed.
(** the sum of the two windows is not constant: neighbouring samples get different gains *)
Lemma vorbis_ripple h : (3 <= h)%nat ->
  at_ (oggvorbis (2 * h)) 0 + at_ (oggvorbis (2 * h)) (0 + h) < at_ (oggvorbis (2 * h)) 1 + at_ (oggvorbis (2 * h)) (1 + h).
Proof.
  intros Hh. rewrite !oggvorbis_at by lia. pose proof (vmax_pos (2 * h) ltac:(lia)) as P.
  assert (Ph : 3 <= INR h) by (apply (le_INR 3) in Hh; cbn [INR] in Hh; lra). pose proof PI_RGT_0 as Ppi.
  pose proof (vorbis_sum_sq h 0 ltac:(lia) ltac:(lia)) as S0. pose proof (vorbis_sum_sq h 1 ltac:(lia) ltac:(lia)) as S1.
  pose proof (vorbis_positive (2 * h) 0 ltac:(lia)). pose proof (vorbis_positive (2 * h) 1 ltac:(lia)).
  pose proof (vorbis_positive (2 * h) (0 + h) ltac:(lia)). pose proof (vorbis_positive (2 * h) (1 + h) ltac:(lia)).
  set (phi := PI / (4 * INR h)) in *.
  assert (F : 0 < phi /\ 3 * phi <= PI / 4).
  { unfold phi. split; [apply Rdiv_lt_0_compat; lra|]. apply Rmult_le_reg_r with (4 * INR h); [lra|].
    replace (3 * (PI / (4 * INR h)) * (4 * INR h)) with (3 * PI) by (field; lra). nra. }
  replace (phi * (2 * INR 0 + 1)) with phi in S0 by (cbn [INR]; ring). replace (phi * (2 * INR 1 + 1)) with (3 * phi) in S1 by (cbn [INR]; ring).
  assert (A0 : 0 < sin phi) by (apply sin_gt_0; lra).
  assert (A1 : sin phi < sin (3 * phi)) by (apply sin_increasing_1; lra).
  assert (A2 : sin (3 * phi) ^ 2 <= / 2).
  { assert (B : sin (3 * phi) <= sin (PI / 4)) by (destruct (Req_dec (3 * phi) (PI / 4)) as [->|N]; [lra|left; apply sin_increasing_1; lra]).
    rewrite sin_PI4 in B. assert (Q : 1 / sqrt 2 * (1 / sqrt 2) = / 2).
    { unfold Rdiv. rewrite !Rmult_1_l, <- Rinv_mult, sqrt_sqrt by lra. reflexivity. }
    cbn [pow]. nra. }
  assert (A3 : sin phi ^ 2 < sin (3 * phi) ^ 2) by (cbn [pow]; nra). assert (A4 : 0 < sin phi ^ 2) by (cbn [pow]; nra).
  set (u := sin phi ^ 2) in *. set (v := sin (3 * phi) ^ 2) in *. clearbody u v.
  assert (A5 : sin (PI * u) < sin (PI * v)) by (apply sin_increasing_1; nra).
  set (a := vorbis_raw (2 * h) 0) in *. set (b := vorbis_raw (2 * h) (0 + h)) in *. set (c := vorbis_raw (2 * h) 1) in *. set (d := vorbis_raw (2 * h) (1 + h)) in *.
  clearbody a b c d. cbn [pow] in S0, S1. assert (G : a + b < c + d) by nra.
  replace (a / vmax (2 * h) + b / vmax (2 * h)) with ((a + b) * / vmax (2 * h)) by (field; lra).
  replace (c / vmax (2 * h) + d / vmax (2 * h)) with ((c + d) * / vmax (2 * h)) by (field; lra).
  apply Rmult_lt_compat_r; [now apply Rinv_0_lt_compat|exact G].
Qed.
(** so no gain at all makes the documented default chain give the signal back *)
Lemma dct_default_refuted (sp : Z) (h N : nat) : (0 < sp)%Z -> (3 <= h)%nat -> (2 <= N)%nat ->
  exists x out, length x = ((N + 1) * h)%nat /\ dct_resynthesis (fun _ => None) sp h N x = Ok out
    /\ ~ exists gain : R, forall j, (h <= j < N * h)%nat -> at_ out j = gain * at_ x j.
Proof.
  intros Hsp Hh HN. set (x := repeat 1 ((N + 1) * h)).
  destruct (dct_default_synthesis sp h N x Hsp ltac:(lia) ltac:(lia)) as (out & E & L & T); [apply repeat_length|].
  exists x, out. split; [apply repeat_length|]. split; [exact E|]. intros [gain G].
  assert (X : forall j, (j < (N + 1) * h)%nat -> at_ x j = 1) by (intros j Hj; unfold at_, x; rewrite (nth_indep _ 0 1) by (rewrite repeat_length; exact Hj); apply nth_repeat).
  pose proof (T h ltac:(nia)) as T0. pose proof (T (h + 1)%nat ltac:(nia)) as T1. pose proof (G h ltac:(nia)) as G0. pose proof (G (h + 1)%nat ltac:(nia)) as G1.
  rewrite X in T0, T1, G0, G1 by nia. rewrite Nat.mod_same in T0 by lia.
  replace ((h + 1) mod h)%nat with 1%nat in T1 by (replace (h + 1)%nat with (1 + 1 * h)%nat by lia; rewrite Nat.mod_add by lia; symmetry; apply Nat.mod_small; lia).
  pose proof (vorbis_ripple h Hh). lra.
Qed.

(** ** The "DCT-IV" *)
Lemma dctiv_formula data : (0 < length data)%nat ->
  dctiv data = map (fun f => sqrt (2 / INR (length data)) * rsum (length data) (fun t =>
    at_ data t * cos (PI * INR t / 2 / INR (length data)) * cos (PI * INR f * INR t / INR (length data) + PI * (INR f + / 2) / 2 / INR (length data)))) (seq 0 (length data)).
Proof.
  intros H. assert (Pl : INR (length data) <> 0) by (apply not_0_INR; lia). unfold dctiv. apply map_seq_ext. intros f Hf. f_equal. unfold fft. rewrite re_csum_mul.
  apply rsum_ext. intros t _. cbn. rewrite (cos_plus (PI * INR f * INR t / INR (length data))).
  replace (2 * PI * INR f * INR t / INR (length data + (length data + 0))) with (PI * INR f * INR t / INR (length data)); [ring|].
  rewrite !plus_INR. cbn [INR]. field. lra.
Qed.
(** two passes do not give the data back: the first of two samples comes out larger *)
Lemma dctiv_refuted a : a <> 0 -> dctiv (dctiv [a; 0]) <> [a; 0].
Proof.
  intros Ha E. assert (L : length (dctiv [a; 0]) = 2%nat) by (unfold dctiv; now rewrite map_length, seq_length).
  apply (f_equal (fun l => at_ l 0)) in E. rewrite dctiv_formula in E by lia. rewrite L in E. rewrite at_map_seq in E by lia.
  rewrite (dctiv_formula [a; 0]) in E by (cbn; lia). change (length [a; 0]) with 2%nat in E.
  cbn [rsum] in E. rewrite !at_map_seq in E by lia. cbn [rsum] in E. unfold at_ in E. cbn [nth] in E.
  replace (INR 2) with 2 in E by (cbn; ring). replace (INR 0) with 0 in E by reflexivity. replace (INR 1) with 1 in E by reflexivity.
  replace (2 / 2) with 1 in E by field. rewrite sqrt_1 in E.
  replace (PI * 0 / 2 / 2) with 0 in E by field. rewrite cos_0 in E.
  replace (PI * 0 * 0 / 2 + PI * (0 + / 2) / 2 / 2) with (PI / 8) in E by field.
  replace (PI * 0 * 1 / 2 + PI * (0 + / 2) / 2 / 2) with (PI / 8) in E by field.
  replace (PI * 1 * 0 / 2 + PI * (1 + / 2) / 2 / 2) with (PI / 2 - PI / 8) in E by field.
  replace (PI * 1 / 2 / 2) with (PI / 4) in E by field. rewrite (cos_shift (PI / 8)) in E.
  assert (C1 : cos (PI / 8) * sin (PI / 8) = sin (PI / 4) / 2) by (replace (PI / 4) with (2 * (PI / 8)) by field; rewrite sin_2a; field).
  assert (C2 : cos (PI / 8) * cos (PI / 8) = (1 + cos (PI / 4)) / 2) by (replace (PI / 4) with (2 * (PI / 8)) by field; rewrite cos_2a_cos; field).
  assert (C3 : cos (PI / 4) = sin (PI / 4)) by (rewrite <- (sin_shift (PI / 4)); f_equal; field).
  assert (C4 : cos (PI / 4) * cos (PI / 4) = / 2).
  { rewrite cos_PI4. unfold Rdiv. rewrite !Rmult_1_l, <- Rinv_mult, sqrt_sqrt by lra. reflexivity. }
  assert (C5 : 0 < cos (PI / 4)) by (rewrite cos_PI4; apply Rdiv_lt_0_compat; [lra|apply sqrt_lt_R0; lra]).
  assert (E2 : a * (cos (PI / 8) * cos (PI / 8) + cos (PI / 4) * (cos (PI / 8) * sin (PI / 8))) = a) by (etransitivity; [|exact E]; ring).
  assert (E3 : cos (PI / 8) * cos (PI / 8) + cos (PI / 4) * (cos (PI / 8) * sin (PI / 8)) = 1).
  { apply Rmult_eq_reg_l with a; [|exact Ha]. lra. }
  rewrite C1, C2, <- C3 in E3. nra.
Qed.

(** ** Sine synthesis *)
Lemma sine_bounded n sr freqs out : sine_synthesize n sr freqs = Ok out -> length out = n /\ forall j, Rabs (at_ out j) <= 1.
Proof.
  destruct freqs as [|f0 fr]; [discriminate|]. unfold sine_synthesize. set (freqs := f0 :: fr). intros [= <-]. split; [now rewrite map_length, seq_length|].
  intros j. destruct (Nat.lt_ge_cases j n) as [H|H].
  2:{ rewrite at_out by (rewrite map_length, seq_length; exact H). rewrite Rabs_R0. lra. }
  rewrite at_map_seq by exact H. assert (Pn : 0 < INR (length freqs)) by (apply lt_0_INR; cbn; lia).
  assert (G : forall l, Rabs (fold_right Rplus 0 (map (fun hz => sin (hz / INR sr * INR j * (2 * PI)) * (1 / INR (length freqs))) l)) <= INR (length l) * (1 / INR (length freqs))).
  { induction l as [|a l IH]; [cbn; rewrite Rabs_R0; lra|]. cbn [map fold_right length]. rewrite S_INR. eapply Rle_trans; [apply Rabs_triang|].
    rewrite Rabs_mult. assert (S1 : Rabs (sin (a / INR sr * INR j * (2 * PI))) <= 1) by (apply Rabs_le; apply SIN_bound).
    assert (Q : 0 < 1 / INR (length freqs)) by (apply Rdiv_lt_0_compat; lra). rewrite (Rabs_right (1 / _)) by lra.
    set (q := 1 / INR (length freqs)) in *. clearbody q. nra. }
  eapply Rle_trans; [exact (G freqs)|]. right. field. lra.
Qed.
Lemma sine_empty n sr : sine_synthesize n sr [] = Raise ZeroDivisionError.
Proof. reflexivity. Qed.

(** ** Spectral descriptors *)
Lemma fold_sum_pos l : Forall (fun v => 0 < v) l -> l <> [] -> 0 < fold_right Rplus 0 l.
Proof.
  intros H. induction H as [|a l Ha Hl IH]; [contradiction|]. intros _. cbn. destruct l; [cbn; lra|]. specialize (IH ltac:(discriminate)). lra.
Qed.
Lemma fold_sum_nonneg l : Forall (fun v => 0 <= v) l -> 0 <= fold_right Rplus 0 l.
Proof. intros H. induction H; cbn; lra. Qed.
Lemma ln_le_sub y : 0 < y -> ln y <= y - 1.
Proof. intros H. pose proof (exp_ineq1_le (ln y)) as E. rewrite exp_ln in E by exact H. lra. Qed.
Lemma mean_ln l m : 0 < m -> Forall (fun v => 0 < v) l -> fold_right Rplus 0 (map ln l) <= INR (length l) * ln m + (fold_right Rplus 0 l / m - INR (length l)).
Proof.
  intros Hm H. induction H as [|a l Ha Hl IH]; [cbn; lra|]. cbn [map fold_right length]. rewrite S_INR.
  pose proof (ln_le_sub (a / m) ltac:(apply Rdiv_lt_0_compat; assumption)) as G. unfold Rdiv in G at 1. rewrite ln_mult, ln_Rinv in G by (try assumption; now apply Rinv_0_lt_compat).
  replace ((a + fold_right Rplus 0 l) / m) with (a / m + fold_right Rplus 0 l / m) by (field; lra). lra.
Qed.
Lemma gmean_le_mean l : l <> [] -> Forall (fun v => 0 <= v) l -> 0 <= gmean l <= fold_right Rplus 0 l / INR (length l).
Proof.
  intros Hl HF. assert (Pn : 0 < INR (length l)) by (apply lt_0_INR; destruct l; [contradiction|cbn; lia]).
  unfold gmean. destruct (existsb _ l) eqn:E.
  - split; [lra|]. apply Rmult_le_pos; [now apply fold_sum_nonneg|left; now apply Rinv_0_lt_compat].
  - assert (HP : Forall (fun v => 0 < v) l).
    { rewrite Forall_forall in *. intros v Hv. destruct (HF v Hv) as [|Z]; [assumption|]. exfalso. assert (K : existsb (fun v0 => if Req_EM_T v0 0 then true else false) l = true).
      { apply existsb_exists. exists v. split; [exact Hv|]. destruct (Req_EM_T v 0); [reflexivity|lra]. } congruence. }
    split; [left; apply exp_pos|]. pose proof (fold_sum_pos l HP Hl) as Ps. set (m := fold_right Rplus 0 l / INR (length l)).
    assert (Pm : 0 < m) by (apply Rdiv_lt_0_compat; assumption). rewrite <- (exp_ln m Pm) at 1. 
    pose proof (mean_ln l m Pm HP) as G. replace (fold_right Rplus 0 l / m) with (INR (length l)) in G by (unfold m; field; lra).
    assert (X : fold_right Rplus 0 (map ln l) / INR (length l) <= ln m).
    { apply Rmult_le_reg_r with (INR (length l)); [exact Pn|]. unfold Rdiv. rewrite Rmult_assoc, Rinv_l by lra. lra. }
    destruct X as [X|X]; [left; now apply exp_increasing|rewrite X; lra].
Qed.
Lemma flatness_range x : x <> [] -> 0 <= spectral_flatness x <= 1.
Proof.
  intros Hx. unfold spectral_flatness. set (d := map Rabs x). assert (Hd : d <> []) by (destruct x; [contradiction|discriminate]).
  assert (HF : Forall (fun v => 0 <= v) d) by (unfold d; rewrite Forall_map; apply Forall_forall; intros; apply Rabs_pos).
  pose proof (gmean_le_mean d Hd HF) as [G0 G1]. destruct (Req_EM_T _ 0) as [Z|Z].
  - rewrite Z in G1. replace (gmean d) with 0 by lra. unfold Rdiv. rewrite Rmult_0_l. lra.
  - set (m := fold_right Rplus 0 d / INR (length d)) in *. assert (Pm : 0 < m) by lra. split.
    + apply Rmult_le_pos; [exact G0|left; now apply Rinv_0_lt_compat].
    + apply Rmult_le_reg_r with m; [exact Pm|]. unfold Rdiv. rewrite Rmult_assoc, Rinv_l by lra. lra.
Qed.
Lemma fold_sum_repeat c n : fold_right Rplus 0 (repeat c n) = INR n * c.
Proof. induction n as [|n IH]; [cbn; ring|]. cbn [repeat fold_right]. rewrite IH, S_INR. ring. Qed.
Lemma map_repeat_ {A B} (f : A -> B) a n : map f (repeat a n) = repeat (f a) n.
Proof. induction n; cbn; congruence. Qed.
Lemma flatness_flat c n : c <> 0 -> (0 < n)%nat -> spectral_flatness (repeat c n) = 1.
Proof.
  intros Hc Hn. assert (Pn : INR n <> 0) by (apply not_0_INR; lia). assert (Pc : 0 < Rabs c) by now apply Rabs_pos_lt. unfold spectral_flatness, gmean.
  rewrite map_repeat_, repeat_length, fold_sum_repeat, map_repeat_, fold_sum_repeat.
  replace (existsb _ (repeat (Rabs c) n)) with false.
  - replace (INR n * ln (Rabs c) / INR n) with (ln (Rabs c)) by (field; exact Pn). rewrite exp_ln by exact Pc.
    replace (INR n * Rabs c / INR n) with (Rabs c) by (field; exact Pn). destruct (Req_EM_T (Rabs c) 0); [lra|]. field. lra.
  - symmetry. clear Hn Pn. induction n as [|n IH]; [reflexivity|]. cbn. destruct (Req_EM_T (Rabs c) 0); [lra|]. exact IH.
Qed.
Lemma flatness_silent x : Forall (fun v => v = 0) x -> x <> [] -> spectral_flatness x = 0.
Proof.
  intros H Hx. assert (E : map Rabs x = repeat 0 (length x)).
  { clear Hx. induction H as [|a l -> H IH]; [reflexivity|]. cbn. rewrite Rabs_R0. now f_equal. }
  unfold spectral_flatness. rewrite E. destruct x as [|a x]; [contradiction|]. unfold gmean. cbn [length repeat existsb]. destruct (Req_EM_T 0 0); [|contradiction]. cbn [orb]. unfold Rdiv. now rewrite Rmult_0_l.
Qed.
(** the "centroid" grows with the loudness, so it is not the mean frequency *)
Lemma centroid_scales c x : spectral_centroid (map (Rmult c) x) = Rabs c * spectral_centroid x.
Proof.
  unfold spectral_centroid. rewrite map_length. unfold Rdiv. rewrite <- Rmult_assoc. f_equal. rewrite <- rsum_scale. apply rsum_ext. intros i Hi.
  unfold at_. rewrite (nth_indep _ 0 (c * 0)) by (rewrite map_length; exact Hi). rewrite map_nth, Rabs_mult. ring.
Qed.
(** the mean frequency, in bins, weighted by the magnitudes *)
Definition mean_bin (x : list R) : R := rsum (length x) (fun i => Rabs (at_ x i) * INR (S i)) / rsum (length x) (fun i => Rabs (at_ x i)).
Lemma centroid_refuted : exists x : list R, rsum (length x) (fun i => Rabs (at_ x i)) > 0 /\ spectral_centroid x <> mean_bin x /\ (spectral_centroid x < 1 \/ INR (length x) < spectral_centroid x).
Proof.
  exists [0; 6]. unfold spectral_centroid, mean_bin, at_. cbn [rsum length nth INR]. rewrite !Rabs_R0, (Rabs_right 6) by lra.
  split; [lra|]. split; [|right]; lra.
Qed.

(** ** The caches and shapes of DctTransform *)
Lemma window_cache_refuted : exists (n : nat) (w1 w2 : nat -> list R), w1 n <> w2 n /\ snd (window (fst (window [] n w1)) n w2) = w1 n.
Proof. exists 1%nat, (fun _ => [1]), (fun _ => [2]). split; [intros [= E]; lra|reflexivity]. Qed.
Lemma window_cache_consistent (w : nat -> list R) ns : forall cache, Forall (fun p => snd p = w (fst p)) cache ->
  Forall (fun p => snd p = w (fst p)) (fold_left (fun c n => fst (window c n w)) ns cache)
  /\ forall n, snd (window (fold_left (fun c n => fst (window c n w)) ns cache) n w) = w n.
Proof.
  induction ns as [|m ns IH]; intros cache H.
  - split; [exact H|]. intros n. unfold window. cbn [fold_left]. destruct (find _ cache) as [[k v]|] eqn:F; [|reflexivity].
    apply find_some in F as [I F]. cbn in F. apply Nat.eqb_eq in F. subst k. rewrite Forall_forall in H. exact (H _ I).
  - cbn [fold_left]. apply IH. unfold window. destruct (find _ cache) as [[k v]|]; [exact H|]. constructor; [reflexivity|exact H].
Qed.
Lemma short_time_dct_shape_iff batch samples size step s : (0 < batch)%nat ->
  short_time_dct_shape batch samples size step = Ok s <->
  (0 < size /\ 0 < step /\ size <= samples /\ (samples - size) / step + 1 = size /\ s = (batch, size, size))%nat.
Proof.
  intros Hb. unfold short_time_dct_shape. destruct (Nat.eqb_spec size 0) as [->|Hs]; cbn [orb]; [split; [discriminate|lia]|].
  destruct (Nat.eqb_spec step 0) as [->|Hst]; cbn [orb]; [split; [discriminate|lia]|]. destruct (Nat.ltb_spec samples size) as [L|L]; cbn [orb]; [split; [discriminate|lia]|].
  destruct (Nat.eqb_spec (batch * ((samples - size) / step + 1) * size) (batch * size * size)) as [E|E]; split.
  - intros [= <-]. assert ((samples - size) / step + 1 = size)%nat by nia. repeat split; lia.
  - intros (_ & _ & _ & _ & ->). reflexivity.
  - discriminate.
  - intros (_ & _ & _ & K & _). exfalso. apply E. now rewrite K.
Qed.

(** ** The hypotheses are met *)
(** the dimension that windowing audio by 2h samples every h produces *)
Lemma half_lapped_dim_reached (sp : Z) (h N : nat) : (0 < sp)%Z -> (0 < h)%nat ->
  exists d, modified_dimension (mk_timedim sp (Some sp) None) (Z.of_nat (2 * h)) (Some (Z.of_nat h)) = Ok d
    /\ metaslice d (Z.of_nat N) = half_lapped_dim sp h N.
Proof.
  intros Hsp Hh. unfold modified_dimension. destruct (Z.eqb_spec (Z.of_nat h) 0); [lia|].
  assert (E : mk_timedim sp (Some sp) None = {| t_freq := sp; t_dur := sp; t_size := None |}).
  { unfold mk_timedim. destruct (Z.eqb_spec sp 0); [lia|reflexivity]. }
  rewrite E. unfold t_overlap, mk_samplerate. cbn [t_freq t_dur]. destruct (Z.leb_spec sp 0); [lia|]. cbn [bind sr_overlap sr_dur sr_freq].
  eexists. split; [reflexivity|]. unfold metaslice, mk_timedim, half_lapped_dim. cbn [t_freq t_dur t_size].
  unfold sr_overlap. cbn [sr_dur sr_freq]. rewrite Z.sub_diag, Z.add_0_r. destruct (Z.eqb_spec (sp * Z.of_nat (2 * h)) 0) as [K|K]; [nia|].
  destruct (Z.eqb_spec (sp * Z.of_nat (2 * h)) 0); [contradiction|]. now rewrite !(Z.mul_comm sp).
Qed.
Example stft_case : exists out gain, stft_resynthesis 22675736 2 3 [1; 2; 3; 4; 5; 6; 7; 8] = Ok out /\ 1 < gain <= 3 / 2 /\ at_ out 3 = gain * 4.
Proof.
  destruct (stft_reconstruction 22675736 2 3 [1; 2; 3; 4; 5; 6; 7; 8]) as (out & g & E & _ & G & I & _); try lia; [reflexivity|].
  exists out, g. split; [exact E|]. cbn in G. split; [lra|]. apply (I 3%nat). lia.
Qed.
Example mdct_case : exists out gain, mdct_resynthesis 22675736 2 3 [1; 2; 3; 4; 5; 6; 7; 8] = Ok out /\ 1 < gain <= 3 / 2 /\ at_ out 3 = gain * 4.
Proof.
  destruct (mdct_reconstruction 22675736 2 3 [1; 2; 3; 4; 5; 6; 7; 8]) as (out & g & E & _ & G & I); try lia; [reflexivity|].
  exists out, g. split; [exact E|]. cbn in G. split; [lra|]. apply (I 3%nat). lia.
Qed.
