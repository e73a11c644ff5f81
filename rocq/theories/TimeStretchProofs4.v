(** What the phase vocoder of [time_stretch] does to a signal, for every factor (C77). *)
From Verif Require Import PyBase PyFacts PyMore Time Freq FreqDim Axis Windowed NdWindow Spectral OverlapProofs TransformProofs ReconProofs Resample ResampleProofs Stft StftProofs TimeStretch TimeStretchProofs TimeStretchProofs2 TimeStretchProofs3.
From Coq Require Import Reals Lra Lia.
Local Open Scope R_scope.

(** [angle] is the principal argument *)
Theorem angle_range c : - PI < angle c <= PI.
Proof.
  pose proof PI_RGT_0 as P. unfold angle. destruct c as [x y]. cbn [fst snd]. pose proof (atan_bound (y / x)) as [A B].
  destruct (Rlt_dec 0 x) as [Hx|Hx]; [lra|]. destruct (Rlt_dec x 0) as [Hx2|Hx2].
  - destruct (Rle_dec 0 y) as [Hy|Hy].
    + assert (Q : y / x <= 0). { unfold Rdiv. apply Rinv_lt_0_compat in Hx2. nra. } assert (atan (y / x) <= 0). { rewrite <- atan_0. destruct (Rle_lt_or_eq_dec _ _ Q) as [L| ->]; [left; now apply atan_increasing|lra]. } lra.
    + assert (Q : 0 < y / x). { unfold Rdiv. apply Rinv_lt_0_compat in Hx2. nra. } assert (0 < atan (y / x)). { rewrite <- atan_0. now apply atan_increasing. } lra.
  - destruct (Rlt_dec 0 y); [lra|]. destruct (Rlt_dec y 0); lra.
Qed.
Theorem angle_zero : angle (0, 0) = 0.
Proof. unfold angle. cbn [fst snd]. destruct (Rlt_dec 0 0); [lra|reflexivity]. Qed.

Theorem angle_spec c : magnitude c * cos (angle c) = fst c /\ magnitude c * sin (angle c) = snd c /\ - PI < angle c <= PI /\ angle (0, 0) = 0.
Proof. destruct (polar c) as [A B]. split; [exact A|]. split; [exact B|]. split; [apply angle_range|exact angle_zero]. Qed.

Lemma np_round_near x : Rabs (x - IZR (np_round x)) <= / 2.
Proof.
  unfold np_round. pose proof (base_Int_part x) as [A B]. set (f := Int_part x) in *. clearbody f. cbv zeta.
  destruct (Rlt_dec (x - IZR f) (/ 2)); [apply Rabs_le; lra|]. destruct (Rlt_dec (/ 2) (x - IZR f)).
  - rewrite plus_IZR. apply Rabs_le. lra.
  - destruct (Z.even f); [|rewrite plus_IZR]; apply Rabs_le; lra.
Qed.

(** the spectrum of frame p, coefficient k: [W] samples from sample [p * H], windowed, and
    silence after the last whole frame *)
Definition frame_spectrum (W H width : nat) (x : list R) (p k : nat) : cplx :=
  if Nat.ltb p ((width - W) / H + 1) then dft_coeff W W (fun s => at_ x (p * H + s) * hanning W s) k else (0, 0).

Section Vocoder4.
  Context (t : timedim) (r : Z) (sr : samplerate) (width W H hop : nat).
  Context (Hr : In r standard_rates) (Ht : t_freq t = (10 ^ 12 / r)%Z) (Hd : t_dur t = t_freq t)
    (HW : samples_in (t_freq t) (sr_dur sr) = Z.of_nat W) (HH : samples_in (t_freq t) (sr_freq sr) = Z.of_nat H)
    (Hhop : round_half_even (sr_freq sr) (t_freq t) = Z.of_nat hop)
    (HW2 : (2 <= W <= width)%nat) (H1 : (1 <= H)%nat) (Pd : (0 < sr_dur sr)%Z).

  Lemma coeff_spectrum x p k : length x = width -> (k <= W / 2)%nat -> coeff (row_frames W H width x) p k = frame_spectrum W H width x p k.
  Proof.
    intros Lx Hk. unfold coeff, frame_spectrum. destruct (Nat.ltb_spec p ((width - W) / H + 1)) as [L|L].
    - destruct (frame_at width W H hop HW2 H1 x p Lx L) as [Lf ->].
      rewrite rfft_coeff by (rewrite windowing_length, Lf, Nat.add_0_r; exact Hk). rewrite windowing_length, Lf, Nat.add_0_r. apply dft_ext. intros s Hs.
      rewrite windowing_at by lia. rewrite Lf, at_firstn, at_skipn. destruct (Nat.ltb_spec s W); [reflexivity|lia].
    - rewrite (nth_overflow (row_frames W H width x)) by (unfold row_frames; rewrite map_length, seq_length; exact L). destruct k; reflexivity.
  Qed.

  (** Output frame i stands at time [i * factor] of the input frames.  Its magnitudes lie
      between those of the two frames around; its phases move on from those of the output
      frame before by the difference between these two frames, unwrapped to within half a turn
      of what a tone at the centre of the bin does in [hop] samples. *)
  Theorem stretch_vocoder factor x row ds h : 0 < factor -> length x = width -> h = (W / 2)%nat ->
    time_stretch1 t factor (Some sr) x = Ok (ds, [row]) ->
    let X := frame_spectrum W H width x in
    exists (N : nat) (mags phases : nat -> nat -> R),
      (forall i, (i < N)%nat <-> INR i * factor < INR ((width - W) / H + 1)) /\
      (forall i k p, (k <= h)%nat -> INR p <= INR i * factor < INR p + 1 ->
        mags i k = (1 - (INR i * factor - INR p)) * magnitude (X p k) + (INR i * factor - INR p) * magnitude (X (S p) k)) /\
      (forall k, (k <= h)%nat -> phases 0%nat k = angle (X 0%nat k)) /\
      (forall i k p, (k <= h)%nat -> INR p <= INR i * factor < INR p + 1 ->
        (exists z, phases (S i) k - phases i k = angle (X (S p) k) - angle (X p k) + 2 * PI * IZR z) /\
        Rabs (phases (S i) k - phases i k - INR k * (PI * INR hop / INR h)) <= PI) /\
      forall j, (j < length row)%nat -> at_ row j = rsum N (fun i =>
        let s := (j - i * hop)%nat in
        if (Nat.leb (i * hop) j && Nat.ltb s (2 * h))%bool then
          hanning (2 * h)%nat s * / sqrt (INR (2 * h)) *
          (mags i 0%nat * cos (phases i 0%nat)
           + rsum (h - 1) (fun q => 2 * mags i (S q) * cos (phases i (S q) + 2 * PI * INR (S q) * INR s / INR (2 * h)))
           + mags i h * cos (phases i h + PI * INR s))
        else 0).
  Proof.
    intros Hf Lx Eh E X. unfold time_stretch1 in E. rewrite Lx in E. destruct (Nat.eqb_spec width 1); [lia|].
    rewrite (stretched_result t r sr width W H hop Hr Ht Hd HW HH Hhop HW2 H1 Pd) in E by (try assumption; discriminate).
    apply (f_equal (fun p => match p with Ok q => q | Raise _ => ([], []) end)) in E. apply pair_equal_spec in E as [_ E]. cbn [map] in E. injection E as <-.
    destruct (stretched_ok width W H hop HW2 H1 factor x) as (_ & L & A). rewrite L. set (D := row_frames W H width x) in *.
    assert (C : forall p k, (k <= h)%nat -> coeff D p k = X p k) by (intros p k Hk; apply coeff_spectrum; [exact Lx|now rewrite <- Eh]).
    assert (F1 : forall i p, INR p <= INR i * factor < INR p + 1 -> first_frame factor i = p) by (intros i p B; now apply to_int_unique).
    assert (F2 : forall i p, INR p <= INR i * factor < INR p + 1 -> second_frame factor i = S p) by (intros i p B; apply to_int_unique; rewrite S_INR; unfold step_time; lra).
    assert (Fw : forall i p, INR p <= INR i * factor < INR p + 1 -> weight factor i = INR i * factor - INR p).
    { intros i p B. unfold weight, step_time. f_equal. rewrite (INR_IZR_INZ p) in B |- *. f_equal. pose proof (base_Int_part (INR i * factor)) as [U V]. apply Z.le_antisymm; apply Z.lt_succ_r; apply lt_IZR; rewrite succ_IZR; lra. }
    assert (h1 : (1 <= h)%nat) by (subst h; apply Nat.div_le_lower_bound; lia).
    exists (arange_count ((width - W) / H + 1) factor), (mag D factor), (phase_acc D (h + 1) hop factor).
    split; [intros i; now apply arange_spec|]. split; [|split; [|split]].
    - intros i k p Hk B. unfold mag. rewrite (F1 i p B), (F2 i p B), (Fw i p B), !C by exact Hk. reflexivity.
    - intros k Hk. unfold phase_acc. cbn [rsum]. rewrite C by exact Hk. ring.
    - intros i k p Hk B. assert (Es : phase_acc D (h + 1) hop factor (S i) k - phase_acc D (h + 1) hop factor i k = dphase D (h + 1) hop factor i k) by (unfold phase_acc; cbn [rsum]; ring).
      rewrite Es. unfold dphase. rewrite (F1 i p B), (F2 i p B), !C by exact Hk. unfold advance. replace (h + 1 - 1)%nat with h by lia.
      set (a := INR k * (PI * INR hop / INR h)). set (d := angle (X (S p) k) - angle (X p k) - a). cbv zeta. split.
      + exists (- np_round (d / (2 * PI)))%Z. rewrite opp_IZR. unfold d. ring.
      + pose proof PI_RGT_0 as P. pose proof (np_round_near (d / (2 * PI))) as Q. set (z := IZR (np_round (d / (2 * PI)))) in *. clearbody z.
        replace (d - 2 * PI * z + a - a) with ((d / (2 * PI) - z) * (2 * PI)) by (field; lra). rewrite Rabs_mult, (Rabs_right (2 * PI)) by lra.
        apply Rmult_le_compat_r with (r := 2 * PI) in Q; [|lra]. lra.
    - intros j Hj. rewrite A by exact Hj. apply rsum_ext. intros i _. cbv zeta. rewrite <- Eh. unfold contribution. destruct (Nat.leb_spec (i * hop) j) as [K|K]; [|reflexivity]. cbn [andb].
      set (s := (j - i * hop)%nat). unfold out_frame.
      assert (Ln : length (new_coeffs D (h + 1) hop factor i) = (h + 1)%nat) by apply new_coeffs_length.
      assert (Lr : length (irfft_row (new_coeffs D (h + 1) hop factor i)) = (2 * h)%nat). { rewrite (proj2 (irfft_total _ ltac:(rewrite Ln; lia))), Ln. f_equal. lia. }
      destruct (Nat.ltb_spec s (2 * h)) as [K2|K2]; [|apply at_out; rewrite windowing_length, Lr; exact K2].
      rewrite windowing_at by (rewrite Lr; exact K2). rewrite Lr. unfold irfft_row, irfft_ortho. rewrite Ln. replace (h + 1 - 1)%nat with h by lia. destruct (Nat.eqb_spec (2 * h) 0); [lia|].
      rewrite at_map_seq by exact K2.
      assert (Nc : forall k, (k <= h)%nat -> nth k (new_coeffs D (h + 1) hop factor i) (0, 0) = (mag D factor i k * cos (phase_acc D (h + 1) hop factor i k), mag D factor i k * sin (phase_acc D (h + 1) hop factor i k))).
      { intros k Hk. unfold new_coeffs. now rewrite nth_map_seq by lia. }
      rewrite !Nc by lia. cbn [fst]. rewrite (rsum_ext _ _ (fun q => 2 * mag D factor i (S q) * cos (phase_acc D (h + 1) hop factor i (S q) + 2 * PI * INR (S q) * INR s / INR (2 * h)))).
      2: { intros q Hq. rewrite Nc by lia. cbn [fst snd]. rewrite cos_plus. ring. }
      rewrite (cos_plus _ (PI * INR s)). assert (Sp : sin (PI * INR s) = 0). { rewrite INR_IZR_INZ, Rmult_comm. apply sin_int_pi. } rewrite Sp. ring.
  Qed.
End Vocoder4.
