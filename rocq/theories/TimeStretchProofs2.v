(** time_stretch and pitch_shift, continued (C77). *)
From Verif Require Import PyBase PyFacts PyMore Time TimeProofs Freq FreqProofs FreqScaleProofs FreqDim FreqDimProofs Axis Windowed WindowedProofs NdWindow NdWindowProofs Spectral SpectralProofs TransformProofs ReconProofs OverlapProofs Resample ResampleProofs SquareProofs PhaseShiftProofs Stft StftProofs TimeStretch TimeStretchProofs.
From Coq Require Import Reals Lra Psatz.
Local Open Scope R_scope.

(** ** factor 1: the frames come back *)
Lemma first_one i : first_frame 1 i = i.
Proof. unfold first_frame, step_time. rewrite Rmult_1_r. apply to_int_nat. Qed.
Lemma second_one i : second_frame 1 i = S i.
Proof. unfold second_frame, step_time. rewrite Rmult_1_r, <- S_INR. apply to_int_nat. Qed.
Lemma weight_one i : weight 1 i = 0.
Proof. unfold weight, step_time. rewrite Rmult_1_r, Int_part_INR, <- INR_IZR_INZ. ring. Qed.
Lemma phase_one D m hop k i : exists z, phase_acc D m hop 1 i k = angle (coeff D i k) + 2 * IZR z * PI.
Proof.
  induction i as [|i [z IH]].
  - exists 0%Z. unfold phase_acc. cbn [rsum]. ring.
  - unfold phase_acc in *. cbn [rsum]. rewrite <- Rplus_assoc, IH. unfold dphase. rewrite first_one, second_one.
    set (r := np_round _). exists (z - r)%Z. rewrite minus_IZR. ring.
Qed.
Lemma new_coeffs_one D m hop i : length (nth i D []) = m -> new_coeffs D m hop 1 i = nth i D [].
Proof.
  intros L. apply nth_ext with (d := cz) (d' := cz); [now rewrite new_coeffs_length|]. intros k Hk. rewrite new_coeffs_length in Hk.
  unfold new_coeffs. rewrite nth_map_seq by exact Hk. destruct (phase_one D m hop k i) as [z E]. rewrite E, cos_period_Z, sin_period_Z.
  unfold mag. rewrite weight_one, first_one. replace ((1 - 0) * magnitude (coeff D i k) + 0 * magnitude (coeff D (second_frame 1 i) k)) with (magnitude (coeff D i k)) by ring.
  destruct (polar (coeff D i k)) as [P Q]. rewrite P, Q. unfold coeff. now destruct (nth k (nth i D []) _).
Qed.

(** ** what scaling the signal does *)
Lemma fft_scale_row c x k n m : Spectral.fft n m (fun t => (at_ (map (Rmult c) x) t, 0)) k = cscale c (Spectral.fft n m (fun t => (at_ x t, 0)) k).
Proof.
  unfold Spectral.fft, cscale. assert (A : forall t, at_ (map (Rmult c) x) t = c * at_ x t).
  { intros t. unfold at_. rewrite <- (Rmult_0_r c) at 1. apply map_nth. }
  apply injective_projections; cbn [fst snd]; rewrite ?csum_fst, ?csum_snd, <- rsum_scale; apply rsum_ext; intros t _; rewrite A; cbn [cmul fst snd]; ring.
Qed.
Lemma at_scaled c x i : at_ (map (Rmult c) x) i = c * at_ x i.
Proof. unfold at_. rewrite <- (Rmult_0_r c) at 1. apply map_nth. Qed.
Lemma rfft_scaled c x : rfft_ortho 0 (map (Rmult c) x) = map (cscale c) (rfft_ortho 0 x).
Proof.
  unfold rfft_ortho. cbn [repeat]. rewrite !app_nil_r, !map_length, map_map. apply map_ext. intros k. rewrite fft_scale_row. unfold cscale. cbn [fst snd]. f_equal; ring.
Qed.
Lemma windowing_scaled w c x : windowing w (map (Rmult c) x) = map (Rmult c) (windowing w x).
Proof. unfold windowing. rewrite !map_length, map_map. apply map_ext. intros i. rewrite at_scaled. ring. Qed.
Lemma frames_scaled W H width c x : row_frames W H width (map (Rmult c) x) = map (map (cscale c)) (row_frames W H width x).
Proof.
  unfold row_frames. rewrite map_map. apply map_ext. intros i. rewrite skipn_map, firstn_map, windowing_scaled. apply rfft_scaled.
Qed.
Lemma coeff_scaled c D i k : coeff (map (map (cscale c)) D) i k = cscale c (coeff D i k).
Proof.
  unfold coeff. change (@nil cplx) with (map (cscale c) []) at 1. rewrite map_nth.
  replace (0, 0) with (cscale c cz) at 1 by (unfold cscale; cbn; f_equal; ring). apply map_nth.
Qed.
Lemma new_coeffs_scaled c D m hop factor i : 0 < c -> new_coeffs (map (map (cscale c)) D) m hop factor i = map (cscale c) (new_coeffs D m hop factor i).
Proof.
  intros Hc. unfold new_coeffs. rewrite map_map. apply map_ext. intros k.
  assert (P : phase_acc (map (map (cscale c)) D) m hop factor i k = phase_acc D m hop factor i k).
  { unfold phase_acc. f_equal; [rewrite coeff_scaled; now apply angle_scale|]. apply rsum_ext. intros j _. unfold dphase. rewrite !coeff_scaled, !angle_scale by exact Hc. reflexivity. }
  assert (M : mag (map (map (cscale c)) D) factor i k = c * mag D factor i k).
  { unfold mag. rewrite !coeff_scaled, !magnitude_scale by lra. ring. }
  rewrite P, M. unfold cscale. cbn [fst snd]. f_equal; ring.
Qed.
Lemma irfft_scaled c l : irfft_row (map (cscale c) l) = map (Rmult c) (irfft_row l).
Proof.
  unfold irfft_row, irfft_ortho. rewrite map_length. destruct (Nat.eqb _ 0); [reflexivity|]. rewrite map_map. apply map_ext. intros t.
  assert (Nk : forall k, nth k (map (cscale c) l) (0, 0) = cscale c (nth k l (0, 0))).
  { intros k. replace (0, 0) with (cscale c cz) at 1 by (unfold cscale; cbn; f_equal; ring). apply map_nth. }
  rewrite !Nk. rewrite (rsum_ext _ _ (fun j => c * (2 * (fst (nth (S j) l (0, 0)) * cos (2 * PI * INR (S j) * INR t / INR (2 * (length l - 1))) - snd (nth (S j) l (0, 0)) * sin (2 * PI * INR (S j) * INR t / INR (2 * (length l - 1))))))).
  2: { intros j _. rewrite Nk. unfold cscale. cbn [fst snd]. ring. }
  rewrite rsum_scale. unfold cscale. cbn [fst snd]. ring.
Qed.
Lemma out_frame_scaled c D m hop factor i : 0 < c -> out_frame (map (map (cscale c)) D) m hop factor i = map (Rmult c) (out_frame D m hop factor i).
Proof. intros Hc. unfold out_frame. rewrite new_coeffs_scaled, irfft_scaled by exact Hc. apply windowing_scaled. Qed.
Lemma contribution_scaled c f s j : contribution (map (Rmult c) f) s j = c * contribution f s j.
Proof. unfold contribution. destruct (Nat.leb s j); [apply at_scaled|ring]. Qed.

(** ** one signal, as a function of the samples *)
Definition stretched (hop W H width : nat) (factor : R) (x : list R) : list R :=
  match stretch_row hop (W / 2 + 1) width factor (row_frames W H width x) with Ok o => o | Raise _ => [] end.

Section Stretch.
  Context (t : timedim) (r : Z) (sr : samplerate) (width W H hop : nat).
  Context (Hr : In r standard_rates) (Ht : t_freq t = (10 ^ 12 / r)%Z) (Hd : t_dur t = t_freq t)
    (HW : samples_in (t_freq t) (sr_dur sr) = Z.of_nat W) (HH : samples_in (t_freq t) (sr_freq sr) = Z.of_nat H)
    (Hhop : round_half_even (sr_freq sr) (t_freq t) = Z.of_nat hop)
    (HW2 : (2 <= W <= width)%nat) (H1 : (1 <= H)%nat) (Pd : (0 < sr_dur sr)%Z).

  Lemma stretched_ok factor x : stretch_row hop (W / 2 + 1) width factor (row_frames W H width x) = Ok (stretched hop W H width factor x) /\
    length (stretched hop W H width factor x) = to_int (INR width / factor) /\
    forall j, (j < to_int (INR width / factor))%nat -> at_ (stretched hop W H width factor x) j =
      rsum (arange_count ((width - W) / H + 1) factor) (fun i => contribution (out_frame (row_frames W H width x) (W / 2 + 1) hop factor i) (i * hop) j).
  Proof.
    assert (G : (2 <= W / 2 + 1)%nat) by (assert (1 <= W / 2)%nat by (apply Nat.div_le_lower_bound; lia); lia).
    destruct (stretch_row_ok hop (W / 2 + 1) width factor (row_frames W H width x) G) as (o & E & L & A). unfold stretched. rewrite E. split; [reflexivity|]. split; [exact L|].
    intros j Hj. rewrite A by lia. unfold row_frames at 1. now rewrite map_length, seq_length.
  Qed.
  Lemma stretched_result factor rows : 0 < factor -> rows <> [] ->
    time_stretch2 DIdent (DTime t) factor (Some sr) width rows =
    Ok ([DIdent; DTime (mk_timedim (t_freq t) (Some (t_freq t)) (Some (Z.of_nat (to_int (INR width / factor)))))], map (stretched hop W H width factor) rows).
  Proof.
    intros Hf Hne. rewrite (time_stretch2_eq t r sr width W H hop Hr Ht Hd HW HH Hhop HW2 H1 Pd) by assumption.
    rewrite (mapM_ok _ (stretched hop W H width factor)) by (intros x _; apply stretched_ok). reflexivity.
  Qed.
  Lemma frame_at x i : length x = width -> (i < (width - W) / H + 1)%nat ->
    length (firstn W (skipn (i * H) x)) = W /\ nth i (row_frames W H width x) [] = rfft_ortho 0 (windowing hanning (firstn W (skipn (i * H) x))).
  Proof.
    intros Lx Hi. assert (Hi2 : (i * H + W <= width)%nat).
    { assert (i * H <= (width - W) / H * H)%nat by (apply Nat.mul_le_mono_r; lia). pose proof (Nat.mul_div_le (width - W) H ltac:(lia)). lia. }
    split; [rewrite firstn_length, skipn_length; lia|]. unfold row_frames. now rewrite nth_map_seq.
  Qed.

  (** a factor of 1 takes the signal apart and puts it together again: frame i was read at
      [i * H] and is added at [i * hop], multiplied twice by the window *)
  Theorem stretch_one h x row ds : W = (2 * h)%nat -> length x = width ->
    time_stretch1 t 1 (Some sr) x = Ok (ds, [row]) ->
    length row = width /\ forall p, (p < width)%nat ->
      at_ row p = rsum ((width - W) / H + 1) (fun i =>
        if (Nat.leb (i * hop) p && Nat.ltb p (i * hop + W))%bool
        then at_ x (i * H + (p - i * hop)) * (hanning W (p - i * hop)%nat * hanning W (p - i * hop)%nat) else 0).
  Proof.
    intros Wh Lx E. unfold time_stretch1 in E. rewrite Lx in E. destruct (Nat.eqb_spec width 1); [lia|].
    rewrite stretched_result in E by (try lra; discriminate). injection E as _ <-.
    destruct (stretched_ok 1 x) as (_ & L & A). assert (Ew : to_int (INR width / 1) = width) by (replace (INR width / 1) with (INR width) by field; apply to_int_nat). rewrite Ew in *.
    split; [exact L|]. intros p Hp. rewrite A by exact Hp. rewrite arange_one. apply rsum_ext. intros i Hi.
    destruct (frame_at x i Lx Hi) as [Lf Ef]. unfold out_frame. rewrite new_coeffs_one.
    2: { rewrite Ef, rfft_length, windowing_length, Lf, Nat.add_0_r. reflexivity. }
    rewrite Ef. unfold irfft_row. rewrite (irfft_rfft _ h) by (rewrite ?windowing_length; lia). unfold contribution.
    destruct (Nat.leb_spec (i * hop) p) as [K|K]; [|reflexivity]. cbn [andb]. destruct (Nat.ltb_spec p (i * hop + W)) as [K2|K2].
    - rewrite windowing_at by (rewrite windowing_length; lia). rewrite windowing_length, Lf. rewrite windowing_at by lia. rewrite Lf, at_firstn. destruct (Nat.ltb_spec (p - i * hop) W); [|lia]. rewrite at_skipn. ring.
    - apply at_out. rewrite !windowing_length, Lf. lia.
  Qed.
  (** when the frames go back to where they were taken, every sample is multiplied by a gain
      that depends on its position only *)
  Theorem stretch_one_gain h x row ds : W = (2 * h)%nat -> hop = H -> length x = width ->
    time_stretch1 t 1 (Some sr) x = Ok (ds, [row]) ->
    forall p, (p < width)%nat -> at_ row p = at_ x p * rsum ((width - W) / H + 1) (fun i =>
      if (Nat.leb (i * H) p && Nat.ltb p (i * H + W))%bool then hanning W (p - i * H)%nat * hanning W (p - i * H)%nat else 0).
  Proof.
    intros Wh Eh Lx E p Hp. destruct (stretch_one h x row ds Wh Lx E) as [_ A]. rewrite A by exact Hp. rewrite <- rsum_scale. apply rsum_ext. intros i _. rewrite Eh.
    destruct (Nat.leb_spec (i * H) p); cbn [andb]; [|ring]. destruct (Nat.ltb p (i * H + W)); [|ring]. replace (i * H + (p - i * H))%nat with p by lia. reflexivity.
  Qed.

  (** a louder signal gives the same result, louder *)
  Lemma stretched_scaled factor c x : 0 < c -> stretched hop W H width factor (map (Rmult c) x) = map (Rmult c) (stretched hop W H width factor x).
  Proof.
    intros Hc. destruct (stretched_ok factor x) as (_ & L & A). destruct (stretched_ok factor (map (Rmult c) x)) as (_ & L' & A').
    apply list_ext_at; [rewrite map_length; congruence|]. intros j Hj. rewrite L' in Hj. rewrite A', at_scaled, A by exact Hj. rewrite <- rsum_scale. apply rsum_ext. intros i _.
    rewrite frames_scaled, out_frame_scaled by exact Hc. apply contribution_scaled.
  Qed.
  Theorem stretch_homogeneous factor c rows ds out : 0 < factor -> 0 < c ->
    time_stretch2 DIdent (DTime t) factor (Some sr) width rows = Ok (ds, out) ->
    time_stretch2 DIdent (DTime t) factor (Some sr) width (map (map (Rmult c)) rows) = Ok (ds, map (map (Rmult c)) out).
  Proof.
    intros Hf Hc E. destruct rows as [|x0 rows].
    { unfold time_stretch2, discrete_samples in E. rewrite (stft2_refuses t sr hanning DIdent width [] W Hd) in E; [discriminate|apply (std_freq_pos r); assumption|exact HW|now right; right]. }
    rewrite stretched_result in E by (try assumption; discriminate). rewrite stretched_result by (try assumption; discriminate). apply (f_equal (fun p => match p with Ok q => q | Raise _ => ([], []) end)) in E. apply pair_equal_spec in E as [<- <-].
    do 2 f_equal. rewrite !map_map. apply map_ext. intros x. now apply stretched_scaled.
  Qed.
  (** silence stays silent *)
  Theorem stretch_silence factor rows ds out row : 0 < factor -> (forall x, In x rows -> x = repeat 0 width) ->
    time_stretch2 DIdent (DTime t) factor (Some sr) width rows = Ok (ds, out) -> In row out -> row = repeat 0 (to_int (INR width / factor)).
  Proof.
    intros Hf Hz E Hin. destruct rows as [|x0 rows].
    { unfold time_stretch2, discrete_samples in E. rewrite (stft2_refuses t sr hanning DIdent width [] W Hd) in E; [discriminate|apply (std_freq_pos r); assumption|exact HW|now right; right]. }
    rewrite stretched_result in E by (try assumption; discriminate). apply (f_equal (fun p => match p with Ok q => q | Raise _ => ([], []) end)) in E. apply pair_equal_spec in E as [_ <-].
    apply in_map_iff in Hin as (x & <- & Hx). rewrite (Hz x Hx). pose proof (stretched_scaled factor 2 (repeat 0 width) ltac:(lra)) as E2.
    assert (Ez : map (Rmult 2) (repeat 0 width) = repeat 0 width). { clear. induction width as [|w IH]; [reflexivity|]. cbn [repeat map]. f_equal; [ring|exact IH]. }
    rewrite Ez in E2. destruct (stretched_ok factor (repeat 0 width)) as (_ & L & _). apply list_ext_at; [now rewrite repeat_length|]. intros j _. rewrite at_zeros.
    pose proof (f_equal (fun l => at_ l j) E2) as E3. cbn beta in E3. rewrite at_scaled in E3. lra.
  Qed.
End Stretch.
