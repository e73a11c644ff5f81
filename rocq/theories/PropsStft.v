(** Property theorems: time_stretch and pitch_shift (C77), fft and stft (C78). *)
From Verif Require Import PyBase PyFacts PyMore Time Freq FreqProofs FreqScaleProofs FreqDim FreqDimProofs Axis Windowed NdWindow Spectral Resample Stft StftProofs TimeStretch TimeStretchProofs TimeStretchProofs2 TimeStretchProofs3 TimeStretchProofs4 TimeStretchProofs5 TimeStretchErrors.
From Coq Require Import Reals.
Local Open Scope R_scope.

(** C77: [samples_in f d] is how many samples of f picoseconds the duration d spans; frames of
    [W] samples are read [H] samples apart and added [hop] samples apart *)
Theorem C77_shape :
  forall (t : timedim) (r : Z) (sr : samplerate) (width W H hop : nat),
  In r standard_rates ->
  t_freq t = (10 ^ 12 / r)%Z ->
  t_dur t = t_freq t ->
  samples_in (t_freq t) (sr_dur sr) = Z.of_nat W ->
  samples_in (t_freq t) (sr_freq sr) = Z.of_nat H ->
  round_half_even (sr_freq sr) (t_freq t) = Z.of_nat hop ->
  (2 <= W <= width)%nat ->
  (1 <= H)%nat ->
  (0 < sr_dur sr)%Z ->
  forall (factor : R) (rows : list (list R)),
  0 < factor ->
  rows <> [] ->
  exists (n : nat) (out : list (list R)),
    time_stretch2 DIdent (DTime t) factor (Some sr) width rows =
    Ok ([DIdent; DTime (mk_timedim (t_freq t) (Some (t_freq t)) (Some (Z.of_nat n)))], out) /\
    length out = length rows /\
    (forall row : list R, In row out -> length row = n) /\
    INR n * factor <= INR width < (INR n + 1) * factor.
Proof. exact (@stretch_shape). Qed.
Print Assumptions C77_shape.
Theorem C77_refuses :
  forall (t : timedim) (r : Z) (sr : samplerate) (width W H : nat) (rows : list (list R))
    (factor : R),
  In r standard_rates ->
  t_freq t = (10 ^ 12 / r)%Z ->
  t_dur t = t_freq t ->
  samples_in (t_freq t) (sr_dur sr) = Z.of_nat W ->
  samples_in (t_freq t) (sr_freq sr) = Z.of_nat H ->
  (2 <= W <= width)%nat ->
  (1 <= H)%nat ->
  (0 < sr_dur sr)%Z ->
  rows <> [] ->
  (factor = 0 ->
   time_stretch2 DIdent (DTime t) factor (Some sr) width rows = Raise ZeroDivisionError) /\
  (- INR width <= factor < 0 ->
   time_stretch2 DIdent (DTime t) factor (Some sr) width rows = Raise ValueError).
Proof. exact (@stretch_refuses). Qed.
Print Assumptions C77_refuses.
Theorem C77_refuses_example :
  time_stretch2 DIdent (DTime at_11025) (-1) (Some frames_4_2) 9 [[1; 2; 3; 4; 5; 6; 7; 8; 9]] =
  Raise ValueError /\
  time_stretch2 DIdent (DTime at_11025) 0 (Some frames_4_2) 9 [[1; 2; 3; 4; 5; 6; 7; 8; 9]] =
  Raise ZeroDivisionError.
Proof. exact (@refuses_example). Qed.
Print Assumptions C77_refuses_example.
Theorem C77_batch :
  forall (t : timedim) (r : Z) (sr : samplerate) (width W H hop : nat),
  In r standard_rates ->
  t_freq t = (10 ^ 12 / r)%Z ->
  t_dur t = t_freq t ->
  samples_in (t_freq t) (sr_dur sr) = Z.of_nat W ->
  samples_in (t_freq t) (sr_freq sr) = Z.of_nat H ->
  round_half_even (sr_freq sr) (t_freq t) = Z.of_nat hop ->
  (2 <= W <= width)%nat ->
  (1 <= H)%nat ->
  (0 < sr_dur sr)%Z ->
  forall (factor : R) (rows : list (list R)) (ds : list dim) (out : list (list R)),
  0 < factor ->
  (forall x : list R, In x rows -> length x = width) ->
  time_stretch2 DIdent (DTime t) factor (Some sr) width rows = Ok (ds, out) ->
  forall b : nat,
  (b < length rows)%nat ->
  time_stretch1 t factor (Some sr) (nth b rows []) = Ok (ds, [nth b out []]).
Proof. exact (@stretch_batch). Qed.
Print Assumptions C77_batch.
Theorem C77_vocoder :
  forall (t : timedim) (r : Z) (sr : samplerate) (width W H hop : nat),
  In r standard_rates ->
  t_freq t = (10 ^ 12 / r)%Z ->
  t_dur t = t_freq t ->
  samples_in (t_freq t) (sr_dur sr) = Z.of_nat W ->
  samples_in (t_freq t) (sr_freq sr) = Z.of_nat H ->
  round_half_even (sr_freq sr) (t_freq t) = Z.of_nat hop ->
  (2 <= W <= width)%nat ->
  (1 <= H)%nat ->
  (0 < sr_dur sr)%Z ->
  forall (factor : R) (x row : list R) (ds : list dim) (h : nat),
  0 < factor ->
  length x = width ->
  h = (W / 2)%nat ->
  time_stretch1 t factor (Some sr) x = Ok (ds, [row]) ->
  let X := frame_spectrum W H width x in
  exists (N : nat) (mags phases : nat -> nat -> R),
    (forall i : nat, (i < N)%nat <-> INR i * factor < INR ((width - W) / H + 1)) /\
    (forall i k p : nat,
     (k <= h)%nat ->
     INR p <= INR i * factor < INR p + 1 ->
     mags i k =
     (1 - (INR i * factor - INR p)) * magnitude (X p k) +
     (INR i * factor - INR p) * magnitude (X (S p) k)) /\
    (forall k : nat, (k <= h)%nat -> phases 0%nat k = angle (X 0%nat k)) /\
    (forall i k p : nat,
     (k <= h)%nat ->
     INR p <= INR i * factor < INR p + 1 ->
     (exists z : Z,
        phases (S i) k - phases i k = angle (X (S p) k) - angle (X p k) + 2 * PI * IZR z) /\
     Rabs (phases (S i) k - phases i k - INR k * (PI * INR hop / INR h)) <= PI) /\
    (forall j : nat,
     (j < length row)%nat ->
     at_ row j =
     rsum N
       (fun i : nat =>
        let s := (j - i * hop)%nat in
        if ((i * hop <=? j) && (s <? 2 * h))%nat%bool
        then
         hanning (2 * h)%nat s * / sqrt (INR (2 * h)) *
         (mags i 0%nat * cos (phases i 0%nat) +
          rsum (h - 1)
            (fun q : nat =>
             2 * mags i (S q) * cos (phases i (S q) + 2 * PI * INR (S q) * INR s / INR (2 * h))) +
          mags i h * cos (phases i h + PI * INR s))
        else 0)).
Proof. exact (@stretch_vocoder). Qed.
Print Assumptions C77_vocoder.
Theorem C77_angle :
  forall c : cplx,
  magnitude c * cos (angle c) = fst c /\
  magnitude c * sin (angle c) = snd c /\ - PI < angle c <= PI /\ angle (0, 0) = 0.
Proof. exact (@angle_spec). Qed.
Print Assumptions C77_angle.
Theorem C77_factor_one :
  forall (t : timedim) (r : Z) (sr : samplerate) (width W H hop : nat),
  In r standard_rates ->
  t_freq t = (10 ^ 12 / r)%Z ->
  t_dur t = t_freq t ->
  samples_in (t_freq t) (sr_dur sr) = Z.of_nat W ->
  samples_in (t_freq t) (sr_freq sr) = Z.of_nat H ->
  round_half_even (sr_freq sr) (t_freq t) = Z.of_nat hop ->
  (2 <= W <= width)%nat ->
  (1 <= H)%nat ->
  (0 < sr_dur sr)%Z ->
  forall (h : nat) (x row : list R) (ds : list dim),
  W = (2 * h)%nat ->
  length x = width ->
  time_stretch1 t 1 (Some sr) x = Ok (ds, [row]) ->
  length row = width /\
  (forall p : nat,
   (p < width)%nat ->
   at_ row p =
   rsum ((width - W) / H + 1)
     (fun i : nat =>
      if (i * hop <=? p) && (p <? i * hop + W)
      then
       at_ x (i * H + (p - i * hop)) * (hanning W (p - i * hop)%nat * hanning W (p - i * hop)%nat)
      else 0)).
Proof. exact (@stretch_one). Qed.
Print Assumptions C77_factor_one.
Theorem C77_factor_one_gain :
  forall (t : timedim) (r : Z) (sr : samplerate) (width W H hop : nat),
  In r standard_rates ->
  t_freq t = (10 ^ 12 / r)%Z ->
  t_dur t = t_freq t ->
  samples_in (t_freq t) (sr_dur sr) = Z.of_nat W ->
  samples_in (t_freq t) (sr_freq sr) = Z.of_nat H ->
  round_half_even (sr_freq sr) (t_freq t) = Z.of_nat hop ->
  (2 <= W <= width)%nat ->
  (1 <= H)%nat ->
  (0 < sr_dur sr)%Z ->
  forall (h : nat) (x row : list R) (ds : list dim),
  W = (2 * h)%nat ->
  hop = H ->
  length x = width ->
  time_stretch1 t 1 (Some sr) x = Ok (ds, [row]) ->
  forall p : nat,
  (p < width)%nat ->
  at_ row p =
  at_ x p *
  rsum ((width - W) / H + 1)
    (fun i : nat =>
     if (i * H <=? p) && (p <? i * H + W)
     then hanning W (p - i * H)%nat * hanning W (p - i * H)%nat
     else 0).
Proof. exact (@stretch_one_gain). Qed.
Print Assumptions C77_factor_one_gain.
Theorem C77_factor_one_louder_refuted :
  forall (t : timedim) (r : Z) (sr : samplerate) (width H : nat) (x row : list R) (ds : list dim),
  In r standard_rates ->
  t_freq t = (10 ^ 12 / r)%Z ->
  t_dur t = t_freq t ->
  samples_in (t_freq t) (sr_dur sr) = Z.of_nat (4 * H) ->
  samples_in (t_freq t) (sr_freq sr) = Z.of_nat H ->
  round_half_even (sr_freq sr) (t_freq t) = Z.of_nat H ->
  (2 <= H)%nat ->
  (5 * H <= width)%nat ->
  (0 < sr_dur sr)%Z ->
  length x = width ->
  time_stretch1 t 1 (Some sr) x = Ok (ds, [row]) ->
  exists g : R, 107 / 100 < g /\ at_ row (3 * H - 1) = g * at_ x (3 * H - 1).
Proof. exact (@stretch_one_louder_refuted). Qed.
Print Assumptions C77_factor_one_louder_refuted.
Theorem C77_scales :
  forall (t : timedim) (r : Z) (sr : samplerate) (width W H hop : nat),
  In r standard_rates ->
  t_freq t = (10 ^ 12 / r)%Z ->
  t_dur t = t_freq t ->
  samples_in (t_freq t) (sr_dur sr) = Z.of_nat W ->
  samples_in (t_freq t) (sr_freq sr) = Z.of_nat H ->
  round_half_even (sr_freq sr) (t_freq t) = Z.of_nat hop ->
  (2 <= W <= width)%nat ->
  (1 <= H)%nat ->
  (0 < sr_dur sr)%Z ->
  forall (factor c : R) (rows : list (list R)) (ds : list dim) (out : list (list R)),
  0 < factor ->
  0 < c ->
  time_stretch2 DIdent (DTime t) factor (Some sr) width rows = Ok (ds, out) ->
  time_stretch2 DIdent (DTime t) factor (Some sr) width (map (map (Rmult c)) rows) =
  Ok (ds, map (map (Rmult c)) out).
Proof. exact (@stretch_homogeneous). Qed.
Print Assumptions C77_scales.
Theorem C77_silence :
  forall (t : timedim) (r : Z) (sr : samplerate) (width W H hop : nat),
  In r standard_rates ->
  t_freq t = (10 ^ 12 / r)%Z ->
  t_dur t = t_freq t ->
  samples_in (t_freq t) (sr_dur sr) = Z.of_nat W ->
  samples_in (t_freq t) (sr_freq sr) = Z.of_nat H ->
  round_half_even (sr_freq sr) (t_freq t) = Z.of_nat hop ->
  (2 <= W <= width)%nat ->
  (1 <= H)%nat ->
  (0 < sr_dur sr)%Z ->
  forall (factor : R) (rows : list (list R)) (ds : list dim) (out : list (list R)) (row : list R),
  0 < factor ->
  (forall x : list R, In x rows -> x = repeat 0 width) ->
  time_stretch2 DIdent (DTime t) factor (Some sr) width rows = Ok (ds, out) ->
  In row out -> row = repeat 0 (to_int (INR width / factor)).
Proof. exact (@stretch_silence). Qed.
Print Assumptions C77_silence.
Theorem C77_first_sample_refuted :
  forall (t : timedim) (r : Z) (sr : samplerate) (width W H hop : nat),
  In r standard_rates ->
  t_freq t = (10 ^ 12 / r)%Z ->
  t_dur t = t_freq t ->
  samples_in (t_freq t) (sr_dur sr) = Z.of_nat W ->
  samples_in (t_freq t) (sr_freq sr) = Z.of_nat H ->
  round_half_even (sr_freq sr) (t_freq t) = Z.of_nat hop ->
  (2 <= W <= width)%nat ->
  (1 <= H)%nat ->
  (0 < sr_dur sr)%Z ->
  forall (factor : R) (rows : list (list R)) (ds : list dim) (out : list (list R)) (row : list R),
  0 < factor ->
  (1 <= hop)%nat ->
  (2 <= W)%nat ->
  time_stretch2 DIdent (DTime t) factor (Some sr) width rows = Ok (ds, out) ->
  In row out -> at_ row 0 = 0.
Proof. exact (@stretch_first_zero_refuted). Qed.
Print Assumptions C77_first_sample_refuted.
Theorem C77_default_frames :
  forall (t : timedim) (factor : R) (width : nat) (rows : list (list R)) (x : list R),
  time_stretch2 DIdent (DTime t) factor None width rows =
  time_stretch2 DIdent (DTime t) factor (Some stretch_frames) width rows /\
  time_stretch1 t factor None x = time_stretch1 t factor (Some stretch_frames) x.
Proof. exact (@default_frames). Qed.
Print Assumptions C77_default_frames.
Theorem C77_default_hop :
  forall r : Z,
  In r standard_rates ->
  r <> 48000%Z ->
  r <> 96000%Z ->
  let f := (10 ^ 12 / r)%Z in
  exists H : Z,
    (0 < H)%Z /\
    samples_in f (sr_freq stretch_frames) = H /\
    round_half_even (sr_freq stretch_frames) f = H /\
    samples_in f (sr_dur stretch_frames) = (4 * H)%Z.
Proof. exact (@default_hop). Qed.
Print Assumptions C77_default_hop.
Theorem C77_default_hop_48000_refuted :
  forall (t : timedim) (x row : list R) (ds : list dim),
  t_freq t = (10 ^ 12 / 48000)%Z ->
  t_dur t = t_freq t ->
  (2230 <= length x)%nat ->
  time_stretch1 t 1 None x = Ok (ds, [row]) ->
  forall p : nat,
  (p < length x)%nat ->
  at_ row p =
  rsum ((length x - 2230) / 558 + 1)
    (fun i : nat =>
     if (i * 557 <=? p) && (p <? i * 557 + 2230)
     then at_ x (p + i) * (hanning 2230%nat (p - i * 557)%nat * hanning 2230%nat (p - i * 557)%nat)
     else 0).
Proof. exact (@default_hop_48000_refuted). Qed.
Print Assumptions C77_default_hop_48000_refuted.
Theorem C77_pitch_length :
  forall (t : timedim) (r : Z) (sr : samplerate) (width W H hop : nat),
  In r standard_rates ->
  t_freq t = (10 ^ 12 / r)%Z ->
  t_dur t = t_freq t ->
  samples_in (t_freq t) (sr_dur sr) = Z.of_nat W ->
  samples_in (t_freq t) (sr_freq sr) = Z.of_nat H ->
  round_half_even (sr_freq sr) (t_freq t) = Z.of_nat hop ->
  (2 <= W <= width)%nat ->
  (1 <= H)%nat ->
  (0 < sr_dur sr)%Z ->
  forall (s : R) (x : list R),
  length x = width ->
  1 <= 1024 * pitch_factor s ->
  exists (ds : list dim) (row : list R),
    pitch_shift1 t s (Some sr) x = Ok (ds, [row]) /\
    length row =
    Nat.min width
      ((to_int (INR width / pitch_factor s) / 1024 + 1) * to_int (1024 * pitch_factor s)).
Proof. exact (@pitch_length). Qed.
Print Assumptions C77_pitch_length.
Theorem C77_pitch_whole_windows :
  forall (t : timedim) (r : Z) (sr : samplerate) (width W H hop : nat),
  In r standard_rates ->
  t_freq t = (10 ^ 12 / r)%Z ->
  t_dur t = t_freq t ->
  samples_in (t_freq t) (sr_dur sr) = Z.of_nat W ->
  samples_in (t_freq t) (sr_freq sr) = Z.of_nat H ->
  round_half_even (sr_freq sr) (t_freq t) = Z.of_nat hop ->
  (2 <= W <= width)%nat ->
  (1 <= H)%nat ->
  (0 < sr_dur sr)%Z ->
  forall (s : R) (x : list R) (m : nat),
  length x = width ->
  (0 < m)%nat ->
  1024 * pitch_factor s = INR m ->
  exists (ds : list dim) (row : list R),
    pitch_shift1 t s (Some sr) x = Ok (ds, [row]) /\ length row = width.
Proof. exact (@pitch_octaves). Qed.
Print Assumptions C77_pitch_whole_windows.
Theorem C77_pitch_zero :
  forall (t : timedim) (r : Z) (sr : samplerate) (width W H hop : nat),
  In r standard_rates ->
  t_freq t = (10 ^ 12 / r)%Z ->
  t_dur t = t_freq t ->
  samples_in (t_freq t) (sr_dur sr) = Z.of_nat W ->
  samples_in (t_freq t) (sr_freq sr) = Z.of_nat H ->
  round_half_even (sr_freq sr) (t_freq t) = Z.of_nat hop ->
  (2 <= W <= width)%nat ->
  (1 <= H)%nat ->
  (0 < sr_dur sr)%Z ->
  forall (x : list R) (ds : list dim) (row : list R),
  length x = width ->
  time_stretch1 t 1 (Some sr) x = Ok (ds, [row]) -> pitch_shift1 t 0 (Some sr) x = Ok (ds, [row]).
Proof. exact (@pitch_zero). Qed.
Print Assumptions C77_pitch_zero.
Theorem C77_pitch_batch :
  forall (t : timedim) (r : Z) (sr : samplerate) (width W H hop : nat),
  In r standard_rates ->
  t_freq t = (10 ^ 12 / r)%Z ->
  t_dur t = t_freq t ->
  samples_in (t_freq t) (sr_dur sr) = Z.of_nat W ->
  samples_in (t_freq t) (sr_freq sr) = Z.of_nat H ->
  round_half_even (sr_freq sr) (t_freq t) = Z.of_nat hop ->
  (2 <= W <= width)%nat ->
  (1 <= H)%nat ->
  (0 < sr_dur sr)%Z ->
  forall (s : R) (rows : list (list R)) (ds : list dim) (out : list (list R)),
  (forall x : list R, In x rows -> length x = width) ->
  1 <= 1024 * pitch_factor s ->
  pitch_shift2 DIdent (DTime t) s (Some sr) width rows = Ok (ds, out) ->
  length out = length rows /\
  (forall b : nat,
   (b < length rows)%nat -> pitch_shift1 t s (Some sr) (nth b rows []) = Ok (ds, [nth b out []])).
Proof. exact (@pitch_batch). Qed.
Print Assumptions C77_pitch_batch.
Theorem C77_pitch_too_high :
  forall (t : timedim) (r : Z) (sr : samplerate) (width W H hop : nat),
  In r standard_rates ->
  t_freq t = (10 ^ 12 / r)%Z ->
  t_dur t = t_freq t ->
  samples_in (t_freq t) (sr_dur sr) = Z.of_nat W ->
  samples_in (t_freq t) (sr_freq sr) = Z.of_nat H ->
  round_half_even (sr_freq sr) (t_freq t) = Z.of_nat hop ->
  (2 <= W <= width)%nat ->
  (1 <= H)%nat ->
  (0 < sr_dur sr)%Z ->
  forall (s : R) (x : list R),
  length x = width -> 1024 * pitch_factor s < 1 -> pitch_shift1 t s (Some sr) x = Raise ValueError.
Proof. exact (@pitch_too_high). Qed.
Print Assumptions C77_pitch_too_high.
Theorem C77_pitch_shortens_refuted :
  forall (t : timedim) (r : Z) (sr : samplerate) (W H hop : nat) (s : R),
  In r standard_rates ->
  t_freq t = (10 ^ 12 / r)%Z ->
  t_dur t = t_freq t ->
  samples_in (t_freq t) (sr_dur sr) = Z.of_nat W ->
  samples_in (t_freq t) (sr_freq sr) = Z.of_nat H ->
  round_half_even (sr_freq sr) (t_freq t) = Z.of_nat hop ->
  (2 <= W)%nat ->
  (1 <= H)%nat ->
  (0 < sr_dur sr)%Z ->
  1 <= 1024 * pitch_factor s ->
  (forall m : nat, 1024 * pitch_factor s <> INR m) ->
  exists n0 : nat,
    forall x : list R,
    (n0 <= length x)%nat ->
    exists (ds : list dim) (row : list R),
      pitch_shift1 t s (Some sr) x = Ok (ds, [row]) /\ (length row < length x)%nat.
Proof. exact (@pitch_shortens_refuted). Qed.
Print Assumptions C77_pitch_shortens_refuted.
Theorem C77_semitone_shortens_refuted :
  forall (t : timedim) (r : Z) (sr : samplerate) (W H hop : nat),
  In r standard_rates ->
  t_freq t = (10 ^ 12 / r)%Z ->
  t_dur t = t_freq t ->
  samples_in (t_freq t) (sr_dur sr) = Z.of_nat W ->
  samples_in (t_freq t) (sr_freq sr) = Z.of_nat H ->
  round_half_even (sr_freq sr) (t_freq t) = Z.of_nat hop ->
  (2 <= W)%nat ->
  (1 <= H)%nat ->
  (0 < sr_dur sr)%Z ->
  exists n0 : nat,
    forall x : list R,
    (n0 <= length x)%nat ->
    exists (ds : list dim) (row : list R),
      pitch_shift1 t 1 (Some sr) x = Ok (ds, [row]) /\ (length row < length x)%nat.
Proof. exact (@semitone_shortens_refuted). Qed.
Print Assumptions C77_semitone_shortens_refuted.

(** C78: [dft_coeff n m x k] is coefficient k of the unitary discrete Fourier transform of m
    numbers followed by n - m zeros, [spectrum_dim r n] the frequency dimension of the spectrum
    of n samples at r samples per second *)
Theorem C78_fft :
  forall (t : timedim) (r : Z) (x : list R),
  In r standard_rates ->
  t_freq t = (10 ^ 12 / r)%Z ->
  x <> [] ->
  exists out : list cplx,
    fft1 (DTime t) 0 x = Ok ([spectrum_dim r (length x)], out) /\
    length out = (length x / 2 + 1)%nat /\
    (forall k : nat,
     (k <= length x / 2)%nat -> nth k out (0, 0) = dft_coeff (length x) (length x) (at_ x) k).
Proof. exact (@fft1_ok). Qed.
Print Assumptions C78_fft.
Theorem C78_fft_rows :
  forall (t : timedim) (r : Z) (d0 d0' : dim) (p width : nat) (rows : list (list R)),
  In r standard_rates ->
  t_freq t = (10 ^ 12 / r)%Z ->
  (0 < width + p)%nat ->
  (forall x : list R, In x rows -> length x = width) ->
  fit_dim d0 (length rows) = Ok d0' ->
  exists out : list (list cplx),
    fft_rows d0 (DTime t) p width rows = Ok ([d0'; spectrum_dim r (width + p)], out) /\
    length out = length rows /\
    (forall i : nat,
     (i < length rows)%nat ->
     length (nth i out []) = ((width + p) / 2 + 1)%nat /\
     (forall k : nat,
      (k <= (width + p) / 2)%nat ->
      nth k (nth i out []) (0, 0) = dft_coeff (width + p) width (at_ (nth i rows [])) k)).
Proof. exact (@fft_rows_ok). Qed.
Print Assumptions C78_fft_rows.
Theorem C78_other_rate :
  forall (t : timedim) (p width : nat) (rows : list (list R)) (d0 : dim) (x : list R),
  (forall r : Z, In r standard_rates -> trunc_div (10 ^ 12) (t_freq t) <> r) ->
  fft1 (DTime t) p x = Raise ValueError /\ fft_rows d0 (DTime t) p width rows = Raise ValueError.
Proof. exact (@fft_other_rate). Qed.
Print Assumptions C78_other_rate.
Theorem C78_padding_refuted :
  forall (d d0 d1 d2 : dim) (p n w : nat) (x : list R) (batch : list (list (list R))),
  (0 < p)%nat -> fft1 d p x = Raise ValueError /\ fft_batch d0 d1 d2 p n w batch = Raise ValueError.
Proof. exact (@fft_padding_refuted). Qed.
Print Assumptions C78_padding_refuted.
Theorem C78_bin_in_band :
  forall (r : Z) (n k : nat),
  In r standard_rates ->
  Z.even r = true ->
  (2 <= n)%nat ->
  (k <= n / 2)%nat ->
  exists (bs : list band) (b : band),
    scale_bands (Linear {| bstart := 0; bstop := IZR (r / 2) |} (n / 2 + 1) false) = Ok bs /\
    nth_error bs k = Some b /\ bstart b <= bin_hz r n k <= bstop b.
Proof. exact (@bin_in_band). Qed.
Print Assumptions C78_bin_in_band.
Theorem C78_bin_in_band_refuted :
  exists (n k : nat) (bs : list band) (b : band),
    (2 <= n)%nat /\
    (k <= n / 2)%nat /\
    scale_bands (Linear {| bstart := 0; bstop := IZR (11025 / 2) |} (n / 2 + 1) false) = Ok bs /\
    nth_error bs k = Some b /\ bstop b < bin_hz 11025 n k.
Proof. exact (@bin_in_band_refuted). Qed.
Print Assumptions C78_bin_in_band_refuted.
Theorem C78_pure_tone :
  forall (t : timedim) (r : Z) (n k : nat) (A phi : R),
  In r standard_rates ->
  Z.even r = true ->
  t_freq t = (10 ^ 12 / r)%Z ->
  (0 < k)%nat ->
  (2 * k < n)%nat ->
  exists (s : scale) (out : list cplx),
    fft1 (DTime t) 0 (map (tone n k A phi) (seq 0 n)) = Ok ([DFreq s], out) /\
    scale_len s = length out /\
    (forall j : nat, j <> k -> nth j out (0, 0) = (0, 0)) /\
    nth k out (0, 0) = (A * sqrt (INR n) / 2 * cos phi, A * sqrt (INR n) / 2 * sin phi) /\
    (forall q : band,
     bstart q < bin_hz r n k < bstop q ->
     exists i j : nat, get_slice_band s q = Ok (i, j) /\ (i <= k < j)%nat).
Proof. exact (@pure_tone). Qed.
Print Assumptions C78_pure_tone.
Theorem C78_first_axis :
  forall (t : timedim) (r : Z) (d1 d1' : dim) (width : nat) (rows : list (list R)),
  In r standard_rates ->
  t_freq t = (10 ^ 12 / r)%Z ->
  rows <> [] ->
  width = (length rows / 2 + 1)%nat ->
  fit_dim d1 width = Ok d1' ->
  exists out : list (list cplx),
    fft_axis0 (DTime t) d1 0 width rows = Ok ([spectrum_dim r (length rows); d1'], out) /\
    length out = width /\
    (forall k j : nat,
     (k < width)%nat ->
     (j < width)%nat ->
     nth j (nth k out []) (0, 0) =
     dft_coeff (length rows) (length rows) (fun i : nat => at_ (nth i rows []) j) k).
Proof. exact (@axis0_ok). Qed.
Print Assumptions C78_first_axis.
Theorem C78_first_axis_refuted :
  forall (d0 d1 : dim) (width : nat) (rows : list (list R)),
  width <> (length rows / 2 + 1)%nat ->
  fft_axis0 d0 d1 0 width rows = Raise ValueError \/
  fft_axis0 d0 d1 0 width rows = Raise AttributeError.
Proof. exact (@axis0_refuted). Qed.
Print Assumptions C78_first_axis_refuted.
Theorem C78_first_axis_padding :
  forall (d0 d1 : dim) (p width : nat) (rows : list (list R)) (ds : list dim)
    (out : list (list cplx)),
  (0 < p)%nat ->
  fft_axis0 d0 d1 p width rows = Ok (ds, out) -> p = width /\ length out = (length rows + 1)%nat.
Proof. exact (@axis0_padding). Qed.
Print Assumptions C78_first_axis_padding.
Theorem C78_stft :
  forall (t : timedim) (r : Z) (wsr : samplerate) (wd : wfunction) (x : list R) (W H : nat),
  In r standard_rates ->
  t_freq t = (10 ^ 12 / r)%Z ->
  t_dur t = t_freq t ->
  samples_in (t_freq t) (sr_dur wsr) = Z.of_nat W ->
  samples_in (t_freq t) (sr_freq wsr) = Z.of_nat H ->
  (2 <= W)%nat ->
  (1 <= H <= W)%nat ->
  let n := n_frames (length x) W H in
  exists out : list (list cplx),
    stft1 t wsr (Some wd) x =
    Ok
      ([DTime
          (mk_timedim (t_freq t * Z.of_nat H) (Some (t_freq t * Z.of_nat W)%Z) (Some (Z.of_nat n)));
        spectrum_dim r W], out) /\
    length out = n /\
    (forall i : nat,
     (i < n)%nat ->
     length (nth i out []) = (W / 2 + 1)%nat /\
     (forall k : nat,
      (k <= W / 2)%nat ->
      nth k (nth i out []) (0, 0) = dft_coeff W W (fun j : nat => at_ x (i * H + j) * wd W j) k)).
Proof. exact (@stft1_ok). Qed.
Print Assumptions C78_stft.
Theorem C78_stft_batch :
  forall (t : timedim) (r : Z) (wsr : samplerate) (wd : wfunction) (width : nat)
    (rows : list (list R)) (W H : nat),
  In r standard_rates ->
  t_freq t = (10 ^ 12 / r)%Z ->
  t_dur t = t_freq t ->
  samples_in (t_freq t) (sr_dur wsr) = Z.of_nat W ->
  samples_in (t_freq t) (sr_freq wsr) = Z.of_nat H ->
  (1 <= W <= width)%nat ->
  (1 <= H)%nat ->
  (0 < sr_dur wsr)%Z ->
  rows <> [] ->
  (forall x : list R, In x rows -> length x = width) ->
  let n := ((width - W) / H + 1)%nat in
  exists out : list (list (list cplx)),
    stft2 DIdent (DTime t) wsr (Some wd) width rows =
    Ok
      ([DIdent; DTime (mk_timedim (sr_freq wsr) (Some (sr_dur wsr)) (Some (Z.of_nat n)));
        spectrum_dim r W], out) /\
    length out = length rows /\
    (forall b : nat,
     (b < length rows)%nat ->
     length (nth b out []) = n /\
     (forall i : nat,
      (i < n)%nat ->
      length (nth i (nth b out []) []) = (W / 2 + 1)%nat /\
      (forall k : nat,
       (k <= W / 2)%nat ->
       nth k (nth i (nth b out []) []) (0, 0) =
       dft_coeff W W (fun j : nat => at_ (nth b rows []) (i * H + j) * wd W j) k))).
Proof. exact (@stft2_ok). Qed.
Print Assumptions C78_stft_batch.
Theorem C78_batch_prefix :
  forall (t : timedim) (r : Z) (wsr : samplerate) (wd : wfunction) (width : nat)
    (rows : list (list R)) (W H : nat) (ds : list dim) (out : list (list (list cplx))),
  In r standard_rates ->
  t_freq t = (10 ^ 12 / r)%Z ->
  t_dur t = t_freq t ->
  samples_in (t_freq t) (sr_dur wsr) = Z.of_nat W ->
  samples_in (t_freq t) (sr_freq wsr) = Z.of_nat H ->
  (2 <= W <= width)%nat ->
  (1 <= H <= W)%nat ->
  (0 < sr_dur wsr)%Z ->
  (forall x : list R, In x rows -> length x = width) ->
  stft2 DIdent (DTime t) wsr (Some wd) width rows = Ok (ds, out) ->
  forall b : nat,
  (b < length rows)%nat ->
  exists (ds1 : list dim) (out1 : list (list cplx)),
    stft1 t wsr (Some wd) (nth b rows []) = Ok (ds1, out1) /\
    nth b out [] = firstn ((width - W) / H + 1) out1 /\
    length (nth b out []) = ((width - W) / H + 1)%nat /\ length out1 = n_frames width W H.
Proof. exact (@batch_is_prefix). Qed.
Print Assumptions C78_batch_prefix.
Theorem C78_batch_shorter_refuted :
  forall W H width : nat,
  (1 <= H)%nat ->
  W = (2 * H)%nat -> (W < width)%nat -> ((width - W) / H + 1 + 1)%nat = n_frames width W H.
Proof. exact (@batch_differs_refuted). Qed.
Print Assumptions C78_batch_shorter_refuted.
Theorem C78_batch_covers :
  forall W H width : nat,
  (1 <= W <= width)%nat ->
  (1 <= H <= W)%nat ->
  (forall p : nat,
   (p < width)%nat -> exists i : nat, (i < (width - W) / H + 1)%nat /\ (i * H <= p < i * H + W)%nat) <->
  (width - W) mod H = 0%nat.
Proof. exact (@batch_drops_refuted). Qed.
Print Assumptions C78_batch_covers.
Theorem C78_no_window_refuted :
  forall (t : timedim) (wsr : samplerate) (x : list R) (d0 d1 : dim) (width : nat)
    (rows : list (list R)),
  is_ok (stft1 t wsr None x) = false /\ is_ok (stft2 d0 d1 wsr None width rows) = false.
Proof. exact (@stft_no_window_refuted). Qed.
Print Assumptions C78_no_window_refuted.
Theorem C78_stft_refuses :
  forall (t : timedim) (wsr : samplerate) (wd : wfunction) (d0 : dim) (width : nat)
    (rows : list (list R)) (W : nat),
  t_dur t = t_freq t ->
  (0 < t_freq t)%Z ->
  samples_in (t_freq t) (sr_dur wsr) = Z.of_nat W ->
  d0 <> DIdent \/ (width < W)%nat \/ rows = [] ->
  stft2 d0 (DTime t) wsr (Some wd) width rows = Raise ValueError.
Proof. exact (@stft2_refuses). Qed.
Print Assumptions C78_stft_refuses.
Theorem C77_tone_frames :
  forall (t : timedim) (r : Z) (sr : samplerate) (width W H hop : nat),
  In r standard_rates ->
  t_freq t = (10 ^ 12 / r)%Z ->
  t_dur t = t_freq t ->
  samples_in (t_freq t) (sr_dur sr) = Z.of_nat W ->
  samples_in (t_freq t) (sr_freq sr) = Z.of_nat H ->
  round_half_even (sr_freq sr) (t_freq t) = Z.of_nat hop ->
  (2 <= W <= width)%nat ->
  (1 <= H)%nat ->
  (0 < sr_dur sr)%Z ->
  forall (factor : R) (x row : list R) (ds : list dim) (h : nat),
  0 < factor ->
  W = (2 * h)%nat ->
  (1 <= hop)%nat ->
  length x = width ->
  repeats H x ->
  time_stretch1 t factor (Some sr) x = Ok (ds, [row]) ->
  forall p : nat,
  (p < length row)%nat ->
  INR (p / hop) * factor <= INR ((width - W) / H) ->
  at_ row p =
  rsum (p / hop + 1)
    (fun i : nat =>
     if p - i * hop <? W
     then at_ x (p - i * hop) * (hanning W (p - i * hop)%nat * hanning W (p - i * hop)%nat)
     else 0).
Proof. exact (@stretch_repeats). Qed.
Print Assumptions C77_tone_frames.
Theorem C77_tone :
  forall (t : timedim) (r : Z) (sr : samplerate) (width W H hop : nat),
  In r standard_rates ->
  t_freq t = (10 ^ 12 / r)%Z ->
  t_dur t = t_freq t ->
  samples_in (t_freq t) (sr_dur sr) = Z.of_nat W ->
  samples_in (t_freq t) (sr_freq sr) = Z.of_nat H ->
  round_half_even (sr_freq sr) (t_freq t) = Z.of_nat hop ->
  (2 <= W <= width)%nat ->
  (1 <= H)%nat ->
  (0 < sr_dur sr)%Z ->
  forall (factor : R) (x row : list R) (ds : list dim) (h : nat),
  0 < factor ->
  W = (2 * h)%nat ->
  hop = H ->
  length x = width ->
  repeats H x ->
  time_stretch1 t factor (Some sr) x = Ok (ds, [row]) ->
  forall p : nat,
  (p < length row)%nat ->
  INR (p / H) * factor <= INR ((width - W) / H) -> at_ row p = at_ x (p mod H) * steady_gain W H p.
Proof. exact (@stretch_tone). Qed.
Print Assumptions C77_tone.
Theorem C77_tone_repeats :
  forall (t : timedim) (r : Z) (sr : samplerate) (width W H hop : nat),
  In r standard_rates ->
  t_freq t = (10 ^ 12 / r)%Z ->
  t_dur t = t_freq t ->
  samples_in (t_freq t) (sr_dur sr) = Z.of_nat W ->
  samples_in (t_freq t) (sr_freq sr) = Z.of_nat H ->
  round_half_even (sr_freq sr) (t_freq t) = Z.of_nat hop ->
  (2 <= W <= width)%nat ->
  (1 <= H)%nat ->
  (0 < sr_dur sr)%Z ->
  forall (factor : R) (x row : list R) (ds : list dim) (h : nat),
  0 < factor ->
  W = (2 * h)%nat ->
  hop = H ->
  length x = width ->
  repeats H x ->
  time_stretch1 t factor (Some sr) x = Ok (ds, [row]) ->
  forall p : nat,
  (W <= p + H)%nat ->
  (p + H < length row)%nat ->
  INR ((p + H) / H) * factor <= INR ((width - W) / H) -> at_ row (p + H) = at_ row p.
Proof. exact (@stretch_tone_repeats). Qed.
Print Assumptions C77_tone_repeats.
Theorem C77_sinusoid :
  forall (t : timedim) (r : Z) (sr : samplerate) (width W H hop : nat),
  In r standard_rates ->
  t_freq t = (10 ^ 12 / r)%Z ->
  t_dur t = t_freq t ->
  samples_in (t_freq t) (sr_dur sr) = Z.of_nat W ->
  samples_in (t_freq t) (sr_freq sr) = Z.of_nat H ->
  round_half_even (sr_freq sr) (t_freq t) = Z.of_nat hop ->
  (2 <= W <= width)%nat ->
  (1 <= H)%nat ->
  (0 < sr_dur sr)%Z ->
  forall (factor a phi : R) (cycles : nat) (row : list R) (ds : list dim) (h : nat),
  0 < factor ->
  W = (2 * h)%nat ->
  hop = H ->
  (H <= W)%nat ->
  let tone := fun j : nat => a * cos (2 * PI * INR cycles * INR j / INR H + phi) in
  time_stretch1 t factor (Some sr) (map tone (seq 0 width)) = Ok (ds, [row]) ->
  forall p : nat,
  (p < length row)%nat ->
  INR (p / H) * factor <= INR ((width - W) / H) -> at_ row p = tone p * steady_gain W H p.
Proof. exact (@stretch_sinusoid). Qed.
Print Assumptions C77_sinusoid.
Theorem C77_tone_example :
  exists (ds : list dim) (row : list R),
    time_stretch1 at_11025 (/ 2) (Some frames_4_2) [1; 0; 1; 0; 1; 0; 1; 0; 1] = Ok (ds, [row]) /\
    length row = 18%nat /\
    (forall p : nat, (p < 8)%nat -> at_ row p = (if Nat.even p then 1 else 0) * steady_gain 4 2 p) /\
    steady_gain 4 2 2 = 9 / 16.
Proof. exact (@tone_example). Qed.
Print Assumptions C77_tone_example.

