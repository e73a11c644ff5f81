(** Property theorems: the frequency-adaptive transform and its synthesizers (C79). *)
From Verif Require Import PyBase PyFacts PyMore Time Freq FreqProofs FreqScaleProofs FreqDim FreqDimProofs PhaseShift Spectral Stft StftProofs FreqAdapt FreqAdaptProofs FreqAdaptProofs2 FreqAdaptProofs3.
From Coq Require Import Reals.
Local Open Scope R_scope.

(** C79: [spectrum_bins sr N] are N equal bands up to the Nyquist frequency, [band_bins] the
    range of bins a band takes, [gain] the sum of the windows of the bands that take a bin *)
Theorem C79_dct_inverse :
  forall (self : scale) (qs : list band) (sr : samplerate) (td : timedim) 
    (w : option bwindow) (data : arr2 R) (N : nat),
  scale_bands self = Ok qs ->
  Forall proper qs ->
  qs <> [] ->
  NoDup qs ->
  (0 < nyquist sr)%Z ->
  raw_samples sr (t_dur td) = N ->
  (2 <= N)%nat ->
  cols data = N ->
  shaped data ->
  (forall q : band, In q qs -> exists b : band, In b (spectrum_bins sr N) /\ touched q b = true) ->
  exists fa : arr2 R * efd,
    adaptive_transform 0 Rmult along_idct w
      (Linear {| bstart := 0; bstop := IZR (nyquist sr) |} N true) data self = 
    Ok fa /\
    adaptive_dct_synthesize self sr td fa =
    dct_synthesize (fun _ : nat => None) td
      (map
         (fun row : list R =>
          map
            (fun k : nat =>
             gain (the_window w) N (map (band_bins true (spectrum_bins sr N)) qs) k * at_ row k)
            (seq 0 N)) (rows data)).
Proof. exact (@adaptive_dct_roundtrip). Qed.
Print Assumptions C79_dct_inverse.
Theorem C79_dct_exact :
  forall (self : scale) (qs : list band) (sr : samplerate) (td : timedim) 
    (w : option bwindow) (data : arr2 R) (N : nat),
  scale_bands self = Ok qs ->
  Forall proper qs ->
  qs <> [] ->
  NoDup qs ->
  (0 < nyquist sr)%Z ->
  raw_samples sr (t_dur td) = N ->
  (2 <= N)%nat ->
  cols data = N ->
  shaped data ->
  (forall q : band, In q qs -> exists b : band, In b (spectrum_bins sr N) /\ touched q b = true) ->
  (forall k : nat,
   (k < N)%nat -> gain (the_window w) N (map (band_bins true (spectrum_bins sr N)) qs) k = 1) ->
  exists fa : arr2 R * efd,
    adaptive_transform 0 Rmult along_idct w
      (Linear {| bstart := 0; bstop := IZR (nyquist sr) |} N true) data self = 
    Ok fa /\
    adaptive_dct_synthesize self sr td fa = dct_synthesize (fun _ : nat => None) td (rows data).
Proof. exact (@adaptive_dct_exact). Qed.
Print Assumptions C79_dct_exact.
Theorem C79_fft_inverse :
  forall (self : scale) (qs : list band) (sr : samplerate) (td : timedim) 
    (w : option bwindow) (data : arr2 cplx) (N : nat),
  scale_bands self = Ok qs ->
  Forall proper qs ->
  qs <> [] ->
  NoDup qs ->
  (0 < nyquist sr)%Z ->
  (raw_samples sr (t_dur td) / 2 + 1)%nat = N ->
  (2 <= N)%nat ->
  cols data = N ->
  shaped data ->
  (forall q : band, In q qs -> (2 <= how_many q (spectrum_bins sr N))%nat) ->
  exists fa : arr2 R * efd,
    adaptive_transform (0, 0) cscale along_irfft w
      (Linear {| bstart := 0; bstop := IZR (nyquist sr) |} N false) data self = 
    Ok fa /\
    adaptive_fft_synthesize self sr td fa =
    fft_synthesize td
      (map
         (fun row : list cplx =>
          map
            (fun k : nat =>
             (gain (the_window w) N (map (band_bins false (spectrum_bins sr N)) qs) k *
              fst (nth k row (0, 0)),
              inner_gain (the_window w) N (map (band_bins false (spectrum_bins sr N)) qs) k *
              snd (nth k row (0, 0)))) (seq 0 N)) (rows data)).
Proof. exact (@adaptive_fft_roundtrip). Qed.
Print Assumptions C79_fft_inverse.
Theorem C79_fft_exact :
  forall (self : scale) (qs : list band) (sr : samplerate) (td : timedim) 
    (w : option bwindow) (data : arr2 cplx) (N : nat),
  scale_bands self = Ok qs ->
  Forall proper qs ->
  qs <> [] ->
  NoDup qs ->
  (0 < nyquist sr)%Z ->
  (raw_samples sr (t_dur td) / 2 + 1)%nat = N ->
  (2 <= N)%nat ->
  cols data = N ->
  shaped data ->
  (forall q : band, In q qs -> (2 <= how_many q (spectrum_bins sr N))%nat) ->
  (forall k : nat,
   (k < N)%nat -> gain (the_window w) N (map (band_bins false (spectrum_bins sr N)) qs) k = 1) ->
  (forall (k : nat) (row : list cplx),
   (k < N)%nat ->
   In row (rows data) ->
   inner_gain (the_window w) N (map (band_bins false (spectrum_bins sr N)) qs) k = 1 \/
   snd (nth k row (0, 0)) = 0) ->
  exists fa : arr2 R * efd,
    adaptive_transform (0, 0) cscale along_irfft w
      (Linear {| bstart := 0; bstop := IZR (nyquist sr) |} N false) data self = 
    Ok fa /\ adaptive_fft_synthesize self sr td fa = fft_synthesize td (rows data).
Proof. exact (@adaptive_fft_exact). Qed.
Print Assumptions C79_fft_exact.
Theorem C79_fft_closed_window :
  forall (self : scale) (qs : list band) (sr : samplerate) (td : timedim) 
    (w : nat -> nat -> R) (data : arr2 cplx) (N : nat),
  scale_bands self = Ok qs ->
  Forall proper qs ->
  qs <> [] ->
  NoDup qs ->
  (0 < nyquist sr)%Z ->
  (raw_samples sr (t_dur td) / 2 + 1)%nat = N ->
  (2 <= N)%nat ->
  cols data = N ->
  shaped data ->
  (forall q : band, In q qs -> (2 <= how_many q (spectrum_bins sr N))%nat) ->
  (forall n : nat, (2 <= n)%nat -> w n 0%nat = 0 /\ w n (n - 1)%nat = 0) ->
  exists fa : arr2 R * efd,
    adaptive_transform (0, 0) cscale along_irfft (Some w)
      (Linear {| bstart := 0; bstop := IZR (nyquist sr) |} N false) data self = 
    Ok fa /\
    adaptive_fft_synthesize self sr td fa =
    fft_synthesize td
      (map
         (fun row : list cplx =>
          map
            (fun k : nat =>
             cscale (gain w N (map (band_bins false (spectrum_bins sr N)) qs) k) (nth k row (0, 0)))
            (seq 0 N)) (rows data)).
Proof. exact (@adaptive_fft_closed). Qed.
Print Assumptions C79_fft_closed_window.
Theorem C79_uncovered :
  forall (w : bwindow) (N : nat) (ps : list (nat * nat)) (k : nat),
  (forall p : nat * nat, In p ps -> PhaseShiftProofs.inside p k = false) ->
  gain w N ps k = 0 /\ inner_gain w N ps k = 0.
Proof. exact (@gain_uncovered). Qed.
Print Assumptions C79_uncovered.
Theorem C79_default_window :
  forall (N : nat) (ps : list (nat * nat)) (k : nat),
  gain (the_window None) N ps k =
  INR (length (filter (fun p : nat * nat => PhaseShiftProofs.inside p k) ps)).
Proof. exact (@gain_ones). Qed.
Print Assumptions C79_default_window.
Theorem C79_band_of_nothing :
  forall (self : scale) (qs : list band) (fb : band) (N : nat) (ae : bool) 
    (w : option bwindow) (data : arr2 R),
  scale_bands self = Ok qs ->
  Forall proper qs ->
  proper fb ->
  (2 <= N)%nat ->
  cols data = N ->
  shaped data ->
  (exists q : band,
     In q qs /\ (forall b : band, In b (map (lin_band fb N) (seq 0 N)) -> touched q b = false)) ->
  adaptive_transform 0 Rmult along_idct w (Linear fb N ae) data self = Raise ValueError.
Proof. exact (@adaptive_dct_needs_one). Qed.
Print Assumptions C79_band_of_nothing.
Theorem C79_fft_needs_two_bins :
  forall (self : scale) (qs : list band) (fb : band) (N : nat) (w : option bwindow)
    (data : arr2 cplx),
  scale_bands self = Ok qs ->
  Forall proper qs ->
  proper fb ->
  (2 <= N)%nat ->
  cols data = N ->
  shaped data ->
  (exists q : band, In q qs /\ (how_many q (map (lin_band fb N) (seq 0 N)) < 2)%nat) ->
  adaptive_transform (0, 0) cscale along_irfft w (Linear fb N false) data self = Raise ValueError.
Proof. exact (@adaptive_fft_needs_two). Qed.
Print Assumptions C79_fft_needs_two_bins.
Theorem C79_size :
  forall (sr : samplerate) (W : nat),
  (0 < sr_freq sr)%Z -> raw_samples sr (Z.of_nat W * sr_freq sr) = W.
Proof. exact (@raw_samples_exact). Qed.
Print Assumptions C79_size.
Theorem C79_size_one_second :
  forall r : Z,
  In r standard_rates ->
  raw_samples {| sr_freq := 10 ^ 12 / r; sr_dur := 10 ^ 12 / r |} (10 ^ 12) = Z.to_nat r.
Proof. exact (@raw_samples_second). Qed.
Print Assumptions C79_size_one_second.
Theorem C79_size_refuted :
  samples_in (10 ^ 12 / 44100) (23 * 10 ^ 9) = 1015%Z /\
  Z.of_nat (raw_samples {| sr_freq := 10 ^ 12 / 44100; sr_dur := 10 ^ 12 / 44100 |} (23 * 10 ^ 9)) =
  1014%Z.
Proof. exact (@raw_samples_short). Qed.
Print Assumptions C79_size_refuted.
Theorem C79_tiling_refuted :
  forall (hop : Z) (x0 x1 x2 x3 : R),
  exists fa : arr2 R * efd,
    adaptive_transform 0 Rmult along_idct None (Linear {| bstart := 0; bstop := 4 |} 4 true)
      {| cols := 4; rows := [[x0; x1; x2; x3]] |} (Linear {| bstart := 0; bstop := 4 |} 2 false) =
    Ok fa /\
    adaptive_dct_synthesize (Linear {| bstart := 0; bstop := 4 |} 2 false) demo_rate
      (demo_td hop 4) fa =
    dct_synthesize (fun _ : nat => None) (demo_td hop 4) [[x0; 2 * x1; x2; x3]].
Proof. exact (@tiling_doubles). Qed.
Print Assumptions C79_tiling_refuted.
Theorem C79_fft_phase_refuted :
  forall (hop : Z) (row : list cplx),
  length row = 4%nat ->
  exists fa : arr2 R * efd,
    adaptive_transform (0, 0) cscale along_irfft None
      (Linear {| bstart := 0; bstop := 4 |} 4 false) {| cols := 4; rows := [row] |}
      (Explicit [{| bstart := 0; bstop := 3 / 2 |}; {| bstart := 5 / 2; bstop := 4 |}]) = 
    Ok fa /\
    adaptive_fft_synthesize
      (Explicit [{| bstart := 0; bstop := 3 / 2 |}; {| bstart := 5 / 2; bstop := 4 |}]) demo_rate
      (demo_td hop 6) fa = fft_synthesize (demo_td hop 6) [map (fun c : R * R => (fst c, 0)) row].
Proof. exact (@fft_phase_lost). Qed.
Print Assumptions C79_fft_phase_refuted.
Theorem C79_hanning_ends_refuted :
  forall (self : scale) (qs : list band) (sr : samplerate) (td : timedim) (data : arr2 R) (N : nat),
  scale_bands self = Ok qs ->
  Forall proper qs ->
  qs <> [] ->
  NoDup qs ->
  (0 < nyquist sr)%Z ->
  raw_samples sr (t_dur td) = N ->
  (2 <= N)%nat ->
  cols data = N ->
  shaped data ->
  (forall q : band, In q qs -> (2 <= how_many q (spectrum_bins sr N))%nat) ->
  exists (fa : arr2 R * efd) (coeffs : list (list R)),
    adaptive_transform 0 Rmult along_idct (Some np_hanning)
      (Linear {| bstart := 0; bstop := IZR (nyquist sr) |} N true) data self = 
    Ok fa /\
    adaptive_dct_synthesize self sr td fa = dct_synthesize (fun _ : nat => None) td coeffs /\
    length coeffs = length (rows data) /\
    Forall (fun r : list R => length r = N /\ at_ r 0 = 0 /\ at_ r (N - 1) = 0) coeffs.
Proof. exact (@hanning_loses_ends). Qed.
Print Assumptions C79_hanning_ends_refuted.
Theorem C79_example :
  forall (rows : list (list R)) (hop : Z),
  Forall (fun r : list R => length r = 4%nat) rows ->
  exists fa : arr2 R * efd,
    adaptive_transform 0 Rmult along_idct None (Linear {| bstart := 0; bstop := 4 |} 4 true)
      {| cols := 4; rows := rows |}
      (Explicit [{| bstart := 0; bstop := 3 / 2 |}; {| bstart := 5 / 2; bstop := 4 |}]) = 
    Ok fa /\
    adaptive_dct_synthesize
      (Explicit [{| bstart := 0; bstop := 3 / 2 |}; {| bstart := 5 / 2; bstop := 4 |}]) demo_rate
      (demo_td hop 4) fa = dct_synthesize (fun _ : nat => None) (demo_td hop 4) rows.
Proof. exact (@adaptive_dct_example). Qed.
Print Assumptions C79_example.
Theorem C79_overlap_check :
  forall s : scale,
  well_formed s ->
  exists bs : list band,
    scale_bands s = Ok bs /\
    adaptive_init false s = Ok tt /\
    ((forall (k : nat) (a b : band),
      nth_error bs k = Some a ->
      nth_error bs (S k) = Some b -> 1 / 2 <= common_width a b / bandwidth a) ->
     adaptive_init true s = Ok tt) /\
    ((exists (k : nat) (a b : band),
        nth_error bs k = Some a /\
        nth_error bs (S k) = Some b /\ common_width a b / bandwidth a < 1 / 2) ->
     adaptive_init true s = Raise ValueError).
Proof. exact (@adaptive_init_spec). Qed.
Print Assumptions C79_overlap_check.

