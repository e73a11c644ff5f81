(** Property theorems: resampling, frequency decomposition and its inverse (C74), the square form of a
    FrequencyAdaptive (C75), phase shifts (C76). *)
From Verif Require Import PyBase PyFacts PyMore Time Freq FreqProofs FreqScaleProofs FreqDim FreqDimProofs Spectral Resample ResampleProofs Decompose DecomposeProofs Square SquareProofs PhaseShift PhaseShiftProofs.
From Coq Require Import Reals.
Local Open Scope R_scope.

(** C74: [resample_row m r] is scipy's resample of the samples [r] to [m] samples;
    [lsub] and [arr_op Rplus] are the elementwise difference and sum. *)
Theorem C74_bands :
  forall (tf : Z) (x : arr2 R) (sizes : list nat) (nyq : Z),
  decomposable tf x sizes nyq ->
  exists fa : arr2 R * efd,
    frequency_decomposition tf x sizes = Ok fa /\
    length (ebands (snd fa)) = length sizes /\
    (forall k m : nat,
     nth_error (isort Nat.leb sizes) k = Some m ->
     exists (q : band) (a : arr2 R) (d : efd),
       nth_error (ebands (snd fa)) k = Some q /\
       bstart q =
       match k with
       | 0%nat => 0
       | S j => IZR nyq * (INR (nth j (isort Nat.leb sizes) 0%nat) / INR (cols x))
       end /\
       bstop q = IZR nyq * (INR m / INR (cols x)) /\
       fa_get fa q = Ok (a, d) /\
       cols a = m /\
       rows a =
       map
         (fun r : list R =>
          resample_row m
            match k with
            | 0%nat => r
            | S j => lsub r (low_pass (cols x) (nth j (isort Nat.leb sizes) 0%nat) r)
            end) (rows x)).
Proof. exact (@decomposition_bands). Qed.
Print Assumptions C74_bands.
Theorem C74_bands_disjoint :
  forall (n m' m : nat) (r : list R),
  length r = n ->
  (0 < n)%nat ->
  (0 < m' < m)%nat -> resample_row m' (resample_row m (lsub r (low_pass n m' r))) = repeat 0 m'.
Proof. exact (@decomposition_disjoint). Qed.
Print Assumptions C74_bands_disjoint.
Theorem C74_synthesis :
  forall (tf : Z) (x : arr2 R) (sizes : list nat) (nyq : Z) (fa : arr2 R * efd) (out : nat),
  decomposable tf x sizes nyq ->
  frequency_decomposition tf x sizes = Ok fa ->
  (0 < out)%nat ->
  decomposition_synthesize out fa None =
  Ok
    {|
      cols := out;
      rows := map (fun r : list R => resample_row out (resample_row (largest sizes) r)) (rows x)
    |}.
Proof. exact (@synthesis_all). Qed.
Print Assumptions C74_synthesis.
Theorem C74_synthesis_exact :
  forall (tf : Z) (x : arr2 R) (sizes : list nat) (nyq : Z) (fa : arr2 R * efd),
  decomposable tf x sizes nyq ->
  frequency_decomposition tf x sizes = Ok fa ->
  (exists m : nat, In m sizes /\ (cols x <= m)%nat) ->
  decomposition_synthesize (cols x) fa None = Ok x.
Proof. exact (@synthesis_exact). Qed.
Print Assumptions C74_synthesis_exact.
Theorem C74_synthesis_lossy_refuted :
  exists (tf : Z) (x : arr2 R) (sizes : list nat) (nyq : Z) (fa : arr2 R * efd),
    decomposable tf x sizes nyq /\
    frequency_decomposition tf x sizes = Ok fa /\ decomposition_synthesize (cols x) fa None <> Ok x.
Proof. exact (@synthesis_lossy_refuted). Qed.
Print Assumptions C74_synthesis_lossy_refuted.
Theorem C74_synthesis_split :
  forall (tf : Z) (x : arr2 R) (sizes : list nat) (nyq : Z) (fa : arr2 R * efd) 
    (out : nat) (a b : list nat),
  decomposable tf x sizes nyq ->
  frequency_decomposition tf x sizes = Ok fa ->
  (0 < out)%nat ->
  a <> [] ->
  b <> [] ->
  (forall i : nat, (i < length sizes)%nat -> In i a <-> ~ In i b) ->
  exists ya yb : arr2 R,
    decomposition_synthesize out fa (Some a) = Ok ya /\
    decomposition_synthesize out fa (Some b) = Ok yb /\
    decomposition_synthesize out fa None = Ok (arr_op Rplus ya yb).
Proof. exact (@synthesis_split). Qed.
Print Assumptions C74_synthesis_split.
Theorem C74_empty_selection_refuted :
  forall (out : nat) (fa : arr2 R * efd),
  decomposition_synthesize out fa (Some []) = decomposition_synthesize out fa None.
Proof. exact (@synthesis_none_refuted). Qed.
Print Assumptions C74_empty_selection_refuted.
Theorem C74_refuses :
  forall (tf : Z) (x : arr2 R) (sizes : list nat) (nyq : Z),
  sample_rate_known tf nyq ->
  (0 < cols x)%nat ->
  ~ NoDup sizes \/ In 0%nat sizes -> frequency_decomposition tf x sizes = Raise ValueError.
Proof. exact (@decomposition_refuses). Qed.
Print Assumptions C74_refuses.
Theorem C74_no_sizes :
  forall (tf : Z) (x : arr2 R) (nyq : Z),
  sample_rate_known tf nyq -> frequency_decomposition tf x [] = Raise IndexError.
Proof. exact (@decomposition_no_sizes). Qed.
Print Assumptions C74_no_sizes.
Theorem C74_known_rates :
  forall (tf : Z) (x : arr2 R) (sizes : list nat) (fa : arr2 R * efd),
  frequency_decomposition tf x sizes = Ok fa -> exists nyq : Z, sample_rate_known tf nyq.
Proof. exact (@decomposition_rates). Qed.
Print Assumptions C74_known_rates.
Theorem C74_resample_same :
  forall x : list R, x <> [] -> resample_row (length x) x = x.
Proof. exact (@resample_same). Qed.
Print Assumptions C74_resample_same.
Theorem C74_resample_up_down :
  forall (m : nat) (x : list R),
  x <> [] -> (length x <= m)%nat -> resample_row (length x) (resample_row m x) = x.
Proof. exact (@resample_up_down). Qed.
Print Assumptions C74_resample_up_down.
Theorem C74_resample_through :
  forall (a m : nat) (x : list R),
  x <> [] ->
  (0 < a)%nat ->
  (Nat.min (length x) a < m)%nat -> resample_row a (resample_row m x) = resample_row a x.
Proof. exact (@resample_through). Qed.
Print Assumptions C74_resample_through.

(** C75: [squared_row n r] is the row [r] resampled to [n] values and multiplied by one factor;
    [band_row arrs b t] is row t of band b; [overlapped arrs h n hop j b] is the sum of the
    values of band b that fall on row j when frame t starts at row [t * hop] *)
Theorem C75_frames :
  forall (f d : Z) (arrs : list (arr2 R)) (s : scale) (bs : list band) 
    (h : nat) (fa : arr2 R * efd) (n : nat),
  squarable arrs s bs h fa ->
  (0 < n)%nat ->
  exists frames : list (list (list R)),
    square f d fa n false = Ok (Framed (round_half_even d (Z.of_nat n)) frames) /\
    length frames = h /\
    (forall t : nat,
     (t < h)%nat ->
     length (nth t frames []) = n /\
     (forall k : nat,
      (k < n)%nat ->
      length (nth k (nth t frames []) []) = length arrs /\
      (forall b : nat,
       (b < length arrs)%nat ->
       at_ (nth k (nth t frames []) []) b = at_ (squared_row n (band_row arrs b t)) k))).
Proof. exact (@square_framed). Qed.
Print Assumptions C75_frames.
Theorem C75_level :
  forall (n : nat) (r : list R),
  (0 < n)%nat ->
  r <> [] ->
  (forall v : R, In v r -> 0 <= v) ->
  rmax r - INR (length r) * / 10 ^ 8 * (rmax r + / 10 ^ 8) <= rmax (squared_row n r) <=
  rmax r + / 10 ^ 8.
Proof. exact (@squared_peak). Qed.
Print Assumptions C75_level.
Theorem C75_silence :
  forall n m : nat, (0 < m)%nat -> squared_row n (repeat 0 m) = repeat 0 n.
Proof. exact (@squared_silence). Qed.
Print Assumptions C75_silence.
Theorem C75_same_size :
  forall r : list R,
  r <> [] ->
  squared_row (length r) r = map (fun v : R => v / (rmax r / (rmax r + / 10 ^ 8) + / 10 ^ 8)) r.
Proof. exact (@squared_same). Qed.
Print Assumptions C75_same_size.
Theorem C75_mean :
  forall (n : nat) (x : list R), (0 < n)%nat -> x <> [] -> mean (resample_row n x) = mean x.
Proof. exact (@resample_mean). Qed.
Print Assumptions C75_mean.
Theorem C75_half_lapped :
  forall (f : Z) (arrs : list (arr2 R)) (s : scale) (bs : list band) (h : nat) 
    (fa : arr2 R * efd) (m : nat),
  squarable arrs s bs h fa ->
  (0 < m)%nat ->
  (0 < f)%Z ->
  exists out : list (list R),
    square f (2 * f) fa (2 * m) true =
    Ok (Stacked (round_half_even (2 * f) (Z.of_nat (2 * m))) out) /\
    length out = ((h + 1) * m)%nat /\
    (forall j b : nat,
     (b < length arrs)%nat -> at_ (nth j out []) b = overlapped arrs h (2 * m) m j b).
Proof. exact (@square_half_lapped). Qed.
Print Assumptions C75_half_lapped.
Theorem C75_no_overlap :
  forall (f : Z) (arrs : list (arr2 R)) (s : scale) (bs : list band) (h : nat) 
    (fa : arr2 R * efd) (n : nat),
  squarable arrs s bs h fa ->
  (0 < n)%nat ->
  exists out : list (list R),
    square f f fa n true = Ok (Stacked (round_half_even f (Z.of_nat n)) out) /\
    length out = (h * n)%nat /\
    (forall t k b : nat,
     (t < h)%nat ->
     (k < n)%nat ->
     (b < length arrs)%nat ->
     at_ (nth (t * n + k) out []) b = at_ (squared_row n (band_row arrs b t)) k).
Proof. exact (@square_no_overlap). Qed.
Print Assumptions C75_no_overlap.
Theorem C75_more_overlap_refuted :
  forall (f d : Z) (arrs : list (arr2 R)) (s : scale) (bs : list band) 
    (h : nat) (fa : arr2 R * efd) (n hop : nat),
  squarable arrs s bs h fa ->
  (0 < n)%nat ->
  (0 < f)%Z ->
  (2 * f < d)%Z ->
  (Z.of_nat n * f)%Z = (Z.of_nat hop * d)%Z ->
  exists out : list (list R),
    square f d fa n true = Ok (Stacked (round_half_even d (Z.of_nat n)) out) /\
    length out = ((h + 1) * (n - hop))%nat /\
    (hop < n - hop)%nat /\
    (forall j b : nat,
     (b < length arrs)%nat -> at_ (nth j out []) b = overlapped arrs h n (n - hop) j b).
Proof. exact (@square_more_overlap_refuted). Qed.
Print Assumptions C75_more_overlap_refuted.
Theorem C75_less_overlap_refuted :
  forall (f d : Z) (arrs : list (arr2 R)) (s : scale) (bs : list band) 
    (h : nat) (fa : arr2 R * efd) (n hop : nat),
  squarable arrs s bs h fa ->
  (0 < n)%nat ->
  (0 < h)%nat ->
  (0 < f < d)%Z ->
  (d < 2 * f)%Z ->
  (Z.of_nat n * f)%Z = (Z.of_nat hop * d)%Z -> square f d fa n true = Raise ValueError.
Proof. exact (@square_less_overlap_refuted). Qed.
Print Assumptions C75_less_overlap_refuted.

(** C76: [cexp_neg t] is exp(-i t); [rotated x s] are the samples of x, s of them later, around
    the end; [dft x n] their complete spectrum; [power] the square of the magnitude *)
Theorem C76_all :
  forall (s : scale) (f ts : Z) (row : list cplx),
  length row = scale_len s ->
  exists row' : list cplx,
    phase_shift1 (PFreq s) f ts None row = Ok row' /\
    length row' = length row /\
    (forall k : nat,
     (k < length row)%nat ->
     nth k row' (0, 0) =
     cmul (nth k row (0, 0)) (cexp_neg (2 * PI * INR k * IZR (ts ÷ f) / INR (length row)))).
Proof. exact (@shift_all). Qed.
Print Assumptions C76_all.
Theorem C76_band :
  forall (s : scale) (bs : list band) (q : band) (f ts : Z) (row : list cplx) (s' : scale),
  scale_bands s = Ok bs ->
  ordered bs ->
  scale_even s = false ->
  scale_slice s (IBand q) = Ok s' ->
  length row = length bs ->
  exists row' : list cplx,
    phase_shift1 (PFreq s) f ts (Some q) row = Ok row' /\
    length row' = length row /\
    (forall (k : nat) (b : band),
     nth_error bs k = Some b ->
     nth k row' (0, 0) =
     (if touched q b
      then cmul (nth k row (0, 0)) (cexp_neg (2 * PI * INR k * IZR (ts ÷ f) / INR (length row)))
      else nth k row (0, 0))).
Proof. exact (@shift_band). Qed.
Print Assumptions C76_band.
Theorem C76_magnitude :
  forall (d : pdim) (f ts : Z) (fb : option band) (row row' : list cplx),
  phase_shift1 d f ts fb row = Ok row' ->
  length row' = length row /\
  (forall k : nat, power (nth k row' (0, 0)) = power (nth k row (0, 0))).
Proof. exact (@shift_power). Qed.
Print Assumptions C76_magnitude.
Theorem C76_less_than_a_sample :
  forall (d : pdim) (f ts : Z) (fb : option band) (row row' : list cplx),
  (Z.abs ts < f)%Z -> phase_shift1 d f ts fb row = Ok row' -> row' = row.
Proof. exact (@shift_zero). Qed.
Print Assumptions C76_less_than_a_sample.
Theorem C76_adds_up :
  forall (d : pdim) (f a b : Z) (fb : option band) (row r1 : list cplx),
  (0 < f)%Z ->
  phase_shift1 d f (a * f) fb row = Ok r1 ->
  phase_shift1 d f (b * f) fb r1 = phase_shift1 d f ((a + b) * f) fb row.
Proof. exact (@shift_add). Qed.
Print Assumptions C76_adds_up.
Theorem C76_delay :
  forall (s : scale) (f j : Z) (x : list R),
  (0 < f)%Z ->
  x <> [] ->
  length x = scale_len s ->
  phase_shift1 (PFreq s) f (j * f) None (map (dft (at_ x) (length x)) (seq 0 (length x))) =
  Ok (map (dft (rotated x j) (length x)) (seq 0 (length x))).
Proof. exact (@shift_delays). Qed.
Print Assumptions C76_delay.
Theorem C76_half_spectrum :
  forall (s : scale) (f j : Z) (h : nat) (row : list cplx),
  (0 < f)%Z ->
  (0 < h)%nat ->
  length row = S h ->
  scale_len s = S h ->
  exists row' : list cplx,
    phase_shift1 (PFreq s) f (j * f) None row = Ok row' /\
    (forall k : nat,
     (k <= h)%nat ->
     nth k row' (0, 0) =
     cmul (nth k row (0, 0))
       (cexp_neg (2 * PI * INR k * (IZR j * (2 * INR h / (INR h + 1))) / (2 * INR h)))).
Proof. exact (@shift_half_spectrum). Qed.
Print Assumptions C76_half_spectrum.
Theorem C76_half_spectrum_refuted :
  exists (s : scale) (f : Z) (x : list R) (row : list cplx),
    length x = 4%nat /\
    length row = scale_len s /\
    row = rfft_ortho 0 x /\
    phase_shift1 (PFreq s) f (3 * f) None row = Ok row /\
    rfft_ortho 0 (map (rotated x 3) (seq 0 4)) <> row.
Proof. exact (@shift_rfft_refuted). Qed.
Print Assumptions C76_half_spectrum_refuted.
Theorem C76_full_turn :
  forall (d : pdim) (f j : Z) (fb : option band) (row row' : list cplx),
  (0 < f)%Z -> phase_shift1 d f (Z.of_nat (length row) * j * f) fb row = Ok row' -> row' = row.
Proof. exact (@shift_full_turn). Qed.
Print Assumptions C76_full_turn.
Theorem C76_rows :
  forall (d : pdim) (f ts : Z) (fb : option band) (n : nat) (rows : list (list cplx)),
  rows <> [] ->
  Forall (fun r : list cplx => length r = n) rows ->
  phase_shift_last d f ts fb n rows = mapM (phase_shift1 d f ts fb) rows.
Proof. exact (@shift_rows). Qed.
Print Assumptions C76_rows.
Theorem C76_first_axis_refuted :
  forall (s : scale) (f ts : Z) (n : nat) (rows : list (list cplx)),
  (0 < n)%nat ->
  scale_len s = n ->
  length rows = n ->
  Forall (fun r : list cplx => length r = n) rows ->
  exists rows' : list (list cplx),
    phase_shift_first (PFreq s) f ts None rows = Ok rows' /\
    (forall i j : nat,
     (i < n)%nat ->
     (j < n)%nat ->
     nth j (nth i rows' []) (0, 0) =
     cmul (nth j (nth i rows []) (0, 0)) (cexp_neg (2 * PI * INR j * IZR (ts ÷ f) / INR n))).
Proof. exact (@shift_first_refuted). Qed.
Print Assumptions C76_first_axis_refuted.
Theorem C76_first_axis_fails_refuted :
  forall (s : scale) (f ts : Z) (n m : nat) (rows : list (list cplx)),
  (1 < n)%nat ->
  n <> m ->
  scale_len s = n ->
  length rows = n ->
  Forall (fun r : list cplx => length r = m) rows ->
  phase_shift_first (PFreq s) f ts None rows = Raise ValueError.
Proof. exact (@shift_first_fails_refuted). Qed.
Print Assumptions C76_first_axis_fails_refuted.
Theorem C76_refuses :
  forall (f ts : Z) (fb : option band) (row : list cplx) (rows : list (list cplx)) (n : nat),
  phase_shift1 POther f ts fb row = Raise ValueError /\
  phase_shift_last POther f ts fb n rows = Raise ValueError /\
  phase_shift_first POther f ts fb rows = Raise ValueError.
Proof. exact (@shift_refuses). Qed.
Print Assumptions C76_refuses.
Theorem C76_nothing_touched :
  forall (s : scale) (bs : list band) (q : band) (f ts : Z) (row : list cplx),
  well_formed s ->
  scale_bands s = Ok bs ->
  proper q ->
  scale_even s = false ->
  (forall b : band, In b bs -> touched q b = false) ->
  phase_shift1 (PFreq s) f ts (Some q) row = Raise IndexError.
Proof. exact (@shift_nothing_touched). Qed.
Print Assumptions C76_nothing_touched.

