(** Model of FrequencyAdaptiveTransform (zounds/spectral/spectral.py:156-213) and of the
    synthesizers that undo it (zounds/synthesize/synthesize.py:304-528), in exact real
    arithmetic.  The rows of an array have one length.  A window function gives as many
    numbers as it is asked for. *)
From Verif Require Import PyBase PyFacts PyMore Time Freq FreqDim PhaseShift Spectral.
From Coq Require Import Reals.
Local Open Scope R_scope.

(** [window_func(n)[i]] *)
Definition bwindow := nat -> nat -> R.
(** spectral.py:193, [window_func or np.ones] *)
Definition the_window (w : option bwindow) : bwindow := match w with Some w => w | None => fun _ _ => 1 end.

(** What [transform] and [band_transform] do along the last axis: the number of columns of
    the result, and each row. *)
Record along (A B : Type) := mkAlong { acols : nat -> result nat; arow : list A -> result (list B) }.
Arguments mkAlong {A B}. Arguments acols {A B}. Arguments arow {A B}.
Definition apply_along {A B} (t : along A B) (x : arr2 A) : result (arr2 B) :=
  do n <- acols t (cols x); do r <- mapM (arow t) (rows x); Ok (mkArr n r).
(** scipy.fftpack.idct and dct, norm='ortho'; no columns: ValueError *)
Definition along_idct : along R R := mkAlong (fun n => if Nat.eqb n 0 then Raise ValueError else Ok n) (fun r => Ok (idct2_ortho r)).
Definition along_dct : along R R := mkAlong (fun n => if Nat.eqb n 0 then Raise ValueError else Ok n) (fun r => Ok (dct2_ortho r)).
(** np.fft.irfft and rfft, norm='ortho'; no points: ValueError *)
Definition along_irfft : along cplx R :=
  mkAlong (fun n => if Nat.eqb (2 * (n - 1)) 0 then Raise ValueError else Ok (2 * (n - 1))%nat) irfft_ortho.
Definition along_rfft : along R cplx :=
  mkAlong (fun n => if Nat.eqb n 0 then Raise ValueError else Ok (n / 2 + 1)%nat) (fun r => Ok (rfft_ortho 0 r)).

Section Adaptive.
  Context {A : Type} (zero : A) (mul : R -> A -> A) (add : A -> A -> A).

  (** spectral.py:205-206, one row: [raw_coeffs * window[None, :]] *)
  Definition window_row (w : bwindow) (row : list A) : list A :=
    map (fun i => mul (w (length row) i) (nth i row zero)) (seq 0 (length row)).
  (** spectral.py:198-206 _process_band; [s] is the scale of the last dimension of [data] *)
  Definition process_band {B} (t : along A B) (w : option bwindow) (s : scale) (data : arr2 A) (q : band) : result (arr2 B) :=
    do p <- match select s (Some q) with
            | Ok p => Ok p
            | Raise IndexError => Raise ValueError
            | Raise e => Raise e
            end;
    let raw_coeffs := col_slice p data in
    apply_along t (mkArr (cols raw_coeffs) (map (window_row (the_window w)) (rows raw_coeffs))).
  (** spectral.py:208-212 _process *)
  Definition adaptive_transform {B} (t : along A B) (w : option bwindow) (s : scale) (data : arr2 A) (self_scale : scale)
    : result (arr2 B * efd) :=
    do bs <- scale_bands self_scale;
    do arrs <- mapM (process_band t w s data) bs;
    fa_new arrs self_scale.

  (** numpy: [row[a:b] += v]; one number is repeated *)
  Definition iadd_row (p : nat * nat) (v row : list A) : result (list A) :=
    let old := cut p row in
    if Nat.eqb (length v) (length old) then Ok (paste p (map (fun e => add (fst e) (snd e)) (combine old v)) row)
    else match v with
         | [x] => Ok (paste p (map (fun o => add o x) old) row)
         | _ => Raise ValueError
         end.
  Fixpoint iadd_rows (p : nat * nat) (vs rows_ : list (list A)) : result (list (list A)) :=
    match vs, rows_ with
    | v :: vs, r :: rs => do r <- iadd_row p v r; do rs <- iadd_rows p vs rs; Ok (r :: rs)
    | [], [] => Ok []
    | _, _ => Raise ValueError
    end.
  (** synthesize.py:341-342 *)
  Fixpoint synth_bands {B} (u : along B A) (fac : arr2 B * efd) (lin : scale) (bs : list band) (coeffs : list (list A))
    : result (list (list A)) :=
    match bs with
    | [] => Ok coeffs
    | q :: r =>
        do b <- fa_get fac q;
        do y <- apply_along u (fst b);
        do p <- select lin (Some q);
        do coeffs <- iadd_rows p (rows y) coeffs;
        synth_bands u fac lin r coeffs
    end.
  (** synthesize.py:325-342: the coefficients that are handed to the short-time synthesizer *)
  Definition adaptive_coeffs {B} (u : along B A) (self_scale lin : scale) (fac : arr2 B * efd) : result (list (list A)) :=
    do bs <- scale_bands self_scale;
    synth_bands u fac lin bs (repeat (repeat zero (scale_len lin)) (length (rows (fst fac)))).
End Adaptive.

(** spectral.py:178-195 __init__: the check of the scale; [OtherError] is the AssertionError *)
Definition adaptive_init (check_scale_overlap_ratio : bool) (s : scale) : result unit :=
  if check_scale_overlap_ratio then
    match ensure_overlap_ratio s (1 / 2) with
    | Ok _ => Ok tt
    | Raise OtherError => Raise ValueError
    | Raise e => Raise e
    end
  else Ok tt.

(** frequencyscale.py:387-398, synthesize.py:328-331 *)
Definition from_sample_rate (sr : samplerate) (n : nat) (always_even : bool) : result scale :=
  do fb <- make_band 0 (IZR (nyquist sr)); Ok (Linear fb n always_even).
(** synthesize.py:431-433, 525-528: [int(duration / frequency)] in picoseconds, both positive *)
Definition raw_samples (sr : samplerate) (duration : Z) : nat := Z.to_nat (duration / sr_freq sr).

(** synthesize.py:422-433 with 325-344: FrequencyAdaptiveDCTSynthesizer(scale, sr).synthesize *)
Definition adaptive_dct_synthesize (self_scale : scale) (sr : samplerate) (time_dim : timedim) (fac : arr2 R * efd) : result (list R) :=
  do lin <- from_sample_rate sr (raw_samples sr (t_dur time_dim)) true;
  do coeffs <- adaptive_coeffs 0 Rplus along_dct self_scale lin fac;
  dct_synthesize (fun _ => None) time_dim coeffs.
(** synthesize.py:515-528 with 325-344: FrequencyAdaptiveFFTSynthesizer(scale, sr).synthesize *)
Definition adaptive_fft_synthesize (self_scale : scale) (sr : samplerate) (time_dim : timedim) (fac : arr2 R * efd) : result (list R) :=
  do lin <- from_sample_rate sr (raw_samples sr (t_dur time_dim) / 2 + 1) false;
  do coeffs <- adaptive_coeffs (0, 0) cadd along_rfft self_scale lin fac;
  fft_synthesize time_dim coeffs.
