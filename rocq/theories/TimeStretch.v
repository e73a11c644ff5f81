(** Model of [time_stretch] and [pitch_shift] (zounds/spectral/functional.py:94-211), in exact
    real arithmetic. *)
From Verif Require Import PyBase PyFacts PyMore Time Freq FreqDim Axis Windowed NdWindow Spectral Resample Stft.
From Coq Require Import Reals.
Local Open Scope R_scope.

(** ** numpy *)
(** np.abs and np.angle of a complex number *)
Definition magnitude (c : cplx) : R := sqrt (fst c * fst c + snd c * snd c).
Definition angle (c : cplx) : R :=
  let x := fst c in
  let y := snd c in
  if Rlt_dec 0 x then atan (y / x)
  else if Rlt_dec x 0 then (if Rle_dec 0 y then atan (y / x) + PI else atan (y / x) - PI)
  else if Rlt_dec 0 y then PI / 2
  else if Rlt_dec y 0 then - (PI / 2)
  else 0.
(** np.round *)
Definition np_round (x : R) : Z :=
  let f := Int_part x in
  let d := x - IZR f in
  if Rlt_dec d (/ 2) then f
  else if Rlt_dec (/ 2) d then (f + 1)%Z
  else if Z.even f then f else (f + 1)%Z.
(** [int] of a number that is not negative; the largest integer below *)
Definition to_int (x : R) : nat := Z.to_nat (Int_part x).
(** the number of elements of [np.arange(0, n, step)] *)
Definition arange_count (n : nat) (step : R) : nat := Z.to_nat (- Int_part (- (INR n / step))).

(** ** functional.py:96-100, the default frames; 22675736 picoseconds are a sample at 44100 Hz
    (samplerate.py:279-284) *)
Definition stretch_frames : samplerate := {| sr_freq := Z.quot (22675736 * 1024) 2; sr_dur := 22675736 * 2048 |}.

(** ** the phase vocoder, one item of the batch: [D] holds the frames, [m] coefficients each *)
Section Vocoder.
  Context (D : list (list cplx)) (m hop : nat) (factor : R).
  (** functional.py:127-131: two frames of zeros are appended *)
  Definition coeff (i k : nat) : cplx := nth k (nth i D []) (0, 0).
  (** functional.py:119, 139: time step i, and the two frames around it *)
  Definition step_time (i : nat) : R := INR i * factor.
  Definition first_frame (i : nat) : nat := to_int (step_time i).
  Definition second_frame (i : nat) : nat := to_int (step_time i + 1).
  (** functional.py:121: [np.mod(time_steps, 1.0)] *)
  Definition weight (i : nat) : R := step_time i - IZR (Int_part (step_time i)).
  (** functional.py:123: [np.linspace(0, np.pi * hop_length, n_fft_coeffs)] *)
  Definition advance (k : nat) : R := INR k * (PI * INR hop / INR (m - 1)).
  (** functional.py:152-155 *)
  Definition dphase (i k : nat) : R :=
    let d := angle (coeff (second_frame i) k) - angle (coeff (first_frame i) k) - advance k in
    let d := d - 2 * PI * IZR (np_round (d / (2 * PI))) in
    d + advance k.
  (** functional.py:136-137, 157-159: the running sum, from the phases of the first frame *)
  Definition phase_acc (i k : nat) : R := angle (coeff 0 k) + rsum i (fun j => dphase j k).
  (** functional.py:161-163 *)
  Definition mag (i k : nat) : R :=
    (1 - weight i) * magnitude (coeff (first_frame i) k) + weight i * magnitude (coeff (second_frame i) k).
  (** functional.py:166 *)
  Definition new_coeffs (i : nat) : list cplx :=
    map (fun k => (mag i k * cos (phase_acc i k), mag i k * sin (phase_acc i k))) (seq 0 m).
End Vocoder.

(** functional.py:119, 165-184 for one item of [width] samples; [m] is the number of
    coefficients *)
Definition stretch_row (hop m width : nat) (factor : R) (D : list (list cplx)) : result (list R) :=
  let n_steps := arange_count (length D) factor in
  do new_frames <- mapM irfft_ortho (map (new_coeffs D m hop factor) (seq 0 n_steps));
  let new_frames := map (windowing hanning) new_frames in
  let output := repeat 0 (to_int (INR width / factor)) in
  overlap_from output (Z.of_nat hop) (Z.of_nat (2 * (m - 1))) 0 new_frames.

(** functional.py:94-186 for a (batch, samples) array.  A factor of zero is a
    ZeroDivisionError of [np.arange]; negative factors are a ValueError of [np.zeros] (unless
    the quotient truncates to zero, not modelled). *)
Definition time_stretch2 (d0 d1 : dim) (factor : R) (fsr : option samplerate) (width : nat) (rows : list (list R))
  : result (list dim * list (list R)) :=
  let sr := match fsr with None => stretch_frames | Some s => s end in
  match d1 with
  | DTime t =>
      let '(hop_length, _) := discrete_samples sr (t_freq t) (t_dur t) in
      do p <- stft2 d0 d1 sr (Some hanning) width rows;
      if Req_EM_T factor 0 then Raise ZeroDivisionError else
      if Rlt_dec factor 0 then Raise ValueError else
      do w <- span_samples t (sr_dur sr);
      do output <- mapM (stretch_row (Z.to_nat hop_length) (Z.to_nat w / 2 + 1) width factor) (snd p);
      do ds <- fit_dims [DIdent; DTime t] [length rows; to_int (INR width / factor)];
      Ok (ds, output)
  | _ => Raise OtherError
  end.
(** functional.py:106-108: a one-dimensional array becomes a batch of one.  The reshape of an
    array of one sample loses its time dimension (axis.py:79-99). *)
Definition time_stretch1 (t : timedim) (factor : R) (fsr : option samplerate) (x : list R) : result (list dim * list (list R)) :=
  if Nat.eqb (length x) 1 then Raise OtherError
  else time_stretch2 DIdent (DTime t) factor fsr (length x) [x].

(** functional.py:195-209 for one item: windows of 1024 samples after padding, resampled one
    by one, joined and cut to the original length *)
Definition repitch_row (factor : R) (original : nat) (stretched : list R) : result (list R) :=
  let padding := (1024 - length stretched mod 1024)%nat in
  let padded := stretched ++ repeat 0 padding in
  let windows := rows_of (length padded / 1024) 1024 padded in
  do rs <- mapM (resample (to_int (1024 * factor))) windows;
  Ok (firstn original (List.concat rs)).
(** functional.py:189-211 *)
Definition pitch_factor (semitones : R) : R := Rpower 2 (- semitones / 12).
Definition pitch_shift2 (d0 d1 : dim) (semitones : R) (fsr : option samplerate) (width : nat) (rows : list (list R))
  : result (list dim * list (list R)) :=
  let factor := pitch_factor semitones in
  do p <- time_stretch2 d0 d1 factor fsr width rows;
  do rs <- mapM (repitch_row factor width) (snd p);
  do ds <- fit_dims (fst p) [length rows; length (hd [] rs)];
  Ok (ds, rs).
Definition pitch_shift1 (t : timedim) (semitones : R) (fsr : option samplerate) (x : list R) : result (list dim * list (list R)) :=
  let factor := pitch_factor semitones in
  do p <- time_stretch1 t factor fsr x;
  do rs <- mapM (repitch_row factor (length x)) (snd p);
  do ds <- fit_dims (fst p) [1%nat; length (hd [] rs)];
  Ok (ds, rs).
