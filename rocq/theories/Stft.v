(** Model of [fft] and [stft] (zounds/spectral/functional.py:21-69), in exact real arithmetic,
    on arrays given by their dimensions and their rows. *)
From Verif Require Import PyBase PyFacts PyMore Time Freq FreqDim Axis Windowed NdWindow Spectral.
From Coq Require Import Reals.
Local Open Scope R_scope.

(** functional.py:42-43 with frequencyscale.py:386-398: the scale of [n_bands] bands that goes
    with a time dimension.  [int(Seconds(1) / frequency)] for a frequency that is not zero. *)
Definition fft_scale (t : timedim) (n_bands : nat) : result scale :=
  do r <- audio_sample_rate (trunc_div (10 ^ 12) (t_freq t));
  do sr <- audio_rate r;
  do fb <- make_band 0 (IZR (nyquist sr));
  Ok (Linear fb n_bands false).
(** functional.py:42-45: the new dimension of the axis; other dimensions have no
    [frequency] *)
Definition fft_dim (d : dim) (n_bands : nat) : result dim :=
  match d with
  | DTime t => do s <- fft_scale t n_bands; Ok (DFreq s)
  | _ => Raise AttributeError
  end.

(** functional.py:21-46 of a one-dimensional array; [np.concatenate] of it and of the
    two-dimensional zeros is a ValueError, as is the FFT of no samples *)
Definition fft1 (d : dim) (padding : nat) (x : list R) : result (list dim * list cplx) :=
  if Nat.ltb 0 padding then Raise ValueError else
  if Nat.eqb (length x) 0 then Raise ValueError else
  let transformed := rfft_ortho 0 x in
  do f <- fft_dim d (length transformed);
  do ds <- fit_dims [f] [length transformed];
  Ok (ds, transformed).
(** the same of a (rows, width) array along its last axis: the zeros make one block of
    [padding] columns *)
Definition fft_rows (d0 d1 : dim) (padding width : nat) (rows : list (list R)) : result (list dim * list (list cplx)) :=
  let n := (width + padding)%nat in
  if Nat.eqb n 0 then Raise ValueError else
  let transformed := map (rfft_ortho padding) rows in
  let n_bands := (n / 2 + 1)%nat in
  do f <- fft_dim d1 n_bands;
  do ds <- fit_dims [d0; f] [length rows; n_bands];
  Ok (ds, transformed).
(** of a (batch, rows, width) array along its last axis: three- and two-dimensional arrays
    cannot be concatenated *)
Definition fft_batch (d0 d1 d2 : dim) (padding n_rows width : nat) (batch : list (list (list R))) : result (list dim * list (list (list cplx))) :=
  if Nat.ltb 0 padding then Raise ValueError else
  if Nat.eqb width 0 then Raise ValueError else
  let transformed := map (map (rfft_ortho 0)) batch in
  let n_bands := (width / 2 + 1)%nat in
  do f <- fft_dim d2 n_bands;
  do ds <- fit_dims [d0; d1; f] [length batch; n_rows; n_bands];
  Ok (ds, transformed).
(** of a (rows, width) array with [axis=0]: the zeros have shape (rows, padding), so that they
    fit below the array only if [padding] is the width; the number of bands is
    [transformed.shape[-1]], the width *)
Definition column (rows : list (list R)) (j : nat) : list R := map (fun r => at_ r j) rows.
Definition fft_axis0 (d0 d1 : dim) (padding width : nat) (rows : list (list R)) : result (list dim * list (list cplx)) :=
  do padded <- (if Nat.ltb 0 padding
                then if Nat.eqb padding width then Ok (rows ++ repeat (repeat 0 padding) (length rows)) else Raise ValueError
                else Ok rows);
  if Nat.eqb (length padded) 0 then Raise ValueError else
  let columns := map (fun j => rfft_ortho 0 (column padded j)) (seq 0 width) in
  let n_coeffs := (length padded / 2 + 1)%nat in
  let transformed := map (fun k => map (fun c => nth k c (0, 0)) columns) (seq 0 n_coeffs) in
  do f <- fft_dim d0 width;
  do ds <- fit_dims [f; d1] [n_coeffs; width];
  Ok (ds, transformed).

(** axis.py:231-236 [_compute_span] of a TimeSlice that starts at zero *)
Definition span_samples (t : timedim) (duration : Z) : result Z :=
  do p <- integer_based_slice t (ITime 0 (Some duration)); Ok (snd p - fst p)%Z.
(** [arr * window._wdata(arr.shape[-1])], functional.py:67-68: the window is a function of the
    size and of the position.  [None] stands for a WindowingFunc without a windowing function
    (IdentityWindowingFunc, or [window=None]): its [_wdata] is None, and numbers cannot be
    multiplied by None. *)
Definition wfunction := nat -> nat -> R.
Definition windowing (w : wfunction) (f : list R) : list R :=
  map (fun t => at_ f t * w (length f) t) (seq 0 (length f)).

(** functional.py:49-69 for one time dimension.  [Flat]: windows of one sample are not laid
    out as rows, and the two dimensions do not fit (axis.py:206-209). *)
Definition stft1 (t : timedim) (wsr : samplerate) (window : option wfunction) (x : list R) : result (list dim * list (list cplx)) :=
  do w <- span_samples t (sr_dur wsr);
  do h <- span_samples t (sr_freq wsr);
  do p <- windowed 0 x w (Some h) true;
  match snd p with
  | Flat _ => Raise ValueError
  | Rows arr =>
      do m <- modified_dimension t w (Some h);
      match window with
      | None => Raise TypeError
      | Some wd => fft_rows (DTime m) (DTime t) 0 (Z.to_nat w) (map (windowing wd) arr)
      end
  end.

(** functional.py:56-60 for a (batch, samples) array: the flat list of windows (npx.py:242-255)
    and its [reshape((len(x), -1, w))].  numpy's integer division by a zero step gives zero. *)
Definition batch_windows (w h : nat) (width : nat) (rows : list (list R)) : nat * list (list (list R)) :=
  let n := ((width - w) / h + 1)%nat in
  let flat := flat_map (fun r => map (fun i => firstn w (skipn (i * h) r)) (seq 0 n)) rows in
  (n, rows_of (length rows) n flat).
(** functional.py:49-69 for a two-dimensional array *)
Definition stft2 (d0 d1 : dim) (wsr : samplerate) (window : option wfunction) (width : nat) (rows : list (list R))
  : result (list dim * list (list (list cplx))) :=
  match d0 with
  | DIdent =>
      match d1 with
      | DTime t =>
          do w <- span_samples t (sr_dur wsr);
          do h <- span_samples t (sr_freq wsr);
          if Nat.eqb (length rows) 0 || (Z.of_nat width <? w)%Z || (w <? 1)%Z then Raise ValueError else
          let '(n, arr) := batch_windows (Z.to_nat w) (Z.to_nat h) width rows in
          match window with
          | None => Raise TypeError
          | Some wd =>
              fft_batch DIdent (DTime (mk_timedim (sr_freq wsr) (Some (sr_dur wsr)) None)) (DTime t) 0 n (Z.to_nat w)
                (map (map (windowing wd)) arr)
          end
      | _ => Raise OtherError
      end
  | _ => Raise ValueError
  end.

(** np.hanning, the default window (sliding_window.py:109-115), and scipy.signal.hann
    (symmetric), for more than one sample; both are 1 for one sample *)
Definition hanning : wfunction :=
  fun n t => if Nat.leb n 1 then 1 else / 2 - / 2 * cos (2 * PI * INR t / INR (n - 1)).
