(** Model of zounds/loudness/loudness.py, of the transforms of zounds/spectral
    (functional.py, spectral.py, sliding_window.py), of zounds/learn/dct_transform.py
    and of the synthesizers of zounds/synthesize/synthesize.py, in exact real arithmetic:
    a numpy float is a real number and numpy's sin, cos, exp, log and fft are the
    mathematical functions. *)
From Verif Require Import PyBase PyFacts PyMore Time.
From Coq Require Import Reals.
Local Open Scope R_scope.

(** ** Loudness *)

(** numpy.sign *)
Definition sign (x : R) : R := if Rlt_dec x 0 then -1 else if Rlt_dec 0 x then 1 else 0.
(** loudness.py:6-7 *)
Definition log_modulus (x : R) : R := sign x * ln (Rabs x + 1).
(** loudness.py:10-11 *)
Definition inverse_log_modulus (x : R) : R := (exp (Rabs x) - 1) * sign x.
(** loudness.py:18-21 *)
Definition mu_law (mu x : R) : R := sign x * (ln (1 + mu * Rabs x) / ln (1 + mu)).
(** loudness.py:24-29; [np.abs] returns a copy, so the argument is left alone.  On an
    integer array the in-place multiplication is a TypeError (not modelled: reals). *)
Definition inverse_mu_law (mu x : R) : R :=
  let s := sign x in
  let x := Rabs x in
  let x := x * ln (1 + mu) in
  let x := (exp x - 1) / mu in
  x * s.

(** numpy's max of a non-empty row *)
Definition rmax (l : list R) : R := match l with [] => 0 | x :: r => fold_left Rmax r x end.
Definition rmin (l : list R) : R := match l with [] => 0 | x :: r => fold_left Rmin r x end.
(** loudness.py:40-46, one row *)
Definition instance_scale (epsilon : R) (x : list R) : list R :=
  let mx := rmax (map Rabs x) in map (fun v => v / (mx + epsilon)) x.
(** loudness.py:49-53, the whole array flattened; [where=max != 0] compares the builtin
    function max with 0 and is always true, so the division always happens.  None is
    numpy's nan (0/0). *)
Definition unit_scale (x : list R) : option (list R) :=
  let scaled := map (fun v => v - rmin x) x in
  let mx := rmax scaled in
  if Req_EM_T mx 0 then None else Some (map (fun v => v / mx) scaled).
(** loudness.py:32-37, one row; [argmax] is the first largest *)
Fixpoint argmax_from (l : list R) (i best : nat) (m : R) : nat :=
  match l with
  | [] => best
  | x :: r => if Rlt_dec m x then argmax_from r (S i) i x else argmax_from r (S i) best m
  end.
Definition argmax (l : list R) : nat := match l with [] => 0%nat | x :: r => argmax_from r 1 0 x end.
Definition inverse_one_hot (x : list R) : R := (INR (argmax x) / INR (length x) - / 2) * 2.

(** ** Sums and complex numbers *)
Fixpoint rsum (n : nat) (f : nat -> R) : R := match n with O => 0 | S m => rsum m f + f m end.
Definition at_ (l : list R) (i : nat) : R := nth i l 0.
Definition cplx := (R * R)%type.
Definition cmul (a b : cplx) : cplx := (fst a * fst b - snd a * snd b, fst a * snd b + snd a * fst b).
Definition cadd (a b : cplx) : cplx := (fst a + fst b, snd a + snd b).
Definition cscale (r : R) (a : cplx) : cplx := (r * fst a, r * snd a).
(** exp(-1j * theta) *)
Definition cexp_neg (theta : R) : cplx := (cos theta, - sin theta).
Fixpoint csum (n : nat) (f : nat -> cplx) : cplx := match n with O => (0, 0) | S m => cadd (csum m f) (f m) end.
(** [np.fft.fft] of a sequence of m numbers, zero-padded to n >= m: coefficient k *)
Definition fft (n m : nat) (a : nat -> cplx) (k : nat) : cplx :=
  csum m (fun t => cmul (a t) (cexp_neg (2 * PI * INR k * INR t / INR n))).

(** ** functional.py *)

(** functional.py:71-81, one row, of even length (on an odd length the multiplication by
    [np.exp(cpi * t / 2 / l)] of 2l numbers is a ValueError) *)
Definition mdct (data : list R) : list R :=
  let l := (length data / 2)%nat in
  let a := fun t => cscale (at_ data t) (cexp_neg (PI * INR t / 2 / INR l)) in
  let b := fft (2 * l) (2 * l) a in
  map (fun f => sqrt (2 / INR l) * fst (cmul (b f) (cexp_neg (PI * (INR f + / 2) * (INR l + 1) / 2 / INR l)))) (seq 0 l).
(** functional.py:84-91, one row; the same as synthesize.py:274-282 *)
Definition imdct (frames : list R) : list R :=
  let l := length frames in
  let a := fun f => cscale (at_ frames f) (cexp_neg (PI * (INR f + / 2) * (INR l + 1) / 2 / INR l)) in
  let b := fft (2 * l) l a in
  map (fun t => sqrt (2 / INR l) * fst (cmul (b t) (cexp_neg (PI * INR t / 2 / INR l)))) (seq 0 (2 * l)).
(** spectral.py:109-117, one row: [z] is a real array, so only the real part of the
    rotated data is kept *)
Definition dctiv (data : list R) : list R :=
  let l := length data in
  let z := fun t => (fst (cscale (at_ data t) (cexp_neg (PI * INR t / 2 / INR l))), 0) in
  let zf := fft (2 * l) l z in
  map (fun f => sqrt (2 / INR l) * fst (cmul (zf f) (cexp_neg (PI * (INR f + / 2) / 2 / INR l)))) (seq 0 l).
(** functional.py:381-385 *)
Definition dct_basis (size i j : nat) : R := cos (PI / INR size * (INR i * (INR j + / 2))).
(** dct_transform.py:47-52, one row; torch.matmul(x, basis) * sqrt(2 / n) *)
Definition base_dct (x : list R) (basis : nat -> nat -> R) : list R :=
  let n := length x in
  map (fun j => rsum n (fun i => at_ x i * basis i j) * sqrt (2 / INR n)) (seq 0 n).
(** dct_transform.py:54-56 *)
Definition dct (x : list R) : list R := base_dct x (dct_basis (length x)).
(** dct_transform.py:58-60: the transposed basis *)
Definition idct (x : list R) : list R := base_dct x (fun i j => dct_basis (length x) j i).
(** dct_transform.py:62-91 along the only axis, without zero_slice; [n_samples] is
    [int(factor * len(x))] *)
Definition dct_resample (n_samples : nat) (x : list R) : list R :=
  let coeffs := dct x in
  idct (firstn n_samples coeffs ++ repeat 0 (n_samples - length coeffs)).

(** [np.fft.rfft(x, norm='ortho')], functional.py:40 with [padding_samples] zeros
    appended (functional.py:33-38), one row: the coefficients 0 .. n/2 *)
Definition rfft_ortho (padding : nat) (x : list R) : list cplx :=
  let x := x ++ repeat 0 padding in
  let n := length x in
  map (fun k => cscale (/ sqrt (INR n)) (fft n n (fun t => (at_ x t, 0)) k)) (seq 0 (n / 2 + 1)).
(** [np.fft.irfft(frames, norm='ortho')], synthesize.py:101-102, one row of m coefficients:
    n = 2(m-1) samples, of the spectrum completed by symmetry; the imaginary parts of
    the first and of the last coefficient are ignored *)
Definition irfft_ortho (c : list cplx) : result (list R) :=
  let h := (length c - 1)%nat in
  let n := (2 * h)%nat in
  let re k := fst (nth k c (0, 0)) in
  let im k := snd (nth k c (0, 0)) in
  if Nat.eqb n 0 then Raise ValueError else
  Ok (map (fun t => / sqrt (INR n) *
    (re 0%nat
     + rsum (h - 1) (fun j => let k := S j in
         2 * (re k * cos (2 * PI * INR k * INR t / INR n) - im k * sin (2 * PI * INR k * INR t / INR n)))
     + re h * cos (PI * INR t))) (seq 0 n)).
(** [scipy.fftpack.dct(x, norm='ortho')], spectral.py:81, one row *)
Definition ortho_weight (n k : nat) : R := if Nat.eqb k 0 then sqrt (1 / INR n) else sqrt (2 / INR n).
Definition dct2_ortho (x : list R) : list R :=
  let n := length x in
  map (fun k => ortho_weight n k * rsum n (fun t => at_ x t * cos (PI * INR k * (INR t + / 2) / INR n))) (seq 0 n).
(** [scipy.fftpack.idct(x, norm='ortho')], synthesize.py:159-160, one row *)
Definition idct2_ortho (c : list R) : list R :=
  let n := length c in
  map (fun t => rsum n (fun k => ortho_weight n k * at_ c k * cos (PI * INR k * (INR t + / 2) / INR n))) (seq 0 n).

(** ** sliding_window.py:7-21 *)
Definition vorbis_raw (n s : nat) : R :=
  let i := (sin ((INR s + / 2) / INR n * PI)) ^ 2 in sin (/ 2 * PI * i).
Definition oggvorbis (n : nat) : list R :=
  let f := map (vorbis_raw n) (seq 0 n) in map (fun v => v * (1 / rmax f)) f.

(** [wfunc * frames], one row; None is IdentityWindowingFunc, sliding_window.py:54-86 *)
Definition apply_window (w : option (list R)) (frame : list R) : list R :=
  match w with None => frame | Some w => map (fun p => fst p * snd p) (combine w frame) end.

(** ** synthesize.py:26-43 *)

(** [arr[start:stop] += f[:l]]; numpy repeats an [f] of one sample *)
Definition add_slice (arr : list R) (start stop : Z) (f : list R) : result (list R) :=
  let seg := py_slice (Some start) (Some stop) arr in
  let l := length seg in
  let f := firstn l f in
  let f := if Nat.eqb (length f) 1 then repeat (at_ f 0) l else f in
  if Nat.eqb (length f) l then
    let b := Z.to_nat (norm_index (Zlen arr) start) in
    Ok (firstn b arr ++ map (fun p => fst p + snd p) (combine seg f) ++ skipn (b + l) arr)
  else Raise ValueError.
Fixpoint overlap_from (arr : list R) (hop window i : Z) (frames : list (list R)) : result (list R) :=
  match frames with
  | [] => Ok arr
  | f :: r => do arr <- add_slice arr (i * hop) (i * hop + window) f; overlap_from arr hop window (i + 1) r
  end.
(** [width] is [frames.shape[-1]]; timedelta64 / int truncates *)
Definition overlap_add (time_dim : timedim) (wfunc : option (list R)) (width : Z) (frames : list (list R)) : result (list R) :=
  if (width =? 0)%Z then Raise ZeroDivisionError else
  let sample_freq := (t_dur time_dim / width)%Z in
  if (sample_freq =? 0)%Z then Raise ZeroDivisionError else
  let windowsize := round_half_even (t_dur time_dim) sample_freq in
  let hopsize := round_half_even (t_freq time_dim) sample_freq in
  do end_ <- t_span time_dim;
  let arr := repeat 0 (Z.to_nat (end_ / sample_freq)) in
  overlap_from arr hopsize windowsize 0 (map (apply_window wfunc) frames).

(** ** synthesize.py:45-48 [ShortTimeTransformSynthesizer.synthesize]: transform every
    row, then overlap-add them on the first dimension.  There is at least one row. *)
Definition synthesize {A} (transform : A -> result (list R)) (wfunc : nat -> option (list R)) (time_dim : timedim) (rows : list A) : result (list R) :=
  do frames <- mapM transform rows;
  let width := length (hd [] frames) in
  overlap_add time_dim (wfunc width) (Z.of_nat width) frames.
(** synthesize.py:51-53 WindowedAudioSynthesizer *)
Definition windowed_audio_synthesize := synthesize (fun f : list R => Ok f) (fun _ => None).
(** synthesize.py:95-102 FFTSynthesizer *)
Definition fft_synthesize := synthesize irfft_ortho (fun n => Some (oggvorbis n)).
(** synthesize.py:152-160 DCTSynthesizer *)
Definition dct_synthesize (wfunc : nat -> option (list R)) := synthesize (fun c => Ok (idct2_ortho c)) wfunc.
(** synthesize.py:271-282 MDCTSynthesizer *)
Definition mdct_synthesize := synthesize (fun c => Ok (imdct c)) (fun n => Some (oggvorbis n)).

(** ** synthesize.py: 546-564, the sine synthesizer.  [ts] is the number of samples asked for,
    [duration * sr]; [np.arange(0, ts*c, c)] has ceil(ts) elements *)
Definition sine_synthesize (n sr : nat) (freqs : list R) : result (list R) :=
  match freqs with
  | [] => Raise ZeroDivisionError
  | _ => Ok (map (fun t => fold_right Rplus 0 (map (fun hz => sin (hz / INR sr * INR t * (2 * PI)) * (1 / INR (length freqs))) freqs)) (seq 0 n))
  end.

(** ** spectral.py:279-286, SpectralCentroid, one row *)
Definition spectral_centroid (x : list R) : R :=
  rsum (length x) (fun i => Rabs (at_ x i) * INR (S i)) / rsum (length x) (fun i => INR (S i)).
(** spectral.py:311-316, SpectralFlatness, one row; scipy's gmean is exp of the mean of
    the logarithms, zero if an element is zero *)
Definition gmean (x : list R) : R :=
  if existsb (fun v => if Req_EM_T v 0 then true else false) x then 0
  else exp (fold_right Rplus 0 (map ln x) / INR (length x)).
Definition spectral_flatness (x : list R) : R :=
  let data := map Rabs x in
  let mean := fold_right Rplus 0 data / INR (length data) in
  let mean := if Req_EM_T mean 0 then (- 100000) else mean in
  gmean data / mean.

(** ** dct_transform.py:37-45 [window] and 119-126 [short_time_dct] *)
Section ShortTime.
  (** the windows computed so far, by their size *)
  Definition wcache := list (nat * list R).
  Definition window (cache : wcache) (n : nat) (wdata : nat -> list R) : wcache * list R :=
    match find (fun p => Nat.eqb (fst p) n) cache with
    | Some (_, w) => (cache, w)
    | None => ((n, wdata n) :: cache, wdata n)
    end.
  (** [x.view((batch, size, x.shape[2]))] of a (batch, n_windows, size) tensor: the shape
      of the result *)
  Definition short_time_dct_shape (batch samples size step : nat) : result (nat * nat * nat) :=
    if Nat.eqb size 0 || Nat.eqb step 0 || Nat.ltb samples size then Raise RuntimeError
    else let n_windows := ((samples - size) / step + 1)%nat in
         if Nat.eqb (batch * n_windows * size) (batch * size * size) then Ok (batch, size, size) else Raise RuntimeError.
End ShortTime.
