(** Model of the processing graphs of zounds/basic/audiograph.py from the resampled samples
    on: the SlidingWindow node and the per-chunk nodes of zounds/spectral/spectral.py behind
    it, and of the nodes of zounds/basic/basic.py.  Values are real numbers; how the nodes
    compute their sample rate is modelled in doubles.  A node receives its input chunk by
    chunk; what is stored is the rows of all its chunks (C34). *)
From Coq Require Import ZArith QArith Qround Reals.
From Verif Require Import PyBase PyFacts PyMore Time Float64 Freq FreqDim Axis Windowed NdWindow SlidingNode Spectral Stft ScaleBasis Weighting Synths.
Local Open Scope R_scope.

(** a two-dimensional ArrayWithUnits: its dimensions, its number of columns and its rows *)
Record arr (A : Type) := mkArr { a_dims : list dim; a_width : nat; a_rows : list (list A) }.
Arguments mkArr {A}. Arguments a_dims {A}. Arguments a_width {A}. Arguments a_rows {A}.

(** samplerate.py:279-285 HalfLapped(): [Picoseconds(int(1e12)) / 44100.] is truncated *)
Definition half_lapped_scheme : samplerate :=
  let one_sample := (10 ^ 12 / 44100)%Z in
  {| sr_freq := one_sample * 1024; sr_dur := one_sample * 2048 |}.

(** sliding_window.py:160-208 with axis.py:201-217: the SlidingWindow node on one-dimensional
    samples; [wfunc] gives the window of a size.  Windows of one sample stay flat, and the two
    dimensions do not fit. *)
Definition windowed_node (t : timedim) (wsr : samplerate) (wfunc : option (nat -> list R)) (padwith : nat) (chunks : list (list R))
  : result (list (arr R)) :=
  do w <- span_samples t (sr_dur wsr);
  do h <- span_samples t (sr_freq wsr);
  do m <- modified_dimension t w (Some h);
  do outs <- run 0 {| c_window := w; c_step := h; c_padwith := padwith;
                      c_func := option_map (fun f x => apply_window (Some (f (Z.to_nat w))) x) wfunc |} chunks;
  mapM (fun o => match o with
                 | Windowed.Flat _ => Raise ValueError
                 | Rows r => do ds <- fit_dims [DTime m; DTime t] [length r; Z.to_nat w];
                             Ok (mkArr ds (Z.to_nat w) r)
                 end) outs.

(** spectral.py:56-57 FFT._process with the default axis *)
Definition fft_node (padding : nat) (a : arr R) : result (arr cplx) :=
  match a_dims a with
  | [d0; d1] =>
      do x <- fft_rows d0 d1 padding (a_width a) (a_rows a);
      Ok (mkArr (fst x) ((a_width a + padding) / 2 + 1) (snd x))
  | _ => Raise ValueError
  end.

(** spectral.py:83-84, 120-121 [int(data.shape[1] / data.dimensions[0].duration_in_seconds)],
    in doubles; timeseries.py:197-199 [duration / Picoseconds(int(1e12))] *)
Definition dct_rate (n duration : Z) : Z := Qfloor (fl (inject_Z n / seconds duration)%Q).
(** spectral.py:83-86, 120-123 and frequencyscale.py:386-398: the scale of the coefficients *)
Definition dct_scale (n : nat) (duration : Z) (always_even : bool) : result scale :=
  do r <- audio_sample_rate (dct_rate (Z.of_nat n) duration);
  do sr <- audio_rate r;
  do fb <- make_band 0 (IZR (nyquist sr));
  Ok (Linear fb n always_even).
(** spectral.py:80-89 DCT._process, 119-126 DCTIV._process: one row transformation *)
Definition cosine_node (transform : list R -> list R) (always_even : bool) (a : arr R) : result (arr R) :=
  match a_dims a with
  | [DTime t0; _] =>
      do s <- dct_scale (a_width a) (t_dur t0) always_even;
      do ds <- fit_dims [DTime t0; DFreq s] [length (a_rows a); a_width a];
      Ok (mkArr ds (a_width a) (map transform (a_rows a)))
  | _ => Raise AttributeError
  end.
Definition dct_node := cosine_node dct2_ortho.
Definition dctiv_node := cosine_node dctiv.

(** the HanningWindowingFunc that is the default window of Chroma and BarkBands,
    spectral.py:239-240, 252, sliding_window.py:109-115 *)
Definition hanning_list (n : nat) : list R := map (Stft.hanning n) (seq 0 n).
Definition hanning_win : win := WFunc (fun n => Ok (hanning_list n)).
(** spectral.py:219-235 BaseScaleApplication._process of BarkBands (247-259) *)
Definition bark_node (fb : band) (n : nat) (a : arr cplx) : result (arr R) :=
  match a_dims a with
  | [d0; DFreq other] =>
      do x <- bark_bands_node fb n hanning_win other (a_rows a);
      do ds <- fit_dims [d0; DFreq (BarkS fb n)] [length (a_rows a); n];
      Ok (mkArr ds n x)
  | _ => Raise AttributeError
  end.
(** spectral.py:237-246 Chroma: [np.abs(data) * AWeighting()] (weighting.py:28-48; the frequency
    dimension is the only one with a scale), then the scale *)
Definition chroma_node (fb : band) (a : arr cplx) : result (arr R) :=
  match a_dims a with
  | [d0; DFreq other] =>
      do ws <- wdata AWeighting other;
      let x := map (fun r => map (fun p => cabs (fst p) * snd p) (combine r ws)) (a_rows a) in
      do y <- scale_apply (Chroma fb) other hanning_win x;
      do ds <- fit_dims [d0; DIdent] [length (a_rows a); 12%nat];
      Ok (mkArr ds 12 y)
  | _ => Raise AttributeError
  end.

(** nputil/npx.py:36-44 safe_log *)
Definition safe_log (x : list R) : result (list R) :=
  if existsb (fun v => Rltb v 0) x then Raise ValueError else Ok (map (fun v => ln (v + / 10 ^ 12)) x).
(** [scipy.fftpack.dct(x, axis=1)], type II, not normalised, one row *)
Definition dct2_raw (x : list R) : list R :=
  let n := length x in
  map (fun k => 2 * rsum n (fun t => at_ x t * cos (PI * INR k * (INR t + / 2) / INR n))) (seq 0 n).
(** spectral.py:323-338 BFCC._process *)
Definition bfcc_node (n_coeffs exclude : nat) (a : arr cplx) : result (arr R) :=
  match a_dims a with
  | d0 :: _ =>
      do logs <- mapM (fun r => safe_log (map cabs r)) (a_rows a);
      let out := map (fun r => firstn n_coeffs (skipn exclude (dct2_raw r))) logs in
      let width := Nat.min n_coeffs (a_width a - exclude) in
      do ds <- fit_dims [d0; DIdent] [length (a_rows a); width];
      Ok (mkArr ds width out)
  | [] => Raise IndexError
  end.

(** spectral.py:276-286 SpectralCentroid: the bins come from the first chunk *)
Definition centroid_row (bins : nat) (x : list R) : R :=
  rsum (length x) (fun i => Rabs (at_ x i) * INR (S i)) / rsum bins (fun i => INR (S i)).
Definition centroid_node (chunks : list (arr R)) : result (list (list R)) :=
  match chunks with
  | [] => Ok []
  | first :: _ =>
      let bins := a_width first in
      mapM (fun a => if Nat.eqb (a_width a) bins then Ok (map (centroid_row bins) (a_rows a)) else Raise ValueError) chunks
  end.

Record features := mkFeatures {
  g_windowed : list (arr R); g_dct : list (arr R); g_fft : list (arr cplx);
  g_bark : list (arr R); g_centroid : list (list R); g_chroma : list (arr R); g_bfcc : list (arr R) }.
(** audiograph.py:174-262 [audio_graph], from the samples at the rate [resample_to] on.
    The nodes run chunk by chunk one after the other; only which of several errors comes
    first depends on that. *)
Definition sample_dim (rate : Z) : timedim :=
  let one := (10 ^ 12 / rate)%Z in {| t_freq := one; t_dur := one; t_size := None |}.
Definition audio_graph (resample_to : Z) (chunks : list (list R)) : result features :=
  do sr <- audio_rate resample_to;
  do fb <- make_band 20 (IZR (nyquist sr));
  do windowed <- windowed_node (sample_dim resample_to) half_lapped_scheme (Some oggvorbis) 0 chunks;
  do dct <- mapM (dct_node false) windowed;
  do fft <- mapM (fft_node 0) windowed;
  do bark <- mapM (bark_node fb 100) fft;
  do centroid <- centroid_node bark;
  do chroma <- mapM (chroma_node fb) fft;
  do bfcc <- mapM (bfcc_node 13 1) fft;
  Ok (mkFeatures windowed dct fft bark centroid chroma bfcc).

(** audiograph.py:126-171 [stft], from the resampled samples on *)
Definition stft_graph (rate : Z) (wsr : samplerate) (fft_padding : nat) (chunks : list (list R)) : result (list (arr R) * list (arr cplx)) :=
  do windowed <- windowed_node (sample_dim rate) wsr (Some oggvorbis) 0 chunks;
  do fft <- mapM (fft_node fft_padding) windowed;
  Ok (windowed, fft).

(** what is stored of a feature: the rows of its chunks *)
Definition stored {A} (chunks : list (arr A)) : list (list A) := List.concat (map a_rows chunks).

(** ** sliding_window.py:53-86: a window and an array of integers, [wdata.astype(dtype)] *)
Definition rtrunc (x : R) : Z := if Rltb x 0 then (- Int_part (- x))%Z else Int_part x.
Definition window_integers (w : list R) (frame : list Z) : list Z :=
  map (fun p => (rtrunc (fst p) * snd p)%Z) (combine w frame).

(** ** basic/basic.py: nodes on the rows of one chunk *)
(** basic.py:73-80 Slice *)
Definition slice_node {A} (start stop : option Z) (rows : list (list A)) : list (list A) :=
  map (py_slice start stop) rows.
(** basic.py:83-98 Sum: [np.sum(axis=...)] without an array is a TypeError, which is not caught *)
Definition sum_node (axis : Z) (rows : list (list R)) : result (list (list R)) := Raise TypeError.
(** basic.py:101-116 Max on a (rows, columns) array.  What is yielded: the maxima, or the array
    itself if there are none or there is no such axis (numpy's AxisError is a ValueError), and
    nothing if it has no first element. *)
Inductive nodeout := ORows (r : list (list R)) | OFlat (r : list R).
Definition max_list (l : list R) : option R := match l with [] => None | x :: r => Some (fold_left Rmax r x) end.
Definition max_node (axis : Z) (width : nat) (rows : list (list R)) : result (list nodeout) :=
  match rows with
  | [] => Ok []
  | _ =>
      if (axis =? 0)%Z || (axis =? -2)%Z then
        Ok (match width with O => [] | _ => [OFlat (map (fun j => match max_list (column rows j) with Some m => m | None => 0 end) (seq 0 width))] end)
      else if (axis =? 1)%Z || (axis =? -1)%Z then
        Ok (match width with O => [ORows rows] | _ => [OFlat (map (fun r => match max_list r with Some m => m | None => 0 end) rows)] end)
      else Ok [ORows rows]
  end.
(** basic.py:119-125 Binarize with a predicate on elements *)
Definition binarize_node {A B} (predicate : A -> B) (rows : list (list A)) : list (list B) := map (map predicate) rows.
