(** Model of the filter banks: zounds/spectral/functional.py (morlet_filter_bank,
    fir_filter_bank, auto_correlogram) and zounds/learn/spectral.py (FilterBank), in exact
    real arithmetic.  torch's conv1d, conv_transpose1d, relu and avg_pool1d, numpy's
    linspace and scipy's morlet are modelled by their documented formulas; one channel in,
    one channel per band out, as the code calls them. *)
From Verif Require Import PyBase PyMore Time Spectral Loss NetUtil.
From Coq Require Import Reals ZArith.
Local Open Scope R_scope.

(** numpy: linspace(a, b, n)[i], both ends included; a single point is [a] *)
Definition linspace (a b : R) (n i : nat) : R := a + INR i * ((b - a) / INR (n - 1)).
(** scipy.signal.morlet(M, w, s), complete, the real part (functional.py:339) *)
Definition morlet_real (M : nat) (w s : R) : list R :=
  map (fun i => let x := linspace (- s * 2 * PI) (s * 2 * PI) M i in
                (cos (w * x) - exp (- / 2 * (w * w))) * (exp (- / 2 * (x * x)) * Rpower PI (- / 4)))
      (seq 0 M).

(** functional.py:292-347.  [centers] are the centre frequencies of the bands of the scale,
    [sr] is int(samplerate).  A number has no length (TypeError), so it is repeated. *)
Inductive scaling := One (s : R) | PerBand (l : list R).
Definition band_filter (sr : Z) (kernel_size : nat) (center s : R) : list R :=
  let w := center / (s * 2 * IZR sr / INR kernel_size) in
  morlet_real kernel_size w s.
(** functional.py:341-342 *)
Definition unit_row (row : list R) : list R := map (fun v => v / (euclid row + / 10 ^ 8)) row.
Definition morlet_filter_bank (sr : Z) (kernel_size : nat) (centers : list R) (f : scaling) (normalize : bool)
  : result (list (list R)) :=
  do factors <- match f with
                | One s => Ok (repeat s (length centers))
                | PerBand l => if Nat.eqb (length l) (length centers) then Ok l else Raise ValueError
                end;
  let basis := map (fun cs => band_filter sr kernel_size (fst cs) (snd cs)) (combine centers factors) in
  Ok (if normalize then map unit_row basis else basis).

(** functional.py:277-287: what [firwin2] is asked for, for one band and its window;
    [np.linspace(a, b, n, endpoint=False)[k]] is [a + k (b - a) / n] *)
Definition fir_request (nyq start_hz stop_hz : R) (win : list R) : list R * list R :=
  let start_hz := Rmax 0 start_hz in
  let stop_hz := Rmin nyq stop_hz in
  let a := start_hz / nyq in
  let b := stop_hz / nyq in
  let n := length win in
  ([0] ++ map (fun k => a + INR k * ((b - a) / INR n)) (seq 0 n) ++ [1], [0] ++ win ++ [0])%list.
(** scipy.signal.firwin2's own checks on the frequencies (nyq = 1) *)
Fixpoint nondecreasing (l : list R) : bool :=
  match l with
  | x :: ((y :: _) as r) => (if Rlt_dec y x then false else true) && nondecreasing r
  | _ => true
  end.
Fixpoint no_triple (l : list R) : bool :=
  match l with
  | x :: ((y :: z :: _) as r) => (if Req_EM_T x y then if Req_EM_T y z then false else true else true) && no_triple r
  | _ => true
  end.
Definition firwin2_accepts (freqs gains : list R) : bool :=
  Nat.eqb (length freqs) (length gains) &&
  (if Req_EM_T (hd 1 freqs) 0 then true else false) && (if Req_EM_T (last freqs 0) 1 then true else false) &&
  nondecreasing freqs && no_triple freqs.
(** functional.py:269-289: the requests for every band; a one-dimensional window is used
    for every band, several windows (2-D) one each; [zip] stops at the shortest *)
Inductive windows := Shared (w : list R) | Each (l : list (list R)).
Definition fir_requests (nyq : R) (bands : list (R * R)) (w : windows) : list (list R * list R) :=
  let ws := match w with Shared w => repeat w (length bands) | Each l => l end in
  map (fun bw => fir_request nyq (fst (fst bw)) (snd (fst bw)) (snd bw)) (combine bands ws).

(** ** learn/spectral.py *)

(** torch: F.conv1d of one channel with one filter of [length f] taps, zero padding [p] *)
Definition conv1d (p : nat) (f x : list R) : list R :=
  let x := (repeat 0 p ++ x ++ repeat 0 p)%list in
  map (fun j => rsum (length f) (fun k => at_ x (j + k) * at_ f k)) (seq 0 (length x + 1 - length f)).
(** spectral.py:67-71: one signal; the bands are the channels of the result.  torch refuses
    a kernel larger than the padded input. *)
Definition convolve (bank : list (list R)) (kernel_size : nat) (x : list R) : result (list (list R)) :=
  let p := (kernel_size / 2)%nat in
  if Nat.ltb (length x + 2 * p) kernel_size then Raise RuntimeError
  else Ok (map (fun f => conv1d p f x) bank).
(** spectral.py:73-76: torch's conv_transpose1d, [m] positions per band in, sums over the
    bands *)
Definition transposed_convolve (bank : list (list R)) (kernel_size m : nat) (y : list (list R)) : list R :=
  let p := (kernel_size / 2)%nat in
  map (fun i => rsum (length bank) (fun b => rsum m (fun j =>
         if (Nat.leb j (i + p) && Nat.ltb (i + p - j) kernel_size)%bool
         then at_ (nth b y []) j * at_ (nth b bank []) (i + p - j) else 0)))
      (seq 0 (m - 1 + kernel_size - 2 * p)).
(** spectral.py:78-81 *)
Definition log_magnitude1 (v : R) : R := 20 * (ln (1 + Rmax v 0) / ln 10).
Definition log_magnitude (x : list (list R)) : list (list R) := map (map log_magnitude1) x.
(** spectral.py:83-85: torch's avg_pool1d counts the zeros of the padding *)
Definition pool1 (k stride : nat) (row : list R) : list R :=
  let p := (k / 2)%nat in
  let x := (repeat 0 p ++ row ++ repeat 0 p)%list in
  map (fun j => rsum k (fun m => at_ x (j * stride + m)) / INR k) (seq 0 ((length x - k) / stride + 1)).
Definition temporal_pooling (k stride : nat) (x : list (list R)) : list (list R) := map (pool1 k stride) x.
(** spectral.py:87-107 for samples of one channel: (1, bands, frames) squeezed and
    transposed; two dimensions are given, so an array of fewer is a ValueError
    (axis.py:44-49).  The result is the time dimension (frequency, duration) and the rows,
    one per frame. *)
Definition transform (bank : list (list R)) (kernel_size : nat) (frequency : Z) (k stride : nat) (samples : list R)
  : result ((Z * Z) * list (list R)) :=
  do spectral <- convolve bank kernel_size samples;
  let pooled := temporal_pooling k stride (log_magnitude spectral) in
  let bands := length pooled in
  let frames := length (hd [] pooled) in
  if (Nat.eqb bands 1 || Nat.eqb frames 1)%bool then Raise ValueError
  else Ok (((frequency * Z.of_nat stride)%Z, (frequency * Z.of_nat k)%Z),
           map (fun t => map (fun b => at_ (nth b pooled []) t) (seq 0 bands)) (seq 0 frames)).
(** the rows of a flat array of [n] columns *)
Fixpoint rows_of (n count : nat) (l : list R) : list (list R) :=
  match count with O => [] | S c => firstn n l :: rows_of n c (skipn n l) end.
(** spectral.py:109-117, one signal of the batch; [None] is not-a-number *)
Definition forward (bank : list (list R)) (kernel_size : nat) (x : list R) (normalize : bool) : result (option (list (list R))) :=
  do y <- convolve bank kernel_size x;
  let y := log_magnitude y in
  let y := if normalize
           then match batchwise_mean_std (/ 10 ^ 8) (List.concat y) with
                | None => None
                | Some flat => Some (rows_of (length (hd [] y)) (length y) flat)
                end
           else Some y in
  Ok (option_map (map (firstn (length x))) y).

(** ** functional.py:350-378 auto_correlogram *)
(** functional.py:354-357: windows of the samples times the filters *)
Definition filtered (bank : list (list R)) (filter_size : nat) (x : list R) : result (list (list R)) :=
  if Nat.ltb (length x) filter_size then Raise ValueError
  else Ok (map (fun t => map (fun f => rsum filter_size (fun k => at_ x (t + k) * at_ f k)) bank)
               (seq 0 (length x - filter_size + 1))).
(** np.abs(c) ** 2 *)
Definition power2 (c : cplx) : R := fst c * fst c + snd c * snd c.
(** np.fft.fft(_, norm='ortho') *)
Definition fft_ortho (x : list R) : list cplx :=
  let n := length x in map (fun k => cscale (/ sqrt (INR n)) (fft n n (fun t => (at_ x t, 0)) k)) (seq 0 n).
(** np.fft.ifft(_, norm='ortho') of real numbers *)
Definition ifft_ortho (x : list R) : list cplx :=
  let n := length x in
  map (fun l => cscale (/ sqrt (INR n)) (csum n (fun k => cscale (at_ x k) (cexp_neg (- (2 * PI * INR k * INR l / INR n)))))) (seq 0 n).
(** functional.py:366-377: one window of one band *)
Definition correlate (corr_win_samples : nat) (s : list R) : list cplx :=
  let padded := (s ++ repeat 0 corr_win_samples)%list in
  let coeffs := fft_ortho padded in
  let correlated := ifft_ortho (map power2 coeffs) in
  (skipn corr_win_samples correlated ++ firstn corr_win_samples correlated)%list.
(** the whole: by time, then by band (the axis of length one and the order of the last two
    axes are left out) *)
Definition auto_correlogram (bank : list (list R)) (filter_size : nat) (frequency correlation_window : Z) (x : list R)
  : result (list (list (list cplx))) :=
  let w := Z.to_nat (Z.quot correlation_window frequency) in
  do f <- filtered bank filter_size x;
  if Nat.ltb (length f) w then Raise ValueError
  else Ok (map (fun t => map (fun b => correlate w (map (fun m => at_ (nth (t + m) f []) b) (seq 0 w))) (seq 0 (length bank)))
               (seq 0 (length f - w + 1))).
