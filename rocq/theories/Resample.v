(** Model of [scipy.signal.resample] (third-party code that zounds calls: written from
    scipy's documented algorithm, spectral truncation or zero-padding, in exact arithmetic)
    for one row of real numbers. *)
From Verif Require Import PyBase PyFacts PyMore Spectral.
From Coq Require Import Reals.
Local Open Scope R_scope.

(** [np.fft.rfft(x)], coefficient k *)
Definition rfft_coeff (x : list R) (k : nat) : cplx := fft (length x) (length x) (fun t => (at_ x t, 0)) k.
(** the new spectrum: the coefficients up to the smaller Nyquist frequency are copied; when
    the smaller size is even its Nyquist coefficient is doubled on the way down and halved
    on the way up; the others are zero *)
Definition resample_spectrum (num : nat) (x : list R) (k : nat) : cplx :=
  let nx := length x in
  let n := Nat.min num nx in
  if Nat.leb k (n / 2) then
    if Nat.eqb (2 * k) n then
      if Nat.ltb num nx then cscale 2 (rfft_coeff x k)
      else if Nat.ltb nx num then cscale (/ 2) (rfft_coeff x k)
      else rfft_coeff x k
    else rfft_coeff x k
  else (0, 0).
(** [np.fft.irfft(y, num)], sample j; the imaginary parts of coefficient 0 and of the Nyquist
    coefficient are ignored *)
Definition irfft_at (num : nat) (y : nat -> cplx) (j : nat) : R :=
  / INR num *
  (fst (y 0%nat)
   + rsum ((num - 1) / 2) (fun i => let k := S i in
       2 * (fst (y k) * cos (2 * PI * INR k * INR j / INR num) - snd (y k) * sin (2 * PI * INR k * INR j / INR num)))
   + if Nat.even num then fst (y (num / 2)%nat) * cos (PI * INR j) else 0).
Definition resample_row (num : nat) (x : list R) : list R :=
  map (fun j => irfft_at num (resample_spectrum num x) j * (INR num / INR (length x))) (seq 0 num).
(** scipy refuses to transform to or from nothing *)
Definition resample (num : nat) (x : list R) : result (list R) :=
  if Nat.eqb num 0 || Nat.eqb (length x) 0 then Raise ValueError else Ok (resample_row num x).
