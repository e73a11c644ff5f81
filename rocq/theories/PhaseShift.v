(** Model of [phase_shift] (zounds/spectral/functional.py:214-237) on arrays of complex
    coefficients with one or two dimensions.  The quotient [time_shift / samplerate.frequency]
    is exact. *)
From Verif Require Import PyBase PyFacts PyMore Freq FreqDim Spectral.
From Coq Require Import Reals.
Local Open Scope R_scope.

(** the dimension of [coeffs] along [axis]: functional.py:215-219 *)
Inductive pdim := PFreq (s : scale) | POther.
(** functional.py:222, [int(time_shift / samplerate.frequency)], in picoseconds *)
Definition shift_samples (time_shift frequency : Z) : Z := Z.quot time_shift frequency.
(** functional.py:223-224 *)
Definition shift_factors (n_coeffs : nat) (samples : Z) : list cplx :=
  map (fun k => cexp_neg (INR k * (2 * PI) / INR n_coeffs * IZR samples)) (seq 0 n_coeffs).

(** [x[frequency_band]] for a one-dimensional array: where the selection begins and how long it
    is; the scale of the selection is made as well, which fails on an empty one
    (functional.py:227, 231, 236) *)
Definition select (s : scale) (frequency_band : option band) : result (nat * nat) :=
  match frequency_band with
  | None => Ok (0%nat, scale_len s)
  | Some q => do p <- get_slice_band s q; do _ <- scale_slice s (IBand q); Ok p
  end.
(** numpy: [x[a:b]] *)
Definition cut {A} (p : nat * nat) (x : list A) : list A := firstn (snd p - fst p) (skipn (fst p) x).
(** numpy: [x[a:b] = v] for [v] of that length *)
Definition paste {A} (p : nat * nat) (v x : list A) : list A :=
  firstn (fst p) x ++ v ++ skipn (fst p + length v) x.
(** numpy: [x * y] for one-dimensional arrays of the same length *)
Definition mul_lists (x y : list cplx) : list cplx := map (fun q => cmul (fst q) (snd q)) (combine x y).
(** numpy: [x *= y] in place; [y] of one number is repeated *)
Definition imul (x y : list cplx) : result (list cplx) :=
  if Nat.eqb (length x) (length y) then Ok (mul_lists x y)
  else if Nat.eqb (length y) 1 then Ok (map (fun a => cmul a (nth 0 y (0, 0))) x)
  else Raise ValueError.

(** functional.py:230-232, one dimension *)
Definition phase_shift1 (d : pdim) (frequency time_shift : Z) (frequency_band : option band) (coeffs : list cplx) : result (list cplx) :=
  match d with
  | POther => Raise ValueError
  | PFreq s =>
      let shift := shift_factors (length coeffs) (shift_samples time_shift frequency) in
      do p <- select s frequency_band;
      do v <- imul (cut p coeffs) (cut p shift);
      Ok (paste p v coeffs)
  end.
(** functional.py:234-237, two dimensions, the last one *)
Definition phase_shift_last (d : pdim) (frequency time_shift : Z) (frequency_band : option band) (n_coeffs : nat) (coeffs : list (list cplx))
  : result (list (list cplx)) :=
  match d with
  | POther => Raise ValueError
  | PFreq s =>
      let shift := shift_factors n_coeffs (shift_samples time_shift frequency) in
      do p <- select s frequency_band;
      mapM (fun r => do v <- imul (cut p r) (cut p shift); Ok (paste p v r)) coeffs
  end.
(** the same with [axis=0]: the rows of the band are multiplied by the factors, which numpy
    lays along the last axis *)
Definition phase_shift_first (d : pdim) (frequency time_shift : Z) (frequency_band : option band) (coeffs : list (list cplx))
  : result (list (list cplx)) :=
  match d with
  | POther => Raise ValueError
  | PFreq s =>
      let shift := shift_factors (length coeffs) (shift_samples time_shift frequency) in
      do p <- select s frequency_band;
      do v <- mapM (fun r => imul r (cut p shift)) (cut p coeffs);
      Ok (paste p v coeffs)
  end.
