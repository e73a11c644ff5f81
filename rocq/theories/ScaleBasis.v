(** Model of the application of a frequency scale to a spectrogram:
    zounds/spectral/frequencyscale.py FrequencyScale._basis / apply,
    ChromaScale._basis, zounds/spectral/functional.py apply_scale and
    zounds/spectral/spectral.py BaseScaleApplication.  Values are real numbers;
    float64 rounding is not modelled. *)
From Verif Require Import PyBase PyFacts PyMore Freq.
Local Open Scope R_scope.

(** What may be passed as [window]: [None], a number, an IdentityWindowingFunc, or
    a WindowingFunc, given by its function from a size to an array
    (sliding_window.py:53-86). *)
Inductive win :=
| WNone
| WScalar (r : R)
| WIdentity
| WFunc (f : nat -> result (list R)).

(** [window * np.ones(n)] (frequencyscale.py:268, 622).  [None * array] is a
    TypeError; sliding_window.py:67-86 multiplies by the window of that size
    (broadcasting a single value) and returns the array itself for the identity. *)
Definition win_ones (w : win) (n : nat) : result (list R) :=
  match w with
  | WNone => Raise TypeError
  | WScalar r => Ok (repeat r n)
  | WIdentity => Ok (repeat 1 n)
  | WFunc f =>
      do v <- f n;
      if (length v =? n)%nat then Ok v
      else match v with [x] => Ok (repeat x n) | _ => Raise ValueError end
  end.

(** numpy: the length of [row[a:b]], 0 <= a *)
Definition slice_len (m : nat) (p : nat * nat) : nat := (Nat.min (snd p) m - fst p)%nat.
(** numpy: [row[a:b][:] = v] for [v] of that length *)
Definition put_slice (row : list R) (p : nat * nat) (v : list R) : list R :=
  firstn (fst p) row ++ v ++ skipn (fst p + length v) row.
(** numpy: [row[a:b][:] += v] for [v] of that length *)
Definition add_to_slice (row : list R) (p : nat * nat) (v : list R) : list R :=
  put_slice row p (map (fun q => fst q + snd q) (combine (firstn (length v) (skipn (fst p) row)) v)).

(** frequencyscale.py:263-269 FrequencyScale._basis: one row per band of this
    scale, one column per band of the other *)
Definition basis_row (other : scale) (w : win) (b : band) : result (list R) :=
  do p <- get_slice_band other b;
  do v <- win_ones w (slice_len (scale_len other) p);
  Ok (put_slice (repeat 0 (scale_len other)) p v).
Definition base_basis (self other : scale) (w : win) : result (list (list R)) :=
  do bs <- scale_bands self; mapM (basis_row other w) bs.

(** frequencyscale.py:583-587 ChromaScale.get_slice raises; so does using a
    ChromaScale as the other scale ([get_slice_band] needs its bands). *)

(** numpy: np.round (half to even) on a real number *)
Definition rround (x : R) : Z :=
  let n := Int_part x in
  if Rltb (frac_part x) (/ 2) then n
  else if Rltb (/ 2) (frac_part x) then (n + 1)%Z
  else if Z.even n then n else (n + 1)%Z.

(** frequencyscale.py:589-590 _semitones_to_hz, [440 * (2 ** (1/12)) ** s] *)
Definition semitone_hz (s : Z) : R := 440 * Rpower (Rpower 2 (1 / 12)) (IZR s).
(** frequencyscale.py:592-597 _hz_to_semitones *)
Definition hz_semitone (hz : R) : R := ln (hz / 440) / ln (Rpower 2 (1 / 12)).
(** frequencyscale.py:605-608 [int(np.round(...))]: the logarithm of 0 is -inf
    (OverflowError), of a negative number nan (ValueError) *)
Definition hz_to_int_semitone (hz : R) : result Z :=
  if Rltb hz 0 then Raise ValueError
  else if Reqb hz 0 then Raise OverflowError
  else Ok (rround (hz_semitone hz)).

(** frequencyscale.py:610 [np.arange(start - 1, stop)] *)
Definition semitone_range (start stop : Z) : list Z :=
  map (fun i => (start - 1 + Z.of_nat i)%Z) (seq 0 (Z.to_nat (stop - start + 1))).
(** frequencyscale.py:613-616 the narrow bands: [hz[i]] to [hz[i + 2]] for i in
    range(0, len(semitones) - 2) *)
Definition chroma_bands (sts : list Z) : result (list band) :=
  let hz := map semitone_hz sts in
  mapM (fun i => make_band (nth i hz 0) (nth (i + 2) hz 0)) (seq 0 (length sts - 2)).

(** numpy: [basis[c]] updated in place *)
Fixpoint update_row (basis : list (list R)) (c : nat) (f : list R -> list R) : list (list R) :=
  match basis, c with
  | [], _ => []
  | r :: rest, O => f r :: rest
  | r :: rest, S c' => r :: update_row rest c' f
  end.
(** frequencyscale.py:618-622 the loop over [zip(semitones, bands)] *)
Fixpoint chroma_loop (other : scale) (w : win) (pairs : list (Z * band)) (basis : list (list R))
  : result (list (list R)) :=
  match pairs with
  | [] => Ok basis
  | (s, b) :: rest =>
      do p <- get_slice_band other b;
      let c := Z.to_nat (s mod 12) in
      do v <- win_ones w (slice_len (scale_len other) p);
      chroma_loop other w rest (update_row basis c (fun row => add_to_slice row p v))
  end.
(** frequencyscale.py:599-624 ChromaScale._basis *)
Definition chroma_basis (fb : band) (other : scale) (w : win) : result (list (list R)) :=
  do start <- hz_to_int_semitone (bstart fb);
  do stop <- hz_to_int_semitone (bstop fb);
  let sts := semitone_range start stop in
  do bs <- chroma_bands sts;
  chroma_loop other w (combine sts bs) (repeat (repeat 0 (scale_len other)) 12).

Definition scale_basis (self other : scale) (w : win) : result (list (list R)) :=
  match self with
  | Chroma fb => chroma_basis fb other w
  | _ => base_basis self other w
  end.

(** numpy: the inner product of two vectors *)
Definition dot (a b : list R) : R :=
  fold_right Rplus 0 (map (fun p => fst p * snd p) (combine a b)).

(** frequencyscale.py:271-274 apply, on a two-dimensional array with frames as
    rows whose last dimension has scale [other]: [np.dot(basis, x.T).T] *)
Definition scale_apply (self other : scale) (w : win) (x : list (list R)) : result (list (list R)) :=
  do basis <- scale_basis self other w;
  if forallb (fun r => (length r =? scale_len other)%nat) x
  then Ok (map (fun r => map (fun b => dot b r) basis) x)
  else Raise ValueError.

(** functional.py:240-244 apply_scale: [np.abs(x.real)], then apply; coefficients
    are pairs (real part, imaginary part).  The default window is None. *)
Definition apply_scale (self other : scale) (w : win) (x : list (list (R * R))) : result (list (list R)) :=
  scale_apply self other w (map (map (fun z => Rabs (fst z))) x).

(** spectral.py:229-235 BaseScaleApplication._process for BarkBands (247-259):
    [np.abs] of the complex coefficients *)
Definition cabs (z : R * R) : R := sqrt (fst z * fst z + snd z * snd z).
Definition bark_bands_node (fb : band) (n : nat) (w : win) (other : scale) (x : list (list (R * R)))
  : result (list (list R)) :=
  scale_apply (BarkS fb n) other w (map (map cabs) x).
