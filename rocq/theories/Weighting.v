(** Model of zounds/spectral/weighting.py (FrequencyWeighting, AWeighting) and of
    the weights methods of zounds/spectral/tfrepresentation.py:43-46.  Real
    numbers; a band centred on 0 Hz (whose logarithm is -inf) is not modelled:
    the theorems assume non-zero centre frequencies. *)
From Verif Require Import PyBase PyFacts PyMore Freq FreqDim.
Local Open Scope R_scope.

Definition log10 (x : R) : R := ln x / ln 10.
Definition sq (x : R) : R := x ^ 2.
(** weighting.py:73-80: [2 + 20 log10(a / (b * sqrt(c * d) * e))] of a centre
    frequency ([center_frequencies] holds the squares) *)
Definition a_curve (cf : R) : R :=
  let x := sq cf in
  let a := 12200 ^ 2 * sq x in
  let b := x + 20.6 ^ 2 in
  let c := x + 107.7 ^ 2 in
  let d := x + 737.9 ^ 2 in
  let e := x + 12200 ^ 2 in
  2 + 20 * log10 (a / (b * sqrt (c * d) * e)).
(** numpy: np.min of a non-empty array *)
Definition np_min (l : list R) : R := match l with [] => 0 | x :: r => fold_left Rmin r x end.

Inductive weighting := Flat | AWeighting.
(** weighting.py:12-13 and 72-81 _wdata.  np.min of an empty array is a
    ValueError.  A band centred on 0 Hz makes numpy's logarithm -inf; Coq's is 0,
    so every theorem about AWeighting assumes there is none. *)
Definition wdata (w : weighting) (s : scale) : result (list R) :=
  match w with
  | Flat => Ok (repeat 1 (scale_len s))
  | AWeighting =>
      do bs <- scale_bands s;
      let result := map (fun b => a_curve (center b)) bs in
      match result with
      | [] => Raise ValueError
      | _ => Ok (map (fun r => 1 + (r - np_min result)) result)
      end
  end.

(** dimensions as far as they matter here: a frequency dimension, one with
    explicit slices, or one without the attribute [scale] *)
Inductive wdim := WFreq (s : scale) | WExplicit (d : efd) | WOther.

(** weighting.py:28-36 _get_factors: the first dimension with a scale; its
    [weights] (tfrepresentation.py:43-46: the weights reshaped to lie along that
    axis; 109-113: a flat array, which numpy broadcasts along the last axis).
    The result is the axis and the factor of every position along it. *)
Fixpoint get_factors (w : weighting) (dims : list wdim) (axis ndim : nat) : result (nat * list R) :=
  match dims with
  | [] => Raise ValueError
  | WFreq s :: _ => do ws <- wdata w s; Ok (axis, ws)
  | WExplicit d :: _ => do ws <- wdata w (escale d); do f <- efd_weights d ws; Ok ((ndim - 1)%nat, f)
  | WOther :: rest => get_factors w rest (S axis) ndim
  end.

(** an N-dimensional array: shape and value at every index tuple *)
Record nd := mkNd { shape : list nat; at_index : list nat -> R }.
Inductive ufunc := Multiply | Divide | OtherUfunc.

(** weighting.py:38-48 __array_ufunc__.  [first] says that the weighting is the
    left operand.  NotImplemented from every operand is a TypeError.  Numpy's
    broadcast needs the factors to fit the axis (or be one number). *)
Definition apply_ufunc (u : ufunc) (x y : R) : R :=
  match u with Multiply => x * y | _ => x / y end.
Definition weight_ufunc (u : ufunc) (w : weighting) (first : bool) (a : nd) (dims : list wdim) : result nd :=
  match u with
  | OtherUfunc => Raise TypeError
  | _ =>
      do af <- get_factors w dims 0 (length dims);
      let '(axis, f) := af in
      if (length f =? nth axis (shape a) 0)%nat then
        Ok (mkNd (shape a) (fun ix =>
          let k := nth (nth axis ix 0%nat) f 0 in
          if first then apply_ufunc u k (at_index a ix) else apply_ufunc u (at_index a ix) k))
      else if (length f =? 1)%nat then
        Ok (mkNd (shape a) (fun ix =>
          let k := nth 0 f 0 in
          if first then apply_ufunc u k (at_index a ix) else apply_ufunc u (at_index a ix) k))
      else Raise ValueError
  end.
