(** DctTransform's axis argument (zounds/learn/dct_transform.py:46-117) on arrays of two axes:
    a list of rows of [cols] entries. The matrix product always runs along the last axis; only
    sizes, slices and the scale are taken from the axis given. *)
From Coq Require Import ZArith QArith Reals.
From Verif Require Import PyBase PyFacts PyMore Time Freq FreqDim Spectral Resample Decompose Square Float64 Time64 Fractions.
Local Open Scope Z_scope.

(** [x.shape[axis]] for two axes: which axis, or an IndexError *)
Definition axis_of (axis : Z) : result nat :=
  if (axis =? 0) || (axis =? -2) then Ok 0%nat
  else if (axis =? 1) || (axis =? -1) then Ok 1%nat
  else Raise IndexError.
Definition size_along (k : nat) (x : arr2 R) : nat := if Nat.eqb k 0 then length (rows x) else cols x.
(** dct_transform.py:46-60 dct ([f] is [dct]) and idct ([f] is [idct]): a basis for the size of
    the axis (none for size 0), then [torch.matmul(x, basis)], which needs the last axis to be
    of that size (else torch's RuntimeError) *)
Definition transform_along (f : list R -> list R) (axis : Z) (x : arr2 R) : result (arr2 R) :=
  do k <- axis_of axis;
  let n := size_along k x in
  if Nat.eqb n 0 then Raise ZeroDivisionError
  else if Nat.eqb n (cols x) then Ok (mkArr (cols x) (map f (rows x)))
  else Raise OtherError.
(** dct_transform.py:62-91 dct_resample: the number of coefficients along [axis], and [dct],
    [idct] along the last *)
Definition resized {A} (zero : A) (m : nat) (l : list A) : list A := firstn m l ++ repeat zero (m - length l).
Definition zeroed_rows (c : nat) (zero_slice : option pyslice) (l : list (list R)) : list (list R) :=
  match zero_slice with
  | None => l
  | Some s => let z := apply_slice s (seq 0 (length l)) in
              map (fun j => if existsb (Nat.eqb j) z then repeat 0%R c else nth j l []) (seq 0 (length l))
  end.
Definition dct_resample_along (factor : Q) (axis : Z) (zero_slice : option pyslice) (x : arr2 R) : result (arr2 R) :=
  do k <- axis_of axis;
  let n := part64 factor (Z.of_nat (size_along k x)) in
  do coeffs <- transform_along dct (-1) x;
  if n <? 0 then Raise OtherError
  else
    let m := Z.to_nat n in
    let new := if Nat.eqb k 0 then mkArr (cols x) (zeroed_rows (cols x) zero_slice (resized (repeat 0%R (cols x)) m (rows coeffs)))
               else mkArr m (map (fun c => zeroed zero_slice (resized 0%R m c)) (rows coeffs)) in
    transform_along idct (-1) new.
(** dct_transform.py:93-117 frequency_decomposition along the first axis *)
Definition band_rows (c : nat) (coeffs : list (list R)) (start stop : nat) : result (arr2 R) :=
  let src := firstn (stop - start) (skipn start coeffs) in
  do s <- (if Nat.eqb (length src) (stop - start) then Ok src
           else if Nat.eqb (length src) 1 then Ok (repeat (nth 0 src []) (stop - start))
           else Raise OtherError);
  transform_along idct (-1) (mkArr c (repeat (repeat 0%R c) start ++ s)).
Definition decomposition_rows (factors : list Q) (x : arr2 R) : result (list (arr2 R)) :=
  let size f := Z.to_nat (part64 f (Z.of_nat (length (rows x)))) in
  let factors := sort_q factors in
  do coeffs <- transform_along dct 0 x;
  mapM (fun p => band_rows (cols x) (rows coeffs) (size (fst p)) (size (snd p))) (combine (0%Q :: factors) factors).
