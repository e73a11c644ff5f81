(** * C106, continued: DctTransform's axis argument on arrays of two axes.

    Model: [DctAxis] (rows of equal length). Along the last axis every row is transformed,
    resampled and split by itself; along the first axis nothing is transformed along that axis. *)
From Coq Require Import ZArith QArith Reals Permutation.
From Verif Require Import PyBase PyFacts PyMore FreqDim Spectral Float64 Time64 Fractions FractionsProofs3 DctAxis DctAxisProofs.
Import ListNotations.
Local Open Scope nat_scope.
Theorem C106_last_axis :
  forall (f : list R -> list R) (axis : Z) (x : arr2 R),
  axis = 1%Z \/ axis = (-1)%Z ->
  0 < cols x -> transform_along f axis x = Ok {| cols := cols x; rows := map f (rows x) |}.
Proof. exact (@last_axis). Qed.
Print Assumptions C106_last_axis.
Theorem C106_first_axis_refuted :
  forall (f : list R -> list R) (axis : Z) (x : arr2 R),
  axis = 0%Z \/ axis = (-2)%Z ->
  0 < length (rows x) ->
  (length (rows x) <> cols x -> transform_along f axis x = Raise OtherError) /\
  (length (rows x) = cols x ->
   transform_along f axis x = Ok {| cols := cols x; rows := map f (rows x) |} /\
   transform_along f axis x = transform_along f (-1) x).
Proof. exact (@first_axis_refuted). Qed.
Print Assumptions C106_first_axis_refuted.
Theorem C106_empty_axis :
  forall (f : list R -> list R) (axis : Z) (x : arr2 R),
  axis_of axis = Ok 0 /\ rows x = [] \/ axis_of axis = Ok 1 /\ cols x = 0 ->
  transform_along f axis x = Raise ZeroDivisionError.
Proof. exact (@empty_axis). Qed.
Print Assumptions C106_empty_axis.
Theorem C106_no_such_axis :
  forall (f : list R -> list R) (axis : Z) (factor : Q) (zs : option pyslice) (x : arr2 R),
  (axis < -2)%Z \/ (1 < axis)%Z ->
  transform_along f axis x = Raise IndexError /\
  dct_resample_along factor axis zs x = Raise IndexError.
Proof. exact (@no_such_axis). Qed.
Print Assumptions C106_no_such_axis.
Theorem C106_resample_last_axis :
  forall (factor : Q) (axis : Z) (zs : option pyslice) (x : arr2 R),
  axis = 1%Z \/ axis = (-1)%Z ->
  rectangular x ->
  rows x <> [] ->
  dct_resample_along factor axis zs x =
  (do r <- mapM (dct_resample64 factor zs) (rows x);
   Ok {| cols := Z.to_nat (part64 factor (Z.of_nat (cols x))); rows := r |}).
Proof. exact (@resample_last_axis). Qed.
Print Assumptions C106_resample_last_axis.
Theorem C106_resample_first_axis_refuted :
  forall (factor : Q) (axis : Z) (x : arr2 R),
  axis = 0%Z \/ axis = (-2)%Z ->
  0 < cols x ->
  let n := part64 factor (Z.of_nat (length (rows x))) in
  (0 <= n)%Z ->
  exists y : arr2 R,
    dct_resample_along factor axis None x = Ok y /\
    cols y = cols x /\
    length (rows y) = Z.to_nat n /\
    (forall i : nat,
     i < Z.to_nat n ->
     nth i (rows y) [] =
     (if i <? length (rows x) then doubled (nth i (rows x) []) else repeat 0%R (cols x))).
Proof. exact (@resample_first_axis_refuted). Qed.
Print Assumptions C106_resample_first_axis_refuted.
Theorem C106_rows_dealt_refuted :
  forall (factors : list Q) (x : arr2 R),
  length (rows x) = cols x ->
  machine_length (rows x) ->
  (forall f : Q, In f factors -> (0 <= f <= 1)%Q) ->
  exists (sizes : list nat) (out : list (arr2 R)),
    decomposition_rows factors x = Ok out /\
    Permutation (map (fun f : Q => Z.to_nat (part64 f (Z.of_nat (length (rows x))))) factors) sizes /\
    (forall i : nat, S i < length sizes -> nth i sizes 0 <= nth (S i) sizes 0) /\
    length out = length factors /\
    (forall i : nat,
     i < length factors ->
     let start := nth i (0 :: sizes) 0 in
     let stop := nth i sizes 0 in
     start <= stop <= length (rows x) /\
     rows (nth i out {| cols := 0; rows := [] |}) =
     repeat (repeat 0%R (cols x)) start ++
     map doubled (firstn (stop - start) (skipn start (rows x)))).
Proof. exact (@rows_dealt_refuted). Qed.
Print Assumptions C106_rows_dealt_refuted.
Theorem C106_not_square_refuted :
  forall (factors : list Q) (x : arr2 R),
  0 < length (rows x) ->
  length (rows x) <> cols x -> decomposition_rows factors x = Raise OtherError.
Proof. exact (@not_square_refuted). Qed.
Print Assumptions C106_not_square_refuted.
Theorem C106_zeroed_first_axis_refuted :
  forall (factor : Q) (axis : Z) (s : pyslice) (x y : arr2 R),
  axis = 0%Z \/ axis = (-2)%Z ->
  0 < cols x ->
  dct_resample_along factor axis None x = Ok y ->
  exists z : arr2 R,
    dct_resample_along factor axis (Some s) x = Ok z /\
    cols z = cols x /\
    length (rows z) = length (rows y) /\
    (forall i : nat,
     i < length (rows y) ->
     nth i (rows z) [] =
     (if existsb (Nat.eqb i) (apply_slice s (seq 0 (length (rows y))))
      then repeat 0%R (cols x)
      else nth i (rows y) [])).
Proof. exact (@zeroed_first_axis_refuted). Qed.
Print Assumptions C106_zeroed_first_axis_refuted.
Theorem C106_resample_errors :
  forall (factor : Q) (axis : Z) (zs : option pyslice) (x : arr2 R),
  (axis_of axis <> Raise IndexError ->
   cols x = 0 -> dct_resample_along factor axis zs x = Raise ZeroDivisionError) /\
  (axis_of axis = Ok 0 ->
   0 < cols x ->
   (part64 factor (Z.of_nat (length (rows x))) < 0)%Z ->
   dct_resample_along factor axis zs x = Raise OtherError) /\
  (axis_of axis = Ok 1 ->
   0 < cols x ->
   (part64 factor (Z.of_nat (cols x)) < 0)%Z ->
   dct_resample_along factor axis zs x = Raise OtherError).
Proof. exact (@resample_errors). Qed.
Print Assumptions C106_resample_errors.

