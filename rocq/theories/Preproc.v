(** Model of the preprocessors of zounds/learn/preprocess.py, learn/learn.py
    (KMeans) and learn/functional.py.  Values are real numbers (no rounding, no
    inf or nan).  An array is the list of its examples, an example the list of
    its (flattened) features.  Where the code calls np.divide(..., where=...)
    without an output array, the entries left out hold whatever was in memory:
    the argument [junk]. *)
From Verif Require Import PyBase PyFacts PyMore Freq.
Local Open Scope R_scope.

Fixpoint imap_from {A B} (f : nat -> A -> B) (i : nat) (l : list A) : list B :=
  match l with [] => [] | x :: l' => f i x :: imap_from f (S i) l' end.
Definition imap {A B} (f : nat -> A -> B) (l : list A) : list B := imap_from f 0 l.

(** numpy: np.divide(a, b, where=b != 0), one entry *)
Definition div_where (a b junk : R) : R := if Reqb b 0 then junk else a / b.

Fixpoint sumR (l : list R) : R := match l with [] => 0 | x :: l' => x + sumR l' end.
Definition norm (r : list R) : R := sqrt (sumR (map (fun x => x * x) r)).

(** functional.py:24-38 example_wise_unit_norm and preprocess.py:176-188 *)
Definition unit_norm (junk : nat -> nat -> R) (rows : list (list R)) : list (list R) * list R :=
  (imap (fun i r => imap (fun j x => div_where x (norm r) (junk i j)) r) rows, map norm rows).
(** preprocess.py:190-196, arrays of two or more axes *)
Definition unit_norm_inverse (rows : list (list R)) (norms : list R) : list (list R) :=
  map (fun p => map (fun y => y * snd p) (fst p)) (combine rows norms).
(** the same expression for a one-dimensional array: [d * norm] broadcasts (n,)
    against (n, 1) *)
Definition unit_norm_inverse_1d (d : list R) (norms : list R) : list (list R) :=
  map (fun n => map (fun y => y * n) d) norms.

Definition mean_of (l : list R) : R := sumR l / INR (length l).
Definition std_of (l : list R) : R := sqrt (mean_of (map (fun x => (x - mean_of l) ^ 2) l)).
Definition column (j : nat) (rows : list (list R)) : list R := map (fun r => nth j r 0) rows.
(** preprocess.py:445-448 data.mean(axis=0), data.std(axis=0) for [w] features *)
Definition fit_meanstd (w : nat) (rows : list (list R)) : list R * list R :=
  (map (fun j => mean_of (column j rows)) (seq 0 w), map (fun j => std_of (column j rows)) (seq 0 w)).
(** preprocess.py:426-431 *)
Definition meanstd (mean std : list R) (junk : nat -> nat -> R) (rows : list (list R)) : list (list R) :=
  imap (fun i r => imap (fun j x => div_where (x - nth j mean 0) (nth j std 0) (junk i j)) r) rows.
(** preprocess.py:433-440 *)
Definition meanstd_inverse (mean std : list R) (rows : list (list R)) : list (list R) :=
  map (fun r => imap (fun j y => y * nth j std 0 + nth j mean 0) r) rows.

(** np.max(np.abs(d), axis=1..): examples are not empty *)
Definition max_abs (r : list R) : R := fold_right (fun x m => Rmax (Rabs x) m) 0 r.
(** preprocess.py:465-475 *)
Definition instance_scale (mv : R) (junk : nat -> nat -> R) (rows : list (list R)) : list (list R) * list R :=
  (imap (fun i r => imap (fun j x => mv * div_where x (max_abs r) (junk i j)) r) rows, map max_abs rows).
(** preprocess.py:477-481 *)
Definition instance_scale_inverse (mv : R) (rows : list (list R)) (maxes : list R) : list (list R) :=
  map (fun p => map (fun y => y * snd p / mv) (fst p)) (combine rows maxes).

(** preprocess.py:503-513: a scalar factor; [1.0 / factor] of a Python number *)
Definition multiply (f : R) (rows : list (list R)) : list (list R) := map (map (fun x => x * f)) rows.
Definition multiply_inverse (f : R) (rows : list (list R)) : result (list (list R)) :=
  if Reqb f 0 then Raise ZeroDivisionError else Ok (map (map (fun y => y * (1 / f))) rows).

(** preprocess.py:530-540, one weight per feature *)
Definition weighted (w : list R) (rows : list (list R)) : list (list R) :=
  map (fun r => map (fun p => fst p * snd p) (combine r w)) rows.
Definition weighted_inverse (w : list R) (rows : list (list R)) : list (list R) :=
  map (fun r => map (fun p => fst p / snd p) (combine r w)) rows.

(** preprocess.py:289-317 Slicer along the last axis; [new_arr[..., s] = d]
    broadcasts a single column, otherwise the lengths must agree *)
Definition slicer (s : pyslice) (rows : list (list R)) : list (list R) := map (apply_slice s) rows.
Definition slice_range (s : pyslice) (n : nat) : nat * nat :=
  let b := match fst s with None => 0%Z | Some i => norm_index (Z.of_nat n) i end in
  let e := match snd s with None => Z.of_nat n | Some i => norm_index (Z.of_nat n) i end in
  (Z.to_nat b, Z.to_nat (Z.max b e)).
Definition put_slice (s : pyslice) (n : nat) (d : list R) : result (list R) :=
  let '(b, e) := slice_range s n in
  let k := (e - b)%nat in
  if (length d =? k)%nat then Ok (repeat 0 b ++ d ++ repeat 0 (n - e))
  else match d with
       | [x] => Ok (repeat 0 b ++ repeat x k ++ repeat 0 (n - e))
       | _ => Raise ValueError
       end.
Definition slicer_inverse (s : pyslice) (width : nat) (rows : list (list R)) : result (list (list R)) :=
  mapM (put_slice s width) rows.

(** numpy's reshape of an array given as (shape, entries in C order); one
    requested length may be -1 *)
Definition prodZ (l : list Z) : Z := fold_right Z.mul 1%Z l.
Definition np_reshape (size : Z) (req : list Z) : result (list Z) :=
  let known := prodZ (filter (fun n => negb (n =? -1)%Z) req) in
  match length (filter (fun n => (n =? -1)%Z) req) with
  | O => if forallb (fun n => 0 <=? n)%Z req && (known =? size)%Z then Ok req else Raise ValueError
  | S O => if forallb (fun n => -1 <=? n)%Z req && negb (known =? 0)%Z && (size mod known =? 0)%Z
           then Ok (map (fun n => if (n =? -1)%Z then (size / known)%Z else n) req) else Raise ValueError
  | _ => Raise ValueError
  end.
Definition ndarr := (list Z * list R)%type.
Definition reshape_to (a : ndarr) (req : list Z) : result ndarr :=
  do sh <- np_reshape (Zlen (snd a)) req; Ok (sh, snd a).
(** preprocess.py:337-353 *)
Definition reshape_op (new_shape : list Z) (a : ndarr) : result ndarr := reshape_to a (firstn 1 (fst a) ++ new_shape).
Definition reshape_inverse (original : list Z) (a : ndarr) : result ndarr := reshape_to a original.

(** learn.py:17-41 KMeans; cdist is the Euclidean distance, np.argmin takes the
    first of equal minima and rejects an empty codebook *)
Definition dist (a b : list R) : R := norm (map (fun p => fst p - snd p) (combine a b)).
Fixpoint argminR (l : list R) : nat :=
  match l with
  | [] => 0
  | [_] => 0
  | x :: l' => let j := argminR l' in if Rleb x (nth j l' 0) then 0 else S j
  end.
Definition one_hot (n k : nat) : list nat := map (fun j => if (j =? k)%nat then 1%nat else 0%nat) (seq 0 n).
Definition kmeans_forward (codebook rows : list (list R)) : result (list (list nat)) :=
  match codebook with
  | [] => Raise ValueError
  | _ => Ok (map (fun r => one_hot (length codebook) (argminR (map (dist r) codebook))) rows)
  end.
(** np.where(d == 1)[1]: the columns of the ones, row by row *)
Definition ones_of (r : list nat) : list nat :=
  map fst (filter (fun p => (snd p =? 1)%nat) (combine (seq 0 (length r)) r)).
Definition kmeans_inverse (codebook : list (list R)) (rows : list (list nat)) : result (list (list R)) :=
  mapM (fun k => py_get codebook (Z.of_nat k)) (flat_map ones_of rows).

(** functional.py:16-21 *)
Definition dot (a b : list R) : R := sumR (map (fun p => fst p * snd p) (combine a b)).
Definition simhash (planes rows : list (list R)) : list (list bool) :=
  map (fun r => map (fun p => Rltb 0 (dot p r)) planes) rows.
(** preprocess.py:632-641 *)
Definition binarize (threshold : R) (rows : list (list R)) : list (list bool) :=
  map (map (fun x => Rltb threshold x)) rows.
