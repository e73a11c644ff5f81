(** Model of ArrayWithUnits.concat and AudioSamples.concat (zounds/core/axis.py:107-120,
    zounds/timeseries/audiosamples.py:134-136) on concrete arrays: any number of arrays along any
    axis. *)
From Coq Require Import ZArith Reals.
From Verif Require Import PyBase PyFacts PyMore Time Freq FreqDim Axis Ops.
Local Open Scope Z_scope.

(** ** np.concatenate (no code of /repo) *)
(** sizes along axis [k] *)
Definition cat_size (k : nat) (xs : list nda) : nat := fold_right Nat.add 0%nat (map (fun x => nth k (nd_shape x) 0%nat) xs).
(** same number of axes, same sizes apart from axis [k] *)
Definition fits_beside (k : nat) (sh t : list nat) : bool := nat_list_eqb (firstn k sh) (firstn k t) && nat_list_eqb (skipn (S k) sh) (skipn (S k) t) && (length sh =? length t)%nat.
(** the entry at position [i] along axis [k] *)
Fixpoint cat_at (k : nat) (xs : list nda) (i : nat) (ix : list nat) : R :=
  match xs with
  | [] => 0%R
  | x :: r => let n := nth k (nd_shape x) 0%nat in if (i <? n)%nat then nd_at x (set_nth k i ix) else cat_at k r (i - n) ix
  end.
(** an axis that does not exist is an AxisError, which is an IndexError *)
Definition np_concatenate (xs : list nda) (axis : Z) : result nda :=
  match xs with
  | [] => Raise ValueError
  | x :: r =>
      if (ndim x =? 0)%nat then Raise ValueError else
      do k <- pick (ndim x) axis;
      if forallb (fun y => fits_beside k (nd_shape x) (nd_shape y)) r
      then Ok (nd_build (set_nth k (cat_size k xs) (nd_shape x)) (fun ix => cat_at k xs (nth k ix 0%nat) ix))
      else Raise ValueError
  end.
(** axis.py:107-112: the arguments of from_example are evaluated from left to right *)
Definition concat_many (c : cls) (arrs : list units) (axis : Z) : result pyval :=
  match arrs with
  | [] => do _ <- np_concatenate [] axis; Raise IndexError
  | a :: rest =>
      do same <- all_dims_eq (dims a) rest;
      if same then do x <- np_concatenate (map data arrs) axis; from_example c x a else Raise ValueError
  end.
