(** Model of the n-dimensional sliding window (zounds/nputil/npx.py:193-255). *)
From Verif Require Import PyBase.
Local Open Scope Z_scope.

(** A numpy array: a view on process memory given by an offset, a shape and
    strides (in units of items).  [mem] is all of memory, so a read outside the
    array is representable. *)
Record nd := { nd_off : Z; nd_shape : list Z; nd_strides : list Z }.

Fixpoint dot (i st : list Z) : Z :=
  match i, st with
  | x :: i', y :: st' => x * y + dot i' st'
  | _, _ => 0
  end.

Definition nd_get {A} (mem : Z -> A) (a : nd) (i : list Z) : A :=
  mem (nd_off a + dot i (nd_strides a)).

(** Row-major enumeration of all multi-indices of a shape. *)
Fixpoint indices (shape : list Z) : list (list Z) :=
  match shape with
  | [] => [[]]
  | n :: sh => flat_map (fun x => map (cons x) (indices sh)) (zrange n)
  end.

Fixpoint zip_with (f : Z -> Z -> Z) (l m : list Z) : list Z :=
  match l, m with
  | x :: l', y :: m' => f x y :: zip_with f l' m'
  | _, _ => []
  end.

Definition zprod (l : list Z) : Z := fold_right Z.mul 1 l.

(** [norm_shape] npx.py:7-33 on an int or a tuple of ints. *)
Inductive size_arg := SInt (n : Z) | STuple (l : list Z).
Definition norm_shape (s : size_arg) : list Z :=
  match s with SInt n => [n] | STuple l => l end.

(** Group a flat list into rows of [k] items, [n] rows: numpy's
    [reshape((n,) + ...)] of a C-ordered sequence of items. *)
Fixpoint rows_of {A} (n k : nat) (l : list A) : list (list A) :=
  match n with
  | O => []
  | S n' => firstn k l :: rows_of n' k (skipn k l)
  end.

(** npx.py:212-241, the strided view.  [ss = None] is the default argument. *)
Definition sliding_window_view (a : nd) (ws : size_arg) (ss : option size_arg) : result nd :=
  let ss := match ss with None => ws | Some s => s end in
  let ws := norm_shape ws in
  let ss := norm_shape ss in
  let shape := nd_shape a in
  if negb ((length shape =? length ws)%nat && (length shape =? length ss)%nat)
  then Raise ValueError
  else if existsb (fun p => snd p <? fst p) (combine ws shape) then Raise ValueError
  else
    let counts := zip_with (fun x y => x / y + 1) (zip_with Z.sub shape ws) ss in
    Ok {| nd_off := nd_off a;
          nd_shape := counts ++ ws;
          nd_strides := zip_with Z.mul (nd_strides a) ss ++ nd_strides a |}.

(** npx.py:242-255: flatten=True.  The result is a list of windows, each given
    as the row-major list of its items (its shape is [ws]). *)
Definition sliding_window_flat {A} (mem : Z -> A) (a : nd) (ws : size_arg) (ss : option size_arg)
  : result (list (list A)) :=
  match sliding_window_view a ws ss with
  | Raise e => Raise e
  | Ok v =>
      let meat := length (norm_shape ws) in
      let firstdim := zprod (firstn (length (nd_shape v) - meat) (nd_shape v)) in
      let dim := skipn (length (nd_shape v) - meat) (nd_shape v) in
      Ok (rows_of (Z.to_nat firstdim) (Z.to_nat (zprod dim))
                  (map (nd_get mem v) (indices (nd_shape v))))
  end.
