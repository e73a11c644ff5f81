(** Model of the windowing functions of zounds/nputil/npx.py. *)
From Verif Require Import PyBase.
Local Open Scope Z_scope.

(** npx.py:86-106 [_wpad]: length the input should be padded to. *)
Definition wpad (l w s : Z) : Z :=
  if l <=? w then w
  else
    let nsteps := (l / s) * s in
    let overlap := w - s in
    if negb (overlap =? 0) then nsteps + overlap
    else
      let diff := l - nsteps in
      let left := Z.max 0 (w - diff) in
      if negb (diff =? 0) then l + left else l.

(** npx.py:109-125 [_wcut]: (length to keep, where the leftover starts). *)
Definition wcut (l w s : Z) : Z * Z :=
  let e := l - w in
  if l <=? w then (0, 0)
  else
    let l' := if negb (e mod s =? 0) then w + (e / s) * s else l in
    (l', l' - (w - s)).

Section Windowed.
  Context {A : Type} (zero : A).

  (** npx.py:66-83 [pad]: append zeros up to the desired length.  The element
      type stands for one row along axis zero, [zero] for a row of zeros. *)
  Definition pad (a : list A) (desired : Z) : list A :=
    if Zlen a >=? desired then a
    else a ++ repeat zero (Z.to_nat (desired - Zlen a)).

  (** The output array: either a plain array (no windowing took place) or an
      array of windows. *)
  Inductive wout :=
  | Flat (a : list A)
  | Rows (r : list (list A)).

  (** npx.py:176-188: [np.ndarray.__new__(shape=(n, w), strides=(s, 1),
      buffer=a)].  Entry (i, j) is read at address i*s+j of the buffer; an
      address outside the buffer is [None] and makes the call fail (numpy raises
      TypeError "buffer is too small for requested array"). *)
  Definition strided_rows (a : list A) (n w s : nat) : option (list (list A)) :=
    sequence (map (fun i => sequence (map (fun j => nth_error a (i * s + j)) (seq 0 w)))
                  (seq 0 n)).

  (** npx.py:128-190 [windowed].  [stepsize = None] is the default argument.
      Returns (leftover, windows). *)
  Definition windowed (a : list A) (windowsize : Z) (stepsize : option Z) (dopad : bool)
    : result (list A * wout) :=
    if windowsize <? 1 then Raise ValueError else
    let s := match stepsize with None => windowsize | Some s => s end in
    if s <? 1 then Raise ValueError else
    if (windowsize =? 1) && (s =? 1) then Ok ([], Flat a) else
    if (windowsize =? 1) && (s >? 1) then Ok ([], Flat (py_stride (Z.to_nat s) a)) else
    let l := Zlen a in
    let '(leftover, a) :=
      if dopad then ([], pad a (wpad l windowsize s))
      else let '(c, lc) := wcut l windowsize s in
           (py_slice (Some lc) None a, py_slice None (Some c) a) in
    if Zlen a =? 0 then Ok (leftover, Flat [])
    else
      let n := 1 + (Zlen a - windowsize) / s in
      match strided_rows a (Z.to_nat n) (Z.to_nat windowsize) (Z.to_nat s) with
      | Some r => Ok (leftover, Rows r)
      | None => Raise TypeError
      end.

End Windowed.
Arguments Flat {A} _.
Arguments Rows {A} _.
