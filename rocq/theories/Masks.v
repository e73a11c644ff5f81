(** Boolean masks as indices of arrays with units (zounds/core/axis.py:246-262, 299-336), on
    concrete arrays.  A mask is an array of booleans, or a list of booleans. *)
From Verif Require Import PyBase PyFacts PyMore Time Freq FreqDim Axis Ops.
From Coq Require Import Reals.
Local Open Scope Z_scope.

Record mask := mkMask { m_shape : list nat; m_flat : list bool }.
Definition mask_at (m : mask) (ix : list nat) : bool := nth (ravel (m_shape m) ix) (m_flat m) false.
(** numpy: the indices where the mask is true, in row-major order *)
Definition chosen (m : mask) : list (list nat) := filter (mask_at m) (all_ix (m_shape m)).
(** numpy: how many true entries come before one *)
Definition before (m : mask) (ix : list nat) : nat := length (filter (fun b => b) (firstn (ravel (m_shape m) ix) (m_flat m))).
(** numpy: a mask covers the first axes of the array *)
Definition covers (m : mask) (sh : list nat) : bool := nat_list_eqb (m_shape m) (firstn (length (m_shape m)) sh).
Definition mask_result (m : mask) (sh : list nat) : list nat := length (chosen m) :: skipn (length (m_shape m)) sh.
(** numpy: [x[mask]] *)
Definition np_mask (x : nda) (m : mask) : result nda :=
  if covers m (nd_shape x)
  then Ok (nd_build (mask_result m (nd_shape x)) (fun jx => nd_at x (nth (hd 0%nat jx) (chosen m) [] ++ tl jx)))
  else Raise IndexError.
(** numpy: [x[mask] = v].  A mask of all axes takes values of at most one axis; values of more
    axes than the selection are a ValueError here (numpy drops leading axes of size one when
    the mask does not cover all axes: not modelled). *)
Definition np_set_mask (x : nda) (m : mask) (v : nda) : result nda :=
  if covers m (nd_shape x) then
    match broadcast (nd_shape v) (mask_result m (nd_shape x)) with
    | Some sh =>
        if nat_list_eqb sh (mask_result m (nd_shape x)) then
          Ok (nd_build (nd_shape x) (fun ix =>
            let k := length (m_shape m) in
            if mask_at m (firstn k ix) then nd_at v (bc_index (nd_shape v) (before m (firstn k ix) :: skipn k ix))
            else nd_at x ix))
        else Raise ValueError
    | None => Raise ValueError
    end
  else Raise IndexError.

(** axis.py:324-327: a mask that is an array: numpy's own, without units; the same for
    AudioSamples (audiosamples.py:166-173: a plain array has no dimensions) *)
Definition getitem_mask (a : units) (m : mask) : result pyval := do x <- np_mask (data a) m; Ok (PRaw x).
(** [integer_based_slice] of a mask: dimensions.py:73, timeseries.py:257,
    tfrepresentation.py:132-134 hand it on; tfrepresentation.py:54 takes it for a frequency band
    (frequencyscale.py:319: it has no [start_hz]) *)
Definition mask_int_slice (d : dim) : result unit := match d with DFreq _ => Raise AttributeError | _ => Ok tt end.
(** axis.py:309-310, 246-262, 319-322: a mask that is an array, assigning *)
Definition setitem_mask (a : units) (m : mask) (v : nda) : result units :=
  do d <- py_get (dims a) 0;
  do _ <- mask_int_slice d;
  do x <- np_set_mask (data a) m v;
  Ok (mkAwu x (dims a)).
(** axis.py:300-308, 324-336: a list of booleans is one element of the index, and loses its
    dimension (axis.py:274-277); an empty list is an IndexError of [list(set())[0]] *)
Definition list_mask (l : list bool) : mask := mkMask [length l] l.
Definition getitem_bools (a : units) (l : list bool) : result units :=
  match l with
  | [] => Raise IndexError
  | _ => do x <- np_mask (data a) (list_mask l); awu_new nd_shape x (DIdent :: tl (dims a))
  end.
Definition setitem_bools (a : units) (l : list bool) (v : nda) : result units :=
  match l with
  | [] => Raise IndexError
  | _ => do x <- np_set_mask (data a) (list_mask l) v; Ok (mkAwu x (dims a))
  end.
(** [metaslice] of a mask: dimensions.py:22-26, timeseries.py:218, tfrepresentation.py:118-130
    ([self.scale[mask]]: a tuple of bands cannot be indexed with it, and it is no band) *)
Definition mask_metaslice (d : dim) (n : nat) : result dim :=
  match d with
  | DIdent => Ok DIdent
  | DTime t => Ok (DTime (metaslice t (Z.of_nat n)))
  | DFreq _ | DExp _ => Raise AttributeError
  end.
(** axis.py:324-336 for [a[mask, ...]], a mask of one axis *)
Definition getitem_mask_rest (a : units) (l : list bool) : result units :=
  do d <- py_get (dims a) 0;
  do _ <- mask_int_slice d;
  do x <- np_mask (data a) (list_mask l);
  do d <- mask_metaslice d (length (chosen (list_mask l)));
  awu_new nd_shape x (d :: tl (dims a)).
