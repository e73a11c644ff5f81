(** numpy indexing with lists of integers beside integers, slices, None and Ellipsis, on concrete
    arrays (what zounds/core/axis.py:334 hands to numpy), for any number of lists of one axis. *)
From Verif Require Import PyBase PyFacts PyMore Time Freq FreqDim Axis Ops.
From Coq Require Import Reals.
Local Open Scope Z_scope.

(** one selector per axis, as in Ops.v, with lists and integers told apart from slices *)
Inductive asel := ANew | AInt (i : nat) | ARange (l : list nat) | AList (l : list nat).
Definition afull (n : nat) : asel := ARange (seq 0 n).
Fixpoint asels (ell : nat) (sh : list nat) (ix : list nix) : result (list asel) :=
  match ix with
  | [] => Ok (map afull sh)
  | NNone :: rest => do r <- asels ell sh rest; Ok (ANew :: r)
  | NEll :: rest => do r <- asels ell (skipn ell sh) rest; Ok (map afull (firstn ell sh) ++ r)
  | x :: rest =>
      match sh with
      | [] => Raise IndexError
      | n :: sh' =>
          do s <- match x with
                  | NInt i | NNpInt i => do k <- pick n i; Ok (AInt k)
                  | NList l => do ks <- mapM (pick n) l; Ok (AList ks)
                  | NSl a b st => if st =? 0 then Raise ValueError
                                  else Ok (ARange (map Z.to_nat (slice_positions (Z.of_nat n) a b st)))
                  | _ => Raise IndexError
                  end;
          do r <- asels ell sh' rest; Ok (s :: r)
      end
  end.
(** lists and the integers beside them are paired; they are together or apart (an Ellipsis that
    stands for no axis is taken not to part them) *)
Definition advanced (s : asel) : bool := match s with AInt _ | AList _ => true | _ => false end.
Fixpoint drop_while {A} (p : A -> bool) (l : list A) : list A := match l with x :: r => if p x then drop_while p r else l | [] => [] end.
Fixpoint take_while {A} (p : A -> bool) (l : list A) : list A := match l with x :: r => if p x then x :: take_while p r else [] | [] => [] end.
Definition apart (ss : list asel) : bool := existsb advanced (drop_while advanced (drop_while (fun s => negb (advanced s)) ss)).
(** the length of the lists together: all of one length, or of length one *)
Fixpoint paired (ss : list asel) : option nat :=
  match ss with
  | [] => Some 1%nat
  | AList l :: r =>
      match paired r with
      | None => None
      | Some m => if (length l =? 1)%nat then Some m else if (m =? 1)%nat then Some (length l) else if (m =? length l)%nat then Some m else None
      end
  | _ :: r => paired r
  end.
(** the axes of the slices and new axes *)
Fixpoint plain_shape (ss : list asel) : list nat :=
  match ss with
  | [] => []
  | ANew :: r => 1%nat :: plain_shape r
  | ARange l :: r => length l :: plain_shape r
  | _ :: r => plain_shape r
  end.
(** the entry that pair [k] and index [jx] of the plain axes stand for *)
Fixpoint adv_source (ss : list asel) (k : nat) (jx : list nat) : list nat :=
  match ss with
  | [] => []
  | ANew :: r => adv_source r k (tl jx)
  | ARange l :: r => nth (hd 0%nat jx) l 0%nat :: adv_source r k (tl jx)
  | AInt i :: r => i :: adv_source r k jx
  | AList l :: r => nth (if (length l =? 1)%nat then 0%nat else k) l 0%nat :: adv_source r k jx
  end.
(** the shape of a selection with lists, and the entry of the array that each of its entries
    is: the pairs take the place of the first of them if they are together, else they come first *)
Definition adv_selection (sh : list nat) (ix : list nix) : result (list nat * (list nat -> list nat)) :=
  if (1 <? count is_nell ix)%nat then Raise IndexError
  else
    do ss <- asels (length sh - count nix_takes ix) sh ix;
    match paired ss with
    | None => Raise IndexError
    | Some m =>
        let sh := plain_shape ss in
        let at_axis := if apart ss then 0%nat else length (plain_shape (take_while (fun s => negb (advanced s)) ss)) in
        Ok (firstn at_axis sh ++ m :: skipn at_axis sh,
            fun jx => adv_source ss (nth at_axis jx 0%nat) (firstn at_axis jx ++ skipn (S at_axis) jx))
    end.
Definition has_list (ix : list nix) : bool := existsb (fun e => match e with NList _ => true | _ => false end) ix.
(** numpy: reading and assigning; without lists as in Ops.v *)
Definition np_getitem_adv (x : nda) (ix : list nix) : result nda :=
  if has_list ix then do s <- adv_selection (nd_shape x) ix; Ok (nd_build (fst s) (fun jx => nd_at x (snd s jx)))
  else np_getitem x ix.
Definition np_setitem_adv (x : nda) (ix : list nix) (v : nda) : result nda :=
  if has_list ix then
    do s <- adv_selection (nd_shape x) ix;
    match broadcast (nd_shape v) (fst s) with
    | Some sh =>
        if nat_list_eqb sh (fst s) then
          Ok (nd_build (nd_shape x) (fun i =>
            match find (fun jx => nat_list_eqb (snd s jx) i) (rev (all_ix (fst s))) with
            | Some jx => nd_at v (bc_index (nd_shape v) jx)
            | None => nd_at x i
            end))
        else Raise ValueError
    | None => Raise ValueError
    end
  else np_setitem x ix v.
(** axis.py:324-336 __getitem__ and axis.py:319-322 __setitem__ with a tuple *)
Definition getitem_adv (a : units) (index : list aix) : result units := getitem nd_shape np_getitem_adv a index.
Definition setitem_adv (a : units) (index : list aix) (v : nda) : result units :=
  do ix <- compute_indices (dims a) index;
  do x <- np_setitem_adv (data a) ix v;
  Ok (mkAwu x (dims a)).
