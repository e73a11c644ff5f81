(** Model of whole-array operations of zounds/core/axis.py (ArrayWithUnits) and
    zounds/timeseries/audiosamples.py on concrete arrays: arithmetic, sums,
    products, assignment, concatenation and bit packing. *)
From Verif Require Import PyBase PyFacts PyMore Time Freq FreqDim Axis.
From Coq Require Import Reals.
Local Open Scope Z_scope.

(** ** numpy arrays (no code of /repo): a shape and the entries in row-major order *)
Record nda := mkNda { nd_shape : list nat; nd_flat : list R }.
Definition wf_nda (x : nda) : Prop := length (nd_flat x) = np_size (nd_shape x).

(** position of a multi-index in row-major order, and all multi-indices in that order *)
Fixpoint ravel (sh ix : list nat) : nat :=
  match sh, ix with
  | _ :: sh', i :: ix' => i * np_size sh' + ravel sh' ix'
  | _, _ => 0
  end%nat.
Fixpoint all_ix (sh : list nat) : list (list nat) :=
  match sh with
  | [] => [[]]
  | n :: sh' => flat_map (fun i => map (cons i) (all_ix sh')) (seq 0 n)
  end.
Definition nd_at (x : nda) (ix : list nat) : R := nth (ravel (nd_shape x) ix) (nd_flat x) 0%R.
Definition nd_build (sh : list nat) (f : list nat -> R) : nda := mkNda sh (map f (all_ix sh)).
Definition total (l : list R) : R := fold_right Rplus 0%R l.

(** numpy broadcasting: shapes aligned at the right; an axis of size one is repeated *)
Fixpoint bc_rev (s t : list nat) : option (list nat) :=
  match s, t with
  | [], _ => Some t
  | _, [] => Some s
  | m :: s', n :: t' =>
      match bc_rev s' t' with
      | None => None
      | Some r => if (m =? n)%nat then Some (m :: r)
                  else if (m =? 1)%nat then Some (n :: r)
                  else if (n =? 1)%nat then Some (m :: r) else None
      end
  end.
Definition broadcast (s t : list nat) : option (list nat) := option_map (@rev nat) (bc_rev (rev s) (rev t)).
(** the entry of an array of shape [s] used at index [ix] of the broadcast result *)
Fixpoint clip (s ix : list nat) : list nat :=
  match s, ix with
  | n :: s', i :: ix' => (if (n =? 1)%nat then 0%nat else i) :: clip s' ix'
  | _, _ => []
  end.
Definition bc_index (s ix : list nat) : list nat := clip s (skipn (length ix - length s) ix).
(** a numpy ufunc of two arrays *)
Definition np_binary (f : R -> R -> R) (x y : nda) : result nda :=
  match broadcast (nd_shape x) (nd_shape y) with
  | None => Raise ValueError
  | Some sh => Ok (nd_build sh (fun ix => f (nd_at x (bc_index (nd_shape x) ix)) (nd_at y (bc_index (nd_shape y) ix))))
  end.

(** ** Python values: numbers, plain numpy arrays, and arrays with units of either class *)
Inductive cls := Plain | Audio.
Definition units := @awu nda.
Inductive pyval := PNum (v : R) | PRaw (x : nda) | PUnits (c : cls) (a : units).
Definition arr_of (p : pyval) : nda :=
  match p with PNum v => mkNda [] [v] | PRaw x => x | PUnits _ a => data a end.
Definition ndim (x : nda) : nat := length (nd_shape x).
Definition the_item (x : nda) : R := nth 0 (nd_flat x) 0%R.

(** axis.py:171-176 __array_wrap__, with __array_finalize__ axis.py:166-169: the
    dimensions are taken over as they are *)
Definition array_wrap (c : cls) (a : units) (obj : nda) : pyval :=
  if (length (dims a) =? ndim obj)%nat then PUnits c (mkAwu obj (dims a))
  else if (ndim obj =? 0)%nat then PNum (the_item obj)
  else PRaw obj.

(** numpy asks the leftmost operand that is not a plain array or number to wrap
    the result (all classes here have the same __array_priority__) *)
Definition wrapped (ps : list pyval) (r : nda) : pyval :=
  match find (fun p => match p with PUnits _ _ => true | _ => false end) ps with
  | Some (PUnits c a) => array_wrap c a r
  | _ => if (ndim r =? 0)%nat then PNum (the_item r) else PRaw r
  end.
Definition binary (f : R -> R -> R) (p q : pyval) : result pyval :=
  do r <- np_binary f (arr_of p) (arr_of q); Ok (wrapped [p; q] r).
(** an elementwise ufunc of one array (np.abs, unary minus) *)
Definition unary (f : R -> R) (p : pyval) : pyval :=
  wrapped [p] (mkNda (nd_shape (arr_of p)) (map f (nd_flat (arr_of p)))).

(** ** AudioSamples: rates.  audiosamples.py:126-127 [frequency] is that of the first
    dimension (other dimensions have none: AttributeError), 102-104
    [samples_per_second], 142-144 [samplerate]; the result is the constructor
    argument of the AudioSampleRate.  A quotient by zero is infinite. *)
Definition frequency (a : units) : result Z :=
  do d <- py_get (dims a) 0;
  match d with DTime t => Ok (t_freq t) | _ => Raise AttributeError end.
Definition sps (a : units) : result Z :=
  do f <- frequency a; if f =? 0 then Raise OverflowError else Ok (samples_per_second f).
Definition samplerate (a : units) : result Z := do n <- sps a; audio_sample_rate n.
(** samplerate.py:130-136: the sample period of an AudioSampleRate *)
Definition one_sample (rate : Z) : Z := 10 ^ 12 / rate.
(** audiosamples.py:43-56 __new__ with an AudioSampleRate *)
Definition audio_dims (rate : Z) (nd : nat) : result (list dim) :=
  let t := DTime (mk_timedim (one_sample rate) (Some (one_sample rate)) None) in
  match nd with
  | 1%nat => Ok [t]
  | 2%nat => Ok [t; DIdent]
  | _ => Raise ValueError
  end.
Definition audio_new (x : nda) (rate : Z) : result units :=
  do ds <- audio_dims rate (ndim x); awu_new nd_shape x ds.

(** audiosamples.py:58-67 __add__; SampleRate equality is samplerate.py:71-74.  [+]
    on anything else is numpy's (also [x + samples] for other [x]). *)
Definition rate_of (p : pyval) : result Z :=
  match p with PUnits Audio a => samplerate a | _ => Raise AttributeError end.
Definition add (p q : pyval) : result pyval :=
  match p with
  | PUnits Audio a =>
      match (do r <- samplerate a; do r' <- rate_of q; Ok (one_sample r =? one_sample r')) with
      | Ok false => Raise ValueError
      | Ok true => binary Rplus p q
      | Raise AttributeError => binary Rplus p q
      | Raise e => Raise e
      end
  | _ => binary Rplus p q
  end.

(** ** Sums.  [np_sum]: numpy's sum over the given axes (nonnegative after
    normalisation); an axis out of range is numpy's AxisError, a subclass of
    ValueError and IndexError. *)
Definition keep_axes (ax : nat -> bool) (l : list nat) : list nat :=
  map snd (filter (fun p => negb (ax (fst p))) (combine (seq 0 (length l)) l)).
Definition ones_at (ax : nat -> bool) (v : nat) (l : list nat) : list nat :=
  map (fun p => if ax (fst p) then v else snd p) (combine (seq 0 (length l)) l).
Definition nat_list_eqb (a b : list nat) : bool := if list_eq_dec Nat.eq_dec a b then true else false.
Definition np_sum (x : nda) (axes : list Z) (keepdims : bool) : result nda :=
  let nd := Z.of_nat (ndim x) in
  if existsb (fun a => (a <? - nd) || (nd <=? a)) axes then Raise ValueError
  else
    let ax := reduced nd axes in
    let sh := if keepdims then ones_at ax 1 (nd_shape x) else keep_axes ax (nd_shape x) in
    let key := fun ix => if keepdims then ones_at ax 0 ix else keep_axes ax ix in
    Ok (nd_build sh (fun jx => total (map (nd_at x) (filter (fun ix => nat_list_eqb (key ix) jx) (all_ix (nd_shape x)))))).
Definition np_total (x : nda) : nda := mkNda [] [total (nd_flat x)].

(** axis.py:148-151 sum with 130-146 *)
Definition awu_sum (c : cls) (a : units) (axes : option (list Z)) (keepdims : bool) : result pyval :=
  match axes with
  | None =>
      Ok (if keepdims then array_wrap c a (mkNda (map (fun _ => 1%nat) (nd_shape (data a))) [total (nd_flat (data a))])
          else array_wrap c a (np_total (data a)))
  | Some ax =>
      do r <- np_sum (data a) ax keepdims;
      do s <- reduction nd_shape a r ax keepdims; Ok (PUnits Plain s)
  end.
(** audiosamples.py:72-77 sum: [axis == 1] on two axes gives AudioSamples *)
Definition axis_is_one (axes : option (list Z)) : bool :=
  match axes with Some [1] => true | _ => false end.
Definition audio_sum (a : units) (axes : option (list Z)) (keepdims : bool) : result pyval :=
  do r <- awu_sum Audio a axes keepdims;
  if (ndim (data a) =? 2)%nat && axis_is_one axes
  then do rate <- samplerate a; do s <- audio_new (arr_of r) rate; Ok (PUnits Audio s)
  else Ok r.

(** ** dot, axis.py:158-160: numpy multiplies by an array without axes, and contracts the last
    axis of [a] with the only axis of a vector, or with the last but one of a larger
    array; [self.__class__(result, dimensions)] for AudioSamples passes a tuple
    as samplerate: ValueError for no axes, TypeError otherwise
    (audiosamples.py:43-54) *)
Definition np_dot (x y : nda) : result nda :=
  match rev (nd_shape x), rev (nd_shape y) with
  | [], _ | _, [] => np_binary Rmult x y
  | n :: hd, [m] =>
      if (n =? m)%nat
      then Ok (nd_build (rev hd) (fun ix => total (map (fun k => (nd_at x (ix ++ [k]) * nd_at y [k])%R) (seq 0 n))))
      else Raise ValueError
  | n :: hd, c :: m :: lead =>
      if (n =? m)%nat
      then Ok (nd_build (rev hd ++ rev lead ++ [c]) (fun ix =>
             let jx := skipn (length hd) ix in
             total (map (fun k => (nd_at x (firstn (length hd) ix ++ [k]) *
                                   nd_at y (firstn (length lead) jx ++ [k; nth (length lead) jx 0%nat]))%R) (seq 0 n))))
      else Raise ValueError
  end.
Definition awu_dot (c : cls) (a : units) (y : nda) : result pyval :=
  do r <- np_dot (data a) y;
  match c with
  | Plain => do s <- awu_new nd_shape r (firstn (ndim r) (dims a)); Ok (PUnits Plain s)
  | Audio => match ndim r with
             | 1%nat | 2%nat => Raise TypeError
             | _ => Raise ValueError
             end
  end.

(** ** packbits, axis.py:162-164: numpy packs groups of eight along one axis (the
    last group filled with zeros), or of the flattened array for [axis=None]; the
    dimensions stay those of [self] *)
Definition bytes_for (n : nat) : nat := (n + 7) / 8.
Definition np_packbits_shape (sh : list nat) (axis : option nat) : result (list nat) :=
  match axis with
  | None => Ok [bytes_for (np_size sh)]
  | Some k => if (k <? length sh)%nat
              then Ok (map (fun p => if (fst p =? k)%nat then bytes_for (snd p) else snd p) (combine (seq 0 (length sh)) sh))
              else Raise ValueError
  end.
(** the byte made of eight bits, most significant first *)
Definition byte_of (bits : nat -> bool) : R :=
  fold_left (fun acc b => (2 * acc + (if (bits b : bool) then 1 else 0))%R) (seq 0 8) 0%R.
Definition set_nth (k : nat) (v : nat) (l : list nat) : list nat := firstn k l ++ v :: skipn (S k) l.
Definition np_packbits (x : nda) (axis : option nat) : result nda :=
  do sh <- np_packbits_shape (nd_shape x) axis;
  let nonzero := fun v : R => if Req_EM_T v 0 then false else true in
  Ok (nd_build sh (fun ix => byte_of (fun b =>
    match axis with
    | None => let i := (8 * nth 0 ix 0 + b)%nat in
              (i <? np_size (nd_shape x))%nat && nonzero (nth i (nd_flat x) 0%R)
    | Some k => let i := (8 * nth k ix 0 + b)%nat in
                (i <? nth k (nd_shape x) 0)%nat && nonzero (nd_at x (set_nth k i ix))
    end))).
Definition packbits (a : units) (axis : option nat) : result units :=
  do r <- np_packbits (data a) axis; awu_new nd_shape r (dims a).

(** ** zeros_like and concatenate, axis.py:73-77 and 114-128; from_example of
    AudioSamples is audiosamples.py:134-136 *)
Definition from_example (c : cls) (x : nda) (example : units) : result pyval :=
  match c with
  | Plain => do s <- awu_new nd_shape x (dims example); Ok (PUnits Plain s)
  | Audio => do r <- samplerate example; do s <- audio_new x r; Ok (PUnits Audio s)
  end.
Definition zeros_like (c : cls) (a : units) : result pyval :=
  from_example c (nd_build (nd_shape (data a)) (fun _ => 0%R)) a.
(** np.concatenate of two arrays along the first axis *)
Definition np_cat (x y : nda) : result nda :=
  match nd_shape x, nd_shape y with
  | m :: s, n :: t => if nat_list_eqb s t then Ok (mkNda ((m + n)%nat :: s) (nd_flat x ++ nd_flat y)) else Raise ValueError
  | _, _ => Raise ValueError
  end.
Definition concatenate (c : cls) (a b : units) : result pyval :=
  do e <- dims_eq (dims a) (dims b);
  if e then do x <- np_cat (data a) (data b); from_example c x a else Raise ValueError.

(** ** numpy indexing with integers, slices, None and Ellipsis (a single list of
    integers is treated like a slice, which is numpy's meaning when no integer
    stands beside it).  One selector per element: a new axis, one position, or
    several positions. *)
Inductive sel := TNew | TPick (i : nat) | TPos (l : list nat).
Definition full (n : nat) : sel := TPos (seq 0 n).
Definition pick (n : nat) (i : Z) : result nat :=
  if (- Z.of_nat n <=? i) && (i <? Z.of_nat n)
  then Ok (Z.to_nat (if i <? 0 then i + Z.of_nat n else i)) else Raise IndexError.
Definition nix_takes (x : nix) : bool := match x with NNone | NEll => false | _ => true end.
Fixpoint sels (ell : nat) (sh : list nat) (ix : list nix) : result (list sel) :=
  match ix with
  | [] => Ok (map full sh)
  | NNone :: rest => do r <- sels ell sh rest; Ok (TNew :: r)
  | NEll :: rest => do r <- sels ell (skipn ell sh) rest; Ok (map full (firstn ell sh) ++ r)
  | x :: rest =>
      match sh with
      | [] => Raise IndexError
      | n :: sh' =>
          do s <- match x with
                  | NInt i | NNpInt i => do k <- pick n i; Ok (TPick k)
                  | NList l => do ks <- mapM (pick n) l; Ok (TPos ks)
                  | NSl a b st => if st =? 0 then Raise ValueError
                                  else Ok (TPos (map Z.to_nat (slice_positions (Z.of_nat n) a b st)))
                  | _ => Raise IndexError
                  end;
          do r <- sels ell sh' rest; Ok (s :: r)
      end
  end.
Definition is_nell (x : nix) : bool := match x with NEll => true | _ => false end.
Definition selectors (sh : list nat) (ix : list nix) : result (list sel) :=
  if (1 <? count is_nell ix)%nat then Raise IndexError
  else sels (length sh - count nix_takes ix) sh ix.
Fixpoint sel_shape (ss : list sel) : list nat :=
  match ss with
  | [] => []
  | TNew :: r => 1%nat :: sel_shape r
  | TPick _ :: r => sel_shape r
  | TPos l :: r => length l :: sel_shape r
  end.
(** the entry of the array that entry [jx] of the selection is *)
Fixpoint sel_source (ss : list sel) (jx : list nat) : list nat :=
  match ss with
  | [] => []
  | TNew :: r => sel_source r (tl jx)
  | TPick i :: r => i :: sel_source r jx
  | TPos l :: r => nth (hd 0%nat jx) l 0%nat :: sel_source r (tl jx)
  end.
Definition np_getitem (x : nda) (ix : list nix) : result nda :=
  do ss <- selectors (nd_shape x) ix;
  Ok (nd_build (sel_shape ss) (fun jx => nd_at x (sel_source ss jx))).
(** [x[ix] = v]: [v] must broadcast to the shape of the selection *)
Definition np_setitem (x : nda) (ix : list nix) (v : nda) : result nda :=
  do ss <- selectors (nd_shape x) ix;
  match broadcast (nd_shape v) (sel_shape ss) with
  | Some sh =>
      if nat_list_eqb sh (sel_shape ss) then
        Ok (nd_build (nd_shape x) (fun i =>
          match find (fun jx => nat_list_eqb (sel_source ss jx) i) (rev (all_ix (sel_shape ss))) with
          | Some jx => nd_at v (bc_index (nd_shape v) jx)
          | None => nd_at x i
          end))
      else Raise ValueError
  | None => Raise ValueError
  end.

(** ** indexing as the user writes it: axis.py:299-314 _tuplify for a single
    element, a list or a tuple (a list of slices is a tuple of slices; a mixed list
    is an error; [list(set())[0]] of an empty list is an IndexError; an integer array
    goes through [tuple]) *)
Inductive pyindex :=
| IxOne (x : aix)
| IxTuple (l : list aix)
| IxInts (l : list Z)              (* a list of ints *)
| IxSlices (l : list aix)          (* a list of slice objects *)
| IxArray (l : list Z)             (* a one-dimensional numpy array of integers *)
| IxMixed.                         (* a list of objects of several classes *)
Definition tuplify (i : pyindex) : result (list aix) :=
  match i with
  | IxOne x => Ok [x]
  | IxTuple l => Ok l
  | IxInts [] => Raise IndexError
  | IxInts l => Ok [XList l]
  | IxSlices [] => Raise IndexError
  | IxSlices l => Ok l
  | IxArray l => Ok (map XNpInt l)
  | IxMixed => Raise ValueError
  end.
(** axis.py:319-322 __setitem__ *)
Definition setitem (a : units) (i : pyindex) (v : nda) : result units :=
  do index <- tuplify i;
  do ix <- compute_indices (dims a) index;
  do x <- np_setitem (data a) ix v;
  Ok (mkAwu x (dims a)).
(** axis.py:324-336 __getitem__: an int into one axis gives the entry itself
    (boolean masks are numpy's and not modelled) *)
Definition getitem_py (a : units) (i : pyindex) : result pyval :=
  match i, ndim (data a) with
  | IxOne (XInt k), 1%nat => do x <- np_getitem (data a) [NInt k]; Ok (PNum (the_item x))
  | _, _ => do index <- tuplify i; do s <- getitem nd_shape np_getitem a index; Ok (PUnits Plain s)
  end.
(** audiosamples.py:166-173 __getitem__ *)
Definition audio_getitem (a : units) (i : pyindex) : result pyval :=
  do s <- getitem_py a i;
  match s with
  | PUnits _ u =>
      match (do e <- dims_eq (dims u) (dims a);
             if e then do r <- samplerate a; do w <- audio_new (data u) r; Ok (PUnits Audio w)
             else Ok s) with
      | Raise AttributeError => Ok s
      | r => r
      end
  | _ => Ok s
  end.

(** audiosamples.py:106-108 duration_in_seconds, as numerator and denominator *)
Definition duration_in_seconds (a : units) : result (Z * Z) :=
  do d <- py_get (dims a) 0;
  match d with DTime t => Ok (t_dur t, 10 ^ 12) | _ => Raise AttributeError end.
