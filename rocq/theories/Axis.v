(** Model of zounds/core/axis.py (ArrayWithUnits) and core/dimensions.py:
    bookkeeping of dimensions through construction, indexing, reductions,
    transposition, reshaping, concatenation and windowing. *)
From Verif Require Import PyBase PyFacts PyMore Time Freq FreqDim.
Local Open Scope Z_scope.

(** core/dimensions.py:52-77 IdentityDimension, timeseries.py:125
    TimeDimension, tfrepresentation.py:8 FrequencyDimension, 81
    ExplicitFrequencyDimension *)
Inductive dim :=
| DIdent
| DTime (t : timedim)
| DFreq (s : scale)
| DExp (e : efd).

(** One element of an index tuple as the user writes it. *)
Inductive aix :=
| XNone                                    (* None / np.newaxis *)
| XEll                                     (* Ellipsis *)
| XInt (i : Z)                             (* a Python int *)
| XNpInt (i : Z)                           (* a numpy integer (not an int instance) *)
| XList (l : list Z)                       (* a list of ints *)
| XSl (a b : option Z) (step : Z)          (* slice(a, b, step) of ints *)
| XTime (start : Z) (dur : option Z)       (* a TimeSlice *)
| XTimes (a b : option Z)                  (* slice of durations *)
| XBand (q : band)                         (* a FrequencyBand *)
| XHz (a b : option R).                    (* slice of Hertz *)

(** What is handed to numpy's own indexing. [NObj] is an object numpy cannot
    index with (it raises IndexError). *)
Inductive nix :=
| NNone | NEll | NInt (i : Z) | NNpInt (i : Z) | NList (l : list Z)
| NSl (a b : option Z) (step : Z) | NObj.

(** handing an element over unchanged *)
Definition as_is (x : aix) : nix :=
  match x with
  | XNone => NNone | XEll => NEll | XInt i => NInt i | XNpInt i => NNpInt i
  | XList l => NList l | XSl a b s => NSl a b s
  | XTime _ _ | XTimes _ _ | XBand _ | XHz _ _ => NObj
  end.

(** axis.py:235-244 _is_integer_based_slice on a slice of ints: a bound equal
    to zero has [bit_length() == 0], which is falsy. *)
Definition int_based (a b : option Z) : bool :=
  match a with Some 0 => false | _ => true end &&
  match b with Some 0 => false | _ => true end.

(** timeseries.py:234-275 TimeDimension.integer_based_slice on a slice of ints
    (reached only when a bound is 0).  [start] becomes a timedelta64 when it is
    None or negative, [stop] likewise; TimeSlice() accepts the pair only if
    start is a timedelta64, and then with stop = 0 the slice ends at time zero.
    Otherwise the ValueError is swallowed and the slice is returned unchanged.
    [e] stands for the duration of the span plus the negative start, whose exact
    value does not matter, as the result ends at 0. *)
Definition time_int_slice (t : timedim) (a b : option Z) (step : Z) : result nix :=
  match b with
  | Some 0 =>
      match a with
      | None =>
          do p <- integer_based_slice t (ITime 0 (Some 0));
          Ok (NSl (Some (fst p)) (Some (snd p)) 1)
      | Some a' =>
          if a' <? 0 then
            (* start = self.end + a', duration = 0 - start *)
            do e <- t_span t;
            do p <- integer_based_slice t (ITime (e + a') (Some (- (e + a'))));
            Ok (NSl (Some (fst p)) (Some (snd p)) 1)
          else Ok (NSl a b step)
      end
  | _ => Ok (NSl a b step)
  end.

(** the integer_based_slice methods: dimensions.py:73-74 (Identity: returned
    unchanged), timeseries.py:234-275, tfrepresentation.py:54-55 and 132-143 *)
Definition pair_nix (p : Z * Z) : nix := NSl (Some (fst p)) (Some (snd p)) 1.
Definition slice_nix (p : pyslice) : nix := NSl (fst p) (snd p) 1.
Definition dim_int_slice (d : dim) (x : aix) : result nix :=
  match d with
  | DIdent => Ok (as_is x)
  | DTime t =>
      match x with
      | XTime s du => do p <- integer_based_slice t (ITime s du); Ok (pair_nix p)
      | XTimes a b => do p <- integer_based_slice t (Time.ISlice a b); Ok (pair_nix p)
      | XSl a b st => time_int_slice t a b st
      | _ => Ok (as_is x)
      end
  | DFreq s =>
      match x with
      | XBand q => do p <- get_slice s (IBand q); Ok (slice_nix p)
      | XHz a b => do p <- get_slice s (IHertz a b); Ok (slice_nix p)
      | XSl _ _ _ | XTimes _ _ => Ok (as_is x)
      | _ => Raise AttributeError
      end
  | DExp e =>
      match x with
      | XBand q => do p <- efd_integer_slice e q; Ok (slice_nix (nat_slice p))
      | _ => Ok (as_is x)
      end
  end.

(** axis.py:249-254: elements that only advance the position *)
Definition burns (x : aix) : bool :=
  match x with
  | XNone | XInt _ | XList _ => true
  | XSl a b _ => int_based a b
  | _ => false
  end.

(** axis.py:246-262 _compute_indices; [n_index] is len(index) *)
Fixpoint compute_from (ds : list dim) (n_index : Z) (pos : Z) (index : list aix) : result (list nix) :=
  match index with
  | [] => Ok []
  | x :: rest =>
      if burns x then do r <- compute_from ds n_index (pos + 1) rest; Ok (as_is x :: r)
      else match x with
      | XEll =>
          do r <- compute_from ds n_index (pos + (Zlen ds - (n_index - 1))) rest; Ok (NEll :: r)
      | _ =>
          do d <- py_get ds pos;
          do y <- dim_int_slice d x;
          do r <- compute_from ds n_index (pos + 1) rest; Ok (y :: r)
      end
  end.
Definition compute_indices (ds : list dim) (index : list aix) : result (list nix) :=
  compute_from ds (Zlen index) 0 index.

(** Python's slice.indices(n): the list of selected positions.  Step 0 is
    rejected by numpy. *)
Definition slice_positions (n : Z) (a b : option Z) (step : Z) : list Z :=
  let fix_neg i := if i <? 0 then i + n else i in
  if 0 <? step then
    let start := match a with None => 0 | Some i => Z.max 0 (Z.min n (fix_neg i)) end in
    let stop := match b with None => n | Some i => Z.max 0 (Z.min n (fix_neg i)) end in
    let count := if start <? stop then (stop - start - 1) / step + 1 else 0 in
    map (fun i => start + i * step) (zrange count)
  else
    let start := match a with None => n - 1 | Some i => Z.max (-1) (Z.min (n - 1) (fix_neg i)) end in
    let stop := match b with None => -1 | Some i => Z.max (-1) (Z.min (n - 1) (fix_neg i)) end in
    let count := if stop <? start then (start - stop - 1) / (- step) + 1 else 0 in
    map (fun i => start + i * step) (zrange count).

(** [l[a:b:step]] on a list *)
Definition list_slice {A} (l : list A) (a b : option Z) (step : Z) : list A :=
  flat_map (fun i => match nth_error l (Z.to_nat i) with Some x => [x] | None => [] end)
    (slice_positions (Zlen l) a b step).

(** frequencyscale.py:331-343 for a slice of ints with a step *)
Definition scale_slice_step (s : scale) (a b : option Z) (step : Z) : result scale :=
  do bs <- scale_bands s; construct_from_slice s (list_slice bs a b step).

(** metaslice: dimensions.py:26-30 (Identity: self), timeseries.py:218-219,
    tfrepresentation.py:51-52 and 118-130 *)
Definition dim_metaslice (d : dim) (x : aix) (size : nat) : result dim :=
  match d with
  | DIdent => Ok DIdent
  | DTime t => Ok (DTime (metaslice t (Z.of_nat size)))
  | DFreq s =>
      match x with
      | XBand q => do s' <- scale_slice s (IBand q); Ok (DFreq s')
      | XHz a b => do s' <- scale_slice s (IHertz a b); Ok (DFreq s')
      | XSl a b st => do s' <- scale_slice_step s a b st; Ok (DFreq s')
      | _ => Raise AttributeError
      end
  | DExp e =>
      match x with
      | XBand q => do e' <- efd_metaslice_band e q; Ok (DExp e')
      | XSl a b st =>
          do s' <- scale_slice_step (escale e) a b st;
          do e' <- make_efd s' (list_slice (eslices e) a b st); Ok (DExp e')
      | _ => Raise TypeError
      end
  end.

(** axis.py:282-289: [try: ... metaslice ... except IndexError: yield dim] *)
Definition metaslice_or_dim (d : dim) (x : aix) (new_shape : list nat) (shape_pos : Z) : result dim :=
  match (do size <- py_get new_shape shape_pos; dim_metaslice d x size) with
  | Raise IndexError => Ok d
  | r => r
  end.

Definition is_ell (x : aix) : bool := match x with XEll => true | _ => false end.
Definition is_none (x : aix) : bool := match x with XNone => true | _ => false end.
(** index elements that consume an axis of the array *)
Definition consumes (x : aix) : bool := negb (is_ell x) && negb (is_none x).
Definition count {A} (p : A -> bool) (l : list A) : nat := length (filter p l).

(** axis.py:264-297 _new_dims; [ell] is the ellipsis size.  [py_get] outside
    the [try] in the Ellipsis branch may raise IndexError; inside it the
    IndexError handler finds [dim] unbound. *)
Fixpoint ell_dims (ds : list dim) (pos : Z) (n : nat) : result (list dim) :=
  match n with
  | O => Ok []
  | S m => do d <- py_get ds pos; do r <- ell_dims ds (pos + 1) m; Ok (d :: r)
  end.
Fixpoint new_dims_from (ds : list dim) (ell : Z) (new_shape : list nat) (dpos spos : Z) (index : list aix)
  : result (list dim) :=
  match index with
  | [] => Ok (py_slice (Some dpos) None ds)
  | x :: rest =>
      match x with
      | XNone => do r <- new_dims_from ds ell new_shape dpos spos rest; Ok (DIdent :: r)
      | XInt _ => new_dims_from ds ell new_shape (dpos + 1) spos rest
      | XList _ => do r <- new_dims_from ds ell new_shape (dpos + 1) (spos + 1) rest; Ok (DIdent :: r)
      | XEll =>
          do es <- ell_dims ds dpos (Z.to_nat ell);
          let k := Z.of_nat (Z.to_nat ell) in
          do r <- new_dims_from ds ell new_shape (dpos + k) (spos + k) rest; Ok (es ++ r)
      | _ =>
          do d <- match py_get ds dpos with Ok d => Ok d | Raise _ => Raise UnboundLocalError end;
          do m <- metaslice_or_dim d x new_shape spos;
          do r <- new_dims_from ds ell new_shape (dpos + 1) (spos + 1) rest; Ok (m :: r)
      end
  end.
Definition new_dims (ds : list dim) (index : list aix) (new_shape : list nat) : result (list dim) :=
  new_dims_from ds (Zlen ds - Z.of_nat (count consumes index)) new_shape 0 0 index.

(** axis.py:50-61, one axis: the dimension's copy gets the size of the axis and
    is validated.  ExplicitFrequencyDimension.validate only returns a bool. *)
Definition fit_dim (d : dim) (size : nat) : result dim :=
  match d with
  | DIdent => Ok DIdent
  | DTime t => Ok (DTime (mk_timedim (t_freq t) (Some (t_dur t)) (Some (Z.of_nat size))))
  | DFreq s => do _ <- fdim_validate s size; Ok (DFreq s)
  | DExp e => Ok (DExp e)
  end.
Fixpoint fit_dims (ds : list dim) (sh : list nat) : result (list dim) :=
  match ds, sh with
  | d :: ds', n :: sh' => do d' <- fit_dim d n; do r <- fit_dims ds' sh'; Ok (d' :: r)
  | _, _ => Ok []
  end.

Section Awu.
  (** [X] is a raw numpy array; [shape_of] its shape; [np_get] numpy's own
      [ndarray.__getitem__]. *)
  Context {X : Type} (shape_of : X -> list nat) (np_get : X -> list nix -> result X).

  Record awu := mkAwu { data : X; dims : list dim }.

  (** axis.py:44-63 __new__ *)
  Definition awu_new (x : X) (ds : list dim) : result awu :=
    if (length (shape_of x) =? length ds)%nat
    then do ds' <- fit_dims ds (shape_of x); Ok (mkAwu x ds')
    else Raise ValueError.

  (** axis.py:324-336 __getitem__, for an index tuple (boolean masks and an int
      into a one-dimensional array return raw numpy data and are not modelled) *)
  Definition getitem (a : awu) (index : list aix) : result awu :=
    do ix <- compute_indices (dims a) index;
    do arr <- np_get (data a) ix;
    do ds <- new_dims (dims a) index (shape_of arr);
    awu_new arr ds.

  (** axis.py:65-68 T; [tr] is numpy's transposition *)
  Definition transpose (tr : X -> X) (a : awu) : result awu :=
    awu_new (tr (data a)) (rev (dims a)).

  (** axis.py:130-146 _apply_reduction_to_dimensions for an axis tuple; [r] is
      the array numpy's reduction computed.  It has passed through __array_wrap__
      (axis.py:171-176), which turns an array without axes into a Python number,
      and that has no [ndim]. *)
  Definition norm_axes (nd : Z) (axes : list Z) : list Z :=
    map (fun a => if a <? 0 then nd + a else a) axes.
  Definition reduced (nd : Z) (axes : list Z) (i : nat) : bool :=
    existsb (Z.eqb (Z.of_nat i)) (norm_axes nd axes).
  Definition reduce_dims (ds : list dim) (axes : list Z) (keepdims : bool) : list dim :=
    let idx := combine (seq 0 (length ds)) ds in
    if keepdims
    then map (fun p => if reduced (Zlen ds) axes (fst p) then DIdent else snd p) idx
    else map snd (filter (fun p => negb (reduced (Zlen ds) axes (fst p))) idx).
  Definition reduction (a : awu) (r : X) (axes : list Z) (keepdims : bool) : result awu :=
    if (length (shape_of r) =? 0)%nat && negb (length (dims a) =? 0)%nat then Raise AttributeError
    else awu_new r (reduce_dims (dims a) axes keepdims).

  (** axis.py:79-105 reshape and squeeze.  [rs] is numpy's reshape; sizes are
      nonnegative here except that the requested shape may contain -1. *)
  Definition squeeze_shape (sh : list nat) : list nat := filter (fun n => 1 <? n)%nat sh.
  Definition squeeze_dims (sh : list nat) (ds : list dim) : list dim :=
    map snd (filter (fun p => 1 <? fst p)%nat (combine sh ds)).
  Definition squeeze (rs : X -> list Z -> result X) (a : awu) : result awu :=
    do x <- rs (data a) (map Z.of_nat (squeeze_shape (shape_of (data a))));
    awu_new x (squeeze_dims (shape_of (data a)) (dims a)).
  Fixpoint insert_ones (req : list Z) (ds : list dim) : list dim :=
    match req with
    | [] => []
    | n :: req' =>
        if Z.abs n =? 1 then DIdent :: insert_ones req' ds
        else match ds with d :: ds' => d :: insert_ones req' ds' | [] => insert_ones req' [] end
    end.
  Definition zlist_eqb (a b : list Z) : bool := if list_eq_dec Z.eq_dec a b then true else false.
  Definition reshape (rs : X -> list Z -> result X) (a : awu) (req : list Z) : result awu :=
    let sh := map Z.of_nat (shape_of (data a)) in
    let non_one := fun z => negb (Z.abs z =? 1) in
    if zlist_eqb req (filter non_one sh) then squeeze rs a
    else if zlist_eqb sh (filter non_one req) then
      do x <- rs (data a) req; awu_new x (insert_ones req (dims a))
    else do x <- rs (data a) req; awu_new x (map (fun _ => DIdent) req).

  (** The [==] of two dimensions; an attribute the other object lacks is an
      AttributeError (dimensions.py:73-74, timeseries.py:277-280,
      tfrepresentation.py:71-72, 148-149). *)
  Definition dim_eq (d e : dim) : result bool :=
    match d, e with
    | DIdent, DIdent => Ok true
    | DIdent, _ => Ok false
    | DTime t, DTime u => Ok ((t_freq t =? t_freq u) && (t_dur t =? t_dur u))
    | DTime _, _ => Raise AttributeError
    | DFreq s, DFreq s' => scale_eq s s'
    | DFreq s, DExp e' => scale_eq s (escale e')
    | DFreq _, _ => Raise AttributeError
    | DExp x, DExp y =>
        do b <- scale_eq (escale x) (escale y);
        Ok (b && if list_eq_dec (fun p q : nat * nat =>
                     ltac:(decide equality; apply Nat.eq_dec)) (eslices x) (eslices y)
                 then true else false)
    | DExp x, DFreq s => do b <- scale_eq (escale x) s; if b then Raise AttributeError else Ok false
    | DExp _, _ => Raise AttributeError
    end.
  (** tuple [==]: lengths and elements in order *)
  Fixpoint dims_eq (ds es : list dim) : result bool :=
    match ds, es with
    | [], [] => Ok true
    | d :: ds', e :: es' => do b <- dim_eq d e; if b then dims_eq ds' es' else Ok false
    | _, _ => Ok false
    end.
  Fixpoint all_dims_eq (ds : list dim) (arrs : list awu) : result bool :=
    match arrs with
    | [] => Ok true
    | a :: rest => do b <- dims_eq (dims a) ds; if b then all_dims_eq ds rest else Ok false
    end.
  (** axis.py:107-112 concat and 114-120 from_example; [cat] is np.concatenate *)
  Definition concat (cat : list X -> result X) (arrs : list awu) : result awu :=
    match arrs with
    | [] => do _ <- cat []; Raise IndexError
    | a :: rest =>
        do b <- all_dims_eq (dims a) rest;
        if b then do x <- cat (map data arrs); awu_new x (dims a) else Raise ValueError
    end.

  (** modified_dimension: dimensions.py:67-71 (Identity), timeseries.py:221-232,
      tfrepresentation.py:48-49 and 115-116 with the handler axis.py:221-222.
      A window or step of [None] stands for [slice(None)]. *)
  Definition modified_dims (d : dim) (size : nat) (w : option Z) (s : option Z) : result (list dim) :=
    match d with
    | DIdent =>
        match w with
        | None => Ok [DIdent]
        | Some w => if w =? 0 then Raise ZeroDivisionError
                    else if Z.of_nat size =? w then Ok [DIdent] else Raise ValueError
        end
    | DTime t =>
        match w with
        | None => Ok [DTime t]
        | Some w => do m <- modified_dimension t w s; Ok [DTime m; DTime t]
        end
    | DFreq _ | DExp _ => Ok [d]
    end.

  (** axis.py:188-209 and 213-222 sliding_window_with_leftovers with an integer
      window and step ([stepsize=None] is [w]; a unit window has become an
      integer by axis.py:224-229).  [win] is nputil's windowed; only its first
      component, the leftovers, is returned unchanged. *)
  Fixpoint keep_dims (ds : list dim) (sh : list nat) : result (list dim) :=
    match ds, sh with
    | d :: ds', n :: sh' => do m <- modified_dims d n None None; do r <- keep_dims ds' sh'; Ok (m ++ r)
    | _, _ => Ok []
    end.
  Definition swl_dims (ds : list dim) (sh : list nat) (w s : Z) : result (list dim) :=
    match ds, sh with
    | d :: ds', n :: sh' =>
        do m <- modified_dims d n (Some w) (Some s); do r <- keep_dims ds' sh'; Ok (m ++ r)
    | _, _ => Ok []
    end.
  Definition np_size (sh : list nat) : nat := fold_right Nat.mul 1%nat sh.
  Definition sliding_window_with_leftovers (win : X -> Z -> Z -> result (X * X)) (a : awu) (w s : Z)
    : result awu :=
    do p <- win (data a) w s;
    let r := snd p in
    if (np_size (shape_of r) =? 0)%nat then awu_new r (dims a)
    else
      do ds <- match swl_dims (dims a) (shape_of (data a)) w s with
               | Raise ValueError => Ok (map (fun _ => DIdent) (shape_of r))
               | x => x
               end;
      awu_new r ds.
End Awu.
Arguments mkAwu {X}. Arguments data {X}. Arguments dims {X}.
