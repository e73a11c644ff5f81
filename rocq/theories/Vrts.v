(** Model of zounds/timeseries/variablerate.py. *)
From Verif Require Import PyBase PyFacts PyMore Time.
Local Open Scope Z_scope.

Section Vrts.
  (** One row of slice data: its numpy shape, its dtype and the conversion numpy
      applies when a row is stored in a field of another dtype. *)
  Context {A D : Type} (rshape : A -> list nat) (rtype : A -> D) (cast : D -> A -> A).

  Definition item := (timeslice * A)%type.
  (** the recarray [_data] *)
  Definition vrts := list item.

  (** [sorted(list(data), key=lambda x: x[0])]: stable, compares with
      TimeSlice.__lt__ (timeseries.py:65-69) *)
  Definition item_le (x y : item) : bool := negb (ts_lt (fst y) (fst x)).
  Definition sort_items (l : list item) : list item := isort item_le l.

  Definition shape_eqb (a b : list nat) : bool := if list_eq_dec Nat.eq_dec a b then true else false.

  (** variablerate.py:9-27 __init__ from pairs: the dtype and shape of the field
      are those of the first row after sorting; a row of another shape is a
      ValueError (numpy would broadcast some shapes, which is not modelled) *)
  Definition vrts_make (data : list item) : result vrts :=
    let data := sort_items data in
    match data with
    | [] => Ok []
    | (_, ex) :: _ =>
        if forallb (fun x => shape_eqb (rshape (snd x)) (rshape ex)) data
        then Ok (map (fun x => (fst x, cast (rtype ex) (snd x))) data)
        else Raise ValueError
    end.

  (** variablerate.py:32-34 *)
  Definition vrts_concat (a b : vrts) : result vrts := vrts_make (a ++ b).

  (** variablerate.py:58-63 *)
  Definition vrts_end (v : vrts) : result Z :=
    match v with [] => Ok 0 | x :: _ => ts_end (fst (last v x)) end.
  (** variablerate.py:50-56: (start, duration) in picoseconds *)
  Definition vrts_span (v : vrts) : result (Z * Z) :=
    match v with
    | [] => Ok (0, 0)
    | x :: _ => do e <- vrts_end v; let s := ps (ts_start (fst x)) in Ok (s, e - s)
    end.

  (** variablerate.py:70-72, the test of the generator *)
  Definition vrts_test (q : timeslice) (x : item) : result bool :=
    do e <- ts_end (fst x);
    if ps (ts_start q) <? e then
      match ts_duration q with
      | None => Ok true
      | Some _ => do qe <- ts_end q; Ok (ps (ts_start (fst x)) <? qe)
      end
    else Ok false.
  Fixpoint filterM (p : item -> result bool) (l : list item) : result (list item) :=
    match l with
    | [] => Ok []
    | x :: l' => do b <- p x; do r <- filterM p l'; Ok (if b then x :: r else r)
    end.
  (** variablerate.py:65-73 __getitem__ with a TimeSlice *)
  Definition vrts_get (v : vrts) (q : timeslice) : result vrts :=
    do l <- filterM (vrts_test q) v; vrts_make l.
  (** variablerate.py:76-77 with a slice of ints: the recarray is not sorted again *)
  Definition vrts_slice (v : vrts) (a b : option Z) : vrts := py_slice a b v.

  (** [float(x)]: the nearest double (53 bits, ties to even); finite range *)
  Definition to_double (x : Z) : Z :=
    let m := Z.abs x in
    if m <? 2 ^ 53 then x
    else let q := 2 ^ (Z.log2 m - 52) in Z.sgn x * (round_half_even m q * q).

  (** variablerate.py:84-95 _prepare_data: [ts.start / Picoseconds(1)] is a float
      division, stored into an int64 field; a missing duration is a TypeError *)
  Record stored := { s_start : Z; s_duration : Z; s_data : A }.
  Definition prepare (x : item) : result stored :=
    match ts_duration (fst x) with
    | None => Raise TypeError
    | Some d => Ok {| s_start := to_double (ps (ts_start (fst x)));
                      s_duration := to_double (ps d); s_data := snd x |}
    end.
  Definition vrts_encode (v : vrts) : result (list stored) := mapM prepare v.
  (** variablerate.py:98-110 *)
  Definition restore (r : stored) : item :=
    (mk_timeslice (Some (picoseconds (s_duration r))) (Some (picoseconds (s_start r))), s_data r).
  Definition vrts_decode (raw : list stored) : result vrts := vrts_make (map restore raw).
End Vrts.
