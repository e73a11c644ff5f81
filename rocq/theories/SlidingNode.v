(** Model of the SlidingWindow node (zounds/spectral/sliding_window.py) and of
    ArrayWithUnits.sliding_window_with_leftovers (zounds/core/axis.py), along
    the time axis. *)
From Verif Require Import PyBase Windowed.
Local Open Scope Z_scope.

Section Node.
  Context {A : Type} (zero : A).

  (** [arr.size] (a row is assumed to have at least one element). *)
  Definition wout_empty (o : @wout A) : bool :=
    match o with
    | Flat [] => true
    | Flat _ => false
    | Rows r => forallb (fun x => match x with [] => true | _ => false end) r
    end.

  (** core/axis.py:201-217 sliding_window_with_leftovers, restricted to axis 0;
      [w] and [s] are the integer spans computed at axis.py:190-199.  When the
      result is empty, [self] is returned in place of the leftovers. *)
  Definition sliding_window_with_leftovers (a : list A) (w s : Z) (dopad : bool)
    : result (list A * wout) :=
    match windowed zero a w (Some s) dopad with
    | Raise e => Raise e
    | Ok (leftovers, out) =>
        if wout_empty out then Ok (a, out) else Ok (leftovers, out)
    end.

  (** sliding_window.py:160-165: configuration of the node. *)
  Record config := {
    c_window : Z;            (* integer span of wscheme.duration *)
    c_step : Z;              (* integer span of wscheme.frequency *)
    c_padwith : nat;
    c_func : option (list A -> list A)   (* wfunc, applied to each row *)
  }.

  (** sliding_window.py:165 [_cache]; [None] before the first chunk. *)
  Definition state := option (list A).

  (** sliding_window.py:167-174 [_first_chunk]: zeros in front of the stream. *)
  Definition first_chunk (c : config) (data : list A) : list A :=
    repeat zero (c_padwith c) ++ data.

  (** sliding_window.py:176-180 [_enqueue]. *)
  Definition enqueue (st : state) (data : list A) : state :=
    match st with
    | None => Some data
    | Some cache => Some (cache ++ data)
    end.

  (** sliding_window.py:204-207: the windowing function multiplies each frame
      (broadcast over the last axis). *)
  Definition apply_func (c : config) (o : wout) : wout :=
    match c_func c, o with
    | None, _ => o
    | Some f, Flat a => Flat a
    | Some f, Rows r => Rows (map f r)
    end.

  (** sliding_window.py:182-208 [_dequeue]. *)
  Definition dequeue (c : config) (finalized : bool) (st : state) : result (state * wout) :=
    match st with
    | None => Raise AttributeError   (* None has no sliding_window_with_leftovers *)
    | Some cache =>
        match sliding_window_with_leftovers cache (c_window c) (c_step c) finalized with
        | Raise e => Raise e
        | Ok (leftover, arr) =>
            if wout_empty arr then Raise NotEnoughData
            else Ok (Some leftover, apply_func c arr)
        end
    end.

  (** Contract of featureflow.Node with its nodes (not in /repo; trusted): for
      each incoming chunk [_enqueue] is called ([_first_chunk] is applied to the
      first one), then [_dequeue] once; NotEnoughData means "emit nothing, keep
      the state".  When the input ends [_dequeue] is called once more with
      [_finalized] true. *)
  Definition attempt (c : config) (finalized : bool) (st : state) : result (state * list wout) :=
    match dequeue c finalized st with
    | Ok (st', o) => Ok (st', [o])
    | Raise NotEnoughData => Ok (st, [])
    | Raise e => Raise e
    end.

  Fixpoint feed (c : config) (st : state) (chunks : list (list A)) : result (state * list wout) :=
    match chunks with
    | [] => Ok (st, [])
    | d :: ds =>
        let d := match st with None => first_chunk c d | Some _ => d end in
        do (st1, o1) <- attempt c false (enqueue st d);
        do (st2, o2) <- feed c st1 ds;
        Ok (st2, o1 ++ o2)
    end.

  Definition run (c : config) (chunks : list (list A)) : result (list wout) :=
    do (st1, o1) <- feed c None chunks;
    do (_, o2) <- attempt c true st1;
    Ok (o1 ++ o2).

  (** All the frames of a list of emitted arrays. *)
  Definition frames (os : list wout) : list (list A) :=
    concat (map (fun o => match o with Flat _ => [] | Rows r => r end) os).
End Node.
Arguments config _ : clear implicits.
