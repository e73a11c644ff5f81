(** Model of streaming nodes: peak pickers and detection functions
    (zounds/segment/onset.py), Merge and Pooled (zounds/basic/basic.py). *)
From Verif Require Import PyBase PyFacts PyMore Time.
From Coq Require Import QArith Qabs.
Local Open Scope Z_scope.

(** ** BasePeakPicker, onset.py:130-159; times are picosecond counts *)
Section PeakPicker.
  (** one frame of the detection function and [_onset_indices] (abstract in the
      base class: onset.py:136-137) *)
  Context {A : Type} (onset_indices : list A -> result (list Z)).

  (** onset.py:131-134 *)
  Record pp_state := { pp_pos : Z; pp_leftover : Z }.
  Definition pp_init : pp_state := {| pp_pos := 0; pp_leftover := 0 |}.

  (** onset.py:146-159 [_process]; [frequency] is [data.dimensions[0].frequency];
      the emitted series is given by its (start, duration) slices, the data of
      each slice is an empty array *)
  Definition pp_process (frequency : Z) (st : pp_state) (data : list A) : result (pp_state * list (Z * Z)) :=
    do indices <- onset_indices data;
    let timestamps := map (fun i => pp_pos st + i * frequency) indices in
    let pos := pp_pos st + Zlen data * frequency in
    let timestamps := pp_leftover st :: timestamps in
    Ok ({| pp_pos := pos; pp_leftover := last timestamps 0 |}, slices timestamps).

  (** onset.py:139-144 [_last_chunk] *)
  Definition pp_last_chunk (st : pp_state) : list (Z * Z) :=
    [(pp_leftover st, pp_pos st - pp_leftover st)].

  (** the node fed chunk after chunk (contract of featureflow, see SlidingNode.v):
      [_process] on every chunk, then [_last_chunk] *)
  Fixpoint pp_feed (frequency : Z) (st : pp_state) (chunks : list (list A)) : result (list (list (Z * Z))) :=
    match chunks with
    | [] => Ok [pp_last_chunk st]
    | d :: ds =>
        do (st1, o) <- pp_process frequency st d;
        do os <- pp_feed frequency st1 ds;
        Ok (o :: os)
    end.
  Definition pp_run (frequency : Z) (chunks : list (list A)) : result (list (list (Z * Z))) :=
    pp_feed frequency pp_init chunks.
End PeakPicker.

(** [np.where(mask)[0]] *)
Definition np_where (mask : list bool) : list Z :=
  map (fun p : nat * bool => Z.of_nat (fst p)) (filter (fun p : nat * bool => snd p) (combine (seq 0 (length mask)) mask)).

(** ** MovingAveragePeakPicker, onset.py:162-180; values are rationals and
    [aggregate] is any function of a row *)
Section MovingAverage.
  Variable aggregate : list Q -> Q.
  Definition Qlt_b (a b : Q) : bool := negb (Qle_bool b a).

  (** onset.py:171-180 for one row; [center] is onset.py:167-169.  The slice
      [center - 2: center + 1] must have three columns, otherwise [diff[:, 1]]
      is an IndexError *)
  Definition ma_row (center : Z) (row : list Q) : result bool :=
    let agg := (aggregate row * (5 # 4))%Q in
    match py_slice (Some (center - 2)) (Some (center + 1)) row with
    | [a; b; c] =>
        let peak := Qlt_b 0 (b - a)%Q && Qlt_b (c - b)%Q 0 in
        match py_get row center with
        | Ok v => Ok (peak && Qlt_b agg v)
        | Raise e => Raise e
        end
    | _ => Raise IndexError
    end.
  Definition ma_onsets (center : Z) (data : list (list Q)) : result (list Z) :=
    do mask <- mapM (ma_row center) data; Ok (np_where mask).
End MovingAverage.

(** ** MeasureOfTransience, onset.py:11-52, and Flux, onset.py:100-127: nodes that
    compare every frame with the frame before it *)
Section Pairwise.
  Context {A B : Type}.
  Variable prep : A -> A.       (* [np.abs], onset.py:25 *)
  Variable score : A -> A -> B. (* value of a frame given its predecessor *)

  (** onset.py:24-31 [_first_chunk]: the first frame is doubled *)
  Definition mot_first_chunk (data : list A) : result (list A) :=
    match map prep data with
    | [] => Raise IndexError
    | x :: l => Ok (x :: x :: l)
    end.
  (** onset.py:36-40 [_enqueue] *)
  Definition mot_enqueue (cache : option (list A)) (data : list A) : option (list A) :=
    match cache with None => Some data | Some c => Some (c ++ data) end.
  (** onset.py:42-48 [_dequeue]: keeps the last frame *)
  Definition mot_dequeue (cache : option (list A)) : result (option (list A) * list A) :=
    match cache with
    | None => Raise TypeError
    | Some c => match rev c with [] => Raise IndexError | x :: _ => Ok (Some [x], c) end
    end.
  (** onset.py:50-58 [_process]: [v[1:]] against [v[:-1]] *)
  Fixpoint consecutive (l : list A) : list B :=
    match l with
    | a :: ((b :: _) as l') => score a b :: consecutive l'
    | _ => []
    end.
  Definition mot_process (data : list A) : list B := consecutive (map prep data).

  Fixpoint mot_feed (cache : option (list A)) (chunks : list (list A)) : result (list (list B)) :=
    match chunks with
    | [] => Ok []
    | d :: ds =>
        do d <- (match cache with None => mot_first_chunk d | Some _ => Ok d end);
        do (cache1, data) <- mot_dequeue (mot_enqueue cache d);
        do os <- mot_feed cache1 ds;
        Ok (mot_process data :: os)
    end.
  Definition mot_run (chunks : list (list A)) : result (list (list B)) := mot_feed None chunks.
End Pairwise.

(** onset.py:50-58 for one frame: the columns from the third on, bin numbers
    starting at 3; zero sums are replaced by 1e-12.  Values are rationals. *)
Definition sq (x : Q) : Q := (x * x)%Q.
Definition qsum (l : list Q) : Q := fold_right Qplus 0%Q l.
Definition nonzero (x : Q) : Q := if Qeq_bool x 0 then (1 # 1000000000000)%Q else x.
Definition mot_energy (row : list Q) : Q := nonzero (qsum (map sq (skipn 2 row))).
Fixpoint weighted_from (k : Z) (l : list Q) : Q :=
  match l with [] => 0%Q | x :: l' => (x * inject_Z k + weighted_from (k + 1) l')%Q end.
Definition mot_hfc (row : list Q) : Q := nonzero (weighted_from 3 (map sq (skipn 2 row))).
Definition mot_score (prev row : list Q) : Q :=
  ((mot_hfc row / mot_hfc prev) * (mot_hfc row / mot_energy row))%Q.
Definition mot (chunks : list (list (list Q))) : result (list (list Q)) :=
  mot_run (map Qabs.Qabs) mot_score chunks.

(** ** Flux, onset.py:100-127.  [ndims] is the number of axes of the data: the
    norm has one axis less than the data, whose dimensions it is given, and
    ArrayWithUnits (core/axis.py:44-48) refuses that. *)
Section Flux.
  Context {A B : Type} (dist : A -> A -> B).
  Definition with_dimensions (arr_ndim ndims : nat) (v : list B) : result (list B) :=
    if Nat.eqb arr_ndim ndims then Ok v else Raise ValueError.
  (** onset.py:106-114 [_enqueue], then featureflow's default [_dequeue]; the state is [_memory] *)
  Definition flux_enqueue (memory : option A) (data : list A) : result (option A * list A) :=
    match rev data with
    | [] => Raise IndexError
    | last :: _ =>
        match memory, data with
        | None, x :: _ => Ok (Some last, x :: data)
        | None, [] => Raise IndexError
        | Some m, _ => Ok (Some last, m :: data)
        end
    end.
  (** onset.py:116-122 [_process] *)
  Definition flux_process (ndims : nat) (data : list A) : result (list B) :=
    with_dimensions (ndims - 1) ndims (consecutive dist data).
  Fixpoint flux_feed (ndims : nat) (memory : option A) (chunks : list (list A)) : result (list (list B)) :=
    match chunks with
    | [] => Ok []
    | d :: ds =>
        do (m, data) <- flux_enqueue memory d;
        do o <- flux_process ndims data;
        do os <- flux_feed ndims m ds;
        Ok (o :: os)
    end.
End Flux.

(** ** Merge, basic.py:10-41 *)
Section Merge.
  (** a row of an array, the number of its elements, and rows of several arrays
      side by side ([ArrayWithUnits.concat(.., axis=1)]; the arrays are assumed to
      have equal dimensions, otherwise it is a ValueError) *)
  Context {A : Type} (rsize : A -> nat) (join : list A -> A).

  Definition mcache := list (nat * option (list A)).

  (** basic.py:15-21 *)
  Definition merge_init (needs : list nat) : result mcache :=
    if Zlen needs <? 2 then Raise ValueError else Ok (map (fun k => (k, None)) needs).

  (** [arr.size] *)
  Definition arr_size (v : list A) : nat := fold_right (fun r n => (rsize r + n)%nat) 0%nat v.

  (** basic.py:23-28 [_enqueue]; [key] is the identity of the pusher *)
  Fixpoint merge_enqueue (c : mcache) (key : nat) (data : list A) : result mcache :=
    match c with
    | [] => Raise KeyError
    | (k, v) :: c' =>
        if Nat.eqb k key then
          Ok ((k, match v with
                  | None => Some data
                  | Some old => if Nat.eqb (arr_size old) 0 then Some data else Some (old ++ data)
                  end) :: c')
        else do r <- merge_enqueue c' key data; Ok ((k, v) :: r)
    end.

  Fixpoint zmin (l : list Z) : Z :=
    match l with [] => 0 | [x] => x | x :: l' => Z.min x (zmin l') end.
  Definition filled (e : nat * option (list A)) : list A :=
    match snd e with None => [] | Some v => v end.

  (** basic.py:30-39 [_dequeue] *)
  Definition merge_dequeue (c : mcache) : result (mcache * list (nat * list A)) :=
    if existsb (fun e => match snd e with None => true | Some v => Zlen v =? 0 end) c
    then Raise NotEnoughData
    else
      let shortest := zmin (map (fun e => Zlen (filled e)) c) in
      Ok (map (fun e => (fst e, Some (py_slice (Some shortest) None (filled e)))) c,
          map (fun e => (fst e, py_slice None (Some shortest) (filled e))) c).

  (** [concat(list(data.values()), axis=1)], basic.py:41: row [i] of the result is
      row [i] of every array; the number of rows is that of the first *)
  Fixpoint zip_rows (n : nat) (arrs : list (list A)) : list A :=
    match n with
    | O => []
    | S m => join (map (fun a => hd (join []) a) arrs) :: zip_rows m (map (@tl A) arrs)
    end.
  Definition merge_process (data : list (nat * list A)) : list A :=
    match data with
    | [] => []
    | (_, v) :: _ => zip_rows (length v) (map snd data)
    end.

  (** the node fed by its dependencies: every arrival is an [_enqueue] followed
      by one [_dequeue]; one more [_dequeue] at the end *)
  Definition merge_attempt (c : mcache) : mcache * list A :=
    match merge_dequeue c with
    | Ok (c', d) => (c', merge_process d)
    | Raise _ => (c, [])
    end.
  Fixpoint merge_feed (c : mcache) (arrivals : list (nat * list A)) : result (mcache * list A) :=
    match arrivals with
    | [] => Ok (c, [])
    | (k, d) :: rest =>
        do c1 <- merge_enqueue c k d;
        let (c2, o) := merge_attempt c1 in
        do (c3, os) <- merge_feed c2 rest;
        Ok (c3, o ++ os)
    end.
  Definition merge_run (needs : list nat) (arrivals : list (nat * list A)) : result (list A) :=
    do c <- merge_init needs;
    do (c1, o) <- merge_feed c arrivals;
    let (_, o2) := merge_attempt c1 in Ok (o ++ o2).
End Merge.

(** ** Pooled, basic.py:44-71 *)
Section Pooled.
  (** [T] is a time slice, [A] a row of the series, [P] a pooled value;
      [get_slice] is [series[ts]] *)
  Context {T A P : Type} (get_slice : list A -> T -> result (list A)) (op : list A -> result P).
  (** [VariableRateTimeSeries.concat] sorts; [sort] stands for it (Vrts.v) *)
  Variable sort : list T -> list T.
  Inductive chunk := Series (rows : list A) | Slices (ts : list T).
  Record pooled_state := { po_slices : list T; po_series : option (list A) }.
  Definition pooled_init := {| po_slices := []; po_series := None |}.
  (** basic.py:52-59 *)
  Definition pooled_enqueue (st : pooled_state) (d : chunk) : pooled_state :=
    match d with
    | Series rows => {| po_slices := po_slices st;
                        po_series := match po_series st with None => Some rows | Some s => Some (s ++ rows) end |}
    | Slices ts => {| po_slices := sort (po_slices st ++ ts); po_series := po_series st |}
    end.
  (** basic.py:61-71; a missing series is a TypeError when it is indexed *)
  Definition pooled_result (st : pooled_state) : result (list (T * P)) :=
    mapM (fun ts => match po_series st with
                    | None => Raise TypeError
                    | Some s => do d <- get_slice s ts; do p <- op d; Ok (ts, p)
                    end) (po_slices st).
  Definition pooled_run (chunks : list chunk) : result (list (T * P)) :=
    pooled_result (fold_left pooled_enqueue chunks pooled_init).
End Pooled.
