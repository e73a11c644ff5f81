(** Durations, time slices and time dimensions as numpy computes them: 64-bit counts of a unit, with
    conversion to the finer unit, and quotients in double precision (zounds/timeseries/duration.py,
    timeseries.py, samplerate.py).  Time.v is the same code with integers and quotients of any size. *)
From Coq Require Import ZArith QArith Qround.
From Verif Require Import PyBase Time Float64.
Local Open Scope Z_scope.

(** ** np.timedelta64 *)
(** C's arithmetic on 64-bit integers *)
Definition i64 (z : Z) : Z := (z + 2 ^ 63) mod 2 ^ 64 - 2 ^ 63.
(** not a time *)
Definition nat_count : Z := - 2 ^ 63.
Definition is_nat (c : Z) : bool := c =? nat_count.
(** duration.py:17-18, 34-35, 51-52, 68-69, 85-86, 102-103, 119-120: [np.timedelta64(int(x), unit)]; a
    number that does not fit is an OverflowError ([OtherError]) *)
Definition trunc (x : Q) : Z := Z.quot (Qnum x) (QDen x).
Definition duration_of (u : tunit) (x : Q) : result td :=
  let n := trunc x in
  if (n <? - 2 ^ 63) || (2 ^ 63 <=? n) then Raise OtherError else Ok {| td_count := n; td_unit := u |}.
(** the unit two durations are converted to *)
Definition finer (u v : tunit) : tunit := if unit_ps u <=? unit_ps v then u else v.
(** conversion to a finer unit *)
Definition cast (u : tunit) (t : td) : Z :=
  if is_nat (td_count t) then nat_count else i64 (td_count t * (unit_ps (td_unit t) / unit_ps u)).
Definition both (f : Z -> Z -> Z) (a b : td) : td :=
  let u := finer (td_unit a) (td_unit b) in
  let x := cast u a in let y := cast u b in
  {| td_count := if is_nat x || is_nat y then nat_count else i64 (f x y); td_unit := u |}.
Definition td_add : td -> td -> td := both Z.add.
Definition td_sub : td -> td -> td := both Z.sub.
(** by an int *)
Definition td_mul (n : Z) (t : td) : td :=
  {| td_count := if is_nat (td_count t) then nat_count else i64 (n * td_count t); td_unit := td_unit t |}.
(** comparisons with not-a-time are False *)
Definition compare_td (f : Z -> Z -> bool) (a b : td) : bool :=
  let u := finer (td_unit a) (td_unit b) in
  let x := cast u a in let y := cast u b in
  if is_nat x || is_nat y then false else f x y.
Definition td_lt : td -> td -> bool := compare_td Z.ltb.
Definition td_eq : td -> td -> bool := compare_td Z.eqb.

(** ** Doubles *)
Inductive f64 := Num (x : Q) | PInf | NInf | NaN.
(** rounding of a number of either sign *)
Definition fls (x : Q) : Q := if Qnum x <? 0 then Qopp (fl (Qopp x)) else fl x.
(** quotient of two durations: both counts as doubles, divided *)
Definition td_div (a b : td) : f64 :=
  let u := finer (td_unit a) (td_unit b) in
  let x := cast u a in let y := cast u b in
  if is_nat x || is_nat y then NaN
  else if y =? 0 then (if x =? 0 then NaN else if 0 <? x then PInf else NInf)
  else Num (fls (fls (inject_Z x) / fls (inject_Z y))%Q).
Definition map_num (f : Q -> Q) (x : f64) : f64 := match x with Num q => Num (f q) | _ => x end.
Definition np_floor : f64 -> f64 := map_num (fun q => inject_Z (Qfloor q)).
Definition np_ceil : f64 -> f64 := map_num (fun q => inject_Z (Qceiling q)).
(** nearest integer, ties to even *)
Definition rint (q : Q) : Z := rne (Qnum q) (QDen q).
Definition np_round0 : f64 -> f64 := map_num (fun q => inject_Z (rint q)).
(** np.round(x, 2) multiplies by 100, rounds, divides by 100 *)
Definition np_round2 : f64 -> f64 := map_num (fun q => fls (inject_Z (rint (fls (q * inject_Z 100)%Q)) / inject_Z 100)%Q).
(** Python's max(0, x) *)
Definition max0 (x : f64) : f64 := match x with Num q => if Qle_bool q 0 then Num 0%Q else Num q | PInf => PInf | _ => Num 0%Q end.
(** int(): infinite is an OverflowError ([OtherError]), not-a-number a ValueError *)
Definition to_int (x : f64) : result Z := match x with Num q => Ok (trunc q) | NaN => Raise ValueError | _ => Raise OtherError end.

(** ** SampleRate *)
Record rate64 := { r_freq : td; r_dur : td }.
(** samplerate.py:46-55 *)
Definition mk_rate64 (f d : td) : result rate64 :=
  if td_count f <=? 0 then Raise ValueError else if td_count d <=? 0 then Raise ValueError else Ok {| r_freq := f; r_dur := d |}.
(** samplerate.py:77-83 *)
Definition overlap64 (r : rate64) : td := td_sub (r_dur r) (r_freq r).
(** samplerate.py:93-98 *)
Definition samples_per_second64 (f : td) : result Z := to_int (td_div (picoseconds (10 ^ 12)) f).
(** samplerate.py:104-114 *)
Definition rate_mul64 (r : rate64) (o0 o1 : Z) : result rate64 :=
  mk_rate64 (td_mul o0 (r_freq r)) (td_add (td_mul o1 (r_freq r)) (overlap64 r)).
(** samplerate.py:116-120: (stepsize, windowsize) for an axis sampled at [t] *)
Definition discrete64 (r t : rate64) : result (Z * Z) :=
  let w := np_round0 (td_div (td_sub (r_dur r) (overlap64 t)) (r_freq t)) in
  let s := np_round0 (td_div (r_freq r) (r_freq t)) in
  do s <- to_int s; do w <- to_int w; Ok (s, w).

(** ** TimeDimension *)
Record dim64 := { d_freq : td; d_dur : td; d_size : option Z }.
(** timeseries.py:158-170: [duration or frequency]; only a zero count is false *)
Definition mk_dim64 (f : td) (d : option td) (size : option Z) : dim64 :=
  {| d_freq := f; d_dur := match d with Some d => if td_count d =? 0 then f else d | None => f end; d_size := size |}.
(** timeseries.py:205-212: the end of the span, a slice that starts at Picoseconds(0) *)
Definition end64 (t : dim64) : result td :=
  match d_size t with
  | None => Raise TypeError
  | Some n => Ok (td_add (picoseconds 0) (td_add (td_mul n (d_freq t)) (td_sub (d_dur t) (d_freq t))))
  end.
(** timeseries.py:221-232: windowsize and stepsize are ints *)
Definition modified64 (t : dim64) (w : Z) (s : option Z) : result dim64 :=
  let s := match s with Some s => if s =? 0 then w else s | None => w end in
  do r <- mk_rate64 (d_freq t) (d_dur t);
  Ok (mk_dim64 (td_mul s (d_freq t)) (Some (td_add (td_mul w (d_freq t)) (overlap64 r))) None).
(** a TimeSlice, or a Python slice of durations *)
Inductive index64 := TSlice (start : td) (dur : option td) | DSlice (start stop : option td).
(** timeseries.py:246-258; when the end is needed and the size is not known the caught TypeError leads to
    the slice itself, on whose durations numpy raises TypeError (slice(None, None) of such a dimension is
    not covered) *)
Definition as_timeslice (t : dim64) (i : index64) : result (td * option td) :=
  match i with
  | TSlice s d => Ok (ts_start (mk_timeslice d (Some s)), d)
  | DSlice start stop =>
      let zero := {| td_count := 0; td_unit := Sec |} in
      let start := match start with None => zero | Some s => s end in
      do start <- (if td_lt start zero then do e <- end64 t; Ok (td_add e start) else Ok start);
      do stop <- (match stop with None => end64 t | Some s => Ok s end);
      do stop <- (if td_lt stop zero then do e <- end64 t; Ok (td_add e stop) else Ok stop);
      let d := td_sub stop start in
      Ok (ts_start (mk_timeslice (Some d) (Some start)), Some d)
  end.
(** timeseries.py:261-275 *)
Definition slice64 (t : dim64) (i : index64) : result (Z * Z) :=
  do ts <- as_timeslice t i;
  let '(start, dur) := ts in
  let diff := td_sub (d_dur t) (d_freq t) in
  let start_index := max0 (np_floor (td_div (td_sub start diff) (d_freq t))) in
  do e <- (match dur with None => end64 t | Some d => Ok (td_add start d) end);
  let stop_index := np_ceil (np_round2 (td_div e (d_freq t))) in
  do a <- to_int start_index;
  do b <- to_int stop_index;
  Ok (a, b).

(** ** TimeSlice, timeseries.py:51-112 *)
Definition end_of64 (t : timeslice) : result td := match ts_duration t with None => Raise TypeError | Some d => Ok (td_add (ts_start t) d) end.
(** timeseries.py:55-56 *)
Definition shift64 (t : timeslice) (o : td) : timeslice := mk_timeslice (ts_duration t) (Some (td_add (ts_start t) o)).
(** Python's max and min of two *)
Definition max_td (a b : td) : td := if td_lt a b then b else a.
Definition min_td (a b : td) : td := if td_lt b a then b else a.
(** timeseries.py:89-93 *)
Definition and64 (a b : timeslice) : result timeslice :=
  do ea <- end_of64 a; do eb <- end_of64 b;
  Ok (mk_timeslice (Some (max_td (picoseconds 0) (td_sub (min_td ea eb) (max_td (ts_start a) (ts_start b))))) None).
(** timeseries.py:95-100 *)
Definition contains64 (t : timeslice) (x : td) : result bool :=
  if td_lt (ts_start t) x then do e <- end_of64 t; Ok (td_lt x e) else Ok false.
Definition contains_slice64 (t o : timeslice) : result bool :=
  if td_lt (ts_start t) (ts_start o) then do eo <- end_of64 o; do e <- end_of64 t; Ok (td_lt eo e) else Ok false.
(** timeseries.py:102-103; a duration is not equal to None *)
Definition eq64 (a b : timeslice) : bool :=
  td_eq (ts_start a) (ts_start b) && match ts_duration a, ts_duration b with None, None => true | Some x, Some y => td_eq x y | _, _ => false end.
(** timeseries.py:108-112: the pair that is hashed *)
Definition hashed64 (t : timeslice) : f64 * option f64 := (td_div (ts_start t) (picoseconds 1), option_map (fun d => td_div d (picoseconds 1)) (ts_duration t)).
(** samplerate.py:138-147 of an AudioSampleRate, whose frequency and duration are one sample *)
Definition windowing_scheme64 (r : rate64) (dur freq : Z) : result rate64 := mk_rate64 (td_mul freq (r_freq r)) (td_mul dur (r_dur r)).
Definition half_lapped64 (r : rate64) (window hop : Z) : result rate64 := mk_rate64 (td_mul hop (r_freq r)) (td_mul window (r_freq r)).
(** samplerate.py:130-136: Picoseconds(int(1e12)) // samples_per_second *)
Definition audio_rate64 (n : Z) : result rate64 := if n =? 0 then Raise ZeroDivisionError else let one := picoseconds (10 ^ 12 / n) in mk_rate64 one one.
