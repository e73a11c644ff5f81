(** Model of time slices, time dimensions and sample rates
    (zounds/timeseries/timeseries.py, samplerate.py). *)
From Verif Require Import PyBase.
Local Open Scope Z_scope.

(** ** Durations *)

(** A [np.timedelta64]: a 64-bit count and a unit; comparison, addition and
    division convert to the finer unit, which the model does by converting to
    picoseconds (overflow of int64 is not modelled). *)
Inductive tunit := Ps | Ns | Us | Ms | Sec | Min | Hr.
Definition unit_ps (u : tunit) : Z :=
  match u with
  | Ps => 1 | Ns => 10 ^ 3 | Us => 10 ^ 6 | Ms => 10 ^ 9 | Sec => 10 ^ 12
  | Min => 60 * 10 ^ 12 | Hr => 3600 * 10 ^ 12
  end.
Record td := { td_count : Z; td_unit : tunit }.
Definition ps (t : td) : Z := td_count t * unit_ps (td_unit t).
Definition picoseconds (n : Z) : td := {| td_count := n; td_unit := Ps |}.

(** ** TimeSlice, timeseries.py:7-122 *)
Record timeslice := { ts_start : td; ts_duration : option td }.

(** timeseries.py:36-48: [start or Picoseconds(0)] *)
Definition mk_timeslice (duration start : option td) : timeslice :=
  {| ts_start := match start with
                 | Some s => if td_count s =? 0 then picoseconds 0 else s
                 | None => picoseconds 0
                 end;
     ts_duration := duration |}.

(** timeseries.py:61-63: adding None is a TypeError *)
Definition ts_end (t : timeslice) : result Z :=
  match ts_duration t with
  | None => Raise TypeError
  | Some d => Ok (ps (ts_start t) + ps d)
  end.

(** timeseries.py:55-56 *)
Definition ts_shift (t : timeslice) (o : td) : timeslice :=
  mk_timeslice (ts_duration t) (Some (picoseconds (ps (ts_start t) + ps o))).

(** timeseries.py:65-69 *)
Definition ts_lt (a b : timeslice) : bool := ps (ts_start a) <? ps (ts_start b).

(** timeseries.py:89-93 *)
Definition ts_and (a b : timeslice) : result timeslice :=
  do ea <- ts_end a;
  do eb <- ts_end b;
  Ok (mk_timeslice
        (Some (picoseconds (Z.max 0 (Z.min ea eb - Z.max (ps (ts_start a)) (ps (ts_start b))))))
        None).

(** timeseries.py:95-100, instants *)
Definition ts_contains (t : timeslice) (x : td) : result bool :=
  if ps (ts_start t) <? ps x
  then do e <- ts_end t; Ok (ps x <? e)
  else Ok false.
(** timeseries.py:98-99, slices *)
Definition ts_contains_slice (t o : timeslice) : result bool :=
  if ps (ts_start t) <? ps (ts_start o)
  then do eo <- ts_end o; do e <- ts_end t; Ok (eo <? e)
  else Ok false.

(** timeseries.py:102-103 *)
Definition ts_eq (a b : timeslice) : bool :=
  (ps (ts_start a) =? ps (ts_start b)) &&
  match ts_duration a, ts_duration b with
  | None, None => true
  | Some x, Some y => ps x =? ps y
  | _, _ => false
  end.

(** timeseries.py:108-112: the hash of a pair of floats; [fl] is the conversion
    of the picosecond count to float64 and [h] Python's tuple hash. *)
Definition ts_hash {F : Type} (fl : Z -> F) (h : F * option F -> Z) (t : timeslice) : Z :=
  h (fl (ps (ts_start t)), option_map (fun d => fl (ps d)) (ts_duration t)).

(** timeseries.py:50-53 [TimeSlice.slices]: (start, duration) pairs in one unit *)
Fixpoint zip_diff (l : list Z) : list (Z * Z) :=
  match l with
  | a :: ((b :: _) as l') => (a, b - a) :: zip_diff l'
  | _ => []
  end.
Definition slices (timestamps : list Z) : list (Z * Z) := zip_diff (isort Z.leb timestamps).

(** ** SampleRate, samplerate.py:46-131; all in picoseconds *)
Record samplerate := { sr_freq : Z; sr_dur : Z }.

(** samplerate.py:46-55 *)
Definition mk_samplerate (f d : Z) : result samplerate :=
  if f <=? 0 then Raise ValueError
  else if d <=? 0 then Raise ValueError
  else Ok {| sr_freq := f; sr_dur := d |}.

(** samplerate.py:77-83 *)
Definition sr_overlap (s : samplerate) : Z := sr_dur s - sr_freq s.
(** samplerate.py:85-91 as a fraction *)
Definition sr_overlap_ratio (s : samplerate) : Z * Z := (sr_overlap s, sr_dur s).
(** samplerate.py:93-95: int() of the quotient *)
Definition samples_per_second (f : Z) : Z := trunc_div (10 ^ 12) f.
(** samplerate.py:100-102 *)
Definition nyquist (s : samplerate) : Z := samples_per_second (sr_freq s) / 2.
(** samplerate.py:104-114 with a pair; a single number or 1-tuple [k] is (k, k) *)
Definition sr_mul (s : samplerate) (o0 o1 : Z) : result samplerate :=
  mk_samplerate (sr_freq s * o0) (sr_freq s * o1 + sr_overlap s).
(** samplerate.py:116-120, against a time dimension of frequency [tf] and
    duration [tdur]: (stepsize, windowsize) *)
Definition discrete_samples (s : samplerate) (tf tdur : Z) : Z * Z :=
  (round_half_even (sr_freq s) tf, round_half_even (sr_dur s - (tdur - tf)) tf).

(** samplerate.py:130-136 [AudioSampleRate] *)
Definition audio_rate (n : Z) : result samplerate :=
  if n =? 0 then Raise ZeroDivisionError
  else let one := 10 ^ 12 / n in mk_samplerate one one.
(** samplerate.py:138-147 *)
Definition half_lapped (s : samplerate) (window hop : Z) : result samplerate :=
  mk_samplerate (sr_freq s * hop) (sr_freq s * window).
Definition windowing_scheme (s : samplerate) (dur freq : Z) : result samplerate :=
  mk_samplerate (sr_freq s * freq) (sr_dur s * dur).

(** samplerate.py:261-262 *)
Definition standard_rates : list Z := [96000; 48000; 44100; 22050; 16000; 11025].
Definition rate_sps (n : Z) : Z :=
  match audio_rate n with Ok s => samples_per_second (sr_freq s) | Raise _ => 0 end.
(** samplerate.py:265-270, returning the constructor argument of the instance *)
Definition audio_sample_rate (n : Z) : result Z :=
  match find (fun r => n =? rate_sps r) standard_rates with
  | Some r => Ok r
  | None => Raise ValueError
  end.
(** samplerate.py:273-276; np.argmin takes the first minimum *)
Fixpoint argmin (l : list Z) : nat :=
  match l with
  | [] => 0%nat
  | [_] => 0%nat
  | x :: l' => let j := argmin l' in if x <=? nth j l' 0 then 0%nat else S j
  end.
Definition nearest_audio_sample_rate (n : Z) : Z :=
  nth (argmin (map (fun r => Z.abs (n - rate_sps r)) standard_rates)) standard_rates 0.

(** ** TimeDimension, timeseries.py:125-280; picoseconds *)
Record timedim := { t_freq : Z; t_dur : Z; t_size : option Z }.

(** timeseries.py:158-170: [duration or frequency] *)
Definition mk_timedim (f : Z) (d : option Z) (size : option Z) : timedim :=
  {| t_freq := f;
     t_dur := match d with Some d => if d =? 0 then f else d | None => f end;
     t_size := size |}.

(** timeseries.py:206-208: [None * frequency] is a TypeError *)
Definition t_span (t : timedim) : result Z :=
  match t_size t with
  | None => Raise TypeError
  | Some n => Ok (n * t_freq t + (t_dur t - t_freq t))
  end.

(** timeseries.py:186-192: overlap goes through the SampleRate constructor *)
Definition t_overlap (t : timedim) : result Z :=
  do s <- mk_samplerate (t_freq t) (t_dur t); Ok (sr_overlap s).

(** timeseries.py:218-219 *)
Definition metaslice (t : timedim) (size : Z) : timedim := mk_timedim (t_freq t) (Some (t_dur t)) (Some size).

(** timeseries.py:221-232, integer window and step: the first dimension yielded;
    the second is [t] itself *)
Definition modified_dimension (t : timedim) (w : Z) (s : option Z) : result timedim :=
  let s := match s with Some s => if s =? 0 then w else s | None => w end in
  do o <- t_overlap t;
  Ok (mk_timedim (t_freq t * s) (Some (t_freq t * w + o)) None).

(** The index of timeseries.py:234-275: a TimeSlice, a Python slice of
    durations, or anything else (returned unchanged).  When the end is needed
    and the size is not known, the TypeError is caught (:257-258) and the slice
    returned unchanged: numpy then raises TypeError on its durations.  This does
    not happen to slice(None, None), which the model does not cover for such a
    dimension; the dimensions of an array always know their size. *)
Inductive tindex :=
| ITime (start : Z) (dur : option Z)
| ISlice (start stop : option Z).

(** [np.round(end / frequency, 2)], times 100, in exact arithmetic. *)
Definition round2 (e f : Z) : Z := round_half_even (100 * e) f.

Definition integer_based_slice (t : timedim) (i : tindex) : result (Z * Z) :=
  do ts <- (match i with
            | ITime s d => Ok (s, d)
            | ISlice start stop =>
                do start <- (match start with
                             | None => Ok 0
                             | Some s => if s <? 0 then do e <- t_span t; Ok (e + s) else Ok s
                             end);
                do stop <- (match stop with None => t_span t | Some s => Ok s end);
                do stop <- (if stop <? 0 then do e <- t_span t; Ok (e + stop) else Ok stop);
                Ok (start, Some (stop - start))
            end);
  let '(start, dur) := ts in
  let diff := t_dur t - t_freq t in
  let start_index := Z.max 0 ((start - diff) / t_freq t) in
  do e <- (match dur with None => t_span t | Some d => Ok (start + d) end);
  Ok (start_index, ceil_div (round2 e (t_freq t)) 100).
