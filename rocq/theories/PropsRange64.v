(** C107: times of range requests and of the answers to them, with the numbers of the machine. *)
From Coq Require Import ZArith QArith Qreals Reals.
From Verif Require Import PyBase PyMore Time Axis Float64 Float64Proofs Time64 Fractions Range64 Range64Proofs Range64Proofs2.
Local Open Scope R_scope.
Theorem C107_decimal :
  forall (v : Q) (p : Z),
  (0 <= p < 2 ^ 50)%Z ->
  is_ps v p -> seconds_ps64 (fls v) = p \/ (fls v < v)%Q /\ seconds_ps64 (fls v) = (p - 1)%Z.
Proof. exact (@decimal_ps). Qed.
Print Assumptions C107_decimal.
Theorem C107_exact :
  forall (v : Q) (p : Z),
  (0 <= p < 2 ^ 50)%Z -> is_ps v p -> fls v == v -> seconds_ps64 (fls v) = p.
Proof. exact (@exact_ps). Qed.
Print Assumptions C107_exact.
Theorem C107_whole_seconds :
  forall n : Z,
  (0 <= n <= 9223372)%Z -> picoseconds_of (inject_Z n) = Ok (picoseconds (10 ^ 12 * n)).
Proof. exact (@whole_seconds). Qed.
Print Assumptions C107_whole_seconds.
Theorem C107_too_far_refuted :
  picoseconds_of (inject_Z 9223373) = Raise OtherError.
Proof. exact (@too_far_refuted). Qed.
Print Assumptions C107_too_far_refuted.
Theorem C107_request :
  forall (v w : Q) (p q : Z),
  (0 <= p <= q)%Z ->
  (q < 2 ^ 50)%Z ->
  is_ps v p ->
  is_ps w q ->
  exists (s d : Z) (t : timeslice),
    time_slice64 (fls v) (Some (fls w)) = Ok t /\
    ps (ts_start t) = s /\
    ts_duration t = Some (picoseconds d) /\
    ts_end t = Ok (s + d)%Z /\
    (s = p \/ s = (p - 1)%Z) /\ (d = (q - p)%Z \/ d = (q - p - 1)%Z) /\ (0 <= d)%Z.
Proof. exact (@request). Qed.
Print Assumptions C107_request.
Theorem C107_open :
  forall (v : Q) (p : Z),
  (0 <= p < 2 ^ 50)%Z ->
  is_ps v p ->
  exists (s : Z) (t : timeslice),
    time_slice64 (fls v) None = Ok t /\
    ps (ts_start t) = s /\ ts_duration t = None /\ (s = p \/ s = (p - 1)%Z).
Proof. exact (@open_request). Qed.
Print Assumptions C107_open.
Theorem C107_replay :
  forall (t : timeslice) (total : td) (x : Q) (total' : f64) (stop : option f64),
  content_range64 t total = (Num x, total', stop) ->
  (0 <= ps (ts_start t) < 2 ^ 50)%Z ->
  seconds_ps64 x = ps (ts_start t) \/ seconds_ps64 x = (ps (ts_start t) - 1)%Z.
Proof. exact (@replay). Qed.
Print Assumptions C107_replay.
Theorem C107_stated :
  forall (t : timeslice) (total d : td),
  (0 <= ps (ts_start t) < 2 ^ 52)%Z ->
  (0 <= ps d < 2 ^ 52)%Z ->
  (0 <= ps total < 2 ^ 53)%Z ->
  ts_duration t = Some d ->
  exists x y z : Q,
    content_range64 t total = (Num x, Num y, Some (Num z)) /\
    Q2R x = rnd (IZR (ps (ts_start t)) / 10 ^ 12) /\
    Q2R y = rnd (IZR (ps total) / 10 ^ 12) /\
    IZR (ps (ts_start t) + ps d) / 10 ^ 12 * ((1 - Time64Proofs2.u53) * (1 - Time64Proofs2.u53)) <=
    Q2R z <=
    IZR (ps (ts_start t) + ps d) / 10 ^ 12 * ((1 + Time64Proofs2.u53) * (1 + Time64Proofs2.u53)).
Proof. exact (@stated). Qed.
Print Assumptions C107_stated.
Theorem C107_stated_open :
  forall (t : timeslice) (total : td),
  ts_duration t = None ->
  snd (content_range64 t total) = None /\
  written_stop (content_range64 t total) = td_div total one_second.
Proof. exact (@stated_open). Qed.
Print Assumptions C107_stated_open.
Theorem C107_empty_written_refuted :
  forall total : td,
  written_stop (content_range64 (mk_timeslice (Some (picoseconds 0)) (Some (picoseconds 0))) total) =
  td_div total one_second.
Proof. exact (@empty_written_refuted). Qed.
Print Assumptions C107_empty_written_refuted.
Theorem C107_millisecond_refuted :
  seconds_ps64 (fls 1.001) = 1000999999999%Z.
Proof. exact (@millisecond_refuted). Qed.
Print Assumptions C107_millisecond_refuted.
Theorem C107_sample_refuted :
  exists (t : timeslice) (d : td),
    time_slice64 (fls 0.0625625) (Some (fls 0.06256875)) = Ok t /\
    ts_duration t = Some d /\
    slice64 Time64Proofs4.rate16 (TSlice (ts_start t) (Some d)) = Ok (1000%Z, 1002%Z) /\
    slice64 Time64Proofs4.rate16
      (TSlice (picoseconds (1001 * 62500000)) (Some (picoseconds 62500000))) = 
    Ok (1001%Z, 1002%Z).
Proof. exact (@sample_refuted). Qed.
Print Assumptions C107_sample_refuted.
Theorem C107_gap_refuted :
  exists a b : timeslice,
    time_slice64 (fls 0.01) (Some (fls 0.03)) = Ok a /\
    time_slice64 (fls 0.03) None = Ok b /\
    ts_end a = Ok 29999999999%Z /\ ps (ts_start b) = 30000000000%Z.
Proof. exact (@gap_refuted). Qed.
Print Assumptions C107_gap_refuted.
Theorem C107_wander_refuted :
  seconds_ps64 (stated_start 123) = 122%Z /\ seconds_ps64 (stated_start 122) = 121%Z.
Proof. exact (@wander_refuted). Qed.
Print Assumptions C107_wander_refuted.
Theorem C107_example :
  is_ps (5 # 4) 1250000000000 /\
  is_ps 2.5 2500000000000 /\
  time_slice64 (fls (5 # 4)) (Some (fls 2.5)) =
  Ok (mk_timeslice (Some (picoseconds 1250000000000)) (Some (picoseconds 1250000000000))) /\
  written_stop
    (content_range64
       (mk_timeslice (Some (picoseconds 1250000000000)) (Some (picoseconds 1250000000000)))
       (picoseconds 5000000000000)) <> td_div (picoseconds 5000000000000) one_second.
Proof. exact (@request_meets). Qed.
Print Assumptions C107_example.

