(** Times in range headers and in answers, with the numbers of the machine (zounds/ui/contentrange.py).
    Doubles are rationals, every operation is rounded to 53 bits (Float64.v). *)
From Coq Require Import ZArith QArith Qround.
From Verif Require Import PyBase Time Float64 Time64.
Local Open Scope Z_scope.

(** contentrange.py:34, 35: [Picoseconds(int(1e12 * x))]; 1e12 is a double.  Larger than 64 bits
    is an OverflowError *)
Definition seconds_ps64 (x : Q) : Z := trunc (fls (inject_Z (10 ^ 12) * x)%Q).
Definition picoseconds_of (x : Q) : result td := duration_of Ps (inject_Z (seconds_ps64 x)).
(** contentrange.py:27-36 once the two ends are floats; [stop] None: not a number *)
Definition time_slice64 (start : Q) (stop : option Q) : result timeslice :=
  do duration <- match stop with
                 | None => Ok None
                 | Some b => do d <- picoseconds_of (fls (b - start)%Q); Ok (Some d)
                 end;
  do start <- picoseconds_of start;
  Ok (mk_timeslice duration (Some start)).

(** contentrange.py:77-88 [from_timeslice]: start, total and stop in seconds *)
Definition one_second : td := {| td_count := 1; td_unit := Sec |}.
Definition add64 (a b : f64) : f64 := match a, b with Num x, Num y => Num (fls (x + y)%Q) | _, _ => NaN end.
Definition content_range64 (t : timeslice) (total : td) : f64 * f64 * option f64 :=
  let start := td_div (ts_start t) one_second in
  (start, td_div total one_second, match ts_duration t with None => None | Some d => Some (add64 start (td_div d one_second)) end).
(** contentrange.py:94-99: the end that is written; a stop of 0 counts as none *)
Definition written_stop (r : f64 * f64 * option f64) : f64 :=
  match r with
  | (_, total, Some (Num q)) => if Qeq_bool q 0 then total else Num q
  | (_, _, Some s) => s
  | (_, total, None) => total
  end.
