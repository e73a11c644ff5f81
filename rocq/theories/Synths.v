(** Model of SineSynthesizer, TickSynthesizer, NoiseSynthesizer and SilenceSynthesizer
    (zounds/synthesize/synthesize.py:509-684).  How many samples they make is decided by
    double-precision arithmetic, which is modelled bit by bit ([fl], Float64.v); the values
    of the samples are real numbers.  Durations and rates are non-negative and below 2^53. *)
From Verif Require Import PyBase PyFacts PyMore Time Float64 Spectral.
From Coq Require Import ZArith QArith Qround Qreals Reals.
Local Open Scope Z_scope.

(** numpy: [d / Seconds(1)], both in picoseconds *)
Definition seconds (d : Z) : Q := fl (inject_Z d / inject_Z (10 ^ 12))%Q.
(** [int(d / f)] for two durations, as Python computes it *)
Definition float_div (d f : Z) : Z := Qfloor (fl (inject_Z d / inject_Z f)%Q).

(** synthesize.py:649-651: [int(sr * seconds)]; 614 likewise *)
Definition n_samples (sr d : Z) : Z := Qfloor (fl (inject_Z sr * seconds d)%Q).
(** synthesize.py:642-652 NoiseSynthesizer.synthesize; [uniform i] is the i-th random number *)
Definition noise_synthesize (uniform : nat -> R) (sr d : Z) : list R :=
  map uniform (seq 0 (Z.to_nat (n_samples sr d))).

(** synthesize.py:611: [int(sr * .1)] *)
Definition tick_size (sr : Z) : Z := Qfloor (fl (inject_Z sr * fl (1 # 10))%Q).
(** numpy: np.linspace(1, 0, n)[i]; one point is the start *)
Definition decay (n i : nat) : R := if Nat.eqb n 1 then 1%R else (1 + INR i * ((0 - 1) / INR (n - 1)))%R.
(** synthesize.py:611-612 *)
Definition tick (uniform : nat -> R) (sr : Z) : list R :=
  let n := Z.to_nat (tick_size sr) in map (fun i => (uniform i * decay n i)%R) (seq 0 n).
(** synthesize.py:615, 617: [int(sr // (Seconds(1) / tick_frequency))].  Python's floor division
    of doubles is exact for quotients below 2^53. *)
Definition tick_step (sr tick_frequency : Z) : Z :=
  Qfloor (inject_Z sr / fl (inject_Z (10 ^ 12) / inject_Z tick_frequency))%Q.
(** Python: [range(0, n, step)] *)
Definition range_to (n step : nat) : list nat := map (fun i => (i * step)%nat) (seq 0 ((n + step - 1) / step)).
(** synthesize.py:619-620 [samples[i:i + len(tick)] += tick[:size]] *)
Definition add_tick (t : list R) (samples : list R) (i : nat) : list R :=
  map (fun j => (at_ samples j + (if (Nat.leb i j && Nat.ltb j (i + length t))%bool then at_ t (j - i) else 0))%R) (seq 0 (length samples)).
(** synthesize.py:599-621 TickSynthesizer.synthesize, tick_frequency > 0; a step of 0 is
    range's ValueError *)
Definition tick_synthesize (uniform : nat -> R) (sr d tick_frequency : Z) : result (list R) :=
  let t := tick uniform sr in
  let samples := repeat 0%R (Z.to_nat (n_samples sr d)) in
  let step := Z.to_nat (tick_step sr tick_frequency) in
  if Nat.eqb step 0 then Raise ValueError
  else Ok (fold_left (add_tick t) (range_to (length samples) step) samples).

(** synthesize.py:557: [ts = (duration / Seconds(1)) * sr] *)
Definition sine_ts (sr d : Z) : Q := fl (seconds d * inject_Z sr)%Q.
(** synthesize.py:556, 558: the length of [np.arange(0, ts * c, c)] with [c = hz / sr] is
    numpy's ceil((stop - start) / step) *)
Definition sine_length (sr d : Z) (hz : Q) : Z :=
  let c := fl (hz / inject_Z sr)%Q in
  Qceiling (fl (fl (sine_ts sr d * c) / c))%Q.
(** synthesize.py:552-560 SineSynthesizer.synthesize: ranges of different lengths cannot be
    summed ([OtherError]); no frequencies is a division by zero *)
Definition sine_synthesize_float (sr d : Z) (freqs : list Q) : result (list R) :=
  match freqs with
  | [] => Raise ZeroDivisionError
  | hz :: rest =>
      let n := sine_length sr d hz in
      if forallb (fun h => sine_length sr d h =? n) rest then
        sine_synthesize (Z.to_nat n) (Z.to_nat sr) (map Q2R freqs)
      else Raise OtherError
  end.
