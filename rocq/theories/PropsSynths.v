(** Property theorems: sine, tick, noise and silence synthesizers, with double-precision sizes
    (C80). *)
From Verif Require Import PyBase PyFacts PyMore Time Spectral SynthProofs Float64 Float64Proofs Synths SynthsProofs.
From Coq Require Import ZArith QArith Qround Qreals Reals.
From Flocq Require Import Core.
Local Open Scope R_scope.

(** C80: [fl] is the rounding of IEEE double precision (Flocq's, without bounds on exponents) *)
Theorem C80_rounding :
  forall x : Q, (0 <= x)%Q -> Q2R (fl x) = round radix2 (FLX_exp 53) ZnearestE (Q2R x).
Proof. exact (@fl_rounds). Qed.
Print Assumptions C80_rounding.
Theorem C80_whole_frames :
  forall d f : Z, (0 <= d < 2 ^ 53)%Z -> (0 < f)%Z -> float_div d f = trunc_div d f.
Proof. exact (@float_div_exact). Qed.
Print Assumptions C80_whole_frames.
Theorem C80_noise_size_partial :
  forall sr d : Z,
  (0 <= sr)%Z ->
  (0 <= d)%Z ->
  (sr * d < 2 ^ 50 * 10 ^ 12)%Z ->
  (sr * d / 10 ^ 12 - 1 <= n_samples sr d <= sr * d / 10 ^ 12 + 1)%Z.
Proof. exact (@n_samples_near). Qed.
Print Assumptions C80_noise_size_partial.
Theorem C80_noise_size_exact :
  forall sr d i j : Z,
  (0 <= sr)%Z ->
  (0 <= i)%Z ->
  (0 <= j <= 2 ^ 53)%Z ->
  (d * 2 ^ i)%Z = (j * 10 ^ 12)%Z -> (sr * j <= 2 ^ 53)%Z -> n_samples sr d = (sr * j / 2 ^ i)%Z.
Proof. exact (@n_samples_exact). Qed.
Print Assumptions C80_noise_size_exact.
Theorem C80_noise_size_refuted :
  (44100 * (350 * 10 ^ 9))%Z = (15435 * 10 ^ 12)%Z /\ n_samples 44100 (350 * 10 ^ 9) = 15434%Z.
Proof. exact (@n_samples_short). Qed.
Print Assumptions C80_noise_size_refuted.
Theorem C80_noise_values :
  forall (uniform : nat -> R) (sr d : Z),
  (forall i : nat, -1 <= uniform i < 1) ->
  length (noise_synthesize uniform sr d) = Z.to_nat (n_samples sr d) /\
  Forall (fun v : R => -1 <= v < 1) (noise_synthesize uniform sr d).
Proof. exact (@noise_spec). Qed.
Print Assumptions C80_noise_values.
Theorem C80_tick_size :
  forall sr : Z, (0 <= sr < 2 ^ 40)%Z -> tick_size sr = (sr / 10)%Z.
Proof. exact (@tick_size_tenth). Qed.
Print Assumptions C80_tick_size.
Theorem C80_tick_spacing_partial :
  forall sr tf : Z,
  (0 <= sr)%Z ->
  (0 < tf)%Z ->
  (sr * tf < 2 ^ 50 * 10 ^ 12)%Z ->
  (sr * tf / 10 ^ 12 - 1 <= tick_step sr tf <= sr * tf / 10 ^ 12 + 1)%Z.
Proof. exact (@tick_step_near). Qed.
Print Assumptions C80_tick_spacing_partial.
Theorem C80_tick_spacing_exact :
  forall sr tf k : Z,
  (0 < k <= 2 ^ 53)%Z ->
  (k * tf)%Z = (10 ^ 12)%Z -> tick_step sr tf = (sr / k)%Z /\ (sr / k)%Z = (sr * tf / 10 ^ 12)%Z.
Proof. exact (@tick_step_exact). Qed.
Print Assumptions C80_tick_spacing_exact.
Theorem C80_tick_spacing_refuted :
  (44100 * (30 * 10 ^ 9))%Z = (1323 * 10 ^ 12)%Z /\ tick_step 44100 (30 * 10 ^ 9) = 1322%Z.
Proof. exact (@tick_step_short). Qed.
Print Assumptions C80_tick_spacing_refuted.
Theorem C80_ticks_too_fast :
  forall (uniform : nat -> R) (sr d tf : Z),
  (0 <= sr)%Z ->
  (0 < tf)%Z -> (2 * (sr * tf) <= 10 ^ 12)%Z -> tick_synthesize uniform sr d tf = Raise ValueError.
Proof. exact (@ticks_too_fast). Qed.
Print Assumptions C80_ticks_too_fast.
Theorem C80_ticks_sum :
  forall (uniform : nat -> R) (sr d tf : Z) (step : nat),
  tick_step sr tf = Z.of_nat step ->
  (0 < step)%nat ->
  exists out : list R,
    tick_synthesize uniform sr d tf = Ok out /\
    length out = Z.to_nat (n_samples sr d) /\
    (forall j : nat,
     (j < length out)%nat -> at_ out j = ticks_at (tick uniform sr) (range_to (length out) step) j).
Proof. exact (@ticks_content). Qed.
Print Assumptions C80_ticks_sum.
Theorem C80_ticks_separate :
  forall (uniform : nat -> R) (sr d tf : Z) (step : nat),
  (0 <= sr < 2 ^ 40)%Z ->
  (forall i : nat, -1 <= uniform i < 1) ->
  tick_step sr tf = Z.of_nat step ->
  (0 < step)%nat ->
  (sr / 10 <= Z.of_nat step)%Z ->
  exists out : list R,
    tick_synthesize uniform sr d tf = Ok out /\
    length out = Z.to_nat (n_samples sr d) /\
    (forall j : nat,
     (j < length out)%nat ->
     Rabs (at_ out j) <= 1 /\
     ((Z.of_nat (j mod step) < sr / 10)%Z ->
      at_ out j = uniform (j mod step) * decay (Z.to_nat (sr / 10)) (j mod step)) /\
     ((sr / 10 <= Z.of_nat (j mod step))%Z -> at_ out j = 0)).
Proof. exact (@ticks_separate). Qed.
Print Assumptions C80_ticks_separate.
Theorem C80_tick_envelope :
  forall n : nat,
  (2 <= n)%nat ->
  decay n 0 = 1 /\
  decay n (n - 1) = 0 /\ (forall i : nat, (S i < n)%nat -> decay n (S i) < decay n i).
Proof. exact (@tick_envelope). Qed.
Print Assumptions C80_tick_envelope.
Theorem C80_sine_size_partial :
  forall (sr k : Z) (hz : Q),
  (0 < sr)%Z ->
  (0 <= k)%Z ->
  (sr * k < 2 ^ 50)%Z ->
  (0 < hz)%Q ->
  sine_length sr (k * 10 ^ 12) hz = (sr * k)%Z \/ sine_length sr (k * 10 ^ 12) hz = (sr * k + 1)%Z.
Proof. exact (@sine_length_near). Qed.
Print Assumptions C80_sine_size_partial.
Theorem C80_sine_size_refuted :
  sine_length 44100 (10 * 10 ^ 12) 240 = 441001%Z /\
  sine_length 44100 (10 * 10 ^ 12) 440 = 441000%Z /\
  sine_synthesize_float 44100 (10 * 10 ^ 12) [240%Q; 440%Q] = Raise OtherError.
Proof. exact (@sine_too_long). Qed.
Print Assumptions C80_sine_size_refuted.
Theorem C80_sine_values :
  forall (sr d : Z) (freqs : list Q) (out : list R),
  (0 < sr)%Z ->
  sine_synthesize_float sr d freqs = Ok out ->
  freqs <> [] /\
  (forall hz : Q, In hz freqs -> length out = Z.to_nat (sine_length sr d hz)) /\
  (forall j : nat,
   (j < length out)%nat ->
   at_ out j =
   fold_right Rplus 0
     (map (fun hz : Q => sin (2 * PI * Q2R hz * INR j / IZR sr) / INR (length freqs)) freqs) /\
   Rabs (at_ out j) <= 1).
Proof. exact (@sine_spec). Qed.
Print Assumptions C80_sine_values.
Theorem C80_sine_one :
  forall (sr k : Z) (hz : Q),
  (0 < sr)%Z ->
  (0 <= k)%Z ->
  (sr * k < 2 ^ 50)%Z ->
  (0 < hz)%Q ->
  exists out : list R,
    sine_synthesize_float sr (k * 10 ^ 12) [hz] = Ok out /\
    (length out = Z.to_nat (sr * k) \/ length out = Z.to_nat (sr * k + 1)).
Proof. exact (@sine_single). Qed.
Print Assumptions C80_sine_one.
Theorem C80_silence_size_refuted :
  float_div (600 * 10 ^ 12) (10 ^ 12 / 44100) = 26460001%Z /\
  n_samples 44100 (600 * 10 ^ 12) = 26460000%Z.
Proof. exact (@silence_longer). Qed.
Print Assumptions C80_silence_size_refuted.
Theorem C80_example :
  tick_step 44100 (500 * 10 ^ 9) = 22050%Z /\
  tick_size 44100 = 4410%Z /\ n_samples 44100 (3 * 10 ^ 12) = 132300%Z.
Proof. exact (@ticks_example). Qed.
Print Assumptions C80_example.

