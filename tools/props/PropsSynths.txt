(** Property theorems: sine, tick, noise and silence synthesizers, with double-precision sizes
    (C80). *)
From Verif Require Import PyBase PyFacts PyMore Time Spectral SynthProofs Float64 Float64Proofs Synths SynthsProofs.
From Coq Require Import ZArith QArith Qround Qreals Reals.
From Flocq Require Import Core.
Local Open Scope R_scope.
---

(** C80: [fl] is the rounding of IEEE double precision (Flocq's, without bounds on exponents) *)
C80_rounding = fl_rounds || rnd (Q2R x) => round radix2 (FLX_exp 53) ZnearestE (Q2R x)
C80_whole_frames = float_div_exact
C80_noise_size_partial = n_samples_near
C80_noise_size_exact = n_samples_exact
C80_noise_size_refuted = n_samples_short
C80_noise_values = noise_spec
C80_tick_size = tick_size_tenth
C80_tick_spacing_partial = tick_step_near
C80_tick_spacing_exact = tick_step_exact
C80_tick_spacing_refuted = tick_step_short
C80_ticks_too_fast = ticks_too_fast
C80_ticks_sum = ticks_content
C80_ticks_separate = ticks_separate
C80_tick_envelope = tick_envelope
C80_sine_size_partial = sine_length_near
C80_sine_size_refuted = sine_too_long
C80_sine_values = sine_spec
C80_sine_one = sine_single
C80_silence_size_refuted = silence_longer
C80_example = ticks_example
