(** C103: the arithmetic of times with the numbers of the machine. *)
From Coq Require Import ZArith QArith.
From Verif Require Import PyBase Time Time64 Time64Proofs Time64Proofs3 Time64Proofs4 Time64Proofs5 Time64Proofs6.
Local Open Scope Z_scope.
---
C103_less = td_lt_ok
C103_equal = td_eq_ok
C103_sum = td_add_ok
C103_difference = td_sub_ok
C103_multiple = td_mul_ok
C103_wraps_refuted = td_add_wraps
C103_long_duration_refuted = long_duration_refuted
C103_constructor = duration_of_int
C103_constructor_below = duration_of_below
C103_constructor_too_long = too_long_raises
C103_fraction_refuted = fraction_refuted
C103_slice = slice_agrees
C103_open_slice = open_agrees
C103_python_slice = python_agrees
C103_boundaries = boundaries
C103_beyond_refuted = beyond_refuted
C103_tolerance_refuted = tolerance_refuted
C103_long_signal_refuted = long_signal_refuted
C103_samples_per_second = per_second
C103_usual_rates = usual_rates
C103_rate_multiple = rate_mul_agrees
C103_discrete = discrete_agrees
C103_multiple_discrete = mul_discrete
C103_windowing = modified_agrees
C103_slice_end = end_agrees
C103_slice_equal = eq_agrees
C103_slice_less = lt_agrees
C103_slice_hash = hash_agrees
C103_slice_intersection = and_agrees
C103_slice_contains = contains_agrees
C103_slice_contains_slice = contains_slice_agrees
C103_slice_shift = shift_agrees
C103_audio_rate = audio_rate_agrees
C103_schemes = schemes_agree
C103_dimension = dimension_agrees
C103_dimension_no_time = dimension_duration
C103_no_size = no_size
