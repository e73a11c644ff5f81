(** C106: frequency bands of the learn package and sizes that are a fraction of a length;
    C75: the square form with the numbers of the machine. *)
From Coq Require Import ZArith QArith Reals Permutation.
From Verif Require Import PyBase PyMore Time Freq FreqDim Spectral Resample Decompose Square Float64 Time64 Fractions FractionsProofs FractionsProofs2 FractionsProofs3 FractionsProofs4.
Local Open Scope R_scope.
---
C106_size = part_cases
C106_size_exact = part_exact
C106_size_dyadic = part_dyadic
C106_size_all = part_all
C106_size_none = part_none
C106_size_grows = part_mono
C106_size_within = part_le
C106_size_usual = part_usual
C106_size_refuted = part_hundredths_refuted
C106_bands = bands
C106_any_order = any_order
C106_shared_energy = shared_energy
C106_silent = silent
C106_whole_refuted = whole
C106_energy_refuted = energy_refuted
C106_same_size_refuted = same_size_refuted
C106_too_small_refuted = too_small_refuted
C106_too_large_refuted = too_large_refuted
C106_no_samples_refuted = no_samples_refuted
C106_resample_sizes = resample_sizes
C106_resample_whole_refuted = resample_whole
C106_resample_energy = resample_energy
C106_resample_zero = resample_value
C106_resample_silenced = resample_silenced
C106_linear = linear
C106_holdout = holdout_split
C106_holdout_none = holdout_none
C106_example = bands_example
C106_meets = bands_meets
C75_machine = square_agrees
C75_machine_fails = square_fails
C75_machine_frequency = frequency_agrees
C75_machine_step = step_cases
C75_machine_step_half = step_half
C75_machine_step_refuted = step_refuted
C75_machine_length = length_exact
C75_machine_length_half = length_half
C75_machine_meets = square_meets
