(** C108: boolean masks as indices. *)
From Coq Require Import Permutation Reals.
From Verif Require Import PyBase PyFacts PyMore Time Freq FreqDim Axis AxisProofs Ops OpsProofs Masks MasksProofs MasksProofs2 MasksProofs3.
Local Open Scope nat_scope.
---
C108_read = mask_read
C108_read_all_axes = mask_flat_read
C108_complement = mask_complement
C108_wrong_shape = mask_wrong_shape
C108_assign = mask_assign
C108_assign_frequency_refuted = mask_assign_frequency_refuted
C108_assign_then_read = assign_then_read
C108_read_then_assign = read_then_assign
C108_replace = mask_replace
C108_list_positions = bools_as_positions
C108_list_read = bools_read
C108_list_assign = bools_assign
C108_list_empty_refuted = bools_empty_refuted
C108_before_axes = mask_rest
C108_before_axes_times_refuted = mask_rest_times_refuted
C108_before_axes_frequency_refuted = mask_rest_frequency_refuted
C108_example = masks_meet
