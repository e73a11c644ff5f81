(** Property theorems: arithmetic, sums, products and joining of arrays with units (C83);
    reading and assigning parts of them (C84). *)
From Verif Require Import PyBase PyFacts PyMore Time TimeProofs Freq FreqDim Axis AxisProofs Ops OpsProofs OpsProofs2 OpsProofs3 OpsProofs4 OpsProofs5.
From Coq Require Import Reals Sorting.Sorted.
Local Open Scope nat_scope.
---

(** C83: arithmetic, sums, products, packing, joining *)
C83_entries = binary_entries
C83_shapes = binary_shapes
C83_units_left = binary_units_left
C83_units_right = binary_units_right
C83_same_shape = binary_same_shape
C83_numbers = binary_number
C83_elementwise = unary_keeps
C83_fewer_axes_refuted = binary_fewer_axes
C83_repeated_axis_refuted = binary_repeated_axis
C83_audio_axes = audio_new_axes
C83_add_rates = add_rates
C83_add_other = add_other
C83_add_signals = add_signals
C83_subtract_rates_refuted = subtract_rates_refuted
C83_total = sum_total
C83_sum_axes = sum_axes
C83_sum_axis_range = sum_axis_range
C83_sum_all_axes_refuted = sum_all_axes_refuted
C83_sum_keepdims_refuted = sum_keepdims_refuted
C83_sum_channels = sum_channels
C83_sum_last_axis_refuted = sum_last_axis_refuted
C83_dot_vector = dot_vector
C83_dot_sizes = dot_sizes
C83_dot_matrix_frequency_refuted = dot_matrix_frequency_refuted
C83_dot_matrix_time_refuted = dot_matrix_time_refuted
C83_dot_audio_refuted = dot_audio_refuted
C83_dot_many_axes_refuted = dot_many_axes_refuted
C83_dot_number = dot_number
C83_dot_cases = dot_cases
C83_packbits = packbits_axis
C83_packbits_frequency_refuted = packbits_frequency_refuted
C83_packbits_time_refuted = packbits_time_refuted
C83_packbits_flat_refuted = packbits_flat_refuted
C83_zeros_like = zeros_like_plain
C83_zeros_like_audio = zeros_like_audio
C83_concatenate = concatenate_plain
C83_concatenate_audio = concatenate_audio
C83_concatenate_different = concatenate_different
C83_concatenate_frequency_refuted = concatenate_frequency_refuted

(** C84: reading and assigning parts *)
C84_read_entries = getitem_selects
C84_ellipsis_first = ellipsis_first
C84_ellipsis_last = ellipsis_last
C84_two_ellipses = two_ellipses
C84_assign = setitem_spec
C84_selected_once = selects_once
C84_selected_exist = selects_in_shape
C84_assign_then_read = set_then_get
C84_audio_slice = audio_getitem_slice
C84_audio_time_slice = audio_getitem_time
C84_audio_step_refuted = audio_getitem_step_refuted
C84_audio_reversed = audio_getitem_reversed
C84_audio_int = audio_getitem_int
C84_audio_frame = audio_getitem_frame
C84_audio_channel_refuted = audio_getitem_channel_refuted
C84_index_forms = index_forms
C84_empty_list_refuted = empty_list_refuted
C84_integer_array_refuted = integer_array_refuted
C84_duration_refuted = duration_refuted
C84_assign_time_slice = audio_setitem_time
