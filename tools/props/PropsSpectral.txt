(** Property theorems: loudness, transforms and synthesis (C47, C48, C49, C66-C69). *)
From Verif Require Import PyBase PyFacts PyMore Time Spectral SpectralProofs TransformProofs WindowProofs ReconProofs OverlapProofs SynthProofs.
From Coq Require Import Reals.
Local Open Scope R_scope.
---

(** C47 *)
C47_log_modulus = log_modulus_inverse
C47_log_modulus_onto = inverse_log_modulus_inverse
C47_mu_law = mu_law_inverse
C47_mu_law_inverse_onto = inverse_mu_law_inverse
C47_mu_law_increasing = mu_law_increasing
C47_mu_law_ends = mu_law_one
C47_mu_law_range = mu_law_range
C47_mu_law_onto = mu_law_onto
C47_one_hot = inverse_one_hot_spec
C47_one_hot_range = inverse_one_hot_range

(** C48: [vorbis_frames h N x] are the N half-overlapping frames of 2h samples of x, times
    the window; [half_lapped_dim sp h N] their time dimension, for samples of sp
    picoseconds; [total] the sum of the frame samples that fall on a position *)
C48_overlap_add = overlap_add_spec
C48_dimension = half_lapped_dim_reached
C48_window_power = oggvorbis_power
C48_window_symmetric = oggvorbis_symmetric
C48_window_range = oggvorbis_range
C48_window_gain = vorbis_gain_bound
C48_stft_reconstruction_partial = stft_reconstruction
C48_dct_reconstruction_partial = dct_reconstruction
C48_dct_default = dct_default_synthesis
C48_dct_default_refuted = dct_default_refuted

(** C49 *)
C49_dct_node = idct2_dct2
C49_learn_dct_partial = dct_roundtrip_list
C49_learn_dct_refuted = dct_roundtrip_refuted
C49_resample_same = dct_resample_same
C49_dctiv_refuted = dctiv_refuted
C49_rfft = irfft_rfft
C49_rfft_length = irfft_rfft_length

(** C66: [mdct_angle] is the angle of the textbook formula *)
C66_mdct = mdct_formula
C66_imdct = imdct_formula
C66_alias = mdct_alias
C66_reconstruction_partial = mdct_reconstruction

(** C67 *)
C67_flatness_range = flatness_range
C67_flatness_flat = flatness_flat
C67_flatness_silent = flatness_silent
C67_centroid_scales = centroid_scales
C67_centroid_refuted = centroid_refuted

(** C68 *)
C68_instance_scale = instance_scale_bound
C68_unit_scale = unit_scale_range
C68_unit_scale_ends = unit_scale_ends
C68_unit_scale_constant_refuted = unit_scale_constant_refuted
C68_sine_bounded = sine_bounded

(** C69 *)
C69_window_cache = window_cache_consistent
C69_window_cache_refuted = window_cache_refuted
C69_short_time_shape_partial = short_time_dct_shape_iff
