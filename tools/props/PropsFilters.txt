(** Property theorems: filter banks and the auto-correlogram (C89). *)
From Coq Require Import Reals ZArith.
From Verif Require Import PyBase PyFacts PyMore Time Spectral TransformProofs Loss NetUtil NetUtilProofs FilterBank FilterBankProofs FilterBankProofs2.
Import ListNotations.
Local Open Scope R_scope.
---

(** C89: morlet filters *)
C89_bank_factors = bank_factors
C89_morlet_length = morlet_length
C89_morlet_value = morlet_value
C89_carrier_offset = carrier_offset
C89_carrier_refuted = carrier_refuted
C89_morlet_symmetric = morlet_symmetric
C89_unit_norm = unit_norm
C89_envelope_narrows = envelope_narrows
C89_bank_example = bank_example

(** C89: FilterBank *)
C89_convolve = convolve_spec
C89_convolve_refuses = convolve_refuses
C89_convolve_is_convolution = convolve_is_convolution
C89_transposed_adjoint = transposed_adjoint
C89_log_magnitude = log_magnitude_spec
C89_pool = pool_spec
C89_pool_edge_refuted = pool_edge_refuted
C89_transform = transform_spec
C89_transform_single_refuted = transform_single_refuted
C89_transform_early_refuted = transform_early_refuted
C89_forward_plain = forward_plain
C89_forward_normalized = forward_normalized
C89_forward_odd_mean = forward_odd_mean
C89_forward_even_refuted = forward_even_refuted

(** C89: FIR filters *)
C89_fir_request = fir_request_spec
C89_fir_above_nyquist = fir_above_nyquist
C89_fir_requests = fir_requests_spec

(** C89: auto_correlogram *)
C89_correlate = correlate_spec
C89_auto_correlogram = auto_correlogram_spec
C89_auto_correlogram_refuses = auto_correlogram_refuses
C89_autocorrelation_symmetric = autocorrelation_sym
C89_correlogram_example = correlogram_example
