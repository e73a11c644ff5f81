(** Property theorems: frequency scales applied to spectra, chroma, weighting (C70-C72). *)
From Verif Require Import PyBase PyFacts PyMore Freq FreqProofs FreqScaleProofs FreqDim FreqDimProofs ScaleBasis ScaleBasisProofs ChromaProofs Weighting WeightingProofs.
From Coq Require Import Reals.
Local Open Scope R_scope.
---

(** C70: [picked q bs row] are the entries of [row] whose band, in [bs], the band [q]
    touches; [window_is w g] says that the window [w] times n ones is [g n]. *)
C70_apply_slices = apply_spec
C70_apply = apply_touched
C70_local = apply_local
C70_window_scalar = window_scalar
C70_window_identity = window_identity
C70_window_function = window_func
C70_window_single = window_single
C70_window_misfit = window_misfit
C70_bark_bands = bark_bands_spec
C70_default_window_refuted = apply_scale_default_refuted
C70_real_part_only_refuted = imaginary_is_silent
C70_real_part = apply_scale_real_part
C70_self_identity_window = self_apply_identity_window
C70_self_hanning = self_apply_hanning
C70_self_refuted = self_apply_refuted

(** C71: [pitch s] is the frequency s semitones above A 440, [around m] the band one
    semitone to either side of pitch m, [win_at g q bs k] what the window gives bin k *)
C71_basis = chroma_spec
C71_shifted_refuted = chroma_shifted
C71_scalar = chroma_scalar
C71_in_range = chroma_range
C71_no_bands = chroma_no_bands
C71_class_refuted = chroma_class_refuted
C71_octave = pitch_octave
C71_pitch_middle = pitch_middle

(** C72: [a_weight_db f] is the A-weighting in decibels at f Hertz *)
C72_a_weights = a_weights
C72_multiply = multiply_spec
C72_divide_undoes = divide_undoes
C72_invertible = a_weighting_invertible
C72_flat = flat_weighting_identity
C72_rejects = weighting_rejects
C72_misfit = weighting_misfit
C72_one_band = weighting_one
C72_no_bands = weights_of_nothing
C72_explicit_last_axis = explicit_last_axis
C72_part = weights_of_part
C72_cut_band = cut_band_silenced
C72_cut_band_refuted = cut_band_refuted
