(** Property theorems: the frequency-adaptive transform and its synthesizers (C79). *)
From Verif Require Import PyBase PyFacts PyMore Time Freq FreqProofs FreqScaleProofs FreqDim FreqDimProofs PhaseShift Spectral Stft StftProofs FreqAdapt FreqAdaptProofs FreqAdaptProofs2 FreqAdaptProofs3.
From Coq Require Import Reals.
Local Open Scope R_scope.
---

(** C79: [spectrum_bins sr N] are N equal bands up to the Nyquist frequency, [band_bins] the
    range of bins a band takes, [gain] the sum of the windows of the bands that take a bin *)
C79_dct_inverse = adaptive_dct_roundtrip
C79_dct_exact = adaptive_dct_exact
C79_fft_inverse = adaptive_fft_roundtrip
C79_fft_exact = adaptive_fft_exact
C79_fft_closed_window = adaptive_fft_closed
C79_uncovered = gain_uncovered
C79_default_window = gain_ones
C79_band_of_nothing = adaptive_dct_needs_one
C79_fft_needs_two_bins = adaptive_fft_needs_two
C79_size = raw_samples_exact
C79_size_one_second = raw_samples_second
C79_size_refuted = raw_samples_short
C79_tiling_refuted = tiling_doubles
C79_fft_phase_refuted = fft_phase_lost
C79_hanning_ends_refuted = hanning_loses_ends
C79_example = adaptive_dct_example
C79_overlap_check = adaptive_init_spec
