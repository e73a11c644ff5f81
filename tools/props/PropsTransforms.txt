(** Property theorems: resampling, frequency decomposition and its inverse (C74), the square form of a
    FrequencyAdaptive (C75), phase shifts (C76). *)
From Verif Require Import PyBase PyFacts PyMore Time Freq FreqProofs FreqScaleProofs FreqDim FreqDimProofs Spectral Resample ResampleProofs Decompose DecomposeProofs Square SquareProofs PhaseShift PhaseShiftProofs.
From Coq Require Import Reals.
Local Open Scope R_scope.
---

(** C74: [resample_row m r] is scipy's resample of the samples [r] to [m] samples;
    [lsub] and [arr_op Rplus] are the elementwise difference and sum. *)
C74_bands = decomposition_bands
C74_bands_disjoint = decomposition_disjoint
C74_synthesis = synthesis_all
C74_synthesis_exact = synthesis_exact
C74_synthesis_lossy_refuted = synthesis_lossy_refuted
C74_synthesis_split = synthesis_split
C74_empty_selection_refuted = synthesis_none_refuted
C74_refuses = decomposition_refuses
C74_no_sizes = decomposition_no_sizes
C74_known_rates = decomposition_rates
C74_resample_same = resample_same
C74_resample_up_down = resample_up_down
C74_resample_through = resample_through

(** C75: [squared_row n r] is the row [r] resampled to [n] values and multiplied by one factor;
    [band_row arrs b t] is row t of band b; [overlapped arrs h n hop j b] is the sum of the
    values of band b that fall on row j when frame t starts at row [t * hop] *)
C75_frames = square_framed
C75_level = squared_peak
C75_silence = squared_silence
C75_same_size = squared_same
C75_mean = resample_mean
C75_half_lapped = square_half_lapped
C75_no_overlap = square_no_overlap
C75_more_overlap_refuted = square_more_overlap_refuted
C75_less_overlap_refuted = square_less_overlap_refuted

(** C76: [cexp_neg t] is exp(-i t); [rotated x s] are the samples of x, s of them later, around
    the end; [dft x n] their complete spectrum; [power] the square of the magnitude *)
C76_all = shift_all
C76_band = shift_band
C76_magnitude = shift_power
C76_less_than_a_sample = shift_zero
C76_adds_up = shift_add
C76_delay = shift_delays
C76_half_spectrum = shift_half_spectrum
C76_half_spectrum_refuted = shift_rfft_refuted
C76_full_turn = shift_full_turn
C76_rows = shift_rows
C76_first_axis_refuted = shift_first_refuted
C76_first_axis_fails_refuted = shift_first_fails_refuted
C76_refuses = shift_refuses
C76_nothing_touched = shift_nothing_touched
