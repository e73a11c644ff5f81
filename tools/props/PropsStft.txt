(** Property theorems: time_stretch and pitch_shift (C77), fft and stft (C78). *)
From Verif Require Import PyBase PyFacts PyMore Time Freq FreqProofs FreqScaleProofs FreqDim FreqDimProofs Axis Windowed NdWindow Spectral Resample Stft StftProofs TimeStretch TimeStretchProofs TimeStretchProofs2 TimeStretchProofs3 TimeStretchProofs4 TimeStretchProofs5 TimeStretchErrors.
From Coq Require Import Reals.
Local Open Scope R_scope.
---

(** C77: [samples_in f d] is how many samples of f picoseconds the duration d spans; frames of
    [W] samples are read [H] samples apart and added [hop] samples apart *)
C77_shape = stretch_shape
C77_refuses = stretch_refuses
C77_refuses_example = refuses_example
C77_batch = stretch_batch
C77_vocoder = stretch_vocoder || (i * hop <=? j) && (s <? 2 * h) => ((i * hop <=? j) && (s <? 2 * h))%nat%bool
C77_angle = angle_spec
C77_factor_one = stretch_one
C77_factor_one_gain = stretch_one_gain
C77_factor_one_louder_refuted = stretch_one_louder_refuted
C77_scales = stretch_homogeneous
C77_silence = stretch_silence
C77_first_sample_refuted = stretch_first_zero_refuted
C77_default_frames = default_frames
C77_default_hop = default_hop
C77_default_hop_48000_refuted = default_hop_48000_refuted
C77_pitch_length = pitch_length
C77_pitch_whole_windows = pitch_octaves
C77_pitch_zero = pitch_zero
C77_pitch_batch = pitch_batch
C77_pitch_too_high = pitch_too_high
C77_pitch_shortens_refuted = pitch_shortens_refuted
C77_semitone_shortens_refuted = semitone_shortens_refuted

(** C78: [dft_coeff n m x k] is coefficient k of the unitary discrete Fourier transform of m
    numbers followed by n - m zeros, [spectrum_dim r n] the frequency dimension of the spectrum
    of n samples at r samples per second *)
C78_fft = fft1_ok
C78_fft_rows = fft_rows_ok
C78_other_rate = fft_other_rate
C78_padding_refuted = fft_padding_refuted
C78_bin_in_band = bin_in_band
C78_bin_in_band_refuted = bin_in_band_refuted
C78_pure_tone = pure_tone
C78_first_axis = axis0_ok
C78_first_axis_refuted = axis0_refuted
C78_first_axis_padding = axis0_padding
C78_stft = stft1_ok
C78_stft_batch = stft2_ok
C78_batch_prefix = batch_is_prefix
C78_batch_shorter_refuted = batch_differs_refuted
C78_batch_covers = batch_drops_refuted
C78_no_window_refuted = stft_no_window_refuted
C78_stft_refuses = stft2_refuses
C77_tone_frames = stretch_repeats
C77_tone = stretch_tone
C77_tone_repeats = stretch_tone_repeats
C77_sinusoid = stretch_sinusoid
C77_tone_example = tone_example
