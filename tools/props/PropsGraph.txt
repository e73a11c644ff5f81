(** Property C92: a processing graph computes the same features whatever the chunk size. *)
From Coq Require Import ZArith QArith Reals.
From Verif Require Import PyBase PyFacts PyMore Time TimeProofs Float64 Freq FreqProofs FreqScaleProofs FreqDim Axis Windowed NdWindow SlidingNode Spectral Stft ScaleBasis ScaleBasisProofs ChromaProofs Weighting Synths Graph StftProofs GraphProofs GraphProofs2 GraphProofs3 GraphProofs4 GraphProofs5.
Local Open Scope R_scope.
---
C92_windows = windowed_rows
C92_audio_graph = audio_graph_ok
C92_chunk_size = audio_graph_chunks
C92_number_of_rows_refuted = audio_graph_rows_refuted
C92_stft = stft_graph_ok
C92_dct_sample_rate = dct_rate_ok
C92_dct_sample_rate_16000 = dct_rate_16000
C92_dct_any_window = dct_any_window
C92_dct_16000_refuted = dct_16000_refuted
C92_slice = slice_chunks
C92_binarize = binarize_chunks
C92_max = max_rows
C92_max_default_refuted = max_default_refuted
C92_hanning_integers = hanning_integers
