(** C99: the graphs of zounds/basic/audiograph.py, from the bytes of a file to what is stored. *)
From Coq Require Import ZArith Reals.
From Verif Require Import PyBase PyFacts PyMore Time TimeProofs Freq FreqProofs FreqScaleProofs FreqDim FreqDimProofs Axis PhaseShift PhaseShiftProofs Windowed NdWindow SlidingNode Spectral SpectralProofs OverlapProofs SynthProofs Stft ScaleBasis Weighting Graph FreqAdapt Audio AudioProofs SoundNodes TransformProofs ReconProofs StftProofs GraphProofs GraphProofs2 GraphProofs3 GraphProofs4 TimeStretchProofs FreqAdaptProofs FreqAdaptProofs2 FreqAdaptProofs3 EndToEnd EndToEndProofs EndToEndProofs2.
Local Open Scope R_scope.
---
C99_samples = resampled_ok
C99_no_bytes = no_bytes
C99_windows = windowed_bytes_ok
C99_stft = stft_bytes_ok
C99_audio_cut = audio_bytes_cut
C99_adaptive = adaptive_graph_ok
C99_adaptive_nothing = nothing_stored
C99_adaptive_refused = adaptive_refused
C99_adaptive_bytes = adaptive_bytes_ok
C99_cut_refuted = cut_refuted
