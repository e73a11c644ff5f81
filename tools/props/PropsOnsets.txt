(** Property C93: onset slices. *)
From Coq Require Import ZArith Reals Sorted.
From Verif Require Import PyBase PyFacts PyMore Time TimeProofs Freq FreqDim Axis Windowed NdWindow WindowedProofs SlidingNode SlidingNodeProofs Spectral Stft ScaleBasis Weighting Nodes NodesProofs Graph GraphProofs GraphProofs2 GraphProofs3 GraphProofs4 Onsets OnsetsProofs OnsetsProofs2.
Local Open Scope R_scope.
---
C93_transience = transience_ok
C93_windows = windowed_plain
C93_onsets = onset_graph_ok
C93_chunks = onset_chunks
C93_end_refuted = onset_end_refuted
C93_stride_refuted = stride_spans
C93_stride_rates = stride_rates
C93_with_onsets_refuted = with_onsets_refuted

C93_nothing = peak_nothing
