(** Properties C95 (OggVorbis), C96 (Resampler), C97 (MetaData). *)
From Coq Require Import ZArith String.
From Verif Require Import PyBase PyFacts PyMore PyRange Time Audio AudioProofs SoundNodes SoundNodesProofs SoundNodesProofs2 SoundNodesProofs3.
Local Open Scope Z_scope.
---
C95_transcodes = ogg_transcodes
C95_passes = ogg_passes
C95_chunking = ogg_chunking
C95_nothing_refuted = ogg_nothing_refuted
C96_same_rate = resampler_same
C96_runs = resampler_runs
C96_lengths = resampler_lengths
C96_ratio = resampler_ratio
C96_silence_long = silence_long
C96_one_frame_refuted = one_frame_refuted
C96_cut_refuted = resampler_cut_refuted
C96_samples_same = resample_samples_same
C96_samples = resample_samples_ok
C97_kept = meta_kept
C97_url = meta_url
C97_request = meta_request
C97_range_refuted = meta_range_refuted
C97_local = meta_local
C97_file = meta_file
C97_text = meta_text
C97_other = meta_other
C97_stored = meta_stored
C97_url_stored = meta_url_stored
C97_same_fields = meta_same_fields
C97_extra_refuted = meta_extra_refuted
