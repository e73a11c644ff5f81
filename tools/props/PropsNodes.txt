(** Property theorems: streaming nodes (C41, C42, C59, C60), buffers and audio
    (C43, C53, C54, C61, C62) and MIDI notes (C44). *)
From Verif Require Import PyBase PyFacts PyMore PyRange Time TimeProofs Nodes NodesProofs Audio AudioProofs Midi MidiProofs.
From Coq Require Import QArith Qabs Reals Permutation Sorted String.
Local Open Scope Z_scope.
---

(** C41: [tiles] (NodesProofs.v) is the specification *)
C41_tiles = pp_tiles
C41_each_instant = pp_each_instant
C41_cuts = pp_cuts
C41_moving_average = ma_tiles
C41_where = np_where_spec
C41_narrow_frames_refuted = ma_narrow_refuted
C41_unsorted_refuted = pp_unsorted_refuted

(** C42: [delivered] (NodesProofs.v): everything a dependency has sent *)
C42_total = merge_total
C42_one_need = merge_one_need
C42_unknown = merge_unknown
C42_empty_rows_refuted = merge_empty_rows_refuted

(** C43: [fifo] and [written] (AudioProofs.v) are the specification *)
C43_is_fifo = mb_is_fifo
C43_lossless = mb_lossless
C43_drains = mb_drains
C43_bounded = mb_bounded
C43_seek_read = mb_seek_read
C43_seek_refuted = mb_seek_refuted
C43_tell_end = mb_tell_end

(** C44 *)
C44_roundtrip = midi_roundtrip
C44_note_roundtrip = note_roundtrip
C44_pitch = note_pitch
C44_names = note_names
C44_accepts = note_accepts
C44_flats_refuted = flats_refuted
C44_errors = note_errors

(** C53 *)
C53_encode_total = encode_total

(** C54 *)
C54_mono_of_mono = mono_of_mono
C54_stereo_of_stereo = stereo_of_stereo
C54_stereo = stereo_channels
C54_mono_value = mono_value
C54_mono_of_stereo_partial = mono_of_stereo
C54_mono_of_stereo_refuted = mono_of_stereo_refuted
C54_three_channels_refuted = stereo_of_three_refuted
C54_one_column_refuted = stereo_of_one_column_refuted
C54_silence = silence_silent
C54_silence_shape = silence_shape
C54_silence_one_sample_refuted = silence_one_sample_refuted
C54_silence_like_refuted = silence_like_loud
C54_pad_mono = pad_mono
C54_pad_stereo_refuted = pad_stereo_refuted

(** C73: [ma_row agg c row]: is a frame [row], whose centre is column [c], reported? *)
C73_reported = ma_row_spec
C73_center_peak_refuted = ma_center_peak_refuted
C73_spike_refuted = ma_spike_refuted

(** C59 *)
C59_value = mot_value
C59_score = mot_score_spec
C59_chunking = mot_chunking
C59_defined = mot_defined
C59_empty_first_refuted = mot_empty_first
C59_flux_refuted = flux_always_fails

(** C60 *)
C60_pooled = pooled_total

(** C61 *)
C61_stream_total = audio_stream_total
C61_read = ogg_get_spec
C61_iter_chunks_partial = ogg_iter_total
C61_iter_chunks_exact_rates = ogg_exact_rate
C61_iter_chunks_drift_refuted = ogg_iter_drift_refuted

(** C62 *)
C62_chunk_bytes = chunk_size_bytes_spec
C62_chunk_samples = chunk_size_samples_pos
C62_chunk_margin = chunk_size_samples_margin
C62_resample_total = resample_total
C62_resample_integer = resample_integer
C62_resample_chunking_refuted = resample_chunking_refuted
