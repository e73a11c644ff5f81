(** Property theorems: pipelines and preprocessors (C35-C37, C58), reservoirs and
    samplers (C38, C39, C57), training loops (C40) and apply_network (C55). *)
From Verif Require Import PyBase PyFacts PyMore PyRange Freq Pipeline PipelineProofs Preproc PreprocProofs Reservoir ReservoirProofs Trainer TrainerProofs.
From Coq Require Import Permutation Sorted.
---

(** C35: [there] and [there_and_back] (PipelineProofs.v) are the specification:
    run the steps forward; run forward, do something, undo in reverse order *)
C35_transform = transform_data
C35_inverse = inverse_is_reverse
C35_inverts = pipeline_inverts
C35_split = pipeline_split
C35_halves = pipeline_halves
C35_pick = pipeline_pick

(** C36 *)
C36_unit_norm_roundtrip = unit_norm_roundtrip
C36_unit_norm_unit = unit_norm_unit
C36_unit_norm_zero_refuted = unit_norm_zero_refuted
C36_unit_norm_1d_refuted = unit_norm_1d_refuted
C36_meanstd_roundtrip = meanstd_roundtrip
C36_meanstd_training = meanstd_training
C36_meanstd_normalised = meanstd_normalised
C36_meanstd_constant_refuted = meanstd_constant_refuted
C36_instance_scaling_roundtrip = instance_scale_roundtrip
C36_instance_scaling_peak = instance_scale_peak
C36_multiply_roundtrip = multiply_roundtrip
C36_multiply_zero_refuted = multiply_zero
C36_weighted_roundtrip = weighted_roundtrip
C36_slicer_roundtrip = slicer_roundtrip
C36_reshape_roundtrip = reshape_roundtrip
C36_reshape_rows = reshape_rows
C36_binarize = binarize_spec
C36_kmeans_nearest = kmeans_roundtrip
C36_kmeans_centroids = kmeans_centroids

(** C37 *)
C37_step = node_step
C37_one_pipeline = one_pipeline
C37_incomplete = no_pipeline
C37_any_order = any_order

(** C38 *)
C38_contents_partial = reservoir_contents
C38_refuses = reservoir_refuses
C38_from_added = reservoir_from_added
C38_at_most_n = contents_length
C38_kept = reservoir_kept
C38_no_collision = reservoir_no_collision
C38_batch = reservoir_batch
C38_collision_refuted = reservoir_collision_refuted
C38_negative_index_refuted = reservoir_negative_refuted

(** C39 *)
C39_aligned_partial = multi_aligned
C39_wrong_keys = multi_wrong_keys
C39_unequal_lengths_refuted = multi_unequal_refuted

(** C40 *)
C40_supervised_epochs = supervised_epochs
C40_supervised_covers = supervised_covers
C40_wgan_epochs = wgan_epochs || wgan_train fails => wgan_train (ERR := ERR) fails
C40_interrupted = supervised_interrupted
C40_base_epochs_partial = base_epochs || base_train fails => base_train (ERR := ERR) fails
C40_triplet_epochs_partial = triplet_epochs || triplet_train fails => triplet_train (ERR := ERR) fails
C40_base_one_too_many_refuted = base_one_too_many_refuted || base_train (fun => base_train (C := unit) (ERR := unit) (fun
C40_triplet_small_refuted = triplet_small_refuted || triplet_train (fun => triplet_train (C := unit) (ERR := unit) (fun
C40_errors_swapped_refuted = supervised_errors_swapped_refuted
C40_callbacks_told = callbacks_told
C40_unregister_bound_method_refuted = unregister_bound_method_refuted

(** C55 *)
C55_chunks = apply_chunks
C55_rowwise = apply_rowwise
C55_pieces_cover = pieces_concat
C55_pieces_size = pieces_sizes
C55_pieces_full = pieces_full
C55_bad_chunk = apply_bad_chunk
C55_empty_refuted = apply_empty_refuted
C55_not_rowwise_refuted = apply_not_rowwise_refuted

(** C57 *)
C57_output_partial = sampler_output
C57_prefix_only_refuted = sampler_prefix_only
C57_wrong_row_refuted = sampler_wrong_row_refuted
C57_empty = sampler_empty

(** C58 *)
C58_bits = simhash_bits
C58_direction = simhash_direction
C58_opposite = simhash_opposite
C58_shape = simhash_shape
C58_rowwise = simhash_rowwise
C58_zero = simhash_zero
