(** Property C94: training a chain of preprocessors. *)
From Coq Require Import ZArith Reals Permutation.
From Verif Require Import PyBase PyFacts PyMore Freq Preproc PreprocProofs Pipeline PipelineProofs Spectral SpectralProofs Training TrainingProofs TrainingProofs2 TrainingProofs3.
Local Open Scope R_scope.
---
C94_training_agrees = training_agrees
C94_strict_training = strict_training
C94_skipped_refuted = skipped_refuted
C94_batches = transform_batches
C94_statistics = meanstd_learns
C94_statistics_applied = meanstd_applied
C94_simhash_planes = simhash_learns
C94_arguments = others_learn_nothing
C94_inverts = chain_inverts
C94_slicer_back = slicer_back
C94_not_invertible = not_invertible
C94_op_values = op_values
C94_op_accepts = op_accepts
C94_hidden_failure_refuted = hidden_failure_refuted
C94_nothing_spreads = nothing_spreads
C94_one_pipeline_per_chunk = one_pipeline_per_chunk
C94_dataset_statistics_refuted = dataset_statistics_refuted
C94_node_on_nothing = node_on_nothing
C94_node_on_failure = node_on_failure
