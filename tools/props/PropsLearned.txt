(** Property theorems: learned models, their storage and their versions (C86). *)
From Coq Require Import String Reals.
From Verif Require Import PyBase PyFacts PyMore PyRange Trainer TrainerProofs Spectral TransformProofs Preproc PreprocProofs Axis AxisProofs Learned LearnedProofs LearnedProofs2 LearnedProofs3.
From Verif Require Pipeline.
Import ListNotations.
Local Open Scope string_scope.
---

(** C86: gathering, Op and versions *)
C86_gather_rounds = gather_rounds
C86_gather_splits = gather_splits
C86_one_at_once = one_at_once
C86_gather_example = gather_example
C86_op_call = op_call
C86_default_lost_refuted = default_lost_refuted
C86_closure_refuted = closure_refuted
C86_no_data_refuted = no_data_refuted
C86_op_attributes = op_attributes
C86_version_value = version_value
C86_version_agrees = version_agrees
C86_str_version_refuted = str_version_refuted
C86_make_op_ok = make_op_ok
C86_version_ignores_names_refuted = version_ignores_names_refuted
C86_version_of_network_refuted = version_of_network_refuted
C86_pipeline_versions = pipeline_versions
C86_learned_versions = learned_versions
C86_learned_yields = learned_yields

(** C86: storing and applying networks *)
C86_extract_spec = extract_spec
C86_init_arg_missing_refuted = init_arg_missing_refuted
C86_stored_settings = stored_settings
C86_stored_same = stored_same
C86_autoencoder_same = autoencoder_same
C86_inverse_changes_refuted = inverse_changes_refuted
C86_restored_eval = restored_eval
C86_restored_misfit = restored_misfit
C86_no_fallback_refuted = no_fallback_refuted
C86_fallback_python2 = fallback_python2
C86_forward_passes = forward_passes
C86_retry_deterministic = retry_deterministic
C86_retry_python3_refuted = retry_python3_refuted
C86_retry_refused = retry_refused
C86_retry_python2 = retry_python2
C86_retry_for_ever = retry_for_ever
C86_network_agrees = network_agrees
C86_chunksize_not_kept_refuted = chunksize_not_kept_refuted
C86_post_training_not_kept_refuted = post_training_not_kept_refuted
C86_gan_passes_labels = gan_passes_labels
C86_gan_differs_refuted = gan_differs_refuted
C86_gan_choice = gan_choice
C86_network_dims = network_dims
C86_network_dims_other = network_dims_other
C86_gan_result_dims = gan_result_dims
C86_gan_dims_other = gan_dims_other
C86_encoder_result_dims = encoder_result_dims
C86_bare_results = bare_results

(** C86: scikit-learn nodes and graphs *)
C86_sk_rows = sk_rows
C86_sk_unrows = sk_unrows
C86_sk_roundtrip = sk_roundtrip
C86_sk_other_shape = sk_other_shape
C86_sk_empty_refuted = sk_empty_refuted
C86_components_roundtrip = components_roundtrip
C86_components_lose_mean_refuted = components_lose_mean_refuted
C86_one_root = one_root
C86_loaded_network = loaded_network
C86_no_stored_network = no_stored_network
C86_model_hash_refuted = model_hash_refuted
C86_faithful_example = faithful_example
C86_stored_example = stored_example
C86_nested_example = nested_example
C86_retry_example = retry_example
C86_examples_example = examples_example
C86_graph_example = graph_example
