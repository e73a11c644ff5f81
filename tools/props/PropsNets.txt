(** Property theorems: losses, embeddings of samples (C81) and helpers for networks (C82). *)
From Verif Require Import PyBase PyFacts PyMore Spectral SpectralProofs Loss LossProofs LossProofs2 LossProofs3 NetUtil NetUtilProofs.
From Coq Require Import Reals QArith ZArith.
Local Open Scope R_scope.
---

(** C81: losses *)
C81_categories = discretized_spec
C81_categories_loudness = discretized_scale
C81_softmax = softmax_distribution
C81_one_hot_nearest = one_hot_nearest
C81_one_hot_truncation_refuted = one_hot_truncation
C81_scores = categorical_scores
C81_raw_samples = categorical_raw
C81_raw_samples_refuted = categorical_raw_refuted
C81_embedding_rows = embedding_rows
C81_embedding_values = embedding_values
C81_embedding_top = embedding_top
C81_embedding_refuted = embedding_always_fails
C81_perceptual_count = perceptual_count
C81_perceptual_value = perceptual_value || i * lap + j <? size => (i * lap + j <? size)%nat
C81_perceptual_nonneg = perceptual_nonneg
C81_perceptual_silence = perceptual_silence
C81_perceptual_cosine = perceptual_cosine_spec
C81_perceptual_mse = perceptual_mse_spec
C81_perceptual_example = perceptual_example
C81_critic = critic_loss_spec
C81_critic_shift = critic_loss_shift
C81_interpolate = interpolate_spec
C81_penalty_vectors = penalty_vectors_spec
C81_penalty_value = penalty_value
C81_penalty_signals_refuted = penalty_signals_refuted
C81_band_features = shrink_spec
C81_bands = band_features_spec
C81_band_loss = band_loss_spec
C81_band_loss_zero = band_loss_zero

(** C82: helpers for networks.  [energy x j] is the mean square over the channels at position j,
    [variance] the unbiased variance *)
C82_sample_norm = sample_norm_spec
C82_sample_norm_images_refuted = sample_norm_images
C82_sample_norm_mixed_refuted = sample_norm_images_mixed
C82_unit_norm = unit_norm_batch
C82_mean_std = mean_std_batch
C82_mean_std_single_refuted = mean_std_single
C82_feature_map_size = feature_map_size_spec
C82_conv_size = conv_size_spec
C82_multiresolution_odd = multiresolution_odd
C82_multiresolution_even = multiresolution_even
C82_multiresolution_mixed_refuted = multiresolution_mixed
C82_chunks = apply_network_chunks
C82_chunks_empty_refuted = apply_network_empty
C82_chunks_batch_refuted = apply_network_batch_refuted
C82_gated = gated_bound
C82_sinc_ordered = sinc_ordered
C82_sinc_initial_refuted = sinc_initial_refuted
C82_sinc_from_zero_refuted = sinc_from_zero_refuted
C82_sinc_numbers = sinc_filter_numbers
C82_sinc_value = sinc_filter_value
C82_sinc_length = sinc_length
