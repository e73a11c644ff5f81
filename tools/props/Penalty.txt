(** C104: what the gradient penalty of the GAN trainer charges for. *)
From Verif Require Import PyBase PyMore Spectral Loss Penalty PenaltyProofs.
From Coq Require Import Reals.
Local Open Scope R_scope.
---
C104_interpolates = interpolates_entry
C104_between = interpolates_between
C104_value = penalty_value
C104_each_example = itemwise_partial
C104_vectors = vectors
C104_vectors_zero = vectors_zero
C104_vectors_bound = vectors_bound
C104_signals = signals
C104_signals_zero = signals_zero
C104_signals_refuted = signals_refuted
C104_flat_critic = flat_critic
C104_linear = linear_penalty
C104_coupled_refuted = coupled_refuted
C104_sizes = sizes
C104_nothing = no_items
C104_example = pair_example
