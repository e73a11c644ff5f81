(** Property theorems: InfiniteSampler (C87) and the gradients and optimizers of the trainers (C88). *)
From Coq Require Import QArith Reals.
From Verif Require Import PyBase PyFacts PyMore PyRange Float64 Reservoir ReservoirProofs Sampler SamplerProofs SamplerProofs2 Optim OptimProofs OptimProofs2.
Import ListNotations.
Local Open Scope Z_scope.
---

(** C87: what a document contributes *)
C87_contribution_bounds = contribution_bounds
C87_contribution_monotone = contribution_monotone
C87_contribution_share = contribution_share
C87_contributions_total = contributions_total
C87_exact_share_refuted = exact_share_refuted
C87_contribution_fails = contribution_fails
C87_contribution_example = contribution_example

(** C87: rounds and threads *)
C87_sampler_contents = sampler_contents
C87_yield_rows = yield_rows
C87_yield_size = yield_size
C87_empty_document = empty_document
C87_nothing_to_sample = nothing_to_sample
C87_threads_keep_rows = threads_keep_rows
C87_threads_finish = threads_finish
C87_first_round_alone = first_round_alone
C87_first_round_race_refuted = first_round_race_refuted
C87_sampler_example = SamplerProofs2.sampler_example
C87_threads_example = threads_example

(** C88: the adversarial trainer *)
C88_gan_reference = gan_reference
C88_gan_checkpoints = gan_checkpoints
C88_no_critic_refuted = no_critic
C88_gan_unfreezes_refuted = gan_unfreezes_refuted
C88_gan_hypotheses = gan_hypotheses
C88_minibatch_rows = minibatch_rows

(** C88: triplets and supervised training *)
C88_triplet_reference = triplet_reference
C88_triplet_frozen = triplet_frozen
C88_triplet_no_deformation = triplet_no_deformation
C88_triplet_checkpoint_refuted = triplet_checkpoint_refuted
C88_supervised_reference = supervised_reference
C88_supervised_checkpoints = supervised_checkpoints
C88_supervised_crash_python2 = supervised_crash_python2
C88_supervised_crash_refuted = supervised_crash_refuted
C88_single_hypotheses = single_hypotheses
