(** C102: the life of an application. *)
From Coq Require Import ZArith.
From Verif Require Import PyBase PyFacts Lifecycle LifecycleProofs LifecycleProofs2 LifecycleProofs3.
Local Open Scope list_scope.
Local Open Scope nat_scope.
---
C102_with = with_ok
C102_goes_on = with_goes_on
C102_answers = with_answers
C102_sequence = with_sequence
C102_serve = serve_answers
C102_short_block_refuted = short_block_refuted
C102_nested_refuted = nested_refuted
C102_leftover_refuted = leftover_refuted
C102_same_port_refuted = same_port_refuted
C102_one_start_lost = one_start_lost
