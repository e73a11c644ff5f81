(** C107: times of range requests and of the answers to them, with the numbers of the machine. *)
From Coq Require Import ZArith QArith Qreals Reals.
From Verif Require Import PyBase PyMore Time Axis Float64 Float64Proofs Time64 Fractions Range64 Range64Proofs Range64Proofs2.
Local Open Scope R_scope.
---
C107_decimal = decimal_ps
C107_exact = exact_ps
C107_whole_seconds = whole_seconds
C107_too_far_refuted = too_far_refuted
C107_request = request
C107_open = open_request
C107_replay = replay
C107_stated = stated
C107_stated_open = stated_open
C107_empty_written_refuted = empty_written_refuted
C107_millisecond_refuted = millisecond_refuted
C107_sample_refuted = sample_refuted
C107_gap_refuted = gap_refuted
C107_wander_refuted = wander_refuted
C107_example = request_meets
