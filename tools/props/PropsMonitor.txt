(** C101: a training that is watched from browsers. *)
From Coq Require Import ZArith String.
From Verif Require Import PyBase PyFacts PyMore Ui Monitor MonitorProofs MonitorProofs2 MonitorProofs3 MonitorProofs4 MonitorProofs5.
Local Open Scope string_scope.
Local Open Scope list_scope.
Local Open Scope nat_scope.
---
C101_message = message_ok
C101_message_numbers = message_numbers
C101_message_opaque = message_opaque
C101_delivered = delivered
C101_left = left_silent
C101_closed = closed_silent
C101_history = calm_history
C101_client = calm_client
C101_alone = alone
C101_alone_ends = alone_ends
C101_ended = ended_final
C101_visit_refuted = visit_ends_training_refuted
C101_open_refuted = open_ends_training_refuted
C101_close_refuted = close_ends_training_refuted
C101_lost_refuted = lost_ends_training_refuted
C101_opaque_refuted = opaque_ends_training_refuted
C101_frequency_zero = frequency_zero
C101_supervised = monitor_supervised
C101_gan = monitor_gan
C101_triplet = monitor_triplet
