(** C98: searching a Hamming index that another thread appends to. *)
From Coq Require Import ZArith NArith Permutation.
From Verif Require Import PyBase PyFacts PyMore HammingDb Listening ListeningProofs ListeningProofs2 ListeningProofs3.
---
C98_disk = disk_always
C98_memory = memory_always
C98_memory_grows = memory_grows
C98_answers = answers_always
C98_never_stuck = never_stuck
C98_undisturbed = undisturbed
C98_locked_memory = locked_memory
C98_locked_answers = locked_answers
C98_wrong_query_refuted = wrong_query_refuted
C98_wrong_code_refuted = wrong_code_refuted
C98_uncommitted_refuted = uncommitted_refuted
C98_lost_entry_refuted = lost_entry_refuted
