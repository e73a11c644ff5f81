(** Property theorems: two lists of which one has a single position (C84), the errors of dot on audio (C83). *)
From Verif Require Import PyBase PyFacts PyMore Time Freq FreqDim Axis AxisProofs Ops OpsProofs OpsProofs2 OpsProofs5 Masks MasksProofs MasksProofs3 AdvIndex AdvIndexProofs AdvIndexMore.
From Coq Require Import Reals Lra.
Local Open Scope nat_scope.
---

(** C84: numpy's own result; zounds' dimensions do not fit it (C84_two_lists_refuted) *)
C84_single_position = single_position
C84_single_position_last = single_position_last
C84_single_position_example = single_position_example

(** C83 *)
C83_dot_audio_errors = dot_audio_errors
