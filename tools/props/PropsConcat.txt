(** C83, continued: any number of arrays joined along any axis. *)
From Coq Require Import ZArith Reals.
From Verif Require Import PyBase PyFacts PyMore Time TimeProofs Freq FreqDim Axis AxisProofs Ops OpsProofs OpsProofs2 OpsProofs3 Concat ConcatProofs.
Local Open Scope nat_scope.
---
C83_concat_many = concat_plain
C83_concat_audio_many = concat_audio
C83_concat_nothing = concat_nothing
C83_concat_many_different = concat_different
C83_concat_no_axis = concat_no_axis
C83_concat_shapes = concat_shapes
C83_concat_many_frequency_refuted = concat_frequency_refuted
