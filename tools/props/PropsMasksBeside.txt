(** Property theorems: lists of booleans beside other elements of an index (C108). *)
From Verif Require Import PyBase PyFacts PyMore Time Freq FreqDim Axis AxisProofs Ops OpsProofs OpsProofs2 OpsProofs5 Masks MasksProofs MasksProofs3 AdvIndex AdvIndexProofs MasksBeside.
From Coq Require Import Reals Lra.
Local Open Scope nat_scope.
---

(** C108: [all] is the full slice, [positions l] the places where [l] is true, in order. *)
C108_columns = columns_read
C108_columns_assign = columns_assign
C108_columns_length = columns_length
C108_columns_times_refuted = bools_label_refuted
C108_two_lists_refuted = bools_twice_refuted
C108_columns_example = columns_case
