(** * Indexing with lists beside integers and slices (C84, continued).

    Model: [AdvIndex] (numpy's rules for lists of integers next to other elements) under the
    array's own bookkeeping of dimensions ([Axis]).  [C84_one_list] says that for one list with
    at most integers next to it this is the indexing of [Ops], about which [PropsOps] proves what
    is read.  [C84_time_label_refuted]: a slice between an integer and a list mislabels the axes;
    [C84_two_lists_refuted]: two lists are paired by numpy and the array then cannot be labelled.
    Assigning goes by the same selection ([C84_one_list_assign], [C84_time_assign_refuted]), and works
    through two lists ([C84_two_lists_assign]). *)
From Verif Require Import PyBase PyFacts PyMore Time Freq FreqDim Axis Ops AdvIndex AdvIndexProofs.
From Coq Require Import Reals.
Local Open Scope nat_scope.
---
C84_one_list = one_list
C84_time_label_refuted = time_label_refuted
C84_two_lists_refuted = two_lists_refuted
C84_one_list_assign = one_list_assign
C84_time_assign_refuted = time_assign_refuted
C84_two_lists_assign = two_lists_assign
