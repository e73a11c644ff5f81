(** Property theorems: the Reshape preprocessor, examples, batches and chains (C36). *)
From Coq Require Import ZArith Reals.
From Verif Require Import PyBase PyFacts PyMore Freq Preproc PreprocProofs ReshapeMore.
Local Open Scope Z_scope.
---

(** C36: an array is its shape and its entries in C order; [concat ex] are the entries of the
    array of the examples [ex], [reshape_to (shape, entries) new] is numpy's reshape. *)
C36_reshape_examples = reshape_by_example
C36_reshape_batches = reshape_batches
C36_reshape_chain = reshape_twice
C36_reshape_nothing_refuted = reshape_nothing
C36_reshape_nothing_any = reshape_nothing_any
C36_reshape_misfit_refuted = reshape_misfit_nothing
C36_reshape_other_number = reshape_back_other
C36_reshape_example = reshape_example
