(** * C106, continued: DctTransform's axis argument on arrays of two axes.

    Model: [DctAxis] (rows of equal length). Along the last axis every row is transformed,
    resampled and split by itself; along the first axis nothing is transformed along that axis. *)
From Coq Require Import ZArith QArith Reals Permutation.
From Verif Require Import PyBase PyFacts PyMore FreqDim Spectral Float64 Time64 Fractions FractionsProofs3 DctAxis DctAxisProofs.
Import ListNotations.
Local Open Scope nat_scope.
---
C106_last_axis = last_axis
C106_first_axis_refuted = first_axis_refuted
C106_empty_axis = empty_axis
C106_no_such_axis = no_such_axis
C106_resample_last_axis = resample_last_axis
C106_resample_first_axis_refuted = resample_first_axis_refuted
C106_rows_dealt_refuted = rows_dealt_refuted
C106_not_square_refuted = not_square_refuted
C106_zeroed_first_axis_refuted = zeroed_first_axis_refuted
C106_resample_errors = resample_errors
