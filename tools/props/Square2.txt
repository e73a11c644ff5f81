(** C75: the square form for every overlap and every number of samples per frame. *)
From Coq Require Import ZArith Reals.
From Verif Require Import PyBase PyMore Time Freq FreqDim Spectral Resample Decompose Square SquareProofs SquareProofs2.
Local Open Scope R_scope.
---
C75_exact = square_exact
C75_half_overlap_fits = half_overlap_fits
C75_half_or_more = square_half_or_more
C75_odd_refuted = square_odd_refuted
C75_cases = square_cases
