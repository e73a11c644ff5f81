(** C75: the square form for every overlap and every number of samples per frame. *)
From Coq Require Import ZArith Reals.
From Verif Require Import PyBase PyMore Time Freq FreqDim Spectral Resample Decompose Square SquareProofs SquareProofs2.
Local Open Scope R_scope.
Theorem C75_exact :
  forall (f d : Z) (arrs : list (arr2 R)) (s : scale) (bs : list band) 
    (h : nat) (fa : arr2 R * efd) (n : nat),
  squarable arrs s bs h fa ->
  (1 < n)%nat ->
  (0 < h)%nat ->
  (0 < f < d)%Z ->
  if (h - 1) * hop_used n f d + n <=? rows_used h n f d
  then
   exists out : list (list R),
     square f d fa n true = Ok (Stacked (round_half_even d (Z.of_nat n)) out) /\
     length out = rows_used h n f d /\
     (forall j b : nat,
      (b < length arrs)%nat -> at_ (nth j out []) b = overlapped arrs h n (hop_used n f d) j b)
  else square f d fa n true = Raise ValueError.
Proof. exact (@square_exact). Qed.
Print Assumptions C75_exact.
Theorem C75_half_overlap_fits :
  forall (f d : Z) (h n : nat),
  (0 < h)%nat ->
  (0 < f)%Z -> (2 * f <= d)%Z -> ((h - 1) * hop_used n f d + n <= rows_used h n f d)%nat.
Proof. exact (@half_overlap_fits). Qed.
Print Assumptions C75_half_overlap_fits.
Theorem C75_half_or_more :
  forall (f d : Z) (arrs : list (arr2 R)) (s : scale) (bs : list band) 
    (h : nat) (fa : arr2 R * efd) (n : nat),
  squarable arrs s bs h fa ->
  (1 < n)%nat ->
  (0 < h)%nat ->
  (0 < f)%Z ->
  (2 * f <= d)%Z ->
  exists out : list (list R),
    square f d fa n true = Ok (Stacked (round_half_even d (Z.of_nat n)) out) /\
    length out = rows_used h n f d /\
    (forall j b : nat,
     (b < length arrs)%nat -> at_ (nth j out []) b = overlapped arrs h n (hop_used n f d) j b).
Proof. exact (@square_half_or_more). Qed.
Print Assumptions C75_half_or_more.
Theorem C75_odd_refuted :
  forall (f : Z) (arrs : list (arr2 R)) (s : scale) (bs : list band) (h : nat) 
    (fa : arr2 R * efd) (m : nat),
  squarable arrs s bs h fa ->
  (0 < m)%nat ->
  (0 < h)%nat ->
  (0 < f)%Z ->
  exists out : list (list R),
    square f (2 * f) fa (2 * m + 1) true =
    Ok (Stacked (round_half_even (2 * f) (Z.of_nat (2 * m + 1))) out) /\
    length out = Z.to_nat (round_half_even (Z.of_nat ((h + 1) * (2 * m + 1))) 2) /\
    (forall j b : nat,
     (b < length arrs)%nat -> at_ (nth j out []) b = overlapped arrs h (2 * m + 1) m j b) /\
    (forall j b : nat,
     (b < length arrs)%nat -> ((h + 1) * m + 1 <= j)%nat -> at_ (nth j out []) b = 0) /\
    (forall q : nat, (h + 1)%nat = (2 * q)%nat -> length out = ((h + 1) * m + 1 + (q - 1))%nat).
Proof. exact (@square_odd_refuted). Qed.
Print Assumptions C75_odd_refuted.
Theorem C75_cases :
  hop_used 4 1 4 = 3%nat /\
  rows_used 3 4 1 4 = 12%nat /\
  ((3 - 1) * hop_used 4 3 4 + 4 <=? rows_used 3 4 3 4) = false /\
  ((1 - 1) * hop_used 2 51 100 + 2 <=? rows_used 1 2 51 100) = true /\ rows_used 2 5 1 2 = 8%nat.
Proof. exact (@square_cases). Qed.
Print Assumptions C75_cases.

