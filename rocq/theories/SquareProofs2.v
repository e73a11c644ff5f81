(** FrequencyAdaptive.square for every overlap and every number of samples per frame (C75). *)
From Verif Require Import PyBase PyFacts PyMore Time Freq FreqProofs FreqDim FreqDimProofs Spectral SpectralProofs TransformProofs WindowProofs ReconProofs OverlapProofs Resample ResampleProofs Decompose DecomposeProofs Square SquareProofs.
From Coq Require Import Reals Lra Psatz.
Local Open Scope R_scope.

(** ** Specification vocabulary *)
(** the rows between frames: the whole rows of the overlap; the rows of the result *)
Definition hop_used (n : nat) (f d : Z) : nat := Z.to_nat (Z.of_nat n * (d - f) / d).
Definition rows_used (h n : nat) (f d : Z) : nat := Z.to_nat (round_half_even (Z.of_nat ((h + 1) * n) * (d - f)) d).

Lemma round_above p q : (0 < q)%Z -> (p / q <= round_half_even p q)%Z.
Proof. intros Q. unfold round_half_even. cbv zeta. destruct (2 * _ <? q)%Z; [lia|]. destruct (q <? _)%Z; [lia|]. destruct (Z.even (p / q)); lia. Qed.
(** the result for every overlap: frame [t] starts at row [t * hop]; or the last frame does
    not fit *)
Theorem square_exact f d arrs s bs h fa n : squarable arrs s bs h fa -> (1 < n)%nat -> (0 < h)%nat -> (0 < f < d)%Z ->
  if Nat.leb ((h - 1) * hop_used n f d + n) (rows_used h n f d)
  then exists out, square f d fa n true = Ok (Stacked (round_half_even d (Z.of_nat n)) out) /\ length out = rows_used h n f d /\
         forall j b, (b < length arrs)%nat -> at_ (nth j out []) b = overlapped arrs h n (hop_used n f d) j b
  else square f d fa n true = Raise ValueError.
Proof.
  intros Q Hn Hh Hf. rewrite (square_start f d arrs s bs h fa n true Q) by lia. cbn [negb].
  destruct (Z.eqb_spec (d - f) 0); [lia|]. cbv zeta.
  replace (Z.of_nat (h * n) * (d - f) + Z.of_nat n * (d - f))%Z with (Z.of_nat ((h + 1) * n) * (d - f))%Z by nia.
  fold (rows_used h n f d). fold (hop_used n f d).
  assert (Lg : length (groups n (stack arrs h n)) = h) by (apply groups_length; [lia|apply stack_length]).
  destruct (Nat.leb_spec ((h - 1) * hop_used n f d + n) (rows_used h n f d)) as [C|C].
  - destruct (add_chunks_ok (length arrs) n (hop_used n f d) (groups n (stack arrs h n)) (repeat (repeat 0 (length arrs)) (rows_used h n f d)) 0) as (out & Eo & L & V).
    + apply (groups_shape arrs s bs h fa); [exact Q|lia].
    + apply zeros_rows.
    + rewrite Lg. intros k Hk. rewrite repeat_length. transitivity ((h - 1) * hop_used n f d + n)%nat; [|exact C].
      rewrite (Nat.mul_comm (hop_used n f d)). apply Nat.add_le_mono_r, Nat.mul_le_mono_r. lia.
    + rewrite Eo. cbn [bind]. exists out. split; [reflexivity|]. split; [now rewrite L, repeat_length|]. intros j b Hb. rewrite V, zeros_at, Rplus_0_l.
      apply (placed_frames arrs s bs h fa); [exact Q|lia|exact Hb].
  - rewrite (add_chunks_misfit n); [reflexivity|exact Hn|intros N; rewrite N in Lg; cbn in Lg; lia| |].
    + apply Forall_impl with (2 := groups_shape arrs s bs h fa n Q ltac:(lia)). now intros a [A _].
    + rewrite repeat_length, Lg. cbn [Nat.add]. rewrite (Nat.mul_comm (hop_used n f d)). exact C.
Qed.
(** with at least half overlap every frame fits *)
Theorem half_overlap_fits f d h n : (0 < h)%nat -> (0 < f)%Z -> (2 * f <= d)%Z -> ((h - 1) * hop_used n f d + n <= rows_used h n f d)%nat.
Proof.
  intros Hh Hf Hd. unfold hop_used, rows_used. set (x := (Z.of_nat n * (d - f))%Z). assert (Px : (0 <= x / d)%Z) by (apply Z.div_pos; unfold x; nia).
  assert (E : (Z.of_nat ((h + 1) * n) * (d - f) = Z.of_nat (h + 1) * x)%Z) by (unfold x; nia). rewrite E.
  pose proof (round_above (Z.of_nat (h + 1) * x) d ltac:(lia)) as R.
  assert (L : (Z.of_nat (h - 1) * (x / d) + Z.of_nat n <= Z.of_nat (h + 1) * x / d)%Z).
  { apply Z.div_le_lower_bound; [lia|]. pose proof (Z.mul_div_le x d ltac:(lia)) as M. assert (N : (d * Z.of_nat n <= 2 * x)%Z) by (unfold x; nia). nia. }
  apply Nat2Z.inj_le. rewrite Nat2Z.inj_add, Nat2Z.inj_mul, !Z2Nat.id by lia. lia.
Qed.
Theorem square_half_or_more f d arrs s bs h fa n : squarable arrs s bs h fa -> (1 < n)%nat -> (0 < h)%nat -> (0 < f)%Z -> (2 * f <= d)%Z ->
  exists out, square f d fa n true = Ok (Stacked (round_half_even d (Z.of_nat n)) out) /\ length out = rows_used h n f d /\
    forall j b, (b < length arrs)%nat -> at_ (nth j out []) b = overlapped arrs h n (hop_used n f d) j b.
Proof.
  intros Q Hn Hh Hf Hd. pose proof (square_exact f d arrs s bs h fa n Q Hn Hh ltac:(lia)) as X.
  rewrite (proj2 (Nat.leb_le _ _) (half_overlap_fits f d h n Hh Hf Hd)) in X. exact X.
Qed.
(** half-lapped frames of an odd number of samples: every frame is laid out [m] rows after the
    one before, half a row less than the time dimension says, and the rows left over are 0 *)
Theorem square_odd_refuted f arrs s bs h fa m : squarable arrs s bs h fa -> (0 < m)%nat -> (0 < h)%nat -> (0 < f)%Z ->
  exists out, square f (2 * f) fa (2 * m + 1) true = Ok (Stacked (round_half_even (2 * f) (Z.of_nat (2 * m + 1))) out) /\
    length out = Z.to_nat (round_half_even (Z.of_nat ((h + 1) * (2 * m + 1))) 2) /\
    (forall j b, (b < length arrs)%nat -> at_ (nth j out []) b = overlapped arrs h (2 * m + 1) m j b) /\
    (forall j b, (b < length arrs)%nat -> ((h + 1) * m + 1 <= j)%nat -> at_ (nth j out []) b = 0) /\
    (forall q, (h + 1 = 2 * q)%nat -> length out = ((h + 1) * m + 1 + (q - 1))%nat).
Proof.
  intros Q Hm Hh Hf. destruct (square_half_or_more f (2 * f) arrs s bs h fa (2 * m + 1) Q ltac:(lia) Hh Hf ltac:(lia)) as (out & E & L & V).
  assert (Eh : hop_used (2 * m + 1) f (2 * f) = m).
  { unfold hop_used. replace (Z.of_nat (2 * m + 1) * (2 * f - f))%Z with (f + Z.of_nat m * (2 * f))%Z by nia. rewrite Z.div_add, Z.div_small by lia. lia. }
  rewrite Eh in V.
  assert (Er : rows_used h (2 * m + 1) f (2 * f) = Z.to_nat (round_half_even (Z.of_nat ((h + 1) * (2 * m + 1))) 2)).
  { unfold rows_used. f_equal. set (p := Z.of_nat ((h + 1) * (2 * m + 1))). replace (2 * f - f)%Z with f by lia. unfold round_half_even. cbv zeta.
    rewrite Z.div_mul_cancel_r by lia. set (y := (p / 2)%Z).
    replace (2 * (p * f - y * (2 * f)))%Z with (2 * (p - y * 2) * f)%Z by ring.
    replace (2 * (p - y * 2) * f <? 2 * f)%Z with (2 * (p - y * 2) <? 2)%Z by (destruct (Z.ltb_spec (2 * (p - y * 2)) 2), (Z.ltb_spec (2 * (p - y * 2) * f) (2 * f)); try reflexivity; nia).
    replace (2 * f <? 2 * (p - y * 2) * f)%Z with (2 <? 2 * (p - y * 2))%Z by (destruct (Z.ltb_spec 2 (2 * (p - y * 2))), (Z.ltb_spec (2 * f) (2 * (p - y * 2) * f)); try reflexivity; nia). reflexivity. }
  exists out. split; [exact E|]. split; [congruence|]. split; [exact V|]. split.
  - intros j b Hb Hj. rewrite V by exact Hb. unfold overlapped. apply rsum_zero. intros t Ht.
    destruct (Nat.ltb_spec j (t * m + (2 * m + 1))) as [C|C]; [|now rewrite andb_false_r]. exfalso. nia.
  - intros q Hq. rewrite L, Er, Hq. replace (Z.of_nat (2 * q * (2 * m + 1))) with (Z.of_nat (q * (2 * m + 1)) * 2)%Z by nia. rewrite round_exact, Nat2Z.id by lia. nia.
Qed.
Example square_cases : hop_used 4 1 4 = 3%nat /\ rows_used 3 4 1 4 = 12%nat /\ Nat.leb ((3 - 1) * hop_used 4 3 4 + 4) (rows_used 3 4 3 4) = false /\
  Nat.leb ((1 - 1) * hop_used 2 51 100 + 2) (rows_used 1 2 51 100) = true /\ rows_used 2 5 1 2 = 8%nat.
Proof. repeat split. Qed.
