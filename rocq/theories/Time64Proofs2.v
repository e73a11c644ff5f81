(** Proofs about Time64.v: quotients in double precision. *)
From Coq Require Import ZArith QArith Qround Qreals Reals Lra Lia Bool.
From Flocq Require Import Core Relative.
From Verif Require Import PyBase PyFacts Time Float64 Float64Proofs Time64 Time64Proofs.
Local Open Scope R_scope.

#[local] Instance bits53' : Prec_gt_0 53 := eq_refl.

Lemma Q2R_int z : Q2R (inject_Z z) = IZR z.
Proof. unfold Q2R, inject_Z. cbn [Qnum Qden]. lra. Qed.
Lemma Q2R_0 : Q2R 0 = 0.
Proof. apply (Q2R_int 0). Qed.
Lemma Qnum_sign x : (Qnum x <? 0)%Z = false -> (0 <= x)%Q.
Proof. intros H. apply Z.ltb_ge in H. unfold Qle. cbn. lia. Qed.
(** every sign *)
Theorem fls_rounds x : Q2R (fls x) = rnd (Q2R x).
Proof.
  unfold fls. destruct (Qnum x <? 0)%Z eqn:E; [|apply fl_rounds, Qnum_sign; exact E].
  rewrite Q2R_opp, fl_rounds, Q2R_opp, round_NE_opp; [lra|]. apply Z.ltb_lt in E. unfold Qle, Qopp. cbn. lia.
Qed.
Lemma rnd_int z : (- 2 ^ 53 <= z <= 2 ^ 53)%Z -> rnd (IZR z) = IZR z.
Proof.
  intros H. assert (P : forall m, (0 <= m <= 2 ^ 53)%Z -> rnd (IZR m) = IZR m).
  { intros m Hm. rewrite <- Q2R_int, <- fl_rounds by (unfold Qle; cbn; lia). apply Qeq_eqR. exact (fl_int m Hm). }
  destruct (Z.le_ge_cases 0 z); [apply P; lia|]. replace z with (- - z)%Z by lia. rewrite opp_IZR, round_NE_opp, P by lia. reflexivity.
Qed.
Lemma rnd_le x y : x <= y -> rnd x <= rnd y.
Proof. intros H. apply round_le; try typeclasses eauto. exact H. Qed.
Lemma rnd_err x : Rabs (rnd x - x) <= / 2 * bpow radix2 (-53 + 1) * Rabs x.
Proof. exact (relative_error_N_FLX radix2 53 ltac:(reflexivity) (fun n => negb (Z.even n)) x). Qed.
Definition u53 : R := / IZR (2 ^ 53).
Lemma u53_pos : 0 < u53.
Proof. unfold u53. apply Rinv_0_lt_compat, (IZR_lt 0). lia. Qed.
Lemma half_ulp : / 2 * bpow radix2 (-53 + 1) = u53.
Proof. unfold u53. change (bpow radix2 (-53 + 1)) with (/ IZR (2 ^ 52)). rewrite <- Rinv_mult. rewrite <- (mult_IZR 2 (2 ^ 52)). reflexivity. Qed.
Lemma rnd_near x : 0 <= x -> x * (1 - u53) <= rnd x <= x * (1 + u53).
Proof. intros H. pose proof (rnd_err x) as E. rewrite half_ulp, (Rabs_pos_eq x H) in E. apply Rabs_le_inv in E || (unfold Rabs in E; destruct (Rcase_abs (rnd x - x)); lra). lra. Qed.
Lemma rnd_nonneg x : 0 <= x -> 0 <= rnd x.
Proof. intros H. rewrite <- (rnd_int 0) by lia. apply rnd_le. exact H. Qed.
Lemma rnd_nonpos x : x <= 0 -> rnd x <= 0.
Proof. intros H. rewrite <- (rnd_int 0) by lia. apply rnd_le. exact H. Qed.

(** ** The quotient of integers below 2^53, against integers *)
Section Quotient.
  Context (a b : Z) (Ha : (0 <= a < 2 ^ 53)%Z) (Hb : (0 < b)%Z).
  Lemma b_pos : 0 < IZR b.
  Proof. now apply (IZR_lt 0). Qed.
  Lemma quot_le : 0 <= IZR a / IZR b <= IZR a.
  Proof. pose proof b_pos. assert (0 <= IZR a) by (apply (IZR_le 0); lia). assert (1 <= IZR b) by (apply (IZR_le 1); lia). assert (I : / IZR b <= 1) by (rewrite <- Rinv_1; apply Rinv_le_contravar; lra). assert (0 < / IZR b) by (apply Rinv_0_lt_compat; lra). unfold Rdiv. split; nra. Qed.
  Theorem quot_at_least m : (m * b <= a)%Z -> IZR m <= rnd (IZR a / IZR b).
  Proof.
    intros H. pose proof b_pos. destruct (Z.le_gt_cases m 0) as [N|P]; [apply Rle_trans with 0; [apply (IZR_le m 0); exact N|apply rnd_nonneg, quot_le]|]. rewrite <- (rnd_int m) by nia. apply rnd_le. apply Rmult_le_reg_r with (IZR b); [lra|]. unfold Rdiv. rewrite Rmult_assoc, Rinv_l, Rmult_1_r by lra. rewrite <- mult_IZR. now apply IZR_le.
  Qed.
  Theorem quot_at_most m : (a <= m * b)%Z -> rnd (IZR a / IZR b) <= IZR m.
  Proof.
    intros H. pose proof b_pos as B. assert (M : (0 <= m)%Z) by nia. assert (L : IZR a / IZR b <= IZR m). { apply Rmult_le_reg_r with (IZR b); [lra|]. unfold Rdiv. rewrite Rmult_assoc, Rinv_l, Rmult_1_r by lra. rewrite <- mult_IZR. now apply IZR_le. }
    destruct (Z.le_gt_cases m (2 ^ 53)) as [S|S]; [rewrite <- (rnd_int m) by lia; now apply rnd_le|]. apply Rle_trans with (IZR (2 ^ 53)); [|apply IZR_le; lia]. rewrite <- (rnd_int (2 ^ 53)) by lia. apply rnd_le. apply Rle_trans with (IZR a); [apply quot_le|apply IZR_le; lia].
  Qed.
  Theorem quot_below m : (a < m * b)%Z -> rnd (IZR a / IZR b) < IZR m.
  Proof.
    intros H. pose proof b_pos as B. pose proof (proj2 (rnd_near _ (proj1 quot_le))) as N. apply Rle_lt_trans with (1 := N). apply Rmult_lt_reg_r with (IZR b); [lra|]. unfold Rdiv. replace (IZR a * / IZR b * (1 + u53) * IZR b) with (IZR a + IZR a * u53) by (field; lra). rewrite <- mult_IZR.
    assert (S1 : IZR a + 1 <= IZR (m * b)) by (rewrite <- plus_IZR; apply IZR_le; lia). assert (S2 : IZR a * u53 < 1). { unfold u53. assert (P : 0 < IZR (2 ^ 53)) by (apply (IZR_lt 0); lia). apply Rmult_lt_reg_r with (IZR (2 ^ 53)); [exact P|]. rewrite Rmult_assoc, Rinv_l by lra. rewrite Rmult_1_r, Rmult_1_l. apply IZR_lt. lia. } lra.
  Qed.
  Theorem quot_above m : (m * b < a)%Z -> IZR m < rnd (IZR a / IZR b).
  Proof.
    intros H. pose proof b_pos as B. pose proof (proj1 (rnd_near _ (proj1 quot_le))) as N. apply Rlt_le_trans with (2 := N). apply Rmult_lt_reg_r with (IZR b); [lra|]. unfold Rdiv. replace (IZR a * / IZR b * (1 - u53) * IZR b) with (IZR a - IZR a * u53) by (field; lra). rewrite <- mult_IZR.
    assert (S1 : IZR (m * b) + 1 <= IZR a) by (rewrite <- plus_IZR; apply IZR_le; lia). assert (S2 : IZR a * u53 < 1). { unfold u53. assert (P : 0 < IZR (2 ^ 53)) by (apply (IZR_lt 0); lia). apply Rmult_lt_reg_r with (IZR (2 ^ 53)); [exact P|]. rewrite Rmult_assoc, Rinv_l by lra. rewrite Rmult_1_r, Rmult_1_l. apply IZR_lt. lia. } lra.
  Qed.
  Theorem floor_quot q : Q2R q = rnd (IZR a / IZR b) -> Qfloor q = (a / b)%Z.
  Proof.
    intros E. pose proof (Z.div_mod a b ltac:(lia)). pose proof (Z.mod_pos_bound a b Hb). assert (L : IZR (a / b) <= Q2R q) by (rewrite E; apply quot_at_least; nia). assert (U : Q2R q < IZR (a / b + 1)) by (rewrite E; apply quot_below; nia).
    pose proof (Qfloor_le q) as F1. pose proof (Qlt_floor q) as F2. apply Qle_Rle in F1. apply Qlt_Rlt in F2. rewrite Q2R_int in F1, F2. apply Z.le_antisymm; apply Z.lt_succ_r; apply lt_IZR; unfold Z.succ; lra.
  Qed.
  Theorem ceil_quot q : Q2R q = rnd (IZR a / IZR b) -> Qceiling q = ceil_div a b.
  Proof.
    intros E. unfold ceil_div. pose proof (Z.div_mod (- a) b ltac:(lia)). pose proof (Z.mod_pos_bound (- a) b Hb). set (c := (- (- a / b))%Z) in *. assert (L : IZR (c - 1) < Q2R q) by (rewrite E; apply quot_above; nia). assert (U : Q2R q <= IZR c) by (rewrite E; apply quot_at_most; nia).
    pose proof (Qle_ceiling q) as F1. pose proof (Qceiling_lt q) as F2. apply Qle_Rle in F1. apply Qlt_Rlt in F2. rewrite Q2R_int in F1, F2. apply Z.le_antisymm; apply Z.lt_succ_r; apply lt_IZR; unfold Z.succ; rewrite minus_IZR in *; rewrite ?plus_IZR; lra.
  Qed.
End Quotient.
