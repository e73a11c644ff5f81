(** [fl] is IEEE 754 rounding to nearest even with 53 bits and unbounded exponents, as Flocq
    defines it; and what follows for the integers around a rounded number. *)
From Coq Require Import ZArith QArith Qround Qreals Reals Lra Lia Bool.
From Flocq Require Import Core Relative.
From Verif Require Import Float64.
Local Open Scope R_scope.

#[local] Instance bits53 : Prec_gt_0 53 := eq_refl.
Notation rnd := (round radix2 (FLX_exp 53) ZnearestE).

Lemma rne_nearest n d : (0 < d)%Z -> ZnearestE (IZR n / IZR d) = rne n d.
Proof.
  intros H. assert (Pd : 0 < IZR d) by now apply (IZR_lt 0). unfold ZnearestE, Znearest, rne. rewrite Zfloor_div by lia.
  pose proof (Z.div_mod n d ltac:(lia)) as E. pose proof (Z.mod_pos_bound n d H) as B.
  assert (F : IZR n / IZR d - IZR (n / d) = IZR (n mod d) / IZR d).
  { assert (En : IZR n = IZR d * IZR (n / d) + IZR (n mod d)) by (rewrite <- mult_IZR, <- plus_IZR; now rewrite <- E). rewrite En at 1. field. lra. }
  rewrite F. assert (C : (0 < n mod d)%Z -> Zceil (IZR n / IZR d) = (n / d + 1)%Z).
  { intros P. apply Zceil_imp. replace (n / d + 1 - 1)%Z with (n / d)%Z by lia. rewrite plus_IZR. apply (IZR_lt 0) in P. assert (IZR (n mod d) < IZR d) by (apply IZR_lt; lia).
    assert (0 < IZR (n mod d) / IZR d) by (apply Rdiv_lt_0_compat; lra). assert (IZR (n mod d) / IZR d < 1) by (apply Rmult_lt_reg_r with (IZR d); [lra|]; unfold Rdiv; rewrite Rmult_assoc, Rinv_l by lra; lra). lra. }
  assert (S : IZR (n mod d) / IZR d * IZR d = IZR (n mod d)) by (field; lra). rewrite !(Z.mul_comm 2).
  destruct (Z.ltb_spec (n mod d * 2) d) as [L|L]; [|destruct (Z.ltb_spec d (n mod d * 2)) as [L'|L']].
  - rewrite Rcompare_Lt; [reflexivity|]. apply IZR_lt in L. rewrite mult_IZR in L. apply Rmult_lt_reg_r with (IZR d); [lra|]. rewrite S. lra.
  - rewrite Rcompare_Gt; [apply C; lia|]. apply IZR_lt in L'. rewrite mult_IZR in L'. apply Rmult_lt_reg_r with (IZR d); [lra|]. rewrite S. lra.
  - assert (E2 : (n mod d * 2 = d)%Z) by lia. rewrite Rcompare_Eq.
    + rewrite C by lia. now destruct (Z.even (n / d)).
    + apply (f_equal IZR) in E2. rewrite mult_IZR in E2. apply Rmult_eq_reg_r with (IZR d); [|lra]. rewrite S. lra.
Qed.

Lemma bpow_log2 n : (0 < n)%Z -> bpow radix2 (Z.log2 n) <= IZR n < bpow radix2 (Z.log2 n + 1).
Proof.
  intros H. pose proof (Z.log2_spec n H) as [L U]. pose proof (Z.log2_nonneg n). split.
  - rewrite <- IZR_Zpower by lia. apply IZR_le. exact L.
  - rewrite <- IZR_Zpower by lia. apply IZR_lt. exact U.
Qed.
Lemma pow_bpow z : IZR (2 ^ Z.max 0 z) = bpow radix2 (Z.max 0 z).
Proof. rewrite <- IZR_Zpower by lia. reflexivity. Qed.
Lemma pow_bpow' z : (0 <= z)%Z -> IZR (2 ^ z) = bpow radix2 z.
Proof. intros. rewrite <- IZR_Zpower by lia. reflexivity. Qed.
Lemma exponent_spec n d : (0 < n)%Z -> (0 < d)%Z -> bpow radix2 (exponent n d + 52) <= IZR n / IZR d < bpow radix2 (exponent n d + 53).
Proof.
  intros Hn Hd. unfold exponent. set (l := (Z.log2 n - Z.log2 d)%Z).
  destruct (bpow_log2 n Hn) as [Ln Un]. destruct (bpow_log2 d Hd) as [Ld Ud]. assert (Pd : 0 < IZR d) by now apply (IZR_lt 0).
  assert (Lo : bpow radix2 (l - 1) <= IZR n / IZR d).
  { apply Rmult_le_reg_r with (IZR d); [exact Pd|]. replace (IZR n / IZR d * IZR d) with (IZR n) by (field; lra). apply Rle_trans with (bpow radix2 (l - 1) * bpow radix2 (Z.log2 d + 1)); [apply Rmult_le_compat_l; [apply bpow_ge_0|lra]|]. rewrite <- bpow_plus. unfold l. replace (Z.log2 n - Z.log2 d - 1 + (Z.log2 d + 1))%Z with (Z.log2 n) by lia. exact Ln. }
  assert (Hi : IZR n / IZR d < bpow radix2 (l + 1)).
  { apply Rmult_lt_reg_r with (IZR d); [exact Pd|]. replace (IZR n / IZR d * IZR d) with (IZR n) by (field; lra). apply Rlt_le_trans with (bpow radix2 (l + 1) * bpow radix2 (Z.log2 d)); [rewrite <- bpow_plus; unfold l; replace (Z.log2 n - Z.log2 d + 1 + Z.log2 d)%Z with (Z.log2 n + 1)%Z by lia; exact Un|]. apply Rmult_le_compat_l; [apply bpow_ge_0|exact Ld]. }
  assert (T : (n * 2 ^ Z.max 0 (- l) <? d * 2 ^ Z.max 0 l)%Z = true <-> IZR n / IZR d < bpow radix2 l).
  { rewrite Z.ltb_lt. assert (Q : IZR n * bpow radix2 (Z.max 0 (- l)) < IZR d * bpow radix2 (Z.max 0 l) <-> IZR n / IZR d < bpow radix2 l).
    { assert (Eb : bpow radix2 (Z.max 0 l) = bpow radix2 l * bpow radix2 (Z.max 0 (- l))) by (rewrite <- bpow_plus; f_equal; lia). rewrite Eb. pose proof (bpow_gt_0 radix2 (Z.max 0 (- l))) as B. split; intros H.
      - apply Rmult_lt_reg_r with (IZR d); [exact Pd|]. replace (IZR n / IZR d * IZR d) with (IZR n) by (field; lra). apply Rmult_lt_reg_r with (bpow radix2 (Z.max 0 (- l))); [exact B|]. lra.
      - apply (Rmult_lt_compat_r (IZR d)) in H; [|exact Pd]. replace (IZR n / IZR d * IZR d) with (IZR n) in H by (field; lra). apply (Rmult_lt_compat_r (bpow radix2 (Z.max 0 (- l)))) in H; [|exact B]. lra. }
    rewrite <- Q, <- !pow_bpow, <- !mult_IZR. split; [apply IZR_lt|apply lt_IZR]. }
  destruct (n * 2 ^ Z.max 0 (- l) <? d * 2 ^ Z.max 0 l)%Z eqn:E.
  - split; [replace (l - 1 - 52 + 52)%Z with (l - 1)%Z by lia; exact Lo|]. replace (l - 1 - 52 + 53)%Z with l by lia. now apply T.
  - split; [|replace (l - 52 + 53)%Z with (l + 1)%Z by lia; exact Hi]. replace (l - 52 + 52)%Z with l by lia. destruct (Rle_or_lt (bpow radix2 l) (IZR n / IZR d)) as [G|G]; [exact G|]. apply T in G. discriminate.
Qed.

Lemma scaled_spec n d e : (0 < n)%Z -> (0 < d)%Z -> (0 < snd (scaled n d e))%Z /\ IZR (fst (scaled n d e)) / IZR (snd (scaled n d e)) = IZR n / IZR d * bpow radix2 (- e).
Proof.
  intros Hn Hd. assert (Pd : 0 < IZR d) by now apply (IZR_lt 0). unfold scaled. destruct (Z.leb_spec 0 e) as [H|H]; cbn [fst snd].
  - assert (0 < 2 ^ e)%Z by (apply Z.pow_pos_nonneg; lia). split; [nia|]. rewrite mult_IZR, pow_bpow' by exact H. rewrite bpow_opp. pose proof (bpow_gt_0 radix2 e). field. split; lra.
  - split; [exact Hd|]. rewrite mult_IZR, pow_bpow' by lia. field. lra.
Qed.

Theorem fl_rounds x : (0 <= x)%Q -> Q2R (fl x) = rnd (Q2R x).
Proof.
  destruct x as [n p]. intros H. unfold fl. cbn [Qnum Qden]. set (d := Z.pos p) in *. destruct (Z.leb_spec n 0) as [L|L].
  - assert (n = 0)%Z by (unfold Qle in H; cbn in H; lia). subst n. replace (Q2R (0 # p)) with 0 by (unfold Q2R; cbn [Qnum]; lra). rewrite round_0 by typeclasses eauto. unfold Q2R. cbn [Qnum Qden]. lra.
  - assert (Hd : (0 < d)%Z) by reflexivity. assert (Ex : Q2R (n # p) = IZR n / IZR d) by reflexivity. rewrite Ex. set (e := exponent n d).
    pose proof (exponent_spec n d L Hd) as B. fold e in B. destruct (scaled_spec n d e L Hd) as [Ps Es].
    assert (Px : 0 < IZR n / IZR d) by (apply Rdiv_lt_0_compat; now apply (IZR_lt 0)).
    assert (Em : cexp radix2 (FLX_exp 53) (IZR n / IZR d) = e). { unfold cexp, FLX_exp. rewrite (mag_unique_pos radix2 (IZR n / IZR d) (e + 53)); [lia|]. replace (e + 53 - 1)%Z with (e + 52)%Z by lia. exact B. }
    unfold round, F2R, scaled_mantissa. cbn [Fnum Fexp]. rewrite Em, <- Es, rne_nearest by exact Ps.
    destruct (Z.leb_spec 0 e) as [He|He].
    + replace (Q2R (inject_Z (rne (fst (scaled n d e)) (snd (scaled n d e)) * 2 ^ e))) with (IZR (rne (fst (scaled n d e)) (snd (scaled n d e)) * 2 ^ e)) by (unfold Q2R, inject_Z; cbn [Qnum Qden]; lra). rewrite mult_IZR, pow_bpow' by exact He. reflexivity.
    + unfold Q2R. cbn [Qnum Qden]. assert (P2 : (0 < 2 ^ (- e))%Z) by (apply Z.pow_pos_nonneg; lia). rewrite Z2Pos.id by exact P2. rewrite pow_bpow' by lia. rewrite bpow_opp, Rinv_inv. reflexivity.
Qed.

(** ** consequences *)
Lemma fl_nonneg x : (0 <= x)%Q -> (0 <= fl x)%Q.
Proof. intros H. apply Rle_Qle. rewrite fl_rounds by exact H. replace (Q2R 0) with 0 by (unfold Q2R; cbn; lra). rewrite <- (round_0 radix2 (FLX_exp 53) ZnearestE). apply round_le; try typeclasses eauto. apply Qle_Rle in H. replace (Q2R 0) with 0 in H by (unfold Q2R; cbn; lra). exact H. Qed.
(** the relative error is at most 2^-53 *)
Theorem fl_error x : (0 <= x)%Q -> Rabs (Q2R (fl x) - Q2R x) <= / 2 * bpow radix2 (-53 + 1) * Q2R x.
Proof.
  intros H. rewrite fl_rounds by exact H. pose proof (relative_error_N_FLX radix2 53 ltac:(reflexivity) (fun n => negb (Z.even n)) (Q2R x)) as E. apply Qle_Rle in H. replace (Q2R 0) with 0 in H by (unfold Q2R; cbn; lra). rewrite (Rabs_pos_eq (Q2R x)) in E by exact H. exact E.
Qed.
Theorem fl_le x y : (0 <= x)%Q -> (x <= y)%Q -> (fl x <= fl y)%Q.
Proof. intros H L. apply Rle_Qle. rewrite !fl_rounds; [|eapply Qle_trans; eassumption|exact H]. apply round_le; try typeclasses eauto. now apply Qle_Rle. Qed.
(** numbers of 53 bits are themselves *)
Theorem fl_exact m e : (0 <= m <= 2 ^ 53)%Z -> forall x : Q, Q2R x = IZR m * bpow radix2 e -> (fl x == x)%Q.
Proof.
  intros Hm x Ex. apply eqR_Qeq. assert (Px : (0 <= x)%Q). { apply Rle_Qle. rewrite Ex. replace (Q2R 0) with 0 by (unfold Q2R; cbn; lra). apply Rmult_le_pos; [apply (IZR_le 0); lia|apply bpow_ge_0]. }
  rewrite fl_rounds by exact Px. apply round_generic; [typeclasses eauto|]. rewrite Ex. destruct (Z.eq_dec m (2 ^ 53)) as [->|N].
  - change (IZR (2 ^ 53)) with (IZR (radix2 ^ 53)). rewrite IZR_Zpower by lia. rewrite <- bpow_plus. apply generic_format_bpow. unfold FLX_exp. lia.
  - apply generic_format_FLX. exists (Float radix2 m e); [reflexivity|]. cbn [Fnum]. rewrite Z.abs_eq by lia. change (radix2 ^ 53)%Z with (2 ^ 53)%Z. lia.
Qed.
Corollary fl_int z : (0 <= z <= 2 ^ 53)%Z -> (fl (inject_Z z) == inject_Z z)%Q.
Proof. intros H. apply (fl_exact z 0 H). unfold Q2R, inject_Z. cbn [Qnum Qden bpow]. lra. Qed.
(** rounding does not pass an integer *)
Theorem fl_above x z : (0 <= z <= 2 ^ 53)%Z -> (inject_Z z <= x)%Q -> (inject_Z z <= fl x)%Q.
Proof. intros H L. rewrite <- (fl_int z H). apply fl_le; [|exact L]. unfold Qle. cbn. lia. Qed.
Theorem fl_below x z : (0 <= z <= 2 ^ 53)%Z -> (0 <= x)%Q -> (x <= inject_Z z)%Q -> (fl x <= inject_Z z)%Q.
Proof. intros H P L. rewrite <- (fl_int z H). now apply fl_le. Qed.
Theorem fl_same x y : (0 <= x)%Q -> (x == y)%Q -> (fl x == fl y)%Q.
Proof. intros P E. apply Qle_antisym; apply fl_le; try (rewrite <- E; exact P); try exact P; rewrite E; apply Qle_refl. Qed.
