(** Proofs about Fractions.v: products of a double and a whole number, cut to a whole number. *)
From Coq Require Import ZArith QArith Qround Qreals Reals Lra Lia Bool List.
From Flocq Require Import Core Relative.
From Verif Require Import PyBase PyFacts PyMore Time Float64 Float64Proofs Time64 Time64Proofs Time64Proofs2 Time64Proofs3 Time64Proofs5 Fractions.
Local Open Scope R_scope.

Lemma u53_le : u53 <= / 2.
Proof. unfold u53. apply Rinv_le_contravar; [lra|]. apply (IZR_le 2). lia. Qed.
(** the two roundings together *)
Lemma two_roundings n v : 0 <= n -> 0 <= v -> n * v * ((1 - u53) * (1 - u53)) <= rnd (n * rnd v) <= n * v * ((1 + u53) * (1 + u53)).
Proof.
  intros Hn Hv. pose proof u53_pos as U. pose proof u53_le as U2. destruct (rnd_near v Hv) as [L1 H1].
  assert (P : 0 <= n * rnd v) by (apply Rmult_le_pos; [exact Hn|now apply rnd_nonneg]). destruct (rnd_near _ P) as [L2 H2].
  assert (A : n * (v * (1 - u53)) <= n * rnd v) by now apply Rmult_le_compat_l. assert (B : n * rnd v <= n * (v * (1 + u53))) by now apply Rmult_le_compat_l.
  split.
  - apply Rle_trans with (2 := L2). replace (n * v * ((1 - u53) * (1 - u53))) with (n * (v * (1 - u53)) * (1 - u53)) by ring. apply Rmult_le_compat_r; [lra|exact A].
  - apply Rle_trans with (1 := H2). replace (n * v * ((1 + u53) * (1 + u53))) with (n * (v * (1 + u53)) * (1 + u53)) by ring. apply Rmult_le_compat_r; [lra|exact B].
Qed.
Lemma slack V : 0 <= V -> V * ((1 + u53) * (1 + u53)) <= V + 3 * (V * u53) /\ V - 2 * (V * u53) <= V * ((1 - u53) * (1 - u53)).
Proof. intros H. pose proof u53_pos. pose proof u53_le. assert (u53 * u53 <= u53) by nra. assert (0 <= u53 * u53) by nra. split; nra. Qed.
(** the error of a value a/b below 2^51 is less than 1/b *)
Lemma tiny m b : (0 <= m < 2 ^ 51)%Z -> (0 < b)%Z -> 3 * (IZR m / IZR b * u53) < / IZR b.
Proof.
  intros Hm Hb. assert (B : 0 < IZR b) by now apply (IZR_lt 0). assert (I : 0 < / IZR b) by now apply Rinv_0_lt_compat.
  assert (S : IZR m * u53 * 3 < 1). { unfold u53. assert (P : 0 < IZR (2 ^ 53)) by (apply (IZR_lt 0); lia). apply Rmult_lt_reg_r with (IZR (2 ^ 53)); [exact P|].
    replace (IZR m * / IZR (2 ^ 53) * 3 * IZR (2 ^ 53)) with (IZR m * 3) by (field; lra). rewrite <- mult_IZR, Rmult_1_l. apply IZR_lt. lia. }
  unfold Rdiv. replace (3 * (IZR m * / IZR b * u53)) with (IZR m * u53 * 3 * / IZR b) by ring. rewrite <- (Rmult_1_l (/ IZR b)) at 2. now apply Rmult_lt_compat_r.
Qed.
Lemma div_real m b : (0 < b)%Z -> IZR m / IZR b = IZR (m / b) + IZR (m mod b) / IZR b.
Proof. intros H. assert (B : 0 < IZR b) by now apply (IZR_lt 0). rewrite (Z_div_mod_eq_full m b) at 1. rewrite plus_IZR, mult_IZR. field. lra. Qed.
Lemma floor_of q e : IZR e <= Q2R q < IZR (e + 1) -> Qfloor q = e.
Proof.
  intros [L U]. pose proof (Qfloor_le q) as F1. pose proof (Qlt_floor q) as F2. apply Qle_Rle in F1. apply Qlt_Rlt in F2. rewrite Q2R_int in F1, F2.
  apply Z.le_antisymm; apply Z.lt_succ_r; apply lt_IZR; unfold Z.succ; lra.
Qed.
(** [part64] is the floor of the rounded product *)
Lemma part_floor x n : (0 <= x)%Q -> (0 <= n <= 2 ^ 53)%Z -> exists q, part64 x n = Qfloor q /\ Q2R q = rnd (IZR n * Q2R x) /\ (0 <= q)%Q.
Proof.
  intros Hx Hn. exists (fls (x * fls (inject_Z n))%Q). assert (E : Q2R (fls (x * fls (inject_Z n))) = rnd (IZR n * Q2R x)).
  { rewrite fls_rounds, Q2R_mult, fls_rounds, Q2R_int, rnd_int by lia. now rewrite Rmult_comm. }
  assert (P : (0 <= fls (x * fls (inject_Z n)))%Q). { apply Rle_Qle. rewrite Q2R_0, E. apply rnd_nonneg. apply Rmult_le_pos; [apply (IZR_le 0); lia|]. apply Qle_Rle in Hx. now rewrite Q2R_0 in Hx. }
  split; [|split; [exact E|exact P]]. unfold part64. now apply trunc_floor.
Qed.
Lemma nearest_nonneg a b : (0 <= a)%Z -> (0 <= fls (a # b))%Q.
Proof. intros H. apply Rle_Qle. rewrite Q2R_0, fls_rounds. apply rnd_nonneg. unfold Q2R. cbn [Qnum Qden]. apply Rmult_le_pos; [now apply (IZR_le 0)|]. left. apply Rinv_0_lt_compat, (IZR_lt 0). reflexivity. Qed.
(** the core: a double nearest to a/b times n *)
Lemma product_near x a b n : (0 <= n)%Z -> (0 <= a)%Z -> (0 < b)%Z -> (n * a < 2 ^ 51)%Z -> Q2R x = rnd (IZR a / IZR b) ->
  IZR (n * a) / IZR b - 2 * (IZR (n * a) / IZR b * u53) <= rnd (IZR n * Q2R x) <= IZR (n * a) / IZR b + 3 * (IZR (n * a) / IZR b * u53).
Proof.
  intros Hn Ha Hb B E. rewrite E. assert (Pb : 0 < IZR b) by now apply (IZR_lt 0). assert (V : 0 <= IZR a / IZR b) by (apply Rmult_le_pos; [now apply (IZR_le 0)|left; now apply Rinv_0_lt_compat]).
  assert (N : 0 <= IZR n) by now apply (IZR_le 0). destruct (two_roundings (IZR n) (IZR a / IZR b) N V) as [L U].
  assert (EV : IZR n * (IZR a / IZR b) = IZR (n * a) / IZR b) by (rewrite mult_IZR; unfold Rdiv; ring). rewrite EV in L, U.
  assert (V' : 0 <= IZR (n * a) / IZR b) by (rewrite <- EV; now apply Rmult_le_pos). destruct (slack _ V') as [S1 S2]. lra.
Qed.
Lemma floor_cases q a b n : (0 <= n)%Z -> (0 <= a)%Z -> (0 < b)%Z -> (n * a < 2 ^ 51)%Z ->
  IZR (n * a) / IZR b - 2 * (IZR (n * a) / IZR b * u53) <= Q2R q <= IZR (n * a) / IZR b + 3 * (IZR (n * a) / IZR b * u53) ->
  (Qfloor q = n * a / b \/ (n * a mod b = 0 /\ Qfloor q = n * a / b - 1))%Z.
Proof.
  intros Hn Ha Hb B [L U]. set (m := (n * a)%Z) in *. assert (Pb : 0 < IZR b) by now apply (IZR_lt 0). assert (Hm : (0 <= m < 2 ^ 51)%Z) by (unfold m in *; nia).
  pose proof (tiny m b Hm Hb) as T. pose proof (div_real m b Hb) as D. pose proof (Z.mod_pos_bound m b Hb) as R. assert (I : 0 < / IZR b) by now apply Rinv_0_lt_compat.
  assert (I1 : / IZR b <= 1) by (rewrite <- Rinv_1; apply Rinv_le_contravar; [lra|apply (IZR_le 1); lia]).
  assert (T0 : 0 <= IZR m / IZR b * u53) by (apply Rmult_le_pos; [apply Rmult_le_pos; [apply (IZR_le 0); lia|lra]|pose proof u53_pos; lra]).
  assert (Up : IZR (m mod b) / IZR b <= 1 - / IZR b). { assert (IZR (m mod b) <= IZR b - 1) by (rewrite <- minus_IZR; apply IZR_le; lia). replace (1 - / IZR b) with ((IZR b - 1) * / IZR b) by (field; lra). unfold Rdiv. apply Rmult_le_compat_r; lra. }
  destruct (Z.eq_dec (m mod b) 0) as [Z0|NZ].
  - rewrite Z0 in D. unfold Rdiv in D at 2. rewrite Rmult_0_l, Rplus_0_r in D.
    assert (C : (Qfloor q = m / b \/ Qfloor q = m / b - 1)%Z). { destruct (Rle_lt_dec (IZR (m / b)) (Q2R q)) as [G|G]; [left|right]; apply floor_of; [rewrite plus_IZR; split; lra|]. replace (m / b - 1 + 1)%Z with (m / b)%Z by lia. rewrite minus_IZR. split; lra. }
    destruct C; [now left|right; auto].
  - left. apply floor_of. assert (Lo : / IZR b <= IZR (m mod b) / IZR b). { assert (1 <= IZR (m mod b)) by (apply (IZR_le 1); lia). unfold Rdiv. rewrite <- (Rmult_1_l (/ IZR b)) at 1. apply Rmult_le_compat_r; lra. }
    rewrite plus_IZR. split; lra.
Qed.

(** ** [int(factor * n)] for the double nearest to a/b: the exact size, or one less *)
Theorem part_cases a b n : (0 <= n)%Z -> (0 <= a)%Z -> (n * a < 2 ^ 51)%Z -> (n <= 2 ^ 53)%Z ->
  let e := (n * a / Z.pos b)%Z in part64 (fls (a # b)) n = e \/ (((n * a) mod Z.pos b = 0)%Z /\ part64 (fls (a # b)) n = (e - 1)%Z).
Proof.
  intros Hn Ha B N e. destruct (part_floor (fls (a # b)) n (nearest_nonneg a b Ha) ltac:(lia)) as (q & -> & Eq & _).
  apply floor_cases; try assumption; [reflexivity|]. rewrite Eq. apply product_near; try assumption; [reflexivity|]. rewrite fls_rounds. reflexivity.
Qed.
(** exactly when the double is not below a/b *)
Theorem part_exact a b n : (0 <= n)%Z -> (0 <= a)%Z -> (n * a < 2 ^ 51)%Z -> (n <= 2 ^ 53)%Z -> (a # b <= fls (a # b))%Q -> part64 (fls (a # b)) n = (n * a / Z.pos b)%Z.
Proof.
  intros Hn Ha B N Up. destruct (part_cases a b n Hn Ha B N) as [E|[Z0 E]]; [exact E|]. exfalso.
  destruct (part_floor (fls (a # b)) n (nearest_nonneg a b Ha) ltac:(lia)) as (q & Ep & Eq & _). rewrite Ep in E.
  assert (Hb : (0 < Z.pos b)%Z) by reflexivity. assert (Pb : 0 < IZR (Z.pos b)) by now apply (IZR_lt 0).
  pose proof (div_real (n * a) (Z.pos b) Hb) as D. rewrite Z0 in D. unfold Rdiv in D at 2. rewrite Rmult_0_l, Rplus_0_r in D.
  assert (L : IZR (n * a / Z.pos b) <= Q2R q).
  { rewrite Eq. set (k := (n * a / Z.pos b)%Z) in *. assert (K : (0 <= k <= 2 ^ 53)%Z) by (unfold k; split; [apply Z.div_pos; nia|apply Z.div_le_upper_bound; nia]). rewrite <- (rnd_int k) by lia. apply rnd_le. rewrite <- D.
    rewrite mult_IZR. unfold Rdiv. rewrite Rmult_assoc. apply Rmult_le_compat_l; [now apply (IZR_le 0)|]. apply Qle_Rle in Up. exact Up. }
  pose proof (Qlt_floor q) as F. apply Qlt_Rlt in F. rewrite Q2R_int, E in F. replace (n * a / Z.pos b - 1 + 1)%Z with (n * a / Z.pos b)%Z in F by lia. lra.
Qed.
(** a dyadic factor *)
Theorem part_dyadic a k n : (0 <= n <= 2 ^ 53)%Z -> (0 <= a <= 2 ^ 53)%Z -> (0 <= k)%Z -> (n * a < 2 ^ 51)%Z -> part64 (fls (a # Z.to_pos (2 ^ k))) n = (n * a / 2 ^ k)%Z.
Proof.
  intros Hn Ha Hk B. assert (P : (0 < 2 ^ k)%Z) by (apply Z.pow_pos_nonneg; lia). rewrite part_exact; try lia; [now rewrite Z2Pos.id|].
  assert (E : (fls (a # Z.to_pos (2 ^ k)) == a # Z.to_pos (2 ^ k))%Q); [|rewrite E; apply Qle_refl].
  unfold fls. cbn [Qnum]. destruct (Z.ltb_spec a 0); [lia|]. apply (fl_exact a (- k)); [exact Ha|]. unfold Q2R. cbn [Qnum Qden]. rewrite Z2Pos.id by exact P. f_equal. rewrite bpow_opp. f_equal. now apply (IZR_Zpower radix2).
Qed.
(** all of it, none of it *)
Theorem part_all n : (0 <= n <= 2 ^ 53)%Z -> part64 1 n = n.
Proof.
  intros H. destruct (part_floor 1 n ltac:(discriminate) H) as (q & -> & Eq & _). apply floor_of. rewrite Eq. replace (Q2R 1) with 1 by (unfold Q2R; cbn; lra). rewrite Rmult_1_r, rnd_int by lia. rewrite plus_IZR. split; lra.
Qed.
Theorem part_none n : (0 <= n <= 2 ^ 53)%Z -> part64 0 n = 0%Z.
Proof.
  intros H. destruct (part_floor 0 n ltac:(discriminate) H) as (q & -> & Eq & _). apply floor_of. rewrite Eq, Q2R_0, Rmult_0_r, (rnd_int 0) by lia. rewrite plus_IZR. split; lra.
Qed.
Theorem part_mono x y n : (0 <= x)%Q -> (x <= y)%Q -> (0 <= n <= 2 ^ 53)%Z -> (0 <= part64 x n <= part64 y n)%Z.
Proof.
  intros Hx H Hn. destruct (part_floor x n Hx Hn) as (q & -> & Eq & Pq). destruct (part_floor y n (Qle_trans _ _ _ Hx H) Hn) as (r & -> & Er & _).
  split; [rewrite <- (Qfloor_Z 0); now apply Qfloor_resp_le|]. apply Qfloor_resp_le. apply Rle_Qle. rewrite Eq, Er. apply rnd_le. apply Rmult_le_compat_l; [apply (IZR_le 0); lia|now apply Qle_Rle].
Qed.
Theorem part_le x n : (0 <= x <= 1)%Q -> (0 <= n <= 2 ^ 53)%Z -> (0 <= part64 x n <= n)%Z.
Proof. intros [H0 H1] Hn. pose proof (part_mono x 1 n H0 H1 Hn). rewrite part_all in H by exact Hn. lia. Qed.
Theorem part_hundredths_refuted : part64 (fls (29 # 100)) 100 = 28%Z /\ part64 (fls (1 # 49)) 49 = 0%Z.
Proof. split; vm_compute; reflexivity. Qed.
Theorem part_usual n : (0 <= n < 2 ^ 44)%Z -> part64 (fls (1 # 10)) n = (n / 10)%Z /\ part64 (fls (1 # 5)) n = (n / 5)%Z /\ part64 (fls (1 # 4)) n = (n / 4)%Z /\ part64 (fls (1 # 2)) n = (n / 2)%Z.
Proof.
  intros H. repeat split; (rewrite part_exact; [now rewrite ?Z.mul_1_r|lia|lia|lia|lia|]).
  all: unfold Qle; vm_compute; discriminate.
Qed.
