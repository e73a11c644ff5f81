(** Proofs about Time64.v: slices of a time dimension. *)
From Coq Require Import ZArith QArith Qround Qreals Reals Lra Lia Bool.
From Flocq Require Import Core Relative.
From Verif Require Import PyBase PyFacts Time TimeProofs Float64 Float64Proofs Time64 Time64Proofs Time64Proofs2.
Local Open Scope R_scope.

#[local] Instance bits53'' : Prec_gt_0 53 := eq_refl.

(** ** Specification *)
(** the same dimension, its durations as numbers of picoseconds *)
Definition exact (t : dim64) : timedim := {| t_freq := ps (d_freq t); t_dur := ps (d_dur t); t_size := d_size t |}.
(** below one gigahertz, and shorter than 2^53 picoseconds, two and a half hours *)
Definition usual (t : dim64) : Prop :=
  (1024 <= ps (d_freq t) < 2 ^ 53)%Z /\ (0 < ps (d_dur t) < 2 ^ 53)%Z /\ (forall n, d_size t = Some n -> (0 <= n)%Z /\ (n * ps (d_freq t) + ps (d_dur t) < 2 ^ 53)%Z).
(** the overlap with the last sample is not almost exactly the tolerance, 1/200 of a period *)
Definition clear (e f : Z) : Prop := (2 ^ 43 * (200 * (e mod f)) + e <= 2 ^ 43 * f)%Z \/ (2 ^ 43 * f + e <= 2 ^ 43 * (200 * (e mod f)))%Z.

(** ** Quotients of durations *)
Lemma small53 t : (- 2 ^ 53 < ps t < 2 ^ 53)%Z -> small t.
Proof. unfold small. lia. Qed.
Lemma td_div_num a b : small a -> small b -> (0 < ps b)%Z -> exists q x y, td_div a b = Num q /\ Q2R q = rnd (rnd (IZR x) / rnd (IZR y)) /\ (0 < y)%Z /\ (exists k, (1 <= k)%Z /\ ps a = (x * k)%Z /\ ps b = (y * k)%Z).
Proof.
  intros Ha Hb P. set (u := finer (td_unit a) (td_unit b)). destruct (cast_two a b Ha Hb) as [[Ea Na] [Eb Nb]]. fold u in Ea, Na, Eb, Nb. pose proof (unit_pos u) as U. assert (Y : (0 < cast u b)%Z) by nia.
  unfold td_div. fold u. rewrite Na, Nb. cbn [orb]. destruct (Z.eqb_spec (cast u b) 0); [lia|]. eexists _, (cast u a), (cast u b). split; [reflexivity|]. split; [|split; [exact Y|exists (unit_ps u); auto]].
  rewrite fls_rounds. f_equal. rewrite Q2R_div.
  - now rewrite !fls_rounds, !Q2R_int.
  - intros H. apply Qeq_eqR in H. rewrite fls_rounds, Q2R_int, Q2R_0 in H. assert (B : (1 <= IZR (cast u b))) by (apply (IZR_le 1); lia). apply rnd_le in B. rewrite H in B. rewrite (rnd_int 1) in B by lia. lra.
Qed.
Lemma ratio a b x y k : (1 <= k)%Z -> (0 < y)%Z -> a = (x * k)%Z -> b = (y * k)%Z -> IZR x / IZR y = IZR a / IZR b.
Proof. intros K Y -> ->. rewrite !mult_IZR. assert (IZR k <> 0) by (apply not_0_IZR; lia). assert (IZR y <> 0) by (apply not_0_IZR; lia). field. auto. Qed.
Lemma td_div_53 a b : (- 2 ^ 53 < ps a < 2 ^ 53)%Z -> (0 < ps b < 2 ^ 53)%Z -> exists q, td_div a b = Num q /\ Q2R q = rnd (IZR (ps a) / IZR (ps b)).
Proof.
  intros Ha Hb. destruct (td_div_num a b (small53 a Ha) (small53 b ltac:(lia)) ltac:(lia)) as (q & x & y & E & Eq & Y & k & K & Ex & Ey). exists q. split; [exact E|]. rewrite Eq, !rnd_int by nia. f_equal. eapply ratio; eassumption.
Qed.
(** ** The first sample *)
Lemma index_value q : to_int (max0 (np_floor (Num q))) = Ok (Z.max 0 (Qfloor q)).
Proof.
  cbn [np_floor map_num max0]. destruct (Qle_bool (inject_Z (Qfloor q)) 0) eqn:E.
  - apply Qle_bool_iff in E. change 0%Q with (inject_Z 0) in E. rewrite <- Zle_Qle in E. cbn [to_int]. rewrite Z.max_l by exact E. reflexivity.
  - cbn [to_int]. rewrite trunc_int. f_equal. rewrite Z.max_r; [reflexivity|]. destruct (Z.le_gt_cases 0 (Qfloor q)); [assumption|]. exfalso. assert (X : Qle_bool (inject_Z (Qfloor q)) 0 = true); [|congruence]. apply Qle_bool_iff. change 0%Q with (inject_Z 0). rewrite <- Zle_Qle. lia.
Qed.
Lemma floor_nonpos q : Q2R q <= 0 -> (Qfloor q <= 0)%Z.
Proof. intros H. rewrite <- (Qfloor_Z 0). apply Qfloor_resp_le. apply Rle_Qle. rewrite Q2R_int. exact H. Qed.
Theorem first_index a f : (- 2 ^ 53 < ps a < 2 ^ 53)%Z -> (0 < ps f < 2 ^ 53)%Z -> to_int (max0 (np_floor (td_div a f))) = Ok (Z.max 0 (ps a / ps f)).
Proof.
  intros Ha Hf. destruct (td_div_53 a f Ha Hf) as (q & E & Eq). rewrite E, index_value. f_equal. destruct (Z.le_gt_cases 0 (ps a)) as [P|N].
  - now rewrite (floor_quot (ps a) (ps f) ltac:(lia) ltac:(lia) q Eq).
  - assert (Qfloor q <= 0)%Z. { apply floor_nonpos. rewrite Eq. apply rnd_nonpos. assert (0 < IZR (ps f)) by (apply (IZR_lt 0); lia). assert (IZR (ps a) <= 0) by (apply (IZR_le _ 0); lia). unfold Rdiv. assert (0 < / IZR (ps f)) by now apply Rinv_0_lt_compat. nra. }
    assert (ps a / ps f < 0)%Z by (apply Z.div_lt_upper_bound; lia). lia.
Qed.
(** ** The end *)
Lemma grow V u : 0 <= V -> 0 <= u <= 1 -> 100 * V * ((1 + u) * (1 + u)) <= 100 * V + 300 * u * V.
Proof. intros H U. assert (0 <= V * u * (1 - u)) by (apply Rmult_le_pos; [apply Rmult_le_pos; lra|lra]). replace (100 * V * ((1 + u) * (1 + u))) with (100 * V + 300 * u * V - 100 * (V * u * (1 - u))) by ring. lra. Qed.
Lemma shrink V u : 0 <= V -> 0 <= u <= 1 -> 100 * V - 300 * u * V <= 100 * V * ((1 - u) * (1 - u)).
Proof. intros H U. assert (0 <= V * u * (1 + u)) by (apply Rmult_le_pos; [apply Rmult_le_pos; lra|lra]). replace (100 * V * ((1 - u) * (1 - u))) with (100 * V - 300 * u * V + 100 * (V * u * (1 + u))) by ring. lra. Qed.
Lemma step_two u p V : 600 * u * p <= 6 / 10 -> 1 <= V -> 300 * u * V * p < / 2 * V.
Proof. intros H P. replace (300 * u * V * p) with (/ 2 * (600 * u * p) * V) by field. apply Rmult_lt_compat_r; lra. Qed.
Lemma rint_spec q : rint q = ZnearestE (Q2R q).
Proof. unfold rint, Q2R. rewrite <- rne_nearest by lia. reflexivity. Qed.
Theorem last_index e f : (0 <= ps e < 2 ^ 53)%Z -> (1024 <= ps f < 2 ^ 53)%Z -> clear (ps e) (ps f) ->
  to_int (np_ceil (np_round2 (td_div e f))) = Ok (if (200 * (ps e mod ps f) <=? ps f)%Z then ps e / ps f else ps e / ps f + 1)%Z.
Proof.
  intros He Hf C. destruct (td_div_53 e f ltac:(lia) ltac:(lia)) as (x & Ex & Eq). rewrite Ex. cbn [np_round2 np_ceil map_num to_int]. rewrite trunc_int. f_equal.
  set (a := ps e) in *. set (b := ps f) in *. set (q := (a / b)%Z) in *. set (r := (a mod b)%Z) in *. pose proof (Z.div_mod a b ltac:(lia)) as Dm. pose proof (Z.mod_pos_bound a b ltac:(lia)) as Br. fold q r in Dm. fold r in Br.
  assert (Hq : (0 <= q)%Z) by (apply Z.div_pos; lia). assert (Hq2 : (q <= 2 ^ 43)%Z) by nia.
  set (y := fls (x * inject_Z 100)%Q). assert (Ey : Q2R y = rnd (100 * Q2R x)) by (unfold y; rewrite fls_rounds, Q2R_mult, Q2R_int, Rmult_comm; reflexivity).
  assert (Xl : IZR q <= Q2R x) by (rewrite Eq; apply (quot_at_least a b); lia). assert (Xu : Q2R x <= IZR (q + 1)) by (rewrite Eq; apply (quot_at_most a b); lia).
  assert (Yl : IZR (100 * q) <= Q2R y). { rewrite Ey, <- (rnd_int (100 * q)) by lia. apply rnd_le. rewrite mult_IZR. lra. }
  assert (Yu : Q2R y <= IZR (100 * (q + 1))). { rewrite Ey, <- (rnd_int (100 * (q + 1))) by lia. apply rnd_le. rewrite mult_IZR. lra. }
  assert (Pb : 0 < IZR b) by (apply (IZR_lt 0); lia). assert (Pa : 0 <= IZR a) by (apply (IZR_le 0); lia). pose proof u53_pos as Pu.
  set (X := IZR a / IZR b) in *. assert (HX : 0 <= X) by (unfold X, Rdiv; apply Rmult_le_pos; [exact Pa|left; now apply Rinv_0_lt_compat]). assert (HXb : X * IZR b = IZR a) by (unfold X; field; lra).
  pose proof (rnd_near X HX) as N1. rewrite <- Eq in N1. assert (Px : 0 <= Q2R x) by (apply Rle_trans with (IZR q); [apply (IZR_le 0); exact Hq|exact Xl]). pose proof (rnd_near (100 * Q2R x) ltac:(lra)) as N2. rewrite <- Ey in N2.
  assert (U1 : u53 <= / 1000000) by (unfold u53; apply Rinv_le_contravar; [lra|apply IZR_le; lia]). assert (U2 : 600 * u53 * IZR (2 ^ 43) <= 6 / 10).
  { unfold u53. replace (IZR (2 ^ 53)) with (IZR (2 ^ 43) * 1024) by (rewrite <- mult_IZR; f_equal). assert (0 < IZR (2 ^ 43)) by (apply (IZR_lt 0); lia). replace (600 * / (IZR (2 ^ 43) * 1024) * IZR (2 ^ 43)) with (600 / 1024) by (field; lra). lra. }
  set (z := fls (inject_Z (rint y) / inject_Z 100)%Q). assert (Ez : Q2R z = rnd (IZR (rint y) / 100)). { unfold z. rewrite fls_rounds, Q2R_div by (intros H; discriminate H). now rewrite !Q2R_int. }
  assert (Ri : rint y = ZnearestE (Q2R y)) by apply rint_spec.
  assert (P43 : 0 < IZR (2 ^ 43)) by (apply (IZR_lt 0); lia). assert (Dr : IZR a = IZR b * IZR q + IZR r) by (rewrite <- mult_IZR, <- plus_IZR; f_equal; exact Dm).
  assert (R0 : 0 <= IZR r) by (apply (IZR_le 0); lia).
  destruct (Z.leb_spec (200 * r) b) as [L|L].
  - assert (C1 : (2 ^ 43 * (200 * r) + a <= 2 ^ 43 * b)%Z) by (destruct C as [C|C]; [exact C|lia]).
    assert (Yb : Q2R y < IZR (100 * q) + / 2).
    { apply Rle_lt_trans with (100 * X * (1 + u53) * (1 + u53)); [apply Rle_trans with (1 := proj2 N2); nra|]. rewrite mult_IZR. destruct (Z.eq_dec a 0) as [Z0|Na].
      - assert (q = 0)%Z by (unfold q; rewrite Z0; apply Z.div_0_l; lia). unfold X. rewrite Z0, H. lra.
      - assert (1 <= IZR a) by (apply (IZR_le 1); lia). apply IZR_le in C1. rewrite plus_IZR, !mult_IZR in C1. apply Rmult_lt_reg_r with (IZR b); [exact Pb|]. replace (100 * X * (1 + u53) * (1 + u53) * IZR b) with (100 * IZR a * ((1 + u53) * (1 + u53))) by (rewrite <- HXb; ring). 
        assert (S1 : 100 * IZR a * ((1 + u53) * (1 + u53)) <= 100 * IZR a + 300 * u53 * IZR a) by (apply grow; lra).
        assert (S2 : 300 * u53 * IZR a * IZR (2 ^ 43) < / 2 * IZR a) by (apply step_two; lra).
        assert (S3 : 100 * IZR r + 300 * u53 * IZR a < / 2 * IZR b). { apply Rmult_lt_reg_r with (IZR (2 ^ 43)); [exact P43|]. nra. }
        nra. }
    assert (Rv : rint y = (100 * q)%Z) by (rewrite Ri; apply Znearest_imp; apply Rabs_lt; lra). rewrite Rv in Ez. rewrite (ceil_quot (100 * q) 100 ltac:(lia) ltac:(lia) z) by exact Ez. unfold ceil_div. replace (- (100 * q))%Z with (- q * 100)%Z by ring. rewrite Z.div_mul by lia. lia.
  - assert (C2 : (2 ^ 43 * b + a <= 2 ^ 43 * (200 * r))%Z) by (destruct C as [C|C]; [lia|exact C]).
    assert (Yb : IZR (100 * q) + / 2 < Q2R y).
    { apply Rlt_le_trans with (100 * X * (1 - u53) * (1 - u53)); [|apply Rle_trans with (2 := proj1 N2); nra]. rewrite mult_IZR. assert (1 <= IZR a) by (apply (IZR_le 1); nia). apply IZR_le in C2. rewrite plus_IZR, !mult_IZR in C2. apply Rmult_lt_reg_r with (IZR b); [exact Pb|]. replace (100 * X * (1 - u53) * (1 - u53) * IZR b) with (100 * IZR a * ((1 - u53) * (1 - u53))) by (rewrite <- HXb; ring).
      assert (S1 : 100 * IZR a - 300 * u53 * IZR a <= 100 * IZR a * ((1 - u53) * (1 - u53))) by (apply shrink; lra).
      assert (S2 : 300 * u53 * IZR a * IZR (2 ^ 43) < / 2 * IZR a) by (apply step_two; lra).
      assert (S3 : / 2 * IZR b < 100 * IZR r - 300 * u53 * IZR a). { apply Rmult_lt_reg_r with (IZR (2 ^ 43)); [exact P43|]. nra. }
      nra. }
    assert (Rl : (100 * q + 1 <= rint y)%Z).
    { rewrite Ri. destruct (Rle_lt_dec (IZR (100 * q + 1)) (Q2R y)) as [G|G].
      - rewrite <- (Zrnd_IZR ZnearestE (100 * q + 1)). now apply Zrnd_le; try typeclasses eauto.
      - rewrite (Znearest_imp _ _ (100 * q + 1)); [lia|]. rewrite plus_IZR in *. apply Rabs_lt. lra. }
    assert (Ru : (rint y <= 100 * (q + 1))%Z) by (rewrite Ri; rewrite <- (Zrnd_IZR ZnearestE (100 * (q + 1))); apply Zrnd_le; try typeclasses eauto; exact Yu).
    rewrite (ceil_quot (rint y) 100 ltac:(lia) ltac:(lia) z) by exact Ez. unfold ceil_div. assert (- rint y / 100 = - (q + 1))%Z; [|lia]. symmetry. apply Z.div_unique with (r := (- rint y + 100 * (q + 1))%Z); lia.
Qed.
