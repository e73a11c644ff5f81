(** Proofs about Fractions.v: FrequencyAdaptive.square with the numbers of the machine. *)
From Coq Require Import ZArith QArith Qround Qreals Reals Lra Lia Bool List.
From Flocq Require Import Core Relative.
From Verif Require Import PyBase PyFacts PyMore Time Freq FreqDim Spectral Resample Decompose Square Float64 Float64Proofs Time64 Time64Proofs Time64Proofs2 Time64Proofs3 Time64Proofs4 Time64Proofs5 Fractions FractionsProofs.
Import ListNotations.
Local Open Scope R_scope.

(** [f] and [d] are the frequency and duration of the time dimension *)
Definition usual_dimension (f d : td) : Prop := (0 < ps f <= ps d)%Z /\ (ps d < 2 ^ 52)%Z.
Lemma ratio_value f d : usual_dimension f d -> exists r, overlap_ratio64 f d = Num r /\ Q2R r = rnd (IZR (ps d - ps f) / IZR (ps d)) /\ (0 <= r)%Q.
Proof.
  intros [Hf Hd]. unfold overlap_ratio64. assert (E : ps (td_sub d f) = (ps d - ps f)%Z) by (apply sub_within; unfold within; lia).
  destruct (td_div_53 (td_sub d f) d) as (r & Er & Eq); [lia|lia|]. rewrite E in Eq. exists r. split; [exact Er|]. split; [exact Eq|].
  apply Rle_Qle. rewrite Q2R_0, Eq. apply rnd_nonneg. apply Rmult_le_pos; [apply (IZR_le 0); lia|]. left. apply Rinv_0_lt_compat, (IZR_lt 0). lia.
Qed.
Lemma same_ratio p q a b : (0 < q)%Z -> (0 < b)%Z -> (p * b = a * q)%Z -> IZR p / IZR q = IZR a / IZR b.
Proof.
  intros Hq Hb E. assert (0 < IZR q) by now apply (IZR_lt 0). assert (0 < IZR b) by now apply (IZR_lt 0). apply (f_equal IZR) in E. rewrite !mult_IZR in E.
  apply Rmult_eq_reg_r with (IZR q * IZR b); [|apply Rgt_not_eq; now apply Rmult_lt_0_compat]. replace (IZR p / IZR q * (IZR q * IZR b)) with (IZR p * IZR b) by (field; lra). replace (IZR a / IZR b * (IZR q * IZR b)) with (IZR a * IZR q) by (field; lra). exact E.
Qed.
Lemma same_div n p q a b : (0 < q)%Z -> (0 < b)%Z -> (p * b = a * q)%Z -> (n * p / q = n * a / b)%Z.
Proof. intros Hq Hb E. rewrite <- (Z.div_mul_cancel_r (n * p) q b), <- (Z.div_mul_cancel_r (n * a) b q) by lia. rewrite (Z.mul_comm q b). f_equal. rewrite <- !Z.mul_assoc. now rewrite E. Qed.
Lemma step_value n f d r : (Z.of_nat n <= 2 ^ 53)%Z -> overlap_ratio64 f d = Num r -> (0 <= r)%Q -> exists q, square_step64 n f d = Ok (Qfloor q) /\ Q2R q = rnd (IZR (Z.of_nat n) * Q2R r).
Proof.
  intros Hn E P. unfold square_step64. rewrite E. cbn [map_num to_int]. set (q := fls _). assert (Eq : Q2R q = rnd (IZR (Z.of_nat n) * Q2R r)) by (unfold q; rewrite fls_rounds, Q2R_mult, fls_rounds, Q2R_int, rnd_int by lia; reflexivity).
  exists q. split; [|exact Eq]. f_equal. apply trunc_floor. apply Rle_Qle. rewrite Q2R_0, Eq. apply rnd_nonneg. apply Rmult_le_pos; [apply (IZR_le 0); lia|]. apply Qle_Rle in P. now rewrite Q2R_0 in P.
Qed.
(** the hop is the exact one, or one row less; a/b is the part of the duration that overlaps *)
Theorem step_cases n f d a b : usual_dimension f d -> (0 <= a)%Z -> (0 < b)%Z -> ((ps d - ps f) * b = a * ps d)%Z -> (Z.of_nat n * a < 2 ^ 51)%Z -> (Z.of_nat n <= 2 ^ 53)%Z ->
  let e := (Z.of_nat n * (ps d - ps f) / ps d)%Z in
  square_step64 n f d = Ok e \/ (((Z.of_nat n * a) mod b = 0)%Z /\ square_step64 n f d = Ok (e - 1)%Z).
Proof.
  intros U Ha Hb Eab B N e. destruct (ratio_value f d U) as (r & Er & Eq & P). destruct (step_value n f d r N Er P) as (q & -> & Q). destruct U as [Hf Hd].
  unfold e. rewrite (same_div (Z.of_nat n) (ps d - ps f) (ps d) a b ltac:(lia) Hb Eab).
  destruct (floor_cases q a b (Z.of_nat n) ltac:(lia) Ha Hb B) as [F|[Z0 F]]; [|left; now rewrite F|right; split; [exact Z0|now rewrite F]].
  rewrite Q. apply product_near; [lia|exact Ha|exact Hb|exact B|]. rewrite Eq. f_equal. apply same_ratio; [lia|exact Hb|exact Eab].
Qed.
Lemma half_ratio f d r : (0 < ps f)%Z -> (ps d = 2 * ps f)%Z -> Q2R r = rnd (IZR (ps d - ps f) / IZR (ps d)) -> Q2R r = / 2.
Proof. intros Hf E Er. rewrite Er. rewrite (same_ratio (ps d - ps f) (ps d) 1 2) by lia. rewrite (half_exact 1) by lia. lra. Qed.
(** half-lapped: exactly half *)
Theorem step_half n f d : (0 < ps f)%Z -> (ps d = 2 * ps f)%Z -> (ps d < 2 ^ 52)%Z -> (Z.of_nat n < 2 ^ 53)%Z -> square_step64 n f d = Ok (Z.of_nat n / 2)%Z.
Proof.
  intros Hf E Hd N. assert (U : usual_dimension f d) by (unfold usual_dimension; lia). destruct (ratio_value f d U) as (r & Er & Eq & P). destruct (step_value n f d r ltac:(lia) Er P) as (q & -> & Q).
  rewrite (half_ratio f d r Hf E Eq) in Q. change (IZR (Z.of_nat n) * / 2) with (IZR (Z.of_nat n) / 2) in Q. f_equal. exact (floor_quot (Z.of_nat n) 2 ltac:(lia) ltac:(lia) q Q).
Qed.
(** 7 samples of 22 at 44.1 kHz: 22 coefficients overlap by 15, the machine says 14; one sample of 49: nothing instead of one *)
Theorem step_refuted : square_step64 22 (picoseconds (7 * 22675736)) (picoseconds (22 * 22675736)) = Ok 14%Z /\ (22 * (22 - 7) / 22 = 15)%Z /\
  square_step64 49 (picoseconds (48 * 22675736)) (picoseconds (49 * 22675736)) = Ok 0%Z /\ (49 * (49 - 48) / 49 = 1)%Z.
Proof. repeat split; vm_compute; reflexivity. Qed.

(** ** How long the result is *)
Lemma round_scale p q k : (0 < q)%Z -> (0 < k)%Z -> round_half_even (p * k) (q * k) = round_half_even p q.
Proof.
  intros Hq Hk. unfold round_half_even. rewrite Z.div_mul_cancel_r by lia. set (e := (p / q)%Z). replace (p * k - e * (q * k))%Z with ((p - e * q) * k)%Z by ring.
  destruct (Z.ltb_spec (2 * ((p - e * q) * k)) (q * k)), (Z.ltb_spec (2 * (p - e * q)) q); try nia. destruct (Z.ltb_spec (q * k) (2 * ((p - e * q) * k))), (Z.ltb_spec q (2 * (p - e * q))); try nia; reflexivity.
Qed.
Lemma length_value rows n f d r : (Z.of_nat n <= 2 ^ 53)%Z -> (Z.of_nat rows <= 2 ^ 53)%Z -> overlap_ratio64 f d = Num r ->
  exists q, square_length64 rows n f d = Ok (rint q) /\ Q2R q = rnd (rnd (IZR (Z.of_nat rows) * Q2R r) + rnd (IZR (Z.of_nat n) * Q2R r)).
Proof.
  intros Hn Hr E. unfold square_length64. rewrite E. cbn [map_num np_round0 to_int]. eexists. split; [rewrite trunc_int; reflexivity|].
  rewrite fls_rounds, Q2R_plus, !fls_rounds, !Q2R_mult, !fls_rounds, !Q2R_int, !rnd_int by lia. reflexivity.
Qed.
Theorem length_half rows n f d : (0 < ps f)%Z -> (ps d = 2 * ps f)%Z -> (ps d < 2 ^ 52)%Z -> (Z.of_nat rows + Z.of_nat n < 2 ^ 52)%Z ->
  square_length64 rows n f d = Ok (round_half_even (Z.of_nat rows * (ps d - ps f) + Z.of_nat n * (ps d - ps f)) (ps d)).
Proof.
  intros Hf E Hd N. assert (U : usual_dimension f d) by (unfold usual_dimension; lia). destruct (ratio_value f d U) as (r & Er & Eq & P). destruct (length_value rows n f d r ltac:(lia) ltac:(lia) Er) as (q & -> & Q).
  rewrite (half_ratio f d r Hf E Eq) in Q. change (IZR (Z.of_nat n) * / 2) with (IZR (Z.of_nat n) / 2) in Q. change (IZR (Z.of_nat rows) * / 2) with (IZR (Z.of_nat rows) / 2) in Q. rewrite !half_exact in Q by lia.
  replace (IZR (Z.of_nat rows) / 2 + IZR (Z.of_nat n) / 2) with (IZR (Z.of_nat rows + Z.of_nat n) / 2) in Q by (rewrite plus_IZR; field). f_equal.
  rewrite (rint_quot (Z.of_nat rows + Z.of_nat n) 2 q ltac:(lia) ltac:(lia) Q). replace (Z.of_nat rows * (ps d - ps f) + Z.of_nat n * (ps d - ps f))%Z with ((Z.of_nat rows + Z.of_nat n) * ps f)%Z by nia. rewrite E. now rewrite round_scale by lia.
Qed.
(** in general: exact unless the exact length is half way between two numbers *)
Lemma three_roundings x y v : 0 <= x -> 0 <= y -> 0 <= v -> let V := (x + y) * v in V - 3 * (V * u53) <= rnd (rnd (x * rnd v) + rnd (y * rnd v)) <= V + 7 * (V * u53).
Proof.
  intros Hx Hy Hv V. pose proof u53_pos as U. pose proof u53_le as U2. destruct (two_roundings x v Hx Hv) as [L1 H1]. destruct (two_roundings y v Hy Hv) as [L2 H2].
  set (p := rnd (x * rnd v)) in *. set (q := rnd (y * rnd v)) in *. assert (Lp : V * ((1 - u53) * (1 - u53)) <= p + q) by (unfold V; lra). assert (Hp : p + q <= V * ((1 + u53) * (1 + u53))) by (unfold V; lra).
  assert (PV : 0 <= V) by (unfold V; apply Rmult_le_pos; lra). assert (P : 0 <= p + q) by (apply Rle_trans with (2 := Lp); apply Rmult_le_pos; [exact PV|nra]). destruct (rnd_near _ P) as [L3 H3]. split.
  - apply Rle_trans with (2 := L3). apply Rle_trans with (V * ((1 - u53) * (1 - u53)) * (1 - u53)); [|apply Rmult_le_compat_r; lra]. assert ((1 - u53) * (1 - u53) * (1 - u53) >= 1 - 3 * u53) by nra. nra.
  - apply Rle_trans with (1 := H3). apply Rle_trans with (V * ((1 + u53) * (1 + u53)) * (1 + u53)); [apply Rmult_le_compat_r; lra|]. assert ((1 + u53) * (1 + u53) * (1 + u53) <= 1 + 7 * u53) by nra. nra.
Qed.
Theorem length_exact rows n f d a b : usual_dimension f d -> (0 <= a)%Z -> (0 < b)%Z -> ((ps d - ps f) * b = a * ps d)%Z ->
  ((Z.of_nat rows + Z.of_nat n) * a < 2 ^ 48)%Z -> (Z.of_nat rows + Z.of_nat n <= 2 ^ 53)%Z -> (2 * (((Z.of_nat rows + Z.of_nat n) * a) mod b) <> b)%Z ->
  square_length64 rows n f d = Ok (round_half_even (Z.of_nat rows * (ps d - ps f) + Z.of_nat n * (ps d - ps f)) (ps d)).
Proof.
  intros U Ha Hb Eab B N T. destruct (ratio_value f d U) as (r & Er & Eq & P). destruct (length_value rows n f d r ltac:(lia) ltac:(lia) Er) as (q & -> & Q). destruct U as [Hf Hd]. f_equal.
  assert (ER : IZR (ps d - ps f) / IZR (ps d) = IZR a / IZR b) by (apply same_ratio; [lia|exact Hb|exact Eab]). rewrite Eq, ER in Q. set (m := ((Z.of_nat rows + Z.of_nat n) * a)%Z) in *.
  assert (RH : round_half_even (Z.of_nat rows * (ps d - ps f) + Z.of_nat n * (ps d - ps f)) (ps d) = round_half_even m b).
  { rewrite <- (round_scale _ (ps d) b) by lia. rewrite <- (round_scale m b (ps d)) by lia. rewrite (Z.mul_comm b (ps d)). f_equal. unfold m. nia. }
  rewrite RH. assert (Pb : 0 < IZR b) by now apply (IZR_lt 0). assert (I : 0 < / IZR b) by now apply Rinv_0_lt_compat. assert (V0 : 0 <= IZR a / IZR b) by (apply Rmult_le_pos; [now apply (IZR_le 0)|lra]).
  pose proof (three_roundings (IZR (Z.of_nat rows)) (IZR (Z.of_nat n)) (IZR a / IZR b) ltac:(apply (IZR_le 0); lia) ltac:(apply (IZR_le 0); lia) V0) as W. cbv zeta in W. rewrite <- Q in W.
  replace ((IZR (Z.of_nat rows) + IZR (Z.of_nat n)) * (IZR a / IZR b)) with (IZR m / IZR b) in W by (unfold m; rewrite mult_IZR, plus_IZR; field; lra).
  assert (Hm : (0 <= m < 2 ^ 48)%Z) by (unfold m in *; nia). pose proof (tiny (8 * m) b ltac:(lia) Hb) as T8. rewrite mult_IZR in T8.
  assert (T7 : 24 * (IZR m / IZR b * u53) < / IZR b) by (replace (24 * (IZR m / IZR b * u53)) with (3 * (8 * IZR m / IZR b * u53)) by (field; lra); exact T8). clear T8.
  assert (M0 : 0 <= IZR m / IZR b * u53) by (apply Rmult_le_pos; [apply Rmult_le_pos; [apply (IZR_le 0); lia|lra]|pose proof u53_pos; lra]).
  pose proof (div_real m b Hb) as D. pose proof (Z.mod_pos_bound m b Hb) as R. rewrite rint_spec. unfold round_half_even. replace (m - m / b * b)%Z with (m mod b)%Z by (pose proof (Z_div_mod_eq_full m b); lia).
  set (k := (m mod b)%Z) in *. set (e := (m / b)%Z) in *. assert (F : IZR k / IZR b = IZR k * / IZR b) by reflexivity. rewrite F in D. assert (BI : IZR b * / IZR b = 1) by (field; lra). assert (K0 : 0 <= IZR k) by (apply (IZR_le 0); lia).
  destruct (Z.ltb_spec (2 * k) b) as [G|G].
  - apply Znearest_imp. assert (2 * IZR k + 1 <= IZR b) by (rewrite <- (mult_IZR 2), <- plus_IZR; apply IZR_le; lia). assert (IZR k * / IZR b * 2 + / IZR b <= 1) by (rewrite <- BI; nra). assert (0 <= IZR k * / IZR b) by (apply Rmult_le_pos; lra). apply Rabs_def1; lra.
  - destruct (Z.ltb_spec b (2 * k)) as [G'|G']; [|lia]. apply Znearest_imp. rewrite plus_IZR. assert (IZR b + 1 <= 2 * IZR k) by (rewrite <- (mult_IZR 2), <- plus_IZR; apply IZR_le; lia). assert (1 + / IZR b <= IZR k * / IZR b * 2) by (rewrite <- BI at 1; nra).
    assert (IZR k + 1 <= IZR b) by (rewrite <- plus_IZR; apply IZR_le; lia). assert (IZR k * / IZR b + / IZR b <= 1) by (rewrite <- BI; nra). apply Rabs_def1; lra.
Qed.

(** ** The whole of square *)
Theorem frequency_agrees n f d : usual_dimension f d -> (0 < n)%nat -> (Z.of_nat n <= 2 ^ 53)%Z -> square_frequency64 n d = Ok (round_half_even (ps d) (Z.of_nat n)).
Proof.
  intros [Hf Hd] Hn N. unfold square_frequency64. destruct (td_div_53 d (picoseconds 1)) as (q & E & Q); [lia|change (ps (picoseconds 1)) with 1%Z; lia|]. rewrite E. cbn [map_num np_round0 to_int]. rewrite trunc_int. f_equal.
  change (ps (picoseconds 1)) with 1%Z in Q. unfold Rdiv in Q. rewrite Rinv_1, Rmult_1_r, rnd_int in Q by lia. apply rint_quot; [lia|lia|].
  rewrite fls_rounds. f_equal. rewrite Q2R_div.
  - rewrite fls_rounds, Q2R_int, rnd_int, Q by lia. reflexivity.
  - intros Z0. apply Qeq_eqR in Z0. rewrite Q2R_0, fls_rounds, Q2R_int, rnd_int in Z0 by lia. apply eq_IZR in Z0. lia.
Qed.
Lemma zero_ratio f d r : usual_dimension f d -> Q2R r = rnd (IZR (ps d - ps f) / IZR (ps d)) -> Qeq_bool r 0 = (ps d - ps f =? 0)%Z.
Proof.
  intros [Hf Hd] E. assert (P : 0 < IZR (ps d)) by (apply (IZR_lt 0); lia). destruct (Z.eqb_spec (ps d - ps f) 0) as [Z0|NZ].
  - apply Qeq_bool_iff. apply eqR_Qeq. rewrite E, Z0, Q2R_0. unfold Rdiv. rewrite Rmult_0_l. apply (rnd_int 0). lia.
  - destruct (Qeq_bool r 0) eqn:B; [|reflexivity]. apply Qeq_bool_iff, Qeq_eqR in B. rewrite Q2R_0 in B. exfalso. rewrite B in E.
    assert (V : 0 < IZR (ps d - ps f) / IZR (ps d)) by (apply Rdiv_lt_0_compat; [apply (IZR_lt 0); lia|exact P]). pose proof (rnd_near _ (Rlt_le _ _ V)) as [L _]. pose proof u53_le. pose proof u53_pos. rewrite <- E in L.
    assert (0 < IZR (ps d - ps f) / IZR (ps d) * (1 - u53)) by (apply Rmult_lt_0_compat; lra). lra.
Qed.
Lemma groups_length {A} n (l : list A) : (0 < n)%nat -> (length l < (length (groups n l) + 1) * n)%nat.
Proof. intros H. unfold groups. rewrite map_length, seq_length. pose proof (Nat.div_mod (length l) n ltac:(lia)). pose proof (Nat.mod_upper_bound (length l) n ltac:(lia)). nia. Qed.
Theorem square_agrees f d fa n overlap_add c frames : usual_dimension f d -> (0 < n)%nat -> (ps d = ps f \/ ps d = 2 * ps f)%Z ->
  square (ps f) (ps d) fa n false = Ok (Framed c frames) -> (Z.of_nat ((length frames + 2) * n) < 2 ^ 52)%Z ->
  square64 f d fa n overlap_add = square (ps f) (ps d) fa n overlap_add.
Proof.
  intros U Hn Lap E B. unfold square, square64 in *. destruct (iter_bands fa) as [bands|]; [|discriminate]. cbn [bind] in *. destruct (mapM _ bands) as [resampled|]; [|discriminate]. cbn [bind] in *.
  destruct (vstack_T resampled) as [stacked|]; [|discriminate]. cbn [bind negb] in *. assert (Ef : frames = groups n stacked) by congruence. clear E. subst frames. pose proof (groups_length n stacked Hn) as G.
  assert (N : (Z.of_nat (length stacked) + Z.of_nat n < 2 ^ 52)%Z) by nia. rewrite (frequency_agrees n f d U Hn) by lia. cbn [bind].
  destruct overlap_add; cbn [negb]; [|reflexivity]. destruct (ratio_value f d U) as (r & Er & Eq & P). rewrite Er. rewrite (zero_ratio f d r U Eq). destruct (Z.eqb_spec (ps d - ps f) 0) as [Z0|NZ]; [reflexivity|].
  destruct U as [Hf Hd]. assert (H2 : (ps d = 2 * ps f)%Z) by lia. rewrite step_half by lia. rewrite length_half by lia. cbn [bind]. do 2 f_equal. rewrite H2.
  replace (Z.of_nat n * (2 * ps f - ps f) / (2 * ps f))%Z with (Z.of_nat n / 2)%Z; [reflexivity|]. rewrite <- (Z.div_mul_cancel_r (Z.of_nat n) 2 (ps f)) by lia. f_equal. ring.
Qed.
Theorem square_fails f d fa n overlap_add e : usual_dimension f d -> (0 < n)%nat -> square (ps f) (ps d) fa n false = Raise e -> square64 f d fa n overlap_add = Raise e.
Proof.
  intros U Hn E. unfold square, square64 in *. destruct (iter_bands fa) as [bands|]; [|exact E]. cbn [bind] in *. destruct (mapM _ bands) as [resampled|]; [|exact E]. cbn [bind] in *.
  destruct (vstack_T resampled) as [stacked|]; [|exact E]. cbn [bind negb] in *. discriminate.
Qed.
Example square_meets : usual_dimension (picoseconds (512 * 22675736)) (picoseconds (1024 * 22675736)) /\ square_step64 22 (picoseconds (512 * 22675736)) (picoseconds (1024 * 22675736)) = Ok 11%Z /\
  square_length64 44 22 (picoseconds (7 * 22675736)) (picoseconds (22 * 22675736)) = Ok 45%Z.
Proof. split; [split; [split; vm_compute; [reflexivity|discriminate]|vm_compute; reflexivity]|]. split; vm_compute; reflexivity. Qed.
