(** The sizes of synthesized sounds, and the ticks (C80). *)
From Verif Require Import PyBase PyFacts PyMore Time Float64 Float64Proofs Spectral OverlapProofs TransformProofs ReconProofs SynthProofs Synths.
From Coq Require Import ZArith QArith Qround Qreals Reals Lra Lia.
From Flocq Require Import Core.
Local Open Scope R_scope.

(** ** rational and real numbers *)
Definition ulp : R := / 9007199254740992.
Lemma fl_err x : (0 <= x)%Q -> Q2R x * (1 - ulp) <= Q2R (fl x) <= Q2R x * (1 + ulp).
Proof.
  intros H. pose proof (fl_error x H) as E. replace (/ 2 * bpow radix2 (-53 + 1)) with ulp in E by (unfold ulp; cbn [bpow Z.add Z.opp Z.pos_sub Z.pow_pos Pos.iter]; change (-53 + 1)%Z with (-52)%Z; cbn; lra).
  apply Rabs_le_inv in E. lra.
Qed.
Lemma Q2R_Z z : Q2R (inject_Z z) = IZR z. Proof. unfold Q2R, inject_Z. cbn [Qnum Qden]. lra. Qed.
Lemma Q2R_0 : Q2R 0 = 0. Proof. unfold Q2R. cbn. lra. Qed.
Lemma Q2R_quot a b : (0 < b)%Z -> Q2R (inject_Z a / inject_Z b) = IZR a / IZR b.
Proof. intros H. rewrite Q2R_div, !Q2R_Z; [reflexivity|]. intros E. unfold Qeq in E. cbn in E. lia. Qed.
Lemma quot_nonneg a b : (0 <= a)%Z -> (0 < b)%Z -> (0 <= inject_Z a / inject_Z b)%Q.
Proof. intros Ha Hb. apply Rle_Qle. rewrite Q2R_quot, Q2R_0 by exact Hb. apply (IZR_le 0) in Ha. apply (IZR_lt 0) in Hb. unfold Rdiv. apply Rmult_le_pos; [exact Ha|]. left. now apply Rinv_0_lt_compat. Qed.
Lemma floor_spec x : IZR (Qfloor x) <= Q2R x < IZR (Qfloor x) + 1.
Proof. split; [rewrite <- Q2R_Z; apply Qle_Rle, Qfloor_le|]. rewrite <- plus_IZR, <- Q2R_Z. apply Qlt_Rlt. apply Qlt_floor. Qed.
Lemma floor_unique x z : IZR z <= Q2R x < IZR z + 1 -> Qfloor x = z.
Proof.
  intros [L U]. pose proof (floor_spec x) as [L' U']. assert (IZR z < IZR (Qfloor x + 1)) by (rewrite plus_IZR; lra). assert (IZR (Qfloor x) < IZR (z + 1)) by (rewrite plus_IZR; lra).
  apply lt_IZR in H. apply lt_IZR in H0. lia.
Qed.
Lemma div_spec a b : (0 < b)%Z -> IZR (a / b) <= IZR a / IZR b < IZR (a / b) + 1.
Proof.
  intros H. assert (Pb : 0 < IZR b) by now apply (IZR_lt 0). pose proof (Z.div_mod a b ltac:(lia)) as E. pose proof (Z.mod_pos_bound a b H) as [B0 B1].
  assert (Ea : IZR a = IZR b * IZR (a / b) + IZR (a mod b)) by (rewrite <- mult_IZR, <- plus_IZR; now rewrite <- E). apply (IZR_le 0) in B0. apply IZR_lt in B1.
  replace (IZR a / IZR b) with (IZR (a / b) + IZR (a mod b) / IZR b) by (rewrite Ea; field; lra).
  assert (0 <= IZR (a mod b) / IZR b) by (unfold Rdiv; apply Rmult_le_pos; [exact B0|left; now apply Rinv_0_lt_compat]).
  assert (IZR (a mod b) / IZR b < 1) by (apply Rmult_lt_reg_r with (IZR b); [exact Pb|]; replace (IZR (a mod b) / IZR b * IZR b) with (IZR (a mod b)) by (field; lra); lra). lra.
Qed.

(** ** quotients of durations *)
Theorem float_div_exact d f : (0 <= d < 2 ^ 53)%Z -> (0 < f)%Z -> float_div d f = trunc_div d f.
Proof.
  intros Hd Hf. unfold float_div, trunc_div. rewrite Z.quot_div_nonneg by lia. assert (Pf : 0 < IZR f) by now apply (IZR_lt 0).
  pose proof (quot_nonneg d f ltac:(lia) Hf) as P. pose proof (div_spec d f Hf) as [L U]. apply floor_unique. split.
  - rewrite <- Q2R_Z. apply Qle_Rle, fl_above; [|apply Rle_Qle; rewrite Q2R_Z, Q2R_quot by exact Hf; exact L].
    split; [apply Z.div_pos; lia|]. apply Z.le_trans with d; [|lia]. apply Z.div_le_upper_bound; nia.
  - destruct (fl_err _ P) as [_ E]. rewrite Q2R_quot in E by exact Hf.
    (* the distance to the next integer is at least 1/f *)
    assert (M : (d + 1 <= f * (d / f + 1))%Z). { pose proof (Z.div_mod d f ltac:(lia)). pose proof (Z.mod_pos_bound d f Hf). lia. }
    apply IZR_le in M. rewrite mult_IZR, !plus_IZR in M.
    assert (B : IZR d * ulp < 1). { unfold ulp. assert (IZR d < IZR (2 ^ 53)) by (apply IZR_lt; lia). change (2 ^ 53)%Z with 9007199254740992%Z in H. lra. }
    apply Rle_lt_trans with (1 := E). apply Rmult_lt_reg_r with (IZR f); [exact Pf|]. replace (IZR d / IZR f * (1 + ulp) * IZR f) with (IZR d * (1 + ulp)) by (field; lra). lra.
Qed.

(** ** the number of samples *)
Lemma ulp_small : 0 < ulp < 1 / 1000000. Proof. unfold ulp. lra. Qed.
Lemma seconds_nonneg d : (0 <= d)%Z -> (0 <= seconds d)%Q.
Proof. intros H. apply fl_nonneg, quot_nonneg; [exact H|reflexivity]. Qed.
Lemma seconds_err d : (0 <= d)%Z -> IZR d / 10 ^ 12 * (1 - ulp) <= Q2R (seconds d) <= IZR d / 10 ^ 12 * (1 + ulp).
Proof. intros H. pose proof (fl_err _ (quot_nonneg d (10 ^ 12) H ltac:(reflexivity))) as E. rewrite Q2R_quot in E by reflexivity. replace (IZR (10 ^ 12)) with (10 ^ 12) in E by (cbn; lra). exact E. Qed.
Lemma product_nonneg sr d : (0 <= sr)%Z -> (0 <= d)%Z -> (0 <= inject_Z sr * seconds d)%Q.
Proof. intros Hs Hd. apply Qmult_le_0_compat; [unfold Qle; cbn; lia|now apply seconds_nonneg]. Qed.
Lemma product_err sr d : (0 <= sr)%Z -> (0 <= d)%Z -> let x := IZR sr * IZR d / 10 ^ 12 in
  x * (1 - 2 * ulp) <= Q2R (fl (inject_Z sr * seconds d)) <= x * (1 + 3 * ulp).
Proof.
  intros Hs Hd x. pose proof (seconds_err d Hd) as [E1 E2]. pose proof (fl_err _ (product_nonneg sr d Hs Hd)) as [F1 F2]. rewrite Q2R_mult, Q2R_Z in F1, F2. pose proof ulp_small as U.
  assert (Ps : 0 <= IZR sr) by now apply (IZR_le 0). assert (Px : 0 <= x) by (unfold x; apply (IZR_le 0) in Hd; unfold Rdiv; repeat apply Rmult_le_pos; lra).
  assert (A1 : x * (1 - ulp) <= IZR sr * Q2R (seconds d)) by (unfold x; apply (Rmult_le_compat_l (IZR sr)) in E1; [lra|exact Ps]).
  assert (A2 : IZR sr * Q2R (seconds d) <= x * (1 + ulp)) by (unfold x; apply (Rmult_le_compat_l (IZR sr)) in E2; [lra|exact Ps]).
  set (p := IZR sr * Q2R (seconds d)) in *. clearbody p. clear E1 E2. clearbody x. split; nra.
Qed.
Theorem n_samples_near sr d : (0 <= sr)%Z -> (0 <= d)%Z -> (sr * d < 2 ^ 50 * 10 ^ 12)%Z -> (sr * d / 10 ^ 12 - 1 <= n_samples sr d <= sr * d / 10 ^ 12 + 1)%Z.
Proof.
  intros Hs Hd B. unfold n_samples. pose proof (product_err sr d Hs Hd) as [E1 E2]. cbv zeta in E1, E2. pose proof (floor_spec (fl (inject_Z sr * seconds d))) as [L U].
  pose proof (div_spec (sr * d) (10 ^ 12) ltac:(reflexivity)) as [L' U']. rewrite mult_IZR in L', U'. replace (IZR (10 ^ 12)) with (10 ^ 12) in L', U' by (cbn; lra).
  set (x := IZR sr * IZR d / 10 ^ 12) in *. assert (Px : 0 <= x) by (unfold x; apply (IZR_le 0) in Hs; apply (IZR_le 0) in Hd; unfold Rdiv; repeat apply Rmult_le_pos; lra).
  assert (Bx : x * ulp < 1 / 8). { apply IZR_lt in B. rewrite !mult_IZR in B. change (IZR (2 ^ 50)) with 1125899906842624 in B. replace (IZR (10 ^ 12)) with (10 ^ 12) in B by (cbn; lra). unfold x, ulp. apply Rmult_lt_reg_r with (10 ^ 12); [lra|]. replace (IZR sr * IZR d / 10 ^ 12 * / 9007199254740992 * 10 ^ 12) with (IZR sr * IZR d * / 9007199254740992) by (field; lra). lra. }
  set (n := Qfloor _) in *. clearbody n x. clear B.
  assert (A : IZR n < IZR (sr * d / 10 ^ 12 + 2)) by (rewrite plus_IZR; lra). assert (C : IZR (sr * d / 10 ^ 12 - 2) < IZR n) by (rewrite minus_IZR; lra). apply lt_IZR in A, C. lia.
Qed.
(** a dyadic number of seconds is exact *)
Theorem n_samples_exact sr d i j : (0 <= sr)%Z -> (0 <= i)%Z -> (0 <= j <= 2 ^ 53)%Z -> (d * 2 ^ i = j * 10 ^ 12)%Z -> (sr * j <= 2 ^ 53)%Z -> n_samples sr d = (sr * j / 2 ^ i)%Z.
Proof.
  intros Hs Hi Hj E B. assert (P2 : (0 < 2 ^ i)%Z) by (apply Z.pow_pos_nonneg; lia). assert (R2 : 0 < IZR (2 ^ i)) by now apply (IZR_lt 0).
  assert (Eb : IZR (2 ^ i) * bpow radix2 (- i) = 1) by (rewrite pow_bpow' by exact Hi; rewrite <- bpow_plus, Z.add_opp_diag_r; reflexivity).
  assert (Ed : IZR d / IZR (10 ^ 12) = IZR j * bpow radix2 (- i)). { apply (f_equal IZR) in E. rewrite !mult_IZR in E. apply Rmult_eq_reg_r with (IZR (2 ^ i)); [|lra]. rewrite Rmult_assoc, (Rmult_comm (bpow _ _)), Eb. apply Rmult_eq_reg_r with (IZR (10 ^ 12)); [|apply not_0_IZR; discriminate]. replace (IZR d / IZR (10 ^ 12) * IZR (2 ^ i) * IZR (10 ^ 12)) with (IZR d * IZR (2 ^ i)) by (field; apply not_0_IZR; discriminate). lra. }
  assert (Es : (seconds d == inject_Z d / inject_Z (10 ^ 12))%Q) by (unfold seconds; apply (fl_exact j (- i) Hj); rewrite Q2R_quot by reflexivity; exact Ed).
  unfold n_samples. apply floor_unique.
  assert (Ef : Q2R (fl (inject_Z sr * seconds d)) = IZR (sr * j) * bpow radix2 (- i)).
  { assert (Ep : Q2R (inject_Z sr * seconds d) = IZR (sr * j) * bpow radix2 (- i)) by (rewrite Q2R_mult, Q2R_Z, (Qeq_eqR _ _ Es), Q2R_quot, Ed, mult_IZR by reflexivity; ring).
    rewrite <- Ep. apply Qeq_eqR. apply (fl_exact (sr * j) (- i)); [nia|exact Ep]. }
  rewrite Ef. replace (IZR (sr * j) * bpow radix2 (- i)) with (IZR (sr * j) / IZR (2 ^ i)); [now apply div_spec|]. unfold Rdiv. f_equal. rewrite pow_bpow' by exact Hi. now rewrite bpow_opp.
Qed.
Corollary n_samples_whole_seconds sr k : (0 <= sr)%Z -> (0 <= k <= 2 ^ 53)%Z -> (sr * k <= 2 ^ 53)%Z -> n_samples sr (k * 10 ^ 12) = (sr * k)%Z.
Proof. intros Hs Hk B. rewrite (n_samples_exact sr (k * 10 ^ 12) 0 k); try lia. change (2 ^ 0)%Z with 1%Z. now rewrite Z.div_1_r. Qed.
(** 350 milliseconds at 44100 samples per second are 15435 samples *)
Theorem n_samples_short : (44100 * (350 * 10 ^ 9) = 15435 * 10 ^ 12)%Z /\ n_samples 44100 (350 * 10 ^ 9) = 15434%Z.
Proof. split; vm_compute; reflexivity. Qed.

(** ** noise *)
Theorem noise_spec uniform sr d : (forall i, -1 <= uniform i < 1) -> length (noise_synthesize uniform sr d) = Z.to_nat (n_samples sr d) /\ Forall (fun v => -1 <= v < 1) (noise_synthesize uniform sr d).
Proof. intros H. unfold noise_synthesize. split; [now rewrite map_length, seq_length|]. apply Forall_forall. intros v Hv. apply in_map_iff in Hv as (i & <- & _). apply H. Qed.

(** ** ticks *)
Theorem tick_size_tenth sr : (0 <= sr < 2 ^ 40)%Z -> tick_size sr = (sr / 10)%Z.
Proof.
  intros H. unfold tick_size. assert (T : fl (1 # 10) = 7205759403792794 # 72057594037927936) by (vm_compute; reflexivity). rewrite T. set (a := 7205759403792794 # 72057594037927936).
  assert (Pa : (0 <= inject_Z sr * a)%Q) by (apply Qmult_le_0_compat; [unfold Qle; cbn; lia|unfold Qle; cbn; lia]).
  assert (Ea : Q2R (inject_Z sr * a) = IZR sr * (7205759403792794 / 72057594037927936)) by (rewrite Q2R_mult, Q2R_Z; reflexivity).
  assert (Ps : 0 <= IZR sr) by (apply (IZR_le 0); lia). assert (Bs : IZR sr < 1099511627776) by (change 1099511627776 with (IZR (2 ^ 40)); apply IZR_lt; lia).
  pose proof (div_spec sr 10 ltac:(reflexivity)) as [L U]. apply floor_unique. split.
  - rewrite <- Q2R_Z. apply Qle_Rle, fl_above; [split; [apply Z.div_pos; lia|apply Z.div_le_upper_bound; lia]|]. apply Rle_Qle. rewrite Q2R_Z, Ea. lra.
  - destruct (fl_err _ Pa) as [_ E]. rewrite Ea in E. assert (M : (sr + 1 <= 10 * (sr / 10 + 1))%Z) by (pose proof (Z.div_mod sr 10 ltac:(lia)); pose proof (Z.mod_pos_bound sr 10 ltac:(lia)); lia). apply IZR_le in M. rewrite mult_IZR, !plus_IZR in M. unfold ulp in E. lra.
Qed.
Lemma tps_pos tf : (0 < tf)%Z -> 0 < 10 ^ 12 / IZR tf /\ 10 ^ 12 / IZR tf * (1 - ulp) <= Q2R (fl (inject_Z (10 ^ 12) / inject_Z tf)) <= 10 ^ 12 / IZR tf * (1 + ulp).
Proof.
  intros H. assert (P : 0 < IZR tf) by now apply (IZR_lt 0). split; [apply Rdiv_lt_0_compat; lra|]. pose proof (fl_err _ (quot_nonneg (10 ^ 12) tf ltac:(lia) H)) as E. rewrite Q2R_quot in E by exact H. replace (IZR (10 ^ 12)) with (10 ^ 12) in E by (cbn; lra). exact E.
Qed.
Lemma step_real sr tf : (0 < tf)%Z -> let v := fl (inject_Z (10 ^ 12) / inject_Z tf) in 0 < Q2R v /\ Q2R (inject_Z sr / v) = IZR sr / Q2R v.
Proof.
  intros H v. destruct (tps_pos tf H) as [P [E _]]. fold v in E. pose proof ulp_small. assert (Pv : 0 < Q2R v) by (eapply Rlt_le_trans; [|exact E]; nra). split; [exact Pv|].
  rewrite Q2R_div, Q2R_Z; [reflexivity|]. intros Ev. apply Qeq_eqR in Ev. rewrite Q2R_0 in Ev. lra.
Qed.
Theorem tick_step_near sr tf : (0 <= sr)%Z -> (0 < tf)%Z -> (sr * tf < 2 ^ 50 * 10 ^ 12)%Z -> (sr * tf / 10 ^ 12 - 1 <= tick_step sr tf <= sr * tf / 10 ^ 12 + 1)%Z.
Proof.
  intros Hs Ht B. unfold tick_step. destruct (tps_pos tf Ht) as [Pt [E1 E2]]. destruct (step_real sr tf Ht) as [Pv Er]. set (v := fl (inject_Z (10 ^ 12) / inject_Z tf)) in *.
  pose proof (floor_spec (inject_Z sr / v)) as [L U]. rewrite Er in L, U. pose proof (div_spec (sr * tf) (10 ^ 12) ltac:(reflexivity)) as [L' U']. rewrite mult_IZR in L', U'. replace (IZR (10 ^ 12)) with (10 ^ 12) in L', U' by (cbn; lra).
  assert (Ptf : 0 < IZR tf) by now apply (IZR_lt 0). assert (Ps : 0 <= IZR sr) by now apply (IZR_le 0). pose proof ulp_small as Us.
  set (x := IZR sr * IZR tf / 10 ^ 12) in *. assert (Px : 0 <= x) by (unfold x, Rdiv; repeat apply Rmult_le_pos; lra).
  assert (Bx : x * ulp < 1 / 8). { apply IZR_lt in B. rewrite !mult_IZR in B. change (IZR (2 ^ 50)) with 1125899906842624 in B. replace (IZR (10 ^ 12)) with (10 ^ 12) in B by (cbn; lra). unfold x, ulp. apply Rmult_lt_reg_r with (10 ^ 12); [lra|]. replace (IZR sr * IZR tf / 10 ^ 12 * / 9007199254740992 * 10 ^ 12) with (IZR sr * IZR tf * / 9007199254740992) by (field; lra). lra. }
  set (y := IZR sr / Q2R v) in *. assert (Ey : y * Q2R v = x * (10 ^ 12 / IZR tf)) by (unfold y, x; field; split; lra).
  assert (Py : 0 <= y) by (unfold y, Rdiv; apply Rmult_le_pos; [exact Ps|left; now apply Rinv_0_lt_compat]).
  assert (Y1 : y * (1 - ulp) <= x). { apply Rmult_le_reg_r with (10 ^ 12 / IZR tf); [exact Pt|]. rewrite <- Ey. rewrite Rmult_assoc. apply Rmult_le_compat_l; [exact Py|]. lra. }
  assert (Y2 : x <= y * (1 + ulp)). { apply Rmult_le_reg_r with (10 ^ 12 / IZR tf); [exact Pt|]. rewrite <- Ey. rewrite (Rmult_assoc y). apply Rmult_le_compat_l; [exact Py|]. lra. }
  assert (Yb : y <= 2 * x) by nra. assert (Yu : y * ulp < 1 / 4) by nra.
  set (n := Qfloor _) in *. clearbody n x y. assert (A : IZR n < IZR (sr * tf / 10 ^ 12 + 2)) by (rewrite plus_IZR; lra). assert (C : IZR (sr * tf / 10 ^ 12 - 2) < IZR n) by (rewrite minus_IZR; lra). apply lt_IZR in A, C. lia.
Qed.
Theorem tick_step_exact sr tf k : (0 < k <= 2 ^ 53)%Z -> (k * tf = 10 ^ 12)%Z -> tick_step sr tf = (sr / k)%Z /\ (sr / k = sr * tf / 10 ^ 12)%Z.
Proof.
  intros Hk E. assert (Ht : (0 < tf)%Z) by nia. split.
  - unfold tick_step. destruct (step_real sr tf Ht) as [Pv Er]. set (v := fl (inject_Z (10 ^ 12) / inject_Z tf)) in *. apply floor_unique. rewrite Er.
    assert (Ev : Q2R v = IZR k). { rewrite <- Q2R_Z. apply Qeq_eqR. unfold v. rewrite <- (fl_int k) by lia. apply fl_same; [apply quot_nonneg; lia|]. apply eqR_Qeq. rewrite Q2R_quot, Q2R_Z by exact Ht. apply (f_equal IZR) in E. rewrite mult_IZR in E. rewrite <- E. field. apply not_0_IZR. lia. }
    rewrite Ev. apply div_spec. lia.
  - rewrite <- E. rewrite Z.div_mul_cancel_r; lia.
Qed.
(** ticks 30 milliseconds apart are 1323 samples apart at 44100 samples per second *)
Theorem tick_step_short : (44100 * (30 * 10 ^ 9) = 1323 * 10 ^ 12)%Z /\ tick_step 44100 (30 * 10 ^ 9) = 1322%Z.
Proof. split; vm_compute; reflexivity. Qed.
Theorem ticks_too_fast uniform sr d tf : (0 <= sr)%Z -> (0 < tf)%Z -> (2 * (sr * tf) <= 10 ^ 12)%Z -> tick_synthesize uniform sr d tf = Raise ValueError.
Proof.
  intros Hs Ht B. assert (Z0 : tick_step sr tf = 0%Z).
  { unfold tick_step. destruct (tps_pos tf Ht) as [Pt [E1 E2]]. destruct (step_real sr tf Ht) as [Pv Er]. set (v := fl (inject_Z (10 ^ 12) / inject_Z tf)) in *. apply floor_unique. rewrite Er. assert (Ps : 0 <= IZR sr) by now apply (IZR_le 0). assert (Ptf : 0 < IZR tf) by now apply (IZR_lt 0). pose proof ulp_small as Us.
    split; [unfold Rdiv; apply Rmult_le_pos; [exact Ps|left; now apply Rinv_0_lt_compat]|]. apply Rmult_lt_reg_r with (Q2R v); [exact Pv|]. replace (IZR sr / Q2R v * Q2R v) with (IZR sr) by (field; lra).
    apply IZR_le in B. rewrite !mult_IZR in B. replace (IZR (10 ^ 12)) with (10 ^ 12) in B by (cbn; lra). assert (D : 2 * IZR sr <= 10 ^ 12 / IZR tf) by (apply Rmult_le_reg_r with (IZR tf); [exact Ptf|]; replace (10 ^ 12 / IZR tf * IZR tf) with (10 ^ 12) by (field; lra); lra).
    assert (10 ^ 12 / IZR tf * (1 - ulp) > IZR sr) by nra. lra. }
  unfold tick_synthesize. rewrite Z0. reflexivity.
Qed.

(** what a tick adds up to *)
Definition ticks_at (t : list R) (starts : list nat) (j : nat) : R :=
  fold_right Rplus 0 (map (fun i => if (Nat.leb i j && Nat.ltb j (i + length t))%bool then at_ t (j - i) else 0) starts).
Lemma fold_ticks t starts : forall samples, length (fold_left (add_tick t) starts samples) = length samples /\
  forall j, (j < length samples)%nat -> at_ (fold_left (add_tick t) starts samples) j = at_ samples j + ticks_at t starts j.
Proof.
  unfold ticks_at. induction starts as [|i starts IH]; intros samples; cbn [fold_left map fold_right]; [split; [reflexivity|intros; ring]|].
  assert (L : length (add_tick t samples i) = length samples) by (unfold add_tick; now rewrite map_length, seq_length). destruct (IH (add_tick t samples i)) as [L' K]. rewrite L in L', K. split; [exact L'|]. intros j Hj. rewrite (K j Hj). unfold add_tick at 1. rewrite at_map_seq by exact Hj. ring.
Qed.
Lemma at_repeat0 n j : at_ (repeat 0 n) j = 0.
Proof. unfold at_. destruct (Nat.lt_ge_cases j n); [now rewrite nth_repeat|]. apply nth_overflow. rewrite repeat_length. lia. Qed.
Theorem ticks_content uniform sr d tf step : tick_step sr tf = Z.of_nat step -> (0 < step)%nat ->
  exists out, tick_synthesize uniform sr d tf = Ok out /\ length out = Z.to_nat (n_samples sr d) /\
    forall j, (j < length out)%nat -> at_ out j = ticks_at (tick uniform sr) (range_to (length out) step) j.
Proof.
  intros Es Hs. unfold tick_synthesize. rewrite Es, Nat2Z.id. destruct (Nat.eqb_spec step 0) as [Z0|_]; [lia|]. set (n := Z.to_nat (n_samples sr d)). rewrite repeat_length.
  destruct (fold_ticks (tick uniform sr) (range_to n step) (repeat 0 n)) as [L K]. rewrite repeat_length in L, K. eexists. split; [reflexivity|]. split; [exact L|]. intros j Hj. rewrite L in Hj |- *. rewrite (K j Hj), at_repeat0. ring.
Qed.

(** ticks that do not overlap *)
Lemma ticks_apart t n step j : (0 < step)%nat -> (length t <= step)%nat -> (j < n)%nat -> ticks_at t (range_to n step) j = at_ t (j mod step).
Proof.
  intros Hs Hl Hj. unfold ticks_at, range_to. rewrite map_map. pose proof (Nat.div_mod j step ltac:(lia)) as E. pose proof (Nat.mod_upper_bound j step ltac:(lia)) as M.
  assert (G : forall m, fold_right Rplus 0 (map (fun i => if (Nat.leb (i * step) j && Nat.ltb j (i * step + length t))%bool then at_ t (j - i * step) else 0) (seq 0 m)) = if Nat.ltb (j / step) m then at_ t (j mod step) else 0).
  { intros m. assert (G : forall a, fold_right Rplus 0 (map (fun i => if (Nat.leb (i * step) j && Nat.ltb j (i * step + length t))%bool then at_ t (j - i * step) else 0) (seq a m)) = if (Nat.leb a (j / step) && Nat.ltb (j / step) (a + m))%bool then at_ t (j mod step) else 0).
    { induction m as [|m IH]; intros a; cbn [seq map fold_right]; [destruct (Nat.leb_spec a (j / step)), (Nat.ltb_spec (j / step) (a + 0)); cbn [andb]; lia || reflexivity|]. rewrite IH.
      destruct (Nat.eq_dec a (j / step)) as [->|N].
      - replace (S (j / step) <=? j / step)%nat with false by (symmetry; apply Nat.leb_gt; lia). cbn [andb]. replace (j / step <=? j / step)%nat with true by (symmetry; apply Nat.leb_le; lia). replace (j / step <? j / step + S m)%nat with true by (symmetry; apply Nat.ltb_lt; lia). cbn [andb].
        replace (j / step * step <=? j)%nat with true by (symmetry; apply Nat.leb_le; nia). cbn [andb]. replace (j - j / step * step)%nat with (j mod step) by nia. destruct (Nat.ltb_spec j (j / step * step + length t)); [ring|]. unfold at_. rewrite nth_overflow by nia. ring.
      - replace ((a * step <=? j)%nat && (j <? a * step + length t)%nat)%bool with false. 2: { symmetry. apply andb_false_iff. destruct (Nat.lt_ge_cases a (j / step)); [right; apply Nat.ltb_ge; nia|left; apply Nat.leb_gt; nia]. }
        rewrite Rplus_0_l. destruct (Nat.leb_spec a (j / step)), (Nat.leb_spec (S a) (j / step)); try lia; cbn [andb]; [|reflexivity]. replace (S a + m)%nat with (a + S m)%nat by lia. reflexivity. }
    rewrite G. reflexivity. }
  rewrite G. assert (Lt : (j / step < (n + step - 1) / step)%nat). { apply Nat.lt_le_trans with (S (j / step)); [lia|]. apply Nat.div_le_lower_bound; [lia|]. nia. }
  apply Nat.ltb_lt in Lt. now rewrite Lt.
Qed.
Lemma decay_range n i : (i < n)%nat -> 0 <= decay n i <= 1.
Proof.
  intros H. unfold decay. destruct (Nat.eqb_spec n 1); [lra|]. assert (P : 0 < INR (n - 1)) by (apply lt_0_INR; lia). assert (Q : INR i <= INR (n - 1)) by (apply le_INR; lia). pose proof (pos_INR i).
  replace (1 + INR i * ((0 - 1) / INR (n - 1))) with (1 - INR i / INR (n - 1)) by (field; lra). assert (0 <= INR i / INR (n - 1)) by (unfold Rdiv; apply Rmult_le_pos; [assumption|left; now apply Rinv_0_lt_compat]). assert (INR i / INR (n - 1) <= 1) by (apply Rmult_le_reg_r with (INR (n - 1)); [exact P|]; replace (INR i / INR (n - 1) * INR (n - 1)) with (INR i) by (field; lra); lra). lra.
Qed.
Lemma tick_at uniform sr i : (i < Z.to_nat (tick_size sr))%nat -> at_ (tick uniform sr) i = uniform i * decay (Z.to_nat (tick_size sr)) i.
Proof. intros H. unfold tick. now rewrite at_map_seq. Qed.
(** a tenth of a second of noise fading out, at every multiple of the step, and silence between *)
Theorem ticks_separate uniform sr d tf step : (0 <= sr < 2 ^ 40)%Z -> (forall i, -1 <= uniform i < 1) -> tick_step sr tf = Z.of_nat step -> (0 < step)%nat -> (sr / 10 <= Z.of_nat step)%Z ->
  exists out, tick_synthesize uniform sr d tf = Ok out /\ length out = Z.to_nat (n_samples sr d) /\
    forall j, (j < length out)%nat -> Rabs (at_ out j) <= 1 /\
      ((Z.of_nat (j mod step) < sr / 10)%Z -> at_ out j = uniform (j mod step)%nat * decay (Z.to_nat (sr / 10)) (j mod step)) /\
      ((sr / 10 <= Z.of_nat (j mod step))%Z -> at_ out j = 0).
Proof.
  intros Hsr Hu Es Hs Hl. destruct (ticks_content uniform sr d tf step Es Hs) as (out & Eo & Lo & K). exists out. split; [exact Eo|]. split; [exact Lo|]. intros j Hj.
  pose proof (tick_size_tenth sr Hsr) as T. assert (Ht : (0 <= sr / 10)%Z) by (apply Z.div_pos; lia). assert (Lt : length (tick uniform sr) = Z.to_nat (sr / 10)) by (unfold tick; rewrite map_length, seq_length, T; reflexivity).
  rewrite (K j Hj), ticks_apart by (try exact Hs; try exact Hj; lia).
  assert (A : (Z.of_nat (j mod step) < sr / 10)%Z -> at_ (tick uniform sr) (j mod step) = uniform (j mod step)%nat * decay (Z.to_nat (sr / 10)) (j mod step)) by (intros H; rewrite tick_at by (rewrite T; lia); now rewrite T).
  assert (B : (sr / 10 <= Z.of_nat (j mod step))%Z -> at_ (tick uniform sr) (j mod step) = 0) by (intros H; unfold at_; apply nth_overflow; rewrite Lt; lia).
  split; [|split; [exact A|exact B]]. destruct (Z.lt_ge_cases (Z.of_nat (j mod step)) (sr / 10)) as [C|C].
  - rewrite (A C). rewrite Rabs_mult. pose proof (decay_range (Z.to_nat (sr / 10)) (j mod step) ltac:(lia)) as D. rewrite (Rabs_pos_eq (decay _ _)) by lra. assert (Rabs (uniform (j mod step)%nat) <= 1) by (apply Rabs_le; pose proof (Hu (j mod step)%nat); lra). pose proof (Rabs_pos (uniform (j mod step)%nat)). nra.
  - rewrite (B C), Rabs_R0. lra.
Qed.
(** every tick starts with the same number, undamped, and ends in silence *)
Theorem tick_envelope n : (2 <= n)%nat -> decay n 0 = 1 /\ decay n (n - 1) = 0 /\ forall i, (S i < n)%nat -> decay n (S i) < decay n i.
Proof.
  intros H. unfold decay. destruct (Nat.eqb_spec n 1); [lia|]. assert (P : 0 < INR (n - 1)) by (apply lt_0_INR; lia). split; [cbn [INR]; ring|]. split; [field; lra|]. intros i Hi. rewrite S_INR. assert (0 < / INR (n - 1)) by now apply Rinv_0_lt_compat. unfold Rdiv. nra.
Qed.

(** ** sines *)
Lemma sine_ts_exact sr k : (0 <= sr)%Z -> (0 <= k <= 2 ^ 53)%Z -> (sr * k <= 2 ^ 53)%Z -> (sine_ts sr (k * 10 ^ 12) == inject_Z (sr * k))%Q.
Proof.
  intros Hs Hk B. assert (Es : (seconds (k * 10 ^ 12) == inject_Z k)%Q). { unfold seconds. rewrite <- (fl_int k Hk). apply fl_same; [apply quot_nonneg; lia|]. apply eqR_Qeq. rewrite Q2R_quot, Q2R_Z, mult_IZR by reflexivity. field. apply not_0_IZR. discriminate. }
  unfold sine_ts. rewrite <- (fl_int (sr * k)) by nia. apply fl_same; [apply Qmult_le_0_compat; [apply seconds_nonneg; lia|unfold Qle; cbn; lia]|]. rewrite Es. unfold Qeq. cbn. lia.
Qed.
Lemma ceiling_spec x : IZR (Qceiling x) - 1 < Q2R x <= IZR (Qceiling x).
Proof. unfold Qceiling. pose proof (floor_spec (- x)) as [L U]. rewrite Q2R_opp in L, U. rewrite opp_IZR. lra. Qed.
Theorem sine_length_near sr k hz : (0 < sr)%Z -> (0 <= k)%Z -> (sr * k < 2 ^ 50)%Z -> (0 < hz)%Q ->
  sine_length sr (k * 10 ^ 12) hz = (sr * k)%Z \/ sine_length sr (k * 10 ^ 12) hz = (sr * k + 1)%Z.
Proof.
  intros Hs Hk B Hhz. assert (Kb : (k <= 2 ^ 53)%Z) by nia. unfold sine_length. pose proof (sine_ts_exact sr k ltac:(lia) ltac:(lia) ltac:(lia)) as Et. set (ts := sine_ts sr (k * 10 ^ 12)) in *.
  assert (Rt : Q2R ts = IZR (sr * k)) by (rewrite (Qeq_eqR _ _ Et); apply Q2R_Z). set (N := (sr * k)%Z) in *. assert (PN : 0 <= IZR N) by (apply (IZR_le 0); unfold N; nia). assert (BN : IZR N < 1125899906842624) by (change 1125899906842624 with (IZR (2 ^ 50)); now apply IZR_lt).
  pose proof ulp_small as Us. assert (Phz : 0 < Q2R hz) by (apply Qlt_Rlt in Hhz; now rewrite Q2R_0 in Hhz). assert (Psr : 0 < IZR sr) by now apply (IZR_lt 0).
  assert (Q0 : (0 <= hz / inject_Z sr)%Q). { apply Rle_Qle. rewrite Q2R_0, Q2R_div, Q2R_Z by (intros E; unfold Qeq in E; cbn in E; lia). left. now apply Rdiv_lt_0_compat. }
  pose proof (fl_err _ Q0) as [C1 _]. rewrite Q2R_div, Q2R_Z in C1 by (intros E; unfold Qeq in E; cbn in E; lia). assert (Pq : 0 < Q2R hz / IZR sr) by now apply Rdiv_lt_0_compat. set (c := fl (hz / inject_Z sr)) in *. assert (Pc : 0 < Q2R c) by (eapply Rlt_le_trans; [|exact C1]; nra).
  assert (Qc : ~ (c == 0)%Q) by (intros E; apply Qeq_eqR in E; rewrite Q2R_0 in E; lra).
  assert (S0 : (0 <= ts * c)%Q) by (apply Rle_Qle; rewrite Q2R_0, Q2R_mult, Rt; apply Rmult_le_pos; lra).
  pose proof (fl_err _ S0) as [S1 S2]. rewrite Q2R_mult, Rt in S1, S2. set (stop := fl (ts * c)) in *.
  assert (D0 : (0 <= stop / c)%Q). { apply Rle_Qle. rewrite Q2R_0, Q2R_div by exact Qc. unfold Rdiv. apply Rmult_le_pos; [|left; now apply Rinv_0_lt_compat]. eapply Rle_trans; [|exact S1]. apply Rmult_le_pos; [apply Rmult_le_pos; lra|lra]. }
  pose proof (fl_err _ D0) as [D1 D2]. rewrite Q2R_div in D1, D2 by exact Qc.
  assert (V1 : IZR N * (1 - ulp) <= Q2R stop / Q2R c) by (apply Rmult_le_reg_r with (Q2R c); [exact Pc|]; replace (Q2R stop / Q2R c * Q2R c) with (Q2R stop) by (field; lra); lra).
  assert (V2 : Q2R stop / Q2R c <= IZR N * (1 + ulp)) by (apply Rmult_le_reg_r with (Q2R c); [exact Pc|]; replace (Q2R stop / Q2R c * Q2R c) with (Q2R stop) by (field; lra); lra).
  set (v := Q2R stop / Q2R c) in *. pose proof (ceiling_spec (fl (stop / c))) as [G1 G2]. set (n := Qceiling _) in *. set (f := Q2R (fl (stop / c))) in *. clearbody n v f. assert (NU : IZR N * ulp < 1 / 8) by (unfold ulp; lra).
  assert (F1 : IZR N - 1 / 2 < f) by nra. assert (F2 : f < IZR N + 1) by nra.
  assert (A : IZR n < IZR (N + 2)) by (rewrite plus_IZR; lra). assert (Cc : IZR (N - 1) < IZR n) by (rewrite minus_IZR; lra). apply lt_IZR in A, Cc. lia.
Qed.
(** ten seconds of 240 Hz at 44100 samples per second have a sample too many, and cannot be
    mixed with 440 Hz *)
Theorem sine_too_long : sine_length 44100 (10 * 10 ^ 12) 240 = 441001%Z /\ sine_length 44100 (10 * 10 ^ 12) 440 = 441000%Z /\
  sine_synthesize_float 44100 (10 * 10 ^ 12) [240%Q; 440%Q] = Raise OtherError.
Proof.
  assert (E1 : sine_length 44100 (10 * 10 ^ 12) 240 = 441001%Z) by (vm_compute; reflexivity). assert (E2 : sine_length 44100 (10 * 10 ^ 12) 440 = 441000%Z) by (vm_compute; reflexivity).
  split; [exact E1|]. split; [exact E2|]. unfold sine_synthesize_float. cbn [forallb]. rewrite E1, E2. reflexivity.
Qed.

Theorem sine_spec sr d freqs out : (0 < sr)%Z -> sine_synthesize_float sr d freqs = Ok out ->
  freqs <> [] /\ (forall hz, In hz freqs -> length out = Z.to_nat (sine_length sr d hz)) /\
  forall j, (j < length out)%nat -> at_ out j = fold_right Rplus 0 (map (fun hz => sin (2 * PI * Q2R hz * INR j / IZR sr) / INR (length freqs)) freqs) /\ Rabs (at_ out j) <= 1.
Proof.
  intros Hs. unfold sine_synthesize_float. destruct freqs as [|hz rest]; [discriminate|]. destruct (forallb _ rest) eqn:F; [|discriminate]. set (n := sine_length sr d hz) in *. set (freqs := hz :: rest) in *. intros E. split; [discriminate|].
  assert (B : forall j, Rabs (at_ out j) <= 1) by (apply (sine_bounded _ _ _ _ E)).
  assert (L : length out = Z.to_nat n) by (apply (sine_bounded _ _ _ _ E)).
  split; [intros h [<-|Hin]; [exact L|]; rewrite forallb_forall in F; specialize (F h Hin); apply Z.eqb_eq in F; rewrite F; exact L|].
  intros j Hj. split; [|apply B]. rewrite L in Hj. unfold sine_synthesize in E. change (map Q2R freqs) with (Q2R hz :: map Q2R rest) in E. cbv iota in E. change (Q2R hz :: map Q2R rest) with (map Q2R freqs) in E. apply (f_equal (fun r => match r with Ok o => o | Raise _ => [] end)) in E. cbv beta iota in E. rewrite <- E. rewrite at_map_seq by exact Hj. rewrite map_map, map_length. f_equal. apply map_ext. intros h.
  assert (Ps : 0 < IZR sr) by now apply (IZR_lt 0). rewrite INR_IZR_INZ with (n := Z.to_nat sr). rewrite Z2Nat.id by lia. unfold Rdiv at 2. rewrite Rmult_1_l. unfold Rdiv at 2. f_equal. f_equal. field. lra.
Qed.
(** one frequency and a whole number of seconds: never an error *)
Theorem sine_single sr k hz : (0 < sr)%Z -> (0 <= k)%Z -> (sr * k < 2 ^ 50)%Z -> (0 < hz)%Q -> exists out, sine_synthesize_float sr (k * 10 ^ 12) [hz] = Ok out /\ (length out = Z.to_nat (sr * k) \/ length out = Z.to_nat (sr * k + 1)).
Proof.
  intros Hs Hk B Hz. unfold sine_synthesize_float. cbn [forallb map]. unfold sine_synthesize. eexists. split; [reflexivity|]. rewrite map_length, seq_length. destruct (sine_length_near sr k hz Hs Hk B Hz) as [->| ->]; [now left|now right].
Qed.
(** silence counts in rounded sample lengths: after ten minutes it is a sample longer *)
Theorem silence_longer : float_div (600 * 10 ^ 12) (10 ^ 12 / 44100) = 26460001%Z /\ n_samples 44100 (600 * 10 ^ 12) = 26460000%Z.
Proof. split; vm_compute; reflexivity. Qed.
Example ticks_example : tick_step 44100 (500 * 10 ^ 9) = 22050%Z /\ tick_size 44100 = 4410%Z /\ n_samples 44100 (3 * 10 ^ 12) = 132300%Z.
Proof. repeat split; vm_compute; reflexivity. Qed.
