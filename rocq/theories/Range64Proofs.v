(** Proofs about Range64.v: what a range in seconds asks for, and what an answer says. *)
From Coq Require Import ZArith QArith Qround Qreals Reals Lra Lia Bool List.
From Flocq Require Import Core Relative.
From Verif Require Import PyBase PyFacts PyMore Time Axis Float64 Float64Proofs Time64 Time64Proofs Time64Proofs2 Time64Proofs3 Time64Proofs4 Fractions FractionsProofs Range64.
Local Open Scope R_scope.

Definition M : R := IZR (10 ^ 12).
Lemma M_pos : 0 < M. Proof. unfold M. apply (IZR_lt 0). lia. Qed.
Lemma u_big a b : (0 <= a)%Z -> (a * b < 2 ^ 53)%Z -> (0 <= b)%Z -> IZR b * (IZR a * u53) < 1.
Proof.
  intros Ha B Hb. unfold u53. assert (P : 0 < IZR (2 ^ 53)) by (apply (IZR_lt 0); lia). apply Rmult_lt_reg_r with (IZR (2 ^ 53)); [exact P|].
  replace (IZR b * (IZR a * / IZR (2 ^ 53)) * IZR (2 ^ 53)) with (IZR a * IZR b) by (field; lra). rewrite Rmult_1_l, <- mult_IZR. apply IZR_lt. exact B.
Qed.
Lemma seconds_floor x : (0 <= x)%Q -> exists q, seconds_ps64 x = Qfloor q /\ Q2R q = rnd (M * Q2R x) /\ (0 <= q)%Q.
Proof.
  intros H. exists (fls (inject_Z (10 ^ 12) * x)%Q). assert (E : Q2R (fls (inject_Z (10 ^ 12) * x)) = rnd (M * Q2R x)) by (rewrite fls_rounds, Q2R_mult, Q2R_int; reflexivity).
  assert (P : (0 <= fls (inject_Z (10 ^ 12) * x))%Q). { apply Rle_Qle. rewrite Q2R_0, E. apply rnd_nonneg. apply Rmult_le_pos; [left; exact M_pos|]. apply Qle_Rle in H. now rewrite Q2R_0 in H. }
  split; [|split; [exact E|exact P]]. unfold seconds_ps64. now apply trunc_floor.
Qed.
(** [v] seconds are [p] picoseconds *)
Definition is_ps (v : Q) (p : Z) : Prop := (inject_Z p == inject_Z (10 ^ 12) * v)%Q.
Lemma is_ps_real v p : is_ps v p -> Q2R v = IZR p / M.
Proof.
  intros H. apply Qeq_eqR in H. rewrite Q2R_mult, !Q2R_int in H. pose proof M_pos as P. unfold M in *. apply Rmult_eq_reg_l with (IZR (10 ^ 12)); [|lra]. rewrite <- H. field. lra.
Qed.
Lemma fls_nonneg x : (0 <= x)%Q -> (0 <= fls x)%Q.
Proof. intros H. apply Rle_Qle. rewrite Q2R_0, fls_rounds. apply rnd_nonneg. apply Qle_Rle in H. now rewrite Q2R_0 in H. Qed.
Lemma is_ps_nonneg v p : is_ps v p -> (0 <= p)%Z -> (0 <= v)%Q.
Proof. intros H Hp. apply Rle_Qle. rewrite Q2R_0, (is_ps_real v p H). apply Rmult_le_pos; [now apply (IZR_le 0)|left; apply Rinv_0_lt_compat; exact M_pos]. Qed.
(** a floor within one below a whole number *)
Lemma floor_near q p : IZR p - 1 <= Q2R q -> Q2R q < IZR p + 1 -> (Qfloor q = p \/ Qfloor q = p - 1)%Z.
Proof.
  intros L U. destruct (Rle_lt_dec (IZR p) (Q2R q)) as [G|G]; [left|right]; apply floor_of; [rewrite plus_IZR; split; lra|]. replace (p - 1 + 1)%Z with p by lia. rewrite minus_IZR. split; lra.
Qed.
(** a decimal with up to twelve places is what it says, or one picosecond less: only if its
    double is below it *)
Theorem decimal_ps v p : (0 <= p < 2 ^ 50)%Z -> is_ps v p -> seconds_ps64 (fls v) = p \/ ((fls v < v)%Q /\ seconds_ps64 (fls v) = (p - 1)%Z).
Proof.
  intros Hp E. pose proof (is_ps_real v p E) as R. destruct (seconds_floor (fls v) (fls_nonneg v (is_ps_nonneg v p E ltac:(lia)))) as (q & -> & Eq & _).
  rewrite fls_rounds, R in Eq. pose proof M_pos as PM. assert (P0 : 0 <= IZR p) by (apply (IZR_le 0); lia). assert (V0 : 0 <= IZR p / M) by (apply Rmult_le_pos; [exact P0|left; now apply Rinv_0_lt_compat]).
  destruct (two_roundings M (IZR p / M) ltac:(lra) V0) as [L U]. replace (M * (IZR p / M)) with (IZR p) in L, U by (field; lra). destruct (slack (IZR p) P0) as [S1 S2].
  pose proof (u_big p 3 ltac:(lia) ltac:(lia) ltac:(lia)) as T. assert (0 <= IZR p * u53) by (pose proof u53_pos; nra). rewrite <- Eq in L, U.
  destruct (Rle_lt_dec (IZR p) (Q2R q)) as [G|G]; [left; apply floor_of; rewrite plus_IZR; split; lra|right].
  split; [|destruct (floor_near q p); [lra|lra| |assumption]].
  - apply Rlt_Qlt. rewrite fls_rounds, R. destruct (Rlt_le_dec (rnd (IZR p / M)) (IZR p / M)) as [K|K]; [exact K|exfalso]. rewrite Eq in G.
    assert (rnd (IZR p) <= rnd (M * rnd (IZR p / M))). { apply rnd_le. replace (IZR p) with (M * (IZR p / M)) at 1 by (field; lra). apply Rmult_le_compat_l; lra. }
    rewrite rnd_int in H0 by lia. lra.
  - pose proof (Qfloor_le q) as F. apply Qle_Rle in F. rewrite Q2R_int, H0 in F. lra.
Qed.
(** a double that is exact is what it says *)
Theorem exact_ps v p : (0 <= p < 2 ^ 50)%Z -> is_ps v p -> (fls v == v)%Q -> seconds_ps64 (fls v) = p.
Proof. intros Hp E X. destruct (decimal_ps v p Hp E) as [H|[H _]]; [exact H|]. exfalso. rewrite X in H. exact (Qlt_irrefl _ H). Qed.
(** whole seconds, as long as a duration can count them *)
Theorem whole_seconds n : (0 <= n <= 9223372)%Z -> picoseconds_of (inject_Z n) = Ok (picoseconds (10 ^ 12 * n)).
Proof.
  intros H. assert (E : seconds_ps64 (inject_Z n) = (10 ^ 12 * n)%Z).
  { unfold seconds_ps64. rewrite <- inject_Z_mult. assert (F : (fls (inject_Z (10 ^ 12 * n)) == inject_Z (10 ^ 12 * n))%Q).
    { unfold fls. cbn [Qnum inject_Z]. destruct (Z.ltb_spec (10 ^ 12 * n) 0); [lia|]. apply (fl_exact (5 ^ 12 * n) 12); [lia|]. rewrite Q2R_int. replace (10 ^ 12 * n)%Z with (5 ^ 12 * n * 2 ^ 12)%Z by ring. rewrite mult_IZR. f_equal. }
    assert (P : (0 <= fls (inject_Z (10 ^ 12 * n)))%Q). { rewrite F. change 0%Q with (inject_Z 0). rewrite <- Zle_Qle. lia. }
    rewrite (trunc_floor _ P), F. apply Qfloor_Z. }
  unfold picoseconds_of. rewrite E. rewrite duration_of_int by lia. reflexivity.
Qed.
Theorem too_far_refuted : picoseconds_of (inject_Z 9223373) = Raise OtherError.
Proof. vm_compute. reflexivity. Qed.

(** the distance of two decimals, rounded twice more *)
Lemma distance_ps v w p q : (0 <= p <= q)%Z -> (q < 2 ^ 50)%Z -> is_ps v p -> is_ps w q ->
  seconds_ps64 (fls (fls w - fls v)) = (q - p)%Z \/ seconds_ps64 (fls (fls w - fls v)) = (q - p - 1)%Z /\ (p < q)%Z.
Proof.
  intros Hp Hq E F. pose proof (is_ps_real v p E) as Rv. pose proof (is_ps_real w q F) as Rw. pose proof M_pos as PM. pose proof u53_pos as U0. pose proof u53_le as U1.
  assert (IM : 0 < / M) by now apply Rinv_0_lt_compat.
  set (D := Q2R (fls w - fls v)). assert (ED : D = rnd (IZR q / M) - rnd (IZR p / M)) by (unfold D; rewrite Q2R_minus, !fls_rounds, Rv, Rw; reflexivity).
  assert (Hp0 : 0 <= IZR p) by (apply (IZR_le 0); lia). assert (Hq0 : 0 <= IZR q) by (apply (IZR_le 0); lia).
  destruct (rnd_near (IZR p / M) ltac:(apply Rmult_le_pos; lra)) as [P1 P2]. destruct (rnd_near (IZR q / M) ltac:(apply Rmult_le_pos; lra)) as [Q1 Q2].
  assert (B1 : IZR (q - p) - (IZR p * u53 + IZR q * u53) <= M * D <= IZR (q - p) + (IZR p * u53 + IZR q * u53)).
  { rewrite minus_IZR, ED. apply (Rmult_le_compat_l M) in P1, P2, Q1, Q2; try lra.
    replace (M * (IZR p / M * (1 - u53))) with (IZR p - IZR p * u53) in P1 by (field; lra). replace (M * (IZR p / M * (1 + u53))) with (IZR p + IZR p * u53) in P2 by (field; lra).
    replace (M * (IZR q / M * (1 - u53))) with (IZR q - IZR q * u53) in Q1 by (field; lra). replace (M * (IZR q / M * (1 + u53))) with (IZR q + IZR q * u53) in Q2 by (field; lra).
    rewrite Rmult_minus_distr_l. split; lra. }
  assert (T : IZR q * u53 <= / 8). { unfold u53. assert (IZR q <= IZR (2 ^ 50)) by (apply IZR_le; lia). assert (Pp : 0 < IZR (2 ^ 53)) by (apply (IZR_lt 0); lia). apply Rmult_le_reg_r with (IZR (2 ^ 53)); [exact Pp|]. replace (IZR q * / IZR (2 ^ 53) * IZR (2 ^ 53)) with (IZR q) by (field; lra). replace (IZR (2 ^ 53)) with (8 * IZR (2 ^ 50)) by (rewrite <- mult_IZR; reflexivity). lra. }
  assert (Tp : IZR p * u53 <= IZR q * u53) by (apply Rmult_le_compat_r; [lra|apply IZR_le; lia]). assert (Tp0 : 0 <= IZR p * u53) by nra.
  assert (Dn : 0 <= D).
  { destruct (Z.eq_dec p q) as [->|N].
    - rewrite ED. lra.
    - assert (1 <= IZR (q - p)) by (apply (IZR_le 1); lia). assert (0 <= M * D) by lra. apply Rmult_le_reg_l with M; [exact PM|]. lra. }
  assert (Dq : (0 <= fls w - fls v)%Q) by (apply Rle_Qle; rewrite Q2R_0; exact Dn).
  destruct (seconds_floor (fls (fls w - fls v)) (fls_nonneg _ Dq)) as (z & Ez & Rz & _). rewrite fls_rounds in Rz. fold D in Rz. rewrite Ez.
  destruct (two_roundings M D ltac:(lra) Dn) as [L U]. rewrite <- Rz in L, U. destruct (slack (M * D) ltac:(apply Rmult_le_pos; lra)) as [S1 S2].
  destruct (Z.eq_dec p q) as [<-|N].
  - left. assert (D0 : D = 0) by (rewrite ED; lra). rewrite D0, Rmult_0_r in *. apply floor_of. rewrite Z.sub_diag. split; [|rewrite plus_IZR]; lra.
  - assert (G1 : 1 <= IZR (q - p)) by (apply (IZR_le 1); lia). assert (G2 : IZR (q - p) * u53 <= / 8). { apply Rle_trans with (IZR q * u53); [|exact T]. apply Rmult_le_compat_r; [lra|apply IZR_le; lia]. }
    assert (G3 : M * D * u53 <= / 8 + / 4 * u53). { apply Rle_trans with ((IZR (q - p) + / 4) * u53); [apply Rmult_le_compat_r; lra|]. rewrite Rmult_plus_distr_r. lra. }
    assert (U3 : u53 <= / 32) by (unfold u53; apply Rinv_le_contravar; [lra|apply (IZR_le 32); lia]).
    assert (G4 : 0 <= M * D * u53) by (apply Rmult_le_pos; [apply Rmult_le_pos; lra|lra]).
    destruct (floor_near z (q - p)) as [A|A]; [lra|lra|now left|right; split; [exact A|lia]].
Qed.
(** a request from [v] to [w] seconds *)
Theorem request v w p q : (0 <= p <= q)%Z -> (q < 2 ^ 50)%Z -> is_ps v p -> is_ps w q ->
  exists s d t, time_slice64 (fls v) (Some (fls w)) = Ok t /\ ps (ts_start t) = s /\ ts_duration t = Some (picoseconds d) /\ ts_end t = Ok (s + d)%Z /\
    (s = p \/ s = p - 1)%Z /\ (d = q - p \/ d = q - p - 1)%Z /\ (0 <= d)%Z.
Proof.
  intros Hp Hq E F. destruct (decimal_ps v p ltac:(lia) E) as [S|[_ S]].
  all: destruct (distance_ps v w p q Hp Hq E F) as [D|[D N]]; eexists _, _, _; (split; [unfold time_slice64, picoseconds_of; rewrite S, D, !duration_of_int by lia; cbn [bind]; reflexivity|]).
  all: fold (picoseconds p) (picoseconds (p - 1)) (picoseconds (q - p)) (picoseconds (q - p - 1)).
  all: split; [apply start_value|]; split; [reflexivity|]; split; [unfold ts_end; rewrite start_value; cbn [mk_timeslice ts_duration]; unfold ps, picoseconds; cbn [td_count td_unit unit_ps]; rewrite !Z.mul_1_r; reflexivity|].
  all: unfold ps, picoseconds; cbn [td_count td_unit unit_ps]; lia.
Qed.
Theorem open_request v p : (0 <= p < 2 ^ 50)%Z -> is_ps v p ->
  exists s t, time_slice64 (fls v) None = Ok t /\ ps (ts_start t) = s /\ ts_duration t = None /\ (s = p \/ s = p - 1)%Z.
Proof.
  intros Hp E. destruct (decimal_ps v p Hp E) as [S|[_ S]].
  all: eexists _, _; (split; [unfold time_slice64, picoseconds_of; rewrite S, duration_of_int by lia; cbn [bind]; reflexivity|]); split; [apply start_value|]; split; [reflexivity|]; unfold ps; cbn [td_count td_unit unit_ps]; lia.
Qed.
