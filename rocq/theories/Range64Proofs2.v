(** Proofs about Range64.v, continued: what answers say, and where requests miss. *)
From Coq Require Import ZArith QArith Qround Qreals Reals Lra Lia Bool List.
From Flocq Require Import Core Relative.
From Verif Require Import PyBase PyFacts PyMore Time Axis Float64 Float64Proofs Time64 Time64Proofs Time64Proofs2 Time64Proofs3 Time64Proofs4 Fractions FractionsProofs Range64 Range64Proofs.
Local Open Scope R_scope.

Lemma per_one_second t : (- 2 ^ 53 < ps t < 2 ^ 53)%Z -> exists x, td_div t one_second = Num x /\ Q2R x = rnd (IZR (ps t) / M).
Proof. intros H. assert (E : ps one_second = (10 ^ 12)%Z) by reflexivity. destruct (td_div_53 t one_second H ltac:(rewrite E; lia)) as (x & A & B). exists x. split; [exact A|]. rewrite E in B. exact B. Qed.
Lemma decimal_of p : is_ps (p # Z.to_pos (10 ^ 12)) p.
Proof. unfold is_ps, Qeq, Qmult, inject_Z. cbn [Qnum Qden]. rewrite !Pos.mul_1_l, Z2Pos.id by lia. ring. Qed.
Lemma seconds_same x y : (0 <= x)%Q -> (0 <= y)%Q -> (x == y)%Q -> seconds_ps64 x = seconds_ps64 y.
Proof.
  intros Hx Hy E. destruct (seconds_floor x Hx) as (q & -> & A & _). destruct (seconds_floor y Hy) as (r & -> & B & _). apply Qfloor_comp. apply eqR_Qeq. rewrite A, B. do 2 f_equal. now apply Qeq_eqR.
Qed.
(** the beginning that an answer states, asked for again: the same place or one picosecond before *)
Theorem replay t total x total' stop : content_range64 t total = (Num x, total', stop) -> (0 <= ps (ts_start t) < 2 ^ 50)%Z ->
  seconds_ps64 x = ps (ts_start t) \/ seconds_ps64 x = (ps (ts_start t) - 1)%Z.
Proof.
  intros E Hp. set (p := ps (ts_start t)) in *. unfold content_range64 in E. destruct (per_one_second (ts_start t)) as (y & Ey & Ry); [fold p; lia|]. rewrite Ey in E. injection E as <- _ _. fold p in Ry.
  set (v := (p # Z.to_pos (10 ^ 12))%Q). assert (I : is_ps v p) by apply decimal_of. pose proof (is_ps_nonneg v p I ltac:(lia)) as Pv.
  assert (X : (y == fls v)%Q) by (apply eqR_Qeq; rewrite Ry, fls_rounds, (is_ps_real v p I); reflexivity).
  assert (Py : (0 <= y)%Q) by (rewrite X; now apply fls_nonneg). rewrite (seconds_same y (fls v) Py (fls_nonneg v Pv) X).
  destruct (decimal_ps v p Hp I) as [A|[_ A]]; [now left|now right].
Qed.
(** what an answer states: the beginning and the whole rounded once, the end twice *)
Theorem stated t total d : (0 <= ps (ts_start t) < 2 ^ 52)%Z -> (0 <= ps d < 2 ^ 52)%Z -> (0 <= ps total < 2 ^ 53)%Z -> ts_duration t = Some d ->
  exists x y z, content_range64 t total = (Num x, Num y, Some (Num z)) /\
    Q2R x = rnd (IZR (ps (ts_start t)) / 10 ^ 12) /\ Q2R y = rnd (IZR (ps total) / 10 ^ 12) /\
    IZR (ps (ts_start t) + ps d) / 10 ^ 12 * ((1 - u53) * (1 - u53)) <= Q2R z <= IZR (ps (ts_start t) + ps d) / 10 ^ 12 * ((1 + u53) * (1 + u53)).
Proof.
  intros Hs Hd Ht Ed. assert (EM : M = 10 ^ 12) by (unfold M; change (10 ^ 12)%Z with 1000000000000%Z; lra). rewrite <- EM.
  destruct (per_one_second (ts_start t) ltac:(lia)) as (x & Ex & Rx). destruct (per_one_second total ltac:(lia)) as (y & Ey & Ry). destruct (per_one_second d ltac:(lia)) as (w & Ew & Rw).
  exists x, y, (fls (x + w)). unfold content_range64. rewrite Ed, Ex, Ey, Ew. cbn [add64]. split; [reflexivity|]. split; [exact Rx|]. split; [exact Ry|].
  rewrite fls_rounds, Q2R_plus, Rx, Rw. pose proof M_pos as PM. assert (IM : 0 < / M) by now apply Rinv_0_lt_compat. pose proof u53_pos as U0. pose proof u53_le as U1.
  set (a := IZR (ps (ts_start t)) / M). set (b := IZR (ps d) / M). assert (Pa : 0 <= a) by (apply Rmult_le_pos; [apply (IZR_le 0); lia|lra]). assert (Pb : 0 <= b) by (apply Rmult_le_pos; [apply (IZR_le 0); lia|lra]).
  rewrite plus_IZR. replace ((IZR (ps (ts_start t)) + IZR (ps d)) / M) with (a + b) by (unfold a, b; field; lra).
  destruct (rnd_near a Pa) as [A1 A2]. destruct (rnd_near b Pb) as [B1 B2]. assert (P : 0 <= rnd a + rnd b) by (apply Rplus_le_le_0_compat; now apply rnd_nonneg). destruct (rnd_near _ P) as [C1 C2].
  split.
  - apply Rle_trans with (2 := C1). replace ((a + b) * ((1 - u53) * (1 - u53))) with ((a * (1 - u53) + b * (1 - u53)) * (1 - u53)) by ring. apply Rmult_le_compat_r; lra.
  - apply Rle_trans with (1 := C2). replace ((a + b) * ((1 + u53) * (1 + u53))) with ((a * (1 + u53) + b * (1 + u53)) * (1 + u53)) by ring. apply Rmult_le_compat_r; lra.
Qed.
Theorem stated_open t total : ts_duration t = None -> snd (content_range64 t total) = None /\ written_stop (content_range64 t total) = td_div total one_second.
Proof. intros E. unfold content_range64. rewrite E. split; reflexivity. Qed.
(** an empty slice at the beginning is written as the whole *)
Theorem empty_written_refuted total : written_stop (content_range64 (mk_timeslice (Some (picoseconds 0)) (Some (picoseconds 0))) total) = td_div total one_second.
Proof. reflexivity. Qed.

(** ** Where requests miss *)
(** 1.001 seconds *)
Theorem millisecond_refuted : seconds_ps64 (fls (1001 # 1000)) = 1000999999999%Z.
Proof. vm_compute. reflexivity. Qed.
(** the sample at 1001 / 16000 seconds, one sample long: the slice begins a sample early *)
Theorem sample_refuted : exists t d, time_slice64 (fls (625625 # 10000000)) (Some (fls (6256875 # 100000000))) = Ok t /\ ts_duration t = Some d /\
  slice64 rate16 (TSlice (ts_start t) (Some d)) = Ok (1000, 1002)%Z /\
  slice64 rate16 (TSlice (picoseconds (1001 * 62500000)) (Some (picoseconds 62500000))) = Ok (1001, 1002)%Z.
Proof. eexists _, _. split; [vm_compute; reflexivity|]. split; [reflexivity|]. split; vm_compute; reflexivity. Qed.
(** requests that meet leave a gap: the end of one is before the beginning of the next *)
Theorem gap_refuted : exists a b, time_slice64 (fls (1 # 100)) (Some (fls (3 # 100))) = Ok a /\ time_slice64 (fls (3 # 100)) None = Ok b /\
  ts_end a = Ok 29999999999%Z /\ ps (ts_start b) = 30000000000%Z.
Proof. eexists _, _. split; [vm_compute; reflexivity|]. split; [vm_compute; reflexivity|]. split; vm_compute; reflexivity. Qed.
(** the beginning that is stated, asked for again and again, wanders *)
Definition stated_start (p : Z) : Q := match td_div (picoseconds p) one_second with Num x => x | _ => 0%Q end.
Theorem wander_refuted : seconds_ps64 (stated_start 123) = 122%Z /\ seconds_ps64 (stated_start 122) = 121%Z.
Proof. split; vm_compute; reflexivity. Qed.
Example request_meets : is_ps (5 # 4) 1250000000000 /\ is_ps (25 # 10) 2500000000000 /\ time_slice64 (fls (5 # 4)) (Some (fls (25 # 10))) = Ok (mk_timeslice (Some (picoseconds 1250000000000)) (Some (picoseconds 1250000000000))) /\
  written_stop (content_range64 (mk_timeslice (Some (picoseconds 1250000000000)) (Some (picoseconds 1250000000000))) (picoseconds 5000000000000)) <> td_div (picoseconds 5000000000000) one_second.
Proof. split; [reflexivity|]. split; [reflexivity|]. split; [vm_compute; reflexivity|]. vm_compute. discriminate. Qed.
