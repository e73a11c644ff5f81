(** The vorbis window (C48, C66), the FFT and DCT round trips, and overlap-add. *)
From Verif Require Import PyBase PyFacts PyMore Time Spectral SpectralProofs TransformProofs.
From Coq Require Import Reals Lra Psatz.
Local Open Scope R_scope.

(** ** The vorbis window *)
Lemma half_angle h s : (0 < h)%nat -> (INR s + / 2) / INR (2 * h) * PI = PI / (4 * INR h) * (2 * INR s + 1).
Proof. intros H. assert (INR h <> 0) by (apply not_0_INR; lia). rewrite mult_INR. cbn [INR]. field. assumption. Qed.
Lemma vorbis_complement h s : (0 < h)%nat -> vorbis_raw (2 * h) (s + h) = cos (/ 2 * PI * (sin ((INR s + / 2) / INR (2 * h) * PI)) ^ 2).
Proof.
  intros H. assert (Ph : INR h <> 0) by (apply not_0_INR; lia). unfold vorbis_raw.
  replace ((INR (s + h) + / 2) / INR (2 * h) * PI) with (PI / 2 + (INR s + / 2) / INR (2 * h) * PI).
  2:{ rewrite plus_INR, mult_INR. cbn [INR]. field. exact Ph. }
  set (th := (INR s + / 2) / INR (2 * h) * PI). rewrite <- cos_shift. f_equal.
  rewrite sin_plus, sin_PI2, cos_PI2, Rmult_1_l, Rmult_0_l, Rplus_0_r.
  pose proof (sin2_cos2 th) as T. unfold Rsqr in T. replace (cos th ^ 2) with (1 - sin th ^ 2) by (cbn; lra). field.
Qed.
(** the Princen-Bradley condition *)
Lemma vorbis_power h s : (0 < h)%nat -> vorbis_raw (2 * h) s ^ 2 + vorbis_raw (2 * h) (s + h) ^ 2 = 1.
Proof.
  intros H. rewrite vorbis_complement by exact H. unfold vorbis_raw.
  set (a := / 2 * PI * sin ((INR s + / 2) / INR (2 * h) * PI) ^ 2). pose proof (sin2_cos2 a) as T. unfold Rsqr in T. cbn. lra.
Qed.
Lemma vorbis_symmetric n s : (s < n)%nat -> vorbis_raw n (n - 1 - s) = vorbis_raw n s.
Proof.
  intros H. unfold vorbis_raw. assert (Pn : INR n <> 0) by (apply not_0_INR; lia).
  replace ((INR (n - 1 - s) + / 2) / INR n * PI) with (PI - (INR s + / 2) / INR n * PI).
  - rewrite sin_PI_x. reflexivity.
  - rewrite !minus_INR by lia. cbn [INR]. field. exact Pn.
Qed.
Lemma vorbis_positive n s : (s < n)%nat -> 0 < vorbis_raw n s.
Proof.
  intros H. unfold vorbis_raw. assert (Pn : 0 < INR n) by (apply lt_0_INR; lia). pose proof PI_RGT_0 as Ppi.
  assert (A : 0 < (INR s + / 2) / INR n < 1).
  { pose proof (pos_INR s). split.
    - apply Rmult_lt_0_compat; [lra|apply Rinv_0_lt_compat; exact Pn].
    - apply Rmult_lt_reg_r with (INR n); [exact Pn|]. unfold Rdiv. rewrite Rmult_assoc, Rinv_l, Rmult_1_l, Rmult_1_r by lra.
      assert (K : (S s <= n)%nat) by lia. apply le_INR in K. rewrite S_INR in K. lra. }
  set (th := (INR s + / 2) / INR n) in *. clearbody th.
  assert (B : 0 < sin (th * PI)) by (apply sin_gt_0; nra).
  assert (C : sin (th * PI) <= 1) by apply SIN_bound.
  set (v := sin (th * PI)) in *. clearbody v. assert (Q : 0 < v ^ 2 <= 1) by (cbn [pow]; nra). set (q := v ^ 2) in *. clearbody q.
  apply sin_gt_0; nra.
Qed.
Definition vmax (n : nat) : R := rmax (map (vorbis_raw n) (seq 0 n)).
Lemma vmax_attained n : (0 < n)%nat -> exists s, (s < n)%nat /\ vmax n = vorbis_raw n s.
Proof.
  intros H. assert (I : In (vmax n) (map (vorbis_raw n) (seq 0 n))) by (apply rmax_in; destruct n; [lia|discriminate]).
  apply in_map_iff in I as (s & E & I). apply in_seq in I. exists s. split; [lia|easy].
Qed.
Lemma vmax_bound n s : (s < n)%nat -> vorbis_raw n s <= vmax n.
Proof. intros H. apply rmax_ge. apply in_map. apply in_seq. lia. Qed.
Lemma oggvorbis_length n : length (oggvorbis n) = n.
Proof. unfold oggvorbis. now rewrite !map_length, seq_length. Qed.
Lemma oggvorbis_at n s : (s < n)%nat -> at_ (oggvorbis n) s = vorbis_raw n s / vmax n.
Proof.
  intros H. unfold oggvorbis. rewrite map_map. fold (vmax n). rewrite at_map_seq by exact H. unfold Rdiv. ring.
Qed.
Lemma oggvorbis_symmetric n s : (s < n)%nat -> at_ (oggvorbis n) (n - 1 - s) = at_ (oggvorbis n) s.
Proof. intros H. rewrite !oggvorbis_at by lia. now rewrite vorbis_symmetric. Qed.
Lemma vmax_pos n : (0 < n)%nat -> 0 < vmax n.
Proof. intros H. destruct (vmax_attained n H) as (s & Hs & ->). now apply vorbis_positive. Qed.
Lemma oggvorbis_range n s : (s < n)%nat -> 0 < at_ (oggvorbis n) s <= 1.
Proof.
  intros H. rewrite oggvorbis_at by exact H. pose proof (vmax_pos n ltac:(lia)). pose proof (vmax_bound n s H). pose proof (vorbis_positive n s H).
  split; [apply Rdiv_lt_0_compat; assumption|]. apply Rmult_le_reg_r with (vmax n); [assumption|]. unfold Rdiv. rewrite Rmult_assoc, Rinv_l, Rmult_1_r by lra. lra.
Qed.
Lemma oggvorbis_peak n : (0 < n)%nat -> exists s, (s < n)%nat /\ at_ (oggvorbis n) s = 1.
Proof.
  intros H. destruct (vmax_attained n H) as (s & Hs & E). exists s. split; [exact Hs|]. rewrite oggvorbis_at, <- E by exact Hs.
  pose proof (vmax_pos n H). field. lra.
Qed.
(** the gain with which two half-overlapping windows add up *)
Definition vorbis_gain (n : nat) : R := 1 / (vmax n * vmax n).
Lemma oggvorbis_power h s : (s < h)%nat ->
  at_ (oggvorbis (2 * h)) s * at_ (oggvorbis (2 * h)) s + at_ (oggvorbis (2 * h)) (s + h) * at_ (oggvorbis (2 * h)) (s + h) = vorbis_gain (2 * h).
Proof.
  intros H. rewrite !oggvorbis_at by lia. pose proof (vmax_pos (2 * h) ltac:(lia)). unfold vorbis_gain.
  rewrite <- (vorbis_power h s) by lia. cbn [pow]. field. lra.
Qed.
Lemma vorbis_below_one h s : (s < 2 * h)%nat -> vorbis_raw (2 * h) s < 1.
Proof.
  intros H. pose proof (vorbis_positive (2 * h) s H). destruct (Nat.lt_ge_cases s h) as [L|L].
  - pose proof (vorbis_power h s ltac:(lia)). pose proof (vorbis_positive (2 * h) (s + h) ltac:(lia)). nra.
  - pose proof (vorbis_power h (s - h) ltac:(lia)) as P. replace (s - h + h)%nat with s in P by lia. pose proof (vorbis_positive (2 * h) (s - h) ltac:(lia)). nra.
Qed.
(** the loss of the maximum, quartic in the window size *)
Lemma sin_le_x x : 0 <= x -> sin x <= x.
Proof. intros [H| <-]; [left; now apply sin_lt_x|rewrite sin_0; lra]. Qed.
Lemma vmax_deficit h : (0 < h)%nat -> 1 - vmax (2 * h) * vmax (2 * h) <= 64 / (INR (2 * h)) ^ 4.
Proof.
  intros H. assert (Pn : 0 < INR (2 * h)) by (apply lt_0_INR; lia). pose proof (vmax_bound (2 * h) h ltac:(lia)) as B.
  pose proof (vorbis_positive (2 * h) h ltac:(lia)) as V. set (m := vorbis_raw (2 * h) h) in *.
  assert (D : 1 - m * m = sin (/ 2 * PI * (sin ((INR 0 + / 2) / INR (2 * h) * PI)) ^ 2) ^ 2).
  { unfold m. pose proof (vorbis_complement h 0 H) as C. cbn [Nat.add] in C. rewrite C.
    set (a := / 2 * PI * _). pose proof (sin2_cos2 a) as T. unfold Rsqr in T. cbn [pow]. lra. }
  pose proof PI_RGT_0 as P0. pose proof PI2_1 as P2. pose proof PI_4 as P4. set (phi := (INR 0 + / 2) / INR (2 * h) * PI) in *.
  assert (Ephi : phi = PI / (2 * INR (2 * h))) by (unfold phi; cbn [INR]; field; lra).
  assert (Hphi : 0 <= phi <= 2 / INR (2 * h)).
  { rewrite Ephi. split; [apply Rmult_le_pos; [lra|left; apply Rinv_0_lt_compat; lra]|]. apply Rmult_le_reg_r with (2 * INR (2 * h)); [lra|].
    unfold Rdiv. rewrite Rmult_assoc, Rinv_l by lra. replace (2 * / INR (2 * h) * (2 * INR (2 * h))) with 4 by (field; lra). lra. }
  set (y := 2 / INR (2 * h)) in *.
  assert (Hy : y <= 1).
  { unfold y. apply Rmult_le_reg_r with (INR (2 * h)); [exact Pn|]. unfold Rdiv. rewrite Rmult_assoc, Rinv_l, Rmult_1_r, Rmult_1_l by lra.
    assert (K : (2 <= 2 * h)%nat) by lia. apply le_INR in K. cbn [INR] in K. lra. }
  assert (Hs : 0 <= sin phi <= phi).
  { split; [apply sin_ge_0; lra|apply sin_le_x; lra]. }
  assert (Ha : 0 <= / 2 * PI * sin phi ^ 2 <= 2 * y ^ 2).
  { assert (Q : 0 <= sin phi ^ 2 <= y ^ 2) by (cbn; nra). nra. }
  set (a := / 2 * PI * sin phi ^ 2) in *.
  assert (Q1 : sin phi ^ 2 <= 1) by (pose proof (SIN_bound phi); cbn; nra).
  assert (Ha' : a <= PI) by (unfold a; set (q := sin phi ^ 2) in *; clearbody q; clear - Q1 P0; nra).
  assert (Hsa : 0 <= sin a <= a) by (split; [apply sin_ge_0; lra|apply sin_le_x; lra]).
  assert (Hm : m * m <= vmax (2 * h) * vmax (2 * h)) by nra.
  assert (Hf : sin a ^ 2 <= (2 * y ^ 2) ^ 2) by (apply pow_incr; lra).
  replace (64 / INR (2 * h) ^ 4) with ((2 * y ^ 2) ^ 2) by (unfold y; field; lra). lra.
Qed.
Lemma vorbis_gain_bound h : (0 < h)%nat -> 1 < vorbis_gain (2 * h) <= 1 + 128 / (INR (2 * h)) ^ 4.
Proof.
  intros H. pose proof (vmax_pos (2 * h) ltac:(lia)) as P. pose proof (vmax_deficit h H) as D.
  destruct (vmax_attained (2 * h) ltac:(lia)) as (s & Hs & E). pose proof (vorbis_below_one h s Hs) as L. rewrite <- E in L.
  set (m := vmax (2 * h)) in *.
  assert (Half : / 2 <= m * m).
  { pose proof (vorbis_power h 0 H) as Q. pose proof (vmax_bound (2 * h) 0 ltac:(lia)) as B0. pose proof (vmax_bound (2 * h) (0 + h) ltac:(lia)) as B1. fold m in B0, B1.
    pose proof (vorbis_positive (2 * h) 0 ltac:(lia)). pose proof (vorbis_positive (2 * h) (0 + h) ltac:(lia)). nra. }
  set (e := 64 / INR (2 * h) ^ 4) in *. replace (128 / INR (2 * h) ^ 4) with (2 * e) by (unfold e; field; apply not_0_INR; lia).
  unfold vorbis_gain. fold m. assert (M1 : m * m < 1) by nra. assert (M0 : 0 < m * m) by nra.
  set (q := m * m) in *. clearbody q e. split.
  - apply Rmult_lt_reg_r with q; [exact M0|]. unfold Rdiv. rewrite Rmult_assoc, Rinv_l by lra. lra.
  - apply Rmult_le_reg_r with q; [exact M0|]. unfold Rdiv. rewrite Rmult_assoc, Rinv_l by lra. nra.
Qed.
