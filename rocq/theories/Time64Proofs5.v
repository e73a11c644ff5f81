(** Proofs about Time64.v: sample rates. *)
From Coq Require Import ZArith QArith Qround Qreals Reals Lra Lia Bool.
From Flocq Require Import Core Relative.
From Verif Require Import PyBase PyFacts Time TimeProofs Float64 Float64Proofs Time64 Time64Proofs Time64Proofs2 Time64Proofs3 Time64Proofs4.
Local Open Scope R_scope.

#[local] Instance bits53''' : Prec_gt_0 53 := eq_refl.

(** ** The quotient of integers below 2^52, against half integers *)
Lemma half_below a b m : (0 <= a < 2 ^ 52)%Z -> (0 < b)%Z -> (2 * a < m * b)%Z -> rnd (IZR a / IZR b) < IZR m / 2.
Proof.
  intros Ha Hb H. assert (B : 0 < IZR b) by (apply (IZR_lt 0); lia). pose proof (quot_le a b ltac:(lia) Hb) as [X0 _]. apply Rle_lt_trans with (1 := proj2 (rnd_near _ X0)). apply Rmult_lt_reg_r with (IZR b); [exact B|]. replace (IZR a / IZR b * (1 + u53) * IZR b) with (IZR a + IZR a * u53) by (field; lra).
  assert (S1 : 2 * IZR a + 1 <= IZR m * IZR b) by (rewrite <- !mult_IZR, <- plus_IZR; apply IZR_le; lia). assert (S2 : IZR a * u53 < / 2). { unfold u53. assert (P : 0 < IZR (2 ^ 53)) by (apply (IZR_lt 0); lia). apply Rmult_lt_reg_r with (IZR (2 ^ 53)); [exact P|]. rewrite Rmult_assoc, Rinv_l by lra. rewrite Rmult_1_r. replace (IZR (2 ^ 53)) with (2 * IZR (2 ^ 52)) by (rewrite <- mult_IZR; reflexivity). rewrite <- Rmult_assoc, Rinv_l, Rmult_1_l by lra. apply IZR_lt. lia. } lra.
Qed.
Lemma half_above a b m : (0 <= a < 2 ^ 52)%Z -> (0 < b)%Z -> (m * b < 2 * a)%Z -> IZR m / 2 < rnd (IZR a / IZR b).
Proof.
  intros Ha Hb H. assert (B : 0 < IZR b) by (apply (IZR_lt 0); lia). pose proof (quot_le a b ltac:(lia) Hb) as [X0 _]. apply Rlt_le_trans with (2 := proj1 (rnd_near _ X0)). apply Rmult_lt_reg_r with (IZR b); [exact B|]. replace (IZR a / IZR b * (1 - u53) * IZR b) with (IZR a - IZR a * u53) by (field; lra).
  assert (S1 : IZR m * IZR b + 1 <= 2 * IZR a) by (rewrite <- !mult_IZR, <- plus_IZR; apply IZR_le; lia). assert (S2 : IZR a * u53 < / 2). { unfold u53. assert (P : 0 < IZR (2 ^ 53)) by (apply (IZR_lt 0); lia). apply Rmult_lt_reg_r with (IZR (2 ^ 53)); [exact P|]. rewrite Rmult_assoc, Rinv_l by lra. rewrite Rmult_1_r. replace (IZR (2 ^ 53)) with (2 * IZR (2 ^ 52)) by (rewrite <- mult_IZR; reflexivity). rewrite <- Rmult_assoc, Rinv_l, Rmult_1_l by lra. apply IZR_lt. lia. } lra.
Qed.
Lemma half_exact m : (0 <= m <= 2 ^ 53)%Z -> rnd (IZR m / 2) = IZR m / 2.
Proof.
  intros H. assert (E : Q2R (m # 2) = IZR m / 2) by (unfold Q2R; cbn [Qnum Qden]; reflexivity). rewrite <- E at 1. rewrite <- fl_rounds by (unfold Qle; cbn; lia). rewrite <- E. apply Qeq_eqR. apply (fl_exact m (-1) H). rewrite E. cbn [bpow]. change (Z.pow_pos radix2 1) with 2%Z. reflexivity.
Qed.
Theorem rint_quot a b q : (0 <= a < 2 ^ 52)%Z -> (0 < b)%Z -> Q2R q = rnd (IZR a / IZR b) -> rint q = round_half_even a b.
Proof.
  intros Ha Hb E. rewrite rint_spec, E. unfold round_half_even. set (k := (a / b)%Z). pose proof (Z.div_mod a b ltac:(lia)) as Dm. pose proof (Z.mod_pos_bound a b Hb) as Br. fold k in Dm. replace (a - k * b)%Z with (a mod b)%Z by lia. set (r := (a mod b)%Z) in *.
  assert (K0 : (0 <= k)%Z) by (apply Z.div_pos; lia). assert (L : IZR k <= rnd (IZR a / IZR b)) by (apply quot_at_least; lia). assert (U : rnd (IZR a / IZR b) <= IZR (k + 1)) by (apply quot_at_most; lia). rewrite plus_IZR in U.
  destruct (Z.ltb_spec (2 * r) b) as [C|C].
  - pose proof (half_below a b (2 * k + 1) Ha Hb ltac:(lia)) as H. rewrite plus_IZR, mult_IZR in H. apply Znearest_imp, Rabs_lt. lra.
  - destruct (Z.ltb_spec b (2 * r)) as [D|D].
    + pose proof (half_above a b (2 * k + 1) Ha Hb ltac:(lia)) as H. rewrite plus_IZR, mult_IZR in H. apply Znearest_imp, Rabs_lt. rewrite plus_IZR. lra.
    + assert (Er : (2 * r = b)%Z) by lia. assert (X : IZR a / IZR b = IZR (2 * k + 1) / 2). { assert (IZR b <> 0) by (apply not_0_IZR; lia). assert (P : 2 * IZR a = IZR (2 * k + 1) * IZR b) by (rewrite <- !mult_IZR; f_equal; lia). replace (IZR a) with (IZR (2 * k + 1) * IZR b / 2) by lra. field. auto. }
      rewrite X, half_exact by nia. change 2 with (IZR 2). rewrite rne_nearest by lia. unfold rne. replace (2 * k + 1)%Z with (k * 2 + 1)%Z by lia. rewrite Z.div_add_l, (Z.add_comm (k * 2)), Z.mod_add by lia. change (1 / 2)%Z with 0%Z. change (1 mod 2)%Z with 1%Z. rewrite Z.add_0_r. reflexivity.
Qed.
Local Open Scope Z_scope.
Definition exact_rate (r : rate64) : samplerate := {| sr_freq := ps (r_freq r); sr_dur := ps (r_dur r) |}.
(** ** Samples per second *)
Theorem per_second f : 0 < ps f < 2 ^ 53 -> samples_per_second64 f = Ok (samples_per_second (ps f)).
Proof.
  intros H. unfold samples_per_second64, samples_per_second. destruct (td_div_53 (picoseconds (10 ^ 12)) f) as (q & E & Eq); [change (ps (picoseconds (10 ^ 12))) with (10 ^ 12); lia|exact H|]. rewrite E. cbn [to_int]. f_equal. change (ps (picoseconds (10 ^ 12))) with (10 ^ 12) in Eq.
  assert (P : (0 <= q)%Q) by (apply Rle_Qle; rewrite Q2R_0, Eq; apply rnd_nonneg, (quot_le (10 ^ 12) (ps f)); lia). rewrite trunc_floor by exact P. rewrite (floor_quot (10 ^ 12) (ps f) ltac:(lia) ltac:(lia) q Eq). unfold trunc_div. rewrite Z.quot_div_nonneg by lia. reflexivity.
Qed.
Theorem usual_rates n : 1 <= n <= 10 ^ 6 -> samples_per_second64 (picoseconds (10 ^ 12 / n)) = Ok n.
Proof.
  intros H. assert (D : 0 < 10 ^ 12 / n) by (apply Z.div_str_pos; lia). assert (D2 : 10 ^ 12 / n <= 10 ^ 12) by (apply Z.div_le_upper_bound; nia). assert (P : ps (picoseconds (10 ^ 12 / n)) = 10 ^ 12 / n) by (unfold ps; cbn [picoseconds td_count td_unit unit_ps]; ring). rewrite per_second by lia. rewrite P. destruct (audio_rate_usual n H) as (s & E & Es). unfold audio_rate, mk_samplerate in E. destruct (Z.eqb_spec n 0); [lia|]. destruct (Z.leb_spec (10 ^ 12 / n) 0); [lia|]. injection E as <-. change (samples_per_second (10 ^ 12 / n) = n) in Es. now rewrite Es.
Qed.
(** ** Multiples of a rate, and back *)
Definition small_rate (r : rate64) : Prop := 0 < ps (r_freq r) < 2 ^ 52 /\ 0 < ps (r_dur r) < 2 ^ 52.
Lemma count_sign t : (td_count t <=? 0) = (ps t <=? 0).
Proof. unfold ps. pose proof (unit_pos (td_unit t)). destruct (Z.leb_spec (td_count t) 0), (Z.leb_spec (td_count t * unit_ps (td_unit t)) 0); try reflexivity; nia. Qed.
Theorem rate_mul_agrees r s w : small_rate r -> 0 <= s * ps (r_freq r) < 2 ^ 52 -> 0 <= w * ps (r_freq r) + ps (r_dur r) < 2 ^ 52 ->
  (exists x, rate_mul64 r s w = Ok x /\ sr_mul (exact_rate r) s w = Ok (exact_rate x)) \/ (rate_mul64 r s w = Raise ValueError /\ sr_mul (exact_rate r) s w = Raise ValueError).
Proof.
  intros [Hf Hd] Hs Hw. assert (Ms : ps (td_mul s (r_freq r)) = s * ps (r_freq r)) by (apply td_mul_ok; unfold small; lia). assert (Mw : ps (td_mul w (r_freq r)) = w * ps (r_freq r)) by (apply td_mul_ok; unfold small; lia).
  assert (O : ps (overlap64 r) = ps (r_dur r) - ps (r_freq r)) by (apply sub_within; unfold within; lia). assert (A : ps (td_add (td_mul w (r_freq r)) (overlap64 r)) = w * ps (r_freq r) + (ps (r_dur r) - ps (r_freq r))) by (rewrite add_within; unfold within; lia).
  unfold rate_mul64, sr_mul, mk_rate64, mk_samplerate. rewrite !count_sign, Ms, A. cbn [exact_rate sr_freq sr_overlap sr_dur]. unfold sr_overlap. cbn [exact_rate sr_freq sr_dur].
  rewrite !(Z.mul_comm (ps (r_freq r))). destruct (s * ps (r_freq r) <=? 0); [right; auto|]. destruct (w * ps (r_freq r) + (ps (r_dur r) - ps (r_freq r)) <=? 0); [right; auto|]. left. eexists. split; [reflexivity|]. f_equal. unfold exact_rate. cbn [r_freq r_dur]. now rewrite Ms, A.
Qed.
Theorem discrete_agrees r t : small_rate r -> small_rate t -> 0 <= ps (r_dur r) - (ps (r_dur t) - ps (r_freq t)) < 2 ^ 52 -> discrete64 r t = Ok (discrete_samples (exact_rate r) (ps (r_freq t)) (ps (r_dur t))).
Proof.
  intros [Hf Hd] [Hft Hdt] H. assert (O : ps (overlap64 t) = ps (r_dur t) - ps (r_freq t)) by (apply sub_within; unfold within; lia). assert (W : ps (td_sub (r_dur r) (overlap64 t)) = ps (r_dur r) - (ps (r_dur t) - ps (r_freq t))) by (rewrite sub_within; unfold within; lia).
  unfold discrete64, discrete_samples. destruct (td_div_53 (td_sub (r_dur r) (overlap64 t)) (r_freq t)) as (q & E & Eq); [rewrite W; lia|lia|]. destruct (td_div_53 (r_freq r) (r_freq t)) as (q' & E' & Eq'); [lia|lia|]. rewrite E, E'. cbn [np_round0 map_num to_int bind]. rewrite !trunc_int. cbn [exact_rate sr_freq sr_dur]. rewrite W in Eq. rewrite (rint_quot (ps (r_dur r) - (ps (r_dur t) - ps (r_freq t))) (ps (r_freq t)) q ltac:(lia) ltac:(lia) Eq), (rint_quot (ps (r_freq r)) (ps (r_freq t)) q' ltac:(lia) ltac:(lia) Eq'). reflexivity.
Qed.
Theorem mul_discrete r s w : small_rate r -> 1 <= s -> 1 <= w -> s * ps (r_freq r) < 2 ^ 52 -> w * ps (r_freq r) + ps (r_dur r) < 2 ^ 52 -> exists x, rate_mul64 r s w = Ok x /\ discrete64 x r = Ok (s, w).
Proof.
  intros Hr Hs Hw Bs Bw. destruct (rate_mul_agrees r s w Hr) as [(x & E & X)|[_ X]]; [destruct Hr; nia|destruct Hr; nia| |].
  - exists x. split; [exact E|]. unfold sr_mul, mk_samplerate in X. cbn [exact_rate sr_freq] in X. unfold sr_overlap in X. cbn [exact_rate sr_freq sr_dur] in X. destruct Hr as [Hf Hd]. destruct (Z.leb_spec (ps (r_freq r) * s) 0); [nia|]. destruct (Z.leb_spec (ps (r_freq r) * w + (ps (r_dur r) - ps (r_freq r))) 0); [nia|]. injection X as X1 X2.
    rewrite discrete_agrees; [|split; rewrite <- ?X1, <- ?X2; nia|split; assumption|rewrite <- X2; nia]. unfold discrete_samples, exact_rate. cbn [sr_freq sr_dur]. rewrite <- X1, <- X2. f_equal. replace (ps (r_freq r) * w + (ps (r_dur r) - ps (r_freq r)) - (ps (r_dur r) - ps (r_freq r))) with (w * ps (r_freq r)) by ring. rewrite (Z.mul_comm _ s). f_equal; unfold round_half_even; rewrite Z.div_mul by lia; match goal with |- (if 2 * ?z <? _ then _ else _) = _ => replace z with 0 by ring end; destruct (Z.ltb_spec (2 * 0) (ps (r_freq r))); lia.
  - exfalso. unfold sr_mul, mk_samplerate in X. cbn [exact_rate sr_freq] in X. unfold sr_overlap in X. cbn [exact_rate sr_freq sr_dur] in X. destruct Hr as [Hf Hd]. destruct (Z.leb_spec (ps (r_freq r) * s) 0); [nia|]. destruct (Z.leb_spec (ps (r_freq r) * w + (ps (r_dur r) - ps (r_freq r))) 0); [nia|]. discriminate X.
Qed.
(** ** Windowing a dimension *)
Theorem modified_agrees t w s : usual t -> 1 <= w -> (match s with Some s => 0 <= s | None => True end) -> w * ps (d_freq t) + ps (d_dur t) < 2 ^ 53 -> (match s with Some s => s * ps (d_freq t) < 2 ^ 53 | None => True end) ->
  exists x, modified64 t w s = Ok x /\ modified_dimension (exact t) w s = Ok (exact x).
Proof.
  intros (Hf & Hd & _) Hw Hs Bw Bs. unfold modified64, modified_dimension. set (k := match s with Some s => if s =? 0 then w else s | None => w end). assert (Hk : 1 <= k /\ k * ps (d_freq t) < 2 ^ 53) by (unfold k; destruct s as [s|]; [destruct (Z.eqb_spec s 0)|]; nia).
  unfold mk_rate64, t_overlap, mk_samplerate. rewrite !count_sign. cbn [exact t_freq t_dur]. destruct (Z.leb_spec (ps (d_freq t)) 0); [lia|]. destruct (Z.leb_spec (ps (d_dur t)) 0); [lia|]. cbn [bind]. unfold sr_overlap. cbn [sr_freq sr_dur].
  assert (Mk : ps (td_mul k (d_freq t)) = k * ps (d_freq t)) by (apply td_mul_ok; unfold small; lia). assert (Mw : ps (td_mul w (d_freq t)) = w * ps (d_freq t)) by (apply td_mul_ok; unfold small; nia).
  assert (O : ps (overlap64 {| r_freq := d_freq t; r_dur := d_dur t |}) = ps (d_dur t) - ps (d_freq t)) by (apply sub_within; unfold within; cbn [r_dur r_freq]; lia). assert (A : ps (td_add (td_mul w (d_freq t)) (overlap64 {| r_freq := d_freq t; r_dur := d_dur t |})) = w * ps (d_freq t) + (ps (d_dur t) - ps (d_freq t))) by (rewrite add_within; unfold within; nia).
  eexists. split; [reflexivity|]. unfold exact, mk_dim64, mk_timedim. cbn [d_freq d_dur d_size]. do 2 f_equal; [now rewrite Mk, Z.mul_comm|]. set (D := td_add (td_mul w (d_freq t)) (overlap64 {| r_freq := d_freq t; r_dur := d_dur t |})) in *.
  destruct (Z.eqb_spec (ps (d_freq t) * w + (ps (d_dur t) - ps (d_freq t))) 0); [nia|]. destruct (Z.eqb_spec (td_count D) 0) as [Z0|Z0]; [unfold ps in A at 1; rewrite Z0 in A; nia|]. rewrite A. ring.
Qed.
(** ** A case: one minute of CD audio; from the second 1 (in seconds) for 250 ms (in milliseconds) *)
Definition cd_minute : dim64 := {| d_freq := picoseconds 22675736; d_dur := picoseconds 22675736; d_size := Some 2646000 |}.
Example cd_case : usual cd_minute /\ clear (1250 * 10 ^ 9) 22675736 /\
  slice64 cd_minute (TSlice {| td_count := 1; td_unit := Sec |} (Some {| td_count := 250; td_unit := Ms |})) = Ok (44100, 55125) /\
  integer_based_slice (exact cd_minute) (ITime (10 ^ 12) (Some (250 * 10 ^ 9))) = Ok (44100, 55125).
Proof.
  split; [|split; [|split]].
  - unfold usual, cd_minute, ps. cbn [d_freq d_dur d_size picoseconds td_count td_unit unit_ps]. split; [lia|]. split; [lia|]. intros n [= <-]. lia.
  - left. vm_compute. intros H. discriminate H.
  - vm_compute. reflexivity.
  - vm_compute. reflexivity.
Qed.
Example cd_rate : small_rate {| r_freq := picoseconds 22675736; r_dur := picoseconds 22675736 |} /\ 2048 * 22675736 < 2 ^ 52.
Proof. unfold small_rate, ps. cbn [r_freq r_dur picoseconds td_count td_unit unit_ps]. lia. Qed.
