From Verif Require Import PyBase PyFacts PyMore Time Spectral TransformProofs ReconProofs OverlapProofs PhaseShiftProofs Loss LossProofs LossProofs2 LossProofs3 NetUtil NetUtilProofs FilterBank FilterBankProofs.
From Coq Require Import Reals ZArith Lia Lra Psatz.
Local Open Scope R_scope.

(** ** forward *)
Lemma rows_of_concat n : forall (y : list (list R)), Forall (fun r => length r = n) y -> rows_of n (length y) (List.concat y) = y.
Proof.
  induction y as [|r y IH]; intros H; [reflexivity|]. inversion H; subst. cbn [length rows_of List.concat].
  rewrite firstn_app, skipn_app, Nat.sub_diag, firstn_all, skipn_all. cbn [firstn skipn]. rewrite app_nil_r. cbn [List.app]. now rewrite IH.
Qed.
Lemma rows_of_length n c : forall l, length (rows_of n c l) = c.
Proof. induction c; intros l; [reflexivity|]. cbn [rows_of length]. now rewrite IHc. Qed.
Lemma rows_of_nth n c : forall l b, (b < c)%nat -> nth b (rows_of n c l) [] = firstn n (skipn (b * n) l).
Proof.
  induction c as [|c IH]; intros l b Hb; [lia|]. destruct b as [|b]; [reflexivity|]. cbn [rows_of nth]. rewrite IH by lia. f_equal. rewrite skipn_skipn'. f_equal; lia.
Qed.
Lemma concat_length_n n (y : list (list R)) : Forall (fun r => length r = n) y -> length (List.concat y) = (length y * n)%nat.
Proof. induction y as [|r y IH]; intros H; [reflexivity|]. inversion H; subst. cbn [List.concat length]. rewrite app_length, IH by assumption. lia. Qed.
Lemma concat_nth n : forall (y : list (list R)) b j, Forall (fun r => length r = n) y -> (b < length y)%nat -> (j < n)%nat -> at_ (List.concat y) (b * n + j) = at_ (nth b y []) j.
Proof.
  induction y as [|r y IH]; intros b j H Hb Hj; [cbn in Hb; lia|]. inversion H; subst. cbn [List.concat]. rewrite at_app. destruct b as [|b].
  - cbn [Nat.mul Nat.add nth]. destruct (Nat.ltb_spec j (length r)); [reflexivity|lia].
  - destruct (Nat.ltb_spec (S b * length r + j) (length r)); [lia|]. cbn [nth]. rewrite <- (IH b j) by (assumption || (cbn in Hb; lia)). f_equal. lia.
Qed.

Theorem forward_plain bank K x y : convolve bank K x = Ok y ->
  forward bank K x false = Ok (Some (map (fun r => firstn (length x) (map log_magnitude1 r)) y)).
Proof. intros H. unfold forward. rewrite H. cbn [bind option_map]. unfold log_magnitude. now rewrite map_map. Qed.

(** normalised: the mean and deviation of all positions of all bands, of which an even
    kernel gives one more than is returned *)
Theorem forward_normalized bank K x y : convolve bank K x = Ok y -> Forall (fun f => length f = K) bank -> (0 < K <= length x + 2 * (K / 2))%nat ->
  let m := (if Nat.even K then length x + 1 else length x)%nat in
  let all := List.concat (log_magnitude y) in
  (2 <= length bank * m)%nat ->
  exists sd z, std all = Some sd /\ forward bank K x true = Ok (Some z) /\ length z = length bank /\ length all = (length bank * m)%nat /\
    (forall b j, (b < length bank)%nat -> (j < m)%nat -> at_ all (b * m + j) = log_magnitude1 (at_ (nth b y []) j)) /\
    forall b, (b < length bank)%nat -> length (nth b z []) = length x /\
      forall j, (j < length x)%nat -> at_ (nth b z []) j = (log_magnitude1 (at_ (nth b y []) j) - mean all) / (sd + / 10 ^ 8).
Proof.
  intros HY HF HK m all HM. destruct (convolve_spec bank K x HF HK) as (y' & Y1 & Y2 & Y3). rewrite HY in Y1. injection Y1 as <-.
  assert (MX : (length x <= m)%nat) by (unfold m; destruct (Nat.even K); lia).
  assert (LL : length (log_magnitude y) = length bank) by (unfold log_magnitude; rewrite map_length; exact Y2).
  assert (FM : Forall (fun r => length r = m) (log_magnitude y)).
  { apply Forall_forall. intros r Hr. unfold log_magnitude in Hr. apply in_map_iff in Hr as (q & <- & Hq). rewrite map_length. apply (In_nth _ _ []) in Hq as (b & Hb & <-). rewrite Y2 in Hb. apply (Y3 b Hb). }
  assert (AL : length all = (length bank * m)%nat) by (unfold all; rewrite (concat_length_n m _ FM), LL; reflexivity).
  assert (AN : forall b j, (b < length bank)%nat -> (j < m)%nat -> at_ all (b * m + j) = log_magnitude1 (at_ (nth b y []) j)).
  { intros b j Hb Hj. unfold all. rewrite (concat_nth m) by (assumption || (rewrite LL; exact Hb)). unfold log_magnitude. rewrite (nth_map_in _ _ _ _ []) by (rewrite Y2; exact Hb). rewrite at_map; [reflexivity|]. rewrite (proj1 (Y3 b Hb)). exact Hj. }
  assert (B2 : Nat.leb (length all) 1 = false) by (apply Nat.leb_gt; lia).
  set (c := map (fun v => v - mean all) all).
  assert (B3 : Nat.leb (length c) 1 = false) by (unfold c; rewrite map_length; exact B2).
  destruct (std all) as [sd|] eqn:SD; [|unfold std in SD; rewrite B2 in SD; discriminate].
  assert (SC : std c = Some sd).
  { rewrite <- SD. unfold std. rewrite B2, B3. f_equal. f_equal. f_equal; [|unfold c; now rewrite map_length]. unfold c at 1. rewrite map_length. apply rsum_ext. intros i Hi.
    assert (MC : mean c = 0). { unfold c, mean. rewrite map_length. assert (IN : 0 < INR (length all)) by (apply lt_0_INR; lia). rewrite (rsum_ext _ _ (fun i => at_ all i + - mean all)). 2:{ intros k Hk. rewrite at_map by exact Hk. reflexivity. } rewrite rsum_plus, rsum_const. unfold mean. field. lra. }
    rewrite MC. unfold c. rewrite at_map by exact Hi. ring. }
  assert (BM : batchwise_mean_std (/ 10 ^ 8) all = Some (map (fun v => v / (sd + / 10 ^ 8)) c)) by (unfold batchwise_mean_std; fold c; rewrite SC; reflexivity).
  assert (HD : bank <> [] -> length (hd [] (log_magnitude y)) = m).
  { intros _. destruct (log_magnitude y) as [|r q] eqn:E. - cbn in LL. lia. - apply (Forall_inv FM). }
  exists sd. eexists. split; [reflexivity|]. split.
  - unfold forward. rewrite HY. cbn [bind]. fold all. rewrite BM. cbn [option_map]. rewrite HD by (intros ->; cbn in HM; lia). rewrite LL. reflexivity.
  - split; [rewrite map_length; apply rows_of_length|]. split; [exact AL|]. split; [exact AN|]. intros b Hb.
    rewrite (nth_map_in _ _ _ _ []) by (rewrite rows_of_length; exact Hb). rewrite rows_of_nth by exact Hb. rewrite firstn_firstn, Nat.min_l by exact MX.
    assert (BL : (b * m + m <= length all)%nat) by (rewrite AL; nia).
    assert (CL : length (map (fun v => v / (sd + / 10 ^ 8)) c) = length all) by (unfold c; rewrite !map_length; reflexivity).
    split; [rewrite firstn_length, skipn_length, CL; lia|].
    intros j Hj. unfold at_ at 1. rewrite nth_first by exact Hj. rewrite nth_skip. change (at_ (map (fun v => v / (sd + / 10 ^ 8)) c) (b * m + j) = (log_magnitude1 (at_ (nth b y []) j) - mean all) / (sd + / 10 ^ 8)).
    rewrite at_map by (unfold c; rewrite map_length; lia). unfold c. rewrite at_map by lia. rewrite AN by lia. reflexivity.
Qed.
(** hence with an odd kernel the values of one signal average to nought *)
Theorem forward_odd_mean bank K x y z : convolve bank K x = Ok y -> Forall (fun f => length f = K) bank -> (0 < K <= length x + 2 * (K / 2))%nat ->
  Nat.even K = false -> (2 <= length bank * length x)%nat -> forward bank K x true = Ok (Some z) ->
  rsum (length bank) (fun b => rsum (length x) (fun j => at_ (nth b z []) j)) = 0.
Proof.
  intros HY HF HK HE HM HZ. destruct (forward_normalized bank K x y HY HF HK) as (sd & z' & SD & Z1 & Z2 & AL & AN & Z3); [rewrite HE; exact HM|]. rewrite HE in *. rewrite HZ in Z1. injection Z1 as <-.
  set (all := List.concat (log_magnitude y)) in *.
  rewrite (rsum_ext _ _ (fun b => rsum (length x) (fun j => / (sd + / 10 ^ 8) * (at_ all (b * length x + j) - mean all)))).
  2:{ intros b Hb. apply rsum_ext. intros j Hj. rewrite (proj2 (Z3 b Hb) j Hj). rewrite AN by assumption. unfold Rdiv. ring. }
  rewrite (rsum_ext _ _ (fun b => / (sd + / 10 ^ 8) * rsum (length x) (fun j => at_ all (b * length x + j) - mean all))) by (intros b _; apply rsum_scale). rewrite rsum_scale.
  assert (E : rsum (length bank) (fun b => rsum (length x) (fun j => at_ all (b * length x + j) - mean all)) = rsum (length all) (fun i => at_ all i - mean all)).
  { rewrite AL. now rewrite (rsum_nested (length bank) (length x) (fun i => at_ all i - mean all)). }
  rewrite E. assert (IN : 0 < INR (length all)) by (apply lt_0_INR; rewrite AL; lia).
  assert (Q : rsum (length all) (fun i => at_ all i - mean all) = 0). { unfold Rminus. rewrite rsum_plus, rsum_const. unfold mean. field. lra. } rewrite Q. ring.
Qed.
(** ** fir_filter_bank *)
Lemma nondecreasing_spec l : (forall i, (S i < length l)%nat -> nth i l 0 <= nth (S i) l 0) -> nondecreasing l = true.
Proof.
  induction l as [|x [|y r] IH]; intros H; [reflexivity|reflexivity|]. cbn [nondecreasing]. pose proof (H 0%nat ltac:(cbn; lia)) as H0. cbn in H0. destruct (Rlt_dec y x); [lra|]. cbn [andb]. apply IH. intros i Hi. apply (H (S i)). cbn in *. lia.
Qed.
Lemma no_triple_spec l : (forall i, (S (S i) < length l)%nat -> nth i l 0 < nth (S (S i)) l 0) -> no_triple l = true.
Proof.
  induction l as [|x [|y [|z r]] IH]; intros H; [reflexivity|reflexivity|reflexivity|]. cbn [no_triple]. pose proof (H 0%nat ltac:(cbn; lia)) as H0. cbn in H0.
  assert (E : (if Req_EM_T x y then if Req_EM_T y z then false else true else true) = true). { destruct (Req_EM_T x y); [|reflexivity]. destruct (Req_EM_T y z); [lra|reflexivity]. }
  rewrite E. cbn [andb]. apply IH. intros i Hi. apply (H (S i)). cbn in *. lia.
Qed.

Theorem fir_request_spec nyq lo hi win : 0 < nyq -> lo < nyq -> 0 < hi -> lo < hi ->
  let a := Rmax 0 lo in let b := Rmin nyq hi in
  let '(freqs, gains) := fir_request nyq lo hi win in
  firwin2_accepts freqs gains = true /\ length freqs = (length win + 2)%nat /\
  hd 1 gains = 0 /\ last gains 1 = 0 /\
  forall k, (k < length win)%nat -> nth (S k) freqs 0 = (a + INR k * ((b - a) / INR (length win))) / nyq /\ nth (S k) gains 0 = nth k win 0 /\
    0 <= nth (S k) freqs 0 < b / nyq.
Proof.
  intros HN H1 H2 H3 a b. unfold fir_request. cbv zeta. fold a b. set (n := length win).
  assert (A0 : 0 <= a) by apply Rmax_l. assert (AB : a < b). { unfold a, b. apply Rmin_glb_lt; apply Rmax_lub_lt; lra. } assert (BN : b <= nyq) by apply Rmin_l.
  set (d := (b / nyq - a / nyq) / INR n).
  set (F := ([0] ++ map (fun k => a / nyq + INR k * d) (seq 0 n) ++ [1])%list).
  assert (LF : length F = (n + 2)%nat) by (unfold F; rewrite !app_length, map_length, seq_length; cbn; lia).
  assert (AN : 0 <= a / nyq) by (apply Rmult_le_pos; [exact A0|left; now apply Rinv_0_lt_compat]).
  assert (BN1 : b / nyq <= 1). { apply (Rmult_le_reg_r nyq); [exact HN|]. unfold Rdiv. rewrite Rmult_assoc, Rinv_l by lra. lra. }
  assert (ABN : a / nyq < b / nyq) by (unfold Rdiv; apply Rmult_lt_compat_r; [now apply Rinv_0_lt_compat|exact AB]).
  assert (DP : (0 < n)%nat -> 0 < d). { intros Hn. unfold d. apply Rdiv_lt_0_compat; [lra|]. now apply lt_0_INR. }
  assert (FM : forall k, (k < n)%nat -> nth (S k) F 0 = a / nyq + INR k * d).
  { intros k Hk. unfold F. cbn [List.app nth]. rewrite app_nth1 by (rewrite map_length, seq_length; exact Hk). now rewrite nth_map_seq. }
  assert (FL : nth (S n) F 0 = 1). { unfold F. cbn [List.app nth]. rewrite app_nth2 by (rewrite map_length, seq_length; lia). rewrite map_length, seq_length, Nat.sub_diag. reflexivity. }
  assert (F0 : nth 0 F 0 = 0) by reflexivity.
  assert (UP : forall k, (k < n)%nat -> a / nyq + INR k * d < b / nyq).
  { intros k Hk. assert (IN : 0 < INR n) by (apply lt_0_INR; lia). assert (KN : INR k < INR n) by now apply lt_INR. assert (E : b / nyq = a / nyq + INR n * d) by (unfold d; field; split; lra). rewrite E. specialize (DP ltac:(lia)). nra. }
  assert (LO : forall k, (k < n)%nat -> 0 <= a / nyq + INR k * d). { intros k Hk. specialize (DP ltac:(lia)). pose proof (pos_INR k). nra. }
  split; [|split; [exact LF|split; [reflexivity|split]]].
  - unfold firwin2_accepts. rewrite LF. replace (length ([0] ++ win ++ [0])) with (n + 2)%nat by (rewrite !app_length; fold n; cbn; lia). rewrite Nat.eqb_refl.
    replace (hd 1 F) with 0 by reflexivity. destruct (Req_EM_T 0 0); [|lra].
    assert (LS : last F 0 = 1). { unfold F. rewrite app_assoc. apply last_last. } rewrite LS. destruct (Req_EM_T 1 1); [|lra]. cbn [andb].
    rewrite nondecreasing_spec, no_triple_spec; [reflexivity| |].
    + intros i Hi. rewrite LF in Hi. destruct i as [|i].
      * rewrite F0. destruct (Nat.eq_dec n 0) as [N0|N0]; [lia|]. destruct (Nat.eq_dec n 1) as [N1|N1]; [rewrite <- N1, FL; lra|]. rewrite FM by lia. specialize (DP ltac:(lia)). change (INR 1) with 1. lra.
      * rewrite FM by lia. destruct (Nat.eq_dec (S (S i)) n) as [E|E]; [rewrite E, FL; specialize (UP i ltac:(lia)); lra|]. rewrite FM by lia. rewrite !S_INR. specialize (DP ltac:(lia)). lra.
    + intros i Hi. rewrite LF in Hi. destruct i as [|i].
      * rewrite F0. destruct (Nat.eq_dec n 0) as [N0|N0]; [rewrite <- N0, FL; lra|]. rewrite FM by lia. change (INR 0) with 0. lra.
      * rewrite FM by lia. destruct (Nat.eq_dec (S i) n) as [E|E]; [rewrite E, FL; specialize (UP i ltac:(lia)); lra|]. rewrite FM by lia. rewrite S_INR. specialize (DP ltac:(lia)). lra.
  - rewrite app_assoc. apply last_last.
  - intros k Hk. rewrite FM by exact Hk. split; [unfold d; assert (INR n <> 0) by (apply not_0_INR; lia); field; split; lra|].
    split; [cbn [List.app nth]; now rewrite app_nth1|]. split; [now apply LO|now apply UP].
Qed.
(** a band above the Nyquist frequency is refused *)
Theorem fir_above_nyquist nyq lo hi win : 0 < nyq -> nyq < lo -> lo < hi -> win <> [] ->
  let '(freqs, gains) := fir_request nyq lo hi win in firwin2_accepts freqs gains = false.
Proof.
  intros HN H1 H2 HW. unfold fir_request. cbv zeta. rewrite Rmax_right by lra. rewrite Rmin_left by lra. set (n := length win). assert (Hn : (0 < n)%nat) by (unfold n; destruct win; [congruence|cbn; lia]).
  set (d := (nyq / nyq - lo / nyq) / INR n).
  assert (L1 : 1 < lo / nyq). { apply (Rmult_lt_reg_r nyq); [exact HN|]. unfold Rdiv. rewrite Rmult_assoc, Rinv_l by lra. lra. }
  assert (ND : forall l m, m = last l 2 -> 1 < m -> nondecreasing (l ++ [1]) = false \/ l = []).
  { induction l as [|x [|y r] IH]; intros m Hm Hl; [now right| |].
    - left. cbn in *. destruct (Rlt_dec 1 x); [reflexivity|lra].
    - left. destruct (IH m) as [E|E]; [exact Hm|exact Hl| |discriminate]. change (nondecreasing ((x :: y :: r) ++ [1])) with ((if Rlt_dec y x then false else true) && nondecreasing ((y :: r) ++ [1]))%bool. rewrite E. apply Bool.andb_false_r. }
  assert (LV : last ([0] ++ map (fun k => lo / nyq + INR k * d) (seq 0 n)) 2 = lo / nyq + INR (n - 1) * d).
  { replace n with (S (n - 1)) by lia. rewrite seq_S, map_app, app_assoc. cbn [map]. rewrite last_last. do 3 f_equal. lia. }
  unfold firwin2_accepts. rewrite app_assoc. destruct (ND ([0] ++ map (fun k => lo / nyq + INR k * d) (seq 0 n))%list _ eq_refl) as [E|E].
  - rewrite LV. assert (IN : 0 < INR n) by now apply lt_0_INR. assert (E : lo / nyq + INR n * d = 1) by (unfold d; field; split; lra).
    replace (INR n) with (INR (n - 1) + 1) in E by (rewrite <- S_INR; f_equal; lia). assert (d < 0); [|lra]. unfold d. replace (nyq / nyq) with 1 by (field; lra). apply (Rmult_lt_reg_r (INR n)); [exact IN|]. unfold Rdiv. rewrite Rmult_assoc, Rinv_l by lra. lra.
  - rewrite E. rewrite Bool.andb_false_r. reflexivity.
  - discriminate.
Qed.
Theorem fir_requests_spec nyq bands w : let ws := match w with Shared v => repeat v (length bands) | Each l => l end in
  length (fir_requests nyq bands w) = Nat.min (length bands) (length ws) /\
  forall i b v, nth_error bands i = Some b -> nth_error ws i = Some v -> nth_error (fir_requests nyq bands w) i = Some (fir_request nyq (fst b) (snd b) v).
Proof.
  intros ws. unfold fir_requests. fold ws. rewrite map_length, combine_length. split; [reflexivity|]. generalize ws. clear ws. induction bands as [|c bands IH]; intros ws i b v Hb Hv; [destruct i; discriminate|]. destruct ws as [|u ws]; [destruct i; discriminate|].
  destruct i as [|i]; [injection Hb as <-; injection Hv as <-; reflexivity|]. cbn [combine map nth_error]. now apply IH.
Qed.

(** ** auto_correlogram *)
Lemma cos_sum_full theta n : 2 * sin (theta / 2) * rsum n (fun k => cos (INR k * theta)) = sin ((INR n - / 2) * theta) + sin (theta / 2).
Proof.
  induction n as [|n IH]; [cbn [rsum INR]; replace ((0 - / 2) * theta) with (- (theta / 2)) by field; rewrite sin_neg; ring|].
  cbn [rsum]. rewrite Rmult_plus_distr_l, IH, S_INR. replace ((INR n + 1 - / 2) * theta) with (INR n * theta + theta / 2) by field. replace ((INR n - / 2) * theta) with (INR n * theta - theta / 2) by field. rewrite sin_plus, sin_minus. ring.
Qed.
Lemma sin_sum_full theta n : 2 * sin (theta / 2) * rsum n (fun k => sin (INR k * theta)) = cos (theta / 2) - cos ((INR n - / 2) * theta).
Proof.
  induction n as [|n IH]; [cbn [rsum INR]; replace ((0 - / 2) * theta) with (- (theta / 2)) by field; rewrite cos_neg; ring|].
  cbn [rsum]. rewrite Rmult_plus_distr_l, IH, S_INR. replace ((INR n + 1 - / 2) * theta) with (INR n * theta + theta / 2) by field. replace ((INR n - / 2) * theta) with (INR n * theta - theta / 2) by field. rewrite cos_plus, cos_minus. ring.
Qed.
(** sums over all the roots of unity *)
Lemma roots h d : (0 < h)%nat -> let n := (2 * h)%nat in
  rsum n (fun k => cos (2 * PI * INR k * IZR d / INR n)) = (if (d mod Z.of_nat n =? 0)%Z then INR n else 0) /\
  rsum n (fun k => sin (2 * PI * INR k * IZR d / INR n)) = 0.
Proof.
  intros Hh n. assert (IH : 0 < INR h) by (apply lt_0_INR; lia). assert (NE : INR n = 2 * INR h) by (unfold n; rewrite mult_INR; reflexivity).
  set (theta := 2 * PI * IZR d / INR n).
  assert (C : forall k, 2 * PI * INR k * IZR d / INR n = INR k * theta) by (intros k; unfold theta; field; rewrite NE; lra).
  rewrite (rsum_ext _ _ (fun k => cos (INR k * theta))) by (intros k _; now rewrite C). rewrite (rsum_ext n (fun k => sin _) (fun k => sin (INR k * theta))) by (intros k _; now rewrite C).
  destruct (Z.eqb_spec (d mod Z.of_nat n) 0) as [E|E].
  - apply Z.mod_divide in E as [q Q]; [|lia].
    assert (T : forall k, INR k * theta = 0 + 2 * IZR (Z.of_nat k * q) * PI). { intros k. unfold theta. rewrite Q, !mult_IZR, <- !INR_IZR_INZ. field. rewrite NE. lra. }
    split.
    + rewrite (rsum_ext _ _ (fun _ => 1)); [rewrite rsum_const; ring|]. intros k _. rewrite T, cos_period_Z. apply cos_0.
    + apply rsum_zero. intros k _. rewrite T, sin_period_Z. apply sin_0.
  - assert (SN : sin (theta / 2) <> 0). { replace (theta / 2) with (PI / INR h * IZR d / 2) by (unfold theta; rewrite NE; field; lra). apply sin_half_nonzero; [exact Hh|]. unfold n in E. rewrite Nat2Z.inj_mul in E. exact E. }
    assert (W : (INR n - / 2) * theta = - (theta / 2) + 2 * IZR d * PI) by (unfold theta; field; rewrite NE; lra).
    pose proof (cos_sum_full theta n) as A. pose proof (sin_sum_full theta n) as B. rewrite W in A, B. rewrite sin_period_Z, sin_neg in A. rewrite cos_period_Z, cos_neg in B.
    split; [apply (Rmult_eq_reg_l (2 * sin (theta / 2))); [rewrite A; ring|]|apply (Rmult_eq_reg_l (2 * sin (theta / 2))); [rewrite B; ring|]]; intros Z; apply SN; lra.
Qed.

(** the autocorrelation of the samples of a window at a lag *)
Definition autocorrelation (s : list R) (lag : Z) : R := rsum (length s) (fun m => ext s (Z.of_nat m) * ext s (Z.of_nat m + lag)).

Lemma power_fft n (a : nat -> R) k : (0 < n)%nat ->
  power2 (cscale (/ sqrt (INR n)) (fft n n (fun t => (a t, 0)) k)) =
  / INR n * rsum n (fun i => rsum n (fun j => a i * a j * cos (2 * PI * INR k * IZR (Z.of_nat i - Z.of_nat j) / INR n))).
Proof.
  intros Hn. assert (IN : 0 < INR n) by now apply lt_0_INR. unfold power2, cscale, fft. cbn [fst snd]. rewrite csum_fst, csum_snd. unfold cmul, cexp_neg. cbn [fst snd].
  set (ang := fun t => 2 * PI * INR k * INR t / INR n).
  rewrite (rsum_ext _ _ (fun t => a t * cos (ang t))) by (intros; unfold ang; ring). rewrite (rsum_ext n (fun i => a i * - sin _ + _) (fun t => - (a t * sin (ang t)))) by (intros; unfold ang; ring).
  set (P := rsum n (fun t => a t * cos (ang t))). set (Q := rsum n (fun t => - (a t * sin (ang t)))).
  transitivity (/ INR n * (P * P + Q * Q)). { rewrite <- (sqrt_inv_sq n Hn). ring. }
  f_equal.
  rewrite (rsum_ext n _ (fun i => a i * cos (ang i) * P + - (a i * sin (ang i)) * Q)).
  - rewrite rsum_plus. f_equal; rewrite (rsum_ext n _ (fun i => _ * _)) by (intros; reflexivity).
    + rewrite (rsum_ext _ _ (fun i => P * (a i * cos (ang i)))) by (intros; ring). now rewrite rsum_scale.
    + rewrite (rsum_ext _ _ (fun i => Q * - (a i * sin (ang i)))) by (intros; ring). now rewrite rsum_scale.
  - intros i _. unfold P, Q. rewrite <- !rsum_scale. rewrite <- rsum_plus. apply rsum_ext. intros j _.
    replace (2 * PI * INR k * IZR (Z.of_nat i - Z.of_nat j) / INR n) with (ang i - ang j) by (unfold ang; rewrite minus_IZR, <- !INR_IZR_INZ; field; lra). rewrite cos_minus. ring.
Qed.

Lemma circular h (a : nat -> R) l : (0 < h)%nat -> let n := (2 * h)%nat in
  csum n (fun k => cscale (/ INR n * rsum n (fun i => rsum n (fun j => a i * a j * cos (2 * PI * INR k * IZR (Z.of_nat i - Z.of_nat j) / INR n))))
                          (cexp_neg (- (2 * PI * INR k * INR l / INR n)))) =
  (/ 2 * rsum n (fun i => rsum n (fun j => a i * a j * ((if ((Z.of_nat i - Z.of_nat j + Z.of_nat l) mod Z.of_nat n =? 0)%Z then 1 else 0) + (if ((Z.of_nat i - Z.of_nat j - Z.of_nat l) mod Z.of_nat n =? 0)%Z then 1 else 0)))), 0).
Proof.
  intros Hh n. assert (Hn : (0 < n)%nat) by (unfold n; lia). assert (IN : 0 < INR n) by now apply lt_0_INR.
  assert (M : forall g, rsum n (fun k => / INR n * rsum n (fun i => rsum n (fun j => a i * a j * cos (2 * PI * INR k * IZR (Z.of_nat i - Z.of_nat j) / INR n))) * g k) =
              / INR n * rsum n (fun i => rsum n (fun j => a i * a j * rsum n (fun k => cos (2 * PI * INR k * IZR (Z.of_nat i - Z.of_nat j) / INR n) * g k)))).
  { intros g. rewrite (rsum_ext n _ (fun k => / INR n * (rsum n (fun i => rsum n (fun j => a i * a j * (cos (2 * PI * INR k * IZR (Z.of_nat i - Z.of_nat j) / INR n) * g k)))))).
    - rewrite rsum_scale. f_equal. rewrite rsum_swap. apply rsum_ext. intros i _. rewrite rsum_swap. apply rsum_ext. intros j _. now rewrite rsum_scale.
    - intros k _. rewrite Rmult_assoc. f_equal. rewrite Rmult_comm, <- rsum_scale. apply rsum_ext. intros i _. rewrite <- rsum_scale. apply rsum_ext. intros j _. ring. }
  apply injective_projections; cbn [fst snd].
  - rewrite csum_fst. unfold cscale, cexp_neg. cbn [fst snd]. rewrite M. replace (/ 2) with (/ INR n * (INR n / 2)) by (field; lra). rewrite Rmult_assoc. f_equal. rewrite <- rsum_scale. apply rsum_ext. intros i _. rewrite <- rsum_scale. apply rsum_ext. intros j _.
    set (d := (Z.of_nat i - Z.of_nat j)%Z). destruct (roots h (d + Z.of_nat l) Hh) as [R1 _]. destruct (roots h (d - Z.of_nat l) Hh) as [R2 _]. fold n in R1, R2.
    rewrite (rsum_ext n _ (fun k => / 2 * (cos (2 * PI * INR k * IZR (d + Z.of_nat l) / INR n) + cos (2 * PI * INR k * IZR (d - Z.of_nat l) / INR n)))).
    + rewrite rsum_scale, rsum_plus. rewrite R1, R2. destruct ((d + Z.of_nat l) mod Z.of_nat n =? 0)%Z; destruct ((d - Z.of_nat l) mod Z.of_nat n =? 0)%Z; field.
    + intros k _. rewrite cos_neg, cos_product. f_equal. rewrite Rplus_comm. f_equal; f_equal; rewrite ?plus_IZR, ?minus_IZR, <- !INR_IZR_INZ; field; lra.
  - rewrite csum_snd. unfold cscale, cexp_neg. cbn [fst snd]. rewrite M. rewrite rsum_zero; [ring|]. intros i _. apply rsum_zero. intros j _. set (d := (Z.of_nat i - Z.of_nat j)%Z). destruct (roots h (d + Z.of_nat l) Hh) as [_ R1]. destruct (roots h (d - Z.of_nat l) Hh) as [_ R2]. fold n in R1, R2.
    rewrite (rsum_ext n _ (fun k => / 2 * (sin (2 * PI * INR k * IZR (d + Z.of_nat l) / INR n) + - 1 * sin (2 * PI * INR k * IZR (d - Z.of_nat l) / INR n)))).
    + rewrite rsum_scale, rsum_plus, rsum_scale. rewrite R1, R2. ring.
    + intros k _. rewrite sin_neg. set (A := 2 * PI * INR k * IZR d / INR n). set (B := 2 * PI * INR k * INR l / INR n).
      replace (2 * PI * INR k * IZR (d + Z.of_nat l) / INR n) with (A + B) by (unfold A, B; rewrite plus_IZR, <- !INR_IZR_INZ; field; lra).
      replace (2 * PI * INR k * IZR (d - Z.of_nat l) / INR n) with (A - B) by (unfold A, B; rewrite minus_IZR, <- !INR_IZR_INZ; field; lra). rewrite sin_plus, sin_minus. field.
Qed.
Lemma ext_nat_zero s i : (length s <= i)%nat -> at_ s i = 0.
Proof. intros H. unfold at_. now apply nth_overflow. Qed.

(** entry l of the inverse transform is the autocorrelation at lag l, or l - 2W *)
Lemma circular_lag W s l d : length s = W -> (0 < W)%nat -> (l < 2 * W)%nat -> (d = Z.of_nat l \/ d = Z.of_nat l - 2 * Z.of_nat W)%Z -> (- Z.of_nat W <= d <= Z.of_nat W)%Z ->
  let a := at_ (s ++ repeat 0 W) in let n := (2 * W)%nat in
  / 2 * rsum n (fun i => rsum n (fun j => a i * a j * ((if ((Z.of_nat i - Z.of_nat j + Z.of_nat l) mod Z.of_nat n =? 0)%Z then 1 else 0) + (if ((Z.of_nat i - Z.of_nat j - Z.of_nat l) mod Z.of_nat n =? 0)%Z then 1 else 0)))) =
  autocorrelation s d.
Proof.
  intros HL HW Hl Hd Hb a n.
  assert (AE : forall i, (i < W)%nat -> a i = at_ s i). { intros i Hi. unfold a. rewrite at_app, HL. destruct (Nat.ltb_spec i W); [reflexivity|lia]. }
  assert (AZ : forall i, (W <= i)%nat -> a i = 0). { intros i Hi. unfold a. rewrite at_app, HL. destruct (Nat.ltb_spec i W); [lia|]. unfold at_. destruct (Nat.lt_ge_cases (i - W) W); [apply nth_repeat|apply nth_overflow; rewrite repeat_length; lia]. }
  assert (T : forall c, rsum n c = rsum W c + rsum W (fun i => c (W + i)%nat)). { intros c. unfold n. replace (2 * W)%nat with (W + W)%nat by lia. apply rsum_app. }
  set (ind := fun (z : Z) => if (z mod Z.of_nat n =? 0)%Z then 1 else 0).
  set (A := fun i j : nat => if (Z.of_nat j =? Z.of_nat i + d)%Z then 1 else 0).
  assert (E1 : forall i j, (i < W)%nat -> (j < W)%nat -> ind (Z.of_nat i - Z.of_nat j + Z.of_nat l)%Z = A i j).
  { intros i j Hi Hj. unfold ind, A. destruct (Z.eqb_spec ((Z.of_nat i - Z.of_nat j + Z.of_nat l) mod Z.of_nat n) 0) as [M|M]; destruct (Z.eqb_spec (Z.of_nat j) (Z.of_nat i + d)) as [Q|Q]; try reflexivity.
    - exfalso. apply Z.mod_divide in M as [q Hq]; [|lia]. unfold n in Hq. rewrite Nat2Z.inj_mul in Hq. change (Z.of_nat 2) with 2%Z in Hq.
      assert (q = 0 \/ q = 1)%Z as [-> | ->] by nia; lia.
    - exfalso. apply M. apply Z.mod_divide; [lia|]. unfold n. rewrite Nat2Z.inj_mul. change (Z.of_nat 2) with 2%Z. destruct Hd; [exists 0%Z|exists 1%Z]; lia. }
  assert (E2 : forall i j, (i < W)%nat -> (j < W)%nat -> ind (Z.of_nat i - Z.of_nat j - Z.of_nat l)%Z = A j i).
  { intros i j Hi Hj. rewrite <- (E1 j i Hj Hi). unfold ind. replace (Z.of_nat i - Z.of_nat j - Z.of_nat l)%Z with (- (Z.of_nat j - Z.of_nat i + Z.of_nat l))%Z by lia. set (z := (Z.of_nat j - Z.of_nat i + Z.of_nat l)%Z).
    destruct (Z.eqb_spec (z mod Z.of_nat n) 0) as [M|M]; destruct (Z.eqb_spec (- z mod Z.of_nat n) 0) as [M'|M']; try reflexivity; exfalso.
    - apply M'. apply Z.mod_divide; [lia|]. apply Z.divide_opp_r. apply Z.mod_divide; [lia|exact M].
    - apply M. apply Z.mod_divide; [lia|]. apply Z.divide_opp_r. apply Z.mod_divide in M'; [exact M'|lia]. }
  assert (S2 : forall c : nat -> nat -> R, rsum n (fun i => rsum n (fun j => a i * a j * c i j)) = rsum W (fun i => rsum W (fun j => at_ s i * at_ s j * c i j))).
  { intros c. rewrite T. rewrite (rsum_zero W (fun i => rsum n (fun j => a (W + i)%nat * a j * c (W + i)%nat j))).
    2:{ intros i _. apply rsum_zero. intros j _. rewrite (AZ (W + i)%nat) by lia. ring. }
    rewrite Rplus_0_r. apply rsum_ext. intros i Hi. rewrite T. rewrite (rsum_zero W (fun j => a i * a (W + j)%nat * c i (W + j)%nat)).
    2:{ intros j _. rewrite (AZ (W + j)%nat) by lia. ring. }
    rewrite Rplus_0_r. apply rsum_ext. intros j Hj. now rewrite !AE. }
  rewrite S2.
  assert (D : rsum W (fun i => rsum W (fun j => at_ s i * at_ s j * A i j)) = autocorrelation s d).
  { unfold autocorrelation. rewrite HL. apply rsum_ext. intros i Hi. rewrite ext_at. rewrite (rsum_ext _ _ (fun j => at_ s i * (at_ s j * A i j))) by (intros; ring). rewrite rsum_scale. f_equal. unfold A.
    destruct (Z_lt_dec (Z.of_nat i + d) 0) as [N|N].
    - rewrite ext_out by (left; exact N). apply rsum_zero. intros j Hj. destruct (Z.eqb_spec (Z.of_nat j) (Z.of_nat i + d)); [lia|ring].
    - destruct (Z_lt_dec (Z.of_nat i + d) (Z.of_nat W)) as [N'|N'].
      + rewrite (rsum_single W _ (Z.to_nat (Z.of_nat i + d))); [|lia|].
        * destruct (Z.eqb_spec (Z.of_nat (Z.to_nat (Z.of_nat i + d))) (Z.of_nat i + d)); [|lia]. rewrite <- (ext_at s). rewrite Z2Nat.id by lia. ring.
        * intros j Hj Hne. destruct (Z.eqb_spec (Z.of_nat j) (Z.of_nat i + d)); [lia|ring].
      + rewrite ext_out by (right; lia). apply rsum_zero. intros j Hj. destruct (Z.eqb_spec (Z.of_nat j) (Z.of_nat i + d)); [lia|ring]. }
  assert (D' : rsum W (fun i => rsum W (fun j => at_ s i * at_ s j * A j i)) = autocorrelation s d).
  { rewrite <- D. rewrite rsum_swap. apply rsum_ext. intros i _. apply rsum_ext. intros j _. ring. }
  rewrite (rsum_ext W _ (fun i => rsum W (fun j => at_ s i * at_ s j * A i j) + rsum W (fun j => at_ s i * at_ s j * A j i))).
  - rewrite rsum_plus, D, D'. field.
  - intros i Hi. rewrite <- rsum_plus. apply rsum_ext. intros j Hj. fold (ind (Z.of_nat i - Z.of_nat j + Z.of_nat l)%Z). fold (ind (Z.of_nat i - Z.of_nat j - Z.of_nat l)%Z). rewrite E1, E2 by assumption. ring.
Qed.

(** Entry j of a correlated window of W samples: the autocorrelation at lag j - W, over the
    square root of 2W *)
Theorem correlate_spec W s : length s = W -> (0 < W)%nat ->
  length (correlate W s) = (2 * W)%nat /\
  forall j, (j < 2 * W)%nat -> nth j (correlate W s) (0, 0) = (autocorrelation s (Z.of_nat j - Z.of_nat W) / sqrt (INR (2 * W)), 0).
Proof.
  intros HL HW. unfold correlate. set (x := (s ++ repeat 0 W)%list). assert (LX : length x = (2 * W)%nat) by (unfold x; rewrite app_length, repeat_length, HL; lia).
  assert (LF : length (map power2 (fft_ortho x)) = (2 * W)%nat) by (unfold fft_ortho; rewrite !map_length, seq_length; exact LX).
  assert (LC : length (ifft_ortho (map power2 (fft_ortho x))) = (2 * W)%nat) by (unfold ifft_ortho at 1; rewrite map_length, seq_length; exact LF).
  set (C := ifft_ortho (map power2 (fft_ortho x))) in *.
  assert (V : forall l d, (l < 2 * W)%nat -> (d = Z.of_nat l \/ d = Z.of_nat l - 2 * Z.of_nat W)%Z -> (- Z.of_nat W <= d <= Z.of_nat W)%Z -> nth l C (0, 0) = (autocorrelation s d / sqrt (INR (2 * W)), 0)).
  { intros l d Hl Hd Hb. unfold C, ifft_ortho. rewrite LF. rewrite nth_map_seq by exact Hl.
    replace (csum (2 * W) (fun k => cscale (at_ (map power2 (fft_ortho x)) k) (cexp_neg (- (2 * PI * INR k * INR l / INR (2 * W)))))) with
      (csum (2 * W) (fun k => cscale (/ INR (2 * W) * rsum (2 * W) (fun i => rsum (2 * W) (fun j => at_ x i * at_ x j * cos (2 * PI * INR k * IZR (Z.of_nat i - Z.of_nat j) / INR (2 * W))))) (cexp_neg (- (2 * PI * INR k * INR l / INR (2 * W)))))).
    - rewrite (circular W (at_ x) l HW). unfold x. rewrite (circular_lag W s l d HL HW Hl Hd Hb). unfold cscale. cbn [fst snd]. f_equal; unfold Rdiv; ring.
    - apply injective_projections; [rewrite !csum_fst|rewrite !csum_snd]; apply rsum_ext; intros k Hk;
      (assert (PK : at_ (map power2 (fft_ortho x)) k = / INR (2 * W) * rsum (2 * W) (fun i => rsum (2 * W) (fun j => at_ x i * at_ x j * cos (2 * PI * INR k * IZR (Z.of_nat i - Z.of_nat j) / INR (2 * W)))));
       [unfold at_ at 1; rewrite (nth_map_in _ _ _ _ (0, 0)) by (unfold fft_ortho; rewrite map_length, seq_length, LX; exact Hk); unfold fft_ortho; rewrite LX; rewrite nth_map_seq by exact Hk; apply power_fft; lia|now rewrite PK]). }
  split; [rewrite app_length, skipn_length, firstn_length, LC; lia|].
  intros j Hj. destruct (Nat.lt_ge_cases j W) as [A|A].
  - rewrite app_nth1 by (rewrite skipn_length, LC; lia). rewrite nth_skip. apply V; lia.
  - rewrite app_nth2 by (rewrite skipn_length, LC; lia). rewrite skipn_length, LC. replace (j - (2 * W - W))%nat with (j - W)%nat by lia. rewrite nth_first by lia. rewrite (V (j - W)%nat (Z.of_nat j - Z.of_nat W)%Z) by lia. reflexivity.
Qed.
(** which is symmetric in the lag, and nowhere larger than without a lag *)
Lemma autocorrelation_sym s d : autocorrelation s (- d) = autocorrelation s d.
Proof.
  unfold autocorrelation. set (n := length s).
  assert (G : forall e, rsum n (fun m => ext s (Z.of_nat m) * ext s (Z.of_nat m + e)) = rsum n (fun m => rsum n (fun k => if (Z.of_nat k =? Z.of_nat m + e)%Z then at_ s m * at_ s k else 0))).
  { intros e. apply rsum_ext. intros m Hm. rewrite ext_at. destruct (Z_lt_dec (Z.of_nat m + e) 0) as [N|N].
    - rewrite ext_out by (left; exact N). rewrite Rmult_0_r. symmetry. apply rsum_zero. intros k Hk. destruct (Z.eqb_spec (Z.of_nat k) (Z.of_nat m + e)); [lia|reflexivity].
    - destruct (Z_lt_dec (Z.of_nat m + e) (Z.of_nat n)) as [N'|N'].
      + rewrite (rsum_single n _ (Z.to_nat (Z.of_nat m + e))); [|lia|].
        * destruct (Z.eqb_spec (Z.of_nat (Z.to_nat (Z.of_nat m + e))) (Z.of_nat m + e)); [|lia]. rewrite <- (ext_at s (Z.to_nat _)). rewrite Z2Nat.id by lia. reflexivity.
        * intros k Hk Hne. destruct (Z.eqb_spec (Z.of_nat k) (Z.of_nat m + e)); [lia|reflexivity].
      + rewrite ext_out by (right; fold n; lia). rewrite Rmult_0_r. symmetry. apply rsum_zero. intros k Hk. destruct (Z.eqb_spec (Z.of_nat k) (Z.of_nat m + e)); [lia|reflexivity]. }
  rewrite !G. rewrite rsum_swap. apply rsum_ext. intros m _. apply rsum_ext. intros k _.
  destruct (Z.eqb_spec (Z.of_nat m) (Z.of_nat k + - d)); destruct (Z.eqb_spec (Z.of_nat k) (Z.of_nat m + d)); try lia; ring.
Qed.

Theorem auto_correlogram_spec bank K fr cw x : (0 < fr)%Z -> (fr <= cw)%Z -> (0 < K)%nat ->
  let W := Z.to_nat (cw / fr) in (K + W <= length x + 1)%nat ->
  exists out, auto_correlogram bank K fr cw x = Ok out /\ length out = (length x + 2 - K - W)%nat /\
    forall t b, (t < length out)%nat -> (b < length bank)%nat ->
      length (nth b (nth t out []) []) = (2 * W)%nat /\
      forall j, (j < 2 * W)%nat ->
        nth j (nth b (nth t out []) []) (0, 0) =
        (rsum W (fun m =>
           let band := fun u => rsum K (fun k => at_ x (u + k) * at_ (nth b bank []) k) in
           let u := (Z.of_nat m + (Z.of_nat j - Z.of_nat W))%Z in
           band (t + m)%nat * (if ((0 <=? u)%Z && (u <? Z.of_nat W)%Z)%bool then band (t + Z.to_nat u)%nat else 0)) / sqrt (INR (2 * W)), 0).
Proof.
  intros Hf Hc HK W HW. assert (W1 : (1 <= W)%nat). { unfold W. assert (1 <= cw / fr)%Z by (apply Z.div_le_lower_bound; lia). lia. }
  unfold auto_correlogram. rewrite Z.quot_div_nonneg by lia. fold W. unfold filtered. destruct (Nat.ltb_spec (length x) K); [lia|]. cbn [bind].
  set (F := map (fun t => map (fun f => rsum K (fun k => at_ x (t + k) * at_ f k)) bank) (seq 0 (length x - K + 1))).
  assert (LF : length F = (length x - K + 1)%nat) by (unfold F; rewrite map_length, seq_length; reflexivity). rewrite LF.
  destruct (Nat.ltb_spec (length x - K + 1) W); [lia|]. eexists. split; [reflexivity|]. rewrite map_length, seq_length. split; [lia|].
  intros t b Ht Hb. rewrite nth_map_seq by exact Ht. rewrite nth_map_seq by exact Hb.
  set (S := map (fun m => at_ (nth (t + m) F []) b) (seq 0 W)). assert (LS : length S = W) by (unfold S; rewrite map_length, seq_length; reflexivity).
  destruct (correlate_spec W S LS ltac:(lia)) as [A B]. split; [exact A|]. intros j Hj. rewrite B by exact Hj. f_equal. f_equal. unfold autocorrelation. rewrite LS. apply rsum_ext. intros m Hm. cbv zeta.
  assert (SV : forall u, (u < W)%nat -> at_ S u = rsum K (fun k => at_ x (t + u + k) * at_ (nth b bank []) k)).
  { intros u Hu. unfold S. rewrite at_map_seq by exact Hu. unfold F. rewrite nth_map_seq by lia. unfold at_ at 1. rewrite (nth_map_in _ _ _ _ []) by exact Hb. reflexivity. }
  rewrite ext_at, SV by exact Hm. f_equal. set (u := (Z.of_nat m + (Z.of_nat j - Z.of_nat W))%Z).
  destruct (Z.leb_spec 0 u); cbn [andb].
  - destruct (Z.ltb_spec u (Z.of_nat W)).
    + replace u with (Z.of_nat (Z.to_nat u)) at 1 by lia. rewrite ext_at. apply SV. lia.
    + apply ext_out. right. lia.
  - apply ext_out. left. lia.
Qed.
Theorem auto_correlogram_refuses bank K fr cw x : (0 < fr)%Z -> (0 <= cw)%Z -> (0 < K)%nat -> (length x + 1 < K + Z.to_nat (cw / fr) \/ length x < K)%nat -> auto_correlogram bank K fr cw x = Raise ValueError.
Proof.
  intros Hf Hc HK H. unfold auto_correlogram, filtered. rewrite Z.quot_div_nonneg by lia. destruct (Nat.ltb_spec (length x) K); [reflexivity|]. cbn [bind]. rewrite map_length, seq_length.
  destruct (Nat.ltb_spec (length x - K + 1) (Z.to_nat (cw / fr))); [reflexivity|lia].
Qed.

(** ** Cases *)
(** An even kernel: the average of what is returned for [1; 1] is not 0, since the third
    position takes part in the normalisation and is cut off *)
Theorem forward_even_refuted : exists z, forward [[1; 1]] 2 [1; 1] true = Ok (Some z) /\ at_ (nth 0 z []) 0 + at_ (nth 0 z []) 1 > 0.
Proof.
  assert (T : 0 < ln 10) by (rewrite <- ln_1; apply ln_increasing; lra).
  set (y := [[1; 2; 1]]). assert (HY : convolve [[1; 1]] 2 [1; 1] = Ok y).
  { unfold convolve, y. cbn [length Nat.div Nat.ltb Nat.leb Nat.mul Nat.add fst Nat.divmod]. unfold conv1d. cbn. do 3 f_equal; [|f_equal; [|f_equal]]; unfold at_; cbn; lra. }
  destruct (forward_normalized [[1; 1]] 2 [1; 1] y HY) as (sd & z & SD & Z1 & Z2 & AL & AN & Z3); [repeat constructor|cbn; lia|cbn; lia|].
  exists z. split; [exact Z1|]. destruct (Z3 0%nat ltac:(cbn; lia)) as [_ V]. rewrite !V by (cbn; lia).
  set (all := List.concat (log_magnitude y)) in *. cbn [y nth at_] in *.
  assert (P1 : 0 < log_magnitude1 1) by (apply (log_magnitude_spec 1 2); lra). assert (P2 : log_magnitude1 1 < log_magnitude1 2) by (apply (log_magnitude_spec 1 2); lra).
  assert (S2 : log_magnitude1 2 < 2 * log_magnitude1 1). { unfold log_magnitude1. rewrite !Rmax_left by lra. replace (1 + 2) with 3 by lra. replace (1 + 1) with 2 by lra. assert (L : ln 3 < 2 * ln 2). { replace (2 * ln 2) with (ln 2 + ln 2) by lra. rewrite <- ln_mult by lra. apply ln_increasing; lra. } apply (Rmult_lt_reg_r (ln 10)); [exact T|]. replace (20 * (ln 3 / ln 10) * ln 10) with (20 * ln 3) by (field; lra). replace (2 * (20 * (ln 2 / ln 10)) * ln 10) with (20 * (2 * ln 2)) by (field; lra). lra. }
  assert (MA : mean all = (2 * log_magnitude1 1 + log_magnitude1 2) / 3). { unfold all, y, log_magnitude. unfold mean. cbn [map List.concat List.app length rsum at_ nth]. cbn [INR]. unfold at_. cbn [nth]. field. }
  change (at_ [1; 2; 1] 0) with 1. change (at_ [1; 2; 1] 1) with 2. rewrite MA.
  assert (SP : 0 < sd + / 10 ^ 8). { assert (0 <= sd). { unfold std in SD. destruct (Nat.leb _ _); [discriminate|]. injection SD as <-. apply sqrt_pos. } assert (0 < / 10 ^ 8) by (apply Rinv_0_lt_compat; lra). lra. }
  apply Rlt_gt. unfold Rdiv. rewrite <- Rmult_plus_distr_r. apply Rmult_lt_0_compat; [lra|now apply Rinv_0_lt_compat].
Qed.
(** Row t is said to last from sample t * stride, for the pooling size; but it is an average
    that starts half the pooling size earlier: sample 1 shows in the row said to cover
    samples 2 and 3, not in that of 0 and 1 *)
Theorem transform_early_refuted : exists rows, transform [[1]; [1]] 1 1 2 2 [0; 1; 0; 0] = Ok ((2, 2)%Z, rows) /\
  at_ (nth 0 rows []) 0 = 0 /\ at_ (nth 1 rows []) 0 > 0.
Proof.
  destruct (transform_spec [[1]; [1]] 1 1 2 2 [0; 1; 0; 0]) as (rows & A & B & C); [repeat constructor|cbn; lia|cbn; lia|lia|lia|cbn; lia|].
  exists rows. split; [exact A|]. cbn [Nat.even length Nat.add Nat.mul Nat.sub] in B. change (2 / 2)%nat with 1%nat in *. assert (LR : length rows = 3%nat) by (rewrite B; reflexivity).
  assert (P1 : 0 < log_magnitude1 1) by (apply (log_magnitude_spec 1 2); lra). assert (P0 : log_magnitude1 0 = 0) by (apply (log_magnitude_spec 0 2); lra).
  assert (M : map log_magnitude1 (conv1d (1 / 2) (nth 0 [[1]; [1]] []) [0; 1; 0; 0]) = [0; log_magnitude1 1; 0; 0]).
  { unfold conv1d. cbn. unfold at_. cbn. rewrite !Rmult_1_r, !Rplus_0_l, P0. reflexivity. }
  split.
  - rewrite (proj2 (C 0%nat ltac:(rewrite LR; lia)) 0%nat ltac:(cbn; lia)). rewrite M. cbn. unfold ext, at_. cbn. lra.
  - rewrite (proj2 (C 1%nat ltac:(rewrite LR; lia)) 0%nat ltac:(cbn; lia)). rewrite M. cbn. unfold ext, at_. cbn. change (Pos.to_nat 1) with 1%nat. change (Pos.to_nat 2) with 2%nat. cbn. lra.
Qed.
(** a bank of a real size *)
Example bank_example : exists bank, morlet_filter_bank 11025 512 [440; 880] (One (1 / 4)) true = Ok bank /\ length bank = 2%nat /\
  Forall (fun f => length f = 512%nat) bank.
Proof.
  rewrite bank_factors. eexists. split; [reflexivity|]. split; [reflexivity|].
  repeat constructor; unfold band_filter; rewrite unit_row_length; apply morlet_length.
Qed.
Example correlogram_example : exists out, auto_correlogram [[1; 1]] 2 1 2 [1; 2; 3; 4] = Ok out /\ length out = 2%nat /\
  nth 2 (nth 0 (nth 0 out []) []) (0, 0) = ((3 * 3 + 5 * 5) / 2, 0).
Proof.
  destruct (auto_correlogram_spec [[1; 1]] 2 1 2 [1; 2; 3; 4]) as (out & A & B & C); [lia|lia|lia|change (Z.to_nat (2 / 1)) with 2%nat; cbn; lia|].
  exists out. change (Z.to_nat (2 / 1)) with 2%nat in *. cbn [length] in B, C. split; [exact A|]. split; [exact B|]. assert (H0 : (0 < length out)%nat) by (rewrite B; cbn; lia). rewrite (proj2 (C 0%nat 0%nat H0 ltac:(cbn; lia))) by (cbn; lia). replace (INR (2 * 2)) with (2 * 2) by (cbn; lra). rewrite sqrt_square by lra. apply (f_equal (fun v => (v / 2, 0))). cbn. unfold at_. cbn. change (Pos.to_nat 1) with 1%nat. cbn. lra.
Qed.
