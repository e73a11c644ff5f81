From Verif Require Import PyBase PyFacts PyMore Time Spectral TransformProofs ReconProofs OverlapProofs Loss LossProofs LossProofs2 LossProofs3 NetUtil NetUtilProofs FilterBank.
From Coq Require Import Reals ZArith Lia Lra Psatz.
Local Open Scope R_scope.

(** ** Specification: a signal extended by zeros in both directions, by position *)
Definition ext (x : list R) (z : Z) : R := if (0 <=? z)%Z then at_ x (Z.to_nat z) else 0.

Lemma ext_at x i : ext x (Z.of_nat i) = at_ x i.
Proof. unfold ext. destruct (Z.leb_spec 0 (Z.of_nat i)); [now rewrite Nat2Z.id|lia]. Qed.
Lemma ext_out x z : (z < 0 \/ Z.of_nat (length x) <= z)%Z -> ext x z = 0.
Proof. intros H. unfold ext. destruct (Z.leb_spec 0 z); [|reflexivity]. unfold at_. apply nth_overflow. lia. Qed.
Lemma padded_at p x i : at_ (repeat 0 p ++ x ++ repeat 0 p) i = ext x (Z.of_nat i - Z.of_nat p).
Proof.
  rewrite at_app, repeat_length. destruct (Nat.ltb_spec i p).
  - unfold at_. rewrite nth_repeat. symmetry. apply ext_out. left. lia.
  - rewrite at_app. replace (Z.of_nat i - Z.of_nat p)%Z with (Z.of_nat (i - p)) by lia. rewrite ext_at.
    destruct (Nat.ltb_spec (i - p) (length x)); [reflexivity|].
    unfold at_. rewrite (nth_overflow x) by lia. apply nth_repeat.
Qed.
Lemma padded_length p (x : list R) : length (repeat 0 p ++ x ++ repeat 0 p) = (length x + 2 * p)%nat.
Proof. rewrite !app_length, !repeat_length. lia. Qed.

(** ** Morlet filters *)
Theorem bank_factors sr K centers f norm :
  morlet_filter_bank sr K centers f norm =
  match f with
  | One s => Ok (map (fun c => (if norm then unit_row else fun r => r) (band_filter sr K c s)) centers)
  | PerBand l => if Nat.eqb (length l) (length centers)
                 then Ok (map (fun cs => (if norm then unit_row else fun r => r) (band_filter sr K (fst cs) (snd cs))) (combine centers l))
                 else Raise ValueError
  end.
Proof.
  unfold morlet_filter_bank. destruct f as [s|l]; cbn [bind].
  - assert (E : combine centers (repeat s (length centers)) = map (fun c => (c, s)) centers). { clear. induction centers as [|c r IH]; [reflexivity|]. cbn [length repeat combine map]. now rewrite IH. }
    destruct norm; rewrite E, !map_map; reflexivity.
  - destruct (Nat.eqb (length l) (length centers)); [|reflexivity]. cbn [bind]. destruct norm; [now rewrite map_map|reflexivity].
Qed.

Lemma morlet_length M w s : length (morlet_real M w s) = M.
Proof. unfold morlet_real. now rewrite map_length, seq_length. Qed.
Lemma unit_row_length r : length (unit_row r) = length r.
Proof. apply map_length. Qed.

(** the distance in samples from the middle of a filter of M taps *)
Definition from_middle (M n : nat) : R := INR n - INR (M - 1) / 2.

Lemma grid_value M s n : (2 <= M)%nat -> linspace (- s * 2 * PI) (s * 2 * PI) M n = 4 * PI * s * from_middle M n / INR (M - 1).
Proof.
  intros HM. unfold linspace, from_middle. assert (INR (M - 1) <> 0) by (apply not_0_INR; lia). field. assumption.
Qed.

Theorem morlet_value sr K c s n : (2 <= K)%nat -> (n < K)%nat -> s <> 0 -> (0 < sr)%Z ->
  let w := c / (s * 2 * IZR sr / INR K) in
  let f := c * (INR K / INR (K - 1)) in
  let t := from_middle K n in
  at_ (band_filter sr K c s) n =
  (cos (2 * PI * f * (t / IZR sr)) - exp (- (w ^ 2) / 2)) * exp (- (4 * PI * s * t / INR (K - 1)) ^ 2 / 2) * Rpower PI (- / 4).
Proof.
  intros HK Hn Hs Hsr w f t. unfold band_filter, morlet_real. rewrite at_map_seq by assumption. fold w. cbv zeta. rewrite grid_value by assumption. fold t.
  assert (INR (K - 1) <> 0) by (apply not_0_INR; lia). assert (INR K <> 0) by (apply not_0_INR; lia). assert (IZR sr <> 0) by (apply not_0_IZR; lia).
  replace (w * (4 * PI * s * t / INR (K - 1))) with (2 * PI * f * (t / IZR sr)) by (unfold w, f; field; repeat split; assumption).
  replace (- / 2 * (w * w)) with (- w ^ 2 / 2) by field.
  set (x := 4 * PI * s * t / INR (K - 1)). replace (- / 2 * (x * x)) with (- x ^ 2 / 2) by field. ring.
Qed.

(** the frequency of the carrier is not the centre of the band but c / (K - 1) above it *)
Theorem carrier_offset c K : (2 <= K)%nat -> c * (INR K / INR (K - 1)) - c = c / INR (K - 1).
Proof. intros H. assert (INR (K - 1) <> 0) by (apply not_0_INR; lia). replace (INR K) with (INR (K - 1) + 1) by (rewrite <- S_INR; f_equal; lia). field. assumption. Qed.

Theorem morlet_symmetric sr K c s n : (n < K)%nat -> at_ (band_filter sr K c s) (K - 1 - n) = at_ (band_filter sr K c s) n.
Proof.
  intros Hn. unfold band_filter, morlet_real. rewrite !at_map_seq by lia. cbv zeta. set (w := c / _).
  destruct (Nat.eq_dec K 1) as [->|H1]; [destruct n; [reflexivity|lia]|].
  rewrite !grid_value by lia. set (x := 4 * PI * s * from_middle K n / INR (K - 1)).
  replace (4 * PI * s * from_middle K (K - 1 - n) / INR (K - 1)) with (- x).
  - replace (w * - x) with (- (w * x)) by ring. rewrite cos_neg. replace (- x * - x) with (x * x) by ring. reflexivity.
  - unfold x, from_middle. rewrite (minus_INR (K - 1) n) by lia. assert (INR (K - 1) <> 0) by (apply not_0_INR; lia). field. assumption.
Qed.

Theorem unit_norm row : length (unit_row row) = length row /\ euclid (unit_row row) = euclid row / (euclid row + / 10 ^ 8) /\ euclid (unit_row row) < 1 /\
  (0 < euclid row -> 1 - euclid (unit_row row) < / 10 ^ 8 / euclid row).
Proof.
  destruct (unit_norm_batch (/ 10 ^ 8) row) as (A & B & C & _). { apply Rinv_0_lt_compat. lra. }
  change (batchwise_unit_norm (/ 10 ^ 8) row) with (unit_row row) in *. split; [exact A|]. split; [exact B|]. split; [exact C|].
  intros P. rewrite B. assert (Q : 0 < / 10 ^ 8) by (apply Rinv_0_lt_compat; lra). set (e := / 10 ^ 8) in *. set (u := euclid row) in *.
  replace (1 - u / (u + e)) with (e / (u + e)) by (field; lra). unfold Rdiv. apply Rmult_lt_compat_l; [exact Q|]. apply Rinv_lt_contravar; nra.
Qed.

(** a larger scaling factor makes the filter decay faster *)
Theorem envelope_narrows K s s' t : (2 <= K)%nat -> 0 < s < s' -> t <> 0 ->
  exp (- (4 * PI * s' * t / INR (K - 1)) ^ 2 / 2) < exp (- (4 * PI * s * t / INR (K - 1)) ^ 2 / 2).
Proof.
  intros HK [H0 H1] Ht. apply exp_increasing. assert (0 < INR (K - 1)) by (apply lt_0_INR; lia). pose proof PI_RGT_0.
  set (u := 4 * PI * t / INR (K - 1)). replace (4 * PI * s' * t / INR (K - 1)) with (s' * u) by (unfold u; field; lra). replace (4 * PI * s * t / INR (K - 1)) with (s * u) by (unfold u; field; lra).
  assert (U : u <> 0). { unfold u, Rdiv. intros E. apply Rmult_integral in E. destruct E as [E|E]; [nra|]. assert (0 < / INR (K - 1)) by (apply Rinv_0_lt_compat; lra). lra. }
  assert (0 < u * u) by nra. replace (- (s' * u) ^ 2 / 2) with (- (s' * s') * (u * u) / 2) by field. replace (- (s * u) ^ 2 / 2) with (- (s * s) * (u * u) / 2) by field. assert (s * s < s' * s') by nra. nra.
Qed.

(** a bank of one band of 2000 Hz at 12 kHz: one sample from the middle a tone of 2000 Hz
    would have fallen to 1/2 *)
Theorem carrier_refuted : let K := 3%nat in let c := 2000 in let sr := 12000%Z in
  from_middle K 2 = 1 /\ cos (2 * PI * c * (1 / IZR sr)) = / 2 /\
  exists e, at_ (band_filter sr K c 1) 2 = (0 - exp (- ((/ 4) ^ 2) / 2)) * e /\ 0 < e /\
    at_ (band_filter sr K c 1) 2 <> (/ 2 - exp (- ((/ 4) ^ 2) / 2)) * e.
Proof.
  intros K c sr. split; [unfold from_middle, K; simpl; lra|]. split.
  { unfold c, sr. replace (2 * PI * 2000 * (1 / IZR 12000)) with (PI / 3) by field. rewrite cos_PI3. lra. }
  exists (exp (- (4 * PI * 1 * 1 / 2) ^ 2 / 2) * Rpower PI (- / 4)).
  assert (P : 0 < exp (- (4 * PI * 1 * 1 / 2) ^ 2 / 2) * Rpower PI (- / 4)) by (apply Rmult_lt_0_compat; apply exp_pos).
  assert (V : at_ (band_filter sr K c 1) 2 = (0 - exp (- ((/ 4) ^ 2) / 2)) * (exp (- (4 * PI * 1 * 1 / 2) ^ 2 / 2) * Rpower PI (- / 4))).
  { rewrite morlet_value; [|unfold K; lia|unfold K; lia|lra|unfold sr; lia].
    replace (from_middle K 2) with 1 by (unfold from_middle, K; simpl; lra). unfold c, sr. replace (INR (K - 1)) with 2 by (unfold K; simpl; lra). replace (INR K) with 3 by (unfold K; simpl; lra).
    replace (2 * PI * (2000 * (3 / 2)) * (1 / 12000)) with (PI / 2) by field. rewrite cos_PI2.
    replace (2000 / (1 * 2 * 12000 / 3)) with (/ 4) by field. ring. }
  split; [exact V|]. split; [exact P|]. rewrite V. intros H. apply Rmult_eq_reg_r in H; lra.
Qed.

(** ** Convolution *)
Lemma parity K : (K = 2 * (K / 2) + if Nat.even K then 0 else 1)%nat.
Proof.
  destruct (Nat.even K) eqn:E.
  - apply Nat.even_spec in E as [h ->]. rewrite (Nat.mul_comm 2 h), Nat.div_mul by lia. lia.
  - assert (O : Nat.odd K = true) by (rewrite <- Nat.negb_even, E; reflexivity). apply Nat.odd_spec in O as [h ->]. rewrite (Nat.mul_comm 2 h), Nat.div_add_l by lia. change (1 / 2)%nat with 0%nat. lia.
Qed.
Lemma nth_map_in {A B} (f : A -> B) l i d e : (i < length l)%nat -> nth i (map f l) d = f (nth i l e).
Proof. intros H. rewrite (nth_indep _ d (f e)) by (rewrite map_length; exact H). apply map_nth. Qed.
Theorem convolve_spec bank K x : Forall (fun f => length f = K) bank -> (0 < K <= length x + 2 * (K / 2))%nat ->
  exists y, convolve bank K x = Ok y /\ length y = length bank /\
    forall b, (b < length bank)%nat ->
      length (nth b y []) = (if Nat.even K then length x + 1 else length x)%nat /\
      forall j, (j < length (nth b y []))%nat ->
        at_ (nth b y []) j = rsum K (fun k => at_ (nth b bank []) k * ext x (Z.of_nat j + Z.of_nat k - Z.of_nat (K / 2))).
Proof.
  intros HF [HK HL]. unfold convolve. destruct (Nat.ltb_spec (length x + 2 * (K / 2)) K); [lia|].
  eexists. split; [reflexivity|]. split; [apply map_length|]. intros b Hb.
  replace (nth b (map (fun f => conv1d (K / 2) f x) bank) []) with (conv1d (K / 2) (nth b bank []) x).
  2:{ now rewrite (nth_map_in _ _ _ _ []) by exact Hb. }
  assert (LF : length (nth b bank []) = K). { rewrite Forall_forall in HF. apply HF. now apply nth_In. }
  assert (EV : (K = 2 * (K / 2) + if Nat.even K then 0 else 1)%nat). { apply parity. }
  split.
  - unfold conv1d. rewrite map_length, seq_length, padded_length, LF. destruct (Nat.even K); lia.
  - intros j Hj. unfold conv1d in *. rewrite map_length, seq_length in Hj. rewrite at_map_seq by exact Hj. rewrite LF. apply rsum_ext. intros k _. rewrite padded_at. rewrite Rmult_comm. f_equal. f_equal. lia.
Qed.
Theorem convolve_refuses bank K x : (length x + 2 * (K / 2) < K)%nat -> convolve bank K x = Raise RuntimeError.
Proof. intros H. unfold convolve. destruct (Nat.ltb_spec (length x + 2 * (K / 2)) K); [reflexivity|lia]. Qed.

Lemma rsum_reverse n : forall f, rsum n f = rsum n (fun i => f (n - 1 - i)%nat).
Proof.
  induction n as [|n IH]; intros f; [reflexivity|]. rewrite (rsum_first (S n)) by lia. replace (S n - 1)%nat with n by lia. rewrite (IH (fun j => f (S j))). cbn [rsum].
  replace (n - n)%nat with 0%nat by lia. rewrite Rplus_comm. f_equal. apply rsum_ext. intros i Hi. f_equal. lia.
Qed.
(** for a filter that reads the same backwards and an odd number of taps this is the
    convolution, centred on the sample *)
Theorem convolve_is_convolution f x h j : length f = (2 * h + 1)%nat -> (forall n, (n < 2 * h + 1)%nat -> at_ f (2 * h - n) = at_ f n) -> (j < length x)%nat ->
  at_ (conv1d h f x) j = rsum (2 * h + 1) (fun k => at_ f k * ext x (Z.of_nat j - (Z.of_nat k - Z.of_nat h))).
Proof.
  intros L S Hj. unfold conv1d. rewrite at_map_seq by (rewrite padded_length, L; lia). rewrite L, rsum_reverse. apply rsum_ext. intros k Hk.
  replace (2 * h + 1 - 1 - k)%nat with (2 * h - k)%nat by lia. rewrite S by exact Hk. rewrite padded_at, Rmult_comm. f_equal. f_equal. lia.
Qed.

(** ** The transposed convolution is the adjoint *)
Lemma gather n K p m (F : nat -> R) (x : list R) y : length x = n -> (m + K = n + 2 * p + 1)%nat ->
  rsum m (fun j => rsum K (fun k => F k * ext x (Z.of_nat j + Z.of_nat k - Z.of_nat p)) * y j) =
  rsum n (fun i => at_ x i * rsum m (fun j => if (Nat.leb j (i + p) && Nat.ltb (i + p - j) K)%bool then y j * F (i + p - j)%nat else 0)).
Proof.
  intros Hn Hm.
  assert (E : forall j, (j < m)%nat -> rsum K (fun k => F k * ext x (Z.of_nat j + Z.of_nat k - Z.of_nat p)) =
              rsum n (fun i => if (Nat.leb j (i + p) && Nat.ltb (i + p - j) K)%bool then at_ x i * F (i + p - j)%nat else 0)).
  { intros j Hj.
    transitivity (rsum K (fun k => rsum n (fun i => if Nat.eqb (i + p) (j + k) then at_ x i * F k else 0))).
    - apply rsum_ext. intros k Hk. destruct (Z_lt_dec (Z.of_nat j + Z.of_nat k - Z.of_nat p) 0) as [A|A].
      + rewrite ext_out by (left; exact A). rewrite Rmult_0_r. symmetry. apply rsum_zero. intros i Hi. destruct (Nat.eqb_spec (i + p) (j + k)); [lia|reflexivity].
      + destruct (Z_lt_dec (Z.of_nat j + Z.of_nat k - Z.of_nat p) (Z.of_nat n)) as [B|B].
        * rewrite (rsum_single n _ (j + k - p)); [|lia|].
          -- destruct (Nat.eqb_spec (j + k - p + p) (j + k)); [|lia]. replace (Z.of_nat j + Z.of_nat k - Z.of_nat p)%Z with (Z.of_nat (j + k - p)) by lia. rewrite ext_at. ring.
          -- intros i Hi Hne. destruct (Nat.eqb_spec (i + p) (j + k)); [lia|reflexivity].
        * rewrite ext_out by (right; lia). rewrite Rmult_0_r. symmetry. apply rsum_zero. intros i Hi. destruct (Nat.eqb_spec (i + p) (j + k)); [lia|reflexivity].
    - rewrite rsum_swap. apply rsum_ext. intros i Hi. destruct (Nat.leb_spec j (i + p)) as [A|A]; cbn [andb].
      + destruct (Nat.ltb_spec (i + p - j) K) as [B|B].
        * rewrite (rsum_single K _ (i + p - j)); [|exact B|].
          -- destruct (Nat.eqb_spec (i + p) (j + (i + p - j))); [reflexivity|lia].
          -- intros k Hk Hne. destruct (Nat.eqb_spec (i + p) (j + k)); [lia|reflexivity].
        * apply rsum_zero. intros k Hk. destruct (Nat.eqb_spec (i + p) (j + k)); [lia|reflexivity].
      + apply rsum_zero. intros k Hk. destruct (Nat.eqb_spec (i + p) (j + k)); [lia|reflexivity]. }
  transitivity (rsum m (fun j => rsum n (fun i => at_ x i * (if (Nat.leb j (i + p) && Nat.ltb (i + p - j) K)%bool then y j * F (i + p - j)%nat else 0)))).
  - apply rsum_ext. intros j Hj. rewrite E by exact Hj. rewrite Rmult_comm, <- rsum_scale. apply rsum_ext. intros i _. destruct (_ && _)%bool; ring.
  - rewrite rsum_swap. apply rsum_ext. intros i _. now rewrite rsum_scale.
Qed.

Theorem transposed_adjoint bank K x y z : Forall (fun f => length f = K) bank -> (0 < K)%nat -> (0 < length x)%nat ->
  convolve bank K x = Ok z ->
  let m := (if Nat.even K then length x + 1 else length x)%nat in
  length (transposed_convolve bank K m y) = length x /\
  rsum (length bank) (fun b => rsum m (fun j => at_ (nth b z []) j * at_ (nth b y []) j)) =
  rsum (length x) (fun i => at_ x i * at_ (transposed_convolve bank K m y) i).
Proof.
  intros HF HK HX HZ m.
  assert (EV : (K = 2 * (K / 2) + if Nat.even K then 0 else 1)%nat). { apply parity. }
  destruct (convolve_spec bank K x HF) as (z' & Z1 & Z2 & Z3). { destruct (Nat.even K); lia. } rewrite HZ in Z1. injection Z1 as <-.
  assert (N : (m - 1 + K - 2 * (K / 2) = length x)%nat) by (unfold m; destruct (Nat.even K); lia).
  split. { unfold transposed_convolve. rewrite map_length, seq_length. exact N. }
  transitivity (rsum (length bank) (fun b => rsum (length x) (fun i => at_ x i * rsum m (fun j => if (Nat.leb j (i + K / 2) && Nat.ltb (i + K / 2 - j) K)%bool then at_ (nth b y []) j * at_ (nth b bank []) (i + K / 2 - j) else 0)))).
  - apply rsum_ext. intros b Hb. destruct (Z3 b Hb) as [L V]. rewrite <- (gather (length x) K (K / 2) m (at_ (nth b bank [])) x (at_ (nth b y []))); [|reflexivity|unfold m; destruct (Nat.even K); lia].
    apply rsum_ext. intros j Hj. rewrite V by (rewrite L; exact Hj). reflexivity.
  - rewrite rsum_swap. apply rsum_ext. intros i Hi. rewrite rsum_scale. f_equal. unfold transposed_convolve. rewrite N, at_map_seq by exact Hi. reflexivity.
Qed.

(** ** Log magnitude and pooling *)
Theorem log_magnitude_spec v v' : (v <= 0 -> log_magnitude1 v = 0) /\ (0 < v -> 0 < log_magnitude1 v) /\ (0 <= v -> Rpower 10 (log_magnitude1 v / 20) = 1 + v) /\
  (0 <= v < v' -> log_magnitude1 v < log_magnitude1 v').
Proof.
  assert (T : 0 < ln 10) by (rewrite <- ln_1; apply ln_increasing; lra). unfold log_magnitude1.
  split; [|split; [|split]].
  - intros H. rewrite Rmax_right by lra. rewrite Rplus_0_r, ln_1. unfold Rdiv. ring.
  - intros H. rewrite Rmax_left by lra. apply Rmult_lt_0_compat; [lra|]. apply Rdiv_lt_0_compat; [|exact T]. rewrite <- ln_1. apply ln_increasing; lra.
  - intros H. rewrite Rmax_left by lra. unfold Rpower. replace (20 * (ln (1 + v) / ln 10) / 20 * ln 10) with (ln (1 + v)) by (field; lra). apply exp_ln. lra.
  - intros H. rewrite !Rmax_left by lra. apply Rmult_lt_compat_l; [lra|]. unfold Rdiv. apply Rmult_lt_compat_r; [now apply Rinv_0_lt_compat|]. apply ln_increasing; lra.
Qed.

Theorem pool_spec k s row : (0 < k <= length row + 2 * (k / 2))%nat -> (0 < s)%nat ->
  length (pool1 k s row) = ((length row + 2 * (k / 2) - k) / s + 1)%nat /\
  forall j, (j < length (pool1 k s row))%nat ->
    at_ (pool1 k s row) j = rsum k (fun m => ext row (Z.of_nat (j * s) - Z.of_nat (k / 2) + Z.of_nat m)) / INR k.
Proof.
  intros Hk Hs. unfold pool1. rewrite map_length, seq_length, padded_length. split; [reflexivity|]. intros j Hj. rewrite at_map_seq by exact Hj.
  f_equal. apply rsum_ext. intros m _. rewrite padded_at. f_equal. lia.
Qed.
(** a constant signal does not stay constant *)
Theorem pool_edge_refuted k s n c : (2 <= k)%nat -> (k <= n)%nat -> (0 < s)%nat -> c <> 0 ->
  at_ (pool1 k s (repeat c n)) 0 = c * (INR (k - k / 2) / INR k) /\ at_ (pool1 k s (repeat c n)) 0 <> c.
Proof.
  intros Hk Hn Hs Hc. assert (D : (1 <= k / 2 < k)%nat). { split; [apply Nat.div_le_lower_bound; lia|apply Nat.div_lt; lia]. }
  assert (IK : 0 < INR k) by (apply lt_0_INR; lia).
  assert (V : at_ (pool1 k s (repeat c n)) 0 = c * (INR (k - k / 2) / INR k)).
  { destruct (pool_spec k s (repeat c n)) as [L V]; [rewrite repeat_length; lia|exact Hs|]. rewrite V by (rewrite L; lia). cbn [Nat.mul].
    transitivity (c * INR (k - k / 2) / INR k); [|field; lra]. f_equal.
    replace k with (k / 2 + (k - k / 2))%nat at 1 by lia. set (p := (k / 2)%nat) in *.
    rewrite rsum_app. rewrite rsum_zero.
    2:{ intros i Hi. apply ext_out. left. lia. }
    rewrite Rplus_0_l. transitivity (rsum (k - p) (fun _ => c)); [|rewrite rsum_const; ring].
    apply rsum_ext. intros i Hi. replace (Z.of_nat 0 - Z.of_nat p + Z.of_nat (p + i))%Z with (Z.of_nat i) by lia. rewrite ext_at. unfold at_.
    apply (repeat_spec n c). apply nth_In. rewrite repeat_length. lia. }
  split; [exact V|]. rewrite V. intros H. assert (E : INR (k - k / 2) / INR k = 1) by (apply (Rmult_eq_reg_l c); [lra|exact Hc]).
  assert (INR (k - k / 2) < INR k) by (apply lt_INR; lia). assert (INR (k - k / 2) = INR k) by (apply (Rmult_eq_reg_r (/ INR k)); [rewrite Rinv_r by lra; exact E|apply Rinv_neq_0_compat; lra]). lra.
Qed.

(** ** transform *)
Theorem transform_spec bank K fr k s x : Forall (fun f => length f = K) bank -> (0 < K <= length x + 2 * (K / 2))%nat ->
  (2 <= length bank)%nat -> (0 < k)%nat -> (0 < s)%nat -> 
  let m := (if Nat.even K then length x + 1 else length x)%nat in
  (k + s <= m + 2 * (k / 2))%nat ->
  exists rows, transform bank K fr k s x = Ok ((fr * Z.of_nat s, fr * Z.of_nat k)%Z, rows) /\
    length rows = ((m + 2 * (k / 2) - k) / s + 1)%nat /\
    forall t, (t < length rows)%nat -> length (nth t rows []) = length bank /\
      forall b, (b < length bank)%nat ->
        at_ (nth t rows []) b =
        rsum k (fun i => ext (map log_magnitude1 (conv1d (K / 2) (nth b bank []) x)) (Z.of_nat (t * s) - Z.of_nat (k / 2) + Z.of_nat i)) / INR k.
Proof.
  intros HF HK HB Hk Hs m Hm. unfold transform. destruct (convolve_spec bank K x HF HK) as (y & Y & YL & YV). rewrite Y. cbn [bind].
  assert (YE : y = map (fun f => conv1d (K / 2) f x) bank). { unfold convolve in Y. destruct (Nat.ltb _ _) in Y; [discriminate|]. now injection Y as <-. }
  set (pooled := temporal_pooling k s (log_magnitude y)).
  assert (PL : length pooled = length bank) by (unfold pooled, temporal_pooling, log_magnitude; rewrite !map_length; exact YL).
  assert (PN : forall b, (b < length bank)%nat -> nth b pooled [] = pool1 k s (map log_magnitude1 (nth b y []))).
  { intros b Hb. unfold pooled, temporal_pooling, log_magnitude. rewrite (nth_map_in _ _ _ _ []) by (rewrite map_length, YL; exact Hb). now rewrite (nth_map_in _ _ _ _ []) by (rewrite YL; exact Hb). }
  assert (PK : forall b, (b < length bank)%nat -> length (nth b pooled []) = ((m + 2 * (k / 2) - k) / s + 1)%nat).
  { intros b Hb. rewrite PN by exact Hb. destruct (YV b Hb) as [L _]. fold m in L. rewrite (proj1 (pool_spec k s _ ltac:(rewrite map_length, L; lia) Hs)). now rewrite map_length, L. }
  assert (H0 : hd [] pooled = nth 0 pooled []) by (destruct pooled; reflexivity). rewrite H0, PK by lia. rewrite PL.
  assert (F2 : (2 <= (m + 2 * (k / 2) - k) / s + 1)%nat). { assert (1 <= (m + 2 * (k / 2) - k) / s)%nat by (apply Nat.div_le_lower_bound; lia). lia. }
  destruct (Nat.eqb_spec (length bank) 1); [lia|]. destruct (Nat.eqb_spec ((m + 2 * (k / 2) - k) / s + 1) 1); [lia|]. cbn [orb].
  eexists. split; [reflexivity|]. rewrite map_length, seq_length. split; [reflexivity|]. intros t Ht. rewrite nth_map_seq by exact Ht. rewrite map_length, seq_length. split; [reflexivity|].
  intros b Hb. rewrite at_map_seq by exact Hb. rewrite PN by exact Hb. destruct (YV b Hb) as [L _]. fold m in L.
  destruct (pool_spec k s (map log_magnitude1 (nth b y []))) as [QL QV]; [rewrite map_length, L; lia|exact Hs|].
  rewrite QV by (rewrite QL, map_length, L; exact Ht). rewrite YE. now rewrite (nth_map_in _ _ _ _ []) by exact Hb.
Qed.
Theorem transform_single_refuted K fr k s f x : length f = K -> (0 < K <= length x + 2 * (K / 2))%nat -> transform [f] K fr k s x = Raise ValueError.
Proof. intros HF HK. unfold transform, convolve. destruct (Nat.ltb_spec (length x + 2 * (K / 2)) K); [lia|]. reflexivity. Qed.
