(** What the helpers for networks guarantee. *)
From Verif Require Import PyBase PyFacts PyMore Spectral SpectralProofs TransformProofs ReconProofs Loss LossProofs LossProofs2 LossProofs3 NetUtil.
From Coq Require Import Reals QArith ZArith Lra Lia.
Local Open Scope R_scope.

(** ** normalisation over channels *)
Lemma sqrt_sq_pos v : 0 < v -> 0 < sqrt v /\ sqrt v * sqrt v = v.
Proof. intros H. split; [now apply sqrt_lt_R0|apply sqrt_def; lra]. Qed.
Definition energy (x : list (list R)) (j : nat) : R := rsum (length x) (fun c => at_ (nth c x []) j * at_ (nth c x []) j) / INR (length x).
Lemma energy_nonneg x j : 0 <= energy x j.
Proof.
  unfold energy. destruct x as [|r x]; [cbn; unfold Rdiv; lra|]. assert (0 < INR (length (r :: x))) by (apply lt_0_INR; cbn; lia). unfold Rdiv. apply Rmult_le_pos; [apply rsum_nonneg; intros; apply Rle_0_sqr|left; now apply Rinv_0_lt_compat].
Qed.
Lemma pixel_eq x j : pixel x j = sqrt (energy x j + 1 / 10 ^ 7).
Proof. unfold pixel, energy, Rdiv. rewrite Rmult_1_l. reflexivity. Qed.
Lemma pixel_pos x j : 0 < pixel x j /\ pixel x j * pixel x j = energy x j + 1 / 10 ^ 7.
Proof. rewrite pixel_eq. apply sqrt_sq_pos. pose proof (energy_nonneg x j). lra. Qed.
Lemma sample_norm_at x c j : (c < length x)%nat -> (j < length (nth c x []))%nat -> at_ (nth c (sample_norm x) []) j = at_ (nth c x []) j / pixel x j.
Proof.
  intros Hc Hj. unfold sample_norm. set (f := fun row : list R => map (fun j => at_ row j / pixel x j) (seq 0 (length row))). change ([] : list R) with (f []). rewrite (map_nth f). unfold f. now rewrite at_map_seq.
Qed.
(** the mean square over the channels becomes e / (e + 1e-7): below one, near it unless silent *)
Theorem sample_norm_spec x w : (forall r, In r x -> length r = w) -> x <> [] ->
  length (sample_norm x) = length x /\ (forall r, In r (sample_norm x) -> length r = w) /\
  forall j, (j < w)%nat -> energy (sample_norm x) j = energy x j / (energy x j + 1 / 10 ^ 7) /\ energy (sample_norm x) j < 1 /\
    exists k, 0 < k /\ forall c, (c < length x)%nat -> at_ (nth c (sample_norm x) []) j = k * at_ (nth c x []) j.
Proof.
  intros Hw N. assert (L : length (sample_norm x) = length x) by apply map_length. split; [exact L|]. split.
  { intros r H. apply in_map_iff in H as [q [<- Hq]]. rewrite map_length, seq_length. now apply Hw. }
  intros j Hj. assert (A : forall c, (c < length x)%nat -> at_ (nth c (sample_norm x) []) j = at_ (nth c x []) j / pixel x j). { intros c Hc. apply sample_norm_at; [exact Hc|]. rewrite Hw; [exact Hj|now apply nth_In]. }
  destruct (pixel_pos x j) as [P S]. pose proof (energy_nonneg x j) as E0.
  assert (E : energy (sample_norm x) j = energy x j / (energy x j + 1 / 10 ^ 7)).
  { unfold energy at 1. rewrite L. rewrite (rsum_ext _ _ (fun c => / (energy x j + 1 / 10 ^ 7) * (at_ (nth c x []) j * at_ (nth c x []) j))) by (intros c Hc; rewrite A by exact Hc; rewrite <- S; field; lra). rewrite rsum_scale. unfold energy at 2. unfold Rdiv. ring. }
  split; [exact E|]. split.
  - rewrite E. apply Rmult_lt_reg_r with (energy x j + 1 / 10 ^ 7); [lra|]. unfold Rdiv at 1. rewrite Rmult_assoc, Rinv_l by lra. lra.
  - exists (/ pixel x j). split; [now apply Rinv_0_lt_compat|]. intros c Hc. rewrite (A c Hc). unfold Rdiv. ring.
Qed.
(** images: usually refused ... *)
Theorem sample_norm_images b c h x : c <> 1%nat -> (b * h)%nat <> 1%nat -> c <> (b * h)%nat -> sample_norm_2d b c h x = Raise RuntimeError.
Proof. intros A B C. unfold sample_norm_2d. destruct (Nat.eqb_spec c (b * h)), (Nat.eqb_spec (b * h) 1), (Nat.eqb_spec c 1); try contradiction. reflexivity. Qed.
(** ... and otherwise divided by the norms of other rows and items: where channels = batch * height,
    channel c of every item and row by the norm of item c / height, row c mod height *)
Theorem sample_norm_images_mixed b h x : (1 < b * h)%nat -> exists y, sample_norm_2d b (b * h) h x = Ok ((b * h)%nat, y) /\
  forall i c j w, y i c j w = x i c j w / sqrt (rsum (b * h) (fun k => x (c / h)%nat k (c mod h)%nat w * x (c / h)%nat k (c mod h)%nat w) * (1 / INR (b * h)) + 1 / 10 ^ 7).
Proof.
  intros H. unfold sample_norm_2d. rewrite Nat.eqb_refl. cbn [orb negb]. destruct (Nat.eqb_spec (b * h) 1); [lia|]. eexists. split; [reflexivity|]. reflexivity.
Qed.

(** ** batchwise normalisations *)
Theorem unit_norm_batch eps x : 0 < eps ->
  length (batchwise_unit_norm eps x) = length x /\ euclid (batchwise_unit_norm eps x) = euclid x / (euclid x + eps) /\ euclid (batchwise_unit_norm eps x) < 1 /\
  (forall i, (i < length x)%nat -> at_ (batchwise_unit_norm eps x) i = at_ x i / (euclid x + eps)) /\
  ((forall v, In v x -> v = 0) -> batchwise_unit_norm eps x = x).
Proof.
  intros Pe. pose proof (euclid_nonneg x) as P. set (c := euclid x + eps). assert (Pc : 0 < c) by (unfold c; lra).
  assert (E : euclid (batchwise_unit_norm eps x) = euclid x / c). { unfold euclid at 1. unfold batchwise_unit_norm. fold c. rewrite dot_scale by lra. unfold Rdiv. rewrite sqrt_mult; [|apply dot_self_nonneg|left; apply Rinv_0_lt_compat; nra]. fold (euclid x). f_equal. rewrite sqrt_inv, sqrt_square by lra. reflexivity. }
  split; [apply map_length|]. split; [exact E|]. split; [|split].
  - rewrite E. apply Rmult_lt_reg_r with c; [exact Pc|]. unfold Rdiv. rewrite Rmult_assoc, Rinv_l by lra. unfold c. lra.
  - intros i Hi. unfold batchwise_unit_norm. fold c. now rewrite at_map.
  - intros Z. unfold batchwise_unit_norm. fold c. rewrite <- (map_id x) at 2. apply map_ext_in. intros v Hv. rewrite (Z v Hv). unfold Rdiv. ring.
Qed.
Lemma mean_shift x : x <> [] -> mean (map (fun v => v - mean x) x) = 0.
Proof. intros N. assert (E : map (fun v => v - mean x) x = map (fun v => v + (- mean x)) x) by (apply map_ext; intros; ring). rewrite E, mean_plus_const by exact N. ring. Qed.
Lemma mean_div x c : mean (map (fun v => v / c) x) = mean x / c.
Proof. unfold mean. rewrite map_length. rewrite (rsum_ext _ _ (fun i => / c * at_ x i)) by (intros; rewrite at_map by assumption; unfold Rdiv; ring). rewrite rsum_scale. unfold Rdiv. ring. Qed.
Definition variance (x : list R) : R := rsum (length x) (fun i => (at_ x i - mean x) * (at_ x i - mean x)) / INR (length x - 1).
Lemma variance_nonneg x : (2 <= length x)%nat -> 0 <= variance x.
Proof. intros H. unfold variance, Rdiv. apply Rmult_le_pos; [apply rsum_nonneg; intros; apply Rle_0_sqr|]. left. apply Rinv_0_lt_compat, lt_0_INR. lia. Qed.
Lemma variance_shift x c : x <> [] -> variance (map (fun v => v - c) x) = variance x.
Proof.
  intros N. unfold variance. assert (E : mean (map (fun v => v - c) x) = mean x - c) by (rewrite (map_ext _ (fun v => v + (- c))) by (intros; ring); rewrite mean_plus_const by exact N; ring). rewrite map_length, E. f_equal. apply rsum_ext. intros i Hi. rewrite at_map by exact Hi. ring.
Qed.
Theorem mean_std_batch eps x : 0 < eps -> (2 <= length x)%nat ->
  exists y, batchwise_mean_std eps x = Some y /\ length y = length x /\ mean y = 0 /\
    sqrt (variance y) = sqrt (variance x) / (sqrt (variance x) + eps) /\ sqrt (variance y) < 1 /\
    (forall i, (i < length x)%nat -> at_ y i = (at_ x i - mean x) / (sqrt (variance x) + eps)).
Proof.
  intros Pe L. assert (N : x <> []) by (destruct x; [cbn in L; lia|discriminate]). pose proof (variance_nonneg x L) as V. pose proof (sqrt_pos (variance x)) as S0. set (c := sqrt (variance x) + eps). assert (Pc : 0 < c) by (unfold c; lra).
  unfold batchwise_mean_std, std. rewrite !map_length. destruct (Nat.leb_spec (length x) 1) as [B|_]; [lia|]. set (y := map (fun v => v - mean x) x).
  match goal with |- context [sqrt ?t + eps] => replace t with (variance x) by (unfold y; rewrite <- (variance_shift x (mean x) N); unfold variance; now rewrite map_length) end. fold c.
  eexists. split; [reflexivity|]. assert (Ly : length y = length x) by apply map_length. split; [now rewrite map_length|]. assert (M0 : mean y = 0) by now apply mean_shift. split; [rewrite mean_div, M0; unfold Rdiv; ring|].
  assert (Vd : variance (map (fun v => v / c) y) = variance x / (c * c)).
  { rewrite <- (variance_shift x (mean x) N). fold y. unfold variance at 1. rewrite map_length, mean_div. rewrite (rsum_ext _ _ (fun i => / (c * c) * ((at_ y i - mean y) * (at_ y i - mean y)))) by (intros i Hi; rewrite at_map by exact Hi; field; lra). rewrite rsum_scale. unfold variance, Rdiv. ring. }
  assert (Sd : sqrt (variance (map (fun v => v / c) y)) = sqrt (variance x) / c). { rewrite Vd. unfold Rdiv. rewrite sqrt_mult; [|exact V|left; apply Rinv_0_lt_compat; nra]. rewrite sqrt_inv, sqrt_square by lra. reflexivity. }
  split; [exact Sd|]. split.
  - rewrite Sd. apply Rmult_lt_reg_r with c; [exact Pc|]. unfold Rdiv. rewrite Rmult_assoc, Rinv_l by lra. unfold c. lra.
  - intros i Hi. rewrite at_map by now rewrite Ly. unfold y. now rewrite at_map.
Qed.
Theorem mean_std_single eps v : batchwise_mean_std eps [v] = None. Proof. reflexivity. Qed.

(** ** sizes *)
Theorem feature_map_size_spec inp k s p : (0 < s)%nat -> (k <= inp + 2 * p)%nat ->
  (feature_map_size (Z.of_nat inp) (Z.of_nat k) (Z.of_nat s) (Z.of_nat p) == inject_Z (Z.of_nat (conv_size inp k s p)) <-> Nat.divide s (inp + 2 * p - k))%Q.
Proof.
  intros Hs Hk. unfold feature_map_size, conv_size. set (m := (inp + 2 * p - k)%nat). replace (Z.of_nat inp - Z.of_nat k + 2 * Z.of_nat p)%Z with (Z.of_nat m) by lia. rewrite Nat2Z.inj_add, Nat2Z.inj_div. change (Z.of_nat 1) with 1%Z. assert (Ps : (0 < Z.of_nat s)%Z) by lia.
  assert (NZ : ~ (inject_Z (Z.of_nat s) == 0)%Q) by (unfold Qeq; cbn; lia). rewrite inject_Z_plus. split.
  - intros E. apply Qplus_inj_r in E. assert (E' : (inject_Z (Z.of_nat m) == inject_Z (Z.of_nat m / Z.of_nat s * Z.of_nat s))%Q). { rewrite inject_Z_mult, <- E. field. exact NZ. } unfold Qeq, inject_Z in E'; cbn [Qnum Qden] in E'; rewrite !Z.mul_1_r in E'. exists (m / s)%nat. apply Nat2Z.inj. rewrite Nat2Z.inj_mul, Nat2Z.inj_div. exact E'.
  - intros [q ->]. rewrite Nat2Z.inj_mul, Z.div_mul by lia. apply Qplus_inj_r. rewrite inject_Z_mult. field. exact NZ.
Qed.
Theorem conv_size_spec st pad w x : length (conv1d st pad w x) = conv_size (length x) (length w) st pad.
Proof. apply conv_length. Qed.
Theorem multiresolution_odd inp stride ks : (0 < inp)%nat -> (forall k, In k ks -> Nat.odd k = true) -> forall n, In n (multiresolution_sizes inp stride ks) -> n = ((inp - 1) / stride + 1)%nat.
Proof.
  intros Hi H n Hn. apply in_map_iff in Hn as [k [<- Hk]]. specialize (H k Hk). apply Nat.odd_spec in H as [m ->]. unfold conv_size. replace ((2 * m + 1) / 2)%nat with m by (symmetry; rewrite Nat.mul_comm, Nat.div_add_l by lia; change (1 / 2)%nat with 0%nat; lia). f_equal. f_equal. lia.
Qed.
Theorem multiresolution_even inp stride ks : (forall k, In k ks -> Nat.even k = true) -> forall n, In n (multiresolution_sizes inp stride ks) -> n = (inp / stride + 1)%nat.
Proof.
  intros H n Hn. apply in_map_iff in Hn as [k [<- Hk]]. specialize (H k Hk). unfold conv_size. rewrite (half_even k H). f_equal. f_equal. lia.
Qed.
Theorem multiresolution_mixed : multiresolution_sizes 100 1 [3; 4]%nat = [100; 101]%nat. Proof. reflexivity. Qed.

(** ** applying a network in chunks *)
Lemma starts_spec {A B} (f : A -> B) c x : (0 < c)%nat -> forall fuel i, (length x - i <= fuel)%nat -> (i <= length x)%nat ->
  mapM (fun i => Ok (map f (firstn c (skipn i x)))) (starts fuel i (length x) c) = Ok (map (fun i => map f (firstn c (skipn i x))) (starts fuel i (length x) c)) /\
  concat (map (fun i => map f (firstn c (skipn i x))) (starts fuel i (length x) c)) = map f (skipn i x) /\
  ((i < length x)%nat -> starts fuel i (length x) c <> []).
Proof.
  intros Hc. split; [now apply mapM_ok|]. revert i H H0. induction fuel as [|m IH]; intros i Hm Hi; cbn [starts].
  - split; [|lia]. rewrite skipn_all2 by lia. reflexivity.
  - destruct (Nat.ltb_spec i (length x)) as [L|L]; [|split; [rewrite skipn_all2 by lia; reflexivity|lia]]. split; [|discriminate]. cbn [map concat]. rewrite <- (firstn_skipn c (skipn i x)) at 2. rewrite map_app. f_equal. rewrite skipn_skipn'.
    destruct (Nat.le_gt_cases (i + c) (length x)) as [Q|Q]; [apply IH; lia|]. rewrite skipn_all2 by lia. destruct m as [|m]; [reflexivity|]. cbn [starts]. destruct (Nat.ltb_spec (i + c) (length x)); [lia|]. reflexivity.
Qed.
Theorem apply_network_chunks {A B} (network : list A -> result (list B)) (f : A -> B) x c : (0 < c)%nat -> x <> [] ->
  (forall y, y <> [] -> network y = Ok (map f y)) -> apply_network network x (Some c) = apply_network network x None.
Proof.
  intros Hc N H. cbn [apply_network]. destruct (Nat.eqb_spec c 0) as [Z0|_]; [lia|]. rewrite (H x N).
  destruct (starts_spec f c x Hc (length x) 0 ltac:(lia) ltac:(lia)) as [E [K NE]]. assert (L : (0 < length x)%nat) by (destruct x; [contradiction|cbn; lia]).
  assert (M : mapM (fun i => network (firstn c (skipn i x))) (starts (length x) 0 (length x) c) = Ok (map (fun i => map f (firstn c (skipn i x))) (starts (length x) 0 (length x) c))).
  { apply mapM_ok. intros i Hi. apply H. assert (Hlt : (i < length x)%nat). { clear -Hi. revert Hi. generalize 0%nat at 1. generalize (length x) at 1. intros fuel. induction fuel as [|m IH]; intros s Hi; cbn [starts] in Hi; [destruct Hi|]. destruct (Nat.ltb_spec s (length x)); [|destruct Hi]. destruct Hi as [<-|Hi]; [assumption|]. eapply IH. exact Hi. }
    intros E0. apply (f_equal (@length A)) in E0. rewrite firstn_length, skipn_length in E0. cbn [length] in E0. lia. }
  rewrite M. cbn [bind]. rewrite K. cbn [skipn]. destruct (starts (length x) 0 (length x) c) eqn:Es; [exfalso; now apply NE|]. reflexivity.
Qed.
Theorem apply_network_empty {A B} (network : list A -> result (list B)) c : apply_network network [] (Some c) = Raise ValueError.
Proof. cbn. destruct (Nat.eqb c 0); reflexivity. Qed.
(** a network that looks at the whole batch gives another answer in chunks *)
Theorem apply_network_batch_refuted : exists network : list Z -> result (list Z), (forall x, exists y, network x = Ok y /\ length y = length x) /\ apply_network network [1; 2]%Z None = Ok [3; 3]%Z /\ apply_network network [1; 2]%Z (Some 1%nat) = Ok [1; 2]%Z.
Proof. exists (fun x => Ok (map (fun _ => fold_right Z.add 0%Z x) x)). split; [intros x; eexists; split; [reflexivity|apply map_length]|]. split; reflexivity. Qed.

(** ** gates *)
Lemma tanh_bound x : -1 < tanh x < 1.
Proof.
  unfold tanh, sinh, cosh. pose proof (exp_pos x) as A. pose proof (exp_pos (- x)) as B. assert (C : 0 < (exp x + exp (- x)) / 2) by lra. split; apply Rmult_lt_reg_r with ((exp x + exp (- x)) / 2); try exact C; unfold Rdiv at 2 || unfold Rdiv at 1; field_simplify; lra.
Qed.
Lemma sigmoid_bound x : 0 < sigmoid x < 1.
Proof. unfold sigmoid. pose proof (exp_pos (- x)) as B. split; [apply Rinv_0_lt_compat; lra|]. rewrite <- Rinv_1 at 2. apply Rinv_lt_contravar; lra. Qed.
Theorem gated_bound c g : -1 < gated c g < 1 /\ (0 < c -> 0 < gated c g) /\ (c < 0 -> gated c g < 0).
Proof.
  unfold gated. pose proof (tanh_bound c) as T. pose proof (sigmoid_bound g) as S. split; [nra|]. assert (Pc : 0 < cosh c) by (unfold cosh; pose proof (exp_pos c); pose proof (exp_pos (- c)); lra).
  split; intros H.
  - apply Rmult_lt_0_compat; [|lra]. unfold tanh. apply Rdiv_lt_0_compat; [|exact Pc]. unfold sinh. assert (exp (- c) < exp c) by (apply exp_increasing; lra). lra.
  - assert (0 < - tanh c * sigmoid g); [|lra]. apply Rmult_lt_0_compat; [|lra]. unfold tanh, Rdiv. rewrite Ropp_mult_distr_l. apply Rmult_lt_0_compat; [|now apply Rinv_0_lt_compat]. unfold sinh. assert (exp c < exp (- c)) by (apply exp_increasing; lra). lra.
Qed.

(** ** the sinc layer *)
(** whatever is learnt, the cut-offs are in order *)
Theorem sinc_ordered p : 0 <= start_frequency p <= stop_frequency p.
Proof. unfold stop_frequency. pose proof (Rabs_pos (fst p)) as A. fold (start_frequency p) in A. pose proof (Rabs_pos (snd p - start_frequency p)). lra. Qed.
(** but the initial ones are reciprocals: the lower the band, the higher its cut-offs *)
Theorem sinc_initial_refuted sr lo hi p q : 0 < sr -> 0 < fst lo < snd lo -> 0 < fst hi < snd hi -> fst lo < fst hi ->
  filter_parameters sr lo = Some p -> filter_parameters sr hi = Some q ->
  start_frequency p = sr / fst lo /\ stop_frequency p = 2 * (sr / fst lo) - sr / snd lo /\ start_frequency q < start_frequency p.
Proof.
  intros Hs [L1 L2] [H1 H2] LH. unfold filter_parameters. destruct (Req_EM_T (fst lo) 0), (Req_EM_T (snd lo) 0), (Req_EM_T (fst hi) 0), (Req_EM_T (snd hi) 0); try lra; try discriminate. intros Ep Eq. assert (Hp : p = (sr / fst lo, sr / snd lo)) by congruence. assert (Hq : q = (sr / fst hi, sr / snd hi)) by congruence. subst p q.
  assert (D : forall a, 0 < a -> 0 < sr / a) by (intros; now apply Rdiv_lt_0_compat). assert (M : forall a b, 0 < a < b -> sr / b < sr / a) by (intros a b [A B]; unfold Rdiv; apply Rmult_lt_compat_l; [exact Hs|]; apply Rinv_lt_contravar; [nra|exact B]).
  unfold stop_frequency, start_frequency. cbn [fst snd]. rewrite (Rabs_pos_eq (sr / fst lo)), (Rabs_pos_eq (sr / fst hi)) by (left; apply D; lra). pose proof (M (fst lo) (snd lo) (conj L1 L2)) as A. pose proof (M (fst lo) (fst hi) (conj L1 LH)). split; [reflexivity|]. split; [|lra]. rewrite Rabs_left by lra. lra.
Qed.
Theorem sinc_from_zero_refuted sr stop : filter_parameters sr (0, stop) = None.
Proof. unfold filter_parameters. cbn [fst]. destruct (Req_EM_T 0 0); [reflexivity|lra]. Qed.
Lemma grid_zero taps i : (2 <= taps)%nat -> (grid taps i = 0 <-> (2 * i + 1)%nat = taps).
Proof.
  intros H. unfold grid. assert (P : 0 < INR (taps - 1)) by (apply lt_0_INR; lia). pose proof PI_RGT_0 as Pi. split.
  - intros E. assert (K : PI * (2 * INR i) = PI * INR (taps - 1)). { apply Rmult_eq_reg_r with (/ INR (taps - 1)); [|apply Rinv_neq_0_compat; lra]. replace (PI * INR (taps - 1) * / INR (taps - 1)) with PI by (field; lra). unfold Rdiv in E. replace (PI * (2 * INR i) * / INR (taps - 1)) with (INR i * (2 * PI * / INR (taps - 1))) by ring. lra. } apply Rmult_eq_reg_l in K; [|lra]. replace (2 * INR i) with (INR (2 * i)) in K by (rewrite mult_INR; cbn [INR]; ring). apply INR_eq in K. lia.
  - intros <-. replace (2 * i + 1 - 1)%nat with (2 * i)%nat in * by lia. rewrite mult_INR in *. replace (INR 2) with 2 in * by (cbn; lra). field. lra.
Qed.
(** with an even number of taps every coefficient is a number, with an odd number the middle one
    is not (in exact arithmetic) *)
Theorem sinc_filter_numbers taps p i : (2 <= taps)%nat -> 0 < start_frequency p -> (i < taps)%nat ->
  (nth i (sinc_filter taps p) None = None <-> (2 * i + 1)%nat = taps).
Proof.
  intros H Hp Hi. pose proof (sinc_ordered p) as [_ O]. unfold sinc_filter. match goal with |- context [map ?g (seq 0 taps)] => rewrite (nth_indep (map g (seq 0 taps)) None (g 0%nat)) by (rewrite map_length, seq_length; exact Hi); rewrite (map_nth g), seq_nth by exact Hi end. cbn [Nat.add]. unfold sinc. rewrite <- (grid_zero taps i H).
  destruct (Req_EM_T (grid taps i * stop_frequency p) 0) as [A|A]; [|destruct (Req_EM_T (grid taps i * start_frequency p) 0) as [B|B]].
  - split; [|reflexivity]. intros _. apply Rmult_integral in A as [A|A]; [exact A|lra].
  - split; [|reflexivity]. intros _. apply Rmult_integral in B as [B|B]; [exact B|lra].
  - split; [discriminate|]. intros E. rewrite E in A. elim A. ring.
Qed.
Theorem sinc_filter_value taps p i : (2 <= taps)%nat -> 0 < start_frequency p -> (i < taps)%nat -> (2 * i + 1)%nat <> taps ->
  nth i (sinc_filter taps p) None = Some (2 * (sin (grid taps i * stop_frequency p) - sin (grid taps i * start_frequency p)) / grid taps i * (54 / 100 - 46 / 100 * cos (2 * PI * INR i / INR taps))).
Proof.
  intros H Hp Hi Ne. pose proof (sinc_ordered p) as [_ O]. rewrite <- (grid_zero taps i H) in Ne. unfold sinc_filter. match goal with |- context [map ?g (seq 0 taps)] => rewrite (nth_indep (map g (seq 0 taps)) None (g 0%nat)) by (rewrite map_length, seq_length; exact Hi); rewrite (map_nth g), seq_nth by exact Hi end. cbn [Nat.add]. unfold sinc.
  destruct (Req_EM_T (grid taps i * stop_frequency p) 0) as [A|A]; [apply Rmult_integral in A as [A|A]; lra|]. destruct (Req_EM_T (grid taps i * start_frequency p) 0) as [B|B]; [apply Rmult_integral in B as [B|B]; lra|].
  unfold hamming. do 2 f_equal. field. repeat split; lra.
Qed.
Theorem sinc_length inp taps : (taps <= inp + 2 * (taps / 2))%nat -> conv_size inp taps 1 (taps / 2) = if Nat.even taps then (inp + 1)%nat else inp.
Proof.
  unfold conv_size. rewrite Nat.div_1_r. destruct (Nat.even taps) eqn:E.
  - apply Nat.even_spec in E as [m ->]. rewrite (Nat.mul_comm 2 m), Nat.div_mul by lia. lia.
  - assert (O : Nat.odd taps = true) by (unfold Nat.odd; now rewrite E). apply Nat.odd_spec in O as [m ->]. replace ((2 * m + 1) / 2)%nat with m by (symmetry; rewrite Nat.mul_comm, Nat.div_add_l by lia; change (1 / 2)%nat with 0%nat; lia). lia.
Qed.
