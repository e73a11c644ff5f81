(** phase_shift (C76). *)
From Verif Require Import PyBase PyFacts PyMore Freq FreqProofs FreqScaleProofs FreqDim FreqDimProofs Spectral SpectralProofs TransformProofs ReconProofs PhaseShift.
From Coq Require Import Reals Lra Psatz.
Local Open Scope R_scope.

(** ** complex numbers *)
(** the phase [-2 pi k samples / n] *)
Definition phase (n k : nat) (samples : Z) : R := 2 * PI * INR k * IZR samples / INR n.
(** the square of the magnitude *)
Definition power (c : cplx) : R := fst c ^ 2 + snd c ^ 2.
Lemma cmul_power a t : power (cmul a (cexp_neg t)) = power a.
Proof.
  unfold power, cmul, cexp_neg. cbn [fst snd]. pose proof (sin2_cos2 t) as H. unfold Rsqr in H.
  replace ((fst a * cos t - snd a * - sin t) ^ 2 + (fst a * - sin t + snd a * cos t) ^ 2) with ((fst a ^ 2 + snd a ^ 2) * (sin t * sin t + cos t * cos t)) by ring. rewrite H. ring.
Qed.
Lemma cmul_exp_exp a t u : cmul (cmul a (cexp_neg t)) (cexp_neg u) = cmul a (cexp_neg (t + u)).
Proof. unfold cmul, cexp_neg. cbn [fst snd]. rewrite cos_plus, sin_plus. f_equal; ring. Qed.
Lemma sin_period_Z x z : sin (x + 2 * IZR z * PI) = sin x.
Proof.
  rewrite <- (cos_shift x), <- (cos_shift (x + 2 * IZR z * PI)). replace (PI / 2 - (x + 2 * IZR z * PI)) with (PI / 2 - x + 2 * IZR (- z) * PI) by (rewrite opp_IZR; ring). apply cos_period_Z.
Qed.
Lemma cexp_period t z : cexp_neg (t + 2 * IZR z * PI) = cexp_neg t.
Proof. unfold cexp_neg. now rewrite cos_period_Z, sin_period_Z. Qed.
Lemma cmul_one a : cmul a (cexp_neg 0) = a.
Proof. unfold cmul, cexp_neg. rewrite cos_0, sin_0. destruct a as [x y]. cbn. f_equal; ring. Qed.
Lemma phase_add n k a b : phase n k a + phase n k b = phase n k (a + b).
Proof. unfold phase. rewrite plus_IZR. unfold Rdiv. ring. Qed.

(** ** selections *)
Notation cz := ((0, 0) : cplx).
Lemma factor_at n m k : (k < n)%nat -> nth k (shift_factors n m) cz = cexp_neg (phase n k m).
Proof.
  intros Hk. unfold shift_factors. set (g := fun i : nat => _). rewrite (nth_indep _ cz (g 0%nat)) by (now rewrite map_length, seq_length). rewrite (map_nth g), seq_nth by exact Hk. unfold g, phase. f_equal. cbn [Nat.add]. unfold Rdiv. ring.
Qed.
Lemma factors_length n m : length (shift_factors n m) = n.
Proof. unfold shift_factors. now rewrite map_length, seq_length. Qed.
Lemma cut_length {A} p (x : list A) : length (cut p x) = Nat.min (snd p - fst p) (length x - fst p).
Proof. unfold cut. now rewrite firstn_length, skipn_length. Qed.
Lemma nth_skip {A} (d : A) n l j : nth j (skipn n l) d = nth (n + j) l d.
Proof. revert l. induction n as [|n IH]; intros l; [reflexivity|]. destruct l; [destruct j; reflexivity|]. cbn. apply IH. Qed.
Lemma nth_first {A} (d : A) n l j : (j < n)%nat -> nth j (firstn n l) d = nth j l d.
Proof. revert n l. induction j as [|j IH]; intros [|n] l H; try lia; destruct l; try reflexivity. cbn. apply IH. lia. Qed.
Lemma cut_nth {A} (d : A) p x j : (j < snd p - fst p)%nat -> nth j (cut p x) d = nth (fst p + j) x d.
Proof. intros H. unfold cut. rewrite nth_first by exact H. apply nth_skip. Qed.
Lemma mul_nth x y j : length x = length y -> (j < length x)%nat -> nth j (mul_lists x y) cz = cmul (nth j x cz) (nth j y cz).
Proof.
  intros E Hj. unfold mul_lists. set (g := fun q : cplx * cplx => cmul (fst q) (snd q)). rewrite (nth_indep _ cz (g (cz, cz))) by (rewrite map_length, combine_length; lia).
  rewrite (map_nth g). rewrite combine_nth by exact E. reflexivity.
Qed.
Definition inside (p : nat * nat) (k : nat) : bool := Nat.leb (fst p) k && Nat.ltb k (snd p).
(** a selection multiplied by the factors *)
Lemma imul_cut p row m n : length row = n -> exists row', (do v <- imul (cut p row) (cut p (shift_factors n m)); Ok (paste p v row)) = Ok row' /\ length row' = n /\
  forall k, (k < n)%nat -> nth k row' cz = if inside p k then cmul (nth k row cz) (cexp_neg (phase n k m)) else nth k row cz.
Proof.
  intros L. unfold imul. assert (E : length (cut p row) = length (cut p (shift_factors n m))) by (now rewrite !cut_length, factors_length, L). rewrite <- E, Nat.eqb_refl. cbn [bind].
  set (v := mul_lists _ _). assert (Lv : length v = length (cut p row)) by (unfold v, mul_lists; rewrite map_length, combine_length, <- E; apply Nat.min_id).
  assert (Lc := cut_length p row). rewrite L in Lc. eexists. split; [reflexivity|].
  destruct (Nat.le_gt_cases n (fst p)) as [H|H].
  - assert (Ev : v = []) by (apply length_zero_iff_nil; lia). rewrite Ev. unfold paste. cbn [length app]. rewrite Nat.add_0_r, firstn_skipn. split; [exact L|].
    intros k Hk. unfold inside. destruct (Nat.leb_spec (fst p) k); [lia|reflexivity].
  - unfold paste. split; [rewrite !app_length, firstn_length, skipn_length; lia|]. intros k Hk. unfold inside.
    destruct (Nat.leb_spec (fst p) k) as [A|A]; cbn [andb].
    + rewrite app_nth2; rewrite firstn_length; replace (Nat.min (fst p) (length row)) with (fst p) by lia; [|exact A].
      destruct (Nat.ltb_spec k (snd p)) as [B|B].
      * rewrite app_nth1 by lia. unfold v. rewrite mul_nth by (assumption || lia). rewrite !cut_nth by lia. replace (fst p + (k - fst p))%nat with k by lia. now rewrite factor_at.
      * rewrite app_nth2 by lia. rewrite nth_skip. f_equal. lia.
    + rewrite app_nth1 by (rewrite firstn_length; lia). apply nth_first. exact A.
Qed.
Lemma nth_ext_c (a b : list cplx) : length a = length b -> (forall k, (k < length a)%nat -> nth k a cz = nth k b cz) -> a = b.
Proof. intros L H. apply (nth_ext a b cz cz L H). Qed.

(** ** one dimension *)
(** every coefficient is turned by [2 pi k samples / n] *)
Theorem shift_all s f ts row : length row = scale_len s -> exists row', phase_shift1 (PFreq s) f ts None row = Ok row' /\ length row' = length row /\
  forall k, (k < length row)%nat -> nth k row' cz = cmul (nth k row cz) (cexp_neg (2 * PI * INR k * IZR (Z.quot ts f) / INR (length row))).
Proof.
  intros L. unfold phase_shift1, select. cbn [bind]. destruct (imul_cut (0, scale_len s)%nat row (shift_samples ts f) (length row) eq_refl) as (row' & E & Lr & H).
  exists row'. split; [exact E|]. split; [exact Lr|]. intros k Hk. rewrite H by exact Hk. unfold inside. cbn [fst snd Nat.leb]. destruct (Nat.ltb_spec k (scale_len s)); [|lia]. reflexivity.
Qed.
(** with a frequency band, exactly the coefficients of the bands it touches *)
Theorem shift_band s bs q f ts row s' : scale_bands s = Ok bs -> ordered bs -> scale_even s = false -> scale_slice s (IBand q) = Ok s' ->
  length row = length bs -> exists row', phase_shift1 (PFreq s) f ts (Some q) row = Ok row' /\ length row' = length row /\
  forall k b, nth_error bs k = Some b -> nth k row' cz = if touched q b then cmul (nth k row cz) (cexp_neg (2 * PI * INR k * IZR (Z.quot ts f) / INR (length row))) else nth k row cz.
Proof.
  intros Hb Ho He Hs L. unfold phase_shift1, select. destruct (get_slice_range s bs q Hb Ho) as (i & j & E & _ & _ & _ & H). rewrite He in E. cbn [andb] in E. rewrite E, Hs. cbn [bind].
  destruct (imul_cut (i, j) row (shift_samples ts f) (length row) eq_refl) as (row' & E' & Lr & H'). exists row'. split; [exact E'|]. split; [exact Lr|].
  intros k b Hk. assert (Hkl : (k < length row)%nat) by (rewrite L; apply nth_error_Some; congruence). rewrite H' by exact Hkl. specialize (H k b Hk). unfold inside. cbn [fst snd].
  destruct (touched q b) eqn:T.
  - destruct (proj1 H eq_refl). destruct (Nat.leb_spec i k); [|lia]. destruct (Nat.ltb_spec k j); [|lia]. reflexivity.
  - destruct (Nat.leb_spec i k), (Nat.ltb_spec k j); try reflexivity. exfalso. assert (false = true) by (apply H; lia). discriminate.
Qed.
(** whatever is selected, no magnitude changes *)
Theorem shift_power d f ts fb row row' : phase_shift1 d f ts fb row = Ok row' -> length row' = length row /\ forall k, power (nth k row' cz) = power (nth k row cz).
Proof.
  unfold phase_shift1. destruct d as [s|]; [|discriminate]. destruct (select s fb) as [p|]; [|discriminate]. cbn [bind].
  destruct (imul_cut p row (shift_samples ts f) (length row) eq_refl) as (r & E & L & H). rewrite E. intros [= <-]. split; [exact L|]. intros k.
  destruct (Nat.lt_ge_cases k (length row)) as [K|K]; [|now rewrite !nth_overflow by lia]. rewrite H by exact K. destruct (inside p k); [apply cmul_power|reflexivity].
Qed.
(** a shift by less than a sample changes nothing *)
Theorem shift_zero d f ts fb row row' : (Z.abs ts < f)%Z -> phase_shift1 d f ts fb row = Ok row' -> row' = row.
Proof.
  intros Ht. unfold phase_shift1. destruct d as [s|]; [|discriminate]. destruct (select s fb) as [p|]; [|discriminate]. cbn [bind].
  assert (E0 : shift_samples ts f = 0%Z) by (unfold shift_samples; apply Z.quot_small_iff; lia). rewrite E0.
  destruct (imul_cut p row 0 (length row) eq_refl) as (r & E & L & H). rewrite E. intros [= <-]. apply nth_ext_c; [exact L|]. intros k Hk. rewrite H by lia.
  destruct (inside p k); [|reflexivity]. replace (phase (length row) k 0) with 0 by (unfold phase, Rdiv; ring). apply cmul_one.
Qed.
(** shifts add up *)
Theorem shift_add d f a b fb row r1 : (0 < f)%Z -> phase_shift1 d f (a * f) fb row = Ok r1 -> phase_shift1 d f (b * f) fb r1 = phase_shift1 d f ((a + b) * f) fb row.
Proof.
  intros Hf. unfold phase_shift1. destruct d as [s|]; [|discriminate]. destruct (select s fb) as [p|]; [|discriminate]. cbn [bind]. unfold shift_samples. rewrite !Z.quot_mul by lia.
  destruct (imul_cut p row a (length row) eq_refl) as (r & E & L & H). rewrite E. intros [= <-].
  destruct (imul_cut p r b (length r) eq_refl) as (r2 & E2 & L2 & H2). rewrite E2. destruct (imul_cut p row (a + b) (length row) eq_refl) as (r3 & E3 & L3 & H3). rewrite E3. f_equal.
  apply nth_ext_c; [lia|]. intros k Hk. rewrite H2, H3, L by lia. rewrite H by lia. destruct (inside p k); [|reflexivity]. now rewrite cmul_exp_exp, phase_add.
Qed.
(** a shift by as many samples as there are coefficients changes nothing *)
Theorem shift_full_turn d f j fb row row' : (0 < f)%Z -> phase_shift1 d f (Z.of_nat (length row) * j * f) fb row = Ok row' -> row' = row.
Proof.
  intros Hf. unfold phase_shift1. destruct d as [s|]; [|discriminate]. destruct (select s fb) as [p|]; [|discriminate]. cbn [bind]. unfold shift_samples. rewrite Z.quot_mul by lia.
  destruct (imul_cut p row (Z.of_nat (length row) * j) (length row) eq_refl) as (r & E & L & H). rewrite E. intros [= <-]. apply nth_ext_c; [exact L|]. intros k Hk. rewrite H by lia.
  destruct (inside p k); [|reflexivity]. transitivity (cmul (nth k row cz) (cexp_neg 0)); [|apply cmul_one]. f_equal. rewrite <- (cexp_period 0 (Z.of_nat k * j)). f_equal.
  unfold phase. rewrite !mult_IZR, <- !INR_IZR_INZ. field. apply not_0_INR. lia.
Qed.

(** ** what the shift means in time *)
Lemma rsum_split a b f : rsum (a + b) f = rsum a f + rsum b (fun i => f (a + i)%nat).
Proof. induction b as [|b IH]; [rewrite Nat.add_0_r; cbn; ring|]. rewrite Nat.add_succ_r. cbn [rsum]. rewrite IH. ring. Qed.
(** a sum over a whole turn does not depend on where it starts *)
Lemma rsum_rotate n g z : (0 < n)%nat -> rsum n (fun t => g (Z.to_nat ((Z.of_nat t + z) mod Z.of_nat n))) = rsum n g.
Proof.
  intros Hn. set (r := Z.to_nat (z mod Z.of_nat n)). assert (Hz := Z.mod_pos_bound z (Z.of_nat n) ltac:(lia)). assert (Hr : (r < n)%nat) by (unfold r; lia).
  rewrite (rsum_ext n _ (fun t => g ((t + r) mod n)%nat)).
  2: { intros t Ht. f_equal. rewrite <- Zplus_mod_idemp_r. replace (z mod Z.of_nat n)%Z with (Z.of_nat r) by (unfold r; lia). rewrite <- Nat2Z.inj_add, <- Nat2Z.inj_mod. apply Nat2Z.id. }
  assert (R1 : forall F, rsum n F = rsum (n - r) F + rsum r (fun i => F (n - r + i)%nat)) by (intros F; rewrite <- rsum_split; f_equal; lia).
  assert (R2 : rsum n g = rsum r g + rsum (n - r) (fun i => g (r + i)%nat)) by (rewrite <- rsum_split; f_equal; lia). rewrite R1, R2. rewrite Rplus_comm. f_equal.
  - apply rsum_ext. intros i Hi. f_equal. replace (n - r + i + r)%nat with (i + 1 * n)%nat by lia. rewrite Nat.mod_add by lia. apply Nat.mod_small. lia.
  - apply rsum_ext. intros i Hi. f_equal. rewrite Nat.mod_small by lia. lia.
Qed.
(** the samples of [x], [s] of them later, around the end *)
Definition rotated (x : list R) (s : Z) (t : nat) : R := at_ x (Z.to_nat ((Z.of_nat t - s) mod Z.of_nat (length x))).
Definition dft (x : nat -> R) (n k : nat) : cplx := fft n n (fun t => (x t, 0)) k.
Lemma dft_rotated x s k : x <> [] -> dft (rotated x s) (length x) k = cmul (dft (at_ x) (length x) k) (cexp_neg (phase (length x) k s)).
Proof.
  intros Hx. set (n := length x). assert (Hn : (0 < n)%nat) by (unfold n; destruct x; [contradiction|cbn; lia]). assert (N0 : INR n <> 0) by (apply not_0_INR; lia).
  assert (A : forall t u, (t < n)%nat -> u = Z.to_nat ((Z.of_nat t - s) mod Z.of_nat n) -> cexp_neg (2 * PI * INR k * INR t / INR n) = cexp_neg (2 * PI * INR k * INR u / INR n + phase n k s)).
  { intros t u Ht ->. set (u := Z.to_nat _). pose proof (Z.mod_pos_bound (Z.of_nat t - s) (Z.of_nat n) ltac:(lia)) as B.
    assert (Eu : INR u = INR t - IZR s - IZR ((Z.of_nat t - s) / Z.of_nat n) * INR n).
    { rewrite !INR_IZR_INZ, <- mult_IZR, <- !minus_IZR. f_equal. unfold u. rewrite Z2Nat.id by lia. pose proof (Z.div_mod (Z.of_nat t - s) (Z.of_nat n) ltac:(lia)). lia. }
    symmetry. rewrite <- (cexp_period (2 * PI * INR k * INR t / INR n) (- (Z.of_nat k * ((Z.of_nat t - s) / Z.of_nat n)))). f_equal.
    rewrite Eu, opp_IZR, mult_IZR, <- INR_IZR_INZ. unfold phase. field. exact N0. }
  unfold dft, fft. assert (Ef : forall F G : nat -> cplx, (forall t, (t < n)%nat -> F t = G t) -> csum n F = csum n G).
  { intros F G H. apply injective_projections; rewrite ?csum_fst, ?csum_snd; apply rsum_ext; intros; now rewrite H. }
  rewrite (Ef _ (fun t => let u := Z.to_nat ((Z.of_nat t + (- s)) mod Z.of_nat n) in cmul (cmul (at_ x u, 0) (cexp_neg (2 * PI * INR k * INR u / INR n))) (cexp_neg (phase n k s)))).
  2: { intros t Ht. cbv zeta. replace (Z.of_nat t + - s)%Z with (Z.of_nat t - s)%Z by lia. rewrite cmul_exp_exp, <- (A t _ Ht eq_refl). unfold rotated. fold n. reflexivity. }
  cbv zeta. set (G := fun u : nat => cmul (cmul (at_ x u, 0) (cexp_neg (2 * PI * INR k * INR u / INR n))) (cexp_neg (phase n k s))).
  transitivity (csum n G).
  - apply injective_projections; rewrite ?csum_fst, ?csum_snd; [exact (rsum_rotate n (fun u => fst (G u)) (- s) Hn)|exact (rsum_rotate n (fun u => snd (G u)) (- s) Hn)].
  - unfold G. apply injective_projections; rewrite ?csum_fst, ?csum_snd; cbn [cmul fst snd]; rewrite csum_fst, csum_snd.
    + rewrite (rsum_ext n _ (fun i => fst (cexp_neg (phase n k s)) * fst (cmul (at_ x i, 0) (cexp_neg (2 * PI * INR k * INR i / INR n))) + - snd (cexp_neg (phase n k s)) * snd (cmul (at_ x i, 0) (cexp_neg (2 * PI * INR k * INR i / INR n))))) by (intros; cbn [cmul fst snd]; ring).
      rewrite rsum_plus, !rsum_scale. cbn [cmul fst snd]. ring.
    + rewrite (rsum_ext n _ (fun i => snd (cexp_neg (phase n k s)) * fst (cmul (at_ x i, 0) (cexp_neg (2 * PI * INR k * INR i / INR n))) + fst (cexp_neg (phase n k s)) * snd (cmul (at_ x i, 0) (cexp_neg (2 * PI * INR k * INR i / INR n))))) by (intros; cbn [cmul fst snd]; ring).
      rewrite rsum_plus, !rsum_scale. cbn [cmul fst snd]. ring.
Qed.
(** on the complete spectrum of n samples, phase_shift is the delay by that many samples *)
Theorem shift_delays s f j x : (0 < f)%Z -> x <> [] -> length x = scale_len s ->
  phase_shift1 (PFreq s) f (j * f) None (map (dft (at_ x) (length x)) (seq 0 (length x))) = Ok (map (dft (rotated x j) (length x)) (seq 0 (length x))).
Proof.
  intros Hf Hx L. set (n := length x) in *. set (row := map _ (seq 0 n)). assert (Lr : length row = n) by (unfold row; now rewrite map_length, seq_length).
  destruct (shift_all s f (j * f) row ltac:(congruence)) as (row' & E & L' & H). rewrite E. f_equal.
  apply nth_ext_c; [rewrite map_length, seq_length; congruence|]. intros k Hk. rewrite H by lia. rewrite Z.quot_mul by lia.
  assert (P : forall F : nat -> cplx, nth k (map F (seq 0 n)) cz = F k).
  { intros F. rewrite (nth_indep _ cz (F 0%nat)) by (rewrite map_length, seq_length; lia). rewrite map_nth, seq_nth by lia. reflexivity. }
  unfold row at 1. rewrite !P. rewrite Lr. unfold n. rewrite dft_rotated by exact Hx. reflexivity.
Qed.
(** on the half spectrum that [fft] returns, of n = 2h samples, the delay is n / (h + 1) times
    too long *)
Theorem shift_half_spectrum s f j h row : (0 < f)%Z -> (0 < h)%nat -> length row = S h -> scale_len s = S h -> exists row',
  phase_shift1 (PFreq s) f (j * f) None row = Ok row' /\
  forall k, (k <= h)%nat -> nth k row' cz = cmul (nth k row cz) (cexp_neg (2 * PI * INR k * (IZR j * (2 * INR h / (INR h + 1))) / (2 * INR h))).
Proof.
  intros Hf Hh L Ls. destruct (shift_all s f (j * f) row ltac:(congruence)) as (row' & E & L' & H). exists row'. split; [exact E|]. intros k Hk. rewrite H by lia. rewrite Z.quot_mul, L, S_INR by lia.
  do 2 f_equal. assert (0 < INR h) by (apply lt_0_INR; lia). field. lra.
Qed.
(** so a shift of the half spectrum of four samples by three samples is no shift at all *)
Theorem shift_rfft_refuted : exists s f x row, length x = 4%nat /\ length row = scale_len s /\ row = rfft_ortho 0 x /\
  phase_shift1 (PFreq s) f (3 * f) None row = Ok row /\ rfft_ortho 0 (map (rotated x 3) (seq 0 4)) <> row.
Proof.
  exists (Linear (mkBand 0 22050) 3 false), 1000%Z, [1; 0; 0; 0], (rfft_ortho 0 [1; 0; 0; 0]).
  split; [reflexivity|]. assert (Lr : length (rfft_ortho 0 [1; 0; 0; 0]) = 3%nat) by reflexivity. split; [exact Lr|]. split; [reflexivity|]. split.
  - destruct (shift_all (Linear (mkBand 0 22050) 3 false) 1000 (3 * 1000) (rfft_ortho 0 [1; 0; 0; 0]) Lr) as (row' & E & _). rewrite E. f_equal.
    apply (shift_full_turn (PFreq (Linear (mkBand 0 22050) 3 false)) 1000 1 None (rfft_ortho 0 [1; 0; 0; 0]) row'); [reflexivity|]. rewrite Lr. exact E.
  - intros E. apply (f_equal (fun l => fst (nth 1 l cz))) in E. revert E. unfold rfft_ortho, rotated. cbn [app repeat map seq length Z.of_nat Z.sub Z.opp Z.add Z.modulo Nat.div Nat.divmod fst snd Nat.add nth Nat.sub].
    vm_compute Z.to_nat.
    unfold fft. cbn [csum]. unfold cadd, cmul, cexp_neg, cscale, at_. cbn [fst snd nth INR]. 
    assert (S4 : 0 < / sqrt (1 + 1 + 1 + 1)) by (apply Rinv_0_lt_compat, sqrt_lt_R0; lra).
    replace (2 * PI * 1 * 0 / (1 + 1 + 1 + 1)) with 0 by field. rewrite cos_0.
    replace (2 * PI * 1 * (1 + 1 + 1) / (1 + 1 + 1 + 1)) with (3 * (PI / 2)) by field. rewrite cos_3PI2. intros E. nra.
Qed.

(** ** two dimensions *)
(** along the last axis every row is shifted by itself *)
Theorem shift_rows d f ts fb n rows : rows <> [] -> Forall (fun r => length r = n) rows ->
  phase_shift_last d f ts fb n rows = mapM (phase_shift1 d f ts fb) rows.
Proof.
  intros Hne F. unfold phase_shift_last, phase_shift1. destruct d as [s|]; [|destruct rows; [contradiction|reflexivity]].
  destruct (select s fb) as [p|e]; cbn [bind]; [|destruct rows; [contradiction|reflexivity]].
  clear Hne. induction F as [|r rows L F IH]; [reflexivity|]. cbn [mapM]. rewrite L, IH. reflexivity.
Qed.
(** along the first axis the factors are laid along the last one: with as many rows as
    columns the entry (i, j) is turned by the phase of j, not of i *)
Theorem shift_first_refuted s f ts n rows : (0 < n)%nat -> scale_len s = n -> length rows = n -> Forall (fun r => length r = n) rows -> exists rows',
  phase_shift_first (PFreq s) f ts None rows = Ok rows' /\
  forall i j, (i < n)%nat -> (j < n)%nat -> nth j (nth i rows' []) cz = cmul (nth j (nth i rows []) cz) (cexp_neg (2 * PI * INR j * IZR (Z.quot ts f) / INR n)).
Proof.
  intros Hn Ls Lr F. unfold phase_shift_first, select. cbn [bind]. rewrite Ls, Lr. set (fs := shift_factors n (shift_samples ts f)).
  assert (Lf : length fs = n) by apply factors_length.
  assert (C1 : cut (0, n)%nat rows = rows) by (unfold cut; cbn [fst snd skipn]; apply firstn_all2; lia).
  assert (C2 : cut (0, n)%nat fs = fs) by (unfold cut; cbn [fst snd skipn]; apply firstn_all2; lia). rewrite C1, C2.
  assert (M : forall l, Forall (fun r => length r = n) l -> mapM (fun r => imul r fs) l = Ok (map (fun r => mul_lists r fs) l)).
  { induction 1 as [|r l H _ IH]; [reflexivity|]. cbn [mapM map]. unfold imul at 1. rewrite H, Lf, Nat.eqb_refl. cbn [bind]. rewrite IH. reflexivity. }
  rewrite (M rows F). cbn [bind]. eexists. split; [reflexivity|]. intros i j Hi Hj. unfold paste. cbn [fst firstn app Nat.add]. rewrite map_length, (skipn_all2 rows) by lia. rewrite app_nil_r.
  rewrite (nth_indep _ [] (mul_lists [] fs)) by (rewrite map_length; lia). rewrite (map_nth (fun r => mul_lists r fs) rows [] i).
  assert (Li : length (nth i rows []) = n) by (rewrite Forall_forall in F; apply F, nth_In; lia).
  rewrite mul_nth by lia. unfold fs. rewrite factor_at by exact Hj. reflexivity.
Qed.
Theorem shift_first_fails_refuted s f ts n m rows : (1 < n)%nat -> n <> m -> scale_len s = n -> length rows = n -> Forall (fun r => length r = m) rows ->
  phase_shift_first (PFreq s) f ts None rows = Raise ValueError.
Proof.
  intros Hn Hm Ls Lr F. unfold phase_shift_first, select. cbn [bind]. rewrite Ls, Lr. set (fs := shift_factors n (shift_samples ts f)).
  assert (Lf : length fs = n) by apply factors_length.
  assert (C1 : cut (0, n)%nat rows = rows) by (unfold cut; cbn [fst snd skipn]; apply firstn_all2; lia).
  assert (C2 : cut (0, n)%nat fs = fs) by (unfold cut; cbn [fst snd skipn]; apply firstn_all2; lia). rewrite C1, C2.
  destruct F as [|r rows H F]; [cbn in Lr; lia|]. cbn [mapM]. unfold imul at 1. rewrite H, Lf. destruct (Nat.eqb_spec m n); [lia|]. destruct (Nat.eqb_spec n 1); [lia|]. reflexivity.
Qed.
(** what is refused *)
Theorem shift_refuses f ts fb row rows n : phase_shift1 POther f ts fb row = Raise ValueError /\ phase_shift_last POther f ts fb n rows = Raise ValueError /\
  phase_shift_first POther f ts fb rows = Raise ValueError.
Proof. repeat split. Qed.
Theorem shift_nothing_touched s bs q f ts row : well_formed s -> scale_bands s = Ok bs -> proper q -> scale_even s = false -> (forall b, In b bs -> touched q b = false) ->
  phase_shift1 (PFreq s) f ts (Some q) row = Raise IndexError.
Proof.
  intros W Hb Hq He Hn. unfold phase_shift1, select. destruct (well_formed_bands s W) as (bs' & Hb' & _ & Ho & _). rewrite Hb in Hb'. injection Hb' as <-.
  destruct (get_slice_range s bs q Hb Ho) as (i & j & E & _). rewrite E. cbn [bind].
  destruct (get_slice_exact s bs q Hb Ho He) as (sl & E1 & E2). unfold scale_slice. rewrite Hb. cbn [bind]. rewrite E1. cbn [bind]. rewrite E2.
  replace (filter (touched q) bs) with (@nil band) by (symmetry; clear - Hn; induction bs as [|b bs IH]; [reflexivity|]; cbn; rewrite (Hn b) by (now left); apply IH; intros; apply Hn; now right).
  inversion W; subst; reflexivity.
Qed.
Example shift_demo : exists row', phase_shift1 (PFreq (Explicit [mkBand 0 100; mkBand 100 200; mkBand 200 300])) 1000 (2 * 1000) (Some (mkBand 120 150)) [(1, 0); (2, 1); (0, 1)] = Ok row' /\
  nth 0 row' cz = (1, 0) /\ nth 1 row' cz = cmul (2, 1) (cexp_neg (2 * PI * 1 * 2 / 3)) /\ nth 2 row' cz = (0, 1).
Proof.
  set (bs := [mkBand 0 100; mkBand 100 200; mkBand 200 300]). set (q := mkBand 120 150).
  assert (Ho : ordered bs).
  { intros i j a b Hij Ha Hb. unfold bs in *. destruct i as [|[|[|i]]]; destruct j as [|[|[|j]]]; simpl in *; try lia; try (destruct i; discriminate); try (destruct j; discriminate); inversion Ha; inversion Hb; subst; simpl; lra. }
  assert (T0 : touched q (mkBand 0 100) = false) by (unfold touched, q; cbn [bstart bstop]; apply andb_false_iff; right; apply Rleb_false; lra).
  assert (T1 : touched q (mkBand 100 200) = true) by (unfold touched, q; cbn [bstart bstop]; apply andb_true_iff; rewrite Rltb_true, Rleb_true; lra).
  assert (T2 : touched q (mkBand 200 300) = false) by (unfold touched, q; cbn [bstart bstop]; apply andb_false_iff; left; apply Rltb_false; lra).
  destruct (get_slice_exact (Explicit bs) bs q eq_refl Ho eq_refl) as (sl & E1 & E2).
  assert (Es : exists s', scale_slice (Explicit bs) (IBand q) = Ok s').
  { unfold scale_slice. rewrite E1. cbn [scale_bands bind]. rewrite E2. unfold bs. cbn [filter]. rewrite T0, T1, T2. cbn [construct_from_slice]. unfold make_explicit, span_band. cbn [last bstart bstop]. rewrite make_band_ok by (unfold proper; cbn; lra). eexists. reflexivity. }
  destruct Es as (s' & Es). destruct (shift_band (Explicit bs) bs q 1000 (2 * 1000) [(1, 0); (2, 1); (0, 1)] s' eq_refl Ho eq_refl Es eq_refl) as (row' & E & _ & H).
  exists row'. split; [exact E|]. split; [|split].
  - rewrite (H 0%nat (mkBand 0 100) eq_refl), T0. reflexivity.
  - rewrite (H 1%nat (mkBand 100 200) eq_refl), T1. cbn [nth length]. rewrite Z.quot_mul by lia. do 3 f_equal; cbn [INR]; lra.
  - rewrite (H 2%nat (mkBand 200 300) eq_refl), T2. reflexivity.
Qed.
