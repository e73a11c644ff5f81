(** The frequency-adaptive transform and its inverse (C79). *)
From Verif Require Import PyBase PyFacts PyMore Time TimeProofs Freq FreqProofs FreqScaleProofs FreqDim FreqDimProofs PhaseShift PhaseShiftProofs Spectral SpectralProofs OverlapProofs TransformProofs ReconProofs SynthProofs Resample ResampleProofs Stft StftProofs TimeStretchProofs FreqAdapt.
From Coq Require Import Reals Lra Lia.
Local Open Scope R_scope.

(** ** dct(idct(c)) *)
Theorem dct2_idct2 c : dct2_ortho (idct2_ortho c) = c.
Proof.
  apply nth_ext with (d := 0) (d' := 0); [now rewrite dct2_length, idct2_length|].
  intros k Hk. rewrite dct2_length, idct2_length in Hk. set (n := length c) in *. assert (Hn : (0 < n)%nat) by lia. assert (Pn : INR n <> 0) by (apply not_0_INR; lia).
  unfold dct2_ortho. rewrite idct2_length. fold n. rewrite nth_map_seq by exact Hk.
  rewrite (rsum_ext n _ (fun t => rsum n (fun l => ortho_weight n l * at_ c l * (dct_basis n l t * dct_basis n k t)))).
  2: { intros t Ht. unfold idct2_ortho. fold n. rewrite at_map_seq by exact Ht. rewrite Rmult_comm, <- rsum_scale. apply rsum_ext. intros l _. unfold dct_basis.
       replace (PI / INR n * (INR l * (INR t + / 2))) with (PI * INR l * (INR t + / 2) / INR n) by (field; exact Pn).
       replace (PI / INR n * (INR k * (INR t + / 2))) with (PI * INR k * (INR t + / 2) / INR n) by (field; exact Pn). ring. }
  rewrite rsum_swap. rewrite (rsum_ext n _ (fun l => ortho_weight n l * at_ c l * rsum n (fun t => dct_basis n l t * dct_basis n k t))) by (intros; apply rsum_scale).
  rewrite (rsum_single n _ k Hk).
  - rewrite basis_orthogonal by exact Hk. rewrite Nat.eqb_refl. unfold at_. pose proof (ortho_weight_sq n k Hn) as W.
    replace (ortho_weight n k * (ortho_weight n k * nth k c 0 * (if Nat.eqb k 0 then INR n else INR n / 2))) with (ortho_weight n k * ortho_weight n k * (if Nat.eqb k 0 then INR n else INR n / 2) * nth k c 0) by ring.
    rewrite W. destruct (Nat.eqb k 0); field; exact Pn.
  - intros l Hl Hne. rewrite basis_orthogonal by assumption. destruct (Nat.eqb_spec l k); [contradiction|]. ring.
Qed.

(** ** rfft(irfft(c)): the imaginary parts of the first and of the last coefficient are lost *)
Definition half_weight (h l : nat) : R := if (Nat.eqb l 0 || Nat.eqb l h)%bool then 1 else 2.
Lemma cos_cos_sum n k l : (0 < n)%nat -> rsum n (fun t => cos (2 * PI * INR l * INR t / INR n) * cos (2 * PI * INR k * INR t / INR n)) =
  / 2 * ((if ((Z.of_nat l - Z.of_nat k) mod Z.of_nat n =? 0)%Z then INR n else 0) + (if ((Z.of_nat l + Z.of_nat k) mod Z.of_nat n =? 0)%Z then INR n else 0)).
Proof.
  intros Hn. assert (Pn : INR n <> 0) by (apply not_0_INR; lia).
  rewrite (rsum_ext n _ (fun t => / 2 * (cos (2 * PI * IZR (Z.of_nat l - Z.of_nat k) * INR t / INR n + 0) + cos (2 * PI * IZR (Z.of_nat l + Z.of_nat k) * INR t / INR n + 0)))).
  2: { intros t _. rewrite cos_product. rewrite minus_IZR, plus_IZR, <- !INR_IZR_INZ. f_equal. f_equal; f_equal; field; exact Pn. }
  rewrite rsum_scale, rsum_plus, !cos_sum_period by exact Hn. rewrite cos_0, Rmult_1_r. reflexivity.
Qed.
Lemma sin_sin_sum n k l : (0 < n)%nat -> rsum n (fun t => sin (2 * PI * INR l * INR t / INR n) * sin (2 * PI * INR k * INR t / INR n)) =
  / 2 * ((if ((Z.of_nat l - Z.of_nat k) mod Z.of_nat n =? 0)%Z then INR n else 0) - (if ((Z.of_nat l + Z.of_nat k) mod Z.of_nat n =? 0)%Z then INR n else 0)).
Proof.
  intros Hn. assert (Pn : INR n <> 0) by (apply not_0_INR; lia).
  rewrite (rsum_ext n _ (fun t => / 2 * (cos (2 * PI * IZR (Z.of_nat l - Z.of_nat k) * INR t / INR n + 0) + -1 * cos (2 * PI * IZR (Z.of_nat l + Z.of_nat k) * INR t / INR n + 0)))).
  2: { intros t _. set (a := 2 * PI * INR l * INR t / INR n). set (b := 2 * PI * INR k * INR t / INR n).
       replace (2 * PI * IZR (Z.of_nat l - Z.of_nat k) * INR t / INR n + 0) with (a - b) by (unfold a, b; rewrite minus_IZR, <- !INR_IZR_INZ; field; exact Pn).
       replace (2 * PI * IZR (Z.of_nat l + Z.of_nat k) * INR t / INR n + 0) with (a + b) by (unfold a, b; rewrite plus_IZR, <- !INR_IZR_INZ; field; exact Pn).
       rewrite cos_minus, cos_plus. field. }
  rewrite rsum_scale, rsum_plus, rsum_scale, !cos_sum_period by exact Hn. rewrite cos_0, Rmult_1_r. f_equal. ring.
Qed.
Lemma sin_cos_sum n k l : (0 < n)%nat -> rsum n (fun t => sin (2 * PI * INR l * INR t / INR n) * cos (2 * PI * INR k * INR t / INR n)) = 0.
Proof.
  intros Hn. assert (Pn : INR n <> 0) by (apply not_0_INR; lia).
  rewrite (rsum_ext n _ (fun t => / 2 * (cos (2 * PI * IZR (Z.of_nat l - Z.of_nat k) * INR t / INR n + - (PI / 2)) + cos (2 * PI * IZR (Z.of_nat l + Z.of_nat k) * INR t / INR n + - (PI / 2))))).
  2: { intros t _. set (a := 2 * PI * INR l * INR t / INR n). set (b := 2 * PI * INR k * INR t / INR n).
       replace (2 * PI * IZR (Z.of_nat l - Z.of_nat k) * INR t / INR n) with (a - b) by (unfold a, b; rewrite minus_IZR, <- !INR_IZR_INZ; field; exact Pn).
       replace (2 * PI * IZR (Z.of_nat l + Z.of_nat k) * INR t / INR n) with (a + b) by (unfold a, b; rewrite plus_IZR, <- !INR_IZR_INZ; field; exact Pn).
       rewrite (cos_plus (a - b)), (cos_plus (a + b)), cos_neg, cos_PI2, sin_neg, sin_PI2. rewrite sin_minus, sin_plus. field. }
  rewrite rsum_scale, rsum_plus, !cos_sum_period by exact Hn. rewrite cos_neg, cos_PI2. destruct (_ =? _)%Z, (_ =? _)%Z; ring.
Qed.
(** the samples as one sum *)
Lemma irfft_at c h t : length c = S h -> (0 < h)%nat -> (t < 2 * h)%nat ->
  at_ (irfft_row c) t = / sqrt (INR (2 * h)) * rsum (S h) (fun l => half_weight h l * (fst (nth l c cz) * cos (2 * PI * INR l * INR t / INR (2 * h)) - snd (nth l c cz) * sin (2 * PI * INR l * INR t / INR (2 * h)))).
Proof.
  intros L Hh Ht. assert (Ph : INR h <> 0) by (apply not_0_INR; lia). unfold irfft_row, irfft_ortho. rewrite L. replace (S h - 1)%nat with h by lia. destruct (Nat.eqb_spec (2 * h) 0); [lia|]. rewrite at_map_seq by exact Ht.
  f_equal. rewrite (rsum_first (S h)) by lia. replace (S h - 1)%nat with (S (h - 1)) by lia. cbn [rsum]. replace (S (h - 1)) with h by lia. unfold half_weight. cbn [Nat.eqb orb]. rewrite Nat.eqb_refl, orb_true_r.
  assert (E0 : 2 * PI * INR 0 * INR t / INR (2 * h) = 0) by (cbn [INR]; unfold Rdiv; ring). rewrite E0, cos_0, sin_0.
  assert (Eh : 2 * PI * INR h * INR t / INR (2 * h) = PI * INR t) by (rewrite mult_INR; cbn [INR]; field; exact Ph). rewrite Eh.
  assert (Sp : sin (PI * INR t) = 0) by (rewrite INR_IZR_INZ, Rmult_comm; apply sin_int_pi). rewrite Sp.
  rewrite (rsum_ext (h - 1) (fun j => (if (false || Nat.eqb (S j) h)%bool then 1 else 2) * _) (fun j => 2 * (fst (nth (S j) c cz) * cos (2 * PI * INR (S j) * INR t / INR (2 * h)) - snd (nth (S j) c cz) * sin (2 * PI * INR (S j) * INR t / INR (2 * h))))).
  - ring.
  - intros j Hj. destruct (Nat.eqb_spec (S j) h); [lia|]. reflexivity.
Qed.
Lemma mod_cases h k l : (0 < h)%nat -> (k <= h)%nat -> (l <= h)%nat ->
  ((Z.of_nat l - Z.of_nat k) mod Z.of_nat (2 * h) =? 0)%Z = Nat.eqb l k /\ ((Z.of_nat l + Z.of_nat k) mod Z.of_nat (2 * h) =? 0)%Z = (Nat.eqb l k && (Nat.eqb k 0 || Nat.eqb k h))%bool.
Proof.
  intros Hh Hk Hl. split.
  - destruct (Nat.eqb_spec l k) as [->|N]; [now rewrite Z.sub_diag, Z.mod_0_l by lia|]. apply Z.eqb_neq. intros E. apply Z.mod_divide in E; [|lia]. destruct E as [z Ez]. assert (z <= -1 \/ z = 0 \/ 1 <= z)%Z as [Hz|[Hz|Hz]] by lia; nia.
  - destruct (Nat.eqb_spec k 0) as [->|N0]; cbn [orb].
    + rewrite Z.add_0_r, Z.mod_small by lia. destruct (Nat.eqb_spec l 0); cbn [andb]; [subst; reflexivity|apply Z.eqb_neq; lia].
    + destruct (Nat.eqb_spec k h) as [->|Nh]; cbn [orb]; [|rewrite andb_false_r].
      * destruct (Nat.eqb_spec l h) as [->|Nl]; cbn [andb]; [replace (Z.of_nat h + Z.of_nat h)%Z with (1 * Z.of_nat (2 * h))%Z by lia; now rewrite Z.mod_mul by lia|apply Z.eqb_neq; rewrite Z.mod_small; lia].
      * apply Z.eqb_neq. rewrite Z.mod_small; lia.
Qed.
Lemma rsum_at n f k : (k < n)%nat -> rsum n (fun l => if Nat.eqb l k then f l else 0) = f k.
Proof. intros H. rewrite (rsum_single n _ k H); [now rewrite Nat.eqb_refl|]. intros l _ N. destruct (Nat.eqb_spec l k); [contradiction|reflexivity]. Qed.
(** what survives irfft followed by rfft *)
Definition real_ends (c : list cplx) : list cplx :=
  map (fun k => (fst (nth k c cz), if (Nat.eqb k 0 || Nat.eqb k (length c - 1))%bool then 0 else snd (nth k c cz))) (seq 0 (length c)).
Theorem rfft_irfft c : (2 <= length c)%nat -> exists x, irfft_ortho c = Ok x /\ length x = (2 * (length c - 1))%nat /\ rfft_ortho 0 x = real_ends c.
Proof.
  intros L. destruct (irfft_total c L) as [E Lx]. exists (irfft_row c). split; [exact E|]. split; [exact Lx|]. set (h := (length c - 1)%nat) in *. assert (Lc : length c = S h) by lia. assert (Hh : (0 < h)%nat) by lia.
  assert (H2 : (2 * h / 2 = h)%nat) by (rewrite Nat.mul_comm; apply Nat.div_mul; lia).
  apply nth_ext_c; [rewrite rfft_length, Lx, Nat.add_0_r, H2; unfold real_ends; rewrite map_length, seq_length; lia|].
  intros k Hk. rewrite rfft_length, Lx, Nat.add_0_r, H2 in Hk. rewrite rfft_coeff by (rewrite Lx, Nat.add_0_r, H2; lia). rewrite Lx, Nat.add_0_r.
  unfold real_ends. rewrite nth_map_seq by lia. rewrite Lc. replace (S h - 1)%nat with h by lia. unfold dft_coeff.
  assert (P2 : (0 < 2 * h)%nat) by lia. assert (Pn : INR (2 * h) <> 0) by (apply not_0_INR; lia). pose proof (sqrt_inv_sq (2 * h) ltac:(lia)) as Q. set (q := / sqrt (INR (2 * h))) in *.
  set (a := fun l => fst (nth l c cz)). set (b := fun l => snd (nth l c cz)). fold (a k) (b k).
  assert (X : forall g : nat -> R, rsum (2 * h) (fun t => at_ (irfft_row c) t * g t) =
    q * rsum (S h) (fun l => half_weight h l * (a l * rsum (2 * h) (fun t => cos (2 * PI * INR l * INR t / INR (2 * h)) * g t) - b l * rsum (2 * h) (fun t => sin (2 * PI * INR l * INR t / INR (2 * h)) * g t)))).
  { intros g. rewrite (rsum_ext (2 * h) _ (fun t => q * rsum (S h) (fun l => half_weight h l * (a l * cos (2 * PI * INR l * INR t / INR (2 * h)) - b l * sin (2 * PI * INR l * INR t / INR (2 * h))) * g t))).
    2: { intros t Ht. rewrite (irfft_at c h t Lc Hh Ht). fold q. rewrite Rmult_assoc. f_equal. rewrite Rmult_comm, <- rsum_scale. apply rsum_ext. intros l _. unfold a, b. ring. }
    rewrite rsum_scale, rsum_swap. f_equal. apply rsum_ext. intros l _.
    rewrite (rsum_ext (2 * h) _ (fun t => half_weight h l * a l * (cos (2 * PI * INR l * INR t / INR (2 * h)) * g t) + - half_weight h l * b l * (sin (2 * PI * INR l * INR t / INR (2 * h)) * g t))) by (intros; ring).
    rewrite rsum_plus, !rsum_scale. ring. }
  f_equal.
  - rewrite (X (fun t => cos (2 * PI * INR k * INR t / INR (2 * h)))).
    rewrite (rsum_ext (S h) _ (fun l => if Nat.eqb l k then a l * INR (2 * h) else 0)).
    + rewrite rsum_at by lia. replace (q * (q * (a k * INR (2 * h)))) with (q * q * INR (2 * h) * a k) by ring. rewrite Q. field. exact Pn.
    + intros l Hl. rewrite sin_cos_sum, cos_cos_sum by exact P2. destruct (mod_cases h k l Hh ltac:(lia) ltac:(lia)) as [-> ->]. unfold half_weight.
      destruct (Nat.eqb_spec l k) as [->|]; cbn [andb]; [|ring]. destruct (Nat.eqb k 0 || Nat.eqb k h)%bool; field.
  - rewrite (X (fun t => sin (2 * PI * INR k * INR t / INR (2 * h)))).
    rewrite (rsum_ext (S h) _ (fun l => if Nat.eqb l k then (if (Nat.eqb l 0 || Nat.eqb l h)%bool then 0 else - (b l * INR (2 * h))) else 0)).
    + rewrite rsum_at by lia. destruct (Nat.eqb k 0 || Nat.eqb k h)%bool; [ring|]. replace (- (q * (q * - (b k * INR (2 * h))))) with (q * q * INR (2 * h) * b k) by ring. rewrite Q. field. exact Pn.
    + intros l Hl. rewrite sin_sin_sum by exact P2. rewrite (rsum_ext (2 * h) (fun t => cos (2 * PI * INR l * INR t / INR (2 * h)) * sin (2 * PI * INR k * INR t / INR (2 * h))) (fun t => sin (2 * PI * INR k * INR t / INR (2 * h)) * cos (2 * PI * INR l * INR t / INR (2 * h)))) by (intros; ring).
      rewrite sin_cos_sum by exact P2. destruct (mod_cases h k l Hh ltac:(lia) ltac:(lia)) as [-> ->]. unfold half_weight.
      destruct (Nat.eqb_spec l k) as [->|]; cbn [andb]; [|ring]. destruct (Nat.eqb k 0 || Nat.eqb k h)%bool; field.
Qed.
