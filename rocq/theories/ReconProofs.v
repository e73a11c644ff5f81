(** Inverse transforms and overlap-add reconstruction (C48, C66). *)
From Verif Require Import PyBase PyFacts PyMore Time Spectral SpectralProofs TransformProofs WindowProofs.
From Coq Require Import Reals Lra Psatz.
Local Open Scope R_scope.

(** ** Sums of cosines of whole multiples *)
Lemma dirichlet theta m : 2 * sin (theta / 2) * (/ 2 + rsum m (fun j => cos (theta * INR (S j)))) = sin (theta * (INR m + / 2)).
Proof.
  induction m as [|m IH]; [cbn [rsum INR]; rewrite Rplus_0_r; replace (theta * (0 + / 2)) with (theta / 2) by field; field|].
  cbn [rsum]. rewrite <- Rplus_assoc, Rmult_plus_distr_l, IH, S_INR.
  replace (theta * (INR m + / 2)) with (theta * (INR m + 1) - theta / 2) by field.
  replace (theta * (INR m + 1 + / 2)) with (theta * (INR m + 1) + theta / 2) by field.
  rewrite sin_plus, sin_minus. ring.
Qed.
Definition D_ (h : nat) (d : Z) : R := rsum (h - 1) (fun j => cos (PI / INR h * IZR d * INR (S j))).
Lemma rsum_const m c : rsum m (fun _ => c) = INR m * c.
Proof. induction m as [|m IH]; [cbn; ring|]. cbn [rsum]. rewrite IH, S_INR. ring. Qed.
Lemma D_zero h : (0 < h)%nat -> D_ h 0 = INR h - 1.
Proof.
  intros H. unfold D_. rewrite (rsum_ext _ _ (fun _ => 1)).
  - rewrite rsum_const, minus_INR by lia. cbn [INR]. ring.
  - intros j _. rewrite Rmult_0_r, Rmult_0_l. apply cos_0.
Qed.
Lemma sin_half_nonzero h d : (0 < h)%nat -> (d mod (2 * Z.of_nat h) <> 0)%Z -> sin (PI / INR h * IZR d / 2) <> 0.
Proof.
  intros Hl Hk T. assert (Pl : INR h <> 0) by (apply not_0_INR; lia).
  apply sin_eq_0_0 in T as [z Hz]. apply Hk.
  assert (E : IZR d = IZR (z * (2 * Z.of_nat h))).
  { rewrite mult_IZR, mult_IZR, <- INR_IZR_INZ. apply Rmult_eq_reg_l with (PI / INR h / 2).
    - replace (PI / INR h / 2 * IZR d) with (PI / INR h * IZR d / 2) by (field; exact Pl). rewrite Hz. field. exact Pl.
    - pose proof PI_RGT_0. apply Rmult_integral_contrapositive_currified; [|lra]. apply Rmult_integral_contrapositive_currified; [lra|].
      apply Rinv_neq_0_compat. exact Pl. }
  apply eq_IZR in E. rewrite E. apply Z.mod_mul. lia.
Qed.
Lemma D_vanish h d : (0 < h)%nat -> (d mod (2 * Z.of_nat h) <> 0)%Z -> 2 * D_ h d = - 1 - cos (PI * IZR d).
Proof.
  intros H Hd. assert (Ph : INR h <> 0) by (apply not_0_INR; lia). pose proof (sin_half_nonzero h d H Hd) as N.
  pose proof (dirichlet (PI / INR h * IZR d) (h - 1)) as T. fold (D_ h d) in T. rewrite minus_INR in T by lia. cbn [INR] in T.
  set (th := PI / INR h * IZR d) in *.
  replace (th * (INR h - 1 + / 2)) with (IZR d * PI - th / 2) in T by (unfold th; field; exact Ph).
  rewrite sin_minus, sin_int_pi in T. rewrite (Rmult_comm PI). apply Rmult_eq_reg_l with (sin (th / 2)); [|exact N].
  transitivity (2 * sin (th / 2) * (/ 2 + D_ h d) - sin (th / 2)); [field|]. rewrite T. ring.
Qed.
Lemma cos_pi_int_sq d : cos (PI * IZR d) * cos (PI * IZR d) = 1.
Proof. pose proof (sin2_cos2 (PI * IZR d)) as T. unfold Rsqr in T. rewrite (Rmult_comm PI) in *. rewrite sin_int_pi in T. lra. Qed.

(** ** irfft(rfft(x)) *)
Lemma nth_map_seq {A} (f : nat -> A) n k d : (k < n)%nat -> nth k (map f (seq 0 n)) d = f k.
Proof. intros H. rewrite (nth_indep _ d (f 0%nat)) by (rewrite map_length, seq_length; exact H). now rewrite map_nth, seq_nth. Qed.
Lemma rfft_length p x : length (rfft_ortho p x) = ((length x + p) / 2 + 1)%nat.
Proof. unfold rfft_ortho. now rewrite map_length, seq_length, app_length, repeat_length. Qed.
Definition real_kernel (h t s : nat) : R :=
  1 + 2 * D_ h (Z.of_nat s - Z.of_nat t) + cos (PI * INR s) * cos (PI * INR t).
Lemma cos_pi_sum a b : cos (PI * INR a) * cos (PI * INR b) = cos (PI * IZR (Z.of_nat a - Z.of_nat b)).
Proof.
  rewrite minus_IZR, <- !INR_IZR_INZ. replace (PI * (INR a - INR b)) with (INR a * PI - INR b * PI) by ring. rewrite cos_minus.
  rewrite (INR_IZR_INZ a) at 3. rewrite sin_int_pi. rewrite !(Rmult_comm PI). ring.
Qed.
Lemma real_kernel_value h t s : (0 < h)%nat -> (t < 2 * h)%nat -> (s < 2 * h)%nat -> real_kernel h t s = if Nat.eqb s t then 2 * INR h else 0.
Proof.
  intros H Ht Hs. unfold real_kernel. rewrite cos_pi_sum. destruct (Nat.eqb_spec s t) as [->|N].
  - rewrite Z.sub_diag, D_zero by exact H. rewrite Rmult_0_r, cos_0. ring.
  - rewrite D_vanish; [ring|exact H|].
    intros E. apply Z.mod_divide in E; [|lia]. destruct E as [z Ez]. assert (z <= -1 \/ z = 0 \/ 1 <= z)%Z as [Hz|[Hz|Hz]] by lia; nia.
Qed.
Lemma sqrt_inv_sq n : (0 < n)%nat -> / sqrt (INR n) * / sqrt (INR n) = / INR n.
Proof. intros H. assert (0 < INR n) by (apply lt_0_INR; lia). rewrite <- Rinv_mult, sqrt_sqrt; [reflexivity|lra]. Qed.
Theorem irfft_rfft x h : length x = (2 * h)%nat -> (0 < h)%nat -> irfft_ortho (rfft_ortho 0 x) = Ok x.
Proof.
  intros E H. assert (Ph : INR h <> 0) by (apply not_0_INR; lia). assert (Pn : INR (2 * h) <> 0) by (apply not_0_INR; lia).
  unfold irfft_ortho. rewrite rfft_length, E, Nat.add_0_r. replace (2 * h / 2 + 1 - 1)%nat with h by (rewrite Nat.mul_comm, Nat.div_mul; lia).
  destruct (Nat.eqb_spec (2 * h) 0); [lia|]. f_equal. apply nth_ext with (d := 0) (d' := 0); [now rewrite map_length, seq_length|].
  intros t Ht. rewrite map_length, seq_length in Ht. rewrite nth_map_seq by exact Ht.
  assert (Re : forall k, (k <= h)%nat -> fst (nth k (rfft_ortho 0 x) (0, 0)) = / sqrt (INR (2 * h)) * rsum (2 * h) (fun s => at_ x s * cos (2 * PI * INR k * INR s / INR (2 * h)))).
  { intros k Hk. unfold rfft_ortho. cbn [repeat]. rewrite app_nil_r, E. rewrite nth_map_seq by (rewrite (Nat.mul_comm 2 h), Nat.div_mul; lia).
    cbn [cscale fst]. unfold fft. rewrite csum_fst. f_equal. apply rsum_ext. intros s _. cbn. ring. }
  assert (Im : forall k, (k <= h)%nat -> snd (nth k (rfft_ortho 0 x) (0, 0)) = / sqrt (INR (2 * h)) * rsum (2 * h) (fun s => at_ x s * - sin (2 * PI * INR k * INR s / INR (2 * h)))).
  { intros k Hk. unfold rfft_ortho. cbn [repeat]. rewrite app_nil_r, E. rewrite nth_map_seq by (rewrite (Nat.mul_comm 2 h), Nat.div_mul; lia).
    cbn [cscale snd]. unfold fft. rewrite csum_snd. f_equal. apply rsum_ext. intros s _. cbn. ring. }
  rewrite !Re by lia.
  rewrite (rsum_ext (h - 1) _ (fun j => / sqrt (INR (2 * h)) * rsum (2 * h) (fun s => at_ x s * (2 * cos (PI / INR h * IZR (Z.of_nat s - Z.of_nat t) * INR (S j)))))).
  2:{ intros j Hj. rewrite Re, Im by lia. set (q := / sqrt (INR (2 * h))).
      rewrite (rsum_ext (2 * h) (fun s => at_ x s * (2 * cos (PI / INR h * IZR (Z.of_nat s - Z.of_nat t) * INR (S j))))
        (fun s => 2 * cos (2 * PI * INR (S j) * INR t / INR (2 * h)) * (at_ x s * cos (2 * PI * INR (S j) * INR s / INR (2 * h)))
                + - 2 * sin (2 * PI * INR (S j) * INR t / INR (2 * h)) * (at_ x s * - sin (2 * PI * INR (S j) * INR s / INR (2 * h))))).
      - rewrite rsum_plus, !rsum_scale. ring.
      - intros s _. replace (PI / INR h * IZR (Z.of_nat s - Z.of_nat t) * INR (S j)) with (2 * PI * INR (S j) * INR s / INR (2 * h) - 2 * PI * INR (S j) * INR t / INR (2 * h)).
        + rewrite cos_minus. ring.
        + rewrite minus_IZR, <- !INR_IZR_INZ, mult_INR. replace (INR 2) with 2 by (cbn; ring). field. exact Ph. }
  rewrite rsum_scale, rsum_swap.
  transitivity (/ INR (2 * h) * rsum (2 * h) (fun s => at_ x s * real_kernel h t s)).
  - rewrite <- (sqrt_inv_sq (2 * h)) by lia. set (q := / sqrt (INR (2 * h))).
    rewrite (rsum_ext (2 * h) (fun s => at_ x s * real_kernel h t s)
      (fun s => at_ x s * cos (2 * PI * INR 0 * INR s / INR (2 * h)) + rsum (h - 1) (fun j => at_ x s * (2 * cos (PI / INR h * IZR (Z.of_nat s - Z.of_nat t) * INR (S j))))
                + cos (PI * INR t) * (at_ x s * cos (2 * PI * INR h * INR s / INR (2 * h))))).
    + rewrite !rsum_plus, rsum_scale. ring.
    + intros s _. unfold real_kernel. replace (2 * PI * INR 0 * INR s / INR (2 * h)) with 0 by (cbn [INR]; field; exact Pn). rewrite cos_0.
      replace (2 * PI * INR h * INR s / INR (2 * h)) with (PI * INR s) by (rewrite mult_INR; cbn [INR]; field; exact Ph).
      rewrite rsum_scale, rsum_scale. fold (D_ h (Z.of_nat s - Z.of_nat t)). ring.
  - rewrite (rsum_single (2 * h) _ t Ht).
    + rewrite real_kernel_value, Nat.eqb_refl by lia. unfold at_. rewrite mult_INR. cbn [INR]. field. exact Ph.
    + intros s Hs N. rewrite real_kernel_value by lia. destruct (Nat.eqb_spec s t); [contradiction|ring].
Qed.
(** an odd window comes back one sample shorter *)
Lemma irfft_rfft_length p x y : irfft_ortho (rfft_ortho p x) = Ok y -> length y = (2 * ((length x + p) / 2))%nat.
Proof.
  unfold irfft_ortho. rewrite rfft_length. replace ((length x + p) / 2 + 1 - 1)%nat with ((length x + p) / 2)%nat by lia.
  destruct (Nat.eqb _ 0); intros [= <-]. now rewrite map_length, seq_length.
Qed.

(** ** idct(dct(x)), orthonormal *)
Lemma dct2_length x : length (dct2_ortho x) = length x.
Proof. unfold dct2_ortho. now rewrite map_length, seq_length. Qed.
Lemma ortho_weight_sq n k : (0 < n)%nat -> ortho_weight n k * ortho_weight n k = if Nat.eqb k 0 then 1 / INR n else 2 / INR n.
Proof.
  intros H. assert (0 < INR n) by (apply lt_0_INR; lia). unfold ortho_weight.
  destruct (Nat.eqb k 0); apply sqrt_sqrt; left; apply Rdiv_lt_0_compat; lra.
Qed.
Lemma rsum_first n f : (0 < n)%nat -> rsum n f = f 0%nat + rsum (n - 1) (fun j => f (S j)).
Proof.
  intros H. destruct n as [|n]; [lia|]. replace (S n - 1)%nat with n by lia. clear H.
  induction n as [|n IH]; [cbn; ring|]. change (rsum (S (S n)) f) with (rsum (S n) f + f (S n)). rewrite IH. cbn [rsum]. ring.
Qed.
Lemma cos_odd_even a b : cos (PI * IZR (Z.of_nat a - Z.of_nat b)) + cos (PI * IZR (Z.of_nat a + Z.of_nat b + 1)) = 0.
Proof.
  replace (PI * IZR (Z.of_nat a + Z.of_nat b + 1)) with (PI * IZR (Z.of_nat a - Z.of_nat b) + 2 * INR b * PI + PI).
  - rewrite neg_cos, cos_period. ring.
  - rewrite !plus_IZR, minus_IZR, <- !INR_IZR_INZ. ring.
Qed.
Theorem idct2_dct2 x : idct2_ortho (dct2_ortho x) = x.
Proof.
  apply nth_ext with (d := 0) (d' := 0); [unfold idct2_ortho; now rewrite map_length, seq_length, dct2_length|].
  intros t Ht. unfold idct2_ortho in *. rewrite map_length, seq_length, dct2_length in Ht. rewrite dct2_length. set (n := length x) in *.
  assert (Hn : (0 < n)%nat) by lia. assert (Pn : INR n <> 0) by (apply not_0_INR; lia). rewrite nth_map_seq by exact Ht.
  rewrite (rsum_ext n _ (fun k => rsum n (fun s => at_ x s * ((if Nat.eqb k 0 then 1 / INR n else 2 / INR n) * (cos (PI * INR k * (INR s + / 2) / INR n) * cos (PI * INR k * (INR t + / 2) / INR n)))))).
  2:{ intros k Hk. unfold dct2_ortho. fold n. rewrite at_map_seq by exact Hk. rewrite <- (ortho_weight_sq n k Hn).
      symmetry. rewrite (rsum_ext n _ (fun s => ortho_weight n k * ortho_weight n k * cos (PI * INR k * (INR t + / 2) / INR n) * (at_ x s * cos (PI * INR k * (INR s + / 2) / INR n)))) by (intros; ring).
      rewrite rsum_scale. ring. }
  rewrite rsum_swap.
  assert (K : forall s, (s < n)%nat -> rsum n (fun k => (if Nat.eqb k 0 then 1 / INR n else 2 / INR n) * (cos (PI * INR k * (INR s + / 2) / INR n) * cos (PI * INR k * (INR t + / 2) / INR n))) = if Nat.eqb s t then 1 else 0).
  { intros s Hs. rewrite rsum_first by exact Hn. cbn [Nat.eqb].
    rewrite (rsum_ext (n - 1) _ (fun j => / INR n * (cos (PI / INR n * IZR (Z.of_nat s - Z.of_nat t) * INR (S j)) + cos (PI / INR n * IZR (Z.of_nat s + Z.of_nat t + 1) * INR (S j))))).
    2:{ intros j _. rewrite cos_product. rewrite !plus_IZR, minus_IZR, <- !INR_IZR_INZ.
        replace (PI * INR (S j) * (INR s + / 2) / INR n - PI * INR (S j) * (INR t + / 2) / INR n) with (PI / INR n * (INR s - INR t) * INR (S j)) by (field; exact Pn).
        replace (PI * INR (S j) * (INR s + / 2) / INR n + PI * INR (S j) * (INR t + / 2) / INR n) with (PI / INR n * (INR s + INR t + 1) * INR (S j)) by (field; exact Pn).
        field. exact Pn. }
    rewrite rsum_scale, rsum_plus. fold (D_ n (Z.of_nat s - Z.of_nat t)). fold (D_ n (Z.of_nat s + Z.of_nat t + 1)).
    replace (PI * INR 0 * (INR s + / 2) / INR n) with 0 by (cbn [INR]; field; exact Pn).
    replace (PI * INR 0 * (INR t + / 2) / INR n) with 0 by (cbn [INR]; field; exact Pn). rewrite cos_0.
    assert (B : 2 * D_ n (Z.of_nat s + Z.of_nat t + 1) = -1 - cos (PI * IZR (Z.of_nat s + Z.of_nat t + 1))).
    { apply D_vanish; [exact Hn|]. rewrite Z.mod_small; lia. }
    pose proof (cos_odd_even s t) as P. destruct (Nat.eqb_spec s t) as [->|N].
    - rewrite Z.sub_diag in *. rewrite Rmult_0_r, cos_0 in P. rewrite D_zero by exact Hn.
      replace (D_ n (Z.of_nat t + Z.of_nat t + 1)) with 0 by lra. field. exact Pn.
    - assert (A : 2 * D_ n (Z.of_nat s - Z.of_nat t) = -1 - cos (PI * IZR (Z.of_nat s - Z.of_nat t))).
      { apply D_vanish; [exact Hn|]. intros E. apply Z.mod_divide in E; [|lia]. destruct E as [z Ez]. assert (z <= -1 \/ z = 0 \/ 1 <= z)%Z as [Hz|[Hz|Hz]] by lia; nia. }
      replace (D_ n (Z.of_nat s - Z.of_nat t) + D_ n (Z.of_nat s + Z.of_nat t + 1)) with (-1) by lra. field. exact Pn. }
  rewrite (rsum_single n _ t Ht).
  - rewrite rsum_scale, K, Nat.eqb_refl by exact Ht. unfold at_. ring.
  - intros s Hs N. rewrite rsum_scale, K by exact Hs. destruct (Nat.eqb_spec s t); [contradiction|ring].
Qed.
