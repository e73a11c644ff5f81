(** Transforms: DCT (C49), MDCT (C66), the vorbis window and overlap-add (C48). *)
From Verif Require Import PyBase PyFacts PyMore Time Spectral SpectralProofs.
From Coq Require Import Reals Lra Psatz.
Local Open Scope R_scope.

(** ** Sums *)
Lemma rsum_ext n f g : (forall i, (i < n)%nat -> f i = g i) -> rsum n f = rsum n g.
Proof. induction n as [|n IH]; intros H; [reflexivity|]. cbn. rewrite IH by (intros; apply H; lia). f_equal. apply H. lia. Qed.
Lemma rsum_plus n f g : rsum n (fun i => f i + g i) = rsum n f + rsum n g.
Proof. induction n as [|n IH]; cbn; [ring|rewrite IH; ring]. Qed.
Lemma rsum_scale n c f : rsum n (fun i => c * f i) = c * rsum n f.
Proof. induction n as [|n IH]; cbn; [ring|rewrite IH; ring]. Qed.
Lemma rsum_swap n m f : rsum n (fun i => rsum m (fun j => f i j)) = rsum m (fun j => rsum n (fun i => f i j)).
Proof.
  induction n as [|n IH]; cbn.
  - induction m as [|m IHm]; cbn; [reflexivity|rewrite <- IHm; ring].
  - rewrite IH. rewrite <- rsum_plus. reflexivity.
Qed.
Lemma rsum_zero n f : (forall i, (i < n)%nat -> f i = 0) -> rsum n f = 0.
Proof. induction n as [|n IH]; intros H; [reflexivity|]. cbn. rewrite IH by (intros; apply H; lia). rewrite H by lia. ring. Qed.
(** only one term is not zero *)
Lemma rsum_single n f k : (k < n)%nat -> (forall i, (i < n)%nat -> i <> k -> f i = 0) -> rsum n f = f k.
Proof.
  induction n as [|n IH]; intros Hk H; [lia|]. cbn. destruct (Nat.eq_dec k n) as [->|Hn].
  - rewrite rsum_zero; [ring|]. intros i Hi. apply H; lia.
  - rewrite IH; [|lia|intros; apply H; lia]. rewrite (H n) by lia. ring.
Qed.
Lemma csum_fst n f : fst (csum n f) = rsum n (fun i => fst (f i)).
Proof. induction n as [|n IH]; cbn; [reflexivity|now rewrite IH]. Qed.
Lemma csum_snd n f : snd (csum n f) = rsum n (fun i => snd (f i)).
Proof. induction n as [|n IH]; cbn; [reflexivity|now rewrite IH]. Qed.

(** ** Sums of cosines *)
Lemma cos_sum_telescope theta n : 2 * sin (theta / 2) * rsum n (fun j => cos (theta * (INR j + / 2))) = sin (INR n * theta).
Proof.
  induction n as [|n IH]; [cbn; rewrite Rmult_0_l, sin_0; ring|]. cbn [rsum]. rewrite Rmult_plus_distr_l, IH, S_INR.
  replace ((INR n + 1) * theta) with (theta * (INR n + / 2) + theta / 2) by field.
  replace (INR n * theta) with (theta * (INR n + / 2) - theta / 2) by field.
  rewrite sin_plus, sin_minus. ring.
Qed.
Lemma sin_int_pi z : sin (IZR z * PI) = 0.
Proof. apply sin_eq_0_1. exists z. reflexivity. Qed.
(** the sum over a half-sample grid of cosines of an integer frequency k *)
Definition S_ (l : nat) (k : Z) : R := rsum l (fun f => cos (PI / INR l * IZR k * (INR f + / 2))).
Lemma S_zero l : S_ l 0 = INR l.
Proof.
  unfold S_. assert (G : forall m, rsum m (fun f => cos (PI / INR l * IZR 0 * (INR f + / 2))) = INR m).
  { induction m as [|m IH]; [reflexivity|]. cbn [rsum]. rewrite IH, S_INR. f_equal. rewrite Rmult_0_r, Rmult_0_l. apply cos_0. }
  apply G.
Qed.
Lemma S_vanish l k : (0 < l)%nat -> (k mod (2 * Z.of_nat l) <> 0)%Z -> S_ l k = 0.
Proof.
  intros Hl Hk. assert (Pl : INR l <> 0) by (apply not_0_INR; lia).
  pose proof (cos_sum_telescope (PI / INR l * IZR k) l) as T. fold (S_ l k) in T.
  replace (INR l * (PI / INR l * IZR k)) with (IZR k * PI) in T by (field; exact Pl). rewrite sin_int_pi in T.
  apply Rmult_integral in T as [T|T]; [|exact T]. exfalso. apply Rmult_integral in T as [T|T]; [lra|].
  apply sin_eq_0_0 in T as [z Hz]. apply Hk.
  assert (E : IZR k = IZR (z * (2 * Z.of_nat l))).
  { rewrite mult_IZR, mult_IZR, <- INR_IZR_INZ. apply Rmult_eq_reg_l with (PI / INR l / 2).
    - replace (PI / INR l / 2 * IZR k) with (PI / INR l * IZR k / 2) by (field; exact Pl). rewrite Hz. field. exact Pl.
    - pose proof PI_RGT_0. apply Rmult_integral_contrapositive_currified; [|lra]. apply Rmult_integral_contrapositive_currified; [lra|].
      apply Rinv_neq_0_compat. exact Pl. }
  apply eq_IZR in E. rewrite E. apply Z.mod_mul. lia.
Qed.
Lemma cos_period_Z x z : cos (x + 2 * IZR z * PI) = cos x.
Proof.
  destruct z as [|p|p].
  - f_equal. ring.
  - change (IZR (Z.pos p)) with (IZR (Z.of_nat (Pos.to_nat p)) + 0 - 0 + 0) || idtac.
    rewrite <- (positive_nat_Z p) at 1. rewrite <- INR_IZR_INZ. apply cos_period.
  - rewrite <- (cos_period (x + 2 * IZR (Z.neg p) * PI) (Pos.to_nat p)). f_equal.
    rewrite (INR_IZR_INZ (Pos.to_nat p)), positive_nat_Z. change (Z.neg p) with (- Z.pos p)%Z. rewrite opp_IZR. ring.
Qed.
Lemma cos_pi_neg x : cos (x + PI) = - cos x.
Proof. apply neg_cos. Qed.
Lemma S_two l : (0 < l)%nat -> S_ l (2 * Z.of_nat l) = - INR l.
Proof.
  intros Hl. assert (Pl : INR l <> 0) by (apply not_0_INR; lia). unfold S_.
  rewrite (rsum_ext l _ (fun _ => -1 * 1)).
  - rewrite rsum_scale. replace (rsum l (fun _ => 1)) with (INR l); [ring|]. clear. induction l as [|l IH]; [reflexivity|]. cbn [rsum]. rewrite S_INR, IH. ring.
  - intros f _. rewrite mult_IZR, <- INR_IZR_INZ. replace (PI / INR l * (2 * INR l) * (INR f + / 2)) with (PI + 2 * INR f * PI) by (field; exact Pl).
    rewrite cos_period, cos_PI. ring.
Qed.
Lemma S_four l : (0 < l)%nat -> S_ l (4 * Z.of_nat l) = INR l.
Proof.
  intros Hl. assert (Pl : INR l <> 0) by (apply not_0_INR; lia). unfold S_.
  rewrite (rsum_ext l _ (fun _ => 1)).
  - clear. induction l as [|l IH]; [reflexivity|]. cbn [rsum]. rewrite S_INR, IH. ring.
  - intros f _. rewrite mult_IZR, <- INR_IZR_INZ. replace (PI / INR l * (4 * INR l) * (INR f + / 2)) with (0 + 2 * INR (2 * f + 1) * PI).
    + rewrite cos_period. apply cos_0.
    + rewrite plus_INR, mult_INR. cbn [INR]. field. exact Pl.
Qed.
Lemma S_sym l k : S_ l (- k) = S_ l k.
Proof. unfold S_. apply rsum_ext. intros f _. rewrite opp_IZR. rewrite <- cos_neg. f_equal. ring. Qed.
Lemma cos_product a b : cos a * cos b = / 2 * (cos (a - b) + cos (a + b)).
Proof. rewrite cos_minus, cos_plus. field. Qed.

(** ** C49: the DCT of the learn package *)
Lemma at_map_seq (f : nat -> R) n i : (i < n)%nat -> at_ (map f (seq 0 n)) i = f i.
Proof. intros H. unfold at_. rewrite (nth_indep _ 0 (f 0%nat)) by (rewrite map_length, seq_length; exact H). rewrite map_nth, seq_nth by exact H. reflexivity. Qed.
Lemma base_dct_length x b : length (base_dct x b) = length x.
Proof. unfold base_dct. now rewrite map_length, seq_length. Qed.
Lemma sqrt_sq n : (0 < n)%nat -> sqrt (2 / INR n) * sqrt (2 / INR n) = 2 / INR n.
Proof. intros Hn. apply sqrt_sqrt. apply lt_INR in Hn. cbn in Hn. apply Rmult_le_pos; [lra|]. left. apply Rinv_0_lt_compat. exact Hn. Qed.

(** the rows of the basis are orthogonal; the first one is twice as long *)
Lemma basis_orthogonal n i k : (i < n)%nat -> (k < n)%nat ->
  rsum n (fun j => dct_basis n i j * dct_basis n k j) = if Nat.eqb i k then (if Nat.eqb i 0 then INR n else INR n / 2) else 0.
Proof.
  intros Hi Hk. unfold dct_basis.
  rewrite (rsum_ext n _ (fun j => / 2 * (cos (PI / INR n * IZR (Z.of_nat i - Z.of_nat k) * (INR j + / 2)) + cos (PI / INR n * IZR (Z.of_nat i + Z.of_nat k) * (INR j + / 2))))).
  2:{ intros j _. rewrite cos_product. rewrite minus_IZR, plus_IZR, <- !INR_IZR_INZ. f_equal. f_equal; f_equal; ring. }
  rewrite rsum_scale, rsum_plus. fold (S_ n (Z.of_nat i - Z.of_nat k)). fold (S_ n (Z.of_nat i + Z.of_nat k)).
  destruct (Nat.eqb_spec i k) as [->|Nik].
  - rewrite Z.sub_diag, S_zero. destruct (Nat.eqb_spec k 0) as [->|Nk].
    + change (Z.of_nat 0 + Z.of_nat 0)%Z with 0%Z. rewrite S_zero. field.
    + rewrite S_vanish; [field|lia|]. rewrite Z.mod_small; lia.
  - rewrite S_vanish; [|lia|]. rewrite S_vanish; [ring|lia|].
    + rewrite Z.mod_small; lia.
    + destruct (Z_lt_le_dec (Z.of_nat i - Z.of_nat k) 0) as [Hl|Hl].
      * intros E. apply Z.mod_divide in E; [|lia]. destruct E as [z Ez]. assert (z <= -1 \/ 0 <= z)%Z as [Hz|Hz] by lia; nia.
      * rewrite Z.mod_small; lia.
Qed.
Lemma dct_length x : length (dct x) = length x /\ length (idct x) = length x.
Proof. split; apply base_dct_length. Qed.
(** idct(dct(x)) is x, except that the first sample is doubled *)
Lemma dct_roundtrip x i : (i < length x)%nat ->
  at_ (idct (dct x)) i = if Nat.eqb i 0 then 2 * at_ x 0 else at_ x i.
Proof.
  intros Hi. set (n := length x). assert (Hn : (0 < n)%nat) by lia. assert (Pn : INR n <> 0) by (apply not_0_INR; lia).
  unfold idct. unfold base_dct at 1. rewrite (proj1 (dct_length x)). fold n. rewrite at_map_seq by exact Hi.
  rewrite (rsum_ext n _ (fun j => sqrt (2 / INR n) * rsum n (fun k => at_ x k * (dct_basis n k j * dct_basis n i j)))).
  2:{ intros j Hj. unfold dct, base_dct. fold n. rewrite at_map_seq by exact Hj. rewrite Rmult_comm, <- Rmult_assoc, (Rmult_comm _ (sqrt _)).
      f_equal. rewrite <- rsum_scale. apply rsum_ext. intros k _. ring. }
  rewrite rsum_scale, rsum_swap.
  rewrite (rsum_ext n _ (fun k => at_ x k * rsum n (fun j => dct_basis n k j * dct_basis n i j))) by (intros; apply rsum_scale).
  rewrite (rsum_single n _ i Hi).
  - rewrite basis_orthogonal by exact Hi. rewrite Nat.eqb_refl. rewrite Rmult_comm, <- Rmult_assoc, sqrt_sq by exact Hn.
    destruct (Nat.eqb_spec i 0) as [->|]; field; exact Pn.
  - intros k Hk Hne. rewrite basis_orthogonal by assumption. destruct (Nat.eqb_spec k i); [contradiction|]. ring.
Qed.
Lemma dct_roundtrip_list x : idct (dct x) = match x with [] => [] | a :: r => 2 * a :: r end.
Proof.
  apply nth_ext with (d := 0) (d' := 0).
  - destruct (dct_length x) as [_ _]. unfold idct. rewrite base_dct_length. unfold dct. rewrite base_dct_length. destruct x; reflexivity.
  - intros i Hi. unfold idct in Hi. rewrite base_dct_length in Hi. unfold dct in Hi. rewrite base_dct_length in Hi.
    fold (at_ (idct (dct x)) i). rewrite dct_roundtrip by exact Hi. destruct x as [|a r]; [cbn in Hi; lia|]. destruct i; reflexivity.
Qed.
Lemma dct_roundtrip_refuted a r : a <> 0 -> idct (dct (a :: r)) <> a :: r.
Proof. intros Ha. rewrite dct_roundtrip_list. intros [= E]. lra. Qed.
(** the other way round *)
Lemma dct_resample_same x : dct_resample (length x) x = match x with [] => [] | a :: r => 2 * a :: r end.
Proof.
  unfold dct_resample. destruct (dct_length x) as [E _]. rewrite E, Nat.sub_diag. cbn [repeat]. rewrite app_nil_r, firstn_all2 by lia.
  apply dct_roundtrip_list.
Qed.

(** ** C66: the MDCT *)
(** the angle of the textbook formula *)
Definition mdct_angle (l f t : nat) : R := PI / INR l * ((INR f + / 2) * (INR t + (INR l + 1) / 2)).
Lemma re_csum_mul n g c : fst (cmul (csum n g) c) = rsum n (fun i => fst (cmul (g i) c)).
Proof.
  cbn [fst cmul]. rewrite csum_fst, csum_snd. induction n as [|n IH]; cbn; [ring|]. rewrite <- IH. ring.
Qed.
Lemma re_rotate r a b c : fst (cmul (cmul (cscale r (cexp_neg a)) (cexp_neg b)) (cexp_neg c)) = r * cos (a + b + c).
Proof. cbn. rewrite !cos_plus, !sin_plus. ring. Qed.
Lemma map_seq_ext {A} n (f g : nat -> A) : (forall i, (i < n)%nat -> f i = g i) -> map f (seq 0 n) = map g (seq 0 n).
Proof. intros H. apply map_ext_in. intros i Hi. apply in_seq in Hi. apply H. lia. Qed.
(** what the FFT computes is the textbook MDCT *)
Lemma mdct_formula data l : length data = (2 * l)%nat -> (0 < l)%nat ->
  mdct data = map (fun f => sqrt (2 / INR l) * rsum (2 * l) (fun t => at_ data t * cos (mdct_angle l f t))) (seq 0 l).
Proof.
  intros E Hl. assert (Pl : INR l <> 0) by (apply not_0_INR; lia). unfold mdct. rewrite E. replace (2 * l / 2)%nat with l by (rewrite Nat.mul_comm, Nat.div_mul; lia).
  apply map_seq_ext. intros f Hf. f_equal. unfold fft. rewrite re_csum_mul. apply rsum_ext. intros t Ht. rewrite re_rotate. f_equal. f_equal.
  unfold mdct_angle. rewrite mult_INR. cbn [INR]. field. exact Pl.
Qed.
Lemma imdct_formula c l : length c = l -> (0 < l)%nat ->
  imdct c = map (fun t => sqrt (2 / INR l) * rsum l (fun f => at_ c f * cos (mdct_angle l f t))) (seq 0 (2 * l)).
Proof.
  intros E Hl. assert (Pl : INR l <> 0) by (apply not_0_INR; lia). unfold imdct. rewrite E.
  apply map_seq_ext. intros t Ht. f_equal. unfold fft. rewrite re_csum_mul. apply rsum_ext. intros f Hf. rewrite re_rotate. f_equal. f_equal.
  unfold mdct_angle. rewrite mult_INR. cbn [INR]. field. exact Pl.
Qed.
Lemma mdct_length data l : length data = (2 * l)%nat -> length (mdct data) = l.
Proof. intros E. unfold mdct. rewrite map_length, seq_length, E. rewrite Nat.mul_comm, Nat.div_mul; lia. Qed.
Lemma imdct_length c : length (imdct c) = (2 * length c)%nat.
Proof. unfold imdct. now rewrite map_length, seq_length. Qed.
Lemma mdct_kernel l t s : (0 < l)%nat -> (t < 2 * l)%nat -> (s < 2 * l)%nat ->
  rsum l (fun f => cos (mdct_angle l f t) * cos (mdct_angle l f s)) =
  INR l / 2 * ((if Nat.eqb s t then 1 else 0) + (if Nat.eqb (t + s + 1) l then -1 else if Nat.eqb (t + s + 1) (3 * l) then 1 else 0)).
Proof.
  intros Hl Ht Hs. assert (Pl : INR l <> 0) by (apply not_0_INR; lia).
  rewrite (rsum_ext l _ (fun f => / 2 * (cos (PI / INR l * IZR (Z.of_nat t - Z.of_nat s) * (INR f + / 2)) + cos (PI / INR l * IZR (Z.of_nat t + Z.of_nat s + Z.of_nat l + 1) * (INR f + / 2))))).
  2:{ intros f _. rewrite cos_product. rewrite minus_IZR, !plus_IZR, <- !INR_IZR_INZ. unfold mdct_angle. f_equal. f_equal; f_equal; field; exact Pl. }
  rewrite rsum_scale, rsum_plus. fold (S_ l (Z.of_nat t - Z.of_nat s)). fold (S_ l (Z.of_nat t + Z.of_nat s + Z.of_nat l + 1)).
  assert (A : S_ l (Z.of_nat t - Z.of_nat s) = INR l * (if Nat.eqb s t then 1 else 0)).
  { destruct (Nat.eqb_spec s t) as [->|N]; [rewrite Z.sub_diag, S_zero; ring|]. rewrite S_vanish; [ring|exact Hl|].
    intros E. apply Z.mod_divide in E; [|lia]. destruct E as [z Ez]. assert (z <= -1 \/ z = 0 \/ 1 <= z)%Z as [Hz|[Hz|Hz]] by lia; nia. }
  assert (B : S_ l (Z.of_nat t + Z.of_nat s + Z.of_nat l + 1) = INR l * (if Nat.eqb (t + s + 1) l then -1 else if Nat.eqb (t + s + 1) (3 * l) then 1 else 0)).
  { destruct (Nat.eqb_spec (t + s + 1) l) as [E|N].
    { replace (Z.of_nat t + Z.of_nat s + Z.of_nat l + 1)%Z with (2 * Z.of_nat l)%Z by lia. rewrite S_two by exact Hl. ring. }
    destruct (Nat.eqb_spec (t + s + 1) (3 * l)) as [E|N'].
    { replace (Z.of_nat t + Z.of_nat s + Z.of_nat l + 1)%Z with (4 * Z.of_nat l)%Z by lia. rewrite S_four by exact Hl. ring. }
    rewrite S_vanish; [ring|exact Hl|].
    intros E. apply Z.mod_divide in E; [|lia]. destruct E as [z Ez]. assert (z <= 0 \/ z = 1 \/ z = 2 \/ 3 <= z)%Z as [Hz|[Hz|[Hz|Hz]]] by lia; nia. }
  rewrite A, B. field.
Qed.
(** the aliases that decoding one frame leaves *)
Lemma mdct_alias x l t : length x = (2 * l)%nat -> (t < 2 * l)%nat ->
  at_ (imdct (mdct x)) t = if Nat.ltb t l then at_ x t - at_ x (l - 1 - t) else at_ x t + at_ x (3 * l - 1 - t).
Proof.
  intros E Ht. assert (Hl : (0 < l)%nat) by lia. assert (Pl : INR l <> 0) by (apply not_0_INR; lia).
  rewrite (imdct_formula _ l) by (try apply mdct_length; assumption). rewrite at_map_seq by exact Ht.
  rewrite (rsum_ext l _ (fun f => sqrt (2 / INR l) * rsum (2 * l) (fun s => at_ x s * (cos (mdct_angle l f t) * cos (mdct_angle l f s))))).
  2:{ intros f Hf. rewrite (mdct_formula _ l) by assumption. rewrite at_map_seq by exact Hf. rewrite Rmult_assoc. f_equal.
      rewrite Rmult_comm, <- rsum_scale. apply rsum_ext. intros. ring. }
  rewrite rsum_scale, <- Rmult_assoc, sqrt_sq by exact Hl. rewrite rsum_swap.
  rewrite (rsum_ext (2 * l) _ (fun s => INR l / 2 * ((if Nat.eqb s t then at_ x s else 0) + (if Nat.eqb (t + s + 1) l then - at_ x s else if Nat.eqb (t + s + 1) (3 * l) then at_ x s else 0)))).
  2:{ intros s Hs. rewrite rsum_scale, mdct_kernel by assumption. destruct (Nat.eqb s t), (Nat.eqb (t + s + 1) l), (Nat.eqb (t + s + 1) (3 * l)); ring. }
  rewrite rsum_scale, rsum_plus. rewrite (rsum_single (2 * l) (fun s => if Nat.eqb s t then at_ x s else 0) t Ht).
  2:{ intros i _ N. destruct (Nat.eqb_spec i t); [contradiction|reflexivity]. }
  rewrite Nat.eqb_refl. destruct (Nat.ltb_spec t l) as [Hlt|Hge].
  - rewrite (rsum_single (2 * l) _ (l - 1 - t)%nat); [|lia|].
    2:{ intros i Hi N. destruct (Nat.eqb_spec (t + i + 1) l); [lia|]. destruct (Nat.eqb_spec (t + i + 1) (3 * l)); [lia|reflexivity]. }
    destruct (Nat.eqb_spec (t + (l - 1 - t) + 1) l); [|lia]. field. exact Pl.
  - rewrite (rsum_single (2 * l) _ (3 * l - 1 - t)%nat); [|lia|].
    2:{ intros i Hi N. destruct (Nat.eqb_spec (t + i + 1) l); [lia|]. destruct (Nat.eqb_spec (t + i + 1) (3 * l)); [lia|reflexivity]. }
    destruct (Nat.eqb_spec (t + (3 * l - 1 - t) + 1) l); [lia|]. destruct (Nat.eqb_spec (t + (3 * l - 1 - t) + 1) (3 * l)); [|lia]. field. exact Pl.
Qed.
