(** [scipy.signal.resample]: the interpolation kernel, and the identities zounds needs. *)
From Verif Require Import PyBase PyFacts PyMore Time Spectral SpectralProofs TransformProofs WindowProofs ReconProofs Resample.
From Coq Require Import Reals Lra Psatz.
Local Open Scope R_scope.

Lemma resample_row_length num x : length (resample_row num x) = num.
Proof. unfold resample_row. now rewrite map_length, seq_length. Qed.
Lemma resample_ok num x : (0 < num)%nat -> x <> [] -> resample num x = Ok (resample_row num x).
Proof.
  intros H Hx. unfold resample. destruct (Nat.eqb_spec num 0); [lia|]. destruct x; [contradiction|reflexivity].
Qed.

(** ** the kernel *)
Definition rs_weight (num nx k : nat) : R := if Nat.eqb (2 * k) (Nat.min num nx) && Nat.leb nx num then 1 else 2.
Definition rs_angle (num nx j s k : nat) : R := 2 * PI * INR k * (INR j / INR num - INR s / INR nx).
Definition rs_kernel (num nx j s : nat) : R :=
  1 + rsum (Nat.min num nx / 2) (fun i => rs_weight num nx (S i) * cos (rs_angle num nx j s (S i))).

Lemma rfft_coeff_re x k : fst (rfft_coeff x k) = rsum (length x) (fun s => at_ x s * cos (2 * PI * INR k * INR s / INR (length x))).
Proof. unfold rfft_coeff, fft. rewrite csum_fst. apply rsum_ext. intros s _. cbn. ring. Qed.
Lemma rfft_coeff_im x k : snd (rfft_coeff x k) = - rsum (length x) (fun s => at_ x s * sin (2 * PI * INR k * INR s / INR (length x))).
Proof.
  unfold rfft_coeff, fft. rewrite csum_snd. transitivity (-1 * rsum (length x) (fun s => at_ x s * sin (2 * PI * INR k * INR s / INR (length x)))); [|ring].
  rewrite <- rsum_scale. apply rsum_ext. intros s _. cbn. ring.
Qed.
Lemma rsum_extend n m f : (n <= m)%nat -> (forall i, (n <= i < m)%nat -> f i = 0) -> rsum m f = rsum n f.
Proof.
  intros H Z. induction m as [|m IH]; [replace n with O by lia; reflexivity|]. destruct (Nat.eq_dec n (S m)) as [->|N]; [reflexivity|].
  cbn [rsum]. rewrite IH, Z; [ring|lia|lia|]. intros i Hi. apply Z. lia.
Qed.
(** coefficient k turned back into samples *)
Lemma coeff_angle x num j k : (0 < num)%nat -> x <> [] ->
  fst (rfft_coeff x k) * cos (2 * PI * INR k * INR j / INR num) - snd (rfft_coeff x k) * sin (2 * PI * INR k * INR j / INR num)
  = rsum (length x) (fun s => at_ x s * cos (rs_angle num (length x) j s k)).
Proof.
  intros H Hx. assert (0 < length x)%nat by (destruct x; [contradiction|cbn; lia]).
  assert (INR num <> 0) by (apply not_0_INR; lia). assert (INR (length x) <> 0) by (apply not_0_INR; lia).
  rewrite rfft_coeff_re, rfft_coeff_im. unfold Rminus. rewrite <- Ropp_mult_distr_l, Ropp_involutive.
  rewrite (Rmult_comm (rsum _ _)), (Rmult_comm (rsum _ (fun s => at_ x s * sin _))), <- !rsum_scale, <- rsum_plus. apply rsum_ext. intros s _.
  replace (rs_angle num (length x) j s k) with (2 * PI * INR k * INR j / INR num - 2 * PI * INR k * INR s / INR (length x)).
  - rewrite cos_minus. ring.
  - unfold rs_angle. field. now split.
Qed.
Lemma cos_nyquist num j : (0 < num)%nat -> Nat.even num = true -> cos (2 * PI * INR (num / 2) * INR j / INR num) = cos (PI * INR j) /\
  sin (2 * PI * INR (num / 2) * INR j / INR num) = 0.
Proof.
  intros H E. apply Nat.even_spec in E as [h ->]. replace (2 * h / 2)%nat with h by (rewrite Nat.mul_comm, Nat.div_mul; lia).
  assert (INR h <> 0) by (apply not_0_INR; lia). rewrite mult_INR. cbn [INR].
  replace (2 * PI * INR h * INR j / ((1 + 1) * INR h)) with (INR j * PI) by (field; assumption).
  split; [now rewrite Rmult_comm|]. rewrite INR_IZR_INZ. apply sin_int_pi.
Qed.
(** the inverse transform as one sum over the coefficients up to num/2 *)
Lemma irfft_at_sum num y j : (0 < num)%nat ->
  irfft_at num y j = / INR num * (fst (y 0%nat) + rsum (num / 2) (fun i =>
    (if Nat.eqb (2 * S i) num then 1 else 2) *
    (fst (y (S i)) * cos (2 * PI * INR (S i) * INR j / INR num) - snd (y (S i)) * sin (2 * PI * INR (S i) * INR j / INR num)))).
Proof.
  intros H. unfold irfft_at. f_equal. rewrite Rplus_assoc. f_equal. destruct (Nat.even num) eqn:E.
  - destruct (cos_nyquist num j H E) as [C S_]. apply Nat.even_spec in E as [h ->].
    replace (2 * h / 2)%nat with h in * by (rewrite Nat.mul_comm, Nat.div_mul; lia). destruct h as [|h]; [lia|].
    replace ((2 * S h - 1) / 2)%nat with h by (replace (2 * S h - 1)%nat with (1 + h * 2)%nat by lia; rewrite Nat.div_add by lia; reflexivity).
    cbn [rsum]. f_equal.
    + apply rsum_ext. intros i Hi. destruct (Nat.eqb_spec (2 * S i) (2 * S h)); [lia|]. reflexivity.
    + rewrite Nat.eqb_refl, C, S_. ring.
  - rewrite Rplus_0_r. assert (O : Nat.odd num = true) by now rewrite <- Nat.negb_even, E. apply Nat.odd_spec in O as [h ->].
    replace (2 * h + 1 - 1)%nat with (h * 2)%nat by lia. rewrite Nat.div_mul by lia.
    replace ((2 * h + 1) / 2)%nat with h by (replace (2 * h + 1)%nat with (1 + h * 2)%nat by lia; rewrite Nat.div_add by lia; reflexivity).
    apply rsum_ext. intros i Hi. destruct (Nat.eqb_spec (2 * S i) (2 * h + 1)); [lia|]. reflexivity.
Qed.
Lemma half_le a b : (a <= b)%nat -> (a / 2 <= b / 2)%nat.
Proof. intros H. apply Nat.div_le_mono; lia. Qed.
(** sample j of the resampled row *)
Theorem resample_kernel num x j : (0 < num)%nat -> x <> [] -> (j < num)%nat ->
  at_ (resample_row num x) j = / INR (length x) * rsum (length x) (fun s => at_ x s * rs_kernel num (length x) j s).
Proof.
  intros H Hx Hj. assert (L : (0 < length x)%nat) by (destruct x; [contradiction|cbn; lia]).
  assert (N0 : INR num <> 0) by (apply not_0_INR; lia). assert (L0 : INR (length x) <> 0) by (apply not_0_INR; lia).
  unfold resample_row. rewrite at_map_seq by exact Hj. rewrite irfft_at_sum by exact H.
  set (n := Nat.min num (length x)). assert (Hn : (0 < n <= num)%nat) by (unfold n; lia).
  rewrite (rsum_extend (n / 2) (num / 2)).
  2: { apply half_le. lia. }
  2: { intros i Hi. unfold resample_spectrum. fold n. destruct (Nat.leb_spec (S i) (n / 2)); [lia|]. cbn. ring. }
  transitivity (/ INR (length x) * (fst (resample_spectrum num x 0) + rsum (n / 2) (fun i => rs_weight num (length x) (S i) * rsum (length x) (fun s => at_ x s * cos (rs_angle num (length x) j s (S i)))))).
  - rewrite (rsum_ext (n / 2) _ (fun i => rs_weight num (length x) (S i) * rsum (length x) (fun s => at_ x s * cos (rs_angle num (length x) j s (S i))))); [field; now split|].
    intros i Hi. rewrite <- (coeff_angle x num j (S i) H Hx). unfold resample_spectrum, rs_weight. fold n.
    destruct (Nat.leb_spec (S i) (n / 2)) as [_|]; [|lia].
    destruct (Nat.eqb_spec (2 * S i) n) as [E|E]; cbn [andb].
    + destruct (Nat.ltb_spec num (length x)) as [A|A].
      * destruct (Nat.leb_spec (length x) num); [lia|]. destruct (Nat.eqb_spec (2 * S i) num); [|unfold n in E; lia].
        destruct (cos_nyquist num j H) as [C S_]; [apply Nat.even_spec; now exists (S i)|].
        replace (num / 2)%nat with (S i) in C, S_ by (subst num; rewrite Nat.mul_comm, Nat.div_mul; lia). rewrite C, S_. cbn [cscale fst snd]. ring.
      * destruct (Nat.leb_spec (length x) num); [|lia]. destruct (Nat.ltb_spec (length x) num) as [B|B].
        -- destruct (Nat.eqb_spec (2 * S i) num); [unfold n in E; lia|]. cbn [cscale fst snd]. field.
        -- destruct (Nat.eqb_spec (2 * S i) num); [|unfold n in E; lia]. reflexivity.
    + destruct (Nat.eqb_spec (2 * S i) num) as [F|F]; [|reflexivity]. exfalso. assert (S i <= n / 2)%nat as G by lia.
      assert (2 * (n / 2) <= n)%nat by (apply Nat.mul_div_le; lia). lia.
  - f_equal. unfold rs_kernel. fold n.
    rewrite (rsum_ext (length x) _ (fun s => at_ x s + rsum (n / 2) (fun i => at_ x s * (rs_weight num (length x) (S i) * cos (rs_angle num (length x) j s (S i))))))
      by (intros s _; rewrite rsum_scale; ring).
    rewrite rsum_plus. f_equal.
    + unfold resample_spectrum. fold n. destruct (Nat.leb_spec 0 (n / 2)); [|lia]. destruct (Nat.eqb_spec (2 * 0) n); [lia|].
      rewrite rfft_coeff_re. apply rsum_ext. intros s _. cbn [INR]. replace (2 * PI * 0 * INR s / INR (length x)) with 0 by (field; exact L0). rewrite cos_0. ring.
    + rewrite rsum_swap. apply rsum_ext. intros i _. rewrite <- rsum_scale. apply rsum_ext. intros s _. ring.
Qed.

(** ** resampling to the same size *)
Lemma sin_frac_nonzero m q : (0 < m)%nat -> (q mod Z.of_nat m <> 0)%Z -> sin (PI * IZR q / INR m) <> 0.
Proof.
  intros Hm Hq T. assert (P : INR m <> 0) by (apply not_0_INR; lia). apply sin_eq_0_0 in T as [z Hz]. apply Hq.
  assert (E : IZR q = IZR (z * Z.of_nat m)).
  { rewrite mult_IZR, <- INR_IZR_INZ. pose proof PI_RGT_0. apply Rmult_eq_reg_l with PI; [|lra].
    transitivity (PI * IZR q / INR m * INR m); [field; exact P|]. rewrite Hz. ring. }
  apply eq_IZR in E. rewrite E. apply Z.mod_mul. lia.
Qed.
Lemma small_mod m d : (0 < m)%nat -> (d <> 0)%Z -> (- Z.of_nat m < d < Z.of_nat m)%Z -> (d mod Z.of_nat m <> 0)%Z.
Proof.
  intros Hm Hd Hb E. apply Z.mod_divide in E; [|lia]. destruct E as [z Ez]. assert (z <= -1 \/ z = 0 \/ 1 <= z)%Z as [Hz|[Hz|Hz]] by lia; nia.
Qed.
(** the weights of the identity: 1 for the coefficient 0 and the Nyquist coefficient, 2 for the others *)
Definition id_weight (n k : nat) : R := if Nat.eqb (2 * k) n then 1 else 2.
Lemma identity_kernel n j s : (0 < n)%nat -> (j < n)%nat -> (s < n)%nat ->
  1 + rsum (n / 2) (fun i => id_weight n (S i) * cos (2 * PI * INR (S i) * (INR j - INR s) / INR n)) = if Nat.eqb j s then INR n else 0.
Proof.
  intros Hn Hj Hs. assert (P : INR n <> 0) by (apply not_0_INR; lia).
  destruct (Nat.eqb_spec j s) as [->|N].
  - rewrite (rsum_ext _ _ (fun i => id_weight n (S i))).
    2: { intros i _. replace (INR s - INR s) with 0 by ring. replace (2 * PI * INR (S i) * 0 / INR n) with 0 by (field; exact P). rewrite cos_0. ring. }
    destruct (Nat.Even_or_Odd n) as [[h ->]|[h ->]].
    + replace (2 * h / 2)%nat with h by (rewrite Nat.mul_comm, Nat.div_mul; lia). destruct h as [|h]; [lia|]. cbn [rsum].
      rewrite (rsum_ext _ _ (fun _ => 2)) by (intros i Hi; unfold id_weight; destruct (Nat.eqb_spec (2 * S i) (2 * S h)); [lia|reflexivity]).
      unfold id_weight. rewrite Nat.eqb_refl, rsum_const, mult_INR, (S_INR h). cbn [INR]. ring.
    + replace ((2 * h + 1) / 2)%nat with h by (replace (2 * h + 1)%nat with (1 + h * 2)%nat by lia; rewrite Nat.div_add by lia; reflexivity).
      rewrite (rsum_ext _ _ (fun _ => 2)) by (intros i Hi; unfold id_weight; destruct (Nat.eqb_spec (2 * S i) (2 * h + 1)); [lia|reflexivity]).
      rewrite rsum_const, plus_INR, mult_INR. cbn [INR]. ring.
  - assert (M : ((Z.of_nat j - Z.of_nat s) mod Z.of_nat n <> 0)%Z) by (apply small_mod; lia).
    assert (Ed : INR j - INR s = IZR (Z.of_nat j - Z.of_nat s)) by (rewrite minus_IZR, <- !INR_IZR_INZ; reflexivity). rewrite Ed.
    set (d := (Z.of_nat j - Z.of_nat s)%Z) in *. pose proof (sin_frac_nonzero n d Hn M) as SN.
    set (th := 2 * PI * IZR d / INR n).
    assert (T : forall i, cos (2 * PI * INR (S i) * IZR d / INR n) = cos (th * INR (S i))) by (intros i; f_equal; unfold th; field; exact P).
    assert (Hh : th / 2 = PI * IZR d / INR n) by (unfold th; field; exact P).
    destruct (Nat.Even_or_Odd n) as [[h E]|[h E]].
    + replace (n / 2)%nat with h by (rewrite E, Nat.mul_comm, Nat.div_mul; lia). destruct h as [|h]; [lia|]. cbn [rsum].
      rewrite (rsum_ext _ _ (fun i => 2 * cos (th * INR (S i)))) by (intros i Hi; unfold id_weight; destruct (Nat.eqb_spec (2 * S i) n); [lia|]; now rewrite T).
      rewrite rsum_scale. unfold id_weight. rewrite <- E, Nat.eqb_refl, T.
      pose proof (dirichlet th h) as D. rewrite Hh in D. apply Rmult_eq_reg_l with (sin (PI * IZR d / INR n)); [|exact SN].
      assert (En : INR n = 2 * (INR h + 1)) by (rewrite E, mult_INR, (S_INR h); cbn [INR]; ring).
      assert (A1 : th * INR (S h) = IZR d * PI) by (unfold th; rewrite S_INR, En; field; pose proof (pos_INR h); lra).
      replace (th * (INR h + / 2)) with (IZR d * PI - th / 2) in D by (rewrite <- A1, S_INR; field).
      rewrite sin_minus, sin_int_pi, Hh in D. rewrite A1.
      transitivity (2 * sin (PI * IZR d / INR n) * (/ 2 + rsum h (fun i => cos (th * INR (S i)))) + sin (PI * IZR d / INR n) * cos (IZR d * PI)); [field|].
      rewrite D. ring.
    + replace (n / 2)%nat with h by (rewrite E; replace (2 * h + 1)%nat with (1 + h * 2)%nat by lia; rewrite Nat.div_add by lia; reflexivity).
      rewrite (rsum_ext _ _ (fun i => 2 * cos (th * INR (S i)))) by (intros i Hi; unfold id_weight; destruct (Nat.eqb_spec (2 * S i) n); [lia|]; now rewrite T).
      rewrite rsum_scale. pose proof (dirichlet th h) as D. rewrite Hh in D. apply Rmult_eq_reg_l with (sin (PI * IZR d / INR n)); [|exact SN].
      assert (En : INR n = 2 * INR h + 1) by (rewrite E, plus_INR, mult_INR; cbn [INR]; ring).
      replace (th * (INR h + / 2)) with (IZR d * PI) in D by (unfold th; rewrite En; field; pose proof (pos_INR h); lra).
      rewrite sin_int_pi in D.
      transitivity (2 * sin (PI * IZR d / INR n) * (/ 2 + rsum h (fun i => cos (th * INR (S i))))); [field|]. rewrite D. ring.
Qed.
Lemma list_ext_at (a b : list R) : length a = length b -> (forall i, (i < length a)%nat -> at_ a i = at_ b i) -> a = b.
Proof. intros L H. apply nth_ext with (d := 0) (d' := 0); [exact L|]. intros i Hi. apply H, Hi. Qed.
Lemma kernel_pick n x j (K : nat -> R) : (0 < n)%nat -> (j < n)%nat -> (forall s, (s < n)%nat -> K s = if Nat.eqb j s then INR n else 0) ->
  / INR n * rsum n (fun s => at_ x s * K s) = at_ x j.
Proof.
  intros Hn Hj HK. assert (INR n <> 0) by (apply not_0_INR; lia). rewrite (rsum_single n _ j Hj).
  - rewrite HK by exact Hj. rewrite Nat.eqb_refl. field. assumption.
  - intros s Hs N. rewrite HK by exact Hs. destruct (Nat.eqb_spec j s); [congruence|ring].
Qed.
Theorem resample_same x : x <> [] -> resample_row (length x) x = x.
Proof.
  intros Hx. assert (L : (0 < length x)%nat) by (destruct x; [contradiction|cbn; lia]).
  apply list_ext_at; [apply resample_row_length|]. rewrite resample_row_length. intros j Hj.
  rewrite resample_kernel by assumption. apply kernel_pick; [exact L|exact Hj|]. intros s Hs.
  rewrite <- (identity_kernel (length x) j s L Hj Hs). unfold rs_kernel. rewrite Nat.min_id. f_equal. apply rsum_ext. intros i Hi.
  unfold rs_weight, id_weight. rewrite Nat.min_id, Nat.leb_refl, andb_true_r. f_equal. f_equal. unfold rs_angle. field. apply not_0_INR. lia.
Qed.

(** ** resampling is linear *)
Definition ladd (a b : list R) : list R := map (fun p => fst p + snd p) (combine a b).
Definition lsub (a b : list R) : list R := map (fun p => fst p - snd p) (combine a b).
Lemma ladd_length a b : length a = length b -> length (ladd a b) = length a.
Proof. intros H. unfold ladd. rewrite map_length, combine_length. lia. Qed.
Lemma lsub_length a b : length a = length b -> length (lsub a b) = length a.
Proof. intros H. unfold lsub. rewrite map_length, combine_length. lia. Qed.
Lemma ladd_at a b i : length a = length b -> at_ (ladd a b) i = at_ a i + at_ b i.
Proof.
  unfold at_, ladd. revert b i. induction a as [|x a IH]; intros [|y b] i H; try discriminate; [destruct i; cbn; ring|].
  destruct i; [reflexivity|]. cbn [combine map nth]. apply IH. now injection H.
Qed.
Lemma lsub_at a b i : length a = length b -> at_ (lsub a b) i = at_ a i - at_ b i.
Proof.
  unfold at_, lsub. revert b i. induction a as [|x a IH]; intros [|y b] i H; try discriminate; [destruct i; cbn; ring|].
  destruct i; [reflexivity|]. cbn [combine map nth]. apply IH. now injection H.
Qed.
Lemma at_repeat v n i : (i < n)%nat -> at_ (repeat v n) i = v.
Proof. intros H. unfold at_. rewrite (nth_indep _ 0 v) by (now rewrite repeat_length). apply nth_repeat. Qed.
Lemma at_zeros n i : at_ (repeat 0 n) i = 0.
Proof. unfold at_. apply nth_repeat. Qed.
Lemma resample_zeros num n : (0 < n)%nat -> resample_row num (repeat 0 n) = repeat 0 num.
Proof.
  intros Hn. apply list_ext_at; [now rewrite resample_row_length, repeat_length|]. rewrite resample_row_length. intros j Hj.
  rewrite resample_kernel; [|lia|destruct n; [lia|discriminate]|exact Hj]. rewrite at_zeros, rsum_zero; [ring|]. intros s _. rewrite at_zeros. ring.
Qed.
Lemma nonempty_length {A} (x : list A) : x <> [] <-> (0 < length x)%nat.
Proof. destruct x; cbn; split; try lia; [intros H; contradiction|discriminate]. Qed.
Lemma resample_sub num a b : (0 < num)%nat -> a <> [] -> length a = length b ->
  resample_row num (lsub a b) = lsub (resample_row num a) (resample_row num b).
Proof.
  intros Hn Ha L. assert (Hb : b <> []) by (apply nonempty_length; apply nonempty_length in Ha; lia).
  assert (Hs : lsub a b <> []) by (apply nonempty_length; rewrite lsub_length by exact L; now apply nonempty_length).
  apply list_ext_at; rewrite resample_row_length; [rewrite lsub_length; now rewrite !resample_row_length|]. intros j Hj.
  rewrite lsub_at by (now rewrite !resample_row_length). rewrite !resample_kernel by assumption. rewrite lsub_length, L by exact L.
  transitivity (/ INR (length b) * (rsum (length b) (fun s => at_ a s * rs_kernel num (length b) j s) + -1 * rsum (length b) (fun s => at_ b s * rs_kernel num (length b) j s))); [|ring].
  f_equal. rewrite <- rsum_scale, <- rsum_plus. apply rsum_ext. intros s _. rewrite lsub_at by exact L. ring.
Qed.
Lemma resample_add num a b : (0 < num)%nat -> a <> [] -> length a = length b ->
  resample_row num (ladd a b) = ladd (resample_row num a) (resample_row num b).
Proof.
  intros Hn Ha L. assert (Hb : b <> []) by (apply nonempty_length; apply nonempty_length in Ha; lia).
  assert (Hs : ladd a b <> []) by (apply nonempty_length; rewrite ladd_length by exact L; now apply nonempty_length).
  apply list_ext_at; rewrite resample_row_length; [rewrite ladd_length; now rewrite !resample_row_length|]. intros j Hj.
  rewrite ladd_at by (now rewrite !resample_row_length). rewrite !resample_kernel by assumption. rewrite ladd_length, L by exact L.
  transitivity (/ INR (length b) * (rsum (length b) (fun s => at_ a s * rs_kernel num (length b) j s) + rsum (length b) (fun s => at_ b s * rs_kernel num (length b) j s))); [|ring].
  f_equal. rewrite <- rsum_plus. apply rsum_ext. intros s _. rewrite ladd_at by exact L. ring.
Qed.

(** ** resampling up and back down *)
Lemma cos_sum_shift theta phi m : 2 * sin (theta / 2) * rsum m (fun j => cos (theta * INR j + phi)) = sin (theta * (INR m - / 2) + phi) - sin (phi - theta / 2).
Proof.
  induction m as [|m IH]; [cbn [rsum INR]; replace (theta * (0 - / 2) + phi) with (phi - theta / 2) by field; ring|].
  cbn [rsum]. rewrite Rmult_plus_distr_l, IH, S_INR.
  replace (theta * (INR m - / 2) + phi) with ((theta * INR m + phi) - theta / 2) by field.
  replace (theta * (INR m + 1 - / 2) + phi) with ((theta * INR m + phi) + theta / 2) by field.
  rewrite sin_plus, sin_minus. ring.
Qed.
Lemma cos_sum_period m q phi : (0 < m)%nat ->
  rsum m (fun j => cos (2 * PI * IZR q * INR j / INR m + phi)) = if (q mod Z.of_nat m =? 0)%Z then INR m * cos phi else 0.
Proof.
  intros Hm. assert (P : INR m <> 0) by (apply not_0_INR; lia). destruct (Z.eqb_spec (q mod Z.of_nat m) 0) as [E|E].
  - apply Z.mod_divide in E; [|lia]. destruct E as [z ->]. rewrite <- rsum_const. apply rsum_ext. intros j _.
    rewrite mult_IZR, <- INR_IZR_INZ. replace (2 * PI * (IZR z * INR m) * INR j / INR m + phi) with (phi + 2 * IZR (z * Z.of_nat j) * PI).
    + apply cos_period_Z.
    + rewrite mult_IZR, <- INR_IZR_INZ. field. exact P.
  - pose proof (sin_frac_nonzero m q Hm E) as SN. pose proof (cos_sum_shift (2 * PI * IZR q / INR m) phi m) as T.
    replace (2 * PI * IZR q / INR m / 2) with (PI * IZR q / INR m) in T by (field; exact P).
    replace (2 * PI * IZR q / INR m * (INR m - / 2) + phi) with ((phi - PI * IZR q / INR m) + 2 * IZR q * PI) in T by (field; exact P).
    assert (Hs : sin (phi - PI * IZR q / INR m + 2 * IZR q * PI) = sin (phi - PI * IZR q / INR m)).
    { rewrite <- !cos_shift. replace (PI / 2 - (phi - PI * IZR q / INR m + 2 * IZR q * PI)) with ((PI / 2 - (phi - PI * IZR q / INR m)) + 2 * IZR (- q) * PI) by (rewrite opp_IZR; ring).
      apply cos_period_Z. }
    rewrite Hs in T. apply Rmult_eq_reg_l with (2 * sin (PI * IZR q / INR m)); [|lra]. rewrite Rmult_0_r.
    transitivity (sin (phi - PI * IZR q / INR m) - sin (phi - PI * IZR q / INR m)); [|ring]. rewrite <- T. f_equal. apply rsum_ext. intros j _. f_equal. field. exact P.
Qed.

Lemma rsum_first0 n f : rsum (S n) f = f 0%nat + rsum n (fun i => f (S i)).
Proof. induction n as [|n IH]; [cbn; ring|]. cbn [rsum] in *. rewrite IH. ring. Qed.
(** a kernel with its coefficient 0 folded in *)
Definition full_weight (num nx k : nat) : R := if Nat.eqb k 0 then 1 else rs_weight num nx k.
Lemma rs_kernel_full num nx j s : rs_kernel num nx j s = rsum (S (Nat.min num nx / 2)) (fun k => full_weight num nx k * cos (rs_angle num nx j s k)).
Proof.
  unfold rs_kernel. rewrite rsum_first0. f_equal. unfold full_weight, rs_angle. cbn [Nat.eqb INR].
  rewrite !Rmult_0_r, Rmult_0_l, cos_0. ring.
Qed.
(** through a size larger than one of the two others: it leaves no trace *)
Theorem resample_through a m x : x <> [] -> (0 < a)%nat -> (Nat.min (length x) a < m)%nat -> resample_row a (resample_row m x) = resample_row a x.
Proof.
  intros Hx Ha Hm. set (n := length x) in *. assert (L : (0 < n)%nat) by (apply nonempty_length; exact Hx).
  assert (P : INR n <> 0) by (apply not_0_INR; lia). assert (Pm : INR m <> 0) by (apply not_0_INR; lia). assert (Pa : INR a <> 0) by (apply not_0_INR; lia).
  apply list_ext_at; [now rewrite !resample_row_length|]. rewrite resample_row_length. intros t Ht.
  rewrite resample_kernel; [|lia|apply nonempty_length; rewrite resample_row_length; lia|exact Ht]. rewrite resample_row_length.
  rewrite (resample_kernel a x t) by (try assumption; lia). fold n.
  rewrite (rsum_ext m _ (fun j => rsum n (fun s => / INR n * at_ x s * (rs_kernel m n j s * rs_kernel a m t j)))).
  2: { intros j Hj. rewrite resample_kernel by (try assumption; lia). fold n.
       rewrite <- !rsum_scale, Rmult_comm, <- rsum_scale. apply rsum_ext. intros s _. ring. }
  rewrite rsum_swap, <- !rsum_scale. apply rsum_ext. intros s Hs. rewrite rsum_scale.
  assert (G : / INR m * rsum m (fun j => rs_kernel m n j s * rs_kernel a m t j) = rs_kernel a n t s); [|rewrite <- G; ring].
  (* the sum over the m samples in between keeps equal coefficients only *)
  rewrite (rsum_ext m _ (fun j => rsum (S (Nat.min m n / 2)) (fun k => rsum (S (Nat.min a m / 2)) (fun l =>
    full_weight m n k * full_weight a m l * (cos (rs_angle m n j s k) * cos (rs_angle a m t j l)))))).
  2: { intros j Hj. rewrite !rs_kernel_full.
       rewrite Rmult_comm, <- rsum_scale. apply rsum_ext. intros k _. rewrite (Rmult_comm (rsum _ _)), <- rsum_scale. apply rsum_ext. intros l _. ring. }
  rewrite rsum_swap, rs_kernel_full.
  assert (Cross : forall k l, (k < S (Nat.min m n / 2))%nat -> (l < S (Nat.min a m / 2))%nat -> k <> l ->
    rsum m (fun j => full_weight m n k * full_weight a m l * (cos (rs_angle m n j s k) * cos (rs_angle a m t j l))) = 0).
  { intros k l Hk Hl Nl. assert (Hk2 : (2 * k <= Nat.min m n)%nat) by (pose proof (Nat.mul_div_le (Nat.min m n) 2); lia).
    assert (Hl2 : (2 * l <= Nat.min a m)%nat) by (pose proof (Nat.mul_div_le (Nat.min a m) 2); lia). rewrite rsum_scale.
    rewrite (rsum_ext m _ (fun j => / 2 * cos (2 * PI * IZR (Z.of_nat k + Z.of_nat l) * INR j / INR m + (- 2 * PI * INR k * INR s / INR n - 2 * PI * INR l * INR t / INR a))
         + / 2 * cos (2 * PI * IZR (Z.of_nat k - Z.of_nat l) * INR j / INR m + (2 * PI * INR l * INR t / INR a - 2 * PI * INR k * INR s / INR n)))).
    - rewrite rsum_plus, !rsum_scale, !cos_sum_period by lia.
      destruct (Z.eqb_spec ((Z.of_nat k + Z.of_nat l) mod Z.of_nat m) 0) as [E|_]; [rewrite Z.mod_small in E by lia; lia|].
      destruct (Z.eqb_spec ((Z.of_nat k - Z.of_nat l) mod Z.of_nat m) 0) as [E|_]; [|ring].
      exfalso. revert E. apply small_mod; lia.
    - intros j _. rewrite cos_product, Rmult_plus_distr_l. unfold rs_angle. rewrite plus_IZR, minus_IZR, <- !INR_IZR_INZ. f_equal; f_equal; f_equal; field; repeat split; assumption. }
  rewrite (rsum_extend (S (Nat.min a n / 2)) (S (Nat.min m n / 2))).
  2: { assert (Nat.min a n / 2 <= Nat.min m n / 2)%nat by (apply half_le; lia). lia. }
  2: { intros k Hk. rewrite (rsum_swap m). apply rsum_zero. intros l Hl. apply Cross; [lia|exact Hl|]. intros ->.
       assert (Nat.min a m / 2 <= Nat.min a n / 2 \/ Nat.min m n / 2 <= Nat.min a n / 2)%nat as [B|B]; [|lia|lia].
       destruct (Nat.le_gt_cases n a); [right|left]; apply half_le; lia. }
  rewrite <- rsum_scale. apply rsum_ext. intros k Hk.
  assert (Hk2 : (2 * k <= Nat.min a n)%nat) by (pose proof (Nat.mul_div_le (Nat.min a n) 2); lia).
  assert (Hkm : (k < S (Nat.min m n / 2))%nat) by (assert (Nat.min a n / 2 <= Nat.min m n / 2)%nat by (apply half_le; lia); lia).
  assert (Hka : (k < S (Nat.min a m / 2))%nat) by (assert (Nat.min a n / 2 <= Nat.min a m / 2)%nat by (apply half_le; lia); lia).
  rewrite (rsum_swap m). rewrite (rsum_single _ _ k Hka) by (intros l Hl Nl; apply Cross; [exact Hkm|exact Hl|congruence]).
  rewrite rsum_scale.
  rewrite (rsum_ext m _ (fun j => / 2 * cos (2 * PI * IZR (2 * Z.of_nat k) * INR j / INR m + (- 2 * PI * INR k * INR s / INR n - 2 * PI * INR k * INR t / INR a))
       + / 2 * cos (2 * PI * IZR 0 * INR j / INR m + rs_angle a n t s k))).
  2: { intros j _. rewrite cos_product, Rmult_plus_distr_l. unfold rs_angle. f_equal; f_equal; f_equal.
       - rewrite mult_IZR, <- INR_IZR_INZ. field. repeat split; assumption.
       - field. repeat split; assumption. }
  rewrite rsum_plus, !rsum_scale, !cos_sum_period by lia. rewrite Z.mod_0_l, Z.eqb_refl by lia.
  unfold full_weight, rs_weight. destruct (Nat.eqb_spec k 0) as [->|Nk].
  - change (2 * Z.of_nat 0)%Z with 0%Z. rewrite Z.mod_0_l, Z.eqb_refl by lia. unfold rs_angle. cbn [INR].
    replace (-2 * PI * 0 * INR s / INR n - 2 * PI * 0 * INR t / INR a) with 0 by (field; now split). rewrite !Rmult_0_r, !Rmult_0_l, cos_0. field. exact Pm.
  - rewrite Z.mod_small by lia. destruct (Z.eqb_spec (2 * Z.of_nat k) 0); [lia|].
    replace (Nat.eqb (2 * k) (Nat.min a m) && Nat.leb m a)%bool with false.
    2: { symmetry. apply andb_false_iff. destruct (Nat.leb_spec m a); [left|now right]. apply Nat.eqb_neq. lia. }
    replace (Nat.eqb (2 * k) (Nat.min m n) && Nat.leb n m)%bool with (Nat.eqb (2 * k) (Nat.min a n) && Nat.leb n a)%bool; [field; exact Pm|].
    destruct (Nat.leb_spec n a).
    + destruct (Nat.leb_spec n m); [|lia]. replace (Nat.min a n) with n by lia. replace (Nat.min m n) with n by lia. reflexivity.
    + rewrite andb_false_r. symmetry. apply andb_false_iff. destruct (Nat.leb_spec n m); [left|now right]. apply Nat.eqb_neq. lia.
Qed.
Corollary resample_up_down m x : x <> [] -> (length x <= m)%nat -> resample_row (length x) (resample_row m x) = x.
Proof.
  intros Hx Hm. destruct (Nat.eq_dec m (length x)) as [->|]; [now rewrite !resample_same|].
  rewrite resample_through; [now apply resample_same|exact Hx|now apply nonempty_length|lia].
Qed.
