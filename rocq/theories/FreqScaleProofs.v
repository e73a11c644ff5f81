(** The concrete scales: linear, geometric, bark, mel, explicit; slicing,
    overlap checks and equality. *)
From Verif Require Import PyBase PyFacts PyMore Freq FreqProofs.
Local Open Scope R_scope.

(* ------------------------------------------------------------------ *)
(** * Bark and mel conversions (C25) *)
Lemma bark_to_hz_sinh b : bark_to_hz b = 600 * sinh (b / 6).
Proof. unfold bark_to_hz, sinh. replace (- b / 6) with (- (b / 6)) by lra. lra. Qed.
Lemma hz_to_bark_arcsinh h : hz_to_bark h = 6 * arcsinh (h / 600).
Proof. reflexivity. Qed.

Lemma bark_hz_bark h : bark_to_hz (hz_to_bark h) = h.
Proof.
  rewrite bark_to_hz_sinh, hz_to_bark_arcsinh.
  replace (6 * arcsinh (h / 600) / 6) with (arcsinh (h / 600)) by lra.
  rewrite sinh_arcsinh. lra.
Qed.
Lemma hz_bark_hz b : hz_to_bark (bark_to_hz b) = b.
Proof.
  rewrite bark_to_hz_sinh, hz_to_bark_arcsinh.
  replace (600 * sinh (b / 6) / 600) with (sinh (b / 6)) by lra.
  rewrite arcsinh_sinh. lra.
Qed.
Lemma bark_to_hz_lt a b : a < b -> bark_to_hz a < bark_to_hz b.
Proof.
  intros H. rewrite !bark_to_hz_sinh. apply Rmult_lt_compat_l; [lra|]. apply sinh_lt. lra.
Qed.
Lemma hz_to_bark_lt a b : a < b -> hz_to_bark a < hz_to_bark b.
Proof.
  intros H. rewrite !hz_to_bark_arcsinh. apply Rmult_lt_compat_l; [lra|]. apply arcsinh_lt. lra.
Qed.

Lemma mel_hz_mel h : -700 < h -> mel_to_hz (hz_to_mel h) = h.
Proof.
  intros H. unfold mel_to_hz, hz_to_mel.
  replace (1127 * ln (1 + h / 700) / 1127) with (ln (1 + h / 700)) by lra.
  rewrite exp_ln by lra. lra.
Qed.
Lemma hz_mel_hz m : hz_to_mel (mel_to_hz m) = m.
Proof.
  unfold mel_to_hz, hz_to_mel.
  replace (1 + 700 * (exp (m / 1127) - 1) / 700) with (exp (m / 1127)) by lra.
  rewrite ln_exp. lra.
Qed.
Lemma mel_to_hz_lt a b : a < b -> mel_to_hz a < mel_to_hz b.
Proof.
  intros H. unfold mel_to_hz. assert (exp (a / 1127) < exp (b / 1127)) by (apply exp_increasing; lra). lra.
Qed.
Lemma mel_to_hz_gt m : -700 < mel_to_hz m.
Proof. unfold mel_to_hz. pose proof (exp_pos (m / 1127)). lra. Qed.
Lemma hz_to_mel_lt a b : -700 < a -> a < b -> hz_to_mel a < hz_to_mel b.
Proof.
  intros H0 H. unfold hz_to_mel. assert (ln (1 + a / 700) < ln (1 + b / 700)) by (apply ln_increasing; lra). lra.
Qed.

(** 0 Hz is 0 Bark and 0 mel, and 1000 mel is not 0: the maps are not trivial. *)
Example bark_zero : bark_to_hz 0 = 0 /\ hz_to_bark 0 = 0.
Proof.
  assert (bark_to_hz 0 = 0) by (rewrite bark_to_hz_sinh; replace (0/6) with 0 by lra; rewrite sinh_0; lra).
  split; [assumption|]. rewrite <- H at 1. apply hz_bark_hz.
Qed.

(* ------------------------------------------------------------------ *)
(** * Lists indexed by band number *)
Lemma nth_error_map_seq {A} (f : nat -> A) n k :
  nth_error (map f (seq 0 n)) k = if (k <? n)%nat then Some (f k) else None.
Proof.
  rewrite nth_error_map. destruct (Nat.ltb_spec k n).
  - rewrite nth_error_nth' with (d := 0%nat) by (rewrite seq_length; lia).
    rewrite seq_nth by lia. reflexivity.
  - rewrite (proj2 (nth_error_None _ _)) by (rewrite seq_length; lia). reflexivity.
Qed.

Lemma ordered_map_seq f n :
  (forall i j, (i <= j < n)%nat -> bstart (f i) <= bstart (f j) /\ bstop (f i) <= bstop (f j)) ->
  ordered (map f (seq 0 n)).
Proof.
  intros H i j a b Hij Ha Hb. rewrite nth_error_map_seq in Ha, Hb.
  destruct (Nat.ltb_spec i n), (Nat.ltb_spec j n); try discriminate.
  inversion Ha; inversion Hb; subst. apply H. lia.
Qed.

Lemma ordered_sub bs i n : ordered bs -> ordered (firstn n (skipn i bs)).
Proof.
  intros H a b x y Hab Hx Hy. rewrite nth_error_firstn in Hx, Hy.
  destruct (a <? n)%nat, (b <? n)%nat; try discriminate.
  rewrite nth_error_skipn in Hx, Hy. eapply H; [|exact Hx|exact Hy]. lia.
Qed.

Lemma apply_slice_sub {A} (sl : pyslice) (l : list A) :
  exists i n, apply_slice sl l = firstn n (skipn i l) /\ (i + n <= length l)%nat \/ apply_slice sl l = [].
Proof.
  unfold apply_slice, py_slice, norm_index, Zlen.
  set (b := match fst sl with None => 0%Z | Some i => _ end).
  set (e := match snd sl with None => _ | Some i => _ end).
  assert (Hb : (0 <= b <= Z.of_nat (length l))%Z) by (unfold b; destruct (fst sl); lia).
  assert (He : (0 <= e <= Z.of_nat (length l))%Z) by (unfold e; destruct (snd sl); lia).
  destruct (Z.le_gt_cases b e) as [G|G].
  - exists (Z.to_nat b), (Z.to_nat (e - b)). left. split; [reflexivity|]. lia.
  - exists 0%nat, 0%nat. right. replace (Z.to_nat (e - b)) with 0%nat by lia. reflexivity.
Qed.

Lemma skipn_seq i a n : skipn i (seq a n) = seq (a + i) (n - i).
Proof.
  revert a n; induction i as [|i IH]; intros a n; simpl.
  - rewrite Nat.add_0_r, Nat.sub_0_r. reflexivity.
  - destruct n; simpl; [reflexivity|]. rewrite IH. f_equal. lia.
Qed.
Lemma firstn_seq' m a n : (m <= n)%nat -> firstn m (seq a n) = seq a m.
Proof.
  revert a n; induction m as [|m IH]; intros a n H; [reflexivity|].
  destruct n; [lia|]. simpl. f_equal. apply IH. lia.
Qed.
Lemma slice_map_seq {A} (f : nat -> A) n i m : (i + m <= n)%nat ->
  firstn m (skipn i (map f (seq 0 n))) = map f (seq i m).
Proof.
  intros H. rewrite skipn_map, firstn_map, skipn_seq, firstn_seq' by lia. reflexivity.
Qed.
Lemma last_map_seq {A} (f : nat -> A) a m d : last (map f (seq a (S m))) d = f (a + m)%nat.
Proof.
  revert a; induction m as [|m IH]; intros a.
  - simpl. f_equal. lia.
  - transitivity (last (map f (seq (S a) (S m))) d); [reflexivity|].
    rewrite IH. f_equal. lia.
Qed.

Lemma last_indep {A} (l : list A) d d' : l <> [] -> last l d = last l d'.
Proof.
  induction l as [|x l IH]; intros H; [contradiction|].
  destruct l; [reflexivity|]. simpl in *. apply IH. discriminate.
Qed.

Lemma span_band_ok bs b : bs <> [] -> proper (nth 0 bs b) -> ordered bs ->
  span_band bs = Ok (mkBand (bstart (nth 0 bs b)) (bstop (last bs b))) /\
  bstart (nth 0 bs b) < bstop (last bs b).
Proof.
  intros Hne Hp Ho. destruct bs as [|x bs]; [contradiction|]. simpl nth in *.
  assert (L : nth_error (x :: bs) (length bs) = Some (last (x :: bs) b)).
  { clear. revert x; induction bs as [|y bs IH]; intros x; [reflexivity|]. simpl length.
    change (last (x :: y :: bs) b) with (last (y :: bs) b). simpl. apply IH. }
  pose proof (Ho 0%nat (length bs) x _ ltac:(lia) eq_refl L) as [_ H].
  unfold proper in Hp. assert (K : bstart x < bstop (last (x :: bs) b)) by lra.
  split; [|exact K]. unfold span_band. rewrite (last_indep _ x b) by discriminate.
  apply make_band_ok. exact K.
Qed.

(* ------------------------------------------------------------------ *)
(** * LinearScale (C22) *)
Definition lin_width (fb : band) (n : nat) : R := (bstop fb - bstart fb) / INR n.
Definition lin_band (fb : band) (n k : nat) : band :=
  mkBand (bstart fb + INR k * lin_width fb n) (bstart fb + INR (k + 1) * lin_width fb n).

Lemma lin_width_pos fb n : proper fb -> (0 < n)%nat -> 0 < lin_width fb n.
Proof.
  intros H Hn. unfold lin_width, proper in *. apply Rdiv_lt_0_compat; [lra|]. apply lt_0_INR. exact Hn.
Qed.

Lemma linear_bands_ok fb n : proper fb -> (2 <= n)%nat ->
  linear_bands fb n = Ok (map (lin_band fb n) (seq 0 n)).
Proof.
  intros Hp Hn. unfold linear_bands. destruct n as [|[|n]]; [lia|lia|].
  pose proof (lin_width_pos fb (S (S n)) Hp ltac:(lia)) as Hw.
  set (N := S (S n)) in *.
  assert (E : linspace_open (bstart fb) (bstop fb) N
    = (bstart fb + INR 0 * lin_width fb N) :: (bstart fb + INR 1 * lin_width fb N)
      :: map (fun i => bstart fb + INR i * lin_width fb N) (seq 2 n)) by reflexivity.
  rewrite E. rewrite <- E.
  unfold linspace_open. fold (lin_width fb N).
  set (g := fun f : R => mkBand f (f + lin_width fb N)).
  rewrite (mapM_ok _ g).
  - f_equal. rewrite map_map. apply map_ext. intros k. unfold g, lin_band. f_equal.
    rewrite plus_INR. simpl INR. lra.
  - intros x _. unfold g. rewrite make_band_ok; [f_equal; f_equal|]; simpl INR; lra.
Qed.

Lemma linear_bands_small fb n : (n < 2)%nat -> linear_bands fb n = Raise IndexError.
Proof. intros H. destruct n as [|[|n]]; [reflexivity|reflexivity|lia]. Qed.

(** The property in words: n bands, equal width, tiling from start to stop. *)
Lemma linear_tiles fb n ae : proper fb -> (2 <= n)%nat ->
  exists bs, scale_bands (Linear fb n ae) = Ok bs /\
    length bs = n /\
    (forall b, In b bs -> bandwidth b = (bstop fb - bstart fb) / INR n /\ 0 < bandwidth b) /\
    (forall k a b, nth_error bs k = Some a -> nth_error bs (S k) = Some b ->
        bstop a = bstart b /\ center a < center b) /\
    (exists a, nth_error bs 0 = Some a /\ bstart a = bstart fb) /\
    (exists z, nth_error bs (n - 1) = Some z /\ bstop z = bstop fb).
Proof.
  intros Hp Hn. exists (map (lin_band fb n) (seq 0 n)).
  pose proof (lin_width_pos fb n Hp ltac:(lia)) as Hw.
  assert (Hn0 : INR n <> 0) by (apply not_0_INR; lia).
  split; [apply linear_bands_ok; assumption|].
  split; [rewrite map_length, seq_length; reflexivity|].
  split.
  { intros b Hb. apply in_map_iff in Hb. destruct Hb as [k [<- _]].
    unfold bandwidth, lin_band; simpl. rewrite plus_INR. simpl INR.
    fold (lin_width fb n). split; lra. }
  split.
  { intros k a b Ha Hb. rewrite nth_error_map_seq in Ha, Hb.
    destruct (Nat.ltb_spec k n), (Nat.ltb_spec (S k) n); try discriminate.
    inversion Ha; inversion Hb; subst. unfold center, bandwidth, lin_band; cbn [bstart bstop].
    replace (S k) with (k + 1)%nat by lia. split; [reflexivity|].
    rewrite !plus_INR. simpl INR. lra. }
  split.
  { exists (lin_band fb n 0). rewrite nth_error_map_seq. destruct (Nat.ltb_spec 0 n); [|lia].
    split; [reflexivity|]. simpl. lra. }
  { exists (lin_band fb n (n - 1)). rewrite nth_error_map_seq. destruct (Nat.ltb_spec (n - 1) n); [|lia].
    split; [reflexivity|]. simpl bstop. replace (n - 1 + 1)%nat with n by lia.
    unfold lin_width. field. exact Hn0. }
Qed.

Lemma lin_band_mono fb n i j : proper fb -> (i <= j < n)%nat ->
  bstart (lin_band fb n i) <= bstart (lin_band fb n j) /\
  bstop (lin_band fb n i) <= bstop (lin_band fb n j).
Proof.
  intros Hp H. pose proof (lin_width_pos fb n Hp ltac:(lia)) as Hw.
  assert (INR i <= INR j) by (apply le_INR; lia).
  simpl. rewrite !plus_INR. simpl INR. split; nra.
Qed.
Lemma lin_band_proper fb n k : proper fb -> (k < n)%nat -> proper (lin_band fb n k).
Proof.
  intros Hp H. pose proof (lin_width_pos fb n Hp ltac:(lia)) as Hw.
  unfold proper; simpl. rewrite plus_INR. simpl INR. lra.
Qed.

(* ------------------------------------------------------------------ *)
(** * Scales built from centres: bark, mel, geometric *)
Definition erb_band (c : R) : band := mkBand (c - erb c / 2) (c + erb c / 2).
Lemma erb_band_mono c d : c <= d ->
  bstart (erb_band c) <= bstart (erb_band d) /\ bstop (erb_band c) <= bstop (erb_band d).
Proof. intros H. unfold erb_band, erb; simpl. lra. Qed.
Lemma erb_band_proper c : -228 <= c -> proper (erb_band c).
Proof. intros H. unfold proper, erb_band, erb; simpl. lra. Qed.

(** the i-th of n equally spaced points from a to b *)
Definition spaced (a b : R) (n i : nat) : R := a + INR i * ((b - a) / INR (n - 1)).
Lemma spaced_mono a b n i j : a <= b -> (i <= j < n)%nat -> spaced a b n i <= spaced a b n j.
Proof.
  intros H Hi. unfold spaced.
  assert (INR i <= INR j) by (apply le_INR; lia).
  assert (0 <= (b - a) / INR (n - 1)).
  { destruct (Nat.eq_dec n 1) as [->|Hn].
    - simpl. unfold Rdiv. rewrite Rinv_0. lra.
    - apply Rmult_le_pos; [lra|]. left. apply Rinv_0_lt_compat, lt_0_INR. lia. }
  nra.
Qed.
Lemma spaced_0 a b n : spaced a b n 0 = a.
Proof. unfold spaced. simpl INR. lra. Qed.
Lemma spaced_last a b n : (2 <= n)%nat -> spaced a b n (n - 1) = b.
Proof. intros H. unfold spaced. field. apply not_0_INR. lia. Qed.

Definition bark_center (fb : band) (n i : nat) : R :=
  bark_to_hz (spaced (hz_to_bark (bstart fb)) (hz_to_bark (bstop fb)) n i).
Definition mel_center (fb : band) (n i : nat) : R :=
  mel_to_hz (spaced (hz_to_mel (bstart fb)) (hz_to_mel (bstop fb)) n i).

Lemma bark_to_hz_le a b : a <= b -> bark_to_hz a <= bark_to_hz b.
Proof. intros [H| ->]; [left; apply bark_to_hz_lt, H|right; reflexivity]. Qed.
Lemma mel_to_hz_le a b : a <= b -> mel_to_hz a <= mel_to_hz b.
Proof. intros [H| ->]; [left; apply mel_to_hz_lt, H|right; reflexivity]. Qed.

Lemma bark_center_mono fb n i j : proper fb -> (i <= j < n)%nat -> bark_center fb n i <= bark_center fb n j.
Proof.
  intros Hp H. apply bark_to_hz_le, spaced_mono; [|exact H].
  left. apply hz_to_bark_lt, Hp.
Qed.
Lemma bark_center_0 fb n : bark_center fb n 0 = bstart fb.
Proof. unfold bark_center. rewrite spaced_0. apply bark_hz_bark. Qed.
Lemma mel_center_mono fb n i j : -700 < bstart fb -> proper fb -> (i <= j < n)%nat -> mel_center fb n i <= mel_center fb n j.
Proof.
  intros H0 Hp H. apply mel_to_hz_le, spaced_mono; [|exact H].
  left. apply hz_to_mel_lt; [exact H0|exact Hp].
Qed.
Lemma mel_center_0 fb n : -700 < bstart fb -> mel_center fb n 0 = bstart fb.
Proof. intros H. unfold mel_center. rewrite spaced_0. apply mel_hz_mel, H. Qed.

Lemma bark_bands_ok fb n : proper fb -> -228 <= bstart fb ->
  bark_bands fb n = Ok (map (fun i => erb_band (bark_center fb n i)) (seq 0 n)).
Proof.
  intros Hp H0. unfold bark_bands.
  rewrite (mapM_ok _ erb_band).
  - f_equal. unfold linspace. rewrite !map_map. reflexivity.
  - intros c Hc. unfold linspace in Hc. rewrite map_map in Hc. apply in_map_iff in Hc.
    destruct Hc as [i [<- Hi]]. apply in_seq in Hi.
    assert (bstart fb <= bark_center fb n i).
    { rewrite <- (bark_center_0 fb n). apply bark_center_mono; [exact Hp|lia]. }
    unfold bark_center, spaced in H. unfold from_center, erb_band. apply make_band_ok. unfold erb. lra.
Qed.
Lemma mel_bands_ok fb n : proper fb -> -228 <= bstart fb ->
  mel_bands fb n = Ok (map (fun i => erb_band (mel_center fb n i)) (seq 0 n)).
Proof.
  intros Hp H0. unfold mel_bands.
  rewrite (mapM_ok _ erb_band).
  - f_equal. unfold linspace. rewrite !map_map. reflexivity.
  - intros c Hc. unfold linspace in Hc. rewrite map_map in Hc. apply in_map_iff in Hc.
    destruct Hc as [i [<- Hi]]. apply in_seq in Hi.
    assert (bstart fb <= mel_center fb n i).
    { rewrite <- (mel_center_0 fb n) by lra. apply mel_center_mono; [lra|exact Hp|lia]. }
    unfold mel_center, spaced in H. unfold from_center, erb_band. apply make_band_ok. unfold erb. lra.
Qed.

(** geometric *)
Definition geo_center (sc ec : R) (n i : nat) : R := sc * Rpower (ec / sc) (INR i / INR (n - 1)).
Definition geo_band (r c : R) : band := mkBand (c - c * r / 2) (c + c * r / 2).

Lemma geo_center_pos sc ec n i : 0 < sc -> 0 < geo_center sc ec n i.
Proof. intros H. unfold geo_center, Rpower. pose proof (exp_pos (INR i / INR (n - 1) * ln (ec / sc))). nra. Qed.
Lemma geo_center_0 sc ec n : geo_center sc ec n 0 = sc.
Proof.
  unfold geo_center, Rpower. simpl INR. unfold Rdiv. rewrite !Rmult_0_l, exp_0. lra.
Qed.
Lemma geo_center_last sc ec n : 0 < sc -> 0 < ec -> (2 <= n)%nat -> geo_center sc ec n (n - 1) = ec.
Proof.
  intros H1 H2 Hn. unfold geo_center.
  replace (INR (n - 1) / INR (n - 1)) with 1 by (field; apply not_0_INR; lia).
  rewrite Rpower_1 by (apply Rdiv_lt_0_compat; assumption). field. lra.
Qed.
Lemma geo_center_step sc ec n i : 0 < sc -> (2 <= n)%nat ->
  geo_center sc ec n (S i) = geo_center sc ec n i * Rpower (ec / sc) (1 / INR (n - 1)).
Proof.
  intros H Hn. unfold geo_center. rewrite Rmult_assoc, <- Rpower_plus. do 2 f_equal.
  rewrite S_INR. field. apply not_0_INR. lia.
Qed.
Lemma geo_center_mono sc ec n i j : 0 < sc -> sc <= ec -> (i <= j < n)%nat ->
  geo_center sc ec n i <= geo_center sc ec n j.
Proof.
  intros H0 H Hi. unfold geo_center. apply Rmult_le_compat_l; [lra|].
  assert (L : 0 <= ln (ec / sc)).
  { rewrite <- ln_1. destruct H as [H| ->].
    - left. apply ln_increasing; [lra|]. apply Rmult_lt_reg_r with sc; [exact H0|].
      unfold Rdiv. rewrite Rmult_assoc, Rinv_l by lra. lra.
    - right. f_equal. field. lra. }
  assert (E : INR i / INR (n - 1) <= INR j / INR (n - 1)).
  { assert (INR i <= INR j) by (apply le_INR; lia).
    destruct (Nat.eq_dec n 1) as [->|Hn].
    - replace i with 0%nat by lia. replace j with 0%nat by lia. lra.
    - apply Rmult_le_compat_r; [|assumption]. left. apply Rinv_0_lt_compat, lt_0_INR. lia. }
  unfold Rpower.
  assert (K : INR i / INR (n - 1) * ln (ec / sc) <= INR j / INR (n - 1) * ln (ec / sc)) by (apply Rmult_le_compat_r; assumption).
  destruct K as [K|K]; [left; apply exp_increasing, K|right; f_equal; exact K].
Qed.

Lemma geometric_bands_ok sc ec r n : 0 < sc -> 0 < r ->
  geometric_bands sc ec r n = Ok (map (fun i => geo_band r (geo_center sc ec n i)) (seq 0 n)).
Proof.
  intros H0 Hr. unfold geometric_bands. rewrite (mapM_ok _ (geo_band r)).
  - f_equal. unfold geomspace. rewrite map_map. reflexivity.
  - intros c Hc. unfold geomspace in Hc. apply in_map_iff in Hc. destruct Hc as [i [<- _]].
    apply from_center_val. apply Rmult_lt_0_compat; [|exact Hr]. apply (geo_center_pos sc ec n i H0).
Qed.
Lemma geometric_bands_bad sc ec r n : 0 < sc -> r <= 0 -> (1 <= n)%nat ->
  geometric_bands sc ec r n = Raise ValueError.
Proof.
  intros H0 Hr Hn. destruct n as [|n]; [lia|]. unfold geometric_bands, geomspace. simpl.
  fold (geo_center sc ec (S n) 0).
  rewrite from_center_bad; [reflexivity|].
  pose proof (geo_center_pos sc ec (S n) 0 H0) as H. unfold geo_center in H. simpl in H. nra.
Qed.

(** C23 *)
Lemma geometric_scale_spec sc ec r n ae : 0 < sc -> 0 < ec -> 0 < r -> (2 <= n)%nat ->
  exists bs, scale_bands (Geometric sc ec r n ae) = Ok bs /\ length bs = n /\
    (exists q, 0 < q /\ forall k a b, nth_error bs k = Some a -> nth_error bs (S k) = Some b ->
        center b = center a * q) /\
    (exists a, nth_error bs 0 = Some a /\ center a = sc) /\
    (exists z, nth_error bs (n - 1) = Some z /\ center z = ec) /\
    (forall b, In b bs -> bandwidth b / center b = r) /\
    scale_Q (Geometric sc ec r n ae) = Ok (repeat (1 / r) n).
Proof.
  intros H0 H1 Hr Hn.
  assert (C : forall c, center (geo_band r c) = c) by (intros; unfold center, bandwidth, geo_band; simpl; lra).
  assert (W : forall c, bandwidth (geo_band r c) = c * r) by (intros; unfold bandwidth, geo_band; simpl; lra).
  exists (map (fun i => geo_band r (geo_center sc ec n i)) (seq 0 n)).
  split; [apply geometric_bands_ok; assumption|].
  split; [rewrite map_length, seq_length; reflexivity|].
  split.
  { exists (Rpower (ec / sc) (1 / INR (n - 1))). split; [apply exp_pos|].
    intros k a b Ha Hb. rewrite nth_error_map_seq in Ha, Hb.
    destruct (k <? n)%nat, (S k <? n)%nat; try discriminate. inversion Ha; inversion Hb; subst.
    rewrite !C. apply geo_center_step; assumption. }
  split.
  { exists (geo_band r (geo_center sc ec n 0)). rewrite nth_error_map_seq.
    destruct (Nat.ltb_spec 0 n); [|lia]. split; [reflexivity|]. rewrite C. apply geo_center_0. }
  split.
  { exists (geo_band r (geo_center sc ec n (n - 1))). rewrite nth_error_map_seq.
    destruct (Nat.ltb_spec (n - 1) n); [|lia]. split; [reflexivity|]. rewrite C. apply geo_center_last; assumption. }
  split.
  { intros b Hb. apply in_map_iff in Hb. destruct Hb as [i [<- _]]. rewrite C, W.
    pose proof (geo_center_pos sc ec n i H0). field. lra. }
  { unfold scale_Q, scale_bands. rewrite geometric_bands_ok by assumption. simpl. f_equal.
    rewrite map_map. transitivity (map (fun _ : nat => 1 / r) (seq 0 n)).
    - apply map_ext. intros i. rewrite C, W. pose proof (geo_center_pos sc ec n i H0). field. lra.
    - clear. assert (G : forall a, map (fun _ : nat => 1 / r) (seq a n) = repeat (1 / r) n).
      { induction n; intros a; simpl; [reflexivity|]. f_equal. apply IHn. }
      apply G. }
Qed.

(* ------------------------------------------------------------------ *)
(** * Every constructible scale is ordered and proper, so C21 applies *)
Inductive well_formed : scale -> Prop :=
| wf_linear fb n ae : proper fb -> (2 <= n)%nat -> well_formed (Linear fb n ae)
| wf_geometric sc ec r n ae : 0 < sc -> sc <= ec -> 0 < r <= 2 -> (1 <= n)%nat ->
    well_formed (Geometric sc ec r n ae)
| wf_explicit bs : bs <> [] -> Forall proper bs -> ordered bs -> well_formed (Explicit bs)
| wf_bark fb n : proper fb -> -228 <= bstart fb -> well_formed (BarkS fb n)
| wf_mel fb n : proper fb -> -228 <= bstart fb -> well_formed (MelS fb n).

Lemma forall_map_seq {A} (P : A -> Prop) (f : nat -> A) n :
  (forall i, (i < n)%nat -> P (f i)) -> Forall P (map f (seq 0 n)).
Proof.
  intros H. apply Forall_forall. intros x Hx. apply in_map_iff in Hx. destruct Hx as [i [<- Hi]].
  apply in_seq in Hi. apply H. lia.
Qed.

Lemma well_formed_bands s : well_formed s ->
  exists bs, scale_bands s = Ok bs /\ length bs = scale_len s /\ ordered bs /\ Forall proper bs.
Proof.
  intros H. destruct H as [fb n ae Hp Hn|sc ec r n ae H0 H1 Hr Hn|bs Hne Hp Ho|fb n Hp H0|fb n Hp H0].
  - exists (map (lin_band fb n) (seq 0 n)). split; [apply linear_bands_ok; assumption|].
    split; [rewrite map_length, seq_length; reflexivity|].
    split; [apply ordered_map_seq; intros; apply lin_band_mono; assumption|].
    apply forall_map_seq. intros. apply lin_band_proper; assumption.
  - exists (map (fun i => geo_band r (geo_center sc ec n i)) (seq 0 n)).
    split; [apply geometric_bands_ok; lra|].
    split; [rewrite map_length, seq_length; reflexivity|]. split.
    + apply ordered_map_seq. intros i j Hij.
      pose proof (geo_center_mono sc ec n i j H0 H1 Hij). simpl. split; nra.
    + apply forall_map_seq. intros i Hi. pose proof (geo_center_pos sc ec n i H0).
      unfold proper; simpl. nra.
  - exists bs. repeat split; auto. all: apply (Ho i j a b); assumption.
  - exists (map (fun i => erb_band (bark_center fb n i)) (seq 0 n)).
    split; [apply bark_bands_ok; assumption|].
    split; [rewrite map_length, seq_length; reflexivity|]. split.
    + apply ordered_map_seq. intros i j Hij. apply erb_band_mono, bark_center_mono; assumption.
    + apply forall_map_seq. intros i Hi. apply erb_band_proper.
      assert (bstart fb <= bark_center fb n i); [|lra].
      rewrite <- (bark_center_0 fb n). apply bark_center_mono; [exact Hp|lia].
  - exists (map (fun i => erb_band (mel_center fb n i)) (seq 0 n)).
    split; [apply mel_bands_ok; assumption|].
    split; [rewrite map_length, seq_length; reflexivity|]. split.
    + apply ordered_map_seq. intros i j Hij. apply erb_band_mono, mel_center_mono; [lra|assumption|assumption].
    + apply forall_map_seq. intros i Hi. apply erb_band_proper.
      assert (bstart fb <= mel_center fb n i); [|lra].
      rewrite <- (mel_center_0 fb n) by lra. apply mel_center_mono; [lra|exact Hp|lia].
Qed.

(** C21 on every scale of the supported classes *)
Lemma get_slice_selects s q : well_formed s -> proper q -> scale_even s = false ->
  exists bs sl, scale_bands s = Ok bs /\ get_slice s (IBand q) = Ok sl /\
    apply_slice sl bs = filter (touched q) bs.
Proof.
  intros Hw Hq He. destruct (well_formed_bands s Hw) as [bs [Hb [_ [Ho _]]]].
  destruct (get_slice_exact s bs q Hb Ho He) as [sl [E1 E2]].
  exists bs, sl. auto.
Qed.
Lemma get_slice_selects_even s q : well_formed s -> proper q -> scale_even s = true ->
  exists bs sl extra, scale_bands s = Ok bs /\ get_slice s (IBand q) = Ok sl /\
    apply_slice sl bs = filter (touched q) bs ++ extra /\ (length extra <= 1)%nat /\
    (Nat.even (length (apply_slice sl bs)) = true \/ exists pre, bs = pre ++ apply_slice sl bs).
Proof.
  intros Hw Hq He. destruct (well_formed_bands s Hw) as [bs [Hb [_ [Ho Hp]]]].
  destruct (get_slice_even s bs q Hb Ho Hp Hq He) as [sl [extra K]].
  exists bs, sl, extra. split; [exact Hb|exact K].
Qed.

Example well_formed_example :
  well_formed (Linear (mkBand 0 22050) 100 false) /\
  well_formed (Geometric 20 5000 (1/20) 10 true) /\
  well_formed (BarkS (mkBand 20 5000) 24) /\
  well_formed (Explicit [mkBand 0 100; mkBand 50 200]).
Proof.
  split; [constructor; unfold proper; simpl; [lra|lia]|].
  split; [constructor; [lra|lra|lra|lia]|].
  split; [constructor; unfold proper; simpl; lra|].
  constructor; [discriminate|repeat constructor; unfold proper; simpl; lra|].
  intros i j a b Hij Ha Hb.
  destruct i as [|[|i]]; destruct j as [|[|j]]; simpl in *; try lia;
    try (destruct i; discriminate); try (destruct j; discriminate);
    inversion Ha; inversion Hb; subst; simpl; lra.
Qed.

(* ------------------------------------------------------------------ *)
(** * Slicing a scale gives the selected bands (C56) *)
Lemma map_seq_shift {A} (f g : nat -> A) a m :
  (forall k, (k < m)%nat -> f (a + k)%nat = g k) -> map f (seq a m) = map g (seq 0 m).
Proof.
  intros H. apply nth_error_ext. intros i. rewrite nth_error_map_seq, nth_error_map.
  destruct (Nat.ltb_spec i m).
  - rewrite nth_error_nth' with (d := 0%nat) by (rewrite seq_length; lia).
    rewrite seq_nth by lia. simpl. f_equal. apply H; assumption.
  - rewrite (proj2 (nth_error_None _ _)) by (rewrite seq_length; lia). reflexivity.
Qed.

Lemma linear_slice fb n ae ix sl : proper fb -> (2 <= n)%nat ->
  get_slice (Linear fb n ae) ix = Ok sl ->
  exists bs, scale_bands (Linear fb n ae) = Ok bs /\
    let sel := apply_slice sl bs in
    ((2 <= length sel)%nat -> exists s', scale_slice (Linear fb n ae) ix = Ok s' /\
        scale_bands s' = Ok sel /\ scale_len s' = length sel) /\
    (length sel = 1%nat -> exists s', scale_slice (Linear fb n ae) ix = Ok s' /\
        scale_len s' = 1%nat /\ scale_bands s' = Raise IndexError) /\
    (length sel = 0%nat -> scale_slice (Linear fb n ae) ix = Raise IndexError).
Proof.
  intros Hp Hn Hg. exists (map (lin_band fb n) (seq 0 n)).
  pose proof (linear_bands_ok fb n Hp Hn) as E. split; [exact E|]. cbv zeta.
  unfold scale_slice. rewrite Hg. change (scale_bands (Linear fb n ae)) with (linear_bands fb n). rewrite E. cbn [bind].
  destruct (apply_slice_sub sl (map (lin_band fb n) (seq 0 n))) as [a [m [[S L]|S]]].
  2:{ rewrite S. simpl. split; [intros; lia|]. split; [intros; discriminate|]. reflexivity. }
  rewrite S. rewrite map_length, seq_length in L. rewrite slice_map_seq by exact L.
  rewrite map_length, seq_length.
  pose proof (lin_width_pos fb n Hp ltac:(lia)) as Hw.
  assert (SP : (1 <= m)%nat -> span_band (map (lin_band fb n) (seq a m))
     = Ok (mkBand (bstart fb + INR a * lin_width fb n) (bstart fb + INR (a + m) * lin_width fb n))).
  { intros Hm. destruct m as [|m]; [lia|].
    unfold span_band. simpl map. cbv beta iota.
    change (lin_band fb n a :: map (lin_band fb n) (seq (Datatypes.S a) m)) with (map (lin_band fb n) (seq a (Datatypes.S m))).
    rewrite last_map_seq. simpl bstart; simpl bstop. replace (a + m + 1)%nat with (a + Datatypes.S m)%nat by lia.
    apply make_band_ok. assert (INR a < INR (a + Datatypes.S m)) by (apply lt_INR; lia). nra. }
  split; [|split].
  - intros Hm. cbn [construct_from_slice]. rewrite SP by lia. cbn [bind]. eexists. split; [reflexivity|].
    rewrite map_length, seq_length. split; [|reflexivity]. cbn [scale_bands].
    set (fb' := mkBand _ _).
    assert (Hp' : proper fb').
    { unfold proper, fb'; simpl. assert (INR a < INR (a + m)) by (apply lt_INR; lia). nra. }
    rewrite linear_bands_ok by assumption. f_equal. symmetry. apply map_seq_shift. intros k Hk.
    assert (W : lin_width fb' m = lin_width fb n).
    { unfold lin_width at 1, fb'; simpl. rewrite plus_INR. field. apply not_0_INR. lia. }
    unfold lin_band. rewrite W. unfold fb'; simpl. rewrite !plus_INR. f_equal; simpl INR; lra.
  - intros Hm. subst m. cbn [construct_from_slice]. rewrite SP by lia. cbn [bind]. eexists. split; [reflexivity|].
    split; reflexivity.
  - intros Hm. subst m. reflexivity.
Qed.

Lemma explicit_like_slice s ix sl : well_formed s ->
  match s with Geometric _ _ _ _ _ | Explicit _ => True | _ => False end ->
  get_slice s ix = Ok sl ->
  exists bs, scale_bands s = Ok bs /\
    let sel := apply_slice sl bs in
    (sel <> [] -> scale_slice s ix = Ok (Explicit sel) /\ scale_bands (Explicit sel) = Ok sel) /\
    (sel = [] -> scale_slice s ix = Raise IndexError).
Proof.
  intros Hw Hc Hg. destruct (well_formed_bands s Hw) as [bs [E [_ [Ho Hp]]]].
  exists bs. split; [exact E|]. cbv zeta. unfold scale_slice. rewrite E, Hg. cbn [bind].
  assert (K : construct_from_slice s (apply_slice sl bs) = make_explicit (apply_slice sl bs))
    by (destruct s; try contradiction; reflexivity).
  rewrite K. split; intros H; [|rewrite H; reflexivity].
  split; [|reflexivity]. unfold make_explicit.
  destruct (apply_slice_sub sl bs) as [a [m [[S L]|S]]]; [|rewrite S in H; contradiction].
  rewrite S in *.
  assert (P : proper (nth 0 (firstn m (skipn a bs)) (mkBand 0 1))).
  { destruct (firstn m (skipn a bs)) as [|x t] eqn:F; [contradiction|]. simpl.
    eapply Forall_forall; [exact Hp|]. eapply skipn_In, firstn_In. rewrite F. left. reflexivity. }
  destruct (span_band_ok _ (mkBand 0 1) H P (ordered_sub bs a m Ho)) as [SP _].
  rewrite SP. reflexivity.
Qed.

(** Bark and mel: the scale obtained by slicing never has the selected bands,
    even when everything is selected: its first centre is the start of the
    first selected band instead of that band's centre. *)
Lemma bark_slice_wrong fb n ix sl bs b rest : proper fb -> 0 <= bstart fb -> 
  scale_bands (BarkS fb n) = Ok bs -> get_slice (BarkS fb n) ix = Ok sl ->
  apply_slice sl bs = b :: rest ->
  exists s', scale_slice (BarkS fb n) ix = Ok s' /\ scale_bands s' <> Ok (b :: rest).
Proof.
  intros Hp H0 Hb Hg Hs.
  assert (Hw : well_formed (BarkS fb n)) by (constructor; [assumption|lra]).
  destruct (well_formed_bands _ Hw) as [bs' [E [_ [Ho Hpr]]]]. rewrite Hb in E. inversion E; subst bs'.
  destruct (apply_slice_sub sl bs) as [a [m [[S L]|S]]]; [|congruence].
  assert (Hin : In b bs) by (eapply skipn_In, firstn_In; rewrite <- S, Hs; left; reflexivity).
  assert (Pb : proper b) by (eapply Forall_forall; eassumption).
  assert (Ho' : ordered (b :: rest)) by (rewrite <- Hs, S; apply ordered_sub; exact Ho).
  destruct (span_band_ok (b :: rest) b ltac:(discriminate) Pb Ho') as [SP HL].
  unfold scale_slice. rewrite Hb, Hg. cbn [bind]. rewrite Hs. cbn [construct_from_slice]. rewrite SP. cbn [bind nth].
  eexists; split; [reflexivity|]. cbn [scale_bands].
  (* the band b is erb_band c for some c >= 0 *)
  cbn [scale_bands] in Hb. rewrite bark_bands_ok in Hb by (try assumption; lra). inversion Hb as [Hbs].
  rewrite <- Hbs in Hin. apply in_map_iff in Hin. destruct Hin as [i [Ei Hi]]. apply in_seq in Hi.
  assert (Hc : 0 <= bark_center fb n i).
  { apply Rle_trans with (bstart fb); [exact H0|]. rewrite <- (bark_center_0 fb n). apply bark_center_mono; [exact Hp|lia]. }
  set (c := bark_center fb n i) in *.
  assert (Bs : bstart b = c * 0.946 - 12.35) by (rewrite <- Ei; unfold erb_band, erb; simpl; lra).
  rewrite bark_bands_ok.
  - intros K. inversion K as [K1]. destruct (length (b :: rest)) as [|N] eqn:LN; [discriminate|].
    simpl seq in K1. simpl map in K1. inversion K1 as [[K2 K3]]. rewrite bark_center_0 in K2. simpl in K2.
    rewrite <- Ei in K2. simpl in K2. unfold erb_band, erb in K2. injection K2. lra.
  - exact HL.
  - simpl. lra.
Qed.
Lemma mel_slice_wrong fb n ix sl bs b rest : proper fb -> 0 <= bstart fb -> 
  scale_bands (MelS fb n) = Ok bs -> get_slice (MelS fb n) ix = Ok sl ->
  apply_slice sl bs = b :: rest ->
  exists s', scale_slice (MelS fb n) ix = Ok s' /\ scale_bands s' <> Ok (b :: rest).
Proof.
  intros Hp H0 Hb Hg Hs.
  assert (Hw : well_formed (MelS fb n)) by (constructor; [assumption|lra]).
  destruct (well_formed_bands _ Hw) as [bs' [E [_ [Ho Hpr]]]]. rewrite Hb in E. inversion E; subst bs'.
  destruct (apply_slice_sub sl bs) as [a [m [[S L]|S]]]; [|congruence].
  assert (Hin : In b bs) by (eapply skipn_In, firstn_In; rewrite <- S, Hs; left; reflexivity).
  assert (Pb : proper b) by (eapply Forall_forall; eassumption).
  assert (Ho' : ordered (b :: rest)) by (rewrite <- Hs, S; apply ordered_sub; exact Ho).
  destruct (span_band_ok (b :: rest) b ltac:(discriminate) Pb Ho') as [SP HL].
  unfold scale_slice. rewrite Hb, Hg. cbn [bind]. rewrite Hs. cbn [construct_from_slice]. rewrite SP. cbn [bind nth].
  eexists; split; [reflexivity|]. cbn [scale_bands].
  cbn [scale_bands] in Hb. rewrite mel_bands_ok in Hb by (try assumption; lra). inversion Hb as [Hbs].
  rewrite <- Hbs in Hin. apply in_map_iff in Hin. destruct Hin as [i [Ei Hi]]. apply in_seq in Hi.
  assert (Hc : 0 <= mel_center fb n i).
  { apply Rle_trans with (bstart fb); [exact H0|]. rewrite <- (mel_center_0 fb n) by lra.
    apply mel_center_mono; [lra|exact Hp|lia]. }
  set (c := mel_center fb n i) in *.
  assert (Bs : bstart b = c * 0.946 - 12.35) by (rewrite <- Ei; unfold erb_band, erb; simpl; lra).
  rewrite mel_bands_ok.
  - intros K. inversion K as [K1]. destruct (length (b :: rest)) as [|N] eqn:LN; [discriminate|].
    simpl seq in K1. simpl map in K1. inversion K1 as [[K2 K3]].
    rewrite mel_center_0 in K2 by (simpl; lra). simpl in K2.
    rewrite <- Ei in K2. simpl in K2. unfold erb_band, erb in K2. injection K2. lra.
  - exact HL.
  - simpl. lra.
Qed.
Example bark_slice_wrong_applies :
  exists bs b rest, scale_bands (BarkS (mkBand 20 5000) 4) = Ok bs /\
    get_slice (BarkS (mkBand 20 5000) 4) (ISlice (None, None)) = Ok (None, None) /\
    apply_slice (None, None) bs = b :: rest.
Proof.
  eexists; eexists; eexists. split; [|split; [reflexivity|]].
  - cbn [scale_bands]. rewrite bark_bands_ok by (unfold proper; simpl; lra). reflexivity.
  - simpl. unfold apply_slice, py_slice. simpl. reflexivity.
Qed.

(* ------------------------------------------------------------------ *)
(** * ensure_overlap_ratio (C24) *)
(** width of the common part of two bands, zero when there is none *)
Definition common_width (a b : band) : R :=
  Rmax 0 (Rmin (bstop a) (bstop b) - Rmax (bstart a) (bstart b)).

Lemma pair_ratio_spec a b : proper a -> pair_ratio a b = common_width a b / bandwidth a.
Proof.
  intros Ha. unfold pair_ratio, intersection_ratio, intersect, common_width, bandwidth_ratio.
  destruct (band_construct (Rmax (bstart a) (bstart b)) (Rmin (bstop a) (bstop b))) as [[H E]|[H E]]; rewrite E; simpl.
  - rewrite (Rmax_right 0) by lra. reflexivity.
  - rewrite (Rmax_left 0) by lra. unfold Rdiv. rewrite Rmult_0_l. reflexivity.
Qed.

Lemma check_pairs_spec r bs : Forall proper bs ->
  (check_pairs r bs = Ok tt <->
   forall k a b, nth_error bs k = Some a -> nth_error bs (S k) = Some b ->
     r <= common_width a b / bandwidth a) /\
  (check_pairs r bs = Ok tt \/ check_pairs r bs = Raise OtherError).
Proof.
  induction bs as [|x bs IH]; intros Hp.
  - split; [|left; reflexivity]. split; [|reflexivity]. intros _ k a b Ha. destruct k; discriminate.
  - inversion Hp as [|? ? Hx Hp']; subst. destruct bs as [|y bs].
    { split; [|left; reflexivity]. split; [|reflexivity]. intros _ k a b Ha Hb. destruct k; simpl in Hb; [discriminate|destruct k; discriminate]. }
    destruct (IH Hp') as [IH1 IH2]. clear IH.
    change (check_pairs r (x :: y :: bs)) with
      (if Rltb (pair_ratio x y) r then Raise OtherError else check_pairs r (y :: bs)).
    rewrite pair_ratio_spec by exact Hx.
    destruct (Rltb (common_width x y / bandwidth x) r) eqn:E; rbool.
    + split; [|right; reflexivity]. split; [discriminate|].
      intros H. specialize (H 0%nat x y eq_refl eq_refl). lra.
    + split; [|exact IH2]. rewrite IH1. split.
      * intros H k a b Ha Hb. destruct k as [|k].
        { simpl in Ha, Hb. inversion Ha; inversion Hb; subst. lra. }
        apply (H k a b Ha Hb).
      * intros H k a b Ha Hb. apply (H (S k) a b Ha Hb).
Qed.

Lemma ensure_overlap_spec s r : well_formed s ->
  exists bs, scale_bands s = Ok bs /\
  (ensure_overlap_ratio s r = Ok tt <->
   forall k a b, nth_error bs k = Some a -> nth_error bs (S k) = Some b ->
     r <= common_width a b / bandwidth a) /\
  (ensure_overlap_ratio s r = Ok tt \/ ensure_overlap_ratio s r = Raise OtherError).
Proof.
  intros Hw. destruct (well_formed_bands s Hw) as [bs [E [_ [_ Hp]]]].
  exists bs. split; [exact E|]. unfold ensure_overlap_ratio. rewrite E. simpl.
  apply check_pairs_spec. exact Hp.
Qed.

(** linear scales have no overlap at all: any positive requirement fails *)
Lemma linear_no_overlap fb n ae r : proper fb -> (2 <= n)%nat -> 0 < r ->
  ensure_overlap_ratio (Linear fb n ae) r = Raise OtherError.
Proof.
  intros Hp Hn Hr. pose proof (ensure_overlap_spec (Linear fb n ae) r ltac:(constructor; assumption)) as [bs [E [H [K|K]]]]; [|exact K].
  exfalso. rewrite H in K. cbn [scale_bands] in E. rewrite linear_bands_ok in E by assumption. inversion E; subst bs.
  specialize (K 0%nat (lin_band fb n 0) (lin_band fb n 1)).
  rewrite !nth_error_map_seq in K. destruct (Nat.ltb_spec 0 n); [|lia]. destruct (Nat.ltb_spec 1 n); [|lia].
  specialize (K eq_refl eq_refl). unfold common_width in K. simpl in K.
  pose proof (lin_width_pos fb n Hp ltac:(lia)) as Hw.
  rewrite (Rmin_left (bstart fb + 1 * lin_width fb n)) in K by lra.
  rewrite (Rmax_right (bstart fb + 0 * lin_width fb n)) in K by lra.
  rewrite Rmax_left in K by lra. unfold Rdiv in K. rewrite Rmult_0_l in K. lra.
Qed.
Example overlap_half : ensure_overlap_ratio (Explicit [mkBand 0 100; mkBand 50 150; mkBand 100 200]) (1/2) = Ok tt.
Proof.
  assert (W : well_formed (Explicit [mkBand 0 100; mkBand 50 150; mkBand 100 200])).
  { constructor; [discriminate|repeat constructor; unfold proper; simpl; lra|].
    intros i j a b Hij Ha Hb.
    destruct i as [|[|[|i]]]; destruct j as [|[|[|j]]]; simpl in *; try lia;
      try (destruct i; discriminate); try (destruct j; discriminate);
      inversion Ha; inversion Hb; subst; simpl; lra. }
  destruct (ensure_overlap_spec _ (1/2) W) as [bs [E [H _]]]. apply H. inversion E; subst bs.
  intros k a b Ha Hb. unfold common_width, bandwidth.
  destruct k as [|[|[|k]]]; simpl in Ha, Hb; try discriminate; try (destruct k; discriminate);
    inversion Ha; inversion Hb; subst; simpl.
  - rewrite (Rmin_left 100) by lra. rewrite (Rmax_right 0 50) by lra. rewrite Rmax_right by lra. lra.
  - rewrite (Rmin_left 150) by lra. rewrite (Rmax_right 50 100) by lra. rewrite Rmax_right by lra. lra.
Qed.

(* ------------------------------------------------------------------ *)
(** * Equality (C27) *)
Lemma band_eqb_refl a : band_eqb a a = true.
Proof. apply band_eqb_eq. reflexivity. Qed.

(** For every class but ExplicitScale, equal scales have the same bands, and
    equality is reflexive, symmetric and transitive. *)
Definition is_explicit (s : scale) : bool := match s with Explicit _ => true | _ => false end.

(** what "the same scale" means for each class: same class, same constructor
    arguments, [always_even] aside *)
Definition same_params (a b : scale) : Prop :=
  match a, b with
  | Linear f n _, Linear g m _ => f = g /\ n = m
  | Geometric s e r n _, Geometric s' e' r' n' _ => s = s' /\ e = e' /\ r = r' /\ n = n'
  | Explicit bs, Explicit cs => bs = cs
  | BarkS f n, BarkS g m => f = g /\ n = m
  | MelS f n, MelS g m => f = g /\ n = m
  | Chroma f, Chroma g => f = g
  | _, _ => False
  end.

Lemma scale_eq_params a b : well_formed a -> well_formed b -> is_explicit a = false ->
  exists e, scale_eq a b = Ok e /\ (e = true <-> same_params a b).
Proof.
  intros Ha Hb Hx.
  destruct a as [fa na ea|sa ta ra na ea|bs|fa na|fa na|fa]; try discriminate; unfold scale_eq, base_eq.
  - destruct b as [fb nb eb| | | | |]; simpl; try (eexists; split; [reflexivity|]; split; [discriminate|contradiction]).
    eexists; split; [reflexivity|]. rewrite andb_true_iff, band_eqb_eq, Nat.eqb_eq. reflexivity.
  - destruct b as [|sb tb rb nb eb| | | |]; simpl; try (eexists; split; [reflexivity|]; split; [discriminate|contradiction]).
    assert (SP : forall s t r n e, well_formed (Geometric s t r n e) ->
        exists x, scale_band (Geometric s t r n e) = Ok x /\
                  x = mkBand (bstart (geo_band r (geo_center s t n 0))) (bstop (geo_band r (geo_center s t n (n - 1))))).
    { intros s t r n e H. destruct (well_formed_bands _ H) as [bs [E [L [Ho Hp]]]].
      inversion H; subst. cbn [scale_band]. cbn [scale_bands] in E. rewrite E. cbn [bind].
      rewrite geometric_bands_ok in E by lra. inversion E; subst bs.
      destruct n as [|n]; [lia|].
      destruct (span_band_ok (map (fun i => geo_band r (geo_center s t (S n) i)) (seq 0 (S n))) (mkBand 0 1)) as [K _].
      - discriminate.
      - simpl. inversion Hp; assumption.
      - exact Ho.
      - rewrite K. eexists; split; [reflexivity|]. rewrite last_map_seq. simpl Nat.sub. rewrite Nat.sub_0_r. reflexivity. }
    destruct (SP _ _ _ _ _ Ha) as [xa [EA VA]]. destruct (SP _ _ _ _ _ Hb) as [xb [EB VB]].
    cbn [scale_band] in EA, EB. rewrite EA, EB. simpl. eexists; split; [reflexivity|].
    rewrite !andb_true_iff, !Reqb_true, band_eqb_eq, Nat.eqb_eq. split.
    + intros [[[[_ K] K1] K2] K3]. auto.
    + intros [-> [-> [-> ->]]]. subst xa xb. auto.
  - destruct b as [| | |fb nb| |]; simpl; try (eexists; split; [reflexivity|]; split; [discriminate|contradiction]).
    eexists; split; [reflexivity|]. rewrite andb_true_iff, band_eqb_eq, Nat.eqb_eq. reflexivity.
  - destruct b as [| | | |fb nb|]; simpl; try (eexists; split; [reflexivity|]; split; [discriminate|contradiction]).
    eexists; split; [reflexivity|]. rewrite andb_true_iff, band_eqb_eq, Nat.eqb_eq. reflexivity.
  - inversion Ha.
Qed.

Lemma same_params_bands a b : same_params a b -> scale_bands a = scale_bands b.
Proof.
  destruct a, b; simpl; try contradiction; intros H.
  - destruct H; subst; reflexivity.
  - destruct H as [-> [-> [-> ->]]]; reflexivity.
  - subst; reflexivity.
  - destruct H; subst; reflexivity.
  - destruct H; subst; reflexivity.
  - reflexivity.
Qed.

Lemma scale_eq_same_bands a b : well_formed a -> well_formed b -> is_explicit a = false ->
  scale_eq a b = Ok true -> scale_bands a = scale_bands b.
Proof.
  intros Ha Hb Hx H. destruct (scale_eq_params a b Ha Hb Hx) as [e [E K]].
  rewrite E in H. inversion H; subst. apply same_params_bands, K. reflexivity.
Qed.

(** ExplicitScale: equal exactly when one is a prefix of the other *)
Lemma explicit_eq_prefix bs cs :
  scale_eq (Explicit bs) (Explicit cs) = Ok true <->
  (exists t, bs = cs ++ t) \/ (exists t, cs = bs ++ t).
Proof.
  unfold scale_eq. simpl.
  assert (G : forallb (fun p => band_eqb (fst p) (snd p)) (combine bs cs) = true <->
    (exists t, bs = cs ++ t) \/ (exists t, cs = bs ++ t)).
  { revert cs; induction bs as [|x bs IH]; intros cs; simpl.
    - split; [intros _; right; exists cs; reflexivity|reflexivity].
    - destruct cs as [|y cs]; simpl.
      + split; [intros _; left; exists (x :: bs); reflexivity|reflexivity].
      + rewrite andb_true_iff, band_eqb_eq, IH. split.
        * intros [-> [[t ->]|[t ->]]]; [left|right]; exists t; reflexivity.
        * intros [[t H]|[t H]]; inversion H; subst; split; try reflexivity; [left|right]; exists t; reflexivity. }
  destruct (forallb _ _) eqn:E.
  - rewrite <- G. split; intros _; reflexivity.
  - split; [discriminate|]. intros H. apply G in H. discriminate.
Qed.

(** so equal explicit scales may have different bands, and equality is not
    transitive, nor symmetric against the other classes *)
Lemma explicit_eq_refuted :
  let a := mkBand 0 100 in let b := mkBand 100 200 in let c := mkBand 100 300 in
  (well_formed (Explicit [a; b]) /\ well_formed (Explicit [a]) /\ well_formed (Explicit [a; c])) /\
  scale_eq (Explicit [a; b]) (Explicit [a]) = Ok true /\
  scale_eq (Explicit [a]) (Explicit [a; c]) = Ok true /\
  scale_eq (Explicit [a; b]) (Explicit [a; c]) = Ok false /\
  scale_bands (Explicit [a; b]) <> scale_bands (Explicit [a]).
Proof.
  cbv zeta.
  assert (W1 : forall x y z, 0 < x -> y = x -> x < z -> well_formed (Explicit [mkBand 0 x; mkBand y z])).
  { intros x y z H1 H2 H3. constructor; [discriminate|repeat constructor; unfold proper; simpl; lra|].
    intros i j a b Hij Ha Hb.
    destruct i as [|[|i]]; destruct j as [|[|j]]; simpl in *; try lia;
      try (destruct i; discriminate); try (destruct j; discriminate);
      inversion Ha; inversion Hb; subst; simpl; lra. }
  assert (W2 : well_formed (Explicit [mkBand 0 100])).
  { constructor; [discriminate|repeat constructor; unfold proper; simpl; lra|].
    intros i j a b Hij Ha Hb.
    destruct i as [|i]; destruct j as [|j]; simpl in *; try lia;
      try (destruct i; discriminate); try (destruct j; discriminate);
      inversion Ha; inversion Hb; subst; simpl; lra. }
  split. { split; [apply W1; lra|]. split; [exact W2|apply W1; lra]. }
  split. { apply explicit_eq_prefix. left. exists [mkBand 100 200]. reflexivity. }
  split. { apply explicit_eq_prefix. right. exists [mkBand 100 300]. reflexivity. }
  split.
  { unfold scale_eq; simpl. rewrite band_eqb_refl. unfold band_eqb at 1; simpl.
    assert (Reqb 200 300 = false) by (unfold Reqb; destruct (Req_EM_T 200 300); [lra|reflexivity]).
    rewrite H. rewrite andb_false_r. reflexivity. }
  discriminate.
Qed.
Lemma scale_eq_asymmetric_refuted :
  exists a b, well_formed a /\ well_formed b /\ scale_eq a b = Ok true /\ scale_eq b a = Ok false.
Proof.
  set (fb := mkBand 0 200).
  assert (Hp : proper fb) by (unfold proper, fb; simpl; lra).
  exists (Explicit (map (lin_band fb 2) (seq 0 2))), (Linear fb 2 false).
  pose proof (well_formed_bands (Linear fb 2 false) ltac:(constructor; [exact Hp|lia])) as [bs [E [_ [Ho Hpr]]]].
  cbn [scale_bands] in E. rewrite linear_bands_ok in E by (try exact Hp; lia). inversion E; subst bs.
  split; [constructor; [discriminate|exact Hpr|exact Ho]|].
  split; [constructor; [exact Hp|lia]|].
  split; [|reflexivity].
  unfold scale_eq. cbn [scale_bands]. rewrite linear_bands_ok by (try exact Hp; lia). cbn [bind]. f_equal.
  apply forallb_forall. intros [x y] H. simpl.
  assert (G : forall (l : list band) p, In p (combine l l) -> fst p = snd p).
  { clear. induction l as [|z l IH]; simpl; intros p [].
    - subst; reflexivity.
    - apply IH; assumption. }
  apply G in H. simpl in H. subst. apply band_eqb_refl.
Qed.

(* ------------------------------------------------------------------ *)
(** * The bands of bark and mel scales *)
Lemma erb_band_center c : center (erb_band c) = c /\ bandwidth (erb_band c) = 0.108 * c + 24.7.
Proof. unfold center, bandwidth, erb_band, erb. cbn [bstart bstop]. split; lra. Qed.
Lemma bark_scale_bands fb n : proper fb -> -228 <= bstart fb ->
  exists bs, scale_bands (BarkS fb n) = Ok bs /\ length bs = n /\
    (forall b, In b bs -> bandwidth b = 0.108 * center b + 24.7) /\
    (forall k b, nth_error bs k = Some b ->
       hz_to_bark (center b) = hz_to_bark (bstart fb) + INR k * ((hz_to_bark (bstop fb) - hz_to_bark (bstart fb)) / INR (n - 1))) /\
    (forall b, nth_error bs 0 = Some b -> center b = bstart fb) /\
    (forall b, (2 <= n)%nat -> nth_error bs (n - 1) = Some b -> center b = bstop fb).
Proof.
  intros Hp H0. eexists. split; [apply bark_bands_ok; assumption|]. split; [now rewrite map_length, seq_length|]. split; [|split; [|split]].
  - intros b Hb. apply in_map_iff in Hb. destruct Hb as (i & <- & _). destruct (erb_band_center (bark_center fb n i)) as [-> ->]. reflexivity.
  - intros k b Hb. rewrite nth_error_map_seq in Hb. destruct (k <? n)%nat; [|discriminate]. injection Hb as <-. destruct (erb_band_center (bark_center fb n k)) as [-> _].
    unfold bark_center. rewrite hz_bark_hz. reflexivity.
  - intros b Hb. rewrite nth_error_map_seq in Hb. destruct (0 <? n)%nat; [|discriminate]. injection Hb as <-. destruct (erb_band_center (bark_center fb n 0)) as [-> _]. apply bark_center_0.
  - intros b Hn Hb. rewrite nth_error_map_seq in Hb. destruct (n - 1 <? n)%nat; [|discriminate]. injection Hb as <-. destruct (erb_band_center (bark_center fb n (n - 1))) as [-> _].
    unfold bark_center. rewrite spaced_last by exact Hn. apply bark_hz_bark.
Qed.
Lemma mel_scale_bands fb n : proper fb -> -228 <= bstart fb ->
  exists bs, scale_bands (MelS fb n) = Ok bs /\ length bs = n /\
    (forall b, In b bs -> bandwidth b = 0.108 * center b + 24.7) /\
    (forall k b, nth_error bs k = Some b ->
       hz_to_mel (center b) = hz_to_mel (bstart fb) + INR k * ((hz_to_mel (bstop fb) - hz_to_mel (bstart fb)) / INR (n - 1))) /\
    (forall b, nth_error bs 0 = Some b -> center b = bstart fb) /\
    (forall b, (2 <= n)%nat -> nth_error bs (n - 1) = Some b -> center b = bstop fb).
Proof.
  intros Hp H0. eexists. split; [apply mel_bands_ok; assumption|]. split; [now rewrite map_length, seq_length|]. split; [|split; [|split]].
  - intros b Hb. apply in_map_iff in Hb. destruct Hb as (i & <- & _). destruct (erb_band_center (mel_center fb n i)) as [-> ->]. reflexivity.
  - intros k b Hb. rewrite nth_error_map_seq in Hb. destruct (k <? n)%nat; [|discriminate]. injection Hb as <-. destruct (erb_band_center (mel_center fb n k)) as [-> _].
    unfold mel_center. rewrite hz_mel_hz. reflexivity.
  - intros b Hb. rewrite nth_error_map_seq in Hb. destruct (0 <? n)%nat; [|discriminate]. injection Hb as <-. destruct (erb_band_center (mel_center fb n 0)) as [-> _]. apply mel_center_0; lra.
  - intros b Hn Hb. rewrite nth_error_map_seq in Hb. destruct (n - 1 <? n)%nat; [|discriminate]. injection Hb as <-. destruct (erb_band_center (mel_center fb n (n - 1))) as [-> _].
    unfold mel_center. rewrite spaced_last by exact Hn. apply mel_hz_mel. unfold proper in Hp. lra.
Qed.
(** [scale[i]] *)
Lemma scale_get_spec s bs i : scale_bands s = Ok bs ->
  ((0 <= i < Zlen bs)%Z -> exists b, scale_get s i = Ok b /\ nth_error bs (Z.to_nat i) = Some b) /\
  ((- Zlen bs <= i < 0)%Z -> exists b, scale_get s i = Ok b /\ nth_error bs (Z.to_nat (Zlen bs + i)) = Some b) /\
  ((i < - Zlen bs \/ Zlen bs <= i)%Z -> scale_get s i = Raise IndexError).
Proof.
  intros E. unfold scale_get. rewrite E. cbn [bind]. unfold py_get, Zlen.
  assert (G : forall j, (0 <= j < Z.of_nat (length bs))%Z -> exists b, nth_error bs (Z.to_nat j) = Some b).
  { intros j Hj. destruct (nth_error bs (Z.to_nat j)) eqn:En; [eauto|]. apply nth_error_None in En. lia. }
  split; [|split]; intros H.
  - destruct (Z.ltb_spec i 0); [lia|]. destruct (Z.ltb_spec i 0); [lia|]. destruct (G i H) as [b Eb]. rewrite Eb. eauto.
  - destruct (Z.ltb_spec i 0); [|lia]. destruct (Z.ltb_spec (i + Z.of_nat (length bs)) 0); [lia|]. replace (Z.of_nat (length bs) + i)%Z with (i + Z.of_nat (length bs))%Z by lia.
    destruct (G (i + Z.of_nat (length bs))%Z ltac:(lia)) as [b Eb]. rewrite Eb. eauto.
  - destruct (Z.ltb_spec i 0).
    + destruct (Z.ltb_spec (i + Z.of_nat (length bs)) 0); [reflexivity|lia].
    + destruct (Z.ltb_spec i 0); [lia|]. destruct (nth_error bs (Z.to_nat i)) eqn:En; [|reflexivity]. assert (nth_error bs (Z.to_nat i) <> None) as Hn by congruence. apply nth_error_Some in Hn. lia.
Qed.
Lemma chroma_len fb : scale_len (Chroma fb) = 12%nat.
Proof. reflexivity. Qed.
