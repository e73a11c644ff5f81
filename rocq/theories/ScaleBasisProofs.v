(** Proofs about ScaleBasis.v. *)
From Verif Require Import PyBase PyFacts PyMore Freq FreqProofs FreqScaleProofs ScaleBasis.
Local Open Scope R_scope.

(* ------------------------------------------------------------------ *)
(** * Specification *)
(** the entries of a frame whose frequency band a query touches *)
Definition picked (q : band) (bs : list band) (row : list R) : list R :=
  map snd (filter (fun p => touched q (fst p)) (combine bs row)).
(** numpy.hanning *)
Definition hanning (n : nat) : list R :=
  if (n =? 1)%nat then [1]
  else map (fun k => / 2 - / 2 * cos (2 * PI * INR k / INR (n - 1))) (seq 0 n).
(** a window multiplies an array of ones of every size *)
Definition window_is (w : win) (g : nat -> list R) : Prop :=
  forall n, length (g n) = n /\ win_ones w n = Ok (g n).

(* ------------------------------------------------------------------ *)
(** * Inner products *)
Lemma dot_cons a b x y : dot (a :: x) (b :: y) = a * b + dot x y.
Proof. reflexivity. Qed.
Lemma dot_nil_l y : dot [] y = 0. Proof. reflexivity. Qed.
Lemma dot_nil_r x : dot x [] = 0. Proof. unfold dot. destruct x; reflexivity. Qed.
Lemma dot_app a1 a2 b1 b2 : length a1 = length b1 ->
  dot (a1 ++ a2) (b1 ++ b2) = dot a1 b1 + dot a2 b2.
Proof.
  revert b1; induction a1 as [|x a1 IH]; intros [|y b1] H; simpl in H; try discriminate.
  - simpl. rewrite dot_nil_l. lra.
  - simpl app. rewrite !dot_cons, IH by lia. lra.
Qed.
Lemma dot_repeat0 n b : dot (repeat 0 n) b = 0.
Proof.
  revert b; induction n as [|n IH]; intros b; simpl; [apply dot_nil_l|].
  destruct b as [|y b]; [apply dot_nil_r|]. rewrite dot_cons, IH. lra.
Qed.
Lemma firstn_repeat {A} (x : A) k n : firstn k (repeat x n) = repeat x (Nat.min k n).
Proof. revert n; induction k as [|k IH]; intros [|n]; simpl; try reflexivity. rewrite IH. reflexivity. Qed.
Lemma skipn_repeat {A} (x : A) k n : skipn k (repeat x n) = repeat x (n - k).
Proof. revert n; induction k as [|k IH]; intros [|n]; simpl; try reflexivity. apply IH. Qed.

Lemma put_slice_length row p v :
  length v = slice_len (length row) p -> (fst p <= length row)%nat ->
  length (put_slice row p v) = length row.
Proof.
  intros H L. unfold put_slice, slice_len in *. rewrite !app_length, firstn_length, skipn_length. lia.
Qed.

Lemma dot_put m p v row :
  length row = m -> (fst p <= m)%nat -> length v = slice_len m p ->
  dot (put_slice (repeat 0 m) p v) row = dot v (firstn (snd p - fst p) (skipn (fst p) row)).
Proof.
  intros Hr Hp Hv. unfold put_slice. destruct p as [i j]; cbn [fst snd] in *.
  unfold slice_len in Hv; cbn [fst snd] in Hv.
  rewrite firstn_repeat, skipn_repeat.
  rewrite <- (firstn_skipn i row) at 1.
  rewrite dot_app by (rewrite repeat_length, firstn_length; lia).
  rewrite dot_repeat0, Rplus_0_l.
  rewrite <- (firstn_skipn (j - i) (skipn i row)) at 1.
  rewrite dot_app.
  2:{ rewrite firstn_length, skipn_length. lia. }
  rewrite dot_repeat0. lra.
Qed.

(* ------------------------------------------------------------------ *)
(** * apply *)
Lemma combine_nth_error {A B} (l : list A) (r : list B) k a b :
  nth_error (combine l r) k = Some (a, b) -> nth_error l k = Some a /\ nth_error r k = Some b.
Proof.
  revert r k; induction l as [|x l IH]; intros r k H.
  - destruct k; discriminate.
  - destruct r as [|y r]; [destruct k; discriminate|].
    destruct k as [|k]; simpl in *; [inversion H; auto|apply IH; assumption].
Qed.
Lemma map_snd_firstn_skipn {A B} (l : list A) (r : list B) i n :
  length l = length r ->
  map snd (firstn n (skipn i (combine l r))) = firstn n (skipn i r).
Proof.
  intros H. rewrite <- firstn_map, <- skipn_map.
  f_equal. f_equal. revert r H. induction l as [|x l IH]; intros [|y r] H; simpl in *; try discriminate; [reflexivity|].
  f_equal. apply IH. lia.
Qed.
Lemma picked_range q bs row i j : length bs = length row ->
  (forall k b, nth_error bs k = Some b -> (touched q b = true <-> (i <= k < j)%nat)) ->
  picked q bs row = firstn (j - i) (skipn i row).
Proof.
  intros L H. unfold picked. rewrite (filter_range _ _ i j).
  - apply map_snd_firstn_skipn. assumption.
  - intros k [b x] Hk. apply combine_nth_error in Hk. cbn [fst]. apply H, Hk.
Qed.

(** one row of the basis, against the expression [row[band]] *)
Lemma basis_row_spec other w g q row :
  well_formed other -> proper q -> window_is w g -> length row = scale_len other ->
  exists r sl, basis_row other w q = Ok r /\ length r = scale_len other /\
    get_slice other (IBand q) = Ok sl /\
    dot r row = dot (g (length (apply_slice sl row))) (apply_slice sl row).
Proof.
  intros Ho Hq Hw Hl.
  destruct (well_formed_bands other Ho) as [bs [Hb [Hlen [Hord Hp]]]].
  destruct (get_slice_range other bs q Hb Hord) as [i [j [E [Li [Lj [Hij _]]]]]].
  specialize (Hij Hp Hq).
  unfold basis_row. unfold get_slice. rewrite E. cbn [bind].
  set (p := (i, if scale_even other && negb (Z.even (Z.of_nat j - Z.of_nat i)) then S j else j)) in *.
  assert (Fp : fst p = i) by reflexivity.
  destruct (Hw (slice_len (scale_len other) p)) as [Hg Hv]. rewrite Hv. cbn [bind].
  eexists; exists (nat_slice p). split; [reflexivity|]. split.
  { rewrite put_slice_length; rewrite ?repeat_length; [reflexivity|exact Hg|lia]. }
  split; [reflexivity|].
  rewrite (dot_put (scale_len other)); [|assumption|lia|exact Hg].
  assert (A : apply_slice (nat_slice p) row = firstn (snd p - fst p) (skipn (fst p) row))
    by (destruct p as [pi pj]; apply apply_nat_slice).
  rewrite A. f_equal. f_equal. rewrite firstn_length, skipn_length. unfold slice_len.
  rewrite Hl. lia.
Qed.

Lemma mapM_total {A B} (f : A -> result B) l :
  (forall x, In x l -> exists y, f x = Ok y) -> exists r, mapM f l = Ok r /\
    forall i x, nth_error l i = Some x -> exists y, nth_error r i = Some y /\ f x = Ok y.
Proof.
  induction l as [|x l IH]; intros H; simpl.
  - exists []. split; [reflexivity|]. intros [|i] x Hx; discriminate.
  - destruct (H x (or_introl eq_refl)) as [y Hy]. rewrite Hy. cbn [bind].
    destruct IH as [r [Hr Hn]]; [intros; apply H; right; assumption|]. rewrite Hr. cbn [bind].
    exists (y :: r). split; [reflexivity|].
    intros [|i] z Hz; simpl in *; [inversion Hz; subst; eauto|apply Hn; assumption].
Qed.

Lemma wf_base self : well_formed self -> forall other w, scale_basis self other w = base_basis self other w.
Proof. intros H other w. inversion H; reflexivity. Qed.

Lemma forallb_length (x : list (list R)) m :
  Forall (fun r => length r = m) x -> forallb (fun r => (length r =? m)%nat) x = true.
Proof. intros H. apply forallb_forall. intros r Hr. apply Nat.eqb_eq. rewrite Forall_forall in H. auto. Qed.

Lemma apply_spec self other w g x :
  well_formed self -> well_formed other -> window_is w g ->
  Forall (fun r => length r = scale_len other) x ->
  exists qs out, scale_bands self = Ok qs /\ length qs = scale_len self /\
    scale_apply self other w x = Ok out /\ length out = length x /\
    forall t row, nth_error x t = Some row ->
      exists orow, nth_error out t = Some orow /\ length orow = scale_len self /\
        forall i q, nth_error qs i = Some q ->
          exists sl, get_slice other (IBand q) = Ok sl /\
            nth_error orow i = Some (dot (g (length (apply_slice sl row))) (apply_slice sl row)).
Proof.
  intros Hs Ho Hw Hx.
  destruct (well_formed_bands self Hs) as [qs [Hb [Hlen [_ Hp]]]].
  unfold scale_apply. rewrite (wf_base self Hs). unfold base_basis. rewrite Hb. cbn [bind].
  rewrite Forall_forall in Hp.
  destruct (mapM_total (basis_row other w) qs) as [basis [EB NB]].
  { intros q Hq. destruct (basis_row_spec other w g q (repeat 0 (scale_len other)) Ho (Hp _ Hq) Hw (repeat_length _ _))
      as [r [sl [E _]]]. eauto. }
  rewrite EB. cbn [bind]. rewrite forallb_length by assumption.
  exists qs. eexists. split; [reflexivity|]. split; [assumption|]. split; [reflexivity|].
  split; [apply map_length|].
  intros t row Ht. eexists. split; [rewrite nth_error_map, Ht; reflexivity|]. split.
  { rewrite map_length, (mapM_length _ _ _ EB). assumption. }
  intros i q Hi. destruct (NB i q Hi) as [r [Hr Er]].
  assert (Lrow : length row = scale_len other).
  { rewrite Forall_forall in Hx. apply Hx. eapply nth_error_In; eassumption. }
  destruct (basis_row_spec other w g q row Ho (Hp _ (nth_error_In _ _ Hi)) Hw Lrow) as [r' [sl [E [_ [S D]]]]].
  rewrite Er in E. inversion E; subst r'.
  exists sl. split; [assumption|]. rewrite nth_error_map, Hr. cbn [option_map]. rewrite D. reflexivity.
Qed.

(** ... and which bins those are *)
Lemma apply_touched self other w g x :
  well_formed self -> well_formed other -> scale_even other = false -> window_is w g ->
  Forall (fun r => length r = scale_len other) x ->
  exists qs bs out, scale_bands self = Ok qs /\ scale_bands other = Ok bs /\
    scale_apply self other w x = Ok out /\
    forall t row i q, nth_error x t = Some row -> nth_error qs i = Some q ->
      exists orow, nth_error out t = Some orow /\
        nth_error orow i = Some (dot (g (length (picked q bs row))) (picked q bs row)).
Proof.
  intros Hs Ho He Hw Hx.
  destruct (apply_spec self other w g x Hs Ho Hw Hx) as [qs [out [Hq [_ [Ha [_ Hn]]]]]].
  destruct (well_formed_bands other Ho) as [bs [Hb [Hlen [Hord Hp]]]].
  exists qs, bs, out. repeat (split; [assumption|]).
  intros t row i q Ht Hi. destruct (Hn t row Ht) as [orow [E1 [_ E2]]].
  destruct (E2 i q Hi) as [sl [Hsl Hv]]. exists orow. split; [assumption|].
  destruct (get_slice_range other bs q Hb Hord) as [a [b [Eab [_ [_ [_ Hr]]]]]].
  unfold get_slice in Hsl. rewrite Eab, He in Hsl. cbn in Hsl. inversion Hsl; subst sl.
  assert (Lrow : length row = scale_len other).
  { rewrite Forall_forall in Hx. apply Hx. eapply nth_error_In; eassumption. }
  rewrite (picked_range q bs row a b) by (congruence || assumption).
  change (Some (Z.of_nat a), Some (Z.of_nat b)) with (nat_slice (a, b)) in Hv.
  rewrite apply_nat_slice in Hv. exact Hv.
Qed.

(** bins outside the band do not matter *)
Lemma apply_local self other w g x y :
  well_formed self -> well_formed other -> scale_even other = false -> window_is w g ->
  Forall (fun r => length r = scale_len other) x -> Forall (fun r => length r = scale_len other) y ->
  exists qs bs ox oy, scale_bands self = Ok qs /\ scale_bands other = Ok bs /\
    scale_apply self other w x = Ok ox /\ scale_apply self other w y = Ok oy /\
    forall t rx ry i q, nth_error x t = Some rx -> nth_error y t = Some ry -> nth_error qs i = Some q ->
      (forall k b, nth_error bs k = Some b -> touched q b = true -> nth_error rx k = nth_error ry k) ->
      exists ax ay, nth_error ox t = Some ax /\ nth_error oy t = Some ay /\ nth_error ax i = nth_error ay i.
Proof.
  intros Hs Ho He Hw Hx Hy.
  destruct (apply_touched self other w g x Hs Ho He Hw Hx) as [qs [bs [ox [Hq [Hb [Ax Nx]]]]]].
  destruct (apply_touched self other w g y Hs Ho He Hw Hy) as [qs' [bs' [oy [Hq' [Hb' [Ay Ny]]]]]].
  rewrite Hq in Hq'. inversion Hq'; subst qs'. rewrite Hb in Hb'. inversion Hb'; subst bs'.
  exists qs, bs, ox, oy. repeat (split; [assumption|]).
  intros t rx ry i q Hrx Hry Hi Hag.
  destruct (Nx t rx i q Hrx Hi) as [ax [A1 A2]]. destruct (Ny t ry i q Hry Hi) as [ay [B1 B2]].
  exists ax, ay. split; [assumption|]. split; [assumption|]. rewrite A2, B2.
  assert (Lx : length rx = scale_len other) by (rewrite Forall_forall in Hx; apply Hx; eapply nth_error_In; eassumption).
  assert (Ly : length ry = scale_len other) by (rewrite Forall_forall in Hy; apply Hy; eapply nth_error_In; eassumption).
  assert (P : picked q bs rx = picked q bs ry); [|rewrite P; reflexivity].
  unfold picked. assert (L : length rx = length ry) by congruence. clear - Hag L.
  revert rx ry Hag L. induction bs as [|b bs IH]; intros rx ry Hag L; [reflexivity|].
  destruct rx as [|u rx], ry as [|v ry]; simpl in L; try discriminate; [reflexivity|].
  assert (T : map snd (filter (fun p : band * R => touched q (fst p)) (combine bs rx))
            = map snd (filter (fun p : band * R => touched q (fst p)) (combine bs ry))).
  { apply IH; [|lia]. intros k b' Hk Ht. apply (Hag (S k) b' Hk Ht). }
  cbn [combine filter fst].
  destruct (touched q b) eqn:Eb; [|exact T]. cbn [map snd]. rewrite T. f_equal.
  specialize (Hag 0%nat b eq_refl Eb). simpl in Hag. congruence.
Qed.

(** * Window arguments *)
Lemma window_scalar r : window_is (WScalar r) (repeat r).
Proof. intros n. split; [apply repeat_length|reflexivity]. Qed.
Lemma window_identity : window_is WIdentity (repeat 1).
Proof. intros n. split; [apply repeat_length|reflexivity]. Qed.
Lemma window_func f g : (forall n, f n = Ok (g n) /\ length (g n) = n) -> window_is (WFunc f) g.
Proof.
  intros H n. destruct (H n) as [A B]. split; [assumption|]. unfold win_ones. rewrite A. cbn [bind].
  rewrite B, Nat.eqb_refl. reflexivity.
Qed.

(** the documented default of apply_scale *)
Lemma apply_scale_default_refuted self other x :
  well_formed self -> (1 <= scale_len self)%nat -> well_formed other ->
  apply_scale self other WNone x = Raise TypeError.
Proof.
  intros Hs H1 Ho. unfold apply_scale, scale_apply. rewrite (wf_base self Hs). unfold base_basis.
  destruct (well_formed_bands self Hs) as [qs [Hb [Hlen _]]]. rewrite Hb. cbn [bind].
  destruct qs as [|q qs]; [simpl in Hlen; lia|]. simpl.
  unfold basis_row. destruct (well_formed_bands other Ho) as [bs [Hbo [_ [Hord _]]]].
  destruct (get_slice_range other bs q Hbo Hord) as [i [j [E _]]]. rewrite E. reflexivity.
Qed.

(** only the real part counts *)
Lemma apply_scale_real_part self other w x y :
  map (map (fun z : R * R => Rabs (fst z))) x = map (map (fun z => Rabs (fst z))) y ->
  apply_scale self other w x = apply_scale self other w y.
Proof. intros H. unfold apply_scale. rewrite H. reflexivity. Qed.

Lemma dot_zero_r v n : dot v (repeat 0 n) = 0.
Proof.
  revert v; induction n as [|n IH]; intros v; simpl; [apply dot_nil_r|].
  destruct v as [|a v]; [reflexivity|]. rewrite dot_cons, IH. lra.
Qed.
Lemma Forall_map_len (f : R * R -> R) x m :
  Forall (fun r => length r = m) x -> Forall (fun r => length r = m) (map (map f) x).
Proof. intros H. induction H; simpl; constructor; [rewrite map_length; assumption|assumption]. Qed.
Lemma imaginary_is_silent self other w g x :
  well_formed self -> well_formed other -> window_is w g ->
  Forall (fun r => length r = scale_len other) x ->
  Forall (Forall (fun z => fst z = 0)) x ->
  apply_scale self other w x = Ok (map (fun _ => repeat 0 (scale_len self)) x).
Proof.
  intros Hs Ho Hw Hl Hz. unfold apply_scale.
  destruct (apply_spec self other w g (map (map (fun z : R * R => Rabs (fst z))) x) Hs Ho Hw
              (Forall_map_len _ _ _ Hl)) as [qs [out [Hq [Lq [Ha [Lo Hn]]]]]].
  rewrite Ha. f_equal. apply nth_error_ext. intros t.
  rewrite nth_error_map. destruct (nth_error x t) as [row|] eqn:Et.
  2:{ apply nth_error_None in Et. cbn. apply nth_error_None. rewrite Lo, map_length. assumption. }
  cbn [option_map].
  specialize (Hn t (map (fun z : R * R => Rabs (fst z)) row)).
  rewrite nth_error_map, Et in Hn. destruct (Hn eq_refl) as [orow [E1 [E2 E3]]]. rewrite E1. f_equal.
  apply nth_error_ext. intros i.
  assert (Z : map (fun z : R * R => Rabs (fst z)) row = repeat 0 (length row)).
  { assert (Hrow : Forall (fun z : R * R => fst z = 0) row)
      by (rewrite Forall_forall in Hz; apply Hz; eapply nth_error_In; eassumption).
    clear - Hrow. induction Hrow as [|z r Hz0 _ IH]; [reflexivity|]. cbn [map length repeat].
    rewrite Hz0, Rabs_R0, IH. reflexivity. }
  destruct (Nat.lt_ge_cases i (scale_len self)) as [Hi|Hi].
  - destruct (nth_error qs i) as [q|] eqn:Eq; [|apply nth_error_None in Eq; lia].
    destruct (E3 i q Eq) as [sl [Hsl Hv]]. rewrite Hv. rewrite nth_error_repeat by assumption. f_equal.
    unfold get_slice in Hsl. destruct (get_slice_band other q) as [[a b]|] eqn:Eg; [|discriminate].
    cbn [bind] in Hsl. inversion Hsl; subst sl. rewrite apply_nat_slice, Z, skipn_repeat, firstn_repeat.
    apply dot_zero_r.
  - rewrite (proj2 (nth_error_None orow i)) by lia. symmetry. apply nth_error_None. rewrite repeat_length. lia.
Qed.

(* ------------------------------------------------------------------ *)
(** * A linear scale applied to itself *)
Lemma lin_touched fb n i k : proper fb -> (i < n)%nat -> (k < n)%nat ->
  touched (lin_band fb n i) (lin_band fb n k) = true <-> (i - 1 <= k < i + 1)%nat.
Proof.
  intros Hp Hi Hk. unfold touched. rewrite andb_true_iff, Rltb_true, Rleb_true.
  unfold lin_band; cbn [bstart bstop]. unfold proper in Hp.
  assert (Hn : 0 < INR n) by (apply lt_0_INR; lia).
  pose proof (lin_width_pos fb n Hp ltac:(lia)) as Hd. set (d := lin_width fb n) in *. clearbody d.
  rewrite !plus_INR. change (INR 1) with 1.
  split.
  - intros [A B].
    assert (INR k < INR i + 1) by (apply (Rmult_lt_reg_r d); lra).
    assert (INR i <= INR k + 1) by (apply (Rmult_le_reg_r d); lra).
    assert (INR k < INR (i + 1)) by (rewrite plus_INR; simpl; lra).
    assert (INR i <= INR (k + 1)) by (rewrite plus_INR; simpl; lra).
    apply INR_lt in H1. apply INR_le in H2. lia.
  - intros [A B].
    assert (INR k <= INR i) by (apply le_INR; lia).
    assert (INR i <= INR (k + 1)) by (apply le_INR; lia). rewrite plus_INR in H0. simpl in H0.
    split; [apply Rplus_lt_compat_l, Rmult_lt_compat_r; lra|apply Rplus_le_compat_l, Rmult_le_compat_r; lra].
Qed.
Lemma self_picked fb n i row : proper fb -> (i < n)%nat -> length row = n ->
  picked (lin_band fb n i) (map (lin_band fb n) (seq 0 n)) row
  = match i with O => [nth 0 row 0] | S j => [nth j row 0; nth i row 0] end.
Proof.
  intros Hp Hi Hl. rewrite (picked_range _ _ _ (i - 1) (i + 1)).
  - destruct i as [|j].
    + destruct row as [|a row]; [simpl in Hl; lia|]. reflexivity.
    + replace (S j + 1 - (S j - 1))%nat with 2%nat by lia. replace (S j - 1)%nat with j by lia.
      assert (L : (S j < length row)%nat) by lia. clear - L.
      revert j L. induction row as [|a row IH]; intros j L; [simpl in L; lia|].
      destruct j as [|j].
      * destruct row as [|b row]; [simpl in L; lia|]. reflexivity.
      * simpl in L. cbn [skipn]. rewrite IH by lia. reflexivity.
  - rewrite map_length, seq_length. congruence.
  - intros k b Hk. rewrite nth_error_map_seq in Hk. destruct (Nat.ltb_spec k n); [|discriminate].
    inversion Hk; subst b. apply lin_touched; assumption.
Qed.
(** every frame comes back as sums of neighbours, not as itself *)
Lemma self_apply_identity_window fb n x :
  proper fb -> (2 <= n)%nat -> Forall (fun r => length r = n) x ->
  exists out, scale_apply (Linear fb n false) (Linear fb n false) WIdentity x = Ok out /\
    forall t row i, nth_error x t = Some row -> (i < n)%nat ->
      exists orow, nth_error out t = Some orow /\
        nth_error orow i = Some (match i with O => nth 0 row 0 | S j => nth j row 0 + nth i row 0 end).
Proof.
  intros Hp Hn Hx. assert (W : well_formed (Linear fb n false)) by (constructor; assumption).
  destruct (apply_touched (Linear fb n false) (Linear fb n false) WIdentity (repeat 1) x W W eq_refl window_identity Hx)
    as [qs [bs [out [Hq [Hb [Ha Hv]]]]]].
  rewrite Hb in Hq. inversion Hq; subst qs. clear Hq.
  cbn [scale_bands] in Hb. rewrite linear_bands_ok in Hb by assumption. inversion Hb; subst bs.
  exists out. split; [assumption|]. intros t row i Ht Hi.
  assert (L : length row = n) by (rewrite Forall_forall in Hx; apply Hx; eapply nth_error_In; eassumption).
  destruct (Hv t row i (lin_band fb n i) Ht) as [orow [E1 E2]].
  { rewrite nth_error_map_seq. destruct (Nat.ltb_spec i n); [reflexivity|lia]. }
  exists orow. split; [assumption|]. rewrite E2. rewrite self_picked by assumption.
  destruct i as [|j]; cbn [length repeat]; rewrite ?dot_cons, dot_nil_l; f_equal; lra.
Qed.
Lemma hanning_1 : hanning 1 = [1]. Proof. reflexivity. Qed.
Lemma hanning_2 : hanning 2 = [0; 0].
Proof.
  unfold hanning. cbn [Nat.eqb seq map Nat.sub]. simpl INR.
  replace (2 * PI * 0 / 1) with 0 by lra. replace (2 * PI * 1 / 1) with (2 * PI) by lra.
  rewrite cos_0, cos_2PI. f_equal; [lra|]. f_equal. lra.
Qed.
Lemma hanning_length n : length (hanning n) = n.
Proof. unfold hanning. destruct (Nat.eqb_spec n 1); [subst; reflexivity|]. rewrite map_length, seq_length. reflexivity. Qed.
(** with the Hann window nothing but the first bin survives *)
Lemma self_apply_hanning fb n x :
  proper fb -> (2 <= n)%nat -> Forall (fun r => length r = n) x ->
  exists out, scale_apply (Linear fb n false) (Linear fb n false) (WFunc (fun k => Ok (hanning k))) x = Ok out /\
    forall t row i, nth_error x t = Some row -> (i < n)%nat ->
      exists orow, nth_error out t = Some orow /\
        nth_error orow i = Some (match i with O => nth 0 row 0 | S _ => 0 end).
Proof.
  intros Hp Hn Hx. assert (W : well_formed (Linear fb n false)) by (constructor; assumption).
  assert (WI : window_is (WFunc (fun k => Ok (hanning k))) hanning).
  { apply window_func. intros k. split; [reflexivity|apply hanning_length]. }
  destruct (apply_touched (Linear fb n false) (Linear fb n false) _ hanning x W W eq_refl WI Hx)
    as [qs [bs [out [Hq [Hb [Ha Hv]]]]]].
  rewrite Hb in Hq. inversion Hq; subst qs. clear Hq.
  cbn [scale_bands] in Hb. rewrite linear_bands_ok in Hb by assumption. inversion Hb; subst bs.
  exists out. split; [assumption|]. intros t row i Ht Hi.
  assert (L : length row = n) by (rewrite Forall_forall in Hx; apply Hx; eapply nth_error_In; eassumption).
  destruct (Hv t row i (lin_band fb n i) Ht) as [orow [E1 E2]].
  { rewrite nth_error_map_seq. destruct (Nat.ltb_spec i n); [reflexivity|lia]. }
  exists orow. split; [assumption|]. rewrite E2. rewrite self_picked by assumption.
  destruct i as [|j]; cbn [length]; rewrite ?hanning_1, ?hanning_2, ?dot_cons, dot_nil_l; f_equal; lra.
Qed.
Lemma self_apply_refuted :
  exists fb n row, proper fb /\ (2 <= n)%nat /\ length row = n /\ Forall (fun v => 0 < v) row /\
    scale_apply (Linear fb n false) (Linear fb n false) (WFunc (fun k => Ok (hanning k))) [row] <> Ok [row] /\
    scale_apply (Linear fb n false) (Linear fb n false) WIdentity [row] <> Ok [row].
Proof.
  exists (mkBand 0 4), 4%nat, [1; 1; 1; 1]. assert (P : proper (mkBand 0 4)) by (unfold proper; simpl; lra).
  split; [assumption|]. split; [lia|]. split; [reflexivity|]. split; [repeat constructor; lra|].
  assert (F : Forall (fun r => length r = 4%nat) [[1; 1; 1; 1]]) by (repeat constructor).
  split; intros E.
  - destruct (self_apply_hanning _ 4 _ P ltac:(lia) F) as [out [A B]]. rewrite A in E. inversion E; subst out.
    destruct (B 0%nat _ 1%nat eq_refl ltac:(lia)) as [o [C D]]. inversion C; subst o. inversion D. lra.
  - destruct (self_apply_identity_window _ 4 _ P ltac:(lia) F) as [out [A B]]. rewrite A in E. inversion E; subst out.
    destruct (B 0%nat _ 1%nat eq_refl ltac:(lia)) as [o [C D]]. inversion C; subst o. inversion D. lra.
Qed.

(** bark bands of a linear spectrogram meet the hypotheses of the theorems above *)
Example apply_example : well_formed (BarkS (mkBand 20 5000) 24) /\ well_formed (Linear (mkBand 0 22050) 100 false) /\
  window_is (WFunc (fun n => Ok (hanning n))) hanning /\
  Forall (fun r => length r = scale_len (Linear (mkBand 0 22050) 100 false)) [repeat 1 100; repeat 2 100].
Proof.
  destruct well_formed_example as [A [_ [B _]]]. split; [assumption|]. split; [assumption|]. split.
  - apply window_func. intros n. split; [reflexivity|]. unfold hanning.
    destruct (n =? 1)%nat eqn:E; [apply Nat.eqb_eq in E; subst; reflexivity|]. rewrite map_length, seq_length. reflexivity.
  - repeat constructor; rewrite repeat_length; reflexivity.
Qed.

(** a window function that gives a single value is a number; one of any other size is refused *)
Lemma window_single f r : (forall n, f n = Ok [r]) -> window_is (WFunc f) (repeat r).
Proof.
  intros H n. split; [apply repeat_length|]. unfold win_ones. rewrite H. cbn [bind length]. destruct (Nat.eqb_spec 1 n) as [<-|]; reflexivity.
Qed.
Lemma window_misfit f n v : f n = Ok v -> length v <> n -> length v <> 1%nat -> win_ones (WFunc f) n = Raise ValueError.
Proof.
  intros E N1 N2. unfold win_ones. rewrite E. cbn [bind]. destruct (Nat.eqb_spec (length v) n); [contradiction|]. destruct v as [|a [|b v]]; [reflexivity|contradiction|reflexivity].
Qed.
(** the BarkBands node: what the Bark scale picks of the magnitudes *)
Lemma bark_bands_spec fb n other w g x :
  well_formed (BarkS fb n) -> well_formed other -> scale_even other = false -> window_is w g ->
  Forall (fun r => length r = scale_len other) x ->
  exists qs bs out, bark_bands fb n = Ok qs /\ scale_bands other = Ok bs /\
    bark_bands_node fb n w other x = Ok out /\
    forall t row i q, nth_error x t = Some row -> nth_error qs i = Some q ->
      exists orow, nth_error out t = Some orow /\
        let mags := picked q bs (map (fun z => sqrt (fst z * fst z + snd z * snd z)) row) in
        nth_error orow i = Some (dot (g (length mags)) mags).
Proof.
  intros Hs Ho He Hw Hx. destruct (apply_touched (BarkS fb n) other w g (map (map cabs) x) Hs Ho He Hw) as (qs & bs & out & E1 & E2 & E3 & H).
  { apply Forall_map. apply Forall_impl with (2 := Hx). intros r. now rewrite map_length. }
  exists qs, bs, out. split; [exact E1|]. split; [exact E2|]. split; [exact E3|]. intros t row i q Ht Hi.
  exact (H t (map cabs row) i q (map_nth_error _ _ _ Ht) Hi).
Qed.
