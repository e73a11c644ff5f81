(** Specification and proofs for FreqDim.v. *)
From Verif Require Import PyBase PyFacts PyMore Freq FreqProofs FreqScaleProofs FreqDim.
Local Open Scope R_scope.

(** every row has [cols] entries *)
Definition shaped {A} (x : arr2 A) : Prop := Forall (fun r => length r = cols x) (rows x).

(** the first column of band k: the widths of the bands before it, summed *)
Definition offset (widths : list nat) (k : nat) : nat := fold_right Nat.add 0%nat (firstn k widths).

Lemma offset_S ws k w : nth_error ws k = Some w -> offset ws (S k) = (offset ws k + w)%nat.
Proof.
  revert k; induction ws as [|x ws IH]; intros k H; [destruct k; discriminate|].
  destruct k as [|k]; simpl in H.
  - inversion H; subst. unfold offset; simpl. lia.
  - specialize (IH k H). unfold offset in *. change (firstn (S (S k)) (x :: ws)) with (x :: firstn (S k) ws).
    change (firstn (S k) (x :: ws)) with (x :: firstn k ws).
    cbn [fold_right]. lia.
Qed.

Lemma cumsum_length acc l : length (cumsum acc l) = length l.
Proof. revert acc; induction l; intros; simpl; [reflexivity|]. f_equal. apply IHl. Qed.
Lemma fa_slices_length ws : length (fa_slices ws) = length ws.
Proof.
  unfold fa_slices. rewrite combine_length. simpl length. rewrite cumsum_length. lia.
Qed.
Lemma cumsum_combine acc ws k w : nth_error ws k = Some w ->
  nth_error (combine (acc :: cumsum acc ws) (cumsum acc ws)) k
  = Some (acc + offset ws k, acc + offset ws k + w)%nat.
Proof.
  revert acc k; induction ws as [|x ws IH]; intros acc k H; [destruct k; discriminate|].
  destruct k as [|k]; simpl in H.
  - inversion H; subst. unfold offset. simpl. do 2 f_equal; lia.
  - transitivity (nth_error (combine ((acc + x)%nat :: cumsum (acc + x) ws) (cumsum (acc + x) ws)) k); [reflexivity|].
    rewrite (IH (acc + x)%nat k H).
    unfold offset. cbn [firstn fold_right]. f_equal. f_equal; lia.
Qed.
Lemma fa_slices_nth ws k w : nth_error ws k = Some w ->
  nth_error (fa_slices ws) k = Some (offset ws k, offset ws k + w)%nat.
Proof. intros H. unfold fa_slices. rewrite (cumsum_combine 0 ws k w H). reflexivity. Qed.

Lemma assoc_last_nodup {V} keys (vals : list V) k q v :
  NoDup keys -> nth_error keys k = Some q -> nth_error vals k = Some v ->
  assoc_last keys vals q = Some v.
Proof.
  revert vals k; induction keys as [|x keys IH]; intros vals k Hn Hq Hv; [destruct k; discriminate|].
  inversion Hn as [|? ? Hx Hn']; subst. destruct vals as [|y vals]; [destruct k; discriminate|].
  destruct k as [|k]; simpl in Hq, Hv.
  - inversion Hq; inversion Hv; subst. simpl.
    assert (assoc_last keys vals q = None).
    { clear -Hx. revert vals; induction keys as [|z keys IH]; intros vals; [reflexivity|].
      destruct vals; [reflexivity|]. simpl. rewrite IH by (intros K; apply Hx; right; exact K).
      destruct (band_eqb z q) eqn:E; [|reflexivity]. apply band_eqb_eq in E. subst. exfalso. apply Hx. left. reflexivity. }
    rewrite H, band_eqb_refl. reflexivity.
  - simpl. rewrite (IH vals k Hn' Hq Hv). reflexivity.
Qed.
Lemma assoc_last_none {V} keys (vals : list V) q : ~ In q keys -> assoc_last keys vals q = None.
Proof.
  revert vals; induction keys as [|z keys IH]; intros vals H; [reflexivity|].
  destruct vals; [reflexivity|]. simpl. rewrite IH by (intros K; apply H; right; exact K).
  destruct (band_eqb z q) eqn:E; [|reflexivity]. apply band_eqb_eq in E. subst. exfalso. apply H. left. reflexivity.
Qed.

(** hcat *)
Lemma hcat_length {A} (x y : list (list A)) : length x = length y -> length (hcat x y) = length x.
Proof. revert y; induction x; intros [|? ?] H; simpl in *; try lia. f_equal. apply IHx. lia. Qed.

Lemma hcat_left {A} (x y : list (list A)) c :
  length x = length y -> Forall (fun r => length r = c) x ->
  map (fun r => firstn c (skipn 0 r)) (hcat x y) = x.
Proof.
  revert y; induction x as [|r x IH]; intros [|s y] H Hx; simpl in *; try lia; [reflexivity|].
  inversion Hx; subst. f_equal.
  - rewrite firstn_app, Nat.sub_diag, firstn_all. simpl. apply app_nil_r.
  - apply IH; [lia|assumption].
Qed.
Lemma hcat_right {A} (x y : list (list A)) c n i :
  length x = length y -> Forall (fun r => length r = c) x ->
  map (fun r => firstn n (skipn (c + i) r)) (hcat x y) = map (fun r => firstn n (skipn i r)) y.
Proof.
  revert y; induction x as [|r x IH]; intros [|s y] H Hx; simpl in *; try lia; [reflexivity|].
  inversion Hx; subst. f_equal.
  - rewrite skipn_app, skipn_all2 by lia. simpl. replace (length r + i - length r)%nat with i by lia. reflexivity.
  - apply IH; [lia|assumption].
Qed.

(** joining arrays of equal height succeeds, keeps the height and adds widths *)
Lemma hconcat_ok {A} (arrs : list (arr2 A)) h :
  arrs <> [] -> Forall (fun x => length (rows x) = h /\ shaped x) arrs ->
  exists w, hconcat arrs = Ok w /\ length (rows w) = h /\ cols w = fold_right Nat.add 0%nat (map cols arrs) /\ shaped w.
Proof.
  intros Hne Hf. induction arrs as [|x arrs IH]; [contradiction|].
  inversion Hf as [|? ? [Hh Hs] Hf']; subst. destruct arrs as [|y arrs].
  - exists x. simpl. repeat split; try assumption; try lia.
  - destruct (IH ltac:(discriminate) Hf') as [w [E [L [C S]]]].
    change (hconcat (x :: y :: arrs)) with
      (do z <- hconcat (y :: arrs);
       if (length (rows x) =? length (rows z))%nat then Ok (mkArr (cols x + cols z)%nat (hcat (rows x) (rows z))) else Raise ValueError).
    rewrite E. cbn [bind]. rewrite L, Nat.eqb_refl. eexists; split; [reflexivity|]. cbn [rows cols].
    split; [rewrite hcat_length; congruence|]. split; [rewrite C; reflexivity|].
    unfold shaped in *. cbn [rows cols]. clear E C.
    revert S Hs L. generalize (rows x) as u, (rows w) as v.
    induction u as [|r u IHu]; intros [|s v] S Hs L; simpl in *; try lia; constructor.
    + inversion S; inversion Hs; subst. rewrite app_length. lia.
    + inversion S; inversion Hs; subst. apply IHu; [assumption|assumption|lia].
Qed.

(** cutting the columns of array k out of the joined array gives array k *)
Lemma hconcat_cut {A} (arrs : list (arr2 A)) h w k x :
  Forall (fun x => length (rows x) = h /\ shaped x) arrs ->
  hconcat arrs = Ok w -> nth_error arrs k = Some x ->
  map (fun r => firstn (cols x) (skipn (offset (map cols arrs) k) r)) (rows w) = rows x /\
  (offset (map cols arrs) k + cols x <= cols w)%nat.
Proof.
  intros Hf. revert w k. induction arrs as [|a arrs IH]; intros w k Hw Hk; [destruct k; discriminate|].
  inversion Hf as [|? ? [Hh Hs] Hf']; subst.
  destruct arrs as [|b arrs].
  - destruct k as [|k]; [|destruct k; discriminate]. simpl in Hk. inversion Hk; subst.
    simpl in Hw. inversion Hw; subst. unfold offset; simpl. split; [|lia].
    unfold shaped in Hs. rewrite <- (map_id (rows w)) at 2. apply map_ext_in. intros r Hr.
    apply firstn_all2. rewrite Forall_forall in Hs. rewrite (Hs r Hr). lia.
  - destruct (hconcat_ok (b :: arrs) (length (rows a)) ltac:(discriminate) Hf') as [z [E [L [C SZ]]]].
    change (hconcat (a :: b :: arrs)) with
      (do z <- hconcat (b :: arrs);
       if (length (rows a) =? length (rows z))%nat then Ok (mkArr (cols a + cols z)%nat (hcat (rows a) (rows z))) else Raise ValueError) in Hw.
    rewrite E in Hw. cbn [bind] in Hw. rewrite L, Nat.eqb_refl in Hw. inversion Hw; subst w. clear Hw. cbn [rows cols].
    destruct k as [|k].
    + simpl in Hk. inversion Hk; subst. split; [|unfold offset; simpl; lia].
      apply hcat_left; [congruence|exact Hs].
    + simpl in Hk. destruct (IH Hf' z k E Hk) as [IH1 IH2].
      replace (offset (map cols (a :: b :: arrs)) (S k)) with (cols a + offset (map cols (b :: arrs)) k)%nat by reflexivity.
      split; [|lia]. rewrite hcat_right; [exact IH1|congruence|exact Hs].
Qed.

(* ------------------------------------------------------------------ *)
(** * C28 *)
(** hypotheses of a FrequencyAdaptive: arrays of the same height, one per band,
    and pairwise different bands *)
Definition fa_input {A} (arrs : list (arr2 A)) (s : scale) (bs : list band) (h : nat) : Prop :=
  scale_bands s = Ok bs /\ scale_len s = length bs /\ NoDup bs /\ length arrs = length bs /\ arrs <> [] /\
  Forall (fun x => length (rows x) = h /\ shaped x) arrs.

Lemma fa_new_ok {A} (arrs : list (arr2 A)) s bs h :
  fa_input arrs s bs h ->
  exists w, fa_new arrs s = Ok (w, mkEfd bs s (fa_slices (map cols arrs))) /\
    hconcat arrs = Ok w /\
    length (rows w) = h /\ cols w = fold_right Nat.add 0%nat (map cols arrs) /\ shaped w.
Proof.
  intros [Hb [Hl [Hn [Ha [Hne Hf]]]]].
  destruct (hconcat_ok arrs h Hne Hf) as [w [E [L [C S]]]].
  exists w. unfold fa_new, make_efd. rewrite Hl, fa_slices_length, map_length, Ha, Nat.eqb_refl, Hb.
  cbn [bind]. rewrite E. cbn [bind]. auto.
Qed.

Lemma fa_lookup {A} (arrs : list (arr2 A)) s bs h k q x :
  fa_input arrs s bs h -> nth_error bs k = Some q -> nth_error arrs k = Some x ->
  efd_lookup (mkEfd bs s (fa_slices (map cols arrs))) q
  = Some (offset (map cols arrs) k, offset (map cols arrs) k + cols x)%nat.
Proof.
  intros [_ [_ [Hn _]]] Hq Hx. unfold efd_lookup; simpl.
  eapply assoc_last_nodup; [exact Hn|exact Hq|]. apply fa_slices_nth. rewrite nth_error_map, Hx. reflexivity.
Qed.

Lemma col_slice_cut {A} (arrs : list (arr2 A)) h w k x :
  Forall (fun x => length (rows x) = h /\ shaped x) arrs ->
  hconcat arrs = Ok w -> nth_error arrs k = Some x ->
  col_slice (offset (map cols arrs) k, offset (map cols arrs) k + cols x)%nat w = x.
Proof.
  intros Hf Hw Hx. destruct (hconcat_cut arrs h w k x Hf Hw Hx) as [E1 E2].
  unfold col_slice; cbn [fst snd]. replace (offset (map cols arrs) k + cols x - offset (map cols arrs) k)%nat with (cols x) by lia.
  rewrite E1. destruct x as [c r]; cbn [cols rows] in *. f_equal. lia.
Qed.

(** slicing a FrequencyAdaptive by its k-th band gives back the k-th array *)
Lemma fa_band {A} (arrs : list (arr2 A)) s bs h fa k q x :
  fa_input arrs s bs h -> Forall proper bs -> fa_new arrs s = Ok fa ->
  nth_error bs k = Some q -> nth_error arrs k = Some x ->
  exists d, fa_get fa q = Ok (x, d).
Proof.
  intros Hi Hp Hfa Hq Hx. pose proof (fa_new_ok arrs s bs h Hi) as [w [E [Hw _]]].
  rewrite E in Hfa. inversion Hfa; subst fa. unfold fa_get, efd_integer_slice, efd_metaslice_band. cbn [snd fst].
  rewrite (fa_lookup arrs s bs h k q x Hi Hq Hx). cbn [bind].
  assert (Pq : proper q) by (eapply Forall_forall; [exact Hp|]; eapply nth_error_In; exact Hq).
  unfold make_explicit, span_band. cbn [last]. rewrite make_band_ok by exact Pq. cbn [bind].
  unfold make_efd. cbn [scale_len length Nat.eqb scale_bands bind].
  destruct Hi as [_ [_ [_ [_ [_ Hf]]]]].
  rewrite (col_slice_cut arrs h w k x Hf Hw Hx). eexists; reflexivity.
Qed.

Lemma fa_iter_bands {A} (arrs : list (arr2 A)) s bs h fa :
  fa_input arrs s bs h -> Forall proper bs -> fa_new arrs s = Ok fa -> iter_bands fa = Ok arrs.
Proof.
  intros Hi Hp Hfa. pose proof (fa_new_ok arrs s bs h Hi) as [w [E _]].
  assert (Eb : ebands (snd fa) = bs) by (rewrite E in Hfa; inversion Hfa; reflexivity).
  unfold iter_bands. rewrite Eb.
  assert (G : forall ks xs, (forall k q x, nth_error ks k = Some q -> nth_error xs k = Some x ->
       exists d, fa_get fa q = Ok (x, d)) -> length xs = length ks ->
       mapM (fun q => do r <- fa_get fa q; Ok (fst r)) ks = Ok xs).
  { clear. induction ks as [|q ks IH]; intros xs H L; destruct xs as [|x xs]; try discriminate; [reflexivity|].
    simpl. destruct (H 0%nat q x eq_refl eq_refl) as [d Hd]. rewrite Hd. simpl.
    rewrite (IH xs); [reflexivity| |simpl in L; lia]. intros k q' x' H1 H2. apply (H (S k) q' x' H1 H2). }
  apply G.
  - intros k q x Hq Hx. eapply fa_band; eassumption.
  - destruct Hi as [_ [_ [_ [Ha _]]]]. exact Ha.
Qed.

Lemma fa_roundtrip {A} (arrs : list (arr2 A)) s bs h fa :
  fa_input arrs s bs h -> Forall proper bs -> fa_new arrs s = Ok fa -> from_array_with_units fa = Ok fa.
Proof.
  intros Hi Hp Hfa. unfold from_array_with_units. rewrite (fa_iter_bands arrs s bs h fa Hi Hp Hfa). cbn [bind].
  pose proof (fa_new_ok arrs s bs h Hi) as [w [E _]].
  assert (Es : escale (snd fa) = s) by (rewrite E in Hfa; inversion Hfa; reflexivity).
  rewrite Es. exact Hfa.
Qed.

(** the column ranges are adjacent and cover [0, total) *)
Lemma fa_partition (ws : list nat) :
  length (fa_slices ws) = length ws /\
  (forall k w, nth_error ws k = Some w -> exists a, nth_error (fa_slices ws) k = Some (a, a + w)%nat) /\
  (forall k p q, nth_error (fa_slices ws) k = Some p -> nth_error (fa_slices ws) (S k) = Some q -> snd p = fst q) /\
  (forall p, nth_error (fa_slices ws) 0 = Some p -> fst p = 0%nat) /\
  (forall p, nth_error (fa_slices ws) (length ws - 1) = Some p -> snd p = fold_right Nat.add 0%nat ws) /\
  (forall c, (c < fold_right Nat.add 0 ws)%nat ->
     exists k p, nth_error (fa_slices ws) k = Some p /\ (fst p <= c < snd p)%nat /\
     forall k' p', nth_error (fa_slices ws) k' = Some p' -> (fst p' <= c < snd p')%nat -> k' = k).
Proof.
  assert (N : forall k p, nth_error (fa_slices ws) k = Some p -> exists w, nth_error ws k = Some w /\ p = (offset ws k, offset ws k + w)%nat).
  { intros k p Hp. assert (k < length ws)%nat.
    { rewrite <- fa_slices_length. apply nth_error_Some. congruence. }
    destruct (nth_error ws k) as [w|] eqn:E; [|apply nth_error_None in E; lia].
    exists w. split; [reflexivity|]. rewrite (fa_slices_nth ws k w E) in Hp. congruence. }
  assert (T : offset ws (length ws) = fold_right Nat.add 0%nat ws) by (unfold offset; rewrite firstn_all; reflexivity).
  assert (M : forall a b, (a <= b)%nat -> (b <= length ws)%nat -> (offset ws a <= offset ws b)%nat).
  { intros a b Hab Hb. induction b as [|b IH]; [replace a with 0%nat by lia; lia|].
    destruct (Nat.eq_dec a (S b)) as [->|Hne]; [lia|].
    destruct (nth_error ws b) as [w|] eqn:E; [|apply nth_error_None in E; lia].
    rewrite (offset_S ws b w E). specialize (IH ltac:(lia) ltac:(lia)). lia. }
  split; [apply fa_slices_length|]. split.
  { intros k w H. exists (offset ws k). apply fa_slices_nth, H. }
  split.
  { intros k p q Hp Hq. destruct (N _ _ Hp) as [w [Ew ->]]. destruct (N _ _ Hq) as [v [Ev ->]].
    cbn [fst snd]. rewrite (offset_S ws k w Ew). reflexivity. }
  split.
  { intros p Hp. destruct (N _ _ Hp) as [w [Ew ->]]. reflexivity. }
  split.
  { intros p Hp. destruct (N _ _ Hp) as [w [Ew ->]]. cbn [snd]. rewrite <- (offset_S ws _ w Ew).
    assert (length ws - 1 < length ws)%nat by (apply nth_error_Some; congruence).
    replace (S (length ws - 1)) with (length ws) by lia. exact T. }
  { intros c Hc.
    assert (X : exists k w, nth_error ws k = Some w /\ (offset ws k <= c < offset ws k + w)%nat).
    { rewrite <- T in Hc. revert Hc. assert (LE : (length ws <= length ws)%nat) by lia. revert LE.
      generalize (length ws) at 1 3 as m. induction m as [|m IH]; intros LE Hc; [unfold offset in Hc; simpl in Hc; lia|].
      destruct (nth_error ws m) as [w|] eqn:E; [|apply nth_error_None in E; lia].
      destruct (Nat.lt_ge_cases c (offset ws m)) as [G|G]; [apply IH; [lia|exact G]|].
      exists m, w. split; [exact E|]. rewrite (offset_S ws m w E) in Hc. lia. }
    destruct X as [k [w [Ek Hk]]]. exists k, (offset ws k, offset ws k + w)%nat.
    split; [apply fa_slices_nth, Ek|]. split; [exact Hk|].
    intros k' p' Hp' Hc'. destruct (N _ _ Hp') as [w' [Ew' ->]]. cbn [fst snd] in Hc'.
    rewrite <- (offset_S ws k' w' Ew') in Hc'. rewrite <- (offset_S ws k w Ek) in Hk.
    assert (k' < length ws)%nat by (apply nth_error_Some; congruence).
    assert (k < length ws)%nat by (apply nth_error_Some; congruence).
    destruct (Nat.lt_trichotomy k' k) as [G|[G|G]]; [|exact G|].
    - pose proof (M (S k') k ltac:(lia) ltac:(lia)). lia.
    - pose proof (M (S k) k' ltac:(lia) ltac:(lia)). lia. }
Qed.

(** one array per band is required *)
Lemma fa_count_mismatch {A} (arrs : list (arr2 A)) s :
  length arrs <> scale_len s -> fa_new arrs s = Raise ValueError.
Proof.
  intros H. unfold fa_new, make_efd. rewrite fa_slices_length, map_length.
  destruct (Nat.eqb_spec (scale_len s) (length arrs)); [congruence|]. reflexivity.
Qed.

(** a concrete non-trivial input *)
Definition demo_bands := [mkBand 0 100; mkBand 100 200].
Definition demo_arrs : list (arr2 nat) := [mkArr 2 [[1;2];[3;4]]; mkArr 3 [[5;6;7];[8;9;10]]]%nat.
Lemma demo_ordered : ordered demo_bands.
Proof.
  intros i j a b Hij Ha Hb.
  destruct i as [|[|i]]; destruct j as [|[|j]]; simpl in *; try lia;
    try (destruct i; discriminate); try (destruct j; discriminate);
    inversion Ha; inversion Hb; subst; simpl; lra.
Qed.
Lemma demo_proper : Forall proper demo_bands.
Proof. repeat constructor; unfold proper; simpl; lra. Qed.
Example demo_input : fa_input demo_arrs (Explicit demo_bands) demo_bands 2.
Proof.
  split; [reflexivity|]. split; [reflexivity|]. split.
  { constructor; [|constructor; [simpl; tauto|constructor]]. simpl. intros [K|[]].
    injection K. lra. }
  split; [reflexivity|]. split; [discriminate|].
  repeat constructor.
Qed.

(** with a repeated band both bands read the last array *)
Lemma fa_duplicate_bands_refuted :
  exists (arrs : list (arr2 nat)) bs fa,
    fa_new arrs (Explicit bs) = Ok fa /\ Forall proper bs /\
    iter_bands fa <> Ok arrs.
Proof.
  set (b := mkBand 0 100).
  exists [mkArr 1 [[1]]; mkArr 1 [[2]]]%nat, [b; b].
  assert (Pb : make_band 0 100 = Ok b) by (apply make_band_ok; lra).
  eexists. split; [unfold fa_new, make_efd; simpl; reflexivity|].
  split; [repeat constructor; unfold proper, b; simpl; lra|].
  unfold iter_bands. cbn [snd ebands mapM]. unfold fa_get, efd_integer_slice, efd_metaslice_band, efd_lookup.
  cbn [snd fst ebands eslices fa_slices map cols cumsum combine assoc_last Nat.add].
  rewrite band_eqb_refl. cbn [bind].
  unfold make_explicit, span_band. cbn [last bstart bstop b]. rewrite Pb. cbn [bind].
  unfold make_efd. cbn. discriminate.
Qed.

(* ------------------------------------------------------------------ *)
(** * C29 *)
(** which band owns column c *)
Definition owns (slices : list (nat * nat)) (k c : nat) : Prop :=
  exists p, nth_error slices k = Some p /\ (fst p <= c < snd p)%nat.
(** a table of adjacent, well-directed column ranges *)
Definition contiguous (slices : list (nat * nat)) : Prop :=
  (forall k p, nth_error slices k = Some p -> (fst p <= snd p)%nat) /\
  (forall k p q, nth_error slices k = Some p -> nth_error slices (S k) = Some q -> snd p = fst q).

Lemma fa_slices_contiguous ws : contiguous (fa_slices ws).
Proof.
  destruct (fa_partition ws) as [L [A [B _]]]. split; [|exact B].
  intros k p Hp. assert (k < length ws)%nat.
  { rewrite <- L. apply nth_error_Some. congruence. }
  destruct (nth_error ws k) as [w|] eqn:E; [|apply nth_error_None in E; lia].
  destruct (A k w E) as [a Ha]. rewrite Hp in Ha. inversion Ha; subst. simpl. lia.
Qed.

Lemma contiguous_mono sl : contiguous sl -> forall d i p q, nth_error sl i = Some p -> nth_error sl (i + d) = Some q ->
  (fst p <= fst q /\ snd p <= snd q /\ (d <> 0 -> snd p <= fst q))%nat.
Proof.
  intros [H1 H2]. induction d as [|d IH]; intros i p q Hp Hq.
  - rewrite Nat.add_0_r in Hq. rewrite Hp in Hq. inversion Hq; subst. lia.
  - replace (i + S d)%nat with (S (i + d))%nat in Hq by lia.
    destruct (nth_error sl (i + d)) as [r|] eqn:E.
    2:{ apply nth_error_None in E. assert (S (i + d) < length sl)%nat by (apply nth_error_Some; congruence). lia. }
    destruct (IH i p r Hp E) as [A [B C]]. pose proof (H2 _ _ _ E Hq). pose proof (H1 _ _ Hq). pose proof (H1 _ _ Hp). pose proof (H1 _ _ E).
    lia.
Qed.

Lemma last_nth_error {A} (l : list A) x d : l <> [] -> nth_error l (length l - 1) = Some x -> last l d = x.
Proof.
  intros Hne. revert x; induction l as [|y l IH]; intros x H; [contradiction|].
  destruct l as [|z l].
  - simpl in H. inversion H. reflexivity.
  - change (last (y :: z :: l) d) with (last (z :: l) d). apply IH; [discriminate|].
    simpl in *. rewrite Nat.sub_0_r. exact H.
Qed.

(** exact band: its own columns *)
Lemma efd_exact_band d k q p :
  NoDup (ebands d) -> nth_error (ebands d) k = Some q -> nth_error (eslices d) k = Some p ->
  efd_integer_slice d q = Ok p.
Proof.
  intros Hn Hq Hp. unfold efd_integer_slice, efd_lookup.
  rewrite (assoc_last_nodup _ _ k q p Hn Hq Hp). reflexivity.
Qed.

(** any other band: exactly the columns owned by the bands it touches *)
Lemma efd_other_band s slices d q :
  make_efd s slices = Ok d -> ordered (ebands d) -> Forall proper (ebands d) -> proper q -> scale_even s = false ->
  scale_len s = length (ebands d) ->
  contiguous slices -> ~ In q (ebands d) ->
  (existsb (touched q) (ebands d) = false -> efd_integer_slice d q = Raise IndexError) /\
  (existsb (touched q) (ebands d) = true ->
     exists a b, efd_integer_slice d q = Ok (a, b) /\
     forall c, (a <= c < b)%nat <->
       exists k bk, nth_error (ebands d) k = Some bk /\ touched q bk = true /\ owns slices k c).
Proof.
  intros Hd Ho Hpr Hq He Hlen Hc Hnin. unfold make_efd in Hd.
  destruct (Nat.eqb_spec (scale_len s) (length slices)) as [Hl|]; [|discriminate].
  destruct (scale_bands s) as [bs|] eqn:Hb; [|discriminate]. cbn [bind] in Hd. inversion Hd; subst d. clear Hd.
  cbn [ebands eslices escale] in *.
  destruct (get_slice_range s bs q Hb Ho) as [i [j [E [Li [Lj [Hle H]]]]]].
  specialize (Hle Hpr Hq).
  assert (K : efd_integer_slice (mkEfd bs s slices) q =
    match firstn (j - i) (skipn i slices) with
    | [] => Raise IndexError
    | first :: rest => Ok (fst first, snd (last (first :: rest) first)) end).
  { unfold efd_integer_slice, efd_lookup. cbn [ebands eslices escale].
    rewrite assoc_last_none by exact Hnin. unfold get_slice. rewrite E, He. cbn [bind andb].
    rewrite apply_nat_slice. reflexivity. }
  rewrite K. clear K.
  assert (LS : length (firstn (j - i) (skipn i slices)) = (j - i)%nat) by (rewrite firstn_length, skipn_length; lia).
  split.
  - intros Hno. assert (j = i).
    { destruct (Nat.eq_dec i j) as [|Hne]; [lia|].
      destruct (nth_error bs i) as [b|] eqn:Eb; [|apply nth_error_None in Eb; lia].
      assert (touched q b = true) by (apply (H i b Eb); lia).
      assert (existsb (touched q) bs = true); [|congruence].
      apply existsb_exists. exists b. split; [eapply nth_error_In; exact Eb|assumption]. }
    subst. rewrite Nat.sub_diag. reflexivity.
  - intros Hyes. apply existsb_exists in Hyes. destruct Hyes as [b [Hin Hb2]].
    apply In_nth_error in Hin. destruct Hin as [k Hk]. pose proof (proj1 (H k b Hk) Hb2) as Hik.
    destruct (nth_error slices i) as [pi|] eqn:Epi; [|apply nth_error_None in Epi; lia].
    destruct (nth_error slices (j - 1)) as [pj|] eqn:Epj; [|apply nth_error_None in Epj; lia].
    destruct (firstn (j - i) (skipn i slices)) as [|first rest] eqn:F; [simpl in LS; lia|].
    assert (first = pi).
    { assert (nth_error (firstn (j - i) (skipn i slices)) 0 = Some first) by (rewrite F; reflexivity).
      rewrite nth_error_firstn, nth_error_skipn in H0. destruct (Nat.ltb_spec 0 (j - i)); [|lia].
      rewrite Nat.add_0_r in H0. congruence. }
    assert (last (first :: rest) first = pj).
    { apply last_nth_error; [discriminate|]. rewrite LS. rewrite <- F.
      rewrite nth_error_firstn, nth_error_skipn. destruct (Nat.ltb_spec (j - i - 1) (j - i)); [|lia].
      rewrite <- Epj. f_equal. lia. }
    rewrite H1. subst first. exists (fst pi), (snd pj). split; [reflexivity|].
    intros c. split.
    + intros Hcr.
      (* find the owner between i and j-1 *)
      assert (X : exists m, (i <= m < j)%nat /\ owns slices m c).
      { assert (G : forall m pm, (i <= m < j)%nat -> nth_error slices m = Some pm -> (c < snd pm)%nat ->
                 exists m', (i <= m' < j)%nat /\ owns slices m' c).
        { induction m as [|m IHm]; intros pm Hm Epm Hcm.
          - replace i with 0%nat in * by lia. exists 0%nat. split; [lia|]. exists pm. split; [exact Epm|].
            rewrite Epi in Epm. inversion Epm; subst. lia.
          - destruct (Nat.le_gt_cases (fst pm) c) as [Hge|Hlt].
            + exists (S m). split; [lia|]. exists pm. split; [exact Epm|lia].
            + destruct (Nat.eq_dec i (S m)) as [Ei|Ei].
              * rewrite <- Ei, Epi in Epm. inversion Epm; subst. lia.
              * destruct (nth_error slices m) as [r|] eqn:Er; [|apply nth_error_None in Er; lia].
                destruct Hc as [_ Hadj]. pose proof (Hadj _ _ _ Er Epm). apply (IHm r); [lia|reflexivity|lia]. }
        apply (G (j - 1)%nat pj); [lia|exact Epj|lia]. }
      destruct X as [m [Hm Hown]].
      destruct (nth_error bs m) as [bm|] eqn:Ebm; [|apply nth_error_None in Ebm; lia].
      exists m, bm. split; [exact Ebm|]. split; [|exact Hown]. apply (H m bm Ebm). exact Hm.
    + intros [m [bm [Ebm [Tm [p [Ep Hp]]]]]]. pose proof (proj1 (H m bm Ebm) Tm) as Hm.
      pose proof (contiguous_mono slices Hc (m - i) i pi p Epi ltac:(replace (i + (m - i))%nat with m by lia; exact Ep)) as [A _].
      pose proof (contiguous_mono slices Hc (j - 1 - m) m p pj Ep ltac:(replace (m + (j - 1 - m))%nat with (j - 1)%nat by lia; exact Epj)) as [_ [B _]].
      lia.
Qed.

Example efd_demo : exists d, make_efd (Explicit demo_bands) (fa_slices [2;3]%nat) = Ok d /\
  ordered (ebands d) /\ Forall proper (ebands d) /\ ~ In (mkBand 20 150) (ebands d) /\
  existsb (touched (mkBand 20 150)) (ebands d) = true.
Proof.
  eexists. split; [reflexivity|]. cbn [ebands]. split; [exact demo_ordered|]. split; [exact demo_proper|]. split.
  - simpl. intros [K|[K|[]]]; injection K; lra.
  - simpl. unfold touched; simpl. unfold Rltb, Rleb. destruct (Rlt_dec 0 150); [|lra]. destruct (Rle_dec 20 100); [reflexivity|lra].
Qed.

(** Narrowing is not idempotent: after slicing by a band other than the first,
    the new dimension keeps the old column offsets, and slicing again by the very
    same band yields a different (here empty) array. *)
Lemma efd_reslice_refuted :
  exists (arrs : list (arr2 nat)) fa fa1 fa2 q,
    fa_new arrs (Explicit demo_bands) = Ok fa /\ In q demo_bands /\
    fa_get fa q = Ok fa1 /\ fa_get fa1 q = Ok fa2 /\ fst fa2 <> fst fa1.
Proof.
  set (q := mkBand 100 200).
  assert (Pq : make_band 100 200 = Ok q) by (apply make_band_ok; lra).
  exists demo_arrs.
  assert (G : forall w bs s sl, efd_lookup (mkEfd bs s sl) q = Some (2,5)%nat ->
     fa_get (w : arr2 nat, mkEfd bs s sl) q = Ok (col_slice (2,5)%nat w, mkEfd [q] (Explicit [q]) [(2,5)%nat])).
  { intros w bs s sl H. unfold fa_get, efd_integer_slice, efd_metaslice_band. cbn [snd fst]. rewrite H. cbn [bind].
    unfold make_explicit, span_band. cbn [last bstart bstop q]. rewrite Pq. cbn [bind].
    unfold make_efd. cbn. reflexivity. }
  eexists. eexists. eexists. exists q.
  split; [unfold fa_new, make_efd; simpl; reflexivity|].
  split; [right; left; reflexivity|].
  split.
  { apply G. unfold efd_lookup. cbn [ebands eslices demo_bands fa_slices map cols demo_arrs cumsum combine assoc_last Nat.add].
    unfold q. rewrite band_eqb_refl. reflexivity. }
  split.
  { apply G. unfold efd_lookup. cbn. rewrite band_eqb_refl. reflexivity. }
  cbn. discriminate.
Qed.

(** Slicing the frequency axis by integers takes columns of the data but bands
    of the dimension: columns 0..1 (the first band) keep a dimension that
    claims both bands and five columns. *)
Lemma efd_int_slice_refuted :
  exists fa fa1, fa_new demo_arrs (Explicit demo_bands) = Ok fa /\
    fa_get_ints fa (0, 2)%nat = Ok fa1 /\
    cols (fst fa1) = 2%nat /\ ebands (snd fa1) = demo_bands /\ eslices (snd fa1) = [(0,2);(2,5)]%nat.
Proof.
  eexists. eexists. split; [unfold fa_new, make_efd; simpl; reflexivity|].
  split.
  { unfold fa_get_ints, efd_metaslice_ints, scale_slice. cbn [snd fst escale eslices scale_bands bind get_slice construct_from_slice].
    unfold apply_slice. cbn [nat_slice fst snd Z.of_nat]. unfold py_slice. simpl.
    unfold make_explicit, span_band. cbn [last bstart bstop demo_bands]. rewrite make_band_ok by lra. cbn [bind].
    unfold make_efd. simpl. reflexivity. }
  simpl. auto.
Qed.

(* ------------------------------------------------------------------ *)
(** * FrequencyDimension: validation and slicing agree on sizes *)
(** An axis sliced by a unit slice keeps a dimension of the right length,
    whenever slicing succeeds: the new scale has as many bands as numpy has
    elements. *)
Lemma fdim_slice_size s ix sl s' bs :
  scale_bands s = Ok bs -> get_slice s ix = Ok sl -> fdim_metaslice s ix = Ok s' ->
  fdim_validate s' (length (apply_slice sl bs)) = Ok tt.
Proof.
  intros Hb Hg Hm. unfold fdim_metaslice, scale_slice in Hm. rewrite Hb, Hg in Hm. cbn [bind] in Hm.
  assert (scale_len s' = length (apply_slice sl bs)).
  { destruct s; cbn [construct_from_slice] in Hm; unfold make_explicit in Hm;
      try discriminate; destruct (span_band (apply_slice sl bs)) eqn:E; cbn [bind] in Hm;
      try discriminate; inversion Hm; subst; reflexivity. }
  unfold fdim_validate. rewrite H, Nat.eqb_refl. reflexivity.
Qed.
Lemma fdim_validate_bad s n : n <> scale_len s -> fdim_validate s n = Raise ValueError.
Proof. intros H. unfold fdim_validate. destruct (Nat.eqb_spec n (scale_len s)); congruence. Qed.

(** weights of an explicit dimension: each column gets the weight of its band *)
Lemma assign_slice_length {A} (w : list A) sl v : (fst sl <= length w)%nat ->
  length (assign_slice w sl v) = length w.
Proof.
  intros H. unfold assign_slice. rewrite !app_length, repeat_length, skipn_length, !firstn_length, skipn_length. lia.
Qed.
Lemma assign_slice_nth {A} (w : list A) sl v c : (fst sl <= snd sl <= length w)%nat ->
  nth_error (assign_slice w sl v) c = if ((fst sl <=? c) && (c <? snd sl))%nat%bool then Some v else nth_error w c.
Proof.
  intros H. unfold assign_slice.
  assert (L : length (firstn (snd sl - fst sl) (skipn (fst sl) w)) = (snd sl - fst sl)%nat) by (rewrite firstn_length, skipn_length; lia).
  rewrite L. destruct (Nat.leb_spec (fst sl) c) as [G|G]; simpl.
  - rewrite nth_error_app2; rewrite firstn_length_le by lia; [|lia].
    destruct (Nat.ltb_spec c (snd sl)) as [G2|G2].
    + rewrite nth_error_app1 by (rewrite repeat_length; lia). apply nth_error_repeat. lia.
    + rewrite nth_error_app2 by (rewrite repeat_length; lia). rewrite repeat_length, nth_error_skipn. f_equal. lia.
  - rewrite nth_error_app1 by (rewrite firstn_length_le; lia). rewrite nth_error_firstn.
    destruct (Nat.ltb_spec c (fst sl)); [reflexivity|lia].
Qed.

Lemma efd_weights_spec bs s ws widths :
  length ws = length widths -> widths <> [] ->
  exists r, efd_weights (mkEfd bs s (fa_slices widths)) ws = Ok r /\
    length r = fold_right Nat.add 0%nat widths /\
    forall k c x, owns (fa_slices widths) k c -> nth_error ws k = Some x -> nth_error r c = Some x.
Proof.
  intros Hl Hne. destruct (fa_partition widths) as [L [A [B [Z0 [T _]]]]].
  pose proof (fa_slices_contiguous widths) as Hc.
  unfold efd_weights. cbn [eslices].
  destruct (fa_slices widths) as [|f rest] eqn:F.
  { destruct widths; [contradiction|simpl in L; discriminate]. }
  set (sl := f :: rest) in *.
  assert (Hlast : snd (last sl f) = fold_right Nat.add 0%nat widths).
  { destruct (nth_error sl (length widths - 1)) as [p|] eqn:Ep.
    - rewrite (last_nth_error sl p f); [apply T; reflexivity|discriminate|]. rewrite L. exact Ep.
    - apply nth_error_None in Ep. destruct widths; [contradiction|]. simpl in *. lia. }
  rewrite Hlast, (Z0 f eq_refl), Nat.sub_0_r. eexists; split; [reflexivity|].
  set (n := fold_right Nat.add 0%nat widths) in *.
  assert (Bd : forall k p, nth_error sl k = Some p -> (snd p <= n)%nat).
  { intros k p Hp. assert (k < length sl)%nat by (apply nth_error_Some; congruence).
    destruct (nth_error sl (length widths - 1)) as [z|] eqn:Ez.
    - pose proof (contiguous_mono sl Hc (length widths - 1 - k) k p z Hp ltac:(rewrite <- Ez; f_equal; lia)) as [_ [X _]].
      rewrite (T z eq_refl) in X. exact X.
    - apply nth_error_None in Ez. lia. }
  (* general: folding over a suffix of the table only touches later columns *)
  assert (G : forall m vs (w : list R), (m <= length sl)%nat -> length vs = (length sl - m)%nat -> length w = n ->
     let r := fold_left (fun w p => assign_slice w (snd p) (fst p)) (combine vs (skipn m sl)) w in
     length r = n /\
     (forall k c x, (m <= k)%nat -> owns sl k c -> nth_error vs (k - m) = Some x -> nth_error r c = Some x) /\
     (forall c, (forall k, (m <= k)%nat -> ~ owns sl k c) -> nth_error r c = nth_error w c)).
  { intros m. remember (length sl - m)%nat as d eqn:Hd. revert m Hd. induction d as [|d IH]; intros m Hd vs w Hm Hv Hw.
    - destruct vs; [|discriminate]. simpl. split; [exact Hw|]. split; [|reflexivity].
      intros k c x Hk [p [Ep _]]. assert (k < length sl)%nat by (apply nth_error_Some; congruence). lia.
    - destruct vs as [|v vs]; [discriminate|].
      destruct (nth_error sl m) as [p|] eqn:Ep; [|apply nth_error_None in Ep; lia].
      assert (SK : skipn m sl = p :: skipn (S m) sl).
      { clear -Ep. revert m Ep; generalize sl as l. induction l as [|y l IH]; intros m Ep; [destruct m; discriminate|].
        destruct m; simpl in *; [congruence|]. apply IH; exact Ep. }
      rewrite SK. cbn [combine fold_left snd fst].
      destruct Hc as [Hdir Hadj]. pose proof (Hdir m p Ep) as Hp1. pose proof (Bd m p Ep) as Hp2.
      destruct (IH (S m) ltac:(lia) vs (assign_slice w p v) ltac:(lia) ltac:(simpl in Hv; lia)) as [I1 [I2 I3]].
      { rewrite assign_slice_length; lia. }
      split; [exact I1|]. split.
      + intros k c x Hk Hown Hx. destruct (Nat.eq_dec k m) as [->|Hne2].
        * rewrite Nat.sub_diag in Hx. simpl in Hx. inversion Hx; subst v.
          destruct Hown as [p' [Ep' Hc']]. rewrite Ep in Ep'. inversion Ep'; subst p'.
          rewrite I3.
          { rewrite assign_slice_nth by lia. destruct (Nat.leb_spec (fst p) c); [|lia].
            destruct (Nat.ltb_spec c (snd p)); [|lia]. reflexivity. }
          intros k Hk2 [p2 [Ep2 Hc2]].
          pose proof (contiguous_mono sl (conj Hdir Hadj) (k - m) m p p2 Ep ltac:(rewrite <- Ep2; f_equal; lia)) as [_ [_ X]].
          specialize (X ltac:(lia)). lia.
        * apply (I2 k c x); [lia|exact Hown|]. replace (k - m)%nat with (S (k - S m)) in Hx by lia. exact Hx.
      + intros c Hno. rewrite I3 by (intros k Hk; apply Hno; lia).
        rewrite assign_slice_nth by lia.
        destruct (Nat.leb_spec (fst p) c) as [G1|G1]; [|reflexivity]. simpl.
        destruct (Nat.ltb_spec c (snd p)) as [G2|G2]; [|reflexivity].
        exfalso. apply (Hno m (Nat.le_refl m)). exists p. split; [exact Ep|lia]. }
  destruct (G 0%nat ws (repeat 0 n) ltac:(lia) ltac:(lia) (repeat_length _ _)) as [G1 [G2 _]].
  split; [exact G1|]. intros k c x Hown Hx. apply (G2 k c x); [lia|exact Hown|]. rewrite Nat.sub_0_r. exact Hx.
Qed.
