(** Specification and proofs for Freq.v. *)
From Verif Require Import PyBase PyFacts PyMore Freq.
Local Open Scope R_scope.

(* ------------------------------------------------------------------ *)
(** * Specification vocabulary (independent of the model's helpers) *)

(** a frequency lies in the closed band *)
Definition within (f : R) (b : band) : Prop := bstart b <= f <= bstop b.
(** two bands share an interval of positive width *)
Definition overlapping (a b : band) : Prop :=
  exists f g, f < g /\ within f a /\ within g a /\ within f b /\ within g b.
(** every band has positive width *)
Definition proper (b : band) : Prop := bstart b < bstop b.
(** band starts and band stops are non-decreasing: what the class docstring
    calls "monotonically increasing" *)
Definition ordered (bs : list band) : Prop :=
  forall i j a b, (i <= j)%nat -> nth_error bs i = Some a -> nth_error bs j = Some b ->
    bstart a <= bstart b /\ bstop a <= bstop b.
(** the bands a query touches, tested one by one *)
Definition touched (q b : band) : bool :=
  Rltb (bstart b) (bstop q) && Rleb (bstart q) (bstop b).

(* ------------------------------------------------------------------ *)
(** * Booleans on reals *)
Lemma Rltb_true x y : Rltb x y = true <-> x < y.
Proof. unfold Rltb. destruct (Rlt_dec x y); split; intros; try assumption; try discriminate; try reflexivity; contradiction. Qed.
Lemma Rltb_false x y : Rltb x y = false <-> y <= x.
Proof. unfold Rltb. destruct (Rlt_dec x y); split; intros; try discriminate; try reflexivity; lra. Qed.
Lemma Rleb_true x y : Rleb x y = true <-> x <= y.
Proof. unfold Rleb. destruct (Rle_dec x y); split; intros; try assumption; try discriminate; try reflexivity; contradiction. Qed.
Lemma Rleb_false x y : Rleb x y = false <-> y < x.
Proof. unfold Rleb. destruct (Rle_dec x y); split; intros; try discriminate; try reflexivity; lra. Qed.
Lemma Reqb_true x y : Reqb x y = true <-> x = y.
Proof. unfold Reqb. destruct (Req_EM_T x y); split; intros; try assumption; try discriminate; try reflexivity; contradiction. Qed.
Ltac rbool :=
  repeat match goal with
  | H : Rltb _ _ = true |- _ => apply Rltb_true in H
  | H : Rltb _ _ = false |- _ => apply Rltb_false in H
  | H : Rleb _ _ = true |- _ => apply Rleb_true in H
  | H : Rleb _ _ = false |- _ => apply Rleb_false in H
  | H : Reqb _ _ = true |- _ => apply Reqb_true in H
  | H : _ && _ = true |- _ => apply andb_true_iff in H; destruct H
  end.

(* ------------------------------------------------------------------ *)
(** * FrequencyBand (C26) *)

Lemma make_band_ok s e : s < e -> make_band s e = Ok (mkBand s e).
Proof. intros H. unfold make_band. destruct (Rleb e s) eqn:E; rbool; [lra|reflexivity]. Qed.
Lemma make_band_raise s e : e <= s -> make_band s e = Raise ValueError.
Proof. intros H. unfold make_band. destruct (Rleb e s) eqn:E; rbool; [reflexivity|lra]. Qed.
Lemma make_band_inv s e b : make_band s e = Ok b -> s < e /\ b = mkBand s e.
Proof. unfold make_band. destruct (Rleb e s) eqn:E; intros H; inversion H; rbool; auto. Qed.

Lemma band_construct s e :
  (s < e /\ make_band s e = Ok (mkBand s e)) \/ (e <= s /\ make_band s e = Raise ValueError).
Proof.
  destruct (Rlt_le_dec s e) as [H|H].
  - left. split; [exact H|]. apply make_band_ok, H.
  - right. split; [exact H|]. apply make_band_raise, H.
Qed.

Lemma band_eqb_eq a b : band_eqb a b = true <-> a = b.
Proof.
  destruct a as [s e], b as [s' e']. unfold band_eqb; simpl.
  rewrite andb_true_iff, !Reqb_true. split; [intros [-> ->]; reflexivity|].
  intros H; inversion H; auto.
Qed.

Lemma intersect_comm a b : intersect a b = intersect b a.
Proof. unfold intersect. rewrite Rmax_comm, Rmin_comm. reflexivity. Qed.

Lemma intersect_set a b i :
  intersect a b = Ok i -> proper i /\ forall f, within f i <-> within f a /\ within f b.
Proof.
  unfold intersect. intros H. apply make_band_inv in H. destruct H as [H ->].
  split; [exact H|]. intros f. unfold within; simpl.
  unfold Rmax, Rmin. destruct (Rle_dec (bstart a) (bstart b)), (Rle_dec (bstop a) (bstop b)); lra.
Qed.

Lemma intersect_error a b : intersect a b = Raise ValueError <-> ~ overlapping a b.
Proof.
  unfold intersect. destruct (band_construct (Rmax (bstart a) (bstart b)) (Rmin (bstop a) (bstop b)))
    as [[H E]|[H E]]; rewrite E; split; intros K; try discriminate; try reflexivity.
  - exfalso. apply K. exists (Rmax (bstart a) (bstart b)), (Rmin (bstop a) (bstop b)).
    unfold within. pose proof (Rmax_l (bstart a) (bstart b)). pose proof (Rmax_r (bstart a) (bstart b)).
    pose proof (Rmin_l (bstop a) (bstop b)). pose proof (Rmin_r (bstop a) (bstop b)).
    repeat split; lra.
  - intros [f [g [Hfg [Hfa [Hga [Hfb Hgb]]]]]]. unfold within in *.
    revert H. unfold Rmax, Rmin. destruct (Rle_dec (bstart a) (bstart b)), (Rle_dec (bstop a) (bstop b)); lra.
Qed.

Lemma intersect_total a b : (exists i, intersect a b = Ok i) \/ intersect a b = Raise ValueError.
Proof.
  unfold intersect. destruct (band_construct (Rmax (bstart a) (bstart b)) (Rmin (bstop a) (bstop b)))
    as [[H E]|[H E]]; rewrite E; [left; eexists; reflexivity|right; reflexivity].
Qed.

Lemma from_center_ok c w : 0 < w ->
  exists b, from_center c w = Ok b /\ center b = c /\ bandwidth b = w.
Proof.
  intros H. unfold from_center. rewrite make_band_ok by lra.
  eexists; split; [reflexivity|]. unfold center, bandwidth; simpl. split; lra.
Qed.
Lemma from_center_bad c w : w <= 0 -> from_center c w = Raise ValueError.
Proof. intros H. unfold from_center. apply make_band_raise. lra. Qed.
Lemma from_center_val c w : 0 < w -> from_center c w = Ok (mkBand (c - w / 2) (c + w / 2)).
Proof. intros H. apply make_band_ok. lra. Qed.
Lemma from_start_ok s w : 0 < w ->
  exists b, from_start s w = Ok b /\ bstart b = s /\ bandwidth b = w.
Proof.
  intros H. unfold from_start. rewrite make_band_ok by lra.
  eexists; split; [reflexivity|]. unfold bandwidth; simpl. split; lra.
Qed.
Lemma from_start_bad s w : w <= 0 -> from_start s w = Raise ValueError.
Proof. intros H. unfold from_start. apply make_band_raise. lra. Qed.

Example intersect_example :
  intersect (mkBand 500 1000) (mkBand 900 2000) = Ok (mkBand 900 1000).
Proof.
  unfold intersect; simpl. unfold Rmax, Rmin.
  destruct (Rle_dec 500 900); [|lra]. destruct (Rle_dec 1000 2000); [|lra].
  apply make_band_ok; lra.
Qed.

(* ------------------------------------------------------------------ *)
(** * bisect *)
Definition Rsorted (a : list R) : Prop :=
  forall i j x y, (i <= j)%nat -> nth_error a i = Some x -> nth_error a j = Some y -> x <= y.

Lemma bisect_loop_spec fuel a x lo hi :
  (hi - lo <= fuel)%nat -> (lo <= hi)%nat -> (hi <= length a)%nat -> Rsorted a ->
  (forall k y, (k < lo)%nat -> nth_error a k = Some y -> y < x) ->
  (forall k y, (hi <= k)%nat -> nth_error a k = Some y -> x <= y) ->
  let r := bisect_loop fuel a x lo hi in
  (r <= length a)%nat /\
  (forall k y, (k < r)%nat -> nth_error a k = Some y -> y < x) /\
  (forall k y, (r <= k)%nat -> nth_error a k = Some y -> x <= y).
Proof.
  revert lo hi; induction fuel as [|f IH]; intros lo hi Hf Hlh Hhi Hs Hlo Hhi2; simpl.
  - assert (lo = hi) by lia. subst. split; [lia|]. split; assumption.
  - destruct (Nat.ltb_spec lo hi) as [H|H].
    + change (fst (Nat.divmod (lo + hi) 1 0 1)) with ((lo + hi) / 2)%nat.
      set (mid := ((lo + hi) / 2)%nat).
      assert (Hm : (lo <= mid < hi)%nat).
      { unfold mid. split.
        - apply Nat.div_le_lower_bound; lia.
        - apply Nat.div_lt_upper_bound; lia. }
      assert (Hn : nth_error a mid = Some (nth mid a 0)).
      { apply nth_error_nth'. lia. }
      destruct (Rltb (nth mid a 0) x) eqn:E; rbool.
      * apply IH; try assumption; try lia.
        intros k y Hk Hy. assert (y <= nth mid a 0) by (apply (Hs k mid); [lia|assumption|assumption]). lra.
      * apply IH; try assumption; try lia.
        intros k y Hk Hy. assert (nth mid a 0 <= y) by (apply (Hs mid k); [lia|assumption|assumption]). lra.
    + assert (lo = hi) by lia. subst. split; [lia|]. split; assumption.
Qed.

Lemma bisect_left_spec a x :
  Rsorted a ->
  let r := bisect_left a x in
  (r <= length a)%nat /\
  (forall k y, (k < r)%nat -> nth_error a k = Some y -> y < x) /\
  (forall k y, (r <= k)%nat -> nth_error a k = Some y -> x <= y).
Proof.
  intros Hs. unfold bisect_left. apply bisect_loop_spec; try assumption; try lia.
  intros k y Hk Hy. exfalso. assert (k < length a)%nat by (apply nth_error_Some; congruence). lia.
Qed.

(** filtering by a predicate that holds exactly on an index range is slicing *)
Lemma filter_range {A} (p : A -> bool) (l : list A) i j :
  (forall k x, nth_error l k = Some x -> (p x = true <-> (i <= k < j)%nat)) ->
  filter p l = firstn (j - i) (skipn i l).
Proof.
  revert i j; induction l as [|y l IH]; intros i j H.
  - rewrite skipn_nil, firstn_nil. reflexivity.
  - simpl. pose proof (H 0%nat y eq_refl) as H0.
    destruct i as [|i].
    + destruct j as [|j].
      * destruct (p y) eqn:E; [destruct H0 as [H0 _]; specialize (H0 eq_refl); lia|].
        rewrite (IH 0%nat 0%nat); [reflexivity|].
        intros k x Hk. rewrite (H (S k) x Hk). lia.
      * destruct (p y) eqn:E; [|destruct H0 as [_ H0]; exfalso; assert (false = true) by (apply H0; lia); discriminate].
        simpl. f_equal. rewrite (IH 0%nat j).
        { rewrite Nat.sub_0_r. reflexivity. }
        intros k x Hk. rewrite (H (S k) x Hk). lia.
    + destruct (p y) eqn:E; [destruct H0 as [H0 _]; specialize (H0 eq_refl); lia|].
      destruct j as [|j].
      * simpl. rewrite (IH i 0%nat); [reflexivity|].
        intros k x Hk. rewrite (H (S k) x Hk). lia.
      * rewrite (IH i j); [reflexivity|].
        intros k x Hk. rewrite (H (S k) x Hk). lia.
Qed.

Lemma ordered_starts bs : ordered bs -> Rsorted (map bstart bs).
Proof.
  intros H i j x y Hij Hx Hy. rewrite nth_error_map in Hx, Hy.
  destruct (nth_error bs i) eqn:Ei, (nth_error bs j) eqn:Ej; try discriminate.
  simpl in *. inversion Hx; inversion Hy; subst. eapply H; eassumption.
Qed.
Lemma ordered_stops bs : ordered bs -> Rsorted (map bstop bs).
Proof.
  intros H i j x y Hij Hx Hy. rewrite nth_error_map in Hx, Hy.
  destruct (nth_error bs i) eqn:Ei, (nth_error bs j) eqn:Ej; try discriminate.
  simpl in *. inversion Hx; inversion Hy; subst. eapply H; eassumption.
Qed.

Lemma apply_nat_slice {A} i j (l : list A) :
  apply_slice (nat_slice (i, j)) l = firstn (j - i) (skipn i l).
Proof.
  unfold apply_slice, nat_slice; simpl. rewrite py_slice_pos by lia.
  f_equal; [lia|f_equal; lia].
Qed.

(** The two indices computed by get_slice *)
Lemma get_slice_range s bs q :
  scale_bands s = Ok bs -> ordered bs ->
  exists i j, get_slice_band s q
      = Ok (i, if scale_even s && negb (Z.even (Z.of_nat j - Z.of_nat i)) then S j else j)
    /\ (i <= length bs)%nat /\ (j <= length bs)%nat
    /\ (Forall proper bs -> proper q -> (i <= j)%nat)
    /\ forall k b, nth_error bs k = Some b -> (touched q b = true <-> (i <= k < j)%nat).
Proof.
  intros Hb Ho. unfold get_slice_band. rewrite Hb. simpl.
  pose proof (bisect_left_spec (map bstop bs) (bstart q) (ordered_stops _ Ho)) as [L1 [A1 B1]].
  pose proof (bisect_left_spec (map bstart bs) (bstop q) (ordered_starts _ Ho)) as [L2 [A2 B2]].
  rewrite map_length in *.
  exists (bisect_left (map bstop bs) (bstart q)), (bisect_left (map bstart bs) (bstop q)).
  split; [reflexivity|]. split; [assumption|]. split; [assumption|]. split.
  { intros Hp Hq.
    set (i := bisect_left (map bstop bs) (bstart q)) in *.
    set (j := bisect_left (map bstart bs) (bstop q)) in *.
    destruct (Nat.le_gt_cases i j) as [|G]; [assumption|].
    destruct (nth_error bs j) as [b|] eqn:Eb.
    2:{ apply nth_error_None in Eb. lia. }
    assert (Hb2 : proper b) by (eapply Forall_forall; [exact Hp|]; eapply nth_error_In; exact Eb).
    specialize (A1 j (bstop b) G ltac:(rewrite nth_error_map, Eb; reflexivity)).
    specialize (B2 j (bstart b) (Nat.le_refl j) ltac:(rewrite nth_error_map, Eb; reflexivity)).
    unfold proper in *. lra. }
  intros k b Hk. unfold touched. rewrite andb_true_iff, Rltb_true, Rleb_true.
  assert (S1 : nth_error (map bstop bs) k = Some (bstop b)) by (rewrite nth_error_map, Hk; reflexivity).
  assert (S2 : nth_error (map bstart bs) k = Some (bstart b)) by (rewrite nth_error_map, Hk; reflexivity).
  split.
  - intros [Ha Hc]. split.
    + destruct (Nat.le_gt_cases (bisect_left (map bstop bs) (bstart q)) k) as [|G]; [assumption|].
      specialize (A1 k _ G S1). lra.
    + destruct (Nat.le_gt_cases (bisect_left (map bstart bs) (bstop q)) k) as [G|]; [|assumption].
      specialize (B2 k _ G S2). lra.
  - intros [Ha Hc]. split.
    + apply (A2 k _ Hc S2).
    + apply (B1 k _ Ha S1).
Qed.

(** C21: for a scale without [always_even], slicing by a band selects exactly
    the bands the query touches. *)
Lemma get_slice_exact s bs q :
  scale_bands s = Ok bs -> ordered bs -> scale_even s = false ->
  exists sl, get_slice s (IBand q) = Ok sl /\ apply_slice sl bs = filter (touched q) bs.
Proof.
  intros Hb Ho He. destruct (get_slice_range s bs q Hb Ho) as [i [j [E [Li [Lj [Hle H]]]]]].
  unfold get_slice. rewrite E. simpl. eexists; split; [reflexivity|].
  rewrite He. simpl. rewrite apply_nat_slice. symmetry. apply filter_range. exact H.
Qed.

Lemma firstn_S_app {A} n (l : list A) :
  exists e, firstn (S n) l = firstn n l ++ e /\ (length e <= 1)%nat /\
    (length e = 1 \/ (length l <= n))%nat.
Proof.
  revert l; induction n as [|n IH]; intros l.
  - destruct l as [|x l]; simpl.
    + exists []. repeat split; simpl; lia.
    + exists [x]. repeat split; simpl; lia.
  - destruct l as [|x l].
    + exists []. repeat split; simpl; lia.
    + destruct (IH l) as [e [E [L O]]]. exists e. change (firstn (S (S n)) (x :: l)) with (x :: firstn (S n) l).
      rewrite E. simpl. repeat split; [lia|]. destruct O; [left; lia|right; lia].
Qed.

(** C21, always_even: at most one extra band is appended, and the selection is
    even unless it reaches the end of the scale. *)
Lemma get_slice_even s bs q :
  scale_bands s = Ok bs -> ordered bs -> Forall proper bs -> proper q -> scale_even s = true ->
  exists sl extra, get_slice s (IBand q) = Ok sl /\
    apply_slice sl bs = filter (touched q) bs ++ extra /\
    (length extra <= 1)%nat /\
    (Nat.even (length (apply_slice sl bs)) = true \/
     exists pre, bs = pre ++ apply_slice sl bs).
Proof.
  intros Hb Ho Hp Hq He. destruct (get_slice_range s bs q Hb Ho) as [i [j [E [Li [Lj [Hle H]]]]]].
  pose proof (Hle Hp Hq) as Hij.
  unfold get_slice. rewrite E, He. simpl.
  assert (F : filter (touched q) bs = firstn (j - i) (skipn i bs)) by (apply filter_range; exact H).
  destruct (Z.even (Z.of_nat j - Z.of_nat i)) eqn:P; simpl.
  - exists (nat_slice (i, j)), []. split; [reflexivity|]. rewrite apply_nat_slice, F, app_nil_r.
    split; [reflexivity|]. split; [simpl; lia|]. left.
    rewrite firstn_length, skipn_length. replace (Nat.min (j - i) (length bs - i))%nat with (j - i)%nat by lia.
    apply Nat.even_spec. apply Z.even_spec in P. destruct P as [m Hm]. exists (Z.to_nat m). lia.
  - destruct (firstn_S_app (j - i) (skipn i bs)) as [e [Ee [Le Oe]]].
    exists (nat_slice (i, S j)), e. split; [reflexivity|].
    rewrite apply_nat_slice, F. replace (S j - i)%nat with (S (j - i)) by lia.
    split; [exact Ee|]. split; [exact Le|].
    rewrite skipn_length in Oe. destruct Oe as [Oe|Oe].
    + left. rewrite Ee, app_length, firstn_length, skipn_length, Oe.
      replace (Nat.min (j - i) (length bs - i))%nat with (j - i)%nat by lia.
      apply Nat.even_spec.
      assert (P' : Z.odd (Z.of_nat j - Z.of_nat i) = true) by (rewrite <- Z.negb_even, P; reflexivity).
      apply Z.odd_spec in P'. destruct P' as [m Hm]. exists (Z.to_nat (m + 1)). lia.
    + right. exists (firstn i bs). rewrite (firstn_all2 (n := S (j - i))) by (rewrite skipn_length; lia).
      symmetry. apply firstn_skipn.
Qed.

(** the English reading: touched = shares positive width, or ends exactly where
    the query begins *)
Lemma touched_spec q b : proper q -> proper b ->
  (overlapping q b -> touched q b = true) /\
  (touched q b = true -> exists f, within f q /\ within f b).
Proof.
  intros Hq Hb. unfold touched, proper in *. rewrite andb_true_iff, Rltb_true, Rleb_true. split.
  - intros [f [g [Hfg [H1 [H2 [H3 H4]]]]]]. unfold within in *. lra.
  - intros [H1 H2]. exists (Rmax (bstart q) (bstart b)). unfold within, Rmax.
    destruct (Rle_dec (bstart q) (bstart b)); lra.
Qed.
Lemma touched_iff q b : proper q -> proper b ->
  (touched q b = true <-> overlapping q b \/ bstop b = bstart q).
Proof.
  intros Hq Hb. unfold touched, proper in *. rewrite andb_true_iff, Rltb_true, Rleb_true. split.
  - intros [H1 [H2|H2]]; [left|right; lra].
    exists (Rmax (bstart q) (bstart b)), (Rmin (bstop q) (bstop b)).
    unfold within, Rmax, Rmin.
    destruct (Rle_dec (bstart q) (bstart b)), (Rle_dec (bstop q) (bstop b)); repeat split; lra.
  - intros [[f [g [Hfg [H1 [H2 [H3 H4]]]]]]|E]; [unfold within in *; lra|]. lra.
Qed.

(** Hertz slices *)
Lemma hertz_slice s fb st en :
  scale_band s = Ok fb ->
  let a := match st with None => 0 | Some x => if Rltb x 0 then bstop fb + x else x end in
  let b := match en with None => bstop fb | Some x => if Rltb x 0 then bstop fb + x else x end in
  0 <= bstop fb ->
  (a < b -> get_slice s (IHertz st en) = get_slice s (IBand (mkBand a b))) /\
  (b <= a -> get_slice s (IHertz st en) = Raise AttributeError).
Proof.
  intros Hb a b Hpos.
  assert (K : hertz_band s st en = match make_band a b with Ok q => Ok q | Raise _ => Raise AttributeError end).
  { unfold hertz_band. rewrite Hb. simpl.
    assert (Ea : (if Rltb match st with None => 0 | Some x => x end 0
            then bstop fb + match st with None => 0 | Some x => x end
            else match st with None => 0 | Some x => x end) = a).
    { unfold a. destruct st as [x|]; [reflexivity|].
      destruct (Rltb 0 0) eqn:E; rbool; [lra|reflexivity]. }
    assert (Eb : (if Rltb match en with None => bstop fb | Some x => x end 0
            then bstop fb + match en with None => bstop fb | Some x => x end
            else match en with None => bstop fb | Some x => x end) = b).
    { unfold b. destruct en as [x|]; [reflexivity|].
      destruct (Rltb (bstop fb) 0) eqn:E; rbool; [lra|reflexivity]. }
    rewrite Ea, Eb. reflexivity. }
  unfold get_slice. rewrite K. split; intros H.
  - rewrite make_band_ok by exact H. reflexivity.
  - rewrite make_band_raise by exact H. reflexivity.
Qed.
