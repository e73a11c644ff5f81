(** Facts about the streaming nodes of Nodes.v (C41, C42, C59, C60). *)
From Verif Require Import PyBase PyFacts PyMore Time TimeProofs Nodes.
From Coq Require Import QArith Qabs Lqa Permutation Sorted.
Local Open Scope Z_scope.

(** ** C41.  Specification: a list of (start, duration) pairs tiles [a, b) when the
    first starts at [a], each starts where the one before ends, and the last ends
    at [b]. *)
Fixpoint tiles (a b : Z) (l : list (Z * Z)) : Prop :=
  match l with
  | [] => a = b
  | (s, d) :: l' => s = a /\ 0 <= d /\ tiles (a + d) b l'
  end.
Definition inside (x : Z) (s : Z * Z) : Prop := fst s <= x < fst s + snd s.

Lemma tiles_le a b l : tiles a b l -> a <= b.
Proof.
  revert a; induction l as [|[s d] l IH]; intros a H; cbn [tiles] in H; [lia|].
  destruct H as [_ [Hd H]]. apply IH in H. lia.
Qed.
Lemma tiles_starts a b l s : tiles a b l -> In s l -> a <= fst s /\ fst s + snd s <= b.
Proof.
  revert a; induction l as [|[s0 d] l IH]; intros a H Hs; [destruct Hs|]. cbn [tiles] in H.
  destruct H as [-> [Hd H]]. pose proof (tiles_le _ _ _ H). destruct Hs as [<-|Hs]; [cbn; lia|].
  destruct (IH _ H Hs). lia.
Qed.
(** every instant is in exactly one tile *)
Lemma tiles_exactly_one a b l x : tiles a b l -> a <= x < b ->
  exists k, (exists s, nth_error l k = Some s /\ inside x s) /\
    forall k' s', nth_error l k' = Some s' -> inside x s' -> k' = k.
Proof.
  revert a; induction l as [|[s d] l IH]; intros a H Hx; cbn [tiles] in H; [lia|].
  destruct H as [-> [Hd H]]. destruct (Z.lt_ge_cases x (a + d)) as [L|L].
  - exists 0%nat. split; [exists (a, d); split; [reflexivity|unfold inside; cbn; lia]|].
    intros k' s' Hk Hi. destruct k' as [|k']; [reflexivity|]. cbn [nth_error] in Hk. apply nth_error_In in Hk.
    destruct (tiles_starts _ _ _ _ H Hk). unfold inside in Hi. lia.
  - destruct (IH (a + d) H ltac:(lia)) as [k [[s [Hs Hi]] Hu]]. exists (S k). split; [exists s; split; assumption|].
    intros k' s' Hk Hi'. destruct k' as [|k']; [|f_equal; exact (Hu k' s' Hk Hi')].
    cbn [nth_error] in Hk. injection Hk as <-. unfold inside in Hi'. cbn in Hi'. lia.
Qed.

Lemma zip_diff_tiles x l : StronglySorted Z.le (x :: l) -> tiles x (last (x :: l) 0) (zip_diff (x :: l)).
Proof.
  revert x; induction l as [|y l IH]; intros x H; [reflexivity|].
  apply StronglySorted_inv in H. destruct H as [H F].
  change (zip_diff (x :: y :: l)) with ((x, y - x) :: zip_diff (y :: l)).
  change (last (x :: y :: l) 0) with (last (y :: l) 0). cbn [tiles].
  rewrite Forall_forall in F. split; [reflexivity|]. split; [specialize (F y (or_introl eq_refl)); lia|].
  replace (x + (y - x)) with y by ring. apply IH. exact H.
Qed.
Lemma zip_diff_join a x b : zip_diff (a ++ [x]) ++ zip_diff (x :: b) = zip_diff (a ++ x :: b).
Proof.
  induction a as [|y a IH]; [reflexivity|]. destruct a as [|z a].
  - destruct b; reflexivity.
  - cbn [app] in *. change (zip_diff (y :: z :: a ++ [x])) with ((y, z - y) :: zip_diff (z :: a ++ [x])).
    change (zip_diff (y :: z :: a ++ x :: b)) with ((y, z - y) :: zip_diff (z :: a ++ x :: b)).
    rewrite <- IH. reflexivity.
Qed.
Lemma isort_id l : StronglySorted Z.le l -> isort Z.leb l = l.
Proof.
  induction l as [|x l IH]; intros H; [reflexivity|]. apply StronglySorted_inv in H. destruct H as [H F].
  cbn [isort]. rewrite (IH H). destruct l as [|y l]; [reflexivity|]. cbn [insert].
  rewrite Forall_forall in F. specialize (F y (or_introl eq_refl)). destruct (Z.leb_spec x y); [reflexivity|lia].
Qed.

Section PeakPickerFacts.
  Context {A : Type} (onset_indices : list A -> result (list Z)).

  (** a detection is usable when it returns increasing indices of the chunk *)
  Definition detects (d : list A) (is : list Z) : Prop :=
    onset_indices d = Ok is /\ StronglySorted Z.lt is /\ Forall (fun i => 0 <= i < Zlen d) is.

  (** the times of all the detections, chunk after chunk: frame [i] of a chunk that
      starts at frame [o] of the stream is at [(o + i) * frequency] *)
  Inductive onset_times (frequency : Z) : Z -> list (list A) -> list Z -> Prop :=
  | ot_nil o : onset_times frequency o [] []
  | ot_cons o d ds is ts : detects d is -> onset_times frequency (o + Zlen d) ds ts ->
      onset_times frequency o (d :: ds) (map (fun i => (o + i) * frequency) is ++ ts).

  Lemma onset_times_bounds f o ds ts : 0 < f -> onset_times f o ds ts ->
    Forall (fun t => o * f <= t < (o + Zlen (concat ds)) * f) ts /\ StronglySorted Z.le ts.
  Proof.
    intros Hf H. induction H as [o|o d ds is ts [Ho [Hs Hb]] H [IHb IHs]]; [split; constructor|].
    cbn [concat]. rewrite Zlen_app. pose proof (Zlen_nonneg d) as N1. pose proof (Zlen_nonneg (concat ds)) as N2.
    rewrite Forall_forall in Hb. rewrite Forall_forall in IHb. split.
    - rewrite Forall_forall. intros t Ht. apply in_app_or in Ht. destruct Ht as [Ht|Ht].
      + apply in_map_iff in Ht. destruct Ht as [i [<- Hi]]. specialize (Hb i Hi). nia.
      + specialize (IHb t Ht). nia.
    - clear Ho. induction is as [|i is IH]; [exact IHs|]. cbn [map app]. apply StronglySorted_inv in Hs. destruct Hs as [Hs F].
      constructor; [apply IH; [exact Hs|intros j Hj; apply Hb; right; exact Hj]|].
      rewrite Forall_forall in *. intros t Ht. apply in_app_or in Ht. destruct Ht as [Ht|Ht].
      + apply in_map_iff in Ht. destruct Ht as [j [<- Hj]]. specialize (F j Hj). nia.
      + specialize (IHb t Ht). specialize (Hb i (or_introl eq_refl)). nia.
  Qed.

  Lemma last_cons_app (x : Z) l y : last (x :: l ++ [y]) 0 = y.
  Proof. change (x :: l ++ [y]) with ((x :: l) ++ [y]). apply last_last. Qed.
  Lemma app_last_form (x : Z) l : exists a, x :: l = a ++ [last (x :: l) 0].
  Proof.
    revert x; induction l as [|y l IH]; intros x; [exists []; reflexivity|].
    destruct (IH y) as [a E]. exists (x :: a). change (last (x :: y :: l) 0) with (last (y :: l) 0).
    cbn [app]. rewrite E at 1. reflexivity.
  Qed.

  Lemma pp_feed_spec f : 0 < f -> forall ds o lo ts, onset_times f o ds ts -> lo <= o * f ->
    exists os, pp_feed onset_indices f {| pp_pos := o * f; pp_leftover := lo |} ds = Ok os /\
      concat os = zip_diff (lo :: ts ++ [(o + Zlen (concat ds)) * f]).
  Proof.
    intros Hf ds o lo ts H. revert lo. induction H as [o|o d ds is ts Hd H IH]; intros lo Hlo.
    - eexists. split; [reflexivity|]. cbn. rewrite Z.add_0_r. reflexivity.
    - destruct Hd as [Ho [Hs Hb]]. cbn [pp_feed]. unfold pp_process. rewrite Ho. cbn [bind pp_pos pp_leftover].
      set (tl := map (fun i => o * f + i * f) is).
      assert (Etl : tl = map (fun i => (o + i) * f) is) by (apply map_ext; intros; ring).
      assert (Ssort : StronglySorted Z.le (lo :: tl)).
      { pose proof (onset_times_bounds f o [d] (map (fun i => (o + i) * f) is ++ []) Hf) as Q.
        destruct Q as [Qb Qs]; [constructor; [split; [exact Ho|split; assumption]|constructor]|].
        rewrite app_nil_r in Qb, Qs. rewrite Etl. constructor; [exact Qs|].
        rewrite Forall_forall in *. intros t Ht. specialize (Qb t Ht). lia. }
      pose proof (Zlen_nonneg d) as Nd.
      assert (Hl : last (lo :: tl) 0 <= (o + Zlen d) * f).
      { destruct (app_last_form lo tl) as [a Ea].
        assert (In (last (lo :: tl) 0) (lo :: tl)) as Hin by (rewrite Ea at 2; apply in_or_app; right; left; reflexivity).
        destruct Hin as [<-|Hin]; [nia|]. rewrite Etl in Hin at 2. apply in_map_iff in Hin. destruct Hin as [i [<- Hi]].
        rewrite Forall_forall in Hb. specialize (Hb i Hi). nia. }
      destruct (IH (last (lo :: tl) 0) Hl) as [os [E1 E2]].
      replace (o * f + Zlen d * f) with ((o + Zlen d) * f) by ring. rewrite E1. cbn [bind]. eexists. split; [reflexivity|].
      cbn [concat]. rewrite E2. unfold slices. rewrite (isort_id _ Ssort). rewrite <- Etl.
      destruct (app_last_form lo tl) as [a Ea]. rewrite <- app_assoc.
      replace (o + Zlen (d ++ concat ds)) with (o + Zlen d + Zlen (concat ds)) by (rewrite Zlen_app; ring).
      change (lo :: tl ++ ts ++ [(o + Zlen d + Zlen (concat ds)) * f])
        with ((lo :: tl) ++ ts ++ [(o + Zlen d + Zlen (concat ds)) * f]).
      rewrite Ea at 1 3. set (z := last (lo :: tl) 0). rewrite <- app_assoc. cbn [app]. apply zip_diff_join.
  Qed.

  (** the slices of a run are cut at time zero, at every detection and at the end of
      the last frame, whatever the chunking *)
  Lemma pp_cuts f chunks ts : 0 < f -> onset_times f 0 chunks ts ->
    exists os, pp_run onset_indices f chunks = Ok os /\
      concat os = zip_diff (0 :: ts ++ [Zlen (concat chunks) * f]).
  Proof.
    intros Hf H. destruct (pp_feed_spec f Hf chunks 0 0 ts H ltac:(lia)) as [os [E1 E2]]. exists os. split; [exact E1|exact E2].
  Qed.

  (** and they tile the whole signal *)
  Lemma pp_tiles f chunks : 0 < f ->
    Forall (fun d => exists is, onset_indices d = Ok is /\ StronglySorted Z.lt is /\
                                Forall (fun i => 0 <= i < Zlen d) is) chunks ->
    exists os, pp_run onset_indices f chunks = Ok os /\ tiles 0 (Zlen (concat chunks) * f) (concat os).
  Proof.
    intros Hf H.
    assert (exists ts, onset_times f 0 chunks ts) as [ts Hts].
    { assert (G : forall o, exists ts, onset_times f o chunks ts).
      { induction H as [|d ds [is Hd] H IH]; intros o; [exists []; constructor|].
        destruct (IH (o + Zlen d)) as [ts Hts]. eexists. constructor; [exact Hd|exact Hts]. }
      exact (G 0). }
    destruct (pp_cuts f chunks ts Hf Hts) as [os [E1 E2]]. exists os. split; [exact E1|]. rewrite E2.
    destruct (onset_times_bounds f 0 chunks ts Hf Hts) as [B Sr].
    rewrite <- (last_cons_app 0 ts (Zlen (concat chunks) * f)) at 1. apply zip_diff_tiles.
    rewrite Forall_forall in B. pose proof (Zlen_nonneg (concat chunks)).
    constructor.
    - clear -B Sr. induction ts as [|t ts IH]; [repeat constructor|]. apply StronglySorted_inv in Sr. destruct Sr as [Sr F].
      cbn [app]. constructor; [apply IH; [intros u Hu; apply B; right; exact Hu|exact Sr]|].
      rewrite Forall_forall in *. intros u Hu. apply in_app_or in Hu. destruct Hu as [Hu|[<-|[]]]; [exact (F u Hu)|].
      specialize (B t (or_introl eq_refl)). lia.
    - rewrite Forall_forall. intros u Hu. apply in_app_or in Hu. destruct Hu as [Hu|[<-|[]]]; [specialize (B u Hu); lia|nia].
  Qed.

  (** the whole series in terms of instants *)
  Lemma pp_each_instant f chunks x : 0 < f ->
    Forall (fun d => exists is, onset_indices d = Ok is /\ StronglySorted Z.lt is /\
                                Forall (fun i => 0 <= i < Zlen d) is) chunks ->
    0 <= x < Zlen (concat chunks) * f ->
    exists os, pp_run onset_indices f chunks = Ok os /\
      exists k, (exists s, nth_error (concat os) k = Some s /\ fst s <= x < fst s + snd s) /\
        forall k' s', nth_error (concat os) k' = Some s' -> fst s' <= x < fst s' + snd s' -> k' = k.
  Proof.
    intros Hf H Hx. destruct (pp_tiles f chunks Hf H) as [os [E T]]. exists os. split; [exact E|].
    exact (tiles_exactly_one _ _ _ x T Hx).
  Qed.
End PeakPickerFacts.

(** [np.where] gives increasing indices of the chunk *)
Lemma np_where_shift o mask :
  map (fun p : nat * bool => Z.of_nat (fst p)) (filter (fun p : nat * bool => snd p) (combine (seq o (length mask)) mask))
  = map (fun i => Z.of_nat o + i) (np_where mask).
Proof.
  unfold np_where. revert o; induction mask as [|b m IH]; intros o; [reflexivity|].
  cbn [length seq combine filter snd]. destruct b; cbn [map fst].
  - rewrite (IH (S o)), (IH 1%nat), !map_map. f_equal; [lia|]. apply map_ext. intros; lia.
  - rewrite (IH (S o)), (IH 1%nat), !map_map. apply map_ext. intros; lia.
Qed.
Lemma np_where_cons b m : np_where (b :: m) = (if b then [0] else []) ++ map (fun i => 1 + i) (np_where m).
Proof.
  unfold np_where at 1. cbn [length seq combine filter snd]. destruct b; cbn [map fst app]; rewrite np_where_shift; reflexivity.
Qed.
Lemma np_where_spec mask :
  StronglySorted Z.lt (np_where mask) /\ Forall (fun i => 0 <= i < Zlen mask) (np_where mask) /\
  forall i, 0 <= i -> (In i (np_where mask) <-> nth_error mask (Z.to_nat i) = Some true).
Proof.
  induction mask as [|b m [Hs [Hb Hi]]].
  - split; [constructor|]. split; [constructor|]. intros i _. split; [intros []|]. destruct (Z.to_nat i); discriminate.
  - rewrite np_where_cons.
    assert (Hs' : StronglySorted Z.lt (map (fun i => 1 + i) (np_where m))).
    { clear -Hs. induction Hs as [|x l H IH F]; cbn [map]; constructor; [exact IH|].
      rewrite Forall_forall in *. intros y Hy. apply in_map_iff in Hy. destruct Hy as [z [<- Hz]]. specialize (F z Hz). lia. }
    assert (Hb' : forall i, In i (map (fun i => 1 + i) (np_where m)) -> 1 <= i < 1 + Zlen m).
    { intros i H. apply in_map_iff in H. destruct H as [j [<- Hj]]. rewrite Forall_forall in Hb. specialize (Hb j Hj). lia. }
    split; [|split].
    + destruct b; [|exact Hs']. cbn [app]. constructor; [exact Hs'|]. rewrite Forall_forall. intros y Hy.
      specialize (Hb' y Hy). lia.
    + rewrite Forall_forall. intros i H. rewrite Zlen_cons. pose proof (Zlen_nonneg m). apply in_app_or in H.
      destruct H as [H|H]; [destruct b; [destruct H as [<-|[]]; lia|destruct H]|]. specialize (Hb' i H). lia.
    + intros i Hi0. destruct (Z.eq_dec i 0) as [->|Hn].
      * cbn [Z.to_nat nth_error]. split.
        { intros H. apply in_app_or in H. destruct H as [H|H]; [destruct b; [reflexivity|destruct H]|]. specialize (Hb' 0 H). lia. }
        { intros H. injection H as ->. left. reflexivity. }
      * replace (Z.to_nat i) with (S (Z.to_nat (i - 1))) by lia. cbn [nth_error]. rewrite <- (Hi (i - 1)) by lia. split.
        { intros H. apply in_app_or in H. destruct H as [H|H]; [destruct b; [destruct H as [<-|[]]; lia|destruct H]|].
          apply in_map_iff in H. destruct H as [j [<- Hj]]. replace (1 + j - 1) with j by ring. exact Hj. }
        { intros H. apply in_or_app. right. apply in_map_iff. exists (i - 1). split; [ring|exact H]. }
Qed.

(** the moving average peak picker on rows of at least four columns always detects
    increasing indices, so it tiles every signal *)
Lemma ma_row_total agg row : (4 <= length row)%nat ->
  exists b, ma_row agg (Zlen row / 2) row = Ok b.
Proof.
  intros H. unfold ma_row, Zlen. set (n := length row) in *.
  assert (D : 2 <= Z.of_nat n / 2 /\ Z.of_nat n / 2 + 1 <= Z.of_nat n) by zdm.
  set (c := Z.of_nat n / 2) in *. clearbody c.
  assert (L : length (py_slice (Some (c - 2)) (Some (c + 1)) row) = 3%nat).
  { rewrite py_slice_pos by (unfold Zlen; fold n; lia). rewrite firstn_length, skipn_length. fold n. lia. }
  destruct (py_slice (Some (c - 2)) (Some (c + 1)) row) as [|x [|y [|z [|w l]]]]; try discriminate L.
  unfold py_get. destruct (Z.ltb_spec c 0); [lia|]. destruct (Z.ltb_spec c 0); [lia|].
  destruct (nth_error row (Z.to_nat c)) eqn:E; [eexists; reflexivity|].
  apply nth_error_None in E. fold n in E. lia.
Qed.
Lemma ma_tiles agg f w (chunks : list (list (list Q))) : 0 < f -> (4 <= w)%nat ->
  Forall (Forall (fun row => length row = w)) chunks ->
  exists os, pp_run (ma_onsets agg (Z.of_nat w / 2)) f chunks = Ok os /\ tiles 0 (Zlen (concat chunks) * f) (concat os).
Proof.
  intros Hf Hw H. apply pp_tiles; [exact Hf|]. apply Forall_impl with (2 := H). intros d Hd. unfold ma_onsets.
  assert (exists mask, mapM (ma_row agg (Z.of_nat w / 2)) d = Ok mask) as [mask Em].
  { induction Hd as [|r d Hr Hd IH]; [exists []; reflexivity|]. cbn [mapM].
    destruct (ma_row_total agg r ltac:(lia)) as [b Eb]. unfold Zlen in Eb. rewrite Hr in Eb. rewrite Eb. cbn [bind].
    destruct IH as [m ->]. eexists. reflexivity. }
  rewrite Em. cbn [bind]. exists (np_where mask). destruct (np_where_spec mask) as [Hs [Hb _]].
  split; [reflexivity|]. split; [exact Hs|]. apply mapM_length in Em. unfold Zlen in *. rewrite <- Em. exact Hb.
Qed.
(** narrower frames are an error *)
Lemma ma_narrow_refuted : exists agg row, length row = 3%nat /\ ma_onsets agg 1 [row] = Raise IndexError.
Proof. exists qsum, [1%Q; 3%Q; 1%Q]. split; reflexivity. Qed.
(** the frame reported as an onset is the one after the peak: the peak is at the
    column before the centre, and the threshold is tested at the centre *)
Lemma ma_peak_column : exists row, length row = 5%nat /\
  ma_row (fun _ => 0%Q) 2 row = Ok true /\
  (nth 1 row 0 > nth 2 row 0)%Q.
Proof. exists [0%Q; 3%Q; 1%Q; 0%Q; 0%Q]. repeat split. Qed.

Lemma Qlt_b_spec a b : Qlt_b a b = true <-> (a < b)%Q.
Proof.
  unfold Qlt_b. rewrite negb_true_iff. split.
  - intros H. apply Qnot_le_lt. intros L. apply Qle_bool_iff in L. congruence.
  - intros H. destruct (Qle_bool b a) eqn:E; [|reflexivity]. apply Qle_bool_iff in E. apply Qlt_not_le in H. contradiction.
Qed.
Lemma three_columns (row : list Q) c : (2 <= c < length row)%nat ->
  py_slice (Some (Z.of_nat c - 2)) (Some (Z.of_nat c + 1)) row = [nth (c - 2) row 0; nth (c - 1) row 0; nth c row 0]%Q.
Proof.
  intros H. rewrite py_slice_pos by lia. replace (Z.to_nat (Z.of_nat c + 1 - (Z.of_nat c - 2))) with 3%nat by lia.
  replace (Z.to_nat (Z.of_nat c - 2)) with (c - 2)%nat by lia.
  assert (E : exists d, (c = 2 + d)%nat) by (exists (c - 2)%nat; lia). destruct E as [d ->].
  replace (2 + d - 2)%nat with d by lia. replace (2 + d - 1)%nat with (1 + d)%nat by lia.
  revert row H; induction d as [|d IH]; intros row H.
  - destruct row as [|x [|y [|z row]]]; simpl in H; try lia. reflexivity.
  - destruct row as [|x row]; [simpl in H; lia|]. simpl in H.
    replace (2 + S d)%nat with (S (2 + d)) by lia. replace (1 + S d)%nat with (S (1 + d)) by lia. cbn [skipn nth].
    apply IH. simpl. lia.
Qed.
(** exactly when a frame is reported: the column before the centre is a strict local peak, and the
    centre exceeds 5/4 of the aggregate *)
Lemma ma_row_spec agg c row : (2 <= c < length row)%nat ->
  exists b, ma_row agg (Z.of_nat c) row = Ok b /\
    (b = true <-> (nth (c - 2) row 0 < nth (c - 1) row 0 /\ nth c row 0 < nth (c - 1) row 0 /\
                   agg row * (5 # 4) < nth c row 0)%Q).
Proof.
  intros H. unfold ma_row. rewrite three_columns by assumption.
  unfold py_get. destruct (Z.ltb_spec (Z.of_nat c) 0); [lia|]. destruct (Z.ltb_spec (Z.of_nat c) 0); [lia|]. rewrite Nat2Z.id.
  destruct (nth_error row c) as [v|] eqn:E; [|apply nth_error_None in E; lia].
  apply nth_error_nth with (d := 0%Q) in E. rewrite E.
  eexists. split; [reflexivity|]. rewrite !andb_true_iff, !Qlt_b_spec.
  set (a := nth (c - 2) row 0%Q). set (b := nth (c - 1) row 0%Q).
  rewrite (Qlt_minus_iff a b), (Qlt_minus_iff v b).
  assert (P : (v - b < 0)%Q <-> (0 < b + - v)%Q) by (split; intros; lra).
  assert (P' : (0 < b - a)%Q <-> (0 < b + - a)%Q) by (split; intros; lra).
  rewrite P, P'. tauto.
Qed.
(** so a frame whose centre is a peak is never reported *)
Lemma ma_center_peak_refuted agg c row : (2 <= c < length row)%nat ->
  (nth (c - 1) row 0 < nth c row 0)%Q -> ma_row agg (Z.of_nat c) row = Ok false.
Proof.
  intros H P. destruct (ma_row_spec agg c row H) as [b [E I]]. rewrite E. destruct b; [|reflexivity].
  exfalso. destruct (proj1 I eq_refl) as [_ [Q _]]. lra.
Qed.
Lemma ma_spike_refuted : exists row : list Q, length row = 9%nat /\
  (forall k, (k < 9)%nat -> k <> 4%nat -> nth k row 0 < nth 4 row 0)%Q /\
  (qsum row / 9 * (5 # 4) < nth 4 row 0)%Q /\
  ma_row (fun r => qsum r / 9)%Q 4 row = Ok false.
Proof.
  exists [0; 0; 0; 0; 1; 0; 0; 0; 0]%Q. split; [reflexivity|]. split; [|split; reflexivity].
  intros k Hk Hn. do 9 (destruct k as [|k]; [solve [reflexivity|contradiction]|]). lia.
Qed.

(** detections out of order are not repaired across chunks *)
Lemma pp_unsorted_refuted : exists (chunks : list (list unit)) os,
  pp_run (fun _ => Ok [2; 1]) 1 chunks = Ok os /\ ~ tiles 0 3 (concat os).
Proof.
  exists [[tt; tt; tt]]. eexists. split; [reflexivity|]. cbn. lia.
Qed.
Example pp_example : pp_run (fun d : list bool => Ok (np_where d)) 10 [[true; false; true]; []; [false; true]]
  = Ok [[(0, 0); (0, 20)]; []; [(20, 20)]; [(40, 10)]].
Proof. reflexivity. Qed.

(** ** C59: detection functions do not depend on the chunking *)
Section PairwiseFacts.
  Context {A B : Type} (prep : A -> A) (score : A -> A -> B).
  Hypothesis prep_idem : forall x, prep (prep x) = prep x.

  (** specification: the value of a frame is its score against the frame before it;
      the first frame is compared with itself *)
  Definition detection (l : list A) (i : nat) : option B :=
    match nth_error l i, nth_error l (i - 1) with
    | Some x, Some p => Some (score (prep p) (prep x))
    | _, _ => None
    end.

  Lemma consecutive_length l : length (consecutive score l) = (length l - 1)%nat.
  Proof.
    induction l as [|x l IH]; [reflexivity|]. destruct l as [|y l]; [reflexivity|].
    change (S (length (consecutive score (y :: l))) = (length (x :: y :: l) - 1)%nat). rewrite IH. cbn [length]. lia.
  Qed.
  Lemma consecutive_join a x b :
    consecutive score (a ++ [x]) ++ consecutive score (x :: b) = consecutive score (a ++ x :: b).
  Proof.
    induction a as [|y a IH]; [reflexivity|]. destruct a as [|z a]; [destruct b; reflexivity|].
    cbn [app] in *. change (consecutive score (y :: z :: a ++ [x])) with (score y z :: consecutive score (z :: a ++ [x])).
    change (consecutive score (y :: z :: a ++ x :: b)) with (score y z :: consecutive score (z :: a ++ x :: b)).
    rewrite <- IH. reflexivity.
  Qed.
  Lemma consecutive_nth l i : nth_error (consecutive score l) i =
    match nth_error l i, nth_error l (S i) with Some p, Some x => Some (score p x) | _, _ => None end.
  Proof.
    revert i; induction l as [|x l IH]; intros i; [destruct i; reflexivity|].
    destruct l as [|y l]; [destruct i as [|[|i]]; reflexivity|].
    change (consecutive score (x :: y :: l)) with (score x y :: consecutive score (y :: l)).
    destruct i as [|i]; [reflexivity|]. cbn [nth_error]. rewrite IH. reflexivity.
  Qed.
  Lemma mot_feed_some x : forall ds,
    exists os, mot_feed prep score (Some [x]) ds = Ok os /\
      concat os = consecutive score (map prep (x :: concat ds)).
  Proof.
    intros ds. revert x; induction ds as [|d ds IH]; intros x; [exists []; split; reflexivity|].
    cbn [mot_feed bind mot_enqueue mot_dequeue]. cbn [app].
    destruct (rev (x :: d)) as [|z r] eqn:E.
    { apply (f_equal (@rev A)) in E. rewrite rev_involutive in E. discriminate. }
    cbn [bind]. destruct (IH z) as [os [E1 E2]]. rewrite E1. cbn [bind]. eexists. split; [reflexivity|].
    cbn [concat]. rewrite E2. unfold mot_process.
    assert (F : x :: d = rev r ++ [z]) by (rewrite <- (rev_involutive (x :: d)), E; reflexivity).
    change (x :: d ++ concat ds) with ((x :: d) ++ concat ds). rewrite F, <- app_assoc. cbn [app].
    rewrite !map_app. cbn [map]. apply consecutive_join.
  Qed.
  (** [chunk0] is the first chunk; it must have a frame *)
  Lemma mot_independent x chunk0 chunks :
    exists os, mot_run prep score ((x :: chunk0) :: chunks) = Ok os /\
      length (concat os) = length (concat ((x :: chunk0) :: chunks)) /\
      forall i, nth_error (concat os) i = detection (concat ((x :: chunk0) :: chunks)) i.
  Proof.
    unfold mot_run. cbn [mot_feed mot_first_chunk map bind mot_enqueue mot_dequeue].
    destruct (rev (prep x :: prep x :: map prep chunk0)) as [|z r] eqn:E.
    { apply (f_equal (@rev A)) in E. rewrite rev_involutive in E. discriminate. }
    cbn [bind]. destruct (mot_feed_some z chunks) as [os [E1 E2]]. rewrite E1. cbn [bind]. eexists. split; [reflexivity|].
    assert (F : prep x :: prep x :: map prep chunk0 = rev r ++ [z]).
    { rewrite <- (rev_involutive (prep x :: prep x :: map prep chunk0)), E. reflexivity. }
    assert (T : concat (mot_process prep score (prep x :: prep x :: map prep chunk0) :: os)
                = consecutive score (prep x :: map prep (x :: chunk0 ++ concat chunks))).
    { cbn [concat]. rewrite E2. unfold mot_process. rewrite F, map_app. cbn [map].
      rewrite consecutive_join. change (map prep (rev r) ++ prep z :: map prep (concat chunks))
        with (map prep (rev r) ++ map prep [z] ++ map prep (concat chunks)).
      rewrite app_assoc, <- map_app, <- F. cbn [map app]. rewrite !prep_idem, map_map.
      rewrite map_app. do 2 f_equal. f_equal. f_equal. apply map_ext. exact prep_idem. }
    rewrite T. split.
    - rewrite consecutive_length. cbn [length concat]. rewrite map_length. cbn [length app]. lia.
    - intros i. rewrite consecutive_nth. unfold detection.
      change (concat ((x :: chunk0) :: chunks)) with (x :: chunk0 ++ concat chunks).
      set (l := x :: chunk0 ++ concat chunks).
      change (nth_error (prep x :: map prep l) (S i)) with (nth_error (map prep l) i).
      destruct i as [|i].
      + reflexivity.
      + change (nth_error (prep x :: map prep l) (S i)) with (nth_error (map prep l) i).
        replace (S i - 1)%nat with i by lia. rewrite !nth_error_map.
        destruct (nth_error l i); destruct (nth_error l (S i)); reflexivity.
  Qed.
End PairwiseFacts.

Lemma abs_row_idem (x : list Q) : map Qabs (map Qabs x) = map Qabs x.
Proof.
  rewrite map_map. apply map_ext. intros [[|n|n] d]; reflexivity.
Qed.
(** the measure of transience of a whole recording, whatever the chunking *)
Lemma mot_value x chunk0 chunks :
  exists os, mot ((x :: chunk0) :: chunks) = Ok os /\
    let stream := concat ((x :: chunk0) :: chunks) in
    length (concat os) = length stream /\
    forall i frame prev, nth_error stream i = Some frame -> nth_error stream (i - 1) = Some prev ->
      nth_error (concat os) i = Some (mot_score (map Qabs prev) (map Qabs frame)).
Proof.
  destruct (mot_independent (map Qabs) mot_score abs_row_idem x chunk0 chunks) as [os [E [L N]]].
  exists os. split; [exact E|]. split; [exact L|]. intros i frame prev H1 H2. rewrite N. unfold detection. rewrite H1, H2. reflexivity.
Qed.
(** the score in full: energies of the bins from the third on, and the same weighted by the bin's
    number, counted from 1; sums that are zero count as 10^-12 *)
Definition bins (row : list Q) : list (nat * Q) := skipn 2 (combine (seq 1 (length row)) row).
Definition or_tiny (x : Q) : Q := if Qeq_bool x 0 then 1 # 1000000000000 else x.
Definition energy (row : list Q) : Q := or_tiny (fold_right Qplus 0 (map (fun b => snd b * snd b) (bins row)))%Q.
Definition high_frequency_content (row : list Q) : Q :=
  or_tiny (fold_right Qplus 0 (map (fun b => (snd b * snd b) * inject_Z (Z.of_nat (fst b))) (bins row)))%Q.
Lemma bins_split (row : list Q) k : map snd (combine (seq k (length row)) row) = row.
Proof. revert k; induction row as [|x row IH]; intros k; simpl; [reflexivity|]. rewrite IH. reflexivity. Qed.
Lemma skipn_combine_seq k (row : list Q) : skipn 2 (combine (seq k (length row)) row) = combine (seq (2 + k) (length (skipn 2 row))) (skipn 2 row).
Proof. destruct row as [|x [|y row]]; reflexivity. Qed.
Lemma weighted_from_spec k l : weighted_from (Z.of_nat k) (map sq l)
  = fold_right Qplus 0%Q (map (fun b => (snd b * snd b) * inject_Z (Z.of_nat (fst b)))%Q (combine (seq k (length l)) l)).
Proof.
  revert k; induction l as [|x l IH]; intros k; [reflexivity|]. cbn [map weighted_from length seq combine fold_right fst snd].
  rewrite <- IH. f_equal. f_equal. lia.
Qed.
Lemma mot_score_spec prev row :
  mot_score prev row = ((high_frequency_content row / high_frequency_content prev) *
                        (high_frequency_content row / energy row))%Q.
Proof.
  assert (H : forall r, mot_hfc r = high_frequency_content r).
  { intros r. unfold mot_hfc, high_frequency_content, bins. rewrite skipn_combine_seq.
    change 3 with (Z.of_nat 3). rewrite weighted_from_spec. reflexivity. }
  assert (N : forall r, mot_energy r = energy r).
  { intros r. unfold mot_energy, energy, bins. rewrite skipn_combine_seq. unfold qsum.
    rewrite <- (map_map snd (fun x => x * x)%Q), bins_split. reflexivity. }
  unfold mot_score. rewrite !H, N. reflexivity.
Qed.
(** two ways of cutting the same recording give the same detection function *)
Lemma mot_chunking x c0 cs y d0 ds : concat ((x :: c0) :: cs) = concat ((y :: d0) :: ds) ->
  exists o1 o2, mot ((x :: c0) :: cs) = Ok o1 /\ mot ((y :: d0) :: ds) = Ok o2 /\ concat o1 = concat o2.
Proof.
  intros H. destruct (mot_independent (map Qabs) mot_score abs_row_idem x c0 cs) as [o1 [E1 [_ N1]]].
  destruct (mot_independent (map Qabs) mot_score abs_row_idem y d0 ds) as [o2 [E2 [_ N2]]].
  exists o1, o2. split; [exact E1|]. split; [exact E2|]. apply nth_error_ext. intros i. rewrite N1, N2, H. reflexivity.
Qed.
(** the detection function never divides by zero *)
Lemma nonzero_neq x : ~ (nonzero x == 0)%Q.
Proof.
  unfold nonzero. destruct (Qeq_bool x 0) eqn:E; [intros H; discriminate H|]. intros H. apply Qeq_bool_iff in H. congruence.
Qed.
Lemma mot_defined row : ~ (mot_hfc row == 0)%Q /\ ~ (mot_energy row == 0)%Q.
Proof. split; apply nonzero_neq. Qed.
(** an empty first chunk is an error *)
Lemma mot_empty_first chunks : mot ([] :: chunks) = Raise IndexError.
Proof. reflexivity. Qed.
Example mot_ex :
  match mot [[[0; 0; 1; 2]; [0; 0; 0; 0]]; [[5; 5; 0; -(2 # 1)]]]%Q, mot [[[0; 0; 1; 2]; [0; 0; 0; 0]; [5; 5; 0; -(2 # 1)]]]%Q with
  | Ok o1, Ok o2 => map Qred (concat o1) = [19 # 5; 1 # 19000000000000; 64000000000000 # 1]%Q /\ concat o1 = concat o2
  | _, _ => False
  end.
Proof. vm_compute. split; reflexivity. Qed.

(** Flux never produces anything: its result has fewer axes than dimensions *)
Lemma flux_always_fails {A B} (dist : A -> A -> B) ndims memory d ds : (0 < ndims)%nat ->
  exists e, flux_feed dist ndims memory (d :: ds) = Raise e.
Proof.
  intros Hn. cbn [flux_feed]. destruct (flux_enqueue memory d) as [[m data]|e] eqn:E; [|exists e; reflexivity].
  cbn [bind]. unfold flux_process, with_dimensions. destruct (Nat.eqb_spec (ndims - 1) ndims); [lia|].
  exists ValueError. reflexivity.
Qed.

Lemma Forall2_impl' {A B} (P Q : A -> B -> Prop) l m :
  (forall a b, In a l -> P a b -> Q a b) -> Forall2 P l m -> Forall2 Q l m.
Proof.
  intros H F. induction F; constructor; [apply H; [left; reflexivity|assumption]|].
  apply IHF. intros a b Ha. apply H. right. exact Ha.
Qed.
(** ** C42 *)
Section MergeFacts.
  Context {A : Type} (rsize : A -> nat) (join : list A -> A).

  (** everything dependency [k] delivers *)
  Definition delivered (arrivals : list (nat * list A)) (k : nat) : list A :=
    concat (map snd (filter (fun e => Nat.eqb (fst e) k) arrivals)).

  Lemma zmin_in l : l <> [] -> In (zmin l) l /\ (forall x, In x l -> zmin l <= x).
  Proof.
    induction l as [|x l IH]; [congruence|]. intros _. destruct l as [|y l].
    - cbn. split; [left; reflexivity|]. intros z [<-|[]]. lia.
    - destruct (IH ltac:(discriminate)) as [H1 H2]. change (zmin (x :: y :: l)) with (Z.min x (zmin (y :: l))).
      split.
      + destruct (Z.min_spec x (zmin (y :: l))) as [[_ ->]|[_ ->]]; [left; reflexivity|right; exact H1].
      + intros z [<-|Hz]; [lia|]. specialize (H2 z Hz). lia.
  Qed.

  Lemma zip_rows_seq n arrs :
    zip_rows join n arrs = map (fun i => join (map (fun a => nth i a (join [])) arrs)) (seq 0 n).
  Proof.
    revert arrs; induction n as [|n IH]; intros arrs; [reflexivity|]. cbn [zip_rows seq map]. f_equal.
    - f_equal. apply map_ext. intros [|x a]; reflexivity.
    - rewrite IH, <- seq_shift, map_map. apply map_ext. intros i. rewrite map_map. f_equal. apply map_ext.
      intros [|x a]; [destruct i; reflexivity|reflexivity].
  Qed.

  Definition minv (needs : list nat) (D : nat -> list A) (n : nat) (c : @mcache A) : Prop :=
    Forall2 (fun k e => fst e = k /\ filled e = skipn n (D k) /\ (n <= length (D k))%nat) needs c.
  Definition sized (D : nat -> list A) : Prop := forall k r, In r (D k) -> (0 < rsize r)%nat.

  Lemma arr_size_zero v : (forall r, In r v -> (0 < rsize r)%nat) -> arr_size rsize v = 0%nat -> v = [].
  Proof.
    destruct v as [|r v]; [reflexivity|]. intros H E. cbn [arr_size fold_right] in E.
    specialize (H r (or_introl eq_refl)). unfold arr_size in E. cbn [fold_right] in E. lia.
  Qed.
  Definition add (D : nat -> list A) (key : nat) (d : list A) : nat -> list A :=
    fun k => if Nat.eqb k key then D k ++ d else D k.

  Lemma enqueue_inv needs D n c key d : NoDup needs -> In key needs -> sized D -> minv needs D n c ->
    exists c', merge_enqueue rsize c key d = Ok c' /\ minv needs (add D key d) n c'.
  Proof.
    intros ND Hin Hsz H. unfold minv in *. induction H as [|k e needs c [Hk [Hf Hn]] H IH]; [destruct Hin|].
    apply NoDup_cons_iff in ND. destruct ND as [Hni ND]. destruct e as [k0 v]. cbn [fst] in Hk. subst k0.
    cbn [merge_enqueue]. destruct (Nat.eqb_spec k key) as [->|Hne].
    - eexists. split; [reflexivity|]. constructor.
      + cbn [fst]. split; [reflexivity|]. unfold add. rewrite Nat.eqb_refl. split.
        * assert (F : forall r, In r (skipn n (D key)) -> (0 < rsize r)%nat) by (intros r Hr; apply (Hsz key), (skipn_In _ _ _ Hr)).
          unfold filled in *; cbn [snd] in Hf |- *. destruct v as [old|].
          { destruct (Nat.eqb_spec (arr_size rsize old) 0) as [E|E].
            - rewrite <- Hf in F. apply (arr_size_zero _ F) in E. rewrite E in Hf.
              rewrite skipn_app, <- Hf.
              assert (n = length (D key)). { apply (f_equal (@length A)) in Hf. rewrite skipn_length in Hf. cbn in Hf. lia. }
              subst n. rewrite Nat.sub_diag. reflexivity.
            - rewrite skipn_app, Hf. f_equal. replace (n - length (D key))%nat with 0%nat by lia. reflexivity. }
          { rewrite skipn_app, <- Hf.
            assert (n = length (D key)). { apply (f_equal (@length A)) in Hf. rewrite skipn_length in Hf. cbn in Hf. lia. }
            subst n. rewrite Nat.sub_diag. reflexivity. }
        * rewrite app_length. lia.
      + apply Forall2_impl' with (2 := H). intros k' e' Hin' HH. unfold add.
        destruct (Nat.eqb_spec k' key) as [->|_]; [contradiction|exact HH].
    - destruct Hin as [->|Hin]; [congruence|]. destruct (IH ND Hin) as [c' [E1 E2]]. rewrite E1. cbn [bind].
      eexists. split; [reflexivity|]. constructor; [|exact E2]. cbn [fst]. split; [reflexivity|]. unfold add.
      destruct (Nat.eqb_spec k key); [congruence|]. split; [exact Hf|exact Hn].
  Qed.

  Definition row_of (needs : list nat) (D : nat -> list A) (i : nat) : A :=
    join (map (fun k => nth i (D k) (join [])) needs).

  Lemma minv_lengths needs D n c : minv needs D n c ->
    map (fun e => Zlen (filled e)) c = map (fun k => Z.of_nat (length (D k) - n)) needs.
  Proof.
    intros H. induction H as [|k e needs c [Hk [Hf Hn]] H IH]; [reflexivity|]. cbn [map]. rewrite IH. f_equal.
    unfold Zlen. rewrite Hf, skipn_length. reflexivity.
  Qed.

  Lemma attempt_inv needs D n c : needs <> [] -> minv needs D n c ->
    exists m c', merge_attempt join c = (c', map (fun i => row_of needs D (n + i)) (seq 0 m)) /\
      minv needs D (n + m) c' /\ exists k, In k needs /\ length (D k) = (n + m)%nat.
  Proof.
    intros Hne H. unfold merge_attempt, merge_dequeue.
    destruct (existsb _ c) eqn:E.
    - exists 0%nat, c. rewrite Nat.add_0_r. split; [reflexivity|]. split; [exact H|].
      apply existsb_exists in E. destruct E as [e [He Hz]].
      clear Hne. induction H as [|k e0 needs c [Hk [Hf Hn]] H IH]; [destruct He|]. destruct He as [->|He].
      + exists k. split; [left; reflexivity|]. apply (f_equal (@length A)) in Hf. rewrite skipn_length in Hf.
        unfold filled in Hf. destruct (snd e) as [v|]; [|cbn in Hf; lia].
        unfold Zlen in Hz. lia.
      + destruct (IH He) as [k' [Hk' Hl]]. exists k'. split; [right; exact Hk'|exact Hl].
    - set (sh := zmin (map (fun e => Zlen (filled e)) c)).
      assert (Hsh : (exists k, In k needs /\ sh = Z.of_nat (length (D k) - n)) /\
                    (forall k, In k needs -> sh <= Z.of_nat (length (D k) - n))).
      { unfold sh. rewrite (minv_lengths _ _ _ _ H).
        destruct (zmin_in (map (fun k => Z.of_nat (length (D k) - n)) needs)) as [Z1 Z2].
        { destruct needs; [congruence|discriminate]. }
        apply in_map_iff in Z1. destruct Z1 as [k [Ek Hk]]. split; [exists k; split; [exact Hk|congruence]|].
        intros k' Hk'. apply Z2. apply (in_map (fun k => Z.of_nat (length (D k) - n)) needs k' Hk'). }
      clearbody sh. destruct Hsh as [[k0 [Hk0 Esh]] Hle].
      assert (Hle' : forall k, In k needs -> (n <= length (D k))%nat).
      { intros k Hk. clear -H Hk. induction H as [|k1 e needs c [_ [_ Hn]] H IH]; [destruct Hk|].
        destruct Hk as [->|Hk]; [exact Hn|exact (IH Hk)]. }
      exists (Z.to_nat sh), (map (fun e => (fst e, Some (py_slice (Some sh) None (filled e)))) c).
      assert (Hslice : forall k e, In k needs -> filled e = skipn n (D k) ->
                py_slice None (Some sh) (filled e) = firstn (Z.to_nat sh) (skipn n (D k)) /\
                py_slice (Some sh) None (filled e) = skipn (n + Z.to_nat sh) (D k)).
      { intros k e Hk Hf. specialize (Hle k Hk). rewrite Hf. split.
        - rewrite py_slice_upto by lia. reflexivity.
        - rewrite py_slice_from by lia. rewrite skipn_skipn'. reflexivity. }
      split; [|split].
      + f_equal. unfold merge_process.
        assert (Em : map snd (map (fun e : nat * option (list A) => (fst e, py_slice None (Some sh) (filled e))) c)
                     = map (fun k => firstn (Z.to_nat sh) (skipn n (D k))) needs).
        { clear Hne E. rewrite map_map. cbn [snd]. clear Hk0 Esh Hle Hle' k0.
          induction H as [|k e needs c [Hk [Hf Hn]] H IH]; [reflexivity|]. cbn [map]. f_equal.
          - apply (Hslice k e (or_introl eq_refl) Hf).
          - apply IH. intros k' e' Hk'. apply Hslice. right. exact Hk'. }
        destruct H as [|k e needs c [Hk [Hf Hn]] H]; [congruence|]. cbn [map] in *.
        rewrite Em. rewrite zip_rows_seq.
        assert (Lf : length (py_slice None (Some sh) (filled e)) = Z.to_nat sh).
        { rewrite (proj1 (Hslice k e (or_introl eq_refl) Hf)), firstn_length, skipn_length.
          specialize (Hle k (or_introl eq_refl)). lia. }
        rewrite Lf. apply map_ext_in. intros i Hi. apply in_seq in Hi. unfold row_of. f_equal.
        change (firstn (Z.to_nat sh) (skipn n (D k)) :: map (fun k => firstn (Z.to_nat sh) (skipn n (D k))) needs)
          with (map (fun k => firstn (Z.to_nat sh) (skipn n (D k))) (k :: needs)).
        rewrite map_map. apply map_ext. intros k'.
        rewrite <- (firstn_skipn n (D k')) at 2.
        clear -Hi. revert i Hi. generalize (Z.to_nat sh) as q. intros q i Hi.
        assert (G : forall (l : list A) a j d, (j < a)%nat -> nth j (firstn a l) d = nth j l d).
        { clear. induction l as [|x l IH]; intros a j d Hj; [destruct a, j; reflexivity|].
          destruct a as [|a]; [lia|]. destruct j as [|j]; [reflexivity|]. cbn. apply IH. lia. }
        rewrite G by lia. rewrite firstn_skipn.
        assert (G2 : forall (l : list A) a j d, nth j (skipn a l) d = nth (a + j) l d).
        { clear. induction l as [|x l IH]; intros a j d; [destruct a, j; reflexivity|].
          destruct a as [|a]; [reflexivity|]. cbn. apply IH. }
        apply G2.
      + clear Hne E Hk0 Esh k0. unfold minv in *. induction H as [|k e needs c [Hk [Hf Hn]] H IH]; [constructor|]. cbn [map]. constructor.
        * cbn [fst]. split; [exact Hk|]. split; [apply (Hslice k e (or_introl eq_refl) Hf)|].
          specialize (Hle k (or_introl eq_refl)). lia.
        * apply IH; [intros k' Hk'; apply Hle; right; exact Hk'|intros k' Hk'; apply Hle'; right; exact Hk'|].
          intros k' e' Hk'. apply Hslice. right. exact Hk'.
      + exists k0. split; [exact Hk0|]. specialize (Hle' k0 Hk0). lia.
  Qed.

  Lemma seq_map_app {B} (g : nat -> B) n m :
    map g (seq 0 n) ++ map (fun i => g (n + i)%nat) (seq 0 m) = map g (seq 0 (n + m)).
  Proof.
    rewrite seq_app, map_app. f_equal. rewrite Nat.add_0_l, <- (map_map (fun i => (n + i)%nat) g). f_equal.
    clear. revert n. induction m as [|m IH]; intros n; [reflexivity|]. cbn [seq map]. f_equal; [lia|].
    rewrite <- (IH (S n)). rewrite <- seq_shift, !map_map. apply map_ext. intros; lia.
  Qed.

  Lemma row_of_stable needs D D' i :
    (forall k, In k needs -> exists t, D' k = D k ++ t) -> (forall k, In k needs -> (i < length (D k))%nat) ->
    row_of needs D' i = row_of needs D i.
  Proof.
    intros H Hl. unfold row_of. f_equal. apply map_ext_in. intros k Hk. destruct (H k Hk) as [t ->].
    apply app_nth1. exact (Hl k Hk).
  Qed.
  Lemma minv_le needs D n c : minv needs D n c -> forall k, In k needs -> (n <= length (D k))%nat.
  Proof.
    intros H k Hk. induction H as [|k1 e needs c [_ [_ Hn]] H IH]; [destruct Hk|].
    destruct Hk as [->|Hk]; [exact Hn|exact (IH Hk)].
  Qed.

  Lemma feed_inv needs : NoDup needs -> needs <> [] -> forall arrivals D n c,
    sized D -> minv needs D n c ->
    Forall (fun e => In (fst e) needs /\ Forall (fun r => (0 < rsize r)%nat) (snd e)) arrivals ->
    exists m c', merge_feed rsize join c arrivals
        = Ok (c', map (fun i => row_of needs (fun k => D k ++ delivered arrivals k) (n + i)) (seq 0 m)) /\
      minv needs (fun k => D k ++ delivered arrivals k) (n + m) c'.
  Proof.
    intros ND Hne. induction arrivals as [|[key d] rest IH]; intros D n c Hsz Hi Hf.
    - exists 0%nat, c. split; [reflexivity|]. rewrite Nat.add_0_r.
      apply Forall2_impl' with (2 := Hi). intros k e _. cbn. rewrite app_nil_r. exact (fun h => h).
    - apply Forall_cons_iff in Hf. destruct Hf as [[Hk Hr] Hf]. cbn [fst snd] in *.
      destruct (enqueue_inv needs D n c key d ND Hk Hsz Hi) as [c1 [E1 I1]].
      destruct (attempt_inv needs (add D key d) n c1 Hne I1) as [m [c2 [E2 [I2 _]]]].
      assert (Hsz' : sized (add D key d)).
      { intros k r Hr'. unfold add in Hr'. destruct (Nat.eqb_spec k key) as [->|_]; [|exact (Hsz k r Hr')].
        apply in_app_or in Hr'. destruct Hr' as [Hr'|Hr']; [exact (Hsz key r Hr')|].
        rewrite Forall_forall in Hr. exact (Hr r Hr'). }
      destruct (IH (add D key d) (n + m)%nat c2 Hsz' I2 Hf) as [m2 [c3 [E3 I3]]].
      assert (ED : forall k, add D key d k ++ delivered rest k = D k ++ delivered ((key, d) :: rest) k).
      { intros k. unfold add, delivered. cbn [filter fst]. rewrite (Nat.eqb_sym key k). destruct (Nat.eqb_spec k key) as [->|_].
        - cbn [map snd concat]. rewrite app_assoc. reflexivity.
        - reflexivity. }
      exists (m + m2)%nat, c3. cbn [merge_feed]. rewrite E1. cbn [bind]. rewrite E2. rewrite E3. cbn [bind].
      split.
      + do 2 f_equal. rewrite <- seq_map_app. f_equal.
        * apply map_ext_in. intros i Hin. apply in_seq in Hin. symmetry. apply row_of_stable.
          { intros k _. exists (delivered rest k). symmetry. apply ED. }
          { intros k Hk'. pose proof (minv_le _ _ _ _ I2 k Hk'). lia. }
        * apply map_ext. intros i. unfold row_of. rewrite Nat.add_assoc. f_equal. apply map_ext. intros k. rewrite ED. reflexivity.
      + rewrite Nat.add_assoc. apply Forall2_impl' with (2 := I3). intros k e _. rewrite ED. exact (fun h => h).
  Qed.

  (** In total: row [i] is emitted exactly when every dependency has delivered its
      row [i], and it is those rows side by side. *)
  Lemma merge_total needs arrivals : (2 <= length needs)%nat -> NoDup needs ->
    Forall (fun e => In (fst e) needs /\ Forall (fun r => (0 < rsize r)%nat) (snd e)) arrivals ->
    exists out, merge_run rsize join needs arrivals = Ok out /\
      (forall i, (i < length out)%nat <-> forall k, In k needs -> (i < length (delivered arrivals k))%nat) /\
      (forall i rows, Forall2 (fun k r => nth_error (delivered arrivals k) i = Some r) needs rows ->
         nth_error out i = Some (join rows)).
  Proof.
    intros Hlen ND Hf. assert (Hne : needs <> []) by (intros ->; cbn in Hlen; lia).
    unfold merge_run, merge_init. destruct (Z.ltb_spec (Zlen needs) 2) as [L|_]; [unfold Zlen in L; lia|]. cbn [bind].
    assert (I0 : minv needs (fun _ => []) 0 (map (fun k => (k, None)) needs)).
    { unfold minv. clear. induction needs as [|k needs IH]; cbn [map]; constructor; [|exact IH].
      cbn. repeat split; lia. }
    destruct (feed_inv needs ND Hne arrivals (fun _ => []) 0%nat _ ltac:(intros k r []) I0 Hf) as [m [c1 [E1 I1]]].
    cbn [app Nat.add] in E1, I1. rewrite E1. cbn [bind].
    destruct (attempt_inv needs (delivered arrivals) m c1 Hne I1) as [m2 [c2 [E2 [I2 [k0 [Hk0 Hl0]]]]]].
    rewrite E2. eexists. split; [reflexivity|].
    change (fun i => row_of needs (fun k => delivered arrivals k) i) with (row_of needs (delivered arrivals)).
    rewrite (seq_map_app (row_of needs (delivered arrivals))). rewrite map_length, seq_length. split.
    - intros i. split.
      + intros Hi k Hk. pose proof (minv_le _ _ _ _ I2 k Hk). lia.
      + intros H. specialize (H k0 Hk0). lia.
    - intros i rows H.
      assert (Hi : forall k, In k needs -> (i < length (delivered arrivals k))%nat).
      { intros k Hk. clear -H Hk. induction H as [|k' r needs rows Hr H IH]; [destruct Hk|].
        destruct Hk as [->|Hk]; [apply nth_error_Some; congruence|exact (IH Hk)]. }
      assert (Hi0 : (i < m + m2)%nat) by (specialize (Hi k0 Hk0); lia).
      rewrite nth_error_map. rewrite (nth_error_nth' (seq 0 (m + m2)) 0%nat) by (rewrite seq_length; exact Hi0).
      rewrite seq_nth by exact Hi0. cbn [option_map]. f_equal. unfold row_of. f_equal. rewrite Nat.add_0_l. clear -H.
      induction H as [|k r needs rows Hr H IH]; [reflexivity|]. cbn [map]. f_equal; [|exact IH].
      apply nth_error_nth. exact Hr.
  Qed.
  Lemma merge_one_need needs arrivals : (length needs < 2)%nat -> merge_run rsize join needs arrivals = Raise ValueError.
  Proof.
    intros H. unfold merge_run, merge_init. destruct (Z.ltb_spec (Zlen needs) 2) as [_|L]; [reflexivity|unfold Zlen in L; lia].
  Qed.
End MergeFacts.
(** data from something that is not a dependency is a KeyError *)
Lemma merge_unknown {A} (rsize : A -> nat) needs key d : ~ In key needs ->
  merge_enqueue rsize (map (fun k => (k, None)) needs) key d = Raise KeyError.
Proof.
  induction needs as [|k needs IH]; intros H; [reflexivity|]. cbn [map merge_enqueue].
  destruct (Nat.eqb_spec k key) as [->|_]; [destruct H; left; reflexivity|]. rewrite IH; [reflexivity|].
  intros Hk. apply H. right. exact Hk.
Qed.
(** two dependencies that are the same node share one cache entry: one of them counts
    for both ([OrderedDict] of the ids); with rows of no elements, arrivals are lost *)
Lemma merge_empty_rows_refuted : exists (needs : list nat) arrivals out,
  NoDup needs /\ merge_run (@length nat) (@concat nat) needs arrivals = Ok out /\
  length (delivered arrivals 0%nat) = 2%nat /\ length (delivered arrivals 1%nat) = 2%nat /\ length out = 1%nat.
Proof.
  exists [0%nat; 1%nat], [(0%nat, [[]]); (0%nat, [[]]); (1%nat, [[5%nat]; [6%nat]])]. eexists.
  split; [repeat constructor; cbn; intuition lia|]. vm_compute. repeat split.
Qed.
Example merge_ex :
  merge_run (@length nat) (@concat nat) [7%nat; 9%nat]
    [(9%nat, [[1%nat]; [2%nat]]); (7%nat, [[10%nat]]); (9%nat, [[3%nat]]); (7%nat, [[20%nat]; [30%nat]; [40%nat]])]
  = Ok [[10%nat; 1%nat]; [20%nat; 2%nat]; [30%nat; 3%nat]].
Proof. reflexivity. Qed.

(** ** C60: Pooled *)
Section PooledFacts.
  Context {T A P : Type} (get_slice : list A -> T -> result (list A)) (op : list A -> result P).
  Context (le : T -> T -> bool).
  Hypothesis le_total : forall x y, le x y = true \/ le y x = true.
  Hypothesis le_trans : forall x y z, le x y = true -> le y z = true -> le x z = true.

  Definition all_rows (chunks : list (@chunk T A)) : list A :=
    concat (map (fun c => match c with Series r => r | Slices _ => [] end) chunks).
  Definition all_slices (chunks : list (@chunk T A)) : list T :=
    concat (map (fun c => match c with Series _ => [] | Slices t => t end) chunks).

  Lemma pooled_fold chunks : forall st,
    let st' := fold_left (pooled_enqueue (isort le)) chunks st in
    Permutation (po_slices st') (po_slices st ++ all_slices chunks) /\
    (StronglySorted (leP le) (po_slices st) -> StronglySorted (leP le) (po_slices st')) /\
    (match po_series st' with None => [] | Some s => s end) = (match po_series st with None => [] | Some s => s end) ++ all_rows chunks /\
    ((exists r, In (Series r) chunks) -> exists s, po_series st' = Some s).
  Proof.
    induction chunks as [|c cs IH]; intros st.
    - cbn. rewrite !app_nil_r. split; [reflexivity|]. split; [exact (fun h => h)|]. split; [reflexivity|]. intros [r []].
    - cbn [fold_left]. destruct (IH (pooled_enqueue (isort le) st c)) as [H1 [H2 [H3 H4]]].
      split; [|split; [|split]].
      + eapply Permutation_trans; [exact H1|]. destruct c as [r|t]; cbn [pooled_enqueue po_slices].
        * reflexivity.
        * unfold all_slices. cbn [map concat]. rewrite app_assoc. apply Permutation_app_tail.
          symmetry. apply isort_perm.
      + intros Hs. apply H2. destruct c as [r|t]; cbn [pooled_enqueue po_slices]; [exact Hs|].
        apply isort_sorted; [exact le_total|exact le_trans].
      + rewrite H3. unfold all_rows. destruct c as [r|t]; cbn [pooled_enqueue po_series map concat].
        * destruct (po_series st); rewrite ?app_assoc; reflexivity.
        * reflexivity.
      + intros [r [E|Hin]]; [|apply H4; exists r; exact Hin]. subst c.
        assert (G : forall (cs : list (@chunk T A)) (st : @pooled_state T A) s, po_series st = Some s -> exists s', po_series (fold_left (pooled_enqueue (isort le)) cs st) = Some s').
        { clear. induction cs as [|c cs IH]; intros st s E; [exists s; exact E|]. cbn [fold_left].
          destruct c as [r|t]; [apply (IH _ (s ++ r))|apply (IH _ s)]; cbn [pooled_enqueue po_series]; rewrite E; reflexivity. }
        cbn [pooled_enqueue po_series]. destruct (po_series st) as [s|] eqn:E; eapply G; cbn [po_series]; reflexivity.
  Qed.
  (** every slice delivered, in time order, with the pooled value of the part of the
      WHOLE series it covers, whatever the order of arrival *)
  Lemma pooled_total chunks out : (exists r, In (Series r) chunks) ->
    pooled_run get_slice op (isort le) chunks = Ok out ->
    Permutation (map fst out) (all_slices chunks) /\ StronglySorted (leP le) (map fst out) /\
    forall ts p, In (ts, p) out -> exists d, get_slice (all_rows chunks) ts = Ok d /\ op d = Ok p.
  Proof.
    intros Hser H. unfold pooled_run in H. destruct (pooled_fold chunks (@pooled_init T A)) as [H1 [H2 [H3 H4]]].
    cbn [pooled_init po_slices po_series app] in H1, H2, H3. destruct (H4 Hser) as [s Es]. rewrite Es in H3. subst s.
    unfold pooled_result in H. rewrite Es in H. apply mapM_inv in H.
    set (l := po_slices _) in *. clearbody l.
    assert (Em : map fst out = l /\ forall ts p, In (ts, p) out -> exists d, get_slice (all_rows chunks) ts = Ok d /\ op d = Ok p).
    { clear H1 H2. induction H as [|ts y l out Hy H [IH1 IH2]]; [split; [reflexivity|intros ? ? []]|].
      destruct (get_slice (all_rows chunks) ts) as [d|e] eqn:Ed; [|discriminate]. cbn [bind] in Hy.
      destruct (op d) as [p|e] eqn:Ep; [|discriminate]. cbn [bind] in Hy. injection Hy as <-. cbn [map fst]. split; [congruence|].
      intros ts' p' [E|Hin]; [injection E as <- <-; exists d; split; assumption|exact (IH2 ts' p' Hin)]. }
    destruct Em as [-> E2]. split; [exact H1|]. split; [apply H2; constructor|exact E2].
  Qed.
End PooledFacts.
Example pooled_ex :
  pooled_run (fun (l : list nat) (t : nat * nat) => Ok (firstn (snd t) (skipn (fst t) l))) (fun d => Ok (length d))
    (isort (fun a b => Nat.leb (fst a) (fst b)))
    [Slices [(2, 2)]; Series [10; 20; 30]; Slices [(0, 2)]; Series [40]]%nat
  = Ok [((0, 2), 2); ((2, 2), 2)]%nat.
Proof. reflexivity. Qed.
