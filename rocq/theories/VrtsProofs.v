(** Specifications and proofs for Vrts.v. *)
From Verif Require Import PyBase PyFacts PyMore Time Vrts.
From Coq Require Import Sorting.Permutation Sorting.Sorted.
Local Open Scope Z_scope.

Section Proofs.
  Context {A D : Type} (rshape : A -> list nat) (rtype : A -> D) (cast : D -> A -> A).
  Hypothesis cast_same : forall a, cast (rtype a) a = a.

  Definition start_ps (x : @item A) : Z := ps (ts_start (fst x)).
  (** all rows of one shape and dtype *)
  Definition homogeneous (l : list (@item A)) : Prop :=
    forall x y, In x l -> In y l -> rshape (snd x) = rshape (snd y) /\ rtype (snd x) = rtype (snd y).
  Definition starting_at (s : Z) (l : list (@item A)) : list item := filter (fun x => start_ps x =? s) l.

  (** the series of the pairs [data]: the same pairs, by start, equal starts in
      the given order *)
  Definition series_of (data r : list (@item A)) : Prop :=
    Permutation data r /\ StronglySorted (fun x y => start_ps x <= start_ps y) r /\
    forall s, starting_at s r = starting_at s data.

  Lemma insert_perm (le : item -> item -> bool) x (l : list (@item A)) : Permutation (x :: l) (insert le x l).
  Proof.
    induction l as [|y l IH]; [reflexivity|]. cbn [insert]. destruct (le x y); [reflexivity|].
    rewrite perm_swap. constructor. exact IH.
  Qed.
  Lemma isort_perm (le : item -> item -> bool) (l : list (@item A)) : Permutation l (isort le l).
  Proof. induction l as [|x l IH]; [constructor|]. cbn [isort]. rewrite <- insert_perm. constructor. exact IH. Qed.

  Lemma item_le_iff (x y : @item A) : item_le x y = true <-> start_ps x <= start_ps y.
  Proof. unfold item_le, ts_lt, start_ps. rewrite negb_true_iff, Z.ltb_ge. reflexivity. Qed.

  Lemma insert_sorted x (l : list (@item A)) :
    StronglySorted (fun x y => start_ps x <= start_ps y) l ->
    StronglySorted (fun x y => start_ps x <= start_ps y) (insert item_le x l).
  Proof.
    induction 1 as [|y l S IH F]; cbn [insert]; [repeat constructor|].
    destruct (item_le x y) eqn:E.
    - apply item_le_iff in E. constructor; [constructor; assumption|].
      constructor; [exact E|]. eapply Forall_impl; [|exact F]. cbn. lia.
    - assert (~ start_ps x <= start_ps y) by (intros H; apply item_le_iff in H; congruence).
      constructor; [exact IH|]. rewrite Forall_forall in *. intros z Hz.
      apply (Permutation_in _ (Permutation_sym (insert_perm item_le x l))) in Hz.
      destruct Hz as [<-|Hz]; [lia|apply F; exact Hz].
  Qed.
  Lemma sort_sorted l : StronglySorted (fun x y => start_ps x <= start_ps y) (sort_items l).
  Proof. induction l as [|x l IH]; [constructor|]. apply insert_sorted. exact IH. Qed.

  Lemma insert_stable x (l : list (@item A)) s :
    starting_at s (insert item_le x l) = starting_at s (x :: l).
  Proof.
    induction l as [|y l IH]; [reflexivity|]. cbn [insert]. destruct (item_le x y) eqn:E; [reflexivity|].
    assert (~ start_ps x <= start_ps y) by (intros H; apply item_le_iff in H; congruence).
    unfold starting_at in *. cbn [filter] in *. rewrite IH.
    destruct (Z.eqb_spec (start_ps x) s), (Z.eqb_spec (start_ps y) s); try reflexivity. lia.
  Qed.
  Lemma sort_stable l s : starting_at s (sort_items l) = starting_at s l.
  Proof.
    induction l as [|x l IH]; [reflexivity|]. change (sort_items (x :: l)) with (insert item_le x (sort_items l)).
    rewrite insert_stable. unfold starting_at in *. cbn [filter]. rewrite IH. reflexivity.
  Qed.

  Lemma sort_series l : series_of l (sort_items l).
  Proof. split; [apply isort_perm|]. split; [apply sort_sorted|]. apply sort_stable. Qed.

  (** the specification determines the series *)
  Lemma series_unique data r r' : series_of data r -> series_of data r' -> r = r'.
  Proof.
    intros (_ & S & St) (_ & S' & St').
    assert (E : forall s, starting_at s r = starting_at s r') by (intros s; rewrite St, St'; reflexivity).
    clear St St' data. revert r' S' E. induction S as [|x r S IH F]; intros r' S' E.
    - destruct r' as [|y r']; [reflexivity|]. specialize (E (start_ps y)). cbn in E.
      rewrite Z.eqb_refl in E. discriminate E.
    - destruct r' as [|y r'].
      { specialize (E (start_ps x)). cbn in E. rewrite Z.eqb_refl in E. discriminate E. }
      inversion S' as [|? ? S1' F']; subst.
      assert (Exy : start_ps x = start_ps y).
      { rewrite Forall_forall in F, F'.
        assert (L1 : start_ps x <= start_ps y).
        { pose proof (E (start_ps y)) as Ey. unfold starting_at in Ey. cbn [filter] in Ey. rewrite Z.eqb_refl in Ey.
          destruct (Z.eqb_spec (start_ps x) (start_ps y)); [lia|].
          assert (In y (filter (fun x0 => start_ps x0 =? start_ps y) r)) as Hin by (rewrite Ey; left; reflexivity).
          apply filter_In in Hin. apply F, Hin. }
        assert (L2 : start_ps y <= start_ps x).
        { pose proof (E (start_ps x)) as Ey. unfold starting_at in Ey. cbn [filter] in Ey. rewrite Z.eqb_refl in Ey.
          destruct (Z.eqb_spec (start_ps y) (start_ps x)); [lia|].
          assert (In x (filter (fun x0 => start_ps x0 =? start_ps x) r')) as Hin by (rewrite <- Ey; left; reflexivity).
          apply filter_In in Hin. apply F', Hin. }
        lia. }
      pose proof (E (start_ps x)) as Ex. unfold starting_at in Ex. cbn [filter] in Ex.
      rewrite Exy, !Z.eqb_refl in Ex. injection Ex as -> _. f_equal. apply IH; [exact S1'|].
      intros s. specialize (E s). unfold starting_at in E. cbn [filter] in E.
      destruct (start_ps y =? s); [injection E as E; exact E|exact E].
  Qed.

  Lemma make_homogeneous l : homogeneous l -> vrts_make rshape rtype cast l = Ok (sort_items l).
  Proof.
    intros H. unfold vrts_make. destruct (sort_items l) as [|[t ex] r] eqn:E; [reflexivity|].
    assert (Hin : forall x, In x (sort_items l) -> In x l)
      by (intros x Hx; apply (Permutation_in _ (Permutation_sym (isort_perm item_le l))); exact Hx).
    rewrite <- E.
    assert (Hex : In (t, ex) l) by (apply Hin; rewrite E; left; reflexivity).
    assert (B : forallb (fun x => shape_eqb (rshape (snd x)) (rshape ex)) (sort_items l) = true).
    { apply forallb_forall. intros x Hx. unfold shape_eqb.
      destruct (list_eq_dec Nat.eq_dec _ _) as [|N]; [reflexivity|]. exfalso. apply N.
      apply (H x (t, ex)); [apply Hin; exact Hx|exact Hex]. }
    rewrite B. f_equal. rewrite <- (map_id (sort_items l)) at 2. apply map_ext_in.
    intros [u a] Hx. cbn [fst snd]. f_equal.
    rewrite <- (cast_same a) at 2. f_equal.
    symmetry. apply (H (u, a) (t, ex)); [apply Hin; exact Hx|exact Hex].
  Qed.

  Theorem make_spec l : homogeneous l ->
    exists r, vrts_make rshape rtype cast l = Ok r /\ series_of l r.
  Proof. intros H. exists (sort_items l). split; [apply make_homogeneous; exact H|apply sort_series]. Qed.

  Theorem concat_series a b : homogeneous (a ++ b) ->
    exists r, vrts_concat rshape rtype cast a b = Ok r /\ series_of (a ++ b) r.
  Proof. apply make_spec. Qed.

  Lemma homogeneous_incl l m : homogeneous l -> incl m l -> homogeneous m.
  Proof. intros H I x y Hx Hy. apply H; apply I; assumption. Qed.

  Lemma sorted_id l : StronglySorted (fun x y => start_ps x <= start_ps y) l -> sort_items l = l.
  Proof.
    intros S. apply (series_unique l); [apply sort_series|]. split; [reflexivity|]. split; [exact S|reflexivity].
  Qed.

  (** interval of a slice *)
  Definition instant_in (t : timeslice) (x : Z) : Prop :=
    ps (ts_start t) <= x /\ match ts_duration t with None => True | Some d => x < ps (ts_start t) + ps d end.
  Definition overlaps (t q : timeslice) : Prop := exists x, instant_in t x /\ instant_in q x.

  Lemma sorted_filter p l : StronglySorted (fun x y : @item A => start_ps x <= start_ps y) l ->
    StronglySorted (fun x y => start_ps x <= start_ps y) (filter p l).
  Proof.
    induction 1 as [|x l S IH F]; cbn [filter]; [constructor|]. destruct (p x); [|exact IH].
    constructor; [exact IH|]. rewrite Forall_forall in *. intros z Hz. apply filter_In in Hz. apply F, Hz.
  Qed.

  Definition keeps (q : timeslice) (x : @item A) : bool :=
    match ts_duration (fst x) with
    | None => false
    | Some d =>
        (ps (ts_start q) <? start_ps x + ps d) &&
        match ts_duration q with None => true | Some dq => start_ps x <? ps (ts_start q) + ps dq end
    end.

  Lemma keeps_overlaps q x d : ts_duration (fst x) = Some d -> 0 < ps d ->
    (forall dq, ts_duration q = Some dq -> 0 < ps dq) ->
    (keeps q x = true <-> overlaps (fst x) q).
  Proof.
    intros E Hd Hq. unfold keeps, overlaps, instant_in, start_ps. rewrite E.
    destruct (ts_duration q) as [dq|] eqn:Eq.
    - specialize (Hq dq eq_refl). rewrite andb_true_iff, !Z.ltb_lt. split.
      + intros [H1 H2]. exists (Z.max (ps (ts_start (fst x))) (ps (ts_start q))). lia.
      + intros (z & H1 & H2). lia.
    - rewrite andb_true_r, Z.ltb_lt. split.
      + intros H1. exists (Z.max (ps (ts_start (fst x))) (ps (ts_start q))). lia.
      + intros (z & H1 & H2). lia.
  Qed.

  Lemma filterM_ok q v : (forall x, In x v -> ts_duration (fst x) <> None) ->
    filterM (vrts_test q) v = Ok (filter (keeps q) v).
  Proof.
    induction v as [|x v IH]; intros H; [reflexivity|]. cbn [filterM filter].
    assert (E : vrts_test q x = Ok (keeps q x)).
    { unfold vrts_test, ts_end, keeps, start_ps. destruct (ts_duration (fst x)) as [d|] eqn:Ed.
      2:{ exfalso. apply (H x); [left; reflexivity|exact Ed]. }
      cbn [bind]. destruct (ps (ts_start q) <? ps (ts_start (fst x)) + ps d); [|reflexivity].
      destruct (ts_duration q); reflexivity. }
    rewrite E. cbn [bind]. rewrite IH by (intros y Hy; apply H; right; exact Hy). cbn [bind].
    destruct (keeps q x); reflexivity.
  Qed.

  (** slicing keeps exactly the overlapping pairs, in order *)
  Theorem get_spec v q :
    homogeneous v -> StronglySorted (fun x y => start_ps x <= start_ps y) v ->
    (forall x, In x v -> exists d, ts_duration (fst x) = Some d /\ 0 < ps d) ->
    (forall dq, ts_duration q = Some dq -> 0 < ps dq) ->
    exists keep, vrts_get rshape rtype cast v q = Ok (filter keep v) /\
      forall x, In x v -> (keep x = true <-> overlaps (fst x) q).
  Proof.
    intros H S P Q. exists (keeps q). unfold vrts_get. rewrite filterM_ok.
    - cbn [bind]. split.
      + rewrite make_homogeneous, sorted_id; [reflexivity|apply sorted_filter; exact S|].
        eapply homogeneous_incl; [exact H|]. intros x Hx. apply filter_In in Hx. apply Hx.
      + intros x Hx. destruct (P x Hx) as (d & Ed & Hd). eapply keeps_overlaps; eassumption.
    - intros x Hx. destruct (P x Hx) as (d & Ed & _). congruence.
  Qed.

  Lemma last_indep (l : list (@item A)) z d e : last (z :: l) d = last (z :: l) e.
  Proof. revert z; induction l as [|w l IH]; intros z; [reflexivity|exact (IH w)]. Qed.
  (** the span runs from the start of the first to the end of the last slice *)
  Theorem span_exact (v : list (@item A)) x d :
    v <> [] -> ts_duration (fst (last v x)) = Some d ->
    vrts_span v = Ok (start_ps (hd x v), start_ps (last v x) + ps d - start_ps (hd x v)).
  Proof.
    intros N Hd. destruct v as [|y r]; [contradiction|]. cbn [hd]. unfold vrts_span, vrts_end.
    assert (L : last (y :: r) x = last (y :: r) y).
    { apply last_indep. }
    rewrite L in *. unfold ts_end. rewrite Hd. cbn [bind]. unfold start_ps. reflexivity.
  Qed.
  (** slices of ints are list slices: a series of the rows from [a] up to [b], still sorted *)
  Theorem slice_rows (v : list (@item A)) (a b : nat) : (a <= b <= length v)%nat ->
    vrts_slice v (Some (Z.of_nat a)) (Some (Z.of_nat b)) = firstn (b - a) (skipn a v).
  Proof. intros H. unfold vrts_slice. rewrite py_slice_pos by (unfold Zlen; lia). f_equal; [lia|f_equal; lia]. Qed.

  (** the span starts at the earliest start *)
  Theorem span_start v x r s d : StronglySorted (fun x y => start_ps x <= start_ps y) v ->
    v = x :: r -> vrts_span v = Ok (s, d) -> forall y, In y v -> s <= start_ps y.
  Proof.
    intros S -> H y Hy. unfold vrts_span in H. destruct (vrts_end (x :: r)); [|discriminate].
    injection H as <- _. inversion S as [|? ? ? F]; subst. destruct Hy as [<-|Hy]; [unfold start_ps; lia|].
    rewrite Forall_forall in F. apply F. exact Hy.
  Qed.

  (** ** persistence *)
  Lemma to_double_exact x : Z.abs x <= 2 ^ 53 -> to_double x = x.
  Proof.
    intros H. unfold to_double. destruct (Z.ltb_spec (Z.abs x) (2 ^ 53)) as [L|L]; [reflexivity|].
    assert (E : Z.abs x = 2 ^ 53) by lia. rewrite E.
    replace (round_half_even (2 ^ 53) (2 ^ (Z.log2 (2 ^ 53) - 52)) * 2 ^ (Z.log2 (2 ^ 53) - 52)) with (2 ^ 53)
      by (vm_compute; reflexivity).
    rewrite <- E. rewrite Z.mul_comm, Z.abs_sgn. reflexivity.
  Qed.

  Lemma mk_timeslice_ps d s : ps (ts_start (mk_timeslice (Some (picoseconds d)) (Some (picoseconds s)))) = s.
  Proof.
    unfold mk_timeslice, ps, picoseconds; cbn. destruct (Z.eqb_spec s 0); cbn; [subst; lia|lia].
  Qed.

  Theorem persist_roundtrip v :
    homogeneous v -> StronglySorted (fun x y => start_ps x <= start_ps y) v ->
    (forall x, In x v -> exists d, ts_duration (fst x) = Some d /\ Z.abs (ps d) <= 2 ^ 53 /\ Z.abs (start_ps x) <= 2 ^ 53) ->
    exists raw r, vrts_encode v = Ok raw /\ vrts_decode rshape rtype cast raw = Ok r /\
      Forall2 (fun x y => ts_eq (fst x) (fst y) = true /\ snd x = snd y) v r.
  Proof.
    intros H S P.
    set (g := fun x : @item A => {| s_start := start_ps x;
        s_duration := match ts_duration (fst x) with Some d => ps d | None => 0 end; s_data := snd x |}).
    exists (map g v), (map restore (map g v)).
    assert (E : vrts_encode v = Ok (map g v)).
    { unfold vrts_encode. apply mapM_ok. intros x Hx. destruct (P x Hx) as (d & Ed & Hd & Hs).
      unfold prepare, g. rewrite Ed, !to_double_exact by assumption. reflexivity. }
    split; [exact E|].
    assert (F : Forall2 (fun x y => ts_eq (fst x) (fst y) = true /\ snd x = snd y) v (map restore (map g v))).
    { clear E H S. induction v as [|x v IH]; [constructor|]. cbn [map].
      constructor; [|apply IH; intros y Hy; apply P; right; exact Hy].
      destruct (P x (or_introl eq_refl)) as (d & Ed & _). split; [|reflexivity].
      unfold restore, g. cbn [fst s_start s_duration]. rewrite Ed. unfold ts_eq.
      rewrite mk_timeslice_ps. unfold start_ps. rewrite Z.eqb_refl. cbn [andb mk_timeslice ts_duration].
      rewrite Ed. unfold ps at 2, picoseconds; cbn [td_count td_unit unit_ps]. apply Z.eqb_eq. lia. }
    split; [|exact F].
    unfold vrts_decode. rewrite make_homogeneous.
    - f_equal. apply sorted_id.
      assert (Es : forall x, start_ps (restore (g x)) = start_ps x).
      { intros x. unfold restore, g. unfold start_ps at 1. cbn [fst s_start s_duration].
        apply mk_timeslice_ps. }
      clear -S Es. rewrite map_map. induction S as [|x v S IH F]; cbn [map]; [constructor|].
      constructor; [exact IH|]. rewrite Forall_forall in *. intros y Hy. apply in_map_iff in Hy.
      destruct Hy as (z & <- & Hz). rewrite !Es. apply F. exact Hz.
    - intros x y Hx Hy. rewrite map_map in Hx, Hy. apply in_map_iff in Hx, Hy.
      destruct Hx as (x' & <- & Hx'). destruct Hy as (y' & <- & Hy'). cbn. apply H; assumption.
  Qed.

  (** beyond that the stored instants are the nearest doubles: off by at most
      one part in 2^53 *)
  Lemma to_double_error x : Z.abs (to_double x - x) * 2 ^ 53 <= Z.abs x.
  Proof.
    unfold to_double. destruct (Z.ltb_spec (Z.abs x) (2 ^ 53)) as [L|L].
    { rewrite Z.sub_diag. change (Z.abs 0) with 0. lia. }
    set (m := Z.abs x) in *. set (k := Z.log2 m - 52).
    assert (Hm : 0 < m) by lia. pose proof (Z.log2_spec m Hm) as [L1 L2].
    assert (Lk : 53 <= Z.log2 m) by (apply Z.log2_le_pow2; lia).
    set (q := 2 ^ k). assert (Hk : 1 <= k) by (unfold k; lia).
    assert (Hq : 0 < q) by (apply Z.pow_pos_nonneg; lia).
    assert (Q53 : q * 2 ^ 52 = 2 ^ Z.log2 m) by (unfold q, k; rewrite <- Z.pow_add_r by lia; f_equal; lia).
    assert (R : 2 * Z.abs (round_half_even m q * q - m) <= q).
    { unfold round_half_even. pose proof (Z.div_mod m q ltac:(lia)) as DM.
      pose proof (Z.mod_pos_bound m q Hq) as MB.
      replace (m - m / q * q) with (m mod q) by lia.
      destruct (Z.ltb_spec (2 * (m mod q)) q); [rewrite Z.abs_neq; nia|].
      destruct (Z.ltb_spec q (2 * (m mod q))); [rewrite Z.abs_eq; nia|].
      destruct (Z.even (m / q)); [rewrite Z.abs_neq; nia|rewrite Z.abs_eq; nia]. }
    assert (Ex : Z.abs (Z.sgn x * (round_half_even m q * q) - x) = Z.abs (round_half_even m q * q - m)).
    { replace (Z.sgn x * (round_half_even m q * q) - x) with (Z.sgn x * (round_half_even m q * q - m)).
      - rewrite Z.abs_mul. assert (Z.abs (Z.sgn x) = 1) by lia. lia.
      - rewrite Z.mul_sub_distr_l. pose proof (Z.abs_sgn x) as As. fold m in As. rewrite (Z.mul_comm (Z.sgn x) m), As. reflexivity. }
    rewrite Ex. nia.
  Qed.
End Proofs.

(** ** Counterexamples and examples *)
Definition sl (s d : Z) : timeslice := mk_timeslice (Some (picoseconds d)) (Some (picoseconds s)).
(** the end of a series is the end of the last slice, not the latest end *)
Lemma end_refuted :
  let v := [(sl 0 100, tt); (sl 10 20, tt)] in
  vrts_make (fun _ => []) (fun _ => tt) (fun _ a => a) v = Ok v /\
  vrts_span v = Ok (0, 30) /\ ts_end (sl 0 100) = Ok 100.
Proof. repeat split; vm_compute; reflexivity. Qed.
(** rows of another dtype are converted to that of the earliest row *)
Lemma mixed_dtype_refuted :
  (* rows are halves: an int row (true) holds whole numbers only *)
  let rtype := fun a : bool * Z => fst a in
  let cast := fun (d : bool) (a : bool * Z) => if d then (true, 2 * (snd a / 2)) else (false, snd a) in
  let a := (sl 0 1, (true, 4)) in let b := (sl 1 1, (false, 5)) in
  vrts_make (fun _ => []) rtype cast [a; b] = Ok [a; (sl 1 1, (true, 4))].
Proof. vm_compute. reflexivity. Qed.
(** an instant of 2^53 + 1 picoseconds (about two and a half hours) is not kept *)
Lemma persist_refuted :
  let v := [(sl (2 ^ 53 + 1) 1, tt)] in
  exists raw, vrts_encode v = Ok raw /\
    vrts_decode (fun _ => []) (fun _ => tt) (fun _ a => a) raw = Ok [(sl (2 ^ 53) 1, tt)] /\
    ts_eq (sl (2 ^ 53 + 1) 1) (sl (2 ^ 53) 1) = false.
Proof. eexists. repeat split; vm_compute; reflexivity. Qed.
(** a slice without duration cannot be stored *)
Lemma persist_none_refuted (a : unit) :
  vrts_encode [(mk_timeslice None None, a)] = Raise TypeError.
Proof. reflexivity. Qed.

Example vrts_example :
  let v := [(sl 30 10, 1); (sl 0 10, 2); (sl 30 5, 3)] in
  homogeneous (fun _ : Z => []) (fun _ => tt) v /\
  vrts_make (fun _ : Z => []) (fun _ => tt) (fun _ a => a) v = Ok [(sl 0 10, 2); (sl 30 10, 1); (sl 30 5, 3)] /\
  vrts_get (fun _ : Z => []) (fun _ => tt) (fun _ a => a) [(sl 0 10, 2); (sl 30 10, 1); (sl 30 5, 3)] (sl 36 10)
    = Ok [(sl 30 10, 1)].
Proof. split; [split; reflexivity|]. split; vm_compute; reflexivity. Qed.

(** values of two shapes do not make a series *)
Theorem mixed_shapes {A D} (rshape : A -> list nat) (rtype : A -> D) cast (l : list (@item A)) x y :
  In x l -> In y l -> rshape (snd x) <> rshape (snd y) -> vrts_make rshape rtype cast l = Raise ValueError.
Proof.
  intros Hx Hy N. unfold vrts_make. destruct (sort_items l) as [|[t ex] r] eqn:E.
  - apply (Permutation_in _ (isort_perm item_le l)) in Hx. fold (sort_items l) in Hx. rewrite E in Hx. destruct Hx.
  - rewrite <- E. destruct (forallb (fun z => shape_eqb (rshape (snd z)) (rshape ex)) (sort_items l)) eqn:B; [|reflexivity]. exfalso. rewrite forallb_forall in B.
    assert (S : forall z, In z l -> rshape (snd z) = rshape ex).
    { intros z Hz. apply (Permutation_in _ (isort_perm item_le l)) in Hz. specialize (B z Hz). unfold shape_eqb in B. destruct (list_eq_dec _ _ _) as [G|]; [exact G|discriminate]. }
    apply N. now rewrite (S x Hx), (S y Hy).
Qed.
