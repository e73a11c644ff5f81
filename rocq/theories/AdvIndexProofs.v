(** Proofs about indexing with lists beside other elements. *)
From Verif Require Import PyBase PyFacts PyMore Time Freq FreqDim Axis AxisProofs Ops OpsProofs OpsProofs2 OpsProofs5 Masks MasksProofs MasksProofs3 AdvIndex.
From Coq Require Import Reals Lra.
Local Open Scope nat_scope.

Definition to_sel (s : asel) : sel := match s with ANew => TNew | AInt i => TPick i | ARange l => TPos l | AList l => TPos l end.
Definition is_alist (s : asel) : bool := match s with AList _ => true | _ => false end.
Definition plain (s : asel) : bool := negb (advanced s).

Lemma asels_sels ell ix : forall sh, sels ell sh ix = do ss <- asels ell sh ix; Ok (map to_sel ss).
Proof.
  assert (F : forall sh, map to_sel (map afull sh) = map full sh) by (intros sh; rewrite map_map; reflexivity).
  induction ix as [|x ix IH]; intros sh; [cbn [sels asels bind]; now rewrite F|].
  destruct x; cbn [sels asels];
    try (rewrite IH; destruct (asels _ _ ix); cbn [bind]; [|reflexivity]; try rewrite map_app, F; reflexivity);
    (destruct sh as [|n sh]; [reflexivity|]);
    try (destruct (pick n i); cbn [bind]; [|reflexivity]; rewrite IH; destruct (asels _ _ ix); reflexivity);
    try (destruct (mapM (pick n) l); cbn [bind]; [|reflexivity]; rewrite IH; destruct (asels _ _ ix); reflexivity);
    try (destruct (step =? 0)%Z; cbn [bind]; [reflexivity|]; rewrite IH; destruct (asels _ _ ix); reflexivity);
    reflexivity.
Qed.

(** the parts of an index *)
Definition ix_adv (x : nix) : bool := match x with NInt _ | NNpInt _ | NList _ => true | _ => false end.
Definition ix_list (x : nix) : bool := match x with NList _ => true | _ => false end.
Lemma plain_fulls sh : forallb plain (map afull sh) = true.
Proof. induction sh; cbn; auto. Qed.
Lemma asels_plain_prefix ell a b : forall sh ss, forallb (fun x => negb (ix_adv x)) a = true -> asels ell sh (a ++ b) = Ok ss ->
  exists sh' s1 s2, ss = s1 ++ s2 /\ asels ell sh' b = Ok s2 /\ forallb plain s1 = true.
Proof.
  induction a as [|x a IH]; intros sh ss P E; [exists sh, [], ss; repeat split; exact E|].
  cbn [forallb] in P. apply andb_true_iff in P. destruct P as [Px Pa].
  destruct x; try discriminate Px; cbn [app asels] in E.
  - destruct (asels ell sh (a ++ b)) as [r|] eqn:Er; cbn [bind] in E; [|discriminate].
    destruct (IH _ _ Pa Er) as (sh' & s1 & s2 & -> & E2 & P1). exists sh', (ANew :: s1), s2. repeat split; [injection E as <-; reflexivity|exact E2|exact P1].
  - destruct (asels ell (skipn ell sh) (a ++ b)) as [r|] eqn:Er; cbn [bind] in E; [|discriminate].
    destruct (IH _ _ Pa Er) as (sh' & s1 & s2 & -> & E2 & P1). exists sh', (map afull (firstn ell sh) ++ s1), s2.
    repeat split; [injection E as <-; apply app_assoc|exact E2|]. now rewrite forallb_app, plain_fulls, P1.
  - destruct sh as [|n sh]; [discriminate|]. destruct (step =? 0)%Z; cbn [bind] in E; [discriminate|].
    destruct (asels ell sh (a ++ b)) as [r|] eqn:Er; cbn [bind] in E; [|discriminate].
    destruct (IH _ _ Pa Er) as (sh' & s1 & s2 & -> & E2 & P1). eexists sh', (ARange _ :: s1), s2. repeat split; [injection E as <-; reflexivity|exact E2|exact P1].
  - destruct sh as [|n sh]; discriminate.
Qed.
Lemma asels_adv_prefix ell a b : forall sh ss, forallb ix_adv a = true -> asels ell sh (a ++ b) = Ok ss ->
  exists sh' s1 s2, ss = s1 ++ s2 /\ asels ell sh' b = Ok s2 /\ forallb advanced s1 = true /\ count is_alist s1 = count ix_list a.
Proof.
  induction a as [|x a IH]; intros sh ss P E; [exists sh, [], ss; repeat split; exact E|].
  cbn [forallb] in P. apply andb_true_iff in P. destruct P as [Px Pa].
  destruct x; try discriminate Px; cbn [app asels] in E; (destruct sh as [|n sh]; [discriminate|]).
  - destruct (pick n i) as [k|]; cbn [bind] in E; [|discriminate]. destruct (asels ell sh (a ++ b)) as [r|] eqn:Er; cbn [bind] in E; [|discriminate].
    destruct (IH _ _ Pa Er) as (sh' & s1 & s2 & -> & E2 & P1 & C1). exists sh', (AInt k :: s1), s2. repeat split; [injection E as <-; reflexivity|exact E2|exact P1|exact C1].
  - destruct (pick n i) as [k|]; cbn [bind] in E; [|discriminate]. destruct (asels ell sh (a ++ b)) as [r|] eqn:Er; cbn [bind] in E; [|discriminate].
    destruct (IH _ _ Pa Er) as (sh' & s1 & s2 & -> & E2 & P1 & C1). exists sh', (AInt k :: s1), s2. repeat split; [injection E as <-; reflexivity|exact E2|exact P1|exact C1].
  - destruct (mapM (pick n) l) as [k|]; cbn [bind] in E; [|discriminate]. destruct (asels ell sh (a ++ b)) as [r|] eqn:Er; cbn [bind] in E; [|discriminate].
    destruct (IH _ _ Pa Er) as (sh' & s1 & s2 & -> & E2 & P1 & C1). exists sh', (AList k :: s1), s2.
    repeat split; [injection E as <-; reflexivity|exact E2|exact P1|]. unfold count in *. cbn [filter is_alist ix_list length]. congruence.
Qed.

(** what the selectors stand for *)
Lemma drop_plain s1 s2 : forallb plain s1 = true -> drop_while (fun s => negb (advanced s)) (s1 ++ s2) = drop_while (fun s => negb (advanced s)) s2.
Proof. induction s1 as [|x s1 IH]; intros H; [reflexivity|]. cbn [forallb] in H. apply andb_true_iff in H. destruct H as [Hx H]. cbn [app drop_while]. change (negb (advanced x)) with (plain x). rewrite Hx. exact (IH H). Qed.
Lemma take_plain s1 x s2 : forallb plain s1 = true -> advanced x = true -> take_while (fun s => negb (advanced s)) (s1 ++ x :: s2) = s1.
Proof.
  intros H Hx. induction s1 as [|y s1 IH]; cbn [app take_while]; [now rewrite Hx|].
  cbn [forallb] in H. apply andb_true_iff in H. destruct H as [Hy H]. change (negb (advanced y)) with (plain y). rewrite Hy. f_equal. exact (IH H).
Qed.
Lemma drop_adv s1 s2 : forallb advanced s1 = true -> drop_while advanced (s1 ++ s2) = drop_while advanced s2.
Proof. induction s1 as [|x s1 IH]; intros H; [reflexivity|]. cbn [forallb] in H. apply andb_true_iff in H. destruct H as [Hx H]. cbn [app drop_while]. rewrite Hx. exact (IH H). Qed.
Lemma plain_none s : forallb plain s = true -> existsb advanced s = false.
Proof. induction s as [|x s IH]; intros H; [reflexivity|]. cbn [forallb] in H. apply andb_true_iff in H. destruct H as [Hx H]. cbn [existsb]. rewrite (IH H). unfold plain in Hx. destruct (advanced x); [discriminate|reflexivity]. Qed.
Lemma drop_plain_id s : forallb plain s = true -> drop_while advanced s = s.
Proof. destruct s as [|x s]; intros H; [reflexivity|]. cbn [forallb] in H. apply andb_true_iff in H. destruct H as [Hx _]. cbn [drop_while]. unfold plain in Hx. destruct (advanced x); [discriminate|reflexivity]. Qed.
Lemma not_apart p m q : forallb plain p = true -> forallb advanced m = true -> m <> [] -> forallb plain q = true -> apart (p ++ m ++ q) = false.
Proof.
  intros P M N Q. unfold apart. rewrite drop_plain by exact P. destruct m as [|x m]; [contradiction|].
  assert (A : advanced x = true) by (cbn [forallb] in M; now apply andb_true_iff in M). cbn [app drop_while]. rewrite A. cbn [negb]. change (x :: m ++ q) with ((x :: m) ++ q).
  rewrite drop_adv by exact M. rewrite drop_plain_id by exact Q. now apply plain_none.
Qed.
Lemma plain_sels s : count is_alist s = 0 -> sel_shape (map to_sel s) = plain_shape s /\ paired s = Some 1 /\
  forall k jx, adv_source s k jx = sel_source (map to_sel s) jx.
Proof.
  induction s as [|x s IH]; intros C; [repeat split|]. unfold count in C. cbn [filter] in C. destruct x; cbn [is_alist] in C; try discriminate C;
    destruct (IH C) as (S & P & E); repeat split; cbn [map to_sel sel_shape plain_shape paired adv_source sel_source]; try congruence; intros k jx; now rewrite ?E.
Qed.
Lemma plain_no_list s : forallb plain s = true -> count is_alist s = 0.
Proof.
  induction s as [|x s IH]; intros H; [reflexivity|]. cbn [forallb] in H. apply andb_true_iff in H. destruct H as [Hx H].
  unfold count in *. cbn [filter]. destruct x; try discriminate Hx; exact (IH H).
Qed.
Lemma count_cons {A} (p : A -> bool) x l : count p (x :: l) = (if p x then 1 else 0) + count p l.
Proof. unfold count. cbn [filter]. destruct (p x); reflexivity. Qed.
Lemma plain_shape_app a b : plain_shape (a ++ b) = plain_shape a ++ plain_shape b.
Proof. induction a as [|x a IH]; [reflexivity|]. destruct x; cbn [app plain_shape]; rewrite IH; reflexivity. Qed.
Lemma adv_no_shape m : forallb advanced m = true -> plain_shape m = [].
Proof. induction m as [|x m IH]; intros H; [reflexivity|]. cbn [forallb] in H. apply andb_true_iff in H. destruct H as [Hx H]. destruct x; try discriminate Hx; exact (IH H). Qed.
Lemma paired_plain p s : forallb plain p = true -> paired (p ++ s) = paired s.
Proof. induction p as [|x p IH]; intros H; [reflexivity|]. cbn [forallb] in H. apply andb_true_iff in H. destruct H as [Hx H]. destruct x; try discriminate Hx; exact (IH H). Qed.
(** past the plain axes before the lists *)
Lemma source_plain_prefix p s k : forall jp jq, forallb plain p = true -> length jp = length (plain_shape p) ->
  adv_source (p ++ s) k (jp ++ jq) = sel_source (map to_sel p) jp ++ adv_source s k jq /\
  (forall j', sel_source (map to_sel (p ++ s)) (jp ++ j') = sel_source (map to_sel p) jp ++ sel_source (map to_sel s) j').
Proof.
  induction p as [|x p IH]; intros jp jq P L.
  - destruct jp; [|discriminate L]. split; reflexivity.
  - cbn [forallb] in P. apply andb_true_iff in P. destruct P as [Px P].
    destruct x; try discriminate Px; cbn [plain_shape length] in L; (destruct jp as [|j jp]; [discriminate L|]); injection L as L;
      cbn [app map to_sel adv_source sel_source hd tl]; destruct (IH jp jq P L) as [E1 E2]; split; [exact E1|exact E2|now rewrite E1|intros j'; now rewrite E2].
Qed.
(** one list among integers, then plain axes *)
Lemma one_list_block m q : forallb advanced m = true -> count is_alist m = 1 -> forallb plain q = true ->
  exists l : list nat, paired (m ++ q) = Some (length l) /\ sel_shape (map to_sel (m ++ q)) = length l :: plain_shape q /\
    forall (k : nat) (jq : list nat), k < length l -> adv_source (m ++ q) k jq = sel_source (map to_sel (m ++ q)) (k :: jq).
Proof.
  induction m as [|x m IH]; intros M C Q; [discriminate C|]. cbn [forallb] in M. apply andb_true_iff in M. destruct M as [Hx M].
  rewrite count_cons in C. destruct x; try discriminate Hx; cbn [is_alist] in C.
  - destruct (IH M C Q) as (l & P & S & E). exists l. split; [exact P|]. split; [exact S|]. intros k jq K. cbn [app map to_sel adv_source sel_source]. now rewrite (E k jq K).
  - assert (C0 : count is_alist (m ++ q) = 0). { unfold count. rewrite filter_app, app_length. pose proof (plain_no_list _ Q) as Cq. unfold count in *. lia. }
    destruct (plain_sels _ C0) as (S & P & E). exists l. cbn [app map to_sel paired sel_shape adv_source sel_source hd tl]. rewrite P, S. split; [|split].
    + destruct (Nat.eqb_spec (length l) 1) as [->|_]; reflexivity.
    + now rewrite plain_shape_app, (adv_no_shape _ M).
    + intros k jq K. rewrite E. f_equal. destruct (Nat.eqb_spec (length l) 1); [|reflexivity]. now replace k with 0 by lia.
Qed.
(** a list by itself, or next to integers, picks positions of its own axis: the two models agree *)
Lemma one_list_sel sh0 pre block post : forallb (fun e => negb (ix_adv e)) pre = true -> forallb ix_adv block = true -> count ix_list block = 1 ->
  forallb (fun e => negb (ix_adv e)) post = true ->
  match selectors sh0 (pre ++ block ++ post) with
  | Raise e => adv_selection sh0 (pre ++ block ++ post) = Raise e
  | Ok ss => exists src, adv_selection sh0 (pre ++ block ++ post) = Ok (sel_shape ss, src) /\ forall jx, in_shape (sel_shape ss) jx -> src jx = sel_source ss jx
  end.
Proof.
  intros Pre B C Post. unfold adv_selection, selectors.
  destruct (1 <? count is_nell (pre ++ block ++ post)); [reflexivity|]. rewrite asels_sels.
  destruct (asels _ sh0 (pre ++ block ++ post)) as [ss|] eqn:E; cbn [bind]; [|reflexivity].
  destruct (asels_plain_prefix _ _ _ _ _ Pre E) as (sh1 & s1 & s2 & -> & E2 & P1).
  destruct (asels_adv_prefix _ _ _ _ _ B E2) as (sh2 & m & s3 & -> & E3 & M & CM).
  assert (Q : forallb plain s3 = true).
  { rewrite <- (app_nil_r post) in E3. destruct (asels_plain_prefix _ _ _ _ _ Post E3) as (sh3 & q1 & q2 & -> & E4 & P4). cbn [asels] in E4. injection E4 as <-. now rewrite forallb_app, P4, plain_fulls. }
  rewrite C in CM. destruct (one_list_block m s3 M CM Q) as (l & Pd & Sh & Src).
  assert (N : m <> []) by (intros ->; discriminate CM). rewrite (not_apart _ _ _ P1 M N Q), paired_plain, Pd by exact P1.
  destruct m as [|y m]; [contradiction|]. assert (Ay : advanced y = true) by (cbn [forallb] in M; now apply andb_true_iff in M).
  change ((y :: m) ++ s3) with (y :: m ++ s3) in *. rewrite take_plain by assumption.
  change (y :: m ++ s3) with ((y :: m) ++ s3) in *.
  rewrite !plain_shape_app, (adv_no_shape _ M). cbn [app]. rewrite firstn_len_app, skipn_len_app.
  assert (SS : sel_shape (map to_sel (s1 ++ (y :: m) ++ s3)) = plain_shape s1 ++ length l :: plain_shape s3).
  { rewrite <- Sh. clear - P1. induction s1 as [|z s1 IH]; [reflexivity|]. cbn [forallb] in P1. apply andb_true_iff in P1. destruct P1 as [Pz P1].
    destruct z; try discriminate Pz; cbn [map app to_sel sel_shape plain_shape] in *; now rewrite (IH P1). }
  change (y :: m ++ s3) with ((y :: m) ++ s3). rewrite SS. eexists. split; [reflexivity|]. intros jx J. cbv beta.
  assert (D : exists jp jr, jx = jp ++ jr /\ in_shape (plain_shape s1) jp /\ in_shape (length l :: plain_shape s3) jr).
  { destruct (in_shape_split _ _ _ J) as (Jp & Jr). eexists _, _. split; [symmetry; apply firstn_skipn|]. split; [exact Jp|exact Jr]. }
  destruct D as (jp & jr & -> & Jp & Jr). pose proof (in_shape_length _ _ Jp) as Lp.
  inversion Jr as [|k n jq sh' K Jq]; subst. rewrite <- Lp. rewrite firstn_len_app.
  rewrite app_nth2, Nat.sub_diag by lia. cbn [nth]. replace (skipn (S (length jp)) (jp ++ k :: jq)) with jq.
  2:{ replace (S (length jp)) with (length (jp ++ [k])) by (rewrite app_length; cbn [length]; lia). replace (jp ++ k :: jq) with ((jp ++ [k]) ++ jq) by (rewrite <- app_assoc; reflexivity). now rewrite skipn_len_app. }
  destruct (source_plain_prefix s1 ((y :: m) ++ s3) k jp jq P1 Lp) as [E5 E6]. rewrite E5, (E6 (k :: jq)). f_equal. exact (Src k jq K).
Qed.
Lemma has_one pre block post : count ix_list block = 1 -> has_list (pre ++ block ++ post) = true.
Proof.
  intros C. unfold has_list. rewrite !existsb_app. apply orb_true_iff; right; apply orb_true_iff; left. induction block as [|e block IH]; [discriminate C|].
  rewrite count_cons in C. cbn [existsb]. destruct e; cbn [ix_list] in C; try (apply IH; exact C); reflexivity.
Qed.
Theorem one_list x pre block post : forallb (fun e => negb (ix_adv e)) pre = true -> forallb ix_adv block = true -> count ix_list block = 1 ->
  forallb (fun e => negb (ix_adv e)) post = true -> np_getitem_adv x (pre ++ block ++ post) = np_getitem x (pre ++ block ++ post).
Proof.
  intros Pre B C Post. unfold np_getitem_adv, np_getitem. rewrite (has_one _ _ _ C). pose proof (one_list_sel (nd_shape x) pre block post Pre B C Post) as H.
  destruct (selectors _ _) as [ss|]; [|now rewrite H]. destruct H as (src & -> & H). cbn [bind fst snd]. f_equal. apply build_ext. intros jx J. now rewrite (H jx J).
Qed.
Lemma find_ext {A} (f g : A -> bool) l : (forall a, In a l -> f a = g a) -> find f l = find g l.
Proof. induction l as [|a l IH]; intros H; [reflexivity|]. cbn [find]. rewrite (H a (or_introl eq_refl)). destruct (g a); [reflexivity|]. apply IH. intros b Hb. apply H. right. exact Hb. Qed.
Theorem one_list_assign x pre block post v : forallb (fun e => negb (ix_adv e)) pre = true -> forallb ix_adv block = true -> count ix_list block = 1 ->
  forallb (fun e => negb (ix_adv e)) post = true -> np_setitem_adv x (pre ++ block ++ post) v = np_setitem x (pre ++ block ++ post) v.
Proof.
  intros Pre B C Post. unfold np_setitem_adv, np_setitem. rewrite (has_one _ _ _ C). pose proof (one_list_sel (nd_shape x) pre block post Pre B C Post) as H.
  destruct (selectors _ _) as [ss|]; [|now rewrite H]. destruct H as (src & -> & H). cbn [bind fst snd].
  destruct (broadcast (nd_shape v) (sel_shape ss)) as [sh|]; [|reflexivity]. destruct (nat_list_eqb sh (sel_shape ss)); [|reflexivity].
  f_equal. apply build_ext. intros ix _. rewrite (find_ext (fun jx => nat_list_eqb (src jx) ix) (fun jx => nat_list_eqb (sel_source ss jx) ix)); [reflexivity|].
  intros jx J. apply in_rev in J. apply all_ix_in in J. now rewrite (H jx J).
Qed.

Lemma slice_all n : map Z.to_nat (slice_positions (Z.of_nat n) None None 1%Z) = seq 0 n.
Proof.
  unfold slice_positions. change (0 <? 1)%Z with true. cbv iota zeta. rewrite map_map. unfold zrange. rewrite map_map.
  replace (Z.to_nat (if (0 <? Z.of_nat n)%Z then ((Z.of_nat n - 0 - 1) / 1 + 1)%Z else 0%Z)) with n.
  2:{ rewrite Z.div_1_r. destruct (Z.ltb_spec 0 (Z.of_nat n)); lia. }
  rewrite <- (map_id (seq 0 n)) at 2. apply map_ext. intros j. lia.
Qed.
(** a slice between an integer and a list: numpy puts the listed positions first, the
    array's dimensions are in the order of the index. So the first axis, along which the
    listed positions run, is labelled as time, and the time axis has no unit *)
Theorem time_label_refuted (a : units) d0 t d2 n0 n1 n2 i l : nd_shape (data a) = [n0; n1; n2] -> dims a = [d0; DTime t; d2] ->
  i < n0 -> (forall k, In k l -> k < n2) ->
  exists b u, getitem_adv a [XInt (Z.of_nat i); XSl None None 1%Z; XList (map Z.of_nat l)] = Ok b /\
    nd_shape (data b) = [length l; n1] /\ dims b = [DTime u; DIdent] /\ t_size u = Some (Z.of_nat (length l)) /\ t_freq u = t_freq t /\
    forall p q, p < length l -> q < n1 -> nd_at (data b) [p; q] = nd_at (data a) [i; q; nth p l 0].
Proof.
  intros S D Hi Hl. unfold getitem_adv, getitem. rewrite D.
  unfold compute_indices. cbn [compute_from burns int_based andb as_is bind].
  unfold np_getitem_adv, has_list, adv_selection. cbn [existsb orb]. cbn [count filter is_nell length Nat.ltb Nat.leb nix_takes]. rewrite S. cbn [asels].
  unfold pick at 1. replace ((- Z.of_nat n0 <=? Z.of_nat i) && (Z.of_nat i <? Z.of_nat n0))%Z with true by lia.
  replace (Z.of_nat i <? 0)%Z with false by lia. cbn [bind]. change (1 =? 0)%Z with false. cbn [bind].
  rewrite mapM_pick by exact Hl. cbn [bind asels map]. rewrite Nat2Z.id, slice_all.
  cbn [paired]. change (1 =? 1) with true. change (apart _) with true. cbv iota.
  replace (if length l =? 1 then Some 1 else Some (length l)) with (Some (length l)) by (destruct (Nat.eqb_spec (length l) 1) as [->|]; reflexivity).
  cbn [plain_shape firstn skipn app bind nth]. rewrite seq_length. cbn [nd_build nd_shape].
  unfold new_dims. cbn [new_dims_from].
  change (py_get [d0; DTime t; d2] (0 + 1)%Z) with (Ok (DTime t)). cbn [bind].
  unfold metaslice_or_dim. change (py_get [length l; n1] 0%Z) with (Ok (length l)). cbn [bind dim_metaslice].
  rewrite py_slice_from by (unfold Zlen; cbn; lia). change (Z.to_nat (0 + 1 + 1 + 1)) with 3. cbn [skipn bind].
  unfold awu_new. cbn [nd_shape nd_build length Nat.eqb fit_dims fit_dim bind].
  eexists _, _. split; [reflexivity|]. cbn [data dims]. split; [reflexivity|]. split; [reflexivity|].
  split; [|split]; [reflexivity|reflexivity|].
  intros p q Hp Hq. change {| nd_shape := ?s; nd_flat := map ?f (all_ix ?s) |} with (nd_build s f).
  rewrite nd_at_build by (repeat constructor; assumption). cbn [adv_source nth hd tl fst snd firstn skipn app].
  rewrite seq_nth by exact Hq. do 3 f_equal. f_equal. destruct (Nat.eqb_spec (length l) 1); [|reflexivity]. now replace p with 0 by lia.
Qed.
Example time_label_case :
  exists a : units, nd_shape (data a) = [2; 3; 4] /\
    exists d0 t d2, dims a = [d0; DTime t; d2] /\ 1 < 2 /\ (forall k, In k [0; 3] -> k < 4).
Proof.
  exists (mkAwu (nd_build [2; 3; 4] (fun _ => 0%R)) [DIdent; DTime (mk_timedim 5 None (Some 3%Z)); DIdent]). split; [reflexivity|].
  eexists _, _, _. split; [reflexivity|]. split; [lia|]. intros k [<-|[<-|[]]]; lia.
Qed.

(** two lists are paired by numpy: one axis, where the dimensions claim two *)
Theorem two_lists_refuted (a : units) d0 d1 n0 n1 l0 l1 : nd_shape (data a) = [n0; n1] -> dims a = [d0; d1] ->
  (forall k, In k l0 -> k < n0) -> (forall k, In k l1 -> k < n1) -> 
  let ix := [XList (map Z.of_nat l0); XList (map Z.of_nat l1)] in
  (length l0 = length l1 ->
     (exists r, np_getitem_adv (data a) (map as_is ix) = Ok r /\ nd_shape r = [length l0] /\
        forall k, k < length l0 -> nd_at r [k] = nd_at (data a) [nth k l0 0; nth k l1 0]) /\
     getitem_adv a ix = Raise ValueError) /\
  (length l0 <> length l1 -> length l0 <> 1 -> length l1 <> 1 -> getitem_adv a ix = Raise IndexError).
Proof.
  intros S D H0 H1 ix.
  assert (C : compute_indices (dims a) ix = Ok (map as_is ix)) by reflexivity.
  assert (G : np_getitem_adv (data a) (map as_is ix) =
    match paired [AList l0; AList l1] with
    | None => Raise IndexError
    | Some m => Ok (nd_build [m] (fun jx => nd_at (data a) (adv_source [AList l0; AList l1] (nth 0 jx 0) (skipn 1 jx))))
    end).
  { unfold np_getitem_adv, has_list, adv_selection, ix. cbn [map as_is existsb orb]. cbn [count filter is_nell length Nat.ltb Nat.leb nix_takes]. rewrite S. cbn [asels].
    rewrite (mapM_pick _ _ H0), (mapM_pick _ _ H1). cbn [bind map]. destruct (paired [AList l0; AList l1]); reflexivity. }
  split.
  - intros E. assert (P : paired [AList l0; AList l1] = Some (length l0)).
    { cbn [paired]. rewrite <- E. destruct (Nat.eqb_spec (length l0) 1) as [E1|N1]; [now rewrite E1|]. cbn [Nat.eqb].
      destruct (Nat.eqb_spec (length l0) 1); [contradiction|]. now rewrite Nat.eqb_refl. }
    rewrite P in G. split.
    + eexists. split; [exact G|]. split; [reflexivity|]. intros k K. rewrite nd_at_build by (repeat constructor; exact K).
      cbn [adv_source nth skipn]. rewrite <- E. destruct (Nat.eqb_spec (length l0) 1); [now replace k with 0 by lia|reflexivity].
    + unfold getitem_adv, getitem. rewrite C. cbn [bind]. rewrite G. cbn [bind nd_shape nd_build]. rewrite D. unfold new_dims, ix. cbn [new_dims_from].
      rewrite py_slice_from by (unfold Zlen; cbn; lia). reflexivity.
  - intros N N0 N1. unfold getitem_adv, getitem. rewrite C. cbn [bind]. rewrite G. cbn [paired].
    destruct (Nat.eqb_spec (length l1) 1); [contradiction|]. destruct (Nat.eqb_spec (length l0) 1); [contradiction|].
    cbn [Nat.eqb]. destruct (Nat.eqb_spec (length l1) 1); [contradiction|]. destruct (Nat.eqb_spec (length l1) (length l0)); [congruence|]. reflexivity.
Qed.

(** ** assigning *)
Lemma find_source (sh : list nat) (src : list nat -> list nat) i jx : in_shape sh jx -> src jx = i -> (forall kx, in_shape sh kx -> src kx = i -> kx = jx) ->
  find (fun kx => nat_list_eqb (src kx) i) (rev (all_ix sh)) = Some jx.
Proof.
  intros J E U. destruct (find _ _) as [kx|] eqn:F.
  - apply find_some in F. destruct F as [I Q]. apply in_rev in I. apply all_ix_in in I. unfold nat_list_eqb in Q. destruct (list_eq_dec Nat.eq_dec (src kx) i); [|discriminate]. f_equal. now apply U.
  - exfalso. apply find_none with (x := jx) in F; [|now apply in_rev; rewrite rev_involutive; apply all_ix_in]. rewrite E in F. unfold nat_list_eqb in F. destruct (list_eq_dec Nat.eq_dec i i); congruence.
Qed.
Lemma find_no_source (sh : list nat) (src : list nat -> list nat) i : (forall kx, in_shape sh kx -> src kx <> i) ->
  find (fun kx => nat_list_eqb (src kx) i) (rev (all_ix sh)) = None.
Proof.
  intros U. destruct (find _ _) as [kx|] eqn:F; [|reflexivity]. exfalso.
  apply find_some in F. destruct F as [I Q]. apply in_rev in I. apply all_ix_in in I. unfold nat_list_eqb in Q. destruct (list_eq_dec Nat.eq_dec (src kx) i); [|discriminate]. exact (U kx I e).
Qed.
Lemma time_selection n0 n1 n2 i l : i < n0 -> (forall k, In k l -> k < n2) ->
  exists src, adv_selection [n0; n1; n2] [NInt (Z.of_nat i); NSl None None 1%Z; NList (map Z.of_nat l)] = Ok ([length l; n1], src) /\
    forall p q, p < length l -> q < n1 -> src [p; q] = [i; q; nth p l 0].
Proof.
  intros Hi Hl. unfold adv_selection. cbn [count filter is_nell length Nat.ltb Nat.leb nix_takes asels].
  unfold pick at 1. replace ((- Z.of_nat n0 <=? Z.of_nat i) && (Z.of_nat i <? Z.of_nat n0))%Z with true by lia.
  replace (Z.of_nat i <? 0)%Z with false by lia. cbn [bind]. change (1 =? 0)%Z with false. cbn [bind].
  rewrite mapM_pick by exact Hl. cbn [bind asels map]. rewrite Nat2Z.id, slice_all.
  cbn [paired]. change (1 =? 1) with true. change (apart _) with true. cbv iota.
  replace (if length l =? 1 then Some 1 else Some (length l)) with (Some (length l)) by (destruct (Nat.eqb_spec (length l) 1) as [->|]; reflexivity).
  cbn [plain_shape firstn skipn app bind nth]. rewrite seq_length. eexists. split; [reflexivity|].
  intros p q Hp Hq. cbn [adv_source nth hd tl]. rewrite seq_nth by exact Hq. do 2 f_equal. f_equal. destruct (Nat.eqb_spec (length l) 1); [|reflexivity]. now replace p with 0 by lia.
Qed.
(** assigning through a slice between an integer and a list expects the values with the listed
    positions first, time second: values in the order of the index are an error, or, when there are
    as many positions as times, are written transposed *)
Theorem time_assign_refuted (a : units) d0 t d2 n0 n1 n2 i l v : nd_shape (data a) = [n0; n1; n2] -> dims a = [d0; DTime t; d2] ->
  i < n0 -> (forall k, In k l -> k < n2) -> NoDup l ->
  let assigned := setitem_adv a [XInt (Z.of_nat i); XSl None None 1%Z; XList (map Z.of_nat l)] v in
  (nd_shape v = [n1; length l] -> n1 <> length l -> n1 <> 1 -> length l <> 1 -> assigned = Raise ValueError) /\
  (nd_shape v = [length l; n1] ->
   exists r, assigned = Ok r /\ dims r = dims a /\ nd_shape (data r) = nd_shape (data a) /\
     (forall p q, p < length l -> q < n1 -> nd_at (data r) [i; q; nth p l 0] = nd_at v [p; q]) /\
     (forall j q k, j < n0 -> q < n1 -> k < n2 -> j <> i \/ ~ In k l -> nd_at (data r) [j; q; k] = nd_at (data a) [j; q; k])).
Proof.
  intros S D Hi Hl ND assigned. destruct (time_selection n0 n1 n2 i l Hi Hl) as (src & Sel & Src).
  assert (G : assigned = do x <- np_setitem_adv (data a) [NInt (Z.of_nat i); NSl None None 1%Z; NList (map Z.of_nat l)] v; Ok (mkAwu x (dims a))) by (unfold assigned, setitem_adv; now rewrite D).
  rewrite G. unfold np_setitem_adv. cbn [has_list existsb orb]. change (has_list _) with true. cbv iota. rewrite S, Sel. cbn [bind fst snd]. split; intros Hv; rewrite Hv.
  - intros N N1 N2. assert (B : broadcast [n1; length l] [length l; n1] = None).
    { unfold broadcast. cbn [rev app bc_rev]. destruct (Nat.eqb_spec n1 (length l)); [contradiction|]. destruct (Nat.eqb_spec n1 1); [contradiction|]. destruct (Nat.eqb_spec (length l) 1); [contradiction|]. reflexivity. }
    rewrite B. reflexivity.
  - rewrite broadcast_same. unfold nat_list_eqb at 1. destruct (list_eq_dec Nat.eq_dec [length l; n1] [length l; n1]); [|congruence]. cbn [bind].
    eexists. split; [reflexivity|]. cbn [data dims nd_shape nd_build]. split; [reflexivity|]. split; [reflexivity|].
    assert (Sh : forall kx, in_shape [length l; n1] kx -> exists p q, kx = [p; q] /\ p < length l /\ q < n1).
    { intros kx K. inversion K as [|p n0' k1 sh1 P K1]; subst. inversion K1 as [|q n1' k2 sh2 Q K2]; subst. inversion K2; subst. now exists p, q. }
    split.
    + intros p q Hp Hq. change {| nd_shape := ?s; nd_flat := map ?f (all_ix ?s) |} with (nd_build s f).
      rewrite nd_at_build by (repeat constructor; [exact Hi|exact Hq|apply Hl, nth_In, Hp]).
      rewrite (find_source _ _ _ [p; q]); [|repeat constructor; assumption|now apply Src|].
      * unfold bc_index. cbn [length Nat.sub skipn clip]. f_equal. destruct (Nat.eqb_spec (length l) 1); destruct (Nat.eqb_spec n1 1); repeat f_equal; lia.
      * intros kx K E. destruct (Sh kx K) as (p' & q' & -> & P' & Q'). rewrite Src in E by assumption. injection E as -> E. f_equal. exact (proj1 (NoDup_nth l 0) ND p' p P' Hp E).
    + intros j q k Hj Hq Hk O. change {| nd_shape := ?s; nd_flat := map ?f (all_ix ?s) |} with (nd_build s f).
      rewrite nd_at_build by (repeat constructor; assumption). rewrite find_no_source; [reflexivity|].
      intros kx K E. destruct (Sh kx K) as (p' & q' & -> & P' & Q'). rewrite Src in E by assumption. injection E as E1 _ E2. destruct O as [O|O]; [congruence|]. apply O. rewrite <- E2. now apply nth_In.
Qed.
(** through two lists numpy assigns to the pairs, although reading the same index raises *)
Theorem two_lists_assign (a : units) d0 d1 n0 n1 l0 l1 v : nd_shape (data a) = [n0; n1] -> dims a = [d0; d1] ->
  (forall k, In k l0 -> k < n0) -> (forall k, In k l1 -> k < n1) -> length l0 = length l1 ->
  NoDup (combine l0 l1) -> nd_shape v = [length l0] ->
  exists r, setitem_adv a [XList (map Z.of_nat l0); XList (map Z.of_nat l1)] v = Ok r /\ dims r = dims a /\ nd_shape (data r) = nd_shape (data a) /\
    (forall k, k < length l0 -> nd_at (data r) [nth k l0 0; nth k l1 0] = nd_at v [k]) /\
    (forall i j, i < n0 -> j < n1 -> ~ In (i, j) (combine l0 l1) -> nd_at (data r) [i; j] = nd_at (data a) [i; j]).
Proof.
  intros S D H0 H1 E ND Hv. unfold setitem_adv. rewrite D. change (compute_indices [d0; d1] _) with (Ok [NList (map Z.of_nat l0); NList (map Z.of_nat l1)]). cbn [bind].
  unfold np_setitem_adv. change (has_list _) with true. cbv iota. unfold adv_selection. cbn [count filter is_nell length Nat.ltb Nat.leb nix_takes]. rewrite S. cbn [asels].
  rewrite (mapM_pick _ _ H0), (mapM_pick _ _ H1). cbn [bind map].
  assert (P : paired [AList l0; AList l1] = Some (length l0)).
  { cbn [paired]. rewrite <- E. destruct (Nat.eqb_spec (length l0) 1) as [E1|N1]; [now rewrite E1|]. cbn [Nat.eqb]. destruct (Nat.eqb_spec (length l0) 1); [contradiction|]. now rewrite Nat.eqb_refl. }
  rewrite P. change (apart _) with false. cbn [plain_shape take_while advanced negb length firstn skipn app bind fst snd]. rewrite Hv, broadcast_same.
  unfold nat_list_eqb at 1. destruct (list_eq_dec Nat.eq_dec [length l0] [length l0]); [|congruence]. cbn [bind].
  set (src := fun jx : list nat => adv_source [AList l0; AList l1] (nth 0 jx 0) match jx with [] => [] | _ :: l => l end).
  eexists. split; [reflexivity|]. cbn [data dims nd_shape nd_build]. split; [reflexivity|]. split; [reflexivity|].
  assert (Src : forall k, k < length l0 -> src [k] = [nth k l0 0; nth k l1 0]).
  { intros k K. unfold src. cbn [adv_source nth]. rewrite <- E. destruct (Nat.eqb_spec (length l0) 1); [now replace k with 0 by lia|reflexivity]. }
  assert (Sh : forall kx, in_shape [length l0] kx -> exists p, kx = [p] /\ p < length l0).
  { intros kx K. inversion K as [|p n0' k1 sh1 Pp K1]; subst. inversion K1; subst. now exists p. }
  assert (Cn : forall k, k < length l0 -> nth k (combine l0 l1) (0, 0) = (nth k l0 0, nth k l1 0)) by (intros k _; now apply combine_nth).
  assert (Cl : length (combine l0 l1) = length l0) by (rewrite combine_length; lia).
  split.
  - intros k K. change {| nd_shape := ?s; nd_flat := map ?f (all_ix ?s) |} with (nd_build s f).
    rewrite nd_at_build by (repeat constructor; [apply H0, nth_In, K|apply H1, nth_In; now rewrite <- E]).
    rewrite (find_source _ src _ [k]); [|repeat constructor; exact K|now apply Src|].
    + unfold bc_index. cbn [length Nat.sub skipn clip]. f_equal. destruct (Nat.eqb_spec (length l0) 1); f_equal; lia.
    + intros kx Kx Q. destruct (Sh kx Kx) as (p & -> & Hp). rewrite Src in Q by exact Hp. injection Q as Q1 Q2. f_equal.
      apply (proj1 (NoDup_nth (combine l0 l1) (0, 0)) ND); [lia|lia|]. rewrite !Cn by assumption. congruence.
  - intros i j Hi Hj O. change {| nd_shape := ?s; nd_flat := map ?f (all_ix ?s) |} with (nd_build s f).
    rewrite nd_at_build by (repeat constructor; assumption). rewrite (find_no_source _ src); [reflexivity|].
    intros kx Kx Q. destruct (Sh kx Kx) as (p & -> & Hp). rewrite Src in Q by exact Hp. injection Q as Q1 Q2. apply O. rewrite <- Q1, <- Q2, <- Cn by exact Hp. apply nth_In. lia.
Qed.
Example two_lists_case : NoDup (combine [0; 1; 1] [2; 2; 0]) /\ NoDup [3; 0] /\ length [0; 1; 1] = length [2; 2; 0].
Proof. cbn. repeat split; repeat (constructor; [cbn; intuition congruence|]); constructor. Qed.
