(** Proofs about Masks.v. *)
From Coq Require Import Permutation.
From Verif Require Import PyBase PyFacts PyMore Time Freq FreqDim Axis AxisProofs Ops OpsProofs Masks.
From Coq Require Import Reals.
Local Open Scope nat_scope.

(** ** Specification vocabulary *)
(** a mask is an array of booleans *)
Definition wf_mask (m : mask) : Prop := length (m_flat m) = np_size (m_shape m).
Definition trues (l : list bool) : nat := length (filter (fun b => b) l).

(** ** Filters and positions *)
Lemma nth_filter {A} (p : A -> bool) (d : A) l : forall i, i < length l -> p (nth i l d) = true ->
  nth (length (filter p (firstn i l))) (filter p l) d = nth i l d /\ length (filter p (firstn i l)) < length (filter p l).
Proof.
  induction l as [|x l IH]; intros i Hi Hp; [cbn in Hi; lia|]. destruct i as [|i]; cbn [firstn filter nth] in *.
  - rewrite Hp. cbn [length]. split; [reflexivity|lia].
  - cbn [length] in Hi. destruct (IH i ltac:(lia) Hp) as [A1 A2]. destruct (p x); cbn [length nth]; split; try exact A1; lia.
Qed.
Lemma filter_position {A} (p : A -> bool) (d : A) l : forall k, k < length (filter p l) ->
  exists i, i < length l /\ p (nth i l d) = true /\ length (filter p (firstn i l)) = k.
Proof.
  induction l as [|x l IH]; intros k Hk; [cbn in Hk; lia|]. cbn [filter] in Hk. destruct (p x) eqn:E.
  - destruct k as [|k]; [exists 0; cbn; split; [lia|]; split; [exact E|reflexivity]|]. cbn [length] in Hk. destruct (IH k ltac:(lia)) as (i & A1 & A2 & A3).
    exists (S i). cbn [length nth firstn filter]. rewrite E. cbn [length]. split; [lia|]. split; [exact A2|lia].
  - destruct (IH k Hk) as (i & A1 & A2 & A3). exists (S i). cbn [length nth firstn filter]. rewrite E. split; [lia|]. split; [exact A2|exact A3].
Qed.
Lemma filter_map_len {A} (p : A -> bool) l : length (filter (fun b => b) (map p l)) = length (filter p l).
Proof. induction l as [|x l IH]; [reflexivity|]. cbn [map filter]. destruct (p x); cbn [length]; lia. Qed.
Lemma mask_flat m : wf_mask m -> map (mask_at m) (all_ix (m_shape m)) = m_flat m.
Proof.
  intros W. unfold mask_at. rewrite <- (map_map (ravel (m_shape m)) (fun i => nth i (m_flat m) false)), ravel_all_ix, <- W. apply map_seq_nth.
Qed.
Lemma chosen_length m : wf_mask m -> length (chosen m) = trues (m_flat m).
Proof. intros W. unfold trues. rewrite <- (mask_flat m W) at 1. rewrite filter_map_len. reflexivity. Qed.
Lemma chosen_in m ix : In ix (chosen m) <-> in_shape (m_shape m) ix /\ mask_at m ix = true.
Proof. unfold chosen. rewrite filter_In, all_ix_in. reflexivity. Qed.
Lemma before_filter m ix : wf_mask m -> before m ix = length (filter (mask_at m) (firstn (ravel (m_shape m) ix) (all_ix (m_shape m)))).
Proof. intros W. unfold before. rewrite <- (mask_flat m W), firstn_map, filter_map_len. reflexivity. Qed.
Lemma chosen_before m ix : wf_mask m -> in_shape (m_shape m) ix -> mask_at m ix = true ->
  nth (before m ix) (chosen m) [] = ix /\ before m ix < length (chosen m).
Proof.
  intros W I T. rewrite (before_filter m ix W). pose proof (all_ix_nth _ _ I) as N.
  destruct (nth_filter (mask_at m) [] (all_ix (m_shape m)) (ravel (m_shape m) ix)) as [A1 A2].
  - rewrite all_ix_length. now apply ravel_bound.
  - now rewrite N.
  - split; [unfold chosen; now rewrite A1|exact A2].
Qed.
Lemma before_onto m k : wf_mask m -> k < length (chosen m) -> exists ix, in_shape (m_shape m) ix /\ mask_at m ix = true /\ before m ix = k.
Proof.
  intros W Hk. set (ix := nth k (chosen m) []). assert (I : In ix (chosen m)) by now apply nth_In. apply chosen_in in I. destruct I as [I T].
  destruct (filter_position (mask_at m) [] _ k Hk) as (i & A1 & A2 & A3). rewrite all_ix_length in A1.
  exists (nth i (all_ix (m_shape m)) []). assert (J : in_shape (m_shape m) (nth i (all_ix (m_shape m)) [])) by (apply all_ix_in, nth_In; now rewrite all_ix_length).
  split; [exact J|]. split; [exact A2|]. rewrite before_filter by exact W.
  assert (R : ravel (m_shape m) (nth i (all_ix (m_shape m)) []) = i).
  { rewrite <- (map_nth (ravel (m_shape m))). rewrite ravel_all_ix.
    rewrite (nth_indep _ (ravel (m_shape m) []) 0) by (now rewrite seq_length). rewrite seq_nth by exact A1. reflexivity. }
  rewrite R. exact A3.
Qed.
Lemma nat_list_eqb_spec a b : nat_list_eqb a b = true <-> a = b.
Proof. unfold nat_list_eqb. destruct (list_eq_dec Nat.eq_dec a b); split; intros H; congruence. Qed.
Lemma covers_app m rest : covers m (m_shape m ++ rest) = true.
Proof. unfold covers. apply nat_list_eqb_spec. rewrite firstn_app, Nat.sub_diag, firstn_O, firstn_all, app_nil_r. reflexivity. Qed.
Lemma covers_split m sh : covers m sh = true -> sh = m_shape m ++ skipn (length (m_shape m)) sh.
Proof. intros H. apply nat_list_eqb_spec in H. rewrite H at 1. symmetry. apply firstn_skipn. Qed.
Lemma skipn_len_app {A} (a b : list A) : skipn (length a) (a ++ b) = b.
Proof. rewrite skipn_app, Nat.sub_diag, skipn_all. reflexivity. Qed.
Lemma firstn_len_app {A} (a b : list A) : firstn (length a) (a ++ b) = a.
Proof. rewrite firstn_app, Nat.sub_diag, firstn_O, firstn_all, app_nil_r. reflexivity. Qed.
Lemma in_shape_app a b ix jx : in_shape a ix -> in_shape b jx -> in_shape (a ++ b) (ix ++ jx).
Proof. apply Forall2_app. Qed.
Lemma in_shape_split a b kx : in_shape (a ++ b) kx -> in_shape a (firstn (length a) kx) /\ in_shape b (skipn (length a) kx).
Proof.
  revert kx. induction a as [|n a IH]; intros kx H; [split; [constructor|exact H]|].
  inversion H as [|i ? kx' ? Hi Hr]; subst. destruct (IH _ Hr) as [A1 A2]. split; [constructor; assumption|exact A2].
Qed.

(** ** Reading *)
Theorem mask_read a m rest : wf_mask m -> nd_shape (data a) = m_shape m ++ rest ->
  exists r, getitem_mask a m = Ok (PRaw r) /\ wf_nda r /\ nd_shape r = trues (m_flat m) :: rest /\
    (forall ix jx, in_shape (m_shape m) ix -> mask_at m ix = true -> in_shape rest jx ->
       in_shape (nd_shape r) (before m ix :: jx) /\ nd_at r (before m ix :: jx) = nd_at (data a) (ix ++ jx)) /\
    (forall k, k < trues (m_flat m) -> exists ix, in_shape (m_shape m) ix /\ mask_at m ix = true /\ before m ix = k).
Proof.
  intros W S. unfold getitem_mask, np_mask. rewrite S, covers_app. cbn [bind]. eexists. split; [reflexivity|]. split; [apply build_wf|].
  cbn [nd_shape nd_build]. unfold mask_result. rewrite skipn_len_app, chosen_length by exact W. split; [reflexivity|]. split.
  - intros ix jx I T J. destruct (chosen_before m ix W I T) as [B1 B2]. rewrite chosen_length in B2 by exact W.
    assert (K : in_shape (trues (m_flat m) :: rest) (before m ix :: jx)) by (constructor; assumption).
    split; [exact K|]. rewrite nd_at_build by exact K. cbn [hd tl]. now rewrite B1.
  - intros k Hk. apply before_onto; [exact W|]. now rewrite chosen_length.
Qed.
Theorem mask_wrong_shape a m v : (forall rest, nd_shape (data a) <> m_shape m ++ rest) ->
  getitem_mask a m = Raise IndexError /\ np_set_mask (data a) m v = Raise IndexError.
Proof.
  intros H. assert (E : covers m (nd_shape (data a)) = false).
  { destruct (covers m (nd_shape (data a))) eqn:E; [|reflexivity]. exfalso. apply covers_split in E. exact (H _ E). }
  unfold getitem_mask, np_mask, np_set_mask. rewrite E. split; reflexivity.
Qed.
(** a mask of all axes: the entries where it is true, in order *)
Lemma filter_combine {A B} (f : A -> B) (p : A -> bool) l : map f (filter p l) = map fst (filter snd (combine (map f l) (map p l))).
Proof. induction l as [|x l IH]; [reflexivity|]. cbn [map combine filter snd]. destruct (p x); cbn [map fst]; now rewrite IH. Qed.
Lemma ix_app_nil : forall sh ix, in_shape sh ix -> ix ++ [] = ix.
Proof. intros. apply app_nil_r. Qed.
Lemma all_ix_one n : all_ix [n] = map (fun i => [i]) (seq 0 n).
Proof. cbn [all_ix]. generalize (seq 0 n). induction l as [|i l IH]; [reflexivity|]. cbn [flat_map map app] in *. rewrite IH. reflexivity. Qed.
Theorem mask_flat_read a m : wf_mask m -> wf_nda (data a) -> nd_shape (data a) = m_shape m ->
  getitem_mask a m = Ok (PRaw (mkNda [trues (m_flat m)] (map fst (filter snd (combine (nd_flat (data a)) (m_flat m)))))).
Proof.
  intros W Wx S. unfold getitem_mask, np_mask. assert (C : covers m (nd_shape (data a)) = true) by (unfold covers; rewrite S, firstn_all; now apply nat_list_eqb_spec).
  rewrite C. cbn [bind]. do 2 f_equal. unfold nd_build, mask_result. rewrite S, skipn_all, chosen_length by exact W. f_equal.
  rewrite all_ix_one, map_map. cbn [hd tl].
  transitivity (map (nd_at (data a)) (chosen m)).
  - rewrite <- (chosen_length m W). rewrite <- (map_seq_nth [] (chosen m)) at 2. rewrite map_map. apply map_ext. intros i. now rewrite app_nil_r.
  - unfold chosen. rewrite filter_combine, (mask_flat m W), <- S. do 3 f_equal. pose proof (build_at (data a) Wx) as B. unfold nd_build in B. exact (f_equal nd_flat B).
Qed.
(** what a mask leaves and what its complement leaves are all the entries *)
Definition negated (m : mask) : mask := mkMask (m_shape m) (map negb (m_flat m)).
Lemma partition_filter {A} (l : list A) : forall f, length f = length l ->
  Permutation l (map fst (filter snd (combine l f)) ++ map fst (filter snd (combine l (map negb f)))).
Proof.
  induction l as [|x l IH]; intros [|b f] H; try discriminate; [constructor|]. cbn [combine map filter snd]. destruct b; cbn [negb map fst app].
  - constructor. apply IH. now injection H.
  - apply Permutation_cons_app. apply IH. now injection H.
Qed.
Theorem mask_complement a m : wf_mask m -> wf_nda (data a) -> nd_shape (data a) = m_shape m ->
  exists r s, getitem_mask a m = Ok (PRaw r) /\ getitem_mask a (negated m) = Ok (PRaw s) /\ Permutation (nd_flat (data a)) (nd_flat r ++ nd_flat s).
Proof.
  intros W Wx S. eexists _, _. split; [apply mask_flat_read; assumption|]. split.
  - apply mask_flat_read; [unfold wf_mask, negated; cbn [m_flat m_shape]; rewrite map_length; exact W|exact Wx|exact S].
  - cbn [nd_flat negated m_flat]. apply partition_filter. rewrite W, Wx, S. reflexivity.
Qed.
