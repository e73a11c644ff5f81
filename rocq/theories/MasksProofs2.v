(** Proofs about Masks.v, continued: assigning, lists of booleans, and a mask before the other axes. *)
From Coq Require Import Permutation.
From Verif Require Import PyBase PyFacts PyMore Time Freq FreqDim Axis AxisProofs Ops OpsProofs OpsProofs5 Masks MasksProofs.
From Coq Require Import Reals Lra.
Local Open Scope nat_scope.

(** ** Assigning *)
Lemma set_mask_spec x m v rest : wf_mask m -> nd_shape x = m_shape m ++ rest -> broadcast (nd_shape v) (trues (m_flat m) :: rest) = Some (trues (m_flat m) :: rest) ->
  exists r, np_set_mask x m v = Ok r /\ wf_nda r /\ nd_shape r = nd_shape x /\
    forall ix jx, in_shape (m_shape m) ix -> in_shape rest jx ->
      nd_at r (ix ++ jx) = if mask_at m ix then nd_at v (bc_index (nd_shape v) (before m ix :: jx)) else nd_at x (ix ++ jx).
Proof.
  intros W S B. unfold np_set_mask, mask_result. rewrite S, covers_app, skipn_len_app, chosen_length, B by exact W.
  rewrite (proj2 (nat_list_eqb_spec _ _) eq_refl). eexists. split; [reflexivity|]. split; [apply build_wf|]. split; [reflexivity|].
  intros ix jx I J. rewrite nd_at_build by now apply in_shape_app. cbn zeta. rewrite <- (in_shape_length _ _ I), firstn_len_app, skipn_len_app. reflexivity.
Qed.
Lemma set_mask_mismatch x m v rest : wf_mask m -> nd_shape x = m_shape m ++ rest -> broadcast (nd_shape v) (trues (m_flat m) :: rest) <> Some (trues (m_flat m) :: rest) ->
  np_set_mask x m v = Raise ValueError.
Proof.
  intros W S B. unfold np_set_mask, mask_result. rewrite S, covers_app, skipn_len_app, chosen_length by exact W.
  destruct (broadcast (nd_shape v) (trues (m_flat m) :: rest)) as [sh|]; [|reflexivity].
  destruct (nat_list_eqb sh (trues (m_flat m) :: rest)) eqn:E; [|reflexivity]. apply nat_list_eqb_spec in E. subst. contradiction.
Qed.
Theorem mask_assign a m v rest d ds : wf_mask m -> nd_shape (data a) = m_shape m ++ rest -> dims a = d :: ds -> (forall s, d <> DFreq s) ->
  (broadcast (nd_shape v) (trues (m_flat m) :: rest) = Some (trues (m_flat m) :: rest) ->
   exists r, setitem_mask a m v = Ok r /\ dims r = dims a /\ wf_nda (data r) /\ nd_shape (data r) = nd_shape (data a) /\
    forall ix jx, in_shape (m_shape m) ix -> in_shape rest jx ->
      nd_at (data r) (ix ++ jx) = if mask_at m ix then nd_at v (bc_index (nd_shape v) (before m ix :: jx)) else nd_at (data a) (ix ++ jx)) /\
  (broadcast (nd_shape v) (trues (m_flat m) :: rest) <> Some (trues (m_flat m) :: rest) -> setitem_mask a m v = Raise ValueError).
Proof.
  intros W S D NF. assert (E : setitem_mask a m v = (do x <- np_set_mask (data a) m v; Ok (mkAwu x (dims a)))).
  { unfold setitem_mask. rewrite D at 1. cbn [py_get]. unfold py_get. cbn. destruct d; try reflexivity. exfalso. eapply NF. reflexivity. }
  split.
  - intros B. destruct (set_mask_spec (data a) m v rest W S B) as (r & E1 & Wr & Sr & H). exists (mkAwu r (dims a)). rewrite E, E1. cbn [bind data dims].
    split; [reflexivity|]. split; [reflexivity|]. split; [exact Wr|]. split; [exact Sr|exact H].
  - intros B. rewrite E, (set_mask_mismatch _ _ _ _ W S B). reflexivity.
Qed.
(** a frequency axis takes the mask for a band *)
Theorem mask_assign_frequency_refuted a m v s ds : dims a = DFreq s :: ds -> setitem_mask a m v = Raise AttributeError.
Proof. intros D. unfold setitem_mask. rewrite D. reflexivity. Qed.
(** every index is made of one of the mask and one of the rest *)
Lemma shape_parts a b kx : in_shape (a ++ b) kx -> exists ix jx, kx = ix ++ jx /\ in_shape a ix /\ in_shape b jx.
Proof.
  intros H. destruct (in_shape_split a b kx H) as [A1 A2]. exists (firstn (length a) kx), (skipn (length a) kx). rewrite firstn_skipn. split; [reflexivity|split; assumption].
Qed.
(** what is assigned is read again, and what is read can be assigned without effect *)
Theorem assign_then_read a m v r rest d ds : wf_mask m -> wf_nda v -> nd_shape (data a) = m_shape m ++ rest -> nd_shape v = trues (m_flat m) :: rest ->
  dims a = d :: ds -> setitem_mask a m v = Ok r -> getitem_mask r m = Ok (PRaw v).
Proof.
  intros W Wv S Sv D E. assert (NF : forall s, d <> DFreq s) by (intros s ->; rewrite (mask_assign_frequency_refuted a m v s ds D) in E; discriminate).
  destruct (mask_assign a m v rest d ds W S D NF) as [H _]. rewrite Sv in H. destruct (H (broadcast_same _)) as (r' & E' & _ & Wr & Sr & N).
  rewrite E in E'. injection E' as <-. rewrite <- Sr in S. destruct (mask_read r m rest W) as (y & Ey & Wy & Sy & Ny & On); [congruence|].
  rewrite Ey. do 2 f_equal. apply nda_ext; [exact Wy|exact Wv|congruence|]. rewrite Sy. intros kx K. inversion K as [|k ? jx ? Hk J]; subst.
  destruct (On k Hk) as (ix & I & T & <-). destruct (Ny ix jx I T J) as [K' ->]. rewrite N by assumption. rewrite T. f_equal. apply bc_index_same.
  constructor; assumption.
Qed.
Theorem read_then_assign a m x rest d ds : wf_mask m -> wf_nda (data a) -> nd_shape (data a) = m_shape m ++ rest -> dims a = d :: ds -> (forall s, d <> DFreq s) ->
  getitem_mask a m = Ok (PRaw x) -> setitem_mask a m x = Ok a.
Proof.
  intros W Wa S D NF E. destruct (mask_read a m rest W S) as (y & Ey & Wy & Sy & Ny & On). rewrite E in Ey. injection Ey as <-.
  destruct (mask_assign a m x rest d ds W S D NF) as [H _]. rewrite Sy in H. destruct (H (broadcast_same _)) as (r & -> & Dr & Wr & Sr & N).
  f_equal. destruct r as [rd rs], a as [ad as_]. cbn [data dims] in *. subst rs. f_equal. apply nda_ext; [exact Wr|exact Wa|exact Sr|].
  rewrite Sr, S. intros kx K. destruct (shape_parts _ _ _ K) as (ix & jx & -> & I & J). rewrite N by assumption. destruct (mask_at m ix) eqn:T; [|reflexivity].
  destruct (Ny ix jx I T J) as [K' <-]. f_equal. apply bc_index_same. rewrite <- Sy. exact K'.
Qed.
(** the entries with a property are replaced by a number *)
Theorem mask_replace a (p : R -> bool) c d ds : wf_nda (data a) -> dims a = d :: ds -> (forall s, d <> DFreq s) ->
  setitem_mask a (mkMask (nd_shape (data a)) (map p (nd_flat (data a)))) (mkNda [] [c]) =
    Ok (mkAwu (mkNda (nd_shape (data a)) (map (fun y => if p y then c else y) (nd_flat (data a)))) (dims a)).
Proof.
  intros Wa D NF. set (m := mkMask _ _). assert (W : wf_mask m) by (unfold wf_mask, m; cbn [m_flat m_shape]; rewrite map_length; exact Wa).
  destruct (mask_assign a m (mkNda [] [c]) [] d ds W ltac:(now rewrite app_nil_r) D NF) as [H _]. cbn [nd_shape] in H. rewrite broadcast_scalar_l in H. destruct (H eq_refl) as (r & -> & Dr & Wr & Sr & N).
  f_equal. destruct r as [rd rs]. cbn [data dims] in *. subst rs. f_equal. apply nda_ext; [exact Wr| |exact Sr|].
  { unfold wf_nda. cbn [nd_flat nd_shape]. rewrite map_length. exact Wa. }
  rewrite Sr. intros ix I. specialize (N ix [] I (Forall2_nil _)). rewrite app_nil_r in N. rewrite N. rewrite bc_index_scalar.
  assert (B : ravel (nd_shape (data a)) ix < length (nd_flat (data a))) by (rewrite Wa; now apply ravel_bound).
  unfold mask_at, nd_at, m. cbn [m_shape m_flat nd_shape nd_flat ravel nth].
  rewrite (nth_indep _ false (p 0%R)) by (now rewrite map_length). rewrite map_nth.
  rewrite (nth_indep (map (fun y => if p y then c else y) (nd_flat (data a))) 0%R ((fun y => if p y then c else y) 0%R)) by (now rewrite map_length). rewrite (map_nth (fun y => if p y then c else y)). reflexivity.
Qed.
