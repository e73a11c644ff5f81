(** Proofs about Masks.v, continued: lists of booleans, and a mask before the other axes. *)
From Verif Require Import PyBase PyFacts PyMore Time Freq FreqDim Axis AxisProofs Ops OpsProofs OpsProofs5 Masks MasksProofs MasksProofs2.
From Coq Require Import Reals Lra.
Local Open Scope nat_scope.

(** ** Specification vocabulary *)
(** where a list of booleans is true *)
Definition positions (l : list bool) : list nat := filter (fun i => nth i l false) (seq 0 (length l)).

Lemma list_mask_wf l : wf_mask (list_mask l).
Proof. unfold wf_mask, list_mask. cbn. lia. Qed.
Lemma list_mask_at l i : mask_at (list_mask l) [i] = nth i l false.
Proof. unfold mask_at, list_mask. cbn [m_shape m_flat ravel np_size fold_right]. f_equal. lia. Qed.
Lemma filter_map_comm {A B} (f : A -> B) (p : B -> bool) l : filter p (map f l) = map f (filter (fun x => p (f x)) l).
Proof. induction l as [|x l IH]; [reflexivity|]. cbn [map filter]. destruct (p (f x)); cbn [map]; now rewrite IH. Qed.
Lemma chosen_list l : chosen (list_mask l) = map (fun i => [i]) (positions l).
Proof.
  unfold chosen. change (m_shape (list_mask l)) with [length l]. rewrite all_ix_one, filter_map_comm. f_equal. unfold positions. apply filter_ext. intros i. apply list_mask_at.
Qed.
Lemma positions_bound l i : In i (positions l) -> i < length l /\ nth i l false = true.
Proof. unfold positions. rewrite filter_In, in_seq. intros [A1 A2]. split; [lia|exact A2]. Qed.
Lemma positions_length l : length (positions l) = trues l.
Proof. rewrite <- (map_length (fun i => [i])), <- chosen_list. apply chosen_length, list_mask_wf. Qed.
Lemma np_mask_list x l rest : nd_shape x = length l :: rest ->
  np_mask x (list_mask l) = Ok (nd_build (length (positions l) :: rest) (fun jx => nd_at x (nth (hd 0 jx) (positions l) 0 :: tl jx))).
Proof.
  intros S. unfold np_mask. rewrite S. change (length l :: rest) with (m_shape (list_mask l) ++ rest). rewrite covers_app. do 1 f_equal. unfold mask_result.
  rewrite skipn_len_app, chosen_list, map_length. apply build_ext. intros kx K. inversion K as [|k ? jx ? Hk J]; subst. cbn [hd tl]. f_equal.
  rewrite (nth_indep _ [] [0]) by (now rewrite map_length). rewrite (map_nth (fun i => [i])). reflexivity.
Qed.

(** ** A list of booleans is the list of the positions where it is true *)
Lemma mapM_pick n l : (forall i, In i l -> i < n) -> mapM (pick n) (map Z.of_nat l) = Ok l.
Proof.
  induction l as [|i l IH]; intros H; [reflexivity|]. cbn [map mapM]. pose proof (H i (or_introl eq_refl)) as Hi. unfold pick at 1.
  replace ((- Z.of_nat n <=? Z.of_nat i) && (Z.of_nat i <? Z.of_nat n))%Z with true by (symmetry; apply andb_true_intro; split; [apply Z.leb_le|apply Z.ltb_lt]; lia).
  replace (Z.of_nat i <? 0)%Z with false by (symmetry; apply Z.ltb_ge; lia). cbn [bind]. rewrite Nat2Z.id, IH by (intros j Hj; apply H; right; exact Hj). reflexivity.
Qed.
Theorem bools_as_positions a l rest d ds : nd_shape (data a) = length l :: rest -> dims a = d :: ds -> positions l <> [] ->
  getitem_py a (IxInts (map Z.of_nat (positions l))) = (do s <- getitem_bools a l; Ok (PUnits Plain s)).
Proof.
  intros S D Ne. assert (Nl : l <> []) by (intros ->; apply Ne; reflexivity). unfold getitem_bools. destruct l as [|b l0] eqn:El; [contradiction|]. rewrite <- El in *. clear Nl.
  rewrite (np_mask_list _ _ _ S). cbn [bind]. unfold getitem_py. unfold tuplify. destruct (map Z.of_nat (positions l)) as [|z zs] eqn:Ez; [destruct (positions l); [contradiction|discriminate]|]. rewrite <- Ez. cbn [bind].
  assert (P : mapM (pick (length l)) (map Z.of_nat (positions l)) = Ok (positions l)) by (apply mapM_pick; intros i Hi; now apply positions_bound in Hi).
  unfold getitem. unfold compute_indices. cbn [compute_from burns as_is bind]. unfold np_getitem, selectors. cbn [count filter is_nell length Nat.ltb Nat.leb].
  rewrite S. cbn [sels]. rewrite P. cbn [bind sel_shape]. rewrite shape_full. cbn [bind nd_shape nd_build].
  unfold new_dims. cbn [new_dims_from]. rewrite D. rewrite py_slice_from by (unfold Zlen; cbn [length]; lia). cbn [bind tl]. change (Z.to_nat (0 + 1)) with 1. cbn [skipn].
  replace (nd_build (length (positions l) :: rest) (fun jx => nd_at (data a) (sel_source (TPos (positions l) :: map full rest) jx)))
    with (nd_build (length (positions l) :: rest) (fun jx => nd_at (data a) (nth (hd 0 jx) (positions l) 0 :: tl jx))).
  - unfold awu_new. cbn [nd_shape nd_build]. reflexivity.
  - apply build_ext. intros kx K. inversion K as [|k ? jx ? Hk J]; subst kx. cbn [sel_source hd tl]. now rewrite source_full.
Qed.
(** the other axes keep their units, the first loses its own *)
Theorem bools_read a l rest d ds : well_formed nd_shape a -> l <> [] -> nd_shape (data a) = length l :: rest -> dims a = d :: ds ->
  exists s, getitem_bools a l = Ok s /\ dims s = DIdent :: ds /\ nd_shape (data s) = length (positions l) :: rest /\
    forall k jx, k < length (positions l) -> in_shape rest jx -> nd_at (data s) (k :: jx) = nd_at (data a) (nth k (positions l) 0 :: jx).
Proof.
  intros [C N] Nl S D. rewrite S, D in C. rewrite D in N. inversion C as [|? ? ? ? C1 C2]; subst. inversion N as [|? ? N1 N2]; subst.
  destruct l as [|b l0] eqn:El; [contradiction|]. rewrite <- El in *. unfold getitem_bools. rewrite El, <- El. rewrite (np_mask_list _ _ _ S). cbn [bind]. rewrite D. cbn [tl]. unfold awu_new. cbn [nd_shape nd_build length].
  assert (L : length ds = length rest) by (clear - C2; induction C2; cbn [length]; congruence). rewrite L, Nat.eqb_refl. rewrite fit_dims_id; [|constructor; [exact I|exact N2]|constructor; [exact I|exact C2]]. cbn [bind].
  eexists. split; [reflexivity|]. cbn [dims data nd_shape nd_build]. split; [reflexivity|]. split; [reflexivity|].
  intros k jx Hk J. assert (K : in_shape (length (positions l) :: rest) (k :: jx)) by (constructor; assumption). rewrite nd_at_build by exact K. reflexivity.
Qed.
Theorem bools_empty_refuted a v : getitem_bools a [] = Raise IndexError /\ setitem_bools a [] v = Raise IndexError /\
  (forall rest, nd_shape (data a) = 0 :: rest -> exists r, getitem_mask a (list_mask []) = Ok (PRaw r) /\ nd_shape r = 0 :: rest).
Proof.
  split; [reflexivity|]. split; [reflexivity|]. intros rest S. destruct (mask_read a (list_mask []) rest (list_mask_wf [])) as (r & E & _ & Sr & _); [exact S|]. exists r. split; assumption.
Qed.
(** a list of booleans assigns on every axis *)
Theorem bools_assign a l v rest : l <> [] -> nd_shape (data a) = length l :: rest ->
  broadcast (nd_shape v) (trues l :: rest) = Some (trues l :: rest) ->
  exists r, setitem_bools a l v = Ok r /\ dims r = dims a /\ nd_shape (data r) = nd_shape (data a) /\
    forall i jx, i < length l -> in_shape rest jx ->
      nd_at (data r) (i :: jx) = if nth i l false then nd_at v (bc_index (nd_shape v) (trues (firstn i l) :: jx)) else nd_at (data a) (i :: jx).
Proof.
  intros Nl S B. destruct (set_mask_spec (data a) (list_mask l) v rest (list_mask_wf l) S B) as (x & E & _ & Sx & N). exists (mkAwu x (dims a)).
  split; [unfold setitem_bools; destruct l; [contradiction|]; rewrite E; reflexivity|]. split; [reflexivity|]. split; [exact Sx|].
  intros i jx Hi J. cbn [data]. specialize (N [i] jx ltac:(constructor; [exact Hi|constructor]) J). cbn [app] in N. rewrite N, list_mask_at. unfold before.
  replace (ravel (m_shape (list_mask l)) [i]) with i by (cbn; lia). reflexivity.
Qed.

(** ** A mask before the other axes: the frames are labelled as if they were neighbours *)
Theorem mask_rest a l rest t ds : well_formed nd_shape a -> nd_shape (data a) = length l :: rest -> dims a = DTime t :: ds ->
  exists s u, getitem_mask_rest a l = Ok s /\ dims s = DTime u :: ds /\ t_freq u = t_freq t /\ t_dur u = t_dur t /\ t_size u = Some (Z.of_nat (length (positions l))) /\
    nd_shape (data s) = length (positions l) :: rest /\
    forall k jx, k < length (positions l) -> in_shape rest jx -> nd_at (data s) (k :: jx) = nd_at (data a) (nth k (positions l) 0 :: jx).
Proof.
  intros [C N] S D. rewrite S, D in C. rewrite D in N. inversion C as [|? ? ? ? C1 C2]; subst. inversion N as [|? ? N1 N2]; subst.
  assert (L : length ds = length rest) by (clear - C2; induction C2; cbn [length]; congruence).
  unfold getitem_mask_rest. rewrite D. unfold py_get at 1. cbn [mask_int_slice bind nth_error Z.to_nat Z.ltb Z.compare]. rewrite (np_mask_list _ _ _ S). cbn [bind mask_metaslice tl].
  rewrite chosen_list, map_length. unfold awu_new. cbn [nd_shape nd_build length]. rewrite L, Nat.eqb_refl.
  rewrite fit_dims_id; [|constructor; [apply mk_timedim_norm|exact N2]|constructor; [reflexivity|exact C2]]. cbn [bind].
  eexists _, _. split; [reflexivity|]. cbn [dims data nd_shape nd_build]. split; [reflexivity|]. cbn [metaslice mk_timedim t_freq t_dur t_size]. split; [reflexivity|]. split.
  { cbn in N1. destruct (Z.eqb_spec (t_dur t) 0) as [E|E]; [|reflexivity]. destruct N1 as [N1|N1]; [contradiction|congruence]. }
  split; [reflexivity|]. split; [reflexivity|].
  intros k jx Hk J. rewrite nd_at_build by (constructor; assumption). reflexivity.
Qed.
Theorem mask_rest_frequency_refuted a l d ds : dims a = d :: ds -> (exists s, d = DFreq s) \/ (exists e, d = DExp e) -> covers (list_mask l) (nd_shape (data a)) = true ->
  getitem_mask_rest a l = Raise AttributeError.
Proof.
  intros D [[s ->]|[e ->]] C; unfold getitem_mask_rest; rewrite D; [reflexivity|]. unfold py_get. cbn [mask_int_slice bind nth_error Z.to_nat Z.ltb Z.compare]. unfold np_mask. rewrite C. reflexivity.
Qed.
(** a mask with a gap: some frame is labelled with a time at which it is not *)
Theorem mask_rest_times_refuted l i j (f : Z) : i < j -> nth i l false = false -> nth j l false = true -> (0 < f)%Z ->
  exists k, k < length (positions l) /\ (Z.of_nat k * f < Z.of_nat (nth k (positions l) 0%nat) * f)%Z.
Proof.
  intros Lt Fi Tj Pf. assert (Hj : j < length l) by (destruct (Nat.lt_ge_cases j (length l)) as [H|H]; [exact H|rewrite nth_overflow in Tj by exact H; discriminate]).
  assert (Hp : nth j (seq 0 (length l)) 0 = j) by (rewrite seq_nth; lia).
  destruct (nth_filter (fun i => nth i l false) 0 (seq 0 (length l)) j) as [A1 A2]; [now rewrite seq_length|now rewrite Hp|].
  rewrite Hp in A1. exists (length (filter (fun i => nth i l false) (firstn j (seq 0 (length l))))). split; [exact A2|]. unfold positions. rewrite A1.
  apply Z.mul_lt_mono_pos_r; [exact Pf|]. apply Nat2Z.inj_lt.
  assert (Q : forall p (z : list nat), In i z -> p i = false -> length (filter p z) < length z).
  { intros p z. induction z as [|y z IH]; intros Hi Hp'; [destruct Hi|]. cbn [filter length]. destruct Hi as [->|Hi].
    - rewrite Hp'. assert (Z : length (filter p z) <= length z) by (clear; induction z as [|y z IH]; [constructor|]; cbn [filter length]; destruct (p y); cbn [length]; lia). lia.
    - specialize (IH Hi Hp'). destruct (p y); cbn [length]; lia. }
  assert (F : firstn j (seq 0 (length l)) = seq 0 j).
  { replace (length l) with (j + (length l - j)) by lia. rewrite seq_app. rewrite firstn_app, seq_length, Nat.sub_diag, firstn_O, app_nil_r. apply firstn_all2. rewrite seq_length. lia. }
  rewrite F. pose proof (Q (fun i => nth i l false) (seq 0 j) ltac:(apply in_seq; lia) Fi) as R. rewrite seq_length in R. exact R.
Qed.

(** ** Cases *)
Definition frames5 : units := mkAwu (mkNda [3; 2] [1; 2; 3; 4; 5; 6]%R) [DTime {| t_freq := 10; t_dur := 20; t_size := Some 3%Z |}; DIdent].
Example masks_meet : well_formed nd_shape frames5 /\ wf_nda (data frames5) /\
  getitem_mask frames5 (mkMask [3; 2] [true; false; false; true; true; false]) = Ok (PRaw (mkNda [3] [1; 4; 5]%R)) /\
  (exists s, getitem_mask_rest frames5 [true; false; true] = Ok s /\ data s = mkNda [2; 2] [1; 2; 5; 6]%R /\ dims s = [DTime {| t_freq := 10; t_dur := 20; t_size := Some 2%Z |}; DIdent]) /\
  (exists s, getitem_bools frames5 [true; false; true] = Ok s /\ data s = mkNda [2; 2] [1; 2; 5; 6]%R /\ dims s = [DIdent; DIdent]) /\
  setitem_mask frames5 (mkMask [3] [false; true; false]) (mkNda [2] [7; 8]%R) = Ok (mkAwu (mkNda [3; 2] [1; 2; 7; 8; 5; 6]%R) (dims frames5)).
Proof.
  split; [split; repeat constructor; cbn; lia|]. split; [reflexivity|]. split; [reflexivity|]. split; [eexists; split; [reflexivity|split; reflexivity]|].
  split; [eexists; split; [reflexivity|split; reflexivity]|]. reflexivity.
Qed.
