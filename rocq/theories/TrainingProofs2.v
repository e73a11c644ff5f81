(** Proofs about training and applying chains of preprocessing nodes: batches, statistics,
    inverses, hidden failures and several chunks. *)
From Coq Require Import ZArith Reals Lra Lia Permutation.
From Verif Require Import PyBase PyFacts PyMore Freq Preproc PreprocProofs Pipeline PipelineProofs Spectral SpectralProofs Training TrainingProofs.
Local Open Scope R_scope.

(** ** Batches *)
Lemma no_skip_incl l x x' : incl x' x -> no_skip l x -> no_skip l x'.
Proof. intros I N. destruct l; cbn in *; try exact N; rewrite Forall_forall in *; intros r Hr; apply N, I, Hr. Qed.
Lemma incl_concat {A} (bs : list (list A)) b : In b bs -> incl b (List.concat bs).
Proof. intros H x Hx. apply in_concat. now exists b. Qed.
Lemma mapM_app {A B} (f : A -> result B) a b : mapM f (a ++ b) = do u <- mapM f a; do v <- mapM f b; Ok (u ++ v)%list.
Proof. induction a as [|x a IH]; cbn [List.app mapM bind]; [destruct (mapM f b); reflexivity|]. destruct (f x); [|reflexivity]. cbn [bind]. rewrite IH. destruct (mapM f a); [|reflexivity]. cbn [bind]. destruct (mapM f b); reflexivity. Qed.
Lemma mapM_concat {A B} (f : A -> result B) bs : mapM f (List.concat bs) = do ys <- mapM (mapM f) bs; Ok (List.concat ys).
Proof. induction bs as [|b bs IH]; [reflexivity|]. cbn [List.concat mapM]. rewrite mapM_app. destruct (mapM f b); [|reflexivity]. cbn [bind]. rewrite IH. destruct (mapM (mapM f) bs); reflexivity. Qed.
Lemma mapM_bind {A B C} (f : A -> result B) (g : B -> result C) l zs :
  mapM (fun x => do y <- f x; g y) l = Ok zs <-> exists ys, mapM f l = Ok ys /\ mapM g ys = Ok zs.
Proof.
  revert zs. induction l as [|x l IH]; intros zs; cbn [mapM].
  - split; [intros [= <-]; exists []; split; reflexivity|intros (ys & [= <-] & H); exact H].
  - split.
    + destruct (f x) as [y|]; [|discriminate]. cbn [bind]. destruct (g y) as [z|] eqn:G; [|discriminate]. cbn [bind].
      destruct (mapM _ l) as [zs'|] eqn:M; [|discriminate]. cbn [bind]. intros [= <-]. destruct (proj1 (IH zs') eq_refl) as (ys & E1 & E2). exists (y :: ys). rewrite E1. split; [reflexivity|]. cbn [mapM]. rewrite G, E2. reflexivity.
    + intros (ys & E1 & E2). destruct (f x) as [y|]; [|discriminate]. cbn [bind] in *. destruct (mapM f l) as [ys'|]; [|discriminate]. cbn [bind] in E1. injection E1 as <-. cbn [mapM] in E2. destruct (g y) as [z|]; [|discriminate]. cbn [bind] in *. destruct (mapM g ys') as [zs'|] eqn:M; [|discriminate]. cbn [bind] in E2. injection E2 as <-. rewrite (proj2 (IH zs') ltac:(exists ys'; split; [reflexivity|exact M])). reflexivity.
Qed.
(** the pipeline applied to all the examples at once and batch by batch *)
Theorem transform_batches ls : forall mems mems' bs y, clean ls (List.concat bs) -> length mems = length ls -> length mems' = length ls ->
  (transform_rows ls mems (List.concat bs) = Ok y <-> exists ys, mapM (transform_rows ls mems') bs = Ok ys /\ y = List.concat ys).
Proof.
  induction ls as [|l ls IH]; intros [|m mems] [|m' mems'] bs y C L L'; try discriminate.
  - assert (E : mapM (transform_rows [] []) bs = Ok bs) by (rewrite (mapM_ok _ (fun x => x)) by (intros; apply transform_nil); now rewrite map_id).
    rewrite transform_nil, E. split; [intros [= <-]; exists bs; auto|intros (ys & [= <-] & ->); reflexivity].
  - destruct C as [N C]. rewrite transform_cons, apply_clean by exact N.
    rewrite (mapM_ext (transform_rows (l :: ls) (m' :: mems')) (fun x => do z <- mapM (row l) x; transform_rows ls mems' z) bs)
      by (intros b Hb; rewrite transform_cons, apply_clean by (apply (no_skip_incl l (List.concat bs)); [now apply incl_concat|exact N]); reflexivity).
    rewrite mapM_concat. rewrite mapM_concat in C. destruct (mapM (mapM (row l)) bs) as [zs|] eqn:M; cbn [bind] in *.
    + rewrite (IH mems mems' zs y (C _ eq_refl) ltac:(cbn in L; lia) ltac:(cbn in L'; lia)). split.
      * intros (ys & E & ->). exists ys. split; [|reflexivity]. apply mapM_bind. exists zs. auto.
      * intros (ys & E & ->). apply mapM_bind in E. destruct E as (zs' & E1 & E2). change (mapM (mapM (row l)) bs = Ok zs') in E1. rewrite M in E1. injection E1 as <-. exists ys. auto.
    + split; [discriminate|]. intros (ys & E & _). apply mapM_bind in E. destruct E as (zs & E1 & _). change (mapM (mapM (row l)) bs = Ok zs) in E1. congruence.
Qed.

(** ** What every node learns from *)
Lemma train_nth ns : forall d ls ds k n m, train ns d = Ok (ls, ds) -> nth_error ns k = Some (n, m) ->
  exists dk l d', nth_error (d :: ds) k = Some dk /\ nth_error ls k = Some l /\ nth_error ds k = Some d' /\ process n m dk = Ok (l, d').
Proof.
  induction ns as [|[n0 m0] ns IH]; intros d ls ds k n m T H; [destruct k; discriminate|]. cbn [train fst snd] in T.
  destruct (process n0 m0 d) as [[l0 d0]|] eqn:P; [|discriminate]. cbn [bind fst snd] in T. destruct (train ns d0) as [[ls' ds']|] eqn:T'; [|discriminate]. injection T as <- <-.
  destruct k as [|k]; [cbn in H; injection H as -> ->; exists d, l0, d0; auto|]. cbn [nth_error] in H. destruct (IH d0 ls' ds' k n m T' H) as (dk & l & d' & H1 & H2 & H3 & H4). exists dk, l, d'. auto.
Qed.
(** rows of the right width: the shared form of the rows of MeanStd *)
Definition rect (w : nat) (x : matrix) : Prop := Forall (fun r => length r = w) x.
Lemma mapM_imap_from {A B} (f : nat -> A -> B) x : forall i, mapM (fun p : nat * A => Ok (f (fst p) (snd p))) (combine (seq i (length x)) x) = Ok (imap_from f i x).
Proof. induction x as [|r x IH]; intros i; [reflexivity|]. cbn [length seq combine mapM fst snd bind imap_from]. rewrite IH. reflexivity. Qed.
Lemma broadcast_same r w : length r = length w -> broadcast r w = Ok (r, w).
Proof. intros L. unfold broadcast. now rewrite L, Nat.eqb_refl. Qed.
Lemma imap_combine {B} (f : nat -> R -> R -> B) (r : list R) : forall (s : list R) i t, length s = length r -> (forall j, nth (i + j) t 0 = nth j s 0) ->
  imap_from (fun j p => f j (fst p) (snd p)) i (combine r s) = imap_from (fun j x => f j x (nth j t 0)) i r.
Proof.
  induction r as [|x r IH]; intros [|y s] i t L H; try discriminate; [reflexivity|]. cbn [combine imap_from fst snd]. f_equal.
  - f_equal. specialize (H 0%nat). rewrite Nat.add_0_r in H. now symmetry.
  - apply IH; [cbn in L; lia|]. intros j. specialize (H (S j)). rewrite Nat.add_succ_r in H. exact H.
Qed.
Lemma meanstd_row mean std m r : length mean = length r -> length std = length r ->
  row_op (LMeanStd mean std) m r = Ok (imap (fun j x => div_where (x - nth j mean 0) (nth j std 0) (m j)) r).
Proof.
  intros L1 L2. cbn [row_op]. rewrite broadcast_same by (symmetry; exact L1). cbn [bind fst snd].
  assert (L3 : length (map (fun p : R * R => fst p - snd p) (combine r mean)) = length r) by (rewrite map_length, combine_length; lia).
  rewrite broadcast_same by lia. cbn [bind fst snd]. f_equal. unfold imap.
  rewrite (imap_combine (fun j a b => div_where a b (m j)) _ std 0 std) by (auto; lia).
  clear L3. assert (G : forall i mn, length mn = length r -> (forall j, nth (i + j) mean 0 = nth j mn 0) ->
    imap_from (fun j x => div_where x (nth j std 0) (m j)) i (map (fun p : R * R => fst p - snd p) (combine r mn)) = imap_from (fun j x => div_where (x - nth j mean 0) (nth j std 0) (m j)) i r).
  { clear L1 L2. induction r as [|x r IH]; intros i [|y mn] L H; try discriminate; [reflexivity|]. cbn [combine map imap_from fst snd]. f_equal.
    - f_equal. specialize (H 0%nat). rewrite Nat.add_0_r in H. rewrite H. reflexivity.
    - apply IH; [cbn in L; lia|]. intros j. specialize (H (S j)). rewrite Nat.add_succ_r in H. exact H. }
  apply G; auto.
Qed.
Lemma apply_meanstd mean std mem x w : rect w x -> length mean = w -> length std = w -> apply_op (LMeanStd mean std) mem x = Ok (meanstd mean std mem x).
Proof.
  intros Rx L1 L2. unfold apply_op, meanstd. rewrite (mapM_ext _ (fun p : nat * list R => Ok ((fun i r => imap (fun j y => div_where (y - nth j mean 0) (nth j std 0) (mem i j)) r) (fst p) (snd p)))).
  - exact (mapM_imap_from (fun i r => imap (fun j y => div_where (y - nth j mean 0) (nth j std 0) (mem i j)) r) x 0).
  - intros [i r] Hp. cbn [fst snd]. apply meanstd_row; apply in_combine_r in Hp; unfold rect in Rx; rewrite Forall_forall in Rx; rewrite (Rx r Hp); assumption.
Qed.
(** MeanStd learns the means and deviations of what reaches it, and leaves mean 0, deviation 1 *)
Theorem meanstd_learns ns x ls ds k m : train ns (Array x) = Ok (ls, ds) -> nth_error ns k = Some (MeanStd, m) ->
  exists z y, nth_error (Array x :: ds) k = Some (Array z) /\
    nth_error ls k = Some (LMeanStd (map (fun j => mean_of (column j z)) (seq 0 (width z))) (map (fun j => std_of (column j z)) (seq 0 (width z)))) /\
    nth_error ds k = Some (Array y) /\
    (rect (width z) z -> z <> [] -> forall j, (j < width z)%nat -> std_of (column j z) <> 0 -> mean_of (column j y) = 0 /\ std_of (column j y) = 1).
Proof.
  intros T H. destruct (train_nth _ _ _ _ _ _ _ T H) as (dk & l & d' & H1 & H2 & H3 & P). unfold process in P. destruct dk as [|z]; [discriminate|]. cbn [fit bind op_on] in P.
  destruct (apply_op _ m z) as [y|e] eqn:A; [|discriminate]. injection P as <- <-. exists z, y. split; [exact H1|]. split; [exact H2|]. split; [exact H3|].
  intros Rz Ne j Hj Hs. rewrite (apply_meanstd _ _ m z (width z) Rz) in A by (cbn; rewrite map_length, seq_length; reflexivity). injection A as <-.
  unfold rect in Rz. rewrite Forall_forall in Rz. exact (meanstd_normalised (width z) m z j Ne Rz Hj Hs).
Qed.
(** ... and applies them to whatever comes later *)
Theorem meanstd_applied mean std mems x : rect (length mean) x -> length std = length mean -> Forall (fun s => s <> 0) std -> length mems = 1%nat ->
  transform_rows [LMeanStd mean std] mems x = Ok (map (fun r => map (fun j => (nth j r 0 - nth j mean 0) / nth j std 0) (seq 0 (length mean))) x).
Proof.
  intros Rx L N Lm. destruct mems as [|m [|]]; try discriminate. rewrite transform_cons, (apply_meanstd mean std m x (length mean)) by auto. cbn [bind]. rewrite transform_nil. f_equal.
  unfold meanstd, imap. generalize 0%nat at 2 as i. induction x as [|r x IH]; intros i; [reflexivity|]. cbn [imap_from map]. inversion Rx as [|? ? Lr Rx']; subst. rewrite IH by exact Rx'. f_equal. clear - Lr L N. rewrite <- Lr.
  transitivity (imap_from (fun j y => (y - nth j mean 0) / nth j std 0) 0 r).
  - assert (G : forall k q, (forall j, (j < length q)%nat -> (k + j < length std)%nat) -> imap_from (fun j y => div_where (y - nth j mean 0) (nth j std 0) (m i j)) k q = imap_from (fun j y => (y - nth j mean 0) / nth j std 0) k q).
    { intros k q; revert k; induction q as [|a q IH]; intros k B; [reflexivity|]. cbn [imap_from]. rewrite IH by (intros j Hj; specialize (B (S j)); cbn in B; lia). f_equal. unfold div_where. destruct (Reqb_spec (nth k std 0) 0) as [F|F]; [|reflexivity]. exfalso. rewrite Forall_forall in N. apply (N (nth k std 0)); [|exact F]. apply nth_In. specialize (B 0%nat). cbn in B. lia. }
    apply G. intros j Hj. lia.
  - assert (G : forall k q, imap_from (fun j y => (y - nth j mean 0) / nth j std 0) k q = map (fun j => (nth (j - k) q 0 - nth j mean 0) / nth j std 0) (seq k (length q))).
    { intros k q; revert k; induction q as [|a q IH]; intros k; [reflexivity|]. cbn [imap_from length seq map]. rewrite Nat.sub_diag. f_equal. rewrite IH. apply map_ext_in. intros j Hj. apply in_seq in Hj. replace (j - k)%nat with (S (j - S k)) by lia. reflexivity. }
    rewrite G. apply map_ext. intros j. now rewrite Nat.sub_0_r.
Qed.

(** ** Inverses *)
Definition invertible (w : nat) (l : learned) : Prop :=
  match l with
  | LUnitNorm | LLog | LMuLaw => True
  | LMeanStd mean std => length mean = w /\ length std = w /\ Forall (fun s => s <> 0) std
  | LInstance mv => mv <> 0
  | LMultiply f => f <> 0
  | LWeighted wt => length wt = w /\ Forall (fun v => v <> 0) wt
  | LSlicer _ | LAbs | LSharpen _ | LBinarize _ | LSimHash _ => False
  end.
Lemma mapM_combine {B} (f : list R -> result B) x : mapM (fun p : nat * list R => f (snd p)) (combine (seq 0 (length x)) x) = mapM f x.
Proof. apply mapM_combine_snd. apply seq_length. Qed.
Lemma step_inverts w l mem x : invertible w l -> rect w x ->
  exists y, apply_op l mem x = Ok y /\ rect w y /\
    exists k, forward (to_step (l, mem)) x = Ok (y, k) /\ step_inverse l y k = Ok x.
Proof.
  intros I Rx. unfold rect in Rx. pose proof (proj1 (Forall_forall _ _) Rx) as Rx'.
  assert (RI : forall (f : nat -> nat -> list R -> R -> R), rect w (imap (fun i r => imap (fun j a => f i j r a) r) x)).
  { intros f. unfold rect, imap. generalize 0%nat at 2 as i. clear I Rx'. induction x as [|r x IH]; intros i; [constructor|]. inversion Rx; subst. cbn [imap_from]. constructor; [now rewrite imap_from_length|now apply IH]. }
  assert (RM : forall (f : R -> R), rect w (map (map f) x)).
  { intros f. unfold rect. apply Forall_map. apply Forall_forall. intros r Hr. rewrite map_length. now apply Rx'. }
  unfold forward, to_step. cbn [op inv_data inverse fst snd]. unfold step_op.
  destruct l; cbn [invertible] in I; try contradiction.
  - assert (A : apply_op LUnitNorm mem x = Ok (fst (unit_norm mem x))) by (unfold apply_op; cbn [row_op]; exact (mapM_imap_from (fun i r => imap (fun j a => div_where a (norm r) (mem i j)) r) x 0)).
    exists (fst (unit_norm mem x)). rewrite A. cbn [bind]. split; [reflexivity|]. split; [apply (RI (fun i j r a => div_where a (norm r) (mem i j)))|]. eexists. split; [reflexivity|]. cbn [step_inverse]. f_equal. apply unit_norm_roundtrip.
  - destruct I as (L1 & L2 & N). rewrite (apply_meanstd mean std mem x w Rx L1 L2). exists (meanstd mean std mem x). split; [reflexivity|]. split; [apply (RI (fun i j r a => div_where (a - nth j mean 0) (nth j std 0) (mem i j)))|]. cbn [bind step_inv_data]. eexists. split; [reflexivity|]. cbn [step_inverse]. f_equal. apply meanstd_roundtrip.
    intros r j a Hr Ha. left. rewrite Forall_forall in N. apply N, nth_In. rewrite L2, <- (Rx' r Hr). apply nth_error_Some. congruence.
  - assert (A : apply_op (LInstance max_value) mem x = Ok (fst (Preproc.instance_scale max_value mem x))) by (unfold apply_op; cbn [row_op]; exact (mapM_imap_from (fun i r => imap (fun j a => max_value * div_where a (max_abs r) (mem i j)) r) x 0)).
    exists (fst (Preproc.instance_scale max_value mem x)). rewrite A. cbn [bind]. split; [reflexivity|]. split; [apply (RI (fun i j r a => max_value * div_where a (max_abs r) (mem i j)))|]. eexists. split; [reflexivity|]. cbn [step_inverse]. f_equal. now apply instance_scale_roundtrip.
  - assert (A : apply_op (LMultiply factor) mem x = Ok (multiply factor x)) by (unfold apply_op; cbn [row_op]; rewrite (mapM_combine (fun r => Ok (map (fun a => a * factor) r))); now apply mapM_ok).
    exists (multiply factor x). rewrite A. cbn [bind step_inv_data]. split; [reflexivity|]. split; [apply RM|]. eexists. split; [reflexivity|]. cbn [step_inverse]. now apply multiply_roundtrip.
  - destruct I as (L1 & N).
    assert (A : apply_op (LWeighted weighting) mem x = Ok (weighted weighting x)).
    { unfold apply_op. cbn [row_op]. rewrite (mapM_combine (fun r => do a <- broadcast r weighting; Ok (map (fun p => fst p * snd p) (combine (fst a) (snd a))))). apply mapM_ok. intros r Hr. rewrite broadcast_same by (rewrite (Rx' r Hr); now symmetry). reflexivity. }
    exists (weighted weighting x). rewrite A. cbn [bind step_inv_data]. split; [reflexivity|]. split.
    + unfold rect, weighted. apply Forall_map, Forall_forall. intros r Hr. rewrite map_length, combine_length, (Rx' r Hr), L1. apply Nat.min_id.
    + eexists. split; [reflexivity|]. cbn [step_inverse]. f_equal. apply weighted_roundtrip; [intros r Hr; rewrite (Rx' r Hr); now symmetry|now apply Forall_forall].
  - assert (A : apply_op LLog mem x = Ok (map (map log_modulus) x)) by (unfold apply_op; cbn [row_op]; rewrite (mapM_combine (fun r => Ok (map log_modulus r))); now apply mapM_ok).
    exists (map (map log_modulus) x). rewrite A. cbn [bind step_inv_data]. split; [reflexivity|]. split; [apply RM|]. eexists. split; [reflexivity|]. cbn [step_inverse]. f_equal. rewrite map_map. rewrite <- (map_id x) at 2. apply map_ext. intros r. rewrite map_map. rewrite <- (map_id r) at 2. apply map_ext. apply log_modulus_inverse.
  - assert (A : apply_op LMuLaw mem x = Ok (map (map (mu_law 255)) x)) by (unfold apply_op; cbn [row_op]; rewrite (mapM_combine (fun r => Ok (map (mu_law 255) r))); now apply mapM_ok).
    exists (map (map (mu_law 255)) x). rewrite A. cbn [bind step_inv_data]. split; [reflexivity|]. split; [apply RM|]. eexists. split; [reflexivity|]. cbn [step_inverse]. f_equal. rewrite map_map. rewrite <- (map_id x) at 2. apply map_ext. intros r. rewrite map_map. rewrite <- (map_id r) at 2. apply map_ext. apply mu_law_inverse. lra.
Qed.
Theorem chain_inverts w ls : forall mems x, Forall (invertible w) ls -> rect w x -> length mems = length ls ->
  (exists y, transform_rows ls mems x = Ok y /\ rect w y) /\ there_and_back_rows ls mems x = Ok x.
Proof.
  intros mems x I Rx L. assert (G : (exists y, transform_rows ls mems x = Ok y /\ rect w y) /\ inverts_along no_wrap no_rebuild (pipeline ls mems) x).
  { revert mems x Rx L. induction I as [|l ls Hl I IH]; intros [|m mems] x Rx L; try discriminate; [split; [exists x; auto|exact Logic.I]|].
    destruct (step_inverts w l m x Hl Rx) as (y & A & Ry & k & F & V). destruct (IH mems y Ry ltac:(cbn in L; lia)) as ((z & T & Rz) & J).
    split; [exists z; rewrite transform_cons, A; auto|]. unfold pipeline. cbn [combine map inverts_along]. exists y, k, x. split; [exact F|]. split; [exact V|]. split; [reflexivity|exact J]. }
  destruct G as [G1 G2]. split; [exact G1|]. unfold there_and_back_rows. now apply pipeline_inverts.
Qed.

(** ** Failures that are hidden *)
Theorem hidden_failure_refuted r x m mem y s : let data := Array (r :: x) in
  train [(Sharpen None, m)] data = Ok ([LSharpen None], [Nothing]) /\
  transform_rows [LSharpen None] [mem] (s :: y) = Raise TypeError.
Proof. split; [reflexivity|]. rewrite transform_cons. reflexivity. Qed.
Theorem nothing_spreads n m ns ls ds : train ((n, m) :: ns) Nothing = Ok (ls, ds) ->
  Forall (fun p => match fst p with UnitNorm | AbsoluteValue | Sharpen _ | Binarize _ => True | _ => False end) ((n, m) :: ns) /\ Forall (fun d => d = Nothing) ds.
Proof.
  intros T. split; [|exact (train_nothing _ _ _ T)]. remember ((n, m) :: ns) as ps. clear Heqps n m ns. revert ls ds T. induction ps as [|[n m] ps IH]; intros ls ds; cbn [train fst snd]; [constructor|].
  unfold process. destruct (fit n Nothing) as [l|] eqn:Fn; [|discriminate]. cbn [bind op_on].
  destruct (match l with LUnitNorm | LInstance _ | LMeanStd _ _ | LBinarize _ | LSimHash _ => Raise AttributeError | _ => Raise TypeError end) as [y|e] eqn:E; [destruct l; discriminate|].
  destruct (catches n e) eqn:C; [|discriminate]. cbn [bind fst snd]. destruct (train ps Nothing) as [[ls' ds']|] eqn:T; [|discriminate]. intros _. constructor; [|now apply (IH ls' ds')]. cbn [fst]. destruct n; try exact I; discriminate.
Qed.

(** ** Several chunks *)
Lemma round {P : Type} needs (val : nat -> P) order rest :
  needs <> [] -> NoDup needs -> Permutation order needs ->
  node_run needs (map (fun n => (n, val n)) order ++ rest) = repeat None (length needs - 1) ++ Some (map val needs) :: node_run needs rest.
Proof.
  intros Ne N Pm.
  assert (No : NoDup order) by (apply (Permutation_NoDup (Permutation_sym Pm)); exact N).
  assert (Lo : length order = length needs) by (apply Permutation_length; exact Pm).
  destruct (rev order) as [|k r] eqn:Rv.
  { apply (f_equal (@rev nat)) in Rv. rewrite rev_involutive in Rv. subst order. cbn in Lo. destruct needs; [contradiction|discriminate]. }
  apply (f_equal (@rev nat)) in Rv. rewrite rev_involutive in Rv. cbn [rev] in Rv. subst order. set (o := rev r) in *. rewrite map_app. cbn [map]. set (ev := fun n => (n, val n)).
  assert (Ko : ~ In k o) by (apply NoDup_remove_2 in No; rewrite app_nil_r in No; exact No).
  destruct (one_pipeline needs (map ev o) k (val k) rest) as (ps & F & E).
  - exact N.
  - intros e He. apply in_app_or in He. apply (Permutation_in (l := (o ++ [k])%list)); [exact Pm|]. apply in_or_app. destruct He as [He|[<-|[]]]; [|right; left; reflexivity]. apply in_map_iff in He. destruct He as (n & <- & Hn). left. exact Hn.
  - intros A. destruct (A k) as [q Hq]; [apply (Permutation_in _ Pm); apply in_or_app; right; left; reflexivity|]. apply in_map_iff in Hq. destruct Hq as (n & En & Hn). injection En as -> _. contradiction.
  - intros n Hn. exists (val n). apply (Permutation_in _ (Permutation_sym Pm)) in Hn. apply in_app_or in Hn. apply in_or_app. destruct Hn as [Hn|[->|[]]]; [left; apply in_map_iff; exists n; split; [reflexivity|exact Hn]|right; left; reflexivity].
  - unfold ev in *. rewrite <- app_assoc. cbn [List.app]. rewrite E. rewrite map_length. rewrite app_length in Lo. cbn [length] in Lo. replace (length needs - 1)%nat with (length o) by lia.
    do 3 f_equal. clear - F. revert F.
    assert (V : forall n q, latest (map (fun n => (n, val n)) o ++ [(k, val k)]) n = Some q -> q = val n).
    { intros n q Hq. apply latest_in in Hq. apply in_app_or in Hq. destruct Hq as [Hq|[Hq|[]]]; [|congruence]. apply in_map_iff in Hq. destruct Hq as (m & Em & _). congruence. }
    induction 1 as [|n q ns qs H F IH]; [reflexivity|]. cbn [map]. f_equal; [exact (V n q H)|exact IH].
Qed.
Lemma train_lengths ns : forall d ls ds, train ns d = Ok (ls, ds) -> length ls = length ns /\ length ds = length ns.
Proof. induction ns as [|[n m] ns IH]; intros d ls ds; cbn [train fst snd]; [intros [= <- <-]; auto|]. destruct (process n m d) as [[l' d']|]; [|discriminate]. cbn [bind fst snd]. destruct (train ns d') as [[a b]|] eqn:E; [|discriminate]. intros [= <- <-]. cbn. destruct (IH _ _ _ E). lia. Qed.
(** one pipeline per chunk, in order, the [i]-th trained on the [i]-th chunk alone *)
Theorem one_pipeline_per_chunk n chunks pipes : (0 < n)%nat ->
  Forall (fun c => length (fst (fst c)) = n /\ Permutation (snd (fst c)) (seq 0 n)) chunks ->
  (graph_pipelines n chunks = Ok pipes <-> Forall2 (fun c ps => exists ds, train (fst (fst c)) (Array (snd c)) = Ok (ps, ds)) chunks pipes).
Proof.
  intros Hn F. unfold graph_pipelines. revert pipes. induction F as [|[[ns order] x] chunks [L Pm] F IH]; intros pipes; cbn [fst snd] in *.
  - cbn. split; [intros [= <-]; constructor|intros H; inversion H; reflexivity].
  - cbn [graph_events]. destruct (train ns (Array x)) as [[ls ds]|] eqn:T; cbn [bind fst].
    2: { split; [discriminate|]. intros H. inversion H as [|? ? ? ? (d & E) _]; subst. cbn in E. congruence. }
    destruct (train_lengths _ _ _ _ T) as [Ll _]. destruct (graph_events chunks) as [rest|e] eqn:G; cbn [bind].
    + unfold deliveries. rewrite (round (seq 0 n) (fun i => nth i ls LUnitNorm) order rest) by first [exact Pm|apply seq_NoDup|destruct n; [lia|discriminate]].
      assert (M : map (fun i => nth i ls LUnitNorm) (seq 0 n) = ls).
      { rewrite <- L, <- Ll. clear. induction ls as [|l ls IH]; [reflexivity|]. cbn [length seq map nth]. f_equal. rewrite <- seq_shift, map_map. exact IH. }
      rewrite M. rewrite flat_map_app. assert (Z : forall k, flat_map (fun o : option (list learned) => match o with None => [] | Some ps => [ps] end) (repeat None k) = []) by (induction k; [reflexivity|assumption]). rewrite Z. cbn [flat_map List.app]. split.
      * intros [= <-]. constructor; [exists ds; exact T|]. now apply IH.
      * intros H. inversion H as [|? ps ? pipes' (d & E) H']; subst. cbn [fst snd] in E. rewrite T in E. injection E as <- <-. apply IH in H'. cbn [bind] in H'. injection H' as ->. reflexivity.
    + split; [discriminate|]. intros H. inversion H as [|? ps ? pipes' _ H']; subst. apply IH in H'. discriminate.
Qed.
(** so the statistics are not those of the whole dataset: two one-example documents *)
Theorem dataset_statistics_refuted m m' : exists pipes,
  graph_pipelines 1 [([(MeanStd, m)], [0%nat], [[0]; [2]]); ([(MeanStd, m')], [0%nat], [[4]; [6]])] = Ok pipes /\
  pipes = [[LMeanStd [1] [1]]; [LMeanStd [5] [1]]] /\ fst (fit_meanstd 1 [[0]; [2]; [4]; [6]]) = [3].
Proof.
  assert (A1 : mean_of [0; 2] = 1) by (unfold mean_of; cbn; field). assert (A2 : mean_of [4; 6] = 5) by (unfold mean_of; cbn; field).
  assert (S1 : std_of [0; 2] = 1) by (unfold std_of; cbn [map]; rewrite A1; unfold mean_of; cbn; match goal with |- sqrt ?e = 1 => replace e with 1 by field end; apply sqrt_1).
  assert (S2 : std_of [4; 6] = 1) by (unfold std_of; cbn [map]; rewrite A2; unfold mean_of; cbn; match goal with |- sqrt ?e = 1 => replace e with 1 by field end; apply sqrt_1).
  exists [[LMeanStd [1] [1]]; [LMeanStd [5] [1]]]. split; [|split; [reflexivity|]].
  2: { unfold fit_meanstd. cbn [fst seq map]. unfold column. cbn [map nth]. f_equal. unfold mean_of. cbn. field. }
  apply one_pipeline_per_chunk; [lia|repeat constructor|].
  constructor; [|constructor; [|constructor]]; cbn [fst snd].
  - assert (E : fit MeanStd (Array [[0]; [2]]) = Ok (LMeanStd [1] [1])) by (cbn [fit]; unfold fit_meanstd; cbn [width length seq map fst snd]; unfold column; cbn [map nth]; rewrite A1, S1; reflexivity).
    cbn [train fst snd]. unfold process. rewrite E. cbn [bind op_on]. rewrite (apply_meanstd [1] [1] m _ 1) by (repeat constructor). cbn [bind fst snd]. eexists. reflexivity.
  - assert (E : fit MeanStd (Array [[4]; [6]]) = Ok (LMeanStd [5] [1])) by (cbn [fit]; unfold fit_meanstd; cbn [width length seq map fst snd]; unfold column; cbn [map nth]; rewrite A2, S2; reflexivity).
    cbn [train fst snd]. unfold process. rewrite E. cbn [bind op_on]. rewrite (apply_meanstd [5] [1] m' _ 1) by (repeat constructor). cbn [bind fst snd]. eexists. reflexivity.
Qed.
