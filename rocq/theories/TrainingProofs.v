(** Proofs about training and applying chains of preprocessing nodes. *)
From Coq Require Import ZArith Reals Lra Lia Permutation.
From Verif Require Import PyBase PyFacts PyMore Freq Preproc PreprocProofs Pipeline PipelineProofs Spectral SpectralProofs Training.
Local Open Scope R_scope.

(** ** Specification *)
(** no division of the Op is skipped on these examples *)
Definition no_skip (l : learned) (x : matrix) : Prop :=
  match l with
  | LUnitNorm | LInstance _ => Forall (fun r => exists v, In v r /\ v <> 0) x
  | LMeanStd _ std => Forall (fun s => s <> 0) std
  | _ => True
  end.
(** one example through the Op, when nothing is skipped *)
Definition row (l : learned) (r : list R) : result (list R) := row_op l (fun _ => 0) r.
Fixpoint clean (ls : list learned) (x : matrix) : Prop :=
  match ls with
  | [] => True
  | l :: ls' => no_skip l x /\ forall y, mapM (row l) x = Ok y -> clean ls' y
  end.

Lemma max_abs_pos r v : In v r -> v <> 0 -> 0 < max_abs r.
Proof. intros H N. pose proof (max_abs_le r v H). apply Rabs_pos_lt in N. lra. Qed.
Lemma norm_pos r v : In v r -> v <> 0 -> norm r <> 0.
Proof. intros H N E. apply N. now apply (proj1 (norm_zero_iff r) E). Qed.
Lemma imap_from_ext {A B} (f g : nat -> A -> B) l : forall i, (forall j x, In x l -> f j x = g j x) -> imap_from f i l = imap_from g i l.
Proof. induction l as [|a l IH]; intros i H; [reflexivity|]. cbn. rewrite H by (left; reflexivity). f_equal. apply IH. intros j x Hx. apply H. now right. Qed.
Lemma imap_ext {A B} (f g : nat -> A -> B) l : (forall j x, In x l -> f j x = g j x) -> imap f l = imap g l.
Proof. apply imap_from_ext. Qed.
Lemma div_clean a b m m' : b <> 0 -> div_where a b m = div_where a b m'.
Proof. intros N. unfold div_where. destruct (Reqb_spec b 0); [contradiction|reflexivity]. Qed.
Lemma broadcast_right r w a : broadcast r w = Ok a -> incl (snd a) w.
Proof.
  unfold broadcast. destruct (length r =? length w)%nat; [intros [= <-]; apply incl_refl|].
  destruct w as [|x [|x' w]]; [destruct r as [|y [|]]; try discriminate; intros [= <-]; apply incl_refl| |].
  - intros [= <-]. intros z Hz. cbn in Hz. apply repeat_spec in Hz. left. now symmetry.
  - destruct r as [|y [|]]; try discriminate. intros [= <-]. apply incl_refl.
Qed.
Lemma row_clean l m m' r x : In r x -> no_skip l x -> row_op l m r = row_op l m' r.
Proof.
  intros Hr N. destruct l; try reflexivity; cbn [row_op no_skip] in *.
  - rewrite Forall_forall in N. destruct (N r Hr) as (v & Hv & Nv). f_equal. apply imap_ext. intros j y _. apply div_clean. now apply norm_pos with v.
  - destruct (broadcast r mean) as [a|]; [|reflexivity]. cbn [bind]. destruct (broadcast _ std) as [b|] eqn:E; [|reflexivity]. cbn [bind]. f_equal. apply imap_ext. intros j [u v] Hp. cbn [fst snd]. apply div_clean.
    apply in_combine_r in Hp. apply (broadcast_right _ _ _ E) in Hp. rewrite Forall_forall in N. now apply N.
  - rewrite Forall_forall in N. destruct (N r Hr) as (v & Hv & Nv). f_equal. apply imap_ext. intros j y _. f_equal. apply div_clean. apply Rgt_not_eq. now apply max_abs_pos with v.
Qed.
Lemma mapM_ext {A B} (f g : A -> result B) l : (forall x, In x l -> f x = g x) -> mapM f l = mapM g l.
Proof. induction l as [|a l IH]; intros H; [reflexivity|]. cbn. rewrite H by (left; reflexivity). rewrite IH by (intros x Hx; apply H; now right). reflexivity. Qed.
Lemma mapM_combine_snd {A B C} (f : A -> result B) (l : list A) : forall (k : list C), length k = length l -> mapM (fun p => f (snd p)) (combine k l) = mapM f l.
Proof. induction l as [|a l IH]; intros [|c k] H; try discriminate; [reflexivity|]. cbn. rewrite IH by (cbn in H; lia). reflexivity. Qed.
Lemma apply_clean l mem x : no_skip l x -> apply_op l mem x = mapM (row l) x.
Proof.
  intros N. unfold apply_op. rewrite <- (mapM_combine_snd (row l) x (seq 0 (length x))) by apply seq_length.
  apply mapM_ext. intros [i r] Hp. cbn [fst snd]. apply row_clean with x; [|exact N]. now apply in_combine_r in Hp.
Qed.

(** transform, one step at a time *)
Lemma transform_cons l ls m mems x : transform_rows (l :: ls) (m :: mems) x = do y <- apply_op l m x; transform_rows ls mems y.
Proof.
  unfold transform_rows, pipeline. rewrite !transform_data. cbn [combine map there]. unfold forward, to_step at 1. cbn [op inv_data fst snd]. unfold step_op.
  destruct (apply_op l m x) as [y|]; [|reflexivity]. cbn [bind]. destruct l; cbn [bind step_inv_data fst]; rewrite ?transform_data; reflexivity.
Qed.
Lemma transform_nil mems x : transform_rows [] mems x = Ok x.
Proof. reflexivity. Qed.
(** nothing skipped: the pipeline does not depend on memory *)
Lemma transform_clean ls : forall mems x, clean ls x -> length mems = length ls ->
  transform_rows ls mems x = (fix go ls x := match ls with [] => Ok x | l :: ls' => do y <- mapM (row l) x; go ls' y end) ls x.
Proof.
  induction ls as [|l ls IH]; intros [|m mems] x C L; try discriminate; [apply transform_nil|]. rewrite transform_cons. destruct C as [N C]. rewrite apply_clean by exact N. destruct (mapM (row l) x) as [y|] eqn:E; [|reflexivity]. cbn [bind]. apply IH; [now apply C|cbn in L; lia].
Qed.

(** ** Training and applying agree *)
Lemma train_nothing ns : forall ls ds, train ns Nothing = Ok (ls, ds) -> Forall (fun d => d = Nothing) ds.
Proof.
  induction ns as [|[n m] ns IH]; intros ls ds; cbn [train fst snd]; [intros [= <- <-]; constructor|].
  unfold process. destruct (fit n Nothing) as [l|]; [|discriminate]. cbn [bind]. cbn [op_on].
  destruct (match l with LUnitNorm | LInstance _ | LMeanStd _ _ | LBinarize _ | LSimHash _ => Raise AttributeError | _ => Raise TypeError end) as [y|e] eqn:E; [destruct l; discriminate|].
  destruct (catches n e); [|discriminate]. cbn [bind fst snd]. destruct (train ns Nothing) as [[ls' ds']|] eqn:T; [|discriminate]. cbn [bind fst snd]. intros [= <- <-]. constructor; [reflexivity|]. now apply IH with ls'.
Qed.
Theorem training_agrees ns x ls ds mems : train ns (Array x) = Ok (ls, ds) -> clean ls x -> length mems = length ls ->
  length ls = length ns /\ length ds = length ns /\
  forall k y, nth_error ds k = Some (Array y) -> transform_rows (firstn (S k) ls) mems x = Ok y.
Proof.
  revert x ls ds mems. induction ns as [|[n m] ns IH]; intros x ls ds mems; cbn [train fst snd].
  - intros [= <- <-] _ _. split; [reflexivity|]. split; [reflexivity|]. intros [|k] y; discriminate.
  - destruct (process n m (Array x)) as [[l d]|] eqn:P; [|discriminate]. cbn [bind fst snd]. destruct (train ns d) as [[ls' ds']|] eqn:T; [|discriminate]. cbn [bind fst snd]. intros [= <- <-] C L.
    destruct mems as [|m' mems]; [discriminate|]. cbn in L. destruct C as [N C].
    assert (Ls : length ls' = length ns /\ length ds' = length ns).
    { clear - T. revert d ls' ds' T. induction ns as [|[n m] ns IH]; intros d ls ds; cbn [train fst snd]; [intros [= <- <-]; auto|]. destruct (process n m d) as [[l' d']|]; [|discriminate]. cbn [bind fst snd]. destruct (train ns d') as [[a b]|] eqn:E; [|discriminate]. intros [= <- <-]. cbn. destruct (IH _ _ _ E). lia. }
    split; [cbn; lia|]. split; [cbn; lia|]. intros k y Hk.
    unfold process in P. destruct (fit n (Array x)) as [l'|]; [|discriminate]. cbn [bind op_on] in P.
    destruct (apply_op l' m x) as [x1|e] eqn:A.
    + injection P as -> <-. rewrite apply_clean in A by exact N. specialize (C x1 A). cbn [firstn]. rewrite transform_cons, apply_clean, A by exact N. cbn [bind].
      destruct k as [|k]; [cbn in Hk; injection Hk as <-; reflexivity|]. apply (proj2 (proj2 (IH x1 ls' ds' mems T C ltac:(lia)))). exact Hk.
    + destruct (catches n e); [|discriminate]. injection P as -> <-. apply train_nothing in T. destruct k as [|k]; [discriminate|]. cbn in Hk. rewrite Forall_forall in T. specialize (T _ (nth_error_In _ _ Hk)). discriminate.
Qed.
(** with nodes that do not hide failures every node hands on an array *)
Theorem strict_training ns x ls ds : train ns (Array x) = Ok (ls, ds) -> (forall n e, In n (map fst ns) -> catches n e = false) ->
  Forall (fun d => exists y, d = Array y) ds.
Proof.
  revert x ls ds. induction ns as [|[n m] ns IH]; intros x ls ds; cbn [train fst snd]; [intros [= <- <-] _; constructor|].
  intros T S. destruct (process n m (Array x)) as [[l d]|] eqn:P; [|discriminate]. cbn [bind fst snd] in T. destruct (train ns d) as [[ls' ds']|] eqn:T'; [|discriminate]. injection T as <- <-.
  unfold process in P. destruct (fit n (Array x)) as [l'|]; [|discriminate]. cbn [bind] in P. destruct (op_on l' m (Array x)) as [y|e].
  - injection P as <- <-. constructor; [eexists; reflexivity|]. apply (IH y ls' ds' T'). intros n' e Hn. apply S. cbn. now right.
  - rewrite (S n e) in P by (left; reflexivity). discriminate.
Qed.
(** skipped divisions: a feature that is constant in training makes the training data and the
    pipeline's own output differ *)
Theorem skipped_refuted c : exists ls ds y m m',
  train [(MeanStd, m)] (Array [[c]; [c]]) = Ok (ls, ds) /\ ds = [Array y] /\ transform_rows ls [m'] [[c]; [c]] <> Ok y.
Proof.
  assert (M : mean_of [c; c] = c) by (unfold mean_of; cbn; field).
  assert (S0 : std_of [c; c] = 0). { unfold std_of. cbn [map]. rewrite M. replace (c - c) with 0 by ring. unfold mean_of. cbn. match goal with |- sqrt ?e = 0 => replace e with 0 by field end. apply sqrt_0. }
  exists [LMeanStd [c] [0]], [Array [[0]; [0]]], [[0]; [0]], (fun _ _ => 0), (fun _ _ => 1).
  split; [|split; [reflexivity|]].
  - cbn [train]. unfold process. cbn [fst snd fit]. unfold fit_meanstd. cbn [width length seq map fst snd column nth]. unfold column. cbn [map nth]. rewrite M, S0. cbn. unfold div_where. destruct (Reqb_spec 0 0) as [_|F]; [reflexivity|contradiction F; reflexivity].
  - rewrite transform_cons. cbn. unfold div_where. destruct (Reqb_spec 0 0) as [_|F]; [|contradiction F; reflexivity]. cbn. intros [= H]. lra.
Qed.

