(** Proofs about the Ops of trained nodes, example by example. *)
From Coq Require Import ZArith Reals Lra Lia Permutation.
From Verif Require Import PyBase PyFacts PyMore Freq Preproc PreprocProofs Pipeline PipelineProofs Spectral SpectralProofs Training TrainingProofs TrainingProofs2.
Local Open Scope R_scope.

(** ** Specification *)
(** a signal that is 0 outside its samples *)
Definition zat (r : list R) (z : Z) : R := if (0 <=? z)%Z && (z <? Zlen r)%Z then nth (Z.to_nat z) r 0 else 0.
(** what the Op makes of an example in which nothing is skipped *)
Definition op_meaning (l : learned) (r s : list R) : Prop :=
  match l with
  | LUnitNorm => length s = length r /\ norm s = 1 /\ exists c, 0 < c /\ r = map (fun v => c * v) s
  | LMeanStd mean std => length mean = length r -> length std = length r -> length s = length r /\ forall j, (j < length r)%nat -> nth j s 0 = (nth j r 0 - nth j mean 0) / nth j std 0
  | LInstance mv => length s = length r /\ max_abs s = Rabs mv /\ exists c, 0 < c /\ map (fun v => mv * v) r = map (fun v => c * v) s
  | LMultiply f => s = map (fun v => v * f) r
  | LWeighted w => length w = length r -> length s = length r /\ forall j, (j < length r)%nat -> nth j s 0 = nth j r 0 * nth j w 0
  | LSlicer sl => s = apply_slice sl r
  | LAbs => s = map Rabs r
  | LSharpen None => False
  | LSharpen (Some k) => length s = length r /\ forall j, (j < length r)%nat ->
      nth j s 0 = Rmax 0 (sumR (map (fun i => nth i k 0 * zat r (Z.of_nat j + (Zlen k - 1) / 2 - Z.of_nat i)) (seq 0 (length k))))
  | LBinarize t => length s = length r /\ forall j, (j < length r)%nat -> (nth j r 0 > t -> nth j s 0 = 1) /\ (nth j r 0 <= t -> nth j s 0 = 0)
  | LSimHash planes => length s = length planes /\ forall i p, nth_error planes i = Some p -> length p = length r /\ (dot p r > 0 -> nth i s 0 = 1) /\ (dot p r <= 0 -> nth i s 0 = 0)
  | LLog => s = map log_modulus r
  | LMuLaw => s = map (mu_law 255) r
  end.

Lemma imap_const {B} (f : R -> B) (l : list R) : imap (fun _ x => f x) l = map f l.
Proof. unfold imap. generalize 0%nat. induction l as [|a l IH]; intros i; cbn; [reflexivity|now rewrite IH]. Qed.
Lemma nth_map_lt {A B} (f : A -> B) l j d d' : (j < length l)%nat -> nth j (map f l) d' = f (nth j l d).
Proof. intros H. rewrite (nth_indep (map f l) d' (f d)) by (rewrite map_length; exact H). apply map_nth. Qed.
Lemma max_abs_scale c r : max_abs (map (fun v => c * v) r) = Rabs c * max_abs r.
Proof.
  unfold max_abs. induction r as [|x r IH]; cbn; [ring|]. rewrite IH, Rabs_mult. rewrite RmaxRmult by apply Rabs_pos. reflexivity.
Qed.
Lemma conv_zat r k n : conv_full r k n = sumR (map (fun i => nth i k 0 * zat r (Z.of_nat n - Z.of_nat i)) (seq 0 (length k))).
Proof.
  unfold conv_full. f_equal. apply map_ext. intros i. f_equal. unfold zat, Zlen. destruct (Nat.leb_spec i n) as [H|H].
  - destruct (Z.leb_spec 0 (Z.of_nat n - Z.of_nat i)); [|lia]. cbn [andb]. replace (Z.to_nat (Z.of_nat n - Z.of_nat i)) with (n - i)%nat by lia. destruct (Z.ltb_spec (Z.of_nat n - Z.of_nat i) (Z.of_nat (length r))); [reflexivity|]. apply nth_overflow. lia.
  - destruct (Z.leb_spec 0 (Z.of_nat n - Z.of_nat i)); [lia|reflexivity].
Qed.
Theorem op_values l r s x : row_op l (fun _ => 0) r = Ok s -> In r x -> no_skip l x -> op_meaning l r s.
Proof.
  intros E Hr N. destruct l; cbn [row_op op_meaning no_skip] in *.
  - injection E as <-. rewrite Forall_forall in N. destruct (N r Hr) as (v & Hv & Nv). pose proof (norm_pos r v Hv Nv) as Np. assert (P : 0 < norm r) by (pose proof (norm_nonneg r); lra).
    rewrite (imap_ext _ (fun _ y => / norm r * y)) by (intros j y _; unfold div_where; destruct (Reqb_spec (norm r) 0); [contradiction|unfold Rdiv; ring]). rewrite imap_const. split; [apply map_length|]. split.
    + rewrite norm_scale, Rabs_pos_eq by (left; now apply Rinv_0_lt_compat). now apply Rinv_l.
    + exists (norm r). split; [exact P|]. rewrite map_map. rewrite <- (map_id r) at 1. apply map_ext. intros a. field. exact Np.
  - intros L1 L2. change (row_op (LMeanStd mean std) (fun _ => 0) r = Ok s) in E. rewrite meanstd_row in E by assumption. injection E as <-. split; [apply imap_length|]. intros j Hj. destruct (nth_error r j) as [a|] eqn:Ea; [|apply nth_error_None in Ea; lia]. rewrite (nth_error_nth r j 0 Ea).
    apply nth_error_nth. rewrite imap_nth, Ea. cbn [option_map]. f_equal. unfold div_where. destruct (Reqb_spec (nth j std 0) 0) as [F|F]; [|reflexivity]. exfalso. rewrite Forall_forall in N. apply (N (nth j std 0)); [apply nth_In; lia|exact F].
  - injection E as <-. rewrite Forall_forall in N. destruct (N r Hr) as (v & Hv & Nv). pose proof (max_abs_pos r v Hv Nv) as P.
    rewrite (imap_ext _ (fun _ y => max_value * / max_abs r * y)) by (intros j y _; unfold div_where; destruct (Reqb_spec (max_abs r) 0); [lra|unfold Rdiv; ring]). rewrite imap_const. split; [apply map_length|]. split.
    + rewrite max_abs_scale, Rabs_mult, (Rabs_pos_eq (/ max_abs r)) by (left; now apply Rinv_0_lt_compat). field. lra.
    + exists (max_abs r). split; [exact P|]. rewrite map_map. apply map_ext. intros a. field. lra.
  - injection E as <-. reflexivity.
  - intros L. rewrite broadcast_same in E by (now symmetry). cbn [bind fst snd] in E. injection E as <-. split; [rewrite map_length, combine_length; lia|]. intros j Hj. rewrite (nth_map_lt _ _ _ (0, 0)) by (rewrite combine_length; lia). rewrite combine_nth by (now symmetry). reflexivity.
  - injection E as <-. reflexivity.
  - injection E as <-. reflexivity.
  - destruct kernel as [k|]; [|discriminate]. injection E as <-. unfold sharpen_row. split; [now rewrite map_length, seq_length|]. intros j Hj. rewrite (nth_map_lt _ _ _ 0%nat) by (now rewrite seq_length). rewrite seq_nth by exact Hj. cbn [Nat.add]. rewrite conv_zat.
    assert (Z1 : (Z.of_nat (j + (length k - 1) / 2) = Z.of_nat j + (Zlen k - 1) / 2)%Z \/ k = []).
    { destruct k as [|a k]; [now right|left]. unfold Zlen. rewrite Nat2Z.inj_add, Nat2Z.inj_div. do 2 f_equal. cbn [length]. lia. }
    destruct Z1 as [Z1| ->]; [|cbn; destruct (Rltb_spec0 0 0); [lra|now rewrite Rmax_left by lra]]. rewrite Z1. match goal with |- (if Rltb ?v 0 then _ else _) = Rmax 0 ?u => change u with v; generalize v end. intros u. destruct (Rltb_spec0 u 0); [now rewrite Rmax_left by lra|now rewrite Rmax_right by lra].
  - injection E as <-. split; [apply map_length|]. intros j Hj. rewrite (nth_map_lt _ _ _ 0) by exact Hj. destruct (Rltb_spec0 threshold (nth j r 0)); cbn [bit]; split; intros; try reflexivity; lra.
  - destruct (forallb _ planes) eqn:Fb; [|discriminate]. injection E as <-. split; [apply map_length|]. intros i p Hp. rewrite forallb_forall in Fb. pose proof (Fb p (nth_error_In _ _ Hp)) as Lp. apply Nat.eqb_eq in Lp. split; [exact Lp|].
    rewrite (nth_map_lt _ _ _ []) by (apply nth_error_Some; congruence). rewrite (nth_error_nth _ _ [] Hp). destruct (Rltb_spec0 0 (dot p r)); cbn [bit]; split; intros; try reflexivity; lra.
  - injection E as <-. reflexivity.
  - injection E as <-. reflexivity.
Qed.
(** which examples an Op accepts, and what it raises for the others *)
Definition compatible (a b : nat) : Prop := a = b \/ a = 1%nat \/ b = 1%nat.
Theorem op_accepts l m r : match l with LMeanStd mean std => length mean = length std | _ => True end ->
  match row_op l m r with
  | Ok _ => match l with
            | LMeanStd w _ | LWeighted w => compatible (length w) (length r)
            | LSharpen k => k <> None
            | LSimHash planes => forall p, In p planes -> length p = length r
            | _ => True
            end
  | Raise TypeError => l = LSharpen None
  | Raise ValueError => match l with
                        | LMeanStd w _ | LWeighted w => ~ compatible (length w) (length r)
                        | LSimHash planes => exists p, In p planes /\ length p <> length r
                        | _ => False
                        end
  | Raise _ => False
  end.
Proof.
  assert (B : forall a b, match broadcast a b with Ok p => compatible (length b) (length a) /\ length (fst p) = length (snd p) /\ (length (fst p) = length b \/ length b = 1%nat) | Raise ValueError => ~ compatible (length b) (length a) | Raise _ => False end).
  { intros a b. unfold broadcast, compatible. destruct (Nat.eqb_spec (length a) (length b)) as [H|H]; [cbn; auto|].
    destruct b as [|y [|y' b]]; [destruct a as [|z [|z' a]]; cbn in *; try lia; auto| |destruct a as [|z [|z' a]]; cbn in *; rewrite ?repeat_length; try lia; auto].
    cbn in *. rewrite repeat_length. auto. }
  intros Hl. destruct l; cbn [row_op]; try exact I.
  - pose proof (B r mean) as B1. destruct (broadcast r mean) as [a|[]]; cbn [bind]; try contradiction; [|exact B1]. destruct B1 as (C1 & C2 & C3).
    assert (La : length (map (fun p : R * R => fst p - snd p) (combine (fst a) (snd a))) = length (fst a)) by (rewrite map_length, combine_length; lia).
    match goal with |- context [broadcast ?u std] => pose proof (B u std) as B2; destruct (broadcast u std) as [b|[]] end; cbn [bind]; try contradiction; [exact C1|].
    exfalso. apply B2. rewrite La. unfold compatible in *. lia.
  - pose proof (B r weighting) as B1. destruct (broadcast r weighting) as [a|[]]; cbn [bind]; try contradiction; [apply B1|exact B1].
  - destruct kernel; [discriminate|reflexivity].
  - destruct (forallb _ planes) eqn:Fb.
    + rewrite forallb_forall in Fb. intros p Hp. apply Nat.eqb_eq. now apply Fb.
    + induction planes as [|p planes IH]; [discriminate|]. cbn [forallb] in Fb. destruct (Nat.eqb_spec (length p) (length r)) as [H|H]; [|exists p; split; [now left|exact H]]. destruct (IH Fb) as (q & H1 & H2). exists q. split; [now right|exact H2].
Qed.

(** ** Steps that cannot be undone, and the slicer *)
Theorem not_invertible l mem x y : match l with LAbs | LSharpen _ | LBinarize _ | LSimHash _ => True | _ => False end ->
  transform_rows [l] [mem] x = Ok y -> there_and_back_rows [l] [mem] x = Raise NotImplementedError.
Proof.
  rewrite transform_cons. intros Hl H. destruct (apply_op l mem x) as [z|] eqn:A; [|discriminate]. unfold there_and_back_rows. rewrite inverse_is_reverse. unfold pipeline. cbn [combine map there_and_back]. unfold forward, to_step. cbn [op inv_data inverse fst snd]. unfold step_op. rewrite A. cbn [bind].
  destruct l; try contradiction; reflexivity.
Qed.
Theorem slicer_back s mem w x : x <> [] -> rect w x -> exists back, there_and_back_rows [LSlicer s] [mem] x = Ok back /\ length back = length x /\
  forall i r, nth_error x i = Some r -> exists q, nth_error back i = Some q /\ length q = w /\
    forall j, (j < w)%nat -> nth j q 0 = if ((fst (slice_range s w) <=? j) && (j <? snd (slice_range s w)))%nat then nth j r 0 else 0.
Proof.
  intros Ne Rx. unfold rect in Rx. rewrite Forall_forall in Rx. destruct (slicer_roundtrip s w x Rx) as (back & E & H). exists back. split; [|exact H].
  unfold there_and_back_rows. rewrite inverse_is_reverse. unfold pipeline. cbn [combine map there_and_back]. unfold forward, to_step. cbn [op inv_data inverse fst snd]. unfold step_op.
  assert (A : apply_op (LSlicer s) mem x = Ok (slicer s x)) by (unfold apply_op; cbn [row_op]; rewrite (mapM_combine (fun r => Ok (apply_slice s r))); now apply mapM_ok).
  rewrite A. cbn [bind step_inv_data fst snd]. destruct x as [|r x]; [contradiction|]. rewrite (Rx r) by (left; reflexivity). cbn [step_inverse]. rewrite E. reflexivity.
Qed.

(** ** Examples *)
Example chain_trains : exists ls ds,
  train [(Log, fun _ _ => 0); (MeanStd, fun _ _ => 0); (UnitNorm, fun _ _ => 0)] (Array [[0; 1]; [1; 0]]) = Ok (ls, ds) /\ length ls = 3%nat.
Proof.
  cbn [train fst snd]. unfold process at 1. cbn [fit bind op_on]. unfold apply_op at 1. cbn [length seq combine mapM row_op fst snd bind map].
  unfold process at 1. cbn [fit bind op_on]. rewrite (apply_meanstd _ _ _ _ 2) by (repeat constructor). cbn [bind fst snd].
  unfold process. cbn [fit bind op_on]. unfold apply_op. cbn [row_op]. rewrite (mapM_imap_from (fun i r => imap (fun j a => div_where a (norm r) 0) r) _ 0). cbn [bind fst snd]. do 2 eexists. split; reflexivity.
Qed.
Example clean_chain : clean [LMultiply 2; LUnitNorm; LWeighted [1; 3]] [[1; 0]; [0; 2]].
Proof.
  cbn [clean no_skip]. split; [exact I|]. intros y. cbn. intros [= <-]. split; [|intros y _; split; [exact I|auto]].
  constructor; [exists (1 * 2); cbn; split; [now left|lra]|]. constructor; [exists (2 * 2); cbn; split; [now right; left|lra]|constructor].
Qed.

(** SimHash draws its planes from the means and deviations of what reaches it *)
Theorem simhash_learns ns x ls ds k draw m : train ns (Array x) = Ok (ls, ds) -> nth_error ns k = Some (SimHash draw, m) ->
  exists z y, nth_error (Array x :: ds) k = Some (Array z) /\ nth_error ds k = Some (Array y) /\
    nth_error ls k = Some (LSimHash (draw (map (fun j => mean_of (column j z)) (seq 0 (width z))) (map (fun j => std_of (column j z)) (seq 0 (width z))))).
Proof.
  intros T H. destruct (train_nth _ _ _ _ _ _ _ T H) as (dk & l & d' & H1 & H2 & H3 & P). unfold process in P. destruct dk as [|z]; [discriminate|]. cbn [fit bind op_on] in P.
  destruct (apply_op _ m z) as [y|e] eqn:A; [|discriminate]. injection P as <- <-. exists z, y. split; [exact H1|]. split; [exact H3|exact H2].
Qed.
(** the other nodes learn nothing but their constructor's arguments *)
Theorem others_learn_nothing ns x ls ds k n m : train ns (Array x) = Ok (ls, ds) -> nth_error ns k = Some (n, m) ->
  match n with
  | MeanStd | SimHash _ => True
  | UnitNorm => nth_error ls k = Some LUnitNorm
  | InstanceScaling mv => nth_error ls k = Some (LInstance mv)
  | Multiply f => nth_error ls k = Some (LMultiply f)
  | Weighted w => nth_error ls k = Some (LWeighted w)
  | Slicer s => nth_error ls k = Some (LSlicer s)
  | AbsoluteValue => nth_error ls k = Some LAbs
  | Sharpen kernel => nth_error ls k = Some (LSharpen kernel)
  | Binarize t => nth_error ls k = Some (LBinarize t)
  | Log => nth_error ls k = Some LLog
  | MuLawCompressed => nth_error ls k = Some LMuLaw
  end.
Proof.
  intros T H. destruct (train_nth _ _ _ _ _ _ _ T H) as (dk & l & d' & H1 & H2 & H3 & P). unfold process in P. destruct n; try exact I; cbn [fit bind] in P; rewrite H2; f_equal;
  match type of P with match ?u with _ => _ end = _ => destruct u end; try (destruct (catches _ _)); try discriminate; injection P; auto.
Qed.

(** ** Which failures are seen *)
Theorem node_on_nothing n m : process n m Nothing =
  match n with
  | UnitNorm => Ok (LUnitNorm, Nothing)
  | AbsoluteValue => Ok (LAbs, Nothing)
  | Sharpen k => Ok (LSharpen k, Nothing)
  | Binarize t => Ok (LBinarize t, Nothing)
  | MeanStd | InstanceScaling _ | SimHash _ => Raise AttributeError
  | Multiply _ | Weighted _ | Slicer _ | Log | MuLawCompressed => Raise TypeError
  end.
Proof. destruct n; reflexivity. Qed.
Theorem node_on_failure n m x e : process n m (Array x) = Raise e \/ (exists l, process n m (Array x) = Ok (l, Nothing) /\ apply_op l m x = Raise e) ->
  exists l, fit n (Array x) = Ok l /\ apply_op l m x = Raise e /\
  process n m (Array x) =
  match n with
  | AbsoluteValue | Sharpen _ | Binarize _ => Ok (l, Nothing)
  | UnitNorm => match e with AttributeError => Ok (l, Nothing) | _ => Raise e end
  | _ => Raise e
  end.
Proof.
  intros H. assert (F : exists l, fit n (Array x) = Ok l) by (destruct n; eexists; reflexivity). destruct F as [l F]. exists l. split; [exact F|].
  unfold process in *. rewrite F in *. cbn [bind op_on] in *.
  assert (A : apply_op l m x = Raise e).
  { destruct H as [H|(l' & H & H')].
    - destruct (apply_op l m x) as [y|e']; [discriminate|]. destruct (catches n e'); [discriminate|]. congruence.
    - destruct (apply_op l m x) as [y|e'] eqn:A; [discriminate|]. destruct (catches n e'); [|discriminate]. injection H as <-. congruence. }
  split; [exact A|]. rewrite A. destruct n; try reflexivity. destruct e; reflexivity.
Qed.
Example node_on_failure_example m : process (Sharpen None) m (Array [[1; 2]]) = Ok (LSharpen None, Nothing) /\ apply_op (LSharpen None) m [[1; 2]] = Raise TypeError.
Proof. split; reflexivity. Qed.
