(** Proofs about Graph.v: the nodes of basic.py, windows and arrays of integers, examples. *)
From Coq Require Import ZArith QArith Qround Qreals Reals Lia Lra.
From Verif Require Import PyBase PyFacts PyMore Time TimeProofs Freq FreqDim Axis Windowed NdWindow SlidingNode Spectral Stft ScaleBasis Weighting Graph TransformProofs ReconProofs StftProofs GraphProofs GraphProofs2 GraphProofs3 GraphProofs4.
Local Open Scope R_scope.

(** ** basic.py *)
Theorem slice_chunks {A} start stop (chunks : list (list (list A))) :
  List.concat (map (slice_node start stop) chunks) = map (py_slice start stop) (List.concat chunks).
Proof. unfold slice_node. symmetry. apply concat_map. Qed.
(** the Sum node never produces anything: every chunk raises TypeError *)
Theorem sum_raises axis (chunks : list (list (list R))) : chunks <> [] -> mapM (sum_node axis) chunks = Raise TypeError.
Proof. destruct chunks as [|c r]; [congruence|reflexivity]. Qed.
Theorem binarize_chunks {A B} (p : A -> B) (chunks : list (list (list A))) :
  List.concat (map (binarize_node p) chunks) = map (map p) (List.concat chunks).
Proof. unfold binarize_node. symmetry. apply concat_map. Qed.
(** the greatest number of a row *)
Definition is_max (l : list R) (m : R) : Prop := In m l /\ forall x, In x l -> x <= m.
Lemma max_list_spec l : l <> [] -> exists m, max_list l = Some m /\ is_max l m.
Proof.
  destruct l as [|x l]; [congruence|]. intros _. exists (fold_left Rmax l x). split; [reflexivity|]. revert x. induction l as [|y l IH]; intros x; cbn [fold_left]; [split; [now left|intros z [<-|[]]; lra]|].
  destruct (IH (Rmax x y)) as [I1 I2]. split.
  - destruct I1 as [E|I1]; [|right; now right]. rewrite <- E. unfold Rmax. destruct (Rle_dec x y); [right; now left|now left].
  - intros z [<-|[<-|Hz]]; [eapply Rle_trans; [apply Rmax_l|apply I2; now left]|eapply Rle_trans; [apply Rmax_r|apply I2; now left]|apply I2; now right].
Qed.
Definition out_values (o : nodeout) : list R := match o with OFlat r => r | ORows _ => [] end.
Theorem max_rows axis width (chunks : list (list (list R))) : (axis = 1 \/ axis = -1)%Z -> (1 <= width)%nat -> Forall (fun c => c <> [] /\ Forall (fun r => length r = width) c) chunks ->
  exists outs, mapM (max_node axis width) chunks = Ok outs /\ Forall2 is_max (List.concat chunks) (flat_map out_values (List.concat outs)).
Proof.
  intros Ha Hw H. induction chunks as [|c chunks IH]; [exists []; split; [reflexivity|constructor]|]. apply Forall_cons_iff in H. destruct H as [[Hc Hr] H]. destruct (IH H) as (outs & E & F). cbn [mapM].
  assert (Em : max_node axis width c = Ok [OFlat (map (fun r => match max_list r with Some m => m | None => 0 end) c)]).
  { unfold max_node. destruct c as [|r0 c]; [congruence|]. destruct Ha as [-> | ->]; cbn [Z.eqb orb Pos.eqb]; (destruct width; [lia|reflexivity]). }
  rewrite Em. cbn [bind]. rewrite E. cbn [bind]. eexists. split; [reflexivity|]. cbn [List.concat List.app flat_map out_values]. apply Forall2_app; [|exact F].
  clear -Hr Hw. induction c as [|r c IH]; [constructor|]. apply Forall_cons_iff in Hr. destruct Hr as [L Hr]. cbn [map]. constructor; [|exact (IH Hr)]. destruct (max_list_spec r) as (m & E & M); [intros ->; cbn in L; lia|]. now rewrite E.
Qed.
(** the default axis: one row per chunk, whatever the number of rows *)
Theorem max_default_refuted : exists chunks chunks' : list (list (list R)), List.concat chunks = List.concat chunks' /\
  mapM (max_node 0 1) chunks = Ok [[OFlat [1]]; [OFlat [2]]] /\ mapM (max_node 0 1) chunks' = Ok [[OFlat [2]]].
Proof.
  exists [[[1]]; [[2]]], [[[1]; [2]]]. split; [reflexivity|]. split; cbn [mapM max_node Z.eqb orb bind seq map column max_list fold_left at_ nth]; [reflexivity|].
  do 4 f_equal. rewrite Rmax_right by lra. reflexivity.
Qed.

(** ** A window and integers *)
Lemma rtrunc_unit x : 0 <= x < 1 -> rtrunc x = 0%Z.
Proof.
  intros [H0 H1]. unfold rtrunc, Rltb. destruct (Rlt_dec x 0); [lra|]. pose proof (base_Int_part x) as [B1 B2]. assert (IZR (Int_part x) < 1) by lra. assert (-1 < IZR (Int_part x)) by lra.
  apply (lt_IZR _ 1) in H. apply (lt_IZR (-1)) in H2. lia.
Qed.
Lemma cos_above x : 0 <= x <= 2 * PI -> x <> PI -> -1 < cos x.
Proof.
  intros [H0 H1] N. destruct (Rlt_le_dec x PI) as [C|C].
  - rewrite <- cos_PI. apply cos_decreasing_1; lra.
  - rewrite <- cos_PI. apply cos_increasing_1; lra.
Qed.
Theorem hanning_integers n (frame : list Z) : (2 <= n)%nat -> Nat.even n = true -> length frame = n -> window_integers (hann n) frame = repeat 0%Z n.
Proof.
  intros Hn Ev L. unfold window_integers, hann.
  assert (G : forall j, (j < n)%nat -> rtrunc (if Nat.leb n 1 then 1 else / 2 - / 2 * cos (2 * PI * INR j / INR (n - 1))) = 0%Z).
  { intros j Hj. destruct (Nat.leb_spec n 1); [lia|]. assert (Pn : 0 < INR (n - 1)) by (apply lt_0_INR; lia). pose proof PI_RGT_0 as Hpi. apply rtrunc_unit.
    set (th := 2 * PI * INR j / INR (n - 1)). assert (T0 : 0 <= th) by (unfold th; apply Rmult_le_pos; [pose proof (pos_INR j); nra|left; now apply Rinv_0_lt_compat]).
    assert (T1 : th <= 2 * PI). { unfold th. apply Rmult_le_reg_r with (INR (n - 1)); [exact Pn|]. replace (2 * PI * INR j / INR (n - 1) * INR (n - 1)) with (2 * PI * INR j) by (field; lra). apply Rmult_le_compat_l; [lra|]. apply le_INR. lia. }
    assert (T2 : th <> PI). { unfold th. intros E. assert (Q : 2 * INR j = INR (n - 1)). { apply Rmult_eq_reg_l with PI; [|lra]. transitivity (2 * PI * INR j / INR (n - 1) * INR (n - 1)); [field; lra|]. rewrite E. ring. }
      replace 2 with (INR 2) in Q by (cbn; lra). rewrite <- mult_INR in Q. apply INR_eq in Q. apply Nat.even_spec in Ev. destruct Ev as [q Eq]. lia. }
    pose proof (cos_above th (conj T0 T1) T2). pose proof (COS_bound th). lra. }
  assert (A : forall a k (fr : list Z), (forall j, (j < a + k)%nat -> rtrunc (if Nat.leb n 1 then 1 else / 2 - / 2 * cos (2 * PI * INR j / INR (n - 1))) = 0%Z) -> length fr = k ->
    map (fun p : R * Z => (rtrunc (fst p) * snd p)%Z) (combine (map (fun j => if Nat.leb n 1 then 1 else / 2 - / 2 * cos (2 * PI * INR j / INR (n - 1))) (seq a k)) fr) = repeat 0%Z k).
  { clear. intros a k. revert a. induction k as [|k IH]; intros a [|z fr] H L; try discriminate; [reflexivity|]. cbn [seq map combine repeat fst snd]. rewrite (H a) by lia. f_equal. apply IH; [|cbn in L; lia]. intros j Hj. apply H. lia. }
  apply (A 0%nat n frame); [|exact L]. exact G.
Qed.

(** ** Examples: the hypotheses can be met *)
Example sizes_11025 : In (11025, (Z.of_nat 512, Z.of_nat 256))%Z graph_sizes. Proof. cbn. tauto. Qed.
Example graph_of_silence : exists F, audio_graph 11025 [repeat 0 100; repeat 0 300] = Ok F /\ length (stored (g_bark F)) = 1%nat.
Proof.
  destruct (audio_graph_ok 11025 512 256 sizes_11025) as (qs & bs & ws & lo & hi & _ & _ & _ & _ & _ & H). destruct (H [repeat 0 100; repeat 0 300] ltac:(discriminate)) as (F & k & m & E & K & _ & _ & _ & A4 & _).
  exists F. split; [exact E|]. rewrite A4, map_length, seq_length. unfold frame_count in K. cbn [List.concat] in K. rewrite !app_length, !repeat_length in K. cbn [length Nat.add] in K. destruct (Nat.leb_spec 400 512); [exact K|lia].
Qed.
