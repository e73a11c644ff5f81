(** Proofs about Graph.v: the windowed samples and row-wise nodes. *)
From Coq Require Import ZArith QArith Qround Reals Lia Lra.
From Verif Require Import PyBase PyFacts PyMore Time Float64 Freq FreqDim Axis Windowed NdWindow SlidingNode SlidingNodeProofs Spectral Stft ScaleBasis Weighting Synths Graph.
Local Open Scope nat_scope.

(** ** Chunks of rows *)
Lemma mapM_chunks {A B : Type} (f : A -> result B) (P : A -> B -> Prop) l :
  (forall a, In a l -> exists b, f a = Ok b /\ P a b) -> exists bs, mapM f l = Ok bs /\ Forall2 P l bs.
Proof.
  induction l as [|a l IH]; intros H; cbn [mapM]; [exists []; split; [reflexivity|constructor]|].
  destruct (H a (or_introl eq_refl)) as [b [Eb Pb]]. destruct IH as [bs [Ebs Pbs]]; [intros x Hx; apply H; now right|].
  rewrite Eb. cbn [bind]. rewrite Ebs. cbn [bind]. exists (b :: bs). split; [reflexivity|now constructor].
Qed.
Lemma forall2_in {A B : Type} (P : A -> B -> Prop) l bs : Forall2 P l bs -> forall b, In b bs -> exists a, In a l /\ P a b.
Proof. induction 1 as [|a b l bs H Hs IH]; [intros ? []|]. intros x [<- | Hx]; [exists a; split; [now left|assumption]|]. destruct (IH x Hx) as (y & ? & ?). exists y. split; [now right|assumption]. Qed.
Lemma stored_map {A B : Type} (g : list A -> list B) (l : list (arr A)) (bs : list (arr B)) :
  Forall2 (fun a b => a_rows b = map g (a_rows a)) l bs -> stored bs = map g (stored l).
Proof. unfold stored. induction 1 as [|a b l bs H Hs IH]; [reflexivity|]. cbn [map List.concat]. now rewrite H, IH, map_app. Qed.
Lemma forall2_weaken {A B : Type} (P Q : A -> B -> Prop) l bs : (forall a b, P a b -> Q a b) -> Forall2 P l bs -> Forall2 Q l bs.
Proof. intros H. induction 1; constructor; auto. Qed.

(** ** What SlidingWindow emits are rows *)
Definition is_rows {A} (o : @wout A) : Prop := exists r, o = Rows r.
Lemma attempt_rows {A} (zero : A) c f st st' outs : (2 <= c_window c)%Z -> attempt zero c f st = Ok (st', outs) -> Forall is_rows outs.
Proof.
  intros Hw. unfold attempt, dequeue. destruct st as [cache|]; [|discriminate].
  unfold sliding_window_with_leftovers, windowed. destruct (Z.ltb_spec (c_window c) 1); [lia|]. destruct (c_step c <? 1)%Z; [discriminate|].
  destruct (Z.eqb_spec (c_window c) 1); [lia|]. cbn [andb].
  set (p := if f then ([], pad zero cache (wpad (Zlen cache) (c_window c) (c_step c))) else let '(c0, lc) := wcut (Zlen cache) (c_window c) (c_step c) in (py_slice (Some lc) None cache, py_slice None (Some c0) cache)).
  destruct p as [lo b]. destruct (Zlen b =? 0)%Z.
  - cbn [wout_empty]. intros Q. injection Q as <- <-. constructor.
  - destruct (strided_rows b _ _ _) as [r|]; [|discriminate]. destruct (wout_empty (Rows r)) eqn:We; rewrite We; intros Q; injection Q as <- <-; [constructor|].
    constructor; [|constructor]. unfold apply_func. destruct (c_func c); eexists; reflexivity.
Qed.
Lemma feed_rows {A} (zero : A) c : (2 <= c_window c)%Z -> forall chunks st st' outs, feed zero c st chunks = Ok (st', outs) -> Forall is_rows outs.
Proof.
  intros Hw. induction chunks as [|d ds IH]; intros st st' outs; cbn [feed]; [intros H; injection H as <- <-; constructor|].
  destruct (attempt zero c false _) as [[st1 o1]|] eqn:E; [|discriminate]. cbn [bind]. destruct (feed zero c st1 ds) as [[st2 o2]|] eqn:E2; [|discriminate]. cbn [bind].
  intros H. injection H as <- <-. apply Forall_app. split; [exact (attempt_rows _ _ _ _ _ _ Hw E)|exact (IH _ _ _ E2)].
Qed.
Lemma run_rows {A} (zero : A) c chunks outs : (2 <= c_window c)%Z -> run zero c chunks = Ok outs -> Forall is_rows outs.
Proof.
  intros Hw. unfold run. destruct (feed zero c None chunks) as [[st1 o1]|] eqn:E; [|discriminate]. cbn [bind]. destruct (attempt zero c true st1) as [[st2 o2]|] eqn:E2; [|discriminate]. cbn [bind].
  intros H. injection H as <-. apply Forall_app. split; [exact (feed_rows _ _ Hw _ _ _ _ E)|exact (attempt_rows _ _ _ _ _ _ Hw E2)].
Qed.

(** ** Specification *)
(** how many windows of [w] samples, [h] apart, are made of [len] samples; the second one is
    possible only when the last window ends exactly at the last sample *)
Definition frame_count (len w h k : nat) : Prop :=
  if Nat.leb len w then k = 1
  else k = 2 + (len - w) / h \/ ((len - w) mod h = 0 /\ k = 1 + (len - w) / h).
Local Open Scope R_scope.
(** the i-th window of a signal, continued by silence, times a window function *)
Definition frame (wf : nat -> R) (w h : nat) (signal : list R) (i : nat) : list R :=
  map (fun j => wf j * nth (i * h + j) signal 0) (seq 0 w).
(** a dimension with its size filled in *)
Definition sized (t : timedim) (n : nat) : timedim := {| t_freq := t_freq t; t_dur := t_dur t; t_size := Some (Z.of_nat n) |}.
Definition windowed_chunk (m t : timedim) (w : nat) (a : arr R) : Prop :=
  a_dims a = [DTime (sized m (length (a_rows a))); DTime (sized t w)] /\ a_width a = w /\ Forall (fun r => length r = w) (a_rows a) /\ a_rows a <> [].

Lemma fit_time t n : (t_dur t <> 0)%Z -> fit_dim (DTime t) n = Ok (DTime (sized t n)).
Proof. intros H. unfold fit_dim, mk_timedim, sized. destruct (Z.eqb_spec (t_dur t) 0); [contradiction|reflexivity]. Qed.
Lemma fit_two m t a b : (t_dur m <> 0)%Z -> (t_dur t <> 0)%Z -> fit_dims [DTime m; DTime t] [a; b] = Ok [DTime (sized m a); DTime (sized t b)].
Proof. intros Hm Ht. cbn [fit_dims]. rewrite fit_time by exact Hm. cbn [bind]. rewrite fit_time by exact Ht. reflexivity. Qed.
Lemma frame_window (wf : nat -> R) w h x i : (i * h <= length x)%nat ->
  apply_window (Some (map wf (seq 0 w))) (firstn w (skipn (i * h) (x ++ repeat 0 w))) = frame wf w h x i.
Proof.
  intros Hi. unfold apply_window, frame. assert (L : length (firstn w (skipn (i * h) (x ++ repeat 0 w))) = w) by (rewrite firstn_length, skipn_length, app_length, repeat_length; lia).
  apply nth_ext with (d := 0) (d' := 0); [rewrite map_length, combine_length, !map_length, seq_length, L; lia|].
  intros j Hj. rewrite map_length, combine_length, map_length, seq_length, L in Hj. assert (Hj' : (j < w)%nat) by lia.
  transitivity ((fun p => fst p * snd p) (nth j (combine (map wf (seq 0 w)) (firstn w (skipn (i * h) (x ++ repeat 0 w)))) (0, 0))).
  { rewrite <- (map_nth (fun p : R * R => fst p * snd p)). cbn [fst snd]. apply nth_indep. rewrite map_length, combine_length, map_length, seq_length, L. lia. }
  rewrite combine_nth by (rewrite map_length, seq_length, L; reflexivity). cbn beta. cbn [fst snd].
  rewrite (nth_indep _ 0 (wf 0%nat)) by (rewrite map_length, seq_length; lia). rewrite map_nth, seq_nth by lia.
  rewrite (nth_indep (map _ _) 0 ((fun j => wf j * nth (i * h + j) x 0) 0%nat)) by (rewrite map_length, seq_length; lia). rewrite (map_nth (fun j => wf j * nth (i * h + j) x 0)), seq_nth by lia. cbn [Nat.add].
  f_equal. assert (T : forall (l : list R) n k, (k < n)%nat -> nth k (firstn n l) 0 = nth k l 0).
  { clear. induction l as [|y l IH]; intros n k H; [now rewrite firstn_nil|]. destruct n; [lia|]. cbn [firstn]. destruct k; [reflexivity|]. cbn [nth]. apply IH. lia. }
  rewrite T by exact Hj'. assert (T2 : forall (l : list R) n k, nth k (skipn n l) 0 = nth (n + k) l 0).
  { clear. induction l as [|y l IH]; intros n k; [rewrite skipn_nil; destruct k, n; reflexivity|]. destruct n; [reflexivity|]. cbn [skipn Nat.add nth]. apply IH. }
  rewrite T2. destruct (Nat.lt_ge_cases (i * h + j) (length x)).
  - now rewrite app_nth1.
  - rewrite app_nth2 by lia. rewrite nth_repeat. symmetry. now apply nth_overflow.
Qed.
Lemma frame_length wf w h x i : length (frame wf w h x i) = w.
Proof. unfold frame. now rewrite map_length, seq_length. Qed.

(** the SlidingWindow node: however the samples are cut into chunks, the windows of the signal *)
Theorem windowed_rows (t : timedim) (wsr : samplerate) (wfunc : nat -> list R) (wf : nat -> R) (w h : nat) (chunks : list (list R)) :
  (2 <= w)%nat -> (1 <= h <= w)%nat -> (0 < t_freq t)%Z -> t_dur t = t_freq t ->
  span_samples t (sr_dur wsr) = Ok (Z.of_nat w) -> span_samples t (sr_freq wsr) = Ok (Z.of_nat h) ->
  wfunc w = map wf (seq 0 w) -> chunks <> [] ->
  exists arrs k m, windowed_node t wsr (Some wfunc) 0 chunks = Ok arrs
    /\ modified_dimension t (Z.of_nat w) (Some (Z.of_nat h)) = Ok m
    /\ Forall (windowed_chunk m t w) arrs
    /\ stored arrs = map (frame wf w h (List.concat chunks)) (seq 0 k)
    /\ frame_count (length (List.concat chunks)) w h k
    /\ (forall j, (j < length (List.concat chunks))%nat -> exists i, (i < k)%nat /\ (i * h <= j < i * h + w)%nat)
    /\ t_freq m = (t_freq t * Z.of_nat h)%Z /\ t_dur m = (t_freq t * Z.of_nat w)%Z.
Proof.
  intros Hw [Hh Hhw] Hf Hd Ew Eh Efunc Hne. unfold windowed_node. rewrite Ew, Eh. cbn [bind].
  assert (Em : exists m, modified_dimension t (Z.of_nat w) (Some (Z.of_nat h)) = Ok m /\ t_freq m = (t_freq t * Z.of_nat h)%Z /\ t_dur m = (t_freq t * Z.of_nat w)%Z).
  { unfold modified_dimension. destruct (Z.eqb_spec (Z.of_nat h) 0); [lia|]. unfold t_overlap, mk_samplerate. rewrite Hd. destruct (Z.leb_spec (t_freq t) 0); [lia|]. cbn [bind]. eexists. split; [reflexivity|].
    unfold mk_timedim. cbn [t_freq t_dur]. split; [reflexivity|]. unfold sr_overlap. cbn [sr_dur sr_freq]. rewrite Z.sub_diag, Z.add_0_r. destruct (Z.eqb_spec (t_freq t * Z.of_nat w) 0); nia. }
  destruct Em as [m [Em [Emf Emd]]]. rewrite Em. cbn [bind]. rewrite Nat2Z.id. cbn [option_map].
  set (cfg := {| c_window := Z.of_nat w; c_step := Z.of_nat h; c_padwith := 0; c_func := Some (fun x => apply_window (Some (wfunc w)) x) |}).
  destruct (sliding_node_main 0 cfg w h chunks Hw Hh Hhw eq_refl eq_refl Hne) as (outs & k & Er & Ef & Cov & K1 & K2 & K3).
  cbn [c_padwith c_func cfg repeat List.app] in Ef, Cov, K1, K2, K3. set (x := List.concat chunks) in *.
  pose proof (run_rows 0 cfg chunks outs ltac:(cbn; lia) Er) as Rw. rewrite Er. cbn [bind].
  assert (Kc : frame_count (length x) w h k).
  { unfold frame_count. destruct (Nat.leb_spec (length x) w); [now apply K1|]. destruct (Nat.eq_dec ((length x - w) mod h) 0) as [Z0|NZ]; [destruct (K3 ltac:(lia) Z0); auto|left; now apply K2]. }
  assert (Ib : forall i, (i < k)%nat -> (i * h <= length x)%nat).
  { intros i Hi. unfold frame_count in Kc. destruct (Nat.leb_spec (length x) w); [assert (i = 0)%nat by lia; subst; lia|].
    pose proof (Nat.div_mod (length x - w) h ltac:(lia)). assert (i <= 1 + (length x - w) / h)%nat by lia. assert (i * h <= (1 + (length x - w) / h) * h)%nat by (apply Nat.mul_le_mono_r; assumption). lia. }
  assert (Fr : SlidingNode.frames outs = map (frame wf w h x) (seq 0 k)).
  { rewrite Ef. apply map_ext_in. intros i Hi. apply in_seq in Hi. rewrite Efunc. apply frame_window. apply Ib. lia. }
  assert (Lf : Forall (fun r => length r = w) (SlidingNode.frames outs)).
  { rewrite Fr. apply Forall_map, Forall_forall. intros. apply frame_length. }
  assert (NE : Forall (fun o => match o with Rows [] => False | _ => True end) outs).
  { clear -Er. unfold run in Er. destruct (feed 0 cfg None chunks) as [[st1 o1]|] eqn:E; [|discriminate]. cbn [bind] in Er. destruct (attempt 0 cfg true st1) as [[st2 o2]|] eqn:E2; [|discriminate]. cbn [bind] in Er. injection Er as <-.
    assert (At : forall f st st' o, attempt 0 cfg f st = Ok (st', o) -> Forall (fun o => match o with Rows [] => False | _ => True end) o).
    { intros f st st' o. unfold attempt, dequeue. destruct st as [cache|]; [|discriminate]. destruct (sliding_window_with_leftovers _ _ _ _ _) as [[lo a]|]; [|destruct e; try discriminate; intros H; injection H as <- <-; constructor].
      destruct (wout_empty a) eqn:We; [intros H; injection H as <- <-; constructor|]. intros H. injection H as <- <-. constructor; [|constructor]. unfold apply_func. cbn [c_func cfg]. destruct a as [a|[|r rs]]; [exact I|discriminate|exact I]. }
    apply Forall_app. split; [|exact (At _ _ _ _ E2)]. assert (Fd : forall cs st st' o, feed 0 cfg st cs = Ok (st', o) -> Forall (fun o => match o with Rows [] => False | _ => True end) o).
    { induction cs as [|d ds IH]; intros st st' o; cbn [feed]; [intros H; injection H as <- <-; constructor|]. destruct (attempt 0 cfg false _) as [[s1 a1]|] eqn:Ea; [|discriminate]. cbn [bind]. destruct (feed 0 cfg s1 ds) as [[s2 a2]|] eqn:Eb; [|discriminate]. cbn [bind]. intros H. injection H as <- <-. apply Forall_app. split; [exact (At _ _ _ _ Ea)|exact (IH _ _ _ Eb)]. }
    exact (Fd _ _ _ _ E). }
  assert (G : exists arrs, mapM (fun o => match o with Windowed.Flat _ => Raise ValueError | Rows r => do ds <- fit_dims [DTime m; DTime t] [length r; w]; Ok (mkArr ds w r) end) outs = Ok arrs
    /\ Forall (windowed_chunk m t w) arrs /\ stored arrs = SlidingNode.frames outs).
  { clear Er Fr Ef. induction outs as [|o outs IH]; [exists []; repeat split; constructor|].
    apply Forall_cons_iff in Rw. destruct Rw as [[r ->] Rw']. apply Forall_cons_iff in NE. destruct NE as [Nr NE']. unfold SlidingNode.frames in Lf. cbn [map List.concat] in Lf. apply Forall_app in Lf. destruct Lf as [Lr Lf].
    destruct (IH Rw' Lf NE') as (arrs & E & W & St). cbn [mapM]. rewrite fit_two by nia. cbn [bind]. rewrite E. cbn [bind].
    eexists. split; [reflexivity|]. split; [constructor; [|exact W]|].
    - unfold windowed_chunk. cbn [a_dims a_width a_rows]. split; [reflexivity|]. split; [reflexivity|]. split; [exact Lr|]. intros Z0. rewrite Z0 in Nr. exact Nr.
    - unfold stored, SlidingNode.frames in *. cbn [map List.concat a_rows]. now rewrite St. }
  destruct G as (arrs & E & W & St). exists arrs, k, m. rewrite St, Fr. split; [exact E|]. split; [reflexivity|]. split; [exact W|]. split; [reflexivity|]. split; [exact Kc|]. split; [exact Cov|]. split; [exact Emf|exact Emd].
Qed.

Lemma oggvorbis_map n : oggvorbis n = map (fun j => vorbis_raw n j * (1 / rmax (map (vorbis_raw n) (seq 0 n)))) (seq 0 n).
Proof. unfold oggvorbis. now rewrite map_map. Qed.
