(** Proofs about Onsets.v. *)
From Coq Require Import ZArith Reals Lia Lra Sorted.
From Verif Require Import PyBase PyFacts PyMore Time Freq FreqDim Axis Windowed NdWindow SlidingNode SlidingNodeProofs Spectral Stft ScaleBasis Weighting Nodes NodesProofs Graph GraphProofs GraphProofs2 GraphProofs4 Onsets.
Local Open Scope R_scope.

(** ** Specification *)
(** the n-th value of a series that is preceded by silence of [p] values and followed by silence *)
Definition shifted (p : nat) (x : list R) (i : nat) : R := if Nat.ltb i p then 0 else nth (i - p) x 0.
(** sums over the bins from the third on; a sum of zero counts as 10^-12 *)
Definition tiny (x : R) : R := if Req_EM_T x 0 then / 10 ^ 12 else x.
Definition high_energy (frame : list cplx) : R := tiny (rsum (length frame - 2) (fun j => magnitude (nth (j + 2) frame (0, 0)) ^ 2)).
Definition high_content (frame : list cplx) : R := tiny (rsum (length frame - 2) (fun j => magnitude (nth (j + 2) frame (0, 0)) ^ 2 * INR (j + 3))).
(** the measure of transience of frame [i]; the first frame is its own predecessor *)
Definition transience (frames : list (list cplx)) (i : nat) : R :=
  let frame := nth i frames [] in let prev := nth (i - 1) frames [] in
  high_content frame / high_content prev * (high_content frame / high_energy frame).
(** an onset at frame [i]: the frame before is a strict local maximum, and this frame is more than
    5/4 of the aggregate of the [w] values around it *)
Definition onset (aggregate : list R -> R) (p w c : nat) (d : list R) (i : nat) : Prop :=
  shifted p d (i + c - 2) < shifted p d (i + c - 1) /\ shifted p d (i + c) < shifted p d (i + c - 1) /\
  5 / 4 * aggregate (map (fun j => shifted p d (i + j)) (seq 0 w)) < shifted p d (i + c).

Lemma shifted_nth p x i : nth i (repeat 0 p ++ x) 0 = shifted p x i.
Proof.
  unfold shifted. destruct (Nat.ltb_spec i p).
  - rewrite app_nth1 by (rewrite repeat_length; lia). apply nth_repeat.
  - rewrite app_nth2 by (rewrite repeat_length; lia). now rewrite repeat_length.
Qed.

(** ** The windows of a series *)
Lemma window_plain w h (x : list R) i : (i * h <= length x)%nat ->
  firstn w (skipn (i * h) (x ++ repeat 0 w)) = map (fun j => nth (i * h + j) x 0) (seq 0 w).
Proof.
  intros Hi. assert (L : length (firstn w (skipn (i * h) (x ++ repeat 0 w))) = w) by (rewrite firstn_length, skipn_length, app_length, repeat_length; lia).
  apply nth_ext with (d := 0) (d' := 0); [now rewrite map_length, seq_length|]. rewrite L. intros j Hj.
  rewrite (nth_indep (map _ _) 0 ((fun j => nth (i * h + j) x 0) 0%nat)) by (rewrite map_length, seq_length; lia). rewrite (map_nth (fun j => nth (i * h + j) x 0)), seq_nth by lia. cbn [Nat.add].
  assert (T : forall (l : list R) n k, (k < n)%nat -> nth k (firstn n l) 0 = nth k l 0).
  { clear. induction l as [|y l IH]; intros n k H; [now rewrite firstn_nil|]. destruct n; [lia|]. cbn [firstn]. destruct k; [reflexivity|]. cbn [nth]. apply IH. lia. }
  rewrite T by exact Hj. assert (T2 : forall (l : list R) n k, nth k (skipn n l) 0 = nth (n + k) l 0).
  { clear. induction l as [|y l IH]; intros n k; [rewrite skipn_nil; destruct k, n; reflexivity|]. destruct n; [reflexivity|]. cbn [skipn Nat.add nth]. apply IH. }
  rewrite T2. destruct (Nat.lt_ge_cases (i * h + j) (length x)); [now rewrite app_nth1|]. rewrite app_nth2 by lia. rewrite nth_repeat. symmetry. now apply nth_overflow.
Qed.
Lemma attempt_nonempty {A} (zero : A) c f st st' o : attempt zero c f st = Ok (st', o) -> Forall (fun o => match o with Rows [] => False | _ => True end) o.
Proof.
  unfold attempt, dequeue. destruct st as [cache|]; [|discriminate]. destruct (sliding_window_with_leftovers _ _ _ _ _) as [[lo a]|]; [|destruct e; try discriminate; intros H; injection H as <- <-; constructor].
  destruct (wout_empty a) eqn:We; [intros H; injection H as <- <-; constructor|]. intros H. injection H as <- <-. constructor; [|constructor]. unfold apply_func. destruct (c_func c), a as [a|[|r rs]]; try exact I; discriminate.
Qed.
Lemma run_nonempty {A} (zero : A) c chunks outs : run zero c chunks = Ok outs -> Forall (fun o => match o with Rows [] => False | _ => True end) outs.
Proof.
  unfold run. destruct (feed zero c None chunks) as [[st1 o1]|] eqn:E; [|discriminate]. cbn [bind]. destruct (attempt zero c true st1) as [[st2 o2]|] eqn:E2; [|discriminate]. cbn [bind]. intros H. injection H as <-.
  apply Forall_app. split; [|exact (attempt_nonempty _ _ _ _ _ _ E2)]. clear E2. revert st1 o1 E. generalize (@None (list A)) as st. induction chunks as [|d ds IH]; intros st st1 o1; cbn [feed]; [intros H; injection H as <- <-; constructor|].
  destruct (attempt zero c false _) as [[s1 a1]|] eqn:Ea; [|discriminate]. cbn [bind]. destruct (feed zero c s1 ds) as [[s2 a2]|] eqn:Eb; [|discriminate]. cbn [bind]. intros H. injection H as <- <-. apply Forall_app. split; [exact (attempt_nonempty _ _ _ _ _ _ Ea)|exact (IH _ _ _ Eb)].
Qed.
Theorem windowed_plain (t : timedim) (wsr : samplerate) (p w h : nat) (chunks : list (list R)) :
  (2 <= w)%nat -> (1 <= h <= w)%nat -> (0 < t_freq t <= t_dur t)%Z ->
  span_samples t (sr_dur wsr) = Ok (Z.of_nat w) -> span_samples t (sr_freq wsr) = Ok (Z.of_nat h) -> chunks <> [] ->
  exists arrs k m outs, windowed_node t wsr None p chunks = Ok arrs
    /\ run 0 {| c_window := Z.of_nat w; c_step := Z.of_nat h; c_padwith := p; c_func := None |} chunks = Ok outs /\ stored arrs = SlidingNode.frames outs
    /\ Forall (windowed_chunk m t w) arrs
    /\ stored arrs = map (fun i => map (fun j => shifted p (List.concat chunks) (i * h + j)) (seq 0 w)) (seq 0 k)
    /\ frame_count (p + length (List.concat chunks)) w h k
    /\ t_freq m = (t_freq t * Z.of_nat h)%Z /\ t_dur m = (t_freq t * Z.of_nat w + (t_dur t - t_freq t))%Z.
Proof.
  intros Hw [Hh Hhw] [Hf Hd] Ew Eh Hne. unfold windowed_node. rewrite Ew, Eh. cbn [bind].
  assert (Em : exists m, modified_dimension t (Z.of_nat w) (Some (Z.of_nat h)) = Ok m /\ t_freq m = (t_freq t * Z.of_nat h)%Z /\ t_dur m = (t_freq t * Z.of_nat w + (t_dur t - t_freq t))%Z).
  { unfold modified_dimension. destruct (Z.eqb_spec (Z.of_nat h) 0); [lia|]. unfold t_overlap, mk_samplerate. destruct (Z.leb_spec (t_freq t) 0); [lia|]. destruct (Z.leb_spec (t_dur t) 0); [lia|]. cbn [bind]. eexists. split; [reflexivity|].
    unfold mk_timedim. cbn [t_freq t_dur]. split; [reflexivity|]. unfold sr_overlap. cbn [sr_dur sr_freq]. destruct (Z.eqb_spec (t_freq t * Z.of_nat w + (t_dur t - t_freq t)) 0); nia. }
  destruct Em as [m [Em [Emf Emd]]]. rewrite Em. cbn [bind]. rewrite Nat2Z.id. cbn [option_map].
  set (cfg := {| c_window := Z.of_nat w; c_step := Z.of_nat h; c_padwith := p; c_func := None |}).
  destruct (sliding_node_main 0 cfg w h chunks Hw Hh Hhw eq_refl eq_refl Hne) as (outs & k & Er & Ef & Cov & K1 & K2 & K3).
  cbn [c_padwith c_func cfg] in Ef, Cov, K1, K2, K3. set (x := repeat 0 p ++ List.concat chunks) in *.
  assert (Lx : length x = (p + length (List.concat chunks))%nat) by (unfold x; now rewrite app_length, repeat_length).
  pose proof (run_rows 0 cfg chunks outs ltac:(cbn; lia) Er) as Rw. pose proof (run_nonempty 0 cfg chunks outs Er) as NE. rewrite Er. cbn [bind].
  assert (Kc : frame_count (length x) w h k).
  { unfold frame_count. destruct (Nat.leb_spec (length x) w); [now apply K1|]. destruct (Nat.eq_dec ((length x - w) mod h) 0) as [Z0|NZ]; [destruct (K3 ltac:(lia) Z0); auto|left; now apply K2]. }
  assert (Ib : forall i, (i < k)%nat -> (i * h <= length x)%nat).
  { intros i Hi. unfold frame_count in Kc. destruct (Nat.leb_spec (length x) w); [assert (i = 0)%nat by lia; subst; lia|].
    pose proof (Nat.div_mod (length x - w) h ltac:(lia)). assert (i <= 1 + (length x - w) / h)%nat by lia. assert (i * h <= (1 + (length x - w) / h) * h)%nat by (apply Nat.mul_le_mono_r; assumption). lia. }
  assert (Fr : SlidingNode.frames outs = map (fun i => map (fun j => shifted p (List.concat chunks) (i * h + j)) (seq 0 w)) (seq 0 k)).
  { rewrite Ef. apply map_ext_in. intros i Hi. apply in_seq in Hi. rewrite window_plain by (apply Ib; lia). apply map_ext. intros j. apply shifted_nth. }
  assert (Lf : Forall (fun r => length r = w) (SlidingNode.frames outs)).
  { rewrite Fr. apply Forall_map, Forall_forall. intros. now rewrite map_length, seq_length. }
  assert (G : exists arrs, mapM (fun o => match o with Windowed.Flat _ => Raise ValueError | Rows r => do ds <- fit_dims [DTime m; DTime t] [length r; w]; Ok (mkArr ds w r) end) outs = Ok arrs
    /\ Forall (windowed_chunk m t w) arrs /\ stored arrs = SlidingNode.frames outs).
  { clear Er Fr Ef. induction outs as [|o outs IH]; [exists []; split; [reflexivity|split; [constructor|reflexivity]]|].
    apply Forall_cons_iff in Rw. destruct Rw as [[r ->] Rw']. apply Forall_cons_iff in NE. destruct NE as [Nr NE']. unfold SlidingNode.frames in Lf. cbn [map List.concat] in Lf. apply Forall_app in Lf. destruct Lf as [Lr Lf].
    destruct (IH Rw' NE' Lf) as (arrs & E & W & St). cbn [mapM]. rewrite fit_two by nia. cbn [bind]. rewrite E. cbn [bind].
    eexists. split; [reflexivity|]. split; [constructor; [|exact W]|].
    - unfold windowed_chunk. cbn [a_dims a_width a_rows]. split; [reflexivity|]. split; [reflexivity|]. split; [exact Lr|]. intros Z0. rewrite Z0 in Nr. exact Nr.
    - unfold stored, SlidingNode.frames in *. cbn [map List.concat a_rows]. now rewrite St. }
  destruct G as (arrs & E & W & St). exists arrs, k, m, outs. rewrite <- Lx. split; [exact E|]. split; [reflexivity|]. split; [exact St|]. split; [exact W|]. rewrite St, Fr. split; [reflexivity|]. split; [exact Kc|]. split; [exact Emf|exact Emd].
Qed.

(** ** The detection function *)
Lemma cabs_real x : 0 <= x -> cabs (x, 0) = x.
Proof. intros H. unfold cabs. cbn [fst snd]. rewrite Rmult_0_l, Rplus_0_r. now apply sqrt_square. Qed.
Lemma cabs_nonneg z : 0 <= cabs z. Proof. apply sqrt_pos. Qed.
Lemma frame_abs_idem row : frame_abs (frame_abs row) = frame_abs row.
Proof. unfold frame_abs. rewrite map_map. apply map_ext. intros z. cbn [fst]. now rewrite cabs_real by apply cabs_nonneg. Qed.
Lemma sum_list_rsum (l : list R) : sum_list l = rsum (length l) (fun j => nth j l 0).
Proof.
  induction l as [|x l IH] using rev_ind; [reflexivity|]. unfold sum_list in *. rewrite fold_right_app. cbn [fold_right]. rewrite app_length. cbn [length]. rewrite Nat.add_1_r. cbn [rsum].
  rewrite app_nth2 by lia. rewrite Nat.sub_diag. cbn [nth]. assert (F : forall a, fold_right Rplus a l = fold_right Rplus 0 l + a) by (clear; induction l as [|y l IH]; intros a; cbn [fold_right]; [ring|rewrite IH; ring]).
  rewrite F, IH. rewrite Rplus_0_r. f_equal. apply TransformProofs.rsum_ext. intros i Hi. now rewrite app_nth1.
Qed.
Lemma tail_sum (f : list cplx) (g : nat -> R -> R) :
  sum_list (map (fun p : cplx * nat => g (snd p) (fst (fst p))) (combine (skipn 2 (frame_abs f)) (seq 3 (length f - 2)))) = rsum (length f - 2) (fun j => g (j + 3)%nat (magnitude (nth (j + 2) f (0, 0)))).
Proof.
  assert (Ls : length (skipn 2 (frame_abs f)) = (length f - 2)%nat) by (unfold frame_abs; now rewrite skipn_length, map_length).
  rewrite sum_list_rsum, map_length, combine_length, Ls, seq_length, Nat.min_id. apply TransformProofs.rsum_ext. intros j Hj.
  rewrite (nth_indep _ 0 ((fun p : cplx * nat => g (snd p) (fst (fst p))) ((0, 0), 0%nat))) by (rewrite map_length, combine_length, Ls, seq_length; lia).
  rewrite (map_nth (fun p : cplx * nat => g (snd p) (fst (fst p)))), combine_nth by (etransitivity; [exact Ls|symmetry; apply seq_length]). cbn [fst snd]. rewrite seq_nth by lia. f_equal; [lia|].
  assert (T2 : forall (l : list cplx) n k, nth k (skipn n l) (0, 0) = nth (n + k) l (0, 0)).
  { clear. induction l as [|y l IH]; intros n k; [rewrite skipn_nil; destruct k, n; reflexivity|]. destruct n; [reflexivity|]. cbn [skipn Nat.add nth]. apply IH. }
  rewrite T2. unfold frame_abs. rewrite (nth_indep _ (0, 0) ((fun z => (cabs z, 0)) (0, 0))) by (rewrite map_length; unfold cplx in *; lia). rewrite (map_nth (fun z => (cabs z, 0))). cbn [fst]. rewrite (Nat.add_comm 2 j). reflexivity.
Qed.
Lemma energy_spec f : frame_energy (frame_abs f) = high_energy f.
Proof.
  unfold frame_energy, high_energy, or_epsilon, tiny. rewrite <- (tail_sum f (fun _ x => x ^ 2)).
  replace (map (fun z => fst z * fst z) (skipn 2 (frame_abs f))) with (map (fun p : cplx * nat => fst (fst p) ^ 2) (combine (skipn 2 (frame_abs f)) (seq 3 (length f - 2)))); [reflexivity|].
  rewrite <- (map_map fst (fun z : cplx => fst z ^ 2)). assert (Ls : length (skipn 2 (frame_abs f)) = (length f - 2)%nat) by (unfold frame_abs; now rewrite skipn_length, map_length).
  replace (map fst (combine (skipn 2 (frame_abs f)) (seq 3 (length f - 2)))) with (skipn 2 (frame_abs f)); [apply map_ext; intros z; ring|].
  assert (G : forall (A B : Type) (a : list A) (b : list B), length a = length b -> a = map fst (combine a b)) by (clear; induction a as [|x a IH]; destruct b; cbn; intros H; try discriminate; [reflexivity|f_equal; apply IH; lia]). apply G. now rewrite Ls, seq_length.
Qed.
Lemma hfc_spec f : frame_hfc (frame_abs f) = high_content f.
Proof.
  unfold frame_hfc, high_content, or_epsilon, tiny. rewrite <- (tail_sum f (fun j x => x ^ 2 * INR j)).
  assert (Lf : length (frame_abs f) = length f) by (unfold frame_abs; apply map_length). rewrite Lf.
  assert (E : skipn 2 (map INR (seq 1 (length f))) = map INR (seq 3 (length f - 2))) by (destruct f as [|? [|? f]]; try reflexivity; cbn [length seq map skipn Nat.sub]; now rewrite Nat.sub_0_r). rewrite E.
  match goal with |- (if Req_EM_T ?x 0 then _ else _) = (if Req_EM_T ?y 0 then _ else _) => enough (Q : x = y) by (rewrite Q; reflexivity) end. f_equal.
  generalize (skipn 2 (frame_abs f)) as a. generalize (seq 3 (length f - 2)) as b. clear. induction b as [|y b IH]; intros [|x a]; try reflexivity. cbn [combine map fst snd]. rewrite IH. f_equal. ring.
Qed.
Theorem transience_ok first rest chunks : exists os, transience_node ((first :: rest) :: chunks) = Ok os /\
  let frames := List.concat ((first :: rest) :: chunks) in List.concat os = map (transience frames) (seq 0 (length frames)).
Proof.
  destruct (mot_independent frame_abs frame_score frame_abs_idem first rest chunks) as [os [E [L N]]]. exists os. split; [exact E|]. cbv zeta. set (fr := List.concat ((first :: rest) :: chunks)) in *.
  apply nth_error_eq. intros i. rewrite N. unfold detection. rewrite nth_error_map. destruct (Nat.lt_ge_cases i (length fr)) as [H|H].
  - rewrite (nth_error_nth' fr [] H), (nth_error_nth' fr [] (n := i - 1)) by lia. rewrite (nth_error_nth' (seq 0 (length fr)) 0%nat) by (now rewrite seq_length). rewrite seq_nth by exact H. cbn [option_map Nat.add].
    f_equal. unfold frame_score, transience. now rewrite !hfc_spec, energy_spec.
  - rewrite (proj2 (nth_error_None fr i) H), (proj2 (nth_error_None (seq 0 (length fr)) i)) by (now rewrite seq_length). now destruct (nth_error fr (i - 1)).
Qed.

(** ** Picking *)
Lemma np_where_app a b : np_where (a ++ b) = np_where a ++ map (fun i => Zlen a + i)%Z (np_where b).
Proof.
  induction a as [|x a IH]; [cbn [List.app]; symmetry; apply map_id|]. cbn [List.app]. rewrite !np_where_cons, IH, map_app, map_map, <- app_assoc. do 2 f_equal. apply map_ext. intros i. rewrite Zlen_cons. lia.
Qed.
Lemma times_where {A} (oi : list A -> result (list Z)) (P : A -> bool) f chunks : Forall (fun d => oi d = Ok (np_where (map P d))) chunks ->
  forall o, onset_times oi f o chunks (map (fun i => (o + i) * f)%Z (np_where (map P (List.concat chunks)))).
Proof.
  induction 1 as [|d ds H Hs IH]; intros o; [constructor|]. cbn [List.concat]. rewrite map_app, np_where_app, map_app, map_map.
  apply ot_cons.
  - destruct (np_where_spec (map P d)) as (A1 & A2 & _). split; [exact H|]. split; [exact A1|]. unfold Zlen in *. now rewrite map_length in A2.
  - erewrite map_ext; [apply (IH (o + Zlen d)%Z)|]. intros i. cbn beta. unfold Zlen. rewrite map_length. ring.
Qed.
Lemma three_cols (row : list R) c : (2 <= c < length row)%nat ->
  py_slice (Some (Z.of_nat c - 2)%Z) (Some (Z.of_nat c + 1)%Z) row = [nth (c - 2) row 0; nth (c - 1) row 0; nth c row 0].
Proof.
  intros H. rewrite py_slice_pos by lia. replace (Z.to_nat (Z.of_nat c + 1 - (Z.of_nat c - 2))) with 3%nat by lia.
  replace (Z.to_nat (Z.of_nat c - 2)) with (c - 2)%nat by lia.
  assert (E : exists d, (c = 2 + d)%nat) by (exists (c - 2)%nat; lia). destruct E as [d ->].
  replace (2 + d - 2)%nat with d by lia. replace (2 + d - 1)%nat with (1 + d)%nat by lia.
  revert row H; induction d as [|d IH]; intros row H.
  - destruct row as [|x [|y [|z row]]]; cbn [length] in H; try lia. reflexivity.
  - destruct row as [|x row]; [cbn [length] in H; lia|]. cbn [length] in H.
    replace (2 + S d)%nat with (S (2 + d)) by lia. replace (1 + S d)%nat with (S (1 + d)) by lia. cbn [skipn nth].
    apply IH. lia.
Qed.
Definition is_peak (aggregate : list R -> R) (c : nat) (row : list R) : bool :=
  Rltb (nth (c - 2) row 0) (nth (c - 1) row 0) && Rltb (nth c row 0) (nth (c - 1) row 0) && Rltb (5 / 4 * aggregate row) (nth c row 0).
Lemma Rltb_iff a b : Rltb a b = true <-> a < b.
Proof. unfold Rltb. destruct (Rlt_dec a b); split; intros; try assumption; try discriminate; try reflexivity; contradiction. Qed.
Lemma Rltb_eq a b c d : (a < b <-> c < d) -> Rltb a b = Rltb c d.
Proof. intros H. destruct (Rltb c d) eqn:E; [apply Rltb_iff, H, Rltb_iff; exact E|]. destruct (Rltb a b) eqn:E2; [|reflexivity]. apply Rltb_iff, H, Rltb_iff in E2. congruence. Qed.
Lemma picks_spec agg c row : (2 <= c < length row)%nat -> picks agg (Z.of_nat c) row = Ok (is_peak agg c row).
Proof.
  intros H. unfold picks, is_peak. rewrite three_cols by exact H. unfold py_get. destruct (Z.ltb_spec (Z.of_nat c) 0); [lia|]. destruct (Z.ltb_spec (Z.of_nat c) 0); [lia|]. rewrite Nat2Z.id.
  rewrite (nth_error_nth' row 0) by lia. f_equal. f_equal; [f_equal|]; apply Rltb_eq; split; intros; lra.
Qed.
Lemma picked_spec agg c rows : Forall (fun r => 2 <= c < length r)%nat rows -> picked agg (Z.of_nat c) rows = Ok (np_where (map (is_peak agg c) rows)).
Proof.
  intros H. unfold picked. assert (E : mapM (picks agg (Z.of_nat c)) rows = Ok (map (is_peak agg c) rows)); [|now rewrite E].
  induction H as [|r rows Hr H IH]; [reflexivity|]. cbn [mapM map]. now rewrite picks_spec, IH.
Qed.
Lemma where_filter (P : nat -> bool) k : np_where (map P (seq 0 k)) = map Z.of_nat (filter P (seq 0 k)).
Proof.
  induction k as [|k IH]; [reflexivity|]. rewrite seq_S, map_app, np_where_app, IH, filter_app, map_app. cbn [Nat.add map filter]. f_equal. unfold Zlen. rewrite map_length, seq_length.
  destruct (P k); cbn; [|reflexivity]. now rewrite Z.add_0_r.
Qed.
Lemma filter_sorted (P : nat -> bool) k : forall a, StronglySorted lt (filter P (seq a k)).
Proof.
  induction k as [|k IH]; intros a; [constructor|]. cbn [seq filter]. destruct (P a); [|apply IH]. constructor; [apply IH|]. apply Forall_forall. intros x Hx. apply filter_In in Hx. destruct Hx as [Hx _]. apply in_seq in Hx. lia.
Qed.

(** ** The graph *)
Lemma onset_graph_main t scheme n p aggregate w wsr first rest chunks : (4 <= w)%nat -> (0 < t_freq t <= t_dur t)%Z ->
  sr_mul scheme 1 n = Ok wsr -> span_samples t (sr_dur wsr) = Ok (Z.of_nat w) -> span_samples t (sr_freq wsr) = Ok 1%Z ->
  let frames := List.concat ((first :: rest) :: chunks) in
  let d := map (transience frames) (seq 0 (length frames)) in
  exists slices k onsets ds outs, transience_node ((first :: rest) :: chunks) = Ok ds /\ run 0 {| c_window := Z.of_nat w; c_step := 1; c_padwith := p; c_func := None |} ds = Ok outs /\ k = length (SlidingNode.frames outs) /\ onset_graph t scheme n p aggregate ((first :: rest) :: chunks) = Ok slices /\
    frame_count (p + length frames) w 1 k /\
    StronglySorted lt onsets /\ (forall i, In i onsets <-> (i < k)%nat /\ onset aggregate p w (w / 2) d i) /\
    List.concat slices = zip_diff (0%Z :: map (fun i => Z.of_nat i * t_freq t)%Z onsets ++ [Z.of_nat k * t_freq t]%Z).
Proof.
  intros Hw Ht Em Ew Eh. cbv zeta. destruct (transience_ok first rest chunks) as [ds [Ed Hd]]. cbv zeta in Hd. set (fr := List.concat ((first :: rest) :: chunks)) in *.
  assert (Nd : ds <> []). { intros ->. cbn [List.concat] in Hd. assert (Q : length (map (transience fr) (seq 0 (length fr))) = 0%nat) by (now rewrite <- Hd). rewrite map_length, seq_length in Q. discriminate Q. }
  destruct (windowed_plain t wsr p w 1 ds ltac:(lia) ltac:(lia) Ht Ew Eh Nd) as (arrs & k & m & outs & E & Er & Es & W & St & Kc & Mf & _).
  assert (Ld : length (List.concat ds) = length fr) by (rewrite Hd, map_length, seq_length; reflexivity). rewrite Ld in Kc.
  assert (K1 : (1 <= k)%nat) by (unfold frame_count in Kc; destruct (Nat.leb _ _); lia).
  destruct arrs as [|a0 arrs0]; [cbn in St; destruct k; [lia|discriminate St]|]. set (arrs := a0 :: arrs0) in *.
  set (c := (w / 2)%nat). assert (Hc : (2 <= c < w)%nat) by (unfold c; split; [apply Nat.div_le_lower_bound; lia|apply Nat.div_lt; lia]).
  assert (F : (t_freq t * Z.of_nat 1 = t_freq t)%Z) by lia. rewrite F in Mf.
  assert (Hf : Forall (fun d => picked aggregate (Z.of_nat c) d = Ok (np_where (map (is_peak aggregate c) d))) (map a_rows arrs)).
  { apply Forall_map. apply Forall_impl with (2 := W). intros a (_ & _ & La & _). apply picked_spec. apply Forall_impl with (2 := La). intros r ->. exact Hc. }
  destruct (pp_cuts _ (t_freq t) (map a_rows arrs) _ ltac:(lia) (times_where _ _ (t_freq t) _ Hf 0%Z)) as [os [Eo Co]].
  change (List.concat (map a_rows arrs)) with (stored arrs) in Co. rewrite St in Co. unfold Zlen in Co. rewrite map_length, seq_length, map_map in Co. rewrite where_filter, map_map in Co.
  set (Pk := fun i : nat => is_peak aggregate c (map (fun j => shifted p (List.concat ds) (i * 1 + j)) (seq 0 w))) in *.
  exists os, k, (filter Pk (seq 0 k)), ds, outs. split; [exact Ed|]. split; [exact Er|]. split; [rewrite <- Es, St, map_length, seq_length; reflexivity|]. split.
  - unfold onset_graph. rewrite Em. cbn [bind]. rewrite Ed. cbn [bind]. rewrite E. cbn [bind]. unfold peak_node. unfold arrs at 1. pose proof W as W0. unfold arrs in W0. apply Forall_cons_iff in W0. destruct W0 as [(D0 & Wd & _) _].
    rewrite D0, Wd. cbn [t_freq sized]. rewrite Mf. fold arrs. replace (Z.of_nat w / 2)%Z with (Z.of_nat c) by (unfold c; now rewrite Nat2Z.inj_div). exact Eo.
  - split; [exact Kc|]. split; [apply filter_sorted|]. split; [|rewrite Co; do 2 f_equal].
    intros i. rewrite filter_In, in_seq. unfold Pk, is_peak. rewrite !andb_true_iff, !Rltb_iff. unfold onset. fold c. rewrite Hd, Nat.mul_1_r.
    assert (N : forall j, (j < w)%nat -> nth j (map (fun j => shifted p (map (transience fr) (seq 0 (length fr))) (i + j)) (seq 0 w)) 0 = shifted p (map (transience fr) (seq 0 (length fr))) (i + j)).
    { intros j Hj. set (g := fun j => shifted p (map (transience fr) (seq 0 (length fr))) (i + j)). rewrite (nth_indep _ 0 (g 0%nat)) by (rewrite map_length, seq_length; lia). rewrite map_nth, seq_nth by lia. reflexivity. }
    rewrite !N by lia. replace (i + c - 2)%nat with (i + (c - 2))%nat by lia. replace (i + c - 1)%nat with (i + (c - 1))%nat by lia. split; intros Q; repeat split; try tauto; lia.
Qed.
Theorem onset_graph_ok t scheme n p aggregate w wsr first rest chunks : (4 <= w)%nat -> (0 < t_freq t <= t_dur t)%Z ->
  sr_mul scheme 1 n = Ok wsr -> span_samples t (sr_dur wsr) = Ok (Z.of_nat w) -> span_samples t (sr_freq wsr) = Ok 1%Z ->
  let frames := List.concat ((first :: rest) :: chunks) in
  let d := map (transience frames) (seq 0 (length frames)) in
  exists slices k onsets, onset_graph t scheme n p aggregate ((first :: rest) :: chunks) = Ok slices /\
    frame_count (p + length frames) w 1 k /\
    StronglySorted lt onsets /\ (forall i, In i onsets <-> (i < k)%nat /\ onset aggregate p w (w / 2) d i) /\
    List.concat slices = zip_diff (0%Z :: map (fun i => Z.of_nat i * t_freq t)%Z onsets ++ [Z.of_nat k * t_freq t]%Z).
Proof.
  intros Hw Ht Em Ew Eh. destruct (onset_graph_main t scheme n p aggregate w wsr first rest chunks Hw Ht Em Ew Eh) as (sl & k & on & ds & outs & _ & _ & _ & H). exists sl, k, on. exact H.
Qed.
