(** More about the onset graphs: window sizes, chunks, and [with_onsets]. *)
From Coq Require Import ZArith Reals Lia Lra Sorted.
From Verif Require Import PyBase PyFacts PyMore Time TimeProofs Freq FreqDim Axis Windowed NdWindow WindowedProofs SlidingNode SlidingNodeProofs Spectral Stft ScaleBasis Weighting Nodes NodesProofs Graph GraphProofs GraphProofs2 GraphProofs3 GraphProofs4 Onsets OnsetsProofs.
Local Open Scope R_scope.

(** ** How many frames a Stride spans *)
Lemma span_overlapping t d : (0 < t_freq t <= t_dur t)%Z -> span_samples t d = Ok (ceil_div (round2 d (t_freq t)) 100).
Proof.
  intros [Hf Hd]. unfold span_samples, integer_based_slice. cbn [bind fst snd]. rewrite Z.add_0_l.
  assert (Q : ((0 - (t_dur t - t_freq t)) / t_freq t <= 0)%Z) by (apply Z.div_le_upper_bound; lia). rewrite Z.max_l by exact Q. now rewrite Z.sub_0_r.
Qed.
Lemma span_multiple t k : (0 < t_freq t <= t_dur t)%Z -> span_samples t (k * t_freq t) = Ok k.
Proof.
  intros H. rewrite span_overlapping by exact H. unfold round2. rewrite (round_half_even_exact _ _ (100 * k)) by lia. unfold ceil_div. f_equal. replace (- (100 * k))%Z with ((- k) * 100)%Z by ring. rewrite Z.div_mul by lia. lia.
Qed.
(** [Stride(1, n)] of a scheme, on a series of exactly that scheme: [n] frames and as many as
    overlap; so one more than [n] for half-lapped windows *)
Theorem stride_spans t n j : (0 < t_freq t)%Z -> (0 <= j)%Z -> (t_dur t = t_freq t + j * t_freq t)%Z -> (1 <= n)%Z ->
  exists wsr, sr_mul {| sr_freq := t_freq t; sr_dur := t_dur t |} 1 n = Ok wsr /\
    span_samples t (sr_freq wsr) = Ok 1%Z /\ span_samples t (sr_dur wsr) = Ok (n + j)%Z /\
    discrete_samples wsr (t_freq t) (t_dur t) = (1, n)%Z.
Proof.
  intros Hf Hj Hd Hn. unfold sr_mul, mk_samplerate, sr_overlap. cbn [sr_freq sr_dur]. rewrite Hd. replace (t_freq t * 1)%Z with (1 * t_freq t)%Z by ring. replace (t_freq t * n + (t_freq t + j * t_freq t - t_freq t))%Z with ((n + j) * t_freq t)%Z by ring.
  destruct (Z.leb_spec (1 * t_freq t) 0); [lia|]. destruct (Z.leb_spec ((n + j) * t_freq t) 0); [nia|]. eexists. split; [reflexivity|]. cbn [sr_freq sr_dur]. rewrite !span_multiple by nia. split; [reflexivity|]. split; [reflexivity|].
  unfold discrete_samples. cbn [sr_freq sr_dur]. rewrite (round_half_even_exact _ _ 1) by lia. rewrite (round_half_even_exact _ _ n) by lia. reflexivity.
Qed.
(** the frames of the audio graph at every rate, and HalfLapped() * Stride(1, n) *)
Definition feature_dim (r : Z) (w h : nat) : timedim := {| t_freq := 10 ^ 12 / r * Z.of_nat h; t_dur := 10 ^ 12 / r * Z.of_nat w; t_size := None |}.
Theorem stride_rates r w h n : In (r, (Z.of_nat w, Z.of_nat h)) graph_sizes -> In n [3; 10; 11]%Z ->
  exists wsr, sr_mul half_lapped_scheme 1 n = Ok wsr /\ (0 < t_freq (feature_dim r w h) <= t_dur (feature_dim r w h))%Z /\
    span_samples (feature_dim r w h) (sr_freq wsr) = Ok 1%Z /\ span_samples (feature_dim r w h) (sr_dur wsr) = Ok (n + 1)%Z.
Proof.
  intros H Hn. unfold feature_dim. repeat (destruct H as [E|H]; [injection E as <- Ew Eh; rewrite <- Ew, <- Eh; repeat (destruct Hn as [<-|Hn]; [eexists; split; [reflexivity|]; split; [vm_compute; split; [reflexivity|discriminate]|]; split; vm_compute; reflexivity|]); destruct Hn|]). destruct H.
Qed.

(** ** The number of rows depends on the chunks *)
Lemma mot_lengths {A B} (prep : A -> A) (score : A -> A -> B) : forall chunks x os, mot_feed prep score (Some [x]) chunks = Ok os -> map (@length B) os = map (@length A) chunks.
Proof.
  induction chunks as [|d ds IH]; intros x os; cbn [mot_feed]; [intros H; injection H as <-; reflexivity|]. cbn [bind mot_enqueue mot_dequeue]. destruct (rev ([x] ++ d)) as [|z r]; [discriminate|]. cbn [bind].
  destruct (mot_feed prep score (Some [z]) ds) as [os'|] eqn:E; [|discriminate]. cbn [bind]. intros H. injection H as <-. cbn [map]. rewrite (IH _ _ E). f_equal. unfold mot_process. rewrite consecutive_length, map_length. cbn [List.app length]. lia.
Qed.
Lemma mot_chunk_lengths {A B} (prep : A -> A) (score : A -> A -> B) first rest chunks os : mot_run prep score ((first :: rest) :: chunks) = Ok os -> map (@length B) os = map (@length A) ((first :: rest) :: chunks).
Proof.
  unfold mot_run. cbn [mot_feed]. unfold mot_first_chunk. cbn [map bind]. unfold mot_enqueue, mot_dequeue. destruct (rev (prep first :: prep first :: map prep rest)) as [|z r]; [discriminate|]. cbn [bind].
  destruct (mot_feed prep score (Some [z]) chunks) as [os'|] eqn:E; [|discriminate]. cbn [bind]. intros H. injection H as <-. cbn [map]. rewrite (mot_lengths _ _ _ _ _ E). f_equal. unfold mot_process. rewrite consecutive_length, map_length. cbn [length]. rewrite map_length. lia.
Qed.
Lemma frames_one (c : config R) w d outs : (2 <= w)%nat -> c_window c = Z.of_nat w -> c_step c = 1%Z -> (w < c_padwith c + length d)%nat -> run 0 c [d] = Ok outs ->
  length (SlidingNode.frames outs) = (2 + (c_padwith c + length d - w))%nat.
Proof.
  intros Hw Hcw Hcs Hl. unfold run. cbn [feed enqueue]. rewrite (attempt_false 0 c w 1 Hw ltac:(lia) ltac:(lia) Hcw Hcs). cbn [bind].
  set (a := first_chunk 0 c d). assert (La : length a = (c_padwith c + length d)%nat) by (unfold a, first_chunk; now rewrite app_length, repeat_length).
  assert (N : n_windows (length a) w 1 = (1 + (c_padwith c + length d - w))%nat) by (unfold n_windows; rewrite La, Nat.div_1_r; destruct (Nat.leb_spec (c_padwith c + length d) w); lia). rewrite N. cbn [Nat.eqb Nat.add].
  destruct (attempt_true 0 c w 1 Hw ltac:(lia) ltac:(lia) Hcw Hcs (skipn (S (c_padwith c + length d - w) * 1) a) ltac:(rewrite skipn_length, La; lia)) as [st T]. rewrite T. cbn [bind]. intros H. injection H as <-.
  unfold SlidingNode.frames. cbn [List.app map List.concat]. rewrite !app_length, !f_rows_length, !windows_length. cbn [length]. lia.
Qed.
Lemma frames_two (c : config R) w d x outs : (2 <= w)%nat -> c_window c = Z.of_nat w -> c_step c = 1%Z -> (w < c_padwith c + length d)%nat -> run 0 c [d; [x]] = Ok outs ->
  length (SlidingNode.frames outs) = (2 + (c_padwith c + length d - w))%nat.
Proof.
  intros Hw Hcw Hcs Hl. unfold run. cbn [feed enqueue]. rewrite (attempt_false 0 c w 1 Hw ltac:(lia) ltac:(lia) Hcw Hcs). cbn [bind].
  set (a := first_chunk 0 c d). assert (La : length a = (c_padwith c + length d)%nat) by (unfold a, first_chunk; now rewrite app_length, repeat_length).
  assert (N : n_windows (length a) w 1 = (1 + (c_padwith c + length d - w))%nat) by (unfold n_windows; rewrite La, Nat.div_1_r; destruct (Nat.leb_spec (c_padwith c + length d) w); lia). rewrite N. cbn [Nat.eqb Nat.add].
  set (b := skipn (S (c_padwith c + length d - w) * 1) a ++ [x]). assert (Lb : length b = w) by (unfold b; rewrite app_length, skipn_length, La; cbn [length]; lia).
  cbn [enqueue]. fold b. rewrite (attempt_false 0 c w 1 Hw ltac:(lia) ltac:(lia) Hcw Hcs). cbn [bind].
  assert (N2 : n_windows (length b) w 1 = 0%nat) by (unfold n_windows; rewrite Lb; destruct (Nat.leb_spec w w); lia). rewrite N2. cbn [Nat.eqb Nat.mul skipn].
  destruct (attempt_true 0 c w 1 Hw ltac:(lia) ltac:(lia) Hcw Hcs b ltac:(lia)) as [st T]. rewrite T. cbn [bind]. intros H. injection H as <-.
  unfold SlidingNode.frames. cbn [List.app map List.concat]. rewrite !app_length, !f_rows_length, !windows_length. cbn [length]. lia.
Qed.
Lemma cuts_tile f k onsets : (0 < f)%Z -> StronglySorted lt onsets -> (forall i, In i onsets -> (i < k)%nat) ->
  tiles 0 (Z.of_nat k * f) (zip_diff (0%Z :: map (fun i => Z.of_nat i * f)%Z onsets ++ [Z.of_nat k * f]%Z)).
Proof.
  intros Hf Hs Hb. set (l := map (fun i => Z.of_nat i * f)%Z onsets).
  replace (Z.of_nat k * f)%Z with (last (0%Z :: l ++ [Z.of_nat k * f]%Z) 0%Z) at 1 by (change (0%Z :: l ++ [Z.of_nat k * f]%Z) with ((0%Z :: l) ++ [Z.of_nat k * f]%Z); apply last_last). apply zip_diff_tiles.
  constructor; [|apply Forall_forall; intros z Hz; apply in_app_or in Hz; destruct Hz as [Hz|[<-|[]]]; [apply in_map_iff in Hz; destruct Hz as (i & <- & _)|]; nia].
  unfold l. clear l. induction Hs as [|x l Hs IH F]; cbn [map List.app]; [repeat constructor|]. constructor; [apply IH; intros i Hi; apply Hb; now right|].
  apply Forall_forall. intros z Hz. rewrite Forall_forall in F. apply in_app_or in Hz. destruct Hz as [Hz|[<-|[]]]; [apply in_map_iff in Hz; destruct Hz as (i & <- & Hi); specialize (F i Hi)|pose proof (Hb x (or_introl eq_refl))]; nia.
Qed.
(** the slices of any sound end before the sound does, at a place that depends on its chunks *)
Theorem onset_end_refuted t scheme n p aggregate w wsr first rest x : (4 <= w)%nat -> (0 < t_freq t <= t_dur t)%Z ->
  sr_mul scheme 1 n = Ok wsr -> span_samples t (sr_dur wsr) = Ok (Z.of_nat w) -> span_samples t (sr_freq wsr) = Ok 1%Z ->
  (w < p + length (first :: rest))%nat ->
  exists o1 o2, onset_graph t scheme n p aggregate [first :: rest ++ [x]] = Ok o1 /\ onset_graph t scheme n p aggregate [first :: rest; [x]] = Ok o2 /\
    tiles 0 (Z.of_nat (p + length (first :: rest) + 3 - w) * t_freq t) (List.concat o1) /\
    tiles 0 (Z.of_nat (p + length (first :: rest) + 2 - w) * t_freq t) (List.concat o2).
Proof.
  intros Hw Ht Em Ew Eh Hl.
  destruct (onset_graph_main t scheme n p aggregate w wsr first (rest ++ [x]) [] Hw Ht Em Ew Eh) as (s1 & k1 & on1 & ds1 & outs1 & D1 & R1 & K1 & G1 & _ & S1 & I1 & C1).
  destruct (onset_graph_main t scheme n p aggregate w wsr first rest [[x]] Hw Ht Em Ew Eh) as (s2 & k2 & on2 & ds2 & outs2 & D2 & R2 & K2 & G2 & _ & S2 & I2 & C2).
  exists s1, s2. split; [exact G1|]. split; [exact G2|]. rewrite C1, C2.
  unfold transience_node in D1, D2. pose proof (mot_chunk_lengths frame_abs frame_score _ _ _ _ D1) as L1. pose proof (mot_chunk_lengths frame_abs frame_score _ _ _ _ D2) as L2. cbn [map] in L1, L2.
  destruct ds1 as [|d1 [|? ?]]; try discriminate L1. destruct ds2 as [|d2 [|[|y [|? ?]] [|? ?]]]; try discriminate L2.
  injection L1 as L1. injection L2 as L2. rewrite app_length in L1. cbn [length] in L1, L2, Hl |- *.
  apply (frames_one _ w) in R1; [|lia|reflexivity|reflexivity|cbn [c_padwith]; lia]. apply (frames_two _ w) in R2; [|lia|reflexivity|reflexivity|cbn [c_padwith]; lia]. cbn [c_padwith] in R1, R2.
  split.
  - replace (p + S (length rest) + 3 - w)%nat with k1 by (rewrite K1, R1; lia). apply cuts_tile; [lia|exact S1|intros i Hi; now apply I1].
  - replace (p + S (length rest) + 2 - w)%nat with k2 by (rewrite K2, R2; lia). apply cuts_tile; [lia|exact S2|intros i Hi; now apply I2].
Qed.
(** apart from that last row, the same onsets whatever the chunks *)
Theorem onset_chunks t scheme n p aggregate w wsr first rest chunks first' rest' chunks' : (4 <= w)%nat -> (0 < t_freq t <= t_dur t)%Z ->
  sr_mul scheme 1 n = Ok wsr -> span_samples t (sr_dur wsr) = Ok (Z.of_nat w) -> span_samples t (sr_freq wsr) = Ok 1%Z ->
  List.concat ((first :: rest) :: chunks) = List.concat ((first' :: rest') :: chunks') ->
  exists s k onsets s' k' onsets',
    onset_graph t scheme n p aggregate ((first :: rest) :: chunks) = Ok s /\ onset_graph t scheme n p aggregate ((first' :: rest') :: chunks') = Ok s' /\
    List.concat s = zip_diff (0%Z :: map (fun i => Z.of_nat i * t_freq t)%Z onsets ++ [Z.of_nat k * t_freq t]%Z) /\
    List.concat s' = zip_diff (0%Z :: map (fun i => Z.of_nat i * t_freq t)%Z onsets' ++ [Z.of_nat k' * t_freq t]%Z) /\
    (k <= k' + 1 /\ k' <= k + 1)%nat /\ (forall i, (i < Nat.min k k')%nat -> In i onsets <-> In i onsets') /\
    (k <= k' -> onsets = filter (fun i => Nat.ltb i k) onsets')%nat.
Proof.
  intros Hw Ht Em Ew Eh E. destruct (onset_graph_ok t scheme n p aggregate w wsr first rest chunks Hw Ht Em Ew Eh) as (s & k & on & G & K & S & I & C).
  destruct (onset_graph_ok t scheme n p aggregate w wsr first' rest' chunks' Hw Ht Em Ew Eh) as (s' & k' & on' & G' & K' & S' & I' & C'). rewrite <- E in *.
  exists s, k, on, s', k', on'. split; [exact G|]. split; [exact G'|]. split; [exact C|]. split; [exact C'|]. split; [exact (frame_counts_near _ _ _ _ _ K K')|].
  assert (Q : forall i, (i < Nat.min k k')%nat -> In i on <-> In i on') by (intros i Hi; rewrite I, I'; split; intros [? ?]; (split; [lia|assumption])). split; [exact Q|].
  intros Hk. assert (U : forall a b : list nat, StronglySorted lt a -> StronglySorted lt b -> (forall i, In i a <-> In i b) -> a = b).
  { clear. intros a b Ha. revert b. induction Ha as [|x a Ha IH Fa]; intros b Hb H.
    - destruct b as [|y b]; [reflexivity|]. exfalso. exact (proj2 (H y) (or_introl eq_refl)).
    - destruct b as [|y b]; [exfalso; exact (proj1 (H x) (or_introl eq_refl))|]. apply StronglySorted_inv in Hb. destruct Hb as [Hb Fb]. rewrite Forall_forall in Fa, Fb.
      assert (x = y). { destruct (proj1 (H x) (or_introl eq_refl)) as [->|Hx]; [reflexivity|]. destruct (proj2 (H y) (or_introl eq_refl)) as [->|Hy]; [reflexivity|]. specialize (Fa y Hy). specialize (Fb x Hx). lia. }
      subst y. f_equal. apply IH; [exact Hb|]. intros i. split; intros Hi.
      + destruct (proj1 (H i) (or_intror Hi)) as [<-|]; [specialize (Fa x Hi); lia|assumption].
      + destruct (proj2 (H i) (or_intror Hi)) as [<-|]; [specialize (Fb x Hi); lia|assumption]. }
  apply U; [exact S| |].
  - clear - S'. induction S' as [|x l Sl IH F]; cbn [filter]; [constructor|]. destruct (Nat.ltb x k); [|exact IH]. constructor; [exact IH|]. rewrite Forall_forall in *. intros y Hy. apply filter_In in Hy. now apply F.
  - intros i. rewrite filter_In, Nat.ltb_lt. split.
    + intros Hi. assert (i < k)%nat by (apply I in Hi; tauto). split; [apply Q; [lia|assumption]|assumption].
    + intros [Hi Hik]. apply Q; [lia|assumption].
Qed.

(** ** [with_onsets] *)
Theorem with_onsets_refuted r w h width chunks : In (r, (Z.of_nat w, Z.of_nat h)) graph_sizes -> chunks <> [] ->
  with_onsets (feature_dim r w h) width chunks = Raise AttributeError.
Proof.
  intros Hin Hne. destruct (stride_rates r w h 3 Hin ltac:(left; reflexivity)) as (wsr & E & _ & Eh & Ew). unfold with_onsets. rewrite E. cbn [bind]. rewrite Ew, Eh. cbn [bind]. change (3 + 1)%Z with (Z.of_nat 4).
  set (cfg := {| c_window := Z.of_nat 4; c_step := 1; c_padwith := 0; c_func := @None (list (list cplx) -> list (list cplx)) |}).
  destruct (sliding_node_main (A := list cplx) (repeat ((0, 0) : cplx) width) cfg 4 1 chunks ltac:(lia) ltac:(lia) ltac:(lia) eq_refl eq_refl Hne) as (outs & k & Er & Ef & Cov & K1 & K2 & K3).
  rewrite Er. cbn [bind]. pose proof (run_rows (A := list cplx) _ cfg chunks outs ltac:(cbn; lia) Er) as Rw. pose proof (run_nonempty (A := list cplx) _ cfg chunks outs Er) as NE. cbn [c_func cfg c_padwith] in Ef, K1, K2, K3. cbn [repeat List.app] in Ef, K1, K2, K3.
  set (st := List.concat chunks) in *.
  assert (K : frame_count (length st) 4 1 k) by (unfold frame_count; destruct (Nat.leb_spec (length st) 4); [now apply K1|]; destruct (Nat.eq_dec ((length st - 4) mod 1) 0) as [Z0|NZ]; [destruct (K3 ltac:(lia) Z0); auto|left; now apply K2]).
  assert (Lf : Forall (fun r => length r = 4%nat) (SlidingNode.frames outs)).
  { rewrite Ef. apply Forall_map, Forall_forall. intros i Hi. apply in_seq in Hi. rewrite firstn_length, skipn_length, app_length. cbn [length]. assert (i * 1 <= length st)%nat; [|lia]. unfold frame_count in K. rewrite Nat.div_1_r in K. destruct (Nat.leb_spec (length st) 4); lia. }
  assert (Nz : SlidingNode.frames outs <> []).
  { rewrite Ef. unfold frame_count in K. destruct k; [destruct (Nat.leb _ _); lia|]. discriminate. }
  destruct outs as [|o outs]; [exfalso; now apply Nz|]. apply Forall_cons_iff in Rw. destruct Rw as [[rows ->] _]. unfold SlidingNode.frames in Lf. cbn [map List.concat] in Lf. apply Forall_app in Lf. destruct Lf as [Lr _]. cbn [mapM]. unfold complex_domain_process.
  destruct (existsb (fun w0 => Nat.ltb (length w0) 3) rows) eqn:X; [|reflexivity]. exfalso. apply existsb_exists in X. destruct X as (v & Hv & Lv). rewrite Forall_forall in Lr. specialize (Lr v Hv). apply Nat.ltb_lt in Lv. unfold cplx in *. lia.
Qed.

(** ** Examples *)
(** 20 silent frames at 44.1 kHz *)
Example onsets_of_silence : exists slices, onset_graph (feature_dim 44100 2048 1024) half_lapped_scheme 10 5 (fun _ => 0) [repeat [(0, 0)] 20] = Ok slices.
Proof.
  destruct (stride_rates 44100 2048 1024 10 ltac:(cbn; tauto) ltac:(cbn; tauto)) as (wsr & E & Hf & Eh & Ew).
  destruct (onset_graph_ok (feature_dim 44100 2048 1024) half_lapped_scheme 10 5 (fun _ => 0) 11 wsr [(0, 0)] (repeat [(0, 0)] 19) [] ltac:(lia) Hf E Ew Eh) as (s & k & on & G & _). exists s. exact G.
Qed.
(** no onset signal at all: the one onset at 0 is still there *)
Theorem peak_nothing aggregate : peak_node aggregate [] = Ok [[(0, 0)%Z]].
Proof. reflexivity. Qed.
