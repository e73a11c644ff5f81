(** Proofs about EndToEnd.v: from the bytes to windows, spectra and the features of audio_graph. *)
From Coq Require Import ZArith Reals Lia Lra.
From Verif Require Import PyBase PyFacts PyMore Time TimeProofs Freq FreqProofs FreqDim Axis PhaseShift Windowed NdWindow SlidingNode Spectral Stft ScaleBasis Weighting Graph FreqAdapt Audio AudioProofs SoundNodes SoundNodesProofs2 TransformProofs ReconProofs StftProofs GraphProofs GraphProofs2 GraphProofs3 GraphProofs4 EndToEnd.
Local Open Scope R_scope.

(** ** Specification *)
(** the sample of one frame of a file: itself, or a quarter of the sum of the channels *)
Definition mono_sample (channels : nat) (frame : list R) : R := if Nat.eqb channels 1 then nth 0 frame 0 else fold_right Rplus 0 frame / 4.
(** a decoder that is given more bytes keeps what it has decoded *)
Definition monotone {B F} (decode : list B -> list F) : Prop := forall a b, exists t, decode (a ++ b)%list = (decode a ++ t)%list.

Lemma mono_chunk_map c d : mono_chunk c d = map (mono_sample c) d.
Proof.
  unfold mono_chunk, to_mono. destruct (Nat.eqb c 1) eqn:E.
  - cbn [channels Nat.eqb]. apply map_ext. intros f. unfold mono_sample. rewrite E. destruct f; reflexivity.
  - cbn [channels]. rewrite E. apply map_ext. intros f. unfold mono_sample. rewrite E. unfold Audio.rsum. field.
Qed.

Section Ext.
  Context {A F G : Type} (decode : list A -> list F) (m1 m2 : list F -> list G) (H : forall d, m1 d = m2 d).
  Lemma process_ext cs st b : as_process decode m1 cs st b = as_process decode m2 cs st b.
  Proof. unfold as_process. destruct (get_samples _ _ _). now rewrite H. Qed.
  Lemma feed_ext cs bs : forall st, as_feed decode m1 cs st bs = as_feed decode m2 cs st bs.
  Proof. induction bs as [|b bs IH]; intros st; [reflexivity|]. cbn [as_feed]. rewrite process_ext. destruct (as_process decode m2 cs st b). now rewrite IH. Qed.
  Lemma last_ext fuel : forall st n, as_last_chunk decode m1 fuel st n = as_last_chunk decode m2 fuel st n.
  Proof. induction fuel as [|f IH]; intros st n; [reflexivity|]. cbn [as_last_chunk]. destruct (get_samples decode st n) as [st' [|x d]]; [reflexivity|]. now rewrite H, IH. Qed.
  Lemma run_ext fuel cs bs : as_run decode m1 fuel cs bs = as_run decode m2 fuel cs bs.
  Proof. unfold as_run. rewrite feed_ext. destruct (as_feed decode m2 cs as_init bs) as [st os]. destruct (as_chunk st); [|reflexivity]. now rewrite last_ext. Qed.
End Ext.

Section Bytes.
  Context {B Q : Type} (decode : list B -> list (list R)) (src_new : Q) (src : Q -> list (list R) -> nat -> bool -> Q * list (list R)).
  Variables (depth rate : Z) (channels : nat).
  Notation resampled := (resampled_graph decode src_new src depth rate channels).

  (** the samples, however the bytes are cut, if the file has the rate of the graph *)
  Theorem resampled_ok b bs : (0 < depth)%Z -> (0 < rate)%Z -> (0 < channels)%nat -> monotone decode ->
    exists fuel0, forall fuel, (fuel0 <= fuel)%nat -> exists chunks,
      resampled fuel rate (b :: bs) = Ok chunks /\ List.concat chunks = map (mono_sample channels) (decode (List.concat (b :: bs))) /\ (length (b :: bs) <= length chunks)%nat.
  Proof.
    intros Hd Hr Hc Hm. destruct (audio_stream_total decode (mono_sample channels) Hm (chunk_size_samples depth (Z.of_nat channels) rate) b bs) as (fuel0 & H).
    { intros n. pose proof (chunk_size_samples_pos depth (Z.of_nat channels) rate n Hd ltac:(lia) Hr). lia. }
    exists fuel0. intros fuel Hf. destruct (H fuel Hf) as (outs & E & C & L). exists outs. unfold resampled_graph.
    rewrite (run_ext decode (mono_chunk channels) (map (mono_sample channels)) (mono_chunk_map channels)), E. cbn [bind].
    rewrite (resampler_same 0 src_new src rate 1 _ Hr). cbn [bind]. rewrite map_map. assert (Ei : map (fun x => map (hd 0) (map (fun v : R => [v]) x)) outs = outs).
    { rewrite <- (map_id outs) at 2. apply map_ext. intros x. rewrite map_map. cbn [hd]. apply map_id. }
    rewrite Ei. split; [reflexivity|]. split; [exact C|exact L].
  Qed.
  Lemma resampled_some b bs : (0 < depth)%Z -> (0 < rate)%Z -> (0 < channels)%nat -> monotone decode ->
    exists fuel0, forall fuel, (fuel0 <= fuel)%nat -> exists chunks,
      resampled fuel rate (b :: bs) = Ok chunks /\ List.concat chunks = map (mono_sample channels) (decode (List.concat (b :: bs))) /\ chunks <> [].
  Proof. intros H1 H2 H3 H4. destruct (resampled_ok b bs H1 H2 H3 H4) as (f0 & H). exists f0. intros f Hf. destruct (H f Hf) as (c & E & C & L). exists c. split; [exact E|]. split; [exact C|]. intros ->. cbn in L. lia. Qed.
  (** no bytes at all *)
  Theorem no_bytes fuel new : resampled fuel new [] = Raise AttributeError.
  Proof. reflexivity. Qed.

  (** windows with any window function *)
  Theorem windowed_bytes_ok b bs wsr wfunc wf w h : (0 < depth)%Z -> (0 < channels)%nat -> monotone decode ->
    (0 < rate <= 10 ^ 12)%Z -> (2 <= w)%nat -> (1 <= h <= w)%nat ->
    span_samples (sample_dim rate) (sr_dur wsr) = Ok (Z.of_nat w) -> span_samples (sample_dim rate) (sr_freq wsr) = Ok (Z.of_nat h) ->
    wfunc w = map wf (seq 0 w) ->
    let x := map (mono_sample channels) (decode (List.concat (b :: bs))) in
    exists fuel0, forall fuel, (fuel0 <= fuel)%nat -> exists arrs k,
      windowed_bytes decode src_new src depth rate channels fuel rate wsr (Some wfunc) (b :: bs) = Ok arrs /\
      stored arrs = map (frame wf w h x) (seq 0 k) /\ frame_count (length x) w h k.
  Proof.
    intros Hd Hc Hm Hr Hw Hh Sw Sh Ef x. destruct (resampled_some b bs Hd ltac:(lia) Hc Hm) as (f0 & H). exists f0. intros f Hf. destruct (H f Hf) as (chunks & E & C & N).
    assert (Hp : (0 < 10 ^ 12 / rate)%Z) by (apply Z.div_str_pos; lia).
    destruct (windowed_rows (sample_dim rate) wsr wfunc wf w h chunks Hw Hh Hp eq_refl Sw Sh Ef N) as (arrs & k & m & Ewn & _ & _ & St & Kc & _).
    exists arrs, k. unfold windowed_bytes. rewrite E. cbn [bind]. rewrite C in *. auto.
  Qed.
  (** spectra *)
  Theorem stft_bytes_ok b bs wsr p w h : (0 < depth)%Z -> (0 < channels)%nat -> monotone decode ->
    In rate standard_rates -> (2 <= w)%nat -> (1 <= h <= w)%nat ->
    span_samples (sample_dim rate) (sr_dur wsr) = Ok (Z.of_nat w) -> span_samples (sample_dim rate) (sr_freq wsr) = Ok (Z.of_nat h) ->
    let x := map (mono_sample channels) (decode (List.concat (b :: bs))) in
    exists fuel0, forall fuel, (fuel0 <= fuel)%nat -> exists W F k,
      stft_bytes decode src_new src depth rate channels fuel rate wsr p (b :: bs) = Ok (W, F) /\
      stored W = map (frame (vorbis w) w h x) (seq 0 k) /\
      stored F = map (fun i => map (dft_coeff (w + p) w (fun t => nth t (frame (vorbis w) w h x i) 0)) (seq 0 ((w + p) / 2 + 1))) (seq 0 k) /\
      frame_count (length x) w h k.
  Proof.
    intros Hd Hc Hm Hr Hw Hh Sw Sh x. assert (Hp : (0 < rate)%Z) by (repeat (destruct Hr as [<-|Hr]; [reflexivity|]); destruct Hr).
    destruct (resampled_some b bs Hd Hp Hc Hm) as (f0 & H). exists f0. intros f Hf. destruct (H f Hf) as (chunks & E & C & N).
    destruct (stft_graph_ok rate wsr p w h chunks Hr Hw Hh Sw Sh N) as (W & F & k & m & Eg & K & Sw' & Sf & _). exists W, F, k. unfold stft_bytes. rewrite E. cbn [bind]. rewrite C in *. auto.
  Qed.
  (** all features of audio_graph, for two ways to cut the same bytes *)
  Theorem audio_bytes_cut b bs b' bs' w h : (0 < depth)%Z -> (0 < channels)%nat -> monotone decode ->
    In (rate, (Z.of_nat w, Z.of_nat h)) graph_sizes -> List.concat (b :: bs) = List.concat (b' :: bs') ->
    exists fuel0, forall fuel fuel', (fuel0 <= fuel)%nat -> (fuel0 <= fuel')%nat -> exists F F',
      audio_bytes decode src_new src depth rate channels fuel rate (b :: bs) = Ok F /\
      audio_bytes decode src_new src depth rate channels fuel' rate (b' :: bs') = Ok F' /\
      let x := decode (List.concat (b :: bs)) in
      let n := Nat.min (length (stored (g_windowed F))) (length (stored (g_windowed F'))) in
      (n <= length (stored (g_windowed F)) <= n + 1)%nat /\ (n <= length (stored (g_windowed F')) <= n + 1)%nat /\
      ((length x <= w \/ (length x - w) mod h <> 0)%nat -> length (stored (g_windowed F)) = length (stored (g_windowed F'))) /\
      agree n (stored (g_windowed F)) (stored (g_windowed F')) /\ agree n (stored (g_dct F)) (stored (g_dct F')) /\ agree n (stored (g_fft F)) (stored (g_fft F')) /\
      agree n (stored (g_bark F)) (stored (g_bark F')) /\ agree n (List.concat (g_centroid F)) (List.concat (g_centroid F')) /\
      agree n (stored (g_chroma F)) (stored (g_chroma F')) /\ agree n (stored (g_bfcc F)) (stored (g_bfcc F')).
  Proof.
    intros Hd Hc Hm Hg Ec. assert (Hp : (0 < rate)%Z) by (repeat (destruct Hg as [Hg|Hg]; [injection Hg; intros; subst; reflexivity|]); destruct Hg).
    destruct (resampled_some b bs Hd Hp Hc Hm) as (f1 & H1). destruct (resampled_some b' bs' Hd Hp Hc Hm) as (f2 & H2). exists (Nat.max f1 f2). intros fuel fuel' L1 L2.
    destruct (H1 fuel ltac:(lia)) as (c1 & E1 & C1 & N1). destruct (H2 fuel' ltac:(lia)) as (c2 & E2 & C2 & N2).
    destruct (audio_graph_chunks rate w h c1 c2 Hg N1 N2) as (F & F' & k & k' & G1 & G2 & (W & _) & W' & K & A & S); [rewrite C1, C2, Ec; reflexivity|].
    exists F, F'. unfold audio_bytes. rewrite E1, E2. cbn [bind]. split; [exact G1|]. split; [exact G2|]. cbv zeta in *. rewrite W, W'. split; [lia|]. split; [lia|].
    split; [|exact A]. rewrite C1, map_length in S. exact S.
  Qed.
End Bytes.

(** a file whose every byte is a sample, read in pieces that are no longer than a chunk: the pieces *)
Section Pieces.
  Context (n : Z) (cs : Z -> Z).
  Notation dec := (fun b : list R => map (fun v => [v]) b).
  Lemma pieces_feed bs : Forall (fun b => (length b <= Z.to_nat n)%nat) bs -> forall st, as_read st = length (as_bytes st) -> as_chunk st = Some n ->
    exists st', as_feed dec (mono_chunk 1) cs st bs = (st', bs) /\ as_read st' = length (as_bytes st') /\ as_chunk st' = Some n.
  Proof.
    induction 1 as [|b bs Hb F IH]; intros st Hr Hn; [exists st; auto|]. cbn [as_feed]. unfold as_process. rewrite Hn. unfold get_samples. cbn [as_bytes as_read as_chunk].
    assert (Ed : firstn (Z.to_nat n) (skipn (as_read st) (dec (as_bytes st ++ b)%list)) = dec b).
    { cbv beta. rewrite map_app, skipn_app, map_length, Hr, Nat.sub_diag. rewrite (skipn_all2 (dec (as_bytes st))) by (rewrite map_length; lia). cbn [skipn List.app]. apply firstn_all2. rewrite map_length. exact Hb. }
    rewrite Ed. edestruct IH as (st' & E & R' & N'); [| |rewrite E].
    - cbn [as_read as_bytes]. rewrite map_length, app_length. lia.
    - reflexivity.
    - exists st'. split; [|auto]. f_equal. f_equal. rewrite mono_chunk_map, map_map. unfold mono_sample. cbn. apply map_id.
  Qed.
  Lemma pieces_run fuel b bs : cs (Zlen b) = n -> Forall (fun b => (length b <= Z.to_nat n)%nat) (b :: bs) -> as_run dec (mono_chunk 1) fuel cs (b :: bs) = Ok (b :: bs).
  Proof.
    intros En F. unfold as_run. assert (Ef : as_feed dec (mono_chunk 1) cs as_init (b :: bs) = as_feed dec (mono_chunk 1) cs {| as_bytes := []; as_read := 0; as_chunk := Some n |} (b :: bs)) by (cbn [as_feed]; unfold as_process; cbn [as_chunk as_init]; rewrite En; reflexivity).
    rewrite Ef. destruct (pieces_feed (b :: bs) F {| as_bytes := []; as_read := 0; as_chunk := Some n |} eq_refl eq_refl) as (st & E & R' & N'). rewrite E, N'. f_equal. rewrite <- (app_nil_r (b :: bs)) at 2. f_equal.
    destruct fuel; [reflexivity|]. cbn [as_last_chunk]. unfold get_samples. rewrite R'. rewrite skipn_all2 by (rewrite map_length; lia). rewrite firstn_nil. reflexivity.
  Qed.
End Pieces.

(** Refuted for a file of another rate: at half the rate, a file of which one sample arrives at a
    time has no samples at all, and the same file at once has half as many *)
Theorem cut_refuted {Q} (src_new : Q) src (p : Z) (x : list R) fuel : (2 < p)%Z -> (2 < length x)%nat -> Nat.Even (length x) -> (Zlen x <= 2 * p)%Z ->
  let decode (b : list R) := map (fun v => [v]) b in
  (exists outs, resampled_graph decode src_new src 2 (2 * p) 1 fuel p (map (fun v => [v]) x) = Ok outs /\ List.concat outs = []) /\
  (exists outs, resampled_graph decode src_new src 2 (2 * p) 1 fuel p [x] = Ok outs /\ (2 * length (List.concat outs) = length x)%nat).
Proof.
  intros Hp Hl He Hx decode. destruct (resampler_cut_refuted 0 src_new src p 1 (map (fun v => [v]) x) Hp) as [(o1 & E1 & C1) (o2 & E2 & C2)]; [rewrite map_length; exact Hl|rewrite map_length; exact He|].
  assert (Pos : forall k, (2 * p <= chunk_size_samples 2 (Z.of_nat 1) (2 * p) k)%Z) by (intros k; apply chunk_size_samples_pos; lia).
  split.
  - destruct x as [|v x]; [cbn in Hl; lia|]. unfold resampled_graph. cbn [map]. unfold decode. rewrite (pieces_run (chunk_size_samples 2 (Z.of_nat 1) (2 * p) 1)); [|reflexivity|].
    + cbn [bind]. rewrite map_map in E1. cbn [map] in E1 |- *. rewrite map_map. change (map (fun v0 : R => [v0]) [v]) with [[v]]. cbn [map]. rewrite E1. cbn [bind]. eexists. split; [reflexivity|]. rewrite <- concat_map, C1. reflexivity.
    + change ([v] :: map (fun v0 : R => [v0]) x) with (map (fun v0 : R => [v0]) (v :: x)). apply Forall_forall. intros b Hb. apply in_map_iff in Hb. destruct Hb as (y & <- & _). cbn [length]. pose proof (Pos 1%Z). lia.
  - unfold resampled_graph, decode. rewrite (pieces_run (chunk_size_samples 2 (Z.of_nat 1) (2 * p) (Zlen x))); [|reflexivity|].
    + cbn [bind map]. rewrite E2. cbn [bind map List.concat]. eexists. split; [reflexivity|]. cbn [List.concat]. rewrite app_nil_r, map_length, C2. apply map_length.
    + constructor; [|constructor]. pose proof (Pos (Zlen x)). unfold Zlen in *. lia.
Qed.
