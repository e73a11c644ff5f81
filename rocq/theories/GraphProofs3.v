(** Proofs about Graph.v: the audio graph, whatever the chunks. *)
From Coq Require Import ZArith QArith Qround Reals Lia Lra.
From Verif Require Import PyBase PyFacts PyMore Time TimeProofs Float64 Freq FreqProofs FreqScaleProofs FreqDim Axis Windowed NdWindow SlidingNode Spectral Stft ScaleBasis ScaleBasisProofs ChromaProofs Weighting Synths Graph TransformProofs ReconProofs StftProofs GraphProofs GraphProofs2.
Local Open Scope R_scope.

(** ** Specification *)
(** the Vorbis power complementary window, scaled to a maximum of one *)
Definition vorbis_shape (w j : nat) : R := sin (PI / 2 * (sin ((INR j + / 2) / INR w * PI)) ^ 2).
Definition vorbis (w j : nat) : R := vorbis_shape w j / rmax (map (vorbis_shape w) (seq 0 w)).
(** the window and the hop, in samples, of a half lapped window at every rate *)
Definition graph_sizes : list (Z * (Z * Z)) :=
  [(96000, (4459, 2230)); (48000, (2230, 1115)); (44100, (2048, 1024)); (22050, (1024, 512)); (16000, (744, 372)); (11025, (512, 256))]%Z.
(** all features have the time dimension [m] first *)
Definition timed {A} (m : timedim) (rest : dim) (width : nat) (a : arr A) : Prop :=
  a_dims a = [DTime (sized m (length (a_rows a))); rest] /\ a_width a = width.

Lemma vorbis_ogg w : oggvorbis w = map (vorbis w) (seq 0 w).
Proof.
  assert (E : forall j, vorbis_raw w j = vorbis_shape w j) by (intros j; unfold vorbis_raw, vorbis_shape; f_equal; field).
  unfold oggvorbis. rewrite (map_ext _ _ E), map_map. apply map_ext. intros j. unfold vorbis, Rdiv. now rewrite Rmult_1_l.
Qed.
Lemma sizes_ok r w h : In (r, (Z.of_nat w, Z.of_nat h)) graph_sizes ->
  In r standard_rates /\ (512 <= w)%nat /\ (1 <= h <= w)%nat /\ span_samples (sample_dim r) (sr_dur half_lapped_scheme) = Ok (Z.of_nat w) /\ span_samples (sample_dim r) (sr_freq half_lapped_scheme) = Ok (Z.of_nat h)
  /\ (0 < 10 ^ 12 / r)%Z /\ audio_sample_rate (dct_rate (Z.of_nat w) (10 ^ 12 / r * Z.of_nat w)) = Ok r.
Proof.
  intros H. repeat (destruct H as [E|H]; [injection E as <- Ew Eh; split; [cbn; tauto|]; split; [lia|]; split; [lia|]; rewrite <- Ew, <- Eh; repeat split; vm_compute; reflexivity|]). destruct H.
Qed.
Lemma dct_scale_ok r w : In r standard_rates -> audio_sample_rate (dct_rate (Z.of_nat w) (10 ^ 12 / r * Z.of_nat w)) = Ok r -> dct_scale w (10 ^ 12 / r * Z.of_nat w) false = Ok (lin r w).
Proof.
  intros Hr E. unfold dct_scale. rewrite E. cbn [bind]. destruct (rate_std r Hr) as [_ (sr & E2 & E3 & P)]. rewrite E2. cbn [bind]. rewrite E3.
  unfold make_band, Rleb. destruct (Rle_dec (IZR (r / 2)) 0) as [C|_]; [|reflexivity]. apply le_IZR in C. lia.
Qed.
Lemma concat_centroid (l : list (arr R)) n : Forall (fun a => a_width a = n /\ Forall (fun r => length r = n) (a_rows a)) l ->
  exists cs, centroid_node l = Ok cs /\ List.concat cs = map centroid (stored l).
Proof.
  intros H. destruct l as [|a0 l0]; [exists []; split; reflexivity|]. unfold centroid_node. assert (E0 : a_width a0 = n) by (inversion H; tauto). rewrite E0. clear E0. revert H. generalize (a0 :: l0) as l. clear a0 l0.
  induction l as [|a l IH]; intros H; [exists []; split; reflexivity|]. apply Forall_cons_iff in H. destruct H as [[Ew Hr] H]. destruct (IH H) as (cs & Ec & St). cbn [mapM]. rewrite Ew, Nat.eqb_refl. cbn [bind]. rewrite Ec. cbn [bind].
  eexists. split; [reflexivity|]. unfold stored in *. cbn [map List.concat]. rewrite St, map_app. f_equal. apply map_ext_in. intros v Hv. rewrite Forall_forall in Hr. rewrite <- (Hr v Hv). unfold centroid_row, centroid, at_. f_equal; apply rsum_ext; intros i _; now rewrite Nat.add_1_r.
Qed.
Lemma band_sums_length qs bs mags : length (band_sums qs bs mags) = length qs. Proof. unfold band_sums. now rewrite map_length. Qed.

Theorem audio_graph_ok r w h : In (r, (Z.of_nat w, Z.of_nat h)) graph_sizes ->
  exists qs bs ws lo hi,
    scale_bands (BarkS (mkBand 20 (IZR (r / 2))) 100) = Ok qs /\ scale_bands (Linear (mkBand 0 (IZR (r / 2))) (w / 2 + 1) false) = Ok bs /\
    a_weights bs ws /\ nearest_semitone 20 lo /\ nearest_semitone (IZR (r / 2)) hi /\
    forall chunks, chunks <> [] -> exists F k m,
      audio_graph r chunks = Ok F /\ frame_count (length (List.concat chunks)) w h k /\
      let x := frame (vorbis w) w h (List.concat chunks) in
      stored (g_windowed F) = map x (seq 0 k) /\
      stored (g_dct F) = map (fun i => cosines w (x i)) (seq 0 k) /\
      stored (g_fft F) = map (fun i => spectrum w (x i)) (seq 0 k) /\
      stored (g_bark F) = map (fun i => band_sums qs bs (magnitudes w (x i))) (seq 0 k) /\
      List.concat (g_centroid F) = map (fun i => centroid (band_sums qs bs (magnitudes w (x i)))) (seq 0 k) /\
      stored (g_chroma F) = map (fun i => chromas bs lo hi ws (magnitudes w (x i))) (seq 0 k) /\
      stored (g_bfcc F) = map (fun i => cepstrum (magnitudes w (x i))) (seq 0 k) /\
      t_freq m = (10 ^ 12 / r * Z.of_nat h)%Z /\ t_dur m = (10 ^ 12 / r * Z.of_nat w)%Z /\
      Forall (timed m (DTime (sized (sample_dim r) w)) w) (g_windowed F) /\
      Forall (timed m (DFreq (Linear (mkBand 0 (IZR (r / 2))) w false)) w) (g_dct F) /\
      Forall (timed m (DFreq (Linear (mkBand 0 (IZR (r / 2))) (w / 2 + 1) false)) (w / 2 + 1)) (g_fft F) /\
      Forall (timed m (DFreq (BarkS (mkBand 20 (IZR (r / 2))) 100)) 100) (g_bark F) /\
      Forall (timed m DIdent 12) (g_chroma F) /\
      Forall (timed m DIdent 13) (g_bfcc F).
Proof.
  intros Hin. destruct (sizes_ok r w h Hin) as (Hr & Hw & Hh & Sw & Sh & Hp & Hd). pose proof (nyq_20 r Hr) as Hn20.
  set (n := (w / 2 + 1)%nat). assert (Hn : (14 <= n)%nat) by (unfold n; pose proof (Nat.div_le_mono 512 w 2 ltac:(lia) Hw) as Q; change (512 / 2)%nat with 256%nat in Q; lia).
  pose proof (lin_wf r n Hr ltac:(lia)) as Wl. pose proof (bark_wf r 100 Hr) as Wb.
  destruct (bark_apply (bark_band r) 100 (lin r n) [] Wb Wl eq_refl) as (qs & bs & Eq & Lq & Eb & Lb & _).
  assert (Hbs : bs <> []) by (intros ->; cbn [length lin scale_len] in Lb; lia).
  destruct (a_weights_ok (lin r n) bs Eb Hbs) as (ws & Ews & Aws & Lws).
  destruct (chroma_apply (bark_band r) (lin r n) bs ltac:(cbn; lra) ltac:(unfold proper, bark_band; cbn [bstart bstop]; lra) Wl eq_refl Eb Lb) as (lo & hi & Nlo & Nhi & Chr).
  exists qs, bs, ws, lo, hi. split; [exact Eq|]. split; [exact Eb|]. split; [exact Aws|]. split; [exact Nlo|]. split; [exact Nhi|].
  intros chunks Hne. destruct (windowed_rows (sample_dim r) half_lapped_scheme oggvorbis (vorbis w) w h chunks ltac:(lia) Hh Hp eq_refl Sw Sh (vorbis_ogg w) Hne) as (arrs & k & m & Ewn & _ & Wch & St & Kc & _ & Mf & Md).
  cbn [t_freq sample_dim] in Mf, Md. assert (Hm : (t_dur m <> 0)%Z) by nia.
  unfold audio_graph. destruct (rate_std r Hr) as [_ (sr & Esr & Eny & Pny)]. rewrite Esr. cbn [bind]. rewrite Eny.
  assert (Emb : make_band 20 (IZR (r / 2)) = Ok (bark_band r)) by (unfold make_band, Rleb; destruct (Rle_dec (IZR (r / 2)) 20); [lra|reflexivity]). rewrite Emb. cbn [bind]. rewrite Ewn. cbn [bind].
  assert (Wch' : forall a, In a arrs -> windowed_chunk m (sample_dim r) w a) by now apply Forall_forall.
  (* dct *)
  destruct (mapM_chunks (dct_node false) (fun a b => a_rows b = map (cosines w) (a_rows a) /\ timed m (DFreq (lin r w)) w b) arrs) as (dcts & Edct & Fdct).
  { intros a Ha. destruct (dct_chunk m (sample_dim r) r w a Hm (Wch' a Ha)) as (b & E1 & E2 & E3 & E4); [rewrite Md; now apply dct_scale_ok|]. exists b. split; [exact E1|]. split; [exact E4|]. split; assumption. }
  rewrite Edct. cbn [bind].
  (* fft *)
  destruct (mapM_chunks (fft_node 0) (fun a b => a_rows b = map (spectrum w) (a_rows a) /\ spectral_chunk m r n b) arrs) as (ffts & Efft & Ffft).
  { intros a Ha. destruct (fft_chunk m (sample_dim r) r w a Hr eq_refl Hm ltac:(lia) (Wch' a Ha)) as (b & E1 & E2 & E3). exists b. auto. }
  rewrite Efft. cbn [bind]. assert (Sch : forall b, In b ffts -> spectral_chunk m r n b) by (intros b Hb; destruct (forall2_in _ _ _ Ffft b Hb) as (a & _ & _ & S); exact S).
  (* bark *)
  destruct (mapM_chunks (bark_node (bark_band r) 100) (fun a b => a_rows b = map (fun row => band_sums qs bs (map magnitude row)) (a_rows a) /\ timed m (DFreq (BarkS (bark_band r) 100)) 100 b) ffts) as (barks & Ebark & Fbark).
  { intros a Ha. destruct (Sch a Ha) as (Ed & Ew & Hrows). destruct (bark_apply (bark_band r) 100 (lin r n) (a_rows a) Wb Wl eq_refl) as (qs' & bs' & Eq' & _ & Eb' & _ & Ap). rewrite Eq in Eq'. injection Eq' as <-. rewrite Eb in Eb'. injection Eb' as <-.
    unfold bark_node. rewrite Ed. rewrite Ap by exact Hrows. cbn [bind]. rewrite fit_freq by (exact Hm || reflexivity). cbn [bind]. rewrite sized_sized. eexists. split; [reflexivity|]. split; [reflexivity|]. split; [|reflexivity]. cbn [a_dims a_rows]. now rewrite map_length. }
  rewrite Ebark. cbn [bind].
  assert (Cb : Forall (fun a => a_width a = 100%nat /\ Forall (fun row => length row = 100%nat) (a_rows a)) barks).
  { apply Forall_forall. intros b Hb. destruct (forall2_in _ _ _ Fbark b Hb) as (a & _ & Er & _ & Ew). split; [exact Ew|]. rewrite Er. apply Forall_map, Forall_forall. intros v _. rewrite band_sums_length. exact Lq. }
  destruct (concat_centroid barks 100 Cb) as (cents & Ecent & Scent). rewrite Ecent. cbn [bind].
  (* chroma *)
  destruct (mapM_chunks (chroma_node (bark_band r)) (fun a b => a_rows b = map (fun row => chromas bs lo hi ws (map magnitude row)) (a_rows a) /\ timed m DIdent 12 b) ffts) as (chrs & Echr & Fchr).
  { intros a Ha. destruct (Sch a Ha) as (Ed & Ew & Hrows). unfold chroma_node. rewrite Ed, Ews. cbn [bind].
    rewrite Chr by (exact Hrows || (rewrite Lws; exact Lb)). cbn [bind]. rewrite fit_ident by exact Hm. cbn [bind]. rewrite sized_sized. eexists. split; [reflexivity|]. split; [reflexivity|]. split; [|reflexivity]. cbn [a_dims a_rows]. now rewrite map_length. }
  rewrite Echr. cbn [bind].
  (* bfcc *)
  destruct (mapM_chunks (bfcc_node 13 1) (fun a b => a_rows b = map (fun row => cepstrum (map magnitude row)) (a_rows a) /\ timed m DIdent 13 b) ffts) as (bfs & Ebf & Fbf).
  { intros a Ha. destruct (bfcc_chunk m r n a Hm Hn (Sch a Ha)) as (b & E1 & E2 & E3 & E4). exists b. split; [exact E1|]. split; [exact E4|]. split; assumption. }
  rewrite Ebf. cbn [bind].
  assert (Sf : stored ffts = map (spectrum w) (stored arrs)) by (apply stored_map; eapply forall2_weaken; [|exact Ffft]; intros a b [? _]; assumption).
  assert (Sb : stored barks = map (fun row => band_sums qs bs (map magnitude row)) (stored ffts)) by (apply stored_map; eapply forall2_weaken; [|exact Fbark]; intros a b [? _]; assumption).
  assert (Tm : forall (A B : Type) (P : arr A -> arr B -> Prop) rest wd l l', Forall2 (fun a b => P a b /\ timed m rest wd b) l l' -> Forall (timed m rest wd) l').
  { intros A B P rest wd l l' H. apply Forall_forall. intros b Hb. destruct (forall2_in _ _ _ H b Hb) as (a & _ & _ & T). exact T. }
  exists (mkFeatures arrs dcts ffts barks cents chrs bfs), k, m. split; [reflexivity|]. split; [exact Kc|]. cbv zeta. cbn [g_windowed g_dct g_fft g_bark g_centroid g_chroma g_bfcc].
  split; [exact St|].
  split; [rewrite (stored_map (cosines w) arrs dcts) by (eapply forall2_weaken; [|exact Fdct]; intros a b [? _]; assumption); rewrite St; apply map_map|].
  split; [rewrite Sf, St; apply map_map|].
  split; [rewrite Sb, Sf, St, !map_map; reflexivity|].
  split; [rewrite Scent, Sb, Sf, St, !map_map; reflexivity|].
  split; [rewrite (stored_map (fun row => chromas bs lo hi ws (map magnitude row)) ffts chrs) by (eapply forall2_weaken; [|exact Fchr]; intros a b [? _]; assumption); rewrite Sf, St, !map_map; reflexivity|].
  split; [rewrite (stored_map (fun row => cepstrum (map magnitude row)) ffts bfs) by (eapply forall2_weaken; [|exact Fbf]; intros a b [? _]; assumption); rewrite Sf, St, !map_map; reflexivity|].
  split; [exact Mf|]. split; [exact Md|].
  split; [apply Forall_forall; intros a Ha; destruct (Wch' a Ha) as (? & ? & _); split; assumption|].
  split; [eapply Tm; exact Fdct|].
  split; [apply Forall_forall; intros a Ha; destruct (Sch a Ha) as (? & ? & _); split; assumption|].
  split; [eapply Tm; exact Fbark|]. split; [eapply Tm; exact Fchr|eapply Tm; exact Fbf].
Qed.
