(** Proofs about Graph.v: two ways to cut the same samples, the number of rows, sample rates
    computed in doubles, and the nodes of basic.py. *)
From Coq Require Import ZArith QArith Qround Qreals Reals Lia Lra.
From Verif Require Import PyBase PyFacts PyMore Time TimeProofs Float64 Float64Proofs Freq FreqProofs FreqScaleProofs FreqDim Axis Windowed WindowedProofs NdWindow SlidingNode SlidingNodeProofs Spectral Stft ScaleBasis ScaleBasisProofs ChromaProofs Weighting Synths SynthsProofs Graph TransformProofs ReconProofs StftProofs GraphProofs GraphProofs2 GraphProofs3.
Local Open Scope R_scope.

(** ** The same samples, cut differently *)
Lemma frame_counts_near len w h k1 k2 : frame_count len w h k1 -> frame_count len w h k2 -> (k1 <= k2 + 1 /\ k2 <= k1 + 1)%nat.
Proof. unfold frame_count. destruct (Nat.leb len w); intros; lia. Qed.
Lemma frame_counts_same len w h k1 k2 : (len <= w \/ (len - w) mod h <> 0)%nat -> frame_count len w h k1 -> frame_count len w h k2 -> k1 = k2.
Proof. unfold frame_count. intros [H|H]; destruct (Nat.leb_spec len w); intros; lia. Qed.
Lemma firstn_map_seq {A} (f : nat -> A) n k : (n <= k)%nat -> firstn n (map f (seq 0 k)) = map f (seq 0 n).
Proof. intros H. rewrite firstn_map. f_equal. replace k with (n + (k - n))%nat by lia. rewrite seq_app, firstn_app, seq_length, Nat.sub_diag. cbn [firstn]. rewrite app_nil_r. rewrite <- (seq_length n 0) at 1. apply firstn_all. Qed.

Definition agree {A} (n : nat) (l l' : list A) : Prop := firstn n l = firstn n l'.
Theorem audio_graph_chunks r w h chunks chunks' : In (r, (Z.of_nat w, Z.of_nat h)) graph_sizes -> chunks <> [] -> chunks' <> [] -> List.concat chunks = List.concat chunks' ->
  exists F F' k k', audio_graph r chunks = Ok F /\ audio_graph r chunks' = Ok F' /\
    (length (stored (g_windowed F)) = k /\ length (stored (g_dct F)) = k /\ length (stored (g_fft F)) = k /\ length (stored (g_bark F)) = k /\ length (List.concat (g_centroid F)) = k /\ length (stored (g_chroma F)) = k /\ length (stored (g_bfcc F)) = k) /\
    length (stored (g_windowed F')) = k' /\ (k <= k' + 1 /\ k' <= k + 1)%nat /\
    (let n := Nat.min k k' in agree n (stored (g_windowed F)) (stored (g_windowed F')) /\ agree n (stored (g_dct F)) (stored (g_dct F')) /\ agree n (stored (g_fft F)) (stored (g_fft F')) /\ agree n (stored (g_bark F)) (stored (g_bark F')) /\ agree n (List.concat (g_centroid F)) (List.concat (g_centroid F')) /\ agree n (stored (g_chroma F)) (stored (g_chroma F')) /\ agree n (stored (g_bfcc F)) (stored (g_bfcc F'))) /\
    ((length (List.concat chunks) <= w \/ (length (List.concat chunks) - w) mod h <> 0)%nat -> k = k').
Proof.
  intros Hin N1 N2 E. destruct (audio_graph_ok r w h Hin) as (qs & bs & ws & lo & hi & _ & _ & _ & _ & _ & H).
  destruct (H chunks N1) as (F & k & m & E1 & K1 & A1 & A2 & A3 & A4 & A5 & A6 & A7 & _). destruct (H chunks' N2) as (F' & k' & m' & E2 & K2 & B1 & B2 & B3 & B4 & B5 & B6 & B7 & _). rewrite <- E in *.
  exists F, F', k, k'. split; [exact E1|]. split; [exact E2|]. rewrite A1, A2, A3, A4, A5, A6, A7, B1, B2, B3, B4, B5, B6, B7, !map_length, !seq_length.
  split; [repeat split|]. split; [reflexivity|]. split; [exact (frame_counts_near _ _ _ _ _ K1 K2)|]. split.
  - cbv zeta. unfold agree. rewrite !firstn_map_seq by lia. repeat split.
  - intros C. exact (frame_counts_same _ _ _ _ _ C K1 K2).
Qed.

(** ** One more or one less row: it does depend on the chunks *)
Lemma windowed_count t wsr wfunc chunks arrs w h : span_samples t (sr_dur wsr) = Ok w -> span_samples t (sr_freq wsr) = Ok h -> windowed_node t wsr (Some wfunc) 0 chunks = Ok arrs ->
  exists outs, run 0 {| c_window := w; c_step := h; c_padwith := 0; c_func := Some (fun x => apply_window (Some (wfunc (Z.to_nat w))) x) |} chunks = Ok outs /\ length (stored arrs) = length (SlidingNode.frames outs).
Proof.
  intros Ew Eh. unfold windowed_node. rewrite Ew, Eh. cbn [bind option_map]. destruct (modified_dimension t w (Some h)) as [m|]; [|discriminate]. cbn [bind]. destruct (run 0 _ chunks) as [outs|]; [|discriminate]. cbn [bind].
  intros H. exists outs. split; [reflexivity|]. revert arrs H. induction outs as [|o outs IH]; intros arrs; cbn [mapM]; [intros H; injection H as <-; reflexivity|].
  destruct o as [a|rows]; [discriminate|]. destruct (fit_dims _ _) as [ds|]; [|discriminate]. cbn [bind]. destruct (mapM _ outs) as [bs|] eqn:E; [|discriminate]. cbn [bind]. intros H. injection H as <-.
  unfold stored, SlidingNode.frames in *. cbn [map List.concat a_rows]. rewrite !app_length. f_equal. exact (IH bs eq_refl).
Qed.
Lemma f_rows_length {A} (c : config A) l : length (f_rows c l) = length l.
Proof. unfold f_rows. destruct (c_func c); [apply map_length|reflexivity]. Qed.
Lemma windows_length {A} (a : list A) w s n : length (windows a w s n) = n. Proof. unfold windows. now rewrite map_length, seq_length. Qed.
Lemma two_counts (c : config R) w s e (d1 d2 : list R) : (2 <= w)%nat -> (1 <= s <= w)%nat -> (0 < e < s)%nat -> c_window c = Z.of_nat w -> c_step c = Z.of_nat s -> c_padwith c = 0%nat ->
  length d1 = (w + e)%nat -> length d2 = (s - e)%nat ->
  exists o1 o2, run 0 c [d1; d2] = Ok o1 /\ length (SlidingNode.frames o1) = 2%nat /\ run 0 c [d1 ++ d2] = Ok o2 /\ length (SlidingNode.frames o2) = 3%nat.
Proof.
  intros Hw [Hs Hsw] [He1 He2] Hcw Hcs Hp L1 L2. unfold run. cbn [feed enqueue]. unfold first_chunk. rewrite Hp. cbn [repeat List.app].
  assert (D1 : ((w + e - w) / s = 0)%nat) by (apply Nat.div_small; lia). assert (D2 : ((w + s - w) / s = 1)%nat) by (replace (w + s - w)%nat with (1 * s)%nat by lia; apply Nat.div_mul; lia).
  assert (N1 : n_windows (length d1) w s = 1%nat) by (unfold n_windows; rewrite L1, D1; destruct (Nat.leb_spec (w + e) w); lia).
  assert (N2 : n_windows (length (d1 ++ d2)) w s = 2%nat) by (unfold n_windows; rewrite app_length, L1, L2; replace (w + e + (s - e))%nat with (w + s)%nat by lia; rewrite D2; destruct (Nat.leb_spec (w + s) w); lia).
  rewrite !(attempt_false 0 c w s Hw Hs Hsw Hcw Hcs). rewrite N1, N2. cbn [bind Nat.eqb Nat.mul enqueue]. rewrite !Nat.add_0_r.
  assert (Lc : length (skipn s d1 ++ d2) = w) by (rewrite app_length, skipn_length, L1, L2; lia).
  assert (N3 : n_windows (length (skipn s d1 ++ d2)) w s = 0%nat) by (unfold n_windows; rewrite Lc; destruct (Nat.leb_spec w w); lia).
  rewrite !(attempt_false 0 c w s Hw Hs Hsw Hcw Hcs). rewrite N3. cbn [bind Nat.eqb Nat.mul].
  destruct (attempt_true 0 c w s Hw Hs Hsw Hcw Hcs (skipn 0 (skipn s d1 ++ d2)) ltac:(cbn [skipn]; lia)) as [st1 T1]. rewrite T1. cbn [bind].
  destruct (attempt_true 0 c w s Hw Hs Hsw Hcw Hcs (skipn (s + s) (d1 ++ d2)) ltac:(rewrite skipn_length, app_length, L1, L2; lia)) as [st2 T2]. rewrite T2. cbn [bind].
  eexists _, _. split; [reflexivity|]. unfold SlidingNode.frames. cbn [List.app map List.concat]. rewrite !app_length, !f_rows_length, !windows_length. cbn [length]. split; [lia|]. split; [reflexivity|].
  cbn [List.app map List.concat]. rewrite !app_length, !f_rows_length, !windows_length. reflexivity.
Qed.
Lemma graph_windowed r chunks F : audio_graph r chunks = Ok F -> windowed_node (sample_dim r) half_lapped_scheme (Some oggvorbis) 0 chunks = Ok (g_windowed F).
Proof.
  unfold audio_graph. destruct (audio_rate r); [|discriminate]. cbn [bind]. destruct (make_band _ _); [|discriminate]. cbn [bind]. destruct (windowed_node _ _ _ _ _) as [wd|]; [|discriminate]. cbn [bind].
  repeat match goal with |- context [bind ?e _] => destruct e; [cbn [bind]|discriminate] end. intros H. injection H as <-. reflexivity.
Qed.
(** at every rate there is a signal that gives 2 rows when it arrives in two chunks and 3 when
    it arrives in one *)
Theorem audio_graph_rows_refuted r w h (signal : list R) : In (r, (Z.of_nat w, Z.of_nat h)) graph_sizes -> length signal = (w + h)%nat ->
  exists chunks F F', List.concat chunks = signal /\ audio_graph r chunks = Ok F /\ audio_graph r [signal] = Ok F' /\
    length (stored (g_bark F)) = 2%nat /\ length (stored (g_bark F')) = 3%nat.
Proof.
  intros Hin L. destruct (sizes_ok r w h Hin) as (Hr & Hw & Hh & Sw & Sh & Hp & _). assert (H2 : (2 <= h)%nat). { revert Hin. unfold graph_sizes. cbn [In]. intros Hin. repeat (destruct Hin as [E|Hin]; [injection E; intros; lia|]). destruct Hin. }
  set (d1 := firstn (w + 1) signal). set (d2 := skipn (w + 1) signal). assert (Ed : d1 ++ d2 = signal) by apply firstn_skipn.
  assert (L1 : length d1 = (w + 1)%nat) by (unfold d1; rewrite firstn_length; lia). assert (L2 : length d2 = (h - 1)%nat) by (unfold d2; rewrite skipn_length; lia).
  assert (Ec : List.concat [d1; d2] = signal) by (cbn [List.concat]; now rewrite app_nil_r).
  assert (Es : List.concat [signal] = signal) by (cbn [List.concat]; now rewrite app_nil_r).
  destruct (audio_graph_ok r w h Hin) as (qs & bs & ws & lo & hi & _ & _ & _ & _ & _ & H).
  destruct (H [d1; d2] ltac:(discriminate)) as (F & k & m & E1 & _ & A1 & _ & _ & A4 & _). destruct (H [signal] ltac:(discriminate)) as (F' & k' & m' & E2 & _ & B1 & _ & _ & B4 & _).
  exists [d1; d2], F, F'. split; [exact Ec|]. split; [exact E1|]. split; [exact E2|].
  destruct (windowed_count _ _ _ _ _ _ _ Sw Sh (graph_windowed _ _ _ E1)) as (o1 & R1 & C1). destruct (windowed_count _ _ _ _ _ _ _ Sw Sh (graph_windowed _ _ _ E2)) as (o2 & R2 & C2).
  destruct (two_counts {| c_window := Z.of_nat w; c_step := Z.of_nat h; c_padwith := 0; c_func := Some (fun x => apply_window (Some (oggvorbis (Z.to_nat (Z.of_nat w)))) x) |} w h 1 d1 d2 ltac:(lia) Hh ltac:(lia) eq_refl eq_refl eq_refl L1 L2) as (p1 & p2 & Q1 & P1 & Q2 & P2).
  rewrite Ed in Q2. rewrite R1 in Q1. injection Q1 as <-. rewrite R2 in Q2. injection Q2 as <-. rewrite A4, B4, !map_length, !seq_length. rewrite A1, map_length, seq_length in C1. rewrite B1, map_length, seq_length in C2. lia.
Qed.

(** ** The STFT graph with any window scheme *)
Lemma rfft_padded p w x : length x = w -> rfft_ortho p x = map (dft_coeff (w + p) w (fun t => nth t x 0)) (seq 0 ((w + p) / 2 + 1)).
Proof.
  intros L. apply nth_ext with (d := cz) (d' := cz).
  - unfold rfft_ortho. now rewrite !map_length, !seq_length, app_length, repeat_length, L.
  - intros k Hk. assert (Hk' : (k < (w + p) / 2 + 1)%nat) by (unfold rfft_ortho in Hk; now rewrite map_length, seq_length, app_length, repeat_length, L in Hk).
    rewrite rfft_coeff by (rewrite L; lia). rewrite L. rewrite nth_map_seq by exact Hk'. reflexivity.
Qed.
Theorem stft_graph_ok r wsr p w h chunks : In r standard_rates -> (2 <= w)%nat -> (1 <= h <= w)%nat ->
  span_samples (sample_dim r) (sr_dur wsr) = Ok (Z.of_nat w) -> span_samples (sample_dim r) (sr_freq wsr) = Ok (Z.of_nat h) -> chunks <> [] ->
  exists W F k m, stft_graph r wsr p chunks = Ok (W, F) /\ frame_count (length (List.concat chunks)) w h k /\
    stored W = map (frame (vorbis w) w h (List.concat chunks)) (seq 0 k) /\
    stored F = map (fun i => map (dft_coeff (w + p) w (fun t => nth t (frame (vorbis w) w h (List.concat chunks) i) 0)) (seq 0 ((w + p) / 2 + 1))) (seq 0 k) /\
    t_freq m = (10 ^ 12 / r * Z.of_nat h)%Z /\ t_dur m = (10 ^ 12 / r * Z.of_nat w)%Z /\
    Forall (timed m (DFreq (Linear (mkBand 0 (IZR (r / 2))) ((w + p) / 2 + 1) false)) ((w + p) / 2 + 1)) F.
Proof.
  intros Hr Hw Hh Sw Sh Hne. assert (Hp : (0 < 10 ^ 12 / r)%Z) by (repeat (destruct Hr as [<-|Hr]; [vm_compute; reflexivity|]); destruct Hr).
  destruct (windowed_rows (sample_dim r) wsr oggvorbis (vorbis w) w h chunks Hw Hh Hp eq_refl Sw Sh (vorbis_ogg w) Hne) as (arrs & k & m & Ewn & _ & Wch & St & Kc & _ & Mf & Md).
  cbn [t_freq sample_dim] in Mf, Md. assert (Hm : (t_dur m <> 0)%Z) by nia. unfold stft_graph. rewrite Ewn. cbn [bind]. set (n := ((w + p) / 2 + 1)%nat).
  destruct (mapM_chunks (fft_node p) (fun a b => a_rows b = map (fun x => map (dft_coeff (w + p) w (fun t => nth t x 0)) (seq 0 n)) (a_rows a) /\ timed m (DFreq (lin r n)) n b) arrs) as (ffts & Efft & Ffft).
  { intros a Ha. rewrite Forall_forall in Wch. destruct (Wch a Ha) as (Ed & Ew & Hrows & _). unfold fft_node. rewrite Ed, Ew. unfold fft_rows. destruct (Nat.eqb_spec (w + p) 0); [lia|].
    cbn [fft_dim]. rewrite (scale_std (sized (sample_dim r) w) _ r Hr eq_refl). cbn [bind]. fold n. rewrite fit_freq by (exact Hm || reflexivity). cbn [bind fst snd]. rewrite sized_sized.
    eexists. split; [reflexivity|]. cbn [a_dims a_width a_rows]. split; [|split; [cbn [a_dims a_rows]; now rewrite map_length|reflexivity]]. apply map_ext_in. intros x Hx. apply rfft_padded. rewrite Forall_forall in Hrows. now apply Hrows. }
  rewrite Efft. cbn [bind]. exists arrs, ffts, k, m. split; [reflexivity|]. split; [exact Kc|]. split; [exact St|].
  split; [rewrite (stored_map (fun x => map (dft_coeff (w + p) w (fun t => nth t x 0)) (seq 0 n)) arrs ffts) by (eapply forall2_weaken; [|exact Ffft]; intros a b [? _]; assumption); rewrite St, map_map; reflexivity|].
  split; [exact Mf|]. split; [exact Md|]. apply Forall_forall. intros b Hb. destruct (forall2_in _ _ _ Ffft b Hb) as (a & _ & _ & T). exact T.
Qed.

(** ** The sample rate of the DCT, in doubles *)
Lemma rate_real n d : (0 < n)%Z -> (0 < d)%Z -> let q := IZR n * 10 ^ 12 / IZR d in
  q * (1 - 2 * ulp) <= Q2R (fl (inject_Z n / seconds d)) <= q * (1 + 3 * ulp).
Proof.
  intros Hn Hd q. pose proof (seconds_err d ltac:(lia)) as [S1 S2]. pose proof ulp_small as [U0 U1]. assert (Pd : 0 < IZR d) by now apply (IZR_lt 0). assert (Pn : 0 < IZR n) by now apply (IZR_lt 0).
  set (v := Q2R (seconds d)) in *. set (s := IZR d / 10 ^ 12) in *. assert (Ps : 0 < s) by (unfold s; apply Rdiv_lt_0_compat; [exact Pd|lra]). assert (Pv : 0 < v) by nra.
  assert (Ev : Q2R (inject_Z n / seconds d) = IZR n / v).
  { rewrite Q2R_div, Q2R_Z; [reflexivity|]. intros Z0. apply Qeq_eqR in Z0. rewrite Q2R_0 in Z0. fold v in Z0. lra. }
  assert (Pq : (0 <= inject_Z n / seconds d)%Q). { apply Rle_Qle. rewrite Ev, Q2R_0. left. now apply Rdiv_lt_0_compat. }
  pose proof (fl_err _ Pq) as [F1 F2]. rewrite Ev in F1, F2.
  assert (Eq : q = IZR n / s) by (unfold q, s; field; lra).
  assert (B1 : IZR n / s * (1 - ulp) <= IZR n / v).
  { apply Rmult_le_reg_r with (s * v); [nra|]. replace (IZR n / s * (1 - ulp) * (s * v)) with (IZR n * ((1 - ulp) * v)) by (field; lra). replace (IZR n / v * (s * v)) with (IZR n * s) by (field; lra). apply Rmult_le_compat_l; [lra|]. nra. }
  assert (B2 : IZR n / v <= IZR n / s * (1 + ulp + 2 * (ulp * ulp))).
  { apply Rmult_le_reg_r with (s * v); [nra|]. replace (IZR n / s * (1 + ulp + 2 * (ulp * ulp)) * (s * v)) with (IZR n * ((1 + ulp + 2 * (ulp * ulp)) * v)) by (field; lra). replace (IZR n / v * (s * v)) with (IZR n * s) by (field; lra). apply Rmult_le_compat_l; [lra|].
    apply Rle_trans with ((1 + ulp + 2 * (ulp * ulp)) * (s * (1 - ulp))); [|apply Rmult_le_compat_l; [nra|exact S1]]. assert (1 <= (1 + ulp + 2 * (ulp * ulp)) * (1 - ulp)) by nra. nra. }
  assert (Pns : 0 < IZR n / s) by now apply Rdiv_lt_0_compat. assert (Pnv : 0 < IZR n / v) by now apply Rdiv_lt_0_compat. rewrite Eq. split.
  - eapply Rle_trans; [|exact F1]. apply Rle_trans with (IZR n / s * (1 - ulp) * (1 - ulp)); [nra|]. apply Rmult_le_compat_r; [lra|exact B1].
  - eapply Rle_trans; [exact F2|]. apply Rle_trans with (IZR n / s * (1 + ulp + 2 * (ulp * ulp)) * (1 + ulp)); [apply Rmult_le_compat_r; [lra|exact B2]|].
    rewrite Rmult_assoc. apply Rmult_le_compat_l; [lra|]. nra.
Qed.
Theorem dct_rate_ok r n : In r [96000; 48000; 44100; 22050; 11025]%Z -> (0 < n)%Z -> dct_rate n (n * (10 ^ 12 / r)) = r.
Proof.
  intros Hr Hn. unfold dct_rate. apply floor_unique. assert (Hf : (0 < 10 ^ 12 / r)%Z) by (repeat (destruct Hr as [<-|Hr]; [vm_compute; reflexivity|]); destruct Hr).
  pose proof (rate_real n (n * (10 ^ 12 / r)) Hn ltac:(nia)) as [B1 B2]. set (v := Q2R (fl (inject_Z n / seconds (n * (10 ^ 12 / r))))) in *. clearbody v.
  assert (Pn : 0 < IZR n) by now apply (IZR_lt 0). assert (Pf : 0 < IZR (10 ^ 12 / r)) by now apply (IZR_lt 0).
  replace (IZR n * 10 ^ 12 / IZR (n * (10 ^ 12 / r))) with (10 ^ 12 / IZR (10 ^ 12 / r)) in B1, B2 by (rewrite mult_IZR; field; lra).
  unfold ulp in *. repeat (destruct Hr as [<-|Hr]; [match type of B1 with context [IZR (?a / ?b)] => let z := eval vm_compute in (a / b)%Z in replace (a / b)%Z with z in B1, B2 by reflexivity end; lra|]). destruct Hr.
Qed.
Theorem dct_rate_16000 n : (0 < n)%Z -> dct_rate n (n * (10 ^ 12 / 16000)) = 16000%Z \/ dct_rate n (n * (10 ^ 12 / 16000)) = 15999%Z.
Proof.
  intros Hn. unfold dct_rate. change (10 ^ 12 / 16000)%Z with 62500000%Z. pose proof (rate_real n (n * 62500000) Hn ltac:(lia)) as [B1 B2]. set (q := fl (inject_Z n / seconds (n * 62500000))) in *.
  assert (Pn : 0 < IZR n) by now apply (IZR_lt 0). replace (IZR n * 10 ^ 12 / IZR (n * 62500000)) with 16000 in B1, B2 by (rewrite mult_IZR; field; lra).
  destruct (Rle_lt_dec 16000 (Q2R q)) as [H|H]; [left|right]; apply floor_unique; unfold ulp in *; lra.
Qed.
(** 35 milliseconds at 16 kHz *)
Lemma dct_rate_16000_wrong : dct_rate 560 (560 * (10 ^ 12 / 16000)) = 15999%Z. Proof. vm_compute. reflexivity. Qed.
Theorem dct_any_window r n even (a : arr R) (m t : timedim) : In r [96000; 48000; 44100; 22050; 11025]%Z -> (1 <= n)%nat -> t_dur m = (Z.of_nat n * (10 ^ 12 / r))%Z -> windowed_chunk m t n a ->
  exists o, dct_node even a = Ok o /\ a_dims o = [DTime (sized m (length (a_rows a))); DFreq (Linear (mkBand 0 (IZR (r / 2))) n even)] /\ a_width o = n /\ a_rows o = map (cosines n) (a_rows a).
Proof.
  intros Hr Hn Hm (Ed & Ew & Hrows & _). assert (Hr' : In r standard_rates) by (unfold standard_rates; cbn [In] in *; tauto). assert (Hf : (0 < 10 ^ 12 / r)%Z) by (clear -Hr'; repeat (destruct Hr' as [<-|Hr']; [vm_compute; reflexivity|]); destruct Hr').
  assert (Es : dct_scale n (t_dur m) even = Ok (Linear (mkBand 0 (IZR (r / 2))) n even)).
  { unfold dct_scale. rewrite Hm, (dct_rate_ok r _ Hr) by lia. assert (Ea : audio_sample_rate r = Ok r) by (clear -Hr'; repeat (destruct Hr' as [<-|Hr']; [vm_compute; reflexivity|]); destruct Hr'). rewrite Ea. cbn [bind].
    destruct (rate_std r Hr') as [_ (sr & E2 & E3 & P)]. rewrite E2. cbn [bind]. rewrite E3. unfold make_band, Rleb. destruct (Rle_dec (IZR (r / 2)) 0) as [C|_]; [|reflexivity]. apply le_IZR in C. lia. }
  unfold dct_node, cosine_node. rewrite Ed, Ew. cbn [sized t_dur]. rewrite Es. cbn [bind]. assert (Hd : (t_dur m <> 0)%Z) by (rewrite Hm; intros Z0; apply Z.mul_eq_0 in Z0; lia). rewrite fit_freq by (exact Hd || reflexivity). cbn [bind]. rewrite sized_sized. eexists. split; [reflexivity|]. cbn [a_dims a_width a_rows]. split; [reflexivity|]. split; [reflexivity|].
  apply map_ext_in. intros x Hx. apply dct2_cosines. rewrite Forall_forall in Hrows. now apply Hrows.
Qed.
(** at 16 kHz, windows of 35 ms every 17.5 ms: there is a spectrum but no DCT *)
Theorem dct_16000_refuted : exists wsr, span_samples (sample_dim 16000) (sr_dur wsr) = Ok 560%Z /\ span_samples (sample_dim 16000) (sr_freq wsr) = Ok 280%Z /\
  forall chunks, chunks <> [] -> exists W F, stft_graph 16000 wsr 0 chunks = Ok (W, F) /\ W <> [] /\ forall a, In a W -> dct_node false a = Raise ValueError /\ dctiv_node false a = Raise ValueError.
Proof.
  exists {| sr_freq := 280 * 62500000; sr_dur := 560 * 62500000 |}. split; [vm_compute; reflexivity|]. split; [vm_compute; reflexivity|]. intros chunks Hne.
  destruct (windowed_rows (sample_dim 16000) {| sr_freq := 280 * 62500000; sr_dur := 560 * 62500000 |} oggvorbis (vorbis 560) 560 280 chunks ltac:(lia) ltac:(lia) ltac:(vm_compute; reflexivity) eq_refl ltac:(vm_compute; reflexivity) ltac:(vm_compute; reflexivity) (vorbis_ogg 560) Hne) as (arrs & k & m & Ewn & _ & Wch & St & Kc & _ & Mf & Md).
  destruct (stft_graph_ok 16000 {| sr_freq := 280 * 62500000; sr_dur := 560 * 62500000 |} 0 560 280 chunks ltac:(cbn; tauto) ltac:(lia) ltac:(lia) ltac:(vm_compute; reflexivity) ltac:(vm_compute; reflexivity) Hne) as (W & F & k' & m' & E & _).
  exists W, F. split; [exact E|]. assert (EW : W = arrs). { unfold stft_graph in E. rewrite Ewn in E. cbn [bind] in E. destruct (mapM _ arrs); [|discriminate]. cbn [bind] in E. congruence. } subst W.
  split. { intros ->. assert (Z0 : k = 0%nat). { unfold stored in St. cbn in St. destruct k; [reflexivity|discriminate]. } unfold frame_count in Kc. destruct (Nat.leb _ _); lia. }
  intros a Ha. rewrite Forall_forall in Wch. destruct (Wch a Ha) as (Ed & Ew & _). unfold dct_node, dctiv_node, cosine_node. rewrite Ed, Ew. cbn [sized t_dur]. rewrite Md. cbn [sample_dim t_freq].
  unfold dct_scale. assert (Q : audio_sample_rate (dct_rate (Z.of_nat 560) (10 ^ 12 / 16000 * Z.of_nat 560)) = Raise ValueError) by (vm_compute; reflexivity). rewrite Q. split; reflexivity.
Qed.
