(** Property C92: a processing graph computes the same features whatever the chunk size. *)
From Coq Require Import ZArith QArith Reals.
From Verif Require Import PyBase PyFacts PyMore Time TimeProofs Float64 Freq FreqProofs FreqScaleProofs FreqDim Axis Windowed NdWindow SlidingNode Spectral Stft ScaleBasis ScaleBasisProofs ChromaProofs Weighting Synths Graph StftProofs GraphProofs GraphProofs2 GraphProofs3 GraphProofs4 GraphProofs5.
Local Open Scope R_scope.
Theorem C92_windows :
  forall (t : timedim) (wsr : samplerate) (wfunc : nat -> list R) (wf : nat -> R) 
    (w h : nat) (chunks : list (list R)),
  (2 <= w)%nat ->
  (1 <= h <= w)%nat ->
  (0 < t_freq t)%Z ->
  t_dur t = t_freq t ->
  span_samples t (sr_dur wsr) = Ok (Z.of_nat w) ->
  span_samples t (sr_freq wsr) = Ok (Z.of_nat h) ->
  wfunc w = map wf (seq 0 w) ->
  chunks <> [] ->
  exists (arrs : list (arr R)) (k : nat) (m : timedim),
    windowed_node t wsr (Some wfunc) 0 chunks = Ok arrs /\
    modified_dimension t (Z.of_nat w) (Some (Z.of_nat h)) = Ok m /\
    Forall (windowed_chunk m t w) arrs /\
    stored arrs = map (frame wf w h (List.concat chunks)) (seq 0 k) /\
    frame_count (length (List.concat chunks)) w h k /\
    (forall j : nat,
     (j < length (List.concat chunks))%nat ->
     exists i : nat, (i < k)%nat /\ (i * h <= j < i * h + w)%nat) /\
    t_freq m = (t_freq t * Z.of_nat h)%Z /\ t_dur m = (t_freq t * Z.of_nat w)%Z.
Proof. exact (@windowed_rows). Qed.
Print Assumptions C92_windows.
Theorem C92_audio_graph :
  forall (r : Z) (w h : nat),
  In (r, (Z.of_nat w, Z.of_nat h)) graph_sizes ->
  exists (qs bs : list band) (ws : list R) (lo hi : Z),
    scale_bands (BarkS {| bstart := 20; bstop := IZR (r / 2) |} 100) = Ok qs /\
    scale_bands (Linear {| bstart := 0; bstop := IZR (r / 2) |} (w / 2 + 1) false) = Ok bs /\
    a_weights bs ws /\
    nearest_semitone 20 lo /\
    nearest_semitone (IZR (r / 2)) hi /\
    (forall chunks : list (list R),
     chunks <> [] ->
     exists (F : features) (k : nat) (m : timedim),
       audio_graph r chunks = Ok F /\
       frame_count (length (List.concat chunks)) w h k /\
       (let x := frame (vorbis w) w h (List.concat chunks) in
        stored (g_windowed F) = map x (seq 0 k) /\
        stored (g_dct F) = map (fun i : nat => cosines w (x i)) (seq 0 k) /\
        stored (g_fft F) = map (fun i : nat => spectrum w (x i)) (seq 0 k) /\
        stored (g_bark F) = map (fun i : nat => band_sums qs bs (magnitudes w (x i))) (seq 0 k) /\
        List.concat (g_centroid F) =
        map (fun i : nat => centroid (band_sums qs bs (magnitudes w (x i)))) (seq 0 k) /\
        stored (g_chroma F) =
        map (fun i : nat => chromas bs lo hi ws (magnitudes w (x i))) (seq 0 k) /\
        stored (g_bfcc F) = map (fun i : nat => cepstrum (magnitudes w (x i))) (seq 0 k) /\
        t_freq m = (10 ^ 12 / r * Z.of_nat h)%Z /\
        t_dur m = (10 ^ 12 / r * Z.of_nat w)%Z /\
        Forall (timed m (DTime (sized (sample_dim r) w)) w) (g_windowed F) /\
        Forall (timed m (DFreq (Linear {| bstart := 0; bstop := IZR (r / 2) |} w false)) w)
          (g_dct F) /\
        Forall
          (timed m (DFreq (Linear {| bstart := 0; bstop := IZR (r / 2) |} (w / 2 + 1) false))
             (w / 2 + 1)) (g_fft F) /\
        Forall (timed m (DFreq (BarkS {| bstart := 20; bstop := IZR (r / 2) |} 100)) 100)
          (g_bark F) /\
        Forall (timed m DIdent 12) (g_chroma F) /\ Forall (timed m DIdent 13) (g_bfcc F))).
Proof. exact (@audio_graph_ok). Qed.
Print Assumptions C92_audio_graph.
Theorem C92_chunk_size :
  forall (r : Z) (w h : nat) (chunks chunks' : list (list R)),
  In (r, (Z.of_nat w, Z.of_nat h)) graph_sizes ->
  chunks <> [] ->
  chunks' <> [] ->
  List.concat chunks = List.concat chunks' ->
  exists (F F' : features) (k k' : nat),
    audio_graph r chunks = Ok F /\
    audio_graph r chunks' = Ok F' /\
    (length (stored (g_windowed F)) = k /\
     length (stored (g_dct F)) = k /\
     length (stored (g_fft F)) = k /\
     length (stored (g_bark F)) = k /\
     length (List.concat (g_centroid F)) = k /\
     length (stored (g_chroma F)) = k /\ length (stored (g_bfcc F)) = k) /\
    length (stored (g_windowed F')) = k' /\
    ((k <= k' + 1)%nat /\ (k' <= k + 1)%nat) /\
    (let n := Nat.min k k' in
     agree n (stored (g_windowed F)) (stored (g_windowed F')) /\
     agree n (stored (g_dct F)) (stored (g_dct F')) /\
     agree n (stored (g_fft F)) (stored (g_fft F')) /\
     agree n (stored (g_bark F)) (stored (g_bark F')) /\
     agree n (List.concat (g_centroid F)) (List.concat (g_centroid F')) /\
     agree n (stored (g_chroma F)) (stored (g_chroma F')) /\
     agree n (stored (g_bfcc F)) (stored (g_bfcc F'))) /\
    ((length (List.concat chunks) <= w)%nat \/ (length (List.concat chunks) - w) mod h <> 0%nat ->
     k = k').
Proof. exact (@audio_graph_chunks). Qed.
Print Assumptions C92_chunk_size.
Theorem C92_number_of_rows_refuted :
  forall (r : Z) (w h : nat) (signal : list R),
  In (r, (Z.of_nat w, Z.of_nat h)) graph_sizes ->
  length signal = (w + h)%nat ->
  exists (chunks : list (list R)) (F F' : features),
    List.concat chunks = signal /\
    audio_graph r chunks = Ok F /\
    audio_graph r [signal] = Ok F' /\
    length (stored (g_bark F)) = 2%nat /\ length (stored (g_bark F')) = 3%nat.
Proof. exact (@audio_graph_rows_refuted). Qed.
Print Assumptions C92_number_of_rows_refuted.
Theorem C92_stft :
  forall (r : Z) (wsr : samplerate) (p w h : nat) (chunks : list (list R)),
  In r standard_rates ->
  (2 <= w)%nat ->
  (1 <= h <= w)%nat ->
  span_samples (sample_dim r) (sr_dur wsr) = Ok (Z.of_nat w) ->
  span_samples (sample_dim r) (sr_freq wsr) = Ok (Z.of_nat h) ->
  chunks <> [] ->
  exists (W : list (arr R)) (F : list (arr cplx)) (k : nat) (m : timedim),
    stft_graph r wsr p chunks = Ok (W, F) /\
    frame_count (length (List.concat chunks)) w h k /\
    stored W = map (frame (vorbis w) w h (List.concat chunks)) (seq 0 k) /\
    stored F =
    map
      (fun i : nat =>
       map
         (dft_coeff (w + p) w
            (fun t : nat => nth t (frame (vorbis w) w h (List.concat chunks) i) 0))
         (seq 0 ((w + p) / 2 + 1))) (seq 0 k) /\
    t_freq m = (10 ^ 12 / r * Z.of_nat h)%Z /\
    t_dur m = (10 ^ 12 / r * Z.of_nat w)%Z /\
    Forall
      (timed m (DFreq (Linear {| bstart := 0; bstop := IZR (r / 2) |} ((w + p) / 2 + 1) false))
         ((w + p) / 2 + 1)) F.
Proof. exact (@stft_graph_ok). Qed.
Print Assumptions C92_stft.
Theorem C92_dct_sample_rate :
  forall r n : Z,
  In r [96000%Z; 48000%Z; 44100%Z; 22050%Z; 11025%Z] ->
  (0 < n)%Z -> dct_rate n (n * (10 ^ 12 / r)) = r.
Proof. exact (@dct_rate_ok). Qed.
Print Assumptions C92_dct_sample_rate.
Theorem C92_dct_sample_rate_16000 :
  forall n : Z,
  (0 < n)%Z ->
  dct_rate n (n * (10 ^ 12 / 16000)) = 16000%Z \/ dct_rate n (n * (10 ^ 12 / 16000)) = 15999%Z.
Proof. exact (@dct_rate_16000). Qed.
Print Assumptions C92_dct_sample_rate_16000.
Theorem C92_dct_any_window :
  forall (r : Z) (n : nat) (even : bool) (a : arr R) (m t : timedim),
  In r [96000%Z; 48000%Z; 44100%Z; 22050%Z; 11025%Z] ->
  (1 <= n)%nat ->
  t_dur m = (Z.of_nat n * (10 ^ 12 / r))%Z ->
  windowed_chunk m t n a ->
  exists o : arr R,
    dct_node even a = Ok o /\
    a_dims o =
    [DTime (sized m (length (a_rows a)));
     DFreq (Linear {| bstart := 0; bstop := IZR (r / 2) |} n even)] /\
    a_width o = n /\ a_rows o = map (cosines n) (a_rows a).
Proof. exact (@dct_any_window). Qed.
Print Assumptions C92_dct_any_window.
Theorem C92_dct_16000_refuted :
  exists wsr : samplerate,
    span_samples (sample_dim 16000) (sr_dur wsr) = Ok 560%Z /\
    span_samples (sample_dim 16000) (sr_freq wsr) = Ok 280%Z /\
    (forall chunks : list (list R),
     chunks <> [] ->
     exists (W : list (arr R)) (F : list (arr cplx)),
       stft_graph 16000 wsr 0 chunks = Ok (W, F) /\
       W <> [] /\
       (forall a : arr R,
        In a W -> dct_node false a = Raise ValueError /\ dctiv_node false a = Raise ValueError)).
Proof. exact (@dct_16000_refuted). Qed.
Print Assumptions C92_dct_16000_refuted.
Theorem C92_slice :
  forall (A : Type) (start stop : option Z) (chunks : list (list (list A))),
  List.concat (map (slice_node start stop) chunks) = map (py_slice start stop) (List.concat chunks).
Proof. exact (@slice_chunks). Qed.
Print Assumptions C92_slice.
Theorem C92_sum_refuted :
  forall (axis : Z) (chunks : list (list (list R))),
  chunks <> [] -> mapM (sum_node axis) chunks = Raise TypeError.
Proof. exact (@sum_raises). Qed.
Print Assumptions C92_sum_refuted.
Theorem C92_binarize :
  forall (A B : Type) (p : A -> B) (chunks : list (list (list A))),
  List.concat (map (binarize_node p) chunks) = map (map p) (List.concat chunks).
Proof. exact (@binarize_chunks). Qed.
Print Assumptions C92_binarize.
Theorem C92_max :
  forall (axis : Z) (width : nat) (chunks : list (list (list R))),
  axis = 1%Z \/ axis = (-1)%Z ->
  (1 <= width)%nat ->
  Forall (fun c : list (list R) => c <> [] /\ Forall (fun r : list R => length r = width) c) chunks ->
  exists outs : list (list nodeout),
    mapM (max_node axis width) chunks = Ok outs /\
    Forall2 is_max (List.concat chunks) (flat_map out_values (List.concat outs)).
Proof. exact (@max_rows). Qed.
Print Assumptions C92_max.
Theorem C92_max_default_refuted :
  exists chunks chunks' : list (list (list R)),
    List.concat chunks = List.concat chunks' /\
    mapM (max_node 0 1) chunks = Ok [[OFlat [1]]; [OFlat [2]]] /\
    mapM (max_node 0 1) chunks' = Ok [[OFlat [2]]].
Proof. exact (@max_default_refuted). Qed.
Print Assumptions C92_max_default_refuted.
Theorem C92_hanning_integers :
  forall (n : nat) (frame : list Z),
  (2 <= n)%nat ->
  Nat.even n = true -> length frame = n -> window_integers (hann n) frame = repeat 0%Z n.
Proof. exact (@hanning_integers). Qed.
Print Assumptions C92_hanning_integers.

