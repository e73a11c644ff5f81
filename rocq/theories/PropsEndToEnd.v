(** C99: the graphs of zounds/basic/audiograph.py, from the bytes of a file to what is stored. *)
From Coq Require Import ZArith Reals.
From Verif Require Import PyBase PyFacts PyMore Time TimeProofs Freq FreqProofs FreqScaleProofs FreqDim FreqDimProofs Axis PhaseShift PhaseShiftProofs Windowed NdWindow SlidingNode Spectral SpectralProofs OverlapProofs SynthProofs Stft ScaleBasis Weighting Graph FreqAdapt Audio AudioProofs SoundNodes TransformProofs ReconProofs StftProofs GraphProofs GraphProofs2 GraphProofs3 GraphProofs4 TimeStretchProofs FreqAdaptProofs FreqAdaptProofs2 FreqAdaptProofs3 EndToEnd EndToEndProofs EndToEndProofs2.
Local Open Scope R_scope.
Theorem C99_samples :
  forall (B Q : Type) (decode : list B -> list (list R)) (src_new : Q)
    (src : Q -> list (list R) -> nat -> bool -> Q * list (list R)) (depth rate : Z)
    (channels : nat) (b : list B) (bs : list (list B)),
  (0 < depth)%Z ->
  (0 < rate)%Z ->
  (0 < channels)%nat ->
  monotone decode ->
  exists fuel0 : nat,
    forall fuel : nat,
    (fuel0 <= fuel)%nat ->
    exists chunks : list (list R),
      resampled_graph decode src_new src depth rate channels fuel rate (b :: bs) = Ok chunks /\
      List.concat chunks = map (mono_sample channels) (decode (List.concat (b :: bs))) /\
      (length (b :: bs) <= length chunks)%nat.
Proof. exact (@resampled_ok). Qed.
Print Assumptions C99_samples.
Theorem C99_no_bytes :
  forall (B Q : Type) (decode : list B -> list (list R)) (src_new : Q)
    (src : Q -> list (list R) -> nat -> bool -> Q * list (list R)) (depth rate : Z)
    (channels fuel : nat) (new : Z),
  resampled_graph decode src_new src depth rate channels fuel new [] = Raise AttributeError.
Proof. exact (@no_bytes). Qed.
Print Assumptions C99_no_bytes.
Theorem C99_windows :
  forall (B Q : Type) (decode : list B -> list (list R)) (src_new : Q)
    (src : Q -> list (list R) -> nat -> bool -> Q * list (list R)) (depth rate : Z)
    (channels : nat) (b : list B) (bs : list (list B)) (wsr : samplerate) 
    (wfunc : nat -> list R) (wf : nat -> R) (w h : nat),
  (0 < depth)%Z ->
  (0 < channels)%nat ->
  monotone decode ->
  (0 < rate <= 10 ^ 12)%Z ->
  (2 <= w)%nat ->
  (1 <= h <= w)%nat ->
  span_samples (sample_dim rate) (sr_dur wsr) = Ok (Z.of_nat w) ->
  span_samples (sample_dim rate) (sr_freq wsr) = Ok (Z.of_nat h) ->
  wfunc w = map wf (seq 0 w) ->
  let x := map (mono_sample channels) (decode (List.concat (b :: bs))) in
  exists fuel0 : nat,
    forall fuel : nat,
    (fuel0 <= fuel)%nat ->
    exists (arrs : list (arr R)) (k : nat),
      windowed_bytes decode src_new src depth rate channels fuel rate wsr (Some wfunc) (b :: bs) =
      Ok arrs /\ stored arrs = map (frame wf w h x) (seq 0 k) /\ frame_count (length x) w h k.
Proof. exact (@windowed_bytes_ok). Qed.
Print Assumptions C99_windows.
Theorem C99_stft :
  forall (B Q : Type) (decode : list B -> list (list R)) (src_new : Q)
    (src : Q -> list (list R) -> nat -> bool -> Q * list (list R)) (depth rate : Z)
    (channels : nat) (b : list B) (bs : list (list B)) (wsr : samplerate) 
    (p w h : nat),
  (0 < depth)%Z ->
  (0 < channels)%nat ->
  monotone decode ->
  In rate standard_rates ->
  (2 <= w)%nat ->
  (1 <= h <= w)%nat ->
  span_samples (sample_dim rate) (sr_dur wsr) = Ok (Z.of_nat w) ->
  span_samples (sample_dim rate) (sr_freq wsr) = Ok (Z.of_nat h) ->
  let x := map (mono_sample channels) (decode (List.concat (b :: bs))) in
  exists fuel0 : nat,
    forall fuel : nat,
    (fuel0 <= fuel)%nat ->
    exists (W : list (arr R)) (F : list (arr cplx)) (k : nat),
      stft_bytes decode src_new src depth rate channels fuel rate wsr p (b :: bs) = Ok (W, F) /\
      stored W = map (frame (vorbis w) w h x) (seq 0 k) /\
      stored F =
      map
        (fun i : nat =>
         map (dft_coeff (w + p) w (fun t : nat => nth t (frame (vorbis w) w h x i) 0))
           (seq 0 ((w + p) / 2 + 1))) (seq 0 k) /\ frame_count (length x) w h k.
Proof. exact (@stft_bytes_ok). Qed.
Print Assumptions C99_stft.
Theorem C99_audio_cut :
  forall (B Q : Type) (decode : list B -> list (list R)) (src_new : Q)
    (src : Q -> list (list R) -> nat -> bool -> Q * list (list R)) (depth rate : Z)
    (channels : nat) (b : list B) (bs : list (list B)) (b' : list B) (bs' : list (list B))
    (w h : nat),
  (0 < depth)%Z ->
  (0 < channels)%nat ->
  monotone decode ->
  In (rate, (Z.of_nat w, Z.of_nat h)) graph_sizes ->
  List.concat (b :: bs) = List.concat (b' :: bs') ->
  exists fuel0 : nat,
    forall fuel fuel' : nat,
    (fuel0 <= fuel)%nat ->
    (fuel0 <= fuel')%nat ->
    exists F F' : features,
      audio_bytes decode src_new src depth rate channels fuel rate (b :: bs) = Ok F /\
      audio_bytes decode src_new src depth rate channels fuel' rate (b' :: bs') = Ok F' /\
      (let x := decode (List.concat (b :: bs)) in
       let n := Nat.min (length (stored (g_windowed F))) (length (stored (g_windowed F'))) in
       (n <= length (stored (g_windowed F)) <= n + 1)%nat /\
       (n <= length (stored (g_windowed F')) <= n + 1)%nat /\
       ((length x <= w)%nat \/ (length x - w) mod h <> 0%nat ->
        length (stored (g_windowed F)) = length (stored (g_windowed F'))) /\
       agree n (stored (g_windowed F)) (stored (g_windowed F')) /\
       agree n (stored (g_dct F)) (stored (g_dct F')) /\
       agree n (stored (g_fft F)) (stored (g_fft F')) /\
       agree n (stored (g_bark F)) (stored (g_bark F')) /\
       agree n (List.concat (g_centroid F)) (List.concat (g_centroid F')) /\
       agree n (stored (g_chroma F)) (stored (g_chroma F')) /\
       agree n (stored (g_bfcc F)) (stored (g_bfcc F'))).
Proof. exact (@audio_bytes_cut). Qed.
Print Assumptions C99_audio_cut.
Theorem C99_adaptive :
  forall (r : Z) (wsr sr : samplerate) (s : scale) (qs : list band) (check : bool) (w h : nat),
  In r standard_rates ->
  (2 <= w)%nat ->
  (1 <= h <= w)%nat ->
  span_samples (sample_dim r) (sr_dur wsr) = Ok (Z.of_nat w) ->
  span_samples (sample_dim r) (sr_freq wsr) = Ok (Z.of_nat h) ->
  audio_rate r = Ok sr ->
  adaptive_init check s = Ok tt ->
  scale_bands s = Ok qs ->
  Forall proper qs ->
  qs <> [] ->
  NoDup qs ->
  (forall q : band, In q qs -> (2 <= how_many q (spectrum_bins sr (w / 2 + 1)))%nat) ->
  forall chunks : list (list R),
  chunks <> [] ->
  let x := List.concat chunks in
  let spectra :=
    fun k : nat =>
    map
      (fun i : nat =>
       map (dft_coeff w w (fun t : nat => nth t (frame (vorbis w) w h x i) 0)) (seq 0 (w / 2 + 1)))
      (seq 0 k) in
  exists (A : list (timedim * (arr2 R * efd))) (k : nat) (m : timedim) 
  (e : efd),
    adaptive_graph r wsr check s chunks = Ok A /\
    frame_count (length x) w h k /\
    t_freq m = (10 ^ 12 / r * Z.of_nat h)%Z /\
    t_dur m = (10 ^ 12 / r * Z.of_nat w)%Z /\
    Forall
      (fun a : timedim * (arr2 R * efd) =>
       fst a = sized m (length (rows (fst (snd a)))) /\ snd (snd a) = e) A /\
    (exists whole : arr2 R,
       adaptive_stored A = Ok (whole, e) /\
       adaptive_transform (0, 0) cscale along_irfft (Some adaptive_window)
         (Linear {| bstart := 0; bstop := IZR (r / 2) |} (w / 2 + 1) false)
         {| cols := w / 2 + 1; rows := spectra k |} s = Ok (whole, e) /\
       adaptive_fft_synthesize s sr m (whole, e) =
       fft_synthesize m
         (map
            (fun row : list (R * R) =>
             map
               (fun k0 : nat =>
                cscale
                  (gain adaptive_window (w / 2 + 1)
                     (map (band_bins false (spectrum_bins sr (w / 2 + 1))) qs) k0)
                  (nth k0 row (0, 0))) (seq 0 (w / 2 + 1))) (spectra k))).
Proof. exact (@adaptive_graph_ok). Qed.
Print Assumptions C99_adaptive.
Theorem C99_adaptive_nothing :
  adaptive_stored [] = Raise ValueError.
Proof. exact (@nothing_stored). Qed.
Print Assumptions C99_adaptive_nothing.
Theorem C99_adaptive_refused :
  forall (B Q : Type) (decode : list B -> list (list R)) (src_new : Q)
    (src : Q -> list (list R) -> nat -> bool -> Q * list (list R)) (depth rate : Z)
    (channels : nat) (r : Z) (wsr : samplerate) (check : bool) (s : scale) 
    (fuel : nat) (chunks : list (list R)) (bytes : list (list B)) (e : exn),
  adaptive_init check s = Raise e ->
  adaptive_graph r wsr check s chunks = Raise e /\
  (forall a : list (timedim * (arr2 R * efd)),
   adaptive_bytes decode src_new src depth rate channels fuel r wsr check s bytes <> Ok a).
Proof. exact (@adaptive_refused). Qed.
Print Assumptions C99_adaptive_refused.
Theorem C99_adaptive_bytes :
  forall (B Q : Type) (decode : list B -> list (list R)) (src_new : Q)
    (src : Q -> list (list R) -> nat -> bool -> Q * list (list R)) (depth r : Z) 
    (channels : nat) (wsr sr : samplerate) (s : scale) (qs : list band) 
    (check : bool) (w h : nat) (b : list B) (bs : list (list B)),
  (0 < depth)%Z ->
  (0 < channels)%nat ->
  monotone decode ->
  In r standard_rates ->
  (2 <= w)%nat ->
  (1 <= h <= w)%nat ->
  span_samples (sample_dim r) (sr_dur wsr) = Ok (Z.of_nat w) ->
  span_samples (sample_dim r) (sr_freq wsr) = Ok (Z.of_nat h) ->
  audio_rate r = Ok sr ->
  adaptive_init check s = Ok tt ->
  scale_bands s = Ok qs ->
  Forall proper qs ->
  qs <> [] ->
  NoDup qs ->
  (forall q : band, In q qs -> (2 <= how_many q (spectrum_bins sr (w / 2 + 1)))%nat) ->
  let x := map (mono_sample channels) (decode (List.concat (b :: bs))) in
  let spectra :=
    fun k : nat =>
    map
      (fun i : nat =>
       map (dft_coeff w w (fun t : nat => nth t (frame (vorbis w) w h x i) 0)) (seq 0 (w / 2 + 1)))
      (seq 0 k) in
  exists fuel0 : nat,
    forall fuel : nat,
    (fuel0 <= fuel)%nat ->
    exists
      (A : list (timedim * (arr2 R * efd))) (k : nat) (m : timedim) (whole : arr2 R) 
    (e : efd),
      adaptive_bytes decode src_new src depth r channels fuel r wsr check s (b :: bs) = Ok A /\
      adaptive_stored A = Ok (whole, e) /\
      frame_count (length x) w h k /\
      t_freq m = (10 ^ 12 / r * Z.of_nat h)%Z /\
      t_dur m = (10 ^ 12 / r * Z.of_nat w)%Z /\
      adaptive_fft_synthesize s sr m (whole, e) =
      fft_synthesize m
        (map
           (fun row : list (R * R) =>
            map
              (fun j : nat =>
               cscale
                 (gain adaptive_window (w / 2 + 1)
                    (map (band_bins false (spectrum_bins sr (w / 2 + 1))) qs) j) 
                 (nth j row (0, 0))) (seq 0 (w / 2 + 1))) (spectra k)).
Proof. exact (@adaptive_bytes_ok). Qed.
Print Assumptions C99_adaptive_bytes.
Theorem C99_cut_refuted :
  forall (Q : Type) (src_new : Q) (src : Q -> list (list R) -> nat -> bool -> Q * list (list R))
    (p : Z) (x : list R) (fuel : nat),
  (2 < p)%Z ->
  (2 < length x)%nat ->
  Nat.Even (length x) ->
  (Zlen x <= 2 * p)%Z ->
  let decode := fun b : list R => map (fun v : R => [v]) b in
  (exists outs : list (list R),
     resampled_graph decode src_new src 2 (2 * p) 1 fuel p (map (fun v : R => [v]) x) = Ok outs /\
     List.concat outs = []) /\
  (exists outs : list (list R),
     resampled_graph decode src_new src 2 (2 * p) 1 fuel p [x] = Ok outs /\
     (2 * length (List.concat outs))%nat = length x).
Proof. exact (@cut_refuted). Qed.
Print Assumptions C99_cut_refuted.

