(** Model of the graphs of zounds/basic/audiograph.py, from the bytes of a file on: AudioStream
    (Audio.v), Resampler (SoundNodes.v), SlidingWindow and FFT (Graph.v), and
    FrequencyAdaptiveTransform (FreqAdapt.v).  How ByteStream cuts the bytes is featureflow's and
    the file's business: the graphs take any list of pieces.  The decoder (libsndfile) and the
    converter (libsamplerate) are parameters, as in Audio.v and SoundNodes.v. *)
From Coq Require Import ZArith Reals.
From Verif Require Import PyBase PyFacts PyMore Time Freq FreqDim Axis PhaseShift Windowed NdWindow SlidingNode Spectral Stft ScaleBasis Weighting Graph FreqAdapt Audio SoundNodes.
Local Open Scope R_scope.

(** audiostream.py:93-106 with audiosamples.py:144-154: the decoded frames as an AudioSamples,
    summed to mono.  soundfile gives one axis for one channel, two for more. *)
Definition mono_chunk (channels : nat) (d : list (list R)) : list R :=
  match to_mono (if Nat.eqb channels 1 then Mono (map (hd 0) d) else Multi channels d) with
  | Mono x => x
  | Multi _ rows => map (hd 0) rows
  end.

Section Bytes.
  Context {B Q : Type} (decode : list B -> list (list R)) (src_new : Q) (src : Q -> list (list R) -> nat -> bool -> Q * list (list R)).
  (** what is known of the file: bytes per sample, rate and channels *)
  Variables (depth rate : Z) (channels : nat).

  (** audiograph.py:38-66 [resampled]: pcm, then resampled (also 150-163, 199-212) *)
  Definition resampled_graph (fuel : nat) (resample_to : Z) (bytes : list (list B)) : result (list (list R)) :=
    do pcm <- as_run decode (mono_chunk channels) fuel (chunk_size_samples depth (Z.of_nat channels) rate) bytes;
    do out <- resampler_node 0 src_new src resample_to rate 1 (map (map (fun v => [v])) pcm);
    Ok (map (map (hd 0)) out).
  (** audiograph.py:68-90 [windowed] *)
  Definition windowed_bytes (fuel : nat) (resample_to : Z) (wsr : samplerate) (wfunc : option (nat -> list R)) (bytes : list (list B)) : result (list (arr R)) :=
    do x <- resampled_graph fuel resample_to bytes; windowed_node (sample_dim resample_to) wsr wfunc 0 x.
  (** audiograph.py:126-171 [stft] *)
  Definition stft_bytes (fuel : nat) (resample_to : Z) (wsr : samplerate) (fft_padding : nat) (bytes : list (list B)) : result (list (arr R) * list (arr cplx)) :=
    do x <- resampled_graph fuel resample_to bytes; stft_graph resample_to wsr fft_padding x.
  (** audiograph.py:174-256 [audio_graph] *)
  Definition audio_bytes (fuel : nat) (resample_to : Z) (bytes : list (list B)) : result features :=
    do x <- resampled_graph fuel resample_to bytes; audio_graph resample_to x.
End Bytes.

(** np.hanning(n)[i] *)
Definition adaptive_window : bwindow := fun n i => if Nat.eqb n 1 then 1 else 1 / 2 - 1 / 2 * cos (2 * PI * INR i / INR (n - 1)).
(** spectral.py:208-213 with audiograph.py:116-122: one chunk of the FFT; the scale is that of its
    last dimension, the result keeps its first *)
Definition adaptive_node (s : scale) (a : arr cplx) : result (timedim * (arr2 R * efd)) :=
  match a_dims a with
  | [DTime t; DFreq lin] =>
      do fa <- adaptive_transform (0, 0) cscale along_irfft (Some adaptive_window) lin (FreqDim.mkArr (a_width a) (a_rows a)) s;
      Ok (t, fa)
  | _ => Raise ValueError
  end.
(** audiograph.py:92-124 [frequency_adaptive], from the resampled samples on; no FFT padding *)
Definition adaptive_graph (rate : Z) (wsr : samplerate) (check : bool) (s : scale) (chunks : list (list R)) : result (list (timedim * (arr2 R * efd))) :=
  do _ <- adaptive_init check s;
  do wf <- stft_graph rate wsr 0 chunks;
  mapM (adaptive_node s) (snd wf).
(** persistence/arraywithunits.py:13-33 and frequencyadaptive.py:7-12: the dimensions of the first
    chunk and the rows of all are stored, and read back as one array; nothing is a ValueError *)
Definition adaptive_stored (chunks : list (timedim * (arr2 R * efd))) : result (arr2 R * efd) :=
  match chunks with
  | [] => Raise ValueError
  | (_, (x, e)) :: _ => Ok (FreqDim.mkArr (cols x) (List.concat (map (fun c => rows (fst (snd c))) chunks)), e)
  end.
Section AdaptiveBytes.
  Context {B Q : Type} (decode : list B -> list (list R)) (src_new : Q) (src : Q -> list (list R) -> nat -> bool -> Q * list (list R)).
  (** audiograph.py:92-124, from the bytes on *)
  Definition adaptive_bytes (depth rate : Z) (channels fuel : nat) (resample_to : Z) (wsr : samplerate) (check : bool) (s : scale) (bytes : list (list B)) : result (list (timedim * (arr2 R * efd))) :=
    do x <- resampled_graph decode src_new src depth rate channels fuel resample_to bytes; adaptive_graph resample_to wsr check s x.
End AdaptiveBytes.
