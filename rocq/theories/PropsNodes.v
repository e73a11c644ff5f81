(** Property theorems: streaming nodes (C41, C42, C59, C60), buffers and audio
    (C43, C53, C54, C61, C62) and MIDI notes (C44). *)
From Verif Require Import PyBase PyFacts PyMore PyRange Time TimeProofs Nodes NodesProofs Audio AudioProofs Midi MidiProofs.
From Coq Require Import QArith Qabs Reals Permutation Sorted String.
Local Open Scope Z_scope.

(** C41: [tiles] (NodesProofs.v) is the specification *)
Theorem C41_tiles :
  forall (A : Type) (onset_indices : list A -> result (list Z)) (f : Z) (chunks : list (list A)),
  0 < f ->
  Forall
    (fun d : list A =>
     exists is : list Z,
       onset_indices d = Ok is /\
       StronglySorted Z.lt is /\ Forall (fun i : Z => 0 <= i < Zlen d) is) chunks ->
  exists os : list (list (Z * Z)),
    pp_run onset_indices f chunks = Ok os /\
    tiles 0 (Zlen (List.concat chunks) * f) (List.concat os).
Proof. exact (@pp_tiles). Qed.
Print Assumptions C41_tiles.
Theorem C41_each_instant :
  forall (A : Type) (onset_indices : list A -> result (list Z)) (f : Z) 
    (chunks : list (list A)) (x : Z),
  0 < f ->
  Forall
    (fun d : list A =>
     exists is : list Z,
       onset_indices d = Ok is /\
       StronglySorted Z.lt is /\ Forall (fun i : Z => 0 <= i < Zlen d) is) chunks ->
  0 <= x < Zlen (List.concat chunks) * f ->
  exists os : list (list (Z * Z)),
    pp_run onset_indices f chunks = Ok os /\
    (exists k : nat,
       (exists s : Z * Z, nth_error (List.concat os) k = Some s /\ fst s <= x < fst s + snd s) /\
       (forall (k' : nat) (s' : Z * Z),
        nth_error (List.concat os) k' = Some s' -> fst s' <= x < fst s' + snd s' -> k' = k)).
Proof. exact (@pp_each_instant). Qed.
Print Assumptions C41_each_instant.
Theorem C41_cuts :
  forall (A : Type) (onset_indices : list A -> result (list Z)) (f : Z) 
    (chunks : list (list A)) (ts : list Z),
  0 < f ->
  onset_times onset_indices f 0 chunks ts ->
  exists os : list (list (Z * Z)),
    pp_run onset_indices f chunks = Ok os /\
    List.concat os = zip_diff (0 :: ts ++ [Zlen (List.concat chunks) * f]).
Proof. exact (@pp_cuts). Qed.
Print Assumptions C41_cuts.
Theorem C41_moving_average :
  forall (agg : list Q -> Q) (f : Z) (w : nat) (chunks : list (list (list Q))),
  0 < f ->
  (4 <= w)%nat ->
  Forall (Forall (fun row : list Q => Datatypes.length row = w)) chunks ->
  exists os : list (list (Z * Z)),
    pp_run (ma_onsets agg (Z.of_nat w / 2)) f chunks = Ok os /\
    tiles 0 (Zlen (List.concat chunks) * f) (List.concat os).
Proof. exact (@ma_tiles). Qed.
Print Assumptions C41_moving_average.
Theorem C41_where :
  forall mask : list bool,
  StronglySorted Z.lt (np_where mask) /\
  Forall (fun i : Z => 0 <= i < Zlen mask) (np_where mask) /\
  (forall i : Z, 0 <= i -> In i (np_where mask) <-> nth_error mask (Z.to_nat i) = Some true).
Proof. exact (@np_where_spec). Qed.
Print Assumptions C41_where.
Theorem C41_narrow_frames_refuted :
  exists (agg : list Q -> Q) (row : list Q),
    Datatypes.length row = 3%nat /\ ma_onsets agg 1 [row] = Raise IndexError.
Proof. exact (@ma_narrow_refuted). Qed.
Print Assumptions C41_narrow_frames_refuted.
Theorem C41_unsorted_refuted :
  exists (chunks : list (list unit)) (os : list (list (Z * Z))),
    pp_run (fun _ : list unit => Ok [2; 1]) 1 chunks = Ok os /\ ~ tiles 0 3 (List.concat os).
Proof. exact (@pp_unsorted_refuted). Qed.
Print Assumptions C41_unsorted_refuted.

(** C42: [delivered] (NodesProofs.v): everything a dependency has sent *)
Theorem C42_total :
  forall (A : Type) (rsize : A -> nat) (join : list A -> A) (needs : list nat)
    (arrivals : list (nat * list A)),
  (2 <= Datatypes.length needs)%nat ->
  NoDup needs ->
  Forall
    (fun e : nat * list A => In (fst e) needs /\ Forall (fun r : A => (0 < rsize r)%nat) (snd e))
    arrivals ->
  exists out : list A,
    merge_run rsize join needs arrivals = Ok out /\
    (forall i : nat,
     (i < Datatypes.length out)%nat <->
     (forall k : nat, In k needs -> (i < Datatypes.length (delivered arrivals k))%nat)) /\
    (forall (i : nat) (rows : list A),
     Forall2 (fun (k : nat) (r : A) => nth_error (delivered arrivals k) i = Some r) needs rows ->
     nth_error out i = Some (join rows)).
Proof. exact (@merge_total). Qed.
Print Assumptions C42_total.
Theorem C42_one_need :
  forall (A : Type) (rsize : A -> nat) (join : list A -> A) (needs : list nat)
    (arrivals : list (nat * list A)),
  (Datatypes.length needs < 2)%nat -> merge_run rsize join needs arrivals = Raise ValueError.
Proof. exact (@merge_one_need). Qed.
Print Assumptions C42_one_need.
Theorem C42_unknown :
  forall (A : Type) (rsize : A -> nat) (needs : list nat) (key : nat) (d : list A),
  ~ In key needs ->
  merge_enqueue rsize (map (fun k : nat => (k, None)) needs) key d = Raise KeyError.
Proof. exact (@merge_unknown). Qed.
Print Assumptions C42_unknown.
Theorem C42_empty_rows_refuted :
  exists (needs : list nat) (arrivals : list (nat * list (list nat))) (out : list (list nat)),
    NoDup needs /\
    merge_run (Datatypes.length (A:=nat)) (List.concat (A:=nat)) needs arrivals = Ok out /\
    Datatypes.length (delivered arrivals 0) = 2%nat /\
    Datatypes.length (delivered arrivals 1) = 2%nat /\ Datatypes.length out = 1%nat.
Proof. exact (@merge_empty_rows_refuted). Qed.
Print Assumptions C42_empty_rows_refuted.

(** C43: [fifo] and [written] (AudioProofs.v) are the specification *)
Theorem C43_is_fifo :
  forall (A : Type) (zero : A) (content_length max_size : Z) (ops : list (op A)),
  exists m : membuf A,
    mb_history zero (membuf_new content_length max_size) ops = Ok (m, fifo [] ops).
Proof. exact (@mb_is_fifo). Qed.
Print Assumptions C43_is_fifo.
Theorem C43_lossless :
  forall (A : Type) (zero : A) (content_length max_size : Z) (ops : list (op A)) 
    (m : membuf A) (outs : list (list A)),
  mb_history zero (membuf_new content_length max_size) ops = Ok (m, outs) ->
  exists rest : list A, List.concat outs ++ rest = written ops.
Proof. exact (@mb_lossless). Qed.
Print Assumptions C43_lossless.
Theorem C43_drains :
  forall (A : Type) (zero : A) (content_length max_size : Z) (ops : list (op A)) 
    (m : membuf A) (outs : list (list A)),
  mb_history zero (membuf_new content_length max_size) (ops ++ [Read (-1)]) = Ok (m, outs) ->
  List.concat outs = written ops.
Proof. exact (@mb_drains). Qed.
Print Assumptions C43_drains.
Theorem C43_bounded :
  forall (A : Type) (zero : A) (content_length max_size : Z) (ops : list (op A)) 
    (d : list A) (m : membuf A) (outs : list (list A)),
  mb_history zero (membuf_new content_length max_size) (ops ++ [Write d]) = Ok (m, outs) ->
  Zlen (b_data (m_buf m)) <=
  Z.max 0 max_size + (Zlen (written (ops ++ [Write d])) - Zlen (List.concat outs)).
Proof. exact (@mb_bounded). Qed.
Print Assumptions C43_bounded.
Theorem C43_seek_read :
  forall (A : Type) (zero : A) (content_length max_size : Z) (ops : list (op A)) 
    (m : membuf A) (outs : list (list A)) (k c : Z),
  mb_history zero (membuf_new content_length max_size) ops = Ok (m, outs) ->
  Zlen (written ops) <= max_size ->
  0 <= k ->
  0 <= c ->
  exists m' : membuf A,
    mb_seek m k 0 = Ok m' /\
    snd (mb_tell m') = k /\
    snd (mb_read m' c) = firstn (Z.to_nat c) (skipn (Z.to_nat k) (written ops)).
Proof. exact (@mb_seek_read). Qed.
Print Assumptions C43_seek_read.
Theorem C43_seek_refuted :
  exists (ops : list (op nat)) (m : membuf nat) (outs : list (list nat)) 
  (m' : membuf nat),
    mb_history 0%nat (membuf_new 100 2) ops = Ok (m, outs) /\
    mb_seek m 0 0 = Ok m' /\ snd (mb_read m' 1) <> firstn 1 (written ops).
Proof. exact (@mb_seek_refuted). Qed.
Print Assumptions C43_seek_refuted.
Theorem C43_tell_end :
  forall (A : Type) (m m' : membuf A),
  mb_seek m 0 2 = Ok m' ->
  snd (mb_tell m') = m_content_length m /\ snd (mb_tell (fst (mb_tell m'))) = b_pos (m_buf m').
Proof. exact (@mb_tell_end). Qed.
Print Assumptions C43_tell_end.

(** C44 *)
Theorem C44_roundtrip :
  forall n : Z, exists note : string, midi_to_note n = Ok note /\ note_to_midi note = Ok n.
Proof. exact (@midi_roundtrip). Qed.
Print Assumptions C44_roundtrip.
Theorem C44_note_roundtrip :
  forall (i : nat) (name : string) (o : Z),
  nth_error NOTES i = Some name ->
  exists n : Z,
    note_to_midi (name ++ py_str o) = Ok n /\ midi_to_note n = Ok (name ++ py_str o)%string.
Proof. exact (@note_roundtrip). Qed.
Print Assumptions C44_note_roundtrip.
Theorem C44_pitch :
  forall (i : nat) (name : string) (o : Z),
  nth_error NOTES i = Some name -> note_to_midi (name ++ py_str o) = Ok (12 * o + Z.of_nat i).
Proof. exact (@note_pitch). Qed.
Print Assumptions C44_pitch.
Theorem C44_names :
  forall o : Z,
  map (fun name : string => note_to_midi (name ++ py_str o))
    ["C"%string; "C#"%string; "D"%string; "D#"%string; "E"%string; "F"%string; "F#"%string;
     "G"%string; "G#"%string; "A"%string; "A#"%string; "B"%string] =
  map (fun k : nat => Ok (12 * o + Z.of_nat k)) (seq 0 12).
Proof. exact (@note_names). Qed.
Print Assumptions C44_names.
Theorem C44_accepts :
  forall (note : string) (n : Z),
  note_to_midi note = Ok n ->
  exists (i : nat) (name octave : string) (o : Z),
    note = (name ++ octave)%string /\
    nth_error NOTES i = Some name /\ py_int octave = Ok o /\ n = 12 * o + Z.of_nat i.
Proof. exact (@note_accepts). Qed.
Print Assumptions C44_accepts.
Theorem C44_flats_refuted :
  note_to_midi "Db4" = Raise ValueError /\ note_to_midi "C" = Raise IndexError.
Proof. exact (@flats_refuted). Qed.
Print Assumptions C44_flats_refuted.
Theorem C44_errors :
  forall (c0 c1 : Ascii.ascii) (rest : string),
  let name :=
    if Ascii.eqb c1 (Ascii.Ascii true true false false false true false false)
    then String c0 (String c1 "")
    else String c0 "" in
  let octave :=
    if Ascii.eqb c1 (Ascii.Ascii true true false false false true false false)
    then rest
    else String c1 rest in
  (forall e : exn, py_int octave = Raise e -> note_to_midi (String c0 (String c1 rest)) = Raise e) /\
  (forall o : Z,
   py_int octave = Ok o ->
   ~ In name NOTES -> note_to_midi (String c0 (String c1 rest)) = Raise KeyError) /\
  note_to_midi "" = Raise IndexError /\ note_to_midi (String c0 "") = Raise IndexError.
Proof. exact (@note_errors). Qed.
Print Assumptions C44_errors.

(** C53 *)
Theorem C53_encode_total :
  forall (A : Type) (fmt_ogg : bool) (sps : Z) (samples : list A),
  0 < sps ->
  exists chunks : list (list A),
    encode_writes fmt_ogg sps samples = Ok chunks /\
    List.concat chunks = samples /\
    (fmt_ogg = true -> forall c : list A, In c chunks -> 0 < Zlen c <= 20 * sps) /\
    (fmt_ogg = true ->
     forall (k : nat) (c : list A),
     nth_error chunks k = Some c -> (S k < Datatypes.length chunks)%nat -> Zlen c = 20 * sps) /\
    (fmt_ogg = false -> chunks = [samples]).
Proof. exact (@encode_total). Qed.
Print Assumptions C53_encode_total.

(** C54 *)
Theorem C54_mono_of_mono :
  forall x : list R, to_mono (Mono x) = Mono x.
Proof. exact (@mono_of_mono). Qed.
Print Assumptions C54_mono_of_mono.
Theorem C54_stereo_of_stereo :
  forall rows : list (list R), to_stereo (Multi 2 rows) = Multi 2 rows.
Proof. exact (@stereo_of_stereo). Qed.
Print Assumptions C54_stereo_of_stereo.
Theorem C54_stereo :
  forall x : list R,
  channels (to_stereo (Mono x)) = 2%nat /\
  n_samples (to_stereo (Mono x)) = Datatypes.length x /\
  wf_samples (to_stereo (Mono x)) /\
  (forall i c : nat, (c < 2)%nat -> sample_at (to_stereo (Mono x)) i c = nth_error x i).
Proof. exact (@stereo_channels). Qed.
Print Assumptions C54_stereo.
Theorem C54_mono_value :
  forall (c : nat) (rows : list (list R)),
  c <> 1%nat ->
  wf_samples (Multi c rows) ->
  channels (to_mono (Multi c rows)) = 1%nat /\
  n_samples (to_mono (Multi c rows)) = Datatypes.length rows /\
  (forall (i : nat) (r : list R),
   nth_error rows i = Some r -> sample_at (to_mono (Multi c rows)) i 0 = Some (rsum r / 4)%R).
Proof. exact (@mono_value). Qed.
Print Assumptions C54_mono_value.
Theorem C54_mono_of_stereo_partial :
  forall x : list R, to_mono (to_stereo (Mono x)) = Mono (map (fun v : R => (v / 2)%R) x).
Proof. exact (@mono_of_stereo). Qed.
Print Assumptions C54_mono_of_stereo_partial.
Theorem C54_mono_of_stereo_refuted :
  exists x : list R, to_mono (to_stereo (Mono x)) <> Mono x.
Proof. exact (@mono_of_stereo_refuted). Qed.
Print Assumptions C54_mono_of_stereo_refuted.
Theorem C54_three_channels_refuted :
  exists rows : list (list R),
    wf_samples (Multi 3 rows) /\
    n_samples (Multi 3 rows) = 5%nat /\
    channels (to_stereo (Multi 3 rows)) = 10%nat /\ n_samples (to_stereo (Multi 3 rows)) = 3%nat.
Proof. exact (@stereo_of_three_refuted). Qed.
Print Assumptions C54_three_channels_refuted.
Theorem C54_one_column_refuted :
  exists rows : list (list R),
    wf_samples (Multi 1 rows) /\
    n_samples (Multi 1 rows) = 5%nat /\
    channels (to_stereo (Multi 1 rows)) = 10%nat /\ n_samples (to_stereo (Multi 1 rows)) = 1%nat.
Proof. exact (@stereo_of_one_column_refuted). Qed.
Print Assumptions C54_one_column_refuted.
Theorem C54_silence :
  forall (f d : Z) (c : nat) (s : samples), silence f d c = Ok s -> all_equal 0 s.
Proof. exact (@silence_silent). Qed.
Print Assumptions C54_silence.
Theorem C54_silence_shape :
  forall (f d : Z) (c : nat),
  0 < f ->
  2 * f <= d ->
  (1 <= c)%nat ->
  exists s : samples, silence f d c = Ok s /\ channels s = c /\ n_samples s = Z.to_nat (d / f).
Proof. exact (@silence_shape). Qed.
Print Assumptions C54_silence_shape.
Theorem C54_silence_one_sample_refuted :
  silence 10 10 1 = Raise ValueError /\ silence 10 10 2 = Ok (Mono [0%R; 0%R]).
Proof. exact (@silence_one_sample_refuted). Qed.
Print Assumptions C54_silence_one_sample_refuted.
Theorem C54_silence_like_refuted :
  forall (s : samples) (f d : Z) (x : samples), silence_like s f d = Ok x -> all_equal 1 x.
Proof. exact (@silence_like_loud). Qed.
Print Assumptions C54_silence_like_refuted.
Theorem C54_pad_mono :
  forall (x : list R) (f d : Z),
  0 < f ->
  2 * f <= d -> pad_with_silence (Mono x) f d = Ok (Mono (x ++ repeat 0%R (Z.to_nat (d / f)))).
Proof. exact (@pad_mono). Qed.
Print Assumptions C54_pad_mono.
Theorem C54_pad_stereo_refuted :
  forall (rows : list (list R)) (f d : Z),
  exists e : exn, pad_with_silence (Multi 2 rows) f d = Raise e.
Proof. exact (@pad_stereo_refuted). Qed.
Print Assumptions C54_pad_stereo_refuted.

(** C73: [ma_row agg c row]: is a frame [row], whose centre is column [c], reported? *)
Theorem C73_reported :
  forall (agg : list Q -> Q) (c : nat) (row : list Q),
  (2 <= c < Datatypes.length row)%nat ->
  exists b : bool,
    ma_row agg (Z.of_nat c) row = Ok b /\
    (b = true <->
     (nth (c - 2) row 0 < nth (c - 1) row 0)%Q /\
     (nth c row 0 < nth (c - 1) row 0)%Q /\ (agg row * (5 # 4) < nth c row 0)%Q).
Proof. exact (@ma_row_spec). Qed.
Print Assumptions C73_reported.
Theorem C73_center_peak_refuted :
  forall (agg : list Q -> Q) (c : nat) (row : list Q),
  (2 <= c < Datatypes.length row)%nat ->
  (nth (c - 1) row 0 < nth c row 0)%Q -> ma_row agg (Z.of_nat c) row = Ok false.
Proof. exact (@ma_center_peak_refuted). Qed.
Print Assumptions C73_center_peak_refuted.
Theorem C73_spike_refuted :
  exists row : list Q,
    Datatypes.length row = 9%nat /\
    (forall k : nat, (k < 9)%nat -> k <> 4%nat -> (nth k row 0 < nth 4 row 0)%Q) /\
    (qsum row / 9 * (5 # 4) < nth 4 row 0)%Q /\
    ma_row (fun r : list Q => (qsum r / 9)%Q) 4 row = Ok false.
Proof. exact (@ma_spike_refuted). Qed.
Print Assumptions C73_spike_refuted.

(** C59 *)
Theorem C59_value :
  forall (x : list Q) (chunk0 : list (list Q)) (chunks : list (list (list Q))),
  exists os : list (list Q),
    mot ((x :: chunk0) :: chunks) = Ok os /\
    (let stream := List.concat ((x :: chunk0) :: chunks) in
     Datatypes.length (List.concat os) = Datatypes.length stream /\
     (forall (i : nat) (frame prev : list Q),
      nth_error stream i = Some frame ->
      nth_error stream (i - 1) = Some prev ->
      nth_error (List.concat os) i = Some (mot_score (map Qabs prev) (map Qabs frame)))).
Proof. exact (@mot_value). Qed.
Print Assumptions C59_value.
Theorem C59_score :
  forall prev row : list Q,
  mot_score prev row =
  (high_frequency_content row / high_frequency_content prev *
   (high_frequency_content row / energy row))%Q.
Proof. exact (@mot_score_spec). Qed.
Print Assumptions C59_score.
Theorem C59_chunking :
  forall (x : list Q) (c0 : list (list Q)) (cs : list (list (list Q))) 
    (y : list Q) (d0 : list (list Q)) (ds : list (list (list Q))),
  List.concat ((x :: c0) :: cs) = List.concat ((y :: d0) :: ds) ->
  exists o1 o2 : list (list Q),
    mot ((x :: c0) :: cs) = Ok o1 /\
    mot ((y :: d0) :: ds) = Ok o2 /\ List.concat o1 = List.concat o2.
Proof. exact (@mot_chunking). Qed.
Print Assumptions C59_chunking.
Theorem C59_defined :
  forall row : list Q, ~ mot_hfc row == 0 /\ ~ mot_energy row == 0.
Proof. exact (@mot_defined). Qed.
Print Assumptions C59_defined.
Theorem C59_empty_first_refuted :
  forall chunks : list (list (list Q)), mot ([] :: chunks) = Raise IndexError.
Proof. exact (@mot_empty_first). Qed.
Print Assumptions C59_empty_first_refuted.
Theorem C59_flux_refuted :
  forall (A B : Type) (dist : A -> A -> B) (ndims : nat) (memory : option A) 
    (d : list A) (ds : list (list A)),
  (0 < ndims)%nat -> exists e : exn, flux_feed dist ndims memory (d :: ds) = Raise e.
Proof. exact (@flux_always_fails). Qed.
Print Assumptions C59_flux_refuted.

(** C60 *)
Theorem C60_pooled :
  forall (T A P : Type) (get_slice : list A -> T -> result (list A)) (op : list A -> result P)
    (le : T -> T -> bool),
  (forall x y : T, le x y = true \/ le y x = true) ->
  (forall x y z : T, le x y = true -> le y z = true -> le x z = true) ->
  forall (chunks : list chunk) (out : list (T * P)),
  (exists r : list A, In (Series r) chunks) ->
  pooled_run get_slice op (isort le) chunks = Ok out ->
  Permutation (map fst out) (all_slices chunks) /\
  StronglySorted (leP le) (map fst out) /\
  (forall (ts : T) (p : P),
   In (ts, p) out -> exists d : list A, get_slice (all_rows chunks) ts = Ok d /\ op d = Ok p).
Proof. exact (@pooled_total). Qed.
Print Assumptions C60_pooled.

(** C61 *)
Theorem C61_stream_total :
  forall (A F G : Type) (decode : list A -> list F) (g : F -> G),
  (forall a b : list A, exists t : list F, decode (a ++ b) = decode a ++ t) ->
  forall (chunk_size : Z -> Z) (b : list A) (bs : list (list A)),
  (forall n : Z, 0 < chunk_size n) ->
  exists fuel0 : nat,
    forall fuel : nat,
    (fuel0 <= fuel)%nat ->
    exists outs : list (list G),
      as_run decode (map g) fuel chunk_size (b :: bs) = Ok outs /\
      List.concat outs = map g (decode (List.concat (b :: bs))) /\
      (Datatypes.length (b :: bs) <= Datatypes.length outs)%nat.
Proof. exact (@audio_stream_total). Qed.
Print Assumptions C61_stream_total.
Theorem C61_read :
  forall (A : Type) (sr : Z) (samples : list A) (i : nat) (d : option Z),
  0 < sr <= 10 ^ 12 ->
  let freq := 10 ^ 12 / sr in
  (i <= Datatypes.length samples)%nat ->
  (forall n : Z, d = Some n -> 0 <= n) ->
  ogg_get sr samples (Z.of_nat i * freq) d =
  Ok
    match d with
    | Some n => firstn (Z.to_nat (n / freq)) (skipn i samples)
    | None => skipn i samples
    end.
Proof. exact (@ogg_get_spec). Qed.
Print Assumptions C61_read.
Theorem C61_iter_chunks_partial :
  forall (A : Type) (sr : Z) (samples : list A),
  0 < sr <= 10 ^ 12 ->
  let freq := 10 ^ 12 / sr in
  let n := 10 ^ 12 / freq in
  Zlen samples / n * (10 ^ 12 mod freq) < freq ->
  exists fuel0 : nat,
    forall fuel : nat,
    (fuel0 <= fuel)%nat ->
    exists (front : list (list A)) (r : list A),
      ogg_iter_chunks fuel sr samples = Ok (front ++ [r]) /\
      List.concat front ++ r = samples /\ Forall (fun c : list A => Zlen c = n) front /\ Zlen r < n.
Proof. exact (@ogg_iter_total). Qed.
Print Assumptions C61_iter_chunks_partial.
Theorem C61_iter_chunks_exact_rates :
  forall sr : Z,
  0 < sr -> 10 ^ 12 mod sr = 0 -> 10 ^ 12 mod (10 ^ 12 / sr) = 0 /\ 10 ^ 12 / (10 ^ 12 / sr) = sr.
Proof. exact (@ogg_exact_rate). Qed.
Print Assumptions C61_iter_chunks_exact_rates.
Theorem C61_iter_chunks_drift_refuted :
  forall (A : Type) (samples : list A),
  536 * 44100 <= Zlen samples ->
  ogg_get 44100 samples (534 * second_ps) (Some second_ps) =
  Ok (firstn (Z.to_nat 44100) (skipn (Z.to_nat (534 * 44100)) samples)) /\
  ogg_get 44100 samples (535 * second_ps) (Some second_ps) =
  Ok (firstn (Z.to_nat 44100) (skipn (Z.to_nat (535 * 44100 + 1)) samples)).
Proof. exact (@ogg_iter_drift_refuted). Qed.
Print Assumptions C61_iter_chunks_drift_refuted.

(** C62 *)
Theorem C62_chunk_bytes :
  forall frequency duration channels bit_depth : Z,
  0 < frequency ->
  0 <= duration ->
  0 < channels ->
  8 <= bit_depth ->
  exists frames : Z,
    chunk_size_bytes frequency duration channels bit_depth = frames * (bit_depth / 8 * channels) /\
    frames * frequency <= duration < (frames + 1) * frequency.
Proof. exact (@chunk_size_bytes_spec). Qed.
Print Assumptions C62_chunk_bytes.
Theorem C62_chunk_samples :
  forall byte_depth channels samplerate len : Z,
  0 < byte_depth ->
  0 < channels ->
  0 < samplerate -> samplerate <= chunk_size_samples byte_depth channels samplerate len.
Proof. exact (@chunk_size_samples_pos). Qed.
Print Assumptions C62_chunk_samples.
Theorem C62_chunk_margin :
  forall byte_depth channels samplerate len : Z,
  0 < byte_depth ->
  0 < channels ->
  0 < samplerate ->
  7 * (byte_depth * samplerate * channels) <= len ->
  chunk_size_samples byte_depth channels samplerate len * (byte_depth * channels) <=
  len - 6 * (byte_depth * samplerate * channels).
Proof. exact (@chunk_size_samples_margin). Qed.
Print Assumptions C62_chunk_margin.
Theorem C62_resample_total :
  forall (p q : Z) (lens : list Z),
  0 < q -> 2 * Z.abs (total (map (resample_length p q) lens) * q - total lens * p) <= Zlen lens * q.
Proof. exact (@resample_total). Qed.
Print Assumptions C62_resample_total.
Theorem C62_resample_integer :
  forall (p : Z) (lens : list Z), total (map (resample_length p 1) lens) = total lens * p.
Proof. exact (@resample_integer). Qed.
Print Assumptions C62_resample_integer.
Theorem C62_resample_chunking_refuted :
  exists lens : list Z, total (map (resample_length 1 2) lens) <> resample_length 1 2 (total lens).
Proof. exact (@resample_chunking_refuted). Qed.
Print Assumptions C62_resample_chunking_refuted.

