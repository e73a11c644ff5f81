(** Model of zounds/soundfile (MemoryBuffer, chunk sizes, AudioStream,
    OggVorbisWrapper, Resampler) and of zounds/timeseries/audiosamples.py. *)
From Verif Require Import PyBase PyFacts PyMore PyRange Time.
From Coq Require Import Reals.
Local Open Scope Z_scope.

(** ** io.BytesIO (CPython): content and position, which may lie beyond the end *)
Section Buffer.
  Context {A : Type} (zero : A).
  Record bytesio := { b_data : list A; b_pos : Z }.
  Definition new_bytesio := {| b_data := []; b_pos := 0 |}.
  (** [read(n)]; negative means everything *)
  Definition bio_read (b : bytesio) (n : Z) : bytesio * list A :=
    let rest := skipn (Z.to_nat (b_pos b)) (b_data b) in
    let d := if n <? 0 then rest else firstn (Z.to_nat n) rest in
    ({| b_data := b_data b; b_pos := b_pos b + Zlen d |}, d).
  (** [write(d)]: overwrites from the position, filling a gap with zeros *)
  Definition bio_write (b : bytesio) (d : list A) : bytesio :=
    let p := Z.to_nat (b_pos b) in
    let before := firstn p (b_data b) ++ repeat zero (p - length (b_data b)) in
    {| b_data := if Zlen d =? 0 then b_data b else before ++ d ++ skipn (p + length d) (b_data b);
       b_pos := b_pos b + Zlen d |}.
  (** [seek(offset, whence)]: a negative absolute offset is a ValueError, the others
      are clamped at zero *)
  Definition bio_seek (b : bytesio) (offset whence : Z) : result bytesio :=
    if whence =? 0 then (if offset <? 0 then Raise ValueError else Ok {| b_data := b_data b; b_pos := offset |})
    else if whence =? 1 then Ok {| b_data := b_data b; b_pos := Z.max 0 (b_pos b + offset) |}
    else if whence =? 2 then Ok {| b_data := b_data b; b_pos := Z.max 0 (Zlen (b_data b) + offset) |}
    else Raise ValueError.

  (** ** MemoryBuffer, audiostream.py:115-179 *)
  Record membuf := { m_content_length : Z; m_buf : bytesio; m_max : Z; m_tell_end : bool }.
  (** audiostream.py:127-136 *)
  Definition membuf_new (content_length max_size : Z) : membuf :=
    {| m_content_length := content_length; m_buf := new_bytesio; m_max := max_size; m_tell_end := false |}.
  Definition with_buf (m : membuf) (b : bytesio) : membuf :=
    {| m_content_length := m_content_length m; m_buf := b; m_max := m_max m; m_tell_end := m_tell_end m |}.
  (** audiostream.py:138-142 *)
  Definition mb_read (m : membuf) (count : Z) : membuf * list A :=
    let (b, d) := if count =? -1 then bio_read (m_buf m) (-1) else bio_read (m_buf m) count in (with_buf m b, d).
  (** audiostream.py:144-148 [readinto]: fills the front of the caller's buffer *)
  Definition mb_readinto (m : membuf) (buf : list A) : membuf * (list A * Z) :=
    let (m', d) := mb_read m (Zlen buf) in (m', (d ++ skipn (length d) buf, Zlen d)).
  (** audiostream.py:150-160; the seeks cannot fail *)
  Definition mb_write (m : membuf) (data : list A) : result (membuf * Z) :=
    let read_pos := b_pos (m_buf m) in
    let '(buf, read_pos) :=
      if m_max m <? read_pos then
        let (_, rest) := bio_read (m_buf m) (-1) in (bio_write new_bytesio rest, 0)
      else (m_buf m, read_pos) in
    do b1 <- bio_seek buf 0 2;
    let b2 := bio_write b1 data in
    do b3 <- bio_seek b2 read_pos 0;
    Ok (with_buf m b3, Zlen data).
  (** audiostream.py:162-167, [tell] *)
  Definition mb_tell (m : membuf) : membuf * Z :=
    if m_tell_end m then
      ({| m_content_length := m_content_length m; m_buf := m_buf m; m_max := m_max m; m_tell_end := false |},
       m_content_length m)
    else (m, b_pos (m_buf m)).
  (** audiostream.py:169-174 *)
  Definition mb_seek (m : membuf) (offset whence : Z) : result membuf :=
    do b <- bio_seek (m_buf m) offset whence;
    Ok {| m_content_length := m_content_length m; m_buf := b; m_max := m_max m;
          m_tell_end := if whence =? 2 then true else m_tell_end m |}.

  (** one call on the buffer and what it returns *)
  Inductive op := Read (count : Z) | ReadInto (buf : list A) | Write (data : list A).
  Definition mb_op (m : membuf) (o : op) : result (membuf * list A) :=
    match o with
    | Read c => Ok (mb_read m c)
    | ReadInto buf => let '(m', (filled, n)) := mb_readinto m buf in Ok (m', firstn (Z.to_nat n) filled)
    | Write d => do (m', _) <- mb_write m d; Ok (m', [])
    end.
  Fixpoint mb_history (m : membuf) (ops : list op) : result (membuf * list (list A)) :=
    match ops with
    | [] => Ok (m, [])
    | o :: rest => do (m1, d) <- mb_op m o; do (m2, ds) <- mb_history m1 rest; Ok (m2, d :: ds)
    end.
End Buffer.
Arguments op _ : clear implicits.
Arguments membuf _ : clear implicits.

(** chunksize.py:28-31 [int(ChunkSizeBytes)] *)
Definition chunk_size_bytes (frequency duration channels bit_depth : Z) : Z :=
  let byte_depth := bit_depth / 8 in
  let total_samples := trunc_div duration frequency in
  total_samples * byte_depth * channels.

(** byte_depth.py:19-33 [chunk_size_samples]: [secs] is the rational n/d *)
Definition chunk_size_samples (byte_depth channels samplerate len_buf : Z) : Z :=
  let bytes_per_second := byte_depth * samplerate * channels in
  let num := len_buf - 6 * bytes_per_second in
  if num <? bytes_per_second then samplerate
  else trunc_div (num * samplerate) bytes_per_second.

(** ** AudioStream, audiostream.py:62-112.  The decoder (libsndfile) is abstract:
    [decode bytes] are the sample frames that can be decoded once [bytes] have been
    written, and [sf.read(n)] returns the next at most [n] of them.  Simplification:
    formats for which libsndfile stops for good after a short read (byte_depth.py:24-26)
    do not have such a decoder. *)
Section AudioStream.
  Context {A F G : Type} (decode : list A -> list F) (to_mono : list F -> list G).
  Record as_state := { as_bytes : list A; as_read : nat; as_chunk : option Z }.
  Definition as_init := {| as_bytes := []; as_read := 0; as_chunk := None |}.
  (** audiostream.py:85-91 [_get_samples] *)
  Definition get_samples (st : as_state) (n : Z) : as_state * list F :=
    let d := firstn (Z.to_nat n) (skipn (as_read st) (decode (as_bytes st))) in
    ({| as_bytes := as_bytes st; as_read := as_read st + length d; as_chunk := as_chunk st |}, d).
  (** audiostream.py:93-106 [_process]; the chunk size is fixed by the first chunk *)
  Definition as_process (chunk_size : Z -> Z) (st : as_state) (b : list A) : as_state * list G :=
    let n := match as_chunk st with Some n => n | None => chunk_size (Zlen b) end in
    let (st', d) := get_samples {| as_bytes := as_bytes st ++ b; as_read := as_read st; as_chunk := Some n |} n in
    (st', to_mono d).
  (** audiostream.py:108-112 [_last_chunk]; [fuel] bounds the iterations *)
  Fixpoint as_last_chunk (fuel : nat) (st : as_state) (n : Z) : list (list G) :=
    match fuel with
    | O => []
    | S f => let (st', d) := get_samples st n in
             match d with [] => [] | _ => to_mono d :: as_last_chunk f st' n end
    end.
  Fixpoint as_feed (chunk_size : Z -> Z) (st : as_state) (chunks : list (list A)) : as_state * list (list G) :=
    match chunks with
    | [] => (st, [])
    | b :: bs => let (st1, o) := as_process chunk_size st b in
                 let (st2, os) := as_feed chunk_size st1 bs in (st2, o :: os)
    end.
  (** an empty stream has no decoder: AttributeError in [_last_chunk] *)
  Definition as_run (fuel : nat) (chunk_size : Z -> Z) (chunks : list (list A)) : result (list (list G)) :=
    let (st, os) := as_feed chunk_size as_init chunks in
    match as_chunk st with
    | None => Raise AttributeError
    | Some n => Ok (os ++ as_last_chunk fuel st n)
    end.
End AudioStream.

(** ** OggVorbisWrapper, ogg_vorbis.py:10-54 *)
Section OggWrapper.
  Context {A : Type}.
  (** ogg_vorbis.py:14: a timedelta divided by an int is truncated *)
  Definition ogg_freq (samplerate : Z) : Z := 10 ^ 12 / samplerate.
  (** [sf.seek(p)] then [sf.read(n)] on the decoded samples; libsndfile refuses to
      seek beyond the end *)
  Definition sf_read_at (samples : list A) (start n : Z) : result (list A) :=
    if (start <? 0) || (Zlen samples <? start) then Raise RuntimeError
    else let rest := skipn (Z.to_nat start) samples in
         Ok (if n <? 0 then rest else firstn (Z.to_nat n) rest).
  (** ogg_vorbis.py:28-45 with a TimeSlice (start, duration) in picoseconds *)
  Definition ogg_get (samplerate : Z) (samples : list A) (start : Z) (duration : option Z) : result (list A) :=
    let freq := ogg_freq samplerate in
    let n := match duration with None => -1 | Some d => trunc_div d freq end in
    sf_read_at samples (trunc_div start freq) n.
  (** ogg_vorbis.py:47-54 [iter_chunks]: one second at a time until a short chunk *)
  Definition second_ps : Z := 10 ^ 12.
  Fixpoint ogg_iter (fuel : nat) (samplerate : Z) (samples : list A) (start : Z) : result (list (list A)) :=
    match fuel with
    | O => Ok []
    | S f =>
        do sl <- ogg_get samplerate samples start (Some second_ps);
        if trunc_div second_ps (ogg_freq samplerate) <=? Zlen sl then
          do r <- ogg_iter f samplerate samples (start + second_ps); Ok (sl :: r)
        else Ok [sl]
    end.
  Definition ogg_iter_chunks (fuel : nat) (samplerate : Z) (samples : list A) := ogg_iter fuel samplerate samples 0.

  (** audiosamples.py:211-221 (OGG) and ogg_vorbis.py:165-174: what is written to the
      encoder; other formats are written in one piece (audiosamples.py:222-224) *)
  Definition ogg_writes (samples_per_second : Z) (samples : list A) : result (list (list A)) :=
    let chunksize := samples_per_second * 20 in
    do is <- py_range 0 (Zlen samples) chunksize;
    Ok (map (fun i => py_slice (Some i) (Some (i + chunksize)) samples) is).
  Definition encode_writes (fmt_ogg : bool) (samples_per_second : Z) (samples : list A) : result (list (list A)) :=
    if fmt_ogg then ogg_writes samples_per_second samples else Ok [samples].
End OggWrapper.

(** ** Resample, resample.py:70-72: the length of the output for one chunk, for a
    ratio p/q ([np.round] is half to even) *)
Definition resample_length (p q len : Z) : Z := round_half_even (len * p) q.

(** ** AudioSamples, audiosamples.py.  One axis (mono) or two (rows of channels). *)
Inductive samples :=
| Mono (x : list R)
| Multi (channels : nat) (rows : list (list R)).
Definition wf_samples (s : samples) : Prop :=
  match s with Mono _ => True | Multi c rows => Forall (fun r => length r = c) rows end.
(** audiosamples.py:134-138 *)
Definition channels (s : samples) : nat := match s with Mono _ => 1 | Multi c _ => c end.
Definition n_samples (s : samples) : nat := match s with Mono x => length x | Multi _ r => length r end.
(** the value of channel [c] at sample [i] *)
Definition sample_at (s : samples) (i c : nat) : option R :=
  match s with
  | Mono x => match c with O => nth_error x i | S _ => None end
  | Multi _ rows => match nth_error rows i with Some r => nth_error r c | None => None end
  end.
Definition rsum (l : list R) : R := fold_right Rplus 0%R l.
(** audiosamples.py:144-154 [mono] *)
Definition to_mono (s : samples) : samples :=
  if Nat.eqb (channels s) 1 then s
  else match s with
       | Mono x => Mono x
       | Multi _ rows => Mono (map (fun r => (rsum r * (1 / 2)) * (1 / 2))%R rows)
       end.
(** numpy transpose of [rows] with [c] columns *)
Definition transpose (c : nat) (rows : list (list R)) : list (list R) :=
  map (fun j => map (fun r => nth j r 0%R) rows) (seq 0 c).
(** audiosamples.py:156-160 [stereo]: [np.vstack([self, self]).T] *)
Definition to_stereo (s : samples) : samples :=
  if Nat.eqb (channels s) 2 then s
  else match s with
       | Mono x => Multi 2 (transpose (length x) [x; x])
       | Multi c rows => Multi (length (rows ++ rows)) (transpose c (rows ++ rows))
       end.
(** audiosamples.py:85-89 [silence]: [squeeze] drops every axis of size one; a
    0-dimensional array is refused by AudioSamples (audiosamples.py:44-51) *)
Definition silence_filled (v : R) (n : Z) (channels : nat) : result samples :=
  if n <? 0 then Raise ValueError
  else match Z.to_nat n, channels with
       | 1%nat, 1%nat => Raise ValueError
       | 1%nat, c => Ok (Mono (repeat v c))
       | m, 1%nat => Ok (Mono (repeat v m))
       | m, c => Ok (Multi c (repeat (repeat v c) m))
       end.
Definition silence (frequency duration : Z) (channels : nat) : result samples :=
  silence_filled 0%R (trunc_div duration frequency) channels.
(** audiosamples.py:91-95 [silence_like]: [x[:] = 1] *)
Definition silence_like (s : samples) (frequency duration : Z) : result samples :=
  do x <- silence frequency duration (channels s);
  Ok (match x with
      | Mono l => Mono (map (fun _ => 1%R) l)
      | Multi c rows => Multi c (map (map (fun _ => 1%R)) rows)
      end).
(** audiosamples.py:97-100 [pad_with_silence]: the silence is mono; concatenating
    arrays with different numbers of axes is a ValueError *)
Definition pad_with_silence (s : samples) (frequency duration : Z) : result samples :=
  do x <- silence frequency duration 1;
  match s, x with
  | Mono a, Mono b => Ok (Mono (a ++ b))
  | _, _ => Raise ValueError
  end.
