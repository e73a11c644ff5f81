(** Model of the remaining nodes of zounds/soundfile: OggVorbis (ogg_vorbis.py:143-207), Resample
    and Resampler (resample.py), functional.resample, MetaData and AudioMetaDataEncoder
    (audio_metadata.py).  libsndfile and libsamplerate are parameters. *)
From Coq Require Import ZArith String.
From Verif Require Import PyBase PyFacts PyMore PyRange Time Audio.
Local Open Scope Z_scope.

(** ** OggVorbis *)
Section Ogg.
  (** [decode bytes]: the frames that can be decoded once [bytes] are there (as for AudioStream);
      [is_ogg], [rate], [chunk_size]: what SoundFile finds in the first chunk (ogg_vorbis.py:152-160).
      The encoder: the bytes SoundFile writes when it is opened, for one more piece of frames after
      the pieces before it, and when it is closed. *)
  Context {A F : Type} (zero : A) (decode : list A -> list F) (is_ogg : list A -> bool) (rate : list A -> Z) (chunk_size : list A -> Z)
          (enc_open : list A) (enc_write : list (list F) -> list F -> list A) (enc_close : list (list F) -> list A).

  (** what is set by the first [_enqueue]: ogg_vorbis.py:152-176 *)
  Record ogg_state := {
    o_in : list A;                (* the bytes of [_in_buf] *)
    o_read : nat;                 (* frames read from [_in_sf] so far *)
    o_chunk : Z; o_rate : Z;
    o_out : membuf A;             (* [_out_buf] *)
    o_written : list (list F) }.  (* what [_out_sf.write] has been given *)
  Inductive ogg := OFresh | OPass (cache : option (list A)) | OEncode (s : ogg_state).

  (** SoundFile.write: the encoder's bytes go to the buffer, audiostream.py:150-160 *)
  Definition sf_write (s : ogg_state) (frames : list F) : result ogg_state :=
    do r <- mb_write zero (o_out s) (enc_write (o_written s) frames);
    Ok {| o_in := o_in s; o_read := o_read s; o_chunk := o_chunk s; o_rate := o_rate s; o_out := fst r; o_written := (o_written s ++ [frames])%list |}.
  Fixpoint sf_writes (s : ogg_state) (pieces : list (list F)) : result ogg_state :=
    match pieces with
    | [] => Ok s
    | p :: ps => do s' <- sf_write s p; sf_writes s' ps
    end.
  (** [_in_sf.read(n)] *)
  Definition sf_read (s : ogg_state) : ogg_state * list F :=
    let d := firstn (Z.to_nat (o_chunk s)) (skipn (o_read s) (decode (o_in s))) in
    ({| o_in := o_in s; o_read := o_read s + length d; o_chunk := o_chunk s; o_rate := o_rate s; o_out := o_out s; o_written := o_written s |}, d).
  (** ogg_vorbis.py:183-191: read and write until there is nothing left to decode *)
  Fixpoint transcode (fuel : nat) (s : ogg_state) : result ogg_state :=
    match fuel with
    | O => Ok s
    | S f =>
        let (s1, d) := sf_read s in
        match d with
        | [] => Ok s1
        | _ => do pieces <- ogg_writes (o_rate s) d; do s2 <- sf_writes s1 pieces; transcode f s2
        end
    end.
  (** ogg_vorbis.py:152-176 [_enqueue] *)
  Definition ogg_enqueue (o : ogg) (data : list A) : result ogg :=
    match o with
    | OFresh =>
        if is_ogg data then Ok (OPass (Some data))
        else
          do r <- mb_write zero (membuf_new (Zlen data) (10 * 1024 * 1024)) enc_open;
          Ok (OEncode {| o_in := data; o_read := 0; o_chunk := chunk_size data; o_rate := rate data; o_out := fst r; o_written := [] |})
    | OPass _ => Ok (OPass (Some data))
    | OEncode s => Ok (OEncode {| o_in := (o_in s ++ data)%list; o_read := o_read s; o_chunk := o_chunk s; o_rate := o_rate s; o_out := o_out s; o_written := o_written s |})
    end.
  (** ogg_vorbis.py:178-192 [_dequeue], 194-207 [_process]: [None] is NotEnoughData.  Before the
      first chunk there is no decoder. *)
  Definition ogg_dequeue (fuel : nat) (finalized : bool) (o : ogg) : result (ogg * option (list A)) :=
    match o with
    | OFresh => Raise AttributeError
    | OPass c => Ok (OPass None, c)
    | OEncode s =>
        do s1 <- transcode fuel s;
        do out <- (if finalized then do r <- mb_write zero (o_out s1) (enc_close (o_written s1)); Ok (fst r) else Ok (o_out s1));
        let (out', bytes) := mb_read out (-1) in
        Ok (OEncode {| o_in := o_in s1; o_read := o_read s1; o_chunk := o_chunk s1; o_rate := o_rate s1; o_out := out'; o_written := o_written s1 |}, Some bytes)
    end.
  Definition emitted (o : option (list A)) : list (list A) := match o with None => [] | Some b => [b] end.
  (** one dequeue per chunk, one more at the end *)
  Fixpoint ogg_feed (fuel : nat) (o : ogg) (chunks : list (list A)) : result (ogg * list (list A)) :=
    match chunks with
    | [] => Ok (o, [])
    | b :: bs =>
        do o1 <- ogg_enqueue o b;
        do r <- ogg_dequeue fuel false o1;
        do rest <- ogg_feed fuel (fst r) bs;
        Ok (fst rest, (emitted (snd r) ++ snd rest)%list)
    end.
  Definition ogg_node (fuel : nat) (chunks : list (list A)) : result (ogg * list (list A)) :=
    do r <- ogg_feed fuel OFresh chunks;
    do e <- ogg_dequeue fuel true (fst r);
    Ok (fst e, (snd r ++ emitted (snd e))%list).
End Ogg.
Arguments ogg_state : clear implicits.
Arguments ogg : clear implicits.

(** ** Resample and Resampler, resample.py *)
Section Resample.
  (** A frame has [channels] values.  libsamplerate: [src state input n end] are the new state
      and the frames generated, of which it stores at most [n]; input it has not used is not
      offered again (resample.py:97-120 ignores input_frames_used and output_frames_gen). *)
  Context {V S : Type} (zero : V) (src_new : S) (src : S -> list (list V) -> nat -> bool -> S * list (list V)).

  (** the ratio as new rate / old rate; src_is_valid_ratio accepts 1/256 to 256, resample.py:63-67 *)
  Definition valid_ratio (new old : Z) : bool := (old <=? 256 * new) && (new <=? 256 * old).
  Record resample := { r_new : Z; r_old : Z; r_channels : nat; r_state : S }.
  Definition resample_init (old new : Z) (channels : nat) : result resample :=
    if valid_ratio new old then Ok {| r_new := new; r_old := old; r_channels := channels; r_state := src_new |} else Raise ValueError.
  (** resample.py:87-89 [_output_buffer]: [squeeze] drops every axis of length one.  The shape of
      the output decides what the caller sees: a scalar has no len (TypeError); a single frame of
      several channels looks like that many frames of one channel. *)
  Inductive buffer := Frames (n : nat) | Scalar | OneFrame (channels : nat).
  Definition output_buffer (n channels : nat) : buffer :=
    if Nat.eqb n 1 then (if Nat.eqb channels 1 then Scalar else OneFrame channels) else Frames n.
  (** resample.py:97-120 [__call__].  [OneFrame] tells libsamplerate there is room for [channels]
      frames where there is room for one: a write beyond the buffer, [Crash]. *)
  Definition resample_call (r : resample) (x : list (list V)) (end_of_input : bool) : result (resample * list (list V)) :=
    let n := Z.to_nat (resample_length (r_new r) (r_old r) (Zlen x)) in
    match output_buffer n (r_channels r) with
    | Scalar => Raise TypeError
    | OneFrame _ => Raise Crash
    | Frames n =>
        let (st, gen) := src (r_state r) x n end_of_input in
        let gen := firstn n gen in
        Ok ({| r_new := r_new r; r_old := r_old r; r_channels := r_channels r; r_state := st |},
            (gen ++ repeat (repeat zero (r_channels r)) (n - length gen))%list)
    end.
  (** resample.py:193-218 [Resampler._process]: the state after a chunk and the chunk produced.
      [None] stands for a Resampler that has not seen a chunk; equal rates use [_noop]. *)
  Definition resampler_process (new : Z) (st : option resample) (old : Z) (channels : nat) (finalized : bool) (x : list (list V))
    : result (option resample * list (list V)) :=
    do r <- (match st with
             | Some r => Ok r
             | None =>
                 do r <- resample_init old new channels;
                 if new =? old then Ok r
                 else do p <- resample_call r (repeat (repeat zero channels) (Z.to_nat new)) false; Ok (fst p)
             end);
    if r_new r =? r_old r then Ok (Some r, x)
    else do p <- resample_call r x finalized; Ok (Some (fst p), snd p).
  (** one chunk after the other.  [_finalized] is only set for the dequeue after the last chunk, which
      finds nothing to process, so libsamplerate is never told that the input has ended. *)
  Fixpoint resampler_feed (new : Z) (st : option resample) (old : Z) (channels : nat) (chunks : list (list (list V))) : result (list (list (list V))) :=
    match chunks with
    | [] => Ok []
    | x :: xs =>
        do r <- resampler_process new st old channels false x;
        do rest <- resampler_feed new (fst r) old channels xs;
        Ok (snd r :: rest)
    end.
  Definition resampler_node (new old : Z) (channels : nat) (chunks : list (list (list V))) := resampler_feed new None old channels chunks.
  (** functional.py:6-11 [resample] *)
  Definition resample_samples (new old : Z) (channels : nat) (x : list (list V)) : result (list (list V)) :=
    if new =? old then Ok x else do r <- resampler_process new None old channels false x; Ok (snd r).
End Resample.

(** ** MetaData and AudioMetaDataEncoder, audio_metadata.py *)
Section Meta.
  Local Open Scope string_scope.
  (** a file-like object, or whatever else is neither a string nor known here *)
  Context {file other : Type}.
  Record request := { q_url : string; q_headers : list (string * string) }.
  Inductive uri := UText (s : string) | URequest (q : request) | UFile (f : file) | UOther (o : other).
  (** audio_metadata.py:37-64; [m_extra]: the other keyword arguments *)
  Record meta := { m_uri : uri; m_samplerate : option Z; m_channels : option Z; m_licensing : option string;
                   m_description : option string; m_tags : option string; m_extra : list (string * string) }.
  (** what the environment knows: urlparse's scheme and netloc, os.path.exists, the sample rate
      and channels SoundFile finds (or the exception it raises), whether an object is true *)
  Context (parsed : string -> string * string) (path_exists : string -> bool) (open_text : string -> result (Z * Z)) (open_file : file -> result (Z * Z)) (truthy : other -> bool).
  Definition make_meta (u : uri) (rate channels : option Z) : result meta :=
    if (match u with UText s => String.eqb s "" | UOther o => negb (truthy o) | _ => false end) then Raise ValueError
    else Ok {| m_uri := u; m_samplerate := rate; m_channels := channels; m_licensing := None; m_description := None; m_tags := None; m_extra := [] |}.
  Inductive source := SMeta (m : meta) | SUri (u : uri).
  (** audio_metadata.py:105-110 *)
  Definition is_url (s : string) : bool := let (scheme, netloc) := parsed s in negb (String.eqb scheme "") && negb (String.eqb netloc "").
  Definition has_header (k : string) (h : list (string * string)) : bool := existsb (fun p => String.eqb (fst p) k) h.
  (** audio_metadata.py:127-147; the headers of a Request are a dict, its keys are compared as they are *)
  Definition metadata (s : source) : result meta :=
    match s with
    | SMeta m => Ok m
    | SUri (UText t) =>
        if is_url t then make_meta (URequest {| q_url := t; q_headers := [("Range", "bytes=0-")] |}) None None
        else if path_exists t then do p <- open_text t; make_meta (UText t) (Some (fst p)) (Some (snd p))
        else make_meta (UText t) None None
    | SUri (URequest q) =>
        make_meta (URequest (if has_header "range" (q_headers q) then q else {| q_url := q_url q; q_headers := (q_headers q ++ [("range", "bytes=0-")])%list |})) None None
    | SUri (UFile f) => do p <- open_file f; make_meta (UFile f) (Some (fst p)) (Some (snd p))
    | SUri (UOther o) => make_meta (UOther o) None None
    end.
  (** audio_metadata.py:87-98: the dict that is written as JSON; [None] is null, an object that is
      not a string, number or None cannot be written (TypeError).  [m_extra] holds strings. *)
  Inductive jvalue := JNull | JText (s : string) | JInt (z : Z).
  Definition jopt_text (o : option string) : jvalue := match o with None => JNull | Some s => JText s end.
  Definition jopt_int (o : option Z) : jvalue := match o with None => JNull | Some z => JInt z end.
  Definition json_uri (u : uri) : result jvalue :=
    match u with
    | URequest q => Ok (JText (q_url q))
    | UFile _ => Ok JNull
    | UText s => Ok (JText s)
    | UOther _ => Raise TypeError
    end.
  Definition encode_meta (m : meta) : result (list (string * jvalue)) :=
    do u <- json_uri (m_uri m);
    Ok ([("uri", u); ("samplerate", jopt_int (m_samplerate m)); ("channels", jopt_int (m_channels m)); ("licensing", jopt_text (m_licensing m));
         ("description", jopt_text (m_description m)); ("tags", jopt_text (m_tags m))] ++ map (fun p => (fst p, JText (snd p))) (m_extra m))%list.
  (** audio_metadata.py:66-72 *)
  Definition same_meta (eq_uri : uri -> uri -> bool) (a b : meta) : bool :=
    eq_uri (m_uri a) (m_uri b) && (match m_samplerate a, m_samplerate b with Some x, Some y => Z.eqb x y | None, None => true | _, _ => false end)
    && (match m_channels a, m_channels b with Some x, Some y => Z.eqb x y | None, None => true | _, _ => false end)
    && (match m_licensing a, m_licensing b with Some x, Some y => String.eqb x y | None, None => true | _, _ => false end)
    && (match m_description a, m_description b with Some x, Some y => String.eqb x y | None, None => true | _, _ => false end)
    && (match m_tags a, m_tags b with Some x, Some y => String.eqb x y | None, None => true | _, _ => false end).
End Meta.
Arguments uri : clear implicits.
Arguments meta : clear implicits.
Arguments source : clear implicits.
