(** Properties C95 (OggVorbis), C96 (Resampler), C97 (MetaData). *)
From Coq Require Import ZArith String.
From Verif Require Import PyBase PyFacts PyMore PyRange Time Audio AudioProofs SoundNodes SoundNodesProofs SoundNodesProofs2 SoundNodesProofs3.
Local Open Scope Z_scope.
Theorem C95_transcodes :
  forall (A F : Type) (zero : A) (decode : list A -> list F) (is_ogg : list A -> bool)
    (rate chunk_size : list A -> Z) (enc_open : list A)
    (enc_write : list (list F) -> list F -> list A) (enc_close : list (list F) -> list A),
  (forall a b : list A, exists t : list F, decode (a ++ b) = decode a ++ t) ->
  forall (b : list A) (bs : list (list A)) (fuel : nat),
  is_ogg b = false ->
  0 < chunk_size b ->
  0 < rate b ->
  (Datatypes.length (decode (concat (b :: bs))) < fuel)%nat ->
  exists (s : ogg_state A F) (outs : list (list A)),
    ogg_node zero decode is_ogg rate chunk_size enc_open enc_write enc_close fuel (b :: bs) =
    Ok (OEncode s, outs) /\
    concat (o_written s) = decode (concat (b :: bs)) /\
    (forall w : list F, In w (o_written s) -> 0 < Zlen w <= 20 * rate b) /\
    concat outs = ogg_file enc_open enc_write enc_close (o_written s) /\
    Datatypes.length outs = S (Datatypes.length (b :: bs)).
Proof. exact (@ogg_transcodes). Qed.
Print Assumptions C95_transcodes.
Theorem C95_passes :
  forall (A F : Type) (zero : A) (decode : list A -> list F) (is_ogg : list A -> bool)
    (rate chunk_size : list A -> Z) (enc_open : list A)
    (enc_write : list (list F) -> list F -> list A) (enc_close : list (list F) -> list A)
    (b : list A) (bs : list (list A)) (fuel : nat),
  is_ogg b = true ->
  exists o : ogg A F,
    ogg_node zero decode is_ogg rate chunk_size enc_open enc_write enc_close fuel (b :: bs) =
    Ok (o, b :: bs).
Proof. exact (@ogg_passes). Qed.
Print Assumptions C95_passes.
Theorem C95_chunking :
  forall (A F : Type) (zero : A) (decode : list A -> list F) (is_ogg : list A -> bool)
    (rate chunk_size : list A -> Z) (enc_open : list A)
    (enc_write : list (list F) -> list F -> list A) (enc_close : list (list F) -> list A),
  (forall a b : list A, exists t : list F, decode (a ++ b) = decode a ++ t) ->
  forall (b : list A) (bs : list (list A)) (c : list A) (cs : list (list A)) (fuel : nat),
  (forall ws ws' : list (list F),
   concat ws = concat ws' ->
   ogg_file enc_open enc_write enc_close ws = ogg_file enc_open enc_write enc_close ws') ->
  concat (b :: bs) = concat (c :: cs) ->
  is_ogg b = is_ogg c ->
  0 < chunk_size b ->
  0 < chunk_size c ->
  0 < rate b ->
  0 < rate c ->
  (Datatypes.length (decode (concat (b :: bs))) < fuel)%nat ->
  exists (o : ogg A F) (outs : list (list A)) (o' : ogg A F) (outs' : list (list A)),
    ogg_node zero decode is_ogg rate chunk_size enc_open enc_write enc_close fuel (b :: bs) =
    Ok (o, outs) /\
    ogg_node zero decode is_ogg rate chunk_size enc_open enc_write enc_close fuel (c :: cs) =
    Ok (o', outs') /\ concat outs = concat outs'.
Proof. exact (@ogg_chunking). Qed.
Print Assumptions C95_chunking.
Theorem C95_nothing_refuted :
  forall (A F : Type) (zero : A) (decode : list A -> list F) (is_ogg : list A -> bool)
    (rate chunk_size : list A -> Z) (enc_open : list A)
    (enc_write : list (list F) -> list F -> list A) (enc_close : list (list F) -> list A)
    (fuel : nat),
  ogg_node zero decode is_ogg rate chunk_size enc_open enc_write enc_close fuel [] =
  Raise AttributeError.
Proof. exact (@ogg_nothing_refuted). Qed.
Print Assumptions C95_nothing_refuted.
Theorem C96_same_rate :
  forall (V Q : Type) (zero : V) (src_new : Q)
    (src : Q -> list (list V) -> nat -> bool -> Q * list (list V)) (rate : Z) 
    (channels : nat) (chunks : list (list (list V))),
  0 < rate -> resampler_node zero src_new src rate rate channels chunks = Ok chunks.
Proof. exact (@resampler_same). Qed.
Print Assumptions C96_same_rate.
Theorem C96_runs :
  forall (V Q : Type) (zero : V) (src_new : Q)
    (src : Q -> list (list V) -> nat -> bool -> Q * list (list V)) (new old : Z) 
    (channels : nat) (x : list (list V)) (xs : list (list (list V))),
  new <> old ->
  old <= 256 * new ->
  new <= 256 * old ->
  nframes new old (repeat (repeat zero channels) (Z.to_nat new)) <> 1%nat ->
  (forall c : list (list V), In c (x :: xs) -> nframes new old c <> 1%nat) ->
  resampler_node zero src_new src new old channels (x :: xs) =
  Ok (run zero src new old channels (primed zero src_new src new old channels) (x :: xs)).
Proof. exact (@resampler_runs). Qed.
Print Assumptions C96_runs.
Theorem C96_lengths :
  forall (V Q : Type) (zero : V) (src_new : Q)
    (src : Q -> list (list V) -> nat -> bool -> Q * list (list V)) (new old : Z) 
    (channels : nat) (x : list (list V)) (xs : list (list (list V))),
  new <> old ->
  old <= 256 * new ->
  new <= 256 * old ->
  nframes new old (repeat (repeat zero channels) (Z.to_nat new)) <> 1%nat ->
  (forall c : list (list V), In c (x :: xs) -> nframes new old c <> 1%nat) ->
  exists outs : list (list (list V)),
    resampler_node zero src_new src new old channels (x :: xs) = Ok outs /\
    map (Datatypes.length (A:=list V)) outs =
    map (fun c : list (list V) => Z.to_nat (round_half_even (Zlen c * new) old)) (x :: xs).
Proof. exact (@resampler_lengths). Qed.
Print Assumptions C96_lengths.
Theorem C96_ratio :
  forall (V Q : Type) (zero : V) (src_new : Q)
    (src : Q -> list (list V) -> nat -> bool -> Q * list (list V)) (new old : Z) 
    (channels : nat) (x : list (list V)) (xs : list (list (list V))),
  256 * new < old \/ 256 * old < new ->
  resampler_node zero src_new src new old channels (x :: xs) = Raise ValueError.
Proof. exact (@resampler_ratio). Qed.
Print Assumptions C96_ratio.
Theorem C96_silence_long :
  forall (V : Type) (zero : V) (new old : Z) (channels : nat),
  0 < old ->
  2 * new * new > 3 * old ->
  nframes new old (repeat (repeat zero channels) (Z.to_nat new)) <> 1%nat.
Proof. exact (@silence_long). Qed.
Print Assumptions C96_silence_long.
Theorem C96_one_frame_refuted :
  forall (V Q : Type) (zero : V) (src_new : Q)
    (src : Q -> list (list V) -> nat -> bool -> Q * list (list V)) (new old : Z)
    (x : list (list V)) (xs : list (list (list V))),
  new <> old ->
  old <= 256 * new ->
  new <= 256 * old ->
  nframes new old x = 1%nat ->
  (nframes new old (repeat (repeat zero 1) (Z.to_nat new)) <> 1%nat ->
   resampler_node zero src_new src new old 1 (x :: xs) = Raise TypeError) /\
  (forall channels : nat,
   (1 < channels)%nat ->
   nframes new old (repeat (repeat zero channels) (Z.to_nat new)) <> 1%nat ->
   resampler_node zero src_new src new old channels (x :: xs) = Raise Crash).
Proof. exact (@one_frame_refuted). Qed.
Print Assumptions C96_one_frame_refuted.
Theorem C96_cut_refuted :
  forall (V Q : Type) (zero : V) (src_new : Q)
    (src : Q -> list (list V) -> nat -> bool -> Q * list (list V)) (p : Z) 
    (channels : nat) (x : list (list V)),
  2 < p ->
  (2 < Datatypes.length x)%nat ->
  Nat.Even (Datatypes.length x) ->
  (exists outs : list (list (list V)),
     resampler_node zero src_new src p (2 * p) channels (map (fun f : list V => [f]) x) = Ok outs /\
     concat outs = []) /\
  (exists out : list (list V),
     resampler_node zero src_new src p (2 * p) channels [x] = Ok [out] /\
     (2 * Datatypes.length out)%nat = Datatypes.length x).
Proof. exact (@resampler_cut_refuted). Qed.
Print Assumptions C96_cut_refuted.
Theorem C96_samples_same :
  forall (V Q : Type) (zero : V) (src_new : Q)
    (src : Q -> list (list V) -> nat -> bool -> Q * list (list V)) (rate : Z) 
    (channels : nat) (x : list (list V)),
  resample_samples zero src_new src rate rate channels x = Ok x.
Proof. exact (@resample_samples_same). Qed.
Print Assumptions C96_samples_same.
Theorem C96_samples :
  forall (V Q : Type) (zero : V) (src_new : Q)
    (src : Q -> list (list V) -> nat -> bool -> Q * list (list V)) (new old : Z) 
    (channels : nat) (x : list (list V)),
  new <> old ->
  old <= 256 * new ->
  new <= 256 * old ->
  nframes new old (repeat (repeat zero channels) (Z.to_nat new)) <> 1%nat ->
  nframes new old x <> 1%nat ->
  resample_samples zero src_new src new old channels x =
  Ok
    (fitted zero channels (nframes new old x)
       (snd (src (primed zero src_new src new old channels) x (nframes new old x) false))).
Proof. exact (@resample_samples_ok). Qed.
Print Assumptions C96_samples.
Theorem C97_kept :
  forall (file other : Type) (parsed : string -> string * string) (path_exists : string -> bool)
    (open_text : string -> result (Z * Z)) (open_file : file -> result (Z * Z))
    (truthy : other -> bool) (m : meta file other),
  metadata parsed path_exists open_text open_file truthy (SMeta m) = Ok m.
Proof. exact (@meta_kept). Qed.
Print Assumptions C97_kept.
Theorem C97_url :
  forall (file other : Type) (parsed : string -> string * string) (path_exists : string -> bool)
    (open_text : string -> result (Z * Z)) (open_file : file -> result (Z * Z))
    (truthy : other -> bool) (t : string),
  url_like parsed t ->
  metadata parsed path_exists open_text open_file truthy (SUri (UText t)) =
  Ok
    (only (URequest {| q_url := t; q_headers := [("Range"%string, "bytes=0-"%string)] |}) None None).
Proof. exact (@meta_url). Qed.
Print Assumptions C97_url.
Theorem C97_request :
  forall (file other : Type) (parsed : string -> string * string) (path_exists : string -> bool)
    (open_text : string -> result (Z * Z)) (open_file : file -> result (Z * Z))
    (truthy : other -> bool) (q : request),
  exists h : list (string * string),
    metadata parsed path_exists open_text open_file truthy (SUri (URequest q)) =
    Ok (only (URequest {| q_url := q_url q; q_headers := q_headers q ++ h |}) None None) /\
    (lookup "range" (q_headers q) <> [] -> h = []) /\
    (lookup "range" (q_headers q) = [] -> h = [("range"%string, "bytes=0-"%string)]).
Proof. exact (@meta_request). Qed.
Print Assumptions C97_request.
Theorem C97_range_refuted :
  forall (file other : Type) (parsed : string -> string * string) (path_exists : string -> bool)
    (open_text : string -> result (Z * Z)) (open_file : file -> result (Z * Z))
    (truthy : other -> bool) (url from : string),
  metadata parsed path_exists open_text open_file truthy
    (SUri (URequest {| q_url := url; q_headers := [("Range"%string, from)] |})) =
  Ok
    (only
       (URequest
          {|
            q_url := url;
            q_headers := [("Range"%string, from); ("range"%string, "bytes=0-"%string)]
          |}) None None).
Proof. exact (@meta_range_refuted). Qed.
Print Assumptions C97_range_refuted.
Theorem C97_local :
  forall (file other : Type) (parsed : string -> string * string) (path_exists : string -> bool)
    (open_text : string -> result (Z * Z)) (open_file : file -> result (Z * Z))
    (truthy : other -> bool) (t : string),
  ~ url_like parsed t ->
  path_exists t = true ->
  t <> ""%string ->
  (forall rate channels : Z,
   open_text t = Ok (rate, channels) ->
   metadata parsed path_exists open_text open_file truthy (SUri (UText t)) =
   Ok (only (UText t) (Some rate) (Some channels))) /\
  (forall e : exn,
   open_text t = Raise e ->
   metadata parsed path_exists open_text open_file truthy (SUri (UText t)) = Raise e).
Proof. exact (@meta_local). Qed.
Print Assumptions C97_local.
Theorem C97_file :
  forall (file other : Type) (parsed : string -> string * string) (path_exists : string -> bool)
    (open_text : string -> result (Z * Z)) (open_file : file -> result (Z * Z))
    (truthy : other -> bool) (f : file),
  (forall rate channels : Z,
   open_file f = Ok (rate, channels) ->
   metadata parsed path_exists open_text open_file truthy (SUri (UFile f)) =
   Ok (only (UFile f) (Some rate) (Some channels))) /\
  (forall e : exn,
   open_file f = Raise e ->
   metadata parsed path_exists open_text open_file truthy (SUri (UFile f)) = Raise e).
Proof. exact (@meta_file). Qed.
Print Assumptions C97_file.
Theorem C97_text :
  forall (file other : Type) (parsed : string -> string * string) (path_exists : string -> bool)
    (open_text : string -> result (Z * Z)) (open_file : file -> result (Z * Z))
    (truthy : other -> bool) (t : string),
  ~ url_like parsed t ->
  path_exists t = false ->
  metadata parsed path_exists open_text open_file truthy (SUri (UText t)) =
  (if (t =? "")%string then Raise ValueError else Ok (only (UText t) None None)).
Proof. exact (@meta_text). Qed.
Print Assumptions C97_text.
Theorem C97_other :
  forall (file other : Type) (parsed : string -> string * string) (path_exists : string -> bool)
    (open_text : string -> result (Z * Z)) (open_file : file -> result (Z * Z))
    (truthy : other -> bool) (o : other),
  metadata parsed path_exists open_text open_file truthy (SUri (UOther o)) =
  (if truthy o then Ok (only (UOther o) None None) else Raise ValueError).
Proof. exact (@meta_other). Qed.
Print Assumptions C97_other.
Theorem C97_stored :
  forall (file other : Type) (m : meta file other),
  (forall t : string, m_uri m = UText t -> encode_meta m = Ok (stored (JText t) m)) /\
  (forall q : request, m_uri m = URequest q -> encode_meta m = Ok (stored (JText (q_url q)) m)) /\
  (forall f : file, m_uri m = UFile f -> encode_meta m = Ok (stored JNull m)) /\
  (forall o : other, m_uri m = UOther o -> encode_meta m = Raise TypeError).
Proof. exact (@meta_stored). Qed.
Print Assumptions C97_stored.
Theorem C97_url_stored :
  forall (file other : Type) (parsed : string -> string * string) (path_exists : string -> bool)
    (open_text : string -> result (Z * Z)) (open_file : file -> result (Z * Z))
    (truthy : other -> bool) (t : string),
  url_like parsed t ->
  exists m : meta file other,
    metadata parsed path_exists open_text open_file truthy (SUri (UText t)) = Ok m /\
    encode_meta m = Ok (stored (JText t) m).
Proof. exact (@meta_url_stored). Qed.
Print Assumptions C97_url_stored.
Theorem C97_same_fields :
  forall (file other : Type) (eq_uri : uri file other -> uri file other -> bool)
    (a b : meta file other),
  same_meta eq_uri a b = true <->
  eq_uri (m_uri a) (m_uri b) = true /\
  m_samplerate a = m_samplerate b /\
  m_channels a = m_channels b /\
  m_licensing a = m_licensing b /\ m_description a = m_description b /\ m_tags a = m_tags b.
Proof. exact (@meta_same_fields). Qed.
Print Assumptions C97_same_fields.
Theorem C97_extra_refuted :
  forall (file other : Type) (eq_uri : uri file other -> uri file other -> bool)
    (u : uri file other) (extra : list (string * string)),
  eq_uri u u = true ->
  same_meta eq_uri (only u None None)
    {|
      m_uri := u;
      m_samplerate := None;
      m_channels := None;
      m_licensing := None;
      m_description := None;
      m_tags := None;
      m_extra := extra
    |} = true.
Proof. exact (@meta_extra_refuted). Qed.
Print Assumptions C97_extra_refuted.

