(** Model of the datasets that describe every sound by an AudioMetaData: zounds/datasets/nsynth.py,
    musicnet.py, phatdrumloops.py, internetarchive.py, freesound.py and predownload.py, with the
    constructor of AudioMetaData (soundfile/audio_metadata.py:37-64).  Values of metadata are of any
    type [V] that has None, text and numbers; bytes are of any type. *)
From Coq Require Import ZArith String Ascii.
From Verif Require Import PyBase PyFacts PyMore.
Local Open Scope string_scope.
Local Open Scope list_scope.

(** ** Python's dict, in order of insertion *)
Section Dict.
  Context {V : Type}.
  Definition dict := list (string * V).
  Fixpoint dict_get (d : dict) (k : string) : option V :=
    match d with [] => None | (k', v) :: r => if String.eqb k' k then Some v else dict_get r k end.
  Fixpoint dict_set (d : dict) (k : string) (v : V) : dict :=
    match d with [] => [(k, v)] | (k', v') :: r => if String.eqb k' k then (k', v) :: r else (k', v') :: dict_set r k v end.
  Definition dict_update (d u : dict) : dict := fold_left (fun d p => dict_set d (fst p) (snd p)) u d.
  Definition keys (d : dict) : list string := map fst d.
End Dict.
Arguments dict : clear implicits.
Definition mem (k : string) (l : list string) : bool := existsb (String.eqb k) l.

(** ** os.path *)
Definition slash : ascii := "/"%char.
Definition dot : ascii := "."%char.
(** [s.rfind(c) + 1] *)
Fixpoint after_last (c : ascii) (s : list ascii) : nat :=
  match s with
  | [] => 0
  | x :: r => match after_last c r with O => if Ascii.eqb x c then 1 else 0 | S n => S (S n) end
  end%nat.
(** posixpath.split(name)[1] *)
Definition basename (s : list ascii) : list ascii := skipn (after_last slash s) s.
(** genericpath._splitext(name)[0]: up to the last dot, unless there are only dots before it *)
Definition stem (s : list ascii) : list ascii :=
  let sep := after_last slash s in let d := after_last dot s in
  if Nat.ltb sep d then
    if existsb (fun c => negb (Ascii.eqb c dot)) (firstn (d - 1 - sep) (skipn sep s)) then firstn (d - 1) s else s
  else s.
(** nsynth.py:42-43, musicnet.py:41 *)
Definition name_id (name : string) : string := string_of_list_ascii (stem (basename (list_ascii_of_string name))).
(** fnmatch.fnmatch(name, '*.json') on POSIX: any text before, also with slashes *)
Definition json_name (name : string) : bool :=
  let l := list_ascii_of_string name in
  Nat.leb 5 (List.length l) && String.eqb (string_of_list_ascii (skipn (List.length l - 5) l)) ".json".

Section Audio.
  Context {B V : Type} (none : V) (text : string -> V) (num : Z -> V).
  (** a PreDownload (predownload.py:4-9) with its bytes, or a requests.Request *)
  Inductive location := Pre (content : list B) (url : string) | Req (url : string).
  (** an AudioMetaData: its uri and the rest of its __dict__ *)
  Record audio := { o_uri : location; o_attrs : dict V }.

  (** predownload.py:5-9 *)
  Definition predownload (content : list B) (url : string) : result location :=
    if String.eqb url "" then Raise ValueError else Ok (Pre content url).

  (** audio_metadata.py:43-49 *)
  Definition named : list string := ["samplerate"; "channels"; "licensing"; "description"; "tags"].
  (** [AudioMetaData(uri=u, **explicit, **kwargs)]: an argument given twice is a TypeError.
      [request] is a property without setter; a location is always true.  Attributes with
      double underscores are not considered. *)
  Definition audio_metadata (u : location) (explicit kwargs : dict V) : result audio :=
    if existsb (fun k => mem k ("self" :: "uri" :: keys explicit)) (keys kwargs) then Raise TypeError
    else
      let given := explicit ++ kwargs in
      let extra := filter (fun p => negb (mem (fst p) named)) given in
      if mem "request" (keys extra) then Raise AttributeError
      else Ok {| o_uri := u; o_attrs := map (fun k => (k, match dict_get given k with Some v => v | None => none end)) named ++ extra |}.

  (** a generator over a list: items that are skipped, yielded or raise; what was yielded and the
      exception that ended it *)
  Fixpoint generate {A C} (f : A -> option (result C)) (l : list A) : list C * option exn :=
    match l with
    | [] => ([], None)
    | x :: r =>
        match f x with
        | None => generate f r
        | Some (Raise e) => ([], Some e)
        | Some (Ok y) => let '(ys, e) := generate f r in (y :: ys, e)
        end
    end.

  (** ** nsynth.py *)
  (** a member of the tar file; [Special]: a link to a file, or a directory or device (None) *)
  Inductive kind := Regular (content : list B) | Special (content : option (list B)).
  Record member := { t_name : string; t_kind : kind }.
  (** tarfile's extractfile(...).read(); None has no read *)
  Definition extract (m : member) : result (list B) :=
    match t_kind m with Regular c => Ok c | Special (Some c) => Ok c | Special None => Raise AttributeError end.
  (** json.load: an object of objects *)
  Context (load : list B -> result (string -> option (dict V))).
  (** nsynth.py:28-35 *)
  Fixpoint nsynth_index (ms : list member) (json_data : option (string -> option (dict V))) : result (option (string -> option (dict V))) :=
    match ms with
    | [] => Ok json_data
    | m :: r => if json_name (t_name m) then do c <- extract m; do j <- load c; nsynth_index r (Some j) else nsynth_index r json_data
    end.
  Definition nsynth_web : string := "https://magenta.tensorflow.org/datasets/nsynth".
  (** nsynth.py:38-53: [None[_id]] is a TypeError *)
  Definition nsynth_item (json_data : option (string -> option (dict V))) (m : member) : option (result audio) :=
    if json_name (t_name m) then None
    else match t_kind m with
    | Special _ => None
    | Regular c =>
        let _id := name_id (t_name m) in
        Some (do pdl <- predownload c (nsynth_web ++ "/" ++ _id);
              do kw <- match json_data with None => Raise TypeError | Some j => match j _id with Some d => Ok d | None => Raise KeyError end end;
              audio_metadata pdl [("web_url", text nsynth_web)] kw)
    end.
  (** nsynth.py:25-53 *)
  Definition nsynth (ms : list member) : list audio * option exn :=
    match nsynth_index ms None with Raise e => ([], Some e) | Ok j => generate (nsynth_item j) ms end.

  (** ** musicnet.py *)
  (** csv.DictReader over a file: a file opened as binary gives bytes, and the csv module accepts
      only text (csv.Error); a file without a line gives no rows either way *)
  Definition dict_reader {L} (binary : bool) (parse : list L -> list (dict V)) (file : list L) : result (list (dict V)) :=
    match file with [] => Ok [] | _ => if binary then Raise OtherError else Ok (parse file) end.
  (** the text of a cell *)
  Context (cell : V -> string).
  (** musicnet.py:31-35 *)
  Fixpoint musicnet_rows (rows : list (dict V)) (metadata : string -> option (dict V)) : result (string -> option (dict V)) :=
    match rows with
    | [] => Ok metadata
    | row :: r =>
        match dict_get row "id" with
        | None => Raise KeyError
        | Some i => musicnet_rows r (fun k => if String.eqb k (cell i) then Some row else metadata k)
        end
    end.
  (** musicnet.py:39-51; [wav]: AudioSamples.from_file(...).encode().read() *)
  Definition musicnet_item (metadata : string -> option (dict V)) (wav : string -> result (list B)) (filename : string) : result audio :=
    let _id := string_of_list_ascii (stem (list_ascii_of_string filename)) in
    do meta <- match metadata _id with Some d => Ok d | None => Raise KeyError end;
    do content <- wav filename;
    do uri <- predownload content ("https://homes.cs.washington.edu/~thickstn/media/" ++ _id);
    audio_metadata uri [("samplerate", num 44100)] meta.
  (** musicnet.py:28-51; the code opens the csv as binary *)
  Definition musicnet {L} (binary : bool) (parse : list L -> list (dict V)) (csv : list L) (listdir : result (list string)) (wav : string -> result (list B)) : list audio * option exn :=
    match (do rows <- dict_reader binary parse csv; do md <- musicnet_rows rows (fun _ => None); do fs <- listdir; Ok (md, fs)) with
    | Raise e => ([], Some e)
    | Ok (md, fs) => generate (fun f => Some (musicnet_item md wav f)) fs
    end.

  (** ** phatdrumloops.py:32-42: the page is bytes ([resp.content]); a text pattern is never matched
      against bytes (TypeError) *)
  Inductive subject := AsBytes (b : list B) | AsText (t : string).
  Definition finditer (matches : string -> list string) (s : subject) : result (list string) :=
    match s with AsBytes _ => Raise TypeError | AsText t => Ok (matches t) end.
  Definition phat_drum_loops (matches : string -> list string) (urljoin : string -> string) (attrs : dict V) (resp : result (list B)) : list audio * option exn :=
    match (do content <- resp; finditer matches (AsBytes content)) with
    | Raise e => ([], Some e)
    | Ok ms => generate (fun m => Some (audio_metadata (Req (urljoin m)) [] (dict_set attrs "web_url" (text "http://www.phatdrumloops.com/beats.php")))) ms
    end.

  (** ** internetarchive.py *)
  Definition files := list (string * dict V).
  Fixpoint file_get (fs : files) (k : string) : option (dict V) :=
    match fs with [] => None | (k', d) :: r => if String.eqb k' k then Some d else file_get r k end.
  Fixpoint file_set (fs : files) (k : string) (d : dict V) : files :=
    match fs with [] => [] | (k', d') :: r => if String.eqb k' k then (k', d) :: r else (k', d') :: file_set r k d end.
  (** internetarchive.py:40-44 _get_metadata: which dict of all_files is meant; None otherwise *)
  Definition ia_target (k : string) (data : dict V) (fs : files) : result (option string) :=
    match dict_get data "source" with
    | None => Raise KeyError
    | Some s =>
        if String.eqb (cell s) "original" then Ok (Some k)
        else if String.eqb (cell s) "derivative" then
          match dict_get data "original" with
          | None => Raise KeyError
          | Some o => match file_get fs ("/" ++ cell o) with Some _ => Ok (Some ("/" ++ cell o)%string) | None => Raise KeyError end
          end
        else Ok None
    end.
  (** internetarchive.py:59-71, one round: the dict is updated where it is, [None.update] is an
      AttributeError.  [urljoin] on the path of the sound. *)
  Definition ia_round (urljoin : string -> string) (format_filter : dict V -> result bool) (archive_id : string) (attrs : dict V) (k : string) (fs : files) : result (files * option audio) :=
    match file_get fs k with
    | None => Raise KeyError
    | Some v =>
        do keep <- format_filter v;
        if keep then
          do target <- ia_target k v fs;
          match target with
          | None => Raise AttributeError
          | Some t =>
              let metadata := dict_update (dict_update (match file_get fs t with Some d => d | None => [] end) attrs) [("web_url", text ("https://archive.org//details/" ++ archive_id))] in
              do a <- audio_metadata (Req (urljoin ("/download/" ++ archive_id ++ k)%string)) [] metadata;
              Ok (file_set fs t metadata, Some a)
          end
        else Ok (fs, None)
    end.
  (** all_files.items(): the keys as they are, the values as they have become *)
  Fixpoint ia_loop urljoin format_filter archive_id attrs (ks : list string) (fs : files) : list audio * option exn :=
    match ks with
    | [] => ([], None)
    | k :: r =>
        match ia_round urljoin format_filter archive_id attrs k fs with
        | Raise e => ([], Some e)
        | Ok (fs', None) => ia_loop urljoin format_filter archive_id attrs r fs'
        | Ok (fs', Some a) => let '(l, e) := ia_loop urljoin format_filter archive_id attrs r fs' in (a :: l, e)
        end
    end.
  (** internetarchive.py:46-71; what is not JSON (ValueError) has no
      files *)
  Definition internet_archive (urljoin : string -> string) (format_filter : dict V -> result bool) (archive_id : string) (attrs : dict V) (resp : result files) : list audio * option exn :=
    match (match resp with Raise ValueError => Ok [] | r => r end) with
    | Raise e => ([], Some e)
    | Ok fs => ia_loop urljoin format_filter archive_id attrs (map fst fs) fs
    end.
  (** internetarchive.py:35-36 *)
  Definition ogg_only (d : dict V) : result bool :=
    match dict_get d "format" with None => Raise KeyError | Some f => Ok (String.eqb (cell f) "Ogg Vorbis") end.

  (** ** freesound.py:53-71, for one result; [preview]: data['previews']['preview-hq-ogg'] *)
  Definition freesound_item (data : dict V) (preview : result string) : result audio :=
    do url <- preview;
    do username <- match dict_get data "username" with Some v => Ok (cell v) | None => Raise KeyError end;
    do i <- match dict_get data "id" with Some v => Ok (cell v) | None => Raise KeyError end;
    do fields <- mapM (fun p => match dict_get data (snd p) with Some v => Ok (fst p, v) | None => Raise KeyError end)
      [("samplerate", "samplerate"); ("channels", "channels"); ("licensing", "license"); ("description", "description"); ("tags", "tags")];
    audio_metadata (Req url) (fields ++ [("web_url", text ("https://freesound.org/people/" ++ username ++ "/sounds/" ++ i ++ "/"))]) [].
End Audio.
Arguments location : clear implicits.
Arguments audio : clear implicits.
Arguments member : clear implicits.
Arguments kind : clear implicits.
Arguments subject : clear implicits.
