(** C100: the datasets describe every sound with its own metadata. *)
From Coq Require Import ZArith String Ascii.
From Verif Require Import PyBase PyFacts PyMore Archives ArchivesProofs ArchivesProofs2.
Local Open Scope string_scope.
Local Open Scope list_scope.
Theorem C100_name :
  forall dir st ext : string,
  without slash st ->
  without slash ext ->
  without dot ext ->
  Exists (fun c : ascii => c <> dot) (list_ascii_of_string st) ->
  name_id (dir ++ "/" ++ st ++ "." ++ ext) = st /\ name_id (st ++ "." ++ ext) = st.
Proof. exact (@name_id_ok). Qed.
Print Assumptions C100_name.
Theorem C100_name_bare :
  forall dir st : string,
  without slash st ->
  without dot st ->
  name_id (dir ++ "/" ++ st) = st /\ name_id (dir ++ "/." ++ st) = ("." ++ st)%string.
Proof. exact (@name_id_bare). Qed.
Print Assumptions C100_name_bare.
Theorem C100_json :
  forall name : string, json_name name = true <-> (exists p : string, name = (p ++ ".json")%string).
Proof. exact (@json_name_ok). Qed.
Print Assumptions C100_json.
Theorem C100_predownload :
  forall (B : Type) (content : list B) (url : string),
  predownload content url = (if string_dec url "" then Raise ValueError else Ok (Pre content url)).
Proof. exact (@predownload_ok). Qed.
Print Assumptions C100_predownload.
Theorem C100_metadata :
  forall (B V : Type) (none : V) (u : location B) (explicit kwargs : dict V),
  fits explicit kwargs ->
  exists a : audio B V,
    audio_metadata none u explicit kwargs = Ok a /\
    o_uri a = u /\
    (forall k : string,
     attr a k =
     attribute none
       match dict_get explicit k with
       | Some v => Some v
       | None => dict_get kwargs k
       end k).
Proof. exact (@audio_metadata_ok). Qed.
Print Assumptions C100_metadata.
Theorem C100_metadata_twice :
  forall (B V : Type) (none : V) (u : location B) (explicit kwargs : dict V) (k : string),
  In k (keys kwargs) ->
  In k ("self" :: "uri" :: keys explicit) ->
  audio_metadata none u explicit kwargs = Raise TypeError.
Proof. exact (@audio_metadata_twice). Qed.
Print Assumptions C100_metadata_twice.
Theorem C100_metadata_request :
  forall (B V : Type) (none : V) (u : location B) (explicit kwargs : dict V),
  (forall k : string, In k (keys kwargs) -> ~ In k (keys explicit) /\ k <> "self" /\ k <> "uri") ->
  In "request" (keys kwargs) -> audio_metadata none u explicit kwargs = Raise AttributeError.
Proof. exact (@audio_metadata_request). Qed.
Print Assumptions C100_metadata_request.
Theorem C100_nsynth :
  forall (B V : Type) (none : V) (text : string -> V)
    (load : list B -> result (string -> option (dict V))) (before : list (member B)) 
    (m : member B) (after : list (member B)) (c : list B) (index : string -> option (dict V)),
  readable load before ->
  json_name (t_name m) = true ->
  extract m = Ok c ->
  load c = Ok index ->
  (forall x : member B, In x after -> json_name (t_name x) = false) ->
  (forall x : member B,
   In x (before ++ m :: after) ->
   sound x = true -> exists d : dict V, index (name_id (t_name x)) = Some d /\ usable d) ->
  exists outs : list (audio B V),
    nsynth none text load (before ++ m :: after) = (outs, None) /\
    Forall2 (describes none text index) (filter sound (before ++ m :: after)) outs.
Proof. exact (@nsynth_all). Qed.
Print Assumptions C100_nsynth.
Theorem C100_nsynth_unknown :
  forall (B V : Type) (none : V) (text : string -> V)
    (load : list B -> result (string -> option (dict V))) (before : list (member B)) 
    (m : member B) (after : list (member B)) (c : list B) (index : string -> option (dict V))
    (good : list (member B)) (bad : member B) (rest : list (member B)),
  readable load before ->
  json_name (t_name m) = true ->
  extract m = Ok c ->
  load c = Ok index ->
  (forall x : member B, In x after -> json_name (t_name x) = false) ->
  before ++ m :: after = good ++ bad :: rest ->
  sound bad = true ->
  index (name_id (t_name bad)) = None ->
  (forall x : member B,
   In x good ->
   sound x = true -> exists d : dict V, index (name_id (t_name x)) = Some d /\ usable d) ->
  exists outs : list (audio B V),
    nsynth none text load (before ++ m :: after) = (outs, Some KeyError) /\
    Forall2 (describes none text index) (filter sound good) outs.
Proof. exact (@nsynth_unknown). Qed.
Print Assumptions C100_nsynth_unknown.
Theorem C100_nsynth_no_index :
  forall (B V : Type) (none : V) (text : string -> V)
    (load : list B -> result (string -> option (dict V))) (ms : list (member B)),
  (forall m : member B, In m ms -> json_name (t_name m) = false) ->
  nsynth none text load ms = ([], if existsb sound ms then Some TypeError else None).
Proof. exact (@nsynth_no_index). Qed.
Print Assumptions C100_nsynth_no_index.
Theorem C100_nsynth_unreadable :
  forall (B V : Type) (none : V) (text : string -> V)
    (load : list B -> result (string -> option (dict V))) (before : list (member B)) 
    (m : member B) (after : list (member B)) (e : exn),
  readable load before ->
  json_name (t_name m) = true ->
  (do c <- extract m; load c) = Raise e ->
  nsynth none text load (before ++ m :: after) = ([], Some e).
Proof. exact (@nsynth_unreadable). Qed.
Print Assumptions C100_nsynth_unreadable.
Theorem C100_nsynth_json_directory :
  forall (B V : Type) (none : V) (text : string -> V)
    (load : list B -> result (string -> option (dict V))) (before : list (member B)) 
    (m : member B) (after : list (member B)),
  readable load before ->
  json_name (t_name m) = true ->
  t_kind m = Special None ->
  nsynth none text load (before ++ m :: after) = ([], Some AttributeError).
Proof. exact (@nsynth_json_directory). Qed.
Print Assumptions C100_nsynth_json_directory.
Theorem C100_nsynth_content :
  forall (B : Type) (m : member B) (c : list B),
  extract m = Ok c <-> t_kind m = Regular c \/ t_kind m = Special (Some c).
Proof. exact (@nsynth_content). Qed.
Print Assumptions C100_nsynth_content.
Theorem C100_nsynth_address :
  forall (B V : Type) (none : V) (text : string -> V) (index : string -> option (dict V))
    (m m' : member B) (a a' : audio B V),
  describes none text index m a ->
  describes none text index m' a' ->
  name_id (t_name m) = name_id (t_name m') ->
  (forall k : string, attr a k = attr a' k) /\
  (exists (c c' : list B) (u : string), o_uri a = Pre c u /\ o_uri a' = Pre c' u).
Proof. exact (@nsynth_address). Qed.
Print Assumptions C100_nsynth_address.
Theorem C100_musicnet_as_text :
  forall (B V L : Type) (none : V) (num : Z -> V) (cell : V -> string)
    (parse : list L -> list (dict V)) (csv : list L) (fs : list string)
    (wav : string -> result (list B)),
  let rows := match csv with
              | [] => []
              | _ :: _ => parse csv
              end in
  (forall r : dict V, In r rows -> dict_get r "id" <> None) ->
  (forall f : string,
   In f fs ->
   exists (d : dict V) (content : list B),
     row_of cell rows (file_id f) d /\
     wav f = Ok content /\
     (forall k : string, In k ["self"; "uri"; "samplerate"; "request"] -> ~ In k (keys d))) ->
  exists outs : list (audio B V),
    musicnet none num cell false parse csv (Ok fs) wav = (outs, None) /\
    Forall2
      (fun (f : string) (a : audio B V) =>
       exists (d : dict V) (content : list B),
         row_of cell rows (file_id f) d /\ wav f = Ok content /\ music none num d content f a) fs
      outs.
Proof. exact (@musicnet_text). Qed.
Print Assumptions C100_musicnet_as_text.
Theorem C100_musicnet_no_id :
  forall (B V L : Type) (none : V) (num : Z -> V) (cell : V -> string)
    (parse : list L -> list (dict V)) (csv : list L) (listdir : result (list string))
    (wav : string -> result (list B)) (row : dict V),
  csv <> [] ->
  In row (parse csv) ->
  dict_get row "id" = None ->
  musicnet none num cell false parse csv listdir wav = ([], Some KeyError).
Proof. exact (@musicnet_no_id). Qed.
Print Assumptions C100_musicnet_no_id.
Theorem C100_musicnet_refuted :
  forall (B V L : Type) (none : V) (num : Z -> V) (cell : V -> string)
    (parse : list L -> list (dict V)) (csv : list L) (listdir : result (list string))
    (wav : string -> result (list B)),
  fst (musicnet none num cell true parse csv listdir wav) = [] /\
  (csv <> [] -> snd (musicnet none num cell true parse csv listdir wav) = Some OtherError) /\
  (forall (f : string) (fs : list string),
   csv = [] ->
   listdir = Ok (f :: fs) ->
   snd (musicnet none num cell true parse csv listdir wav) = Some KeyError).
Proof. exact (@musicnet_nothing). Qed.
Print Assumptions C100_musicnet_refuted.
Theorem C100_phat_refuted :
  forall (B V : Type) (none : V) (text : string -> V) (matches : string -> list string)
    (urljoin : string -> string) (attrs : dict V) (resp : result (list B)),
  phat_drum_loops none text matches urljoin attrs resp =
  ([], Some match resp with
            | Ok _ => TypeError
            | Raise e => e
            end).
Proof. exact (@phat_nothing). Qed.
Print Assumptions C100_phat_refuted.
Theorem C100_archive :
  forall (B V : Type) (none : V) (text : string -> V) (cell : V -> string)
    (urljoin : string -> string) (format_filter : dict V -> result bool) 
    (archive_id : string) (attrs : dict V),
  NoDup (keys attrs) ->
  (forall k : string, In k ["source"; "original"; "self"; "uri"; "request"] -> ~ In k (keys attrs)) ->
  (forall d d' : dict V,
   (forall x : string, dict_get d' x = dict_get (added text archive_id attrs d) x) ->
   format_filter d' = format_filter d) ->
  forall fs : list (string * dict V),
  (forall k : string,
   In k (map fst fs) ->
   exists d : dict V,
     file_get fs k = Some d /\
     (format_filter d = Ok false \/
      format_filter d = Ok true /\
      (exists d' : dict V,
         source_of cell fs k d d' /\
         (forall x : string, In x ["self"; "uri"; "request"] -> ~ In x (keys d'))))) ->
  exists outs : list (audio B V),
    internet_archive none text cell urljoin format_filter archive_id attrs (Ok fs) = (outs, None) /\
    Forall2 (archived none text cell urljoin archive_id attrs fs)
      (filter (passes format_filter fs) (map fst fs)) outs.
Proof. exact (@archive_all). Qed.
Print Assumptions C100_archive.
Theorem C100_archive_ogg :
  forall (V : Type) (text : string -> V) (cell : V -> string) (archive_id : string)
    (attrs : dict V),
  NoDup (keys attrs) ->
  ~ In "format" (keys attrs) ->
  forall d d' : dict V,
  (forall x : string, dict_get d' x = dict_get (added text archive_id attrs d) x) ->
  ogg_only cell d' = ogg_only cell d.
Proof. exact (@ogg_stable). Qed.
Print Assumptions C100_archive_ogg.
Theorem C100_archive_unreadable :
  forall (B V : Type) (none : V) (text : string -> V) (cell : V -> string)
    (urljoin : string -> string) (ff : dict V -> result bool) (i : string) 
    (attrs : dict V) (e : exn) (r : list (audio B V) * option exn),
  r = internet_archive none text cell urljoin ff i attrs (Raise e) ->
  r = ([], match e with
           | ValueError => None
           | _ => Some e
           end).
Proof. exact (@archive_unreadable). Qed.
Print Assumptions C100_archive_unreadable.
Theorem C100_archive_no_format :
  forall (B V : Type) (none : V) (text : string -> V) (cell : V -> string)
    (urljoin : string -> string) (i : string) (attrs : dict V) (k : string) 
    (d : dict V) (fs : list (string * dict V)) (r : list (audio B V) * option exn),
  r = internet_archive none text cell urljoin (ogg_only cell) i attrs (Ok ((k, d) :: fs)) ->
  dict_get d "format" = None -> r = ([], Some KeyError).
Proof. exact (@archive_no_format). Qed.
Print Assumptions C100_archive_no_format.
Theorem C100_archive_source_refuted :
  forall (B : Type) (urljoin : string -> string) (i s : string),
  s <> "original" ->
  s <> "derivative" ->
  let a := [("source", "derivative"); ("original", "b.flac"); ("format", "Ogg Vorbis")] in
  let b := [("source", "original"); ("format", "Ogg Vorbis")] in
  let run :=
    fun attrs : dict string =>
    internet_archive "" (fun s0 : string => s0) (fun s0 : string => s0) urljoin
      (ogg_only (fun s0 : string => s0)) i attrs (Ok [("/a.ogg", a); ("/b.flac", b)]) in
  (exists x y : audio B string, run [] = ([x; y], None)) /\
  (exists x : audio B string, run [("source", s)] = ([x], Some AttributeError)).
Proof. exact (@archive_source_refuted). Qed.
Print Assumptions C100_archive_source_refuted.
Theorem C100_freesound :
  forall (B V : Type) (none : V) (text : string -> V) (cell : V -> string) 
    (data : dict V) (url : string) (username i : V),
  dict_get data "username" = Some username ->
  dict_get data "id" = Some i ->
  (forall k : string,
   In k ["samplerate"; "channels"; "license"; "description"; "tags"] -> dict_get data k <> None) ->
  exists a : audio B V,
    freesound_item none text cell data (Ok url) = Ok a /\
    o_uri a = Req url /\
    attr a "web_url" =
    Some
      (text
         ("https://freesound.org/people/" ++ cell username ++ "/sounds/" ++ cell i ++ "/")%string) /\
    attr a "licensing" = dict_get data "license" /\
    (forall k : string,
     In k ["samplerate"; "channels"; "description"; "tags"] -> attr a k = dict_get data k) /\
    (forall k : string,
     ~ In k ["web_url"; "licensing"; "samplerate"; "channels"; "description"; "tags"] ->
     attr a k = None).
Proof. exact (@freesound_ok). Qed.
Print Assumptions C100_freesound.
Theorem C100_freesound_missing :
  forall (B V : Type) (none : V) (text : string -> V) (cell : V -> string) 
    (data : dict V) (url k : string) (r : result (audio B V)),
  r = freesound_item none text cell data (Ok url) ->
  In k ["username"; "id"; "samplerate"; "channels"; "license"; "description"; "tags"] ->
  dict_get data k = None -> r = Raise KeyError.
Proof. exact (@freesound_missing). Qed.
Print Assumptions C100_freesound_missing.

