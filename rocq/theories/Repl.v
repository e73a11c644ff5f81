(** Model of the in-browser REPL and of the search page: zounds/ui/api.py, zounds/ui/search.py
    and the part of zounds/ui/serializer.py that works on values (the part that serves stored
    features is in Ui.v).

    Python itself is a parameter: what evaluating an expression or executing a statement does
    to the interpreter (including [sys.stdout] and every open text stream) is arbitrary.  What
    is modelled of the language is which of [eval], [exec] and [ast.parse] accept a source text:
    [eval] only an expression, after dropping leading blanks (documented by CPython), [exec] and
    [ast.parse] any module whose first line is not indented (IndentationError, a SyntaxError,
    otherwise). *)
From Verif Require Import PyBase PyFacts PyMore Time Audio Midi Persist Index Ui.
From Coq Require Import String Ascii QArith.
Local Open Scope string_scope.
Local Open Scope Z_scope.

(** The exceptions the handlers tell apart *)
Inductive raised := RSyntaxError | RNoMatchingSerializer | RError (e : exn).

(** ** Values, as the serializers look at them *)

(** One result of a search: the id, the slice and the extra data, if the index was built with
    some (index.py:216-231) *)
Record hit := { h_id : string; h_slice : timeslice; h_extra : bool }.

Section Values.
  (** [A]: array entries; [Ob]: every other Python object *)
  Context {A Ob : Type}.
  Inductive value :=
  | VSamples (sps channels : Z) (samples : list A)      (* an AudioSamples *)
  | VArray (shape : list Z) (data : list A)             (* any other ndarray *)
  | VResults (query : list N) (hits : list hit)         (* SearchResults not iterated yet *)
  | VSlices (slices : list timeslice)                   (* has an attribute [slices] *)
  | VOther (o : Ob).
End Values.
Arguments value : clear implicits.

(** ** JSON, as [json.dumps] of the standard library sees it: [JBytes] is not serializable *)
Inductive pyjson :=
| PStr (s : string) | PNum (q : Q) | PBytes (b : string)
| PList (l : list pyjson) | PDict (d : list (string * pyjson)).
Fixpoint dumpable (j : pyjson) : bool :=
  match j with
  | PStr _ | PNum _ => true
  | PBytes _ => false
  | PList l => forallb dumpable l
  | PDict d => forallb (fun p => dumpable (snd p)) d
  end.

(** What a page is answered with; [BAudio sps channels chunks]: an ogg file into which [chunks]
    were written one after the other; [BImage shape data]: a png of the array *)
Inductive body (A : Type) :=
| BJson (j : pyjson)
| BAudio (sps channels : Z) (chunks : list (list A))
| BImage (shape : list Z) (data : list A)
| BStored (content : list N).
Arguments BJson {A} j.
Arguments BAudio {A} sps channels chunks.
Arguments BImage {A} shape data.
Arguments BStored {A} content.

(** serializer.py:20-32, TempResult, without the time stamp *)
Record temp_result (A : Type) := { t_data : body A; t_type : string }.
Arguments t_data {A} t.
Arguments t_type {A} t.
Arguments Build_temp_result {A} _ _.

Inductive vserializer := VAudioSamples | VOggVorbis | VConstantRate | VDefault (content_type : string)
| VNumpy | VOnsets | VSearchResults.

(** baseapp.py:62-77: the serializers in their order *)
Definition vserializers : list vserializer :=
  [VAudioSamples; VOggVorbis; VConstantRate; VDefault "application/json"; VDefault "audio/ogg";
   VNumpy; VOnsets; VSearchResults].

Section Serialize.
  Context {A Ob : Type}.
  Notation value := (value A Ob).

  (** baseapp.py:20-36, RequestContext: the feature (if any), the value and whether [slce] is a
      TimeSlice.  [document] is carried along for [DefaultSerializer]. *)
  Record context := { c_doc : option string; c_feature : option feature; c_timed : bool; c_value : option value }.

  (** serializer.py:39-42, 73-74, 97-102, 167-170, 193-196, 254-255, 270-271 *)
  Definition vmatches (c : context) (s : vserializer) : bool :=
    match s with
    | VAudioSamples => match c_value c with Some (VSamples _ _ _) => true | _ => false end
    | VOggVorbis => match c_feature c with
                    | Some f => match f_class f with OggVorbisFeature => c_timed c | _ => false end
                    | None => false
                    end
    | VConstantRate => match c_feature c with
                       | Some f => match f_class f with ArrayWithUnitsFeature => c_timed c | _ => false end
                       | None => false
                       end
    | VDefault ct => match c_feature c with Some f => String.eqb (f_content_type f) ct | None => false end
    | VNumpy => match c_value c with
                | Some (VArray shape _) => let n := Zlen shape in (n =? 1) || (n =? 2) || (n =? 3)
                | Some (VSamples _ channels _) => true
                | _ => false
                end
    | VOnsets => match c_feature c with
                 | Some f => match f_class f with TimeSliceFeature => true | _ => false end
                 | None => false
                 end
    | VSearchResults => match c_value c with Some (VResults _ _) => true | _ => false end
    end.

  (** [range(0, len(samples), sps)] with the slices taken, serializer.py:90-91; [fuel] is at
      least the number of chunks *)
  Fixpoint chunks_of (fuel : nat) (sps : nat) (l : list A) : list (list A) :=
    match fuel, l with
    | _, [] => []
    | O, _ => []
    | S f, _ => firstn sps l :: chunks_of f sps (skipn sps l)
    end.
  (** serializer.py:80-93, AudioSamplesSerializer.serialize; a step of 0 is a ValueError *)
  Definition serialize_samples (sps channels : Z) (l : list A) : result (temp_result A) :=
    if sps =? 0 then Raise ValueError
    else Ok {| t_data := BAudio sps channels (if 0 <? sps then chunks_of (List.length l) (Z.to_nat sps) l else []);
               t_type := "audio/ogg" |}.

  (** serializer.py:133-160, generate_image; the pixels are not modelled *)
  Definition generate_image (shape : list Z) (data : list A) : result (temp_result A) :=
    let n := Zlen shape in
    if (n =? 1) || (n =? 2)
       || ((n =? 3) && (let last := List.last shape 0 in (last =? 3) || (last =? 4)))
    then Ok {| t_data := BImage shape data; t_type := "image/png" |}
    else Raise ValueError.

  (** [t / Seconds(1)], a float; in exact arithmetic *)
  Definition in_seconds (t : td) : Q := (inject_Z (ps t) / inject_Z (10 ^ 12))%Q.

  (** the keys of the audio and of the visualization feature; None when the application was
      built without *)
  Context (base_path : string) (audio visualization : option string).

  (** serializer.py:226-238, [_seconds] and [_result]; a slice without duration: None / Seconds *)
  Definition result_json (ts : timeslice) (id_ : string) : result pyjson :=
    match audio with
    | None => Raise AttributeError
    | Some a =>
        match visualization with
        | None => Raise AttributeError
        | Some v =>
            match ts_duration ts with
            | None => Raise TypeError
            | Some d =>
                Ok (PDict [("audio", PStr (feature_path base_path id_ a));
                           ("visualization", PStr (feature_path base_path id_ v));
                           ("slice", PDict [("start", PNum (in_seconds (ts_start ts)));
                                            ("duration", PNum (in_seconds d))])])
            end
        end
    end.

  (** serializer.py:246-250, AudioSliceSerializer.serialize; [extra] is [additional_data] *)
  Definition slice_serialize (content_type : string) (items : result (list (timeslice * string)))
      (extra : list (string * pyjson)) : result (temp_result A) :=
    do items <- items;
    do results <- mapM (fun x => result_json (fst x) (snd x)) items;
    let output := PDict (("results", PList results) :: extra) in
    if dumpable output then Ok {| t_data := BJson output; t_type := content_type |}
    else Raise TypeError.

  (** serializer.py:257-259, OnsetsSerializer.iter_results *)
  Definition onsets_items (v : option value) (doc : option string) : result (list (timeslice * string)) :=
    match v with
    | Some (VSlices slices) =>
        match doc with
        | Some d => Ok (map (fun ts => (ts, d)) slices)
        | None => match slices with [] => Ok [] | _ => Raise AttributeError end
        end
    | _ => Raise AttributeError
    end.

  (** serializer.py:276-278, SearchResultsSerializer.iter_results: [for _id, ts in value] of
      results that are triples when the index has extra data *)
  Definition search_items (hits : list hit) : result (list (timeslice * string)) :=
    mapM (fun h => if h_extra h then Raise ValueError else Ok (h_slice h, h_id h)) hits.

  (** serializer.py:273-274: [base64.b64encode] returns bytes *)
  Definition search_extra (query : list N) : list (string * pyjson) :=
    [("query", PBytes (b64encode (map Z.of_N query)))].

  (** what is stored under a document and a feature, DefaultSerializer (serializer.py:48-66, see
      [Ui.default_serialize] for ranges) *)
  Context (stored : string -> feature -> result (list N)).

  (** the [serialize] methods.  The two serializers for time slices of stored features are left
      out: neither the REPL nor the search page builds a context with a TimeSlice. *)
  Definition vserialize (c : context) (s : vserializer) : result (temp_result A) :=
    match s with
    | VAudioSamples => match c_value c with
                       | Some (VSamples sps ch l) => serialize_samples sps ch l
                       | _ => Raise AttributeError
                       end
    | VOggVorbis | VConstantRate => Raise NotImplementedError
    | VDefault ct => match c_doc c, c_feature c with
                     | Some d, Some f => do content <- stored d f; Ok {| t_data := BStored content; t_type := ct |}
                     | _, _ => Raise AttributeError
                     end
    | VNumpy => match c_value c with
                | Some (VArray shape data) => generate_image shape data
                | Some (VSamples _ ch data) =>
                    generate_image (if ch =? 1 then [Zlen data] else [Zlen data; ch]) data
                | _ => Raise AttributeError
                end
    | VOnsets => slice_serialize "application/vnd.zounds.onsets+json" (onsets_items (c_value c) (c_doc c)) []
    | VSearchResults => match c_value c with
                        | Some (VResults q hits) =>
                            slice_serialize "application/vnd.zounds.searchresults+json" (search_items hits) (search_extra q)
                        | _ => Raise AttributeError
                        end
    end.

  Inductive served := Served (t : temp_result A) | Failed (r : raised).

  (** baseapp.py:104-113, find_serializer and serialize *)
  Definition serialize (c : context) : served :=
    match find (vmatches c) vserializers with
    | None => Failed RNoMatchingSerializer
    | Some s => match vserialize c s with Ok t => Served t | Raise e => Failed (RError e) end
    end.
End Serialize.
Arguments context : clear implicits.
Arguments served : clear implicits.

(** ** The REPL, api.py *)

(** A Python dict of strings in insertion order *)
Fixpoint put {B} (k : string) (v : B) (d : list (string * B)) : list (string * B) :=
  match d with
  | [] => [(k, v)]
  | (k', v') :: r => if String.eqb k' k then (k, v) :: r else (k', v') :: put k v r
  end.
Definition get {B} (k : string) (d : list (string * B)) : option B :=
  option_map snd (find (fun p => String.eqb (fst p) k) d).

Section Repl.
  Context {A Ob : Type}.
  Notation value := (value A Ob).

  (** The interpreter: [m_user] is everything user code can reach except text streams,
      [m_streams] the text streams, [m_stdout] the one [sys.stdout] is *)
  Context {W : Type}.
  Record machine := { m_user : W; m_streams : list string; m_stdout : nat }.

  (** Source texts: [Expression e] or [Statements s] or text that is neither, with or without
      blanks in front *)
  Context {E T : Type}.
  Inductive code := Expression (e : E) | Statements (s : T) | Garbage.
  Record source := { s_indented : bool; s_code : code }.

  (** Running user code: any effect, and a value or an exception (also SyntaxError, and
      SystemExit or KeyboardInterrupt among [RError]) *)
  Context (run_expression : E -> machine -> machine * (value + raised)).
  Context (run_statements : T -> machine -> machine * option raised).
  (** The syntax trees *)
  Context (expression_tree : E -> pexpr) (statements_tree : T -> list pstmt).

  (** Python's [eval(statement, globals, locals)] of api.py:102 *)
  Definition py_eval (s : source) (m : machine) : machine * (value + raised) :=
    match s_code s with Expression e => run_expression e m | _ => (m, inr RSyntaxError) end.
  (** Python's [exec (statement, globals, locals)] of api.py:106 *)
  Definition py_exec (s : source) (m : machine) : machine * option raised :=
    if s_indented s then (m, Some RSyntaxError)
    else match s_code s with
         | Expression e => let '(m', r) := run_expression e m in
                           (m', match r with inl _ => None | inr x => Some x end)
         | Statements t => run_statements t m
         | Garbage => (m, Some RSyntaxError)
         end.
  (** Python's [ast.parse(statement)] of featureparser.py:58 *)
  Definition py_parse (s : source) : option (list pstmt) :=
    if s_indented s then None
    else match s_code s with
         | Expression e => Some [Expr (expression_tree e)]
         | Statements t => Some (statements_tree t)
         | Garbage => None
         end.

  (** the model class of the application and its features; the REPL's variables that hold
      documents *)
  Context (document : option (list (string * feature))).
  Context (locals : machine -> string -> option (string * bool)).
  Context (base_path : string) (audio visualization : option string).
  Context (stored : string -> feature -> result (list N)).
  Context (str_ : value -> string).
  (** [traceback.format_exc()] *)
  Context (traceback : raised -> string).
  (** [uuid.uuid4().hex]: the n-th one drawn *)
  Context (uuid : nat -> string).

  (** The application between requests: api.py:37-39 *)
  Record app := { a_temp : list (string * temp_result A); a_drawn : nat; a_machine : machine }.
  Definition output := list (string * string).

  (** api.py:74-91, [_add_url] *)
  Definition add_url (s : source) (o : output) (v : value) (a : app) : app * output * option raised :=
    match py_parse s with
    | None => (a, o, Some RSyntaxError)
    | Some tree =>
        let '(doc, feature) := parse_feature document (locals (a_machine a)) tree in
        match serialize base_path audio visualization stored
                {| c_doc := doc; c_feature := feature; c_timed := false; c_value := Some v |} with
        | Served t =>
            let id_ := uuid (a_drawn a) in
            ({| a_temp := put id_ t (a_temp a); a_drawn := S (a_drawn a); a_machine := a_machine a |},
             put "contentType" (t_type t) (put "url" ("/zounds/temp/" ++ id_) o), None)
        | Failed RNoMatchingSerializer => (a, o, None)
        | Failed r => (a, o, Some r)
        end
    end.

  Definition with_machine (a : app) (m : machine) : app :=
    {| a_temp := a_temp a; a_drawn := a_drawn a; a_machine := m |}.

  (** the inner [try], api.py:101-108; [sio] is the stream made by [StringIO()] *)
  Definition attempt (s : source) (sio : nat) (a : app) : app * output * option raised :=
    let '(m, r) := py_eval s (a_machine a) in
    let a := with_machine a m in
    let '(a, o, x) := match r with
                      | inr x => (a, [], Some x)
                      | inl v => add_url s (put "result" (str_ v) []) v a
                      end in
    match x with
    | Some RSyntaxError =>
        let '(m, x) := py_exec s (a_machine a) in
        let a := with_machine a m in
        match x with
        | None => (a, put "result" (nth sio (m_streams m) "") o, None)
        | Some x => (a, o, Some x)
        end
    | x => (a, o, x)
    end.

  (** api.py:93-117, [post]: the status and the JSON object.  A dict of strings is always
      serializable, so [json.dumps(output)] cannot fail. *)
  Definition post (s : source) (a : app) : app * Z * output :=
    let m := a_machine a in
    let sio := List.length (m_streams m) in
    let m1 := {| m_user := m_user m; m_streams := (m_streams m ++ [""])%list; m_stdout := sio |} in
    let '(a, o, x) := attempt s sio (with_machine a m1) in
    let '(o, status) := match x with
                        | None => (o, 200)
                        | Some x => (put "error" (traceback x) o, 400)
                        end in
    let m' := a_machine a in
    (with_machine a {| m_user := m_user m'; m_streams := m_streams m'; m_stdout := m_stdout m |}, status, o).

  (** api.py:52-63, TempHandler.get: the status and what is sent *)
  Definition temp_get (id_ : string) (a : app) : Z * option (temp_result A) :=
    match get id_ (a_temp a) with Some t => (200, Some t) | None => (404, None) end.

  (** a session: statements posted one after the other *)
  Fixpoint session (ss : list source) (a : app) : app * list (Z * output) :=
    match ss with
    | [] => (a, [])
    | s :: r => let '(a, status, o) := post s a in
                let '(a, rest) := session r a in (a, (status, o) :: rest)
    end.
End Repl.
Arguments machine : clear implicits.
Arguments source : clear implicits.
Arguments code : clear implicits.
Arguments app : clear implicits.

(** ** The search page, search.py:34-47 *)
Section Search.
  Context {A : Type} {Ob : Type} {St : Type}.
  (** [app.search]: searches by an unpacked code and at random; they may fail and may change
      the index's state (SearchResults are generators, run while serializing) *)
  Context (search : list bool -> Z -> St -> St * (result (value A Ob))).
  Context (random_search : Z -> St -> St * (result (value A Ob))).
  Context (base_path : string) (audio visualization : option string).
  Context (stored : string -> feature -> result (list N)).

  Inductive asked := AskedFor (query : list bool) (n : Z) | AskedRandom (n : Z) | AskedNothing.

  (** [query] is what [get_argument] returns (decoded and stripped; '' when missing): the
      status, what is sent, and what the index was asked *)
  Definition search_get (n_results : Z) (query : string) (s : St) : St * Z * option (temp_result A) * asked :=
    let b64 := Ui.unquote query in
    let '(s, r, a) :=
      if is_empty b64
      then let '(s, r) := random_search n_results s in (s, r, AskedRandom n_results)
      else match b64decode b64 with
           | Raise e => (s, Raise e, AskedNothing)
           | Ok binary =>
               let q := decode_query (map Z.to_N binary) in
               let '(s, r) := search q n_results s in (s, r, AskedFor q n_results)
           end in
    match r with
    | Raise _ => (s, 500, None, a)
    | Ok v => match serialize base_path audio visualization stored
                      {| c_doc := None; c_feature := None; c_timed := false; c_value := Some v |} with
              | Served t => (s, 200, Some t, a)
              | Failed _ => (s, 500, None, a)
              end
    end.
End Search.
