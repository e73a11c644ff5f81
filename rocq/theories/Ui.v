(** Model of zounds/ui: Range requests and serializers, application security,
    the URLs of features, the REPL's feature parser, the training history.

    Strings are byte strings.  The regular expressions of the code are modelled
    as the splits they denote (a header or a path contains no newline, which is
    the only thing [.] and [$] treat specially). *)
From Verif Require Import PyBase PyFacts PyMore Time Audio Midi.
From Coq Require Import String Ascii QArith Qround.
Local Open Scope string_scope.
Local Open Scope Z_scope.

(** [s] up to the first [c], and what follows it *)
Fixpoint cut (c : ascii) (s : string) : option (string * string) :=
  match s with
  | EmptyString => None
  | String a r => if Ascii.eqb a c then Some ("", r)
                  else match cut c r with Some (x, y) => Some (String a x, y) | None => None end
  end.

Definition is_empty (s : string) : bool := match s with EmptyString => true | _ => false end.

(** ** Range requests, contentrange.py *)

(** contentrange.py:24-25, [^(?P<unit>[^=]+)=(?P<start>[^-]+)-(?P<stop>.*?)$] *)
Definition range_match (h : string) : option (string * string * string) :=
  match cut "=" h with
  | Some (unit_, r) =>
      if is_empty unit_ then None
      else match cut "-" r with
           | Some (start, stop) => if is_empty start then None else Some (unit_, start, stop)
           | None => None
           end
  | None => None
  end.

(** A Python [slice] of bytes or a TimeSlice *)
Inductive rslice := Bytes (start stop : option Z) | Seconds (t : timeslice).

(** contentrange.py:38-44; [int] raises ValueError *)
Definition byte_slice (start stop : string) : result rslice :=
  do a <- py_int start;
  let b := match py_int stop with Ok b => Some b | Raise _ => None end in
  Ok (Bytes (Some a) b).

(** [int(1e12 * x)], in exact arithmetic; [int] truncates towards zero *)
Definition q_trunc (q : Q) : Z := if Qle_bool 0 q then Qfloor q else Qceiling q.
Definition to_ps (q : Q) : Z := q_trunc (inject_Z (10 ^ 12) * q).

(** contentrange.py:27-36; [pf] is [float] *)
Definition time_slice (pf : string -> option Q) (start stop : string) : result rslice :=
  match pf start with
  | None => Raise ValueError
  | Some a =>
      let duration := match pf stop with
                      | Some b => Some (picoseconds (to_ps (b - a)%Q))
                      | None => None
                      end in
      Ok (Seconds (mk_timeslice duration (Some (picoseconds (to_ps a)))))
  end.

(** contentrange.py:46-64; RangeUnitUnsupportedException is [OtherError] *)
Definition range (pf : string -> option Q) (header : option string) : result rslice :=
  match header with
  | None => Ok (Bytes None None)
  | Some raw =>
      match range_match raw with
      | None => Ok (Bytes None None)
      | Some (u, start, stop) =>
          if String.eqb u "bytes" then byte_slice start stop
          else if String.eqb u "seconds" then time_slice pf start stop
          else Raise OtherError
      end
  end.

Definition py_str_opt (x : option Z) : string := match x with Some n => py_str n | None => "None" end.

(** contentrange.py:88-96, [from_slice] and [__str__]: [self.stop or self.total] *)
Definition content_range_bytes (start stop : option Z) (total : Z) : string :=
  let stop := match stop with Some 0 => total | Some n => n | None => total end in
  "bytes " ++ py_str_opt start ++ "-" ++ py_str stop ++ "/" ++ py_str total.

(** ** Serializers, serializer.py *)

(** What [matches] looks at: the class of the feature and its encoder's content type *)
Inductive fclass := OggVorbisFeature | ArrayWithUnitsFeature | TimeSliceFeature | OtherFeature.
Record feature := { f_class : fclass; f_content_type : string }.

Inductive serializer := SOggVorbis | SConstantRate | SDefault (content_type : string) | SOnsets.

(** serializer.py:42-45, 98-105, 172-175, 258-259; baseapp.py:62-77: the serializers
    in their order.  In a request for a feature [context.value] is None, so the
    serializers for samples, arrays and search results never match and are left out. *)
Definition serializer_matches (s : serializer) (f : feature) (sl : rslice) : bool :=
  let timed := match sl with Seconds _ => true | Bytes _ _ => false end in
  match s with
  | SOggVorbis => match f_class f with OggVorbisFeature => timed | _ => false end
  | SConstantRate => match f_class f with ArrayWithUnitsFeature => timed | _ => false end
  | SDefault ct => String.eqb (f_content_type f) ct
  | SOnsets => match f_class f with TimeSliceFeature => true | _ => false end
  end.
Definition serializers : list serializer :=
  [SOggVorbis; SConstantRate; SDefault "application/json"; SDefault "audio/ogg"; SOnsets].
(** baseapp.py:104-109; NoMatchingSerializerException is [OtherError] *)
Definition find_serializer (f : feature) (sl : rslice) : result serializer :=
  match find (fun s => serializer_matches s f sl) serializers with
  | Some s => Ok s
  | None => Raise OtherError
  end.

Section Serve.
  Context {A : Type}.
  Record response := { r_status : Z; r_body : list A; r_content_range : option string }.

  (** serializer.py:48-66, DefaultSerializer.serialize, of a stored byte string:
      the value, [is_partial] and the content range.  The stream is positioned at 0. *)
  Definition default_serialize (content : list A) (sl : rslice) : result (list A * bool * string) :=
    match sl with
    | Bytes start stop =>
        let flo := {| b_data := content; b_pos := 0 |} in
        do flo <- match start with
                  | Some a => if a =? 0 then Ok flo else bio_seek flo a 0
                  | None => Ok flo
                  end;
        do value <- match stop, start with
                    | None, _ | Some 0, _ => Ok (snd (bio_read flo (-1)))
                    | Some b, Some a => Ok (snd (bio_read flo (b - a)))
                    | Some _, None => Raise TypeError
                    end;
        let partial := match start, stop with None, None => false | _, _ => true end in
        Ok (value, partial, content_range_bytes start stop (Zlen content))
    | Seconds t => if ps (ts_start t) =? 0 then Raise AttributeError else Raise TypeError
    end.

  (** baseapp.py:118-145, FeatureHandler.get, for features served as stored bytes;
      [timed] stands for the two serializers that slice by time (not modelled:
      they need the vorbis codec and matplotlib); SOnsets reads [context.value.slices],
      which is None here.  An uncaught exception makes tornado answer 500. *)
  Definition feature_get (pf : string -> option Q)
      (timed : feature -> timeslice -> list A -> result (list A * bool * string))
      (f : feature) (content : list A) (header : option string) : result response :=
    do sl <- range pf header;
    do s <- find_serializer f sl;
    do r <- match s, sl with
            | SDefault _, _ => default_serialize content sl
            | SOnsets, _ => Raise AttributeError
            | _, Seconds t => timed f t content
            | _, Bytes _ _ => Raise TypeError
            end;
    let '(value, partial, cr) := r in
    Ok {| r_status := if partial then 206 else 200; r_body := value; r_content_range := Some cr |}.

  Definition answer (r : result response) : response :=
    match r with Ok x => x | Raise _ => {| r_status := 500; r_body := []; r_content_range := None |} end.
End Serve.
Arguments response : clear implicits.

(** ** Security, baseapp.py:160-243, with tornado 4.5.3 *)

Inductive meth := GET | HEAD | POST | DELETE | PATCH | PUT | OPTIONS.
Definition meth_eqb (a b : meth) : bool :=
  match a, b with
  | GET, GET | HEAD, HEAD | POST, POST | DELETE, DELETE | PATCH, PATCH | PUT, PUT | OPTIONS, OPTIONS => true
  | _, _ => false
  end.

(** A request handler class: the methods it defines; [h_async] are those whose body
    only runs when the result of the call is awaited. *)
Record handler := { h_name : string; h_methods : list meth; h_async : list meth }.

(** [needle in haystack] on strings *)
Fixpoint substring_of (needle hay : string) : bool :=
  String.prefix needle hay || match hay with EmptyString => false | String _ r => substring_of needle r end.

Inductive target := Plain (h : handler) | Secured (h : handler) | Login.
Definition route := (string * target)%type.

(** baseapp.py:191-232, [_secure_route] *)
Definition secure_route (r : route) : route :=
  let '(pattern, t) := r in
  if substring_of "login" pattern then (pattern, t)
  else (pattern, match t with Plain h => Secured h | t => t end).

Definition ui_handler := {| h_name := "ui"; h_methods := [GET]; h_async := [] |}.
Definition feature_handler := {| h_name := "feature"; h_methods := [GET]; h_async := [] |}.
Definition feature_pattern := "/zounds/(.+?)/(.+?)/?".
(** baseapp.py:181-186 *)
Definition base_routes : list route :=
  [("/", Plain ui_handler); (feature_pattern, Plain feature_handler); ("/zounds/login/?", Login)].

(** baseapp.py:234-243; [if self.secret] *)
Definition make_app (custom : list route) (secret : option string) : list route :=
  let routes := (custom ++ base_routes)%list in
  match secret with
  | None | Some EmptyString => routes
  | Some _ => map secure_route routes
  end.

(** tornado's [get_body_argument] strips blanks *)
Definition is_blank (c : ascii) : bool :=
  let n := Ascii.nat_of_ascii c in Nat.eqb n 32 || (Nat.leb 9 n && Nat.leb n 13) || (Nat.leb 28 n && Nat.leb n 31).
Fixpoint lstrip (s : string) : string :=
  match s with String c r => if is_blank c then lstrip r else s | EmptyString => "" end.
Fixpoint rstrip (s : string) : string :=
  match s with
  | String c r => let r' := rstrip r in if is_empty r' && is_blank c then "" else String c r'
  | EmptyString => ""
  end.
Definition strip (s : string) : string := rstrip (lstrip s).

Record request := { q_path : string; q_method : meth; q_cookie : option nat; q_secret : option string }.

(** What happens to a request: the body of a handler's method runs, or not.
    [Denied] is the 403, [ToLogin] the redirect to the login page. *)
Inductive effect :=
| Ran (h : handler) (m : meth) | LoginPage | LoggedIn (cookie : nat) | LoginFailed
| ToLogin | Denied | NotAllowed | NotFound | BadRequest | NeverAwaited.

Section App.
  (** [matches pattern path]: tornado's routing *)
  Context (matches : string -> string -> bool).
  Context (routes : list route) (secret : option string).

  (** The signed cookies issued so far.  A cookie is accepted iff it was issued by this
      application: the signature is taken to be unforgeable, its expiry is left out. *)
  Definition issued := list nat.

  Definition has_method (h : handler) (m : meth) : bool := existsb (meth_eqb m) (h_methods h).

  (** A method of an undecorated handler: tornado itself awaits the result *)
  Definition run_plain (h : handler) (m : meth) : effect := if has_method h m then Ran h m else NotAllowed.

  (** baseapp.py:198-227: every method but PATCH is wrapped in [authenticated]; the
      wrapper calls the handler's method and drops the result.  PATCH is inherited. *)
  Definition run_secured (user : bool) (h : handler) (m : meth) : effect :=
    if meth_eqb m PATCH then run_plain h m
    else if user then
      if has_method h m then (if existsb (meth_eqb m) (h_async h) then NeverAwaited else Ran h m) else NotAllowed
    else if meth_eqb m GET || meth_eqb m HEAD then ToLogin else Denied.

  (** baseapp.py:160-179 *)
  Definition run_login (s : issued) (m : meth) (posted : option string) : issued * effect :=
    match m with
    | GET => (s, LoginPage)
    | POST => match posted with
              | None => (s, BadRequest)
              | Some p => match secret with
                          | Some k => if String.eqb (strip p) k then let t := List.length s in (t :: s, LoggedIn t)
                                      else (s, LoginFailed)
                          | None => (s, LoginFailed)
                          end
              end
    | _ => (s, NotAllowed)
    end.

  Definition serve (s : issued) (q : request) : issued * effect :=
    match find (fun r => matches (fst r) (q_path q)) routes with
    | None => (s, NotFound)
    | Some (_, Plain h) => (s, run_plain h (q_method q))
    | Some (_, Secured h) =>
        let user := match q_cookie q with Some t => existsb (Nat.eqb t) s | None => false end in
        (s, run_secured user h (q_method q))
    | Some (_, Login) => run_login s (q_method q) (q_secret q)
    end.

  Fixpoint serve_all (s : issued) (qs : list request) : list effect :=
    match qs with
    | [] => []
    | q :: r => let '(s', e) := serve s q in e :: serve_all s' r
    end.
End App.

(** ** URLs of features, baseapp.py:99-102 *)

Definition unreserved (c : ascii) : bool :=
  let n := Ascii.nat_of_ascii c in
  (Nat.leb 48 n && Nat.leb n 57) || (Nat.leb 65 n && Nat.leb n 90) || (Nat.leb 97 n && Nat.leb n 122)
  || Nat.eqb n 95 || Nat.eqb n 46 || Nat.eqb n 45 || Nat.eqb n 126.
Definition hex_digit (n : nat) : ascii :=
  Ascii.ascii_of_nat (if Nat.ltb n 10 then 48 + n else 55 + n).
Definition hex_value (c : ascii) : option nat :=
  let n := Ascii.nat_of_ascii c in
  if Nat.leb 48 n && Nat.leb n 57 then Some (n - 48)%nat
  else if Nat.leb 65 n && Nat.leb n 70 then Some (n - 55)%nat
  else if Nat.leb 97 n && Nat.leb n 102 then Some (n - 87)%nat
  else None.
(** [urllib.parse.quote(s, safe='')] on the UTF-8 bytes *)
Fixpoint quote (s : string) : string :=
  match s with
  | EmptyString => ""
  | String c r =>
      if unreserved c then String c (quote r)
      else let n := Ascii.nat_of_ascii c in
           String "%" (String (hex_digit (n / 16)) (String (hex_digit (n mod 16)) (quote r)))
  end.
(** [urllib.parse.unquote_to_bytes], which tornado applies to the groups of the path *)
Fixpoint unquote (s : string) : string :=
  match s with
  | EmptyString => ""
  | String c r =>
      match r with
      | String h (String l r') =>
          if Ascii.eqb c "%" then
            match hex_value h, hex_value l with
            | Some a, Some b => String (Ascii.ascii_of_nat (16 * a + b)) (unquote r')
            | _, _ => String c (unquote r)
            end
          else String c (unquote r)
      | _ => String c (unquote r)
      end
  end.

(** baseapp.py:99-102 *)
Definition feature_path (base_path id_ feature_ : string) : string := base_path ++ quote id_ ++ "/" ++ feature_.

(** drop a prefix *)
Fixpoint after (p s : string) : option string :=
  match p, s with
  | EmptyString, _ => Some s
  | String a p', String b s' => if Ascii.eqb a b then after p' s' else None
  | _, EmptyString => None
  end.
Definition drop_slash (s : string) : string :=
  (* [(.+?)/?$]: the lazy group leaves one trailing slash out, unless it is all there is *)
  match s with
  | String c r => String c ((fix go (t : string) := match t with
                                              | EmptyString => ""
                                              | String d EmptyString => if Ascii.eqb d "/" then "" else t
                                              | String d t' => String d (go t')
                                              end) r)
  | EmptyString => ""
  end.
(** [/zounds/(.+?)/(.+?)/?$], baseapp.py:184: the groups.  The first character of the
    first group may be a slash; it then ends before the next slash. *)
Definition match_feature (path : string) : option (string * string) :=
  match after "/zounds/" path with
  | Some (String c r) =>
      match cut "/" r with
      | Some (a, b) => if is_empty b then None else Some (String c a, drop_slash b)
      | None => None
      end
  | _ => None
  end.
(** [/zounds/temp/(.+?)/?$], api.py:42 *)
Definition match_temp (path : string) : option string :=
  match after "/zounds/temp/" path with
  | Some (String c r) => Some (drop_slash (String c r))
  | _ => None
  end.
(** [<literal>/?$], the other routes *)
Definition match_literal (lit path : string) : bool := String.eqb path lit || String.eqb path (lit ++ "/").

Inductive dest := ToFeature (id_ feature_ : string) | ToTemp (id_ : string) | ToRepl | ToUi | ToLoginPage | Nowhere.
(** baseapp.py:181-186 *)
Definition base_dispatch (path : string) : dest :=
  if String.eqb path "/" then ToUi
  else match match_feature path with
       | Some (a, b) => ToFeature (unquote a) (unquote b)
       | None => if match_literal "/zounds/login" path then ToLoginPage else Nowhere
       end.
(** api.py:40-44 in front of them: ZoundsApp *)
Definition zounds_dispatch (path : string) : dest :=
  match match_temp path with
  | Some t => ToTemp (unquote t)
  | None => if match_literal "/zounds/repl" path then ToRepl else base_dispatch path
  end.

(** ** The REPL's feature parser, featureparser.py *)

(** The part of Python's syntax tree that is looked at *)
Inductive pexpr := Name (id_ : string) | Attribute (value : pexpr) (attr : string) | OtherExpr.
(** [Expr] is the expression statement; [Stmt] any other statement with the statements
    inside it *)
Inductive pstmt := Expr (e : pexpr) | Stmt (body : list pstmt).

Section Parser.
  Context {D F : Type}.
  Record visitor := { v_doc : option D; v_feature : option string }.
  Context (document : option (list (string * F))).     (* the model class: its features *)
  Context (locals : string -> option (D * bool)).      (* the variable, and isinstance *)

  Definition lookup (k : string) (l : list (string * F)) : option F :=
    option_map snd (find (fun p => String.eqb (fst p) k) l).

  (** featureparser.py:20-49, [visit_Expr]; false: ValueError.  An Expr has one child and
      an Attribute two (its value and its context), so the length checks never fail. *)
  Definition visit_expr (v : visitor) (e : pexpr) : visitor * bool :=
    match document with
    | None => (v, false)
    | Some feats =>
        match e with
        | Attribute value attr =>
            match lookup attr feats with
            | None => (v, false)
            | Some _ =>
                match value with
                | Name x => match locals x with
                            | Some (d, true) => ({| v_doc := Some d; v_feature := Some attr |}, true)
                            | _ => (v, false)
                            end
                | _ => (v, false)
                end
            end
        | _ => (v, false)
        end
    end.
  (** ast.NodeVisitor.generic_visit: in order, until an exception *)
  Fixpoint visit (v : visitor) (s : pstmt) : visitor * bool :=
    match s with
    | Expr e => visit_expr v e
    | Stmt body =>
        (fix go v ss := match ss with
                        | [] => (v, true)
                        | s :: r => let '(v', ok) := visit v s in if ok then go v' r else (v', false)
                        end) v body
    end.
  (** featureparser.py:12-18, [result] *)
  Definition visitor_result (v : visitor) : option D * option F :=
    (v_doc v, match v_feature v, document with
              | Some k, Some feats => lookup k feats
              | _, _ => None
              end).
  (** featureparser.py:52-63, with a new parser as in api.py:77-78 *)
  Definition parse_feature (module_ : list pstmt) : option D * option F :=
    visitor_result (fst (visit {| v_doc := None; v_feature := None |} (Stmt module_))).
End Parser.

(** ** Training history, training_monitor.py:58-74 *)
Section History.
  Context {V : Type}.
  (** a batch report: its number and the value of the key, if any.  One key is followed;
      the keys do not influence each other. *)
  Record report := { b_number : Z; b_value : option V }.
  Definition collect (frequency n : Z) (hist : list V) (r : report) : result (list V) :=
    if frequency =? 0 then Raise ZeroDivisionError
    else if negb (b_number r mod frequency =? 0) then Ok hist
    else let h := py_slice (Some (- n)) None hist in
         Ok match b_value r with Some v => (h ++ [v])%list | None => h end.
  Fixpoint collect_all (frequency n : Z) (hist : list V) (rs : list report) : result (list V) :=
    match rs with
    | [] => Ok hist
    | r :: rest => do h <- collect frequency n hist r; collect_all frequency n h rest
    end.
End History.
