(** Property theorems: the web application (C45, C46, C63, C64, C65). *)
From Verif Require Import PyBase PyFacts PyMore Time Audio Midi MidiProofs Ui UiProofs Ui2Proofs.
From Coq Require Import QArith Qround String Ascii.
Local Open Scope string_scope.
Local Open Scope Z_scope.

(** C45: [stored_bytes] are the features served as stored (JSON and vorbis);
    [bytes_header a r] is the text "bytes=a-r".  [pf] is Python's float(). *)
Theorem C45_open_range :
  forall (A : Type) (pf : string -> option Q)
    (timed : feature -> timeslice -> list A -> result (list A * bool * string)) 
    (f : feature) (content : list A) (a : Z),
  stored_bytes f ->
  0 <= a ->
  exists r : response A,
    feature_get pf timed f content (Some (bytes_header a "")) = Ok r /\
    r_status r = 206 /\
    r_body r = skipn (Z.to_nat a) content /\
    r_content_range r =
    Some ("bytes " ++ py_str a ++ "-" ++ py_str (Zlen content) ++ "/" ++ py_str (Zlen content)).
Proof. exact (@open_range). Qed.
Print Assumptions C45_open_range.
Theorem C45_closed_range_partial :
  forall (A : Type) (pf : string -> option Q)
    (timed : feature -> timeslice -> list A -> result (list A * bool * string)) 
    (f : feature) (content : list A) (a b : Z),
  stored_bytes f ->
  0 <= a <= b ->
  0 < b ->
  exists r : response A,
    feature_get pf timed f content (Some (bytes_header a (py_str b))) = Ok r /\
    r_status r = 206 /\
    (forall i : nat,
     nth_error (r_body r) i =
     (if a + Z.of_nat i <? b then nth_error content (Z.to_nat a + i) else None)) /\
    r_content_range r =
    Some ("bytes " ++ py_str a ++ "-" ++ py_str b ++ "/" ++ py_str (Zlen content)).
Proof. exact (@closed_range). Qed.
Print Assumptions C45_closed_range_partial.
Theorem C45_no_range :
  forall (A : Type) (pf : string -> option Q)
    (timed : feature -> timeslice -> list A -> result (list A * bool * string)) 
    (f : feature) (content : list A),
  stored_bytes f ->
  exists r : response A,
    feature_get pf timed f content None = Ok r /\
    r_status r = 200 /\
    r_body r = content /\
    r_content_range r =
    Some ("bytes None-" ++ py_str (Zlen content) ++ "/" ++ py_str (Zlen content)).
Proof. exact (@no_range). Qed.
Print Assumptions C45_no_range.
Theorem C45_seconds :
  forall (pf : string -> option Q) (start stop : string) (a b : Q),
  no_char "-" start ->
  start <> "" ->
  pf start = Some a ->
  pf stop = Some b ->
  (0 <= a)%Q ->
  (a <= b)%Q ->
  exists (t : timeslice) (e : Z),
    range pf (Some ("seconds=" ++ start ++ "-" ++ stop)) = Ok (Seconds t) /\
    ts_end t = Ok e /\
    (inject_Z (ps (ts_start t)) <= inject_Z (10 ^ 12) * a < inject_Z (ps (ts_start t) + 1))%Q /\
    (inject_Z e <= inject_Z (10 ^ 12) * b < inject_Z (e + 2))%Q.
Proof. exact (@seconds_range). Qed.
Print Assumptions C45_seconds.
Theorem C45_seconds_back :
  forall (pf : string -> option Q) (start stop : string) (a b : Q),
  no_char "-" start ->
  start <> "" ->
  pf start = Some a ->
  pf stop = Some b ->
  (0 <= a)%Q ->
  (b < a)%Q ->
  exists (t : timeslice) (e : Z),
    range pf (Some ("seconds=" ++ start ++ "-" ++ stop)) = Ok (Seconds t) /\
    ts_end t = Ok e /\ (inject_Z (e - 1) < inject_Z (10 ^ 12) * b < inject_Z (e + 1))%Q.
Proof. exact (@seconds_range_back). Qed.
Print Assumptions C45_seconds_back.
Theorem C45_statuses :
  forall (A : Type) (pf : string -> option Q)
    (timed : feature -> timeslice -> list A -> result (list A * bool * string)) 
    (f : feature) (content : list A) (header : option string),
  r_status (answer (feature_get pf timed f content header)) = 200 \/
  r_status (answer (feature_get pf timed f content header)) = 206 \/
  r_status (answer (feature_get pf timed f content header)) = 500.
Proof. exact (@never_416). Qed.
Print Assumptions C45_statuses.
Theorem C45_last_byte_refuted :
  forall (A : Type) (pf : string -> option Q)
    (timed : feature -> timeslice -> list A -> result (list A * bool * string)) 
    (f : feature) (content : list A) (a b : Z) (r : response A),
  stored_bytes f ->
  0 <= a <= b ->
  0 < b < Zlen content ->
  feature_get pf timed f content (Some (bytes_header a (py_str b))) = Ok r ->
  Zlen (r_body r) = b - a.
Proof. exact (@closed_range_refuted). Qed.
Print Assumptions C45_last_byte_refuted.
Theorem C45_first_byte_refuted :
  forall (A : Type) (pf : string -> option Q)
    (timed : feature -> timeslice -> list A -> result (list A * bool * string)) 
    (f : feature) (content : list A),
  stored_bytes f ->
  exists r : response A,
    feature_get pf timed f content (Some "bytes=0-0") = Ok r /\
    r_status r = 206 /\ r_body r = content.
Proof. exact (@first_byte_refuted). Qed.
Print Assumptions C45_first_byte_refuted.
Theorem C45_suffix_refuted :
  forall (A : Type) (pf : string -> option Q)
    (timed : feature -> timeslice -> list A -> result (list A * bool * string)) 
    (f : feature) (content : list A) (rest : string),
  stored_bytes f ->
  feature_get pf timed f content (Some ("bytes=-" ++ rest)) = feature_get pf timed f content None /\
  (exists r : response A,
     feature_get pf timed f content (Some ("bytes=-" ++ rest)) = Ok r /\
     r_status r = 200 /\ r_body r = content).
Proof. exact (@suffix_range_refuted). Qed.
Print Assumptions C45_suffix_refuted.
Theorem C45_beyond_end_refuted :
  forall (A : Type) (pf : string -> option Q)
    (timed : feature -> timeslice -> list A -> result (list A * bool * string)) 
    (f : feature) (content : list A) (a : Z),
  stored_bytes f ->
  Zlen content <= a ->
  exists r : response A,
    feature_get pf timed f content (Some (bytes_header a "")) = Ok r /\
    r_status r = 206 /\ r_body r = [].
Proof. exact (@beyond_end_refuted). Qed.
Print Assumptions C45_beyond_end_refuted.
Theorem C45_reversed_refuted :
  forall (A : Type) (pf : string -> option Q)
    (timed : feature -> timeslice -> list A -> result (list A * bool * string)) 
    (f : feature) (content : list A) (a b : Z),
  stored_bytes f ->
  0 <= b < a ->
  exists r : response A,
    feature_get pf timed f content (Some (bytes_header a (py_str b))) = Ok r /\
    r_status r = 206 /\ r_body r = skipn (Z.to_nat a) content.
Proof. exact (@reversed_range_refuted). Qed.
Print Assumptions C45_reversed_refuted.
Theorem C45_two_ranges_refuted :
  forall (A : Type) (pf : string -> option Q)
    (timed : feature -> timeslice -> list A -> result (list A * bool * string)) 
    (f : feature) (content : list A),
  stored_bytes f ->
  exists r : response A,
    feature_get pf timed f content (Some "bytes=2-4,7-8") = Ok r /\
    r_status r = 206 /\ r_body r = skipn 2 content.
Proof. exact (@two_ranges_refuted). Qed.
Print Assumptions C45_two_ranges_refuted.
Theorem C45_malformed_refuted :
  forall (A : Type) (pf : string -> option Q)
    (timed : feature -> timeslice -> list A -> result (list A * bool * string)) 
    (f : feature) (content : list A),
  r_status (answer (feature_get pf timed f content (Some "bytes=x-"))) = 500 /\
  r_status (answer (feature_get pf timed f content (Some "items=0-5"))) = 500.
Proof. exact (@malformed_range_refuted). Qed.
Print Assumptions C45_malformed_refuted.
Theorem C45_exponent_refuted :
  forall (pf : string -> option Q) (stop : string),
  pf "1e" = None -> range pf (Some ("seconds=1e-3-" ++ stop)) = Raise ValueError.
Proof. exact (@seconds_exponent_refuted). Qed.
Print Assumptions C45_exponent_refuted.
Theorem C45_array_features_refuted :
  forall (A : Type) (pf : string -> option Q)
    (timed : feature -> timeslice -> list A -> result (list A * bool * string)) 
    (f : feature) (content : list A) (header : option string) (sl : rslice),
  ~ stored_bytes f ->
  range pf header = Ok sl ->
  (forall t : timeslice, sl <> Seconds t) ->
  r_status (answer (feature_get pf timed f content header)) = 500.
Proof. exact (@no_serializer). Qed.
Print Assumptions C45_array_features_refuted.
Theorem C45_onsets_refuted :
  forall (A : Type) (pf : string -> option Q)
    (timed : feature -> timeslice -> list A -> result (list A * bool * string)) 
    (f : feature) (content : list A) (header : option string),
  ~ stored_bytes f ->
  f_class f = TimeSliceFeature -> r_status (answer (feature_get pf timed f content header)) = 500.
Proof. exact (@onsets_refuted). Qed.
Print Assumptions C45_onsets_refuted.

(** C46: [logged_in_before k qs es i t]: an earlier request of the history posted the
    secret and was given cookie t *)
Theorem C46_secured :
  forall (matches : string -> string -> bool) (custom : list route) (k : string),
  k <> "" ->
  (forall (p : string) (t : target), In (p, t) custom -> exists h : handler, t = Plain h) ->
  forall (qs : list request) (i : nat) (h : handler) (m : meth),
  nth_error (serve_all matches (make_app custom (Some k)) (Some k) [] qs) i = Some (Ran h m) ->
  exists (q : request) (p : string),
    nth_error qs i = Some q /\
    m = q_method q /\
    matches p (q_path q) = true /\
    In (p, Plain h) (custom ++ base_routes) /\
    ((exists a b : string, p = a ++ "login" ++ b) \/
     m = PATCH \/
     (exists t : nat,
        q_cookie q = Some t /\
        logged_in_before k qs (serve_all matches (make_app custom (Some k)) (Some k) [] qs) i t)).
Proof. exact (@secured). Qed.
Print Assumptions C46_secured.
Theorem C46_secured_all :
  forall (matches : string -> string -> bool) (custom : list route) (k : string),
  k <> "" ->
  (forall (p : string) (t : target), In (p, t) custom -> exists h : handler, t = Plain h) ->
  forall (qs : list request) (i : nat) (h : handler) (m : meth),
  (forall (p : string) (t : target),
   In (p, t) custom -> ~ (exists a b : string, p = a ++ "login" ++ b)) ->
  (forall (p : string) (h0 : handler), In (p, Plain h0) custom -> ~ In PATCH (h_methods h0)) ->
  nth_error (serve_all matches (make_app custom (Some k)) (Some k) [] qs) i = Some (Ran h m) ->
  exists (q : request) (t : nat),
    nth_error qs i = Some q /\
    q_cookie q = Some t /\
    logged_in_before k qs (serve_all matches (make_app custom (Some k)) (Some k) [] qs) i t.
Proof. exact (@secured_all). Qed.
Print Assumptions C46_secured_all.
Theorem C46_training :
  forall (matches : string -> string -> bool) (k : string) (qs : list request) 
    (i : nat) (h : handler) (m : meth),
  k <> "" ->
  nth_error (serve_all matches (make_app training_routes (Some k)) (Some k) [] qs) i =
  Some (Ran h m) ->
  exists (q : request) (t : nat),
    nth_error qs i = Some q /\
    q_cookie q = Some t /\
    logged_in_before k qs (serve_all matches (make_app training_routes (Some k)) (Some k) [] qs) i
      t.
Proof. exact (@training_secured). Qed.
Print Assumptions C46_training.
Theorem C46_unauthenticated :
  forall (matches : string -> string -> bool) (custom : list route) (k : string) 
    (s : list nat) (q : request) (h : handler) (p : string),
  find (fun r : string * target => matches (fst r) (q_path q)) (make_app custom (Some k)) =
  Some (p, Secured h) ->
  q_method q <> PATCH ->
  (forall t : nat, q_cookie q = Some t -> ~ In t s) ->
  serve matches (make_app custom (Some k)) (Some k) s q =
  (s, match q_method q with
      | GET | HEAD => ToLogin
      | _ => Denied
      end).
Proof. exact (@unauthenticated). Qed.
Print Assumptions C46_unauthenticated.
Theorem C46_authenticated :
  forall (matches : string -> string -> bool) (custom : list route) (k : string),
  k <> "" ->
  (forall (p : string) (t : target), In (p, t) custom -> exists h : handler, t = Plain h) ->
  forall (s : list nat) (q : request) (t : nat),
  q_cookie q = Some t ->
  In t s ->
  (forall (p : string) (h : handler), In (p, Plain h) (custom ++ base_routes) -> h_async h = []) ->
  (forall p : string, In (p, Login) (custom ++ base_routes) -> matches p (q_path q) = false) ->
  serve matches (make_app custom (Some k)) (Some k) s q =
  serve matches (make_app custom None) None s q.
Proof. exact (@authenticated). Qed.
Print Assumptions C46_authenticated.
Theorem C46_unsecured :
  forall (matches : string -> string -> bool) (custom : list route) (s : issued) 
    (q : request) (secret : option string),
  secret = None \/ secret = Some "" ->
  serve matches (make_app custom secret) secret s q =
  serve matches (custom ++ base_routes) secret s q.
Proof. exact (@unsecured). Qed.
Print Assumptions C46_unsecured.
Theorem C46_login_works :
  forall (matches : string -> string -> bool) (routes : list (string * target)) 
    (k : string) (s : issued) (q : request) (p : string),
  find (fun r : string * target => matches (fst r) (q_path q)) routes = Some (p, Login) ->
  q_method q = POST ->
  q_secret q = Some k ->
  strip k = k -> exists t : nat, serve matches routes (Some k) s q = (t :: s, LoggedIn t).
Proof. exact (@login_works). Qed.
Print Assumptions C46_login_works.
Theorem C46_patch_refuted :
  exists (custom : list route) (qs : list request) (h : handler),
    serve_all String.eqb (make_app custom (Some "pw")) (Some "pw") [] qs = [Ran h PATCH] /\
    (forall q : request, In q qs -> q_cookie q = None).
Proof. exact (@patch_refuted). Qed.
Print Assumptions C46_patch_refuted.
Theorem C46_login_pattern_refuted :
  exists (custom : list route) (qs : list request) (h : handler),
    serve_all String.eqb (make_app custom (Some "pw")) (Some "pw") [] qs = [Ran h GET] /\
    (forall q : request, In q qs -> q_cookie q = None) /\ custom <> [].
Proof. exact (@login_pattern_refuted). Qed.
Print Assumptions C46_login_pattern_refuted.
Theorem C46_empty_secret_refuted :
  exists qs : list request,
    serve_all String.eqb (make_app [] (Some "")) (Some "") [] qs = [Ran ui_handler GET] /\
    (forall q : request, In q qs -> q_cookie q = None).
Proof. exact (@empty_secret_refuted). Qed.
Print Assumptions C46_empty_secret_refuted.
Theorem C46_login_blanks :
  forall (matches : string -> string -> bool) (routes : list (string * target)) (k : string) (s : list nat) (q : request) (p a b : string),
  find (fun r => matches (fst r) (q_path q)) routes = Some (p, Login) ->
  q_method q = POST -> strip k = k -> k <> "" ->
  (forall c : Ascii.ascii, In c (list_ascii_of_string (a ++ b)) -> In (Ascii.nat_of_ascii c) [9; 10; 11; 12; 13; 28; 29; 30; 31; 32]%nat) ->
  q_secret q = Some (a ++ k ++ b) ->
  serve matches routes (Some k) s q = (List.length s :: s, LoggedIn (List.length s)).
Proof. exact (@login_blanks). Qed.
Print Assumptions C46_login_blanks.
Theorem C46_blank_secret_refuted :
  forall (matches : string -> string -> bool) (routes : list route) (k : string)
    (qs : list request) (t : nat),
  strip k <> k -> ~ In (LoggedIn t) (serve_all matches routes (Some k) [] qs).
Proof. exact (@blank_secret_refuted). Qed.
Print Assumptions C46_blank_secret_refuted.
Theorem C46_coroutine_refuted :
  exists (custom : list route) (qs : list request),
    forall (h : handler) (m : meth),
    In (LoggedIn 0) (serve_all String.eqb (make_app custom (Some "pw")) (Some "pw") [] qs) /\
    nth_error (serve_all String.eqb (make_app custom (Some "pw")) (Some "pw") [] qs) 1 <>
    Some (Ran h m) /\
    nth_error (serve_all String.eqb (make_app custom None) None [] qs) 1 =
    Some (Ran {| h_name := "slow"; h_methods := [GET]; h_async := [GET] |} GET).
Proof. exact (@coroutine_refuted). Qed.
Print Assumptions C46_coroutine_refuted.

(** C63 *)
Theorem C63_unquote_quote :
  forall s : string, unquote (quote s) = s.
Proof. exact (@unquote_quote). Qed.
Print Assumptions C63_unquote_quote.
Theorem C63_escapes :
  forall (c : ascii) (s : string),
  unreserved c = false ->
  exists h l : ascii,
    In h upper_hex /\
    In l upper_hex /\ quote (String c s) = String "%" (String h (String l (quote s))).
Proof. exact (@quote_escapes). Qed.
Print Assumptions C63_escapes.
Theorem C63_base :
  forall id_ f : string,
  id_ <> "" ->
  f <> "" ->
  all_chars unreserved f = true -> base_dispatch (feature_path "/zounds/" id_ f) = ToFeature id_ f.
Proof. exact (@feature_url). Qed.
Print Assumptions C63_base.
Theorem C63_repl :
  forall id_ f : string,
  id_ <> "" ->
  id_ <> "temp" ->
  f <> "" ->
  all_chars unreserved f = true ->
  zounds_dispatch (feature_path "/zounds/" id_ f) = ToFeature id_ f.
Proof. exact (@zounds_feature_url). Qed.
Print Assumptions C63_repl.
Theorem C63_temp_refuted :
  forall f : string,
  f <> "" ->
  all_chars unreserved f = true -> zounds_dispatch (feature_path "/zounds/" "temp" f) = ToTemp f.
Proof. exact (@temp_document_refuted). Qed.
Print Assumptions C63_temp_refuted.
Theorem C63_monitors_refuted :
  forall id_ f : string, id_ <> "" -> zounds_dispatch (feature_path "/zounds" id_ f) = Nowhere.
Proof. exact (@monitor_base_path_refuted). Qed.
Print Assumptions C63_monitors_refuted.

(** C64: [denotes e d f]: e is [x.a], x holds the document d and a names the feature f *)
Theorem C64_single :
  forall (D F : Type) (feats : list (string * F)) (locals : string -> option (D * bool))
    (e : pexpr) (d : D) (f : F),
  parse_feature (Some feats) locals [Expr e] = (Some d, Some f) <-> denotes feats locals e d f.
Proof. exact (@parse_single). Qed.
Print Assumptions C64_single.
Theorem C64_single_none :
  forall (D F : Type) (feats : list (string * F)) (locals : string -> option (D * bool))
    (e : pexpr),
  (forall (d : D) (f : F), ~ denotes feats locals e d f) ->
  parse_feature (Some feats) locals [Expr e] = (None, None).
Proof. exact (@parse_single_none). Qed.
Print Assumptions C64_single_none.
Theorem C64_program :
  forall (D F : Type) (feats : list (string * F)) (locals : string -> option (D * bool))
    (ss : list pstmt) (d : D) (f : F),
  parse_feature (Some feats) locals ss = (Some d, Some f) ->
  exists (before : list pexpr) (e : pexpr) (after : list pexpr),
    flat_map expressions ss = (before ++ e :: after)%list /\
    denotes feats locals e d f /\
    (forall e' : pexpr, In e' before -> exists (d' : D) (f' : F), denotes feats locals e' d' f') /\
    (forall (e' : pexpr) (r : list pexpr),
     after = e' :: r -> forall (d' : D) (f' : F), ~ denotes feats locals e' d' f').
Proof. exact (@parse_program). Qed.
Print Assumptions C64_program.
Theorem C64_program_refuted :
  exists (ss : list pstmt) (last_ : pexpr),
    ss = [Expr (Attribute (Name "doc") "fft"); Expr last_] /\
    last_ = OtherExpr /\
    parse_feature (Some [("fft", 1%nat)]) (fun _ : string => Some (7%nat, true)) ss =
    (Some 7%nat, Some 1%nat).
Proof. exact (@parse_program_refuted). Qed.
Print Assumptions C64_program_refuted.

(** C65: [reported]: the values of the batches whose number is a multiple of the frequency *)
Theorem C65_history :
  forall (V : Type) (frequency : Z),
  frequency <> 0 ->
  forall (n : Z) (rs : list report),
  0 < n ->
  exists h dropped : list V,
    collect_all frequency n [] rs = Ok h /\
    reported frequency rs = (dropped ++ h)%list /\ Zlen h <= n + 1 /\ (Zlen h < n -> dropped = []).
Proof. exact (@history). Qed.
Print Assumptions C65_history.
Theorem C65_zero :
  forall (V : Type) (frequency : Z),
  frequency <> 0 ->
  forall (rs : list report) (hist : list V),
  collect_all frequency 0 hist rs = Ok (hist ++ reported frequency rs)%list.
Proof. exact (@history_zero). Qed.
Print Assumptions C65_zero.
Theorem C65_bound_refuted :
  exists (rs : list report) (h : list nat), collect_all 10 2 [] rs = Ok h /\ Zlen h = 3.
Proof. exact (@history_refuted). Qed.
Print Assumptions C65_bound_refuted.

