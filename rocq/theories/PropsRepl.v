(** Properties C90 and C91: the in-browser REPL and the search page. *)
From Coq Require Import String Ascii QArith.
From Verif Require Import PyBase PyFacts PyMore Time Audio Midi Persist PersistProofs Index IndexProofs Ui UiProofs Ui2Proofs Repl ReplProofs ReplProofs2.
Local Open Scope string_scope.
Local Open Scope Z_scope.
Theorem C90_answers :
  forall (A Ob W E T : Type) (run_expression : E -> machine W -> machine W * (value A Ob + raised))
    (run_statements : T -> machine W -> machine W * option raised) (expression_tree : E -> pexpr)
    (statements_tree : T -> list pstmt) (document : option (list (string * feature)))
    (locals : machine W -> string -> option (string * bool)) (base_path : string)
    (audio visualization : option string) (stored : string -> feature -> result (list N))
    (str_ : value A Ob -> string) (traceback : raised -> string) (uuid : nat -> string)
    (s : source E T) (a : app A W),
  let
  '(a', status, o) :=
   post run_expression run_statements expression_tree statements_tree document locals base_path
     audio visualization stored str_ traceback uuid s a in
   (status = 200 /\ get "error" o = None \/
    status = 400 /\ (exists x : raised, get "error" o = Some (traceback x))) /\
   m_stdout (a_machine a') = m_stdout (a_machine a).
Proof. exact (@post_answers). Qed.
Print Assumptions C90_answers.
Theorem C90_expression_served :
  forall (A Ob W E T : Type) (run_expression : E -> machine W -> machine W * (value A Ob + raised))
    (run_statements : T -> machine W -> machine W * option raised) (expression_tree : E -> pexpr)
    (statements_tree : T -> list pstmt) (document : option (list (string * feature)))
    (locals : machine W -> string -> option (string * bool)) (base_path : string)
    (audio visualization : option string) (stored : string -> feature -> result (list N))
    (str_ : value A Ob -> string) (traceback : raised -> string) (uuid : nat -> string) 
    (e : E) (a : app A W) (m : machine W) (v : value A Ob) (t : temp_result A),
  run_expression e (collecting (a_machine a)) = (m, inl v) ->
  serialize base_path audio visualization stored (context_of expression_tree document locals e m v) =
  Served t ->
  post run_expression run_statements expression_tree statements_tree document locals base_path
    audio visualization stored str_ traceback uuid (plain e) a =
  ({|
     a_temp := put (uuid (a_drawn a)) t (a_temp a);
     a_drawn := S (a_drawn a);
     a_machine := restored (a_machine a) m
   |}, 200,
   [("result", str_ v); ("url", "/zounds/temp/" ++ uuid (a_drawn a)); ("contentType", t_type t)]).
Proof. exact (@post_served). Qed.
Print Assumptions C90_expression_served.
Theorem C90_expression_plain :
  forall (A Ob W E T : Type) (run_expression : E -> machine W -> machine W * (value A Ob + raised))
    (run_statements : T -> machine W -> machine W * option raised) (expression_tree : E -> pexpr)
    (statements_tree : T -> list pstmt) (document : option (list (string * feature)))
    (locals : machine W -> string -> option (string * bool)) (base_path : string)
    (audio visualization : option string) (stored : string -> feature -> result (list N))
    (str_ : value A Ob -> string) (traceback : raised -> string) (uuid : nat -> string) 
    (e : E) (a : app A W) (m : machine W) (v : value A Ob),
  run_expression e (collecting (a_machine a)) = (m, inl v) ->
  serialize base_path audio visualization stored (context_of expression_tree document locals e m v) =
  Failed RNoMatchingSerializer ->
  post run_expression run_statements expression_tree statements_tree document locals base_path
    audio visualization stored str_ traceback uuid (plain e) a =
  ({| a_temp := a_temp a; a_drawn := a_drawn a; a_machine := restored (a_machine a) m |}, 200,
   [("result", str_ v)]).
Proof. exact (@post_unserved). Qed.
Print Assumptions C90_expression_plain.
Theorem C90_expression_not_servable :
  forall (A Ob W E T : Type) (run_expression : E -> machine W -> machine W * (value A Ob + raised))
    (run_statements : T -> machine W -> machine W * option raised) (expression_tree : E -> pexpr)
    (statements_tree : T -> list pstmt) (document : option (list (string * feature)))
    (locals : machine W -> string -> option (string * bool)) (base_path : string)
    (audio visualization : option string) (stored : string -> feature -> result (list N))
    (str_ : value A Ob -> string) (traceback : raised -> string) (uuid : nat -> string) 
    (e : E) (a : app A W) (m : machine W) (v : value A Ob) (x : exn),
  run_expression e (collecting (a_machine a)) = (m, inl v) ->
  serialize base_path audio visualization stored (context_of expression_tree document locals e m v) =
  Failed (RError x) ->
  post run_expression run_statements expression_tree statements_tree document locals base_path
    audio visualization stored str_ traceback uuid (plain e) a =
  ({| a_temp := a_temp a; a_drawn := a_drawn a; a_machine := restored (a_machine a) m |}, 400,
   [("result", str_ v); ("error", traceback (RError x))]).
Proof. exact (@post_failed). Qed.
Print Assumptions C90_expression_not_servable.
Theorem C90_raises :
  forall (A Ob W E T : Type) (run_expression : E -> machine W -> machine W * (value A Ob + raised))
    (run_statements : T -> machine W -> machine W * option raised) (expression_tree : E -> pexpr)
    (statements_tree : T -> list pstmt) (document : option (list (string * feature)))
    (locals : machine W -> string -> option (string * bool)) (base_path : string)
    (audio visualization : option string) (stored : string -> feature -> result (list N))
    (str_ : value A Ob -> string) (traceback : raised -> string) (uuid : nat -> string) 
    (e : E) (a : app A W) (m : machine W) (x : raised),
  run_expression e (collecting (a_machine a)) = (m, inr x) ->
  x <> RSyntaxError ->
  forall indented : bool,
  post run_expression run_statements expression_tree statements_tree document locals base_path
    audio visualization stored str_ traceback uuid
    {| s_indented := indented; s_code := Expression e |} a =
  ({| a_temp := a_temp a; a_drawn := a_drawn a; a_machine := restored (a_machine a) m |}, 400,
   [("error", traceback x)]).
Proof. exact (@post_raises). Qed.
Print Assumptions C90_raises.
Theorem C90_statements :
  forall (A Ob W E T : Type) (run_expression : E -> machine W -> machine W * (value A Ob + raised))
    (run_statements : T -> machine W -> machine W * option raised) (expression_tree : E -> pexpr)
    (statements_tree : T -> list pstmt) (document : option (list (string * feature)))
    (locals : machine W -> string -> option (string * bool)) (base_path : string)
    (audio visualization : option string) (stored : string -> feature -> result (list N))
    (str_ : value A Ob -> string) (traceback : raised -> string) (uuid : nat -> string) 
    (t : T) (a : app A W) (m : machine W),
  run_statements t (collecting (a_machine a)) = (m, None) ->
  post run_expression run_statements expression_tree statements_tree document locals base_path
    audio visualization stored str_ traceback uuid (statement t) a =
  ({| a_temp := a_temp a; a_drawn := a_drawn a; a_machine := restored (a_machine a) m |}, 200,
   [("result", nth (Datatypes.length (m_streams (a_machine a))) (m_streams m) "")]).
Proof. exact (@post_statement). Qed.
Print Assumptions C90_statements.
Theorem C90_statements_raise :
  forall (A Ob W E T : Type) (run_expression : E -> machine W -> machine W * (value A Ob + raised))
    (run_statements : T -> machine W -> machine W * option raised) (expression_tree : E -> pexpr)
    (statements_tree : T -> list pstmt) (document : option (list (string * feature)))
    (locals : machine W -> string -> option (string * bool)) (base_path : string)
    (audio visualization : option string) (stored : string -> feature -> result (list N))
    (str_ : value A Ob -> string) (traceback : raised -> string) (uuid : nat -> string) 
    (t : T) (a : app A W) (m : machine W) (x : raised),
  run_statements t (collecting (a_machine a)) = (m, Some x) ->
  post run_expression run_statements expression_tree statements_tree document locals base_path
    audio visualization stored str_ traceback uuid (statement t) a =
  ({| a_temp := a_temp a; a_drawn := a_drawn a; a_machine := restored (a_machine a) m |}, 400,
   [("error", traceback x)]).
Proof. exact (@post_statement_raises). Qed.
Print Assumptions C90_statements_raise.
Theorem C90_prints :
  forall (A Ob W E T : Type) (run_expression : E -> machine W -> machine W * (value A Ob + raised))
    (run_statements : T -> machine W -> machine W * option raised) (expression_tree : E -> pexpr)
    (statements_tree : T -> list pstmt) (document : option (list (string * feature)))
    (locals : machine W -> string -> option (string * bool)) (base_path : string)
    (audio visualization : option string) (stored : string -> feature -> result (list N))
    (str_ : value A Ob -> string) (traceback : raised -> string) (uuid : nat -> string) 
    (t : T) (a : app A W) (w : W) (text : string),
  run_statements t (collecting (a_machine a)) =
  ({|
     m_user := w;
     m_streams :=
       append_to (m_stdout (collecting (a_machine a))) text (m_streams (collecting (a_machine a)));
     m_stdout := m_stdout (collecting (a_machine a))
   |}, None) ->
  snd
    (fst
       (post run_expression run_statements expression_tree statements_tree document locals
          base_path audio visualization stored str_ traceback uuid (statement t) a)) = 200 /\
  snd
    (post run_expression run_statements expression_tree statements_tree document locals base_path
       audio visualization stored str_ traceback uuid (statement t) a) = [(
  "result", text)].
Proof. exact (@post_prints). Qed.
Print Assumptions C90_prints.
Theorem C90_not_python :
  forall (A Ob W E T : Type) (run_expression : E -> machine W -> machine W * (value A Ob + raised))
    (run_statements : T -> machine W -> machine W * option raised) (expression_tree : E -> pexpr)
    (statements_tree : T -> list pstmt) (document : option (list (string * feature)))
    (locals : machine W -> string -> option (string * bool)) (base_path : string)
    (audio visualization : option string) (stored : string -> feature -> result (list N))
    (str_ : value A Ob -> string) (traceback : raised -> string) (uuid : nat -> string)
    (indented : bool) (a : app A W),
  post run_expression run_statements expression_tree statements_tree document locals base_path
    audio visualization stored str_ traceback uuid {| s_indented := indented; s_code := Garbage |}
    a =
  ({|
     a_temp := a_temp a;
     a_drawn := a_drawn a;
     a_machine := restored (a_machine a) (collecting (a_machine a))
   |}, 400, [("error", traceback RSyntaxError)]).
Proof. exact (@post_garbage). Qed.
Print Assumptions C90_not_python.
Theorem C90_run_twice_refuted :
  forall (A Ob W E T : Type) (run_expression : E -> machine W -> machine W * (value A Ob + raised))
    (run_statements : T -> machine W -> machine W * option raised) (expression_tree : E -> pexpr)
    (statements_tree : T -> list pstmt) (document : option (list (string * feature)))
    (locals : machine W -> string -> option (string * bool)) (base_path : string)
    (audio visualization : option string) (stored : string -> feature -> result (list N))
    (str_ : value A Ob -> string) (traceback : raised -> string) (uuid : nat -> string) 
    (e : E) (a : app A W) (m m' : machine W) (r : value A Ob + raised),
  run_expression e (collecting (a_machine a)) = (m, inr RSyntaxError) ->
  run_expression e m = (m', r) ->
  a_machine
    (fst
       (fst
          (post run_expression run_statements expression_tree statements_tree document locals
             base_path audio visualization stored str_ traceback uuid (plain e) a))) =
  restored (a_machine a) m'.
Proof. exact (@post_twice). Qed.
Print Assumptions C90_run_twice_refuted.
Theorem C90_indented_refuted :
  forall (A Ob W E T : Type) (run_expression : E -> machine W -> machine W * (value A Ob + raised))
    (run_statements : T -> machine W -> machine W * option raised) (expression_tree : E -> pexpr)
    (statements_tree : T -> list pstmt) (document : option (list (string * feature)))
    (locals : machine W -> string -> option (string * bool)) (base_path : string)
    (audio visualization : option string) (stored : string -> feature -> result (list N))
    (str_ : value A Ob -> string) (traceback : raised -> string) (uuid : nat -> string) 
    (e : E) (a : app A W) (m : machine W) (v : value A Ob),
  run_expression e (collecting (a_machine a)) = (m, inl v) ->
  post run_expression run_statements expression_tree statements_tree document locals base_path
    audio visualization stored str_ traceback uuid {| s_indented := true; s_code := Expression e |}
    a =
  ({| a_temp := a_temp a; a_drawn := a_drawn a; a_machine := restored (a_machine a) m |}, 400,
   [("result", str_ v); ("error", traceback RSyntaxError)]).
Proof. exact (@post_indented). Qed.
Print Assumptions C90_indented_refuted.
Theorem C90_indented_statement :
  forall (A Ob W E T : Type) (run_expression : E -> machine W -> machine W * (value A Ob + raised))
    (run_statements : T -> machine W -> machine W * option raised) (expression_tree : E -> pexpr)
    (statements_tree : T -> list pstmt) (document : option (list (string * feature)))
    (locals : machine W -> string -> option (string * bool)) (base_path : string)
    (audio visualization : option string) (stored : string -> feature -> result (list N))
    (str_ : value A Ob -> string) (traceback : raised -> string) (uuid : nat -> string) 
    (t : T) (a : app A W),
  post run_expression run_statements expression_tree statements_tree document locals base_path
    audio visualization stored str_ traceback uuid {| s_indented := true; s_code := Statements t |}
    a =
  ({|
     a_temp := a_temp a;
     a_drawn := a_drawn a;
     a_machine := restored (a_machine a) (collecting (a_machine a))
   |}, 400, [("error", traceback RSyntaxError)]).
Proof. exact (@post_indented_statement). Qed.
Print Assumptions C90_indented_statement.
Theorem C90_temp_url :
  forall (A Ob W E T : Type) (run_expression : E -> machine W -> machine W * (value A Ob + raised))
    (run_statements : T -> machine W -> machine W * option raised) (expression_tree : E -> pexpr)
    (statements_tree : T -> list pstmt) (document : option (list (string * feature)))
    (locals : machine W -> string -> option (string * bool)) (base_path : string)
    (audio visualization : option string) (stored : string -> feature -> result (list N))
    (str_ : value A Ob -> string) (traceback : raised -> string) (uuid : nat -> string),
  (forall i j : nat, uuid i = uuid j -> i = j) ->
  (forall i : nat, uuid i <> "" /\ all_chars unreserved (uuid i) = true) ->
  forall (before : list (source E T)) (m : machine W) (s : source E T) 
    (a : app A W) (status : Z) (o : output) (u : string),
  post run_expression run_statements expression_tree statements_tree document locals base_path
    audio visualization stored str_ traceback uuid s
    (fst
       (session run_expression run_statements expression_tree statements_tree document locals
          base_path audio visualization stored str_ traceback uuid before 
          (initial m))) = (a, status, o) ->
  get "url" o = Some u ->
  exists (id_ : string) (t : temp_result A),
    u = "/zounds/temp/" ++ id_ /\
    zounds_dispatch u = ToTemp id_ /\
    get "contentType" o = Some (t_type t) /\
    (forall later : list (source E T),
     temp_get id_
       (fst
          (session run_expression run_statements expression_tree statements_tree document locals
             base_path audio visualization stored str_ traceback uuid later a)) = (
     200, Some t)).
Proof. exact (@temp_url). Qed.
Print Assumptions C90_temp_url.
Theorem C90_temp_unknown :
  forall (A Ob W E T : Type) (run_expression : E -> machine W -> machine W * (value A Ob + raised))
    (run_statements : T -> machine W -> machine W * option raised) (expression_tree : E -> pexpr)
    (statements_tree : T -> list pstmt) (document : option (list (string * feature)))
    (locals : machine W -> string -> option (string * bool)) (base_path : string)
    (audio visualization : option string) (stored : string -> feature -> result (list N))
    (str_ : value A Ob -> string) (traceback : raised -> string) (uuid : nat -> string),
  (forall i j : nat, uuid i = uuid j -> i = j) ->
  forall (ss : list (source E T)) (m : machine W) (id_ : string),
  (forall k : nat, id_ <> uuid k) ->
  temp_get id_
    (fst
       (session run_expression run_statements expression_tree statements_tree document locals
          base_path audio visualization stored str_ traceback uuid ss (initial m))) = (
  404, None).
Proof. exact (@temp_unknown). Qed.
Print Assumptions C90_temp_unknown.
Theorem C90_temp_never_dropped :
  forall (A Ob W E T : Type) (run_expression : E -> machine W -> machine W * (value A Ob + raised))
    (run_statements : T -> machine W -> machine W * option raised) (expression_tree : E -> pexpr)
    (statements_tree : T -> list pstmt) (document : option (list (string * feature)))
    (locals : machine W -> string -> option (string * bool)) (base_path : string)
    (audio visualization : option string) (stored : string -> feature -> result (list N))
    (str_ : value A Ob -> string) (traceback : raised -> string) (uuid : nat -> string),
  (forall i j : nat, uuid i = uuid j -> i = j) ->
  forall (ss : list (source E T)) (m : machine W),
  Datatypes.length
    (a_temp
       (fst
          (session run_expression run_statements expression_tree statements_tree document locals
             base_path audio visualization stored str_ traceback uuid ss 
             (initial m)))) =
  Datatypes.length
    (filter has_url
       (snd
          (session run_expression run_statements expression_tree statements_tree document locals
             base_path audio visualization stored str_ traceback uuid ss 
             (initial m)))).
Proof. exact (@temp_never_dropped). Qed.
Print Assumptions C90_temp_never_dropped.
Theorem C90_once_refuted :
  m_user (a_machine (fst (fst (toy_post (plain Broken) toy_start)))) = 2.
Proof. exact (@run_once_refuted). Qed.
Print Assumptions C90_once_refuted.
Theorem C90_blank_refuted :
  toy_post {| s_indented := true; s_code := Expression Tick |} toy_start =
  ({|
     a_temp := [];
     a_drawn := 0;
     a_machine := {| m_user := 1; m_streams := ["terminal"; ""]; m_stdout := 0 |}
   |}, 400, [("result", "1"); ("error", "Traceback")]).
Proof. exact (@indented_refuted). Qed.
Print Assumptions C90_blank_refuted.
Theorem C90_cube_refuted :
  toy_post (plain Cube) toy_start =
  ({|
     a_temp := [];
     a_drawn := 0;
     a_machine := {| m_user := 1; m_streams := ["terminal"; ""]; m_stdout := 0 |}
   |}, 400, [("result", "array"); ("error", "Traceback")]).
Proof. exact (@cube_refuted). Qed.
Print Assumptions C90_cube_refuted.
Theorem C91_samples :
  forall (A Ob : Type) (base_path : string) (audio visualization : option string)
    (stored : string -> feature -> result (list N)) (c : context A Ob) 
    (sps ch : Z) (l : list A),
  c_value c = Some (VSamples sps ch l) ->
  0 < sps ->
  exists chunks : list (list A),
    serialize base_path audio visualization stored c =
    Served {| t_data := BAudio sps ch chunks; t_type := "audio/ogg" |} /\
    concat chunks = l /\
    (forall (i : nat) (piece : list A),
     nth_error chunks i = Some piece ->
     piece <> [] /\ piece = firstn (Z.to_nat sps) (skipn (i * Z.to_nat sps) l)).
Proof. exact (@samples_served). Qed.
Print Assumptions C91_samples.
Theorem C91_arrays :
  forall (A Ob : Type) (base_path : string) (audio visualization : option string)
    (stored : string -> feature -> result (list N)) (c : context A Ob) 
    (shape : list Z) (data : list A),
  c_feature c = None ->
  c_value c = Some (VArray shape data) ->
  (Datatypes.length shape = 1%nat \/ Datatypes.length shape = 2%nat \/ colours shape ->
   serialize base_path audio visualization stored c =
   Served {| t_data := BImage shape data; t_type := "image/png" |}) /\
  (Datatypes.length shape = 3%nat ->
   ~ colours shape -> serialize base_path audio visualization stored c = Failed (RError ValueError)) /\
  (Datatypes.length shape = 0%nat \/ (3 < Datatypes.length shape)%nat ->
   serialize base_path audio visualization stored c = Failed RNoMatchingSerializer).
Proof. exact (@array_served). Qed.
Print Assumptions C91_arrays.
Theorem C91_others :
  forall (A Ob : Type) (base_path : string) (audio visualization : option string)
    (stored : string -> feature -> result (list N)) (c : context A Ob) 
    (o : Ob),
  c_feature c = None ->
  c_value c = Some (VOther o) ->
  serialize base_path audio visualization stored c = Failed RNoMatchingSerializer.
Proof. exact (@others_unserved). Qed.
Print Assumptions C91_others.
Theorem C91_stored :
  forall (A Ob : Type) (base_path : string) (audio visualization : option string)
    (stored : string -> feature -> result (list N)) (doc : string) (f : feature) 
    (v : value A Ob) (content : list N),
  stored_bytes f ->
  (forall (s ch : Z) (l : list A), v <> VSamples s ch l) ->
  stored doc f = Ok content ->
  serialize base_path audio visualization stored
    {| c_doc := Some doc; c_feature := Some f; c_timed := false; c_value := Some v |} =
  Served {| t_data := BStored content; t_type := f_content_type f |}.
Proof. exact (@stored_served). Qed.
Print Assumptions C91_stored.
Theorem C91_onsets :
  forall (A Ob : Type) (base_path : string) (audio visualization : option string)
    (stored : string -> feature -> result (list N)) (c : context A Ob) 
    (f : feature) (doc a v : string) (slices : list (td * td)),
  audio = Some a ->
  visualization = Some v ->
  f_class f = TimeSliceFeature ->
  ~ stored_bytes f ->
  c =
  {|
    c_doc := Some doc;
    c_feature := Some f;
    c_timed := false;
    c_value :=
      Some
        (VSlices
           (map (fun x : td * td => {| ts_start := fst x; ts_duration := Some (snd x) |}) slices))
  |} ->
  serialize base_path audio visualization stored c =
  Served
    {|
      t_data :=
        BJson
          (PDict
             [("results",
               PList (map (fun x : td * td => entry base_path a v doc (fst x) (snd x)) slices))]);
      t_type := "application/vnd.zounds.onsets+json"
    |}.
Proof. exact (@onsets_served). Qed.
Print Assumptions C91_onsets.
Theorem C91_onsets_unconfigured :
  forall (A Ob : Type) (base_path : string) (audio visualization : option string)
    (stored : string -> feature -> result (list N)) (c : context A Ob) 
    (f : feature) (doc : string) (ts : timeslice) (slices : list timeslice),
  audio = None ->
  f_class f = TimeSliceFeature ->
  ~ stored_bytes f ->
  c =
  {|
    c_doc := Some doc;
    c_feature := Some f;
    c_timed := false;
    c_value := Some (VSlices (ts :: slices))
  |} -> serialize base_path audio visualization stored c = Failed (RError AttributeError).
Proof. exact (@onsets_unconfigured). Qed.
Print Assumptions C91_onsets_unconfigured.
Theorem C91_search_results_refuted :
  forall (A Ob : Type) (base_path : string) (audio visualization : option string)
    (stored : string -> feature -> result (list N)) (c : context A Ob) 
    (q : list N) (hits : list hit),
  c_feature c = None ->
  c_value c = Some (VResults q hits) ->
  exists e : exn,
    serialize base_path audio visualization stored c = Failed (RError e) /\
    (Forall (fun h : hit => h_extra h = false /\ ts_duration (h_slice h) <> None) hits ->
     audio <> None -> visualization <> None -> e = TypeError).
Proof. exact (@search_results_fail). Qed.
Print Assumptions C91_search_results_refuted.
Theorem C91_search_results_extra_refuted :
  forall (A Ob : Type) (base_path : string) (audio visualization : option string)
    (stored : string -> feature -> result (list N)) (c : context A Ob) 
    (q : list N) (h : hit) (hits : list hit),
  c_feature c = None ->
  c_value c = Some (VResults q (h :: hits)) ->
  h_extra h = true -> serialize base_path audio visualization stored c = Failed (RError ValueError).
Proof. exact (@search_results_extra). Qed.
Print Assumptions C91_search_results_extra_refuted.
Theorem C91_search_page_refuted :
  forall (A Ob St : Type) (search : list bool -> Z -> St -> St * result (value A Ob))
    (random_search : Z -> St -> St * result (value A Ob)) (base_path : string)
    (audio visualization : option string) (stored : string -> feature -> result (list N)),
  (forall (q : list bool) (n : Z) (s : St) (v : value A Ob),
   snd (search q n s) = Ok v -> exists (code : list N) (hits : list hit), v = VResults code hits) ->
  (forall (n : Z) (s : St) (v : value A Ob),
   snd (random_search n s) = Ok v ->
   exists (code : list N) (hits : list hit), v = VResults code hits) ->
  forall (n : Z) (q : string) (s : St),
  exists (s' : St) (a : asked),
    search_get search random_search base_path audio visualization stored n q s = (s', 500, None, a).
Proof. exact (@search_page_fails). Qed.
Print Assumptions C91_search_page_refuted.
Theorem C91_search_page_asks :
  forall (A Ob St : Type) (search : list bool -> Z -> St -> St * result (value A Ob))
    (random_search : Z -> St -> St * result (value A Ob)) (base_path : string)
    (audio visualization : option string) (stored : string -> feature -> result (list N)),
  (forall (q : list bool) (n : Z) (s : St) (v : value A Ob),
   snd (search q n s) = Ok v -> exists (code : list N) (hits : list hit), v = VResults code hits) ->
  (forall (n : Z) (s : St) (v : value A Ob),
   snd (random_search n s) = Ok v ->
   exists (code : list N) (hits : list hit), v = VResults code hits) ->
  forall (n : Z) (code : list N) (s : St),
  code <> [] ->
  Forall (fun b : N => (b < 256)%N) code ->
  snd
    (search_get search random_search base_path audio visualization stored n
       (b64encode (map Z.of_N code)) s) = AskedFor (unpackbits code) n /\
  fst
    (fst
       (fst
          (search_get search random_search base_path audio visualization stored n
             (b64encode (map Z.of_N code)) s))) = fst (search (unpackbits code) n s).
Proof. exact (@search_page_asks). Qed.
Print Assumptions C91_search_page_asks.
Theorem C91_search_page_random :
  forall (A Ob St : Type) (search : list bool -> Z -> St -> St * result (value A Ob))
    (random_search : Z -> St -> St * result (value A Ob)) (base_path : string)
    (audio visualization : option string) (stored : string -> feature -> result (list N)) 
    (n : Z) (s : St),
  snd (search_get search random_search base_path audio visualization stored n "" s) = AskedRandom n /\
  fst (fst (fst (search_get search random_search base_path audio visualization stored n "" s))) =
  fst (random_search n s).
Proof. exact (@search_page_random). Qed.
Print Assumptions C91_search_page_random.

