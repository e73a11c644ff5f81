(** Proofs about Repl.v: what a statement is answered, and what the urls lead to. *)
From Coq Require Import String Ascii QArith.
From Verif Require Import PyBase PyFacts PyMore Time Audio Midi Persist PersistProofs Index Ui UiProofs Ui2Proofs Repl.
Local Open Scope string_scope.
Local Open Scope Z_scope.

Lemma get_put {B} k (v : B) d k' : get k' (put k v d) = if String.eqb k k' then Some v else get k' d.
Proof.
  unfold get. induction d as [|[a b] d IH]; simpl.
  - destruct (String.eqb k k'); reflexivity.
  - destruct (String.eqb a k) eqn:E1; simpl.
    + apply String.eqb_eq in E1. subst a. destruct (String.eqb k k') eqn:E2; reflexivity.
    + destruct (String.eqb a k') eqn:E2; simpl.
      * destruct (String.eqb k k') eqn:E3; [|reflexivity].
        apply String.eqb_eq in E2. apply String.eqb_eq in E3. subst. rewrite String.eqb_refl in E1. discriminate.
      * exact IH.
Qed.

Section Repl.
  Context {A Ob W E T : Type}.
  Context (run_expression : E -> machine W -> machine W * (value A Ob + raised)).
  Context (run_statements : T -> machine W -> machine W * option raised).
  Context (expression_tree : E -> pexpr) (statements_tree : T -> list pstmt).
  Context (document : option (list (string * feature))).
  Context (locals : machine W -> string -> option (string * bool)).
  Context (base_path : string) (audio visualization : option string).
  Context (stored : string -> feature -> result (list N)).
  Context (str_ : value A Ob -> string).
  Context (traceback : raised -> string).
  Context (uuid : nat -> string).

  Notation post := (post run_expression run_statements expression_tree statements_tree document locals
                      base_path audio visualization stored str_ traceback uuid).
  Notation attempt := (attempt run_expression run_statements expression_tree statements_tree document locals
                      base_path audio visualization stored str_ uuid).
  Notation add_url := (@Repl.add_url A Ob W E T expression_tree statements_tree document locals
                      base_path audio visualization stored uuid).
  Notation session := (session run_expression run_statements expression_tree statements_tree document locals
                      base_path audio visualization stored str_ traceback uuid).
  Notation serialize := (@serialize A Ob base_path audio visualization stored).

  (** The interpreter as the code being run sees it: output is collected in a new stream *)
  Definition collecting (m : machine W) : machine W :=
    {| m_user := m_user m; m_streams := (m_streams m ++ [""])%list; m_stdout := List.length (m_streams m) |}.
  (** ... and as it is left: [sys.stdout] is what it was *)
  Definition restored (m0 m : machine W) : machine W :=
    {| m_user := m_user m; m_streams := m_streams m; m_stdout := m_stdout m0 |}.

  Lemma add_url_errors s o v a : get "error" o = None ->
    get "error" (snd (fst (add_url s o v a))) = None.
  Proof.
    intros H. unfold Repl.add_url. destruct (py_parse _ _ s); [|exact H].
    destruct (parse_feature _ _ _) as [d f]. destruct (serialize _) as [t|[| |e]]; simpl; try exact H.
    rewrite !get_put. simpl. exact H.
  Qed.
  Lemma add_url_machine s o v a : a_machine (fst (fst (add_url s o v a))) = a_machine a.
  Proof.
    unfold Repl.add_url. destruct (py_parse _ _ s); [|reflexivity].
    destruct (parse_feature _ _ _) as [d f]. destruct (serialize _) as [t|[| |e]]; reflexivity.
  Qed.

  Lemma attempt_errors s sio a : get "error" (snd (fst (attempt s sio a))) = None.
  Proof.
    unfold Repl.attempt. destruct (py_eval _ s _) as [m r].
    destruct r as [v|x].
    - pose proof (add_url_errors s (put "result" (str_ v) []) v (with_machine a m) eq_refl) as H.
      destruct (add_url _ _ _ _) as [[a1 o1] x1]. simpl in H.
      destruct x1 as [[| |e]|]; try exact H.
      destruct (py_exec _ _ _ _) as [m2 [x|]]; simpl; [exact H|]. rewrite get_put. exact H.
    - destruct x as [| |e]; try reflexivity.
      destruct (py_exec _ _ _ _) as [m2 [x|]]; reflexivity.
  Qed.

  (** Theorem: every statement is answered 200 or 400, 400 exactly when the answer has an
      error, and [sys.stdout] is always put back *)
  Lemma post_answers s a :
    let '(a', status, o) := post s a in
    (status = 200 /\ get "error" o = None \/ status = 400 /\ exists x, get "error" o = Some (traceback x))
    /\ m_stdout (a_machine a') = m_stdout (a_machine a).
  Proof.
    unfold Repl.post. pose proof (attempt_errors s (List.length (m_streams (a_machine a)))
      (with_machine a (collecting (a_machine a)))) as H.
    unfold collecting in H. destruct (attempt _ _ _) as [[a1 o1] [x|]]; simpl in *.
    - split; [|reflexivity]. right. split; [reflexivity|]. exists x. rewrite get_put. reflexivity.
    - split; [|reflexivity]. left. split; [reflexivity|exact H].
  Qed.

  (** *** Expressions *)
  Definition plain (e : E) : source E T := {| s_indented := false; s_code := Expression e |}.
  Definition statement (t : T) : source E T := {| s_indented := false; s_code := Statements t |}.

  Definition context_of (e : E) (m : machine W) (v : value A Ob) : context A Ob :=
    let '(doc, f) := parse_feature document (locals m) [Expr (expression_tree e)] in
    {| c_doc := doc; c_feature := f; c_timed := false; c_value := Some v |}.

  Lemma post_served e a m v t : run_expression e (collecting (a_machine a)) = (m, inl v) ->
    serialize (context_of e m v) = Served t ->
    post (plain e) a =
      ({| a_temp := put (uuid (a_drawn a)) t (a_temp a); a_drawn := S (a_drawn a);
          a_machine := restored (a_machine a) m |}, 200,
       [("result", str_ v); ("url", "/zounds/temp/" ++ uuid (a_drawn a)); ("contentType", t_type t)]).
  Proof.
    intros H. unfold context_of. unfold Repl.post, Repl.attempt, py_eval. cbn [s_code plain with_machine a_machine].
    unfold collecting in H. rewrite H. unfold Repl.add_url. cbn [py_parse plain s_indented s_code a_machine with_machine].
    destruct (parse_feature _ _ _) as [d f]. intros ->. reflexivity.
  Qed.
  Lemma post_unserved e a m v : run_expression e (collecting (a_machine a)) = (m, inl v) ->
    serialize (context_of e m v) = Failed RNoMatchingSerializer ->
    post (plain e) a = ({| a_temp := a_temp a; a_drawn := a_drawn a; a_machine := restored (a_machine a) m |}, 200,
       [("result", str_ v)]).
  Proof.
    intros H. unfold context_of. unfold Repl.post, Repl.attempt, py_eval. cbn [s_code plain with_machine a_machine].
    unfold collecting in H. rewrite H. unfold Repl.add_url. cbn [py_parse plain s_indented s_code a_machine with_machine].
    destruct (parse_feature _ _ _) as [d f]. intros ->. reflexivity.
  Qed.
  Lemma post_failed e a m v x : run_expression e (collecting (a_machine a)) = (m, inl v) ->
    serialize (context_of e m v) = Failed (RError x) ->
    post (plain e) a = ({| a_temp := a_temp a; a_drawn := a_drawn a; a_machine := restored (a_machine a) m |}, 400,
       [("result", str_ v); ("error", traceback (RError x))]).
  Proof.
    intros H. unfold context_of. unfold Repl.post, Repl.attempt, py_eval. cbn [s_code plain with_machine a_machine].
    unfold collecting in H. rewrite H. unfold Repl.add_url. cbn [py_parse plain s_indented s_code a_machine with_machine].
    destruct (parse_feature _ _ _) as [d f]. intros ->. reflexivity.
  Qed.

  (** Theorem: an expression (or the statements) that raises anything but SyntaxError is run
      once and answered 400 with the traceback *)
  Lemma post_raises e a m x : run_expression e (collecting (a_machine a)) = (m, inr x) -> x <> RSyntaxError ->
    forall indented, post {| s_indented := indented; s_code := Expression e |} a =
      ({| a_temp := a_temp a; a_drawn := a_drawn a; a_machine := restored (a_machine a) m |}, 400, [("error", traceback x)]).
  Proof.
    intros H N i. unfold Repl.post, Repl.attempt, py_eval. cbn [s_code with_machine a_machine].
    unfold collecting in H. rewrite H. destruct x; [congruence| |]; reflexivity.
  Qed.

  Lemma post_statement t a m : run_statements t (collecting (a_machine a)) = (m, None) ->
    post (statement t) a = ({| a_temp := a_temp a; a_drawn := a_drawn a; a_machine := restored (a_machine a) m |}, 200,
       [("result", nth (List.length (m_streams (a_machine a))) (m_streams m) "")]).
  Proof.
    intros H. unfold Repl.post, Repl.attempt, py_eval, py_exec. cbn [s_code s_indented statement with_machine a_machine].
    unfold collecting in H. rewrite H. reflexivity.
  Qed.
  Lemma post_statement_raises t a m x : run_statements t (collecting (a_machine a)) = (m, Some x) ->
    post (statement t) a = ({| a_temp := a_temp a; a_drawn := a_drawn a; a_machine := restored (a_machine a) m |}, 400,
       [("error", traceback x)]).
  Proof.
    intros H. unfold Repl.post, Repl.attempt, py_eval, py_exec. cbn [s_code s_indented statement with_machine a_machine].
    unfold collecting in H. rewrite H. reflexivity.
  Qed.

  (** What [print] does: the text is appended to the stream [sys.stdout] is *)
  Fixpoint append_to (n : nat) (text : string) (l : list string) : list string :=
    match n, l with
    | _, [] => []
    | O, s :: r => (s ++ text) :: r
    | S n, s :: r => s :: append_to n text r
    end.
  Lemma append_last l text : append_to (List.length l) text (l ++ [""])%list = (l ++ [text])%list.
  Proof. induction l as [|x l IH]; simpl; [reflexivity|now rewrite IH]. Qed.

  (** Theorem: statements that print [text] and do not raise are answered 200 with that text *)
  Lemma post_prints t a w text : 
    run_statements t (collecting (a_machine a)) =
      ({| m_user := w; m_streams := append_to (m_stdout (collecting (a_machine a))) text (m_streams (collecting (a_machine a)));
          m_stdout := m_stdout (collecting (a_machine a)) |}, None) ->
    snd (fst (post (statement t) a)) = 200 /\ snd (post (statement t) a) = [("result", text)].
  Proof.
    intros H. rewrite (post_statement t a _ H). cbn [fst snd m_streams]. split; [reflexivity|].
    unfold collecting. cbn [m_streams m_stdout]. rewrite append_last, app_nth2 by lia.
    rewrite Nat.sub_diag. reflexivity.
  Qed.

  (** Theorem: text that is neither is refused without running anything *)
  Lemma post_garbage indented a : 
    post {| s_indented := indented; s_code := Garbage |} a =
      ({| a_temp := a_temp a; a_drawn := a_drawn a; a_machine := restored (a_machine a) (collecting (a_machine a)) |},
       400, [("error", traceback RSyntaxError)]).
  Proof. unfold Repl.post, Repl.attempt, py_eval, py_exec. destruct indented; reflexivity. Qed.

  (** Refuted: "a statement is run once".  An expression that raises SyntaxError itself (it calls
      [eval], imports a broken module) is run a second time. *)
  Lemma post_twice e a m m' r : run_expression e (collecting (a_machine a)) = (m, inr RSyntaxError) ->
    run_expression e m = (m', r) ->
    a_machine (fst (fst (post (plain e) a))) = restored (a_machine a) m'.
  Proof.
    intros H H2. unfold Repl.post, Repl.attempt, py_eval, py_exec. cbn [s_code s_indented plain with_machine a_machine].
    unfold collecting in H. rewrite H. cbn [with_machine a_machine]. rewrite H2. destruct r; reflexivity.
  Qed.

  (** Refuted: "an expression that has a value is answered with it".  With a blank in front it
      is evaluated and answered 400. *)
  Lemma post_indented e a m v : run_expression e (collecting (a_machine a)) = (m, inl v) ->
    post {| s_indented := true; s_code := Expression e |} a =
      ({| a_temp := a_temp a; a_drawn := a_drawn a; a_machine := restored (a_machine a) m |}, 400,
       [("result", str_ v); ("error", traceback RSyntaxError)]).
  Proof.
    intros H. unfold Repl.post, Repl.attempt, py_eval. cbn [s_code with_machine a_machine].
    unfold collecting in H. rewrite H. reflexivity.
  Qed.
  Lemma post_indented_statement t a :
    post {| s_indented := true; s_code := Statements t |} a =
      ({| a_temp := a_temp a; a_drawn := a_drawn a; a_machine := restored (a_machine a) (collecting (a_machine a)) |}, 400,
       [("error", traceback RSyntaxError)]).
  Proof. reflexivity. Qed.

  (** *** The urls handed out *)
  Definition initial (m : machine W) : app A W := {| a_temp := []; a_drawn := 0; a_machine := m |}.
  Definition known (a : app A W) : Prop :=
    List.length (a_temp a) = a_drawn a /\ forall id_, get id_ (a_temp a) <> None -> exists k, (k < a_drawn a)%nat /\ id_ = uuid k.

  Lemma put_fresh {B} k (v : B) d : get k d = None -> List.length (put k v d) = S (List.length d).
  Proof.
    unfold get. induction d as [|[a b] d IH]; simpl; [reflexivity|].
    destruct (String.eqb a k); simpl; [discriminate|]. intros H. now rewrite IH.
  Qed.

  Hypothesis uuid_injective : forall i j, uuid i = uuid j -> i = j.

  (** what one statement does to the urls: nothing, or one new entry *)
  Definition grows (a a' : app A W) : Prop :=
    a_temp a' = a_temp a /\ a_drawn a' = a_drawn a \/
    (exists t, a_temp a' = put (uuid (a_drawn a)) t (a_temp a)) /\ a_drawn a' = S (a_drawn a).
  Lemma add_url_grows s o v a : grows a (fst (fst (add_url s o v a))).
  Proof.
    unfold Repl.add_url, grows. destruct (py_parse _ _ s); [|left; split; reflexivity].
    destruct (parse_feature _ _ _) as [d f].
    destruct (serialize _) as [t|[| |e]]; try (left; split; reflexivity).
    right. split; [exists t|]; reflexivity.
  Qed.
  Lemma attempt_grows s sio a : grows a (fst (fst (attempt s sio a))).
  Proof.
    unfold Repl.attempt. destruct (py_eval _ s _) as [m [v|x]].
    - pose proof (add_url_grows s (put "result" (str_ v) []) v (with_machine a m)) as H.
      destruct (add_url _ _ _ _) as [[a1 o1] x1]. change (grows a a1) in H.
      destruct x1 as [[| |e]|]; try exact H. destruct (py_exec _ _ _ _) as [m2 [x|]]; exact H.
    - left. destruct x as [| |e]; try (split; reflexivity).
      destruct (py_exec _ _ _ _) as [m2 [x|]]; split; reflexivity.
  Qed.
  Lemma post_grows s a : grows a (fst (fst (post s a))).
  Proof.
    unfold Repl.post. pose proof (attempt_grows s (List.length (m_streams (a_machine a)))
      (with_machine a (collecting (a_machine a)))) as H. unfold collecting in H.
    destruct (attempt _ _ _) as [[a1 o1] [x|]]; exact H.
  Qed.
  Lemma known_fresh a : known a -> get (uuid (a_drawn a)) (a_temp a) = None.
  Proof.
    intros [_ K]. destruct (get (uuid (a_drawn a)) (a_temp a)) eqn:G; [|reflexivity].
    destruct (K (uuid (a_drawn a))) as [k [L Eq]]; [congruence|]. apply uuid_injective in Eq. lia.
  Qed.
  Lemma grows_known a a' : grows a a' -> known a -> known a'.
  Proof.
    intros [[H1 H2]|[[t H1] H2]] K.
    - unfold known. rewrite H1, H2. exact K.
    - pose proof (known_fresh a K) as F. destruct K as [K1 K2]. split.
      + rewrite H1, H2, put_fresh by exact F. lia.
      + intros i. rewrite H1, H2, get_put. destruct (String.eqb _ i) eqn:E1.
        * apply String.eqb_eq in E1. intros _. exists (a_drawn a). split; [lia|congruence].
        * intros G. destruct (K2 i G) as [k [L Eq]]. exists k. split; [lia|exact Eq].
  Qed.
  Lemma grows_keeps a a' id_ t : known a -> grows a a' -> get id_ (a_temp a) = Some t -> get id_ (a_temp a') = Some t.
  Proof.
    intros K [[H1 H2]|[[t' H1] H2]] G; rewrite H1; [exact G|].
    rewrite get_put. destruct (String.eqb _ id_) eqn:E1; [|exact G].
    apply String.eqb_eq in E1. subst id_. rewrite (known_fresh a K) in G. discriminate.
  Qed.
  Lemma session_known ss : forall a, known a -> known (fst (session ss a)).
  Proof.
    induction ss as [|s ss IH]; intros a K; simpl; [exact K|].
    pose proof (grows_known _ _ (post_grows s a) K) as K'.
    destruct (post s a) as [[a1 st] o]. simpl in K'. specialize (IH a1 K'). destruct (session ss a1). exact IH.
  Qed.
  Lemma session_keeps ss : forall a id_ t, known a -> get id_ (a_temp a) = Some t ->
    get id_ (a_temp (fst (session ss a))) = Some t.
  Proof.
    induction ss as [|s ss IH]; intros a i t K G; simpl; [exact G|].
    pose proof (grows_known _ _ (post_grows s a) K) as K'.
    pose proof (grows_keeps _ _ i t K (post_grows s a) G) as G'.
    destruct (post s a) as [[a1 st] o]. simpl in K', G'. specialize (IH a1 i t K' G'). destruct (session ss a1). exact IH.
  Qed.
  Lemma initial_known m : known (initial m).
  Proof. split; [reflexivity|]. intros i H. contradiction H. reflexivity. Qed.

  (** a url is in an answer only when an entry was made for it *)
  Definition announces (a a' : app A W) (o : output) : Prop :=
    get "url" o = None /\ get "contentType" o = None \/
    exists t, get "url" o = Some ("/zounds/temp/" ++ uuid (a_drawn a)) /\ get "contentType" o = Some (t_type t) /\
              a_temp a' = put (uuid (a_drawn a)) t (a_temp a).
  Lemma attempt_announces s sio a :
    announces a (fst (fst (attempt s sio a))) (snd (fst (attempt s sio a))).
  Proof.
    unfold Repl.attempt. destruct (py_eval _ s _) as [m [v|x]].
    - assert (H : announces a (fst (fst (add_url s (put "result" (str_ v) []) v (with_machine a m))))
                            (snd (fst (add_url s (put "result" (str_ v) []) v (with_machine a m))))).
      { unfold Repl.add_url. destruct (py_parse _ _ s); [|left; split; reflexivity].
        destruct (parse_feature _ _ _) as [d f].
        destruct (serialize _) as [t|[| |e]]; try (left; split; reflexivity).
        right. exists t. repeat split. }
      destruct (add_url _ _ _ _) as [[a1 o1] x1]. simpl in H.
      destruct x1 as [[| |e]|]; try exact H. destruct (py_exec _ _ _ _) as [m2 [x|]]; [exact H|].
      destruct H as [[H1 H2]|[t [H1 [H2 H3]]]].
      + left. simpl. rewrite !get_put. split; assumption.
      + right. exists t. simpl. rewrite !get_put. repeat split; assumption.
    - left. destruct x as [| |e]; try (split; reflexivity).
      destruct (py_exec _ _ _ _) as [m2 [x|]]; split; reflexivity.
  Qed.
  Lemma post_announces s a : announces a (fst (fst (post s a))) (snd (post s a)).
  Proof.
    unfold Repl.post. pose proof (attempt_announces s (List.length (m_streams (a_machine a)))
      (with_machine a (collecting (a_machine a)))) as H. unfold collecting in H.
    destruct (attempt _ _ _) as [[a1 o1] [x|]]; simpl in H |- *.
    - destruct H as [[H1 H2]|[t [H1 [H2 H3]]]].
      + left. rewrite !get_put. split; assumption.
      + right. exists t. rewrite !get_put. repeat split; assumption.
    - exact H.
  Qed.

  Hypothesis uuid_text : forall i, uuid i <> "" /\ all_chars unreserved (uuid i) = true.

  (** Theorem: a url in an answer leads, now and after every further statement, to one and the
      same result, of the announced content type *)
  Lemma temp_url before m s a status o u :
    post s (fst (session before (initial m))) = (a, status, o) -> get "url" o = Some u ->
    exists id_ t, u = "/zounds/temp/" ++ id_ /\ zounds_dispatch u = ToTemp id_ /\
      get "contentType" o = Some (t_type t) /\
      forall later, temp_get id_ (fst (session later a)) = (200, Some t).
  Proof.
    intros P G. set (a0 := fst (session before (initial m))) in *.
    assert (K : known a0) by (apply session_known, initial_known).
    pose proof (post_announces s a0) as H. pose proof (post_grows s a0) as Gr. rewrite P in H, Gr. simpl in H, Gr.
    destruct H as [[H _]|[t [H1 [H2 H3]]]]; [congruence|].
    rewrite H1 in G. injection G as <-. exists (uuid (a_drawn a0)), t.
    split; [reflexivity|]. split; [|split; [exact H2|]].
    - destruct (uuid_text (a_drawn a0)) as [N U]. generalize (uuid (a_drawn a0)) N U. clear. intros w N U.
      assert (Q : unquote w = w) by (rewrite <- (quote_unreserved w U) at 1; apply unquote_quote).
      assert (M : match_temp ("/zounds/temp/" ++ w) = Some w).
      { destruct w as [|c r]; [congruence|]. unfold match_temp.
        change (after "/zounds/temp/" ("/zounds/temp/" ++ String c r)) with (Some (String c r)).
        cbv iota beta. now rewrite (drop_slash_id _ (unreserved_no_slash _ U)). }
      unfold zounds_dispatch.
      match goal with |- context [match_temp ?x] => change x with ("/zounds/temp/" ++ w) end. now rewrite M, Q.
    - intros later. unfold temp_get. rewrite (session_keeps later a _ t).
      + reflexivity.
      + exact (grows_known _ _ Gr K).
      + rewrite H3, get_put, String.eqb_refl. reflexivity.
  Qed.

  (** Theorem: an id that was never handed out is a 404; as many results are kept as urls were
      handed out (none is ever dropped) *)
  Lemma temp_unknown ss m id_ : (forall k, id_ <> uuid k) -> temp_get id_ (fst (session ss (initial m))) = (404, None).
  Proof.
    intros N. unfold temp_get. pose proof (session_known ss _ (initial_known m)) as [_ K].
    destruct (get id_ _) eqn:G; [|reflexivity]. destruct (K id_) as [k [_ Eq]]; [congruence|]. now elim (N k).
  Qed.
  Definition has_url (x : Z * output) : bool := match get "url" (snd x) with Some _ => true | None => false end.
  Lemma temp_never_dropped ss m : 
    List.length (a_temp (fst (session ss (initial m)))) =
    List.length (filter has_url (snd (session ss (initial m)))).
  Proof.
    assert (G : forall a, known a -> List.length (a_temp (fst (session ss a))) =
                (List.length (a_temp a) + List.length (filter has_url (snd (session ss a))))%nat).
    { induction ss as [|s ss IH]; intros a K; simpl; [lia|].
      pose proof (grows_known _ _ (post_grows s a) K) as K'.
      pose proof (post_announces s a) as H. pose proof (post_grows s a) as Gr.
      assert (Un : get "url" (snd (post s a)) = None -> a_temp (fst (fst (post s a))) = a_temp a).
      { clear -uuid_injective. unfold Repl.post, Repl.attempt.
        destruct (py_eval _ s _) as [m1 [v|x]].
        - unfold Repl.add_url. destruct (py_parse _ _ s).
          + destruct (parse_feature _ _ _) as [d f].
            destruct (serialize _) as [t|[| |e]]; simpl; try reflexivity; try discriminate.
            destruct (py_exec _ _ _ _) as [m2 [x|]]; reflexivity.
          + destruct (py_exec _ _ _ _) as [m2 [x|]]; reflexivity.
        - destruct x as [| |e]; try reflexivity. destruct (py_exec _ _ _ _) as [m2 [x|]]; reflexivity. }
      destruct (post s a) as [[a1 st] o]. simpl in K', H, Un.
      specialize (IH a1 K'). destruct (session ss a1) as [a2 rest]. simpl in IH |- *.
      rewrite IH. unfold has_url at 2. cbn [snd].
      destruct H as [[H1 _]|[t [H1 [_ H3]]]]; rewrite H1.
      - rewrite (Un H1). reflexivity.
      - rewrite H3, put_fresh by exact (known_fresh a K). cbn [List.length]. lia. }
    rewrite G by apply initial_known. reflexivity.
  Qed.
End Repl.
