(** Facts about the web application: security, URLs, the feature parser, the history
    (C46, C63, C64, C65). *)
From Verif Require Import PyBase PyFacts PyMore Time Audio Midi MidiProofs Ui UiProofs.
From Coq Require Import String Ascii.
Local Open Scope string_scope.
Local Open Scope Z_scope.

(** ** C46 *)
Lemma prefix_spec p s : String.prefix p s = true <-> exists t, s = p ++ t.
Proof.
  revert s. induction p as [|a p IH]; intros s.
  - split; [intros _; exists s; reflexivity|intros _; destruct s; reflexivity].
  - destruct s as [|b s].
    + split; [discriminate|]. intros [t H]. discriminate.
    + change (String.prefix (String a p) (String b s)) with (if Ascii.ascii_dec a b then String.prefix p s else false). split.
      * destruct (Ascii.ascii_dec a b) as [->|N]; [|discriminate]. intros H. apply IH in H as [t ->]. exists t. reflexivity.
      * intros [t H]. injection H as <- ->. destruct (Ascii.ascii_dec b b) as [_|N]; [|contradiction]. apply IH. exists t. reflexivity.
Qed.
Lemma substring_spec p s : substring_of p s = true <-> exists a b, s = a ++ p ++ b.
Proof.
  induction s as [|c s IH]; cbn [substring_of]; rewrite orb_true_iff, prefix_spec.
  - split.
    + intros [[t H]|H]; [|discriminate]. exists "", t. exact H.
    + intros [a [b H]]. left. destruct a; [exists b; exact H|discriminate].
  - rewrite IH. split.
    + intros [[t H]|[a [b ->]]]; [exists "", t; exact H|]. exists (String c a), b. reflexivity.
    + intros [a [b H]]. destruct a as [|d a]; [left; exists b; exact H|]. injection H as -> H. right. exists a, b. exact H.
Qed.

Section Security.
  Context (matches : string -> string -> bool) (custom : list route) (k : string).
  Hypothesis nonempty : k <> "".
  Hypothesis custom_plain : forall p t, In (p, t) custom -> exists h, t = Plain h.
  Notation app := (make_app custom (Some k)).
  Notation run := (serve_all matches app (Some k)).

  Lemma make_app_secured : app = map secure_route (custom ++ base_routes)%list.
  Proof. unfold make_app. destruct k; [contradiction|reflexivity]. Qed.

  (** how a request that reaches a handler's body gets there *)
  Lemma serve_ran s q s' h m : serve matches app (Some k) s q = (s', Ran h m) ->
    s' = s /\ m = q_method q /\ exists p, matches p (q_path q) = true /\ In (p, Plain h) (custom ++ base_routes)%list /\
    (substring_of "login" p = true \/ m = PATCH \/ exists t, q_cookie q = Some t /\ In t s).
  Proof.
    unfold serve. rewrite make_app_secured.
    destruct (find _ _) as [[p t]|] eqn:F; [|discriminate]. apply find_some in F as [F M].
    apply in_map_iff in F as [[p0 t0] [E I0]]. unfold secure_route in E.
    destruct (substring_of "login" p0) eqn:L; injection E as -> <-.
    - destruct t0 as [h0|h0|].
      + intros [= <- R]. unfold run_plain in R. destruct (has_method _ _); [|discriminate]. injection R as -> <-.
        split; [reflexivity|]. split; [reflexivity|]. exists p. auto.
      + exfalso. apply in_app_iff in I0 as [I0|I0]; [destruct (custom_plain _ _ I0) as [x X]; discriminate|].
        cbn in I0. intuition discriminate.
      + unfold run_login. destruct (q_method q); try discriminate. destruct (q_secret q); [|discriminate].
        destruct (String.eqb _ _); discriminate.
    - destruct t0 as [h0|h0|].
      + intros [= <- R]. unfold run_secured in R. destruct (meth_eqb (q_method q) PATCH) eqn:Pm.
        { unfold run_plain in R. destruct (has_method _ _); [|discriminate]. injection R as -> <-.
          split; [reflexivity|]. split; [reflexivity|]. exists p. split; [exact M|]. split; [exact I0|].
          right. left. destruct (q_method q); try discriminate. reflexivity. }
        destruct (q_cookie q) as [t|] eqn:C.
        2:{ destruct (_ || _); discriminate. }
        destruct (existsb (Nat.eqb t) s) eqn:X.
        2:{ destruct (_ || _); discriminate. }
        destruct (has_method _ _); [|discriminate]. destruct (existsb _ (h_async h0)); [discriminate|]. injection R as -> <-.
        split; [reflexivity|]. split; [reflexivity|]. exists p. split; [exact M|]. split; [exact I0|]. right. right.
        exists t. split; [reflexivity|]. apply existsb_exists in X as [y [Y1 Y2]]. apply Nat.eqb_eq in Y2. congruence.
      + exfalso. apply in_app_iff in I0 as [I0|I0]; [destruct (custom_plain _ _ I0) as [x X]; discriminate|].
        cbn in I0. intuition discriminate.
      + unfold run_login. destruct (q_method q); try discriminate. destruct (q_secret q); [|discriminate].
        destruct (String.eqb _ _); discriminate.
  Qed.

  (** a cookie comes from a login with the right secret *)
  Lemma serve_issues s q s' e : serve matches app (Some k) s q = (s', e) ->
    (s' = s /\ forall t, e <> LoggedIn t) \/
    (exists t p, s' = t :: s /\ e = LoggedIn t /\ q_method q = POST /\ q_secret q = Some p /\ strip p = k).
  Proof.
    unfold serve. destruct (find _ _) as [[p t]|]; [|intros [= <- <-]; left; split; [reflexivity|discriminate]].
    destruct t as [h|h|].
    - intros [= <- <-]. left. split; [reflexivity|]. intros t. unfold run_plain. destruct (has_method _ _); discriminate.
    - intros [= <- <-]. left. split; [reflexivity|]. intros t. unfold run_secured, run_plain.
      repeat match goal with |- context [if ?b then _ else _] => destruct b end; discriminate.
    - unfold run_login. destruct (q_method q) eqn:Em; try (intros [= <- <-]; left; split; [reflexivity|discriminate]).
      destruct (q_secret q) as [pw|] eqn:Es; [|intros [= <- <-]; left; split; [reflexivity|discriminate]].
      destruct (String.eqb_spec (strip pw) k) as [Ek|Nk]; intros [= <- <-].
      + right. exists (List.length s), pw. auto.
      + left. split; [reflexivity|discriminate].
  Qed.

  (** a login request in a history: a POST of the secret that was answered with cookie t *)
  Definition logged_in_before (qs : list request) (es : list effect) (i : nat) (t : nat) : Prop :=
    exists j q p, (j < i)%nat /\ nth_error qs j = Some q /\ q_method q = POST /\ q_secret q = Some p /\ strip p = k /\
      nth_error es j = Some (LoggedIn t).

  Lemma run_ran qs : forall s i h m, nth_error (run s qs) i = Some (Ran h m) ->
    exists q p, nth_error qs i = Some q /\ m = q_method q /\ matches p (q_path q) = true /\
      In (p, Plain h) (custom ++ base_routes)%list /\
      (substring_of "login" p = true \/ m = PATCH \/
       exists t, q_cookie q = Some t /\ (In t s \/ logged_in_before qs (run s qs) i t)).
  Proof.
    induction qs as [|q qs IH]; intros s i h m H; [destruct i; discriminate|].
    cbn [serve_all] in *. destruct (serve matches app (Some k) s q) as [s' e] eqn:E.
    destruct i as [|i]; cbn [nth_error] in *.
    - injection H as ->. destruct (serve_ran _ _ _ _ _ E) as [_ [Hm [p [Hp [Hi Hc]]]]]. exists q, p.
      split; [reflexivity|]. split; [exact Hm|]. split; [exact Hp|]. split; [exact Hi|].
      destruct Hc as [Hc|[Hc|[t [Ht1 Ht2]]]]; [auto|auto|]. right. right. exists t. auto.
    - destruct (IH s' i h m H) as [q' [p [Hq [Hm [Hp [Hi Hc]]]]]]. exists q', p.
      split; [exact Hq|]. split; [exact Hm|]. split; [exact Hp|]. split; [exact Hi|].
      destruct Hc as [Hc|[Hc|[t [Ht [Hin|[j [qj [pj [Hj [Hqj [A1 [A2 [A3 A4]]]]]]]]]]]]]; [auto|auto| |].
      + right. right. exists t. split; [exact Ht|].
        destruct (serve_issues _ _ _ _ E) as [[-> _]|[t' [p' [-> [-> [B1 [B2 B3]]]]]]]; [auto|].
        destruct Hin as [<-|Hin]; [|auto]. right. exists O, q, p'. cbn. repeat split; auto. lia.
      + right. right. exists t. split; [exact Ht|]. right. exists (S j), qj, pj. cbn [nth_error]. repeat split; auto. lia.
  Qed.

  (** Theorem: in every history of requests to a secured application, a handler whose
      route is not a login route and that defines no PATCH only ever runs for a request
      that carries a cookie obtained by an earlier login with the secret. *)
  Lemma secured qs i h m : nth_error (run [] qs) i = Some (Ran h m) ->
    exists q p, nth_error qs i = Some q /\ m = q_method q /\ matches p (q_path q) = true /\
      In (p, Plain h) (custom ++ base_routes)%list /\
      ((exists a b, p = a ++ "login" ++ b) \/ m = PATCH \/
       exists t, q_cookie q = Some t /\ logged_in_before qs (run [] qs) i t).
  Proof.
    intros H. destruct (run_ran qs [] i h m H) as [q [p [H1 [H2 [H3 [H4 H5]]]]]]. exists q, p.
    split; [exact H1|]. split; [exact H2|]. split; [exact H3|]. split; [exact H4|].
    destruct H5 as [H5|[H5|[t [Ht [[]|Hl]]]]]; [left; apply substring_spec; exact H5|auto|]. right. right. exists t. auto.
  Qed.

  Lemma secured_all qs i h m :
    (forall p t, In (p, t) custom -> ~ exists a b, p = a ++ "login" ++ b) ->
    (forall p h, In (p, Plain h) custom -> ~ In PATCH (h_methods h)) ->
    nth_error (run [] qs) i = Some (Ran h m) ->
    exists q t, nth_error qs i = Some q /\ q_cookie q = Some t /\ logged_in_before qs (run [] qs) i t.
  Proof.
    intros Hp Hm H. assert (Hmeth : In m (h_methods h)).
    { clear Hp Hm. revert H. generalize (@nil nat) at 1. generalize i. induction qs as [|q qs' IH]; intros i' s H; [destruct i'; discriminate|].
      cbn [serve_all] in H. destruct (serve matches app (Some k) s q) as [s' e] eqn:E. destruct i'; [|eapply IH; exact H].
      injection H as ->. unfold serve in E. destruct (find _ _) as [[p t]|]; [|discriminate].
      assert (X : forall h0 m0, run_plain h0 m0 = Ran h m -> In m (h_methods h)).
      { intros h0 m0. unfold run_plain. destruct (has_method h0 m0) eqn:B; [|discriminate]. intros [= <- <-].
        apply existsb_exists in B as [y [Y1 Y2]]. destruct m0, y; try discriminate Y2; exact Y1. }
      destruct t as [h0|h0|].
      - injection E as _ E. eapply X; exact E.
      - injection E as _ E. unfold run_secured in E. destruct (meth_eqb _ PATCH); [eapply X; exact E|].
        match type of E with (if ?b then _ else _) = _ => destruct b end.
        + destruct (has_method h0 (q_method q)) eqn:B; [|discriminate]. destruct (existsb _ _); [discriminate|].
          apply (X h0 (q_method q)). unfold run_plain. rewrite B. exact E.
        + destruct (_ || _); discriminate.
      - unfold run_login in E. destruct (q_method q); try discriminate. destruct (q_secret q); [|discriminate].
        destruct (String.eqb _ _); discriminate. }
    destruct (secured qs i h m H) as [q [p [H1 [H2 [H3 [H4 H5]]]]]].
    apply in_app_iff in H4.
    destruct H5 as [[a [b Ep]]|[->|[t [Ht Hl]]]].
    - destruct H4 as [H4|H4]; [exfalso; eapply Hp; [exact H4|eauto]|]. exfalso. cbn in H4.
      assert (S : substring_of "login" p = true) by (apply substring_spec; eauto).
      destruct H4 as [E|[E|[E|[]]]]; try discriminate E; injection E as E _; rewrite <- E in S; discriminate S.
    - destruct H4 as [H4|H4]; [exfalso; eapply Hm; [exact H4|exact Hmeth]|]. exfalso. cbn in H4.
      destruct H4 as [E|[E|[E|[]]]]; try discriminate E; injection E as _ <-; cbn in Hmeth; intuition discriminate.
    - exists q, t. auto.
  Qed.

  (** what an unauthenticated request gets instead *)
  Lemma unauthenticated s q h p : find (fun r => matches (fst r) (q_path q)) app = Some (p, Secured h) ->
    q_method q <> PATCH -> (forall t, q_cookie q = Some t -> ~ In t s) ->
    serve matches app (Some k) s q =
      (s, match q_method q with GET | HEAD => ToLogin | _ => Denied end).
  Proof.
    intros F Hm Hc. unfold serve. rewrite F. f_equal.
    assert (U : match q_cookie q with Some t => existsb (Nat.eqb t) s | None => false end = false).
    { destruct (q_cookie q) as [t|]; [|reflexivity]. destruct (existsb _ _) eqn:X; [|reflexivity].
      apply existsb_exists in X as [y [Y1 Y2]]. apply Nat.eqb_eq in Y2. subst. exfalso. eapply Hc; [reflexivity|exact Y1]. }
    rewrite U. unfold run_secured. destruct (q_method q); try reflexivity. contradiction.
  Qed.
  (** an authenticated one is served as if there were no secret *)
  Lemma authenticated s q t : q_cookie q = Some t -> In t s ->
    (forall p h, In (p, Plain h) (custom ++ base_routes)%list -> h_async h = []) ->
    (forall p, In (p, Login) (custom ++ base_routes)%list -> matches p (q_path q) = false) ->
    serve matches app (Some k) s q = serve matches (make_app custom None) None s q.
  Proof.
    intros Hc Ht Ha Hl. rewrite make_app_secured. cbn [make_app].
    assert (G : forall l, (forall r, In r l -> In r (custom ++ base_routes)%list) ->
      serve matches (map secure_route l) (Some k) s q = serve matches l None s q).
    2:{ apply G. auto. }
    induction l as [|[p tg] l IH]; intros Hin; [reflexivity|]. specialize (IH (fun r Hr => Hin r (or_intror Hr))).
    pose proof (Hin (p, tg) (or_introl eq_refl)) as I0. unfold serve in *. cbn [map find fst].
    assert (Ep : fst (secure_route (p, tg)) = p) by (unfold secure_route; destruct (substring_of _ _); reflexivity).
    rewrite Ep. destruct (matches p (q_path q)) eqn:M; [|exact IH].
    unfold secure_route. destruct tg as [h|h|].
    - assert (X : existsb (Nat.eqb t) s = true) by (apply existsb_exists; exists t; split; [exact Ht|apply Nat.eqb_refl]).
      specialize (Ha _ _ I0). destruct (substring_of "login" p); [reflexivity|]. rewrite Hc, X.
      unfold run_secured, run_plain. rewrite Ha. cbn [existsb]. destruct (meth_eqb (q_method q) PATCH); [reflexivity|].
      destruct (has_method h (q_method q)); reflexivity.
    - exfalso. apply in_app_iff in I0 as [I0|I0]; [destruct (custom_plain _ _ I0) as [x X]; discriminate|].
      cbn in I0. intuition discriminate.
    - specialize (Hl _ I0). congruence.
  Qed.
End Security.

(** without a secret every handler is reachable *)
Lemma unsecured matches custom s q secret : secret = None \/ secret = Some "" ->
  serve matches (make_app custom secret) secret s q = serve matches (custom ++ base_routes)%list secret s q.
Proof. intros [->| ->]; reflexivity. Qed.

(** ** logging in *)
Lemma rstrip_idem s : rstrip (rstrip s) = rstrip s.
Proof.
  induction s as [|c s IH]; [reflexivity|]. cbn. destruct (is_empty (rstrip s) && is_blank c) eqn:B; [reflexivity|].
  cbn. rewrite IH, B. reflexivity.
Qed.
Lemma lstrip_rstrip s : lstrip (rstrip (lstrip s)) = rstrip (lstrip s).
Proof.
  induction s as [|c s IH]; [reflexivity|]. cbn [lstrip]. destruct (is_blank c) eqn:B; [exact IH|].
  cbn [rstrip]. rewrite B, andb_false_r. cbn [lstrip]. rewrite B. reflexivity.
Qed.
Lemma strip_idem s : strip (strip s) = strip s.
Proof. unfold strip. rewrite lstrip_rstrip, rstrip_idem. reflexivity. Qed.

(** a secret surrounded by blanks locks everybody out *)
Lemma blank_secret_refuted matches routes k qs t : strip k <> k ->
  ~ In (LoggedIn t) (serve_all matches routes (Some k) [] qs).
Proof.
  intros Hk. generalize (@nil nat). induction qs as [|q qs IH]; intros s; [intros []|].
  cbn [serve_all]. destruct (serve matches routes (Some k) s q) as [s' e] eqn:E. intros [->|H]; [|eapply IH; exact H].
  unfold serve in E. destruct (find _ _) as [[p tg]|]; [|discriminate]. destruct tg as [h|h|].
  - injection E as _ E. unfold run_plain in E. destruct (has_method _ _); discriminate.
  - injection E as _ E. unfold run_secured, run_plain in E.
    repeat match type of E with context [if ?b then _ else _] => destruct b end; discriminate.
  - unfold run_login in E. destruct (q_method q); try discriminate. destruct (q_secret q) as [pw|]; [|discriminate].
    destruct (String.eqb_spec (strip pw) k) as [Ek|]; [|discriminate]. apply Hk. rewrite <- Ek. apply strip_idem.
Qed.
Lemma login_works matches routes k s q p : find (fun r => matches (fst r) (q_path q)) routes = Some (p, Login) ->
  q_method q = POST -> q_secret q = Some k -> strip k = k ->
  exists t, serve matches routes (Some k) s q = (t :: s, LoggedIn t).
Proof.
  intros F Hm Hs Hk. unfold serve. rewrite F, Hm, Hs. unfold run_login. rewrite Hk, String.eqb_refl. eauto.
Qed.

Definition zounds_routes : list route :=
  [("/zounds/temp/(.+?)/?", Plain {| h_name := "temp"; h_methods := [GET]; h_async := [] |});
   ("/zounds/repl/?", Plain {| h_name := "repl"; h_methods := [POST]; h_async := [] |})].
Definition training_routes : list route :=
  (zounds_routes ++
   [("/zounds/training/?", Plain {| h_name := "training"; h_methods := [GET]; h_async := [] |});
    ("/zounds/graph/?", Plain {| h_name := "graph"; h_methods := [GET]; h_async := [] |})])%list.
(** the project's own applications have no PATCH handler and no other login route *)
Lemma training_routes_ok : (forall p t, In (p, t) training_routes -> exists h, t = Plain h) /\
  (forall p t, In (p, t) training_routes -> ~ exists a b, p = a ++ "login" ++ b) /\
  (forall p h, In (p, Plain h) training_routes -> ~ In PATCH (h_methods h)).
Proof.
  split; [|split].
  - intros p t H. cbn in H. repeat destruct H as [E|H]; try (injection E as <- <-; eexists; reflexivity). contradiction.
  - intros p t H X. apply (proj2 (substring_spec "login" p)) in X. cbn in H.
    repeat destruct H as [E|H]; try (injection E as <- _; discriminate X). contradiction.
  - intros p h H X. cbn in H. repeat destruct H as [E|H]; try (injection E as _ <-; cbn in X; intuition discriminate). contradiction.
Qed.
Lemma training_secured matches k qs i h m : k <> "" ->
  nth_error (serve_all matches (make_app training_routes (Some k)) (Some k) [] qs) i = Some (Ran h m) ->
  exists q t, nth_error qs i = Some q /\ q_cookie q = Some t /\
    logged_in_before k qs (serve_all matches (make_app training_routes (Some k)) (Some k) [] qs) i t.
Proof.
  intros Hk. destruct training_routes_ok as [A [B C]]. apply secured_all; assumption.
Qed.

(** a history: refused, wrong password, right password, admitted *)
Example history_example :
  let matches (p path : string) := String.eqb p path in
  let q path m c s := {| q_path := path; q_method := m; q_cookie := c; q_secret := s |} in
  serve_all matches (make_app zounds_routes (Some "pw")) (Some "pw") []
    [q "/" GET None None; q "/zounds/repl/?" POST (Some 0%nat) None; q "/zounds/login/?" POST None (Some "guess");
     q "/zounds/login/?" POST None (Some " pw "); q "/zounds/repl/?" POST (Some 0%nat) None; q "/" PATCH None None] =
  [ToLogin; Denied; LoginFailed; LoggedIn 0;
   Ran {| h_name := "repl"; h_methods := [POST]; h_async := [] |} POST; NotAllowed].
Proof. reflexivity. Qed.
(** a PATCH handler is not protected, nor one whose pattern has 'login' in it *)
Lemma patch_refuted : exists custom qs h, 
  serve_all String.eqb (make_app custom (Some "pw")) (Some "pw") [] qs = [Ran h PATCH] /\
  (forall q, In q qs -> q_cookie q = None).
Proof.
  set (h := {| h_name := "edit"; h_methods := [PATCH]; h_async := [] |}).
  exists [("/edit", Plain h)], [{| q_path := "/edit"; q_method := PATCH; q_cookie := None; q_secret := None |}], h.
  split; [reflexivity|]. intros q [<-|[]]. reflexivity.
Qed.
Lemma login_pattern_refuted : exists custom qs h,
  serve_all String.eqb (make_app custom (Some "pw")) (Some "pw") [] qs = [Ran h GET] /\
  (forall q, In q qs -> q_cookie q = None) /\ custom <> [].
Proof.
  set (h := {| h_name := "audit"; h_methods := [GET]; h_async := [] |}).
  exists [("/admin/logins", Plain h)], [{| q_path := "/admin/logins"; q_method := GET; q_cookie := None; q_secret := None |}], h.
  split; [reflexivity|]. split; [|discriminate]. intros q [<-|[]]. reflexivity.
Qed.
(** an empty secret protects nothing *)
Lemma empty_secret_refuted : exists qs,
  serve_all String.eqb (make_app [] (Some "")) (Some "") [] qs = [Ran ui_handler GET] /\ (forall q, In q qs -> q_cookie q = None).
Proof.
  exists [{| q_path := "/"; q_method := GET; q_cookie := None; q_secret := None |}]. split; [reflexivity|]. intros q [<-|[]]. reflexivity.
Qed.
(** the body of a coroutine handler never runs in a secured application *)
Lemma coroutine_refuted : exists custom qs, forall h m,
  In (LoggedIn 0) (serve_all String.eqb (make_app custom (Some "pw")) (Some "pw") [] qs) /\
  nth_error (serve_all String.eqb (make_app custom (Some "pw")) (Some "pw") [] qs) 1 <> Some (Ran h m) /\
  nth_error (serve_all String.eqb (make_app custom None) None [] qs) 1 =
    Some (Ran {| h_name := "slow"; h_methods := [GET]; h_async := [GET] |} GET).
Proof.
  exists [("/slow", Plain {| h_name := "slow"; h_methods := [GET]; h_async := [GET] |})],
    [{| q_path := "/zounds/login/?"; q_method := POST; q_cookie := None; q_secret := Some "pw" |};
     {| q_path := "/slow"; q_method := GET; q_cookie := Some 0%nat; q_secret := None |}].
  intros h m. split; [vm_compute; auto|]. split; [vm_compute; discriminate|vm_compute; reflexivity].
Qed.

(** ** C63: URLs of features *)
Lemma quote_char c : exists s, quote (String c "") = s /\ unquote s = String c "".
Proof. eexists. split; [reflexivity|]. destruct c as [[] [] [] [] [] [] [] []]; vm_compute; reflexivity. Qed.
Lemma unquote_quote s : unquote (quote s) = s.
Proof.
  assert (P : forall c t, unreserved c = true -> unquote (String c t) = String c (unquote t)).
  { intros c t U. assert (N : Ascii.eqb c "%" = false) by (destruct (Ascii.eqb_spec c "%") as [->|]; [discriminate U|reflexivity]).
    cbn [unquote]. destruct t as [|a [|b t]]; try reflexivity. now rewrite N. }
  assert (X : forall c, hex_value (hex_digit (Ascii.nat_of_ascii c / 16)) = Some (Ascii.nat_of_ascii c / 16)%nat /\
                        hex_value (hex_digit (Ascii.nat_of_ascii c mod 16)) = Some (Ascii.nat_of_ascii c mod 16)%nat).
  { intros c. destruct c as [[] [] [] [] [] [] [] []]; vm_compute; split; reflexivity. }
  induction s as [|c s IH]; [reflexivity|]. cbn [quote]. destruct (unreserved c) eqn:U.
  - rewrite (P _ _ U), IH. reflexivity.
  - destruct (X c) as [X1 X2]. cbn [unquote]. change (Ascii.eqb "%" "%") with true. cbv iota. rewrite X1, X2, IH.
    rewrite <- Nat.div_mod by discriminate. rewrite Ascii.ascii_nat_embedding. reflexivity.
Qed.

(** an escaped byte is a percent sign and two digits among 0-9 and A-F *)
Definition upper_hex : list ascii := ["0"; "1"; "2"; "3"; "4"; "5"; "6"; "7"; "8"; "9"; "A"; "B"; "C"; "D"; "E"; "F"]%char.
Lemma quote_escapes c s : unreserved c = false -> exists h l, In h upper_hex /\ In l upper_hex /\
  quote (String c s) = String "%" (String h (String l (quote s))).
Proof.
  intros U. cbn [quote]. rewrite U. eexists. eexists. split; [|split; [|reflexivity]];
    destruct c as [[] [] [] [] [] [] [] []]; vm_compute; tauto.
Qed.
Fixpoint all_chars (p : ascii -> bool) (s : string) : bool :=
  match s with EmptyString => true | String c r => p c && all_chars p r end.
Lemma quote_unreserved s : all_chars unreserved s = true -> quote s = s.
Proof. induction s as [|c s IH]; [reflexivity|]. cbn. rewrite andb_true_iff. intros [-> H]. now rewrite (IH H). Qed.
Lemma quote_no_slash s : no_char "/" (quote s).
Proof.
  induction s as [|c s IH]; [exact I|]. cbn [quote]. destruct (unreserved c) eqn:U.
  - split; [intros ->; discriminate U|exact IH].
  - cbn [no_char]. split; [discriminate|]. split; [|split; [|exact IH]].
    + destruct c as [[] [] [] [] [] [] [] []]; vm_compute; discriminate.
    + destruct c as [[] [] [] [] [] [] [] []]; vm_compute; discriminate.
Qed.
Lemma unreserved_no_slash s : all_chars unreserved s = true -> no_char "/" s.
Proof. intros H. rewrite <- (quote_unreserved s H). apply quote_no_slash. Qed.
Lemma drop_slash_id s : no_char "/" s -> drop_slash s = s.
Proof.
  destruct s as [|c s]; [reflexivity|]. cbn [no_char drop_slash]. intros [_ H]. f_equal.
  induction s as [|d s IH]; [reflexivity|]. destruct H as [H1 H2]. destruct s as [|e s].
  - destruct (Ascii.eqb_spec d "/"); [contradiction|reflexivity].
  - f_equal. exact (IH H2).
Qed.
Lemma quote_nonempty s : s <> "" -> exists c r, quote s = String c r.
Proof. destruct s as [|c s]; [contradiction|]. intros _. cbn [quote]. destruct (unreserved c); eauto. Qed.

Lemma match_feature_path id_ f : id_ <> "" -> f <> "" -> all_chars unreserved f = true ->
  match_feature (feature_path "/zounds/" id_ f) = Some (quote id_, f).
Proof.
  intros Hi Hf Hu. unfold match_feature, feature_path. cbn [append after Ascii.eqb Bool.eqb].
  pose proof (quote_no_slash id_) as Hq. destruct (quote_nonempty id_ Hi) as [c [r Eq]]. rewrite Eq in *.
  cbn [append]. destruct Hq as [_ Hq]. change (r ++ String "/" f) with (r ++ String "/" f).
  rewrite (cut_app "/" r f Hq). destruct f as [|a f]; [contradiction|]. cbn [is_empty].
  rewrite drop_slash_id by (apply unreserved_no_slash; exact Hu). reflexivity.
Qed.
(** the URL of a feature of a document leads to that feature of that document, whatever
    characters the id is made of *)
Lemma feature_url id_ f : id_ <> "" -> f <> "" -> all_chars unreserved f = true ->
  base_dispatch (feature_path "/zounds/" id_ f) = ToFeature id_ f.
Proof.
  intros Hi Hf Hu. unfold base_dispatch. rewrite (match_feature_path id_ f Hi Hf Hu).
  unfold feature_path. cbn [append String.eqb Ascii.eqb Bool.eqb]. rewrite unquote_quote.
  rewrite <- (quote_unreserved f Hu) at 1. now rewrite unquote_quote.
Qed.
Lemma after_app p s : after p (p ++ s) = Some s.
Proof. induction p as [|c p IH]; [reflexivity|]. cbn. now rewrite Ascii.eqb_refl. Qed.
Lemma after_inv p s t : after p s = Some t -> s = p ++ t.
Proof.
  revert s. induction p as [|c p IH]; intros s; cbn; [now intros [= ->]|]. destruct s as [|d s]; [discriminate|].
  destruct (Ascii.eqb_spec c d) as [->|]; [|discriminate]. intros H. now rewrite (IH _ H).
Qed.
Lemma app_cut_unique a b x y : no_char "/" a -> no_char "/" b -> a ++ String "/" x = b ++ String "/" y -> a = b /\ x = y.
Proof.
  intros Ha Hb E. pose proof (cut_app "/" a x Ha) as H. rewrite E, (cut_app "/" b y Hb) in H. injection H as -> ->. auto.
Qed.
(** in the application with the REPL, unless the document is called "temp" *)
Lemma zounds_feature_url id_ f : id_ <> "" -> id_ <> "temp" -> f <> "" -> all_chars unreserved f = true ->
  zounds_dispatch (feature_path "/zounds/" id_ f) = ToFeature id_ f.
Proof.
  intros Hi Ht Hf Hu. unfold zounds_dispatch.
  assert (M : match_temp (feature_path "/zounds/" id_ f) = None).
  { unfold match_temp. destruct (after "/zounds/temp/" _) as [t|] eqn:A; [|reflexivity]. exfalso.
    apply after_inv in A. unfold feature_path in A. 
    change ("/zounds/temp/" ++ t) with ("/zounds/" ++ ("temp" ++ String "/" t)) in A.
    assert (A' : quote id_ ++ String "/" f = "temp" ++ String "/" t).
    { cbn [append] in A. cbn [append]. injection A as A. exact A. }
    apply app_cut_unique in A' as [A' _]; [|apply quote_no_slash|cbn; repeat split; discriminate].
    apply Ht. rewrite <- (unquote_quote id_), A'. reflexivity. }
  rewrite M. assert (R : match_literal "/zounds/repl" (feature_path "/zounds/" id_ f) = false).
  { unfold match_literal, feature_path. apply orb_false_iff. split.
    - apply String.eqb_neq. intros E. assert (E' : quote id_ ++ String "/" f = "repl") by (cbn [append] in E; injection E as E; exact E).
      assert (C : cut "/" "repl" = Some (quote id_, f)) by (rewrite <- E'; apply cut_app; apply quote_no_slash). discriminate C.
    - apply String.eqb_neq. intros E. assert (E' : quote id_ ++ String "/" f = "repl" ++ String "/" "") by (cbn [append] in E; injection E as E; exact E).
      apply app_cut_unique in E' as [_ E']; [contradiction|apply quote_no_slash|cbn; repeat split; discriminate]. }
  rewrite R. now apply feature_url.
Qed.
Lemma temp_document_refuted f : f <> "" -> all_chars unreserved f = true ->
  zounds_dispatch (feature_path "/zounds/" "temp" f) = ToTemp f.
Proof.
  intros Hf Hu. unfold zounds_dispatch, match_temp, feature_path. 
  replace (quote "temp") with "temp" by reflexivity. cbn [append after Ascii.eqb Bool.eqb]. destruct f as [|c f]; [contradiction|].
  rewrite drop_slash_id by (apply unreserved_no_slash; exact Hu). f_equal.
  rewrite <- (quote_unreserved _ Hu) at 1. apply unquote_quote.
Qed.
(** the training monitors build their URLs without the slash: they lead nowhere *)
Lemma monitor_base_path_refuted id_ f : id_ <> "" -> zounds_dispatch (feature_path "/zounds" id_ f) = Nowhere.
Proof.
  intros Hi. destruct (quote_nonempty id_ Hi) as [c [r Eq]]. pose proof (quote_no_slash id_) as Hq. rewrite Eq in Hq. destruct Hq as [Hc _].
  unfold zounds_dispatch, base_dispatch, match_temp, match_feature, match_literal, feature_path. rewrite Eq.
  set (path := "/zounds" ++ String c r ++ "/" ++ f).
  assert (N : forall t, path = "/zounds/" ++ t -> False).
  { intros t E. unfold path in E. cbn [append] in E. injection E as E _. contradiction. }
  assert (A : forall p t, after ("/zounds/" ++ p) path = Some t -> False).
  { intros p t H. apply after_inv in H. apply (N (p ++ t)). rewrite H. apply string_app_assoc. }
  destruct (after "/zounds/temp/" path) eqn:E1; [exfalso; exact (A "temp/" _ E1)|].
  destruct (after "/zounds/" path) eqn:E2; [exfalso; exact (A "" _ E2)|].
  destruct (String.eqb_spec path "/zounds/repl") as [E|_]; [exfalso; exact (N "repl" E)|].
  destruct (String.eqb_spec path ("/zounds/repl" ++ "/")) as [E|_]; [exfalso; exact (N "repl/" E)|].
  destruct (String.eqb_spec path "/") as [E|_]; [discriminate E|].
  destruct (String.eqb_spec path "/zounds/login") as [E|_]; [exfalso; exact (N "login" E)|].
  destruct (String.eqb_spec path ("/zounds/login" ++ "/")) as [E|_]; [exfalso; exact (N "login/" E)|]. reflexivity.
Qed.
Example feature_url_example : feature_path "/zounds/" "http://example.com/a b" "bark" = "/zounds/http%3A%2F%2Fexample.com%2Fa%20b/bark" /\
  base_dispatch "/zounds/http%3A%2F%2Fexample.com%2Fa%20b/bark" = ToFeature "http://example.com/a b" "bark".
Proof. split; reflexivity. Qed.

(** ** C64: the feature parser *)
Section Parsing.
  Context {D F : Type} (feats : list (string * F)) (locals : string -> option (D * bool)).

  (** the statement [x.a] where x is a variable holding a document and a is a feature *)
  Definition denotes (e : pexpr) (d : D) (f : F) : Prop :=
    exists x a, e = Attribute (Name x) a /\ locals x = Some (d, true) /\ lookup a feats = Some f.

  (** the expression statements of a program, in order, nested ones included *)
  Fixpoint expressions (s : pstmt) : list pexpr :=
    match s with Expr e => [e] | Stmt body => flat_map expressions body end.
  Definition is_feature (e : pexpr) : bool :=
    match e with
    | Attribute (Name x) a => match lookup a feats, locals x with Some _, Some (_, true) => true | _, _ => false end
    | _ => false
    end.

  Lemma visit_expr_spec v e : visit_expr (Some feats) locals v e =
    if is_feature e then (match e with Attribute (Name x) a => match locals x with Some (d, _) => {| v_doc := Some d; v_feature := Some a |} | None => v end | _ => v end, true)
    else (v, false).
  Proof.
    unfold visit_expr, is_feature. destruct e as [x|value attr|]; try reflexivity.
    destruct (lookup attr feats); [|destruct value; reflexivity].
    destruct value as [x|v' a'|]; try reflexivity. destruct (locals x) as [[d [|]]|]; reflexivity.
  Qed.
  Definition visit_exprs := fold_left (fun (acc : visitor * bool) e =>
    if snd acc then visit_expr (Some feats) locals (fst acc) e else acc).
  Lemma visit_exprs_stop es v : visit_exprs es (v, false) = (v, false).
  Proof. induction es as [|e es IH]; [reflexivity|exact IH]. Qed.
  Lemma visit_flat s : forall v, visit (Some feats) locals v s = visit_exprs (expressions s) (v, true).
  Proof.
    revert s. fix IH 1. intros [e|body] v.
    - reflexivity.
    - cbn [visit expressions]. revert v. induction body as [|s body IHb]; intros v; [reflexivity|].
      cbn [flat_map]. unfold visit_exprs. rewrite fold_left_app. fold (visit_exprs (expressions s) (v, true)).
      rewrite <- (IH s v). destruct (visit (Some feats) locals v s) as [v' [|]].
      + apply IHb.
      + symmetry. apply visit_exprs_stop.
  Qed.
  Fixpoint accepted (es : list pexpr) : list pexpr :=
    match es with e :: r => if is_feature e then e :: accepted r else [] | [] => [] end.
  Definition last_or {B} (d : B) (l : list B) : B := last l d.

  Lemma visit_exprs_last es : forall v,
    visitor_result (D := D) (Some feats) (fst (visit_exprs es (v, true))) =
    match rev (accepted es) with
    | Attribute (Name x) a :: _ => (match locals x with Some (d, _) => Some d | None => v_doc v end, lookup a feats)
    | _ => visitor_result (Some feats) v
    end.
  Proof.
    induction es as [|e es IH]; intros v; [reflexivity|]. cbn [accepted]. unfold visit_exprs. cbn [fold_left snd fst].
    fold (visit_exprs es). rewrite visit_expr_spec. destruct (is_feature e) eqn:Ef.
    2:{ rewrite visit_exprs_stop. reflexivity. }
    rewrite IH. cbn [rev]. destruct (rev (accepted es)) as [|e' l] eqn:R.
    - cbn [app]. unfold is_feature in Ef. destruct e as [x|[x| |] a|]; try discriminate.
      destruct (locals x) as [[d b]|] eqn:L; [reflexivity|]. destruct (lookup a feats); discriminate.
    - cbn [app]. assert (Fe : is_feature e' = true).
      { assert (In e' (accepted es)) by (apply in_rev; rewrite R; left; reflexivity).
        clear - H. induction es as [|a es IHes]; [destruct H|]. cbn [accepted] in H. destruct (is_feature a) eqn:X; [|destruct H].
        destruct H as [<-|H]; [exact X|exact (IHes H)]. }
      unfold is_feature in Fe. destruct e' as [x|[x| |] a|]; try discriminate.
      destruct (lookup a feats); [|discriminate]. destruct (locals x) as [[d b]|]; [reflexivity|discriminate].
  Qed.

  (** a single expression is recognised exactly when it is [document.feature] *)
  Lemma parse_single e d f : parse_feature (Some feats) locals [Expr e] = (Some d, Some f) <-> denotes e d f.
  Proof.
    unfold parse_feature. rewrite visit_flat, visit_exprs_last. cbn [expressions flat_map app accepted].
    unfold denotes. destruct (is_feature e) eqn:Ef; unfold is_feature in Ef.
    - destruct e as [x|[x| |] a|]; try discriminate. cbn [rev app]. destruct (locals x) as [[d' b]|] eqn:L.
      2:{ destruct (lookup a feats); discriminate. }
      destruct (lookup a feats) as [f'|] eqn:K; [|discriminate]. destruct b; [|discriminate].
      split.
      + intros [= -> ->]. exists x, a. auto.
      + intros [x' [a' [[= <- <-] [L' K']]]]. congruence.
    - cbn [rev]. split; [discriminate|]. intros [x [a [-> [L K]]]]. rewrite K, L in Ef. discriminate.
  Qed.
  (** and otherwise nothing is *)
  Lemma parse_single_none e : (forall d f, ~ denotes e d f) -> parse_feature (Some feats) locals [Expr e] = (None, None).
  Proof.
    intros H. unfold parse_feature. rewrite visit_flat, visit_exprs_last. cbn [expressions flat_map app accepted].
    destruct (is_feature e) eqn:Ef; [|reflexivity]. exfalso. unfold is_feature in Ef.
    destruct e as [x|[x| |] a|]; try discriminate. destruct (lookup a feats) as [f|] eqn:K; [|discriminate].
    destruct (locals x) as [[d [|]]|] eqn:L; try discriminate. apply (H d f). exists x, a. auto.
  Qed.
  (** a program is recognised by its last expression statement if all are features *)
  Lemma parse_program ss d f : parse_feature (Some feats) locals ss = (Some d, Some f) ->
    exists before e after, flat_map expressions ss = (before ++ e :: after)%list /\ denotes e d f /\
      (forall e', In e' before -> exists d' f', denotes e' d' f') /\
      (forall e' r, after = e' :: r -> forall d' f', ~ denotes e' d' f').
  Proof.
    unfold parse_feature. rewrite visit_flat, visit_exprs_last. cbn [expressions]. set (es := flat_map expressions ss). clearbody es.
    assert (S : exists after, es = (accepted es ++ after)%list /\ forall e' r, after = e' :: r -> is_feature e' = false).
    { clear. induction es as [|e es [r [E H]]]; [exists []; split; [reflexivity|discriminate]|]. cbn [accepted].
      destruct (is_feature e) eqn:X; [exists r; cbn; split; [congruence|exact H]|]. exists (e :: es). split; [reflexivity|].
      intros e' r' [= <- _]. exact X. }
    assert (Acc : forall e, In e (accepted es) -> exists d' f', denotes e d' f').
    { clear. induction es as [|e es IH]; intros e0 H; [destruct H|]. cbn [accepted] in H. destruct (is_feature e) eqn:X; [|destruct H].
      destruct H as [<-|H]; [|exact (IH _ H)]. unfold is_feature in X. destruct e as [x|[x| |] a|]; try discriminate.
      destruct (lookup a feats) as [f|] eqn:K; [|discriminate]. destruct (locals x) as [[d [|]]|] eqn:L; try discriminate.
      exists d, f, x, a. auto. }
    assert (NF : forall e', is_feature e' = false -> forall d' f', ~ denotes e' d' f').
    { intros e' X d' f' [x [a [-> [L K]]]]. unfold is_feature in X. rewrite L, K in X. discriminate. }
    destruct S as [aft [E Haft]]. destruct (rev (accepted es)) as [|e l] eqn:R; [discriminate|].
    assert (E2 : accepted es = (rev l ++ [e])%list) by (rewrite <- (rev_involutive (accepted es)), R; reflexivity).
    assert (De : exists d' f', denotes e d' f') by (apply Acc; rewrite E2; apply in_or_app; right; left; reflexivity).
    destruct De as [d' [f' De]]. intros H. exists (rev l), e, aft. split.
    { rewrite E at 1. rewrite E2, <- app_assoc. reflexivity. }
    split.
    { destruct De as [x [a [-> [L K]]]]. rewrite L, K in H. injection H as <- <-. exists x, a. auto. }
    split.
    - intros e' H'. apply Acc. rewrite E2. apply in_or_app. left. exact H'.
    - intros e' r Hr. apply NF. eapply Haft. exact Hr.
  Qed.
End Parsing.
Example parse_example :
  let feats := [("fft", 1%nat); ("bark", 2%nat)] in
  let locals x := if String.eqb x "doc" then Some (7%nat, true) else if String.eqb x "other" then Some (8%nat, false) else None in
  parse_feature (Some feats) locals [Expr (Attribute (Name "doc") "bark")] = (Some 7%nat, Some 2%nat) /\
  parse_feature (Some feats) locals [Expr (Attribute (Name "other") "bark")] = (None, None) /\
  parse_feature (Some feats) locals [Expr (Attribute (Attribute (Name "doc") "bark") "shape")] = (None, None).
Proof. split; [|split]; reflexivity. Qed.
(** with an earlier recognised statement, a program whose value is something else is
    still taken for the feature *)
Lemma parse_program_refuted : exists (ss : list pstmt) (last_ : pexpr),
  ss = [Expr (Attribute (Name "doc") "fft"); Expr last_] /\ last_ = OtherExpr /\
  parse_feature (Some [("fft", 1%nat)]) (fun _ => Some (7%nat, true)) ss = (Some 7%nat, Some 1%nat).
Proof. eexists. eexists. split; [reflexivity|]. split; reflexivity. Qed.

(** ** C65: the training history *)
Section Hist.
  Context {V : Type} (frequency : Z).
  Hypothesis freq : frequency <> 0.
  (** the values reported by the batches whose number is a multiple of the frequency *)
  Definition reported (rs : list (report (V := V))) : list V :=
    flat_map (fun r => match b_value r with Some v => [v] | None => [] end)
      (filter (fun r => b_number r mod frequency =? 0) rs).

  Lemma collect_step n hist (r : report (V := V)) : 0 < n -> exists h, collect frequency n hist r = Ok h /\
    if b_number r mod frequency =? 0 then
      exists d, hist = (d ++ py_slice (Some (- n)) None hist)%list /\ Zlen (py_slice (Some (- n)) None hist) = Z.min n (Zlen hist) /\
        h = (py_slice (Some (- n)) None hist ++ match b_value r with Some v => [v] | None => [] end)%list
    else h = hist.
  Proof.
    intros Hn. unfold collect. destruct (Z.eqb_spec frequency 0); [contradiction|].
    destruct (b_number r mod frequency =? 0) eqn:B; cbn [negb]; [|eexists; split; reflexivity].
    eexists. split; [reflexivity|].
    assert (S : py_slice (Some (- n)) None hist = skipn (List.length hist - Z.to_nat n) hist).
    { unfold py_slice. unfold norm_index. destruct (Z.ltb_spec (- n) 0); [|lia]. 
      assert (E : Z.to_nat (Z.max 0 (Z.min (Zlen hist) (- n + Zlen hist))) = (List.length hist - Z.to_nat n)%nat) by (unfold Zlen; lia).
      rewrite E. apply firstn_all2. rewrite skipn_length. unfold Zlen. lia. }
    rewrite S. exists (firstn (List.length hist - Z.to_nat n) hist). split; [symmetry; apply firstn_skipn|].
    split; [unfold Zlen; rewrite skipn_length; lia|]. destruct (b_value r); [reflexivity|now rewrite app_nil_r].
  Qed.
  Lemma collect_all_spec n : 0 < n -> forall rs hist, Zlen hist <= n + 1 -> exists h dropped,
    collect_all frequency n hist rs = Ok h /\ (hist ++ reported rs)%list = (dropped ++ h)%list /\
    Zlen h <= n + 1 /\ (Zlen h < n -> dropped = []).
  Proof.
    intros Hn. induction rs as [|r rs IH]; intros hist Hh.
    - exists hist, []. cbn. rewrite app_nil_r. auto.
    - cbn [collect_all]. destruct (collect_step n hist r Hn) as [h1 [-> Hs]]. cbn [bind].
      unfold reported. cbn [filter]. destruct (b_number r mod frequency =? 0) eqn:B.
      + destruct Hs as [d [Ed [El Eh]]].
        assert (L1 : Zlen h1 <= n + 1).
        { rewrite Eh, Zlen_app, El. destruct (b_value r); cbn; unfold Zlen; cbn; lia. }
        destruct (IH h1 L1) as [h [dr [H1 [H2 [H3 H4]]]]].
        exists h, (d ++ dr)%list. split; [exact H1|]. split.
        * cbn [flat_map]. fold (reported rs). rewrite <- app_assoc, <- H2, Eh. rewrite Ed at 1. rewrite <- !app_assoc. reflexivity.
        * split; [exact H3|]. intros Hlt. specialize (H4 Hlt). subst dr. cbn in H2.
          destruct d as [|x d]; [reflexivity|]. exfalso.
          assert (Zlen h >= Zlen h1) by (rewrite <- H2, Zlen_app; pose proof (Zlen_nonneg (reported rs)); lia).
          rewrite Eh, Zlen_app, El in H. apply (f_equal Zlen) in Ed. rewrite Zlen_app, El, Zlen_cons in Ed.
          pose proof (Zlen_nonneg d). match type of H with context [Zlen ?m] => pose proof (Zlen_nonneg m) end. destruct (b_value r); unfold Zlen in *; cbn [List.length] in *; lia.
      + subst h1. exact (IH hist Hh).
  Qed.
  (** the history is the newest of the reported values, at most one more than asked for *)
  Lemma history n rs : 0 < n -> exists h dropped, collect_all frequency n [] rs = Ok h /\
    reported rs = (dropped ++ h)%list /\ Zlen h <= n + 1 /\ (Zlen h < n -> dropped = []).
  Proof. intros Hn. exact (collect_all_spec n Hn rs [] ltac:(unfold Zlen; cbn; lia)). Qed.
  (** and with n = 0 it grows for ever *)
  Lemma history_zero rs : forall hist, collect_all frequency 0 hist rs = Ok (hist ++ reported rs)%list.
  Proof.
    induction rs as [|r rs IH]; intros hist; [cbn; now rewrite app_nil_r|]. cbn [collect_all]. unfold collect.
    destruct (Z.eqb_spec frequency 0); [contradiction|]. unfold reported. cbn [filter].
    destruct (b_number r mod frequency =? 0) eqn:B; cbn [negb bind]; [|apply IH].
    assert (S : py_slice (Some (- 0)) None hist = hist).
    { unfold py_slice, norm_index. cbn [Z.opp]. change (0 <? 0) with false. cbv iota.
      rewrite Z.max_l by (unfold Zlen; lia). cbn [Z.to_nat skipn]. rewrite Z.sub_0_r. unfold Zlen. rewrite Nat2Z.id. apply firstn_all. }
    rewrite S. rewrite IH. cbn [flat_map]. destruct (b_value r); [|reflexivity]. now rewrite <- app_assoc.
  Qed.
End Hist.
Lemma history_refuted : exists (rs : list (report (V := nat))) (h : list nat), collect_all 10 2 [] rs = Ok h /\ Zlen h = 3.
Proof.
  exists [{| b_number := 0; b_value := Some 1%nat |}; {| b_number := 5; b_value := Some 2%nat |}; {| b_number := 10; b_value := Some 3%nat |};
          {| b_number := 20; b_value := Some 4%nat |}; {| b_number := 30; b_value := Some 5%nat |}].
  eexists. split; reflexivity.
Qed.

(** what a login ignores: blanks around the secret, of any kind Python knows *)
Lemma blank_codes c : is_blank c = true <-> In (Ascii.nat_of_ascii c) [9; 10; 11; 12; 13; 28; 29; 30; 31; 32]%nat.
Proof.
  unfold is_blank. cbv zeta. generalize (Ascii.nat_of_ascii c). intros n. rewrite !orb_true_iff, !andb_true_iff, Nat.eqb_eq, !Nat.leb_le. cbn [In]. lia.
Qed.
Lemma lstrip_blanks a k : (forall c, In c (list_ascii_of_string a) -> is_blank c = true) -> lstrip (a ++ k) = lstrip k.
Proof.
  induction a as [|c a IH]; intros H; [reflexivity|]. cbn [String.append lstrip]. rewrite (H c) by (left; reflexivity). apply IH. intros d D. apply H. right. exact D.
Qed.
Lemma rstrip_blanks k b : (forall c, In c (list_ascii_of_string b) -> is_blank c = true) -> rstrip (k ++ b) = rstrip k.
Proof.
  intros H. assert (B : rstrip b = "").
  { clear k. induction b as [|c b IH]; [reflexivity|]. cbn [rstrip]. rewrite IH by (intros d D; apply H; right; exact D). cbn [is_empty andb]. rewrite (H c) by (left; reflexivity). reflexivity. }
  induction k as [|c k IH]; [exact B|]. cbn [String.append rstrip]. now rewrite IH.
Qed.
Theorem login_blanks matches routes k s q p a b : find (fun r => matches (fst r) (q_path q)) routes = Some (p, Login) ->
  q_method q = POST -> strip k = k -> k <> "" ->
  (forall c, In c (list_ascii_of_string (a ++ b)) -> In (Ascii.nat_of_ascii c) [9; 10; 11; 12; 13; 28; 29; 30; 31; 32]%nat) ->
  q_secret q = Some (a ++ k ++ b) ->
  serve matches routes (Some k) s q = (List.length s :: s, LoggedIn (List.length s)).
Proof.
  intros F M K N B Q.
  assert (D : forall x y c, In c (list_ascii_of_string x) \/ In c (list_ascii_of_string y) -> In c (list_ascii_of_string (x ++ y))).
  { induction x as [|d x IH]; intros y c [H|H]; [destruct H|exact H|destruct H as [->|H]; [left; reflexivity|right; apply IH; now left]|right; apply IH; now right]. }
  assert (Ba : forall c, In c (list_ascii_of_string a) -> is_blank c = true) by (intros c H; apply blank_codes, B, D; now left).
  assert (Bb : forall c, In c (list_ascii_of_string b) -> is_blank c = true) by (intros c H; apply blank_codes, B, D; now right).
  assert (L : lstrip k = k).
  { destruct k as [|c k]; [contradiction|]. cbn [lstrip]. destruct (is_blank c) eqn:E; [|reflexivity]. exfalso.
    assert (Len : forall x, (String.length (lstrip x) <= String.length x)%nat) by (induction x as [|d x IH]; cbn; [lia|destruct (is_blank d); cbn; lia]).
    assert (Lr : forall x, (String.length (rstrip x) <= String.length x)%nat) by (induction x as [|d x IH]; cbn; [lia|destruct (is_empty _ && _); cbn; lia]).
    unfold strip in K. cbn [lstrip] in K. rewrite E in K. pose proof (Lr (lstrip k)). pose proof (Len k). rewrite K in H. cbn [String.length] in H. lia. }
  assert (S : strip (a ++ k ++ b) = k).
  { unfold strip. rewrite lstrip_blanks by exact Ba. destruct k as [|c k]; [contradiction|]. cbn [String.append lstrip]. cbn [lstrip] in L.
    destruct (is_blank c) eqn:E.
    - exfalso. assert (Len : forall x, (String.length (lstrip x) <= String.length x)%nat) by (induction x as [|d x IH]; cbn; [lia|destruct (is_blank d); cbn; lia]).
      pose proof (Len k) as H. rewrite L in H. cbn [String.length] in H. lia.
    - change (rstrip (String c (k ++ b))) with (rstrip (String c k ++ b)). rewrite rstrip_blanks by exact Bb. unfold strip in K. cbn [lstrip] in K. now rewrite E in K. }
  unfold serve. rewrite F. unfold run_login. rewrite M, Q, S, String.eqb_refl. reflexivity.
Qed.
Example login_blanks_case : strip "abc" = "abc" /\ "abc" <> "".
Proof. split; [reflexivity|discriminate]. Qed.
