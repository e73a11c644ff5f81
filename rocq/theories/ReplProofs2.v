(** Proofs about Repl.v: how values are served, the search page, concrete cases. *)
From Coq Require Import String Ascii QArith.
From Verif Require Import PyBase PyFacts PyMore Time Audio Midi Persist PersistProofs Index IndexProofs Ui UiProofs Ui2Proofs Repl ReplProofs.
Local Open Scope string_scope.
Local Open Scope Z_scope.

Section Chunks.
  Context {A : Type}.
  Lemma chunks_concat sps : (0 < sps)%nat -> forall fuel (l : list A), (List.length l <= fuel)%nat ->
    List.concat (chunks_of fuel sps l) = l.
  Proof.
    intros P. induction fuel as [|f IH]; intros l L.
    - destruct l; [reflexivity|simpl in L; lia].
    - destruct l as [|x l]; [reflexivity|]. cbn [chunks_of List.concat]. rewrite IH.
      + apply firstn_skipn.
      + rewrite skipn_length. cbn [List.length] in *. lia.
  Qed.
  Lemma chunks_nth sps : (0 < sps)%nat -> forall fuel (l : list A) i c, nth_error (chunks_of fuel sps l) i = Some c ->
    c = firstn sps (skipn (i * sps) l) /\ c <> [].
  Proof.
    intros P. induction fuel as [|f IH]; intros l i c H; [destruct l, i; discriminate|].
    destruct l as [|x l]; [destruct i; discriminate|]. cbn [chunks_of] in H. destruct i as [|i]; cbn [nth_error] in H.
    - injection H as <-. split; [reflexivity|]. destruct sps; [lia|discriminate].
    - apply IH in H. destruct H as [-> N]. split; [|exact N].
      rewrite PyFacts.skipn_skipn'. reflexivity.
  Qed.
End Chunks.

Section Values.
  Context {A Ob : Type}.
  Context (base_path : string) (audio visualization : option string).
  Context (stored : string -> feature -> result (list N)).
  Notation serialize := (@serialize A Ob base_path audio visualization stored).
  Notation context := (context A Ob).

  (** Theorem: samples are served as ogg audio; what is written, piece by piece, is all the
      samples in their order, each piece one second (the last one what is left) *)
  Lemma samples_served (c : context) sps ch (l : list A) : c_value c = Some (VSamples sps ch l) -> 0 < sps ->
    exists chunks, serialize c = Served {| t_data := BAudio sps ch chunks; t_type := "audio/ogg" |} /\
      List.concat chunks = l /\
      forall i piece, nth_error chunks i = Some piece ->
        piece <> [] /\ piece = firstn (Z.to_nat sps) (skipn (i * Z.to_nat sps) l).
  Proof.
    intros V P. unfold Repl.serialize. simpl find. rewrite V. unfold vserialize. rewrite V.
    unfold serialize_samples. replace (sps =? 0) with false by lia. replace (0 <? sps) with true by lia.
    eexists. split; [reflexivity|]. split.
    - apply chunks_concat; lia.
    - intros i piece H. apply chunks_nth in H; [|lia]. destruct H as [H N]. split; assumption.
  Qed.

  Definition colours (shape : list Z) : Prop := exists h w, shape = [h; w; 3] \/ shape = [h; w; 4].

  (** Theorem: an array that is not the value of a feature *)
  Lemma array_served (c : context) shape (data : list A) : c_feature c = None -> c_value c = Some (VArray shape data) ->
    (List.length shape = 1%nat \/ List.length shape = 2%nat \/ colours shape ->
       serialize c = Served {| t_data := BImage shape data; t_type := "image/png" |}) /\
    (List.length shape = 3%nat -> ~ colours shape -> serialize c = Failed (RError ValueError)) /\
    (List.length shape = 0%nat \/ (3 < List.length shape)%nat -> serialize c = Failed RNoMatchingSerializer).
  Proof.
    intros HF HV. unfold Repl.serialize. simpl find. rewrite HF, HV.
    unfold Zlen. split; [|split].
    - intros [H|[H|(h & w & [H|H])]].
      + destruct shape as [|a [|b s]]; try discriminate. cbn. rewrite HV. reflexivity.
      + destruct shape as [|a [|b [|d s]]]; try discriminate. cbn. rewrite HV. reflexivity.
      + subst shape. cbn. rewrite HV. reflexivity.
      + subst shape. cbn. rewrite HV. reflexivity.
    - intros H N. destruct shape as [|h [|w [|d [|x s]]]]; try discriminate. cbn. rewrite HV.
      unfold generate_image, Zlen. cbn [List.length List.last].
      change (Z.of_nat 3 =? 1) with false. change (Z.of_nat 3 =? 2) with false. change (Z.of_nat 3 =? 3) with true.
      cbn [orb andb]. destruct (d =? 3) eqn:D3.
      { exfalso. apply N. exists h, w. left. f_equal. f_equal. f_equal. lia. }
      destruct (d =? 4) eqn:D4.
      { exfalso. apply N. exists h, w. right. f_equal. f_equal. f_equal. lia. }
      reflexivity.
    - intros H. replace (Z.of_nat (List.length shape) =? 1) with false by lia.
      replace (Z.of_nat (List.length shape) =? 2) with false by lia.
      replace (Z.of_nat (List.length shape) =? 3) with false by lia. reflexivity.
  Qed.

  (** Theorem: other objects get no url *)
  Lemma others_unserved (c : context) o : c_feature c = None -> c_value c = Some (VOther o) ->
    serialize c = Failed RNoMatchingSerializer.
  Proof. intros HF HV. unfold Repl.serialize. simpl find. rewrite HF, HV. reflexivity. Qed.

  (** Theorem: a feature stored as JSON or as ogg is served as it is stored, unless its value is
      AudioSamples *)
  Lemma stored_served doc f v content : stored_bytes f -> (forall s ch l, v <> VSamples s ch l) ->
    stored doc f = Ok content ->
    serialize {| c_doc := Some doc; c_feature := Some f; c_timed := false; c_value := Some v |}
      = Served {| t_data := BStored content; t_type := f_content_type f |}.
  Proof.
    intros SB N H. unfold Repl.serialize. simpl find. cbn [vmatches c_feature c_timed c_value].
    destruct v as [s ch l| | | |]; [now elim (N s ch l)| | | |];
    (destruct (f_class f); (destruct SB as [E|E]; rewrite E;
      [change (String.eqb "application/json" "application/json") with true; cbn [vserialize c_doc c_feature]; rewrite H; reflexivity
      |change (String.eqb "audio/ogg" "application/json") with false; change (String.eqb "audio/ogg" "audio/ogg") with true;
       cbn [vserialize c_doc c_feature]; rewrite H; reflexivity])).
  Qed.

  (** *** Slices of sounds *)
  Definition seconds_entry (t d : td) : pyjson :=
    PDict [("start", PNum (inject_Z (ps t) / inject_Z (10 ^ 12))); ("duration", PNum (inject_Z (ps d) / inject_Z (10 ^ 12)))].
  Definition entry (a v id_ : string) (t d : td) : pyjson :=
    PDict [("audio", PStr (feature_path base_path id_ a)); ("visualization", PStr (feature_path base_path id_ v));
           ("slice", seconds_entry t d)].

  Lemma entries_dumpable a v (l : list (string * (td * td))) :
    forallb dumpable (map (fun x => entry a v (fst x) (fst (snd x)) (snd (snd x))) l) = true.
  Proof. induction l as [|x l IH]; [reflexivity|]. exact IH. Qed.

  (** Theorem: the value of a TimeSliceFeature is served as the list of its slices, in order *)
  Lemma onsets_served (c : context) f doc a v (slices : list (td * td)) : audio = Some a -> visualization = Some v ->
    f_class f = TimeSliceFeature -> ~ stored_bytes f ->
    c = {| c_doc := Some doc; c_feature := Some f; c_timed := false;
           c_value := Some (VSlices (map (fun x => {| ts_start := fst x; ts_duration := Some (snd x) |}) slices)) |} ->
    serialize c
      = Served {| t_data := BJson (PDict [("results", PList (map (fun x => entry a v doc (fst x) (snd x)) slices))]);
                  t_type := "application/vnd.zounds.onsets+json" |}.
  Proof.
    intros HA HV F NS ->. unfold Repl.serialize. simpl find. cbn [vmatches c_feature c_timed c_value]. rewrite F.
    destruct (String.eqb (f_content_type f) "application/json") eqn:E1.
    { elim NS. left. now apply String.eqb_eq. }
    destruct (String.eqb (f_content_type f) "audio/ogg") eqn:E2.
    { elim NS. right. now apply String.eqb_eq. }
    cbn [vserialize c_value c_doc onsets_items]. unfold slice_serialize. cbn [bind].
    rewrite (mapM_ok _ (fun x => entry a v (snd x) (ts_start (fst x)) (match ts_duration (fst x) with Some d => d | None => ts_start (fst x) end))).
    - cbn [bind]. rewrite !map_map. cbn [fst snd ts_start ts_duration].
      assert (D : dumpable (PDict [("results", PList (map (fun x : td * td => entry a v doc (fst x) (snd x)) slices))]) = true).
      { cbn [dumpable forallb snd]. rewrite !andb_true_r. induction slices as [|x l IH]; [reflexivity|exact IH]. }
      rewrite D. reflexivity.
    - intros x I. rewrite map_map in I. apply in_map_iff in I. destruct I as [y [<- _]].
      unfold result_json. rewrite HA, HV. reflexivity.
  Qed.
  (** ... unless the application has no audio feature (its default): then nothing is served, and
      the REPL answers with an error *)
  Lemma onsets_unconfigured (c : context) f doc ts slices : audio = None ->
    f_class f = TimeSliceFeature -> ~ stored_bytes f ->
    c = {| c_doc := Some doc; c_feature := Some f; c_timed := false; c_value := Some (VSlices (ts :: slices)) |} ->
    serialize c
      = Failed (RError AttributeError).
  Proof.
    intros HA F NS ->. unfold Repl.serialize. simpl find. cbn [vmatches c_feature c_timed c_value]. rewrite F.
    destruct (String.eqb (f_content_type f) "application/json") eqn:E1.
    { elim NS. left. now apply String.eqb_eq. }
    destruct (String.eqb (f_content_type f) "audio/ogg") eqn:E2.
    { elim NS. right. now apply String.eqb_eq. }
    cbn [vserialize c_value c_doc onsets_items]. unfold slice_serialize. cbn [map mapM bind].
    unfold result_json at 1. rewrite HA. reflexivity.
  Qed.

  Lemma search_results_fail (c : context) (q : list N) hits : c_feature c = None -> c_value c = Some (VResults q hits) ->
    exists e, serialize c = Failed (RError e) /\
      (Forall (fun h => h_extra h = false /\ ts_duration (h_slice h) <> None) hits -> audio <> None -> visualization <> None ->
       e = TypeError).
  Proof.
    intros HF HVal. unfold Repl.serialize. simpl find. rewrite HF, HVal. unfold vserialize. rewrite HVal. clear HF HVal.
    unfold slice_serialize. destruct (search_items hits) as [items|e] eqn:SI; cbn [bind].
    2:{ exists e. split; [reflexivity|]. intros F _ _. exfalso. revert e SI F.
        induction hits as [|h l IH]; intros e SI F; [discriminate|].
        unfold search_items in SI. cbn [mapM] in SI. inversion F as [|? ? [X _] F']; subst. rewrite X in SI. cbn [bind] in SI.
        fold (search_items l) in SI. destruct (search_items l) as [r|e'] eqn:SL; cbn [bind] in SI; [discriminate|].
        eapply IH; eauto. }
    destruct (mapM _ items) as [rs|e] eqn:MM; cbn [bind].
    2:{ exists e. split; [reflexivity|]. intros F HA HV. exfalso.
        destruct audio as [a|]; [|congruence]. destruct visualization as [vz|]; [|congruence].
        revert items e SI MM F. induction hits as [|h l IH]; intros items e SI MM F.
        - injection SI as <-. discriminate.
        - unfold search_items in SI. cbn [mapM] in SI. inversion F as [|? ? [X D] F']; subst. rewrite X in SI. cbn [bind] in SI.
          fold (search_items l) in SI. destruct (search_items l) as [r|e'] eqn:SL; cbn [bind] in SI; [|discriminate].
          injection SI as <-. cbn [mapM fst snd] in MM.
          unfold result_json in MM at 1. destruct (ts_duration (h_slice h)); [|congruence]. cbn [bind] in MM.
          destruct (mapM _ r) eqn:MR; cbn [bind] in MM; [discriminate|]. eapply IH; eauto. }
    assert (D : dumpable (PDict (("results", PList rs) :: search_extra q)) = false).
    { cbn [dumpable forallb snd search_extra]. now rewrite andb_false_r. }
    rewrite D. exists TypeError. split; reflexivity.
  Qed.
  (** ... and the results of an index with extra data fail already while they are listed *)
  Lemma search_results_extra (c : context) (q : list N) h hits : c_feature c = None ->
    c_value c = Some (VResults q (h :: hits)) -> h_extra h = true ->
    serialize c = Failed (RError ValueError).
  Proof.
    intros HF HVal X. unfold Repl.serialize. simpl find. rewrite HF, HVal. unfold vserialize. rewrite HVal.
    unfold slice_serialize, search_items. cbn [mapM]. rewrite X. reflexivity.
  Qed.
End Values.

(** *** The search page *)
Section Search.
  Context {A Ob St : Type}.
  Context (search : list bool -> Z -> St -> St * result (value A Ob)).
  Context (random_search : Z -> St -> St * result (value A Ob)).
  Context (base_path : string) (audio visualization : option string).
  Context (stored : string -> feature -> result (list N)).
  Notation search_get := (search_get search random_search base_path audio visualization stored).

  (** the searches return SearchResults, or raise *)
  Hypothesis searches : forall q n s v, snd (search q n s) = Ok v -> exists code hits, v = VResults code hits.
  Hypothesis random_searches : forall n s v, snd (random_search n s) = Ok v -> exists code hits, v = VResults code hits.

  (** Refuted: "the search page shows the results".  Whatever is asked and found, it is a 500. *)
  Lemma search_page_fails n q s : exists s' a, search_get n q s = (s', 500, None, a).
  Proof.
    unfold Repl.search_get.
    set (go := if is_empty (unquote q) then _ else _).
    assert (G : forall v, snd (fst go) = Ok v -> exists code hits, v = VResults code hits).
    { subst go. intros v. destruct (is_empty (unquote q)).
      - specialize (random_searches n s v). destruct (random_search n s). exact random_searches.
      - destruct (b64decode (unquote q)) as [b|e]; [|discriminate].
        specialize (searches (decode_query (map Z.to_N b)) n s v). destruct (search _ n s). exact searches. }
    destruct go as [[s1 r] a]. simpl in G. destruct r as [v|e]; [|eauto].
    destruct (G v eq_refl) as (code & hits & ->).
    destruct (@search_results_fail A Ob base_path audio visualization stored
      {| c_doc := None; c_feature := None; c_timed := false; c_value := Some (VResults code hits) |} code hits eq_refl eq_refl) as [e [-> _]].
    eauto.
  Qed.

  Lemma b64_char_unreserved v : 0 <= v < 64 -> b64_char v <> "%"%char.
  Proof.
    intros R E. pose proof (b64_val_char v R) as H. rewrite E in H.
    change (b64_val "%") with (@None Z) in H. discriminate.
  Qed.
  Lemma unquote_skip c s : c <> "%"%char -> unquote (String c s) = String c (unquote s).
  Proof.
    intros N. cbn [unquote]. destruct (Ascii.eqb c "%") eqn:E; [apply Ascii.eqb_eq in E; congruence|].
    destruct s as [|h [|l r]]; reflexivity.
  Qed.
  Lemma unquote_b64 bs : Forall byte bs -> unquote (b64encode bs) = b64encode bs.
  Proof.
    assert (P : "="%char <> "%"%char) by discriminate.
    revert bs. fix IH 1. intros bs F.
    destruct bs as [|a [|b [|c r]]].
    - reflexivity.
    - inversion F as [|? ? Ha _]; subst. unfold byte in Ha. cbn [b64encode].
      rewrite !unquote_skip; try exact P; try (apply b64_char_unreserved; zdm). reflexivity.
    - inversion F as [|? ? Ha F1]; subst. inversion F1 as [|? ? Hb _]; subst. unfold byte in *. cbn [b64encode].
      rewrite !unquote_skip; try exact P; try (apply b64_char_unreserved; zdm). reflexivity.
    - inversion F as [|? ? Ha F1]; subst. inversion F1 as [|? ? Hb F2]; subst. inversion F2 as [|? ? Hc F3]; subst.
      unfold byte in *. cbn [b64encode].
      rewrite !unquote_skip; try (apply b64_char_unreserved; zdm). now rewrite (IH r F3).
  Qed.

  (** Theorem: the index is asked for the code whose base64 text is in the request, unpacked into
      bits; or for a random one if there is none *)
  Lemma search_page_asks n code s : code <> [] -> Forall (fun b => (b < 256)%N) code ->
    snd (search_get n (b64encode (map Z.of_N code)) s) = AskedFor (unpackbits code) n /\
    fst (fst (fst (search_get n (b64encode (map Z.of_N code)) s))) = fst (search (unpackbits code) n s).
  Proof.
    intros N F. assert (FB : Forall byte (map Z.of_N code)).
    { apply Forall_forall. intros x I. apply in_map_iff in I. destruct I as [y [<- I]].
      rewrite Forall_forall in F. specialize (F y I). unfold byte. lia. }
    unfold Repl.search_get. rewrite (unquote_b64 _ FB).
    assert (E : is_empty (b64encode (map Z.of_N code)) = false).
    { destruct code as [|a [|b [|c r]]]; [congruence| | |]; reflexivity. }
    rewrite E, (b64_roundtrip _ FB).
    assert (M : map Z.to_N (map Z.of_N code) = code).
    { rewrite map_map. clear. induction code as [|x l IH]; [reflexivity|]. simpl. now rewrite N2Z.id, IH. }
    rewrite M. unfold decode_query. destruct (search (unpackbits code) n s) as [s1 [v|e]].
    - destruct (serialize _ _ _ _ _); split; reflexivity.
    - split; reflexivity.
  Qed.
  Lemma search_page_random n s : snd (search_get n "" s) = AskedRandom n /\
    fst (fst (fst (search_get n "" s))) = fst (random_search n s).
  Proof.
    unfold Repl.search_get. cbn [unquote is_empty]. destruct (random_search n s) as [s1 [v|e]]; [|split; reflexivity].
    destruct (serialize _ _ _ _ _); split; reflexivity.
  Qed.
End Search.

(** ** A concrete interpreter and session *)
(** [tick()] adds one to a counter and returns it; [broken()] adds one and raises SyntaxError;
    [tone] is an AudioSamples; [print(text)] *)
Inductive toy := Tick | Broken | Tone | Cube | Quit.
Definition toy_run (e : toy) (m : machine Z) : machine Z * (value Z Z + raised) :=
  let bump := {| m_user := m_user m + 1; m_streams := m_streams m; m_stdout := m_stdout m |} in
  match e with
  | Tick => (bump, inl (VOther (m_user m + 1)))
  | Broken => (bump, inr RSyntaxError)
  | Tone => (m, inl (VSamples 2 1 [5; 6; 7]))
  | Cube => (bump, inl (VArray [2; 2; 2] [1; 2; 3; 4; 5; 6; 7; 8]))
  | Quit => (m, inr (RError OtherError))
  end.
Definition toy_print (text : string) (m : machine Z) : machine Z * option raised :=
  ({| m_user := m_user m; m_streams := append_to (m_stdout m) text (m_streams m); m_stdout := m_stdout m |}, None).
Definition toy_str (v : value Z Z) : string := match v with VOther n => py_str n | _ => "array" end.
Fixpoint toy_uuid (n : nat) : string := match n with O => "a" | S n => String "a" (toy_uuid n) end.
Definition toy_post := post toy_run toy_print (fun _ => OtherExpr) (fun _ => [Stmt []]) None (fun _ _ => None)
  "/zounds/" None None (fun _ _ => Raise KeyError) toy_str (fun _ => "Traceback") toy_uuid.
Definition toy_session := session toy_run toy_print (fun _ => OtherExpr) (fun _ => [Stmt []]) None (fun _ _ => None)
  "/zounds/" None None (fun _ _ => Raise KeyError) toy_str (fun _ => "Traceback") toy_uuid.
Definition toy_start : app Z Z := initial {| m_user := 0; m_streams := ["terminal"]; m_stdout := 0 |}.

Lemma toy_uuid_injective : forall i j, toy_uuid i = toy_uuid j -> i = j.
Proof. induction i as [|i IH]; intros [|j] H; try reflexivity; [destruct j; discriminate|destruct i; discriminate|].
  injection H as H. f_equal. now apply IH. Qed.
Lemma toy_uuid_text : forall i, toy_uuid i <> "" /\ all_chars unreserved (toy_uuid i) = true.
Proof. induction i as [|i [_ IH]]; split; try discriminate; [reflexivity|exact IH]. Qed.

Example toy_answers : snd (toy_session [plain Tick; statement "hello"; plain Tone; plain Quit] toy_start) =
  [(200, [("result", "1")]); (200, [("result", "hello")]);
   (200, [("result", "array"); ("url", "/zounds/temp/a"); ("contentType", "audio/ogg")]);
   (400, [("error", "Traceback")])].
Proof. reflexivity. Qed.
Example toy_temp : temp_get "a" (fst (toy_session [plain Tick; plain Tone; plain Tone] toy_start)) =
  (200, Some {| t_data := BAudio 2 1 [[5; 6]; [7]]; t_type := "audio/ogg" |}).
Proof. reflexivity. Qed.

(** Refuted: "a statement is evaluated once" *)
Lemma run_once_refuted : m_user (a_machine (fst (fst (toy_post (plain Broken) toy_start)))) = 2.
Proof. reflexivity. Qed.
(** Refuted: "a statement that is answered with an error had no result": with a blank in front,
    and for an array with three dimensions that is not an image *)
Lemma indented_refuted : toy_post {| s_indented := true; s_code := Expression Tick |} toy_start =
  ({| a_temp := []; a_drawn := 0; a_machine := {| m_user := 1; m_streams := ["terminal"; ""]; m_stdout := 0 |} |}, 400,
   [("result", "1"); ("error", "Traceback")]).
Proof. reflexivity. Qed.
Lemma cube_refuted : toy_post (plain Cube) toy_start =
  ({| a_temp := []; a_drawn := 0; a_machine := {| m_user := 1; m_streams := ["terminal"; ""]; m_stdout := 0 |} |}, 400,
   [("result", "array"); ("error", "Traceback")]).
Proof. reflexivity. Qed.

(** the search page, on an index with one result *)
Definition toy_hit : hit := {| h_id := "id"; h_slice := mk_timeslice (Some (picoseconds (10 ^ 12))) None; h_extra := false |}.
Example toy_search :
  search_get (fun q n s => (s + 1, Ok (@VResults Z Z [65%N] [toy_hit]))) (fun n s => (s + 1, Ok (VResults [65%N] [toy_hit])))
    "/zounds/" (Some "ogg") (Some "fft") (fun _ _ => Raise KeyError) 10 "QQ==" 0
  = (1, 500, None, AskedFor [false; true; false; false; false; false; false; true] 10).
Proof. reflexivity. Qed.
Example toy_onsets : @serialize Z Z "/zounds/" (Some "ogg") (Some "fft") (fun _ _ => Raise KeyError)
  {| c_doc := Some "a b"; c_feature := Some {| f_class := TimeSliceFeature; f_content_type := "application/octet-stream" |};
     c_timed := false; c_value := Some (VSlices [mk_timeslice (Some (picoseconds (10 ^ 12))) (Some (picoseconds (5 * 10 ^ 11)))]) |}
  = Served {| t_data := BJson (PDict [("results", PList [PDict [
        ("audio", PStr "/zounds/a%20b/ogg"); ("visualization", PStr "/zounds/a%20b/fft");
        ("slice", PDict [("start", PNum (500000000000 # 1000000000000)); ("duration", PNum (1000000000000 # 1000000000000))])]])]);
      t_type := "application/vnd.zounds.onsets+json" |}.
Proof. reflexivity. Qed.
