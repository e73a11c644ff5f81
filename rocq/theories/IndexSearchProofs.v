(** C85: an index built from documents, searched end to end. *)
From Verif Require Import PyBase PyFacts PyMore Bits BitsProofs HammingDb HammingDbProofs Time Freq FreqDim Axis Persist PersistProofs Json JsonProofs IndexSearch.
From Verif Require Index IndexProofs.
From Coq Require Import NArith String Sorting.Permutation Sorting.Sorted Lia.
Import ListNotations.

(** ** Specification *)
(** One indexed slice: its document, time slice, extra data and code. *)
Record entry := { e_doc : string; e_ts : timeslice; e_extra : option json; e_code : bytes }.

(** What indexing a document with these extra-data functions adds. *)
Definition entries_of (extra : extras) (d : doc) : list entry :=
  flat_map (fun s => match Index.encode_query (snd s) with
                     | Ok c => [{| e_doc := doc_id d; e_ts := fst s;
                                   e_extra := match extra with
                                              | [] => None
                                              | _ => Some (JObj (map (fun kf => (fst kf, snd kf (doc_id d) (fst s))) extra))
                                              end;
                                   e_code := c |}]
                     | Raise _ => []
                     end) (doc_slices d).

(** What a reader configured with [extra] is given for an entry. *)
Definition seen_by (extra : extras) (e : entry) : result hit :=
  match extra with
  | [] => Ok (e_doc e, e_ts e, None)
  | _ => match e_extra e with Some x => Ok (e_doc e, e_ts e, Some x) | None => Raise KeyError end
  end.

(** Time slices with a duration and a start that are not negative. *)
Definition readable_ts (ts : timeslice) : Prop :=
  exists d s, ts = mk_timeslice (Some d) s /\ nonneg_td d /\ (forall s', s = Some s' -> nonneg_td s').
Definition slice_ok (cs : Z) (s : timeslice * feature) : Prop :=
  readable_ts (fst s) /\ exists code, Index.encode_query (snd s) = Ok code /\ well_formed_code cs code.
Definition doc_ok (cs : Z) (d : doc) : Prop := Forall (slice_ok cs) (doc_slices d).
Definition extras_ok (extra : extras) : Prop :=
  forall k f, In (k, f) extra -> forall i ts, textual (f i ts) = true.

(** ** The stored value and reading it back *)
Definition td_fields (ts : timeslice) : list (string * json) :=
  [("start", encode_timedelta (ts_start ts));
   ("duration", encode_timedelta (match ts_duration ts with Some d => d | None => picoseconds 0 end))]%string.
Definition payload (e : entry) : json :=
  JObj (("_id"%string, JStr (e_doc e)) :: td_fields (e_ts e) ++
        match e_extra e with Some x => [("extra_data"%string, x)] | None => [] end).
Definition value (e : entry) : bytes := e_code e ++ dumps (payload e).

Definition entry_ok (cs : Z) (e : entry) : Prop :=
  readable_ts (e_ts e) /\ well_formed_code cs (e_code e) /\
  match e_extra e with Some x => textual x = true | None => True end.

Lemma encoded_ts_ok extra i ts : readable_ts ts ->
  forall code, encoded_ts extra i ts
    = Ok (payload {| e_doc := i; e_ts := ts; e_extra := collect_extra_data extra i ts; e_code := code |}).
Proof. intros [d [s [-> _]]] code. reflexivity. Qed.

Lemma payload_textual cs e : entry_ok cs e -> textual (payload e) = true.
Proof.
  intros [_ [_ H]]. unfold payload, td_fields, encode_timedelta. cbn [textual app forallb snd].
  destruct (e_extra e); cbn [forallb snd andb]; [rewrite H|]; reflexivity.
Qed.

Lemma parse_payload cs extra e : entry_ok cs e -> parse_result extra (dumps (payload e)) = seen_by extra e.
Proof.
  intros H. unfold parse_result. rewrite (loads_dumps _ (payload_textual cs e H)). cbn [bind].
  destruct H as [[d [s [E [Hd Hs]]]] _].
  assert (D : decode_timeslice (payload e) = Ok (e_ts e)).
  { destruct (timeslice_roundtrip d s Hd Hs) as [j [Hj1 Hj2]]. rewrite <- E in Hj1, Hj2.
    assert (Ej : j = JObj (td_fields (e_ts e))).
    { rewrite E in Hj1 |- *. cbn in Hj1. injection Hj1 as <-. reflexivity. }
    subst j. rewrite <- Hj2. reflexivity. }
  rewrite D. cbn [bind]. change (jget (payload e) "_id") with (@Ok json (JStr (e_doc e))). cbn [bind].
  unfold seen_by. destruct extra as [|x extra]; [reflexivity|].
  unfold payload. destruct (e_extra e) as [x'|]; reflexivity.
Qed.

(** ** The invariant *)
Section Inv.
  Variable new_id : nat -> HammingDb.id.
  Hypothesis new_id_inj : forall i j, new_id i = new_id j -> i = j.
  Variable argp : list N -> nat -> list nat.
  Variable args : list N -> list nat.
  Variable cs : Z.
  Hypothesis cs8 : (cs mod 8 = 0)%Z.
  Hypothesis cs_pos : (0 < cs)%Z.

  Definition stored_under (ke : nat * entry) : HammingDb.id * bytes := (new_id (fst ke), value (snd ke)).

  Definition DInv (d : db) (draws : nat) (cont : list entry) : Prop :=
    db_ok cs d /\ Forall (entry_ok cs) cont /\
    (exists kc, map snd kc = cont /\ Forall (fun ke => fst ke < draws) kc /\
                Permutation (db_entries d) (map stored_under kc)) /\
    (db_codesize d = None /\ cont = [] \/ db_codesize d = Some cs).

  Definition open_on (wo : bool) (p : proc) (d : db) : Prop :=
    db_codesize d = Some cs /\ p_code_size p = cs /\ p_writeonly p = wo /\ (wo = false -> good cs p d).
  Definition PI (h : hindex) : Prop :=
    match hi_proc h with Some p => open_on (hi_writeonly h) p (hi_disk h) | None => True end.

  Lemma catch_up_fields p d : p_code_size (catch_up p d) = p_code_size p /\ p_writeonly (catch_up p d) = p_writeonly p.
  Proof.
    unfold catch_up. revert p. induction (db_entries d) as [|kv l IH]; intros p; [split; reflexivity|].
    cbn [fold_left]. match goal with |- context [fold_left _ l ?q] => destruct (IH q) as [A B]; set (p1 := q) in * end.
    assert (F : p_code_size p1 = p_code_size p /\ p_writeonly p1 = p_writeonly p).
    { unfold p1. destruct (mem_id _ _); [split; reflexivity|]. unfold add_code.
      destruct (p_writeonly p) eqn:E; [split; [reflexivity|exact E]|split; reflexivity]. }
    destruct F as [F1 F2]. split; [etransitivity; [exact A|exact F1]|etransitivity; [exact B|exact F2]].
  Qed.

  Lemma start_good d : db_ok cs d -> db_codesize d = Some cs ->
    good cs (catch_up {| p_code_size := cs; p_writeonly := false; p_codes := []; p_ids := [] |} d) d.
  Proof.
    intros Hdb Hdc. set (p0 := {| p_code_size := cs; p_writeonly := false; p_codes := []; p_ids := [] |}).
    assert (HI0 : PInv p0 d).
    { split; [constructor|]. split; [intros k; simpl; tauto|]. intros x []. }
    destruct (catch_up_perm p0 d cs eq_refl eq_refl HI0 (proj1 Hdb)) as [C1 [C2 [C3 C4]]].
    split; [exact C1|]. split; [exact C2|]. split; [exact Hdc|]. split; [exact Hdb|].
    split; [|split; [exact C3|]].
    - eapply Permutation_NoDup; [apply Permutation_map, Permutation_sym; exact C4|].
      rewrite map_map. simpl. apply Hdb.
    - intros x Hx. rewrite C2. eapply Permutation_in; [exact C4|exact Hx].
  Qed.

  Lemma start_open wo d : db_ok cs d -> db_codesize d = Some cs ->
    open_on wo (catch_up {| p_code_size := cs; p_writeonly := wo; p_codes := []; p_ids := [] |} d) d.
  Proof.
    intros Hdb Hdc. destruct (catch_up_fields {| p_code_size := cs; p_writeonly := wo; p_codes := []; p_ids := [] |} d) as [A B].
    split; [exact Hdc|]. split; [exact A|]. split; [exact B|]. intros ->. apply start_good; assumption.
  Qed.

  Definition initialised (d : db) : db := {| db_codesize := Some cs; db_entries := db_entries d |}.

  Lemma init_code h draws cont c : DInv (hi_disk h) draws cont -> PI h -> Zlen c = cs ->
    exists p, init_hamming_db h (Some c) = Ok (p, initialised (hi_disk h)) /\ open_on (hi_writeonly h) p (initialised (hi_disk h)).
  Proof.
    intros [Hdb [_ [_ Hc]]] HP Hl. unfold init_hamming_db, PI in *.
    destruct (hi_proc h) as [p|].
    - exists p. destruct HP as [H1 H2]. unfold initialised. destruct (hi_disk h) as [c0 es]. cbn [db_codesize db_entries] in *. subst c0.
      split; [reflexivity|]. split; [reflexivity|exact H2].
    - destruct c as [|b c]; [cbn in Hl; lia|]. rewrite Hl. unfold open_db.
      assert (Hdb' : db_ok cs (initialised (hi_disk h))) by exact Hdb.
      destruct Hc as [[Hc _]|Hc]; rewrite Hc.
      + rewrite cs8. cbn [Z.eqb negb]. eexists. split; [reflexivity|]. apply start_open; [exact Hdb'|reflexivity].
      + rewrite Z.eqb_refl. rewrite andb_false_r.
        assert (E : hi_disk h = initialised (hi_disk h)).
        { unfold initialised. destruct (hi_disk h); cbn in *; subst; reflexivity. }
        eexists. split; [rewrite <- E; reflexivity|]. rewrite <- E. apply start_open; assumption.
  Qed.

  Lemma DInv_fresh d draws cont : DInv d draws cont -> ~ In (new_id draws) (map fst (db_entries d)).
  Proof.
    intros [_ [_ [[kc [_ [Hk Hp]]] _]]] Hin.
    apply (Permutation_in _ (Permutation_map fst Hp)) in Hin. rewrite map_map in Hin.
    apply in_map_iff in Hin. destruct Hin as [ke [E Hke]]. cbn in E. apply new_id_inj in E.
    rewrite Forall_forall in Hk. specialize (Hk _ Hke). lia.
  Qed.

  Definition put_entry (d : db) (draws : nat) (e : entry) : db :=
    {| db_codesize := Some cs; db_entries := put (new_id draws) (value e) (db_entries d) |}.

  Lemma DInv_put d draws cont e : DInv d draws cont -> entry_ok cs e ->
    DInv (put_entry d draws e) (S draws) (cont ++ [e]).
  Proof.
    intros H He. pose proof (DInv_fresh _ _ _ H) as Hf. destruct H as [Hdb [Hall [[kc [Hk1 [Hk2 Hk3]]] _]]].
    destruct He as [He1 [[Hl Hb] He3]].
    split; [|split; [|split; [|right; reflexivity]]].
    - exact (put_ok cs (initialised d) _ _ (dumps (payload e)) Hdb Hf Hl Hb).
    - apply Forall_app. split; [exact Hall|]. repeat constructor; assumption.
    - exists (kc ++ [(draws, e)]). rewrite !map_app, Hk1. split; [reflexivity|]. split.
      + apply Forall_app. split; [|repeat constructor].
        eapply Forall_impl; [|exact Hk2]. cbn. intros; lia.
      + cbn [put_entry db_entries map]. rewrite <- put_perm by exact Hf. rewrite Hk3. apply Permutation_cons_append.
  Qed.

  (** another writer's entry keeps an open reader sound *)
  Lemma good_external p d draws cont e : good cs p d -> DInv d draws cont -> entry_ok cs e ->
    good cs p (put_entry d draws e).
  Proof.
    intros Hg HD He. pose proof (DInv_fresh _ _ _ HD) as Hf. destruct He as [_ [[Hl Hb] _]].
    destruct (event_good argp args cs p d (ExternalAppend (new_id draws) (e_code e) (dumps (payload e)))
                p (put_entry d draws e) Hg) as [G _]; [split; assumption| |exact G].
    cbn [do_event]. pose proof Hg as [_ [Hc [Hd _]]]. rewrite Hc, Hl, Z.eqb_refl, Hd. reflexivity.
  Qed.

  Lemma append_open wo p d draws cont e : open_on wo p d -> DInv d draws cont -> entry_ok cs e ->
    exists p', HammingDb.append p d (new_id draws) (e_code e) (dumps (payload e)) Commit
                 = (Ok tt, p', put_entry d draws e) /\ open_on wo p' (put_entry d draws e).
  Proof.
    intros [H1 [H2 [H3 H4]]] HD He. pose proof (DInv_fresh _ _ _ HD) as Hf. pose proof He as [_ [[Hl Hb] _]].
    exists (add_code p (new_id draws) (e_code e)).
    assert (A : HammingDb.append p d (new_id draws) (e_code e) (dumps (payload e)) Commit
                = (Ok tt, add_code p (new_id draws) (e_code e), put_entry d draws e)).
    { unfold HammingDb.append, validate_code_size. rewrite H2, Hl, Z.eqb_refl, H1. reflexivity. }
    split; [exact A|]. split; [reflexivity|].
    assert (F : p_code_size (add_code p (new_id draws) (e_code e)) = cs /\ p_writeonly (add_code p (new_id draws) (e_code e)) = wo).
    { unfold add_code. destruct (p_writeonly p) eqn:E; cbn; split; congruence. }
    destruct F as [F1 F2]. split; [exact F1|]. split; [exact F2|]. intros Hw.
    destruct (event_good argp args cs p d (OwnAppend (new_id draws) (e_code e) (dumps (payload e)) Commit)
                (add_code p (new_id draws) (e_code e)) (put_entry d draws e) (H4 Hw)) as [G _];
      [split; [exact Hf|split; [discriminate|exact Hb]]| |exact G].
    cbn [do_event]. rewrite A. reflexivity.
  Qed.

  Definition entry_of (extra : extras) (i : string) (s : timeslice * feature) (c : bytes) : entry :=
    {| e_doc := i; e_ts := fst s; e_extra := collect_extra_data extra i (fst s); e_code := c |}.

  Lemma extra_textual extra i ts : extras_ok extra ->
    match collect_extra_data extra i ts with Some x => textual x = true | None => True end.
  Proof.
    intros H. unfold collect_extra_data. destruct extra as [|kf extra]; [exact I|].
    cbn [textual]. rewrite forallb_forall. intros p Hp. apply in_map_iff in Hp. destruct Hp as [[k f] [<- Hin]].
    cbn [snd]. apply (H k f Hin).
  Qed.

  Lemma add_slice_ok h i s c cont : DInv (hi_disk h) (hi_draws h) cont -> PI h -> extras_ok (hi_extra h) ->
    readable_ts (fst s) -> Index.encode_query (snd s) = Ok c -> well_formed_code cs c ->
    exists p', add_slice new_id h i (fst s) (snd s)
      = (Ok tt, with_db h (Some p') (put_entry (hi_disk h) (hi_draws h) (entry_of (hi_extra h) i s c)) (S (hi_draws h)))
      /\ open_on (hi_writeonly h) p' (put_entry (hi_disk h) (hi_draws h) (entry_of (hi_extra h) i s c))
      /\ entry_ok cs (entry_of (hi_extra h) i s c).
  Proof.
    intros HD HP Hx Hr Hc Hw. set (e := entry_of (hi_extra h) i s c).
    assert (He : entry_ok cs e).
    { split; [exact Hr|]. split; [exact Hw|]. apply extra_textual. exact Hx. }
    unfold add_slice. rewrite Hc, (encoded_ts_ok _ _ _ Hr c). fold (entry_of (hi_extra h) i s c). fold e.
    destruct (init_code h _ _ c HD HP (proj1 Hw)) as [p [E Ho]]. rewrite E.
    assert (HD' : DInv (initialised (hi_disk h)) (hi_draws h) cont).
    { destruct HD as [A [B [C D]]]. split; [exact A|]. split; [exact B|]. split; [exact C|right; reflexivity]. }
    destruct (append_open _ _ _ _ _ e Ho HD' He) as [p' [A Ho']].
    change (e_code e) with c in A. rewrite A. exists p'. split; [reflexivity|]. split; [exact Ho'|exact He].
  Qed.

  Fixpoint puts (d : db) (draws : nat) (es : list entry) : db :=
    match es with [] => d | e :: es => puts (put_entry d draws e) (S draws) es end.

  Lemma DInv_puts es : forall d draws cont, DInv d draws cont -> Forall (entry_ok cs) es ->
    DInv (puts d draws es) (draws + List.length es) (cont ++ es).
  Proof.
    induction es as [|e es IH]; intros d draws cont HD HF; cbn [puts List.length].
    - rewrite Nat.add_0_r, app_nil_r. exact HD.
    - inversion HF; subst. replace (cont ++ e :: es) with ((cont ++ [e]) ++ es) by (rewrite <- app_assoc; reflexivity).
      replace (draws + S (List.length es)) with (S draws + List.length es) by lia.
      apply IH; [|assumption]. apply DInv_put; assumption.
  Qed.
  Lemma good_puts p es : forall d draws cont, good cs p d -> DInv d draws cont -> Forall (entry_ok cs) es ->
    good cs p (puts d draws es).
  Proof.
    induction es as [|e es IH]; intros d draws cont Hg HD HF; [exact Hg|]. inversion HF; subst. cbn [puts].
    apply (IH _ _ (cont ++ [e])); [eapply good_external; eassumption|apply DInv_put; assumption|assumption].
  Qed.
  Lemma puts_codesize es : forall d draws, db_codesize d = Some cs -> db_codesize (puts d draws es) = Some cs.
  Proof. induction es as [|e es IH]; intros d draws H; [exact H|]. cbn [puts]. apply IH. reflexivity. Qed.

  Definition slices_entries (extra : extras) (i : string) (l : list (timeslice * feature)) : list entry :=
    flat_map (fun s => match Index.encode_query (snd s) with Ok c => [entry_of extra i s c] | Raise _ => [] end) l.
  Lemma entries_of_slices extra d : entries_of extra d = slices_entries extra (doc_id d) (doc_slices d).
  Proof. reflexivity. Qed.

  (** What [add] does to the index when it succeeds. *)
  Record added (h h' : hindex) (es : list entry) : Prop := {
    added_disk : hi_disk h' = puts (hi_disk h) (hi_draws h) es;
    added_draws : hi_draws h' = hi_draws h + List.length es;
    added_PI : PI h';
    added_wo : hi_writeonly h' = hi_writeonly h;
    added_extra : hi_extra h' = hi_extra h;
    added_ok : Forall (entry_ok cs) es;
    added_proc : es <> [] -> hi_proc h' <> None }.

  Lemma add_slices_ok i l : forall h cont, DInv (hi_disk h) (hi_draws h) cont -> PI h -> extras_ok (hi_extra h) ->
    Forall (slice_ok cs) l ->
    exists h', add_slices new_id h i l = (Ok tt, h') /\ added h h' (slices_entries (hi_extra h) i l).
  Proof.
    induction l as [|s l IH]; intros h cont HD HP Hx HF.
    - exists h. split; [reflexivity|]. constructor; cbn; try reflexivity; try assumption; try lia; [constructor|congruence].
    - inversion HF as [|? ? [Hr [c [Hc Hw]]] HF']; subst.
      destruct (add_slice_ok h i s c cont HD HP Hx Hr Hc Hw) as [p' [E [Ho He]]].
      set (h1 := with_db h (Some p') (put_entry (hi_disk h) (hi_draws h) (entry_of (hi_extra h) i s c)) (S (hi_draws h))) in *.
      destruct (IH h1 (cont ++ [entry_of (hi_extra h) i s c])) as [h' [E' A]].
      + apply DInv_put; assumption.
      + exact Ho.
      + exact Hx.
      + exact HF'.
      + exists h'. destruct s as [ts data]. cbn [fst snd] in *. cbn [add_slices]. rewrite E. split; [exact E'|].
        cbn [slices_entries flat_map fst snd]. rewrite Hc. cbn [app]. fold (slices_entries (hi_extra h) i l).
        destruct A as [A1 A2 A3 A4 A5 A6 A7]. constructor; try assumption.
        * rewrite A2. cbn. lia.
        * constructor; assumption.
        * intros _. destruct (slices_entries (hi_extra h1) i l) eqn:El; [|apply A7; discriminate].
          destruct l as [|[ts' data'] l]; [cbn in E'; injection E' as <-; cbn; discriminate|].
          exfalso. cbn [slices_entries flat_map] in El. inversion HF' as [|? ? [_ [c' [Hc' _]]] _]; subst.
          cbn [snd] in *. rewrite Hc' in El. discriminate.
  Qed.
End Inv.
