(** C85, final theorems. *)
From Verif Require Import PyBase PyFacts PyMore Bits BitsProofs HammingDb HammingDbProofs Time Freq FreqDim Axis Persist PersistProofs Json JsonProofs IndexSearch IndexSearchProofs IndexSearchProofs2.
From Verif Require Index IndexProofs.
From Coq Require Import NArith String Sorting.Permutation Sorting.Sorted Lia.
Import ListNotations.

Definition fresh_ids (new_id : nat -> HammingDb.id) : Prop := forall i j, new_id i = new_id j -> i = j.
Definition code_size (cs : Z) : Prop := (cs mod 8 = 0 /\ 0 < cs < 2 ^ 60)%Z.
Definition threads_ok (t : option nat) : Prop := match t with Some t => 1 <= t | None => True end.
Definition contents (extra : extras) (acts : list act) : list entry := flat_map (added_by extra) acts.

Section Final.
  Variable new_id : nat -> HammingDb.id.
  Variable argp : list N -> nat -> list nat.
  Variable args : list N -> list nat.
  Variable cs : Z.

  Notation run := (run new_id argp args).
  Notation fresh_index extra := (open_index empty_db false extra 0).

  Lemma run_fresh extra acts : fresh_ids new_id -> code_size cs -> extras_ok extra -> Forall (act_ok cs) acts ->
    Inv new_id cs (run (fresh_index extra) acts) (contents extra acts) /\
    hi_extra (run (fresh_index extra) acts) = extra /\ hi_writeonly (run (fresh_index extra) acts) = false.
  Proof.
    intros Hi [C8 Cp] Hx HF.
    destruct (run_inv new_id argp args Hi cs C8 ltac:(lia) acts _ _ (empty_inv new_id cs false extra Hx) HF) as [A [B C]].
    split; [exact A|]. split; [exact B|exact C].
  Qed.

  Lemma call_ok h cont q code n threads sort : Inv new_id cs h cont -> cont <> [] ->
    Index.encode_query q = Ok code ->
    exists p, search_call h q n threads sort
      = (Ok {| sr_query := code; sr_results := Pending code n threads sort |}, with_db h (Some p) (hi_disk h) (hi_draws h))
      /\ open_on cs (hi_writeonly h) p (hi_disk h).
  Proof.
    intros [HD HP Hx] Hne Hq. destruct (init_none new_id cs h _ _ HD HP) as [_ N2].
    pose proof HD as [_ [_ [_ [[_ Hc]|Hc]]]]; [congruence|].
    destruct (N2 Hc) as [p [E Ho]]. exists p. unfold search_call. rewrite E, Hq. split; [reflexivity|exact Ho].
  Qed.
  Lemma call_inv h cont p : Inv new_id cs h cont -> open_on cs (hi_writeonly h) p (hi_disk h) ->
    Inv new_id cs (with_db h (Some p) (hi_disk h) (hi_draws h)) cont.
  Proof. intros [HD HP Hx] Ho. constructor; assumption. Qed.

  Lemma Inv_len h cont : Inv new_id cs h cont -> List.length (db_entries (hi_disk h)) = List.length cont.
  Proof.
    intros [[_ [_ [[kc [Hk1 [_ Hk3]]] _]]] _ _]. rewrite (Permutation_length Hk3), map_length, <- Hk1, map_length. reflexivity.
  Qed.

  (** an open database stays open *)
  Lemma add_slices_proc i l : forall h, hi_proc h <> None -> hi_proc (snd (add_slices new_id h i l)) <> None.
  Proof.
    induction l as [|[ts data] l IH]; intros h Hh; cbn [add_slices]; [exact Hh|].
    assert (G : hi_proc (snd (add_slice new_id h i ts data)) <> None).
    { unfold add_slice. destruct (Index.encode_query data); [|exact Hh].
      destruct (encoded_ts _ _ _); [|exact Hh]. destruct (init_hamming_db h (Some a)) as [[p d]|e]; [|exact Hh].
      destruct (HammingDb.append _ _ _ _ _ _) as [[r p'] d']. cbn. discriminate. }
    destruct (add_slice new_id h i ts data) as [[u|e] h']; cbn [snd] in G; [|exact G]. apply IH. exact G.
  Qed.
  Lemma run_proc acts : forall h, hi_proc h <> None -> hi_proc (run h acts) <> None.
  Proof.
    unfold IndexSearchProofs2.run. induction acts as [|a acts IH]; intros h Hh; cbn [fold_left]; [exact Hh|]. apply IH.
    destruct a as [d|wo ex d|q n t s]; cbn [do_act].
    - apply add_slices_proc. exact Hh.
    - exact Hh.
    - unfold search_call. destruct (init_hamming_db h None) as [[p d]|e]; [|exact Hh].
      destruct (Index.encode_query q); [|cbn; discriminate].
      unfold iterate. cbn [sr_results with_db hi_proc hi_disk hi_extra hi_draws].
      match goal with |- context [search ?a1 ?a2 ?a3 ?a4 ?a5 ?a6 ?a7 ?a8] => destruct (search a1 a2 a3 a4 a5 a6 a7 a8) as [[vs|e] p'] end; [|cbn; discriminate].
      cbn [hi_extra with_db]. destruct (yielded _). cbn. discriminate.
  Qed.

  (** The end-to-end property: search, and reading its results after more has
      happened, by this index or others. *)
  Theorem index_search extra before after q code n threads sort :
    fresh_ids new_id -> argpartition_contract argp -> argsort_contract args -> code_size cs ->
    extras_ok extra -> Forall (act_ok cs) before -> Forall (act_ok cs) after ->
    contents extra before <> [] ->
    Index.encode_query q = Ok code -> well_formed_code cs code -> threads_ok threads ->
    exists r h1,
      search_call (run (fresh_index extra) before) q n threads sort = (Ok r, h1) /\
      sr_query r = code /\
      index_len h1 = List.length (contents extra before) /\
      let '(items, ended, h2, r') := iterate argp args (run h1 after) r in
      let all := contents extra (before ++ after) in
      (List.length all <= n -> items = [] /\ ended = Some ValueError) /\
      (n < List.length all ->
         exists hits rest, nearest code sort n all hits rest /\
                           (items, ended) = yielded (map (seen_by extra) hits)) /\
      iterate argp args h2 r' = ([], None, h2, r').
  Proof.
    intros Hi Hp Hs Hcs Hx HB HA Hne Hq Hw Ht.
    destruct (run_fresh extra before Hi Hcs Hx HB) as [I1 [E1 W1]].
    set (h := run (fresh_index extra) before) in *.
    destruct (call_ok h _ q code n threads sort I1 Hne Hq) as [p [Ec Ho]].
    set (h1 := with_db h (Some p) (hi_disk h) (hi_draws h)) in *.
    exists {| sr_query := code; sr_results := Pending code n threads sort |}, h1.
    split; [exact Ec|]. split; [reflexivity|].
    pose proof (call_inv h _ p I1 Ho) as I2. fold h1 in I2.
    split; [exact (Inv_len _ _ I2)|].
    destruct Hcs as [C8 Cp].
    destruct (run_inv new_id argp args Hi cs C8 ltac:(lia) after h1 _ I2 HA) as [I3 [E3 W3]].
    assert (Eh1 : hi_extra h1 = extra) by exact E1. assert (Wh1 : hi_writeonly h1 = false) by exact W1.
    rewrite Eh1 in I3, E3. rewrite Wh1 in W3.
    assert (Ea : contents extra before ++ contents extra after = contents extra (before ++ after)).
    { unfold contents. rewrite flat_map_app. reflexivity. }
    change (flat_map (added_by extra) after) with (contents extra after) in I3. rewrite Ea in I3.
    pose proof (run_proc after h1 ltac:(cbn; discriminate)) as Pr.
    destruct (hi_proc (run h1 after)) as [p3|] eqn:Ep; [|congruence].
    pose proof (iterate_inv new_id argp args Hp Hs cs C8 Cp (run h1 after) _ p3 code code n threads sort I3 W3 Ep Hw Ht) as G.
    cbv zeta in G. rewrite E3 in G.
    destruct (iterate argp args (run h1 after) {| sr_query := code; sr_results := Pending code n threads sort |})
      as [[[items ended] h2] r'] eqn:Ei.
    destruct G as [G1 [G2 [G3 G4]]]. cbv zeta. split; [exact G3|]. split; [exact G4|].
    unfold iterate. destruct r' as [q' g']. cbn [sr_results sr_query] in *. rewrite G1. reflexivity.
  Qed.

  (** what a reader without extra data functions is given, and one whose writers
      all had some *)
  Lemma yielded_all {A B} (f : A -> B) l : yielded (map (fun a => Ok (f a)) l) = (map f l, None).
  Proof. induction l as [|a l IH]; cbn [map yielded]; [reflexivity|]. rewrite IH. reflexivity. Qed.
  Theorem plain_results hits : yielded (map (seen_by []) hits) = (map (fun e => (e_doc e, e_ts e, None)) hits, None).
  Proof. unfold seen_by. apply yielded_all. Qed.
  Theorem extra_results extra hits : extra <> [] -> Forall (fun e => e_extra e <> None) hits ->
    yielded (map (seen_by extra) hits) = (map (fun e => (e_doc e, e_ts e, e_extra e)) hits, None).
  Proof.
    intros Hx HF. destruct extra as [|x extra]; [congruence|].
    rewrite <- yielded_all. f_equal. apply map_ext_in. intros e He. rewrite Forall_forall in HF. specialize (HF e He).
    unfold seen_by. destruct (e_extra e); [reflexivity|congruence].
  Qed.
  (** a reader that expects extra data stops at the first result without any *)
  Theorem missing_extra extra a e b : extra <> [] -> Forall (fun e => e_extra e <> None) a -> e_extra e = None ->
    yielded (map (seen_by extra) (a ++ e :: b)) = (map (fun e => (e_doc e, e_ts e, e_extra e)) a, Some KeyError).
  Proof.
    intros Hx HF He. destruct extra as [|x extra]; [congruence|].
    induction HF as [|a0 a Ha HF IH]; cbn [app map yielded].
    - unfold seen_by. rewrite He. reflexivity.
    - rewrite IH. unfold seen_by. destruct (e_extra a0); [reflexivity|congruence].
  Qed.

  (** ** Building *)
  Lemma add_all_run docs : forall h cont, fresh_ids new_id -> code_size cs -> Inv new_id cs h cont -> Forall (doc_ok cs) docs ->
    add_all new_id h docs = (Ok tt, run h (map Mine docs)).
  Proof.
    intros h cont Hi Hc. revert h cont. unfold IndexSearchProofs2.run.
    induction docs as [|d docs IH]; intros h cont I1 HF; [reflexivity|]. inversion HF; subst. destruct Hc as [C8 Cp].
    destruct I1 as [HD HP Hx].
    destruct (doc_added new_id argp args Hi cs C8 ltac:(lia) d h cont HD HP Hx H1) as [h' [E A]].
    destruct (act_inv new_id argp args Hi cs C8 ltac:(lia) h cont (Mine d) (Build_Inv _ _ _ _ HD HP Hx) H1) as [I2 _].
    cbn [add_all map fold_left do_act]. rewrite E. cbn [snd]. cbn [do_act] in I2. rewrite E in I2. cbn [snd] in I2.
    exact (IH h' _ I2 H2).
  Qed.
  Theorem build_all extra docs : fresh_ids new_id -> code_size cs -> extras_ok extra -> Forall (doc_ok cs) docs ->
    exists h, add_all new_id (fresh_index extra) docs = (Ok tt, h) /\ h = run (fresh_index extra) (map Mine docs) /\
      index_len h = List.length (flat_map (entries_of extra) docs) /\
      flat_map (entries_of extra) docs = contents extra (map Mine docs) /\
      List.length (flat_map (entries_of extra) docs) = fold_right (fun d n => List.length (doc_slices d) + n) 0 docs.
  Proof.
    intros Hi Hc Hx HF. exists (run (fresh_index extra) (map Mine docs)).
    split; [apply (add_all_run docs _ _ Hi Hc (empty_inv new_id cs false extra Hx) HF)|]. split; [reflexivity|].
    assert (Ec : flat_map (entries_of extra) docs = contents extra (map Mine docs)).
    { unfold contents. clear. induction docs as [|d docs IH]; [reflexivity|]. cbn [flat_map map added_by]. rewrite IH. reflexivity. }
    assert (HA : Forall (act_ok cs) (map Mine docs)) by (rewrite Forall_map; exact HF).
    destruct (run_fresh extra (map Mine docs) Hi Hc Hx HA) as [I1 _].
    split; [|split; [exact Ec|]].
    - rewrite Ec, <- (Inv_len _ _ I1). unfold index_len.
      destruct (hi_proc (run (fresh_index extra) (map Mine docs))) eqn:Ep; [reflexivity|].
      (* no database yet: nothing was indexed *)
      destruct (contents extra (map Mine docs)) as [|e0 c0] eqn:E0.
      + rewrite (Inv_len _ _ I1). reflexivity.
      + exfalso. revert Ep.
        assert (G : forall docs h cont, Inv new_id cs h cont -> hi_extra h = extra -> Forall (doc_ok cs) docs ->
           contents extra (map Mine docs) <> [] -> hi_proc (run h (map Mine docs)) <> None).
        { clear -Hi Hc. induction docs as [|d docs IH]; intros h cont I1 Hx HF Hne; [cbn in Hne; congruence|].
          inversion HF; subst. destruct Hc as [C8 Cp]. pose proof I1 as [HD HP Hxx].
          destruct (doc_added new_id argp args Hi cs C8 ltac:(lia) d h cont HD HP Hxx H1) as [h' [E A]].
          destruct (act_inv new_id argp args Hi cs C8 ltac:(lia) h cont (Mine d) I1 H1) as [I2 [X2 _]].
          unfold IndexSearchProofs2.run. cbn [map fold_left]. fold (run (do_act new_id argp args h (Mine d)) (map Mine docs)).
          destruct (entries_of (hi_extra h) d) as [|e es] eqn:Ee.
          - apply (IH _ _ I2 X2 H2). unfold contents in *. cbn [map flat_map added_by] in Hne. rewrite Ee in Hne. exact Hne.
          - apply run_proc. cbn [do_act]. rewrite E. cbn [snd]. destruct A as [_ _ _ _ _ _ A7]. apply A7.
            discriminate. }
        apply (G docs _ _ (empty_inv new_id cs false extra Hx) eq_refl HF). rewrite E0. discriminate.
    - clear -HF. induction HF as [|d docs Hd HF IH]; [reflexivity|]. cbn [flat_map fold_right]. rewrite app_length, IH. f_equal.
      unfold entries_of. clear -Hd. unfold doc_ok in Hd. induction Hd as [|s l [_ [c [Hc _]]] Hl IH]; [reflexivity|].
      cbn [flat_map]. rewrite Hc. cbn [app List.length]. rewrite IH. reflexivity.
  Qed.

  (** ** Errors *)
  Theorem search_nothing_indexed extra q n threads sort fuel :
    search_call (fresh_index extra) q n threads sort = (Raise ValueError, fresh_index extra) /\
    random_search_call new_id fuel (fresh_index extra) n threads sort = Some (Raise ValueError, fresh_index extra) /\
    index_len (fresh_index extra) = 0.
  Proof. repeat split. Qed.

  Theorem first_code_unusable extra i ts data rest code : readable_ts ts -> Index.encode_query data = Ok code ->
    (Zlen code mod 8 <> 0 \/ code = [])%Z ->
    add new_id (fresh_index extra) {| doc_id := i; doc_slices := (ts, data) :: rest |}
      = (Raise ValueError, fresh_index extra).
  Proof.
    intros Hr Hc Hbad. unfold add. cbn [doc_id doc_slices add_slices]. unfold add_slice. rewrite Hc, (encoded_ts_ok _ _ _ Hr code).
    unfold init_hamming_db. cbn [hi_proc fresh_index open_index open_db db_codesize empty_db hi_disk hi_writeonly].
    destruct code as [|b code]; [reflexivity|]. destruct Hbad as [Hb|Hb]; [|discriminate].
    cbn [db_codesize empty_db]. destruct (Z.eqb_spec (Zlen (b :: code) mod 8) 0); [contradiction|reflexivity].
  Qed.

  (** a slice whose code has another size: ValueError, what was added before stays *)
  Lemma add_slices_app i a b h h' : add_slices new_id h i a = (Ok tt, h') ->
    add_slices new_id h i (a ++ b) = add_slices new_id h' i b.
  Proof.
    revert h. induction a as [|[ts data] a IH]; intros h H; cbn [add_slices app] in *; [injection H as <-; reflexivity|].
    destruct (add_slice new_id h i ts data) as [[u|e] h1]; [|discriminate]. apply IH. exact H.
  Qed.
  Theorem later_code_wrong_size extra acts i pre ts data code post :
    fresh_ids new_id -> code_size cs -> extras_ok extra -> Forall (act_ok cs) acts ->
    let h := run (fresh_index extra) acts in
    contents extra (acts ++ [Mine {| doc_id := i; doc_slices := pre |}]) <> [] -> Forall (slice_ok cs) pre ->
    readable_ts ts -> Index.encode_query data = Ok code -> Zlen code <> cs -> code <> [] ->
    let failed := add new_id h {| doc_id := i; doc_slices := pre ++ (ts, data) :: post |} in
    let stopped := add new_id h {| doc_id := i; doc_slices := pre |} in
    fst failed = Raise ValueError /\ hi_disk (snd failed) = hi_disk (snd stopped) /\ fst stopped = Ok tt.
  Proof.
    intros Hi [C8 Cp] Hx HA h Hne HF Hr Hc Hl Hn0 failed stopped.
    destruct (run_fresh extra acts Hi (conj C8 Cp) Hx HA) as [I1 [E1 W1]]. fold h in I1, E1, W1.
    pose proof I1 as [HD HP Hxx].
    destruct (doc_added new_id argp args Hi cs C8 ltac:(lia) {| doc_id := i; doc_slices := pre |} h _ HD HP Hxx HF) as [h' [E A]].
    unfold stopped, failed. rewrite E. cbn [fst snd]. unfold add in *. cbn [doc_id doc_slices] in *.
    rewrite (add_slices_app _ _ _ _ _ E). cbn [add_slices]. unfold add_slice. rewrite Hc, (encoded_ts_ok _ _ _ Hr code).
    destruct A as [A1 A2 A3 A4 A5 A6 A7].
    assert (HD' : DInv new_id cs (hi_disk h') (hi_draws h') (contents extra acts ++ entries_of (hi_extra h) {| doc_id := i; doc_slices := pre |})).
    { rewrite A1, A2. apply DInv_puts; [exact Hi|exact HD|exact A6]. }
    assert (Hcz : db_codesize (hi_disk h') = Some cs).
    { destruct HD' as [_ [_ [_ [[_ Hz]|Hz]]]]; [|exact Hz]. exfalso. apply Hne.
      unfold contents. rewrite flat_map_app. cbn [flat_map added_by]. rewrite app_nil_r, <- E1. rewrite E1. rewrite E1 in Hz. exact Hz. }
    unfold init_hamming_db, PI in *. destruct (hi_proc h') as [p|].
    - destruct A3 as [B1 [B2 _]]. unfold HammingDb.append, validate_code_size. rewrite B2.
      destruct (Z.eqb_spec (Zlen code) cs); [contradiction|]. cbn. repeat split.
    - destruct code as [|b code]; [congruence|]. unfold open_db. rewrite Hcz.
      assert (Hz : (Zlen (b :: code) =? 0)%Z = false) by (apply Z.eqb_neq; unfold Zlen; cbn; lia).
      rewrite Hz. destruct (Z.eqb_spec (Zlen (b :: code)) cs); [contradiction|]. cbn. repeat split.
  Qed.

  (** a query of the wrong size, or a write-only index: the call succeeds, reading
      the results raises *)
  Theorem wrong_query_size extra acts q code n threads sort : fresh_ids new_id -> code_size cs -> extras_ok extra ->
    Forall (act_ok cs) acts -> contents extra acts <> [] -> Index.encode_query q = Ok code -> Zlen code <> cs ->
    exists r h1, search_call (run (fresh_index extra) acts) q n threads sort = (Ok r, h1) /\
      exists h2 r', iterate argp args h1 r = ([], Some ValueError, h2, r').
  Proof.
    intros Hi Hcs Hx HA Hne Hq Hl. destruct (run_fresh extra acts Hi Hcs Hx HA) as [I1 [E1 W1]].
    destruct (call_ok _ _ q code n threads sort I1 Hne Hq) as [p [Ec Ho]]. rewrite W1 in Ho.
    eexists _, _. split; [exact Ec|]. unfold iterate. cbn [sr_results with_db hi_proc hi_disk].
    destruct Ho as [H1 [H2 [H3 _]]].
    unfold search. rewrite H3. unfold validate_code_size. rewrite H2. destruct (Z.eqb_spec (Zlen code) cs); [contradiction|].
    eexists _, _. reflexivity.
  Qed.
  Theorem bad_query extra acts n threads sort : fresh_ids new_id -> code_size cs -> extras_ok extra ->
    Forall (act_ok cs) acts ->
    fst (search_call (run (fresh_index extra) acts) Index.FOther n threads sort) = Raise ValueError.
  Proof.
    intros Hi Hcs Hx HA. destruct (run_fresh extra acts Hi Hcs Hx HA) as [[HD HP Hxx] _].
    destruct (init_none new_id cs _ _ _ HD HP) as [N1 N2]. unfold search_call.
    destruct HD as [_ [_ [_ [[Hc _]|Hc]]]]; [rewrite (N1 Hc); reflexivity|].
    destruct (N2 Hc) as [p [E _]]. rewrite E. reflexivity.
  Qed.
  Theorem writeonly_search d extra draws q code n threads sort r h1 :
    search_call (open_index d true extra draws) q n threads sort = (Ok r, h1) -> Index.encode_query q = Ok code ->
    exists h2 r', iterate argp args h1 r = ([], Some RuntimeError, h2, r').
  Proof.
    intros H Hq. unfold search_call in H. 
    assert (K : match init_hamming_db (open_index d true extra draws) None with Ok (p, _) => p_writeonly p = true | _ => True end).
    { unfold init_hamming_db, open_index. unfold open_db. destruct (db_codesize d) as [z|] eqn:E; cbn [hi_proc with_db].
      - exact (proj2 (catch_up_fields _ d)).
      - cbn [hi_disk]. rewrite E. exact I. }
    destruct (init_hamming_db (open_index d true extra draws) None) as [[p d']|e]; [|discriminate]. rewrite Hq in H.
    injection H as <- <-. unfold iterate. cbn [sr_results with_db hi_proc]. unfold search. rewrite K. eexists _, _. reflexivity.
  Qed.

  (** len() of an index opened before there was a database does not see what others
      add until something opens the database *)
  Theorem len_misses_others extra wo ex d : fresh_ids new_id -> code_size cs -> extras_ok ex -> doc_ok cs d ->
    let h := run (fresh_index extra) [Theirs wo ex d] in
    List.length (db_entries (hi_disk h)) = List.length (doc_slices d) /\ index_len h = 0.
  Proof.
    intros Hi [C8 Cp] Hx Hd h. split; [|reflexivity].
    assert (Hx0 : extras_ok ([] : extras)) by (intros k f []).
    assert (Eh : hi_disk h = hi_disk (run (fresh_index []) [Theirs wo ex d])) by reflexivity.
    rewrite Eh. destruct (run_fresh [] [Theirs wo ex d] Hi (conj C8 Cp) Hx0) as [I1 _].
    { repeat constructor; assumption. }
    rewrite (Inv_len _ _ I1). unfold contents. cbn [flat_map added_by]. rewrite app_nil_r.
    unfold entries_of. clear -Hd. unfold doc_ok in Hd. induction Hd as [|s l [_ [c [Hc _]]] Hl IH]; [reflexivity|].
    cbn [flat_map]. rewrite Hc. cbn [app List.length]. rewrite IH. reflexivity.
  Qed.

  (** ** Random search *)
  Lemma random_code_spec fuel p d : forall draws code m, random_code new_id fuel p d draws = Some (code, m) ->
    exists i kv, draws <= i /\ m = S i /\ In kv (db_entries d) /\ (new_id i <= fst kv)%N /\
      code = firstn (Z.to_nat (p_code_size p)) (snd kv).
  Proof.
    induction fuel as [|f IH]; intros draws code m H; cbn [random_code] in H; [discriminate|].
    match type of H with context [find ?g ?l] => destruct (find g l) as [kv|] eqn:E end.
    - injection H as <- <-. apply find_some in E. destruct E as [E1 E2]. apply N.leb_le in E2.
      exists draws, kv. repeat split; auto.
    - destruct (IH _ _ _ H) as [i [kv [H1 H2]]]. exists i, kv. split; [lia|exact H2].
  Qed.
  Theorem random_empty fuel p d draws : db_entries d = [] -> random_code new_id fuel p d draws = None.
  Proof. intros H. revert draws. induction fuel as [|f IH]; intros draws; cbn [random_code]; [reflexivity|]. rewrite H. cbn. apply IH. Qed.
  Theorem random_ends p d draws i kv : draws <= i -> In kv (db_entries d) -> (new_id i <= fst kv)%N ->
    random_code new_id (S (i - draws)) p d draws <> None.
  Proof.
    intros Hi Hin Hle. remember (i - draws) as k eqn:Ek. revert draws Hi Ek.
    induction k as [|k IH]; intros draws Hi Ek; cbn [random_code].
    - assert (draws = i) by lia. subst. match goal with |- context [find ?g ?l] => destruct (find g l) eqn:E end; [discriminate|].
      pose proof (find_none _ _ E kv Hin) as F. cbn in F. apply N.leb_gt in F. destruct (proj1 (N.lt_nge _ _) F Hle).
    - match goal with |- context [find ?g ?l] => destruct (find g l) end; [discriminate|]. apply IH; lia.
  Qed.

  Lemma bit_distance_self c : bit_distance c c = 0.
  Proof.
    induction c as [|x c IH]; [reflexivity|]. cbn [bit_distance]. rewrite IH.
    assert (B : byte_diff x x = 0); [|lia]. unfold byte_diff.
    rewrite (filter_ext _ (fun _ => false)) by (intros k; rewrite Bool.eqb_reflx; reflexivity).
    generalize (seq 0 8) as l. induction l; cbn; auto.
  Qed.

  Theorem random_search_spec extra acts fuel n threads sort r h1 :
    fresh_ids new_id -> argpartition_contract argp -> argsort_contract args -> code_size cs ->
    extras_ok extra -> Forall (act_ok cs) acts -> contents extra acts <> [] -> threads_ok threads ->
    random_search_call new_id fuel (run (fresh_index extra) acts) n threads sort = Some (Ok r, h1) ->
    let all := contents extra acts in
    exists chosen, In chosen all /\ sr_query r = e_code chosen /\
    let '(items, ended, _, _) := iterate argp args h1 r in
    (List.length all <= n -> items = [] /\ ended = Some ValueError) /\
    (n < List.length all -> exists hits rest, nearest (sr_query r) sort n all hits rest /\
         (items, ended) = yielded (map (seen_by extra) hits) /\
         (1 <= n -> exists e, In e hits /\ bit_distance (sr_query r) (e_code e) = 0 /\
                              (sort = true -> bit_distance (sr_query r) (e_code (hd e hits)) = 0))).
  Proof.
    intros Hi Hp Hs Hcs Hx HA Hne Ht H all.
    destruct (run_fresh extra acts Hi Hcs Hx HA) as [I1 [E1 W1]]. set (h := run (fresh_index extra) acts) in *.
    unfold random_search_call in H. pose proof I1 as [HD HP Hxx].
    destruct (init_none new_id cs h _ _ HD HP) as [_ N2].
    pose proof HD as [_ [_ [_ [[_ Hc]|Hc]]]]; [congruence|].
    destruct (N2 Hc) as [p [E Ho]]. rewrite E in H.
    destruct (random_code new_id fuel p (hi_disk h) (hi_draws h)) as [[code m]|] eqn:Er; [|discriminate].
    injection H as <- <-. destruct (random_code_spec _ _ _ _ _ _ Er) as [i [kv [Hi1 [Hm [Hin [_ Hcode]]]]]].
    destruct HD as [Hdb [Hall [[kc [Hk1 [Hk2 Hk3]]] Hcc]]].
    pose proof (Permutation_in _ Hk3 Hin) as Hin'. apply in_map_iff in Hin'. destruct Hin' as [ke [<- Hke]].
    assert (Hchosen : In (snd ke) (contents extra acts)) by (rewrite <- Hk1; apply in_map; exact Hke).
    rewrite Forall_forall in Hall. pose proof (Hall _ Hchosen) as [_ [Hwf _]].
    assert (Hce : code = e_code (snd ke)).
    { rewrite Hcode. destruct Ho as [_ [-> _]]. cbn [stored_under snd]. unfold value. destruct Hwf as [Hl _].
      unfold Zlen in Hl. rewrite firstn_app. replace (Z.to_nat cs - List.length (e_code (snd ke))) with 0 by lia.
      rewrite firstn_all2 by lia. cbn. apply app_nil_r. }
    exists (snd ke). split; [exact Hchosen|]. cbn [sr_query]. split; [exact Hce|].
    set (h1 := with_db h (Some p) (hi_disk h) m).
    assert (I2 : Inv new_id cs h1 (contents extra acts)).
    { constructor; [|exact Ho|exact Hxx]. cbn [h1 with_db hi_disk hi_draws].
      split; [exact Hdb|]. split; [rewrite Forall_forall; exact Hall|]. split; [|exact Hcc].
      exists kc. split; [exact Hk1|]. split; [|exact Hk3]. eapply Forall_impl; [|exact Hk2]. cbn. intros; lia. }
    rewrite <- Hce in Hwf. destruct Hcs as [C8 Cp].
    pose proof (iterate_inv new_id argp args Hp Hs cs C8 Cp h1 _ p code code n threads sort I2 W1 eq_refl Hwf Ht) as G.
    cbv zeta in G. destruct (iterate argp args h1 _) as [[[items ended] h2] r'].
    destruct G as [_ [_ [G3 G4]]]. split; [exact G3|]. intros Hn. destruct (G4 Hn) as [hits [rest [Nr Ey]]].
    assert (E1' : hi_extra h1 = extra) by exact E1. rewrite E1' in Ey.
    exists hits, rest. split; [exact Nr|]. split; [exact Ey|]. intros Hn1.
    destruct Nr as [Pr [Ln [Near Sorted]]].
    assert (Hd0 : forall e, e_code e = code -> bit_distance code (e_code e) = 0) by (intros e ->; apply bit_distance_self).
    assert (Hz : exists e, In e hits /\ bit_distance code (e_code e) = 0).
    { pose proof (Permutation_in _ Pr Hchosen) as Hch. apply in_app_or in Hch. destruct Hch as [Hch|Hch].
      - exists (snd ke). split; [exact Hch|]. apply Hd0. congruence.
      - destruct hits as [|e hits]; [cbn in Ln; lia|]. exists e. split; [left; reflexivity|].
        specialize (Near e (snd ke) (or_introl eq_refl) Hch). rewrite (Hd0 (snd ke)) in Near by congruence. lia. }
    destruct Hz as [e [He Hz]]. exists e. split; [exact He|]. split; [exact Hz|]. intros Hsort. specialize (Sorted Hsort).
    destruct hits as [|e1 hits]; [contradiction|]. cbn [hd]. cbn [map] in Sorted. apply StronglySorted_inv in Sorted. destruct Sorted as [_ Hle].
    destruct He as [->|He]; [exact Hz|]. rewrite Forall_forall in Hle.
    specialize (Hle _ (in_map (fun h => bit_distance code (e_code h)) _ _ He)). cbn beta in Hle. lia.
  Qed.
End Final.

(** ** Codes from the page's text *)
Lemma byte_of_unpacked v rest : (v < 256)%N -> Index.byte_of_bits (Index.unpack_byte v ++ rest) = v.
Proof.
  intros H. unfold Index.byte_of_bits. rewrite <- app_assoc.
  assert (L : forall t, firstn 8 (Index.unpack_byte v ++ t) = Index.unpack_byte v).
  { intros t. rewrite firstn_app. cbn [Index.unpack_byte map List.length]. cbn. reflexivity. }
  rewrite L.
  assert (F : forallb (fun n => (fold_left (fun acc (x : bool) => (2 * acc + (if x then 1 else 0))%N)
      (Index.unpack_byte (N.of_nat n)) 0%N =? N.of_nat n)%N) (seq 0 256) = true) by (vm_compute; reflexivity).
  rewrite forallb_forall in F. specialize (F (N.to_nat v)). rewrite N2Nat.id in F. apply N.eqb_eq. apply F.
  apply in_seq. lia.
Qed.
Lemma pack_unpack_aux bs : Forall (fun b => b < 256)%N bs -> forall fuel, List.length (Index.unpackbits bs) <= fuel ->
  Index.packbits_aux fuel (Index.unpackbits bs) = bs.
Proof.
  induction 1 as [|b bs Hb HF IH]; intros fuel Hf.
  - destruct fuel; reflexivity.
  - unfold Index.unpackbits in *. cbn [flat_map] in *. rewrite app_length in Hf. cbn [Index.unpack_byte map List.length] in Hf.
    destruct fuel as [|fuel]; [lia|]. cbn [Index.packbits_aux].
    change (flat_map Index.unpack_byte bs) with (Index.unpackbits bs).
    replace (match Index.unpack_byte b ++ Index.unpackbits bs with [] => [] | _ :: _ =>
      Index.byte_of_bits (Index.unpack_byte b ++ Index.unpackbits bs) :: Index.packbits_aux fuel (skipn 8 (Index.unpack_byte b ++ Index.unpackbits bs)) end)
      with (Index.byte_of_bits (Index.unpack_byte b ++ Index.unpackbits bs) :: Index.packbits_aux fuel (skipn 8 (Index.unpack_byte b ++ Index.unpackbits bs)))
      by reflexivity.
    rewrite byte_of_unpacked by exact Hb. f_equal. change (skipn 8 (Index.unpack_byte b ++ Index.unpackbits bs)) with (Index.unpackbits bs).
    apply IH. unfold Index.unpackbits. lia.
Qed.
Theorem query_code_roundtrip bs : Forall (fun b => b < 256)%N bs ->
  Index.encode_query (Index.FUint8 (map (fun b : bool => if b then 1%N else 0%N) (Index.decode_query bs))) = Ok bs.
Proof.
  intros H. unfold Index.encode_query, Index.packbits, Index.decode_query. f_equal.
  rewrite map_map, (map_ext _ (fun b : bool => b)) by (intros []; reflexivity). rewrite map_id, map_length.
  apply pack_unpack_aux; [exact H|lia].
Qed.

Theorem page_query argp args render h code n : Forall (fun b => b < 256)%N code ->
  search_page argp args render h (b64encode (map Z.of_N code)) n =
  match search_call h (Index.FBytes code) n None false with
  | (Raise e, h) => (Raise e, h)
  | (Ok r, h) => let '(results, ended, h, _) := iterate argp args h r in
                 (serialize_results render code results ended, h)
  end.
Proof.
  intros H. unfold search_page. rewrite b64_roundtrip.
  2:{ rewrite Forall_map. eapply Forall_impl; [|exact H]. unfold byte. cbn. intros; lia. }
  rewrite map_map, (map_ext _ (fun x => x)) by (intros; apply N2Z.id). rewrite map_id.
  unfold search_call. rewrite (query_code_roundtrip _ H). cbn [Index.encode_query].
  destruct (init_hamming_db h None) as [[p d]|e]; reflexivity.
Qed.

(** the page can never be served *)
Theorem page_never_served argp args render h query n : exists e, fst (search_page argp args render h query n) = Raise e.
Proof.
  unfold search_page. destruct (b64decode query) as [bs|e]; [|eexists; reflexivity].
  destruct (search_call h _ n None false) as [[r|e] h1]; [|eexists; reflexivity].
  destruct (iterate argp args h1 r) as [[[items ended] h2] r']. cbn [fst]. unfold serialize_results.
  destruct (mapM unpack_pair items); [|eexists; reflexivity]. cbn [bind]. destruct ended; [eexists; reflexivity|]. eexists; reflexivity.
Qed.
Theorem page_plain_results render query results :
  serialize_results render query (map (fun p => (fst p, snd p, None)) results) None = Raise TypeError.
Proof.
  unfold serialize_results.
  replace (mapM unpack_pair (map (fun p : string * timeslice => (fst p, snd p, None)) results)) with (@Ok (list (string * timeslice)) results).
  - reflexivity.
  - symmetry. induction results as [|[i t] l IH]; [reflexivity|]. cbn [map mapM unpack_pair fst snd bind]. rewrite IH. reflexivity.
Qed.

Theorem page_extra_results render query i ts x rest ended :
  serialize_results render query ((i, ts, Some x) :: rest) ended = Raise ValueError.
Proof. reflexivity. Qed.

(** ** Slices of constant-rate features *)
Theorem constant_rate_nth freq dur rows i : i < List.length rows ->
  exists row ts, nth_error rows i = Some row /\
    nth_error (constant_rate_slices freq dur rows) i = Some (ts, row) /\
    ts_duration ts = Some dur /\ (ps (ts_start ts) = Z.of_nat i * ps freq)%Z.
Proof.
  intros H. unfold constant_rate_slices. destruct (nth_error rows i) as [row|] eqn:E; [|apply nth_error_None in E; lia].
  exists row, (mk_timeslice (Some dur) (Some {| td_count := td_count freq * Z.of_nat i; td_unit := td_unit freq |})).
  split; [reflexivity|]. split; [|split; [reflexivity|]].
  - rewrite nth_error_map.
    assert (C : nth_error (combine (seq 0 (List.length rows)) rows) i = Some (i, row)).
    { clear -E. assert (G : forall l k, nth_error l i = Some row -> nth_error (combine (seq k (List.length l)) l) i = Some (k + i, row)).
      { clear. induction i as [|i IH]; intros l k E; destruct l as [|x l]; try discriminate; cbn in *.
        - injection E as ->. rewrite Nat.add_0_r. reflexivity.
        - rewrite (IH l (S k) E). do 2 f_equal. lia. }
      exact (G rows 0 E). }
    rewrite C. reflexivity.
  - cbn [mk_timeslice ts_start fst snd]. unfold mk_timeslice. cbn [ts_start td_count].
    destruct (Z.eqb_spec (td_count freq * Z.of_nat i) 0) as [Hz|Hz]; unfold ps, picoseconds; cbn [td_count td_unit]; [|ring].
    replace (Z.of_nat i * (td_count freq * unit_ps (td_unit freq)))%Z with (td_count freq * Z.of_nat i * unit_ps (td_unit freq))%Z by ring.
    rewrite Hz. reflexivity.
Qed.
Theorem constant_rate_ok cs i freq dur rows : nonneg_td dur -> (0 <= td_count freq)%Z ->
  (td_count freq * Zlen rows < 2 ^ 63)%Z ->
  Forall (fun row => exists code, Index.encode_query row = Ok code /\ well_formed_code cs code) rows ->
  doc_ok cs {| doc_id := i; doc_slices := constant_rate_slices freq dur rows |}.
Proof.
  intros Hd Hf Hb HF. unfold doc_ok. cbn [doc_slices]. apply Forall_forall. intros s Hs.
  unfold constant_rate_slices in Hs. apply in_map_iff in Hs. destruct Hs as [[k row] [<- Hin]]. cbn [fst snd].
  pose proof (in_combine_l _ _ _ _ Hin) as Hk. pose proof (in_combine_r _ _ _ _ Hin) as Hr.
  apply in_seq in Hk. rewrite Forall_forall in HF. split; [|apply HF; exact Hr]. cbn [fst].
  eexists dur, _. split; [reflexivity|]. split; [exact Hd|]. intros s' E. injection E as <-.
  unfold nonneg_td. cbn [td_count]. unfold Zlen in Hb. nia.
Qed.

(** ** A concrete index: two documents, codes of eight bytes, one reader with extra
    data *)
Definition ex_ids (n : nat) : HammingDb.id := N.of_nat (2 * n).
Definition ex_ms (n : Z) : td := {| td_count := n; td_unit := Ms |}.
Definition ex_row (b : N) : feature := Index.FUint64 [b].
Definition ex_docs : list doc :=
  [{| doc_id := "a/1"; doc_slices := constant_rate_slices (ex_ms 500) (ex_ms 1000) [ex_row 1; ex_row 255; ex_row 7] |};
   {| doc_id := "b"; doc_slices := constant_rate_slices (ex_ms 250) (ex_ms 250) [ex_row 3; ex_row 65535] |}]%string.
Definition ex_extra : extras := [("title", fun i _ => JStr i)]%string.
Example ex_ready : fresh_ids ex_ids /\ code_size 8 /\ extras_ok ex_extra /\ Forall (doc_ok 8) ex_docs.
Proof.
  split; [intros i j; unfold ex_ids; lia|]. split; [split; [reflexivity|split; reflexivity]|].
  split; [intros k f [E|[]] i ts; injection E as <- <-; reflexivity|].
  assert (S : forall d s b, (0 <= td_count d < 2 ^ 63)%Z -> (0 <= td_count s < 2 ^ 63)%Z -> (b < 2 ^ 16)%N ->
     slice_ok 8 (mk_timeslice (Some d) (Some s), ex_row b)).
  { intros d s b Hd Hs Hb. split.
    - exists d, (Some s). split; [reflexivity|]. split; [exact Hd|]. intros s' E. injection E as <-. exact Hs.
    - eexists. split; [reflexivity|]. split; [reflexivity|]. cbn [flat_map app Index.le_bytes].
      repeat (constructor; [apply N.mod_lt; discriminate|]). constructor. }
  repeat (apply Forall_cons; [repeat (apply Forall_cons; [apply S; vm_compute; split; congruence|]); apply Forall_nil|]).
  apply Forall_nil.
Qed.
Example ex_search :
  let h := snd (add_all ex_ids (open_index empty_db false ex_extra 0) ex_docs) in
  index_len h = 5 /\
  match search_call h (ex_row 255) 3 None true with
  | (Ok r, h1) => fst (fst (iterate (fun a _ => ref_argsort a) ref_argsort h1 r))
  | _ => ([], None)
  end = ([("a/1", mk_timeslice (Some (ex_ms 1000)) (Some (ex_ms 500)), Some (JObj [("title", JStr "a/1")]));
          ("a/1", mk_timeslice (Some (ex_ms 1000)) (Some (ex_ms 1000)), Some (JObj [("title", JStr "a/1")]));
          ("b", mk_timeslice (Some (ex_ms 250)) (Some (ex_ms 0)), Some (JObj [("title", JStr "b")]))]%string, None).
Proof. vm_compute. split; reflexivity. Qed.
