(** C85, continued: histories of several writers, searches, random searches. *)
From Verif Require Import PyBase PyFacts PyMore Bits BitsProofs HammingDb HammingDbProofs Time Freq FreqDim Axis Persist PersistProofs Json JsonProofs IndexSearch IndexSearchProofs.
From Verif Require Index IndexProofs.
From Coq Require Import NArith String Sorting.Permutation Sorting.Sorted Lia.
Import ListNotations.

(** ** Specification: a history of an index shared by several processes *)
Inductive act :=
| Mine (d : doc)                                          (* this index adds a document *)
| Theirs (writeonly : bool) (extra : extras) (d : doc)    (* another index on the same path, opened for it, does *)
| Ask (q : feature) (n : nat) (threads : option nat) (sort : bool). (* a search, its results read *)

Definition added_by (extra : extras) (a : act) : list entry :=
  match a with
  | Mine d => entries_of extra d
  | Theirs _ ex d => entries_of ex d
  | Ask _ _ _ _ => []
  end.
Definition act_ok (cs : Z) (a : act) : Prop :=
  match a with
  | Mine d => doc_ok cs d
  | Theirs _ ex d => doc_ok cs d /\ extras_ok ex
  | Ask _ _ _ _ => True
  end.

Definition empty_db : db := {| db_codesize := None; db_entries := [] |}.

Section Acts.
  Variable new_id : nat -> HammingDb.id.
  Variable argp : list N -> nat -> list nat.
  Variable args : list N -> list nat.

  Definition do_act (h : hindex) (a : act) : hindex :=
    match a with
    | Mine d => snd (add new_id h d)
    | Theirs wo ex d =>
        let o := snd (add new_id (open_index (hi_disk h) wo ex (hi_draws h)) d) in
        with_db h (hi_proc h) (hi_disk o) (hi_draws o)
    | Ask q n t s =>
        match search_call h q n t s with
        | (Ok r, h) => snd (fst (iterate argp args h r))
        | (Raise _, h) => h
        end
    end.
  Definition run (h : hindex) (acts : list act) : hindex := fold_left do_act acts h.

  Hypothesis new_id_inj : forall i j, new_id i = new_id j -> i = j.
  Variable cs : Z.
  Hypothesis cs8 : (cs mod 8 = 0)%Z.
  Hypothesis cs_pos : (0 < cs)%Z.

  Notation DInv := (DInv new_id cs).
  Notation PI := (PI cs).

  Lemma open_index_ok d wo ex n cont : DInv d n cont ->
    PI (open_index d wo ex n) /\ hi_disk (open_index d wo ex n) = d /\
    hi_extra (open_index d wo ex n) = ex /\ hi_writeonly (open_index d wo ex n) = wo /\
    hi_draws (open_index d wo ex n) = n /\
    (db_codesize d = Some cs -> hi_proc (open_index d wo ex n) <> None).
  Proof.
    intros [Hdb [_ [_ Hc]]]. unfold open_index, open_db.
    destruct Hc as [[Hc _]|Hc]; rewrite Hc; cbn.
    - repeat split; discriminate.
    - split; [|repeat split; discriminate]. unfold IndexSearchProofs.PI. cbn [hi_proc with_db hi_writeonly hi_disk].
      apply start_open; assumption.
  Qed.

  Lemma doc_added d : forall h cont, DInv (hi_disk h) (hi_draws h) cont -> PI h -> extras_ok (hi_extra h) -> doc_ok cs d ->
    exists h', add new_id h d = (Ok tt, h') /\ added new_id cs h h' (entries_of (hi_extra h) d).
  Proof.
    intros h cont HD HP Hx Hd. unfold add. rewrite entries_of_slices.
    exact (add_slices_ok new_id new_id_inj argp args cs cs8 cs_pos (doc_id d) (doc_slices d) h cont HD HP Hx Hd).
  Qed.

  Lemma init_none h draws cont : DInv (hi_disk h) draws cont -> PI h ->
    (db_codesize (hi_disk h) = None -> init_hamming_db h None = Raise ValueError) /\
    (db_codesize (hi_disk h) = Some cs ->
     exists p, init_hamming_db h None = Ok (p, hi_disk h) /\ open_on cs (hi_writeonly h) p (hi_disk h)).
  Proof.
    intros [Hdb _] HP. unfold init_hamming_db, IndexSearchProofs.PI in *. destruct (hi_proc h) as [p|].
    - destruct HP as [H1 H2]. split; intros H; [congruence|]. exists p. split; [reflexivity|]. split; assumption.
    - unfold open_db. split; intros H; rewrite H; [reflexivity|].
      eexists. split; [reflexivity|]. apply start_open; assumption.
  Qed.

  Lemma search_open wo p d code n t s : open_on cs wo p d ->
    open_on cs wo (snd (search argp args p d code n t s)) d.
  Proof.
    intros [H1 [H2 [H3 H4]]]. destruct wo.
    - unfold search. rewrite H3. cbn [snd]. split; [exact H1|]. split; [exact H2|]. split; [exact H3|discriminate].
    - destruct (event_good argp args cs p d (Search code n t s) (snd (search argp args p d code n t s)) d (H4 eq_refl))
        as [G _]; [exact I|reflexivity|].
      pose proof G as [G1 [G2 [G3 _]]]. split; [exact G3|]. split; [exact G2|]. split; [exact G1|]. intros _. exact G.
  Qed.

  Record Inv (h : hindex) (cont : list entry) : Prop := {
    inv_disk : DInv (hi_disk h) (hi_draws h) cont;
    inv_proc : PI h;
    inv_extra : extras_ok (hi_extra h) }.

  Lemma act_inv h cont a : Inv h cont -> act_ok cs a ->
    Inv (do_act h a) (cont ++ added_by (hi_extra h) a) /\
    hi_extra (do_act h a) = hi_extra h /\ hi_writeonly (do_act h a) = hi_writeonly h.
  Proof.
    intros [HD HP Hx] Ha. destruct a as [d|wo ex d|q n t s]; cbn [do_act added_by act_ok] in *.
    - destruct (doc_added d h cont HD HP Hx Ha) as [h' [E [A1 A2 A3 A4 A5 A6 _]]]. rewrite E. cbn [snd].
      split; [|split; assumption]. constructor; [|exact A3|rewrite A5; exact Hx].
      rewrite A1, A2. apply DInv_puts; assumption.
    - destruct Ha as [Hd Hex]. destruct (open_index_ok (hi_disk h) wo ex (hi_draws h) cont HD) as [P1 [P2 [P3 [P4 [P5 _]]]]].
      set (o := open_index (hi_disk h) wo ex (hi_draws h)) in *.
      destruct (doc_added d o cont) as [h' [E [A1 A2 A3 A4 A5 A6 _]]].
      { rewrite P2, P5. exact HD. } { exact P1. } { rewrite P3. exact Hex. } { exact Hd. }
      rewrite E. cbn [snd]. split; [|split; reflexivity].
      assert (HD' : DInv (hi_disk h') (hi_draws h') (cont ++ entries_of ex d)).
      { rewrite A1, A2, P2, P3, P5. rewrite P3 in A6. apply DInv_puts; assumption. }
      rewrite P3 in A6.
      constructor; [exact HD'| |exact Hx].
      unfold IndexSearchProofs.PI in *. cbn [with_db hi_proc hi_writeonly hi_disk]. destruct (hi_proc h) as [p|]; [|exact I].
      destruct HP as [H1 [H2 [H3 H4]]].
      rewrite A1, P2, P3, P5. split; [apply puts_codesize; exact H1|]. split; [exact H2|]. split; [exact H3|]. intros Hw.
      apply (good_puts new_id new_id_inj argp args cs p _ _ _ cont); [apply H4; exact Hw|exact HD|exact A6].
    - rewrite app_nil_r. unfold search_call.
      destruct (init_none h _ _ HD HP) as [N1 N2].
      pose proof HD as [_ [_ [_ Hc]]].
      assert (K : (exists e, init_hamming_db h None = Raise e) \/
        exists p, init_hamming_db h None = Ok (p, hi_disk h) /\ open_on cs (hi_writeonly h) p (hi_disk h)).
      { destruct Hc as [[Hc _]|Hc]; [left; eauto|right; auto]. }
      destruct K as [[e E]|[p [E Ho]]]; rewrite E.
      + split; [constructor; assumption|split; reflexivity].
      + destruct (Index.encode_query q) as [code|e].
        * cbn [sr_results iterate]. unfold iterate. cbn [sr_results with_db hi_proc hi_disk].
          destruct (search argp args p (hi_disk h) code n t s) as [found p'] eqn:Es.
          assert (Ho' : open_on cs (hi_writeonly h) p' (hi_disk h)).
          { replace p' with (snd (search argp args p (hi_disk h) code n t s)) by (rewrite Es; reflexivity).
            apply search_open. exact Ho. }
          destruct found as [vs|e]; [destruct (yielded (map (parse_result (hi_extra h)) vs)) as [items ended] eqn:Ey|];
            cbn [fst snd hi_extra with_db hi_draws]; try rewrite Ey; cbn [fst snd]; (split; [|split; reflexivity]); constructor; assumption.
        * split; [|split; reflexivity]. constructor; assumption.
  Qed.

  Lemma run_inv acts : forall h cont, Inv h cont -> Forall (act_ok cs) acts ->
    Inv (run h acts) (cont ++ flat_map (added_by (hi_extra h)) acts) /\
    hi_extra (run h acts) = hi_extra h /\ hi_writeonly (run h acts) = hi_writeonly h.
  Proof.
    unfold run. induction acts as [|a acts IH]; intros h cont HI HF; cbn [fold_left flat_map].
    - rewrite app_nil_r. split; [exact HI|split; reflexivity].
    - inversion HF; subst. destruct (act_inv h cont a HI H1) as [I1 [I2 I3]].
      destruct (IH _ _ I1 H2) as [J1 [J2 J3]]. rewrite I2 in *. rewrite I3 in *.
      rewrite app_assoc. split; [exact J1|split; assumption].
  Qed.

  Lemma empty_inv wo ex : extras_ok ex -> Inv (open_index empty_db wo ex 0) [].
  Proof.
    intros Hx. assert (HD : DInv empty_db 0 []).
    { split; [split; constructor|]. split; [constructor|]. split; [|left; split; reflexivity].
      exists []. split; [reflexivity|]. split; [constructor|reflexivity]. }
    destruct (open_index_ok empty_db wo ex 0 [] HD) as [P1 [P2 [P3 [P4 [P5 _]]]]].
    constructor; [rewrite P2, P5; exact HD|exact P1|rewrite P3; exact Hx].
  Qed.
End Acts.

(** ** Searching *)
Lemma sublist_rest {A} (hits es : list A) : NoDup hits -> NoDup es -> incl hits es ->
  exists rest, Permutation es (hits ++ rest).
Proof.
  intros Hhn. revert es. induction Hhn as [|h l Hh Hl IH]; intros es Hnd Hi.
  - exists es. reflexivity.
  - assert (Hin : In h es) by (apply Hi; left; reflexivity).
    apply in_split in Hin. destruct Hin as [l1 [l2 ->]].
    assert (Hnd' : NoDup (l1 ++ l2)) by (apply NoDup_remove_1 in Hnd; exact Hnd).
    destruct (IH (l1 ++ l2) Hnd') as [rest Hr].
    { intros x Hx. specialize (Hi x (or_intror Hx)). apply in_app_iff in Hi. apply in_app_iff.
      destruct Hi as [Hi|[Hi|Hi]]; [left; exact Hi| |right; exact Hi]. subst; contradiction. }
    exists rest. rewrite <- Permutation_middle. simpl. constructor. exact Hr.
Qed.
Lemma nodup_app_disjoint {A} (a b : list A) x : NoDup (a ++ b) -> In x a -> ~ In x b.
Proof.
  induction a as [|y a IH]; [intros _ []|]. cbn. intros H. inversion H as [|? ? H1 H2]; subst. intros [->|Hx] Hb.
  - apply H1. apply in_or_app. right; exact Hb.
  - exact (IH H2 Hx Hb).
Qed.
Lemma perm_map_inv {A B} (f : A -> B) l l' : Permutation (map f l) l' -> exists k, l' = map f k /\ Permutation l k.
Proof.
  intros H. apply Permutation_sym, Permutation_map_inv in H. destruct H as [k [E P]]. exists k. split; [exact E|exact P].
Qed.

Section Search.
  Variable new_id : nat -> HammingDb.id.
  Hypothesis new_id_inj : forall i j, new_id i = new_id j -> i = j.
  Variable argp : list N -> nat -> list nat.
  Variable args : list N -> list nat.
  Hypothesis Hargp : argpartition_contract argp.
  Hypothesis Hargs : argsort_contract args.
  Variable cs : Z.
  Hypothesis cs8 : (cs mod 8 = 0)%Z.
  Hypothesis cs_pos : (0 < cs < 2 ^ 60)%Z.

  Definition nearest (code : bytes) (sort : bool) (n : nat) (contents hits rest : list entry) : Prop :=
    Permutation contents (hits ++ rest) /\ List.length hits = n /\
    (forall h o, In h hits -> In o rest -> bit_distance code (e_code h) <= bit_distance code (e_code o)) /\
    (sort = true -> StronglySorted le (map (fun h => bit_distance code (e_code h)) hits)).

  Lemma iterate_inv h cont p q code n threads sort :
    Inv new_id cs h cont -> hi_writeonly h = false -> hi_proc h = Some p -> well_formed_code cs code ->
    match threads with Some t => 1 <= t | None => True end ->
    let r := {| sr_query := q; sr_results := Pending code n threads sort |} in
    let '(items, ended, _, r') := iterate argp args h r in
    sr_results r' = Exhausted /\ sr_query r' = q /\
    (List.length cont <= n -> items = [] /\ ended = Some ValueError) /\
    (n < List.length cont ->
     exists hits rest, nearest code sort n cont hits rest /\
       (items, ended) = yielded (map (seen_by (hi_extra h)) hits)).
  Proof.
    intros [HD HP Hx] Hw Hp Hc Ht. cbv zeta. unfold iterate. cbn [sr_results sr_query]. rewrite Hp.
    unfold PI in HP. rewrite Hp, Hw in HP. destruct HP as [H1 [H2 [H3 H4]]]. specialize (H4 eq_refl).
    destruct HD as [Hdb [Hall [[kc [Hk1 [Hk2 Hk3]]] _]]].
    assert (Hlen : List.length (db_entries (hi_disk h)) = List.length cont).
    { rewrite (Permutation_length Hk3), map_length, <- Hk1, map_length. reflexivity. }
    pose proof (search_too_many argp args cs p (hi_disk h) code n threads sort H4 Hc Ht) as Tm.
    pose proof (search_main argp args Hargp Hargs cs p (hi_disk h) code n threads sort H4 ltac:(lia) cs8 Hc Ht) as Sm.
    destruct (search argp args p (hi_disk h) code n threads sort) as [found p'].
    cbn [fst] in Tm, Sm. rewrite Hlen in Tm, Sm.
    assert (HH : (List.length cont <= n -> found = Raise ValueError) /\
      (n < List.length cont -> exists hits rest, nearest code sort n cont hits rest /\
         found = Ok (map (fun e => dumps (payload e)) hits) /\ Forall (entry_ok cs) hits)).
    { split; [exact Tm|]. intros Hn. destruct (Sm Hn) as [hv [S1 [S2 [S3 [S4 [S5 S6]]]]]].
      assert (Hnd : NoDup (db_entries (hi_disk h))) by (eapply NoDup_map_inv; exact (proj1 Hdb)).
      destruct (sublist_rest hv (db_entries (hi_disk h)) (NoDup_map_inv _ _ S3) Hnd S4) as [rv Hr].
      assert (Hkr : Permutation (map (stored_under new_id) kc) (hv ++ rv)).
      { rewrite <- Hk3. exact Hr. }
      apply perm_map_inv in Hkr. destruct Hkr as [kk [Ek Pk]].
      symmetry in Ek. apply map_eq_app in Ek. destruct Ek as [k1 [k2 [-> [E1 E2]]]].
      assert (Pc : Permutation cont (map snd k1 ++ map snd k2)).
      { rewrite <- Hk1, <- map_app. apply Permutation_map. exact Pk. }
      assert (Hok : Forall (entry_ok cs) (map snd k1 ++ map snd k2)).
      { eapply Permutation_Forall; [exact Pc|exact Hall]. }
      apply Forall_app in Hok. destruct Hok as [Ok1 Ok2].
      assert (V : forall e, entry_ok cs e -> firstn (Z.to_nat cs) (value e) = e_code e /\
                    skipn (Z.to_nat cs) (value e) = dumps (payload e)).
      { intros e [_ [[Hl _] _]]. unfold value. unfold Zlen in Hl. split.
        - rewrite firstn_app. replace (Z.to_nat cs - List.length (e_code e)) with 0 by lia.
          rewrite firstn_all2 by lia. cbn. apply app_nil_r.
        - rewrite skipn_app. replace (Z.to_nat cs - List.length (e_code e)) with 0 by lia.
          rewrite skipn_all2 by lia. reflexivity. }
      rewrite Forall_map in Ok1, Ok2. rewrite Forall_forall in Ok1, Ok2.
      exists (map snd k1), (map snd k2). split; [split; [exact Pc|split; [|split]]|split].
      - rewrite map_length, <- S2, <- E1, map_length. reflexivity.
      - intros a b Ha Hb. apply in_map_iff in Ha. destruct Ha as [ka [<- Ha]].
        apply in_map_iff in Hb. destruct Hb as [kb [<- Hb]].
        specialize (S5 (stored_under new_id ka) (stored_under new_id kb)).
        cbn [stored_under snd] in S5.
        destruct (V (snd ka) (Ok1 _ Ha)) as [Va _]. destruct (V (snd kb) (Ok2 _ Hb)) as [Vb _].
        rewrite Va, Vb in S5. apply S5.
        + rewrite <- E1. apply in_map. exact Ha.
        + eapply Permutation_in; [apply Permutation_sym; exact Hr|]. apply in_or_app. right. rewrite <- E2. apply in_map. exact Hb.
        + assert (Hnn : NoDup (hv ++ rv)) by (eapply Permutation_NoDup; [exact Hr|exact Hnd]).
          intros Hin. apply (nodup_app_disjoint _ _ _ Hnn Hin). rewrite <- E2. apply in_map. exact Hb.
      - intros Hs. specialize (S6 Hs). rewrite <- E1, map_map in S6. rewrite map_map.
        rewrite (map_ext_in _ (fun k => bit_distance code (firstn (Z.to_nat cs) (snd (stored_under new_id k))))); [exact S6|].
        intros k Hk. cbn [stored_under snd]. destruct (V (snd k) (Ok1 _ Hk)) as [-> _]. reflexivity.
      - rewrite S1, <- E1, !map_map. f_equal. apply map_ext_in. intros k Hk. cbn [stored_under snd].
        apply V. apply Ok1. exact Hk.
      - rewrite Forall_map, Forall_forall. exact Ok1. }
    clear Tm Sm. destruct HH as [HA HB]. destruct found as [vs|e].
    - destruct (yielded (map (parse_result (hi_extra h)) vs)) as [items ended] eqn:Ey. cbn [sr_results sr_query].
      split; [reflexivity|]. split; [reflexivity|]. split; [intros Hn; specialize (HA Hn); discriminate|].
      intros Hn. destruct (HB Hn) as [hits [rest [Hnear [E Hok]]]]. exists hits, rest. split; [exact Hnear|].
      injection E as ->. rewrite <- Ey, map_map. f_equal. apply map_ext_in. intros e He.
      rewrite Forall_forall in Hok. eapply parse_payload. apply Hok. exact He.
    - cbn [sr_results sr_query]. split; [reflexivity|]. split; [reflexivity|]. split.
      + intros Hn. specialize (HA Hn). injection HA as ->. split; reflexivity.
      + intros Hn. destruct (HB Hn) as [? [? [_ [E _]]]]. discriminate.
  Qed.
End Search.
