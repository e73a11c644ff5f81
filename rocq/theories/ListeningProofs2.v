(** Proofs about a HammingDb used by several threads: the invariant of every schedule, and what a
    lock around the shared buffer would give. *)
From Coq Require Import ZArith NArith Lia Permutation.
From Verif Require Import PyBase PyFacts PyMore HammingDb Listening ListeningProofs.

Section ListeningFacts.
  Context {code data : Type} (dist : code -> code -> N) (select : list N -> nat -> result (list nat)) (junk : id * code).
  Notation entry := (entry code data).
  Notation state := (state code data).
  Notation pc := (pc code data).
  Notation label := (label code data).
  Notation step := (step dist select junk).
  Notation run := (run dist select junk).
  Notation advance := (advance dist select junk).
  Notation locked_step := (locked_step dist select junk).
  Notation locked_run := (locked_run dist select junk).
  Notation opened := (opened (data := data) junk).
  Definition in_range : Prop := forall sc n idx, select sc n = Ok idx -> forall j, In j idx -> (j < length sc)%nat.
  (** the entries appended and the codes searched for in a history *)
  Definition appends (tr : list label) : list entry := flat_map appended tr.
  Definition queries (tr : list label) : list code := flat_map asked tr.
  Definition on_disk (e : entry) : id * code := (fst e, fst (snd e)).

  Lemma opened_inv (ok : code -> code -> Prop) Q d b : (forall c, ok c c) -> NoDup (map fst d) -> Inv select ok Q (opened d b).
  Proof.
    intros R N. split; [|intros i; exact Logic.I]. assert (A : all (opened d b) = d) by apply app_nil_r. split; [intros i j []|]. rewrite A. split; [exact N|]. cbn [opened Listening.opened cells disk ids]. rewrite !map_length. split; [|split; [split; apply le_n|split; apply incl_refl]].
    rewrite firstn_all. clear -R. induction d as [|e d IH]; constructor; [split; [reflexivity|apply R]|exact IH].
  Qed.
  Lemma run_inv d b (Q : code -> Prop) tr s : in_range -> NoDup (map fst d) -> run (opened d b) tr s -> alone tr -> (forall q, In q (queries tr) -> Q q) ->
    Inv select (fun c c' => c' = c \/ Q c') Q s /\ all s = (d ++ appends tr)%list.
  Proof.
    intros Hsel N R. remember (opened d b) as s0 eqn:E0. induction R as [s0|s0 tr s1 l s2 R IH St]; intros Ha Hq.
    - subst s0. split; [apply opened_inv; [auto|exact N]|]. unfold appends. cbn [flat_map]. unfold all. reflexivity.
    - destruct IH as [I A]; [exact E0|intros e He; apply (Ha e), in_or_app; left; exact He|intros q Hin; apply Hq; unfold queries; rewrite flat_map_app; apply in_or_app; left; exact Hin|].
      destruct (inv_step dist select junk Hsel (fun c c' => c' = c \/ Q c') Q (fun c => or_introl eq_refl) s1 l s2 I St) as [I2 A2].
      + intros e ->. apply (Ha e), in_or_app. right. left. reflexivity.
      + intros q Hin. apply Hq. unfold queries. rewrite flat_map_app. apply in_or_app. right. cbn [flat_map]. rewrite app_nil_r. exact Hin.
      + intros _ i q n l' _ Ei j k c t _. right. destruct I as [_ H]. specialize (H i). rewrite Ei in H. apply H.
      + split; [exact I2|]. rewrite A2, A. unfold appends. rewrite flat_map_app. cbn [flat_map]. rewrite app_nil_r, <- app_assoc. reflexivity.
  Qed.
  (** the disk never loses or changes an entry, whatever the threads do *)
  Theorem disk_always d b tr s : in_range -> NoDup (map fst d) -> run (opened d b) tr s -> alone tr ->
    (disk s ++ match pending s with Some e => [e] | None => [] end)%list = (d ++ appends tr)%list.
  Proof. intros Hs N R Ha. apply (run_inv d b (fun q => In q (queries tr)) tr s Hs N R Ha). auto. Qed.
  (** in memory every entry is there once, in the order of the appends; an entry may be there
      before it is on disk, never the other way round; its code is the right one or one that
      somebody searched for *)
  Theorem memory_always d b tr s : in_range -> NoDup (map fst d) -> run (opened d b) tr s -> alone tr ->
    (length (disk s) <= length (cells s) <= length (d ++ appends tr))%nat /\
    Forall2 (fun e x => fst x = fst e /\ (snd x = fst (snd e) \/ In (snd x) (queries tr))) (firstn (length (cells s)) (d ++ appends tr)) (cells s) /\
    (forall k, In k (map fst (disk s)) -> In k (ids s)) /\ (forall k, In k (ids s) -> In k (map fst (d ++ appends tr))) /\ NoDup (map fst (d ++ appends tr)).
  Proof.
    intros Hs N R Ha. destruct (run_inv d b (fun q => In q (queries tr)) tr s Hs N R Ha) as [[(g1 & g2 & g3 & g4 & g5 & g6) _] A]; [auto|]. rewrite A in *. split; [exact g4|]. split; [exact g3|]. split; [exact g5|]. split; [exact g6|exact g2].
  Qed.
  (** an answer consists of data of entries; the only exception, apart from those of argpartition,
      is a TypeError *)
  Theorem answers_always d b tr s i q n l r : in_range -> NoDup (map fst d) -> run (opened d b) tr s -> alone tr -> threads s i = Answered q n l r ->
    In q (queries tr) /\ ((exists ds, r = Ok ds /\ incl ds (map (fun e => snd (snd e)) (d ++ appends tr))) \/ r = Raise TypeError \/ (exists sc e, select sc n = Raise e /\ r = Raise e)).
  Proof.
    intros Hs N R Ha Ei. destruct (run_inv d b (fun q => In q (queries tr)) tr s Hs N R Ha) as [[_ H] A]; [auto|]. specialize (H i). rewrite Ei in H. cbn [T] in H. unfold answer_ok in H. rewrite A in H. tauto.
  Qed.
  (** no thread is ever stuck *)
  Theorem never_stuck d b tr s i : in_range -> NoDup (map fst d) -> run (opened d b) tr s -> alone tr -> threads s i <> Idle -> exists s', step s Other s' /\ advance s i = Some s'.
  Proof.
    intros Hs N R Ha Ei. destruct (run_inv d b (fun q => In q (queries tr)) tr s Hs N R Ha) as [[g H] A]; [auto|]. specialize (H i).
    assert (E : exists s', advance s i = Some s').
    { unfold Listening.advance. destruct (threads s i) as [|[] k c t| |q n|q n l|q n l [|]|q n l|q n l|q n l [|] sc|q n l sc|q n l ks|q n l r]; try (eexists; reflexivity); [contradiction|].
      cbn [T] in H. destruct H as [H1 _]. destruct g as (_ & _ & _ & g4 & _). unfold all in g4. destruct (pending s); [eexists; reflexivity|]. rewrite app_nil_r in g4. lia. }
    destruct E as [s' E]. exists s'. split; [eapply go_on; exact E|exact E].
  Qed.
  (** memory is only ever added to: what is wrong there stays *)
  Theorem memory_grows (s : state) tr s' : run s tr s' -> exists more, cells s' = (cells s ++ more)%list.
  Proof.
    induction 1 as [s|s tr s1 l s2 R [more E] St]; [exists []; symmetry; apply app_nil_r|]. assert (S : exists m, cells s2 = (cells s1 ++ m)%list).
    { destruct St as [s1 i k c d _ _ _|s1 i q n _|s1 i s2 A|s1 e _ _]; try (exists []; rewrite app_nil_r; reflexivity). unfold Listening.advance in A.
      destruct (threads s1 i) as [|[] k c t| |q n|q n l|q n l [|]|q n l|q n l|q n l [|] sc|q n l sc|q n l ks|q n l r]; try discriminate; try (injection A as <-; exists []; rewrite app_nil_r; reflexivity).
      - injection A as <-. exists [slot s1]. reflexivity.
      - destruct (pending s1); [|discriminate]. injection A as <-. exists []. rewrite app_nil_r. reflexivity. }
    destruct S as [m Em]. exists (more ++ m)%list. rewrite Em, E, app_assoc. reflexivity.
  Qed.

  (** ** with a lock *)
  Definition scores (q : code) (es : list entry) : list N := map (fun e => dist q (fst (snd e))) es.
  Definition outcome (al : list entry) (q : code) (n l : nat) (r : result (list data)) : Prop :=
    exists m, (l <= m <= length al)%nat /\
      ((exists e, select (scores q (firstn m al)) n = Raise e /\ r = Raise e) \/
       (exists idx, select (scores q (firstn m al)) n = Ok idx /\
          ((exists es, Forall2 (fun j e => nth_error al j = Some e) idx es /\ r = Ok (map (fun e => snd (snd e)) es)) \/
           (r = Raise TypeError /\ In (m - 1)%nat idx /\ (l < m)%nat)))).
  Definition LT (s : state) (p : pc) : Prop :=
    match p with
    | Viewing q n l => buf s = q
    | Scoring q n l view sc => buf s = q /\ exists m, (l <= m <= length (cells s))%nat /\ (sc ++ map (dist q) view)%list = scores q (firstn m (all s))
    | Choosing q n l sc => exists m, (l <= m <= length (cells s))%nat /\ sc = scores q (firstn m (all s))
    | Fetching q n l ks => exists m idx, (l <= m <= length (cells s))%nat /\ select (scores q (firstn m (all s))) n = Ok idx /\ Forall2 (fun j k => exists e, nth_error (all s) j = Some e /\ fst e = k) idx ks
    | Answered q n l r => outcome (all s) q n l r
    | _ => True
    end.
  Definition LInv (s : state) : Prop :=
    Inv select (fun c c' => c' = c) (fun _ => True) s /\ (forall i j, holding (threads s i) -> holding (threads s j) -> i = j) /\ forall i, LT s (threads s i).

  Lemma nth_error_more {A} (l m : list A) j x : nth_error l j = Some x -> nth_error (l ++ m) j = Some x.
  Proof. intros H. rewrite nth_error_app1; [exact H|]. apply nth_error_Some. congruence. Qed.
  Lemma firstn_more {A} m (l x : list A) : (m <= length l)%nat -> firstn m (l ++ x) = firstn m l.
  Proof. intros H. rewrite firstn_app. replace (m - length l)%nat with 0%nat by lia. cbn [firstn]. apply app_nil_r. Qed.
  Lemma Forall2_imp {A B} (P P' : A -> B -> Prop) l m : (forall a b, P a b -> P' a b) -> Forall2 P l m -> Forall2 P' l m.
  Proof. intros H. induction 1; constructor; auto. Qed.
  Lemma LT_mono s s' p ext : LT s p -> (holding p -> buf s' = buf s) -> (length (cells s) <= length (cells s'))%nat -> (length (cells s) <= length (all s))%nat -> all s' = (all s ++ ext)%list -> LT s' p.
  Proof.
    intros H Hb Hc Hle Ha. destruct p as [|a k c t| |q n|q n l|q n l todo|q n l|q n l|q n l view sc|q n l sc|q n l ks|q n l r]; cbn [LT holding] in *; try exact H.
    - rewrite Hb by exact Logic.I. exact H.
    - rewrite Hb by exact Logic.I. destruct H as (E & m & Hm & E2). split; [exact E|]. exists m. split; [lia|]. rewrite Ha, firstn_more by lia. exact E2.
    - destruct H as (m & Hm & E2). exists m. split; [lia|]. rewrite Ha, firstn_more by lia. exact E2.
    - destruct H as (m & idx & Hm & E2 & F). exists m, idx. split; [lia|]. rewrite Ha, firstn_more by lia. split; [exact E2|]. revert F. apply Forall2_imp. intros j k (e & He & Ek). exists e. split; [apply nth_error_more; exact He|exact Ek].
    - destruct H as (m & Hm & H). exists m. rewrite Ha, app_length, firstn_more by lia. split; [lia|]. destruct H as [H|(idx & E2 & H)]; [left; exact H|right]. exists idx. split; [exact E2|]. destruct H as [(es & F & E3)|H]; [left|right; exact H]. exists es. split; [|exact E3]. revert F. apply Forall2_imp. intros j e. apply nth_error_more.
  Qed.
  Lemma linv_set s s' i p ext : LInv s -> Inv select (fun c c' => c' = c) (fun _ => True) s' -> threads s' = setpc (threads s) i p -> LT s' p ->
    (holding p -> holding (threads s i) \/ forall j, ~ holding (threads s j)) ->
    ((buf s' = buf s) \/ forall j, ~ holding (threads s j)) -> (length (cells s) <= length (cells s'))%nat -> all s' = (all s ++ ext)%list -> LInv s'.
  Proof.
    intros (I & X & H) I' Et Hp Hh Hb Hc Ha. split; [exact I'|]. rewrite Et. split.
    - intros a b. destruct (Nat.eqb_spec a i) as [->|Na]; destruct (Nat.eqb_spec b i) as [->|Nb]; rewrite ?setpc_same, ?(setpc_other _ _ _ a), ?(setpc_other _ _ _ b) by assumption; intros H1 H2; auto.
      + destruct (Hh H1) as [H3|H3]; [auto|exfalso; exact (H3 _ H2)].
      + destruct (Hh H2) as [H3|H3]; [auto|exfalso; exact (H3 _ H1)].
    - intros j. destruct (Nat.eqb_spec j i) as [->|Nj]; [rewrite setpc_same; exact Hp|]. rewrite setpc_other by exact Nj. destruct I as [(g1 & g2 & g3 & g4 & _) _]. apply (LT_mono s s' _ ext); [apply H| |exact Hc|apply g4|exact Ha].
      intros Hj. destruct Hb as [Hb|Hb]; [exact Hb|exfalso; exact (Hb _ Hj)].
  Qed.
  Lemma cells_exact s : Inv select (fun c c' => c' = c) (fun _ => True) s -> cells s = map on_disk (firstn (length (cells s)) (all s)).
  Proof.
    intros [(_ & _ & F & _) _]. revert F. generalize (firstn (length (cells s)) (all s)) (cells s). intros l cs F. induction F as [|e x l1 l2 [A B] F IH]; cbn [map]; [reflexivity|]. unfold on_disk at 1. rewrite <- IH, <- A. destruct x as [k c]. cbn [fst snd] in *. rewrite B. reflexivity.
  Qed.
  Lemma find_entry (d : list entry) : NoDup (map fst d) -> forall j e, nth_error d j = Some e -> find (fun x => N.eqb (fst x) (fst e)) d = Some e.
  Proof.
    induction d as [|x d IH]; intros N j e H; [destruct j; discriminate|]. cbn [map] in N. inversion N as [|? ? N1 N2]; subst. cbn [find]. destruct j as [|j]; cbn [nth_error] in H.
    - injection H as ->. rewrite N.eqb_refl. reflexivity.
    - match goal with |- context [if ?b then _ else _] => destruct b eqn:B end; [|apply (IH N2 j e H)]. apply N.eqb_eq in B. exfalso. apply N1. replace (fst x) with (fst e) by (symmetry; exact B). apply in_map. apply nth_error_In with (n := j). exact H.
  Qed.
  Lemma find_missing (d : list entry) k : ~ In k (map fst d) -> find (fun x => N.eqb (fst x) k) d = None.
  Proof. induction d as [|x d IH]; intros H; [reflexivity|]. cbn [find map] in *. match goal with |- context [if ?b then _ else _] => destruct b eqn:B end; [exfalso; apply H; left; apply N.eqb_eq; exact B|]. apply IH. intros Hin. apply H. right. exact Hin. Qed.
  Lemma nodup_left {A} (l m : list A) : NoDup (l ++ m) -> NoDup l.
  Proof. induction l as [|a l IH]; intros H; [constructor|]. cbn [List.app] in H. inversion H as [|? ? H1 H2]; subst. constructor; [intros Hin; apply H1, in_or_app; left; exact Hin|auto]. Qed.
  Lemma nodup_apart {A} (l m : list A) x : NoDup (l ++ m) -> In x l -> In x m -> False.
  Proof. induction l as [|a l IH]; intros H Hl Hm; [exact Hl|]. cbn [List.app] in H. inversion H as [|? ? H1 H2]; subst. destruct Hl as [->|Hl]; [apply H1, in_or_app; right; exact Hm|auto]. Qed.
  (** looking up the ids of entries of which all but the newest are on disk *)
  Lemma lookups (d x : list entry) idx ks : NoDup (map fst (d ++ x)) -> Forall2 (fun j k => exists e, nth_error (d ++ x) j = Some e /\ fst e = k) idx ks ->
    (exists es, Forall2 (fun j e => nth_error (d ++ x) j = Some e) idx es /\ mapM (lookup_data d) ks = Ok (map (fun e => snd (snd e)) es)) \/
    (mapM (lookup_data d) ks = Raise TypeError /\ exists j, In j idx /\ (length d <= j)%nat).
  Proof.
    intros N F. induction F as [|j k idx ks (e & He & Ek) F IH]; cbn [mapM]; [left; exists []; split; [constructor|reflexivity]|]. subst k.
    destruct (Nat.lt_ge_cases j (length d)) as [Hj|Hj].
    - rewrite nth_error_app1 in He by exact Hj. assert (El : lookup_data d (fst e) = Ok (snd (snd e))). { unfold lookup_data. rewrite (find_entry d) with (j := j) (e := e); [reflexivity| |exact He]. rewrite map_app in N. apply nodup_left in N. exact N. }
      rewrite El. cbn [bind]. destruct IH as [(es & F2 & ->)|(-> & j' & Hin & Hj')]; cbn [bind].
      + left. exists (e :: es). split; [constructor; [apply nth_error_more; exact He|exact F2]|reflexivity].
      + right. split; [reflexivity|]. exists j'. split; [right; exact Hin|exact Hj'].
    - right. assert (El : lookup_data d (fst e) = Raise TypeError).
      { unfold lookup_data. rewrite find_missing; [reflexivity|]. intros Hin. rewrite map_app in N. rewrite nth_error_app2 in He by exact Hj. apply nth_error_In in He. apply (in_map fst) in He. exact (nodup_apart _ _ _ N Hin He). }
      rewrite El. cbn [bind]. split; [reflexivity|]. exists j. split; [left; reflexivity|exact Hj].
  Qed.
  Lemma linv_step s l s' : in_range -> LInv s -> locked_step s l s' -> LInv s' /\ all s' = (all s ++ appended l)%list.
  Proof.
    intros Hsel L0 St. pose proof L0 as (I & X & H). set (ok := fun c c' : code => c' = c) in *.
    assert (R : step s l s' /\ (forall e, l <> External e)).
    { destruct St as [s l s' St Ho Hx|s i s' E W]; [split; assumption|]. split; [eapply go_on; exact E|discriminate]. }
    destruct R as [R Hx].
    destruct St as [s l s' St Ho _|s i s' E W].
    - destruct (inv_step dist select junk Hsel ok (fun _ => True) (fun c => eq_refl) s l s' I R Hx (fun _ _ => Logic.I)) as [I' A]; [intros ->; contradiction|]. split; [|exact A].
      destruct St as [s i k c d Ei Hp K|s i q n Ei|s i s' E|s e Hp K]; [| |contradiction|exfalso; exact (Hx e eq_refl)].
      + eapply (linv_set s) with (i := i); [exact L0|exact I'|reflexivity|exact Logic.I|intros []|left; reflexivity|apply le_n|exact A].
      + eapply (linv_set s) with (i := i); [exact L0|exact I'|reflexivity|exact Logic.I|intros []|left; reflexivity|apply le_n|exact A].
    - assert (Side : forall i' q n l', advance s i' = Some s' -> threads s i' = Querying q n l' -> forall j k c t, threads s j = Adding ToCopy k c t -> ok c q).
      { intros i' q n l' E' Ei' j k c t Ej. exfalso. destruct (Nat.eqb_spec i' i) as [->|Ni]; [apply (W ltac:(rewrite Ei'; exact Logic.I) j); rewrite Ej; exact Logic.I|].
        assert (B : buf s' = q /\ threads s' i' = Viewing q n l') by (unfold Listening.advance in E'; rewrite Ei' in E'; injection E' as <-; cbn; rewrite setpc_same; auto).
        assert (B2 : threads s' i' = threads s i') by (clear -E Ni; unfold Listening.advance in E; destruct (threads s i) as [|[] k c t| |q n|q n l|q n l [|]|q n l|q n l|q n l [|] sc|q n l sc|q n l ks|q n l r]; try discriminate; try (injection E as <-; cbn; rewrite setpc_other by exact Ni; reflexivity); destruct (pending s); [injection E as <-; cbn; rewrite setpc_other by exact Ni; reflexivity|discriminate]).
        destruct B as [_ B]. rewrite B, Ei' in B2. discriminate. }
      destruct (inv_step dist select junk Hsel ok (fun _ => True) (fun c => eq_refl) s Other s' I R Hx (fun _ _ => Logic.I) (fun _ => Side)) as [I' A]. split; [|exact A].
      pose proof (H i) as Hi. pose proof I as [(g1 & g2 & g3 & g4 & g5 & g6) HT]. pose proof (HT i) as Ti. unfold Listening.advance in E. cbn [appended] in A.
      destruct (threads s i) as [|a k c t| |q n|q n l|q n l todo|q n l|q n l|q n l view sc|q n l sc|q n l ks|q n l r] eqn:Ei; try discriminate.
      + destruct a; injection E as <-; (eapply (linv_set s) with (i := i); [exact L0|exact I'|reflexivity|try exact Logic.I| | | |exact A]).
        all: try (intros []); try (left; reflexivity); try apply le_n; try (rewrite Ei; intros _; left; exact Logic.I).
        * right. apply W. exact Logic.I.
        * right. apply W. exact Logic.I.
        * cbn [goto with_cells cells]. rewrite app_length. lia.
        * destruct t; exact Logic.I.
        * destruct t; intros [].
      + destruct (pending s) as [e|]; [|discriminate]. injection E as <-. eapply (linv_set s) with (i := i); [exact L0|exact I'|reflexivity|exact Logic.I|intros []|left; reflexivity|apply le_n|exact A].
      + injection E as <-. eapply (linv_set s) with (i := i); [exact L0|exact I'|reflexivity|exact Logic.I|intros []|left; reflexivity|apply le_n|exact A].
      + injection E as <-. eapply (linv_set s) with (i := i); [exact L0|exact I'|reflexivity| | |left; reflexivity|apply le_n|exact A]; destruct (Nat.eqb l (length (cells s))); try exact Logic.I; intros [].
      + destruct todo as [|e todo]; injection E as <-; (eapply (linv_set s) with (i := i); [exact L0|exact I'|reflexivity| | |left; reflexivity|apply le_n|exact A]); try exact Logic.I; try (intros []; fail); match goal with |- context [if ?b then _ else _] => destruct b end; first [exact Logic.I|intros []].
      + injection E as <-. eapply (linv_set s) with (i := i); [exact L0|exact I'|reflexivity|reflexivity|intros _; right; apply W; exact Logic.I|right; apply W; exact Logic.I|apply le_n|exact A].
      + injection E as <-. cbn [T LT] in Ti, Hi. eapply (linv_set s) with (i := i); [exact L0|exact I'|reflexivity| |intros _; left; rewrite Ei; exact Logic.I|left; reflexivity|apply le_n|exact A].
        cbn [LT]. split; [exact Hi|]. exists (length (cells s)). split; [cbn [goto cells]; lia|]. change (all (goto s i (Scoring q n l (map snd (cells s)) []))) with (all s). cbn [List.app]. rewrite (cells_exact s I) at 1. unfold scores. rewrite !map_map. reflexivity.
      + destruct Hi as (Hq & m & Hm & Es). destruct view as [|c view]; injection E as <-.
        * eapply (linv_set s) with (i := i); [exact L0|exact I'|reflexivity| |intros []|left; reflexivity|apply le_n|exact A]. cbn [LT]. exists m. split; [exact Hm|]. cbn [map] in Es. rewrite app_nil_r in Es. exact Es.
        * eapply (linv_set s) with (i := i); [exact L0|exact I'|reflexivity| |intros _; left; rewrite Ei; exact Logic.I|left; reflexivity|apply le_n|exact A]. cbn [LT]. split; [exact Hq|]. exists m. split; [exact Hm|]. rewrite Hq, <- app_assoc. exact Es.
      + destruct Hi as (m & Hm & Es). assert (Lm : length (scores q (firstn m (all s))) = m) by (unfold scores; rewrite map_length, firstn_length; lia).
        destruct (select sc n) as [idx|e] eqn:Esel; injection E as <-; (eapply (linv_set s) with (i := i); [exact L0|exact I'|reflexivity| |intros []|left; reflexivity|apply le_n|exact A]); rewrite Es in Esel.
        * cbn [LT]. exists m, idx. split; [exact Hm|]. split; [exact Esel|]. change (all (goto s i (Fetching q n l (map (fun j => fst (nth j (cells s) junk)) idx)))) with (all s).
          assert (Hidx : forall j, In j idx -> (j < m)%nat) by (intros j Hj; rewrite <- Lm; exact (Hsel _ _ _ Esel j Hj)). revert Hidx. clear -I Hm g4. generalize idx. clear idx. intros idx. induction idx as [|j idx IH]; intros Hidx; cbn [map]; [constructor|]. constructor; [|apply IH; intros j' Hj'; apply Hidx; right; exact Hj'].
          pose proof (Hidx j (or_introl eq_refl)) as Hj. destruct (nth_error (all s) j) as [e|] eqn:Ee; [|apply nth_error_None in Ee; lia]. exists e. split; [reflexivity|].
          rewrite (cells_exact s I). assert (Hn : nth_error (map on_disk (firstn (length (cells s)) (all s))) j = Some (on_disk e)) by (apply map_nth_error; rewrite nth_error_firstn; destruct (Nat.ltb_spec j (length (cells s))); [exact Ee|lia]). rewrite (nth_error_nth _ _ junk Hn). reflexivity.
        * cbn [LT]. exists m. split; [change (all (goto s i (Answered q n l (Raise e)))) with (all s); lia|]. left. exists e. split; [exact Esel|reflexivity].
      + injection E as <-. destruct Hi as (m & idx & Hm & Es & F). eapply (linv_set s) with (i := i); [exact L0|exact I'|reflexivity| |intros []|left; reflexivity|apply le_n|exact A].
        cbn [LT]. change (all (goto s i (Answered q n l (mapM (lookup_data (disk s)) ks)))) with (all s). exists m. split; [lia|]. right. exists idx. split; [exact Es|]. unfold all in F, g2. destruct (lookups (disk s) _ idx ks g2 F) as [(es & F2 & Er)|(Er & j & Hin & Hj)]; [left|right].
        * exists es. split; [exact F2|exact Er].
        * split; [exact Er|]. pose proof (Hsel _ _ _ Es j Hin) as Hlt. unfold scores in Hlt. rewrite map_length, firstn_length in Hlt. assert (La : (length (all s) <= S (length (disk s)))%nat) by (unfold all; rewrite app_length; destruct (pending s); cbn; lia). cbn [T] in Ti. destruct Ti as (_ & Hl & _). assert (j = m - 1)%nat as <- by lia. split; [exact Hin|lia].
      + injection E as <-. eapply (linv_set s) with (i := i); [exact L0|exact I'|reflexivity|exact Logic.I|intros []|left; reflexivity|apply le_n|exact A].
  Qed.
  Lemma locked_inv d b tr s : in_range -> NoDup (map fst d) -> locked_run (opened d b) tr s -> LInv s /\ all s = (d ++ appends tr)%list.
  Proof.
    intros Hsel N R. remember (opened d b) as s0 eqn:E0. induction R as [s0|s0 tr s1 l s2 R IH St].
    - subst s0. split; [|unfold appends, all; reflexivity]. split; [apply opened_inv; [reflexivity|exact N]|]. split; [intros i j []|intros i; exact Logic.I].
    - destruct (IH E0) as [I A]. destruct (linv_step s1 l s2 Hsel I St) as [I2 A2]. split; [exact I2|]. rewrite A2, A. unfold appends. rewrite flat_map_app. cbn [flat_map]. rewrite app_nil_r, <- app_assoc. reflexivity.
  Qed.
  (** with the lock memory holds exactly the right codes *)
  Theorem locked_memory d b tr s : in_range -> NoDup (map fst d) -> locked_run (opened d b) tr s ->
    cells s = map on_disk (firstn (length (cells s)) (d ++ appends tr)) /\ (length (disk s) <= length (cells s))%nat.
  Proof. intros Hs N R. destruct (locked_inv d b tr s Hs N R) as [(I & _) A]. pose proof (cells_exact s I) as E. rewrite A in E. split; [exact E|]. destruct I as [(_ & _ & _ & g4 & _) _]. apply g4. Qed.
  (** and every answer is that of a search among the first [m] entries, where [m] is at least the
      number of entries on disk when the search began; unless the newest of them is chosen and not
      committed yet *)
  Theorem locked_answers d b tr s i q n l r : in_range -> NoDup (map fst d) -> locked_run (opened d b) tr s -> threads s i = Answered q n l r ->
    exists m, (l <= m <= length (d ++ appends tr))%nat /\
      ((exists e, select (scores q (firstn m (d ++ appends tr))) n = Raise e /\ r = Raise e) \/
       (exists idx, select (scores q (firstn m (d ++ appends tr))) n = Ok idx /\
          ((exists es, Forall2 (fun j e => nth_error (d ++ appends tr) j = Some e) idx es /\ r = Ok (map (fun e => snd (snd e)) es)) \/
           (r = Raise TypeError /\ In (m - 1)%nat idx /\ (l < m)%nat)))).
  Proof. intros Hs N R Ei. destruct (locked_inv d b tr s Hs N R) as [(_ & _ & H) A]. specialize (H i). rewrite Ei in H. cbn [LT] in H. rewrite A in H. exact H. Qed.
End ListeningFacts.
