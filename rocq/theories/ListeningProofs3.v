(** Proofs about a HammingDb used by several threads: schedules that go wrong. *)
From Coq Require Import ZArith NArith Lia Permutation.
From Verif Require Import PyBase PyFacts PyMore HammingDb Listening ListeningProofs ListeningProofs2.

Section ListeningFacts.
  Context {code data : Type} (dist : code -> code -> N) (select : list N -> nat -> result (list nat)) (junk : id * code).
  Notation entry := (entry code data).
  Notation state := (state code data).
  Notation pc := (pc code data).
  Notation label := (label code data).
  Notation step := (step dist select junk).
  Notation run := (run dist select junk).
  Notation advance := (advance dist select junk).
  Notation opened := (opened (data := data) junk).
  Notation in_range := (in_range select).
  Notation scores := (scores (data := data) dist).

  (** what a search for [q] should answer when the entries are [d] *)
  Definition search_for (q : code) (n : nat) (d : list entry) : result (list data) :=
    do idx <- select (scores q d) n;
    mapM (fun j => match nth_error d j with Some e => Ok (snd (snd e)) | None => Raise IndexError end) idx.

  Lemma run_go (s0 : state) tr s1 i s2 : run s0 tr s1 -> advance s1 i = Some s2 -> run s0 (tr ++ [Other]) s2.
  Proof. intros R E. eapply run_snoc; [exact R|]. eapply go_on. exact E. Qed.
  Lemma run_start (s0 : state) tr s1 i q n : run s0 tr s1 -> threads s1 i = Idle -> run s0 (tr ++ [Search q]) (goto s1 i (Sizing q n)).
  Proof. intros R E. eapply run_snoc; [exact R|]. apply start_search. exact E. Qed.
  Definition same_but (i : nat) (s s' : state) : Prop :=
    disk s' = disk s /\ pending s' = pending s /\ buf s' = buf s /\ row s' = row s /\ cells s' = cells s /\ slot s' = slot s /\ ids s' = ids s /\ forall j, j <> i -> threads s' j = threads s j.
  Lemma same_goto i (s : state) p : same_but i s (goto s i p).
  Proof. unfold same_but. cbn. repeat split. intros j Hj. apply setpc_other. exact Hj. Qed.
  Lemma same_trans i (s1 s2 s3 : state) : same_but i s1 s2 -> same_but i s2 s3 -> same_but i s1 s3.
  Proof.
    intros (a1 & a2 & a3 & a4 & a5 & a6 & a7 & a8) (b1 & b2 & b3 & b4 & b5 & b6 & b7 & b8). unfold same_but. rewrite b1, b2, b3, b4, b5, b6, b7, a1, a2, a3, a4, a5, a6, a7. repeat split. intros j Hj. rewrite b8 by exact Hj. apply a8. exact Hj.
  Qed.
  Lemma same_refl i (s : state) : same_but i s s.
  Proof. unfold same_but. repeat split. Qed.
  (** alone, a search visits the entries on disk, computes its scores, chooses and fetches *)
  Lemma catch_all (s0 : state) i q n l todo : forall tr s, run s0 tr s -> threads s i = Catching q n l todo -> incl (map fst todo) (ids s) ->
    exists tr' s', run s0 (tr ++ tr') s' /\ (forall x, In x tr' -> x = Other) /\ threads s' i = Querying q n l /\ same_but i s s'.
  Proof.
    induction todo as [|e todo IH]; intros tr s R E H.
    - exists [Other], (goto s i (Querying q n l)). split; [apply (run_go s0 tr s i); [exact R|unfold Listening.advance; rewrite E; reflexivity]|]. split; [intros x [<-|[]]; reflexivity|]. split; [cbn; apply setpc_same|apply same_goto].
    - assert (A : advance s i = Some (goto s i (Catching q n l todo))).
      { unfold Listening.advance. rewrite E. assert (M : existsb (N.eqb (fst e)) (ids s) = true) by (apply existsb_exists; exists (fst e); split; [apply H; left; reflexivity|apply N.eqb_refl]). rewrite M. reflexivity. }
      destruct (IH (tr ++ [Other])%list (goto s i (Catching q n l todo))) as (tr' & s' & R' & O & E' & Sm); [apply (run_go s0 tr s i); assumption|cbn; apply setpc_same|intros x Hx; apply H; right; exact Hx|].
      exists (Other :: tr'), s'. split; [rewrite <- app_assoc in R'; exact R'|]. split; [intros x [<-|Hx]; [reflexivity|auto]|]. split; [exact E'|]. exact (same_trans i _ _ _ (same_goto i s _) Sm).
  Qed.
  Lemma score_all (s0 : state) i q n l view : forall tr s sc, run s0 tr s -> threads s i = Scoring q n l view sc ->
    exists tr' s', run s0 (tr ++ tr') s' /\ (forall x, In x tr' -> x = Other) /\ threads s' i = Choosing q n l (sc ++ map (dist (buf s)) view) /\ same_but i s s'.
  Proof.
    induction view as [|c view IH]; intros tr s sc R E.
    - exists [Other], (goto s i (Choosing q n l sc)). split; [apply (run_go s0 tr s i); [exact R|unfold Listening.advance; rewrite E; reflexivity]|]. split; [intros x [<-|[]]; reflexivity|]. split; [cbn; rewrite setpc_same, app_nil_r; reflexivity|apply same_goto].
    - assert (A : advance s i = Some (goto s i (Scoring q n l view (sc ++ [dist (buf s) c])))) by (unfold Listening.advance; rewrite E; reflexivity).
      destruct (IH (tr ++ [Other])%list (goto s i (Scoring q n l view (sc ++ [dist (buf s) c]))) (sc ++ [dist (buf s) c])%list) as (tr' & s' & R' & O & E' & Sm); [apply (run_go s0 tr s i); assumption|cbn; apply setpc_same|].
      exists (Other :: tr'), s'. split; [rewrite <- app_assoc in R'; exact R'|]. split; [intros x [<-|Hx]; [reflexivity|auto]|]. split; [|exact (same_trans i _ _ _ (same_goto i s _) Sm)]. rewrite E'. cbn [map goto buf]. rewrite <- app_assoc. reflexivity.
  Qed.
  Lemma fetched (d : list entry) idx : NoDup (map fst d) -> (forall j, In j idx -> (j < length d)%nat) ->
    mapM (lookup_data d) (map (fun j => fst (nth j (map on_disk d) junk)) idx) = mapM (fun j => match nth_error d j with Some e => Ok (snd (snd e)) | None => Raise IndexError end) idx.
  Proof.
    intros Nd. induction idx as [|j idx IH]; intros H; [reflexivity|]. cbn [map mapM]. rewrite IH by (intros j' Hj'; apply H; right; exact Hj'). f_equal.
    pose proof (H j (or_introl eq_refl)) as Hj. destruct (nth_error d j) as [e|] eqn:Ee; [|apply nth_error_None in Ee; lia].
    assert (Hn : nth_error (map on_disk d) j = Some (on_disk e)) by (apply map_nth_error; exact Ee). rewrite (nth_error_nth _ _ junk Hn). unfold lookup_data. cbn [on_disk fst]. rewrite (find_entry d Nd j e Ee). reflexivity.
  Qed.
  (** from the scores on, with nobody in between *)
  Lemma finish (s0 : state) tr s i q n l : in_range -> run s0 tr s -> NoDup (map fst (disk s)) -> cells s = map on_disk (disk s) -> threads s i = Scoring q n l (map snd (cells s)) [] ->
    exists tr' s', run s0 (tr ++ tr') s' /\ (forall x, In x tr' -> x = Other) /\ threads s' i = Answered q n l (search_for (buf s) n (disk s)) /\ same_but i s s'.
  Proof.
    intros Hsel R Nd Hc E. destruct (score_all s0 i q n l _ tr s [] R E) as (tr1 & s1 & R1 & O1 & E1 & Sm1). cbn [List.app] in E1.
    assert (Esc : map (dist (buf s)) (map snd (cells s)) = scores (buf s) (disk s)) by (rewrite Hc; unfold ListeningProofs2.scores; rewrite !map_map; reflexivity). rewrite Esc in E1.
    unfold search_for. destruct (select (scores (buf s) (disk s)) n) as [idx|e] eqn:Es; cbn [bind].
    - pose (s2 := goto s1 i (Fetching q n l (map (fun j => fst (nth j (cells s1) junk)) idx))). assert (A2 : advance s1 i = Some s2) by (unfold Listening.advance; rewrite E1, Es; reflexivity).
      pose (s3 := goto s2 i (Answered q n l (mapM (lookup_data (disk s2)) (map (fun j => fst (nth j (cells s1) junk)) idx)))). assert (A3 : advance s2 i = Some s3) by (unfold Listening.advance, s2; cbn [goto threads]; rewrite setpc_same; reflexivity).
      exists (tr1 ++ [Other; Other])%list, s3. split; [|split; [|split]].
      + replace (tr ++ tr1 ++ [Other; Other])%list with (((tr ++ tr1) ++ [Other]) ++ [Other])%list by (rewrite <- !app_assoc; reflexivity). apply (run_go _ _ s2 i); [|exact A3]. apply (run_go _ _ s1 i); [exact R1|exact A2].
      + intros x Hx. apply in_app_or in Hx. destruct Hx as [Hx|[<-|[<-|[]]]]; auto.
      + unfold s3. cbn [goto threads]. rewrite setpc_same. destruct Sm1 as (a1 & _ & _ & _ & a5 & _). unfold s2. cbn [goto disk]. rewrite a1, a5, Hc. rewrite fetched; [reflexivity|exact Nd|]. intros j Hj. pose proof (Hsel _ _ _ Es j Hj) as Hlt. unfold ListeningProofs2.scores in Hlt. rewrite map_length in Hlt. exact Hlt.
      + exact (same_trans i _ _ _ Sm1 (same_trans i _ _ _ (same_goto i s1 _) (same_goto i s2 _))).
    - pose (s2 := goto s1 i (Answered q n l (Raise e))). assert (A2 : advance s1 i = Some s2) by (unfold Listening.advance; rewrite E1, Es; reflexivity).
      exists (tr1 ++ [Other])%list, s2. split; [|split; [|split]].
      + rewrite app_assoc. apply (run_go _ _ s1 i); [exact R1|exact A2].
      + intros x Hx. apply in_app_or in Hx. destruct Hx as [Hx|[<-|[]]]; auto.
      + unfold s2. cbn [goto threads]. rewrite setpc_same. reflexivity.
      + exact (same_trans i _ _ _ Sm1 (same_goto i s1 _)).
  Qed.
  (** a search nobody disturbs until it has written its query *)
  Lemma begins (d : list entry) b i q n : exists s, run (opened d b) [Search q; Other; Other] s /\ threads s i = Querying q n (length d) /\ same_but i (opened d b) s.
  Proof.
    set (s0 := opened d b). pose (s1 := goto s0 i (Sizing q n)). pose (s2 := goto s1 i (Comparing q n (length d))). pose (s3 := goto s2 i (Querying q n (length d))).
    exists s3. split; [|split; [unfold s3; cbn; apply setpc_same|]].
    - change [Search q; Other; Other] with ((([] ++ [Search q]) ++ [Other]) ++ [Other] : list label)%list. apply (run_go _ _ s2 i); [apply (run_go _ _ s1 i); [apply run_start; [apply run_nil|reflexivity]|]|].
      + unfold Listening.advance, s1. cbn [goto threads]. rewrite setpc_same. reflexivity.
      + unfold Listening.advance, s2. cbn [goto threads]. rewrite setpc_same. assert (Hl : length (cells (goto s1 i (Comparing q n (length d)))) = length d) by (cbn; apply map_length). rewrite Hl, Nat.eqb_refl. reflexivity.
    - exact (same_trans i _ _ _ (same_goto i s0 _) (same_trans i _ _ _ (same_goto i s1 _) (same_goto i s2 _))).
  Qed.
  (** alone, a search is right *)
  Theorem undisturbed (d : list entry) b i q n : in_range -> NoDup (map fst d) ->
    exists tr s, run (opened d b) (Search q :: tr) s /\ (forall x, In x tr -> x = Other) /\ threads s i = Answered q n (length d) (search_for q n d).
  Proof.
    intros Hsel Nd. destruct (begins d b i q n) as (s & R & E & (a1 & a2 & a3 & a4 & a5 & a6 & a7 & a8)).
    pose (s1 := goto (with_buf s q) i (Viewing q n (length d))). assert (A1 : advance s i = Some s1) by (unfold Listening.advance; rewrite E; reflexivity).
    pose (s2 := goto s1 i (Scoring q n (length d) (map snd (cells s1)) [])). assert (A2 : advance s1 i = Some s2) by (unfold Listening.advance, s1; cbn [goto threads]; rewrite setpc_same; reflexivity).
    destruct (finish (opened d b) (([Search q; Other; Other] ++ [Other]) ++ [Other])%list s2 i q n (length d) Hsel) as (tr' & s' & R' & O & E' & _).
    - apply (run_go _ _ s1 i); [apply (run_go _ _ s i); [exact R|exact A1]|exact A2].
    - unfold s2, s1. cbn [goto with_buf disk]. rewrite a1. exact Nd.
    - unfold s2, s1. cbn [goto with_buf disk cells]. rewrite a1, a5. reflexivity.
    - unfold s2, s1. cbn [goto with_buf threads cells]. rewrite setpc_same. reflexivity.
    - exists ([Other; Other; Other; Other] ++ tr')%list, s'. split; [exact R'|]. split; [intros x Hx; apply in_app_or in Hx; destruct Hx as [[<-|[<-|[<-|[<-|[]]]]]|Hx]; auto|]. rewrite E'. unfold s2, s1. cbn [goto with_buf disk buf]. rewrite a1. reflexivity.
  Qed.
  Lemma new_in_opened (d : list entry) b i s k : same_but i (opened d b) s -> ~ In k (map fst d) -> new_id s k.
  Proof. intros (a1 & _ & _ & _ & _ & _ & a7 & _) H. unfold new_id. rewrite a1, a7. cbn. auto. Qed.

  (** While somebody searches for [q], the listening thread writes the code [c] of a new document to
      the shared buffer: the search answers as if [c] had been asked for *)
  Theorem wrong_query_refuted (d : list entry) b q n k c x : in_range -> NoDup (map fst d) -> ~ In k (map fst d) ->
    exists tr s, run (opened d b) tr s /\ alone tr /\ queries tr = [q] /\ appends tr = [(k, (c, x))] /\ threads s 1%nat = Answered q n (length d) (search_for c n d).
  Proof.
    intros Hsel Nd Hk. destruct (begins d b 1 q n) as (s & R & E & Sm). pose proof Sm as (a1 & a2 & a3 & a4 & a5 & a6 & a7 & a8).
    pose (s1 := goto (with_buf s q) 1 (Viewing q n (length d))). assert (A1 : advance s 1 = Some s1) by (unfold Listening.advance; rewrite E; reflexivity).
    pose (s2 := goto s1 1 (Scoring q n (length d) (map snd (cells s1)) [])). assert (A2 : advance s1 1 = Some s2) by (unfold Listening.advance, s1; cbn [goto threads]; rewrite setpc_same; reflexivity).
    pose (s3 := goto (with_disk s2 (disk s2) (Some (k, (c, x)))) 0 (Adding ToId k c ThenCommit)).
    assert (S3 : step s2 (Append (k, (c, x))) s3).
    { apply start_append; [unfold s2, s1; cbn; rewrite a8 by lia; reflexivity|unfold s2, s1; cbn; rewrite a2; reflexivity|]. unfold new_id, s2, s1. cbn. rewrite a1, a7. cbn. auto. }
    pose (s4 := goto (with_row s3 (k, snd (row s3))) 0 (Adding ToWrite k c ThenCommit)). assert (A4 : advance s3 0 = Some s4) by reflexivity.
    pose (s5 := goto (with_buf s4 c) 0 (Adding ToCopy k c ThenCommit)). assert (A5 : advance s4 0 = Some s5) by reflexivity.
    destruct (finish (opened d b) ((((([Search q; Other; Other] ++ [Other]) ++ [Other]) ++ [Append (k, (c, x))]) ++ [Other]) ++ [Other])%list s5 1 q n (length d) Hsel) as (tr' & s' & R' & O & E' & _).
    - apply (run_go _ _ s4 0); [apply (run_go _ _ s3 0)|]; [|exact A4|exact A5]. eapply run_snoc; [|exact S3]. apply (run_go _ _ s1 1); [apply (run_go _ _ s 1); [exact R|exact A1]|exact A2].
    - unfold s5, s4, s3, s2, s1. cbn. rewrite a1. exact Nd.
    - unfold s5, s4, s3, s2, s1. cbn. rewrite a1, a5. reflexivity.
    - unfold s5, s4, s3, s2, s1. cbn. reflexivity.
    - eexists _, s'. split; [exact R'|]. assert (Ot : forall {B} (f : label -> list B), f Other = [] -> flat_map f tr' = []) by (intros B f Hf; clear -O Hf; induction tr' as [|y tr' IH]; [reflexivity|]; cbn [flat_map]; rewrite (O y (or_introl eq_refl)), Hf; apply IH; intros z Hz; apply O; right; exact Hz).
      split; [intros e He; apply in_app_or in He; destruct He as [He|He]; [cbn in He; repeat (destruct He as [He|He]; [discriminate|]); exact He|apply O in He; discriminate]|].
      split; [unfold queries; rewrite flat_map_app, Ot by reflexivity; reflexivity|]. split; [unfold appends; rewrite flat_map_app, Ot by reflexivity; reflexivity|]. rewrite E'. unfold s5, s4, s3, s2, s1. cbn. rewrite a1. reflexivity.
  Qed.
  (** The other way round: a search for [q] writes its query between the writing and the copying of
      a new document's code [c]; the document is in memory with the code [q] and on disk with [c],
      for as long as the process lives (memory_grows) *)
  Theorem wrong_code_refuted (d : list entry) b q k c x : in_range -> NoDup (map fst d) -> ~ In k (map fst d) ->
    exists tr s, run (opened d b) tr s /\ alone tr /\ queries tr = [q] /\ appends tr = [(k, (c, x))] /\ pending s = None /\
      disk s = (d ++ [(k, (c, x))])%list /\ cells s = (map on_disk d ++ [(k, q)])%list /\ length (cells s) = length (disk s).
  Proof.
    intros Hsel Nd Hk. destruct (begins d b 1 q 0) as (s & R & E & (a1 & a2 & a3 & a4 & a5 & a6 & a7 & a8)).
    pose (s3 := goto (with_disk s (disk s) (Some (k, (c, x)))) 0 (Adding ToId k c ThenCommit)).
    assert (S3 : step s (Append (k, (c, x))) s3) by (apply start_append; [rewrite a8 by lia; reflexivity|rewrite a2; reflexivity|unfold new_id; rewrite a1, a7; cbn; auto]).
    pose (s4 := goto (with_row s3 (k, snd (row s3))) 0 (Adding ToWrite k c ThenCommit)). assert (A4 : advance s3 0 = Some s4) by reflexivity.
    pose (s5 := goto (with_buf s4 c) 0 (Adding ToCopy k c ThenCommit)). assert (A5 : advance s4 0 = Some s5) by reflexivity.
    pose (s6 := goto (with_buf s5 q) 1 (Viewing q 0 (length d))). assert (A6 : advance s5 1 = Some s6) by (unfold Listening.advance, s5, s4, s3; cbn; rewrite E; reflexivity).
    pose (s7 := goto (with_row s6 (k, q)) 0 (Adding ToSlot k c ThenCommit)). assert (A7 : advance s6 0 = Some s7) by reflexivity.
    pose (s8 := goto (with_cells s7 (cells s7) (k, q)) 0 (Adding ToCount k c ThenCommit)). assert (A8 : advance s7 0 = Some s8) by reflexivity.
    pose (s9 := goto (with_cells s8 (cells s8 ++ [(k, q)]) junk) 0 (Adding ToMember k c ThenCommit)). assert (A9 : advance s8 0 = Some s9) by reflexivity.
    pose (s10 := goto (with_ids s9 (k :: ids s9)) 0 Committing). assert (A10 : advance s9 0 = Some s10) by reflexivity.
    pose (s11 := goto (with_disk s10 (disk s10 ++ [(k, (c, x))]) None) 0 Idle). assert (A11 : advance s10 0 = Some s11) by reflexivity.
    eexists _, s11. split; [eapply (run_go _ _ s10 0); [|exact A11]; eapply (run_go _ _ s9 0); [|exact A10]; eapply (run_go _ _ s8 0); [|exact A9]; eapply (run_go _ _ s7 0); [|exact A8]; eapply (run_go _ _ s6 0); [|exact A7]; eapply (run_go _ _ s5 1); [|exact A6]; eapply (run_go _ _ s4 0); [|exact A5]; eapply (run_go _ _ s3 0); [|exact A4]; eapply run_snoc; [exact R|exact S3]|].
    split; [intros e He; cbn in He; repeat (destruct He as [He|He]; [discriminate|]); exact He|]. split; [reflexivity|]. split; [reflexivity|]. split; [reflexivity|].
    assert (Ed : disk s11 = (d ++ [(k, (c, x))])%list) by (unfold s11, s10, s9, s8, s7, s6, s5, s4, s3; cbn; rewrite a1; reflexivity). assert (Ec : cells s11 = (map on_disk d ++ [(k, q)])%list) by (unfold s11, s10, s9, s8, s7, s6, s5, s4, s3; cbn; rewrite a5; reflexivity).
    split; [exact Ed|]. split; [exact Ec|]. rewrite Ed, Ec, !app_length, map_length. reflexivity.
  Qed.
  (** A document that is in memory and not committed yet: whoever finds it gets a TypeError *)
  Theorem uncommitted_refuted (d : list entry) b q n k c x idx : in_range -> NoDup (map fst d) -> ~ In k (map fst d) ->
    select (scores q (d ++ [(k, (c, x))])) n = Ok idx -> In (length d) idx ->
    exists tr s, run (opened d b) tr s /\ alone tr /\ queries tr = [q] /\ appends tr = [(k, (c, x))] /\ threads s 1%nat = Answered q n (length d) (Raise TypeError).
  Proof.
    intros Hsel Nd Hk Es Hin. set (s0 := opened d b).
    pose (s3 := goto (with_disk s0 d (Some (k, (c, x)))) 0 (Adding ToId k c ThenCommit)).
    assert (S3 : step s0 (Append (k, (c, x))) s3) by (apply (start_append _ _ _ s0 0 k c x); [reflexivity|reflexivity|split; exact Hk]).
    pose (s4 := goto (with_row s3 (k, snd (row s3))) 0 (Adding ToWrite k c ThenCommit)). assert (A4 : advance s3 0 = Some s4) by reflexivity.
    pose (s5 := goto (with_buf s4 c) 0 (Adding ToCopy k c ThenCommit)). assert (A5 : advance s4 0 = Some s5) by reflexivity.
    pose (s7 := goto (with_row s5 (k, c)) 0 (Adding ToSlot k c ThenCommit)). assert (A7 : advance s5 0 = Some s7) by reflexivity.
    pose (s8 := goto (with_cells s7 (cells s7) (k, c)) 0 (Adding ToCount k c ThenCommit)). assert (A8 : advance s7 0 = Some s8) by reflexivity.
    pose (s9 := goto (with_cells s8 (cells s8 ++ [(k, c)]) junk) 0 (Adding ToMember k c ThenCommit)). assert (A9 : advance s8 0 = Some s9) by reflexivity.
    pose (t1 := goto s9 1 (Sizing q n)). pose (t2 := goto t1 1 (Comparing q n (length d))). assert (B2 : advance t1 1 = Some t2) by reflexivity.
    pose (t3 := goto t2 1 (Catching q n (length d) d)). assert (Lc : length (cells s9) = S (length d)) by (change (cells s9) with (map (fun e : entry => (fst e, fst (snd e))) d ++ [(k, c)])%list; rewrite app_length, map_length; cbn [length]; lia).
    assert (B3 : advance t2 1 = Some t3).
    { unfold Listening.advance. change (threads t2 1%nat) with (Comparing (code := code) (data := data) q n (length d)). change (length (cells t2)) with (length (cells s9)). rewrite Lc. destruct (Nat.eqb_spec (length d) (S (length d))); [lia|reflexivity]. }
    set (tr0 := ((((((((([] ++ [Append (k, (c, x))]) ++ [Other]) ++ [Other]) ++ [Other]) ++ [Other]) ++ [Other]) ++ [Search q]) ++ [Other]) ++ [Other])%list : list label).
    assert (R3 : run s0 tr0 t3).
    { unfold tr0. apply (run_go _ _ t2 1); [|exact B3]. apply (run_go _ _ t1 1); [|exact B2]. apply run_start; [|reflexivity]. apply (run_go _ _ s8 0); [|exact A9]. apply (run_go _ _ s7 0); [|exact A8]. apply (run_go _ _ s5 0); [|exact A7]. apply (run_go _ _ s4 0); [|exact A5]. apply (run_go _ _ s3 0); [|exact A4]. eapply run_snoc; [apply run_nil|exact S3]. }
    destruct (catch_all s0 1 q n (length d) d tr0 t3 R3 eq_refl) as (tr1 & t4 & R4 & O4 & E4 & Sm4); [apply incl_refl|].
    pose (t5 := goto (with_buf t4 q) 1 (Viewing q n (length d))). assert (B5 : advance t4 1 = Some t5) by (unfold Listening.advance; rewrite E4; reflexivity).
    pose (t6 := goto t5 1 (Scoring q n (length d) (map snd (cells t5)) [])). assert (B6 : advance t5 1 = Some t6) by reflexivity.
    assert (R6 : run s0 (((tr0 ++ tr1) ++ [Other]) ++ [Other]) t6) by (apply (run_go _ _ t5 1); [|exact B6]; apply (run_go _ _ t4 1); [exact R4|exact B5]).
    destruct (score_all s0 1 q n (length d) (map snd (cells t5)) _ t6 [] R6 eq_refl) as (tr2 & t7 & R7 & O7 & E7 & Sm7). cbn [List.app] in E7.
    destruct Sm4 as (m1 & m2 & m3 & m4 & m5 & m6 & m7 & m8). destruct Sm7 as (n1 & n2 & n3 & n4 & n5 & n6 & n7 & n8).
    assert (C5 : cells t5 = (map on_disk d ++ [(k, c)])%list) by (unfold t5; cbn [goto with_buf cells]; rewrite m5; reflexivity).
    assert (Esc : map (dist (buf t6)) (map snd (cells t5)) = scores q (d ++ [(k, (c, x))])) by (rewrite C5; unfold ListeningProofs2.scores; rewrite !map_map, !map_app, !map_map; reflexivity). rewrite Esc in E7.
    pose (t8 := goto t7 1 (Fetching q n (length d) (map (fun j => fst (nth j (cells t7) junk)) idx))). assert (B8 : advance t7 1 = Some t8) by (unfold Listening.advance; rewrite E7, Es; reflexivity).
    pose (t9 := goto t8 1 (Answered q n (length d) (mapM (lookup_data (disk t8)) (map (fun j => fst (nth j (cells t7) junk)) idx)))). assert (B9 : advance t8 1 = Some t9) by reflexivity.
    assert (C7 : cells t7 = (map on_disk d ++ [(k, c)])%list) by (rewrite n5; exact C5). assert (D8 : disk t8 = d) by (unfold t8; cbn [goto disk]; rewrite n1; unfold t6, t5; cbn [goto with_buf disk]; rewrite m1; reflexivity).
    assert (Er : mapM (lookup_data (disk t8)) (map (fun j => fst (nth j (cells t7) junk)) idx) = Raise TypeError).
    { rewrite D8, C7. assert (El : lookup_data d k = Raise TypeError) by (unfold lookup_data; rewrite (find_missing d k Hk); reflexivity). assert (G : forall ks, In k ks -> mapM (lookup_data d) ks = Raise TypeError).
      { induction ks as [|k' ks IH]; intros Hk'; [destruct Hk'|]. cbn [mapM]. destruct Hk' as [->|Hk']; [rewrite El; reflexivity|]. rewrite (IH Hk'). unfold lookup_data at 1. destruct (find (fun e => N.eqb (fst e) k') d); reflexivity. }
      apply G. apply in_map_iff. exists (length d). split; [|exact Hin]. rewrite app_nth2 by (rewrite map_length; lia). rewrite map_length, Nat.sub_diag. reflexivity. }
    eexists _, t9. split; [eapply (run_go _ _ t8 1); [|exact B9]; eapply (run_go _ _ t7 1); [exact R7|exact B8]|].
    assert (Ot : forall tr' {B} (f : label -> list B), (forall y, In y tr' -> y = Other) -> f Other = [] -> flat_map f tr' = []) by (intros tr' B f O Hf; induction tr' as [|y tr' IH]; [reflexivity|]; cbn [flat_map]; rewrite (O y (or_introl eq_refl)), Hf; apply IH; intros z Hz; apply O; right; exact Hz).
    split; [|split; [|split]].
    - intros e He. unfold tr0 in He. rewrite !in_app_iff in He. cbn [In] in He. repeat match type of He with _ \/ _ => destruct He as [He|He] end; try discriminate; try contradiction; first [apply O4 in He|apply O7 in He]; discriminate.
    - unfold queries, tr0. rewrite !flat_map_app, (Ot tr1), (Ot tr2) by (assumption || reflexivity). reflexivity.
    - unfold appends, tr0. rewrite !flat_map_app, (Ot tr1), (Ot tr2) by (assumption || reflexivity). reflexivity.
    - unfold t9. cbn [goto threads]. rewrite setpc_same, Er. reflexivity.
  Qed.
  (** Another process has added [e1]; while a search adds it to memory the listening thread appends
      [e2]: [e1] is lost to this process for ever, its row holds nothing that was ever written *)
  Theorem lost_entry_refuted (d : list entry) b q n k1 c1 x1 k2 c2 x2 : NoDup (map fst d) -> ~ In k1 (map fst d) -> ~ In k2 (map fst d) -> k1 <> k2 ->
    exists tr s, run (opened d b) tr s /\ pending s = None /\ disk s = (d ++ [(k1, (c1, x1)); (k2, (c2, x2))])%list /\
      cells s = (map on_disk d ++ [(k2, c2); junk])%list /\ length (cells s) = length (disk s) /\ threads s 0%nat = Idle /\ threads s 1%nat = Catching q n (S (length d)) [] /\
      In k1 (ids s).
  Proof.
    intros Nd H1 H2 H12. set (s0 := opened d b). pose (d1 := (d ++ [(k1, (c1, x1))])%list). pose (s1 := with_disk s0 d1 None).
    assert (S1 : step s0 (External (k1, (c1, x1))) s1) by (apply external; [reflexivity|split; exact H1]).
    pose (s2 := goto s1 1 (Sizing q n)). pose (s3 := goto s2 1 (Comparing q n (length d1))). assert (A3 : advance s2 1 = Some s3) by reflexivity.
    pose (s4 := goto s3 1 (Catching q n (length d1) d1)). assert (Ld : length d1 = S (length d)) by (unfold d1; rewrite app_length; cbn; lia).
    assert (A4 : advance s3 1 = Some s4).
    { unfold Listening.advance. change (threads s3 1%nat) with (Comparing (code := code) (data := data) q n (length d1)). change (length (cells s3)) with (length (map (fun e : entry => (fst e, fst (snd e))) d)). rewrite map_length. destruct (Nat.eqb_spec (length d1) (length d)); [lia|reflexivity]. }
    assert (R4 : run s0 (((([] ++ [External (k1, (c1, x1))]) ++ [Search q]) ++ [Other]) ++ [Other])%list s4) by (apply (run_go _ _ s3 1); [|exact A4]; apply (run_go _ _ s2 1); [|exact A3]; apply run_start; [|reflexivity]; eapply run_snoc; [apply run_nil|exact S1]).
    (* the entries known before *)
    assert (Skip : forall todo tr s, run s0 tr s -> threads s 1%nat = Catching q n (length d1) (todo ++ [(k1, (c1, x1))]) -> incl (map fst todo) (ids s) ->
      exists tr' s', run s0 tr' s' /\ threads s' 1%nat = Catching q n (length d1) [(k1, (c1, x1))] /\ same_but 1 s s').
    { induction todo as [|e todo IH]; intros tr s R E Hi; [exists tr, s; split; [exact R|]; split; [exact E|apply same_refl]|].
      assert (A : advance s 1 = Some (goto s 1 (Catching q n (length d1) (todo ++ [(k1, (c1, x1))])))).
      { unfold Listening.advance. rewrite E. cbn [List.app]. assert (M : existsb (N.eqb (fst e)) (ids s) = true) by (apply existsb_exists; exists (fst e); split; [apply Hi; left; reflexivity|apply N.eqb_refl]). rewrite M. reflexivity. }
      destruct (IH (tr ++ [Other])%list (goto s 1 (Catching q n (length d1) (todo ++ [(k1, (c1, x1))])))) as (tr' & s' & R' & E' & Sm); [apply (run_go s0 tr s 1); assumption|reflexivity|intros y Hy; apply Hi; right; exact Hy|].
      exists tr', s'. split; [exact R'|]. split; [exact E'|]. exact (same_trans 1 _ _ _ (same_goto 1 s _) Sm). }
    destruct (Skip d _ s4 R4 eq_refl) as (tr5 & s5 & R5 & E5 & (m1 & m2 & m3 & m4 & m5 & m6 & m7 & m8)); [apply incl_refl|]. clear Skip.
    change (disk s4) with d1 in m1. change (pending s4) with (@None entry) in m2. change (cells s4) with (map (fun e : entry => (fst e, fst (snd e))) d) in m5. change (ids s4) with (map fst d) in m7.
    pose (T1 := ThenCatch (data := data) q n (length d1) []).
    pose (s6 := goto s5 1 (Adding ToId k1 c1 T1)).
    assert (A6 : advance s5 1 = Some s6).
    { unfold Listening.advance. rewrite E5. destruct (existsb (N.eqb (fst (k1, (c1, x1)))) (ids s5)) eqn:M; [|reflexivity]. exfalso. apply existsb_exists in M. destruct M as (y & Hy & Ey). apply N.eqb_eq in Ey. cbn [fst] in Ey. subst y. rewrite m7 in Hy. contradiction. }
    pose (s7 := goto (with_row s6 (k1, snd (row s6))) 1 (Adding ToWrite k1 c1 T1)). assert (A7 : advance s6 1 = Some s7) by reflexivity.
    pose (s8 := goto (with_buf s7 c1) 1 (Adding ToCopy k1 c1 T1)). assert (A8 : advance s7 1 = Some s8) by reflexivity.
    pose (s9 := goto (with_row s8 (k1, c1)) 1 (Adding ToSlot k1 c1 T1)). assert (A9 : advance s8 1 = Some s9) by reflexivity.
    pose (s10 := goto (with_cells s9 (cells s9) (k1, c1)) 1 (Adding ToCount k1 c1 T1)). assert (A10 : advance s9 1 = Some s10) by reflexivity.
    pose (t3 := goto (with_disk s10 (disk s10) (Some (k2, (c2, x2)))) 0 (Adding ToId k2 c2 ThenCommit)).
    assert (S3 : step s10 (Append (k2, (c2, x2))) t3).
    { apply start_append; [change (threads s10 0%nat) with (threads s5 0%nat); rewrite m8 by lia; reflexivity|exact m2|]. split; [change (ids s10) with (ids s5); rewrite m7; exact H2|]. change (disk s10) with (disk s5). rewrite m1. unfold d1. rewrite map_app. intros Hin. apply in_app_or in Hin. destruct Hin as [Hin|[Hin|[]]]; [contradiction|cbn in Hin; contradiction]. }
    pose (t4 := goto (with_row t3 (k2, snd (row t3))) 0 (Adding ToWrite k2 c2 ThenCommit)). assert (B4 : advance t3 0 = Some t4) by reflexivity.
    pose (t5 := goto (with_buf t4 c2) 0 (Adding ToCopy k2 c2 ThenCommit)). assert (B5 : advance t4 0 = Some t5) by reflexivity.
    pose (t6 := goto (with_row t5 (k2, c2)) 0 (Adding ToSlot k2 c2 ThenCommit)). assert (B6 : advance t5 0 = Some t6) by reflexivity.
    pose (t7 := goto (with_cells t6 (cells t6) (k2, c2)) 0 (Adding ToCount k2 c2 ThenCommit)). assert (B7 : advance t6 0 = Some t7) by reflexivity.
    pose (t8 := goto (with_cells t7 (cells t7 ++ [(k2, c2)]) junk) 1 (Adding ToMember k1 c1 T1)). assert (B8 : advance t7 1 = Some t8) by reflexivity.
    pose (t9 := goto (with_cells t8 (cells t8 ++ [junk]) junk) 0 (Adding ToMember k2 c2 ThenCommit)). assert (B9 : advance t8 0 = Some t9) by reflexivity.
    pose (u1 := goto (with_ids t9 (k1 :: ids t9)) 1 (Catching q n (length d1) [])). assert (C1 : advance t9 1 = Some u1) by reflexivity.
    pose (u2 := goto (with_ids u1 (k2 :: ids u1)) 0 Committing). assert (C2 : advance u1 0 = Some u2) by reflexivity.
    pose (u3 := goto (with_disk u2 (disk u2 ++ [(k2, (c2, x2))]) None) 0 Idle). assert (C3 : advance u2 0 = Some u3) by reflexivity.
    eexists _, u3. split; [eapply (run_go _ _ u2 0); [|exact C3]; eapply (run_go _ _ u1 0); [|exact C2]; eapply (run_go _ _ t9 1); [|exact C1]; eapply (run_go _ _ t8 0); [|exact B9]; eapply (run_go _ _ t7 1); [|exact B8]; eapply (run_go _ _ t6 0); [|exact B7]; eapply (run_go _ _ t5 0); [|exact B6]; eapply (run_go _ _ t4 0); [|exact B5]; eapply (run_go _ _ t3 0); [|exact B4]; eapply run_snoc; [|exact S3]; eapply (run_go _ _ s9 1); [|exact A10]; eapply (run_go _ _ s8 1); [|exact A9]; eapply (run_go _ _ s7 1); [|exact A8]; eapply (run_go _ _ s6 1); [|exact A7]; eapply (run_go _ _ s5 1); [exact R5|exact A6]|].
    assert (Ed : disk u3 = (d ++ [(k1, (c1, x1)); (k2, (c2, x2))])%list) by (change (disk u3) with (disk s5 ++ [(k2, (c2, x2))])%list; rewrite m1; unfold d1; rewrite <- app_assoc; reflexivity).
    assert (Ec : cells u3 = (map on_disk d ++ [(k2, c2); junk])%list) by (change (cells u3) with ((cells s5 ++ [(k2, c2)]) ++ [junk])%list; rewrite m5, <- app_assoc; reflexivity).
    split; [reflexivity|]. split; [exact Ed|]. split; [exact Ec|]. split; [rewrite Ed, Ec, !app_length, map_length; reflexivity|]. split; [reflexivity|]. split; [rewrite <- Ld; reflexivity|]. right. left. reflexivity.
  Qed.
End ListeningFacts.

(** ** A case *)
  Definition distance (a b : N) : N := (a - b + (b - a))%N.
  (** the position of the first of the smallest scores, if there is one *)
  Fixpoint smallest (sc : list N) : option (nat * N) :=
    match sc with
    | [] => None
    | x :: sc' => match smallest sc' with Some (j, y) => if N.ltb y x then Some (S j, y) else Some (0%nat, x) | None => Some (0%nat, x) end
    end.
  Definition nearest (sc : list N) (n : nat) : result (list nat) := match smallest sc with Some (j, _) => Ok [j] | None => Raise ValueError end.
  Definition two_entries : list (entry N nat) := [(1%N, (0%N, 100%nat)); (2%N, (9%N, 109%nat))].
  Lemma smallest_in sc : forall j y, smallest sc = Some (j, y) -> (j < length sc)%nat.
  Proof. induction sc as [|x sc IH]; intros j y; cbn [smallest length]; [discriminate|]. destruct (smallest sc) as [[j' y']|]; [|intros [= <- _]; lia]. specialize (IH j' y' eq_refl). destruct (N.ltb y' x); intros [= <- _]; lia. Qed.
  Example nearest_in_range : in_range nearest.
  Proof. intros sc n idx H j Hj. unfold nearest in H. destruct (smallest sc) as [[j' y]|] eqn:E; [|discriminate]. injection H as <-. destruct Hj as [<-|[]]. exact (smallest_in sc j' y E). Qed.
  Example distinct : NoDup (map fst two_entries).
  Proof. repeat constructor; cbn; intuition discriminate. Qed.
  (** a search for 0 that nobody disturbs finds 100, and 109 while the code 8 is being appended *)
  Example alone_right : search_for distance nearest 0%N 1 two_entries = Ok [100%nat].
  Proof. reflexivity. Qed.
  Example race : exists tr s, run distance nearest (0%N, 0%N) (opened (0%N, 0%N) two_entries 0%N) tr s /\ alone tr /\ queries tr = [0%N] /\ appends tr = [(3%N, (8%N, 7%nat))] /\ threads s 1%nat = Answered 0%N 1 2 (Ok [109%nat]).
  Proof. apply (wrong_query_refuted distance nearest (0%N, 0%N) two_entries 0%N 0%N 1 3%N 8%N 7%nat nearest_in_range distinct). cbn. intuition discriminate. Qed.
  Example newest_found : exists tr s, run distance nearest (0%N, 0%N) (opened (0%N, 0%N) two_entries 0%N) tr s /\ alone tr /\ queries tr = [8%N] /\ appends tr = [(3%N, (8%N, 7%nat))] /\ threads s 1%nat = Answered 8%N 1 2 (Raise TypeError).
  Proof. apply (uncommitted_refuted distance nearest (0%N, 0%N) two_entries 0%N 8%N 1 3%N 8%N 7%nat [2%nat] nearest_in_range distinct); [cbn; intuition discriminate|reflexivity|left; reflexivity]. Qed.
