(** Facts about ingestion, bounded dataset iteration and the download cache (C50-C52). *)
From Verif Require Import PyBase PyFacts PyMore Datasets.
From Coq Require Import Permutation.
Local Open Scope Z_scope.

(** ** C50 *)
Section IngestFacts.
  Variable ok : meta -> bool.
  Variable skip : bool.
  Variable cores : nat.
  Notation step := (pool_step ok skip cores).
  Notation steps := (pool_steps ok skip cores).
  (** the items not yet dealt with, those running and those in the log *)
  Definition held (p : pool) : list meta := p_pending p ++ map fst (p_running p) ++ map event_item (p_log p).
  Lemma check_item_event store m e : check_item skip store m = Some e -> event_item e = m.
  Proof. unfold check_item. destruct (m_url m) as [u|]; [destruct (skip && exists_ store u)|]; intros [= <-]; reflexivity. Qed.
  Lemma step_held p q : step p q -> Permutation (held p) (held q).
  Proof.
    intros H. destruct H as [m rest running store log Hc|pending before after m e store log Hc|pending before after m store log Hc|pending before after m store log];
      unfold held; cbn [p_pending p_running p_log]; rewrite ?map_app; cbn [map fst].
    - cbn [app]. rewrite !app_assoc. change (m :: (rest ++ map fst running) ++ map event_item log) with ((m :: (rest ++ map fst running)) ++ map event_item log).
      apply Permutation_app_tail. apply Permutation_cons_append.
    - apply Permutation_app_head. cbn [map]. rewrite (check_item_event _ _ _ Hc).
      rewrite <- !app_assoc. apply Permutation_app_head. cbn [app].
      rewrite (Permutation_app_comm (map event_item log) [m]). cbn [app]. apply Permutation_middle.
    - reflexivity.
    - apply Permutation_app_head. cbn [map event_item].
      rewrite <- !app_assoc. apply Permutation_app_head. cbn [app].
      rewrite (Permutation_app_comm (map event_item log) [m]). cbn [app]. apply Permutation_middle.
  Qed.
  Lemma steps_held p q : steps p q -> Permutation (held p) (held q).
  Proof. induction 1 as [|p q r H _ IH]; [reflexivity|]. now rewrite (step_held _ _ H). Qed.
  (** every item is dealt with exactly once *)
  Lemma ingest_covers dataset store p : steps (pool_start dataset store) p -> pool_done p -> Permutation dataset (map event_item (p_log p)).
  Proof.
    intros H [H1 H2]. apply steps_held in H. unfold held in H. rewrite H1, H2 in H. cbn in H. now rewrite app_nil_r in H.
  Qed.
  (** invariants about the store *)
  Definition processed_ok (log : list event) (u : Z) : Prop := exists m, In (Processed m) log /\ m_url m = Some u /\ ok m = true.
  Definition good (store0 : list Z) (p : pool) : Prop :=
    (forall u, In u (p_store p) <-> In u store0 \/ processed_ok (p_log p) u)
    /\ (forall m, In (Skipped m) (p_log p) -> skip = true /\ exists u, m_url m = Some u /\ In u (p_store p))
    /\ (forall m, In (Errored m) (p_log p) -> m_url m = None)
    /\ (forall m, In (Processed m) (p_log p) -> m_url m <> None)
    /\ (forall m, In (m, Processing) (p_running p) -> m_url m <> None).
  Lemma exists_In store u : exists_ store u = true <-> In u store.
  Proof.
    unfold exists_. rewrite existsb_exists. split; [intros (v & I & E); apply Z.eqb_eq in E; now subst|]. intros I. exists u. split; [exact I|apply Z.eqb_refl].
  Qed.
  Lemma process_item_In store m v : In v (process_item ok store m) <-> In v store \/ (m_url m = Some v /\ ok m = true).
  Proof.
    unfold process_item. destruct (m_url m) as [u|] eqn:E.
    - destruct (ok m); cbn; [|split; [tauto|intros [|[_ ?]]; [assumption|discriminate]]].
      split; [intros [->|]; [right; auto|left; assumption]|intros [|[[= ->] _]]; auto].
    - split; [tauto|intros [|[? _]]; [assumption|discriminate]].
  Qed.
  Lemma good_step store0 p q : good store0 p -> step p q -> good store0 q.
  Proof.
    intros (G1 & G2 & G3 & G4 & G5) H.
    destruct H as [m rest running store log Hc|pending before after m e store log Hc|pending before after m store log Hc|pending before after m store log];
      unfold good in *; cbn [p_pending p_running p_store p_log] in *.
    - split; [exact G1|]. split; [exact G2|]. split; [exact G3|]. split; [exact G4|].
      intros m' I. apply in_app_or in I as [I|[[= _ ?]|[]]]. auto.
    - unfold check_item in Hc. assert (L : forall x, In x (log ++ [e]) <-> In x log \/ e = x).
      { intros x. rewrite in_app_iff. cbn. tauto. }
      assert (P : forall x, In (Processed x) (log ++ [e]) <-> In (Processed x) log).
      { intros x. rewrite L. split; [|tauto]. intros [|E]; [assumption|]. exfalso. destruct (m_url m); [destruct (skip && _)|]; try discriminate; injection Hc as <-; discriminate. }
      split; [|split; [|split; [|split]]].
      + intros u. rewrite G1. unfold processed_ok. split; (intros [|(x & I & R)]; [now left|right; exists x; split; [now apply P|exact R]]).
      + intros x I. apply L in I as [I|E]; [now apply G2|]. subst e. destruct (m_url m) as [u|] eqn:Eu; [|discriminate].
        destruct (skip && exists_ store u) eqn:Es; [|discriminate]. injection Hc as <-. apply andb_prop in Es as [S1 S2]. split; [exact S1|]. exists u. split; [exact Eu|now apply exists_In].
      + intros x I. apply L in I as [I|E]; [now apply G3|]. subst e.
        destruct (m_url m) as [u|] eqn:Eu; [destruct (skip && exists_ store u); discriminate|]. injection Hc as <-. exact Eu.
      + intros x I. apply P in I. now apply G4.
      + intros x I. apply G5. apply in_app_or in I. apply in_or_app. cbn. tauto.
    - split; [exact G1|]. split; [exact G2|]. split; [exact G3|]. split; [exact G4|].
      intros x I. apply in_app_or in I as [I|[[= <-]|I]].
      + apply G5. apply in_or_app. now left.
      + unfold check_item in Hc. destruct (m_url m); discriminate.
      + apply G5. apply in_or_app. right. now right.
    - assert (L : forall x, In x (log ++ [Processed m]) <-> In x log \/ Processed m = x).
      { intros x. rewrite in_app_iff. cbn. tauto. }
      split; [|split; [|split; [|split]]].
      + intros u. rewrite process_item_In, G1. unfold processed_ok. split.
        * intros [[|(x & I & R)]|[E O]]; [now left| |]; right; [exists x|exists m]; rewrite L; auto.
        * intros [|(x & I & R)]; [now left; left|]. apply L in I as [I|[= <-]]; [left; right; now exists x|now right].
      + intros x I. apply L in I as [I|]; [|discriminate]. destruct (G2 x I) as (S1 & u & E & I2). split; [exact S1|]. exists u. split; [exact E|]. apply process_item_In. now left.
      + intros x I. apply L in I as [I|]; [now apply G3|discriminate].
      + intros x I. apply L in I as [I|[= <-]]; [now apply G4|]. apply G5. apply in_or_app. right. now left.
      + intros x I. apply G5. apply in_app_or in I. apply in_or_app. cbn. tauto.
  Qed.
  Lemma good_steps store0 p q : good store0 p -> steps p q -> good store0 q.
  Proof. intros G H. induction H as [|p q r H _ IH]; [exact G|]. apply IH. now apply (good_step store0 p). Qed.
  Lemma good_start dataset store : good store (pool_start dataset store).
  Proof.
    unfold good, pool_start. cbn. split; [|split; [|split; [|split]]]; try (intros; contradiction).
    intros u. split; [now left|]. intros [|(m & [] & _)]. assumption.
  Qed.
  (** nothing blocks, and nothing runs for ever *)
  Definition weight (p : pool) : nat :=
    (3 * length (p_pending p) + fold_right (fun x n => (match snd x with Checking => 2 | Processing => 1 end) + n) 0 (p_running p))%nat.
  Lemma fold_weight_app (l m : list (meta * stage)) :
    fold_right (fun x n => (match snd x with Checking => 2 | Processing => 1 end) + n)%nat 0%nat (l ++ m)
    = (fold_right (fun x n => (match snd x with Checking => 2 | Processing => 1 end) + n) 0 l + fold_right (fun x n => (match snd x with Checking => 2 | Processing => 1 end) + n) 0 m)%nat.
  Proof. induction l as [|a l IH]; [reflexivity|]. cbn [app fold_right]. rewrite IH. lia. Qed.
  Lemma step_decreases p q : step p q -> (weight q < weight p)%nat.
  Proof.
    intros H. destruct H; unfold weight; cbn [p_pending p_running]; rewrite ?fold_weight_app; cbn [fold_right snd length]; lia.
  Qed.
  Lemma step_possible p : (0 < cores)%nat -> ~ pool_done p -> exists q, step p q.
  Proof.
    intros Hc Hd. destruct p as [pending running store log]. destruct running as [|[m s] running].
    - destruct pending as [|m rest]; [exfalso; apply Hd; now split|]. eexists. apply StepTake. exact Hc.
    - destruct s.
      + destruct (check_item skip store m) as [e|] eqn:E.
        * eexists. apply (StepCheckDone ok skip cores pending [] running m e store log E).
        * eexists. apply (StepCheckGo ok skip cores pending [] running m store log E).
      + eexists. apply (StepProcess ok skip cores pending [] running m store log).
  Qed.
  Lemma pool_finishes p : (0 < cores)%nat -> exists q, steps p q /\ pool_done q.
  Proof.
    intros Hc. remember (weight p) as w eqn:E. revert p E. induction w as [w IH] using lt_wf_ind. intros p ->.
    assert (D : pool_done p \/ ~ pool_done p).
    { unfold pool_done. destruct (p_pending p); [|right; intros [? _]; discriminate]. destruct (p_running p); [now left|right; intros [_ ?]; discriminate]. }
    destruct D as [D|D]; [exists p; split; [constructor|exact D]|]. destruct (step_possible p Hc D) as [q Hq].
    destruct (IH (weight q) (step_decreases p q Hq) q eq_refl) as (r & Hr & Dr). exists r. split; [econstructor; eassumption|exact Dr].
  Qed.
End IngestFacts.

(** What every run of the multi-threaded and multi-process modes does, whatever the
    schedule: the log contains each item of the dataset exactly once; [Processed] items that
    succeed and nothing else are added to the store; a skipped item's document exists. *)
Lemma ingest_parallel ok skip cores dataset store store' log : ingest ok skip (Some cores) dataset store store' log ->
  Permutation dataset (map event_item log)
  /\ (forall u, In u store' <-> In u store \/ exists m, In (Processed m) log /\ m_url m = Some u /\ ok m = true)
  /\ (forall m, In (Skipped m) log -> skip = true /\ exists u, m_url m = Some u /\ In u store')
  /\ (forall m, In (Errored m) log -> m_url m = None) /\ (forall m, In (Processed m) log -> m_url m <> None).
Proof.
  intros (p & H & D & <- & <-). split; [eapply ingest_covers; eassumption|].
  pose proof (good_steps ok skip cores store _ p (good_start ok skip dataset store) H) as (G1 & G2 & G3 & G4 & _).
  split; [exact G1|]. split; [exact G2|]. split; [intros m I; now apply G3|exact G4].
Qed.
(** a failing item does not stop the others: every item whose processing succeeds exists at the end *)
Lemma ingest_complete ok skip cores dataset store store' log m u : ingest ok skip (Some cores) dataset store store' log ->
  In m dataset -> m_url m = Some u -> ok m = true -> In u store'.
Proof.
  intros H I Eu Eo. destruct (ingest_parallel _ _ _ _ _ _ _ H) as (P & G1 & G2 & G3 & _).
  apply (Permutation_in _ P) in I. apply in_map_iff in I as (e & Ee & I). destruct e as [x|x|x]; cbn in Ee; subst x.
  - destruct (G2 m I) as (_ & v & Ev & Iv). congruence.
  - apply G1. right. now exists m.
  - apply G3 in I. congruence.
Qed.
(** without skip_if_exists everything with a url is processed *)
Lemma ingest_all ok cores dataset store store' log m : ingest ok false (Some cores) dataset store store' log ->
  In m dataset -> m_url m <> None -> In (Processed m) log.
Proof.
  intros H I Eu. destruct (ingest_parallel _ _ _ _ _ _ _ H) as (P & G1 & G2 & G3 & _).
  apply (Permutation_in _ P) in I. apply in_map_iff in I as (e & Ee & I). destruct e as [x|x|x]; cbn in Ee; subst x.
  - now destruct (G2 m I).
  - exact I.
  - apply G3 in I. congruence.
Qed.
(** with distinct urls, exactly the items that did not exist are processed, whatever the schedule *)
Lemma NoDup_app_r {A} (l m : list A) : NoDup (l ++ m) -> NoDup m.
Proof. induction l as [|a l IH]; [auto|]. intros H. inversion H. auto. Qed.
Definition url_of (m : meta) : list Z := match m_url m with Some u => [u] | None => [] end.
Section Distinct.
  Variable ok : meta -> bool.
  Variable cores : nat.
  Variable store0 : list Z.
  Definition separate (p : pool) : Prop :=
    NoDup (flat_map url_of (held p))
    /\ (forall u, In u (p_store p) -> In u store0 \/ In u (flat_map url_of (map event_item (p_log p))))
    /\ (forall m u, In (Processed m) (p_log p) \/ In (m, Processing) (p_running p) -> m_url m = Some u -> ~ In u store0)
    /\ (forall m, In (Skipped m) (p_log p) -> exists u, m_url m = Some u /\ In u store0)
    /\ (forall u, In u store0 -> In u (p_store p)).
  Lemma flat_perm l m : Permutation l m -> Permutation (flat_map url_of l) (flat_map url_of m).
  Proof. intros H. now apply Permutation_flat_map. Qed.
  Lemma separate_step p q : separate p -> pool_step ok true cores p q -> separate q.
  Proof.
    intros (S0 & S1 & S2 & S3 & S4) H. assert (N : NoDup (flat_map url_of (held q))).
    { eapply Permutation_NoDup; [apply flat_perm; apply (step_held ok true cores p q H)|exact S0]. }
    split; [exact N|].
    destruct H as [m rest running store log Hc|pending before after m e store log Hc|pending before after m store log Hc|pending before after m store log];
      cbn [p_pending p_running p_store p_log] in *.
    - split; [exact S1|]. split; [|split; [exact S3|exact S4]]. intros x u [I|I] E; [now apply (S2 x u); [left|]|].
      apply in_app_or in I as [I|[[= _ ?]|[]]]. apply (S2 x u); auto.
    - split; [|split; [|split; [|exact S4]]].
      + intros u I. destruct (S1 u I) as [|I2]; [now left|right]. rewrite map_app, flat_map_app. apply in_or_app. now left.
      + intros x u [I|I] E; apply (S2 x u); [|exact E| |exact E].
        * left. apply in_app_or in I as [I|[I|[]]]; [exact I|]. subst e. unfold check_item in Hc. destruct (m_url m); [destruct (true && _)|]; discriminate.
        * right. apply in_app_or in I. apply in_or_app. cbn. tauto.
      + intros x I. apply in_app_or in I as [I|[I|[]]]; [now apply S3|]. subst e. unfold check_item in Hc. destruct (m_url m) as [u|] eqn:Eu; [|discriminate].
        destruct (true && exists_ store u) eqn:Es; [|discriminate]. injection Hc as <-. exists u. split; [exact Eu|]. cbn in Es. apply exists_In in Es.
        destruct (S1 u Es) as [|I2]; [assumption|exfalso].
        (* u would occur twice in the dataset *)
        unfold held in S0. cbn [p_pending p_running p_log] in S0. rewrite !flat_map_app in S0.
        apply NoDup_app_r in S0.
        assert (J : In u (flat_map url_of (map fst (before ++ (m, Checking) :: after)))).
        { apply in_flat_map. exists m. split; [apply in_map_iff; exists (m, Checking); split; [reflexivity|apply in_or_app; right; now left]|]. unfold url_of. rewrite Eu. now left. }
        clear - S0 I2 J. set (A := flat_map url_of (map fst (before ++ (m, Checking) :: after))) in *. set (B := flat_map url_of (map event_item log)) in *. clearbody A B.
        induction A as [|a A IH]; [contradiction|]. inversion S0 as [|? ? Hn Hd]; subst. destruct J as [->|J]; [apply Hn; apply in_or_app; now right|now apply IH].
    - split; [exact S1|]. split; [|split; [exact S3|exact S4]]. intros x u [I|I] E.
      + apply (S2 x u); [now left|exact E].
      + apply in_app_or in I as [I|[[= <-]|I]].
        * apply (S2 x u); [right; apply in_or_app; now left|exact E].
        * intros I0. apply S4 in I0. unfold check_item in Hc. rewrite E in Hc. apply exists_In in I0. rewrite I0 in Hc. discriminate.
        * apply (S2 x u); [right; apply in_or_app; right; now right|exact E].
    - split; [|split; [|split]].
      + intros u I. rewrite map_app, flat_map_app, in_app_iff. apply process_item_In in I as [I|[E _]].
        * destruct (S1 u I); tauto.
        * right. right. cbn [map flat_map event_item]. unfold url_of. rewrite E. now left.
      + intros x u [I|I] E; apply (S2 x u); [|exact E| |exact E].
        * apply in_app_or in I as [I|[[= <-]|[]]]; [now left|]. right. apply in_or_app. right. now left.
        * right. apply in_app_or in I. apply in_or_app. cbn. tauto.
      + intros x I. apply in_app_or in I as [I|[?|[]]]; [now apply S3|discriminate].
      + intros u I. apply process_item_In. left. now apply S4.
  Qed.
  Lemma separate_steps p q : separate p -> pool_steps ok true cores p q -> separate q.
  Proof. intros S H. induction H as [|p q r H _ IH]; [exact S|]. apply IH. now apply (separate_step p). Qed.
End Distinct.
Lemma ingest_new ok cores dataset store store' log : NoDup (flat_map url_of dataset) -> ingest ok true (Some cores) dataset store store' log ->
  (forall m u, In m dataset -> m_url m = Some u -> (In (Processed m) log <-> ~ In u store) /\ (In (Skipped m) log <-> In u store))
  /\ NoDup (flat_map url_of (map event_item log)).
Proof.
  intros ND H. pose proof H as (p & Hs & D & <- & <-).
  assert (S : separate store (pool_start dataset store)).
  { unfold separate, held, pool_start. cbn [p_pending p_running p_log p_store map]. cbn [app]. rewrite app_nil_r. split; [exact ND|]. split; [now left|]. split; [intros m u [[]|[]]|]. split; [intros m []|auto]. }
  pose proof (separate_steps ok cores store _ p S Hs) as (S0 & S1 & S2 & S3 & S4).
  destruct (ingest_parallel _ _ _ _ _ _ _ H) as (P & _ & _ & G3 & _). split.
  - intros m u I Eu. pose proof (Permutation_in _ P I) as I2. apply in_map_iff in I2 as (e & Ee & Ie). destruct e as [x|x|x]; cbn in Ee; subst x.
    + destruct (S3 m Ie) as (v & Ev & Iv). assert (v = u) by congruence. subst v. split; split; auto.
      * intros Ip. exfalso. apply (S2 m u) in Eu; [contradiction|now left].
      * contradiction.
    + assert (Nu : ~ In u store) by (apply (S2 m u); [now left|exact Eu]). split; split; auto; [|contradiction].
      intros Is. destruct (S3 m Is) as (v & Ev & Iv). congruence.
    + apply G3 in Ie. congruence.
  - eapply Permutation_NoDup; [apply flat_perm; exact P|exact ND].
Qed.
(** the default mode does nothing at all *)
Lemma ingest_default_refuted ok skip dataset store store' log : ingest ok skip None dataset store store' log -> store' = store /\ log = [].
Proof. intros H. now injection H as -> ->. Qed.
Lemma ingest_parallel_total ok skip cores dataset store : (0 < cores)%nat -> exists store' log, ingest ok skip (Some cores) dataset store store' log.
Proof.
  intros Hc. destruct (pool_finishes ok skip cores (pool_start dataset store) Hc) as (q & H & D). exists (p_store q), (p_log q). now exists q.
Qed.
(** two items with the same url can both be processed although skip_if_exists is set *)
Lemma ingest_duplicate_refuted : exists (m1 m2 : meta) store' log, m_url m1 = m_url m2 /\ m1 <> m2
  /\ ingest (fun _ => true) true (Some 2%nat) [m1; m2] [] store' log /\ In (Processed m1) log /\ In (Processed m2) log.
Proof.
  set (m1 := {| m_id := 1; m_url := Some 7 |}). set (m2 := {| m_id := 2; m_url := Some 7 |}).
  exists m1, m2, [7; 7], [Processed m1; Processed m2]. split; [reflexivity|]. split; [discriminate|]. split; [|cbn; auto].
  eexists. split; [|split; [|split]].
  - eapply StepsStep; [apply StepTake; cbn; lia|]. eapply StepsStep; [apply StepTake; cbn; lia|].
    eapply StepsStep; [apply (StepCheckGo _ _ _ _ [] [(m2, Checking)] m1); reflexivity|].
    eapply StepsStep; [apply (StepCheckGo _ _ _ _ [(m1, Processing)] [] m2); reflexivity|].
    eapply StepsStep; [apply (StepProcess _ _ _ _ [] [(m2, Processing)] m1)|].
    eapply StepsStep; [apply (StepProcess _ _ _ _ [] [] m2)|]. apply StepsRefl.
  - split; reflexivity.
  - reflexivity.
  - reflexivity.
Qed.

(** ** C51 *)
Lemma take_results_firstn {A} (data : list A) : forall n i, take_results n i data = firstn (Z.to_nat (n + 1 - i)) data.
Proof.
  induction data as [|x r IH]; intros n i; [now rewrite firstn_nil|]. cbn [take_results]. destruct (Z.ltb_spec n i).
  - replace (Z.to_nat (n + 1 - i)) with 0%nat by lia. reflexivity.
  - rewrite IH. replace (Z.to_nat (n + 1 - i)) with (S (Z.to_nat (n + 1 - (i + 1)))) by lia. reflexivity.
Qed.
Lemma nth_concat_cycle {A} (pages : list (list A)) k fuel : (k < length pages)%nat ->
  iter_results pages fuel (Some k) = concat (firstn fuel (skipn k pages)) ++ iter_results pages (fuel - (length pages - k)) None.
Proof.
  revert k. induction fuel as [|fuel IH]; intros k Hk; [reflexivity|]. cbn [iter_results].
  assert (Es : skipn k pages = nth k pages [] :: skipn (S k) pages).
  { clear - Hk. revert k Hk. induction pages as [|p pages IH]; intros k Hk; [cbn in Hk; lia|]. destruct k as [|k]; [reflexivity|]. cbn [skipn nth]. apply IH. cbn in Hk. lia. }
  rewrite Es. cbn [firstn concat]. rewrite <- app_assoc. f_equal. destruct (Nat.ltb_spec (S k) (length pages)) as [L|L].
  - rewrite IH by exact L. f_equal. f_equal. lia.
  - rewrite skipn_all2 by lia. rewrite firstn_nil. cbn [concat app]. f_equal. lia.
Qed.
Lemma iter_cycle {A} (pages : list (list A)) fuel : pages <> [] -> (length pages <= fuel)%nat ->
  iter_results pages fuel None = concat pages ++ iter_results pages (fuel - length pages) None.
Proof.
  intros Hp Hf. assert (L : (0 < length pages)%nat) by (destruct pages; [contradiction|cbn; lia]).
  transitivity (iter_results pages fuel (Some 0%nat)); [destruct fuel; reflexivity|]. rewrite nth_concat_cycle by exact L. cbn [skipn]. rewrite firstn_all2 by lia. f_equal. f_equal. lia.
Qed.
Lemma iter_many {A} (pages : list (list A)) k : forall fuel, pages <> [] -> (k * length pages <= fuel)%nat ->
  iter_results pages fuel None = concat (repeat (concat pages) k) ++ iter_results pages (fuel - k * length pages) None.
Proof.
  induction k as [|k IH]; intros fuel Hp Hf; [cbn; f_equal; lia|]. rewrite iter_cycle by (try assumption; lia). cbn [repeat concat]. rewrite <- app_assoc. f_equal.
  rewrite IH by (try assumption; lia). f_equal. f_equal. lia.
Qed.
Lemma nth_repeat_concat {A} (l : list A) d : forall k i, l <> [] -> (i < k * length l)%nat -> nth i (concat (repeat l k)) d = nth (i mod length l) l d.
Proof.
  induction k as [|k IH]; intros i Hl Hi; [lia|]. assert (L : (0 < length l)%nat) by (destruct l; [contradiction|cbn; lia]).
  cbn [repeat concat]. destruct (Nat.lt_ge_cases i (length l)) as [H|H].
  - rewrite app_nth1 by exact H. now rewrite Nat.mod_small.
  - rewrite app_nth2 by exact H. rewrite IH by (try assumption; lia). replace i with (i - length l + 1 * length l)%nat at 2 by lia. now rewrite Nat.mod_add by lia.
Qed.
Lemma length_concat_repeat {A} (l : list A) k : length (concat (repeat l k)) = (k * length l)%nat.
Proof. induction k as [|k IH]; [reflexivity|]. cbn [repeat concat]. rewrite app_length, IH. lia. Qed.
Lemma nth_firstn_lt {A} (X : list A) d : forall i m, (i < m)%nat -> nth i (firstn m X) d = nth i X d.
Proof.
  induction X as [|x X IH]; intros i m Hm; [now rewrite firstn_nil|]. destruct m as [|m]; [lia|]. destruct i as [|i]; [reflexivity|]. cbn [firstn nth]. apply IH. lia.
Qed.
(** one result more than asked for, and, once the results run out, the first ones again *)
Lemma freesound_results {A} (pages : list (list A)) (n : Z) (d : A) : concat pages <> [] -> -1 <= n ->
  exists fuel0, forall fuel, (fuel0 <= fuel)%nat ->
    freesound pages n fuel = map (fun i => nth (i mod length (concat pages)) (concat pages) d) (seq 0 (Z.to_nat (n + 1))).
Proof.
  intros Hp Hn. set (T := concat pages) in *. assert (L : (0 < length T)%nat) by (destruct T; [contradiction|cbn; lia]).
  assert (Hpp : pages <> []) by (intros ->; now apply Hp).
  set (m := Z.to_nat (n + 1)). exists (m * length pages)%nat. intros fuel Hf. unfold freesound. rewrite take_results_firstn. rewrite Z.sub_0_r. fold m.
  rewrite (iter_many pages m fuel Hpp Hf). fold T. rewrite firstn_app, length_concat_repeat.
  replace (m - m * length T)%nat with 0%nat by nia. cbn [firstn]. rewrite app_nil_r.
  apply nth_ext with (d := d) (d' := d).
  - rewrite firstn_length, length_concat_repeat, map_length, seq_length. nia.
  - intros i Hi. rewrite firstn_length, length_concat_repeat in Hi. assert (Hm : (i < m)%nat) by lia.
    rewrite (nth_indep (map _ _) d (nth (0 mod length T) T d)) by (rewrite map_length, seq_length; exact Hm).
    rewrite (map_nth (fun i => nth (i mod length T) T d)), seq_nth by exact Hm. cbn [Nat.add].
    rewrite <- (nth_repeat_concat T d m i Hp) by nia.
    now apply nth_firstn_lt.
Qed.
Lemma freesound_count {A} (pages : list (list A)) (n : Z) : concat pages <> [] -> 0 <= n ->
  exists fuel0, forall fuel, (fuel0 <= fuel)%nat -> Zlen (freesound pages n fuel) = n + 1.
Proof.
  intros Hp Hn. destruct (concat pages) as [|d r] eqn:E; [contradiction|]. destruct (freesound_results pages n d) as (f0 & H); [now rewrite E|lia|].
  exists f0. intros fuel Hf. rewrite H by exact Hf. unfold Zlen. rewrite map_length, seq_length. lia.
Qed.
Lemma freesound_duplicates_refuted : exists (pages : list (list Z)) fuel, NoDup (concat pages) /\ freesound pages 5 fuel = [10; 20; 10; 20; 10; 20].
Proof. exists [[10]; [20]], 10%nat. split; [repeat constructor; cbn; intuition discriminate|reflexivity]. Qed.
Lemma freesound_no_results {A} (k : nat) n fuel : freesound (repeat (@nil A) k) n fuel = [].
Proof.
  unfold freesound. replace (iter_results (repeat (@nil A) k) fuel None) with (@nil A); [reflexivity|]. symmetry.
  assert (G : forall link, iter_results (repeat (@nil A) k) fuel link = []); [|apply G]. induction fuel as [|fuel IH]; intros link; [reflexivity|].
  cbn [iter_results]. rewrite IH, app_nil_r. set (j := match link with Some k0 => k0 | None => O end). clearbody j.
  clear. revert j. induction k as [|k IH]; intros j; [destruct j; reflexivity|]. destruct j as [|j]; [reflexivity|]. apply IH.
Qed.
Lemma composite_concat {A} (datasets : list (list A)) : composite datasets = concat datasets.
Proof. induction datasets as [|d r IH]; [reflexivity|]. cbn. now rewrite IH. Qed.
Lemma composite_In {A} (datasets : list (list A)) x : In x (composite datasets) <-> exists d, In d datasets /\ In x d.
Proof.
  rewrite composite_concat. split.
  - intros I. apply in_concat in I as (d & Id & Ix). now exists d.
  - intros (d & Id & Ix). apply in_concat. now exists d.
Qed.
Lemma directory_In {A} (entries : list (A * bool)) x : In x (directory entries) <-> In (x, false) entries.
Proof.
  unfold directory. rewrite in_map_iff. split.
  - intros ([y b] & <- & I). apply filter_In in I as [I E]. destruct b; [discriminate|exact I].
  - intros I. exists (x, false). split; [reflexivity|]. apply filter_In. now split.
Qed.
Definition ia_sound (files : list ia_file) : Prop :=
  forall f, In f files -> f_pass f = true -> f_source f = Original \/ exists k g, f_source f = Derivative k /\ ia_find files k = Some g.
Lemma internet_archive_all (files : list ia_file) : ia_sound files ->
  map fst (fst (internet_archive files)) = map f_key (filter f_pass files) /\ snd (internet_archive files) = None.
Proof.
  intros S. unfold internet_archive, ia_sound in *.
  assert (G : forall rest, (forall f, In f rest -> In f files) -> map fst (fst (ia_iter files rest)) = map f_key (filter f_pass rest) /\ snd (ia_iter files rest) = None).
  { induction rest as [|f r IH]; intros Hin; [now split|]. destruct (IH (fun g I => Hin g (or_intror I))) as [I1 I2]. cbn [ia_iter filter].
    destruct (f_pass f) eqn:P; [|now split]. unfold ia_metadata. destruct (S f (Hin f (or_introl eq_refl)) P) as [->|(k & g & -> & ->)];
      destruct (ia_iter files r) as [l e]; cbn in *; split; try congruence; now f_equal. }
  apply G. auto.
Qed.
(** each passing file comes with the metadata of its own original *)
Lemma internet_archive_metadata (files : list ia_file) k m : In (k, m) (fst (internet_archive files)) ->
  exists f g, In f files /\ f_pass f = true /\ f_key f = k /\ In g files /\ f_key g = m /\
    (f_source f = Original /\ g = f \/ f_source f = Derivative m).
Proof.
  unfold internet_archive.
  assert (G : forall rest, (forall f, In f rest -> In f files) -> In (k, m) (fst (ia_iter files rest)) ->
    exists f g, In f files /\ f_pass f = true /\ f_key f = k /\ In g files /\ f_key g = m /\
    (f_source f = Original /\ g = f \/ f_source f = Derivative m)).
  { induction rest as [|f r IH]; intros Hin; [intros []|]. cbn [ia_iter]. destruct (f_pass f) eqn:P; [|apply IH; intros g I; apply Hin; now right].
    unfold ia_metadata. destruct (f_source f) as [|q|] eqn:F; [| |intros []].
    - destruct (ia_iter files r) as [l e]. intros [[= <- <-]|I]; [|apply IH; [intros g J; apply Hin; now right|exact I]].
      exists f, f. split; [now apply Hin; left|]. split; [exact P|]. split; [reflexivity|]. split; [now apply Hin; left|]. split; [reflexivity|]. left. now split.
    - unfold ia_find. destruct (find _ files) as [g|] eqn:Fi; [|intros []]. apply find_some in Fi as [Ig Eg]. apply Z.eqb_eq in Eg.
      destruct (ia_iter files r) as [l e]. intros [[= <- <-]|I]; [|apply IH; [intros g' J; apply Hin; now right|exact I]].
      exists f, g. split; [now apply Hin; left|]. split; [exact P|]. split; [reflexivity|]. split; [exact Ig|]. split; [reflexivity|]. right. now rewrite Eg. }
  apply G. auto.
Qed.
(** one file without its original loses all the files after it *)
Lemma internet_archive_refuted : exists files f, In f files /\ f_pass f = true /\ f_source f = Original /\ ~ In (f_key f) (map fst (fst (internet_archive files))).
Proof.
  exists [{| f_key := 1; f_pass := true; f_source := Derivative 9 |}; {| f_key := 2; f_pass := true; f_source := Original |}], {| f_key := 2; f_pass := true; f_source := Original |}.
  split; [right; now left|]. split; [reflexivity|]. split; [reflexivity|]. cbn. tauto.
Qed.

(** ** C52 *)
(** where a call can be, and what is in the file then *)
Definition prefix_of (c body : list Z) : Prop := exists rest, body = c ++ rest.
Definition at_point (f : fs) (name : Z) (r : response) (k : machine) : Prop :=
  (forall n, n <> name -> k_fs k n = f n) /\
  match k_pc k with
  | AtCheck | AtOpen => k_fs k name = None
  | AtGet | AtHeader => k_fs k name = Some []
  | AtWrite j => (j <= length (r_chunks r))%nat /\ k_fs k name = Some (concat (firstn j (r_chunks r)))
  | Finished Returned => k_fs k name = Some (concat (r_chunks r)) /\ r_connects r = true /\ r_length r <> None /\ r_broken r = false
  | Finished Raised => exists j, k_fs k name = Some (concat (firstn j (r_chunks r)))
  | Finished Killed => False
  end.
Lemma put_same f n c : put f n c n = Some c.
Proof. unfold put. now rewrite Z.eqb_refl. Qed.
Lemma put_other f n c m : m <> n -> put f n c m = f m.
Proof. intros H. unfold put. destruct (Z.eqb_spec m n); [contradiction|reflexivity]. Qed.
Definition connected (r : response) (k : machine) : Prop :=
  match k_pc k with AtHeader => r_connects r = true | AtWrite _ => r_connects r = true /\ r_length r <> None | _ => True end.
Lemma at_point_step f name r k : at_point f name r k -> connected r k -> at_point f name r (local_step name r k) /\ connected r (local_step name r k).
Proof.
  destruct k as [p g]. unfold at_point, connected, local_step. cbn [k_pc k_fs]. intros [H1 H2] HC. destruct p as [| | | |j|o].
  - rewrite H2. cbn. auto.
  - cbn. split; [|exact I]. split; [intros n Hn; rewrite put_other; auto|apply put_same].
  - destruct (r_connects r) eqn:E; cbn; [auto|]. split; [|exact I]. split; [exact H1|]. now exists 0%nat.
  - destruct (r_length r) eqn:E; cbn; [split; [split; [exact H1|split; [lia|exact H2]]|split; [exact HC|discriminate]]|]. split; [|exact I]. split; [exact H1|]. now exists 0%nat.
  - destruct H2 as [Hj H2], HC as [HC HL]. destruct (nth_error (r_chunks r) j) as [c|] eqn:E.
    + assert (Hlt : (j < length (r_chunks r))%nat) by (apply nth_error_Some; congruence). cbn [k_pc k_fs].
      assert (O : forall n, n <> name -> put g name (concat (firstn (S j) (r_chunks r))) n = f n) by (intros n Hn; rewrite put_other; auto).
      destruct (r_length r) as [z|] eqn:EL; [|contradiction]. destruct z; (split; [split; [exact O|]|]); rewrite ?put_same; eauto; (split; [lia|reflexivity]) || (split; [exact HC|discriminate]).
    + cbn [k_pc k_fs]. apply nth_error_None in E. assert (j = length (r_chunks r)) by lia. subst j. rewrite firstn_all2 in H2 by lia.
      destruct (r_broken r) eqn:EB; (split; [split; [exact H1|]|exact I]); [|repeat split; assumption]. exists (length (r_chunks r)). now rewrite firstn_all2 by lia.
  - cbn. auto.
Qed.
Lemma at_point_run f name r s : forall k, at_point f name r k -> connected r k -> at_point f name r (local_run name r s k) /\ connected r (local_run name r s k).
Proof. induction s as [|s IH]; intros k A C; [auto|]. cbn [local_run]. destruct (at_point_step f name r k A C). now apply IH. Qed.
(** how far a call still has to go *)
Definition togo (r : response) (p : pc) : nat :=
  match p with AtCheck => length (r_chunks r) + 5 | AtOpen => length (r_chunks r) + 4 | AtGet => length (r_chunks r) + 3 | AtHeader => length (r_chunks r) + 2
  | AtWrite j => length (r_chunks r) - j + 1 | Finished _ => 0 end.
Lemma step_togo name r k : (match k_pc k with AtWrite j => j <= length (r_chunks r) | _ => True end)%nat ->
  (togo r (k_pc (local_step name r k)) <= togo r (k_pc k) - 1)%nat /\ (match k_pc (local_step name r k) with AtWrite j => j <= length (r_chunks r) | _ => True end)%nat.
Proof.
  destruct k as [p g]. unfold local_step. cbn [k_pc k_fs]. intros H. destruct p as [| | | |j|o]; cbn [k_pc togo].
  - destruct (g name); cbn; split; lia || exact I.
  - split; [lia|exact I].
  - destruct (r_connects r); cbn; split; lia || exact I.
  - destruct (r_length r); cbn; split; lia || exact I.
  - destruct (nth_error (r_chunks r) j) as [c|] eqn:E; cbn [k_pc].
    + assert (Hlt : (j < length (r_chunks r))%nat) by (apply nth_error_Some; congruence). destruct (r_length r) as [[| |]|]; cbn; split; lia || exact I.
    + destruct (r_broken r); cbn; split; lia || exact I.
  - cbn. split; [lia|exact I].
Qed.
Lemma run_togo name r s : forall k, (match k_pc k with AtWrite j => j <= length (r_chunks r) | _ => True end)%nat ->
  (togo r (k_pc (local_run name r s k)) <= togo r (k_pc k) - s)%nat.
Proof.
  induction s as [|s IH]; intros k H; [cbn; lia|]. cbn [local_run]. destruct (step_togo name r k H) as [A B]. specialize (IH _ B). lia.
Qed.
Lemma call_finishes name r f : exists o, k_pc (local_run name r (total_steps r) {| k_pc := AtCheck; k_fs := f |}) = Finished o.
Proof.
  pose proof (run_togo name r (total_steps r) {| k_pc := AtCheck; k_fs := f |} I) as H. unfold total_steps in *. cbn [k_pc togo] in H.
  destruct (k_pc (local_run _ _ _ _)) as [| | | |j|o]; cbn [togo] in H; try lia. now exists o.
Qed.
Lemma run_cached name r s f c : f name = Some c -> let k := local_run name r s {| k_pc := AtCheck; k_fs := f |} in k_fs k = f /\ (s = 0%nat \/ k_pc k = Finished Returned).
Proof.
  intros E. destruct s as [|s]; [cbn; auto|]. cbn [local_run local_step k_pc k_fs]. rewrite E.
  assert (G : forall n, local_run name r n {| k_pc := Finished Returned; k_fs := f |} = {| k_pc := Finished Returned; k_fs := f |}) by (induction n as [|n IH]; [reflexivity|exact IH]).
  rewrite G. cbn. auto.
Qed.
(** a file that is there is returned as it is, and no call ever changes it *)
Lemma cached_stays f name c call : f name = Some c -> fst (ensure_local_file f name call) name = Some c.
Proof.
  intros E. destruct call as [r|r s fl]; cbn [ensure_local_file fst].
  - now rewrite (proj1 (run_cached name r (total_steps r) f c E)).
  - destruct (run_cached name r s f c E) as [A B]. destruct s as [|s].
    + exact E.
    + destruct B as [B|B]; [discriminate|]. rewrite B. cbn [fst]. now rewrite A.
Qed.
Lemma cached_returned f name c r : f name = Some c -> ensure_local_file f name (Call r) = (f, Returned).
Proof.
  intros E. cbn [ensure_local_file]. destruct (run_cached name r (total_steps r) f c E) as [A [B|B]]; [unfold total_steps in B; lia|]. now rewrite A, B.
Qed.
(** the first call that ends normally leaves the whole resource *)
Lemma fresh_complete f name r f' : f name = None -> ensure_local_file f name (Call r) = (f', Returned) -> f' name = Some (concat (r_chunks r)).
Proof.
  intros E H. cbn [ensure_local_file] in H. set (k := local_run _ _ _ _) in H. assert (A : at_point f name r {| k_pc := AtCheck; k_fs := f |}) by (split; [auto|exact E]).
  destruct (at_point_run f name r (total_steps r) _ A I) as [[_ B] _]. fold k in B. destruct (call_finishes name r f) as [o Eo]. fold k in Eo.
  rewrite Eo in B, H. cbn [outcome_of] in H. injection H as <- ->. apply B.
Qed.
Lemma fresh_succeeds f name r n : f name = None -> r_connects r = true -> r_length r = Some n -> n <> 0 -> r_broken r = false ->
  snd (ensure_local_file f name (Call r)) = Returned.
Proof.
  intros E Hc Hl Hn Hb. cbn [ensure_local_file snd]. destruct (call_finishes name r f) as [o Eo]. rewrite Eo. cbn [outcome_of].
  assert (G : forall s j g o, (j <= length (r_chunks r))%nat -> k_pc (local_run name r s {| k_pc := AtWrite j; k_fs := g |}) = Finished o -> o = Returned).
  { induction s as [|s IH]; intros j g o' Hj Ho; [discriminate|]. cbn [local_run] in Ho. unfold local_step in Ho. cbn [k_pc k_fs] in Ho.
    destruct (nth_error (r_chunks r) j) as [c|] eqn:En.
    - assert (Hlt : (j < length (r_chunks r))%nat) by (apply nth_error_Some; congruence). rewrite Hl in Ho. destruct n; [contradiction| |]; eapply IH; try exact Ho; lia.
    - rewrite Hb in Ho. assert (F : forall m, k_pc (local_run name r m {| k_pc := Finished Returned; k_fs := g |}) = Finished Returned) by (induction m as [|m IHm]; [reflexivity|exact IHm]).
      rewrite F in Ho. congruence. }
  unfold total_steps in Eo. replace (length (r_chunks r) + 5)%nat with (S (S (S (S (S (length (r_chunks r))))))) in Eo by lia.
  cbn [local_run] in Eo. unfold local_step at 5 in Eo. cbn [k_pc k_fs] in Eo. rewrite E in Eo. unfold local_step at 4 in Eo. cbn [k_pc k_fs] in Eo.
  unfold local_step at 3 in Eo. cbn [k_pc k_fs] in Eo. rewrite Hc in Eo. unfold local_step at 2 in Eo. cbn [k_pc k_fs] in Eo. rewrite Hl in Eo.
  destruct (step_togo name r {| k_pc := AtWrite 0; k_fs := put f name [] |} ltac:(cbn; lia)) as [_ _].
  apply (G (S (length (r_chunks r))) 0%nat (put f name []) o); [lia|exact Eo].
Qed.
(** whatever happens, what is on the disk is a beginning of the resource, or nothing *)
Lemma firstn_prefix {A} n (l : list A) : exists rest, l = firstn n l ++ rest.
Proof. exists (skipn n l). now rewrite firstn_skipn. Qed.
Lemma concat_firstn_prefix (l : list (list Z)) j : prefix_of (concat (firstn j l)) (concat l).
Proof. exists (concat (skipn j l)). rewrite <- concat_app. now rewrite firstn_skipn. Qed.
Definition response_of (c : call_) : response := match c with Call r => r | KilledCall r _ _ => r end.
Lemma fresh_prefix f name call : f name = None ->
  let f' := fst (ensure_local_file f name call) in
  (f' name = None \/ exists c, f' name = Some c /\ prefix_of c (concat (r_chunks (response_of call)))) /\ forall n, n <> name -> f' n = f n.
Proof.
  intros E. assert (A : forall r, at_point f name r {| k_pc := AtCheck; k_fs := f |}) by (intros r; split; [auto|exact E]).
  assert (P : forall r s, let k := local_run name r s {| k_pc := AtCheck; k_fs := f |} in
    (k_fs k name = None \/ exists c, k_fs k name = Some c /\ prefix_of c (concat (r_chunks r))) /\ forall n, n <> name -> k_fs k n = f n).
  { intros r s. destruct (at_point_run f name r s _ (A r) I) as [[B1 B2] _]. cbn zeta. split; [|exact B1].
    destruct (k_pc _) as [| | | |j|[| |]]; try (now left); right.
    - exists []. split; [exact B2|]. now exists (concat (r_chunks r)).
    - exists []. split; [exact B2|]. now exists (concat (r_chunks r)).
    - eexists. split; [apply B2|]. apply concat_firstn_prefix.
    - eexists. split; [apply B2|]. exists []. now rewrite app_nil_r.
    - destruct B2 as [j B2]. eexists. split; [exact B2|]. apply concat_firstn_prefix.
    }
  destruct call as [r|r s fl]; cbn [ensure_local_file fst response_of]; [apply P|]. specialize (P r s). cbn zeta in P. set (k := local_run _ _ _ _) in *. destruct P as [P1 P2].
  assert (Q : let f' := match k_fs k name with Some c => put (k_fs k) name (firstn fl c) | None => k_fs k end in
    (f' name = None \/ exists c, f' name = Some c /\ prefix_of c (concat (r_chunks r))) /\ forall n, n <> name -> f' n = f n).
  { cbn zeta. destruct (k_fs k name) as [c|] eqn:Ec; [|split; [now left|exact P2]]. split; [|intros n Hn; rewrite put_other; auto].
    destruct P1 as [P1|(c' & [= <-] & rest & Er)]; [discriminate|]. right. exists (firstn fl c). split; [apply put_same|]. exists (skipn fl c ++ rest). rewrite app_assoc, firstn_skipn. exact Er. }
  destruct (k_pc k); cbn [fst]; auto.
Qed.
(** the first call that opened the file decides what every later call returns *)
Lemma calls_cached f name c cs : f name = Some c -> fst (calls f name cs) name = Some c.
Proof.
  revert f. induction cs as [|a cs IH]; intros f E; [exact E|]. cbn [calls]. pose proof (cached_stays f name c a E) as H.
  destruct (ensure_local_file f name a) as [f1 o]. specialize (IH f1 H). destruct (calls f1 name cs) as [f2 os]. exact IH.
Qed.
Lemma first_call_decides f name c cs r : fst (ensure_local_file f name c) name <> None ->
  let f1 := fst (ensure_local_file f name c) in
  snd (ensure_local_file (fst (calls f1 name cs)) name (Call r)) = Returned /\ fst (ensure_local_file (fst (calls f1 name cs)) name (Call r)) name = f1 name.
Proof.
  intros H. cbn zeta. destruct (fst (ensure_local_file f name c) name) as [b|] eqn:E; [|contradiction].
  pose proof (calls_cached _ name b cs E) as K. rewrite (cached_returned _ name b r K). cbn. split; [reflexivity|exact K].
Qed.
(** so for every resource there is a crash point after which a truncated file is served for ever *)
Lemma crash_refuted name body cs r' : body <> [] ->
  let r := {| r_connects := true; r_length := Some (Zlen body); r_chunks := [body]; r_broken := false |} in
  let f1 := fst (ensure_local_file (fun _ => None) name (KilledCall r 2 0)) in
  let f2 := fst (calls f1 name cs) in
  ensure_local_file f2 name (Call r') = (f2, Returned) /\ f2 name = Some [] /\ concat (r_chunks r) = body.
Proof.
  intros Hb. cbn zeta. set (r := {| r_connects := true; r_length := Some (Zlen body); r_chunks := [body]; r_broken := false |}).
  assert (E : fst (ensure_local_file (fun _ => None) name (KilledCall r 2 0)) name = Some []).
  { cbn [ensure_local_file local_run local_step k_pc k_fs]. rewrite put_same. cbn [firstn fst]. apply put_same. }
  pose proof (calls_cached _ name [] cs E) as K. split; [now apply cached_returned with (c := [])|]. split; [exact K|]. cbn. apply app_nil_r.
Qed.
(** no crash is needed: a refused connection or a response without Content-Length is enough *)
Lemma refused_call f name r : f name = None -> r_connects r = false \/ r_length r = None ->
  ensure_local_file f name (Call r) = (put f name [], Raised).
Proof.
  intros E H. cbn [ensure_local_file]. unfold total_steps. replace (length (r_chunks r) + 5)%nat with (4 + S (length (r_chunks r)))%nat by lia.
  assert (G : forall m g o, local_run name r m {| k_pc := Finished o; k_fs := g |} = {| k_pc := Finished o; k_fs := g |}) by (induction m as [|m IHm]; intros; [reflexivity|apply IHm]).
  assert (S1 : local_step name r {| k_pc := AtCheck; k_fs := f |} = {| k_pc := AtOpen; k_fs := f |}) by (unfold local_step; cbn [k_pc k_fs]; now rewrite E).
  assert (S2 : local_step name r {| k_pc := AtOpen; k_fs := f |} = {| k_pc := AtGet; k_fs := put f name [] |}) by reflexivity.
  assert (S3 : local_run name r 2 {| k_pc := AtGet; k_fs := put f name [] |} = {| k_pc := Finished Raised; k_fs := put f name [] |}).
  { cbn [local_run]. unfold local_step at 2. cbn [k_pc k_fs]. destruct (r_connects r); [|reflexivity]. destruct H as [H|H]; [discriminate|]. unfold local_step. cbn [k_pc k_fs]. now rewrite H. }
  assert (R : forall a b k, local_run name r (a + b) k = local_run name r b (local_run name r a k)) by (induction a as [|a IH]; intros; [reflexivity|apply IH]).
  rewrite R. change 4%nat with (2 + 2)%nat. rewrite R. change (local_run name r 2 {| k_pc := AtCheck; k_fs := f |}) with (local_step name r (local_step name r {| k_pc := AtCheck; k_fs := f |})).
  rewrite S1, S2, S3, G. reflexivity.
Qed.
Lemma refused_refuted f name r r' : f name = None -> r_connects r = false \/ r_length r = None ->
  let '(f1, o) := ensure_local_file f name (Call r) in o = Raised /\ ensure_local_file f1 name (Call r') = (f1, Returned) /\ f1 name = Some [].
Proof.
  intros E H. rewrite (refused_call f name r E H). split; [reflexivity|]. split; [apply (cached_returned (put f name []) name [] r' (put_same f name []))|apply put_same].
Qed.
(** two resources with the same last path segment are confused *)
Lemma same_name_refuted : exists (p1 p2 : list Z) r1 r2, p1 <> p2 /\ file_name p1 0 = file_name p2 0 /\ concat (r_chunks r1) <> concat (r_chunks r2) /\
  let f1 := fst (ensure_local_file (fun _ => None) (file_name p1 0) (Call r1)) in
  snd (ensure_local_file f1 (file_name p2 0) (Call r2)) = Returned /\ fst (ensure_local_file f1 (file_name p2 0) (Call r2)) (file_name p2 0) = Some (concat (r_chunks r1)).
Proof.
  exists [1; 3], [2; 3], {| r_connects := true; r_length := Some 1; r_chunks := [[7]]; r_broken := false |}, {| r_connects := true; r_length := Some 1; r_chunks := [[8]]; r_broken := false |}.
  split; [discriminate|]. split; [reflexivity|]. split; [discriminate|]. split; reflexivity.
Qed.
(** the other cache never gets as far as a download *)
Lemma dataset_cache_refuted {A} (u : A) urls : dataset_cache (u :: urls) = ([], Some TypeError).
Proof. reflexivity. Qed.
(** examples: the hypotheses above are met by ordinary calls *)
Example ingest_example : exists store' log,
  ingest (fun m => negb (m_id m =? 3)) true (Some 4%nat) [{| m_id := 1; m_url := Some 10 |}; {| m_id := 2; m_url := Some 20 |}; {| m_id := 3; m_url := Some 30 |}] [20] store' log.
Proof. apply ingest_parallel_total. lia. Qed.
Example fetch_example : let r := {| r_connects := true; r_length := Some 5; r_chunks := [[1; 2; 3]; [4; 5]]; r_broken := false |} in
  let '(f1, o) := ensure_local_file (fun _ => None) 9 (Call r) in o = Returned /\ f1 9 = Some [1; 2; 3; 4; 5] /\ f1 8 = None.
Proof. vm_compute. auto. Qed.
Example fetch_killed_example : let r := {| r_connects := true; r_length := Some 5; r_chunks := [[1; 2; 3]; [4; 5]]; r_broken := false |} in
  let '(f1, o) := ensure_local_file (fun _ => None) 9 (KilledCall r 5 2) in o = Killed /\ f1 9 = Some [1; 2].
Proof. vm_compute. auto. Qed.
