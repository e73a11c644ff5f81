(** Proofs about Monitor.v: what the clients and the history see. *)
From Coq Require Import ZArith String Lia.
From Verif Require Import PyBase PyFacts PyMore Ui Monitor MonitorProofs MonitorProofs2.
Local Open Scope list_scope.
Local Open Scope nat_scope.

Section Schedules.
  Context {J : Type} (int : Z -> J) (m : monitor).
  Notation world := (world J).
  Notation report := (batch_report J).
  Notation step := (step int m).
  Notation run := (run int m).
  Notation told := (told int m).
  Lemma run_app a b (w : world) : run (a ++ b) w = match run a w with Some w' => run b w' | None => None end.
  Proof. revert w. induction a as [|t a IH]; intros w; [reflexivity|]. cbn. destruct (step t w); [apply IH|reflexivity]. Qed.
  Lemma run_invariant (P : world -> Prop) : (forall t w w', P w -> step t w = Some w' -> P w') -> forall ts w w', P w -> run ts w = Some w' -> P w'.
  Proof. intros S0 ts. induction ts as [|t ts IH]; intros w w' H E; cbn in E; [injection E as <-; exact H|]. destruct (step t w) as [w1|] eqn:E1; [|discriminate]. apply (IH w1); [now apply (S0 t w)|exact E]. Qed.
  Lemma once (w : world) pos i c h : wired w -> live (skipn pos (table w)) = c :: live (skipn (S i) (table w)) -> c = Client h -> ~ In (Client h) (live (skipn (S i) (table w))).
  Proof.
    intros (N & _) E -> H. rewrite <- (firstn_skipn pos (table w)), live_app, clients_app, E in N. cbn [clients flat_map List.app] in N. apply NoDup_remove_2 in N. apply N. apply in_or_app. right. now apply clients_in.
  Qed.

  (** ** Whatever the schedule: only messages about batches, in order, none twice *)
  Definition seen_by (rs : list report) (ts : list (list (string * J))) : Prop := exists seen, among seen rs /\ told seen ts.
  Lemma seen_more rs r ts : seen_by rs ts -> seen_by (rs ++ [r]) ts.
  Proof. intros (s & A & T). exists s. split; [|exact T]. rewrite <- (app_nil_r s). apply among_app; [exact A|apply among_none]. Qed.
  Lemma seen_next rs r ts us : seen_by rs ts -> told [r] us -> seen_by (rs ++ [r]) (ts ++ us).
  Proof. intros (s & A & T) U. exists (s ++ [r]). split; [apply among_app; [exact A|apply among_refl]|now apply told_app]. Qed.
  Definition heard (batches : list report) (w : world) : Prop :=
    wired w /\ exists rest, batches = reported w ++ rest /\
    match trainer w with
    | Between todo => rest = todo /\ forall h, seen_by (reported w) (inbox w h)
    | Telling r pos used todo => rest = r :: todo /\ forall h, seen_by (reported w) (inbox w h) \/
        (seen_by (reported w ++ [r]) (inbox w h) /\ In h (connected w) /\ ~ In (Client h) (live (skipn pos (table w))))
    | Ended _ => exists r todo, rest = r :: todo /\ forall h, seen_by (reported w ++ [r]) (inbox w h)
    end.
  Lemma heard_step batches t w w' : heard batches w -> step t w = Some w' -> heard batches w'.
  Proof.
    intros (W & rest & Eb & H) E. pose proof (wired_step int m _ _ _ W E) as W'. split; [exact W'|]. clear W'. destruct t as [|h k|h|h]; cbn [Monitor.step] in E.
    - unfold tell in E. destruct (trainer w) as [[|r todo]|r pos used todo|e]; try discriminate.
      + injection E as <-. exists rest. cbn. split; [exact Eb|]. destruct H as [-> H]. split; [reflexivity|]. intros h. left. apply H.
      + destruct H as [-> H]. assert (D : forall h, seen_by (reported w ++ [r]) (inbox w h)) by (intros h; destruct (H h) as [X|[X _]]; [now apply seen_more|exact X]).
        destruct (negb _); [injection E as <-; exists (r :: todo); cbn; split; [exact Eb|]; exists r, todo; auto|]. destruct (next_entry (table w) pos) as [[i c]|] eqn:En.
        * destruct (next_some _ _ _ _ En) as [Pi L]. destruct (call int m c r w) as [w1|e] eqn:Ec; injection E as <-; exists (r :: todo); [|cbn; split; [exact Eb|]; exists r, todo; auto].
          destruct (call_frame _ _ _ _ _ _ Ec) as (T & Co & Go & Re & _ & _ & Ib). cbn. rewrite Re, T, Co. split; [exact Eb|]. split; [reflexivity|]. intros h.
          assert (K : c = Client h \/ c <> Client h) by (destruct c as [|x|n]; try (right; discriminate); destruct (Nat.eq_dec x h) as [->|N]; [now left|right; congruence]). destruct K as [->|Nc].
          -- right. destruct (call_inbox _ _ _ _ _ _ Ec) as (us & Eu & Tu). rewrite Eu. destruct (H h) as [X|(_ & _ & X)]; [|elim X; rewrite L; now left]. split; [now apply seen_next|]. split; [apply (proj1 (proj2 W)); apply (live_skip_in _ pos); rewrite L; now left|]. now apply (once w pos i _ h W L).
          -- rewrite (Ib h Nc). destruct (H h) as [X|(X & Y & Z)]; [now left|]. right. split; [exact X|]. split; [exact Y|]. intros Q. apply Z. rewrite L. now right.
        * injection E as <-. exists todo. cbn. split; [rewrite <- app_assoc; exact Eb|]. split; [reflexivity|exact D].
    - destruct (mem_nat h (connected w)) eqn:M; [discriminate|]. apply mem_out in M. injection E as <-. exists rest. cbn. split; [exact Eb|]. destruct (trainer w) as [todo|r pos used todo|e]; [exact H| |exact H]. destruct H as [-> H]. split; [reflexivity|]. intros x. destruct (H x) as [X|(X & Y & Z)]; [now left|]. right. split; [exact X|]. split; [now right|]. intros Q. rewrite skipn_app, live_app in Q. apply in_app_or in Q as [Q|Q].
      + apply Z. destruct k; [now apply live_compact|exact Q].
      + assert (B : In (Client x) [Client h]). { change [Client h] with (live [Some (Client h)]). now apply live_skip_in in Q. } destruct B as [[= ->]|[]]. contradiction.
    - destruct (mem_nat h (connected w) && negb (mem_nat h (gone w)))%bool; [|discriminate]. injection E as <-. exists rest. cbn. split; [exact Eb|exact H].
    - destruct (mem_nat h (gone w) && registered h w)%bool; [|discriminate]. injection E as <-. exists rest. cbn. split; [exact Eb|]. destruct (trainer w) as [todo|r pos used todo|e]; [exact H| |exact H]. destruct H as [-> H]. split; [reflexivity|]. intros x. destruct (H x) as [X|(X & Y & Z)]; [now left|]. right. split; [exact X|]. split; [exact Y|]. intros Q. rewrite skipn_drop in Q. apply live_drop in Q as [Q _]. contradiction.
  Qed.
  Theorem delivered before after batches ts w : run ts (start before after batches) = Some w ->
    exists rest, batches = reported w ++ rest /\ forall h, exists seen, among seen (reported w ++ firstn 1 rest) /\ told seen (inbox w h).
  Proof.
    intros E. assert (H : heard batches w).
    { apply (run_invariant (heard batches) (fun t w w' => heard_step batches t w w') ts (start before after batches)); [|exact E]. split; [apply wired_start|]. exists batches. cbn. split; [reflexivity|]. split; [reflexivity|]. intros h. exists []. split; constructor. }
    destruct H as (_ & rest & Eb & H). exists rest. split; [exact Eb|]. destruct (trainer w) as [todo|r pos used todo|e].
    - destruct H as [-> H]. intros h. destruct todo as [|r todo]; cbn [firstn]; [rewrite app_nil_r; apply H|]. now apply seen_more.
    - destruct H as [-> H]. intros h. cbn [firstn]. destruct (H h) as [X|[X _]]; [now apply seen_more|exact X].
    - destruct H as (r & todo & -> & H). exact H.
  Qed.
  (** ** A client that left hears nothing any more *)
  Theorem left_silent before after batches ts h w us w' : run ts (start before after batches) = Some w -> In h (connected w) -> registered h w = false -> run us w = Some w' -> inbox w' h = inbox w h.
  Proof.
    intros _ C R E. apply (run_invariant (fun x => In h (connected x) /\ ~ In (Client h) (live (table x)) /\ inbox x h = inbox w h)) with (ts := us) (w := w) (w' := w') in E; [tauto| |].
    - clear E w'. intros t x x' (C' & N & I) E. destruct t as [|h' k|h'|h']; cbn [Monitor.step] in E.
      + unfold tell in E. destruct (trainer x) as [[|r todo]|r pos used todo|e]; try discriminate; [injection E as <-; auto|]. destruct (negb _); [injection E as <-; auto|]. destruct (next_entry (table x) pos) as [[i c]|] eqn:En; [|injection E as <-; auto]. destruct (call int m c r x) as [w1|e] eqn:Ec; injection E as <-; [|auto].
        destruct (call_frame _ _ _ _ _ _ Ec) as (T & Co & _ & _ & _ & _ & Ib). cbn. rewrite T, Co, Ib; auto. intros ->. apply N. destruct (next_some _ _ _ _ En) as [_ L]. apply (live_skip_in _ pos). rewrite L. now left.
      + destruct (mem_nat h' (connected x)) eqn:M; [discriminate|]. apply mem_out in M. injection E as <-. cbn. split; [now right|]. split; [|exact I]. rewrite live_app. intros Q. apply in_app_or in Q as [Q|[[= ->]|[]]]; [|contradiction]. apply N. destruct k; [now rewrite live_some in Q|exact Q].
      + destruct (_ && _)%bool; [|discriminate]. injection E as <-. cbn. auto.
      + destruct (_ && _)%bool; [|discriminate]. injection E as <-. cbn. split; [exact C'|]. split; [|exact I]. intros Q. apply live_drop in Q as [Q _]. contradiction.
    - split; [exact C|]. split; [|reflexivity]. rewrite <- registered_in, R. discriminate.
  Qed.
  (** ** A training that ended stays ended *)
  Theorem ended_final e w ts w' : trainer w = Ended e -> run ts w = Some w' -> trainer w' = Ended e /\ reported w' = reported w /\ inbox w' = inbox w /\ history w' = history w.
  Proof.
    intros T E. apply (run_invariant (fun x => trainer x = Ended e /\ reported x = reported w /\ inbox x = inbox w /\ history x = history w)) with (ts := ts) (w := w) (w' := w') in E; [exact E| |auto].
    clear E. intros t x x' (P & Q) E. destruct t as [|h k|h|h]; cbn [Monitor.step] in E.
    - unfold tell in E. rewrite P in E. discriminate.
    - destruct (mem_nat h (connected x)); [discriminate|]. injection E as <-. cbn. auto.
    - destruct (_ && _)%bool; [|discriminate]. injection E as <-. cbn. auto.
    - destruct (_ && _)%bool; [|discriminate]. injection E as <-. cbn. auto.
  Qed.
  (** ** Refuted: the training survives clients that come and go *)
  Theorem open_ends_training_refuted before after batches ts w r pos used todo h k w1 : run ts (start before after batches) = Some w -> trainer w = Telling r pos used todo -> used = List.length (live (table w)) ->
    step (Open h k) w = Some w1 -> exists w2, step Train w1 = Some w2 /\ trainer w2 = Ended RuntimeError.
  Proof.
    intros _ T U E. cbn [Monitor.step] in E |- *. destruct (mem_nat h (connected w)); [discriminate|]. injection E as <-. unfold tell. cbn [trainer table]. rewrite T. assert (L : List.length (live ((if k then map Some (live (table w)) else table w) ++ [Some (Client h)])) = S used). { rewrite live_app, app_length. destruct k; [rewrite live_some|]; cbn; lia. }
    rewrite L. destruct (Nat.eqb_spec (S used) used); [lia|]. cbn [negb]. eexists. split; reflexivity.
  Qed.
  Lemma drop_shorter h t : In (Client h) (live t) -> List.length (live (drop h t)) < List.length (live t).
  Proof.
    assert (LE : forall t, List.length (live (drop h t)) <= List.length (live t)). { clear t. induction t as [|[c|] t IH]; [reflexivity| |exact IH]. change (live (Some c :: t)) with (c :: live t). destruct c as [|x|n]; cbn [drop map]; [| |]; try (change (S (List.length (live (drop h t))) <= S (List.length (live t))); lia). destruct (Nat.eqb x h); [change (List.length (live (drop h t)) <= S (List.length (live t))); lia|change (S (List.length (live (drop h t))) <= S (List.length (live t))); lia]. }
    induction t as [|[c|] t IH]; [intros []| |exact IH]. change (live (Some c :: t)) with (c :: live t). intros [->|H].
    - cbn [drop map]. rewrite Nat.eqb_refl. change (List.length (live (drop h t)) < S (List.length (live t))). specialize (LE t). lia.
    - specialize (IH H). specialize (LE t). destruct c as [|x|n]; cbn [drop map]; try (change (S (List.length (live (drop h t))) < S (List.length (live t))); lia). destruct (Nat.eqb x h); [change (List.length (live (drop h t)) < S (List.length (live t))); lia|change (S (List.length (live (drop h t))) < S (List.length (live t))); lia].
  Qed.
  Theorem close_ends_training_refuted before after batches ts w r pos used todo h w1 : run ts (start before after batches) = Some w -> trainer w = Telling r pos used todo -> used = List.length (live (table w)) ->
    step (Close h) w = Some w1 -> exists w2, step Train w1 = Some w2 /\ trainer w2 = Ended RuntimeError.
  Proof.
    intros _ T U E. cbn [Monitor.step] in E |- *. destruct (mem_nat h (gone w) && registered h w)%bool eqn:M; [|discriminate]. apply andb_prop in M as [_ M]. apply registered_in in M. injection E as <-. unfold tell. cbn [trainer table]. rewrite T. pose proof (drop_shorter h _ M). destruct (Nat.eqb_spec (List.length (live (drop h (table w)))) used); [lia|]. cbn [negb]. eexists. split; reflexivity.
  Qed.
  (** a lost connection is noticed by the training first *)
  Theorem lost_ends_training_refuted before after batches ts w r pos used todo h rest : run ts (start before after batches) = Some w -> trainer w = Telling r pos used todo -> used = List.length (live (table w)) ->
    m_frequency m <> 0%Z -> writable int m r -> (br_batch r mod m_frequency m = 0)%Z -> live (skipn pos (table w)) = Client h :: rest -> In h (gone w) ->
    exists w2, step Train w = Some w2 /\ trainer w2 = Ended OtherError.
  Proof.
    intros _ T U F Wr B L G. cbn [Monitor.step]. unfold tell. rewrite T, <- U, Nat.eqb_refl. cbn [negb]. destruct (next_entry (table w) pos) as [[i c]|] eqn:En; [|apply next_none in En; congruence]. apply next_some in En as [_ En]. rewrite L in En. injection En as <- _. cbn [call]. destruct (Z.eqb_spec (m_frequency m) 0) as [X|_]; [contradiction|]. destruct (Z.eqb_spec (br_batch r mod m_frequency m) 0) as [_|X]; [|contradiction]. cbn [negb].
    destruct (message_ok int m r Wr) as (t & -> & _). cbn [bind]. rewrite (proj2 (mem_in h (gone w)) G). eexists. split; reflexivity.
  Qed.
End Schedules.
