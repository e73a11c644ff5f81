(** Proofs about Monitor.v: schedules in which clients come and go between batches. *)
From Coq Require Import ZArith String Lia.
From Verif Require Import PyBase PyFacts PyMore Ui Monitor MonitorProofs MonitorProofs2 MonitorProofs3.
Local Open Scope list_scope.
Local Open Scope nat_scope.

Section Calm.
  Context {J : Type} (int : Z -> J) (m : monitor).
  Notation world := (world J).
  Notation report := (batch_report J).
  Notation step := (step int m).
  Notation run := (run int m).
  Notation told := (told int m).
  (** ** Specification: the server's steps happen while no batch is being told, and no lost connection
      is still registered when one begins *)
  Definition telling (w : world) : Prop := exists r pos used todo, trainer w = Telling r pos used todo.
  Fixpoint calm (ts : list turn) (w : world) : Prop :=
    match ts with
    | [] => True
    | t :: r => (t <> Train -> ~ telling w) /\ (t = Train -> ~ telling w -> forall h, In h (gone w) -> registered h w = false) /\ forall w', step t w = Some w' -> calm r w'
    end.
  (** the values remembered of one key, as in C65 *)
  Definition remembered (rs : list report) (h : string -> list (value J)) : Prop :=
    forall k, In k (m_keys m) -> collect_all (m_frequency m) (m_points m) [] (map (fun r => {| b_number := br_batch r; b_value := kwarg int r k |}) rs) = Ok (h k).
  Lemma collect_all_app {V} f n (a b : list (Ui.report (V := V))) h : collect_all f n h (a ++ b) = (do x <- collect_all f n h a; collect_all f n x b).
  Proof. revert h. induction a as [|r a IH]; intros h; [reflexivity|]. cbn [List.app collect_all]. destruct (collect f n h r); [apply IH|reflexivity]. Qed.
  Lemma history_other r h k x : x <> k -> history_step int m r h k x = h x.
  Proof. intros N. unfold history_step. destruct (String.eqb_spec x k); congruence. Qed.
  Lemma history_fold r k : forall ks h, NoDup ks -> fold_left (history_step int m r) ks h k = if in_dec string_dec k ks then match kwarg int r k with Some v => py_slice (Some (- m_points m)%Z) None (h k) ++ [v] | None => py_slice (Some (- m_points m)%Z) None (h k) end else h k.
  Proof.
    induction ks as [|x ks IH]; intros h N; [reflexivity|]. apply NoDup_cons_iff in N as [N1 N2]. cbn [fold_left]. rewrite (IH _ N2). destruct (in_dec string_dec k ks) as [I|I], (in_dec string_dec k (x :: ks)) as [I'|I']; cbn [In] in I'.
    - rewrite history_other by (intros ->; contradiction). reflexivity.
    - tauto.
    - destruct I' as [->|I']; [|contradiction]. unfold history_step. rewrite String.eqb_refl. reflexivity.
    - apply history_other. intros ->. apply I'. now left.
  Qed.
  Lemma remember_ok rs r h : m_frequency m <> 0%Z -> NoDup (m_keys m) -> remembered rs h -> exists h', remember int m r h = Ok h' /\ remembered (rs ++ [r]) h'.
  Proof.
    intros F N R. unfold remember. destruct (Z.eqb_spec (m_frequency m) 0) as [X|_]; [contradiction|]. destruct (br_batch r mod m_frequency m =? 0)%Z eqn:E; cbn [negb]; (eexists; split; [reflexivity|]); intros k Hk; rewrite map_app, collect_all_app, (R k Hk); cbn [bind map collect_all collect]; unfold collect; cbn [b_number b_value]; (destruct (Z.eqb_spec (m_frequency m) 0) as [X|_]; [contradiction|]); rewrite E; cbn [negb bind]; [|reflexivity].
    rewrite history_fold by exact N. destruct (in_dec string_dec k (m_keys m)); [|contradiction]. destruct (kwarg int r k); reflexivity.
  Qed.

  Context (freq : m_frequency m <> 0%Z) (keys : NoDup (m_keys m)).
  Definition histories (l : list callback) : nat := List.length (filter (fun c => match c with History => true | _ => false end) l).
  Lemma histories_app a b : histories (a ++ b) = histories a + histories b.
  Proof. unfold histories. now rewrite filter_app, app_length. Qed.
  Lemma histories_none l : histories l = 0 -> ~ In History l.
  Proof. unfold histories. intros H I. apply length_zero_iff_nil in H. assert (X : In History (filter (fun c => match c with History => true | _ => false end) l)) by (apply filter_In; auto). rewrite H in X. exact X. Qed.
  Lemma histories_some l : histories l <> 0 -> In History l.
  Proof. induction l as [|c l IH]; [intros H; elim H; reflexivity|]. destruct c as [|h|n]; [now left| |]; intros H; right; apply IH; exact H. Qed.
  Lemma histories_drop h t : histories (live (drop h t)) = histories (live t).
  Proof. induction t as [|[c|] t IH]; [reflexivity| |exact IH]. destruct c as [|x|n]; cbn [drop map]; [change (S (histories (live (drop h t))) = S (histories (live t))); now rewrite IH| |exact IH]. destruct (Nat.eqb x h); exact IH. Qed.
  (** the history during a batch: this batch is in it once its callback has run *)
  Definition steady (batches : list report) (w : world) : Prop :=
    wired w /\ histories (live (table w)) = 1 /\ exists rest, batches = reported w ++ rest /\
    match trainer w with
    | Between todo => rest = todo /\ remembered (reported w) (history w)
    | Telling r pos used todo => rest = r :: todo /\ used = List.length (live (table w)) /\ (forall h, In (Client h) (live (table w)) -> ~ In h (gone w)) /\
        ((histories (live (skipn pos (table w))) = 1 /\ remembered (reported w) (history w)) \/ (histories (live (skipn pos (table w))) = 0 /\ remembered (reported w ++ [r]) (history w)))
    | Ended _ => False
    end.
  Lemma steady_step batches t w w' : Forall (writable int m) batches -> steady batches w -> (t <> Train -> ~ telling w) -> (t = Train -> ~ telling w -> forall h, In h (gone w) -> registered h w = false) -> step t w = Some w' -> steady batches w'.
  Proof.
    intros Wr (W & O & rest & Eb & H) Q1 Q2 E. pose proof (wired_step int m _ _ _ W E) as W'. split; [exact W'|]. clear W'. destruct t as [|h k|h|h]; cbn [Monitor.step] in E.
    - unfold tell in E. destruct (trainer w) as [[|r todo]|r pos used todo|e] eqn:T; try discriminate.
      + injection E as <-. cbn [at_phase table trainer reported history gone inbox connected]. split; [exact O|]. exists rest. split; [exact Eb|]. destruct H as [-> H]. split; [reflexivity|]. split; [reflexivity|]. split; [|left; auto].
        intros h Hl Hg. assert (R : registered h w = false) by (apply Q2; [reflexivity| |exact Hg]; intros (r0 & p0 & u0 & t0 & X); congruence). rewrite (proj2 (registered_in h w) Hl) in R. discriminate.
      + destruct H as (-> & U & G & R). rewrite U, Nat.eqb_refl in E. cbn [negb] in E. destruct (next_entry (table w) pos) as [[i c]|] eqn:En.
        * destruct (next_some _ _ _ _ En) as [Pi L]. assert (Lw : forall x, In x (live (skipn pos (table w))) -> In x (live (table w))) by (intros x; apply live_skip_in).
          assert (S1 : histories (live (skipn pos (table w))) = histories [c] + histories (live (skipn (S i) (table w)))) by (rewrite L; apply (histories_app [c])).
          assert (K : exists w1, call int m c r w = Ok w1 /\ ((histories (live (skipn (S i) (table w))) = 1 /\ remembered (reported w) (history w1)) \/ (histories (live (skipn (S i) (table w))) = 0 /\ remembered (reported w ++ [r]) (history w1)))).
          { destruct c as [|h|n].
            - cbn [call]. assert (Z1 : histories [History] = 1) by reflexivity. destruct R as [[R1 R]|[R1 _]]; [|lia]. destruct (remember_ok (reported w) r (history w) freq keys R) as (h' & Eh & Rh). rewrite Eh. cbn [bind]. eexists. split; [reflexivity|]. right. split; [lia|exact Rh].
            - assert (Z1 : histories [Client h] = 0) by reflexivity. cbn [call]. destruct (Z.eqb_spec (m_frequency m) 0) as [X|_]; [contradiction|]. destruct (negb _); [eexists; split; [reflexivity|]; rewrite S1, Z1 in R; exact R|].
              assert (Wr1 : writable int m r) by (rewrite Forall_forall in Wr; apply Wr; rewrite Eb; apply in_or_app; right; now left). destruct (message_ok int m r Wr1) as (t & -> & _). cbn [bind].
              rewrite (proj2 (mem_out h (gone w))) by (apply G, Lw; rewrite L; now left). eexists. split; [reflexivity|]. rewrite S1, Z1 in R. exact R.
            - eexists. split; [reflexivity|]. rewrite S1 in R. exact R. }
          destruct K as (w1 & Ec & R'). rewrite Ec in E. injection E as <-. destruct (call_frame _ _ _ _ _ _ Ec) as (T' & Co & Go & Re & _ & _ & _). cbn [at_phase table trainer reported history gone inbox connected]. rewrite T', Go, Re. split; [exact O|]. exists (r :: todo). split; [exact Eb|]. auto.
        * injection E as <-. cbn [at_phase table trainer reported history gone inbox connected]. split; [exact O|]. exists todo. split; [rewrite <- app_assoc; exact Eb|]. split; [reflexivity|]. rewrite (next_none _ _ En) in R. destruct R as [[X _]|[_ R]]; [discriminate X|exact R].
    - destruct (mem_nat h (connected w)); [discriminate|]. injection E as <-. cbn [at_phase table trainer reported history gone inbox connected]. split; [|exists rest; split; [exact Eb|]; destruct (trainer w) as [todo|r pos used todo|e] eqn:T; [exact H| |exact H]; elim Q1; [discriminate|]; exists r, pos, used, todo; exact T].
      rewrite live_app, histories_app. destruct k; [rewrite live_some|]; rewrite O; reflexivity.
    - destruct (_ && _)%bool; [|discriminate]. injection E as <-. cbn [at_phase table trainer reported history gone inbox connected]. split; [exact O|]. exists rest. split; [exact Eb|]. destruct (trainer w) as [todo|r pos used todo|e] eqn:T; [exact H| |exact H]. elim Q1; [discriminate|]. exists r, pos, used, todo. exact T.
    - destruct (_ && _)%bool; [|discriminate]. injection E as <-. cbn [at_phase table trainer reported history gone inbox connected]. split; [now rewrite histories_drop|]. exists rest. split; [exact Eb|]. destruct (trainer w) as [todo|r pos used todo|e] eqn:T; [exact H| |exact H]. elim Q1; [discriminate|]. exists r, pos, used, todo. exact T.
  Qed.
  Lemma run_calm (P : world -> Prop) : (forall t w w', P w -> (t <> Train -> ~ telling w) -> (t = Train -> ~ telling w -> forall h, In h (gone w) -> registered h w = false) -> step t w = Some w' -> P w') -> forall ts w w', P w -> calm ts w -> run ts w = Some w' -> P w'.
  Proof. intros S0 ts. induction ts as [|t ts IH]; intros w w' H C E; cbn in E; [injection E as <-; exact H|]. destruct C as (C1 & C2 & C3). destruct (step t w) as [w1|] eqn:E1; [|discriminate]. apply (IH w1); [now apply (S0 t w)|now apply C3|exact E]. Qed.
  Lemma calm_app a b w w' : calm (a ++ b) w -> run a w = Some w' -> calm a w /\ calm b w'.
  Proof. revert w. induction a as [|t a IH]; intros w C E; cbn in E |- *; [injection E as <-; auto|]. destruct C as (C1 & C2 & C3). destruct (step t w) as [w1|] eqn:E1; [|discriminate]. destruct (IH w1 (C3 w1 eq_refl) E) as [Ca Cb]. split; [|exact Cb]. split; [exact C1|]. split; [exact C2|]. intros w2 [= <-]. exact Ca. Qed.
  Lemma steady_start before after batches : steady batches (start before after batches).
  Proof.
    split; [apply wired_start|]. cbn [start table trainer reported history gone inbox connected]. assert (L : forall l, histories (live (map (fun n => Some (Another n)) l)) = 0) by (induction l as [|n l IH]; [reflexivity|exact IH]). split.
    - rewrite live_app, histories_app, L. change (0 + S (histories (live (map (fun n => Some (Another n)) after))) = 1). now rewrite L.
    - exists batches. split; [reflexivity|]. split; [reflexivity|]. intros k _. reflexivity.
  Qed.
  Lemma steady_run before after batches ts w : Forall (writable int m) batches -> calm ts (start before after batches) -> run ts (start before after batches) = Some w -> steady batches w.
  Proof. intros Wr C E. apply (run_calm (steady batches) (fun t w w' H Q1 Q2 E => steady_step batches t w w' Wr H Q1 Q2 E) ts _ w (steady_start before after batches) C E). Qed.
  (** ** the training goes on, and between two batches the history is the history of all of them *)
  Theorem calm_history before after batches ts w : Forall (writable int m) batches -> calm ts (start before after batches) -> run ts (start before after batches) = Some w ->
    (forall e, trainer w <> Ended e) /\ forall todo, trainer w = Between todo -> batches = reported w ++ todo /\ remembered (reported w) (history w).
  Proof.
    intros Wr C E. destruct (steady_run _ _ _ _ _ Wr C E) as (_ & _ & rest & Eb & H). split.
    - intros e T. rewrite T in H. exact H.
    - intros todo T. rewrite T in H. destruct H as [-> H]. auto.
  Qed.
  (** ** a client hears of every batch while it is there *)
  Definition follows (base : list report) (h : nat) (w : world) : Prop :=
    In (Client h) (live (table w)) /\ ~ In h (gone w) /\ exists new, reported w = base ++ new /\
    match trainer w with
    | Between _ => told new (inbox w h)
    | Telling r pos used _ => (In (Client h) (live (skipn pos (table w))) /\ told new (inbox w h)) \/ (~ In (Client h) (live (skipn pos (table w))) /\ told (new ++ [r]) (inbox w h))
    | Ended _ => False
    end.
  Lemma follows_step batches base h t w w' : Forall (writable int m) batches -> steady batches w -> follows base h w -> t <> Lose h -> (t <> Train -> ~ telling w) -> (t = Train -> ~ telling w -> forall h, In h (gone w) -> registered h w = false) -> step t w = Some w' -> follows base h w'.
  Proof.
    intros Wr St (I & Ng & new & Er & H) Nl Q1 Q2 E. pose proof (steady_step _ _ _ _ Wr St Q1 Q2 E) as (_ & _ & rest' & _ & Alive). destruct St as (W & _ & rest & Eb & St). destruct t as [|h' k|h'|h']; cbn [Monitor.step] in E.
    - unfold tell in E. destruct (trainer w) as [[|r todo]|r pos used todo|e] eqn:T; try discriminate.
      + injection E as <-. split; [exact I|]. split; [exact Ng|]. exists new. split; [exact Er|]. cbn [at_phase table trainer reported history gone inbox connected]. left. auto.
      + destruct (negb _); [injection E as <-; destruct Alive|]. destruct (next_entry (table w) pos) as [[i c]|] eqn:En.
        * destruct (next_some _ _ _ _ En) as [Pi L]. destruct (call int m c r w) as [w1|e] eqn:Ec; injection E as <-; [|destruct Alive]. destruct (call_frame _ _ _ _ _ _ Ec) as (T' & Co & Go & Re & _ & _ & Ib). unfold follows. cbn [at_phase table trainer reported history gone inbox connected]. rewrite T', Go, Re. split; [exact I|]. split; [exact Ng|]. exists new. split; [exact Er|].
          assert (K : c = Client h \/ c <> Client h) by (destruct c as [|x|n]; try (right; discriminate); destruct (Nat.eq_dec x h) as [->|N]; [now left|right; congruence]). destruct K as [->|Nc].
          -- right. split; [now apply (once w pos i _ h W L)|]. destruct (call_inbox _ _ _ _ _ _ Ec) as (us & -> & Tu). destruct H as [[_ H]|[X _]]; [now apply told_app|]. elim X. rewrite L. now left.
          -- rewrite (Ib h Nc). rewrite L in H. destruct H as [[[X|X] H]|[X H]]; [congruence|left; auto|right]. split; [|exact H]. intros Y. apply X. now right.
        * injection E as <-. unfold follows. cbn [at_phase table trainer reported history gone inbox connected]. split; [exact I|]. split; [exact Ng|]. exists (new ++ [r]). split; [rewrite Er, app_assoc; reflexivity|]. rewrite (next_none _ _ En) in H. destruct H as [[[] _]|[_ H]]. exact H.
    - destruct (mem_nat h' (connected w)); [discriminate|]. injection E as <-. unfold follows. cbn [at_phase table trainer reported history gone inbox connected]. split; [rewrite live_app; apply in_or_app; left; destruct k; [now rewrite live_some|exact I]|]. split; [exact Ng|]. exists new. split; [exact Er|]. destruct (trainer w) as [todo|r pos used todo|e] eqn:T; [exact H| |exact H]. elim Q1; [discriminate|]. exists r, pos, used, todo. exact T.
    - destruct (_ && _)%bool; [|discriminate]. injection E as <-. unfold follows. cbn [at_phase table trainer reported history gone inbox connected]. split; [exact I|]. split; [intros [->|X]; [congruence|contradiction]|]. exists new. auto.
    - destruct (mem_nat h' (gone w) && registered h' w)%bool eqn:M; [|discriminate]. apply andb_prop in M as [M _]. apply mem_in in M. injection E as <-. unfold follows. cbn [at_phase table trainer reported history gone inbox connected]. split; [apply live_drop; split; [exact I|]; intros [= ->]; contradiction|]. split; [exact Ng|]. exists new. split; [exact Er|]. destruct (trainer w) as [todo|r pos used todo|e] eqn:T; [exact H| |exact H]. elim Q1; [discriminate|]. exists r, pos, used, todo. exact T.
  Qed.
  Theorem calm_client before after batches ts h k us w1 w todo : Forall (writable int m) batches -> calm (ts ++ Open h k :: us) (start before after batches) ->
    run ts (start before after batches) = Some w1 -> run (ts ++ Open h k :: us) (start before after batches) = Some w -> ~ In (Lose h) us -> trainer w = Between todo ->
    exists new, reported w = reported w1 ++ new /\ told new (inbox w h).
  Proof.
    intros Wr C E1 E Nl T. destruct (calm_app _ _ _ _ C E1) as [C1 C2]. rewrite run_app, E1 in E. pose proof (steady_run _ _ _ _ _ Wr C1 E1) as St. cbn [Monitor.run] in E. cbn [calm] in C2. destruct C2 as (Q1 & Q2 & C2). destruct (step (Open h k) w1) as [w2|] eqn:E2; [|discriminate]. pose proof (C2 w2 eq_refl) as C3. pose proof (steady_step _ _ _ _ Wr St Q1 Q2 E2) as St2.
    assert (F : follows (reported w1) h w2).
    { destruct St as ((_ & _ & G & Ib) & _ & rst & _ & Al). cbn [Monitor.step] in E2. destruct (mem_nat h (connected w1)) eqn:M; [discriminate|]. apply mem_out in M. injection E2 as <-. unfold follows. cbn [at_phase table trainer reported history gone inbox connected]. split; [rewrite live_app; apply in_or_app; right; now left|]. split; [intros X; apply M, G, X|]. exists []. rewrite app_nil_r. split; [reflexivity|]. destruct (trainer w1) as [td|r pos used td|e] eqn:T1; [rewrite (Ib h M); constructor| |exact Al]. elim Q1; [discriminate|]. exists r, pos, used, td. exact T1. }
    clear C E1 E2 Q1 Q2 C1 C2 St. assert (K : forall us w2, ~ In (Lose h) us -> steady batches w2 -> follows (reported w1) h w2 -> calm us w2 -> run us w2 = Some w -> follows (reported w1) h w).
    { clear - Wr freq keys. induction us as [|t us IH]; intros w2 Nl St F C E; cbn [Monitor.run] in E; [injection E as <-; exact F|]. destruct C as (Q1 & Q2 & C). destruct (step t w2) as [w3|] eqn:E3; [|discriminate]. apply (IH w3); [intros X; apply Nl; now right|exact (steady_step _ _ _ _ Wr St Q1 Q2 E3)|apply (follows_step batches (reported w1) h t w2 w3 Wr St F); auto; intros ->; apply Nl; now left|now apply C|exact E]. }
    destruct (K us w2 Nl St2 F C3 E) as (_ & _ & new & Er & H). rewrite T in H. exists new. auto.
  Qed.
End Calm.
