(** Proofs about Monitor.v: whole trainings, refutations and cases. *)
From Coq Require Import ZArith String Lia.
From Verif Require Import PyBase PyFacts PyMore Ui Monitor MonitorProofs MonitorProofs2 MonitorProofs3 MonitorProofs4.
Local Open Scope string_scope.
Local Open Scope list_scope.
Local Open Scope nat_scope.

Section Whole.
  Context {J : Type} (int : Z -> J) (m : monitor).
  Notation world := (world J).
  Notation report := (batch_report J).
  (** ** Refuted: one visit during the first batch ends every training *)
  Theorem visit_ends_training_refuted before after (r : report) batches k :
    exists w, run int m [Train; Open 0 k; Train] (start before after (r :: batches)) = Some w /\ trainer w = Ended RuntimeError /\ reported w = [].
  Proof.
    cbn [run step tell start trainer table at_phase connected mem_nat existsb]. set (t := map (fun n => Some (Another n)) before ++ Some History :: map (fun n => Some (Another n)) after).
    assert (L : List.length (live ((if k then map Some (live t) else t) ++ [Some (Client 0)])) = S (List.length (live t))) by (rewrite live_app, app_length; destruct k; [rewrite live_some|]; cbn; lia).
    rewrite L. destruct (Nat.eqb_spec (S (List.length (live t))) (List.length (live t))); [lia|]. cbn [negb]. eexists. split; [reflexivity|]. split; reflexivity.
  Qed.
  (** a key whose values json cannot write ends the training as soon as somebody watches *)
  Theorem opaque_ends_training_refuted (w : world) r pos used todo h rest k : trainer w = Telling r pos used todo -> used = List.length (live (table w)) -> m_frequency m <> 0%Z ->
    (br_batch r mod m_frequency m = 0)%Z -> live (skipn pos (table w)) = Client h :: rest -> In k (m_keys m) -> kwarg int r k = Some Opaque ->
    exists w', step int m Train w = Some w' /\ trainer w' = Ended TypeError.
  Proof.
    intros T U F B L Hk Ho. cbn [step]. unfold tell. rewrite T, <- U, Nat.eqb_refl. cbn [negb]. destruct (next_entry (table w) pos) as [[i c]|] eqn:En; [|apply next_none in En; congruence]. apply next_some in En as [_ En]. rewrite L in En. injection En as <- _. cbn [call]. destruct (Z.eqb_spec (m_frequency m) 0) as [X|_]; [contradiction|]. destruct (Z.eqb_spec (br_batch r mod m_frequency m) 0) as [_|X]; [|contradiction]. cbn [negb].
    rewrite (message_opaque int m r k Hk Ho). cbn [bind]. eexists. split; reflexivity.
  Qed.
  (** a frequency of nothing ends it at the first batch *)
  Theorem frequency_zero (w : world) r pos used todo c rest : trainer w = Telling r pos used todo -> used = List.length (live (table w)) -> m_frequency m = 0%Z ->
    live (skipn pos (table w)) = c :: rest -> (forall n, c <> Another n) -> exists w', step int m Train w = Some w' /\ trainer w' = Ended ZeroDivisionError.
  Proof.
    intros T U F L N. cbn [step]. unfold tell. rewrite T, <- U, Nat.eqb_refl. cbn [negb]. destruct (next_entry (table w) pos) as [[i c']|] eqn:En; [|apply next_none in En; congruence]. apply next_some in En as [_ En]. rewrite L in En. injection En as <- _. destruct c as [|h|n]; [| |elim (N n eq_refl)]; cbn [call]; unfold remember; rewrite F; cbn [bind Z.eqb]; (eexists; split; reflexivity).
  Qed.
  Theorem closed_silent before after batches ts h w w1 us w' : run int m ts (start before after batches) = Some w -> step int m (Close h) w = Some w1 -> run int m us w1 = Some w' -> inbox w' h = inbox w h.
  Proof.
    intros E E1 E2. assert (W : wired w) by (apply (run_invariant int m wired (wired_step int m) ts _ w (wired_start before after batches) E)). assert (R : run int m (ts ++ [Close h]) (start before after batches) = Some w1) by (rewrite run_app, E; cbn [run]; rewrite E1; reflexivity).
    assert (In0 : inbox w1 h = inbox w h /\ In h (connected w1) /\ registered h w1 = false). { cbn [step] in E1. destruct (mem_nat h (gone w) && registered h w)%bool eqn:M; [|discriminate]. apply andb_prop in M as [M _]. apply mem_in in M. injection E1 as <-. split; [reflexivity|]. split; [apply (proj1 (proj2 (proj2 W))), M|]. match goal with |- ?a = false => destruct a eqn:Rg; [|reflexivity] end. apply registered_in in Rg. cbn [table] in Rg. apply live_drop in Rg as [_ X]. congruence. }
    destruct In0 as (I0 & C0 & R0). rewrite <- I0. exact (left_silent int m before after batches (ts ++ [Close h]) h w1 us w' R C0 R0 E2).
  Qed.
  (** ** A training nobody watches *)
  Lemma calm_alone n : forall w : world, gone w = [] -> calm int m (repeat Train n) w.
  Proof.
    induction n as [|n IH]; intros w G; [exact I|]. cbn [repeat calm]. split; [congruence|]. split; [intros _ _ h Hh; rewrite G in Hh; destruct Hh|]. intros w' E. apply IH. cbn [step] in E. unfold tell in E. destruct (trainer w) as [[|r todo]|r pos used todo|e]; try discriminate; [injection E as <-; exact G|]. destruct (negb _); [injection E as <-; exact G|]. destruct (next_entry (table w) pos) as [[i c]|]; [|injection E as <-; exact G].
    destruct (call int m c r w) as [w1|e] eqn:Ec; injection E as <-; [|exact G]. destruct (call_frame _ _ _ _ _ _ Ec) as (_ & _ & Go & _). cbn [at_phase gone]. congruence.
  Qed.
  Theorem alone before after batches n w : m_frequency m <> 0%Z -> NoDup (m_keys m) -> Forall (writable int m) batches -> run int m (repeat Train n) (start before after batches) = Some w ->
    (forall e, trainer w <> Ended e) /\ forall todo, trainer w = Between todo -> batches = reported w ++ todo /\ remembered int m (reported w) (history w).
  Proof. intros F N Wr E. apply (calm_history int m F N before after batches (repeat Train n) w Wr); [apply calm_alone; reflexivity|exact E]. Qed.
  (** it comes to its end *)
  Theorem alone_ends before after batches : m_frequency m <> 0%Z -> NoDup (m_keys m) -> Forall (writable int m) batches ->
    exists n w, run int m (repeat Train n) (start before after batches) = Some w /\ trainer w = Between [] /\ reported w = batches.
  Proof.
    intros F N Wr. assert (K : forall fuel (w : world), steady int m batches w -> gone w = [] ->
      match trainer w with Between todo => fuel = List.length todo * (2 + List.length (table w)) | Telling r pos used todo => fuel = List.length todo * (2 + List.length (table w)) + 1 + (List.length (table w) - pos) | Ended _ => False end ->
      exists n w', run int m (repeat Train n) w = Some w' /\ trainer w' = Between [] /\ reported w' = batches).
    { induction fuel as [fuel IH] using (well_founded_induction lt_wf). intros w St G M.
      assert (Go : forall w1, step int m Train w = Some w1 -> forall fuel', fuel' < fuel -> gone w1 = [] -> match trainer w1 with Between todo => fuel' = List.length todo * (2 + List.length (table w1)) | Telling r pos used todo => fuel' = List.length todo * (2 + List.length (table w1)) + 1 + (List.length (table w1) - pos) | Ended _ => False end -> exists n w', run int m (repeat Train n) w = Some w' /\ trainer w' = Between [] /\ reported w' = batches).
      { intros w1 E1 f' Lf G1 M1. destruct (IH f' Lf w1) as (n & w' & En & R); [|exact G1|exact M1|exists (S n), w'; cbn [repeat run]; rewrite E1; auto]. apply (steady_step int m F N batches Train w w1 Wr St); [congruence| |exact E1]. intros _ _ h Hh. rewrite G in Hh. destruct Hh. }
      destruct (trainer w) as [[|r todo]|r pos used todo|e] eqn:T; [| | |destruct M].
      - exists 0, w. split; [reflexivity|]. split; [exact T|]. destruct St as (_ & _ & rest & Eb & St). rewrite T in St. destruct St as [-> _]. rewrite app_nil_r in Eb. now symmetry.
      - eapply (Go (at_phase w (Telling r 0 (List.length (live (table w))) todo))); [cbn [step]; unfold tell; rewrite T; reflexivity| |exact G|cbn [at_phase trainer table]; reflexivity]. cbn [List.length] in M. lia.
      - pose proof St as (_ & _ & rest & Eb & S1). rewrite T in S1. destruct S1 as (-> & U & Hg & R). destruct (next_entry (table w) pos) as [[i c]|] eqn:En.
        + destruct (call int m c r w) as [w1|e] eqn:Ec.
          * destruct (call_frame _ _ _ _ _ _ Ec) as (Tb & _ & Gn & _). assert (Bi : i < List.length (table w)). { clear - En. revert pos i c En. induction (table w) as [|o t IH]; intros pos i c En; [discriminate|]. destruct pos as [|pos], o as [x|]; cbn [next_entry] in En; try (injection En as <- <-; cbn; lia); (destruct (next_entry t _) as [[j d]|] eqn:E; [|discriminate]; injection En as <- <-; apply IH in E; cbn; lia). }
            destruct (next_some _ _ _ _ En) as [Pi _]. eapply (Go (at_phase w1 (Telling r (S i) used todo))); [cbn [step]; unfold tell; rewrite T, <- U, Nat.eqb_refl; cbn [negb]; rewrite En, Ec; reflexivity| |cbn [at_phase gone]; congruence|cbn [at_phase trainer table]; rewrite Tb; reflexivity]. lia.
          * exfalso. assert (E1 : step int m Train w = Some (at_phase w (Ended e))) by (cbn [step]; unfold tell; rewrite T, <- U, Nat.eqb_refl; cbn [negb]; now rewrite En, Ec). assert (X : steady int m batches (at_phase w (Ended e))); [|destruct X as (_ & _ & rs & _ & X); exact X]. apply (steady_step int m F N batches Train w _ Wr St); [congruence| |exact E1]. intros _ _ h Hh. rewrite G in Hh. destruct Hh.
        + eapply Go; [cbn [step]; unfold tell; rewrite T, <- U, Nat.eqb_refl; cbn [negb]; rewrite En; reflexivity| |exact G|cbn [trainer table]; reflexivity]. lia. }
    destruct (K (List.length batches * (2 + List.length (table (start before after batches)))) (start before after batches)) as (n & w & E & R); [apply steady_start|reflexivity|reflexivity|]. exists n, w. auto.
  Qed.
End Whole.

(** ** The monitors of the project and what their trainers report *)
Theorem monitor_supervised {J} (int : Z -> J) m epoch batch te e r t : m_keys m = supervised_keys -> r = supervised_report epoch batch te e -> t = [("epoch", int epoch); ("batch", int batch); ("train_error", te); ("test_error", e)] -> writable int m r /\ message int m r = Ok t.
Proof. intros Hk -> ->. split; [unfold writable; rewrite Hk; intros k v [<-|[<-|[]]] H; vm_compute in H; injection H as <-; eauto|]. unfold message. rewrite Hk. reflexivity. Qed.
Theorem monitor_gan {J} (int : Z -> J) m epoch batch gl rl dl r t : m_keys m = gan_keys -> r = gan_report epoch batch gl rl dl -> t = [("epoch", int epoch); ("batch", int batch); ("generator_score", gl); ("real_score", rl); ("critic_loss", dl)] -> writable int m r /\ message int m r = Ok t.
Proof. intros Hk -> ->. split; [unfold writable; rewrite Hk; intros k v [<-|[<-|[<-|[]]]] H; vm_compute in H; injection H as <-; eauto|]. unfold message. rewrite Hk. reflexivity. Qed.
Theorem monitor_triplet {J} (int : Z -> J) m epoch batch error deformation r t : m_keys m = triplet_keys -> r = triplet_report epoch batch error deformation -> t = [("epoch", int epoch); ("batch", int batch); ("error", error)] -> writable int m r /\ message int m r = Ok t.
Proof. intros Hk -> ->. split; [unfold writable; rewrite Hk; intros k v [<-|[]] H; vm_compute in H; injection H as <-; eauto|]. unfold message. rewrite Hk. reflexivity. Qed.

(** ** A case: a client that comes after the first batch and stays for the second *)
Definition demo_monitor : monitor := {| m_keys := gan_keys; m_frequency := 10; m_points := 100 |}.
Definition demo_report (e b : Z) : batch_report Z := {| br_epoch := e; br_batch := b; br_values := [("generator_score", Plain (b + 1)%Z); ("real_score", Plain 7%Z); ("samples", Opaque); ("network", Opaque)] |}.
Definition demo_batches : list (batch_report Z) := [demo_report 0 0; demo_report 0 5; demo_report 0 20].
Definition round2 : list turn := [Train; Train; Train; Train].
Definition round3 : list turn := [Train; Train; Train; Train; Train].
Definition demo_schedule : list turn := round2 ++ Open 4 true :: round3 ++ round3.
Example watched_case : exists w, run (fun z => z) demo_monitor demo_schedule (start [1] [] demo_batches) = Some w /\ trainer w = Between [] /\
  inbox w 4 = [[("epoch", 0%Z); ("batch", 20%Z); ("generator_score", 21%Z); ("real_score", 7%Z)]] /\ history w "generator_score" = [Plain 1%Z; Plain 21%Z] /\ history w "critic_loss" = [].
Proof. eexists. split; [vm_compute; reflexivity|]. repeat split; reflexivity. Qed.
Example watched_calm : calm (fun z => z) demo_monitor demo_schedule (start [1] [] demo_batches) /\ Forall (writable (fun z => z) demo_monitor) demo_batches.
Proof.
  split.
  - unfold demo_schedule, round2, round3. cbn [List.app calm].
    repeat (split; [first [congruence | intros _ (r & pos & used & todo & H); vm_compute in H; discriminate H] |]; split; [first [intros H; discriminate H | intros _ _ h H; vm_compute in H; destruct H] |]; let w' := fresh "w" in let E := fresh "E" in intros w' E; vm_compute in E; injection E as <-). exact I.
  - repeat constructor; intros k v [<-|[<-|[<-|[]]]] H; vm_compute in H; try discriminate H; injection H as <-; eauto.
Qed.
(** and one that ends it: the client comes while a batch is being told *)
Example disturbed_case : exists w, run (fun z => z) demo_monitor [Train; Train; Open 4 false; Train] (start [1] [] demo_batches) = Some w /\ trainer w = Ended RuntimeError.
Proof. eexists. split; [vm_compute; reflexivity|reflexivity]. Qed.
Example lost_case : exists w, run (fun z => z) demo_monitor [Open 4 false; Lose 4; Train; Train; Train; Train] (start [1] [] demo_batches) = Some w /\ trainer w = Ended OtherError.
Proof. eexists. split; [vm_compute; reflexivity|reflexivity]. Qed.
