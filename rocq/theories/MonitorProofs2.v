(** Proofs about Monitor.v: schedules. *)
From Coq Require Import ZArith String Lia.
From Verif Require Import PyBase PyFacts PyMore Ui Monitor MonitorProofs.
Local Open Scope list_scope.
Local Open Scope nat_scope.

(** ** The table of callbacks *)
Lemma live_app a b : live (a ++ b) = live a ++ live b.
Proof. unfold live. now rewrite flat_map_app. Qed.
Lemma live_some l : live (map Some l) = l.
Proof. induction l as [|c l IH]; [reflexivity|]. cbn. now f_equal. Qed.
Lemma live_short t : length (live t) <= length t.
Proof. induction t as [|[c|] t IH]; [cbn; lia| |]; [change (live (Some c :: t)) with (c :: live t)|change (live (None :: t)) with (live t)]; cbn [List.length]; lia. Qed.
Lemma next_some : forall t pos i c, next_entry t pos = Some (i, c) -> pos <= i /\ live (skipn pos t) = c :: live (skipn (S i) t).
Proof.
  induction t as [|o t IH]; intros pos i c H; [discriminate H|]. destruct pos as [|pos]; (destruct o as [x|]; cbn [next_entry] in H).
  - injection H as <- <-. split; [lia|reflexivity].
  - destruct (next_entry t 0) as [[i' c']|] eqn:E; [|discriminate]. injection H as <- <-. destruct (IH 0 i' c' E) as [_ L]. split; [lia|]. exact L.
  - destruct (next_entry t pos) as [[i' c']|] eqn:E; [|discriminate]. injection H as <- <-. destruct (IH pos i' c' E) as [P L]. split; [lia|]. exact L.
  - destruct (next_entry t pos) as [[i' c']|] eqn:E; [|discriminate]. injection H as <- <-. destruct (IH pos i' c' E) as [P L]. split; [lia|]. exact L.
Qed.
Lemma next_none : forall t pos, next_entry t pos = None -> live (skipn pos t) = [].
Proof.
  induction t as [|o t IH]; intros pos H; [destruct pos; reflexivity|]. destruct pos as [|pos]; (destruct o as [x|]; cbn [next_entry] in H).
  - discriminate.
  - destruct (next_entry t 0) as [[i' c']|] eqn:E; [discriminate|]. apply (IH 0 E).
  - destruct (next_entry t pos) as [[i' c']|] eqn:E; [discriminate|]. apply (IH pos E).
  - destruct (next_entry t pos) as [[i' c']|] eqn:E; [discriminate|]. apply (IH pos E).
Qed.
Lemma live_skip_in t pos c : In c (live (skipn pos t)) -> In c (live t).
Proof. intros H. rewrite <- (firstn_skipn pos t), live_app. apply in_or_app. now right. Qed.
Lemma live_drop h t : forall c, In c (live (drop h t)) <-> In c (live t) /\ c <> Client h.
Proof.
  intros c. induction t as [|[x|] t IH]; [cbn; tauto| |exact IH]. destruct x as [|x|n]; cbn [drop map]; try (change (live (Some ?a :: ?b)) with (a :: live b); cbn [In]; fold (drop h t); rewrite IH; intuition (subst; discriminate)).
  destruct (Nat.eqb_spec x h) as [->|N].
  - change (live (None :: map ?f t)) with (live (drop h t)). change (live (Some ?a :: ?b)) with (a :: live b). rewrite IH. cbn [In]. intuition congruence.
  - change (live (Some ?a :: ?b)) with (a :: live b). cbn [In]. fold (drop h t). rewrite IH. intuition congruence.
Qed.
Lemma skipn_drop h t pos : skipn pos (drop h t) = drop h (skipn pos t).
Proof. unfold drop. apply skipn_map. Qed.
(** compaction moves entries towards the front *)
Lemma live_compact t pos c : In c (live (skipn pos (map Some (live t)))) -> In c (live (skipn pos t)).
Proof.
  rewrite skipn_map, live_some. intros H. rewrite <- (firstn_skipn pos t), live_app, skipn_app in H. rewrite skipn_all2 in H by (rewrite live_short, firstn_length; lia). cbn [List.app] in H. rewrite <- (firstn_skipn (pos - List.length (live (firstn pos t))) (live (skipn pos t))). apply in_or_app. now right.
Qed.
Definition clients (l : list callback) : list nat := flat_map (fun c => match c with Client h => [h] | _ => [] end) l.
Lemma clients_in l h : In h (clients l) <-> In (Client h) l.
Proof. unfold clients. rewrite in_flat_map. split; [intros (c & I & H); destruct c as [|x|n]; [destruct H| |destruct H]; destruct H as [->|[]]; exact I|]. intros I. exists (Client h). cbn. auto. Qed.
Lemma clients_app a b : clients (a ++ b) = clients a ++ clients b.
Proof. unfold clients. now rewrite flat_map_app. Qed.

Section Schedules.
  Context {J : Type} (int : Z -> J) (m : monitor).
  Notation world := (world J).
  Notation report := (batch_report J).
  Notation step := (step int m).
  Notation run := (run int m).
  (** ** Specification *)
  Definition logged (r : report) : bool := (br_batch r mod m_frequency m =? 0)%Z.
  (** the messages [ts] are those of the batches [rs] that are multiples of the frequency *)
  Definition told (rs : list report) (ts : list (list (string * J))) : Prop := Forall2 (fun r t => message int m r = Ok t) (filter logged rs) ts.
  Inductive among {X} : list X -> list X -> Prop :=
  | among_nil : among [] []
  | among_skip x a b : among a b -> among a (x :: b)
  | among_keep x a b : among a b -> among (x :: a) (x :: b).
  Lemma among_app {X} (a b c d : list X) : among a b -> among c d -> among (a ++ c) (b ++ d).
  Proof. intros H K. induction H; cbn; [exact K|apply among_skip; auto|apply among_keep; auto]. Qed.
  Lemma among_refl {X} (a : list X) : among a a.
  Proof. induction a; [constructor|now apply among_keep]. Qed.
  Lemma among_none {X} (a : list X) : among [] a.
  Proof. induction a; now constructor. Qed.
  Lemma told_app a b s t : told a s -> told b t -> told (a ++ b) (s ++ t).
  Proof. unfold told. rewrite filter_app. apply Forall2_app. Qed.

  (** ** Any schedule *)
  Definition wired (w : world) : Prop :=
    NoDup (clients (live (table w))) /\ (forall h, In (Client h) (live (table w)) -> In h (connected w)) /\
    (forall h, In h (gone w) -> In h (connected w)) /\ (forall h, ~ In h (connected w) -> inbox w h = []).
  Lemma mem_in h l : mem_nat h l = true <-> In h l.
  Proof. unfold mem_nat. rewrite existsb_exists. split; [intros (x & I & E); apply Nat.eqb_eq in E; now subst|]. intros I. exists h. split; [exact I|apply Nat.eqb_refl]. Qed.
  Lemma mem_out h l : mem_nat h l = false <-> ~ In h l.
  Proof. rewrite <- mem_in. destruct (mem_nat h l); split; congruence. Qed.
  Lemma registered_in h (w : world) : registered h w = true <-> In (Client h) (live (table w)).
  Proof.
    unfold registered. induction (table w) as [|[c|] t IH]; [cbn; split; [discriminate|intros []]| |exact IH]. cbn [existsb]. change (live (Some c :: t)) with (c :: live t). cbn [In]. rewrite Bool.orb_true_iff, IH. destruct c as [|x|n]; [| |]; try (rewrite Nat.eqb_eq); intuition congruence.
  Qed.
  Lemma clients_drop h t : clients (live (drop h t)) = filter (fun x => negb (Nat.eqb x h)) (clients (live t)).
  Proof.
    induction t as [|[c|] t IH]; [reflexivity| |exact IH]. change (live (Some c :: t)) with (c :: live t). destruct c as [|x|n]; cbn [drop map]; [exact IH| |exact IH].
    change (clients (Client x :: live t)) with (x :: clients (live t)). cbn [filter]. destruct (Nat.eqb_spec x h); cbn [negb]; [exact IH|]. change (x :: clients (live (drop h t)) = x :: filter (fun x => negb (Nat.eqb x h)) (clients (live t))). now rewrite IH.
  Qed.
  (** what a callback does not touch *)
  Lemma call_frame c r (w w' : world) : call int m c r w = Ok w' ->
    table w' = table w /\ connected w' = connected w /\ gone w' = gone w /\ reported w' = reported w /\ trainer w' = trainer w /\ (c <> History -> history w' = history w) /\ (forall h, c <> Client h -> inbox w' h = inbox w h).
  Proof.
    destruct c as [|h|n]; cbn [call]; intros H.
    - destruct (remember int m r (history w)); [|discriminate]. cbn [bind] in H. injection H as <-. cbn. repeat split; congruence.
    - destruct (m_frequency m =? 0)%Z; [discriminate|]. destruct (negb _); [injection H as <-; repeat split; congruence|]. destruct (message int m r) as [t|]; [|discriminate]. cbn [bind] in H. destruct (mem_nat h (gone w)); [discriminate|]. injection H as <-. cbn. repeat split; try congruence. intros x Hx. destruct (Nat.eqb_spec x h) as [->|]; congruence.
    - injection H as <-. repeat split; congruence.
  Qed.
  Lemma call_inbox h r (w w' : world) : call int m (Client h) r w = Ok w' -> exists ts, inbox w' h = inbox w h ++ ts /\ told [r] ts.
  Proof.
    cbn [call]. intros H. unfold told, logged. cbn [filter]. destruct (m_frequency m =? 0)%Z; [discriminate|]. destruct (br_batch r mod m_frequency m =? 0)%Z eqn:E; cbn [negb] in H.
    - destruct (message int m r) as [t|] eqn:Et; [|discriminate]. cbn [bind] in H. destruct (mem_nat h (gone w)); [discriminate|]. injection H as <-. exists [t]. cbn. rewrite Nat.eqb_refl. split; [reflexivity|]. repeat constructor. exact Et.
    - injection H as <-. exists []. rewrite app_nil_r. split; [reflexivity|constructor].
  Qed.
  Lemma wired_start before after batches : wired (start before after batches).
  Proof.
    unfold wired, start. cbn [table connected gone inbox]. assert (L : forall l, clients (live (map (fun n => Some (Another n)) l)) = []) by (induction l as [|n l IH]; [reflexivity|exact IH]).
    assert (C : clients (live (map (fun n => Some (Another n)) before ++ Some History :: map (fun n => Some (Another n)) after)) = []). { rewrite live_app, clients_app, L. cbn [List.app]. change (clients (live (map (fun n => Some (Another n)) after)) = []). apply L. }
    rewrite C. split; [constructor|]. split; [intros h H; apply clients_in in H; rewrite C in H; destruct H|]. split; [intros h []|reflexivity].
  Qed.
  Lemma wired_step t (w w' : world) : wired w -> step t w = Some w' -> wired w'.
  Proof.
    intros (N & C & G & I) H. destruct t as [|h k|h|h]; cbn [Monitor.step] in H.
    - unfold tell in H. destruct (trainer w) as [[|r todo]|r pos used todo|e]; try discriminate; [injection H as <-; repeat split; assumption|]. destruct (negb _); [injection H as <-; repeat split; assumption|]. destruct (next_entry (table w) pos) as [[i c]|] eqn:E; [|injection H as <-; repeat split; assumption]. destruct (call int m c r w) as [w1|e] eqn:Ec; injection H as <-; [|repeat split; assumption].
      destruct (call_frame _ _ _ _ Ec) as (T & Co & Go & _ & _ & _ & Ib). unfold wired, at_phase. cbn [table connected gone inbox]. rewrite T, Co, Go. repeat split; try assumption. intros h Hh. rewrite Ib; [now apply I|]. intros ->. apply Hh, C. apply next_some in E as [_ E]. apply (live_skip_in _ pos). rewrite E. now left.
    - destruct (mem_nat h (connected w)) eqn:M; [discriminate|]. apply mem_out in M. injection H as <-. unfold wired. cbn [table connected gone inbox]. assert (L : live ((if k then map Some (live (table w)) else table w) ++ [Some (Client h)]) = live (table w) ++ [Client h]). { rewrite live_app. destruct k; [now rewrite live_some|reflexivity]. }
      rewrite L, clients_app. cbn [clients flat_map List.app]. repeat split.
      + apply (NoDup_Add (a := h) (l := clients (live (table w)))); [rewrite <- (app_nil_r (clients _)) at 1; apply Add_app|]. split; [exact N|]. intros X. apply clients_in in X. apply M, C, X.
      + intros x X. apply in_app_or in X as [X|[[= ->]|[]]]; [right; now apply C|now left].
      + intros x X. right. now apply G.
      + intros x X. apply I. intros Y. apply X. now right.
    - destruct (mem_nat h (connected w) && negb (mem_nat h (gone w)))%bool eqn:M; [|discriminate]. apply andb_prop in M as [M _]. apply mem_in in M. injection H as <-. unfold wired. cbn [table connected gone inbox]. repeat split; try assumption. intros x [->|X]; [exact M|now apply G].
    - destruct (mem_nat h (gone w) && registered h w)%bool eqn:M; [|discriminate]. injection H as <-. unfold wired. cbn [table connected gone inbox]. rewrite clients_drop. repeat split; try assumption; [now apply NoDup_filter|]. intros x X. apply live_drop in X as [X _]. now apply C.
  Qed.
End Schedules.
