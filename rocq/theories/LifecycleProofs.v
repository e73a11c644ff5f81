(** Proofs about Lifecycle.v. *)
From Coq Require Import ZArith Lia.
From Verif Require Import PyBase PyFacts Lifecycle.
Local Open Scope list_scope.
Local Open Scope nat_scope.

(** ** Specification *)
(** no thread of an application is at work *)
Definition settled_thread (t : thread) : Prop := match t with Unborn | Finished | Died _ => True | _ => False end.
Definition settled (p : process) : Prop := forall j, settled_thread (a_thread (app_at p j)).
(** nothing runs, nothing is asked of the loop, no port is taken *)
Definition clean (p : process) : Prop := loop p = {| running := false; stops := 0 |} /\ settled p /\ forall port, taken port p = false.
(** a with block is left only when its server listens *)
Fixpoint patient (ts : list turn) (p : process) : Prop :=
  match ts with
  | [] => True
  | t :: r => (t = Main -> forall i rest, main p = AddStop :: StopServer i :: rest -> forall port, a_thread (app_at p i) <> Preparing port) /\ forall p', step t p = Some p' -> patient r p'
  end.

(** ** The list of applications *)
Lemma put_length i a l : List.length (put_app i a l) = List.length l.
Proof. revert i. induction l as [|x l IH]; intros [|i]; cbn; auto. Qed.
Lemma put_get i a l j d : i < List.length l -> nth j (put_app i a l) d = if Nat.eqb j i then a else nth j l d.
Proof. revert i j. induction l as [|x l IH]; intros i j H; cbn in H; [lia|]. destruct i as [|i], j as [|j]; cbn; try reflexivity. apply IH. lia. Qed.
Lemma taken_in port p : taken port p = true <-> exists j, a_server (app_at p j) = Some (port, true).
Proof.
  unfold taken, app_at. rewrite existsb_exists. split.
  - intros (a & I & H). apply In_nth with (d := {| a_server := None; a_thread := Unborn |}) in I as (j & _ & E). exists j. rewrite E. destruct (a_server a) as [[q [|]]|]; try discriminate. apply Z.eqb_eq in H. now subst.
  - intros (j & H). destruct (Nat.lt_ge_cases j (List.length (apps p))) as [L|L]; [|rewrite nth_overflow in H by exact L; discriminate]. eexists. split; [apply nth_In, L|]. rewrite H. apply Z.eqb_refl.
Qed.
Lemma taken_false port p : taken port p = false <-> forall j, a_server (app_at p j) <> Some (port, true).
Proof. rewrite <- Bool.not_true_iff_false, taken_in. split; [intros H j E; apply H; eauto|intros H (j & E); exact (H j E)]. Qed.
Lemma run_app a b p : run (a ++ b) p = match run a p with Some p' => run b p' | None => None end.
Proof. revert p. induction a as [|t a IH]; intros p; [reflexivity|]. cbn. destruct (step t p); [apply IH|reflexivity]. Qed.
Lemma patient_app a b p p' : patient (a ++ b) p -> run a p = Some p' -> patient a p /\ patient b p'.
Proof. revert p. induction a as [|t a IH]; intros p C E; cbn in E |- *; [injection E as <-; auto|]. destruct C as [C1 C2]. destruct (step t p) as [p1|] eqn:E1; [|discriminate]. destruct (IH p1 (C2 p1 eq_refl) E) as [Ca Cb]. split; [|exact Cb]. split; [exact C1|]. intros p2 [= <-]. exact Ca. Qed.

(** ** One with block *)
Section Block.
  Context (i : nat) (port : Z) (n : nat) (p0 : process).
  Context (Hi : i < List.length (apps p0)) (Hc : clean p0) (Hr : raised p0 = None) (Hm : main p0 = with_app i port (repeat Work n)).
  Definition tail_code : list instr := [AddStop; StopServer i; Join i].
  Definition idle_loop : ioloop := {| running := false; stops := 0 |}.
  (** where the main thread is, where the thread of the application is, and the loop; [k]: steps that remain at most *)
  Inductive at_work (p : process) : nat -> Prop :=
  | before_start : p = p0 -> at_work p (n + 7)
  | in_body_preparing b : b <= n -> main p = repeat Work b ++ tail_code -> a_thread (app_at p i) = Preparing port -> loop p = idle_loop -> a_server (app_at p i) = a_server (app_at p0 i) -> at_work p (b + 6)
  | in_body_ready b : b <= n -> main p = repeat Work b ++ tail_code -> a_thread (app_at p i) = Ready -> loop p = idle_loop -> a_server (app_at p i) = Some (port, true) -> at_work p (b + 5)
  | in_body_looping b : b <= n -> main p = repeat Work b ++ tail_code -> a_thread (app_at p i) = Looping -> loop p = {| running := true; stops := 0 |} -> a_server (app_at p i) = Some (port, true) -> at_work p (b + 4)
  | leaving_finished (open : bool) : main p = (if open then [StopServer i; Join i] else [Join i]) -> a_server (app_at p i) = Some (port, open) -> a_thread (app_at p i) = Finished -> loop p = idle_loop -> at_work p (if open then 2 else 1)
  | outside : main p = [] -> a_server (app_at p i) = Some (port, false) -> a_thread (app_at p i) = Finished -> loop p = idle_loop -> at_work p 0
  | leaving_looping (open : bool) : main p = (if open then [StopServer i; Join i] else [Join i]) -> a_server (app_at p i) = Some (port, open) -> a_thread (app_at p i) = Looping -> loop p = {| running := true; stops := 1 |} -> at_work p (if open then 3 else 2)
  | leaving_ready (open : bool) : main p = (if open then [StopServer i; Join i] else [Join i]) -> a_server (app_at p i) = Some (port, open) -> a_thread (app_at p i) = Ready -> loop p = {| running := false; stops := 1 |} -> at_work p (if open then 4 else 3).
  Definition block (p : process) (k : nat) : Prop :=
    List.length (apps p) = List.length (apps p0) /\ (forall j, j <> i -> app_at p j = app_at p0 j) /\ raised p = None /\ at_work p k.
  Lemma others p j q : (forall j, j <> i -> app_at p j = app_at p0 j) -> j <> i -> thread_step j p = Some q -> False.
  Proof. intros O Nj E. unfold thread_step in E. rewrite (O j Nj) in E. destruct Hc as (_ & St & _). specialize (St j). destruct (a_thread (app_at p0 j)); try discriminate; exact St. Qed.
  Lemma free_port p : (forall j, j <> i -> app_at p j = app_at p0 j) -> a_server (app_at p i) = a_server (app_at p0 i) -> taken port p = false.
  Proof. intros O Si. apply taken_false. intros j E. destruct Hc as (_ & _ & T). specialize (T port). rewrite taken_false in T. destruct (Nat.eq_dec j i) as [->|N]; [apply (T i); congruence|apply (T j); now rewrite <- (O j N)]. Qed.
  Lemma set_app p s t l m r : List.length (apps p) = List.length (apps p0) -> (forall j, j <> i -> app_at p j = app_at p0 j) ->
    let q := {| loop := l; apps := put_app i {| a_server := s; a_thread := t |} (apps p); main := m; raised := r |} in
    List.length (apps q) = List.length (apps p0) /\ (forall j, j <> i -> app_at q j = app_at p0 j) /\ app_at q i = {| a_server := s; a_thread := t |}.
  Proof.
    intros L O q. unfold q, app_at. cbn [apps]. split; [now rewrite put_length|]. assert (Hi' : i < List.length (apps p)) by lia. split.
    - intros j Nj. rewrite put_get by exact Hi'. destruct (Nat.eqb_spec j i); [contradiction|]. now apply O.
    - rewrite put_get by exact Hi'. now rewrite Nat.eqb_refl.
  Qed.
  Lemma body_next b p (P : process -> nat -> Prop) : main p = repeat Work b ++ tail_code -> forall q, main_step p = Some q ->
    (exists b', b = S b' /\ q = goes_on p (repeat Work b' ++ tail_code) (loop p) (apps p)) \/
    (b = 0 /\ q = goes_on p [StopServer i; Join i] {| running := running (loop p); stops := S (stops (loop p)) |} (apps p)).
  Proof.
    intros M q E. unfold main_step in E. rewrite M in E. destruct b as [|b]; cbn [repeat List.app tail_code] in E; injection E as <-; [now right|left]. exists b. auto.
  Qed.
  Lemma block_step p k t q : block p k -> (t = Main -> forall i' rest, main p = AddStop :: StopServer i' :: rest -> forall port', a_thread (app_at p i') <> Preparing port') -> step t p = Some q -> exists k', k' < k /\ block q k'.
  Proof.
    intros (L & O & R & W) Q E. destruct t as [|j]; cbn [step] in E.
    - (* the main thread *) destruct W as [->|b Hb M T Lp Sv|b Hb M T Lp Sv|b Hb M T Lp Sv|open M Sv T Lp|M Sv T Lp|open M Sv T Lp|open M Sv T Lp].
      + unfold main_step in E. rewrite Hm in E. cbn [with_app] in E. injection E as <-. exists (n + 6). split; [lia|]. destruct (set_app p0 (a_server (app_at p0 i)) (Preparing port) (loop p0) (repeat Work n ++ tail_code) None L O) as (L' & O' & A'). split; [exact L'|]. split; [exact O'|]. split; [reflexivity|]. destruct Hc as (Lp0 & _). apply in_body_preparing; [lia|reflexivity|exact (f_equal a_thread A')|exact Lp0|exact (f_equal a_server A')].
      + destruct (body_next b p (fun _ _ => True) M q E) as [(b' & -> & ->)|(-> & ->)].
        * exists (b' + 6). split; [lia|]. split; [exact L|]. split; [exact O|]. split; [reflexivity|]. apply in_body_preparing; auto; lia.
        * elim (Q eq_refl i [Join i] M port T).
      + destruct (body_next b p (fun _ _ => True) M q E) as [(b' & -> & ->)|(-> & ->)].
        * exists (b' + 5). split; [lia|]. split; [exact L|]. split; [exact O|]. split; [reflexivity|]. apply in_body_ready; auto; lia.
        * exists 4. split; [lia|]. split; [exact L|]. split; [exact O|]. split; [reflexivity|]. apply (leaving_ready _ true); auto. cbn [goes_on loop]. rewrite Lp. reflexivity.
      + destruct (body_next b p (fun _ _ => True) M q E) as [(b' & -> & ->)|(-> & ->)].
        * exists (b' + 4). split; [lia|]. split; [exact L|]. split; [exact O|]. split; [reflexivity|]. apply in_body_looping; auto; lia.
        * exists 3. split; [lia|]. split; [exact L|]. split; [exact O|]. split; [reflexivity|]. apply (leaving_looping _ true); auto. cbn [goes_on loop]. rewrite Lp. reflexivity.
      + unfold main_step in E. destruct open; rewrite M in E.
        * rewrite Sv in E. injection E as <-. exists 1. split; [lia|]. destruct (set_app p (Some (port, false)) (a_thread (app_at p i)) (loop p) [Join i] None L O) as (L' & O' & A'). split; [exact L'|]. split; [exact O'|]. split; [reflexivity|]. apply (leaving_finished _ false); unfold goes_on; try (rewrite A'); auto.
        * rewrite T in E. cbn [dead_or_done] in E. injection E as <-. exists 0. split; [lia|]. split; [exact L|]. split; [exact O|]. split; [reflexivity|]. apply outside; auto.
      + unfold main_step in E. rewrite M in E. discriminate.
      + unfold main_step in E. destruct open; rewrite M in E.
        * rewrite Sv in E. injection E as <-. exists 2. split; [lia|]. destruct (set_app p (Some (port, false)) (a_thread (app_at p i)) (loop p) [Join i] None L O) as (L' & O' & A'). split; [exact L'|]. split; [exact O'|]. split; [reflexivity|]. apply (leaving_looping _ false); unfold goes_on; try (rewrite A'); auto.
        * rewrite T in E. discriminate.
      + unfold main_step in E. destruct open; rewrite M in E.
        * rewrite Sv in E. injection E as <-. exists 3. split; [lia|]. destruct (set_app p (Some (port, false)) (a_thread (app_at p i)) (loop p) [Join i] None L O) as (L' & O' & A'). split; [exact L'|]. split; [exact O'|]. split; [reflexivity|]. apply (leaving_ready _ false); unfold goes_on; try (rewrite A'); auto.
        * rewrite T in E. discriminate.
    - (* a thread *) destruct (Nat.eq_dec j i) as [->|Nj]; [|destruct (others p j q O Nj E)]. unfold thread_step in E. destruct W as [->|b Hb M T Lp Sv|b Hb M T Lp Sv|b Hb M T Lp Sv|open M Sv T Lp|M Sv T Lp|open M Sv T Lp|open M Sv T Lp].
      + destruct Hc as (_ & St & _). specialize (St i). destruct (a_thread (app_at p0 i)); try discriminate; destruct St.
      + rewrite T, (free_port p O Sv) in E. injection E as <-. exists (b + 5). split; [lia|]. destruct (set_app p (Some (port, true)) Ready (loop p) (main p) (raised p) L O) as (L' & O' & A'). split; [exact L'|]. split; [exact O'|]. split; [exact R|]. apply in_body_ready; try (rewrite A'); auto.
      + rewrite T, Lp in E. cbn [enter_loop idle_loop running stops] in E. injection E as <-. exists (b + 4). split; [lia|]. destruct (set_app p (a_server (app_at p i)) Looping {| running := true; stops := 0 |} (main p) (raised p) L O) as (L' & O' & A'). split; [exact L'|]. split; [exact O'|]. split; [exact R|]. apply in_body_looping; try (rewrite A'); auto.
      + rewrite T, Lp in E. discriminate.
      + rewrite T in E. discriminate.
      + rewrite T in E. discriminate.
      + rewrite T, Lp in E. cbn [leave_loop stops] in E. injection E as <-. exists (if open then 2 else 1). split; [destruct open; lia|]. destruct (set_app p (a_server (app_at p i)) Finished {| running := false; stops := 0 |} (main p) (raised p) L O) as (L' & O' & A'). split; [exact L'|]. split; [exact O'|]. split; [exact R|]. apply leaving_finished; try (rewrite A'); auto.
      + rewrite T, Lp in E. cbn [enter_loop running stops] in E. injection E as <-. exists (if open then 3 else 2). split; [destruct open; lia|]. destruct (set_app p (a_server (app_at p i)) Looping {| running := true; stops := 1 |} (main p) (raised p) L O) as (L' & O' & A'). split; [exact L'|]. split; [exact O'|]. split; [exact R|]. apply leaving_looping; try (rewrite A'); auto.
  Qed.
  Lemma block_run ts : forall p k q, block p k -> patient ts p -> run ts p = Some q -> exists k', List.length ts + k' <= k /\ block q k'.
  Proof.
    induction ts as [|t ts IH]; intros p k q B C E; cbn in E; [injection E as <-; exists k; auto|]. destruct C as [C1 C2]. destruct (step t p) as [p1|] eqn:E1; [|discriminate]. destruct (block_step p k t p1 B C1 E1) as (k1 & Lk & B1). destruct (IH p1 k1 q B1 (C2 p1 eq_refl) E) as (k' & Lk' & B'). exists k'. cbn [List.length]. split; [lia|exact B'].
  Qed.
  Lemma block_init : block p0 (n + 7).
  Proof. split; [reflexivity|]. split; [reflexivity|]. split; [exact Hr|]. now apply before_start. Qed.
  (** it never fails, has an end, and leaves nothing behind *)
  Theorem with_ok ts q : patient ts p0 -> run ts p0 = Some q ->
    raised q = None /\ List.length ts <= n + 7 /\ (forall j, j <> i -> app_at q j = app_at p0 j) /\
    (main q = [] -> clean q /\ a_thread (app_at q i) = Finished).
  Proof.
    intros C E. destruct (block_run ts p0 (n + 7) q block_init C E) as (k & Lk & L & O & R & W). split; [exact R|]. split; [lia|]. split; [exact O|]. intros M.
    assert (X : a_server (app_at q i) = Some (port, false) /\ a_thread (app_at q i) = Finished /\ loop q = idle_loop).
    { destruct W as [->|b Hb M' T Lp Sv|b Hb M' T Lp Sv|b Hb M' T Lp Sv|open M' Sv T Lp|M' Sv T Lp|open M' Sv T Lp|open M' Sv T Lp]; try (rewrite Hm in M; discriminate M); try (rewrite M' in M; destruct b; discriminate M); try (rewrite M' in M; destruct open; discriminate M). auto. }
    destruct X as (Sv & T & Lp). split; [|exact T]. split; [exact Lp|]. destruct Hc as (_ & St & Tk). split.
    - intros j. destruct (Nat.eq_dec j i) as [->|N]; [rewrite T; exact I|]. rewrite (O j N). apply St.
    - intros x. apply taken_false. intros j Ej. specialize (Tk x). rewrite taken_false in Tk. destruct (Nat.eq_dec j i) as [->|N]; [congruence|]. apply (Tk j). now rewrite <- (O j N).
  Qed.
  (** no schedule gets stuck inside it *)
  Theorem with_goes_on ts q : patient ts p0 -> run ts p0 = Some q -> main q <> [] -> exists t q', step t q = Some q' /\ patient [t] q.
  Proof.
    intros C E M. destruct (block_run ts p0 (n + 7) q block_init C E) as (k & Lk & L & O & R & W).
    assert (Th : forall q', step (Thread i) q = Some q' -> exists t q', step t q = Some q' /\ patient [t] q) by (intros q' Eq; exists (Thread i), q'; split; [exact Eq|]; split; [discriminate|intros; exact I]).
    assert (Mn : forall q', step Main q = Some q' -> (forall port', a_thread (app_at q i) <> Preparing port') -> exists t q', step t q = Some q' /\ patient [t] q).
    { intros q' Eq Np. exists Main, q'. split; [exact Eq|]. split; [|intros; exact I]. intros _ i' rest Mq port'. assert (i' = i) as ->; [|apply Np].
      destruct W as [->|b Hb M' T Lp Sv|b Hb M' T Lp Sv|b Hb M' T Lp Sv|open M' Sv T Lp|M' Sv T Lp|open M' Sv T Lp|open M' Sv T Lp]; try (rewrite Hm in Mq; discriminate Mq); try (rewrite M' in Mq; destruct open; discriminate Mq); try (rewrite M' in Mq; discriminate Mq); rewrite M' in Mq; destruct b; try discriminate Mq; cbn in Mq; injection Mq as <- _; reflexivity. }
    destruct W as [->|b Hb M' T Lp Sv|b Hb M' T Lp Sv|b Hb M' T Lp Sv|open M' Sv T Lp|M' Sv T Lp|open M' Sv T Lp|open M' Sv T Lp].
    - eexists Main, _. split; [cbn [step]; unfold main_step; rewrite Hm; reflexivity|]. split; [|intros; exact I]. intros _ i' rest Mq. rewrite Hm in Mq. discriminate Mq.
    - eapply Th. cbn [step]. unfold thread_step. rewrite T, (free_port q O Sv). reflexivity.
    - eapply Th. cbn [step]. unfold thread_step. rewrite T, Lp. reflexivity.
    - destruct b as [|b]; (eapply Mn; [cbn [step]; unfold main_step; rewrite M'; reflexivity|]; intros port'; rewrite T; discriminate).
    - destruct open; (eapply Mn; [cbn [step]; unfold main_step; rewrite M'; rewrite ?Sv, ?T; reflexivity|]; intros port'; rewrite T; discriminate).
    - contradiction.
    - eapply Th. cbn [step]. unfold thread_step. rewrite T, Lp. reflexivity.
    - eapply Th. cbn [step]. unfold thread_step. rewrite T, Lp. reflexivity.
  Qed.
  (** from the moment the loop runs until the block is left, the port answers *)
  Theorem with_answers ts q : patient ts p0 -> run ts p0 = Some q -> a_thread (app_at q i) = Looping -> In (StopServer i) (main q) -> answers port q = true.
  Proof.
    intros C E T M. destruct (block_run ts p0 (n + 7) q block_init C E) as (k & Lk & L & O & R & W). unfold answers.
    assert (X : running (loop q) = true /\ a_server (app_at q i) = Some (port, true)).
    { destruct W as [->|b Hb M' T' Lp Sv|b Hb M' T' Lp Sv|b Hb M' T' Lp Sv|open M' Sv T' Lp|M' Sv T' Lp|open M' Sv T' Lp|open M' Sv T' Lp]; try congruence.
      - destruct Hc as (_ & St & _). specialize (St i). rewrite T in St. destruct St.
      - rewrite Lp. auto.
      - rewrite Lp. destruct open; [auto|]. rewrite M' in M. destruct M as [M|[]]. discriminate M. }
    destruct X as [-> Sv]. apply taken_in. eauto.
  Qed.
End Block.
