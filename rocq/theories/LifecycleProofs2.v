(** Proofs about Lifecycle.v: blocks one after another, start, and what goes wrong. *)
From Coq Require Import ZArith Lia.
From Verif Require Import PyBase PyFacts Lifecycle LifecycleProofs.
Local Open Scope list_scope.
Local Open Scope nat_scope.

(** the same process with other work for the main thread *)
Definition doing (m : list instr) (p : process) : process := {| loop := loop p; apps := apps p; main := m; raised := raised p |}.
Lemma doing_app m p j : app_at (doing m p) j = app_at p j.
Proof. reflexivity. Qed.
Lemma doing_clean m p : clean p -> clean (doing m p).
Proof. exact (fun H => H). Qed.
Lemma thread_doing i p q m : thread_step i p = Some q -> thread_step i (doing m p) = Some (doing m q) /\ main q = main p /\ raised q = raised p.
Proof.
  unfold thread_step. rewrite doing_app. change (taken ?x (doing m p)) with (taken x p). cbn [doing loop apps raised]. destruct (a_thread (app_at p i)); try discriminate.
  - change (taken port (doing m p)) with (taken port p). destruct (taken port p); intros [= <-]; auto.
  - destruct (enter_loop (loop p)); intros [= <-]; auto.
  - destruct (leave_loop (loop p)); intros [= <-]; auto.
Qed.
Lemma main_doing x m rest p q : main p = x :: m ++ rest -> raised p = None -> main_step p = Some q ->
  (raised q = None /\ exists m', main q = m' ++ rest /\ main_step (doing (x :: m) p) = Some (doing m' q)) \/ (exists e, raised q = Some e /\ main_step (doing (x :: m) p) = Some q /\ main q = []).
Proof.
  intros M R E. unfold main_step in *. rewrite M in E. cbn [doing main loop apps]. change (app_at (doing (x :: m) p)) with (app_at p). change (taken ?z (doing (x :: m) p)) with (taken z p).
  destruct x as [i port| | |i|i|i port| |]; cbn [goes_on fails] in *.
  - injection E as <-. left. split; [reflexivity|]. exists m. split; reflexivity.
  - injection E as <-. left. split; [reflexivity|]. exists m. split; reflexivity.
  - injection E as <-. left. split; [reflexivity|]. exists m. split; reflexivity.
  - destruct (a_server (app_at p i)) as [[port o]|]; injection E as <-; [left; split; [reflexivity|]; exists m; split; reflexivity|right]. exists AttributeError. auto.
  - destruct (dead_or_done (a_thread (app_at p i))); [|discriminate]. injection E as <-. left. split; [reflexivity|]. exists m. split; reflexivity.
  - destruct (taken port p); injection E as <-; [right; exists OtherError; auto|left]. split; [reflexivity|]. exists m. split; reflexivity.
  - destruct (enter_loop (loop p)) as [l|e]; injection E as <-; [left|right; exists e; auto]. split; [reflexivity|]. exists (InLoop :: m). split; reflexivity.
  - destruct (leave_loop (loop p)) as [l|]; [|discriminate]. injection E as <-. left. split; [reflexivity|]. exists m. split; reflexivity.
Qed.
Lemma split_run rest : forall ts p m q, main p = m ++ rest -> raised p = None -> patient ts p -> run ts p = Some q ->
  (exists q1, patient ts (doing m p) /\ run ts (doing m p) = Some q1 /\ ((raised q1 = None /\ q = doing (main q1 ++ rest) q1) \/ exists e, raised q1 = Some e)) \/
  (exists ts1 ts2 q1, ts = ts1 ++ ts2 /\ patient ts1 (doing m p) /\ run ts1 (doing m p) = Some q1 /\ main q1 = [] /\ raised q1 = None /\ patient ts2 (doing rest q1) /\ run ts2 (doing rest q1) = Some q).
Proof.
  induction ts as [|t ts IH]; intros p m q M R C E.
  - cbn in E. injection E as <-. left. exists (doing m p). split; [exact I|]. split; [reflexivity|]. left. split; [exact R|]. cbn [doing main]. rewrite <- M. destruct p; reflexivity.
  - assert (Stop : m = [] -> exists ts1 ts2 q1, t :: ts = ts1 ++ ts2 /\ patient ts1 (doing m p) /\ run ts1 (doing m p) = Some q1 /\ main q1 = [] /\ raised q1 = None /\ patient ts2 (doing rest q1) /\ run ts2 (doing rest q1) = Some q).
    { intros ->. exists [], (t :: ts), (doing [] p). split; [reflexivity|]. split; [exact I|]. split; [reflexivity|]. split; [reflexivity|]. split; [exact R|]. assert (Ep : doing rest (doing [] p) = p) by (cbn in M; subst rest; destruct p; reflexivity). rewrite Ep. auto. }
    destruct m as [|x m]; [right; now apply Stop|]. clear Stop. cbn [run] in E. cbn [patient] in C. destruct C as [C1 C2]. destruct (step t p) as [p1|] eqn:E1; [|discriminate]. specialize (C2 p1 eq_refl).
    assert (K : (raised p1 = None /\ exists m', main p1 = m' ++ rest /\ step t (doing (x :: m) p) = Some (doing m' p1)) \/ exists e, raised p1 = Some e /\ step t (doing (x :: m) p) = Some p1 /\ main p1 = []).
    { destruct t as [|j]; cbn [step] in E1 |- *; [now apply main_doing|]. destruct (thread_doing j p p1 (x :: m) E1) as (D & Mp & Rp). left. split; [congruence|]. exists (x :: m). split; [congruence|exact D]. }
    assert (Cc : t = Main -> forall i rest0, main (doing (x :: m) p) = AddStop :: StopServer i :: rest0 -> forall port, a_thread (app_at (doing (x :: m) p) i) <> Preparing port).
    { intros Ht i rest0 Mr port. cbn [doing main] in Mr. rewrite doing_app. apply (C1 Ht i (rest0 ++ rest)). rewrite M, Mr. reflexivity. }
    destruct K as [(R1 & m' & M1 & S1)|(e & R1 & S1 & M1)].
    + destruct (IH p1 m' q M1 R1 C2 E) as [(q1 & Pq & Rq & D)|(ts1 & ts2 & q1 & Et & Pq & Rq & Mq & Rz & P2 & R2)].
      * left. exists q1. split; [split; [exact Cc|intros p2 Es; rewrite S1 in Es; injection Es as <-; exact Pq]|]. split; [cbn [run]; rewrite S1; exact Rq|exact D].
      * right. exists (t :: ts1), ts2, q1. split; [now rewrite Et|]. split; [split; [exact Cc|intros p2 Es; rewrite S1 in Es; injection Es as <-; exact Pq]|]. split; [cbn [run]; rewrite S1; exact Rq|]. auto.
    + left. exists q. split; [split; [exact Cc|intros p2 Es; rewrite S1 in Es; injection Es as <-; exact C2]|]. split; [cbn [run]; rewrite S1; exact E|]. right. exists e.
      (* nothing but threads moves now *) clear - R1 M1 E. revert p1 R1 M1 E. induction ts as [|t ts IH]; intros p1 R1 M1 E; cbn [run] in E; [injection E as <-; exact R1|]. destruct (step t p1) as [p2|] eqn:E2; [|discriminate]. apply (IH p2); [| |exact E]; destruct t as [|j]; cbn [step] in E2; try (unfold main_step in E2; rewrite M1 in E2; discriminate); destruct (thread_doing j p1 p2 [] E2) as (_ & Mp & Rp); congruence.
Qed.

Lemma main_lift rest p q : main_step p = Some q -> main p <> [] -> exists q', main_step (doing (main p ++ rest) p) = Some q'.
Proof.
  intros E M. unfold main_step in *. cbn [doing main loop apps]. change (app_at (doing (main p ++ rest) p)) with (app_at p). change (taken ?z (doing (main p ++ rest) p)) with (taken z p). destruct (main p) as [|x m]; [contradiction|]. cbn [List.app]. destruct x as [i port| | |i|i|i port| |]; try (eexists; reflexivity).
  - destruct (a_server (app_at p i)) as [[pt o]|]; eexists; reflexivity.
  - destruct (dead_or_done (a_thread (app_at p i))); [eexists; reflexivity|discriminate].
  - change (taken port (doing (Listen i port :: m ++ rest) p)) with (taken port p). destruct (taken port p); eexists; reflexivity.
  - destruct (enter_loop (loop p)); eexists; reflexivity.
  - destruct (leave_loop (loop p)); [eexists; reflexivity|discriminate].
Qed.
Lemma step_length t p q : step t p = Some q -> List.length (apps q) = List.length (apps p).
Proof.
  destruct t as [|j]; cbn [step]; intros E.
  - unfold main_step in E. destruct (main p) as [|x m]; [discriminate|]. destruct x as [i port| | |i|i|i port| |]; unfold goes_on, fails in E; try (injection E as <-; cbn [apps]; rewrite ?put_length; reflexivity).
    + destruct (a_server (app_at p i)) as [[pt o]|]; injection E as <-; cbn [apps fails]; rewrite ?put_length; reflexivity.
    + destruct (dead_or_done _); [injection E as <-; reflexivity|discriminate].
    + destruct (taken port p); injection E as <-; cbn [apps fails]; rewrite ?put_length; reflexivity.
    + destruct (enter_loop (loop p)); injection E as <-; reflexivity.
    + destruct (leave_loop (loop p)); [injection E as <-; reflexivity|discriminate].
  - unfold thread_step in E. destruct (a_thread (app_at p j)); try discriminate.
    + destruct (taken port p); injection E as <-; cbn [apps]; apply put_length.
    + destruct (enter_loop (loop p)); injection E as <-; cbn [apps]; apply put_length.
    + destruct (leave_loop (loop p)); [injection E as <-; cbn [apps]; apply put_length|discriminate].
Qed.
Lemma run_length ts : forall p q, run ts p = Some q -> List.length (apps q) = List.length (apps p).
Proof. induction ts as [|t ts IH]; intros p q E; cbn [run] in E; [injection E as <-; reflexivity|]. destruct (step t p) as [p1|] eqn:E1; [|discriminate]. rewrite (IH p1 q E). exact (step_length t p p1 E1). Qed.

(** ** Blocks one after another, of any applications on any ports *)
Definition with_blocks (bs : list (nat * Z * nat)) : list instr := flat_map (fun b => with_app (fst (fst b)) (snd (fst b)) (repeat Work (snd b))) bs.
Theorem with_sequence bs : forall p ts q, clean p -> raised p = None -> main p = with_blocks bs -> (forall b, In b bs -> fst (fst b) < List.length (apps p)) -> patient ts p -> run ts p = Some q ->
  raised q = None /\ (main q = [] -> clean q) /\ (main q <> [] -> exists t q', step t q = Some q').
Proof.
  induction bs as [|[[i port] n] bs IH]; intros p ts q Hc Hr Hm Hi C E.
  - cbn in Hm. assert (X : ts = [] /\ q = p). { destruct ts as [|t ts]; cbn [run] in E; [injection E as <-; auto|]. exfalso. destruct (step t p) as [p1|] eqn:E1; [|discriminate]. destruct t as [|j]; cbn [step] in E1; [unfold main_step in E1; rewrite Hm in E1; discriminate|]. unfold thread_step in E1. destruct Hc as (_ & St & _). specialize (St j). destruct (a_thread (app_at p j)); try discriminate; destruct St. }
    destruct X as [-> ->]. split; [exact Hr|]. split; [auto|congruence].
  - cbn [with_blocks flat_map fst snd] in Hm. fold (with_blocks bs) in Hm. set (m := with_app i port (repeat Work n)) in *. assert (Hi0 : i < List.length (apps (doing m p))) by (apply (Hi (i, port, n)); now left).
    destruct (split_run (with_blocks bs) ts p m q Hm Hr C E) as [(q1 & Pq & Rq & D)|(ts1 & ts2 & q1 & Et & Pq & Rq & Mq & Rz & P2 & R2)].
    + destruct (with_ok i port n (doing m p) Hi0 Hc Hr eq_refl ts q1 Pq Rq) as (R1 & _ & _ & Cl). destruct D as [(_ & ->)|(e & X)]; [|congruence]. cbn [doing raised main]. split; [exact R1|].
      split.
      * intros Me. apply app_eq_nil in Me as [Me _]. exact (proj1 (Cl Me)).
      * intros Me. destruct (main q1) as [|x m1] eqn:Mq; cbn [List.app] in Me |- *.
        -- destruct bs as [|[[i2 port2] n2] bs]; [elim Me; reflexivity|]. eexists Main, _. reflexivity.
        -- destruct (with_goes_on i port n (doing m p) Hi0 Hc Hr eq_refl ts q1 Pq Rq) as (t & q' & Eq & _); [congruence|]. destruct t as [|j]; cbn [step] in Eq.
           ++ destruct (main_lift (with_blocks bs) q1 q' Eq) as [q2 E2]; [congruence|]. exists Main, q2. rewrite Mq in E2. exact E2.
           ++ destruct (thread_doing j q1 q' (x :: m1 ++ with_blocks bs) Eq) as (E2 & _). exists (Thread j), (doing (x :: m1 ++ with_blocks bs) q'). exact E2.
    + destruct (with_ok i port n (doing m p) Hi0 Hc Hr eq_refl ts1 q1 Pq Rq) as (R1 & _ & _ & Cl). destruct (Cl Mq) as [Cq _]. apply (IH (doing (with_blocks bs) q1) ts2 q); [exact Cq|exact R1|reflexivity| |exact P2|exact R2].
      intros b Hb. cbn [doing apps]. assert (Ln : List.length (apps q1) = List.length (apps p)). { change (apps p) with (apps (doing m p)). apply (run_length ts1 (doing m p) q1 Rq). } rewrite Ln. apply Hi. now right.
Qed.

(** ** start after a block: it answers, for ever *)
Theorem serve_answers i port p : clean p -> raised p = None -> main p = serve i port -> i < List.length (apps p) ->
  exists q, run [Main; Main] p = Some q /\ answers port q = true /\ raised q = None /\ (forall t, step t q = None) /\
  forall ts q', run ts p = Some q' -> List.length ts <= 2 /\ (List.length ts = 2 -> q' = q).
Proof.
  intros (Lp & St & Tk) R M Hi. cbn [run step]. unfold main_step at 1. rewrite M. cbn [serve]. rewrite (Tk port). unfold main_step at 1. cbn [goes_on main loop]. rewrite Lp. cbn [enter_loop running stops]. eexists. split; [reflexivity|].
  set (p1 := goes_on p [RunLoop] {| running := false; stops := 0 |} (put_app i {| a_server := Some (port, true); a_thread := a_thread (app_at p i) |} (apps p))).
  set (q := goes_on p1 [InLoop] {| running := true; stops := 0 |} (put_app i {| a_server := Some (port, true); a_thread := a_thread (app_at p i) |} (apps p))).
  assert (Th : forall r, apps r = apps q -> forall j, thread_step j r = None). { intros r Er j. unfold thread_step. unfold app_at. rewrite Er. unfold q. cbn [goes_on apps]. rewrite put_get by exact Hi. destruct (Nat.eqb j i); cbn [a_thread]; [specialize (St i)|specialize (St j); unfold app_at in St]; match goal with |- context [match ?t with _ => _ end] => destruct t end; try reflexivity; destruct St. }
  assert (Nq : forall t, step t q = None). { intros [|j]; [reflexivity|]. cbn [step]. apply Th. reflexivity. }
  split; [change (taken port q = true); apply taken_in; exists i; change (a_server (nth i (put_app i {| a_server := Some (port, true); a_thread := a_thread (app_at p i) |} (apps p)) {| a_server := None; a_thread := Unborn |}) = Some (port, true)); rewrite put_get by exact Hi; now rewrite Nat.eqb_refl|]. split; [reflexivity|]. split; [exact Nq|].
  intros ts q' E. assert (T0 : forall j, thread_step j p = None) by (intros j; unfold thread_step; specialize (St j); destruct (a_thread (app_at p j)); try reflexivity; destruct St).
  destruct ts as [|[|j] ts]; [cbn; split; [lia|discriminate]| |cbn [run step] in E; rewrite T0 in E; discriminate]. cbn [run step] in E. unfold main_step at 1 in E. rewrite M in E. cbn [serve] in E. rewrite (Tk port), Lp in E. fold p1 in E.
  destruct ts as [|[|j] ts]; [cbn; split; [lia|discriminate]| |cbn [run step] in E; rewrite (Th p1 eq_refl) in E; discriminate]. cbn [run step] in E. unfold main_step at 1 in E. cbn [p1 goes_on main loop] in E. cbn [enter_loop running stops] in E. fold p1 q in E.
  destruct ts as [|t ts]; [cbn in E; injection E as <-; cbn; auto|]. cbn [run] in E. change (match step t q with Some p' => run ts p' | None => None end = Some q') in E. rewrite Nq in E. discriminate.
Qed.
