(** Proofs about Lifecycle.v: what goes wrong, and cases. *)
From Coq Require Import ZArith Lia.
From Verif Require Import PyBase PyFacts Lifecycle LifecycleProofs LifecycleProofs2.
Local Open Scope list_scope.
Local Open Scope nat_scope.

Lemma work_run b : forall p m, main p = repeat Work b ++ m -> raised p = None -> run (repeat Main b) p = Some (doing m p).
Proof.
  induction b as [|b IH]; intros p m M R; cbn [repeat run].
  - cbn in M. subst m. destruct p; reflexivity.
  - cbn [step]. unfold main_step. rewrite M. cbn [repeat List.app]. rewrite (IH (goes_on p (repeat Work b ++ m) (loop p) (apps p)) m eq_refl eq_refl). unfold doing, goes_on. cbn [loop apps raised]. now rewrite R.
Qed.
(** ** Refuted: a block may be short.  It fails, and its port stays taken though nobody answers *)
Theorem short_block_refuted i port n p : i < List.length (apps p) -> clean p -> raised p = None -> main p = with_app i port (repeat Work n) -> a_server (app_at p i) = None ->
  exists ts q, run ts p = Some q /\ raised q = Some AttributeError /\ taken port q = true /\ answers port q = false /\ forall t, step t q = None.
Proof.
  intros Hi (Lp & St & Tk) R M Sv. exists ([Main] ++ repeat Main n ++ [Main; Main; Thread i; Thread i; Thread i]).
  rewrite run_app. cbn [run step]. unfold main_step. rewrite M. cbn [with_app]. set (p1 := goes_on p (repeat Work n ++ [AddStop; StopServer i; Join i]) (loop p) (put_app i {| a_server := a_server (app_at p i); a_thread := Preparing port |} (apps p))).
  rewrite run_app, (work_run n p1 [AddStop; StopServer i; Join i] eq_refl eq_refl).
  assert (A1 : forall q j, apps q = put_app i {| a_server := a_server (app_at p i); a_thread := Preparing port |} (apps p) -> app_at q j = if Nat.eqb j i then {| a_server := None; a_thread := Preparing port |} else app_at p j). { intros q j Eq. unfold app_at at 1. rewrite Eq, put_get by exact Hi. now rewrite Sv. }
  cbn [run step]. unfold main_step at 1. cbn [doing main p1 goes_on loop apps]. unfold main_step at 1. cbn [goes_on main].
  rewrite (A1 (goes_on (doing [AddStop; StopServer i; Join i] p1) [StopServer i; Join i] {| running := running (loop p); stops := S (stops (loop p)) |} (put_app i {| a_server := a_server (app_at p i); a_thread := Preparing port |} (apps p))) i eq_refl). rewrite Nat.eqb_refl. cbn [a_server].
  unfold fails. cbn [goes_on loop apps]. rewrite Lp. cbn [running stops].
  set (p2 := {| loop := {| running := false; stops := 1 |}; apps := put_app i {| a_server := a_server (app_at p i); a_thread := Preparing port |} (apps p); main := []; raised := Some AttributeError |}).
  assert (T2 : taken port p2 = false). { apply taken_false. intros j. rewrite (A1 p2 j eq_refl). destruct (Nat.eqb j i); [discriminate|]. specialize (Tk port). rewrite taken_false in Tk. apply Tk. }
  unfold thread_step at 1. rewrite (A1 p2 i eq_refl), Nat.eqb_refl. cbn [a_thread]. rewrite T2. cbn [p2 loop apps main raised].
  set (put2 := put_app i {| a_server := Some (port, true); a_thread := Ready |} (put_app i {| a_server := a_server (app_at p i); a_thread := Preparing port |} (apps p))).
  assert (A2 : forall a j, nth j (put_app i a (put_app i {| a_server := a_server (app_at p i); a_thread := Preparing port |} (apps p))) {| a_server := None; a_thread := Unborn |} = if Nat.eqb j i then a else app_at p j) by (intros a j; rewrite put_get by (rewrite put_length; exact Hi); destruct (Nat.eqb j i) eqn:Ej; [reflexivity|]; rewrite put_get by exact Hi; rewrite Ej; reflexivity).
  unfold thread_step at 1. unfold app_at at 1. cbn [apps]. unfold put2 at 1. rewrite (A2 _ i), Nat.eqb_refl. cbn [a_thread loop]. cbn [enter_loop running stops]. unfold app_at at 1. cbn [apps]. unfold put2 at 1. rewrite (A2 _ i), Nat.eqb_refl. cbn [a_server main raised].
  set (put3 := put_app i {| a_server := Some (port, true); a_thread := Looping |} put2).
  assert (A3 : forall a j, nth j (put_app i a put2) {| a_server := None; a_thread := Unborn |} = if Nat.eqb j i then a else app_at p j). { intros a j. unfold put2. rewrite put_get by (rewrite !put_length; exact Hi). destruct (Nat.eqb j i) eqn:Ej; [reflexivity|]. rewrite (A2 _ j), Ej. reflexivity. }
  unfold thread_step at 1. unfold app_at at 1. cbn [apps]. unfold put3 at 1. rewrite A3, Nat.eqb_refl. cbn [a_thread loop]. cbn [leave_loop stops]. unfold app_at at 1. cbn [apps]. unfold put3 at 1. rewrite A3, Nat.eqb_refl. cbn [a_server main raised].
  eexists. split; [reflexivity|]. split; [reflexivity|].
  assert (A4 : forall a j, nth j (put_app i a put3) {| a_server := None; a_thread := Unborn |} = if Nat.eqb j i then a else app_at p j). { intros a j. unfold put3. rewrite put_get by (unfold put2; rewrite !put_length; exact Hi). destruct (Nat.eqb j i) eqn:Ej; [reflexivity|]. rewrite A3, Ej. reflexivity. }
  split; [apply taken_in; exists i; unfold app_at; cbn [apps]; rewrite A4, Nat.eqb_refl; reflexivity|]. split; [reflexivity|]. intros [|j]; [reflexivity|]. cbn [step]. unfold thread_step, app_at. cbn [apps]. rewrite A4. specialize (St j). destruct (Nat.eqb j i); [reflexivity|]. destruct (a_thread (app_at p j)); try reflexivity; destruct St.
Qed.
(** ** Refuted: a block may be inside another.  The inner one stops the loop of both *)
Definition two_apps (m : list instr) : process := {| loop := {| running := false; stops := 0 |}; apps := [{| a_server := None; a_thread := Unborn |}; {| a_server := None; a_thread := Unborn |}]; main := m; raised := None |}.
Definition nested_schedule : list turn := [Main; Thread 0; Thread 0; Main; Thread 1; Thread 1; Main; Main; Main; Thread 0; Main].
(** a schedule is patient when each of its steps is *)
Lemma patient_one t r p p' : step t p = Some p' -> (t = Main -> forall i rest, main p = AddStop :: StopServer i :: rest -> forall port, a_thread (app_at p i) <> Preparing port) -> patient r p' -> patient (t :: r) p.
Proof. intros E H P. split; [exact H|]. intros q Eq. rewrite E in Eq. injection Eq as <-. exact P. Qed.
Ltac one E := match goal with |- patient [] _ => exact I | |- _ => eapply patient_one; [unfold step, main_step, thread_step; cbn -[Z.eqb]; rewrite ?E, ?Z.eqb_refl; cbn -[Z.eqb]; reflexivity|try (intros _ ? ? Hm ?; cbn in Hm; first [discriminate Hm|injection Hm as <- _; cbn; discriminate]); try discriminate|] end.
Lemma run_one t r p p' q : step t p = Some p' -> run r p' = q -> run (t :: r) p = q.
Proof. intros E H. cbn [run]. now rewrite E. Qed.
Ltac go E := lazymatch goal with |- run [] _ = _ => reflexivity | |- _ => eapply run_one; [unfold step, main_step, thread_step; cbn -[Z.eqb]; rewrite ?E, ?Z.eqb_refl; cbn -[Z.eqb]; reflexivity|] end.
Theorem nested_refuted port inner rest : port <> inner ->
  exists q, run nested_schedule (two_apps (with_app 0 port (with_app 1 inner [Work] ++ [Work]) ++ rest)) = Some q /\ patient nested_schedule (two_apps (with_app 0 port (with_app 1 inner [Work] ++ [Work]) ++ rest)) /\
  main q = [Work; AddStop; StopServer 0; Join 0] ++ rest /\ taken port q = true /\ answers port q = false /\ a_thread (app_at q 1) = Died RuntimeError.
Proof.
  intros N. assert (E : (port =? inner)%Z = false) by (apply Z.eqb_neq; exact N). eexists. split; [|split].
  - unfold nested_schedule, two_apps, with_app. cbn [List.app]. repeat go E.
  - unfold nested_schedule, two_apps, with_app. repeat one E.
  - cbn -[Z.eqb]. rewrite Z.eqb_refl. repeat split.
Qed.

(** the stop nobody ran stops the next application that starts *)
Theorem leftover_refuted port inner next rest : port <> inner -> next <> port -> next <> inner ->
  exists ts q, run ts (two_apps (with_app 0 port (with_app 1 inner [Work] ++ [Work]) ++ serve 1 next ++ rest)) = Some q /\ patient ts (two_apps (with_app 0 port (with_app 1 inner [Work] ++ [Work]) ++ serve 1 next ++ rest)) /\
  raised q = None /\ main q = rest /\ taken next q = true /\ answers next q = false.
Proof.
  intros N N1 N2. assert (E : (port =? inner)%Z = false) by (apply Z.eqb_neq; exact N). assert (E1 : (port =? next)%Z = false) by (apply Z.eqb_neq; congruence). assert (E2 : (inner =? next)%Z = false) by (apply Z.eqb_neq; congruence).
  exists (nested_schedule ++ [Main; Main; Main; Main; Main; Main; Main]). eexists. split; [|split].
  - unfold nested_schedule, two_apps, with_app, serve. cbn [List.app]. repeat go E.
  - unfold nested_schedule, two_apps, with_app, serve. cbn [List.app]. repeat one E.
  - cbn -[Z.eqb]. rewrite Z.eqb_refl. repeat split.
Qed.
(** on the port of the outer one: the inner block fails *)
Theorem same_port_refuted port rest : exists ts q, let p := two_apps (with_app 0 port (with_app 1 port [Work] ++ [Work]) ++ rest) in
  run ts p = Some q /\ patient ts p /\ a_thread (app_at q 1) = Died OtherError /\ raised q = Some AttributeError /\ taken port q = true /\ answers port q = false.
Proof.
  exists [Main; Thread 0; Thread 0; Main; Thread 1; Main; Main; Thread 0; Main]. eexists. intros p. unfold p. split; [|split].
  - unfold two_apps, with_app. cbn [List.app]. repeat go (Z.eqb_refl port).
  - unfold two_apps, with_app. repeat one (Z.eqb_refl port).
  - cbn -[Z.eqb]. rewrite Z.eqb_refl. repeat split.
Qed.
(** ** Cases that meet the hypotheses *)
Definition good_schedule : list turn := [Main; Thread 0; Main; Thread 0; Main; Main; Thread 0; Main; Main].
Example good_case : clean (two_apps (with_app 0 8888 (repeat Work 2))) /\ patient good_schedule (two_apps (with_app 0 8888 (repeat Work 2))) /\
  exists q, run good_schedule (two_apps (with_app 0 8888 (repeat Work 2))) = Some q /\ main q = [] /\ clean q.
Proof.
  assert (C0 : clean (two_apps (with_app 0 8888 (repeat Work 2)))). { split; [reflexivity|]. split; [|reflexivity]. intros [|[|[|j]]]; exact I. }
  split; [exact C0|]. assert (P : patient good_schedule (two_apps (with_app 0 8888 (repeat Work 2)))) by (unfold good_schedule, two_apps, with_app; cbn [repeat]; repeat one (Z.eqb_refl 0)).
  split; [exact P|]. match goal with |- exists q, ?r = Some q /\ _ => assert (E : exists q, r = Some q /\ main q = []) end.
  { eexists. split; [unfold good_schedule, two_apps, with_app; cbn [repeat List.app]; repeat go (Z.eqb_refl 0)|reflexivity]. }
  destruct E as (q & E & M). exists q. split; [exact E|]. split; [exact M|].
  refine (proj1 (proj2 (proj2 (proj2 (with_ok 0 8888 2 (two_apps (with_app 0 8888 (repeat Work 2))) _ C0 eq_refl eq_refl good_schedule q P E))) M)). cbn. lia.
Qed.
(** however many stops are left over, they end one start, and the next one answers *)
Theorem one_start_lost i port j next k p : i < List.length (apps p) -> j < List.length (apps p) -> loop p = {| running := false; stops := S k |} -> (forall x, taken x p = false) -> next <> port -> main p = serve i port ++ serve j next ->
  (exists q, run [Main; Main; Main] p = Some q /\ main q = serve j next /\ raised q = None /\ answers port q = false) /\
  exists q, run [Main; Main; Main; Main; Main] p = Some q /\ main q = [InLoop] /\ raised q = None /\ answers next q = true /\ (i <> j -> answers port q = true) /\ step Main q = None.
Proof.
  intros Hi Hj Lp Tk N M.
  set (p1 := {| loop := {| running := false; stops := S k |}; apps := put_app i {| a_server := Some (port, true); a_thread := a_thread (app_at p i) |} (apps p); main := RunLoop :: serve j next; raised := None |}).
  set (p3 := {| loop := {| running := false; stops := 0 |}; apps := apps p1; main := serve j next; raised := None |}).
  assert (E1 : main_step p = Some p1). { unfold main_step. rewrite M. cbn [serve List.app]. rewrite (Tk port), Lp. reflexivity. }
  assert (E3 : run [Main; Main; Main] p = Some p3). { cbn [run step]. rewrite E1. reflexivity. }
  assert (A3 : forall x, app_at p3 x = if Nat.eqb x i then {| a_server := Some (port, true); a_thread := a_thread (app_at p i) |} else app_at p x). { intros x. unfold app_at at 1. cbn [p3 p1 apps]. rewrite put_get by exact Hi. reflexivity. }
  split; [exists p3; split; [exact E3|]; split; [reflexivity|]; split; reflexivity|].
  assert (T3 : taken next p3 = false). { apply taken_false. intros x. rewrite A3. destruct (Nat.eqb x i); [cbn; congruence|]. specialize (Tk next). rewrite taken_false in Tk. apply Tk. }
  change [Main; Main; Main; Main; Main] with ([Main; Main; Main] ++ [Main; Main]). rewrite run_app, E3. cbn [run step]. unfold main_step at 1. cbn [p3 main serve]. fold p3. rewrite T3. eexists. split; [reflexivity|]. split; [reflexivity|]. split; [reflexivity|].
  assert (L3 : j < List.length (apps p3)) by (cbn [p3 p1 apps]; rewrite put_length; exact Hj).
  split; [|split; [|reflexivity]].
  - unfold answers. cbn [goes_on loop running andb]. apply taken_in. exists j. unfold app_at at 1. cbn [goes_on apps]. change (apps p1) with (apps p3). rewrite put_get by exact L3. now rewrite Nat.eqb_refl.
  - intros Nij. unfold answers. cbn [goes_on loop running andb]. apply taken_in. exists i. unfold app_at at 1. cbn [goes_on apps]. change (apps p1) with (apps p3). rewrite put_get by exact L3. destruct (Nat.eqb_spec i j); [contradiction|]. change (a_server (app_at p3 i) = Some (port, true)). rewrite A3, Nat.eqb_refl. reflexivity.
Qed.
