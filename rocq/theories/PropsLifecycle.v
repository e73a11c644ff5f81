(** C102: the life of an application. *)
From Coq Require Import ZArith.
From Verif Require Import PyBase PyFacts Lifecycle LifecycleProofs LifecycleProofs2 LifecycleProofs3.
Local Open Scope list_scope.
Local Open Scope nat_scope.
Theorem C102_with :
  forall (i : nat) (port : Z) (n : nat) (p0 : process),
  i < length (apps p0) ->
  clean p0 ->
  raised p0 = None ->
  main p0 = with_app i port (repeat Work n) ->
  forall (ts : list turn) (q : process),
  patient ts p0 ->
  run ts p0 = Some q ->
  raised q = None /\
  length ts <= n + 7 /\
  (forall j : nat, j <> i -> app_at q j = app_at p0 j) /\
  (main q = [] -> clean q /\ a_thread (app_at q i) = Finished).
Proof. exact (@with_ok). Qed.
Print Assumptions C102_with.
Theorem C102_goes_on :
  forall (i : nat) (port : Z) (n : nat) (p0 : process),
  i < length (apps p0) ->
  clean p0 ->
  raised p0 = None ->
  main p0 = with_app i port (repeat Work n) ->
  forall (ts : list turn) (q : process),
  patient ts p0 ->
  run ts p0 = Some q ->
  main q <> [] -> exists (t : turn) (q' : process), step t q = Some q' /\ patient [t] q.
Proof. exact (@with_goes_on). Qed.
Print Assumptions C102_goes_on.
Theorem C102_answers :
  forall (i : nat) (port : Z) (n : nat) (p0 : process),
  i < length (apps p0) ->
  clean p0 ->
  raised p0 = None ->
  main p0 = with_app i port (repeat Work n) ->
  forall (ts : list turn) (q : process),
  patient ts p0 ->
  run ts p0 = Some q ->
  a_thread (app_at q i) = Looping -> In (StopServer i) (main q) -> answers port q = true.
Proof. exact (@with_answers). Qed.
Print Assumptions C102_answers.
Theorem C102_sequence :
  forall (bs : list (nat * Z * nat)) (p : process) (ts : list turn) (q : process),
  clean p ->
  raised p = None ->
  main p = with_blocks bs ->
  (forall b : nat * Z * nat, In b bs -> fst (fst b) < length (apps p)) ->
  patient ts p ->
  run ts p = Some q ->
  raised q = None /\
  (main q = [] -> clean q) /\
  (main q <> [] -> exists (t : turn) (q' : process), step t q = Some q').
Proof. exact (@with_sequence). Qed.
Print Assumptions C102_sequence.
Theorem C102_serve :
  forall (i : nat) (port : Z) (p : process),
  clean p ->
  raised p = None ->
  main p = serve i port ->
  i < length (apps p) ->
  exists q : process,
    run [Main; Main] p = Some q /\
    answers port q = true /\
    raised q = None /\
    (forall t : turn, step t q = None) /\
    (forall (ts : list turn) (q' : process),
     run ts p = Some q' -> length ts <= 2 /\ (length ts = 2 -> q' = q)).
Proof. exact (@serve_answers). Qed.
Print Assumptions C102_serve.
Theorem C102_short_block_refuted :
  forall (i : nat) (port : Z) (n : nat) (p : process),
  i < length (apps p) ->
  clean p ->
  raised p = None ->
  main p = with_app i port (repeat Work n) ->
  a_server (app_at p i) = None ->
  exists (ts : list turn) (q : process),
    run ts p = Some q /\
    raised q = Some AttributeError /\
    taken port q = true /\ answers port q = false /\ (forall t : turn, step t q = None).
Proof. exact (@short_block_refuted). Qed.
Print Assumptions C102_short_block_refuted.
Theorem C102_nested_refuted :
  forall (port inner : Z) (rest : list instr),
  port <> inner ->
  exists q : process,
    run nested_schedule (two_apps (with_app 0 port (with_app 1 inner [Work] ++ [Work]) ++ rest)) =
    Some q /\
    patient nested_schedule
      (two_apps (with_app 0 port (with_app 1 inner [Work] ++ [Work]) ++ rest)) /\
    main q = [Work; AddStop; StopServer 0; Join 0] ++ rest /\
    taken port q = true /\ answers port q = false /\ a_thread (app_at q 1) = Died RuntimeError.
Proof. exact (@nested_refuted). Qed.
Print Assumptions C102_nested_refuted.
Theorem C102_leftover_refuted :
  forall (port inner next : Z) (rest : list instr),
  port <> inner ->
  next <> port ->
  next <> inner ->
  exists (ts : list turn) (q : process),
    run ts (two_apps (with_app 0 port (with_app 1 inner [Work] ++ [Work]) ++ serve 1 next ++ rest)) =
    Some q /\
    patient ts
      (two_apps (with_app 0 port (with_app 1 inner [Work] ++ [Work]) ++ serve 1 next ++ rest)) /\
    raised q = None /\ main q = rest /\ taken next q = true /\ answers next q = false.
Proof. exact (@leftover_refuted). Qed.
Print Assumptions C102_leftover_refuted.
Theorem C102_same_port_refuted :
  forall (port : Z) (rest : list instr),
  exists (ts : list turn) (q : process),
    let p := two_apps (with_app 0 port (with_app 1 port [Work] ++ [Work]) ++ rest) in
    run ts p = Some q /\
    patient ts p /\
    a_thread (app_at q 1) = Died OtherError /\
    raised q = Some AttributeError /\ taken port q = true /\ answers port q = false.
Proof. exact (@same_port_refuted). Qed.
Print Assumptions C102_same_port_refuted.
Theorem C102_one_start_lost :
  forall (i : nat) (port : Z) (j : nat) (next : Z) (k : nat) (p : process),
  i < length (apps p) ->
  j < length (apps p) ->
  loop p = {| running := false; stops := S k |} ->
  (forall x : Z, taken x p = false) ->
  next <> port ->
  main p = serve i port ++ serve j next ->
  (exists q : process,
     run [Main; Main; Main] p = Some q /\
     main q = serve j next /\ raised q = None /\ answers port q = false) /\
  (exists q : process,
     run [Main; Main; Main; Main; Main] p = Some q /\
     main q = [InLoop] /\
     raised q = None /\
     answers next q = true /\ (i <> j -> answers port q = true) /\ step Main q = None).
Proof. exact (@one_start_lost). Qed.
Print Assumptions C102_one_start_lost.

