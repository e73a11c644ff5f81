(** C101: a training that is watched from browsers. *)
From Coq Require Import ZArith String.
From Verif Require Import PyBase PyFacts PyMore Ui Monitor MonitorProofs MonitorProofs2 MonitorProofs3 MonitorProofs4 MonitorProofs5.
Local Open Scope string_scope.
Local Open Scope list_scope.
Local Open Scope nat_scope.
Theorem C101_message :
  forall (J : Type) (int : Z -> J) (m : monitor) (r : batch_report J),
  writable int m r ->
  exists t : list (string * J),
    message int m r = Ok t /\
    NoDup (map fst t) /\
    (forall (k : string) (j : J),
     In (k, j) t <->
     (k = "epoch" \/ k = "batch" \/ In k (m_keys m)) /\ kwarg int r k = Some (Plain j)).
Proof. exact (@message_ok). Qed.
Print Assumptions C101_message.
Theorem C101_message_numbers :
  forall (J : Type) (int : Z -> J) (m : monitor) (r : batch_report J) (t : list (string * J)),
  message int m r = Ok t -> In ("epoch", int (br_epoch r)) t /\ In ("batch", int (br_batch r)) t.
Proof. exact (@message_numbers). Qed.
Print Assumptions C101_message_numbers.
Theorem C101_message_opaque :
  forall (J : Type) (int : Z -> J) (m : monitor) (r : batch_report J) (k : string),
  In k (m_keys m) -> kwarg int r k = Some Opaque -> message int m r = Raise TypeError.
Proof. exact (@message_opaque). Qed.
Print Assumptions C101_message_opaque.
Theorem C101_delivered :
  forall (J : Type) (int : Z -> J) (m : monitor) (before after : list nat)
    (batches : list (batch_report J)) (ts : list turn) (w : world J),
  run int m ts (start before after batches) = Some w ->
  exists rest : list (batch_report J),
    batches = reported w ++ rest /\
    (forall h : nat,
     exists seen : list (batch_report J),
       among seen (reported w ++ firstn 1 rest) /\ told int m seen (inbox w h)).
Proof. exact (@delivered). Qed.
Print Assumptions C101_delivered.
Theorem C101_left :
  forall (J : Type) (int : Z -> J) (m : monitor) (before after : list nat)
    (batches : list (batch_report J)) (ts : list turn) (h : nat) (w : world J) 
    (us : list turn) (w' : world J),
  run int m ts (start before after batches) = Some w ->
  In h (connected w) ->
  registered h w = false -> run int m us w = Some w' -> inbox w' h = inbox w h.
Proof. exact (@left_silent). Qed.
Print Assumptions C101_left.
Theorem C101_closed :
  forall (J : Type) (int : Z -> J) (m : monitor) (before after : list nat)
    (batches : list (batch_report J)) (ts : list turn) (h : nat) (w w1 : world J) 
    (us : list turn) (w' : world J),
  run int m ts (start before after batches) = Some w ->
  step int m (Close h) w = Some w1 -> run int m us w1 = Some w' -> inbox w' h = inbox w h.
Proof. exact (@closed_silent). Qed.
Print Assumptions C101_closed.
Theorem C101_history :
  forall (J : Type) (int : Z -> J) (m : monitor),
  m_frequency m <> 0%Z ->
  NoDup (m_keys m) ->
  forall (before after : list nat) (batches : list (batch_report J)) (ts : list turn) (w : world J),
  Forall (writable int m) batches ->
  calm int m ts (start before after batches) ->
  run int m ts (start before after batches) = Some w ->
  (forall e : exn, trainer w <> Ended e) /\
  (forall todo : list (batch_report J),
   trainer w = Between todo ->
   batches = reported w ++ todo /\ remembered int m (reported w) (history w)).
Proof. exact (@calm_history). Qed.
Print Assumptions C101_history.
Theorem C101_client :
  forall (J : Type) (int : Z -> J) (m : monitor),
  m_frequency m <> 0%Z ->
  NoDup (m_keys m) ->
  forall (before after : list nat) (batches : list (batch_report J)) (ts : list turn) 
    (h : nat) (k : bool) (us : list turn) (w1 w : world J) (todo : list (batch_report J)),
  Forall (writable int m) batches ->
  calm int m (ts ++ Open h k :: us) (start before after batches) ->
  run int m ts (start before after batches) = Some w1 ->
  run int m (ts ++ Open h k :: us) (start before after batches) = Some w ->
  ~ In (Lose h) us ->
  trainer w = Between todo ->
  exists new : list (batch_report J), reported w = reported w1 ++ new /\ told int m new (inbox w h).
Proof. exact (@calm_client). Qed.
Print Assumptions C101_client.
Theorem C101_alone :
  forall (J : Type) (int : Z -> J) (m : monitor) (before after : list nat)
    (batches : list (batch_report J)) (n : nat) (w : world J),
  m_frequency m <> 0%Z ->
  NoDup (m_keys m) ->
  Forall (writable int m) batches ->
  run int m (repeat Train n) (start before after batches) = Some w ->
  (forall e : exn, trainer w <> Ended e) /\
  (forall todo : list (batch_report J),
   trainer w = Between todo ->
   batches = reported w ++ todo /\ remembered int m (reported w) (history w)).
Proof. exact (@alone). Qed.
Print Assumptions C101_alone.
Theorem C101_alone_ends :
  forall (J : Type) (int : Z -> J) (m : monitor) (before after : list nat)
    (batches : list (batch_report J)),
  m_frequency m <> 0%Z ->
  NoDup (m_keys m) ->
  Forall (writable int m) batches ->
  exists (n : nat) (w : world J),
    run int m (repeat Train n) (start before after batches) = Some w /\
    trainer w = Between [] /\ reported w = batches.
Proof. exact (@alone_ends). Qed.
Print Assumptions C101_alone_ends.
Theorem C101_ended :
  forall (J : Type) (int : Z -> J) (m : monitor) (e : exn) (w : world J) 
    (ts : list turn) (w' : world J),
  trainer w = Ended e ->
  run int m ts w = Some w' ->
  trainer w' = Ended e /\ reported w' = reported w /\ inbox w' = inbox w /\ history w' = history w.
Proof. exact (@ended_final). Qed.
Print Assumptions C101_ended.
Theorem C101_visit_refuted :
  forall (J : Type) (int : Z -> J) (m : monitor) (before after : list nat) 
    (r : batch_report J) (batches : list (batch_report J)) (k : bool),
  exists w : world J,
    run int m [Train; Open 0 k; Train] (start before after (r :: batches)) = Some w /\
    trainer w = Ended RuntimeError /\ reported w = [].
Proof. exact (@visit_ends_training_refuted). Qed.
Print Assumptions C101_visit_refuted.
Theorem C101_open_refuted :
  forall (J : Type) (int : Z -> J) (m : monitor) (before after : list nat)
    (batches : list (batch_report J)) (ts : list turn) (w : world J) (r : batch_report J)
    (pos used : nat) (todo : list (batch_report J)) (h : nat) (k : bool) 
    (w1 : world J),
  run int m ts (start before after batches) = Some w ->
  trainer w = Telling r pos used todo ->
  used = Datatypes.length (live (table w)) ->
  step int m (Open h k) w = Some w1 ->
  exists w2 : world J, step int m Train w1 = Some w2 /\ trainer w2 = Ended RuntimeError.
Proof. exact (@open_ends_training_refuted). Qed.
Print Assumptions C101_open_refuted.
Theorem C101_close_refuted :
  forall (J : Type) (int : Z -> J) (m : monitor) (before after : list nat)
    (batches : list (batch_report J)) (ts : list turn) (w : world J) (r : batch_report J)
    (pos used : nat) (todo : list (batch_report J)) (h : nat) (w1 : world J),
  run int m ts (start before after batches) = Some w ->
  trainer w = Telling r pos used todo ->
  used = Datatypes.length (live (table w)) ->
  step int m (Close h) w = Some w1 ->
  exists w2 : world J, step int m Train w1 = Some w2 /\ trainer w2 = Ended RuntimeError.
Proof. exact (@close_ends_training_refuted). Qed.
Print Assumptions C101_close_refuted.
Theorem C101_lost_refuted :
  forall (J : Type) (int : Z -> J) (m : monitor) (before after : list nat)
    (batches : list (batch_report J)) (ts : list turn) (w : world J) (r : batch_report J)
    (pos used : nat) (todo : list (batch_report J)) (h : nat) (rest : list callback),
  run int m ts (start before after batches) = Some w ->
  trainer w = Telling r pos used todo ->
  used = Datatypes.length (live (table w)) ->
  m_frequency m <> 0%Z ->
  writable int m r ->
  (br_batch r mod m_frequency m)%Z = 0%Z ->
  live (skipn pos (table w)) = Client h :: rest ->
  In h (gone w) ->
  exists w2 : world J, step int m Train w = Some w2 /\ trainer w2 = Ended OtherError.
Proof. exact (@lost_ends_training_refuted). Qed.
Print Assumptions C101_lost_refuted.
Theorem C101_opaque_refuted :
  forall (J : Type) (int : Z -> J) (m : monitor) (w : world J) (r : batch_report J)
    (pos used : nat) (todo : list (batch_report J)) (h : nat) (rest : list callback) 
    (k : string),
  trainer w = Telling r pos used todo ->
  used = Datatypes.length (live (table w)) ->
  m_frequency m <> 0%Z ->
  (br_batch r mod m_frequency m)%Z = 0%Z ->
  live (skipn pos (table w)) = Client h :: rest ->
  In k (m_keys m) ->
  kwarg int r k = Some Opaque ->
  exists w' : world J, step int m Train w = Some w' /\ trainer w' = Ended TypeError.
Proof. exact (@opaque_ends_training_refuted). Qed.
Print Assumptions C101_opaque_refuted.
Theorem C101_frequency_zero :
  forall (J : Type) (int : Z -> J) (m : monitor) (w : world J) (r : batch_report J)
    (pos used : nat) (todo : list (batch_report J)) (c : callback) (rest : list callback),
  trainer w = Telling r pos used todo ->
  used = Datatypes.length (live (table w)) ->
  m_frequency m = 0%Z ->
  live (skipn pos (table w)) = c :: rest ->
  (forall n : nat, c <> Another n) ->
  exists w' : world J, step int m Train w = Some w' /\ trainer w' = Ended ZeroDivisionError.
Proof. exact (@frequency_zero). Qed.
Print Assumptions C101_frequency_zero.
Theorem C101_supervised :
  forall (J : Type) (int : Z -> J) (m : monitor) (epoch batch : Z) (te e : J) 
    (r : batch_report J) (t : list (string * J)),
  m_keys m = supervised_keys ->
  r = supervised_report epoch batch te e ->
  t = [("epoch", int epoch); ("batch", int batch); ("train_error", te); ("test_error", e)] ->
  writable int m r /\ message int m r = Ok t.
Proof. exact (@monitor_supervised). Qed.
Print Assumptions C101_supervised.
Theorem C101_gan :
  forall (J : Type) (int : Z -> J) (m : monitor) (epoch batch : Z) (gl rl dl : J)
    (r : batch_report J) (t : list (string * J)),
  m_keys m = gan_keys ->
  r = gan_report epoch batch gl rl dl ->
  t =
  [("epoch", int epoch); ("batch", int batch); ("generator_score", gl); (
   "real_score", rl); ("critic_loss", dl)] -> writable int m r /\ message int m r = Ok t.
Proof. exact (@monitor_gan). Qed.
Print Assumptions C101_gan.
Theorem C101_triplet :
  forall (J : Type) (int : Z -> J) (m : monitor) (epoch batch : Z) (error deformation : J)
    (r : batch_report J) (t : list (string * J)),
  m_keys m = triplet_keys ->
  r = triplet_report epoch batch error deformation ->
  t = [("epoch", int epoch); ("batch", int batch); ("error", error)] ->
  writable int m r /\ message int m r = Ok t.
Proof. exact (@monitor_triplet). Qed.
Print Assumptions C101_triplet.

