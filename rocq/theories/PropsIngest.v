(** Property theorems: ingestion of datasets that fail (C50). *)
From Verif Require Import PyBase PyFacts PyMore Datasets DatasetsProofs IngestMore.
Local Open Scope Z_scope.

(** C50: [ingest_run ok skip pickles how answers store store' log]: a run of ingest() over a
    dataset whose iterator gives [answers], items or exceptions, with workers [how]. *)
Theorem C50_sound_dataset :
  forall (ok : meta -> bool) (skip : bool) (pickles : meta -> bool) (how : mode)
    (dataset : list meta) (store store' : list Z) (log : list event),
  (forall m : meta, In m dataset -> pickles m = true) ->
  ingest_run ok skip pickles how (map Gives dataset) store store' log <->
  ingest ok skip (workers how) dataset store store' log.
Proof. exact (@run_plain). Qed.
Print Assumptions C50_sound_dataset.
Theorem C50_failing_dataset_attempts :
  forall (ok : meta -> bool) (skip : bool) (pickles : meta -> bool) (cores : nat)
    (before : list meta) (rest : list answer) (store store' : list Z) (log : list event),
  ingest_run ok skip pickles (Threads cores) (map Gives before ++ Raises :: rest) store store' log ->
  Permutation.Permutation before (map event_item log) /\
  (forall (m : meta) (u : Z), In m before -> m_url m = Some u -> ok m = true -> In u store') /\
  (forall u : Z,
   In u store' -> In u store \/ (exists m : meta, In m before /\ m_url m = Some u /\ ok m = true)).
Proof. exact (@run_attempts). Qed.
Print Assumptions C50_failing_dataset_attempts.
Theorem C50_failing_dataset_looks_finished :
  forall (ok : meta -> bool) (skip : bool) (pickles : meta -> bool) (how : mode)
    (before : list meta) (rest : list answer) (store store' : list Z) (log : list event),
  ingest_run ok skip pickles how (map Gives before ++ Raises :: rest) store store' log <->
  ingest_run ok skip pickles how (map Gives before) store store' log.
Proof. exact (@run_fails). Qed.
Print Assumptions C50_failing_dataset_looks_finished.
Theorem C50_rest_of_dataset_lost_refuted :
  forall (ok : meta -> bool) (skip : bool) (pickles : meta -> bool) (how : mode)
    (before : list meta) (rest : list answer) (store store' : list Z) (log : list event) 
    (u : Z),
  ingest_run ok skip pickles how (map Gives before ++ Raises :: rest) store store' log ->
  (forall m : meta, In m before -> m_url m <> Some u) -> ~ In u store -> ~ In u store'.
Proof. exact (@run_rest_lost). Qed.
Print Assumptions C50_rest_of_dataset_lost_refuted.
Theorem C50_item_behind_failure_lost_refuted :
  exists (answers : list answer) (m : meta),
    In (Gives m) answers /\
    m_url m = Some 3 /\
    (forall (ok : meta -> bool) (skip : bool) (pickles : meta -> bool) 
       (how : mode) (store' : list Z) (log : list event),
     ingest_run ok skip pickles how answers [] store' log ->
     ~ In 3 store' /\ ~ In m (map event_item log)).
Proof. exact (@run_item_lost). Qed.
Print Assumptions C50_item_behind_failure_lost_refuted.
Theorem C50_processes_attempt :
  forall (ok : meta -> bool) (skip : bool) (pickles : meta -> bool) (cores : nat)
    (answers : list answer) (store store' : list Z) (log : list event),
  ingest_run ok skip pickles (Processes cores) answers store store' log ->
  (forall m : meta, In m (map event_item log) <-> In m (asked answers) /\ pickles m = true) /\
  length log = length (filter pickles (asked answers)) /\
  (forall (m : meta) (u : Z),
   In m (asked answers) -> pickles m = true -> m_url m = Some u -> ok m = true -> In u store').
Proof. exact (@run_processes). Qed.
Print Assumptions C50_processes_attempt.
Theorem C50_unpicklable_lost_refuted :
  forall (ok : meta -> bool) (skip : bool) (pickles : meta -> bool) (cores : nat)
    (dataset : list meta) (store store' : list Z) (log : list event) (m : meta),
  pickles m = false ->
  ingest_run ok skip pickles (Processes cores) (map Gives dataset) store store' log ->
  ~ In m (map event_item log).
Proof. exact (@run_unpickled_lost). Qed.
Print Assumptions C50_unpicklable_lost_refuted.
Theorem C50_failing_dataset_can_finish :
  forall (ok : meta -> bool) (skip : bool) (pickles : meta -> bool) (how : mode)
    (answers : list answer) (store : list Z),
  match how with
  | Single => True
  | Threads c | Processes c => (0 < c)%nat
  end ->
  exists (store' : list Z) (log : list event),
    ingest_run ok skip pickles how answers store store' log.
Proof. exact (@run_total). Qed.
Print Assumptions C50_failing_dataset_can_finish.
Theorem C50_failing_dataset_example :
  exists (store' : list Z) (log : list event),
    ingest_run (fun m : meta => negb (m_id m =? 2)) true (fun m : meta => negb (m_id m =? 4))
      (Processes 3)
      [Gives (a_meta 1); Gives (a_meta 2); Gives (a_meta 4); Gives (a_meta 5); Raises;
       Gives (a_meta 6)] [5] store' log /\
    In 1 store' /\ In 5 store' /\ ~ In 6 store' /\ length log = 3%nat.
Proof. exact (@run_example). Qed.
Print Assumptions C50_failing_dataset_example.

