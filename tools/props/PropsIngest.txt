(** Property theorems: ingestion of datasets that fail (C50). *)
From Verif Require Import PyBase PyFacts PyMore Datasets DatasetsProofs IngestMore.
Local Open Scope Z_scope.
---

(** C50: [ingest_run ok skip pickles how answers store store' log]: a run of ingest() over a
    dataset whose iterator gives [answers], items or exceptions, with workers [how]. *)
C50_sound_dataset = run_plain
C50_failing_dataset_attempts = run_attempts
C50_failing_dataset_looks_finished = run_fails
C50_rest_of_dataset_lost_refuted = run_rest_lost
C50_item_behind_failure_lost_refuted = run_item_lost
C50_processes_attempt = run_processes
C50_unpicklable_lost_refuted = run_unpickled_lost
C50_failing_dataset_can_finish = run_total
C50_failing_dataset_example = run_example
