(** Property theorems: datasets (C50, C51, C52). *)
From Verif Require Import PyBase PyFacts PyMore Datasets DatasetsProofs.
Local Open Scope Z_scope.
---

(** C50: [ingest ok skip parallel dataset store store' log]: a run of ingest() that takes the
    store of documents from [store] to [store']; [parallel] is the number of worker threads or
    processes, None for the default; every interleaving of the workers is such a run. *)
C50_every_item_once_partial = ingest_parallel
C50_all_stored_partial = ingest_complete
C50_no_skip_partial = ingest_all
C50_skips_exactly_existing_partial = ingest_new
C50_can_finish = ingest_parallel_total
C50_default_does_nothing_refuted = ingest_default_refuted
C50_duplicates_race_refuted = ingest_duplicate_refuted

(** C51 *)
C51_composite = composite_concat
C51_composite_members = composite_In
C51_directory = directory_In
C51_freesound_results_partial = freesound_results
C51_freesound_count_refuted = freesound_count
C51_freesound_repeats_refuted = freesound_duplicates_refuted
C51_freesound_empty_refuted = freesound_no_results || freesound (repeat [] k) => freesound (repeat (@nil A) k)
C51_archive_partial = internet_archive_all
C51_archive_metadata = internet_archive_metadata
C51_archive_missing_original_refuted = internet_archive_refuted

(** C52: [ensure_local_file f name call]: one call, which may be killed at any point;
    [calls f name cs]: a history of them *)
C52_uninterrupted_complete_partial = fresh_complete
C52_succeeds_partial = fresh_succeeds
C52_prefix = fresh_prefix
C52_never_refetched = cached_stays
C52_cached_returned = cached_returned
C52_first_call_decides = first_call_decides
C52_crash_refuted = crash_refuted
C52_refused_refuted = refused_refuted
C52_same_name_refuted = same_name_refuted
C52_dataset_cache_refuted = dataset_cache_refuted
