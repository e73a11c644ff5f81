(** C100: the datasets describe every sound with its own metadata. *)
From Coq Require Import ZArith String Ascii.
From Verif Require Import PyBase PyFacts PyMore Archives ArchivesProofs ArchivesProofs2.
Local Open Scope string_scope.
Local Open Scope list_scope.
---
C100_name = name_id_ok
C100_name_bare = name_id_bare
C100_json = json_name_ok
C100_predownload = predownload_ok
C100_metadata = audio_metadata_ok
C100_metadata_twice = audio_metadata_twice
C100_metadata_request = audio_metadata_request
C100_nsynth = nsynth_all
C100_nsynth_unknown = nsynth_unknown
C100_nsynth_no_index = nsynth_no_index
C100_nsynth_unreadable = nsynth_unreadable
C100_nsynth_json_directory = nsynth_json_directory
C100_nsynth_content = nsynth_content
C100_nsynth_address = nsynth_address
C100_musicnet_as_text = musicnet_text
C100_musicnet_no_id = musicnet_no_id
C100_musicnet_refuted = musicnet_nothing
C100_phat_refuted = phat_nothing
C100_archive = archive_all
C100_archive_ogg = ogg_stable
C100_archive_unreadable = archive_unreadable
C100_archive_no_format = archive_no_format
C100_archive_source_refuted = archive_source_refuted
C100_freesound = freesound_ok
C100_freesound_missing = freesound_missing
