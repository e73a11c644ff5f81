(** Properties C90 and C91: the in-browser REPL and the search page. *)
From Coq Require Import String Ascii QArith.
From Verif Require Import PyBase PyFacts PyMore Time Audio Midi Persist PersistProofs Index IndexProofs Ui UiProofs Ui2Proofs Repl ReplProofs ReplProofs2.
Local Open Scope string_scope.
Local Open Scope Z_scope.
---
C90_answers = post_answers
C90_expression_served = post_served
C90_expression_plain = post_unserved
C90_expression_not_servable = post_failed
C90_raises = post_raises
C90_statements = post_statement
C90_statements_raise = post_statement_raises
C90_prints = post_prints
C90_not_python = post_garbage
C90_run_twice_refuted = post_twice
C90_indented_refuted = post_indented
C90_indented_statement = post_indented_statement
C90_temp_url = temp_url
C90_temp_unknown = temp_unknown
C90_temp_never_dropped = temp_never_dropped
C90_once_refuted = run_once_refuted
C90_blank_refuted = indented_refuted
C90_cube_refuted = cube_refuted
C91_samples = samples_served
C91_arrays = array_served
C91_others = others_unserved
C91_stored = stored_served
C91_onsets = onsets_served
C91_onsets_unconfigured = onsets_unconfigured
C91_search_results_refuted = search_results_fail
C91_search_results_extra_refuted = search_results_extra
C91_search_page_refuted = search_page_fails
C91_search_page_asks = search_page_asks
C91_search_page_random = search_page_random
