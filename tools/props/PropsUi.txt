(** Property theorems: the web application (C45, C46, C63, C64, C65). *)
From Verif Require Import PyBase PyFacts PyMore Time Audio Midi MidiProofs Ui UiProofs Ui2Proofs.
From Coq Require Import QArith Qround String Ascii.
Local Open Scope string_scope.
Local Open Scope Z_scope.
---

(** C45: [stored_bytes] are the features served as stored (JSON and vorbis);
    [bytes_header a r] is the text "bytes=a-r".  [pf] is Python's float(). *)
C45_open_range = open_range
C45_closed_range_partial = closed_range
C45_no_range = no_range
C45_seconds = seconds_range
C45_seconds_back = seconds_range_back
C45_statuses = never_416
C45_last_byte_refuted = closed_range_refuted
C45_first_byte_refuted = first_byte_refuted
C45_suffix_refuted = suffix_range_refuted
C45_beyond_end_refuted = beyond_end_refuted
C45_reversed_refuted = reversed_range_refuted
C45_two_ranges_refuted = two_ranges_refuted
C45_malformed_refuted = malformed_range_refuted
C45_exponent_refuted = seconds_exponent_refuted
C45_array_features_refuted = no_serializer
C45_onsets_refuted = onsets_refuted

(** C46: [logged_in_before k qs es i t]: an earlier request of the history posted the
    secret and was given cookie t *)
C46_secured = secured
C46_secured_all = secured_all
C46_training = training_secured
C46_unauthenticated = unauthenticated
C46_authenticated = authenticated
C46_unsecured = unsecured
C46_login_works = login_works
C46_patch_refuted = patch_refuted
C46_login_pattern_refuted = login_pattern_refuted
C46_empty_secret_refuted = empty_secret_refuted
C46_blank_secret_refuted = blank_secret_refuted
C46_coroutine_refuted = coroutine_refuted

(** C63 *)
C63_unquote_quote = unquote_quote
C63_escapes = quote_escapes
C63_base = feature_url
C63_repl = zounds_feature_url
C63_temp_refuted = temp_document_refuted
C63_monitors_refuted = monitor_base_path_refuted

(** C64: [denotes e d f]: e is [x.a], x holds the document d and a names the feature f *)
C64_single = parse_single
C64_single_none = parse_single_none
C64_program = parse_program
C64_program_refuted = parse_program_refuted

(** C65: [reported]: the values of the batches whose number is a multiple of the frequency *)
C65_history = history
C65_zero = history_zero
C65_bound_refuted = history_refuted
