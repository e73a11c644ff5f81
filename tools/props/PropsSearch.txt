(** Property theorems: a HammingIndex from documents to search results (C85). *)
From Verif Require Import PyBase PyFacts PyMore Bits BitsProofs HammingDb HammingDbProofs Time Freq FreqDim Axis Persist PersistProofs Json JsonProofs IndexSearch IndexSearchProofs IndexSearchProofs2 IndexSearchProofs3.
From Verif Require Index IndexProofs.
From Coq Require Import NArith String Sorting.Permutation Sorting.Sorted.
Import ListNotations.
---

(** C85: building, searching, reading results *)
C85_search = index_search
C85_build = build_all
C85_plain_results = plain_results
C85_extra_results = extra_results
C85_missing_extra = missing_extra
C85_constant_rate_slices = constant_rate_nth
C85_constant_rate_documents = constant_rate_ok
C85_stored_text = loads_dumps
C85_not_json = loads_errors
C85_hex_digits = hex_digits
C85_stored_ascii = dumps_ascii
C85_nothing_indexed = search_nothing_indexed
C85_first_code_unusable = first_code_unusable
C85_later_code_wrong_size = later_code_wrong_size
C85_wrong_query_size = wrong_query_size
C85_bad_query = bad_query
C85_writeonly = writeonly_search
C85_len_misses_others_refuted = len_misses_others
C85_random_search = random_search_spec
C85_random_empty_refuted = random_empty
C85_random_ends = random_ends
C85_page_query = page_query
C85_page_never_served_refuted = page_never_served
C85_page_plain_refuted = page_plain_results
C85_page_extra_refuted = page_extra_results
C85_example_ready = ex_ready
C85_example_search = ex_search
