{
 "claims": [
  {
   "property": "C01",
   "status": "proved",
   "theorems": [
    "C01_windowed_partition",
    "C01_windowed_errors",
    "C01_windowed_default_step",
    "C01_windowed_any_step",
    "C01_windowed_one_sample"
   ],
   "note": "for 2 <= w and 1 <= s <= w, all arrays; errors and default step separately"
  },
  {
   "property": "C02",
   "status": "partial",
   "theorems": [
    "C02_windowed_padded_count",
    "C02_windowed_padded_exact",
    "C02_windowed_padded_uses_all_refuted"
   ],
   "note": "as stated false: C02_windowed_padded_uses_all_refuted. C02_windowed_padded_exact gives the exact entries and the exact condition under which every sample is used"
  },
  {
   "property": "C03",
   "status": "partial",
   "theorems": [
    "C03_gapped_windows_refuted",
    "C03_sliding_window_chunking_partial",
    "C03_sliding_window_chunking_refuted"
   ],
   "note": "as stated false at finalisation (refuted by witness) and for step > window; the partial theorem gives the exact windows emitted before finalisation for every chunking with step <= window"
  },
  {
   "property": "C04",
   "status": "proved",
   "theorems": [
    "C04_sliding_window_view",
    "C04_entries",
    "C04_sliding_window_flatten",
    "C04_sliding_window_arguments",
    "C04_sliding_window_rank_mismatch",
    "C04_sliding_window_too_large"
   ],
   "note": "any rank, shape, strides; windows and steps >= 1"
  },
  {
   "property": "C05",
   "status": "proved",
   "theorems": [
    "C05_growable_is_a_list",
    "C05_growable_rejects_rate",
    "C05_growable_new",
    "C05_growable_no_realloc",
    "C05_growable_position_unchecked"
   ],
   "note": "for logical size <= physical size; the constructor does not check that (separate theorem)"
  },
  {
   "property": "C06",
   "status": "proved",
   "theorems": [
    "C06_packed_hamming_distance",
    "C06_hamming_distance",
    "C06_packed_metric"
   ],
   "note": "codes shorter than 2^57 words, so that the uint64 accumulator cannot wrap"
  },
  {
   "property": "C07",
   "status": "proved",
   "theorems": [
    "C07_search_nearest"
   ],
   "note": "argpartition and argsort are any functions meeting numpy's documented contracts (hypotheses; a reference implementation meets them); transactions failing at commit are excluded (see C09_commit_failure_refuted)"
  },
  {
   "property": "C08",
   "status": "proved",
   "theorems": [
    "C08_threads_scores",
    "C08_threads_search"
   ],
   "note": "any thread count >= 1"
  },
  {
   "property": "C09",
   "status": "proved",
   "theorems": [
    "C09_view_follows_database",
    "C09_open_rejects",
    "C09_append_wrong_size",
    "C09_commit_failure_refuted"
   ],
   "note": "proved for all histories of own/external appends, put failures, searches, reopenings, with fresh 128-bit ids; false if a transaction fails at commit (refuted by witness)"
  },
  {
   "property": "C10",
   "status": "partial",
   "theorems": [
    "C10_restart_complete_partial",
    "C10_restart_exact_partial",
    "C10_nothing_else",
    "C10_single_slice_documents_safe",
    "C10_first_run_exact",
    "C10_crash_mid_document_refuted",
    "C10_restart_python3_refuted"
   ],
   "note": "false for a crash in the middle of a document (refuted) and, in Python 3, for any restart (str key into an lmdb dict, refuted); partial: crash points between documents, or one slice per document, and exactness of the first run"
  },
  {
   "property": "C11",
   "status": "proved",
   "theorems": [
    "C11_query_roundtrip",
    "C11_uint64_codes_distinct",
    "C11_uint64_codes",
    "C11_bytes_and_others"
   ],
   "note": "any length, padded case included"
  },
  {
   "property": "C12",
   "status": "proved",
   "theorems": [
    "C12_brute_force_nearest"
   ],
   "note": "argsort is a stable sort or any function meeting numpy's contract"
  },
  {
   "property": "C13",
   "status": "proved",
   "theorems": [
    "C13_audio_rate_exact",
    "C13_audio_rate_iff",
    "C13_audio_rate_refuted",
    "C13_audio_rate_rejects",
    "C13_audio_sample_rate_lookup",
    "C13_nearest_rate",
    "C13_nyquist"
   ],
   "note": "proved for 1..10^6 plus the exact condition for larger rates and a witness (1500000) where it fails"
  },
  {
   "property": "C14",
   "status": "partial",
   "theorems": [
    "C14_slice_selects_overlapping",
    "C14_slice_on_boundaries",
    "C14_consecutive_slices_partition",
    "C14_negative_slice",
    "C14_python_slice",
    "C14_open_slice",
    "C14_open_slice_refuted",
    "C14_overlapped_sample_dropped_refuted",
    "C14_whole_seconds_iff",
    "C14_three_seconds_44100_refuted"
   ],
   "note": "exact for slices on sample boundaries, exact overlap rule up to the round(_,2) in the code; two refutations (overlaps below 1/200 of a sample are dropped, 3 s at 44.1 kHz selects 132301 samples)"
  },
  {
   "property": "C15",
   "status": "partial",
   "theorems": [
    "C15_units",
    "C15_bounds",
    "C15_order",
    "C15_equality",
    "C15_equal_hash",
    "C15_intersection_duration",
    "C15_intersection_start_zero",
    "C15_intersection_refuted",
    "C15_disjoint_error_refuted",
    "C15_contains_instant",
    "C15_contains_slice",
    "C15_shift"
   ],
   "note": "equality, hash, containment and duration of intersections proved; start of intersections and the disjointness error are false of the code (refuted)"
  },
  {
   "property": "C16",
   "status": "proved",
   "theorems": [
    "C16_slices_tile",
    "C16_slices_adjacent"
   ],
   "note": ""
  },
  {
   "property": "C17",
   "status": "proved",
   "theorems": [
    "C17_window_covers",
    "C17_windowing_composes",
    "C17_windowing_total",
    "C17_windowed_span",
    "C17_slice_keeps_sampling",
    "C17_defaults"
   ],
   "note": ""
  },
  {
   "property": "C18",
   "status": "proved",
   "theorems": [
    "C18_schemes",
    "C18_mul_then_discrete",
    "C18_mul_is_windowing",
    "C18_nonpositive_rejected"
   ],
   "note": ""
  },
  {
   "property": "C19",
   "status": "partial",
   "theorems": [
    "C19_wrong_number_of_dimensions",
    "C19_construction",
    "C19_getitem",
    "C19_getitem_accepts",
    "C19_transpose",
    "C19_reduction",
    "C19_reduction_all_axes_refuted",
    "C19_squeeze",
    "C19_reshape",
    "C19_concat",
    "C19_windowing",
    "C19_numpy_integer_refuted",
    "C19_two_lists_refuted",
    "C19_window_of_one_refuted",
    "C19_squeeze_empty_refuted",
    "C19_windowing_empty",
    "C19_windowing_identity",
    "C19_windowing_identity_whole_refuted"
   ],
   "note": "numpy's own operations enter as contracts on shapes (C83 and C84 treat concrete arrays). Construction, indexing (ints, slices, Ellipsis, None, one list, unit slices), transposition, reductions, squeeze, reshape, concatenation and windowing of a time axis are proved; numpy integers, several lists, windows of one sample, squeezing an empty array and reductions over all named axes are refuted; a list together with ints is C84, boolean masks are C108"
  },
  {
   "property": "C20",
   "status": "partial",
   "theorems": [
    "C20_getitem_data_partial",
    "C20_translation_defined",
    "C20_none_refuted",
    "C20_ellipsis_none_refuted",
    "C20_reverse_slice_refuted",
    "C20_slice_positions_up",
    "C20_slice_positions_down",
    "C20_list_slice"
   ],
   "note": "proved for every index without a None that is counted (before the unit element, or after it behind an Ellipsis); with such a None the wrong dimension translates (two refutations); integer slices keep their meaning for positive steps, refuted for a negative step ending at 0 on a time axis"
  },
  {
   "property": "C21",
   "status": "proved",
   "theorems": [
    "C21_slice_selects_touched",
    "C21_touched_meaning",
    "C21_slice_always_even",
    "C21_hertz_slice",
    "C21_scale_get"
   ],
   "note": "every well-formed Linear, Geometric (ratio <= 2), Explicit (ordered), Bark, Mel scale; exact characterisation of the selected bands, also with always_even and Hertz slices; float rounding not modelled"
  },
  {
   "property": "C22",
   "status": "proved",
   "theorems": [
    "C22_linear_scale_tiles",
    "C22_single_band_refuted"
   ],
   "note": "proved for n >= 2; a one-band LinearScale raises IndexError (refuted)"
  },
  {
   "property": "C23",
   "status": "proved",
   "theorems": [
    "C23_geometric_scale",
    "C23_geometric_rejects"
   ],
   "note": "over the reals"
  },
  {
   "property": "C24",
   "status": "proved",
   "theorems": [
    "C24_ensure_overlap_ratio",
    "C24_linear_never_overlaps"
   ],
   "note": "the method only checks; statement in properties.jsonl corrected accordingly"
  },
  {
   "property": "C25",
   "status": "proved",
   "theorems": [
    "C25_bark",
    "C25_mel",
    "C25_bark_scale",
    "C25_mel_scale"
   ],
   "note": "over the reals; mel on h > -700"
  },
  {
   "property": "C26",
   "status": "proved",
   "theorems": [
    "C26_band_constructor",
    "C26_intersection_set",
    "C26_intersection_comm",
    "C26_intersection_error",
    "C26_intersection_total",
    "C26_from_center",
    "C26_from_start",
    "C26_equality"
   ],
   "note": ""
  },
  {
   "property": "C27",
   "status": "partial",
   "theorems": [
    "C27_equality_is_parameters_partial",
    "C27_equal_scales_same_bands_partial",
    "C27_explicit_equality_is_prefix",
    "C27_explicit_equality_refuted",
    "C27_symmetry_refuted"
   ],
   "note": "proved for Linear, Geometric, Bark, Mel on the left; ExplicitScale equality is the prefix relation (proved), hence not an equivalence and not symmetric (refuted)"
  },
  {
   "property": "C28",
   "status": "proved",
   "theorems": [
    "C28_columns_partition",
    "C28_construct",
    "C28_band_gives_array",
    "C28_iter_bands",
    "C28_from_array_with_units",
    "C28_count_mismatch",
    "C28_duplicate_bands_refuted"
   ],
   "note": "for pairwise different bands; repeated bands collapse (refuted by witness)"
  },
  {
   "property": "C29",
   "status": "proved",
   "theorems": [
    "C29_exact_band",
    "C29_other_band",
    "C29_weights",
    "C29_reslice_refuted",
    "C29_integer_slice_refuted"
   ],
   "note": "column ranges exact; re-slicing a narrowed dimension and integer slices give inconsistent dimensions (refuted)"
  },
  {
   "property": "C30",
   "status": "proved",
   "theorems": [
    "C30_construction",
    "C30_mixed_shapes",
    "C30_series_determined",
    "C30_concat",
    "C30_slicing",
    "C30_span_starts_first",
    "C30_span",
    "C30_slice_rows",
    "C30_end_refuted",
    "C30_mixed_types_refuted"
   ],
   "note": "for rows of one shape and dtype and slices with positive duration; the span's end and mixed dtypes are refuted (not part of the stated property)"
  },
  {
   "property": "C31",
   "status": "partial",
   "theorems": [
    "C31_roundtrip_partial",
    "C31_error_bound",
    "C31_long_refuted",
    "C31_no_duration_refuted"
   ],
   "note": "exact for instants and durations up to 2^53 ps (2.5 hours) and within 2^-53 relative beyond; exactness beyond is refuted, as are slices without duration"
  },
  {
   "property": "C32",
   "status": "proved",
   "theorems": [
    "C32_timedelta",
    "C32_timeslice",
    "C32_time_dimension",
    "C32_negative_refuted",
    "C32_negative_start_refuted",
    "C32_open_slice_refuted"
   ],
   "note": "every nonnegative count below 2^63 and every unit; negative counts and open-ended slices, which cannot be written and read, are shown to fail"
  },
  {
   "property": "C33",
   "status": "proved",
   "theorems": [
    "C33_dimension",
    "C33_dimensions"
   ],
   "note": "every dimension built by its constructor, all six scale classes, exact record equality; real-valued frequencies (repr of a double round-trips)"
  },
  {
   "property": "C34",
   "status": "proved",
   "theorems": [
    "C34_rows",
    "C34_roundtrip",
    "C34_empty_rows_refuted",
    "C34_frequency_first_refuted",
    "C34_audio_rate"
   ],
   "note": "under the contracts that json.loads inverts json.dumps on this description and that NumpyMetaData.unpack inverts pack; zero-byte rows, several chunks along a frequency axis, and audio at non-standard rates are refuted"
  },
  {
   "property": "C35",
   "status": "proved",
   "theorems": [
    "C35_transform",
    "C35_inverse",
    "C35_inverts",
    "C35_split",
    "C35_halves",
    "C35_pick"
   ],
   "note": "steps are arbitrary functions that may raise; wrapping/rewrapping of units are parameters; forward pass, reverse-order inverse and left inverse for every length"
  },
  {
   "property": "C36",
   "status": "proved",
   "theorems": [
    "C36_unit_norm_roundtrip",
    "C36_unit_norm_unit",
    "C36_unit_norm_zero_refuted",
    "C36_unit_norm_1d_refuted",
    "C36_meanstd_roundtrip",
    "C36_meanstd_training",
    "C36_meanstd_normalised",
    "C36_meanstd_constant_refuted",
    "C36_instance_scaling_roundtrip",
    "C36_instance_scaling_peak",
    "C36_multiply_roundtrip",
    "C36_multiply_zero_refuted",
    "C36_weighted_roundtrip",
    "C36_slicer_roundtrip",
    "C36_reshape_roundtrip",
    "C36_reshape_rows",
    "C36_binarize",
    "C36_kmeans_nearest",
    "C36_kmeans_centroids",
    "C36_reshape_examples",
    "C36_reshape_batches",
    "C36_reshape_chain",
    "C36_reshape_nothing_refuted",
    "C36_reshape_nothing_any",
    "C36_reshape_misfit_refuted",
    "C36_reshape_other_number",
    "C36_reshape_example"
   ],
   "note": "proved over exact reals. 'zero rows are kept as they are' is false of the forward pass (uninitialised memory comes out: C36_unit_norm_zero_refuted), 1-D unit norm does not invert, a feature constant in training is lost in new data, factor 0 cannot be inverted, Reshape of no examples raises with a -1 and takes any other shape; all the rest proved"
  },
  {
   "property": "C37",
   "status": "proved",
   "theorems": [
    "C37_step",
    "C37_one_pipeline",
    "C37_incomplete",
    "C37_any_order"
   ],
   "note": "any arrival order, repeats included"
  },
  {
   "property": "C38",
   "status": "partial",
   "theorems": [
    "C38_contents_partial",
    "C38_refuses",
    "C38_from_added",
    "C38_at_most_n",
    "C38_kept",
    "C38_no_collision",
    "C38_batch",
    "C38_collision_refuted",
    "C38_negative_index_refuted"
   ],
   "note": "'min(total, nsamples) rows' is false: two rows drawn to one slot leave one (C38_collision_refuted); true when no slot is drawn twice (C38_no_collision). Contents are given exactly for every history and outcome without negative indices given by the caller, for which C38_negative_index_refuted"
  },
  {
   "property": "C39",
   "status": "partial",
   "theorems": [
    "C39_aligned_partial",
    "C39_wrong_keys",
    "C39_unequal_lengths_refuted"
   ],
   "note": "aligned for every history of equal-length batches; an unequal batch is rejected only after its first channel is stored (C39_unequal_lengths_refuted)"
  },
  {
   "property": "C40",
   "status": "partial",
   "theorems": [
    "C40_supervised_epochs",
    "C40_supervised_covers",
    "C40_wgan_epochs",
    "C40_interrupted",
    "C40_base_epochs_partial",
    "C40_triplet_epochs_partial",
    "C40_base_one_too_many_refuted",
    "C40_triplet_small_refuted",
    "C40_errors_swapped_refuted",
    "C40_callbacks_told",
    "C40_unregister_bound_method_refuted"
   ],
   "note": "exact for SupervisedTrainer and WassersteinGanTrainer; Trainer and TripletEmbeddingTrainer run epochs + 1 epochs (refuted). Callbacks once per batch, in any history of registrations"
  },
  {
   "property": "C41",
   "status": "proved",
   "theorems": [
    "C41_tiles",
    "C41_each_instant",
    "C41_cuts",
    "C41_moving_average",
    "C41_where",
    "C41_narrow_frames_refuted",
    "C41_unsorted_refuted"
   ],
   "note": "For every chunking and every detection that returns increasing indices of the chunk (proved of np.where, hence of MovingAveragePeakPicker on frames of at least 4 columns). Frames with fewer columns are an IndexError (refuted); a subclass returning unordered indices breaks the tiling (refuted)."
  },
  {
   "property": "C42",
   "status": "proved",
   "theorems": [
    "C42_total",
    "C42_one_need",
    "C42_unknown",
    "C42_empty_rows_refuted"
   ],
   "note": "Every interleaving, any number of needs >= 2. Rows must have at least one element: with zero-width rows arrivals are overwritten (refuted)."
  },
  {
   "property": "C43",
   "status": "proved",
   "theorems": [
    "C43_is_fifo",
    "C43_lossless",
    "C43_drains",
    "C43_bounded",
    "C43_seek_read",
    "C43_seek_refuted",
    "C43_tell_end"
   ],
   "note": "Refinement to a FIFO queue for read/readinto/write. Also: bound on retained bytes; random access by seek is right as long as nothing was trimmed and wrong afterwards (refuted)."
  },
  {
   "property": "C44",
   "status": "proved",
   "theorems": [
    "C44_roundtrip",
    "C44_note_roundtrip",
    "C44_pitch",
    "C44_names",
    "C44_accepts",
    "C44_flats_refuted",
    "C44_errors"
   ],
   "note": "All integers, including negative octaves. Flats are rejected."
  },
  {
   "property": "C45",
   "status": "partial",
   "theorems": [
    "C45_open_range",
    "C45_closed_range_partial",
    "C45_no_range",
    "C45_seconds",
    "C45_seconds_back",
    "C45_statuses",
    "C45_last_byte_refuted",
    "C45_first_byte_refuted",
    "C45_suffix_refuted",
    "C45_beyond_end_refuted",
    "C45_reversed_refuted",
    "C45_two_ranges_refuted",
    "C45_malformed_refuted",
    "C45_exponent_refuted",
    "C45_array_features_refuted",
    "C45_onsets_refuted"
   ],
   "note": "Proved: bytes=a- gives everything from a with 206; bytes=a-b gives bytes a..b-1 (_partial); no header gives everything with 200; seconds=a-b gives a time slice within 2 ps. Refuted, with theorems: the last byte of a closed range is always missing, bytes=0-0 and reversed ranges return everything, suffix ranges are ignored, ranges beyond the end are an empty 206 (416 is never sent), several ranges and malformed headers, array and onset features without a time range are a 500. int() is modelled without blanks and underscores; the vorbis and image serializers are not modelled."
  },
  {
   "property": "C46",
   "status": "proved",
   "theorems": [
    "C46_secured",
    "C46_secured_all",
    "C46_training",
    "C46_unauthenticated",
    "C46_authenticated",
    "C46_unsecured",
    "C46_login_works",
    "C46_patch_refuted",
    "C46_login_pattern_refuted",
    "C46_empty_secret_refuted",
    "C46_login_blanks",
    "C46_blank_secret_refuted",
    "C46_coroutine_refuted"
   ],
   "note": "Proved for every history of requests and every route table: a handler runs only for a request with a cookie obtained by an earlier login with the secret, unless its pattern contains 'login' or the method is PATCH; for all the project's own applications the exceptions do not arise. Signatures of cookies are taken to be unforgeable, their expiry is not modelled. Refuted in general: PATCH, patterns containing 'login', an empty secret, a secret with surrounding blanks (nobody can log in), coroutine handlers (never run)."
  },
  {
   "property": "C47",
   "status": "proved",
   "theorems": [
    "C47_log_modulus",
    "C47_log_modulus_onto",
    "C47_mu_law",
    "C47_mu_law_inverse_onto",
    "C47_mu_law_increasing",
    "C47_mu_law_ends",
    "C47_mu_law_range",
    "C47_mu_law_onto",
    "C47_one_hot",
    "C47_one_hot_range"
   ],
   "note": "Exact real arithmetic. mu > 0 for the mu-law; inverse holds on all reals, range and surjectivity on [-1,1]."
  },
  {
   "property": "C48",
   "status": "partial",
   "theorems": [
    "C48_overlap_add",
    "C48_dimension",
    "C48_window_power",
    "C48_window_symmetric",
    "C48_window_range",
    "C48_window_gain",
    "C48_stft_reconstruction_partial",
    "C48_dct_reconstruction_partial",
    "C48_dct_default",
    "C48_dct_default_refuted"
   ],
   "note": "Overlap-add is proved for every number of frames, hop and window (length, and every sample the sum of the windowed frame samples on it). Reconstruction through the FFT (even windows) and through the DCT is proved up to a constant gain g with 1 < g <= 1 + 128/n^4: the code divides the vorbis window by its maximum, which is below 1 for even n, so the Princen-Bradley sum is not exactly 1 (the exact claim is false). The documented default DCTSynthesizer (identity window) modulates the amplitude (refuted for every window of 6 samples or more). Odd window sizes lose a sample through irfft (C49_rfft_length). Exact reals; MDCT is C66."
  },
  {
   "property": "C49",
   "status": "partial",
   "theorems": [
    "C49_dct_node",
    "C49_learn_dct_partial",
    "C49_learn_dct_refuted",
    "C49_resample_same",
    "C49_dctiv_refuted",
    "C49_rfft",
    "C49_rfft_length"
   ],
   "note": "The DCT node and rfft/irfft (even sizes) are proved inverse. The learn package's idct(dct(x)) doubles the first sample (C49_learn_dct_partial states exactly what comes back; refuted whenever that sample is not 0). DCTIV drops the imaginary part before the FFT and is not an involution (refuted)."
  },
  {
   "property": "C50",
   "status": "partial",
   "theorems": [
    "C50_every_item_once_partial",
    "C50_all_stored_partial",
    "C50_no_skip_partial",
    "C50_skips_exactly_existing_partial",
    "C50_can_finish",
    "C50_default_does_nothing_refuted",
    "C50_duplicates_race_refuted",
    "C50_sound_dataset",
    "C50_failing_dataset_attempts",
    "C50_failing_dataset_looks_finished",
    "C50_rest_of_dataset_lost_refuted",
    "C50_item_behind_failure_lost_refuted",
    "C50_processes_attempt",
    "C50_unpicklable_lost_refuted",
    "C50_failing_dataset_can_finish",
    "C50_failing_dataset_example"
   ],
   "note": "Proved for the multi-threaded and multi-process modes, for every interleaving of the workers: every item is attempted exactly once, failures do not stop the others, existing documents are skipped exactly when they existed (no duplicate urls in the dataset); with a dataset whose iterator raises, exactly the items before the failure are attempted; with processes, exactly the items that can be pickled. Missing, because false of the code: the default single-threaded mode does nothing (lazy map), duplicate urls can both be processed, an item without a url raises out of the worker and is silently lost, as are everything behind an exception of the dataset (ingest returns as if it had ended) and items that cannot be pickled. Exceptions that are no Exception (KeyboardInterrupt) are not modelled."
  },
  {
   "property": "C51",
   "status": "partial",
   "theorems": [
    "C51_composite",
    "C51_composite_members",
    "C51_directory",
    "C51_freesound_results_partial",
    "C51_freesound_count_refuted",
    "C51_freesound_repeats_refuted",
    "C51_freesound_empty_refuted",
    "C51_archive_partial",
    "C51_archive_metadata",
    "C51_archive_missing_original_refuted"
   ],
   "note": "Composite and directory datasets proved. FreeSoundSearch yields n+1 results, wraps around to repeat results when there are fewer, and never ends (modelled as never yielding) when there are none; an Internet Archive derivative whose original is missing ends the iteration. What the items contain, and the other datasets, are C100."
  },
  {
   "property": "C52",
   "status": "partial",
   "theorems": [
    "C52_uninterrupted_complete_partial",
    "C52_succeeds_partial",
    "C52_prefix",
    "C52_never_refetched",
    "C52_cached_returned",
    "C52_first_call_decides",
    "C52_crash_refuted",
    "C52_refused_refuted",
    "C52_same_name_refuted",
    "C52_dataset_cache_refuted"
   ],
   "note": "An uninterrupted successful download is complete; at every crash point the file is a prefix of the resource. The claim is false: whatever the first call left is returned for ever (killed, refused, without Content-Length); names collide; DataSetCache always raises TypeError."
  },
  {
   "property": "C53",
   "status": "proved",
   "theorems": [
    "C53_encode_total"
   ],
   "note": "What is handed to libsndfile; the encoding itself is outside the model."
  },
  {
   "property": "C54",
   "status": "partial",
   "theorems": [
    "C54_mono_of_mono",
    "C54_stereo_of_stereo",
    "C54_stereo",
    "C54_mono_value",
    "C54_mono_of_stereo_partial",
    "C54_mono_of_stereo_refuted",
    "C54_three_channels_refuted",
    "C54_one_column_refuted",
    "C54_silence",
    "C54_silence_shape",
    "C54_silence_one_sample_refuted",
    "C54_silence_like_refuted",
    "C54_pad_mono",
    "C54_pad_stereo_refuted"
   ],
   "note": "mono(stereo(x)) is x/2, not x; stereo of >2 channels (or of one 2-D channel) swaps samples and channels; silence_like is all ones; one-sample silence is an error or loses its time axis; pad_with_silence fails on stereo. Each is a _refuted theorem."
  },
  {
   "property": "C55",
   "status": "proved",
   "theorems": [
    "C55_chunks",
    "C55_rowwise",
    "C55_pieces_cover",
    "C55_pieces_size",
    "C55_pieces_full",
    "C55_bad_chunk",
    "C55_empty_refuted",
    "C55_not_rowwise_refuted"
   ],
   "note": "proved for positive chunk sizes and at least one row; with no rows the chunked form raises (C55_empty_refuted)"
  },
  {
   "property": "C56",
   "status": "partial",
   "theorems": [
    "C56_linear_slice",
    "C56_geometric_explicit_slice",
    "C56_bark_slice_refuted",
    "C56_mel_slice_refuted",
    "C56_frequency_dimension_size"
   ],
   "note": "proved for Linear selections of at least 2 bands and for all Geometric/Explicit selections; false for Bark and Mel for every selection, and for a single Linear band"
  },
  {
   "property": "C57",
   "status": "partial",
   "theorems": [
    "C57_output_partial",
    "C57_prefix_only_refuted",
    "C57_wrong_row_refuted",
    "C57_empty"
   ],
   "note": "number and origin of rows proved for all draws; the per-row fairness is refuted: only a prefix of each chunk can be kept, whichever rows the accepted draws were for"
  },
  {
   "property": "C58",
   "status": "proved",
   "theorems": [
    "C58_bits",
    "C58_direction",
    "C58_opposite",
    "C58_shape",
    "C58_rowwise",
    "C58_zero"
   ],
   "note": "over exact reals"
  },
  {
   "property": "C59",
   "status": "proved",
   "theorems": [
    "C59_value",
    "C59_score",
    "C59_chunking",
    "C59_defined",
    "C59_empty_first_refuted",
    "C59_flux_refuted"
   ],
   "note": "Proved for MeasureOfTransience; Flux always raises because its result has fewer axes than dimensions (C59_flux_refuted)."
  },
  {
   "property": "C60",
   "status": "proved",
   "theorems": [
    "C60_pooled"
   ],
   "note": "Indexing the series by a slice and the pooling operation are parameters; when either raises for some slice so does Pooled."
  },
  {
   "property": "C61",
   "status": "partial",
   "theorems": [
    "C61_stream_total",
    "C61_read",
    "C61_iter_chunks_partial",
    "C61_iter_chunks_exact_rates",
    "C61_iter_chunks_drift_refuted"
   ],
   "note": "AudioStream proved for every decoder whose output grows with the bytes. iter_chunks is proved while the accumulated rounding of the sample period stays below one sample (always, for rates dividing 10^12); at 44.1 kHz sample 23593500 is skipped (refuted)."
  },
  {
   "property": "C62",
   "status": "proved",
   "theorems": [
    "C62_chunk_bytes",
    "C62_chunk_samples",
    "C62_chunk_margin",
    "C62_resample_total",
    "C62_resample_integer",
    "C62_resample_chunking_refuted"
   ],
   "note": "Resampled length depends on the chunking (refuted example) but is within half a sample per chunk, exact for integer ratios."
  },
  {
   "property": "C63",
   "status": "proved",
   "theorems": [
    "C63_unquote_quote",
    "C63_escapes",
    "C63_base",
    "C63_repl",
    "C63_temp_refuted",
    "C63_monitors_refuted"
   ],
   "note": "Proved for every id and every feature name made of unreserved characters (feature names are Python identifiers; non-ASCII ones are left out). Refuted: a document called temp in the REPL application; the training monitors' default base_path '/zounds' leads nowhere."
  },
  {
   "property": "C64",
   "status": "proved",
   "theorems": [
    "C64_single",
    "C64_single_none",
    "C64_program",
    "C64_program_refuted"
   ],
   "note": "Exact characterisation for single expressions; for programs of several statements the last accepted expression before the first other one (C64_program), which can be a feature although the value is something else (refutation)."
  },
  {
   "property": "C65",
   "status": "partial",
   "theorems": [
    "C65_history",
    "C65_zero",
    "C65_bound_refuted"
   ],
   "note": "Proved: the newest values, in order, at most n+1 of them. Refuted: n+1 values are kept, and n = 0 keeps everything."
  },
  {
   "property": "C66",
   "status": "partial",
   "theorems": [
    "C66_mdct",
    "C66_imdct",
    "C66_alias",
    "C66_reconstruction_partial"
   ],
   "note": "mdct and imdct are proved equal to the textbook formula, the alias formula is exact, and the overlap-add chain gives g*x with 1 < g <= 1 + 128/n^4 (same normalisation of the window as in C48)."
  },
  {
   "property": "C67",
   "status": "partial",
   "theorems": [
    "C67_flatness_range",
    "C67_flatness_flat",
    "C67_flatness_silent",
    "C67_centroid_scales",
    "C67_centroid_refuted"
   ],
   "note": "Flatness proved. The centroid is refuted: it divides by the sum of the bin numbers, so it scales with loudness and can lie beyond the last bin."
  },
  {
   "property": "C68",
   "status": "proved",
   "theorems": [
    "C68_instance_scale",
    "C68_unit_scale",
    "C68_unit_scale_ends",
    "C68_unit_scale_constant_refuted",
    "C68_sine_bounded"
   ],
   "note": "instance_scale (epsilon > 0) and the sine bound are proved; unit_scale is proved for non-constant arrays and refuted for constant ones, where it is nan (0/0; the where= argument compares the builtin max with 0)."
  },
  {
   "property": "C69",
   "status": "partial",
   "theorems": [
    "C69_window_cache",
    "C69_window_cache_refuted",
    "C69_short_time_shape_partial"
   ],
   "note": "With one window function the cache is always right; with two it returns the first one's window (refuted). The result has a legal shape exactly when the number of windows equals the window size."
  },
  {
   "property": "C70",
   "status": "proved",
   "theorems": [
    "C70_apply_slices",
    "C70_apply",
    "C70_local",
    "C70_window_scalar",
    "C70_window_identity",
    "C70_window_function",
    "C70_window_single",
    "C70_window_misfit",
    "C70_bark_bands",
    "C70_default_window_refuted",
    "C70_real_part_only_refuted",
    "C70_real_part",
    "C70_self_identity_window",
    "C70_self_hanning",
    "C70_self_refuted"
   ],
   "note": "The characterisation is proved for every pair of well formed scales (for always_even scales in terms of the slice expression, which may hold one extra bin). Refuted: the default window None of apply_scale is a TypeError; apply_scale uses the absolute value of the real part, so purely imaginary spectra come out silent; a linear scale applied to itself returns sums of neighbours (identity window) or zeros (hanning), because a band also touches its lower neighbour."
  },
  {
   "property": "C71",
   "status": "partial",
   "theorems": [
    "C71_basis",
    "C71_shifted_refuted",
    "C71_scalar",
    "C71_in_range",
    "C71_no_bands",
    "C71_class_refuted",
    "C71_octave",
    "C71_pitch_middle"
   ],
   "note": "The full entry formula is proved. Refuted: classes are shifted: a bin between pitches m-1 and m is credited to classes m-2 and m-1 (zip pairs every band with the semitone below its centre)."
  },
  {
   "property": "C72",
   "status": "proved",
   "theorems": [
    "C72_a_weights",
    "C72_multiply",
    "C72_divide_undoes",
    "C72_invertible",
    "C72_flat",
    "C72_rejects",
    "C72_misfit",
    "C72_one_band",
    "C72_no_bands",
    "C72_explicit_last_axis",
    "C72_part",
    "C72_cut_band",
    "C72_cut_band_refuted"
   ],
   "note": "Curve, multiplication, division, flat weighting and refusals are proved for frequency dimensions; for slices the constant is characterised exactly. Refuted: a band cut out of a FrequencyAdaptive keeps its old column offsets and gets weight 0."
  },
  {
   "property": "C73",
   "status": "partial",
   "theorems": [
    "C73_reported",
    "C73_center_peak_refuted",
    "C73_spike_refuted"
   ],
   "note": "Characterised exactly: the peak is looked for one column before the centre, the threshold is tested at the centre. Refuted: a frame whose centre is a peak is never reported, nor is an isolated spike anywhere."
  },
  {
   "property": "C74",
   "status": "proved",
   "theorems": [
    "C74_bands",
    "C74_bands_disjoint",
    "C74_synthesis",
    "C74_synthesis_exact",
    "C74_synthesis_lossy_refuted",
    "C74_synthesis_split",
    "C74_empty_selection_refuted",
    "C74_refuses",
    "C74_no_sizes",
    "C74_known_rates",
    "C74_resample_same",
    "C74_resample_up_down",
    "C74_resample_through"
   ],
   "note": "Bands, their contents, disjointness, exact reconstruction, complementary selections and refusals are proved for rows of real numbers and sizes that are natural numbers; scipy.signal.resample is modelled by its algorithm (FFT, truncation or zero padding with the Nyquist correction, inverse FFT) in exact arithmetic. Refuted: an empty selection of bands selects every band; without a size as large as the number of samples something can be lost."
  },
  {
   "property": "C75",
   "status": "partial",
   "theorems": [
    "C75_machine",
    "C75_machine_fails",
    "C75_machine_frequency",
    "C75_machine_step",
    "C75_machine_step_half",
    "C75_machine_step_refuted",
    "C75_machine_length",
    "C75_machine_length_half",
    "C75_machine_meets",
    "C75_exact",
    "C75_half_overlap_fits",
    "C75_half_or_more",
    "C75_odd_refuted",
    "C75_cases",
    "C75_frames",
    "C75_level",
    "C75_silence",
    "C75_same_size",
    "C75_mean",
    "C75_half_lapped",
    "C75_no_overlap",
    "C75_more_overlap_refuted",
    "C75_less_overlap_refuted"
   ],
   "note": "Frames, level, and the overlap-added form for every overlap and every number of samples per frame (C75_exact: frame t starts at row t * floor(n(d-f)/d), or the last frame does not fit and it is a ValueError, with the exact condition; always fits with at least half overlap) are proved for real bands whose frequency bands differ, with the numbers of the machine as well (square64, proved equal without overlap and half-lapped; otherwise the hop can be one row less than the exact one, refuted by 7 of 22 samples). Refuted: the hop used is n(duration - frequency)/duration, so with more than half overlap the frames are laid out too far apart, with less than half the last frame does not fit, and half-lapped frames of an odd number of samples are laid out half a row too early each, with zero rows left at the end."
  },
  {
   "property": "C76",
   "status": "proved",
   "theorems": [
    "C76_all",
    "C76_band",
    "C76_magnitude",
    "C76_less_than_a_sample",
    "C76_adds_up",
    "C76_delay",
    "C76_half_spectrum",
    "C76_half_spectrum_refuted",
    "C76_full_turn",
    "C76_rows",
    "C76_first_axis_refuted",
    "C76_first_axis_fails_refuted",
    "C76_refuses",
    "C76_nothing_touched"
   ],
   "note": "Proved for one dimension and for the last axis of two, for scales without always_even when a band is given; the delay is exact on a complete spectrum. Refuted: the phase is divided by the number of coefficients, so on the half spectrum of zounds.spectral.fft the delay is n/(n/2+1) times too long (a delay by n/2+1 samples does nothing); along the first axis the factors are laid along the last one, or the shapes do not fit."
  },
  {
   "property": "C77",
   "status": "partial",
   "theorems": [
    "C77_shape",
    "C77_refuses",
    "C77_refuses_example",
    "C77_batch",
    "C77_vocoder",
    "C77_angle",
    "C77_factor_one",
    "C77_factor_one_gain",
    "C77_factor_one_louder_refuted",
    "C77_scales",
    "C77_silence",
    "C77_first_sample_refuted",
    "C77_default_frames",
    "C77_default_hop",
    "C77_default_hop_48000_refuted",
    "C77_pitch_length",
    "C77_pitch_whole_windows",
    "C77_pitch_zero",
    "C77_pitch_batch",
    "C77_pitch_too_high",
    "C77_pitch_shortens_refuted",
    "C77_semitone_shortens_refuted",
    "C77_tone_frames",
    "C77_tone",
    "C77_tone_repeats",
    "C77_sinusoid",
    "C77_tone_example"
   ],
   "note": "Exact real arithmetic, positive factors. Refuted: a factor of 1 multiplies samples by a gain above 1.07 (no normalisation by the squared windows), the first sample is always 0, with the default frames at 48000 Hz frames are read 558 and added 557 samples apart, and any shift that is not by whole windows (e.g. one semitone) shortens all sufficiently long signals. That the pitch of a tone is unchanged is proved for tones that repeat with the hop (C77_tone, C77_sinusoid: the output is the same tone in the same phase times a gain that depends on the position only), as far as the input frames last; other tones are not exactly invariant, since a frame is not a whole number of their periods."
  },
  {
   "property": "C78",
   "status": "proved",
   "theorems": [
    "C78_fft",
    "C78_fft_rows",
    "C78_other_rate",
    "C78_padding_refuted",
    "C78_bin_in_band",
    "C78_bin_in_band_refuted",
    "C78_pure_tone",
    "C78_first_axis",
    "C78_first_axis_refuted",
    "C78_first_axis_padding",
    "C78_stft",
    "C78_stft_batch",
    "C78_batch_prefix",
    "C78_batch_shorter_refuted",
    "C78_batch_covers",
    "C78_no_window_refuted",
    "C78_stft_refuses"
   ],
   "note": "Exact real arithmetic. Refuted: zero-padding of 1-D and 3-D arrays and axis=0 fail, at 11025 Hz the last coefficient lies above its band, stft without a window function fails, and the batch form has fewer frames than the one-signal form (it is a prefix of it)."
  },
  {
   "property": "C79",
   "status": "proved",
   "theorems": [
    "C79_dct_inverse",
    "C79_dct_exact",
    "C79_fft_inverse",
    "C79_fft_exact",
    "C79_fft_closed_window",
    "C79_uncovered",
    "C79_default_window",
    "C79_band_of_nothing",
    "C79_fft_needs_two_bins",
    "C79_size",
    "C79_size_one_second",
    "C79_size_refuted",
    "C79_tiling_refuted",
    "C79_fft_phase_refuted",
    "C79_hanning_ends_refuted",
    "C79_example",
    "C79_overlap_check"
   ],
   "note": "Exact real arithmetic; transforms idct/dct and irfft/rfft. Refuted variants show where reconstruction fails."
  },
  {
   "property": "C80",
   "status": "partial",
   "theorems": [
    "C80_rounding",
    "C80_whole_frames",
    "C80_noise_size_partial",
    "C80_noise_size_exact",
    "C80_noise_size_refuted",
    "C80_noise_values",
    "C80_tick_size",
    "C80_tick_spacing_partial",
    "C80_tick_spacing_exact",
    "C80_tick_spacing_refuted",
    "C80_ticks_too_fast",
    "C80_ticks_sum",
    "C80_ticks_separate",
    "C80_tick_envelope",
    "C80_sine_size_partial",
    "C80_sine_size_refuted",
    "C80_sine_values",
    "C80_sine_one",
    "C80_silence_size_refuted",
    "C80_example"
   ],
   "note": "Sizes are modelled bit by bit in double precision (Float64.v, proved equal to Flocq rounding without exponent bounds); sample values over the reals. Partial because the property as users expect it (exactly floor(rate*duration) samples) fails: within one sample is what is proved, exact for dyadic durations. Random numbers are an arbitrary sequence in [-1,1)."
  },
  {
   "property": "C81",
   "status": "partial",
   "theorems": [
    "C81_categories",
    "C81_categories_loudness",
    "C81_softmax",
    "C81_one_hot_nearest",
    "C81_one_hot_truncation_refuted",
    "C81_scores",
    "C81_raw_samples",
    "C81_raw_samples_refuted",
    "C81_embedding_rows",
    "C81_embedding_values",
    "C81_embedding_top",
    "C81_embedding_refuted",
    "C81_perceptual_count",
    "C81_perceptual_value",
    "C81_perceptual_nonneg",
    "C81_perceptual_silence",
    "C81_perceptual_cosine",
    "C81_perceptual_mse",
    "C81_perceptual_example",
    "C81_critic",
    "C81_critic_shift",
    "C81_interpolate",
    "C81_penalty_vectors",
    "C81_penalty_value",
    "C81_penalty_signals_refuted",
    "C81_band_features",
    "C81_bands",
    "C81_band_loss",
    "C81_band_loss_zero"
   ],
   "note": "Over the reals; tensors as flat lists with their sizes; torch primitives (conv1d, log_softmax, NLLLoss2d, cosine_similarity, view) by their documented meaning. Partial: the claim as users expect it fails for raw samples (C81_raw_samples_refuted), the embedding (always raises) and the penalty of signals. Gradients are an argument (autograd is not modelled); the bands of BandLoss are an argument; not-a-number is None."
  },
  {
   "property": "C82",
   "status": "partial",
   "theorems": [
    "C82_sample_norm",
    "C82_sample_norm_images_refuted",
    "C82_sample_norm_mixed_refuted",
    "C82_unit_norm",
    "C82_mean_std",
    "C82_mean_std_single_refuted",
    "C82_feature_map_size",
    "C82_conv_size",
    "C82_multiresolution_odd",
    "C82_multiresolution_even",
    "C82_multiresolution_mixed_refuted",
    "C82_chunks",
    "C82_chunks_empty_refuted",
    "C82_chunks_batch_refuted",
    "C82_gated",
    "C82_sinc_ordered",
    "C82_sinc_initial_refuted",
    "C82_sinc_from_zero_refuted",
    "C82_sinc_numbers",
    "C82_sinc_value",
    "C82_sinc_length"
   ],
   "note": "Over the reals, one item of a batch at a time where the code is itemwise. Partial because of the refuted cases listed in the statement; float32 rounding is not modelled, so the 0/0 in the middle of odd sinc filters is a statement about exact arithmetic. Convolution layers themselves, dropout and batch norm are torch's."
  },
  {
   "property": "C83",
   "status": "partial",
   "theorems": [
    "C83_dot_audio_errors",
    "C83_concat_many",
    "C83_concat_audio_many",
    "C83_concat_nothing",
    "C83_concat_many_different",
    "C83_concat_no_axis",
    "C83_concat_shapes",
    "C83_concat_many_frequency_refuted",
    "C83_entries",
    "C83_shapes",
    "C83_units_left",
    "C83_units_right",
    "C83_same_shape",
    "C83_numbers",
    "C83_elementwise",
    "C83_fewer_axes_refuted",
    "C83_repeated_axis_refuted",
    "C83_audio_axes",
    "C83_add_rates",
    "C83_add_other",
    "C83_add_signals",
    "C83_subtract_rates_refuted",
    "C83_total",
    "C83_sum_axes",
    "C83_sum_axis_range",
    "C83_sum_all_axes_refuted",
    "C83_sum_keepdims_refuted",
    "C83_sum_channels",
    "C83_sum_last_axis_refuted",
    "C83_dot_vector",
    "C83_dot_sizes",
    "C83_dot_matrix_frequency_refuted",
    "C83_dot_matrix_time_refuted",
    "C83_dot_audio_refuted",
    "C83_dot_many_axes_refuted",
    "C83_dot_number",
    "C83_dot_cases",
    "C83_packbits",
    "C83_packbits_frequency_refuted",
    "C83_packbits_time_refuted",
    "C83_packbits_flat_refuted",
    "C83_zeros_like",
    "C83_zeros_like_audio",
    "C83_concatenate",
    "C83_concatenate_audio",
    "C83_concatenate_different",
    "C83_concatenate_frequency_refuted"
   ],
   "note": "Arrays over the reals with explicit entries (row-major); numpy's broadcasting, sum, dot, packbits and concatenate (any number of arrays, any axis) are modelled on these. Proved for every shape and dimension; refuted where the code loses or falsifies units. dot is modelled for arrays of any number of axes. Missing: dtypes and rounding."
  },
  {
   "property": "C84",
   "status": "partial",
   "theorems": [
    "C84_one_list",
    "C84_time_label_refuted",
    "C84_two_lists_refuted",
    "C84_one_list_assign",
    "C84_time_assign_refuted",
    "C84_two_lists_assign",
    "C84_single_position",
    "C84_single_position_last",
    "C84_single_position_example",
    "C84_read_entries",
    "C84_ellipsis_first",
    "C84_ellipsis_last",
    "C84_two_ellipses",
    "C84_assign",
    "C84_selected_once",
    "C84_selected_exist",
    "C84_assign_then_read",
    "C84_audio_slice",
    "C84_audio_time_slice",
    "C84_audio_step_refuted",
    "C84_audio_reversed",
    "C84_audio_int",
    "C84_audio_frame",
    "C84_audio_channel_refuted",
    "C84_index_forms",
    "C84_empty_list_refuted",
    "C84_integer_array_refuted",
    "C84_duration_refuted",
    "C84_assign_time_slice"
   ],
   "note": "numpy's indexing with ints, slices, None, Ellipsis and lists is modelled on concrete arrays; reading and writing share the selection, and the audio theorems pin the selected samples. One list with ints only next to it is proved to read and assign what a slice of those positions does; a slice between an int and a list is refuted (the time label goes to the wrong axis, assigned values are transposed), reading through two lists is refuted, assigning through two lists is proved. Boolean masks are C108. Missing: three or more lists, lists of more axes."
  },
  {
   "property": "C85",
   "status": "proved",
   "theorems": [
    "C85_search",
    "C85_build",
    "C85_plain_results",
    "C85_extra_results",
    "C85_missing_extra",
    "C85_constant_rate_slices",
    "C85_constant_rate_documents",
    "C85_stored_text",
    "C85_not_json",
    "C85_hex_digits",
    "C85_stored_ascii",
    "C85_nothing_indexed",
    "C85_first_code_unusable",
    "C85_later_code_wrong_size",
    "C85_wrong_query_size",
    "C85_bad_query",
    "C85_writeonly",
    "C85_len_misses_others_refuted",
    "C85_random_search",
    "C85_random_empty_refuted",
    "C85_random_ends",
    "C85_page_query",
    "C85_page_never_served_refuted",
    "C85_page_plain_refuted",
    "C85_page_extra_refuted",
    "C85_example_ready",
    "C85_example_search"
   ],
   "note": "Histories of additions by this index and others mixed with searches, transactions committing (failed ones are C09/C10), time slices with non-negative 64-bit counts, extra data without floats. numpy's argpartition and argsort enter through their documented contracts, shown satisfiable."
  },
  {
   "property": "C86",
   "status": "partial",
   "theorems": [
    "C86_gather_rounds",
    "C86_gather_splits",
    "C86_one_at_once",
    "C86_gather_example",
    "C86_op_call",
    "C86_default_lost_refuted",
    "C86_closure_refuted",
    "C86_no_data_refuted",
    "C86_op_attributes",
    "C86_version_value",
    "C86_version_agrees",
    "C86_str_version_refuted",
    "C86_make_op_ok",
    "C86_version_ignores_names_refuted",
    "C86_version_of_network_refuted",
    "C86_pipeline_versions",
    "C86_learned_versions",
    "C86_learned_yields",
    "C86_extract_spec",
    "C86_init_arg_missing_refuted",
    "C86_stored_settings",
    "C86_stored_same",
    "C86_autoencoder_same",
    "C86_inverse_changes_refuted",
    "C86_restored_eval",
    "C86_restored_misfit",
    "C86_no_fallback_refuted",
    "C86_fallback_python2",
    "C86_forward_passes",
    "C86_retry_deterministic",
    "C86_retry_python3_refuted",
    "C86_retry_refused",
    "C86_retry_python2",
    "C86_retry_for_ever",
    "C86_network_agrees",
    "C86_chunksize_not_kept_refuted",
    "C86_post_training_not_kept_refuted",
    "C86_gan_passes_labels",
    "C86_gan_differs_refuted",
    "C86_gan_choice",
    "C86_network_dims",
    "C86_network_dims_other",
    "C86_gan_result_dims",
    "C86_gan_dims_other",
    "C86_encoder_result_dims",
    "C86_bare_results",
    "C86_sk_rows",
    "C86_sk_unrows",
    "C86_sk_roundtrip",
    "C86_sk_other_shape",
    "C86_sk_empty_refuted",
    "C86_components_roundtrip",
    "C86_components_lose_mean_refuted",
    "C86_one_root",
    "C86_loaded_network",
    "C86_no_stored_network",
    "C86_model_hash_refuted",
    "C86_faithful_example",
    "C86_stored_example",
    "C86_nested_example",
    "C86_retry_example",
    "C86_examples_example",
    "C86_graph_example"
   ],
   "note": "Proved: gathering, Op calls and versions, storage and restoration, agreement of Op and passed-on data for networks that treat examples independently, dimensions, scikit-learn shapes, graphs. Refuted parts carry the suffix _refuted. Networks, marshalled code and md5 are parameters (md5: no collision on the compared inputs)."
  },
  {
   "property": "C87",
   "status": "partial",
   "theorems": [
    "C87_contribution_bounds",
    "C87_contribution_monotone",
    "C87_contribution_share",
    "C87_contributions_total",
    "C87_exact_share_refuted",
    "C87_contribution_fails",
    "C87_contribution_example",
    "C87_sampler_contents",
    "C87_yield_rows",
    "C87_yield_size",
    "C87_empty_document",
    "C87_nothing_to_sample",
    "C87_threads_keep_rows",
    "C87_threads_finish",
    "C87_first_round_alone",
    "C87_first_round_race_refuted",
    "C87_sampler_example",
    "C87_threads_example"
   ],
   "note": "Proved: contributions (nsamples up to 2^50), contents and provenance of every yield, all thread schedules once the array exists or when one thread allocates first. Refuted: parallel first round; whole shares. A row assignment and a set update are taken as single steps of a thread."
  },
  {
   "property": "C88",
   "status": "partial",
   "theorems": [
    "C88_gan_reference",
    "C88_gan_checkpoints",
    "C88_no_critic_refuted",
    "C88_gan_unfreezes_refuted",
    "C88_gan_hypotheses",
    "C88_minibatch_rows",
    "C88_triplet_reference",
    "C88_triplet_frozen",
    "C88_triplet_no_deformation",
    "C88_triplet_checkpoint_refuted",
    "C88_supervised_reference",
    "C88_supervised_checkpoints",
    "C88_supervised_crash_python2",
    "C88_supervised_crash_refuted",
    "C88_single_hypotheses"
   ],
   "note": "Proved for all networks, losses and optimizers satisfying vadd (vzero h) g = g: the adversarial and supervised trainers are the reference loops, across any number of calls; triplet training per call. Refuted parts carry the suffix _refuted."
  },
  {
   "property": "C89",
   "status": "partial",
   "theorems": [
    "C89_bank_factors",
    "C89_morlet_length",
    "C89_morlet_value",
    "C89_carrier_offset",
    "C89_carrier_refuted",
    "C89_morlet_symmetric",
    "C89_unit_norm",
    "C89_envelope_narrows",
    "C89_bank_example",
    "C89_convolve",
    "C89_convolve_refuses",
    "C89_convolve_is_convolution",
    "C89_transposed_adjoint",
    "C89_log_magnitude",
    "C89_pool",
    "C89_pool_edge_refuted",
    "C89_transform",
    "C89_transform_single_refuted",
    "C89_transform_early_refuted",
    "C89_forward_plain",
    "C89_forward_normalized",
    "C89_forward_odd_mean",
    "C89_forward_even_refuted",
    "C89_fir_request",
    "C89_fir_above_nyquist",
    "C89_fir_requests",
    "C89_correlate",
    "C89_auto_correlogram",
    "C89_auto_correlogram_refuses",
    "C89_autocorrelation_symmetric",
    "C89_correlogram_example"
   ],
   "note": "Exact reals; torch's conv1d, conv_transpose1d, avg_pool1d and scipy's morlet by their formulas; firwin2 itself is not modelled (only its arguments and its checks on them). Partial because of the refuted clauses."
  },
  {
   "property": "C90",
   "status": "partial",
   "theorems": [
    "C90_answers",
    "C90_expression_served",
    "C90_expression_plain",
    "C90_expression_not_servable",
    "C90_raises",
    "C90_statements",
    "C90_statements_raise",
    "C90_prints",
    "C90_not_python",
    "C90_run_twice_refuted",
    "C90_indented_refuted",
    "C90_indented_statement",
    "C90_temp_url",
    "C90_temp_unknown",
    "C90_temp_never_dropped",
    "C90_once_refuted",
    "C90_blank_refuted",
    "C90_cube_refuted"
   ],
   "note": "The parts 'a statement is run once' and 'an expression with a value is answered with it' are false of the code and refuted (run-time SyntaxError, leading blank, non-image 3-d array); everything else is proved for arbitrary user code. str(value) is taken to be total; output of other threads captured meanwhile is not modelled."
  },
  {
   "property": "C91",
   "status": "partial",
   "theorems": [
    "C91_samples",
    "C91_arrays",
    "C91_others",
    "C91_stored",
    "C91_onsets",
    "C91_onsets_unconfigured",
    "C91_search_results_refuted",
    "C91_search_results_extra_refuted",
    "C91_search_page_refuted",
    "C91_search_page_asks",
    "C91_search_page_random"
   ],
   "note": "'Search results are served' is false of the code (bytes are not JSON serializable) and refuted for every query and every list of hits. Proved: samples, arrays, stored features, onsets, what the index is asked. The ogg and png encodings themselves are not modelled."
  },
  {
   "property": "C92",
   "status": "partial",
   "theorems": [
    "C92_windows",
    "C92_audio_graph",
    "C92_chunk_size",
    "C92_number_of_rows_refuted",
    "C92_stft",
    "C92_dct_sample_rate",
    "C92_dct_sample_rate_16000",
    "C92_dct_any_window",
    "C92_dct_16000_refuted",
    "C92_slice",
    "C92_sum_refuted",
    "C92_binarize",
    "C92_max",
    "C92_max_default_refuted",
    "C92_hanning_integers"
   ],
   "note": "'Same features whatever the chunk size' is false of the code in one row at the end (C92_number_of_rows_refuted), for Max with its default axis, and 'the DCT works on every window' is false at 16 kHz (all refuted). Proved: every feature of audio_graph row by row in closed form, agreement of all common rows, exact condition for the same number of rows, stft graphs, row-wise nodes. The decoding and resampling before the windows, and the store, are not part of this model (C34, C56)."
  },
  {
   "property": "C93",
   "status": "partial",
   "theorems": [
    "C93_transience",
    "C93_windows",
    "C93_onsets",
    "C93_chunks",
    "C93_end_refuted",
    "C93_stride_refuted",
    "C93_stride_rates",
    "C93_with_onsets_refuted",
    "C93_nothing"
   ],
   "note": "'The slices cover the whole sound whatever the chunks' is refuted for every sound with enough frames (C93_end_refuted); 'Stride(1, n) is n frames' is refuted for overlapping windows (C93_stride_refuted gives the exact number); with_onsets always raises. Proved: detection values, exact onsets, tiling, agreement of chunkings up to the last row. Values are reals; the aggregate (np.mean, np.median) is any function of a row."
  },
  {
   "property": "C94",
   "status": "partial",
   "theorems": [
    "C94_training_agrees",
    "C94_strict_training",
    "C94_skipped_refuted",
    "C94_batches",
    "C94_statistics",
    "C94_statistics_applied",
    "C94_simhash_planes",
    "C94_arguments",
    "C94_inverts",
    "C94_slicer_back",
    "C94_not_invertible",
    "C94_op_values",
    "C94_op_accepts",
    "C94_hidden_failure_refuted",
    "C94_nothing_spreads",
    "C94_one_pipeline_per_chunk",
    "C94_dataset_statistics_refuted",
    "C94_node_on_nothing",
    "C94_node_on_failure"
   ],
   "note": "Proved for matrices of reals where no division is skipped (C94_training_agrees, C94_batches) and for nodes that do not hide failures (C94_strict_training); refuted otherwise (C94_skipped_refuted, C94_hidden_failure_refuted, C94_dataset_statistics_refuted). Reshape (example by example, batches, chains of Reshapes) is treated in C36_reshape_*. Not modelled here: arrays with more than two axes, packed SimHash, learned models (KMeans, networks: C86)."
  },
  {
   "property": "C95",
   "status": "proved",
   "theorems": [
    "C95_transcodes",
    "C95_passes",
    "C95_chunking",
    "C95_nothing_refuted"
   ],
   "note": "Proved for every input, cut, monotone decoder and encoder; libsndfile itself is a parameter (a decoder whose output only grows with its input, an encoder of pieces)."
  },
  {
   "property": "C96",
   "status": "partial",
   "theorems": [
    "C96_same_rate",
    "C96_runs",
    "C96_lengths",
    "C96_ratio",
    "C96_silence_long",
    "C96_one_frame_refuted",
    "C96_cut_refuted",
    "C96_samples_same",
    "C96_samples"
   ],
   "note": "Proved for every converter; refuted: single-frame outputs and independence of the cut. libsamplerate is a parameter; float32 conversion of the samples not modelled."
  },
  {
   "property": "C97",
   "status": "partial",
   "theorems": [
    "C97_kept",
    "C97_url",
    "C97_request",
    "C97_range_refuted",
    "C97_local",
    "C97_file",
    "C97_text",
    "C97_other",
    "C97_stored",
    "C97_url_stored",
    "C97_same_fields",
    "C97_extra_refuted"
   ],
   "note": "Proved for every source; refuted: case of the range header, extra attributes in equality. urlparse, os.path.exists and SoundFile are parameters; file objects other than BytesIO/ZipWrapper are the [other] case of the encoder."
  },
  {
   "property": "C98",
   "status": "partial",
   "theorems": [
    "C98_disk",
    "C98_memory",
    "C98_memory_grows",
    "C98_answers",
    "C98_never_stuck",
    "C98_undisturbed",
    "C98_locked_memory",
    "C98_locked_answers",
    "C98_wrong_query_refuted",
    "C98_wrong_code_refuted",
    "C98_uncommitted_refuted",
    "C98_lost_entry_refuted"
   ],
   "note": "proved for every schedule: disk, memory, answers, progress, and the full claim under a lock the code lacks (C98_locked_*); the claim itself is refuted by the shared code buffer (C98_wrong_query_refuted, C98_wrong_code_refuted), by ids in memory before their commit (C98_uncommitted_refuted) and by two threads adding rows at once (C98_lost_entry_refuted). Each step is one access to shared state; the growth of the array is not a step."
  },
  {
   "property": "C99",
   "status": "partial",
   "theorems": [
    "C99_samples",
    "C99_no_bytes",
    "C99_windows",
    "C99_stft",
    "C99_audio_cut",
    "C99_adaptive",
    "C99_adaptive_nothing",
    "C99_adaptive_refused",
    "C99_adaptive_bytes",
    "C99_cut_refuted"
   ],
   "note": "Proved from the bytes on for files of the rate of the graph: the resampled samples are the mono signal of the whole file for any division of its bytes and any monotone decoder; windowed, stft (any padding), all features of audio_graph for two divisions, and frequency_adaptive with its stored form and its resynthesis (bin k scaled by the sum of Hanning windows). libsndfile and libsamplerate are parameters; how ByteStream cuts is universally quantified. Missing because false: independence of the division for a file of another rate (C99_cut_refuted: one sample at a time, all samples vanish)."
  },
  {
   "property": "C100",
   "status": "partial",
   "theorems": [
    "C100_name",
    "C100_name_bare",
    "C100_json",
    "C100_predownload",
    "C100_metadata",
    "C100_metadata_twice",
    "C100_metadata_request",
    "C100_nsynth",
    "C100_nsynth_unknown",
    "C100_nsynth_no_index",
    "C100_nsynth_unreadable",
    "C100_nsynth_json_directory",
    "C100_nsynth_content",
    "C100_nsynth_address",
    "C100_musicnet_as_text",
    "C100_musicnet_no_id",
    "C100_musicnet_refuted",
    "C100_phat_refuted",
    "C100_archive",
    "C100_archive_ogg",
    "C100_archive_unreadable",
    "C100_archive_no_format",
    "C100_archive_source_refuted",
    "C100_freesound",
    "C100_freesound_missing"
   ],
   "note": "Proved for NSynth, the Internet Archive (attributes that do not touch source/original and a filter they do not disturb), freesound results and the constructor; refuted: MusicNet (csv opened as binary: never a sound; C100_musicnet_as_text proves what the same code does with a text file), PhatDrumLoops (text pattern on bytes, never a sound), a user attribute named source for the Internet Archive. JSON and csv parsing, urljoin and the network are parameters; JSON that is not an object of objects and attribute names with double underscores are not modelled."
  },
  {
   "property": "C101",
   "status": "partial",
   "theorems": [
    "C101_message",
    "C101_message_numbers",
    "C101_message_opaque",
    "C101_delivered",
    "C101_left",
    "C101_closed",
    "C101_history",
    "C101_client",
    "C101_alone",
    "C101_alone_ends",
    "C101_ended",
    "C101_visit_refuted",
    "C101_open_refuted",
    "C101_close_refuted",
    "C101_lost_refuted",
    "C101_opaque_refuted",
    "C101_frequency_zero",
    "C101_supervised",
    "C101_gan",
    "C101_triplet"
   ],
   "note": "Interleaving semantics of the training thread and the server thread over CPython's dict (size check before every entry, holes, compaction when it grows) and tornado 4.5.3's order of closing; one callback is one step. Positive claims are proved for all schedules, or for all schedules in which browsers come and go between reports; the claim that any browser can be connected and disconnected at any time is refuted. Not modelled: the bytes of the JSON text, the drawing of the graph."
  },
  {
   "property": "C102",
   "status": "partial",
   "theorems": [
    "C102_with",
    "C102_goes_on",
    "C102_answers",
    "C102_sequence",
    "C102_serve",
    "C102_short_block_refuted",
    "C102_nested_refuted",
    "C102_leftover_refuted",
    "C102_same_port_refuted",
    "C102_one_start_lost"
   ],
   "note": "Proved for blocks one after another and for start, over all schedules that leave no block before its server listens; refuted for short blocks, nested blocks and blocks on a taken port. The IOLoop is that of tornado 4.5.3 (pinned in setup.py), reduced to running/stop requests; listen and enter of the loop are atomic steps; an exception ends the main thread's script; an exception raised by the body itself is not modelled."
  },
  {
   "property": "C103",
   "status": "partial",
   "theorems": [
    "C103_less",
    "C103_equal",
    "C103_sum",
    "C103_difference",
    "C103_multiple",
    "C103_wraps_refuted",
    "C103_long_duration_refuted",
    "C103_constructor",
    "C103_constructor_below",
    "C103_constructor_too_long",
    "C103_fraction_refuted",
    "C103_slice",
    "C103_open_slice",
    "C103_python_slice",
    "C103_boundaries",
    "C103_beyond_refuted",
    "C103_tolerance_refuted",
    "C103_long_signal_refuted",
    "C103_samples_per_second",
    "C103_usual_rates",
    "C103_rate_multiple",
    "C103_discrete",
    "C103_multiple_discrete",
    "C103_windowing",
    "C103_slice_end",
    "C103_slice_equal",
    "C103_slice_less",
    "C103_slice_hash",
    "C103_slice_intersection",
    "C103_slice_contains",
    "C103_slice_contains_slice",
    "C103_slice_shift",
    "C103_audio_rate",
    "C103_schemes",
    "C103_dimension",
    "C103_dimension_no_time",
    "C103_no_size"
   ],
   "note": "Machine model: counts wrap modulo 2^64 (the least is not-a-time), units convert to the finer one, quotients are rounded to 53 bits (Float64.v, proved equal to Flocq's rounding), np.round(x, 2) multiplies, rounds and divides. Proved to agree with the exact model of C13-C18 (Time.v) in the stated ranges; refuted beyond them. Infinite and not-a-number quotients are values; subnormal and overflowing doubles cannot occur. numpy before 1.24 is assumed (np.int)."
  },
  {
   "property": "C104",
   "status": "partial",
   "theorems": [
    "C104_interpolates",
    "C104_between",
    "C104_value",
    "C104_each_example",
    "C104_vectors",
    "C104_vectors_zero",
    "C104_vectors_bound",
    "C104_signals",
    "C104_signals_zero",
    "C104_signals_refuted",
    "C104_flat_critic",
    "C104_linear",
    "C104_coupled_refuted",
    "C104_sizes",
    "C104_nothing",
    "C104_example"
   ],
   "note": "Real arithmetic; torch.grad is a parameter that returns partial derivatives where there are some, torch.rand the places. Proved: places, the value for every shape from the partial derivatives, the value, the zero and the bound for vectors, flat and linear critics, sizes. Refuted: one gradient length per example for signals (C104_signals_refuted, for every critic), independence of the examples (C104_coupled_refuted)."
  },
  {
   "property": "C105",
   "status": "partial",
   "theorems": [
    "C105_picture",
    "C105_too_small",
    "C105_unwrap_turns",
    "C105_unwrap_jumps",
    "C105_unwrap_recovers",
    "C105_gradient",
    "C105_gradient_chirp",
    "C105_gradient_shift",
    "C105_unit_scale",
    "C105_brightness",
    "C105_brightness_real",
    "C105_brightness_refuted",
    "C105_hue_advance",
    "C105_hue_steady",
    "C105_hue_alike_refuted",
    "C105_hue_loudness",
    "C105_example",
    "C105_experiment_scale",
    "C105_experiment_scale_refuted",
    "C105_experiment_empty",
    "C105_experiment_example"
   ],
   "note": "Real arithmetic; colour map a parameter; numpy unwrap, gradient and angle by their definitions. Proved: shape, hue as phase advance and in closed form for steady phases, brightness order. Refuted: brightness as magnitude, a hue for bins that turn alike, peak scaling of negative peaks. Frames of one bin or single frames raise (C105_too_small)."
  },
  {
   "property": "C106",
   "status": "partial",
   "theorems": [
    "C106_last_axis",
    "C106_first_axis_refuted",
    "C106_empty_axis",
    "C106_no_such_axis",
    "C106_resample_last_axis",
    "C106_resample_first_axis_refuted",
    "C106_rows_dealt_refuted",
    "C106_not_square_refuted",
    "C106_zeroed_first_axis_refuted",
    "C106_resample_errors",
    "C106_size",
    "C106_size_exact",
    "C106_size_dyadic",
    "C106_size_all",
    "C106_size_none",
    "C106_size_grows",
    "C106_size_within",
    "C106_size_usual",
    "C106_size_refuted",
    "C106_bands",
    "C106_any_order",
    "C106_shared_energy",
    "C106_silent",
    "C106_whole_refuted",
    "C106_energy_refuted",
    "C106_same_size_refuted",
    "C106_too_small_refuted",
    "C106_too_large_refuted",
    "C106_no_samples_refuted",
    "C106_resample_sizes",
    "C106_resample_whole_refuted",
    "C106_resample_energy",
    "C106_resample_zero",
    "C106_resample_silenced",
    "C106_linear",
    "C106_holdout",
    "C106_holdout_none",
    "C106_example",
    "C106_meets"
   ],
   "note": "Factors are doubles given as rationals, products are rounded to 53 bits; transforms are in exact real arithmetic (the code's are in single precision). One signal, or an array of two axes with the axis argument (along the first axis the code transforms along the last one: refuted with the values it gives). zero_slice: both ends given and not negative, or neither. Refuted parts: hundredths, energy, equal sizes, sizes of 0 and above the length."
  },
  {
   "property": "C107",
   "status": "partial",
   "theorems": [
    "C107_decimal",
    "C107_exact",
    "C107_whole_seconds",
    "C107_too_far_refuted",
    "C107_request",
    "C107_open",
    "C107_replay",
    "C107_stated",
    "C107_stated_open",
    "C107_empty_written_refuted",
    "C107_millisecond_refuted",
    "C107_sample_refuted",
    "C107_gap_refuted",
    "C107_wander_refuted",
    "C107_example"
   ],
   "note": "float() of a header's text is taken to be the double nearest to the decimal; formatting of the answer's numbers is not modelled. Proved for decimals of whole picoseconds below 2^50 (1125 s) and answers up to 2^52. Refuted: 1.001 s is one picosecond short, a request for sample 1001 at 16 kHz gets two samples, adjoining requests leave a gap, a stated beginning asked for again wanders, an empty slice is written as the whole, more than 9223372 s is an OverflowError."
  },
  {
   "property": "C108",
   "status": "partial",
   "theorems": [
    "C108_read",
    "C108_read_all_axes",
    "C108_complement",
    "C108_wrong_shape",
    "C108_assign",
    "C108_assign_frequency_refuted",
    "C108_assign_then_read",
    "C108_read_then_assign",
    "C108_replace",
    "C108_list_positions",
    "C108_list_read",
    "C108_list_assign",
    "C108_list_empty_refuted",
    "C108_before_axes",
    "C108_before_axes_times_refuted",
    "C108_before_axes_frequency_refuted",
    "C108_example",
    "C108_columns",
    "C108_columns_assign",
    "C108_columns_length",
    "C108_columns_times_refuted",
    "C108_two_lists_refuted",
    "C108_columns_example"
   ],
   "note": "Arrays over the reals with explicit entries; numpy's mask indexing is modelled by its documented meaning. Masks that are arrays are treated alone and before an Ellipsis, lists of booleans alone and beside integers, slices, None and Ellipsis. Missing: arrays of booleans beside other elements than an Ellipsis, values with more axes than the selection. Refuted: assigning through a mask array on a frequency axis, an empty list of booleans, times of frames selected by a mask before an Ellipsis, the time label beside an integer and a slice, two lists of booleans in one index."
  }
 ]
}