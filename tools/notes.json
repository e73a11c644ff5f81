{
"C01": {
"status": "proved",
"note": "for 2 <= w and 1 <= s <= w, all arrays; errors and default step separately"
},
"C02": {
"status": "partial",
"note": "as stated false: C02_windowed_padded_uses_all_refuted. C02_windowed_padded_exact gives the exact entries and the exact condition under which every sample is used"
},
"C03": {
"status": "partial",
"note": "as stated false at finalisation (refuted by witness) and for step > window; the partial theorem gives the exact windows emitted before finalisation for every chunking with step <= window"
},
"C04": {
"status": "proved",
"note": "any rank, shape, strides; windows and steps >= 1"
},
"C05": {
"status": "proved",
"note": "for logical size <= physical size; the constructor does not check that (separate theorem)"
},
"C06": {
"status": "proved",
"note": "codes shorter than 2^57 words, so that the uint64 accumulator cannot wrap"
},
"C07": {
"status": "proved",
"note": "argpartition and argsort are any functions meeting numpy's documented contracts (hypotheses; a reference implementation meets them); transactions failing at commit are excluded (see C09_commit_failure_refuted)"
},
"C08": {
"status": "proved",
"note": "any thread count >= 1"
},
"C09": {
"status": "proved",
"note": "proved for all histories of own/external appends, put failures, searches, reopenings, with fresh 128-bit ids; false if a transaction fails at commit (refuted by witness)"
},
"C10": {
"status": "partial",
"note": "false for a crash in the middle of a document (refuted) and, in Python 3, for any restart (str key into an lmdb dict, refuted); partial: crash points between documents, or one slice per document, and exactness of the first run"
},
"C11": {
"status": "proved",
"note": "any length, padded case included"
},
"C12": {
"status": "proved",
"note": "argsort is a stable sort or any function meeting numpy's contract"
},
"C13": {
"status": "proved",
"note": "proved for 1..10^6 plus the exact condition for larger rates and a witness (1500000) where it fails"
},
"C14": {
"status": "partial",
"note": "exact for slices on sample boundaries, exact overlap rule up to the round(_,2) in the code; two refutations (overlaps below 1/200 of a sample are dropped, 3 s at 44.1 kHz selects 132301 samples)"
},
"C15": {
"status": "partial",
"note": "equality, hash, containment and duration of intersections proved; start of intersections and the disjointness error are false of the code (refuted)"
},
"C16": {
"status": "proved",
"note": ""
},
"C17": {
"status": "proved",
"note": ""
},
"C18": {
"status": "proved",
"note": ""
},
"C21": {
"status": "proved",
"note": "every well-formed Linear, Geometric (ratio <= 2), Explicit (ordered), Bark, Mel scale; exact characterisation of the selected bands, also with always_even and Hertz slices; float rounding not modelled"
},
"C22": {
"status": "proved",
"note": "proved for n >= 2; a one-band LinearScale raises IndexError (refuted)"
},
"C23": {
"status": "proved",
"note": "over the reals"
},
"C24": {
"status": "proved",
"note": "the method only checks; statement in properties.jsonl corrected accordingly"
},
"C25": {
"status": "proved",
"note": "over the reals; mel on h > -700"
},
"C26": {
"status": "proved",
"note": ""
},
"C27": {
"status": "partial",
"note": "proved for Linear, Geometric, Bark, Mel on the left; ExplicitScale equality is the prefix relation (proved), hence not an equivalence and not symmetric (refuted)"
},
"C28": {
"status": "proved",
"note": "for pairwise different bands; repeated bands collapse (refuted by witness)"
},
"C29": {
"status": "proved",
"note": "column ranges exact; re-slicing a narrowed dimension and integer slices give inconsistent dimensions (refuted)"
},
"C56": {
"status": "partial",
"note": "proved for Linear selections of at least 2 bands and for all Geometric/Explicit selections; false for Bark and Mel for every selection, and for a single Linear band"
},
"C19": {
"status": "partial",
"note": "numpy's own operations enter as contracts on shapes (C83 and C84 treat concrete arrays). Construction, indexing (ints, slices, Ellipsis, None, one list, unit slices), transposition, reductions, squeeze, reshape, concatenation and windowing of a time axis are proved; numpy integers, several lists, windows of one sample, squeezing an empty array and reductions over all named axes are refuted; a list together with ints is C84, boolean masks are C108"
},
"C20": {
"status": "partial",
"note": "proved for every index without a None that is counted (before the unit element, or after it behind an Ellipsis); with such a None the wrong dimension translates (two refutations); integer slices keep their meaning for positive steps, refuted for a negative step ending at 0 on a time axis"
},
"C30": {
"status": "proved",
"note": "for rows of one shape and dtype and slices with positive duration; the span's end and mixed dtypes are refuted (not part of the stated property)"
},
"C31": {
"status": "partial",
"note": "exact for instants and durations up to 2^53 ps (2.5 hours) and within 2^-53 relative beyond; exactness beyond is refuted, as are slices without duration"
},
"C32": {
"status": "proved",
"note": "every nonnegative count below 2^63 and every unit; negative counts and open-ended slices, which cannot be written and read, are shown to fail"
},
"C33": {
"status": "proved",
"note": "every dimension built by its constructor, all six scale classes, exact record equality; real-valued frequencies (repr of a double round-trips)"
},
"C34": {
"status": "proved",
"note": "under the contracts that json.loads inverts json.dumps on this description and that NumpyMetaData.unpack inverts pack; zero-byte rows, several chunks along a frequency axis, and audio at non-standard rates are refuted"
},
"C35": {
"status": "proved",
"note": "steps are arbitrary functions that may raise; wrapping/rewrapping of units are parameters; forward pass, reverse-order inverse and left inverse for every length"
},
"C36": {
"status": "proved",
"note": "proved over exact reals. 'zero rows are kept as they are' is false of the forward pass (uninitialised memory comes out: C36_unit_norm_zero_refuted), 1-D unit norm does not invert, a feature constant in training is lost in new data, factor 0 cannot be inverted, Reshape of no examples raises with a -1 and takes any other shape; all the rest proved"
},
"C37": {
"status": "proved",
"note": "any arrival order, repeats included"
},
"C38": {
"status": "partial",
"note": "'min(total, nsamples) rows' is false: two rows drawn to one slot leave one (C38_collision_refuted); true when no slot is drawn twice (C38_no_collision). Contents are given exactly for every history and outcome without negative indices given by the caller, for which C38_negative_index_refuted"
},
"C39": {
"status": "partial",
"note": "aligned for every history of equal-length batches; an unequal batch is rejected only after its first channel is stored (C39_unequal_lengths_refuted)"
},
"C40": {
"status": "partial",
"note": "exact for SupervisedTrainer and WassersteinGanTrainer; Trainer and TripletEmbeddingTrainer run epochs + 1 epochs (refuted). Callbacks once per batch, in any history of registrations"
},
"C55": {
"status": "proved",
"note": "proved for positive chunk sizes and at least one row; with no rows the chunked form raises (C55_empty_refuted)"
},
"C57": {
"status": "partial",
"note": "number and origin of rows proved for all draws; the per-row fairness is refuted: only a prefix of each chunk can be kept, whichever rows the accepted draws were for"
},
"C58": {
"status": "proved",
"note": "over exact reals"
},
"C41": {
"status": "proved",
"note": "For every chunking and every detection that returns increasing indices of the chunk (proved of np.where, hence of MovingAveragePeakPicker on frames of at least 4 columns). Frames with fewer columns are an IndexError (refuted); a subclass returning unordered indices breaks the tiling (refuted)."
},
"C42": {
"status": "proved",
"note": "Every interleaving, any number of needs >= 2. Rows must have at least one element: with zero-width rows arrivals are overwritten (refuted)."
},
"C43": {
"status": "proved",
"note": "Refinement to a FIFO queue for read/readinto/write. Also: bound on retained bytes; random access by seek is right as long as nothing was trimmed and wrong afterwards (refuted)."
},
"C44": {
"status": "proved",
"note": "All integers, including negative octaves. Flats are rejected."
},
"C53": {
"status": "proved",
"note": "What is handed to libsndfile; the encoding itself is outside the model."
},
"C54": {
"status": "partial",
"note": "mono(stereo(x)) is x/2, not x; stereo of >2 channels (or of one 2-D channel) swaps samples and channels; silence_like is all ones; one-sample silence is an error or loses its time axis; pad_with_silence fails on stereo. Each is a _refuted theorem."
},
"C59": {
"status": "proved",
"note": "Proved for MeasureOfTransience; Flux always raises because its result has fewer axes than dimensions (C59_flux_refuted)."
},
"C60": {
"status": "proved",
"note": "Indexing the series by a slice and the pooling operation are parameters; when either raises for some slice so does Pooled."
},
"C61": {
"status": "partial",
"note": "AudioStream proved for every decoder whose output grows with the bytes. iter_chunks is proved while the accumulated rounding of the sample period stays below one sample (always, for rates dividing 10^12); at 44.1 kHz sample 23593500 is skipped (refuted)."
},
"C62": {
"status": "proved",
"note": "Resampled length depends on the chunking (refuted example) but is within half a sample per chunk, exact for integer ratios."
},
"C45": {
"status": "partial",
"note": "Proved: bytes=a- gives everything from a with 206; bytes=a-b gives bytes a..b-1 (_partial); no header gives everything with 200; seconds=a-b gives a time slice within 2 ps. Refuted, with theorems: the last byte of a closed range is always missing, bytes=0-0 and reversed ranges return everything, suffix ranges are ignored, ranges beyond the end are an empty 206 (416 is never sent), several ranges and malformed headers, array and onset features without a time range are a 500. int() is modelled without blanks and underscores; the vorbis and image serializers are not modelled."
},
"C46": {
"status": "proved",
"note": "Proved for every history of requests and every route table: a handler runs only for a request with a cookie obtained by an earlier login with the secret, unless its pattern contains 'login' or the method is PATCH; for all the project's own applications the exceptions do not arise. Signatures of cookies are taken to be unforgeable, their expiry is not modelled. Refuted in general: PATCH, patterns containing 'login', an empty secret, a secret with surrounding blanks (nobody can log in), coroutine handlers (never run)."
},
"C63": {
"status": "proved",
"note": "Proved for every id and every feature name made of unreserved characters (feature names are Python identifiers; non-ASCII ones are left out). Refuted: a document called temp in the REPL application; the training monitors' default base_path '/zounds' leads nowhere."
},
"C64": {
"status": "proved",
"note": "Exact characterisation for single expressions; for programs of several statements the last accepted expression before the first other one (C64_program), which can be a feature although the value is something else (refutation)."
},
"C65": {
"status": "partial",
"note": "Proved: the newest values, in order, at most n+1 of them. Refuted: n+1 values are kept, and n = 0 keeps everything."
},
"C47": {
"status": "proved",
"note": "Exact real arithmetic. mu > 0 for the mu-law; inverse holds on all reals, range and surjectivity on [-1,1]."
},
"C48": {
"status": "partial",
"note": "Overlap-add is proved for every number of frames, hop and window (length, and every sample the sum of the windowed frame samples on it). Reconstruction through the FFT (even windows) and through the DCT is proved up to a constant gain g with 1 < g <= 1 + 128/n^4: the code divides the vorbis window by its maximum, which is below 1 for even n, so the Princen-Bradley sum is not exactly 1 (the exact claim is false). The documented default DCTSynthesizer (identity window) modulates the amplitude (refuted for every window of 6 samples or more). Odd window sizes lose a sample through irfft (C49_rfft_length). Exact reals; MDCT is C66."
},
"C49": {
"status": "partial",
"note": "The DCT node and rfft/irfft (even sizes) are proved inverse. The learn package's idct(dct(x)) doubles the first sample (C49_learn_dct_partial states exactly what comes back; refuted whenever that sample is not 0). DCTIV drops the imaginary part before the FFT and is not an involution (refuted)."
},
"C66": {
"status": "partial",
"note": "mdct and imdct are proved equal to the textbook formula, the alias formula is exact, and the overlap-add chain gives g*x with 1 < g <= 1 + 128/n^4 (same normalisation of the window as in C48)."
},
"C67": {
"status": "partial",
"note": "Flatness proved. The centroid is refuted: it divides by the sum of the bin numbers, so it scales with loudness and can lie beyond the last bin."
},
"C68": {
"status": "proved",
"note": "instance_scale (epsilon > 0) and the sine bound are proved; unit_scale is proved for non-constant arrays and refuted for constant ones, where it is nan (0/0; the where= argument compares the builtin max with 0)."
},
"C69": {
"status": "partial",
"note": "With one window function the cache is always right; with two it returns the first one's window (refuted). The result has a legal shape exactly when the number of windows equals the window size."
},
"C50": {
"status": "partial",
"note": "Proved for the multi-threaded and multi-process modes, for every interleaving of the workers: every item is attempted exactly once, failures do not stop the others, existing documents are skipped exactly when they existed (no duplicate urls in the dataset); with a dataset whose iterator raises, exactly the items before the failure are attempted; with processes, exactly the items that can be pickled. Missing, because false of the code: the default single-threaded mode does nothing (lazy map), duplicate urls can both be processed, an item without a url raises out of the worker and is silently lost, as are everything behind an exception of the dataset (ingest returns as if it had ended) and items that cannot be pickled. Exceptions that are no Exception (KeyboardInterrupt) are not modelled."
},
"C51": {
"status": "partial",
"note": "Composite and directory datasets proved. FreeSoundSearch yields n+1 results, wraps around to repeat results when there are fewer, and never ends (modelled as never yielding) when there are none; an Internet Archive derivative whose original is missing ends the iteration. What the items contain, and the other datasets, are C100."
},
"C52": {
"status": "partial",
"note": "An uninterrupted successful download is complete; at every crash point the file is a prefix of the resource. The claim is false: whatever the first call left is returned for ever (killed, refused, without Content-Length); names collide; DataSetCache always raises TypeError."
},
"C70": {
"status": "proved",
"note": "The characterisation is proved for every pair of well formed scales (for always_even scales in terms of the slice expression, which may hold one extra bin). Refuted: the default window None of apply_scale is a TypeError; apply_scale uses the absolute value of the real part, so purely imaginary spectra come out silent; a linear scale applied to itself returns sums of neighbours (identity window) or zeros (hanning), because a band also touches its lower neighbour."
},
"C71": {
"status": "partial",
"note": "The full entry formula is proved. Refuted: classes are shifted: a bin between pitches m-1 and m is credited to classes m-2 and m-1 (zip pairs every band with the semitone below its centre)."
},
"C72": {
"status": "proved",
"note": "Curve, multiplication, division, flat weighting and refusals are proved for frequency dimensions; for slices the constant is characterised exactly. Refuted: a band cut out of a FrequencyAdaptive keeps its old column offsets and gets weight 0."
},
"C73": {
"status": "partial",
"note": "Characterised exactly: the peak is looked for one column before the centre, the threshold is tested at the centre. Refuted: a frame whose centre is a peak is never reported, nor is an isolated spike anywhere."
},
"C74": {
"status": "proved",
"note": "Bands, their contents, disjointness, exact reconstruction, complementary selections and refusals are proved for rows of real numbers and sizes that are natural numbers; scipy.signal.resample is modelled by its algorithm (FFT, truncation or zero padding with the Nyquist correction, inverse FFT) in exact arithmetic. Refuted: an empty selection of bands selects every band; without a size as large as the number of samples something can be lost."
},
"C75": {
"status": "partial",
"note": "Frames, level, and the overlap-added form for every overlap and every number of samples per frame (C75_exact: frame t starts at row t * floor(n(d-f)/d), or the last frame does not fit and it is a ValueError, with the exact condition; always fits with at least half overlap) are proved for real bands whose frequency bands differ, with the numbers of the machine as well (square64, proved equal without overlap and half-lapped; otherwise the hop can be one row less than the exact one, refuted by 7 of 22 samples). Refuted: the hop used is n(duration - frequency)/duration, so with more than half overlap the frames are laid out too far apart, with less than half the last frame does not fit, and half-lapped frames of an odd number of samples are laid out half a row too early each, with zero rows left at the end."
},
"C76": {
"status": "proved",
"note": "Proved for one dimension and for the last axis of two, for scales without always_even when a band is given; the delay is exact on a complete spectrum. Refuted: the phase is divided by the number of coefficients, so on the half spectrum of zounds.spectral.fft the delay is n/(n/2+1) times too long (a delay by n/2+1 samples does nothing); along the first axis the factors are laid along the last one, or the shapes do not fit."
},
"C77": {
"status": "partial",
"note": "Exact real arithmetic, positive factors. Refuted: a factor of 1 multiplies samples by a gain above 1.07 (no normalisation by the squared windows), the first sample is always 0, with the default frames at 48000 Hz frames are read 558 and added 557 samples apart, and any shift that is not by whole windows (e.g. one semitone) shortens all sufficiently long signals. That the pitch of a tone is unchanged is proved for tones that repeat with the hop (C77_tone, C77_sinusoid: the output is the same tone in the same phase times a gain that depends on the position only), as far as the input frames last; other tones are not exactly invariant, since a frame is not a whole number of their periods."
},
"C78": {
"status": "proved",
"note": "Exact real arithmetic. Refuted: zero-padding of 1-D and 3-D arrays and axis=0 fail, at 11025 Hz the last coefficient lies above its band, stft without a window function fails, and the batch form has fewer frames than the one-signal form (it is a prefix of it)."
},
"C79": {
"status": "proved",
"note": "Exact real arithmetic; transforms idct/dct and irfft/rfft. Refuted variants show where reconstruction fails."
},
"C80": {
"status": "partial",
"note": "Sizes are modelled bit by bit in double precision (Float64.v, proved equal to Flocq rounding without exponent bounds); sample values over the reals. Partial because the property as users expect it (exactly floor(rate*duration) samples) fails: within one sample is what is proved, exact for dyadic durations. Random numbers are an arbitrary sequence in [-1,1)."
},
"C81": {
"status": "partial",
"note": "Over the reals; tensors as flat lists with their sizes; torch primitives (conv1d, log_softmax, NLLLoss2d, cosine_similarity, view) by their documented meaning. Partial: the claim as users expect it fails for raw samples (C81_raw_samples_refuted), the embedding (always raises) and the penalty of signals. Gradients are an argument (autograd is not modelled); the bands of BandLoss are an argument; not-a-number is None."
},
"C82": {
"status": "partial",
"note": "Over the reals, one item of a batch at a time where the code is itemwise. Partial because of the refuted cases listed in the statement; float32 rounding is not modelled, so the 0/0 in the middle of odd sinc filters is a statement about exact arithmetic. Convolution layers themselves, dropout and batch norm are torch's."
},
"C83": {
"status": "partial",
"note": "Arrays over the reals with explicit entries (row-major); numpy's broadcasting, sum, dot, packbits and concatenate (any number of arrays, any axis) are modelled on these. Proved for every shape and dimension; refuted where the code loses or falsifies units. dot is modelled for arrays of any number of axes. Missing: dtypes and rounding."
},
"C84": {
"status": "partial",
"note": "numpy's indexing with ints, slices, None, Ellipsis and lists is modelled on concrete arrays; reading and writing share the selection, and the audio theorems pin the selected samples. One list with ints only next to it is proved to read and assign what a slice of those positions does; a slice between an int and a list is refuted (the time label goes to the wrong axis, assigned values are transposed), reading through two lists is refuted, assigning through two lists is proved. Boolean masks are C108. Missing: three or more lists, lists of more axes."
},
"C85": {
"status": "proved",
"note": "Histories of additions by this index and others mixed with searches, transactions committing (failed ones are C09/C10), time slices with non-negative 64-bit counts, extra data without floats. numpy's argpartition and argsort enter through their documented contracts, shown satisfiable."
},
"C86": {
"status": "partial",
"note": "Proved: gathering, Op calls and versions, storage and restoration, agreement of Op and passed-on data for networks that treat examples independently, dimensions, scikit-learn shapes, graphs. Refuted parts carry the suffix _refuted. Networks, marshalled code and md5 are parameters (md5: no collision on the compared inputs)."
},
"C87": {
"status": "partial",
"note": "Proved: contributions (nsamples up to 2^50), contents and provenance of every yield, all thread schedules once the array exists or when one thread allocates first. Refuted: parallel first round; whole shares. A row assignment and a set update are taken as single steps of a thread."
},
"C88": {
"status": "partial",
"note": "Proved for all networks, losses and optimizers satisfying vadd (vzero h) g = g: the adversarial and supervised trainers are the reference loops, across any number of calls; triplet training per call. Refuted parts carry the suffix _refuted."
},
"C89": {
"status": "partial",
"note": "Exact reals; torch's conv1d, conv_transpose1d, avg_pool1d and scipy's morlet by their formulas; firwin2 itself is not modelled (only its arguments and its checks on them). Partial because of the refuted clauses."
},
"C90": {
"status": "partial",
"note": "The parts 'a statement is run once' and 'an expression with a value is answered with it' are false of the code and refuted (run-time SyntaxError, leading blank, non-image 3-d array); everything else is proved for arbitrary user code. str(value) is taken to be total; output of other threads captured meanwhile is not modelled."
},
"C91": {
"status": "partial",
"note": "'Search results are served' is false of the code (bytes are not JSON serializable) and refuted for every query and every list of hits. Proved: samples, arrays, stored features, onsets, what the index is asked. The ogg and png encodings themselves are not modelled."
},
"C92": {
"status": "partial",
"note": "'Same features whatever the chunk size' is false of the code in one row at the end (C92_number_of_rows_refuted), for Max with its default axis, and 'the DCT works on every window' is false at 16 kHz (all refuted). Proved: every feature of audio_graph row by row in closed form, agreement of all common rows, exact condition for the same number of rows, stft graphs, row-wise nodes. The decoding and resampling before the windows, and the store, are not part of this model (C34, C56)."
},
"C93": {
"status": "partial",
"note": "'The slices cover the whole sound whatever the chunks' is refuted for every sound with enough frames (C93_end_refuted); 'Stride(1, n) is n frames' is refuted for overlapping windows (C93_stride_refuted gives the exact number); with_onsets always raises. Proved: detection values, exact onsets, tiling, agreement of chunkings up to the last row. Values are reals; the aggregate (np.mean, np.median) is any function of a row."
},
"C94": {
"status": "partial",
"note": "Proved for matrices of reals where no division is skipped (C94_training_agrees, C94_batches) and for nodes that do not hide failures (C94_strict_training); refuted otherwise (C94_skipped_refuted, C94_hidden_failure_refuted, C94_dataset_statistics_refuted). Reshape (example by example, batches, chains of Reshapes) is treated in C36_reshape_*. Not modelled here: arrays with more than two axes, packed SimHash, learned models (KMeans, networks: C86)."
},
"C95": {
"status": "proved",
"note": "Proved for every input, cut, monotone decoder and encoder; libsndfile itself is a parameter (a decoder whose output only grows with its input, an encoder of pieces)."
},
"C96": {
"status": "partial",
"note": "Proved for every converter; refuted: single-frame outputs and independence of the cut. libsamplerate is a parameter; float32 conversion of the samples not modelled."
},
"C97": {
"status": "partial",
"note": "Proved for every source; refuted: case of the range header, extra attributes in equality. urlparse, os.path.exists and SoundFile are parameters; file objects other than BytesIO/ZipWrapper are the [other] case of the encoder."
},
"C98": {
"status": "partial",
"note": "proved for every schedule: disk, memory, answers, progress, and the full claim under a lock the code lacks (C98_locked_*); the claim itself is refuted by the shared code buffer (C98_wrong_query_refuted, C98_wrong_code_refuted), by ids in memory before their commit (C98_uncommitted_refuted) and by two threads adding rows at once (C98_lost_entry_refuted). Each step is one access to shared state; the growth of the array is not a step."
},
"C99": {
"status": "partial",
"note": "Proved from the bytes on for files of the rate of the graph: the resampled samples are the mono signal of the whole file for any division of its bytes and any monotone decoder; windowed, stft (any padding), all features of audio_graph for two divisions, and frequency_adaptive with its stored form and its resynthesis (bin k scaled by the sum of Hanning windows). libsndfile and libsamplerate are parameters; how ByteStream cuts is universally quantified. Missing because false: independence of the division for a file of another rate (C99_cut_refuted: one sample at a time, all samples vanish)."
},
"C100": {
"status": "partial",
"note": "Proved for NSynth, the Internet Archive (attributes that do not touch source/original and a filter they do not disturb), freesound results and the constructor; refuted: MusicNet (csv opened as binary: never a sound; C100_musicnet_as_text proves what the same code does with a text file), PhatDrumLoops (text pattern on bytes, never a sound), a user attribute named source for the Internet Archive. JSON and csv parsing, urljoin and the network are parameters; JSON that is not an object of objects and attribute names with double underscores are not modelled."
},
"C101": {
"status": "partial",
"note": "Interleaving semantics of the training thread and the server thread over CPython's dict (size check before every entry, holes, compaction when it grows) and tornado 4.5.3's order of closing; one callback is one step. Positive claims are proved for all schedules, or for all schedules in which browsers come and go between reports; the claim that any browser can be connected and disconnected at any time is refuted. Not modelled: the bytes of the JSON text, the drawing of the graph."
},
"C102": {
"status": "partial",
"note": "Proved for blocks one after another and for start, over all schedules that leave no block before its server listens; refuted for short blocks, nested blocks and blocks on a taken port. The IOLoop is that of tornado 4.5.3 (pinned in setup.py), reduced to running/stop requests; listen and enter of the loop are atomic steps; an exception ends the main thread's script; an exception raised by the body itself is not modelled."
},
"C103": {
"status": "partial",
"note": "Machine model: counts wrap modulo 2^64 (the least is not-a-time), units convert to the finer one, quotients are rounded to 53 bits (Float64.v, proved equal to Flocq's rounding), np.round(x, 2) multiplies, rounds and divides. Proved to agree with the exact model of C13-C18 (Time.v) in the stated ranges; refuted beyond them. Infinite and not-a-number quotients are values; subnormal and overflowing doubles cannot occur. numpy before 1.24 is assumed (np.int)."
},
"C104": {
"status": "partial",
"note": "Real arithmetic; torch.grad is a parameter that returns partial derivatives where there are some, torch.rand the places. Proved: places, the value for every shape from the partial derivatives, the value, the zero and the bound for vectors, flat and linear critics, sizes. Refuted: one gradient length per example for signals (C104_signals_refuted, for every critic), independence of the examples (C104_coupled_refuted)."
},
"C105": {
"status": "partial",
"note": "Real arithmetic; colour map a parameter; numpy unwrap, gradient and angle by their definitions. Proved: shape, hue as phase advance and in closed form for steady phases, brightness order. Refuted: brightness as magnitude, a hue for bins that turn alike, peak scaling of negative peaks. Frames of one bin or single frames raise (C105_too_small)."
},
"C106": {
"status": "partial",
"note": "Factors are doubles given as rationals, products are rounded to 53 bits; transforms are in exact real arithmetic (the code's are in single precision). One signal, or an array of two axes with the axis argument (along the first axis the code transforms along the last one: refuted with the values it gives). zero_slice: both ends given and not negative, or neither. Refuted parts: hundredths, energy, equal sizes, sizes of 0 and above the length."
},
"C107": {
"status": "partial",
"note": "float() of a header's text is taken to be the double nearest to the decimal; formatting of the answer's numbers is not modelled. Proved for decimals of whole picoseconds below 2^50 (1125 s) and answers up to 2^52. Refuted: 1.001 s is one picosecond short, a request for sample 1001 at 16 kHz gets two samples, adjoining requests leave a gap, a stated beginning asked for again wanders, an empty slice is written as the whole, more than 9223372 s is an OverflowError."
},
"C108": {
"status": "partial",
"note": "Arrays over the reals with explicit entries; numpy's mask indexing is modelled by its documented meaning. Masks that are arrays are treated alone and before an Ellipsis, lists of booleans alone and beside integers, slices, None and Ellipsis. Missing: arrays of booleans beside other elements than an Ellipsis, values with more axes than the selection. Refuted: assigning through a mask array on a frequency axis, an empty list of booleans, times of frames selected by a mask before an Ellipsis, the time label beside an integer and a slice, two lists of booleans in one index."
}
}