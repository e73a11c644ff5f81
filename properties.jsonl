{"id": "C01", "title": "windowed() without padding partitions the signal without loss", "statement": "For windowsize >= 2, 1 <= stepsize <= windowsize, windowed(a, w, s) returns rows where row i is exactly a[i*s : i*s+w] (no element outside a is ever read), the number of rows is 0 when len(a) <= w and 1+(len(a)-w)//s otherwise, and the leftover is exactly a[n_rows*s:], so that every sample of a is in some row or in the leftover. windowsize or stepsize below one raises ValueError.", "quantifier": "every array (any element type and length), every window and step size", "why_tests_cant": "the row/leftover arithmetic has several boundary branches (l<=w, end%s, w=s); tests sample a handful of (l,w,s) triples out of infinitely many", "anchors": ["zounds/nputil/npx.py:windowed", "zounds/nputil/npx.py:_wcut"]}
{"id": "C02", "title": "windowed(dopad=True) uses all samples", "statement": "windowed(a, w, s, dopad=True) leaves no leftover, and the rows cover every sample of a, followed only by zeros, as its docstring promises.", "quantifier": "every array, window size and step size with w >= 2 and s <= w", "why_tests_cant": "whether the last partial window is dropped depends on an arithmetic relation between l, w and s, which fails for infinitely many triples and holds for infinitely many others", "anchors": ["zounds/nputil/npx.py:windowed", "zounds/nputil/npx.py:_wpad", "zounds/nputil/npx.py:pad"]}
{"id": "C03", "title": "The SlidingWindow node is independent of chunking", "statement": "However an audio stream is cut into chunks, the windows emitted by the SlidingWindow node over the life of the stream, concatenated, are the windows it would emit if the whole stream had arrived in one chunk; before finalisation they are exactly the non-padded windows of the data received so far.", "quantifier": "every stream, every partition of it into chunks (empty chunks included), every window and step with 1 <= step <= window, window >= 2", "why_tests_cant": "the number of ways to chunk a stream is exponential; a leftover bug shows only for particular alignments of chunk borders with windows", "anchors": ["zounds/spectral/sliding_window.py:SlidingWindow", "zounds/core/axis.py:sliding_window_with_leftovers", "zounds/nputil/npx.py:windowed"]}
{"id": "C04", "title": "n-dimensional sliding_window returns exactly the strided windows", "statement": "sliding_window(a, ws, ss) raises ValueError when the lengths of shape, ws and ss differ or some window is larger than the array; otherwise along each axis there are (shape-ws)//ss+1 windows, entry [i..., j...] is a[i*ss+j], no address outside a is read, and flatten=True keeps every window in row-major order.", "quantifier": "every array rank, shape, window and step (steps >= 1)", "why_tests_cant": "as_strided performs no bounds check, so an out-of-range read is silent; shapes and ranks are unbounded", "anchors": ["zounds/nputil/npx.py:sliding_window"]}
{"id": "C05", "title": "Growable behaves as a list", "statement": "Starting from an array whose logical size does not exceed its physical size, after any sequence of append and extend calls logical_data is the initial logical data followed by all appended items in order, logical_size counts them, physical_size >= logical_size, and no call fails; growth_rate <= 0 is rejected.", "quantifier": "every initial array, growth rate, and every sequence of append/extend calls with any items", "why_tests_cant": "reallocation happens only for particular sizes and rates; histories are unbounded", "anchors": ["zounds/nputil/npx.py:Growable"]}
{"id": "C06", "title": "Packed hamming distance counts differing bits and is a metric", "statement": "packed_hamming_distance(a, b)[i] is the number of bit positions at which a and b[i] differ; it is zero iff they are equal, symmetric, and satisfies the triangle inequality.", "quantifier": "every code length and every codes", "why_tests_cant": "the space of codes is exponential in the code size", "anchors": ["zounds/nputil/npx.py:packed_hamming_distance", "zounds/nputil/npx.py:hamming_distance"]}
{"id": "C07", "title": "HammingDb.search returns nearest neighbours", "statement": "When n_results is smaller than the number of stored codes, search(code, n_results) yields exactly n_results payloads, each stored in the db, such that no stored entry left out is strictly nearer to code than one returned; with sort=True they come in order of non-decreasing distance. A search with n_results >= number of codes fails with an error rather than returning fewer.", "quantifier": "every database content, query code, n_results, and every result of argpartition permitted by numpy's contract", "why_tests_cant": "argpartition's tie-breaking is unspecified, databases unbounded", "anchors": ["zounds/index/hammingdb.py:HammingDb.search"]}
{"id": "C08", "title": "Multi-threaded search equals single-threaded search", "statement": "Splitting the codes into chunks of max(1, n // n_threads) and concatenating the per-chunk scores gives the same score vector as scoring all the codes at once.", "quantifier": "every number of codes and threads >= 1", "why_tests_cant": "the chunk arithmetic depends on n mod threads; test databases have one size", "anchors": ["zounds/index/hammingdb.py:HammingDb.search"]}
{"id": "C09", "title": "HammingDb in-memory view follows the database", "statement": "After any interleaving of appends by this process, appends by other processes, failed writes, reopenings and searches by this process in which every transaction that was written also commits, every search scores exactly the set of entries in the database at that moment, each once; the payload yielded for an id is the payload appended with it; code_size is fixed at creation and a differing code_size, a missing one, or one not a multiple of 8 is rejected; codes of a wrong size are rejected without changing anything. (A transaction that fails at commit leaves a phantom entry: the exception is a theorem.)", "quantifier": "every history of appends, external appends, reopenings and searches", "why_tests_cant": "interleavings with other writers are unbounded and cannot be enumerated by unit tests", "anchors": ["zounds/index/hammingdb.py:HammingDb.__init__", "zounds/index/hammingdb.py:HammingDb._check_for_external_modifications", "zounds/index/hammingdb.py:HammingDb.append", "zounds/index/hammingdb.py:HammingDb.search"]}
{"id": "C10", "title": "A HammingIndex restarted after a crash has every document's slices", "statement": "If the process listening for feature events crashes at any point and is restarted, then after it has caught up every slice of every document of the indexed feature/version is in the index.", "quantifier": "every event log and every crash point", "why_tests_cant": "the window between a document's first slice append and the last cannot be hit deterministically by a test", "anchors": ["zounds/index/index.py:HammingIndex.add", "zounds/index/index.py:HammingIndex._listen"]}
{"id": "C11", "title": "Hamming index query encoding is invertible", "statement": "decode_query(encode_query(x)) gives back x for every binary vector whose length is a multiple of 8; for other lengths the decoded vector is x followed by zero bits.", "quantifier": "every boolean vector", "why_tests_cant": "exponentially many codes", "anchors": ["zounds/index/index.py:HammingIndex.encode_query", "zounds/index/index.py:HammingIndex.decode_query"]}
{"id": "C12", "title": "Brute force search returns the nearest slices with the right ids", "statement": "BruteForceSearch.search(q, n) returns the n first rows of a sort by distance; every returned (id, time slice) is the identity of the row whose distance it was ranked by, and no omitted row is strictly nearer.", "quantifier": "every collection of documents with any numbers of rows, any distance function, any n", "why_tests_cant": "alignment between concatenated rows and ids is a property over all collections", "anchors": ["zounds/index/brute_force.py:BruteForceSearch"]}
{"id": "C13", "title": "Audio sample rates survive the picosecond representation", "statement": "An AudioSampleRate built from n samples per second reports n samples per second although its period is stored in whole picoseconds.", "quantifier": "every integer rate 1 <= n <= 1000000 (and exactly which larger ones)", "why_tests_cant": "integer truncation of 10^12/n twice; only the six shipped rates can be tested", "anchors": ["zounds/timeseries/samplerate.py:AudioSampleRate", "zounds/timeseries/samplerate.py:SampleRate.samples_per_second"]}
{"id": "C14", "title": "Time slices select exactly the samples that overlap them", "statement": "For a TimeDimension with frequency f and duration d, integer_based_slice(TimeSlice) gives an index range whose start is the first sample whose extent [i*f, i*f+d) ends after the slice begins (clamped at 0) and that, for slices with boundaries on sample positions, stops exactly at the sample that begins at the end of the slice; consecutive slices on sample boundaries of a non-overlapping dimension partition the samples.", "quantifier": "every frequency, duration and slice", "why_tests_cant": "floor/ceil/round of ratios; infinitely many ratios", "anchors": ["zounds/timeseries/timeseries.py:TimeDimension.integer_based_slice"]}
{"id": "C15", "title": "TimeSlice forms a consistent interval type", "statement": "TimeSlice equality is equality of start and duration and implies equal hashes; intersection with & has the duration of the set intersection of the intervals, is commutative, is the set intersection including its start, and is an error when the slices are disjoint; instants strictly inside are contained and instants outside are not.", "quantifier": "every pair of slices, including unbounded ones", "why_tests_cant": "interval arithmetic over unbounded integers with several orderings of end points", "anchors": ["zounds/timeseries/timeseries.py:TimeSlice"]}
{"id": "C16", "title": "TimeSlice.slices tiles the timeline", "statement": "TimeSlice.slices(times) yields n-1 slices for n sorted times, the first starting at the smallest, each next starting where the previous ends, durations non-negative and summing to the total span.", "quantifier": "every list of time points in any order", "why_tests_cant": "unbounded lists", "anchors": ["zounds/timeseries/timeseries.py:TimeSlice.slices"]}
{"id": "C17", "title": "Windowing a time dimension composes", "statement": "Windowing a TimeDimension by (window, step) gives a dimension whose element i covers exactly the time covered by elements i*step .. i*step+window-1 of the original; windowing twice agrees with covering the union; the new dimension's span equals the time covered by the samples used.", "quantifier": "every frequency, duration >= frequency, window, step, index and nesting of windowings", "why_tests_cant": "identity over unbounded integers and arbitrary nesting", "anchors": ["zounds/timeseries/timeseries.py:TimeDimension.modified_dimension", "zounds/timeseries/timeseries.py:TimeDimension.span"]}
{"id": "C18", "title": "SampleRate multiplication and discretisation are inverse", "statement": "For a sample rate sr and integers step, window >= 1, (sr * (step, window)) discretised against sr gives back (step, window), and overlap and overlap ratio of the product are those of windows of that size and step; frequencies or durations <= 0 are rejected.", "quantifier": "every sample rate (frequency, duration) and every step and window", "why_tests_cant": "rounding of ratios, unbounded integers", "anchors": ["zounds/timeseries/samplerate.py:SampleRate.__mul__", "zounds/timeseries/samplerate.py:SampleRate.discrete_samples"]}
{"id": "C19", "title": "ArrayWithUnits keeps one dimension object per axis with the right size", "statement": "Construction with a number of dimensions different from ndim raises ValueError; after construction, indexing, reductions, transposition, concatenation and windowing, the number of dimensions equals the number of axes and every dimension that tracks a size has the size of its axis.", "quantifier": "every array, and every sequence of operations", "why_tests_cant": "sequences of operations and shapes are unbounded", "anchors": ["zounds/core/axis.py:ArrayWithUnits"]}
{"id": "C20", "title": "Unit-aware indexing means the same as integer indexing", "statement": "Indexing an ArrayWithUnits with a tuple of integers, slices, ellipsis and unit slices gives the data numpy gives for the index in which each unit slice is replaced by its dimension's integer slice, for the axis it addresses.", "quantifier": "every index tuple, including None and Ellipsis, and every rank", "why_tests_cant": "index expressions form an infinite language with positional bookkeeping", "anchors": ["zounds/core/axis.py:ArrayWithUnits._compute_indices", "zounds/core/axis.py:ArrayWithUnits._new_dims", "zounds/core/axis.py:ArrayWithUnits.__getitem__"]}
{"id": "C21", "title": "FrequencyScale slicing selects exactly the overlapping bands", "statement": "Slicing a frequency scale with a FrequencyBand selects a contiguous run of bands containing every band that shares a positive-width overlap with the query, and no band that is disjoint from the closed query interval.", "quantifier": "every scale with ordered starts and stops, every query band", "why_tests_cant": "bisect boundaries; scales and queries unbounded", "anchors": ["zounds/spectral/frequencyscale.py:FrequencyScale.get_slice"]}
{"id": "C22", "title": "LinearScale bands tile the spectrum", "statement": "A LinearScale of n >= 2 bands over a frequency band has n bands of equal width, the first beginning at the start, each starting where the previous one stops, and monotone centre frequencies; n = 1 does not work: listing its bands raises IndexError.", "quantifier": "every band and number of bands", "why_tests_cant": "unbounded n, real arithmetic", "anchors": ["zounds/spectral/frequencyscale.py:LinearScale"]}
{"id": "C23", "title": "GeometricScale has constant Q and spans its limits", "statement": "The centre frequencies of a GeometricScale form a geometric progression from start to stop, and every band's width divided by its centre is the bandwidth ratio.", "quantifier": "every start < stop, ratio, n >= 2", "why_tests_cant": "real arithmetic over unbounded parameters", "anchors": ["zounds/spectral/frequencyscale.py:GeometricScale"]}
{"id": "C24", "title": "ensure_overlap_ratio accepts exactly the sufficiently overlapping scales", "statement": "ensure_overlap_ratio(r) returns normally exactly when every adjacent pair of bands shares at least the fraction r of the width of the first of the two; otherwise it raises AssertionError.", "quantifier": "every scale of the supported classes and every real r", "why_tests_cant": "real arithmetic over unbounded lists", "anchors": ["zounds/spectral/frequencyscale.py:FrequencyScale.ensure_overlap_ratio"]}
{"id": "C25", "title": "Bark and mel conversions are mutually inverse and monotone", "statement": "to_hz(to_bark(f)) = f and to_bark(to_hz(b)) = b (likewise mel), and both directions are strictly increasing.", "quantifier": "every real frequency in the domain", "why_tests_cant": "real analysis; tests sample points", "anchors": ["zounds/spectral/frequencyscale.py:Bark", "zounds/spectral/frequencyscale.py:Mel"]}
{"id": "C26", "title": "FrequencyBand is an interval type", "statement": "Bands with stop <= start are rejected; intersection is commutative, is contained in both bands, and is an error exactly when they share no positive-width interval; from_center builds the band centred there with that width.", "quantifier": "every pair of bands", "why_tests_cant": "unbounded real/integer end points", "anchors": ["zounds/spectral/frequencyscale.py:FrequencyBand"]}
{"id": "C27", "title": "Scale equality distinguishes different scales", "statement": "Two scales that compare equal have the same bands; in particular ExplicitScale equality is an equivalence relation on scales.", "quantifier": "every pair of scales", "why_tests_cant": "universal claim over pairs of unbounded sequences", "anchors": ["zounds/spectral/frequencyscale.py:ExplicitScale.__eq__", "zounds/spectral/frequencyscale.py:FrequencyScale.__eq__"]}
{"id": "C28", "title": "FrequencyAdaptive bands partition the columns", "statement": "The arrays of a FrequencyAdaptive transform are laid out side by side: the column slices of consecutive bands are adjacent, cover every column exactly once, and slicing the concatenation by band b gives back exactly array b.", "quantifier": "every list of per-band arrays with any widths", "why_tests_cant": "unbounded lists of widths", "anchors": ["zounds/spectral/frequencyadaptive.py:FrequencyAdaptive"]}
{"id": "C29", "title": "ExplicitFrequencyDimension maps band ranges to column ranges", "statement": "Slicing an explicit frequency dimension by a band of its scale gives exactly that band's columns; slicing by any other band gives exactly the columns owned by the bands the query touches, or IndexError when it touches none; per-band weights are spread over exactly the band's columns. (What does not hold: slicing the result again by the same band, and integer slices, give dimensions that do not match the data; both are theorems.)", "quantifier": "every scale and slice table", "why_tests_cant": "unbounded tables", "anchors": ["zounds/spectral/tfrepresentation.py:ExplicitFrequencyDimension"]}
{"id": "C30", "title": "VariableRateTimeSeries is ordered and complete", "statement": "Building a VariableRateTimeSeries from (slice, data) pairs keeps exactly the given pairs, ordered by slice start, equal starts in the given order; concat of two series is the series of all their pairs; slicing with a TimeSlice keeps exactly the pairs whose interval overlaps the query, in order.", "quantifier": "every list of pairs and every query", "why_tests_cant": "unbounded lists; ordering ties", "anchors": ["zounds/timeseries/variablerate.py:VariableRateTimeSeries"]}
{"id": "C31", "title": "VariableRateTimeSeries persistence round-trips", "statement": "Decoding an encoded variable rate time series yields the same slices, to the picosecond, and the same data.", "quantifier": "every series", "why_tests_cant": "float64 exactness limit at 2^53 picoseconds (about 2.5 hours) is far beyond test fixtures", "anchors": ["zounds/timeseries/variablerate.py:VariableRateTimeSeriesEncoder", "zounds/timeseries/variablerate.py:VariableRateTimeSeriesDecoder"]}
{"id": "C32", "title": "Durations and time slices survive serialisation", "statement": "decode(encode(t)) = t for every time delta, time slice and time dimension that can be written.", "quantifier": "every 64-bit time delta and unit", "why_tests_cant": "2^64 values times units; sign handling", "anchors": ["zounds/persistence/util.py:encode_timedelta", "zounds/persistence/util.py:decode_timedelta", "zounds/persistence/timeslice.py:TimeSliceEncoder", "zounds/persistence/timedimension.py:TimeDimensionEncoder"]}
{"id": "C33", "title": "Dimensions and scales survive serialisation", "statement": "Decoding an encoded dimension (identity, time, frequency, explicit frequency) yields an equal dimension: the same class of dimension and the same scale class and parameters.", "quantifier": "every dimension and scale of the supported classes", "why_tests_cant": "first-match dispatch over encoders and scale classes; unbounded parameters", "anchors": ["zounds/persistence/dimension.py:DimensionEncoder", "zounds/persistence/frequencydimension.py:ScaleEncoder"]}
{"id": "C34", "title": "Stored arrays round-trip whatever the chunking", "statement": "Encoding a stream of array chunks and decoding the bytes yields an array whose dimensions, dtype and rows are those of the chunks concatenated.", "quantifier": "every dtype and item shape, every sequence of chunks, any payload bytes", "why_tests_cant": "length-prefixed framing over arbitrary bytes and chunkings", "anchors": ["zounds/persistence/arraywithunits.py:ArrayWithUnitsEncoder", "zounds/persistence/arraywithunits.py:ArrayWithUnitsDecoder"]}
{"id": "C35", "title": "Pipeline inverse_transform undoes transform", "statement": "PipelineResult.inverse_transform applies the inverses of the pipeline's steps in reverse order, each with the inversion data its own forward step computed for this very input, so that if every step is left-invertible the pipeline is.", "quantifier": "every pipeline length, every step functions, every input", "why_tests_cant": "pairing of inversion data with steps over arbitrary compositions", "anchors": ["zounds/learn/preprocess.py:Pipeline", "zounds/learn/preprocess.py:PipelineResult"]}
{"id": "C36", "title": "Preprocessors invert their own transform", "statement": "For the invertible preprocessors (unit norm of rows, mean/std, instance scaling, multiply, weighted, reshape, slicer, KMeans codebook) inverse(forward(x)) = x on the domain where no information is lost: rows that are not zero, features that vary in training, factors and weights that are not zero, columns the slicer keeps; on the slicer the part cut away becomes zero. (Outside that domain the loss is shown by theorems.)", "quantifier": "every input array and parameters", "why_tests_cant": "unbounded arrays over reals, division-by-zero boundary", "anchors": ["zounds/learn/preprocess.py:UnitNorm", "zounds/learn/preprocess.py:MeanStdNormalization", "zounds/learn/preprocess.py:InstanceScaling", "zounds/learn/preprocess.py:Slicer"]}
{"id": "C37", "title": "PreprocessingPipeline emits its steps in declared order", "statement": "PreprocessingPipeline emits exactly one pipeline, only when every declared dependency has delivered, with the steps in the order declared whatever the order of arrival.", "quantifier": "every number of steps and arrival order", "why_tests_cant": "factorially many arrival orders", "anchors": ["zounds/learn/preprocess.py:PreprocessingPipeline"]}
{"id": "C38", "title": "Reservoir holds only real samples and the right number", "statement": "After any sequence of add() calls the reservoir's content is drawn only from the rows added, has min(total added, nsamples) rows until full, never exceeds nsamples, and an item is only lost by being overwritten by a newer one; a malformed index list is rejected.", "quantifier": "every sequence of batches and every outcome of the random generator", "why_tests_cant": "random outcomes and histories are unbounded", "anchors": ["zounds/learn/random_samples.py:Reservoir"]}
{"id": "C39", "title": "MultiplexedReservoir keeps its channels aligned", "statement": "After any sequence of adds, row i of every channel of a MultiplexedReservoir comes from the same source example; a batch with different keys or unequal lengths is rejected.", "quantifier": "every history, number of channels and random outcome", "why_tests_cant": "needs correlation between channels over unbounded histories", "anchors": ["zounds/learn/random_samples.py:MultiplexedReservoir"]}
{"id": "C40", "title": "Training runs for the configured number of epochs", "statement": "A SupervisedTrainer/Trainer configured with n epochs invokes the batch step for exactly n epochs, calling the batch-complete callbacks once per batch.", "quantifier": "every number of epochs and batches", "why_tests_cant": "off-by-one across all configured values, training is far too slow to test", "anchors": ["zounds/learn/trainer.py:Trainer.train"]}
{"id": "C41", "title": "Peak picking tiles the whole signal with time slices", "statement": "Whatever the chunking and the detection function, the time slices produced by a peak picker start at zero, are contiguous and in order, do not overlap, and cover the whole signal.", "quantifier": "every chunking and every set of detected peaks", "why_tests_cant": "unbounded streams and arbitrary detections", "anchors": ["zounds/segment/onset.py:BasePeakPicker"]}
{"id": "C42", "title": "Merge aligns its inputs under every arrival order", "statement": "Whatever the order in which dependencies deliver chunks, the rows emitted by Merge are, in total, the first min-length rows of the inputs joined side by side, never pairing rows of different positions.", "quantifier": "every interleaving of chunk arrivals from any number of inputs", "why_tests_cant": "interleavings are exponential", "anchors": ["zounds/basic/basic.py:Merge"]}
{"id": "C43", "title": "MemoryBuffer is a lossless FIFO", "statement": "The bytes read from a MemoryBuffer over any history of writes and reads are, concatenated, a prefix of the bytes written; trimming removes only bytes already read; nothing is lost whatever max_size is.", "quantifier": "every history of writes and reads of any sizes and any max_size", "why_tests_cant": "buffer trimming depends on history of positions", "anchors": ["zounds/soundfile/audiostream.py:MemoryBuffer"]}
{"id": "C44", "title": "MIDI note names and numbers correspond", "statement": "note_to_midi(midi_to_note(n)) = n for every integer; note names parse to the pitch their octave and accidental denote.", "quantifier": "every integer MIDI number and well-formed note string", "why_tests_cant": "unbounded octaves, negative numbers", "anchors": ["zounds/util/midi.py:midi_to_note", "zounds/util/midi.py:note_to_midi"]}
{"id": "C45", "title": "HTTP range requests return the requested bytes", "statement": "A Range header bytes=a-b returns exactly bytes a..b inclusive (RFC 7233) with a matching Content-Range; bytes=a- returns everything from a; bytes=-n the last n; requests beyond the end are 416.", "quantifier": "every resource and every range", "why_tests_cant": "unbounded ranges and resources", "anchors": ["zounds/ui/contentrange.py:RangeRequest", "zounds/ui/contentrange.py:ContentRange", "zounds/ui/serializer.py:DefaultSerializer"]}
{"id": "C46", "title": "When a secret is configured every route but login needs authentication", "statement": "With an application secret that is not empty, no handler runs for a request whose cookie was not obtained by an earlier login with the secret, unless its pattern contains 'login' or the method is PATCH, and none of the project's own applications has such a handler besides the login page; with a valid cookie, or without a secret, all handlers run. (The two exceptions, an empty secret, a secret with blanks around it and coroutine handlers are theorems.)", "quantifier": "every route table and request", "why_tests_cant": "universal over routes and requests", "anchors": ["zounds/ui/baseapp.py:BaseZoundsApp._secure_route"]}
{"id": "C47", "title": "mu-law and log-modulus companding are invertible, one-hot vectors decode to their level", "statement": "inverse_mu_law(mu_law(x)) = x on [-1,1], mu_law maps [-1,1] onto [-1,1] monotonically and inverse_log_modulus(log_modulus(x)) = x for all x; inverse_one_hot of a vector of n numbers whose first largest entry is at i is 2i/n - 1, at least -1 and below 1.", "quantifier": "every real x, every non-empty vector", "why_tests_cant": "real analysis, tests sample points", "anchors": ["zounds/loudness/loudness.py:mu_law", "zounds/loudness/loudness.py:log_modulus", "zounds/loudness/loudness.py:inverse_one_hot"]}
{"id": "C48", "title": "Overlap-add reconstructs windowed signals", "statement": "Overlap-add's output has the length of the span and each output sample is the sum of all the window samples at that position; synthesizing the unmodified short-time FFT or DCT of half-overlapping windows of a signal, windowed before the transform and again at synthesis with the OggVorbis window, gives back the signal away from its ends.", "quantifier": "every signal, window size and number of windows", "why_tests_cant": "unbounded signals, real analysis (Princen-Bradley condition, DFT orthogonality)", "anchors": ["zounds/synthesize/synthesize.py:ShortTimeTransformSynthesizer", "zounds/synthesize/synthesize.py:FFTSynthesizer", "zounds/spectral/sliding_window.py:oggvorbis", "zounds/spectral/functional.py:fft"]}
{"id": "C49", "title": "Transform round-trips: DCT, DCT-IV and FFT", "statement": "Inverting a transform gives the samples back: idct(dct(x)) = x for the DCT node and for the DctTransform of the learn package, DCTIV applied twice is the identity, irfft(rfft(x)) = x.", "quantifier": "every signal and size", "why_tests_cant": "linear algebra over unbounded sizes", "anchors": ["zounds/learn/dct_transform.py:DctTransform", "zounds/spectral/spectral.py:DCT", "zounds/spectral/spectral.py:DCTIV", "zounds/synthesize/synthesize.py:DCTSynthesizer"]}
{"id": "C50", "title": "ingest() processes every item of the dataset once", "statement": "ingest(dataset, cls) attempts every item, skips those that exist, and one failing item does not stop the others, whether multi-threaded or not.", "quantifier": "every dataset, every pattern of failures and existing items", "why_tests_cant": "all failure patterns; laziness of map is invisible when only multi-threaded mode is used", "anchors": ["zounds/datasets/ingest.py:ingest"]}
{"id": "C51", "title": "Bounded dataset iteration yields at most the requested number", "statement": "FreeSoundSearch(n_results=n) yields at most n results; CompositeDataset yields every item of every dataset in order.", "quantifier": "every n and result stream", "why_tests_cant": "off-by-one for every n, needs network", "anchors": ["zounds/datasets/freesound.py:FreeSoundSearch", "zounds/datasets/composite.py:CompositeDataset"]}
{"id": "C52", "title": "A cached download is complete", "statement": "A file returned from the local cache contains the whole remote resource.", "quantifier": "every crash point during a download", "why_tests_cant": "crash points during a streaming write cannot be covered by unit tests", "anchors": ["zounds/datasets/cache.py:InternetArchive/LocalCache", "zounds/datasets/util.py:ensure_local_file"]}
{"id": "C53", "title": "Chunked OGG encoding of AudioSamples covers every sample once", "statement": "AudioSamples.encode writes consecutive chunks that, concatenated, are exactly the samples, in order.", "quantifier": "every length and samplerate", "why_tests_cant": "unbounded lengths", "anchors": ["zounds/timeseries/audiosamples.py:AudioSamples.encode"]}
{"id": "C54", "title": "Channel conversion preserves the signal", "statement": "AudioSamples.mono of a signal converted to stereo is the signal (up to the documented gain), stereo of stereo is itself, mono of mono is itself, channel counts are right, more than two channels is an error; silence is silent.", "quantifier": "every signal", "why_tests_cant": "universal over signals", "anchors": ["zounds/timeseries/audiosamples.py:AudioSamples.mono", "zounds/timeseries/audiosamples.py:AudioSamples.stereo", "zounds/timeseries/audiosamples.py:AudioSamples.silence_like"]}
{"id": "C55", "title": "Batched network application equals whole application", "statement": "For at least one row and a positive chunk size, apply_network in chunks gives the concatenation of the network applied to consecutive chunks covering every row once, equal to the network applied at once when the network is row-wise; with no rows, or a chunk size that is not positive, it raises.", "quantifier": "every number of rows and chunk size", "why_tests_cant": "unbounded sizes", "anchors": ["zounds/learn/util.py:apply_network"]}
{"id": "C56", "title": "Slicing a scale yields a scale of exactly the selected bands", "statement": "scale[query], for a band, a Hertz slice or an integer slice, is a scale whose bands are exactly the bands selected from the original, in order, and whose length is their number.", "quantifier": "every scale class, every band list, every query", "why_tests_cant": "the new scale is rebuilt from the outer limits of the selection, so agreement must hold for every selection of every scale", "anchors": ["zounds/spectral/frequencyscale.py: FrequencyScale.__getitem__, _construct_scale_from_slice", "zounds/spectral/tfrepresentation.py: FrequencyDimension.metaslice"]}
{"id": "C57", "title": "ReservoirSampler draws from the stream, the right number of rows", "statement": "After any chunking of a stream and any random draws, ReservoirSampler hands out min(total rows, nsamples) rows, every one of them from the stream; a stream no longer than nsamples comes out whole, in shuffled order; each row of the stream is as likely as any other to be kept (a row is stored exactly when its own draw falls below nsamples).", "quantifier": "every stream, chunking, nsamples and outcome of the generator", "why_tests_cant": "random outcomes and chunkings are unbounded", "anchors": ["zounds/learn/random_samples.py:ReservoirSampler"]}
{"id": "C58", "title": "SimHash codes depend only on the side of each hyperplane", "statement": "SimHash gives every row, independently of the other rows, one bit per hyperplane, set exactly when the row lies on its positive side; scaling a row by a positive factor leaves the code alone, negating it flips every bit (unless it lies on the plane).", "quantifier": "every set of planes and rows", "why_tests_cant": "statement over all real vectors", "anchors": ["zounds/learn/preprocess.py:SimHash"]}
{"id": "C59", "title": "Detection functions do not depend on how the stream is chunked", "statement": "MeasureOfTransience gives every frame one value, computed from that frame and the frame before it (the first frame is compared with itself), whatever the chunks in which the frames arrive, if the first chunk is not empty. (Flux, meant to do the same for the distance between frames, always raises: a theorem.)", "quantifier": "every stream and every chunking with a non-empty first chunk", "why_tests_cant": "all chunkings of unbounded streams", "anchors": ["zounds/segment/onset.py:MeasureOfTransience", "zounds/segment/onset.py:Flux"]}
{"id": "C60", "title": "Pooled pools each slice over the whole series", "statement": "Whatever the order in which series chunks and slice chunks arrive, Pooled emits, once, every slice that was delivered, in time order, with the pooled value of the part of the whole series it covers.", "quantifier": "every interleaving of series and slice chunks, every pooling operation", "why_tests_cant": "interleavings are exponential", "anchors": ["zounds/basic/basic.py:Pooled"]}
{"id": "C61", "title": "Streaming decode yields every sample once", "statement": "AudioStream emits every sample that can be decoded from the byte stream exactly once, in order, however the bytes are chunked; OggVorbisWrapper.iter_chunks yields one-second chunks that put together are the whole recording.", "quantifier": "every byte stream, chunking and decoder; every recording length and sample rate", "why_tests_cant": "unbounded recordings; rounding drift shows after minutes", "anchors": ["zounds/soundfile/audiostream.py:AudioStream", "zounds/soundfile/ogg_vorbis.py:OggVorbisWrapper.iter_chunks"]}
{"id": "C62", "title": "Chunk sizes and resampled lengths", "statement": "ChunkSizeBytes is a whole number of sample frames lasting at most the duration asked for; the number of samples read at a time is at least one second's and leaves six seconds of bytes undecoded when there are that many; the length of a resampled stream is the original length times the ratio, within half a sample per chunk.", "quantifier": "every samplerate, duration, depth, channel count, chunking and ratio", "why_tests_cant": "arithmetic over all parameters", "anchors": ["zounds/soundfile/chunksize.py:ChunkSizeBytes", "zounds/soundfile/byte_depth.py:chunk_size_samples", "zounds/soundfile/resample.py:Resample"]}
{"id": "C63", "title": "The URL of a feature leads to that feature", "statement": "The path built for a document id and a feature name is routed to the feature handler with exactly that id and that feature, whatever characters the id contains; the only exception in the project's own applications is a document called temp in the REPL application. (The training monitors' default base path leads nowhere: a theorem.)", "quantifier": "every non-empty id (any byte string) and every feature name of ASCII letters, digits and underscores", "why_tests_cant": "ids are arbitrary strings: percent-encoding, the lazy groups of the route pattern and the order of the routes have to agree for all of them", "anchors": ["zounds/ui/baseapp.py: BaseZoundsApp.feature_path, base_routes", "zounds/ui/api.py: ZoundsApp.custom_routes", "zounds/ui/training_monitor.py: base_path"]}
{"id": "C64", "title": "The REPL recognises exactly the statements that denote a document's feature", "statement": "parse_feature returns (document, feature) for a statement exactly when it is `name.attr`, name is a local variable holding an instance of the document class and attr is one of its features; otherwise it returns (None, None).", "quantifier": "every statement, every set of local variables and features", "why_tests_cant": "ranges over all syntax trees", "anchors": ["zounds/ui/featureparser.py: ExpressionVisitor, FeatureParser.parse_feature"]}
{"id": "C65", "title": "The training monitor keeps the newest values, and boundedly many", "statement": "After any sequence of batch reports the history of a key is the newest values reported for it by batches whose number is a multiple of batch_frequency, at most n_training_points of them, in order.", "quantifier": "every sequence of reports, every batch_frequency and n_training_points", "why_tests_cant": "an invariant of all histories", "anchors": ["zounds/ui/training_monitor.py: TrainingMonitorApp._collect_training_history"]}
{"id": "C66", "title": "The MDCT chain reconstructs the signal", "statement": "mdct computes the textbook modified DCT, decoding one frame gives its samples plus their time-reversed aliases, and overlap-adding the decoded, windowed, half-overlapping frames cancels the aliases and gives the signal back away from its ends.", "quantifier": "every signal, window size and number of windows", "why_tests_cant": "time-domain alias cancellation is an identity over all signals; tests compare a few signals with tolerances", "anchors": ["zounds/spectral/functional.py:mdct", "zounds/spectral/functional.py:imdct", "zounds/synthesize/synthesize.py:MDCTSynthesizer"]}
{"id": "C67", "title": "Spectral descriptors mean what their documentation says", "statement": "Spectral flatness lies in [0,1], is 1 for a flat spectrum and 0 for silence; the spectral centroid is the mean bin weighted by magnitude, so it does not depend on loudness and lies between the first and last bin.", "quantifier": "every spectrum", "why_tests_cant": "inequality of arithmetic and geometric means over all spectra", "anchors": ["zounds/spectral/spectral.py:SpectralFlatness", "zounds/spectral/spectral.py:SpectralCentroid"]}
{"id": "C68", "title": "Normalised signals stay in range", "statement": "instance_scale maps every row into (-1,1), unit_scale maps every array that is not constant onto [0,1] with both ends attained, and the sine synthesizer's samples lie in [-1,1] with the requested length. (A constant array gives nan: a theorem.)", "quantifier": "every array and every list of frequencies", "why_tests_cant": "bounds over all real inputs, including constant arrays", "anchors": ["zounds/loudness/loudness.py:instance_scale", "zounds/loudness/loudness.py:unit_scale", "zounds/synthesize/synthesize.py:SineSynthesizer"]}
{"id": "C69", "title": "Windows and shapes of the short-time DCT of the learn package", "statement": "short_time_dct uses the window it is given and returns one row of coefficients per window, for every size and step.", "quantifier": "every history of calls on one transform object, every batch, length, size and step", "why_tests_cant": "state (a cache) shared between calls; shapes over all sizes", "anchors": ["zounds/learn/dct_transform.py:DctTransform.window", "zounds/learn/dct_transform.py:DctTransform.short_time_dct"]}
{"id": "C70", "title": "Applying a frequency scale sums exactly the bins each band touches", "statement": "scale.apply(x, window) and apply_scale turn every frame into one value per band of the scale: the inner product of the window of that size with the bins of the frame whose band the output band touches, in order. Bins outside a band do not influence it, frames are independent, the number of frames is kept. apply_scale does this to the absolute value of the real part of the coefficients. (What does not hold: apply_scale's default window is a TypeError, the imaginary part is ignored, and applying a scale to a representation on that same scale does not return it; each is a theorem.)", "quantifier": "every pair of linear, geometric, explicit, bark or mel scales, every window and every spectrogram", "why_tests_cant": "range over all scales, overlaps and real spectra; defects only show for particular scale pairs or phases", "anchors": ["zounds/spectral/frequencyscale.py:FrequencyScale._basis", "zounds/spectral/frequencyscale.py:FrequencyScale.apply", "zounds/spectral/functional.py:apply_scale", "zounds/spectral/spectral.py:BaseScaleApplication"]}
{"id": "C71", "title": "Chroma credits each frequency to its pitch class", "statement": "The basis of a ChromaScale has twelve rows; row c collects, over every octave of the requested range and nothing outside it, the window of the bins within a semitone of the pitches of class c. A frequency between two pitches is credited to the two classes around it. A chroma scale cannot be sliced or listed as bands.", "quantifier": "every frequency range, every linear, geometric, explicit, bark or mel spectrum and every window", "why_tests_cant": "logarithmic pitch arithmetic over all frequencies and ranges", "anchors": ["zounds/spectral/frequencyscale.py:ChromaScale"]}
{"id": "C72", "title": "Frequency weightings follow their curve and can be undone", "statement": "AWeighting gives every band a weight of at least 1, the least exactly 1, and the weights of two bands differ by exactly the A-weighting curve in decibels at their centre frequencies; multiplying an array by a weighting scales each position along its frequency axis by the weight of its band, dividing undoes it; the default weighting changes nothing; arrays without a frequency axis and other operations are refused. Weighting a part of the bands of a scale is weighting all and taking the part, up to one constant. (Not so for a band cut out of a FrequencyAdaptive, which gets the weight 0 if it is not the first: a theorem.)", "quantifier": "every scale without a band centred on 0 Hz, every array of any rank", "why_tests_cant": "real-valued curve over all scales and ranks", "anchors": ["zounds/spectral/weighting.py", "zounds/spectral/tfrepresentation.py:FrequencyDimension.weights", "zounds/spectral/tfrepresentation.py:ExplicitFrequencyDimension.weights"]}
{"id": "C73", "title": "The moving average peak picker reports peaks", "statement": "MovingAveragePeakPicker reports a frame as an onset exactly when the centre of the frame is a local maximum that exceeds 1.25 times the frame's average.", "quantifier": "every frame of at least three columns to the left of and including its centre, every aggregate function", "why_tests_cant": "off-by-one between the column tested for a peak and the column compared with the threshold shows only for particular shapes of the detection function", "anchors": ["zounds/segment/onset.py:MovingAveragePeakPicker"]}
{"id": "C74", "title": "A frequency decomposition splits samples into disjoint bands that sum to the original", "statement": "frequency_decomposition(x, sizes) has one band per size, in increasing order whatever the order of sizes; the band of size m covers the frequencies from nyquist*m'/n to nyquist*m/n, where m' is the size before (0 for the first) and n the number of samples; it holds m samples: what is left of the samples after everything the smaller sizes can hold has been removed, so resampling it to a smaller size of the decomposition gives zeros. FrequencyDecompositionSynthesizer returns the original samples when a size is not smaller than their number; non-empty selections of bands that complement each other add up to the whole. Repeated sizes, a size of zero, no sizes and unknown sample rates are refused. (Without a size as large as the number of samples something can be lost, and an empty selection selects every band: theorems.)", "quantifier": "every batch of sample rows, every list of sizes, every selection of bands, every output size", "why_tests_cant": "that the repeated resampling and subtraction loses and duplicates nothing is an identity about sums of cosines for every pair of sizes, odd and even, smaller and larger than the original", "anchors": ["zounds/spectral/functional.py:frequency_decomposition", "zounds/synthesize/synthesize.py:FrequencyDecompositionSynthesizer"]}
{"id": "C75", "title": "The square form of a FrequencyAdaptive shows every band at the same resolution", "statement": "FrequencyAdaptive.square(n) has one frame per row, n rows per frame and one column per band; column b of frame t is band b at time t resampled to n values and multiplied by a single factor that keeps the maximum of a band of magnitudes up to a relative error of 1e-8 times its length; silence stays silent. With do_overlap_add the frames are added up at the positions the time dimension gives them: one after the other when they do not overlap, n/2 rows apart when half-lapped, n*frequency/duration in general.", "quantifier": "every set of bands of any widths, every number of rows, every n, every frequency and duration", "why_tests_cant": "the value at every position for every overlap; the tests only look at shapes of zeros with half-lapped or no overlap", "anchors": ["zounds/spectral/frequencyadaptive.py:FrequencyAdaptive.square", "zounds/spectral/frequencyadaptive.py:FrequencyAdaptive._resample"]}
{"id": "C76", "title": "phase_shift delays a signal", "statement": "phase_shift(coeffs, samplerate, t) along the last axis turns coefficient k by the phase a delay of t, rounded towards zero to whole samples, gives it in a complete spectrum of as many coefficients, and leaves all magnitudes and every coefficient outside the frequency band unchanged; delays of less than a sample change nothing and successive delays add up; applied to the complete spectrum of some samples it is the spectrum of the delayed samples. Axes without a frequency dimension are refused. (Half spectra are delayed too much and the first axis does not work: theorems.)", "quantifier": "every array of coefficients, every scale that is not always_even, band, sample rate and time shift", "why_tests_cant": "the tests only check that something changed, or compare after a full turn", "anchors": ["zounds/spectral/functional.py:phase_shift"]}
{"id": "C77", "title": "time_stretch changes the duration, pitch_shift keeps it", "statement": "time_stretch(x, factor) of a batch keeps the number of signals and gives each exactly int(samples / factor) samples at the same sample rate; each signal is stretched as if it were alone, louder signals give the same result louder, silence stays silent, a factor of 1 gives the signal back, and a tone that repeats with the hop stays the same tone, in phase and pitch, whatever the factor. pitch_shift(x, semitones) gives as many samples as it was given; shifting by 0 semitones is a stretch by 1.", "quantifier": "every signal of at least one frame, every batch, every positive factor, every number of semitones, every standard sample rate and frame rate", "why_tests_cant": "tests compare the shapes of a few signals of a few seconds; the shortening of long signals, the amplitude and the 48 kHz mismatch need all lengths and rates", "anchors": ["zounds/spectral/functional.py:time_stretch", "zounds/spectral/functional.py:pitch_shift", "zounds/timeseries/samplerate.py:SampleRate.discrete_samples", "zounds/timeseries/samplerate.py:HalfLapped"]}
{"id": "C78", "title": "fft and stft are the discrete Fourier transform of the samples, on a matching frequency scale", "statement": "fft(x) of n samples at a standard rate has n/2+1 coefficients equal to the unitary discrete Fourier transform, with a frequency dimension of n/2+1 equal bands up to the Nyquist frequency in which, at even rates, the frequency of each coefficient lies, so that slicing the spectrum around a pure tone selects its coefficient; other rates are refused; rows of a two-dimensional array may be zero-padded. stft(x, rate, window) with a window function has the frames that windowing x gives, each the transform of the windowed samples; the batch form has the first of these frames, as many as fit without padding. (What fails: padding of other arrays, most arrays with axis=0, 11025 Hz, stft without a window function; each is a theorem.)", "quantifier": "every signal, batch, padding, sample rate, window function and frame rate", "why_tests_cant": "tests check shapes of a few transforms; agreement of coefficients with band edges must hold for all sizes and rates", "anchors": ["zounds/spectral/functional.py:fft", "zounds/spectral/functional.py:stft", "zounds/spectral/frequencyscale.py:LinearScale.from_sample_rate"]}
{"id": "C79", "title": "The frequency-adaptive transform and its synthesizers invert each other up to the sum of the band windows", "statement": "A frequency-adaptive transform cuts a spectrum into the bands of a scale, windows and transforms each; FrequencyAdaptiveDCTSynthesizer (or FFT) on its result gives exactly what the short-time synthesizer gives on the spectrum with each bin multiplied by the sum of the windows of the bands taking it: a bin in no band is lost, a bin in m bands of the default window comes back m times, and if the weights are all one the sound is that of the original spectrum. With the Fourier transform each band's first and last bin lose their imaginary part, so phases survive everywhere only for windows that vanish at both ends. A band that touches no bin (or fewer than two, with the Fourier transform) is refused with a ValueError, as is, when asked for, a scale whose neighbours share less than half a band. The synthesizer finds the size of the spectrum when the window is a whole number of samples, or one second at a standard rate. (What fails: abutting bands count the bin below the border twice, np.hanning silences the end bins, windows with a fraction of a sample give a synthesizer of another size; each is a theorem.)", "quantifier": "every spectrum, scale of distinct bands, window function, sample rate and window length", "why_tests_cant": "the existing tests listen to a reconstruction of a few sines; the weight of every bin for every scale and window is a statement about all of them", "anchors": ["zounds/spectral/spectral.py:FrequencyAdaptiveTransform", "zounds/synthesize/synthesize.py:BaseFrequencyAdaptiveSynthesizer", "zounds/synthesize/synthesize.py:FrequencyAdaptiveDCTSynthesizer", "zounds/synthesize/synthesize.py:FrequencyAdaptiveFFTSynthesizer", "zounds/spectral/frequencyadaptive.py:FrequencyAdaptive"]}
{"id": "C80", "title": "Synthesizers make the number of samples the duration asks for, with doubles", "statement": "Int(duration / frequency) computed in double precision is the exact whole number of frames for every pair of durations below 2^53 ps. NoiseSynthesizer and TickSynthesizer make floor(rate * duration) samples, up to one sample either way because rate * (duration / one second) is rounded twice, and exactly that many for durations that are a multiple of a power-of-two fraction of a second; noise lies in [-1, 1). A tick is a tenth of a second long, fades linearly to 0, and ticks start every floor(rate * period) samples (exact when the period divides a second), each copied whole; periods under half a sample are refused. SineSynthesizer makes rate*k or rate*k + 1 samples for k seconds, and sample j is the mean of sin(2 pi f j / rate), within [-1, 1]. (What fails: 350 ms of noise at 44100 Hz have 15434 instead of 15435 samples; ticks 30 ms apart start every 1322 samples; ten seconds of 240 Hz have 441001 samples and cannot be mixed with 440 Hz; ten minutes of silence are a sample longer than ten minutes of noise; each is a theorem.)", "quantifier": "every sample rate, duration, tick period, set of frequencies and stream of random numbers, with every rounding of double precision arithmetic", "why_tests_cant": "tests check one or two durations; whether a rounding crosses an integer depends on each particular pair of rate and duration", "anchors": ["zounds/synthesize/synthesize.py: SineSynthesizer, TickSynthesizer, NoiseSynthesizer, SilenceSynthesizer", "zounds/timeseries/audiosamples.py: AudioSamples.silence"]}
{"id": "C81", "title": "Losses and sample categories measure what they say", "statement": "CategoricalLoss assigns every sample of a non-silent signal a category value in [0, n]: the mu-law of the sample over the peak, shifted and scaled, so louder samples get larger values, silence lies at n/2, an extreme sample at 0 or n, and the volume of the signal does not matter. Given scores of shape batch x (n+1) x width, the loss is minus the mean of the scores of the target's categories at their own positions and is never negative for log-probabilities. Softmax rows are distributions that prefer the nearest category. PerceptualLoss has (samples + taps)/lap + 1 features per band, each the rectified, log-scaled, weighted response of the filter; the cosine variant lies in [-1, 1] (at most 0 for non-negative weights), is symmetric, is -1 for identical audible signals and 0 against silence; the other variant is non-negative, symmetric and 0 exactly when the features agree. BandLoss brings each band below norm one, is non-negative, symmetric and 0 only for equal shapes. The critic's loss ignores constants and changes sign when real and fake are swapped; the gradient penalty of vectors vanishes exactly for gradients of norm one, at points between real and fake. (What fails: with raw samples the scores are read at transposed places, so a perfect prediction can lose 4*10^11, as much as a wrong one; categories are cut off while scores prefer the nearest; RawSampleEmbedding always raises; the penalty of batch x channels x samples is taken per sample; each is a theorem.)", "quantifier": "every signal, batch, number of categories, filter bank, weighting and critic", "why_tests_cant": "there are no tests of these losses; a range or a zero set is a statement about every input", "anchors": ["zounds/learn/loss.py: CategoricalLoss, PerceptualLoss, BandLoss, LearnedWassersteinLoss, WassersteinCriticLoss, WassersteinGradientPenaltyLoss", "zounds/learn/sample_embedding.py: RawSampleEmbedding"]}
{"id": "C82", "title": "Helpers for networks: normalisation, sizes, chunks, gates and sinc filters", "statement": "sample_norm multiplies all channels of a position by one positive number so that their mean square e becomes e/(e + 10^-7) < 1. batchwise_unit_norm brings each item to norm r/(r + eps) < 1, batchwise_mean_std_normalization to mean 0 and standard deviation s/(s + eps) < 1. feature_map_size is the length of a convolution's output exactly when the stride divides. apply_network in chunks of any size gives what it gives at once, for every network that treats items one by one. MultiResolutionBlock's outputs have one common length if all kernels are odd (or all even). A gated unit lies strictly between -1 and 1 with the sign of its activation. SincLayer keeps its cut-offs in order whatever is learnt, and every coefficient is a number when the number of taps is even. (What fails: sample_norm on images raises, or divides by the norms of other rows and items; an item of one element becomes not-a-number; mixing odd and even kernels gives different lengths; no items in chunks is a ValueError; networks that look at the batch; SincLayer starts with reciprocal frequencies, lower bands highest, cannot take a band that starts at 0, has a 0/0 in the middle of odd filters and is a sample longer with even ones; each is a theorem.)", "quantifier": "every batch, shape, kernel, stride, chunk size, network and learnt parameter", "why_tests_cant": "the one test of this module checks a single shape; bounds and equalities over every input and size cannot be sampled", "anchors": ["zounds/learn/util.py: apply_network, sample_norm, batchwise_unit_norm, batchwise_mean_std_normalization, feature_map_size", "zounds/learn/gated.py: GatedLinearLayer, GatedLayer", "zounds/learn/multiresolution.py: MultiResolutionBlock", "zounds/learn/sinclayer.py: SincLayer"]}
{"id": "C83", "title": "Arithmetic, sums, products, packing and joining of arrays with units", "statement": "An elementwise operation on an array with units and a number, a plain array or another array with units has exactly the entries numpy's broadcasting prescribes, is a ValueError exactly for incompatible shapes, and keeps the dimensions (and class) of the leftmost array with units when no axis is added; AudioSamples of different rates cannot be added; sum over named axes has for each index of the remaining axes the sum of the entries there and keeps exactly the remaining dimensions, sum over channels stays AudioSamples of the same rate; dot with a vector, packbits along an unlabelled axis, zeros_like and concatenate have the stated entries and dimensions. The places where this fails (units lost or stale after broadcasting, sums over all named axes, dot with matrices or on AudioSamples, packbits on labelled axes, concatenation along frequency, subtraction across rates) are stated as refutations.", "quantifier": "all arrays of all shapes and dimensions, all binary functions, all axes tuples and keepdims values, all standard sample rates", "why_tests_cant": "Shapes, dimensions and axis tuples range over unbounded sets; a test sees one shape, and labels that silently become wrong are only visible when compared with the array for every shape.", "anchors": ["zounds/core/axis.py:ArrayWithUnits.__array_wrap__", "zounds/core/axis.py:ArrayWithUnits.sum", "zounds/core/axis.py:ArrayWithUnits.dot", "zounds/core/axis.py:ArrayWithUnits.packbits", "zounds/core/axis.py:ArrayWithUnits.concatenate", "zounds/core/axis.py:ArrayWithUnits.zeros_like", "zounds/timeseries/audiosamples.py:AudioSamples.__add__", "zounds/timeseries/audiosamples.py:AudioSamples.sum"]}
{"id": "C84", "title": "Reading and assigning parts of arrays with units", "statement": "Assigning to an index changes exactly the selected entries, gives each the value broadcasting assigns to it, and leaves dimensions and all other entries unchanged; what was assigned is read back by the same index whenever no entry is selected twice. A slice of AudioSamples is AudioSamples of the same rate with the samples Python's slice selects; a time slice between sample positions reads and writes exactly those samples; an int gives the sample (negative counts from the end) or the frame of channels. Refuted: every k-th sample keeps the old rate, one channel is no longer AudioSamples, empty lists and integer arrays as index, duration_in_seconds of a signal.", "quantifier": "all arrays, dimensions, index expressions (ints, slices, time and frequency slices, None, Ellipsis, lists, tuples), assigned values, signal lengths and standard rates", "why_tests_cant": "Which entries change depends on every combination of shape, index and value shape; tests check single assignments.", "anchors": ["zounds/core/axis.py:ArrayWithUnits.__setitem__", "zounds/core/axis.py:ArrayWithUnits.__getitem__", "zounds/core/axis.py:ArrayWithUnits._tuplify", "zounds/timeseries/audiosamples.py:AudioSamples.__getitem__", "zounds/timeseries/audiosamples.py:AudioSamples.duration_in_seconds"]}
{"id": "C85", "title": "A HammingIndex built from documents answers searches over exactly those documents' slices", "statement": "After add_all, add, and additions through other HammingIndex objects on the same path, in any order and mixed with searches, iterating search(q, n) gives n of the indexed slices (document id, TimeSlice and, if configured, extra data, all as they were when added) such that no slice left out is nearer to q in Hamming distance, in increasing distance when sort is set; the contents are those at the time the results are read, and the results can be read once. Asking for as many results as there are slices or more, or with a query of another size, raises ValueError when the results are read, not when search is called; searching before anything was indexed raises at the call. random_search uses the code of an indexed slice and its results contain a slice at distance 0. A slice whose code has another size is rejected and keeps what was added before. Refuted: len() of an index opened before the database existed stays 0 while others add, random_search of an initialised empty database never returns, and the search page cannot serve any result (the base64 query is bytes, which json.dumps rejects; with extra data the results do not unpack).", "quantifier": "all documents, features, code sizes, extra data functions, histories of several writers and readers, queries, numbers of results and threads, and sequences of distinct random ids", "why_tests_cant": "The property is about every interleaving of writers and lazily read searches and every content; tests index a few documents.", "anchors": ["zounds/index/index.py:HammingIndex.add", "zounds/index/index.py:HammingIndex.add_all", "zounds/index/index.py:HammingIndex.search", "zounds/index/index.py:HammingIndex.random_search", "zounds/index/index.py:HammingIndex._parse_result", "zounds/index/index.py:SearchResults", "zounds/index/hammingdb.py:HammingDb", "zounds/ui/search.py:ZoundsSearch.search_handler", "zounds/ui/serializer.py:SearchResultsSerializer"]}
{"id": "C86", "title": "A learned model does after storage, in its pipeline and in its Op, what the trained model does", "statement": "Nodes that train a network gather one value per dependency and hand the latest of each to the trainer once per complete round. Calling the Op of a learned model calls its function with the caller's keyword arguments overridden by those the Op holds. Versions of Ops, Pipelines and Learned nodes agree exactly when the hashed contents agree (unless md5 collides). A stored and restored network model has the same Op, inverse Op and name, its network is in evaluation mode and has the stored weights. The node passes on what its Op computes on the same data whenever the network treats examples independently. Results keep the leading dimensions of the input. The scikit-learn nodes see every example as one row and give back the examples' shape; inverse transforms restore shapes. Learning graphs have one root and load the stored network if there is one. Refuted: functions with default arguments or closures raise TypeError; the version ignores argument names and depends on the address of a network; a str version raises; on Python 3 running out of memory raises AttributeError instead of trying a smaller batch; networks whose __init__ takes something not kept as an attribute cannot be stored; the restored inverse raises another exception; chunksize and post_training_func are lost in the Op; a Gan node passes on labels even when its Op generates; zero examples fail; WithComponents loses the mean; model_hash always raises on Python 3.", "quantifier": "all sequences of pushed values, functions, keyword arguments, networks (any classes, weights, init arguments), batch and chunk sizes, shapes and graphs", "why_tests_cant": "Tests train one tiny network; the property is about every class of network, argument and history of pushed chunks.", "anchors": ["zounds/learn/preprocess.py:Op", "zounds/learn/preprocess.py:Pipeline.version", "zounds/learn/learn.py:Learned", "zounds/learn/pytorch_model.py:PyTorchPreprocessResult", "zounds/learn/pytorch_model.py:PyTorchNetwork", "zounds/learn/pytorch_model.py:PyTorchGan", "zounds/learn/pytorch_model.py:PyTorchAutoEncoder", "zounds/learn/sklearn_preprocessor.py:SklearnModel", "zounds/learn/sklearn_preprocessor.py:WithComponents", "zounds/learn/graph.py", "zounds/persistence/util.py:extract_init_args", "zounds/learn/util.py:model_hash"]}
{"id": "C87", "title": "InfiniteSampler yields real rows, in proportion to the documents, whatever the threads do", "statement": "In each round every document contributes between 1 and nsamples of its rows, its share of the reservoir to within 3/2, longer documents no less than shorter ones, and all documents together nsamples to within the number of documents. Each yield holds, slot by slot, the newest row drawn for the slot in all rounds so far; all its rows are rows of documents and there are between 1 and nsamples of them. With threads, once the reservoir has its array, under every schedule every occupied slot holds what it held or a row some thread put there, every thread finishes, and its slots are occupied; the same holds in the first round if one thread allocates before any other starts (parallel=False). Refuted: in a parallel first round two threads may both allocate, and a slot counted as occupied reads as zero although no document contains such a row; a share that is a whole number may be rounded down by one. An empty document raises ValueError, a database of empty documents ZeroDivisionError, an empty database TypeError.", "quantifier": "all databases, reservoir sizes (up to 2^50), random draws, numbers of rounds and thread schedules", "why_tests_cant": "The race needs a particular interleaving; the proportions need every size, in floating point.", "anchors": ["zounds/learn/random_samples.py:InfiniteSampler", "zounds/learn/random_samples.py:Reservoir.add", "zounds/learn/random_samples.py:Reservoir._init_arr"]}
{"id": "C88", "title": "Every training step uses exactly the gradient of its own minibatch, and checkpoints do not change training", "statement": "Whatever gradients and requires_grad flags are left over, WassersteinGanTrainer.train does what the reference algorithm does: for every batch n_critic_iterations Adam steps of the critic, each with the gradient of the critic's loss on its own minibatch at the current parameters and nothing else, then one Adam step of the generator with the gradient of the generator's loss; the reported losses are those of the last critic step and of the generator step; afterwards the critic is frozen and holds no gradient of the generator's loss. Training in calls of checkpoint_epochs each equals training without stopping. SupervisedTrainer likewise, with the optimizer it was given; TripletEmbeddingTrainer makes one Adam step per batch, with positives derived from the same examples as the anchors, on the parameters that require gradients, and leaves frozen parameters alone. Refuted: the triplet trainer starts Adam afresh at every call, so stopping for checkpoints changes the result; the adversarial trainer unfreezes and trains parameters the user froze, and with no critic iterations raises UnboundLocalError after changing the generator; on Python 3 a RuntimeError of the network becomes an AttributeError.", "quantifier": "all networks, losses and gradients, left-over gradients and flags, random draws, batch sizes, numbers of iterations, epochs, checkpoints and calls", "why_tests_cant": "Tests check that training runs; which gradients are in the buffers at each step, for every network and history of calls, is not observable by them.", "anchors": ["zounds/learn/wgan.py:WassersteinGanTrainer.train", "zounds/learn/wgan.py:WassersteinGanTrainer._init_optimizers", "zounds/learn/embedding.py:TripletEmbeddingTrainer.train", "zounds/learn/supervised.py:SupervisedTrainer.train", "zounds/learn/util.py:trainable_parameters"]}
{"id": "C89", "title": "Filter banks filter with the scale's frequencies and keep time, and the auto-correlogram is the autocorrelation", "statement": "morlet_filter_bank gives one filter of kernel_size taps per band: a symmetric Gaussian times a cosine, narrower for larger scaling factors, with unit norm up to 1e-8 when normalised; a single scaling factor means the same for every band, a list of the wrong length is a ValueError. FilterBank.convolve gives for every band the zero-padded correlation centred on each sample (the convolution, for these symmetric filters and odd kernels), transposed_convolve is its adjoint and gives back the length of the signal; log_magnitude is 0 exactly for values that are not positive and can be inverted elsewhere; transform returns one row per pooling frame, each the mean of the log magnitudes of its window, on a time dimension with the frequency and duration of the pooling; forward without normalisation is the log magnitude cut to the length of the signal. fir_filter_bank asks firwin2, for every band that meets (0, nyquist), for gains that are the window laid over the band and 0 outside, in a form firwin2 accepts. auto_correlogram gives for every time and band the autocorrelation of the filtered window at the lags -W .. W-1 in this order, divided by sqrt(2W). Refuted: the carrier of a morlet filter is f K/(K-1), not the centre frequency f; rows of transform are averages that begin half a pooling window before the time they are said to; averages at the edges count zeros; a single band is a ValueError; with an even kernel forward's normalisation counts a position that is then cut off.", "quantifier": "all scales, kernel sizes, scaling factors, signals, pooling sizes and strides, windows and correlation windows", "why_tests_cant": "Tests check shapes on a few sizes; the values for every signal and kernel, the adjointness and the equality with the autocorrelation are statements over all real signals.", "anchors": ["zounds/spectral/functional.py:morlet_filter_bank", "zounds/spectral/functional.py:fir_filter_bank", "zounds/spectral/functional.py:auto_correlogram", "zounds/learn/spectral.py:FilterBank"]}
{"id": "C90", "title": "The REPL answers every statement, restores stdout, and its temporary urls stay valid", "statement": "Whatever is posted to the REPL of a ZoundsApp and whatever the statement does (any exception included, also SystemExit), the answer is 200 without an error or 400 with a traceback, and sys.stdout is what it was before. An expression is evaluated once and answered with str(value); statements are answered with exactly the text they printed; text that is not Python runs nothing. When the answer carries a url, that url is routed to the temporary-result handler and, after any further statements, still leads to the same result with the announced content type; ids never handed out are 404; results are never dropped. Two things a user would expect fail: an expression that itself raises SyntaxError is run a second time, and an expression with a blank in front (or an array of three dimensions that is not an image) is evaluated, with its effects, and then answered with an error.", "quantifier": "every source text (expression, statements, neither; indented or not), every behaviour of the user code on the interpreter and on open text streams, every session of statements before and after", "why_tests_cant": "Arbitrary user code and arbitrary sessions; a test runs a few statements and one request for a url.", "anchors": ["zounds/ui/api.py:ZoundsApp.repl_handler", "zounds/ui/api.py:ZoundsApp.temp_handler", "zounds/ui/featureparser.py:FeatureParser", "zounds/ui/baseapp.py:BaseZoundsApp.serialize"]}
{"id": "C91", "title": "Values are served by their kind, and the search page serves its results", "statement": "A value of AudioSamples is served as ogg audio into which exactly its samples are written, in order, one second at a time; arrays with one or two dimensions and colour images are served as png, other arrays and objects get no url, and a three-dimensional array that is no image is a ValueError; a feature stored as JSON or ogg is served as stored; the value of a time slice feature is served as the list of its slices in order, with start and duration in seconds and the paths of the document's features. A request to the search page asks the index for exactly the code whose base64 text it carries, or a random one. Search results can never be served: their query is encoded to bytes, which json.dumps refuses, so every request to the search page is a 500 and search results are an error in the REPL.", "quantifier": "every value, feature, document, list of slices, every code and every list of hits", "why_tests_cant": "Ranges over all values and codes; the repository has no test that serves search results.", "anchors": ["zounds/ui/serializer.py:AudioSamplesSerializer", "zounds/ui/serializer.py:NumpySerializer", "zounds/ui/serializer.py:generate_image", "zounds/ui/serializer.py:AudioSliceSerializer", "zounds/ui/serializer.py:OnsetsSerializer", "zounds/ui/serializer.py:SearchResultsSerializer", "zounds/ui/search.py:ZoundsSearch.search_handler", "zounds/ui/baseapp.py:BaseZoundsApp.find_serializer"]}
{"id": "C92", "title": "A processing graph computes the same features whatever the chunk size", "statement": "Feeding samples to audio_graph at any of the audio sample rates, cut into chunks in any way, stores for each feature one row per half-lapped window: the samples of that window (zero past the end) times the Vorbis window, and the DCT, FFT, bark bands, spectral centroid, chroma and BFCC of exactly that row, all with the same time dimension. Two ways of cutting the same samples give the same rows except possibly one more row at the end, and not even that unless the last window ends exactly at the last sample. The same holds of the windows and FFT of an stft graph with any window no shorter than its hop, with any padding. A row-wise node (Slice, Binarize, Max over columns) gives the rows of the whole input whatever its chunks. The DCT nodes derive the right sample rate from the window's duration at every rate, but not at 16 kHz, where some windows raise; the default axis of Max depends on the chunks; and the number of rows depends on the chunks.", "quantifier": "every audio sample rate, every list of samples, every way of cutting it into chunks, every window scheme, every padding", "why_tests_cant": "The tests feed a few synthetic sounds at one chunk size; independence of the cut ranges over all cuts, and the double rounding of the DCT sample rate over all window sizes.", "anchors": ["zounds/basic/audiograph.py:audio_graph", "zounds/basic/audiograph.py:stft", "zounds/spectral/sliding_window.py:SlidingWindow", "zounds/spectral/spectral.py:FFT", "zounds/spectral/spectral.py:DCT", "zounds/spectral/spectral.py:DCTIV", "zounds/spectral/spectral.py:BarkBands", "zounds/spectral/spectral.py:Chroma", "zounds/spectral/spectral.py:BFCC", "zounds/spectral/spectral.py:SpectralCentroid", "zounds/basic/basic.py:Slice", "zounds/basic/basic.py:Max", "zounds/basic/basic.py:Sum", "zounds/basic/basic.py:Binarize"]}
{"id": "C93", "title": "Onset slices mark exactly the detected onsets, whatever the chunk size", "statement": "For an onset graph (MeasureOfTransience of FFT frames, SlidingWindow, MovingAveragePeakPicker) on any FFT frames cut into chunks in any way: the detection value of a frame is (its high frequency content over that of the frame before) times (its high frequency content over its energy), sums over the bins from the third on; the slices tile the time from zero and are cut exactly at the frames where the frame before is a strict local maximum of the detection function and the frame's own value exceeds 5/4 of the aggregate of the window around it; two ways of cutting the frames give the same onsets, except possibly at one last row. The slices end some frames before the sound does, by an amount that depends on the chunks. A scheme times Stride(1, n) spans n frames only for schemes without overlap: half-lapped windows give n + 1. with_onsets fails with an AttributeError on every sound.", "quantifier": "every sequence of FFT frames, every way of cutting it into chunks, every window scheme, stride, padding and aggregate", "why_tests_cant": "The repository's test uses one tick track with one chunk size and skips the complex-domain graph; the claim ranges over all frames and cuts.", "anchors": ["zounds/segment/onset.py:MeasureOfTransience", "zounds/segment/onset.py:ComplexDomain", "zounds/segment/onset.py:BasePeakPicker", "zounds/segment/onset.py:MovingAveragePeakPicker", "zounds/spectral/sliding_window.py:SlidingWindow", "zounds/basic/audiograph.py:with_onsets", "zounds/timeseries/samplerate.py:SampleRate.__mul__"]}
{"id": "C94", "title": "A chain of preprocessors trained on data, applied later, does to that data what training did, and to new data example by example", "statement": "Connect preprocessing nodes in a chain (UnitNorm, MeanStdNormalization, InstanceScaling, Multiply, Weighted, Slicer, AbsoluteValue, Sharpen, Binarize, SimHash, Log, MuLawCompressed) and train it. For every k the first k steps of the resulting pipeline, applied to the training data, give exactly the data node k handed on in training. MeanStdNormalization (and SimHash) learn the statistics of the data that reach them - after it every varying feature has mean 0 and deviation 1 - and apply those same statistics to later data. The pipeline treats the examples one by one, so applying it to all of them or batch by batch is the same; chains of invertible nodes undo their transform for every input. Each run of the graph over one chunk of data yields one pipeline, trained on that chunk. Where this fails is shown: entries whose division is skipped hold whatever was in memory, AbsoluteValue/Sharpen/Binarize/UnitNorm hide failures in training that reappear when the pipeline is used, and with the data in several chunks there is no pipeline with the statistics of the whole dataset.", "quantifier": "every chain of nodes with any parameters, every training matrix, every later input, every batching, every order in which the results reach the pipeline node, every content of uninitialised memory", "why_tests_cant": "unbounded chains, arrays and batchings over the reals, and memory contents no test controls", "anchors": ["zounds/learn/preprocess.py:Preprocessor", "zounds/learn/preprocess.py:MeanStdNormalization", "zounds/learn/preprocess.py:UnitNorm", "zounds/learn/preprocess.py:Sharpen", "zounds/learn/preprocess.py:Pipeline.transform", "zounds/learn/preprocess.py:PreprocessingPipeline"]}
{"id": "C95", "title": "OggVorbis hands every frame of any input to the encoder once, in order, and never re-encodes an Ogg stream", "statement": "Processing a sound with the OggVorbis node, its bytes cut into chunks in any way: if the first chunk shows an Ogg stream, the chunks come out as they went in; otherwise the pieces written to the encoder are non-empty, none longer than 20 seconds, and together are exactly the frames that can be decoded from the whole input; the bytes that come out, chunk by chunk, are exactly the file the encoder makes of those pieces, header first and trailer last. With an encoder that does not depend on where pieces end, every cut gives the same file. A stream with no chunks fails with an AttributeError.", "quantifier": "every input, every way of cutting it into chunks, every decoder whose output only grows with its input, every encoder", "why_tests_cant": "The tests process a few generated sounds with fixed chunk sizes; the ring buffer between encoder and node may wrap or grow at any point of any input.", "anchors": ["zounds/soundfile/ogg_vorbis.py:OggVorbis", "zounds/soundfile/audiostream.py:MemoryBuffer"]}
{"id": "C96", "title": "Resampler changes the rate and nothing else", "statement": "Resampler, on chunks of any lengths, produces one chunk per chunk. At equal rates the chunks themselves; at different rates each chunk has exactly its length times the ratio of frames, rounded half to even: the frames one converter, which has been given one second of silence first and is never told that the input has ended, generates for it, cut or filled with silence to that number. A ratio outside 1/256 to 256 is a ValueError. functional.resample returns samples at the wanted rate unchanged. Refuted: a chunk that becomes a single frame is a TypeError for one channel and, for more, makes the converter write beyond its buffer; and the total depends on the cut: at half the rate, frames one by one give nothing, at once they give half as many.", "quantifier": "every pair of rates, number of channels, sequence of chunks and converter", "why_tests_cant": "The tests resample a few seconds between named rates; rounding and buffer sizes depend on every chunk length.", "anchors": ["zounds/soundfile/resample.py:Resample", "zounds/soundfile/resample.py:Resampler", "zounds/soundfile/functional.py:resample"]}
{"id": "C97", "title": "MetaData describes its source faithfully and its stored form keeps every field", "statement": "MetaData leaves an AudioMetaData alone; a URL becomes a request for that URL from its first byte; a request keeps its URL and headers and gets a range of bytes=0- if it has no 'range'; an existing path or a file object gets the sample rate and channels found in it, or the exception raised in reading it; anything else is the uri itself, or a ValueError if empty. The encoder stores every field under its name, with a request as its URL and a file as null; any other object is a TypeError. Two descriptions are equal exactly if their six named fields are: extra attributes do not count. Refuted: a request whose header is spelled 'Range', as MetaData itself spells it, gets a second, contradicting range from byte 0.", "quantifier": "every source, every headers, every description, every file system and URL parser", "why_tests_cant": "The tests use one source of each kind; the claim ranges over all strings, headers and files.", "anchors": ["zounds/soundfile/audio_metadata.py:AudioMetaData", "zounds/soundfile/audio_metadata.py:MetaData", "zounds/soundfile/audio_metadata.py:AudioMetaDataEncoder"]}
{"id": "C98", "title": "A Hamming index can be searched while another thread appends to it", "statement": "Threads of one process search and append to one HammingDb, each step of each thread interleaved in any way. The database on disk is always the entries it had when opened followed by the appended ones in order, the last one possibly still uncommitted. In memory every entry appears once, in that order, never later than on disk; what is in memory stays there. No thread gets stuck. Every answer is data of entries, or a TypeError, or what the selection of rows raises; a search nobody disturbs answers exactly with the selected entries. With a lock around the use of the shared code buffer, which the code does not have, memory is exactly the disk's codes and every answer is a search among a prefix of the entries that contains all that were on disk when it began. Refuted without it: a search for one code answers as if the code being appended had been asked for; an appended document is kept in memory under the code of a concurrent query for as long as the process lives; a search that finds a document not committed yet raises TypeError; and an entry of another process that is taken over while this one appends is lost to searches, its row replaced by one never written.", "quantifier": "every number of threads, schedule, history of appends, searches and other processes' commits, every distance and selection", "why_tests_cant": "The tests search after the appends are done or sleep; races depend on the schedule.", "anchors": ["zounds/index/hammingdb.py:HammingDb.append", "zounds/index/hammingdb.py:HammingDb.search", "zounds/index/hammingdb.py:HammingDb._add_code", "zounds/index/index.py:HammingIndex"]}
{"id": "C99", "title": "The ready-made graphs give features of the file, however its bytes arrive", "statement": "resampled, windowed, stft, audio_graph and frequency_adaptive, run on the bytes of a file: the resampled feature is the mono signal decoded from all bytes, whatever pieces ByteStream delivered; windows, spectra and all features of audio_graph are those of that signal, row by row, for two ways to cut the same bytes equal up to one trailing padded row; the stored frequency-adaptive feature is the transform of all spectra of the file, and its synthesizer gives back the inverse transform of the spectra with bin k scaled by the sum of the Hanning windows of the bands that take it; a scale that fails its overlap test is refused before a byte is read. No bytes at all is an AttributeError. Where file and graph have different rates the result depends on the pieces (refuted).", "quantifier": "every file content, every division of it into pieces, every depth and channel count, every standard sample rate, window and hop, every scale whose bands take two bins or more, every monotone decoder and every converter", "why_tests_cant": "A test reads one file in the pieces one run happens to deliver; that the stored features depend only on the content is a statement over all divisions and all signals.", "anchors": ["zounds/basic/audiograph.py:resampled", "zounds/basic/audiograph.py:windowed", "zounds/basic/audiograph.py:stft", "zounds/basic/audiograph.py:audio_graph", "zounds/basic/audiograph.py:frequency_adaptive", "zounds/soundfile/audiostream.py:AudioStream", "zounds/soundfile/resample.py:Resampler", "zounds/spectral/spectral.py:FrequencyAdaptiveTransform", "zounds/synthesize/synthesize.py:FrequencyAdaptiveFFTSynthesizer"]}
{"id": "C100", "title": "Datasets describe every sound once, with its own content and metadata", "statement": "Iterating NSynth yields, for every regular file of the archive that is not JSON, in the order of the archive, one AudioMetaData whose content is that file, whose url ends in the file's name without directory and extension, and whose attributes are the entry of that name in the archive's last JSON file; unknown names end the iteration with KeyError after the sounds before, an archive without JSON with TypeError. InternetArchive yields every file its filter keeps, once, with the metadata of its original, the user's attributes and the page's url. FreeSoundSearch maps the fields of a result. AudioMetaData keeps every keyword as an attribute, None for the five that always exist; an argument given twice is a TypeError. MusicNet does the same for the files of its training set - false: its csv is opened as binary, no sound is ever described. PhatDrumLoops yields every loop of its page - false: a text pattern is applied to bytes, TypeError on every page.", "quantifier": "every archive (any members, names, contents, number of JSON files), every table of metadata, every page and every user attribute", "why_tests_cant": "The datasets are remote and tests use none of them; that every member is described once, whatever the archive holds, ranges over all archives.", "anchors": ["zounds/datasets/nsynth.py:NSynth", "zounds/datasets/musicnet.py:MusicNet", "zounds/datasets/phatdrumloops.py:PhatDrumLoops", "zounds/datasets/internetarchive.py:InternetArchive", "zounds/datasets/freesound.py:FreeSoundSearch", "zounds/datasets/predownload.py:PreDownload", "zounds/soundfile/audio_metadata.py:AudioMetaData"]}
{"id": "C101", "title": "Watching a training does not change what is learned about it", "statement": "While a trainer runs in one thread, browsers connect to and leave a TrainingMonitorApp served by another. Whatever the interleaving, the messages a browser receives are those of batches of this training whose number is a multiple of batch_frequency, in their order and none twice; each message holds epoch, batch and exactly those of the monitored keys the trainer reported; after a browser is unregistered it receives nothing more. If browsers come and go only between the reports of batches (and a lost connection is unregistered before the next report), the training never ends by an exception, every browser receives every such batch from its arrival on, and the history of the monitor is that of all batches; a training nobody watches always comes to its end. The supervised, GAN and triplet monitors show exactly the values their trainers report. Refuted: a browser that arrives or leaves while a batch is being reported ends the training with a RuntimeError, a connection that is lost shortly before a report ends it as well, and so does a key whose value json cannot write.", "quantifier": "all interleavings of training steps, connections, losses and closings of any number of browsers; all sequences of batch reports, keys, frequencies and other callbacks", "why_tests_cant": "The failing schedules have the width of one dictionary iteration and the claims range over all interleavings of two threads and all numbers of clients; a test observes one timing.", "anchors": ["zounds/ui/training_monitor.py:TrainingMonitorApp.training_handler", "zounds/ui/training_monitor.py:TrainingMonitorApp._collect_training_history", "zounds/ui/training_monitor.py:SupervisedTrainingMonitorApp", "zounds/ui/training_monitor.py:GanTrainingMonitorApp", "zounds/ui/training_monitor.py:TripletEmbeddingMonitorApp", "zounds/learn/trainer.py:Trainer.on_batch_complete", "zounds/learn/trainer.py:Trainer.register_batch_complete_callback", "zounds/learn/trainer.py:Trainer.unregister_batch_complete_callback"]}
{"id": "C102", "title": "An application is there exactly as long as its with block", "statement": "with app.start_in_thread(port): body, followed by further such blocks or by app.start(port). In every interleaving of the main thread and the threads of the applications in which a block is not left before its server listens: no block raises, none waits for ever, the port answers from the moment the loop runs until the block is left, and after the block the loop is idle, no thread is at work, the port is free and no other application has changed, so that blocks can follow one another on any ports, and start answers for ever. Refuted: a block left before the thread has come to listen raises AttributeError and leaves the port taken though nobody answers; a block inside another one stops the loop of both (the outer port no longer answers while its body still runs), a stop request is left over which makes the next start return at once, and on the port of the outer block the inner one raises AttributeError.", "quantifier": "all interleavings of the main thread and the application threads; all lengths of bodies, all sequences of blocks, applications and ports", "why_tests_cant": "Which thread runs next is not under the control of a test; the failing schedules are a race between the body and app.listen.", "anchors": ["zounds/ui/baseapp.py: BaseZoundsApp.start_in_thread, __enter__, __exit__, _start, start"]}
{"id": "C103", "title": "Times computed in 64-bit integers and doubles are the exact times", "statement": "Durations made with Hours(n) ... Picoseconds(n), whatever their units, compare, add, subtract and multiply as the times they denote while the results stay below 2^63 picoseconds (106 days). Slicing a signal by a TimeSlice or by a slice of durations (of mixed units, from the beginning or the end, open or closed), windowing its time dimension, samples_per_second, multiplying a SampleRate and discrete_samples give what exact arithmetic gives for all times below 2^53 picoseconds (2.5 hours; sample rates: 2^52), unless the end overlaps a sample by almost exactly 1/200 of the period. In particular a slice that starts and ends at samples a and b selects exactly the samples a to b-1. Refuted: beyond 2.5 hours a slice on sample boundaries selects a sample too many; a duration or signal above 106 days counts as negative; a fraction of a unit given to a constructor is dropped, so Seconds(0.5) is no time at all; the tolerance of 1/200 depends on the position.", "quantifier": "all durations, units, sample rates, sizes and slices in the stated ranges", "why_tests_cant": "The claim ranges over all 64-bit counts and all roundings; the failing inputs are single sample positions in hours of audio.", "anchors": ["zounds/timeseries/duration.py: Hours, Minutes, Seconds, Milliseconds, Microseconds, Nanoseconds, Picoseconds", "zounds/timeseries/timeseries.py: TimeDimension.integer_based_slice, span, end, modified_dimension", "zounds/timeseries/samplerate.py: SampleRate.__mul__, discrete_samples, samples_per_second"]}
{"id": "C104", "title": "The gradient penalty of the GAN trainer charges gradients that are not of length one", "statement": "For every batch of real and fake examples of the same number of numbers, the penalty WassersteinGanTrainer adds to the critic's loss is taken at examples that lie between a real and a fake one (one place on the segment for a whole example), derives the critic there, and for vectors is the mean over the examples of 10 (length of the critic's gradient - 1)^2: nothing exactly when every gradient has length one, and a small penalty bounds how steep the critic is at every example. Refuted: for signals of shape (batch, channels, time) the length is taken over the channels at each point in time, so a critic whose every example has a gradient of length one is always charged and one that is not charged has gradients of length sqrt(time); and for critics that look at the whole batch (batch normalisation) only the gradient of the summed scores counts, so a critic with slope one everywhere can be charged as if it were flat.", "quantifier": "all batches, shapes, random places, and all critics that have partial derivatives where they are looked at", "why_tests_cant": "The claim is about the derivatives of an arbitrary critic at random points.", "anchors": ["zounds/learn/wgan.py: WassersteinGanTrainer._gradient_penalty"]}
{"id": "C105", "title": "A rainbowgram shows how loud each coefficient is and how fast its phase turns", "statement": "For every time-frequency representation of at least two frames and two bins a rainbowgram has one triple of colours for each coefficient, a colour for its hue times its brightness. The hue is the advance of the phase from frame to frame, whatever the magnitudes, on a scale from 0 for the slowest to 1 for the fastest in the picture, as long as phases move by less than half a turn from frame to frame; for steadily turning bins it is the same in every frame. Scaling the signal does not change the hue. Brightness is between 0 and 1, grows with the size of the real part, and both ends are reached. Refuted: brightness shows the magnitude (it ignores the imaginary part; when all real parts are of one size every colour is not-a-number), bins that all turn alike have no hue, and the sounds of a GAN experiment are scaled by their largest sample before the picture is made, so that a negative peak leaves them above 1.", "quantifier": "all representations (frames, bins, coefficients) and all colour maps", "why_tests_cant": "Phase unwrapping has to be right for every sequence of angles; the one test looks at shapes.", "anchors": ["zounds/spectral/functional.py: rainbowgram", "zounds/loudness/loudness.py: log_modulus, unit_scale", "zounds/learn/gan_experiment.py: GanExperiment._stft"]}
{"id": "C106", "title": "Sizes that are a fraction of a length, and the frequency bands of the learn package", "statement": "A factor of a length is the whole number below their product: exactly for factors the machine can represent or rounds up (halves, quarters, fifths, tenths), never more than one less, monotone in the factor, everything for 1 and nothing for 0. frequency_decomposition of the learn package makes one band per factor, whatever the order of the factors; together the bands cover the coefficients up to the largest factor, each coefficient in one band, each band has as many samples as its factor of the signal, is the sum of the cosines of its coefficients and is silent exactly when the signal has nothing in its range; resampling to more samples keeps the energy of the coefficients, and the coefficients of a zero slice do not sound; the bands of a sum are the sums of the bands. Held out examples and training examples make up the data. Refuted: 29 hundredths of 100 examples are 28, the bands have the energy of the signal (first samples count more: a single band of everything is the signal with its first sample doubled), two factors that keep equally many coefficients are told apart (the second band is silent), the axis argument chooses the axis that is transformed (along the first of two axes a transform is an error unless the array is square, resampling cuts rows off or adds silent ones, and the bands are stretches of rows), a factor that keeps no coefficient or more than there are works (errors).", "quantifier": "all factors, lengths and signals", "why_tests_cant": "There is no test of this decomposition; where the product of a rounded factor and a length falls short of a whole number depends on both.", "anchors": ["zounds/learn/dct_transform.py: DctTransform.frequency_decomposition, DctTransform.dct_resample", "zounds/learn/supervised.py: SupervisedTrainer.train", "zounds/spectral/frequencyadaptive.py: FrequencyAdaptive.square"]}
{"id": "C107", "title": "Times of range requests and of the answers to them, with the numbers of the machine", "statement": "A range request that names its times as decimals of seconds (whole picoseconds, up to 1125 seconds) begins at the picosecond it names or one before (before only if the machine's number is below the decimal), never later, and exactly there if the machine represents the decimal; its duration is the distance of its two ends or one picosecond less and never negative; whole seconds are exact as long as a 64-bit count of picoseconds holds them. The answer states the beginning and the whole each rounded once, and the end within two roundings; without an end the whole. The beginning an answer states, asked for again, is the same place or one picosecond before. Refuted: 1.001 seconds is 1001 milliseconds; a request for exactly one sample gets that sample; requests that meet leave no gap; asking for the stated beginning again and again stays in place; an empty slice is stated as empty (it is written as the whole); more than 9223372 seconds is an answer that cannot be satisfied (OverflowError).", "quantifier": "all decimal times, slices and totals within the bounds", "why_tests_cant": "Whether the product of a rounded decimal and 10^12 falls below the whole number depends on every digit; tests use round numbers.", "anchors": ["zounds/ui/contentrange.py: RangeRequest.time_slice, ContentRange.from_timeslice, ContentRange.__str__"]}
{"id": "C108", "title": "Boolean masks read and assign exactly the entries they select", "statement": "Indexing an array with units by a boolean array of the shape of its first axes gives a plain array: one row per true entry of the mask, in row-major order, each the entry (or sub-array) at that place; a mask of all axes gives the entries where it is true; a mask and its negation together give every entry once; a mask of another shape is an IndexError. Assigning through a mask changes exactly the selected entries to the value's entries (broadcast, in the same order) and keeps units; what was assigned is read back, assigning what was read changes nothing, and assigning a number where a condition holds replaces exactly those entries. A list of booleans selects like the list of the positions where it is true: the first axis loses its units, the other axes keep theirs. A mask before an Ellipsis selects the same frames. Refuted: assigning through a mask array when the first axis is a frequency axis (AttributeError; a list works); an empty list of booleans selects nothing (IndexError); a mask before an Ellipsis on a time axis keeps true times (the frames are labelled as neighbours, so a frame after a gap is labelled too early), and on a frequency axis it raises.", "quantifier": "all arrays, masks and values", "why_tests_cant": "Tests use one mask per shape; order, complement and labels depend on where every true entry lies.", "anchors": ["zounds/core/axis.py: ArrayWithUnits.__getitem__, ArrayWithUnits.__setitem__, ArrayWithUnits._tuplify, ArrayWithUnits._compute_indices, ArrayWithUnits._new_dims", "zounds/spectral/tfrepresentation.py: FrequencyDimension.integer_based_slice"]}
