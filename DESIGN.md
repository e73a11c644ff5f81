# Formal model of zounds in Rocq (Coq 8.16.1)

## How the development is organised

* `rocq/theories/` is flat.  For each topic `X` there are up to three kinds of file:
  `X.v` (the executable model: only definitions, each with the `/repo` file and
  lines it models), `XProofs.v` (specification, lemmas, non-vacuity examples)
  and `PropsX.v` (property theorems only, each followed by `Print Assumptions`).
* `PyBase.v`, `PyMore.v`, `PyRange.v` fix the meaning of the Python constructs: exceptions
  as values, Python/numpy slice semantics, floor division, round-half-even, stable sort,
  `range`.  `PyFacts.v` has lemmas about them.
* Property names carry the id, e.g. `C01_windowed_partition`.
* A claim the code violates has a theorem ending in `_refuted` with a concrete
  witness (or for every input of a kind), and beside it the strongest true statement we
  found (which carries the suffix `_partial` when it covers only a part of the property).
* `properties.jsonl` states the properties, `MANIFEST.json` (generated by
  `tools/mk_manifest.py`) says which theorems prove which, `seeded/LOG.jsonl` records the
  wrong programs the theorems were tried against (`tools/mutate.py`).

| topic | model | proofs | properties |
|-------|-------|--------|------------|
| windowing, sliding window node | Windowed, SlidingNode, NdWindow | WindowedProofs, SlidingNodeProofs, NdWindowProofs | C01-C04 |
| growable arrays, packed bits | Growable, Bits | GrowableProofs, BitsProofs | C05, C06 |
| hamming database and index | HammingDb, Index | HammingDbProofs, IndexProofs | C07-C12 |
| time | Time | TimeProofs | C13-C18 |
| arrays with units | Axis | AxisProofs | C19, C20 |
| frequency bands, scales, dimensions | Freq, FreqDim | FreqProofs, FreqScaleProofs, FreqDimProofs | C21-C29, C56 |
| variable rate series, persistence | Vrts, Persist | VrtsProofs, PersistProofs | C30-C34 |
| learning: pipelines, preprocessors, sampling, training | Pipeline, Preproc, Reservoir, Trainer | PipelineProofs, PreprocProofs, ReservoirProofs, TrainerProofs | C35-C40, C55, C57, C58 |
| streaming nodes, audio, midi | Nodes, Audio, Midi | NodesProofs, AudioProofs, MidiProofs | C41-C44, C53, C54, C59-C62, C73 |
| web user interface | Ui | UiProofs, Ui2Proofs | C45, C46, C63-C65 |
| loudness, spectral transforms, synthesis | Spectral | SpectralProofs, TransformProofs, WindowProofs, OverlapProofs, ReconProofs, SynthProofs | C47-C49, C66-C69 |
| scales applied to spectra, chroma, weighting | ScaleBasis, Weighting | ScaleBasisProofs, ChromaProofs, WeightingProofs | C70-C72 |
| resampling, frequency decomposition, square form, phase shift | Resample, Decompose, Square, PhaseShift | ResampleProofs, DecomposeProofs, SquareProofs, SquareProofs2, PhaseShiftProofs | C74-C76 |
| fft, stft, time stretch, pitch shift | Stft, TimeStretch | StftProofs, TimeStretchProofs to TimeStretchProofs5 | C77, C78 |
| frequency-adaptive transform and synthesizers | FreqAdapt | FreqAdaptProofs, FreqAdaptProofs2, FreqAdaptProofs3 | C79 |
| sine, tick, noise and silence synthesizers; double precision | Float64, Synths | Float64Proofs, SynthsProofs | C80 |
| losses, helpers for networks | Loss, NetUtil | LossProofs to LossProofs3, NetUtilProofs | C81, C82 |
| whole arrays with units | Ops | OpsProofs to OpsProofs5 | C83, C84 |
| index from documents to results | Json, IndexSearch | JsonProofs, IndexSearchProofs to IndexSearchProofs3 | C85 |
| learned models: Op, versions, stored networks, scikit-learn nodes, learning graphs | Learned | LearnedProofs to LearnedProofs3 | C86 |
| endless sampling of a database; gradients and optimizers of the trainers | Sampler, Optim | SamplerProofs, SamplerProofs2, OptimProofs, OptimProofs2 | C87, C88 |
| filter banks | FilterBank | FilterBankProofs, FilterBankProofs2 | C89 |
| REPL, temporary urls, serialization of values, search page | Repl | ReplProofs, ReplProofs2 | C90, C91 |
| processing graphs: audio_graph and stft from the resampled samples on, basic nodes | Graph | GraphProofs, GraphProofs2, GraphProofs3, GraphProofs4, GraphProofs5 | C92 |
| onset graphs | Onsets | OnsetsProofs, OnsetsProofs2 | C93 |
| training chains | Training | TrainingProofs, TrainingProofs2, TrainingProofs3 | C94 |
| Ogg Vorbis encoding, resampling, metadata nodes | SoundNodes | SoundNodesProofs, SoundNodesProofs2, SoundNodesProofs3 | C95, C96, C97 |
| One HammingDb, several threads | Listening | ListeningProofs, ListeningProofs2, ListeningProofs3 | C98 |
| Graphs from the bytes on | EndToEnd | EndToEndProofs, EndToEndProofs2 | C99 |
| Datasets and their metadata | Archives | ArchivesProofs, ArchivesProofs2 | C100 |
| concat of any number of arrays along any axis | Concat | ConcatProofs | C83 |
| training watched from browsers, two threads | Monitor | MonitorProofs, MonitorProofs2, MonitorProofs3, MonitorProofs4, MonitorProofs5 | C101 |
| life of an application (threads, with block) | Lifecycle | LifecycleProofs, LifecycleProofs2, LifecycleProofs3 | C102 |
| times in 64-bit integers and doubles | Time64 | Time64Proofs ... Time64Proofs6 | C103 |
| gradient penalty of the GAN trainer | Penalty | PenaltyProofs | C104 |
| rainbowgrams | Rainbow | RainbowProofs | C105 |
| Fractions of a length; bands of the learn package; square in machine numbers | Fractions | FractionsProofs, FractionsProofs2, FractionsProofs3, FractionsProofs4 | C106, C75 |
| Times of range requests and answers in machine numbers | Range64 | Range64Proofs, Range64Proofs2 | C107 |
| Boolean masks as indices, arrays and lists, reading and assigning | Masks | MasksProofs, MasksProofs2, MasksProofs3 | C108 |
| Indexing with lists beside ints and slices | AdvIndex | AdvIndexProofs | C84 |
| The axis argument of DctTransform | DctAxis | DctAxisProofs | C106 |
| ingest of failing datasets | IngestMore | in IngestMore (see PropsIngest) | C50 |
| Reshape preprocessor, batches and chains | ReshapeMore (reshape_op of Preproc) | in ReshapeMore (see PropsReshape) | C36 |
| lists of booleans beside other elements | MasksBeside (over AdvIndex) | in MasksBeside (see PropsMasksBeside) | C108 |
| datasets | Datasets | DatasetsProofs | C50-C52 |

## Trusted base

1. Coq 8.16.1's kernel (and `coqchk`, which vcheck runs).
2. The axioms listed by `Print Assumptions`, section "Axioms" below.  All of them are the
   standard library's; they come with the real numbers (`Reals`).  No axiom, `Admitted`,
   `Parameter` or section-less `Variable` of our own.
3. The reading of the Python code: the model was written by hand, the code was
   never run.  Each definition cites its lines.
4. numpy / lmdb / scipy / torch / tornado / libsndfile primitives are modelled by their
   documented contracts; each contract is named in the comment of the definition or in the
   hypothesis that uses it.  Where a primitive is underspecified (argpartition,
   uninitialised memory, random draws, thread schedules, crash points, what the network
   answers) it is an argument over which the theorem quantifies.

General simplifications (applying everywhere unless a definition says otherwise):

* int64/uint64 overflow is not modelled (`Z` is unbounded), except in the
  persistence and hamming properties, which are about the 64-bit representation.
* float64 arithmetic is modelled by exact arithmetic (`Z`, `Q` or `R`); rounding
  error is not modelled, except in C31 and C80, which are about float64 exactness.
  C80 also justifies the exact division used elsewhere: `int(d / f)` in doubles is the exact
  integer quotient for durations below 2^53 ps (2.5 hours).  Flocq is used in proofs only.
* `np.timedelta64` values are integers counting picoseconds, except in C32-C34,
  where the unit is part of the value.
* numpy views are modelled as values (aliasing only where a property is about it).
* featureflow (the dataflow engine) enters through the contract with a node: per arriving
  chunk one `_enqueue` (or `_first_chunk`) and one `_dequeue`, `NotEnoughData` emits nothing,
  and at the end one `_dequeue` with `_finalized` set, then `_last_chunk`.

## Per property

The theorem names of each property are in `MANIFEST.json`.

| id | model | proof |
|----|-------|-------|
| C01 | `windowed` (nputil.py) branch by branch on lists with nat sizes; buffer reads are partial (None outside the buffer) | arithmetic of `_wcut`; rows = firstn/skipn; coverage |
| C02 | same with `_wpad`/`pad` | exact entries and condition; witness |
| C03 | SlidingWindow enqueue/dequeue state machine | induction on chunks, invariant cache = unread suffix |
| C04 | flat buffer + shape + strides, `as_strided` address arithmetic | induction over rank; in-bounds; lexicographic order of windows |
| C05 | Growable with cells `option A` (uninitialised memory = None) | refinement to a list |
| C06 | words as N, popcount by numpy's bit tricks; codes as lists of words | metric laws by testbit; no wrap of the accumulator |
| C07 | db as list of (id, code ++ data), in-memory store, argpartition/argsort any functions meeting numpy's contract | permutation reasoning |
| C08 | thread chunks of the score computation | induction over chunks |
| C09 | state machine over own append, external append, failed put, failed commit, search, reopen | invariant over histories |
| C10 | HammingIndex event log with crash points, restart | invariant; witnesses |
| C11 | packbits/unpackbits, 64-bit codes | bit lemmas |
| C12 | concatenation + argsort | sortedness and alignment |
| C13 | sample rates as picosecond periods | integer division |
| C14 | `integer_based_slice`: floor/ceil/round(_,2) in Z | division lemmas; witnesses |
| C15, C16 | `TimeSlice` record, `slices` | lia; induction |
| C17, C18 | `TimeDimension`, `SampleRate` over Z | ring/lia |
| C19, C20 | ArrayWithUnits: shapes, dimension lists, index expressions; numpy's indexing as a contract on shapes | induction over index tuples |
| C21-C24, C26, C27 | bands and the six scale classes over R; `bisect_left` loop | sorted lists, strict monotonicity |
| C25 | Bark/mel conversions and scales, ERB widths | Coq Reals |
| C28, C29 | FrequencyAdaptive, ExplicitFrequencyDimension | cumulative sums, induction |
| C30, C31 | VariableRateTimeSeries: stable sort, filter; float64 rounding as integer rounding to 53 bits | permutation/sortedness; error bound |
| C32-C34 | encoders/decoders: base64, 64-bit integers, JSON values, dimensions, struct 'I' header, chunks | round-trip lemmas by induction |
| C35 | Pipeline.transform / PipelineResult with steps that may raise | induction over steps |
| C36 | UnitNorm, MeanStd, InstanceScaling, Multiply, Weighted, Slicer, Reshape, KMeans over R | algebra; witnesses |
| C37 | PreprocessingPipeline node as an ordered dict | invariant over arrivals |
| C38, C39, C57 | Reservoir, MultiplexedReservoir, ReservoirSampler; random draws are arguments | invariants over histories |
| C40, C55 | the four training loops, callbacks, apply_network | induction over epochs and batches; pieces of a list |
| C41, C59, C60, C42 | peak pickers, MeasureOfTransience, Flux, Pooled, Merge as node state machines | invariants over chunkings and arrival orders |
| C43 | MemoryBuffer over a model of BytesIO | refinement to a FIFO queue |
| C44 | note names | division; finite table inside an unbounded theorem |
| C45 | Range header parsing, serializer choice, DefaultSerializer | case analysis over all headers |
| C46 | route tables, login, cookies | invariant over request histories |
| C47, C68 | mu-law, log modulus, scaling | Coq Reals |
| C48, C66 | overlap_add, FFT/DCT/MDCT synthesizers, vorbis window | sums of trigonometric series; window gain |
| C49 | DCT (learn and scipy), DCT-IV, rfft/irfft | orthogonality of cosines |
| C50 | ingest: worker pool as a small-step relation | invariant over interleavings |
| C51 | FreeSound paging, composite, directory, Internet Archive | induction over pages/files |
| C52 | ensure_local_file as a machine with crash points | invariant over steps and calls |
| C73 | MovingAveragePeakPicker's test of one row over Q | case analysis |
| C53, C54, C61, C62 | AudioSamples, OGG reading and writing in chunks, AudioStream with an abstract decoder, chunk sizes, resampled length | pieces of a list; invariants; division |
| C56 | scale slicing and `construct_from_slice` | sorted lists |
| C58 | SimHash, binarize over R | sign of dot products |
| C63 | quoting and route matching on byte strings | induction over strings |
| C64 | the REPL's syntax tree visitor | induction over statements |
| C65 | training history | induction over reports |
| C67 | centroid, flatness | Coq Reals |
| C69 | window cache, short-time DCT shape | history invariant; arithmetic |
| C70 | `_basis`, `apply`, `apply_scale` over R; windows None, number, identity, function of the size | the slice of a query is a range of bins; inner products |
| C71 | `ChromaScale._basis` with exact logarithms and round half to even | loop invariant over pitches, monotone exponentials |
| C72 | `AWeighting`, `__array_ufunc__` on arrays of any rank | minimum of a list; pointwise |
| C74 | scipy's resample as a trigonometric sum; the decomposition loop; the synthesizer | closed-form kernel of a resampling; composition of kernels; induction over the sorted sizes |
| C75 | `square`, `_resample`, the overlap-add loop over R | index arithmetic of stacked rows; the mean bounds the maximum |
| C76 | `phase_shift` on complex rows and matrices | periodic sums, rotation of a sum |
| C77 | the phase vocoder of `time_stretch`, `pitch_shift` window by window, over R | telescoping phases modulo 2 pi for every factor (C77_vocoder), frames that repeat come back whole (C77_tone), cut overlap-add, positive homogeneity |
| C78 | `fft` on 1-D, 2-D, 3-D arrays and both axes; `stft` of one signal and of a batch | trigonometric sums; windows of C01-C03; bands of C22 |
| C79 | `FrequencyAdaptiveTransform` with idct and irfft, both synthesizers, over R and pairs of reals | generic over the band transform and its inverse; slices of C21, frequency-adaptive arrays of C28; orthogonality of the two transforms |
| C80 | sizes computed with 53-bit rounding to nearest even (`fl`, Float64.v), sample values over R | `fl` is Flocq's round FLX 53 ZnearestE; relative error 2^-53, exactness of representable numbers, floor and ceiling; concrete witnesses by computation |
| C81 | the losses and RawSampleEmbedding over R, tensors as flat lists | mu-law of C47, softmax as exp/sum, index arithmetic of `view`, Cauchy-Schwarz on finite sums |
| C82 | util.py's normalisations, sizes and chunking, gated.py, multiresolution.py, sinclayer.py over R | algebra of sums and square roots; induction over the chunks; parity of kernels |
| C83 | arithmetic, sums, dot, packbits, zeros_like and concatenate of axis.py and audiosamples.py on arrays with explicit entries | induction over shapes for broadcasting; filters of all indices for sums; bit sums for packing |
| C84 | `_tuplify`, `__setitem__`, `__getitem__` of both classes on concrete arrays, with numpy's basic indexing as selectors per axis | induction over the index; injectivity of selections; positions of slices |
| C85 | index.py as a whole over HammingDb.v: opening, adding, lazy search results, random search, the JSON text stored with each code (ujson's encoder and a parser), the search page | invariant relating disk and open process to the multiset of indexed slices, preserved by every act; C07's search theorem; induction over JSON values for the text |
| C86 | preprocess.py Op, learn.py, pytorch_model.py, sklearn_preprocessor.py, graph.py, persistence/util.py: what networks and marshalled functions compute are parameters, the data flow, storage, versions and shapes around them are modelled | induction over pushed values; dict algebra; md5 as a parameter that does not collide on the two inputs compared |
| C87 | random_samples.py InfiniteSampler: contributions in 53-bit arithmetic, rounds over Reservoir.v, the shared reads and writes of a parallel round as steps of a scheduler | error bounds of `fl`; the invariant of C38; an invariant of all schedules |
| C88 | wgan.py, embedding.py, supervised.py: parameters with values, gradient buffers and requires_grad flags, torch's zero_grad, backward and step by contract, losses and Adam as parameters | simulation by a reference loop without buffers and flags; induction over iterations, batches, epochs and calls |
| C89 | functional.py:morlet_filter_bank, fir_filter_bank, auto_correlogram and learn/spectral.py:FilterBank over the reals; formulas for every tap and every output, adjointness by exchanging finite sums, the correlogram through sums over roots of unity |
| C90 | The interpreter is a parameter with arbitrary effects on user state, text streams and sys.stdout; which of eval/exec/ast.parse accepts a source is modelled. Invariant over sessions: the temporary results are those of the ids drawn so far; ids are assumed never to repeat (uuid4). |
| C91 | The list of serializers with their match conditions, slices in exact seconds; ogg and png files abstracted to what is written into them. |
| C92 | The SlidingWindow node (C39) followed by the per-chunk nodes, each chunk in turn; every feature is proved to be a closed-form function of the windows, hence independent of the cut up to a last row; double arithmetic for the DCT's sample rate |
| C93 | the transience / moving-average / peak-picking graph modelled over the windowed-node model, chunk lists arbitrary; equations for transience and the threshold, the set and order of onset times, the slices between them, and refutations for the end of the sound, the `Stride(1,n)` span and `with_onsets` |
| C94 | the `_process` methods, Ops, inversion data and exception handling of twelve preprocessors as a chain over matrices of reals, composed with the Pipeline model of C35 and the PreprocessingPipeline model of C37; induction over the chain, the batches and the chunks; uninitialised memory is an argument of every Op call |
| C95 | OggVorbis as a node with decoder, membuf and encoder; invariant: bytes handed on plus bytes waiting are what the encoder wrote, frames read are frames written |
| C96 | Resample's output buffer (squeeze included) and the threaded converter state; induction over the chunks |
| C97 | MetaData's dispatch and the encoder's dictionary; case analysis over every source |
| C98 | every thread a program counter, one shared access per step, any scheduler; invariant over all runs; wrong schedules constructed for every database |
| C99 | AudioStream, Resampler, SlidingWindow, FFT and the feature nodes composed; the decoder a parameter that only has to keep what it has decoded; the transform of stacked chunks is the stack of the transforms |
| C100 | tar archives, JSON tables and dicts with Python's update and keyword rules; os.path.split/splitext on characters; the dicts of the Internet Archive are updated in place as in the code and the loop invariant says how |
| C101 | TrainingMonitorApp's websockets, history and keys, the trainer's dict of callbacks and its iteration as a transition system of two threads; invariants by induction over schedules; a variant for the end of an unwatched training |
| C102 | two kinds of threads (main, applications) as a small-step system over the shared IOLoop, the servers and the scripts; schedules are lists of turns. Invariant of a with block with a decreasing measure gives no exception, termination and a clean end for every schedule; composition lemma (a run of a script is a run of its first part and then of its rest) gives sequences; refutations by parametric schedules |
| C103 | timedelta64 as count and unit with wrapping arithmetic and not-a-time; TimeDimension and SampleRate over these, quotients in doubles. Refinement: each operation of Time64 is proved equal to that of Time on the picosecond values, by Flocq's error bound (a quotient of integers below 2^53 lies on the same side of every integer as the exact one, below 2^52 of every half integer); witnesses computed in the kernel beyond the range |
| C104 | flat tensors with shapes over the reals, torch.grad as a parameter specified by partial derivatives (derivable_pt_lim); proved by deriving the sum of the scores example by example |
| C105 | np.angle, np.unwrap and np.gradient over the reals on a grid of coefficients; unwrapping is proved to recover any phase with steps below half a turn, by induction on the frames |
| C106 | Doubles as rationals with correct rounding; a product of two roundings is within 3 units of the exact one, less than the gap to the next whole number; sizes are sorted in place of factors; energies by orthogonality of rows and columns of the basis |
| C107 | Doubles as rationals with correct rounding; float() of a text taken as the nearest double; 10^12 times a rounded decimal is within one of the picosecond it names, so truncation gives it or the one before; the answer's ends are roundings, so asking again loses at most one more |
| C108 | Arrays with explicit entries; the true places of a mask in row-major order; a place's rank is the number of true entries before it; counting lemmas on filters give order and exhaustiveness |

## Defects of the code that the proofs exposed

Each is a theorem ending in `_refuted` (or part of a characterisation) unless marked.

* Windows: `windowed(dopad=True)` drops samples when (length mod step) > window - step; the number of frames of the SlidingWindow node depends on the chunking when the step divides length - window, and a step larger than the window loses its phase.
* Growable: a position beyond the physical size makes append fail.
* Hamming search: a failed commit leaves a phantom entry; HammingIndex cannot be restarted under Python 3 (str key into a bytes database) and loses slices after a crash in the middle of a document.
* Time: rates above 10^6 may be misreported; overlaps below 1/200 of a sample are dropped, 3 s at 44.1 kHz select 132301 samples; intersections of TimeSlices start at 0 and disjoint ones do not raise; open slices need a sized dimension.
* Arrays with units: `None` before a unit slice translates with the wrong dimension; `[:0:-1]` on a time axis loses its step; numpy integers or two lists as index, windows of one sample and squeezing an empty array are errors.
* Frequency: one-band LinearScale raises; ExplicitScale equality is the prefix relation; slices of Bark and Mel scales never have the selected bands; duplicate bands collapse in FrequencyAdaptive; ExplicitFrequencyDimension keeps old column offsets after slicing; an empty Hertz slice is an AttributeError.
* Scales and weighting: see the notes of C70-C72 in MANIFEST.json (default window, real part only, neighbours summed twice, chroma classes shifted by one semitone, cut bands silenced).
* Persistence: series beyond 2^53 ps are inexact; negative durations and open slices cannot be read back / written; zero-byte rows, frequency-first arrays in several chunks and non-standard audio rates fail to decode; PackedArrayWithUnitsFeature's constructor is a TypeError (not modelled).
* Learning: UnitNorm of zero rows returns uninitialised memory, its 1-D inverse is n x n; MeanStd loses constant features; Reservoir collisions and negative indices; unequal batches misalign MultiplexedReservoir; Trainer and TripletEmbeddingTrainer run one epoch too many; SupervisedTrainer swaps train and test error; ReservoirSampler keeps a prefix of each chunk; chunked application of a network to nothing is an error.
* Nodes and audio: MovingAveragePeakPicker needs 4 columns and tests the peak one column early; Flux always raises; Merge loses zero-width rows; MemoryBuffer's absolute seek is wrong after trimming; mono(stereo(x)) = x/2; stereo of 3 channels swaps axes; silence_like is all ones; pad_with_silence fails on stereo; iter_chunks skips a sample after 535 s at 44.1 kHz; resampled length depends on the chunking.
* Web interface: closed byte ranges miss the last byte, `bytes=0-0` returns everything, suffix ranges are ignored, 416 is never sent; PATCH, patterns containing "login" and an empty secret are unprotected, coroutine handlers never run when secured; a document called "temp" is shadowed; the monitors' default base path leads nowhere; the training history keeps n+1 values.
* Spectral: the learn DCT round trip doubles the first sample; DCTIV is not invertible; the normalised vorbis window gives a gain g, 1 < g <= 1 + 128/n^4; the default DCTSynthesizer ripples; odd windows lose a sample; unit_scale of a constant is nan; the spectral centroid scales with loudness; the window cache ignores the window function.
* Decomposition: `FrequencyDecompositionSynthesizer.synthesize(x, bands=[])` synthesizes every band; `FrequencyAdaptive.square(.., do_overlap_add=True)` is only right without overlap or half-lapped; phase_shift delays half spectra by nearly twice the time asked for and is wrong along any axis but the last.
* fft and stft: zero-padding works for 2-D arrays only, axis=0 only for arrays that happen to have the right number of columns; at 11025 Hz the last coefficient lies above the scale; `stft` without a window function always raises, and in batch mode drops the last frame the one-signal form has.
* time_stretch: a factor of 1 amplifies (gain above 1.07), the first sample is always 0, the default frames at 48 kHz are read 558 and put back 557 samples apart; pitch_shift shortens long signals unless 1024 * factor is whole.
* Frequency-adaptive: bands that meet at a multiple of the bin width both take the bin below the border, which comes back doubled; the Fourier variant loses the imaginary part of every band's first and last bin and refuses bands of one bin; np.hanning silences the lowest and highest bin; a window of 23 ms at 44.1 kHz has 1015 samples but the synthesizer expects 1014.
* Synthesizers: 350 ms of noise at 44100 Hz are one sample short, ticks 30 ms apart start every 1322 instead of 1323 samples and drift, ten seconds of 240 Hz have 441001 samples and cannot be mixed with 440 Hz, ten minutes of silence are one sample longer than ten minutes of noise.
* Losses and networks: CategoricalLoss reads the scores of raw samples at transposed places and compares a truncated with a nearest category; RawSampleEmbedding always raises (n+1 categories into a layer of n inputs); the gradient penalty of signals is per sample; sample_norm fails or mixes items on images; SincLayer's initial frequencies are reciprocals (lower bands highest).
* Arrays with units: an array with fewer axes on the left loses the units of the right one; a repeated axis keeps its old size; `sum` over all named axes is an AttributeError and a total with keepdims keeps the old dimensions; `sum(axis=-1)` of channels is not AudioSamples though `sum(axis=1)` is; `dot` with a matrix labels the new axis with the summed one (or fails) and always fails on AudioSamples; `packbits` fails along frequency and falsifies time; concatenation along frequency fails; subtraction of signals of different rates is accepted; `samples[::k]` keeps the rate; one channel of several is no longer AudioSamples; an empty list or an integer array as index fails; `duration_in_seconds` is one sample period for every signal.
* HammingIndex: `len()` of an index opened before the database exists stays 0 while other processes add; `random_search` of an initialised but empty database loops for ever; the search page raises for every query (`base64.b64encode` gives bytes, which `json.dumps` rejects; with extra data, results are triples that the serializer unpacks as pairs) (C85).
* Learned models: Op loses default arguments and closures; its version ignores argument names, hashes networks by address, and a str `version` is a TypeError; the out-of-memory fallback needs Python 2; networks whose `__init__` takes a module cannot be stored (KeyError); a restored PyTorchNetwork's inverse raises TypeError instead of NotImplementedError; the Op keeps neither chunksize nor post_training_func; a Gan node passes on the discriminator's labels even when its Op generates; SklearnModel fails on zero examples; WithComponents drops the mean; model_hash is a TypeError on Python 3 (C86).
* InfiniteSampler: threads of the first round may each allocate the array, losing rows whose slots then read as zeros; a whole share may be rounded down (98 samples, 1/49: one); one empty document ends the sampling (C87).
* Trainers: WassersteinGanTrainer unfreezes parameters the user froze, and with n_critic_iterations=0 raises UnboundLocalError after the first generator step; TripletEmbeddingTrainer starts Adam afresh at every checkpoint; a RuntimeError in SupervisedTrainer becomes an AttributeError (C88).
* Filter banks: scipy's morlet spans kernel_size - 1 steps while `w` is computed with kernel_size, so every filter is tuned to f K/(K-1) (C89_carrier_refuted); FilterBank.transform's rows start half a pooling window before the time their dimension gives (C89_transform_early_refuted), pooling counts the padding (C89_pool_edge_refuted), one band is a ValueError because of squeeze (C89_transform_single_refuted); with even kernels forward normalises over one position more than it returns (C89_forward_even_refuted).
- serializer.py:274: base64.b64encode returns bytes, json.dumps raises TypeError: every search page request is a 500 (C91_search_page_refuted).
- api.py:105: an expression that raises SyntaxError while running is run again by exec (C90_run_twice_refuted); a leading blank makes an evaluated expression a 400 (C90_indented_refuted).
audio_graph stores one row more or less depending on the chunk size when the last window ends exactly at the last sample (C92).
DCT and DCTIV compute the sample rate by truncating a double: at 16 kHz some windows (35 ms) give 15999 and raise ValueError, while FFT works (C92).
Max with its default axis=0 gives one row per chunk, so its output depends on the chunk size; Sum always raises TypeError, since it calls np.sum without the array (C92).
A Hanning window of even size on integer samples gives all zeros, since the window is cast to the samples' type (C92).
HalfLapped() at 96 kHz is a window of 4459 samples with a hop of 2230, not half-lapped (C92).
- `zounds/basic/audiograph.py: with_onsets` (ComplexDomain) always raises AttributeError: it reads `data.frequency`, which ArrayWithUnits does not have (C93_with_onsets_refuted).
- `scheme * Stride(1, n)` over half-lapped frames spans n+1 frames, not n (C93_stride_refuted).
- The slices produced from onsets stop several frames before the end of the sound, and where they stop depends on how the sound is chunked (C93_end_refuted).
- `np.divide(..., where=...)` without `out` in MeanStdNormalization, UnitNorm and InstanceScaling returns uninitialised memory where the divisor is 0, so a trained chain need not reproduce its own training data (C94_skipped_refuted).
- AbsoluteValue, Sharpen and Binarize swallow every exception in training; `Sharpen()` with its default kernel trains without complaint and its pipeline raises TypeError on every input (C94_hidden_failure_refuted).
- The documented learning pipeline (MeanStdNormalization fed with the iterator of documents) trains one pipeline per document; none has the statistics of the dataset (C94_dataset_statistics_refuted).
- `Resample.__call__`: an output of one frame is squeezed to a scalar (TypeError) or, with several channels, to an array whose len is the number of channels, which libsamplerate takes for the number of frames it may write (C96_one_frame_refuted).
- `MetaData._process`: 'range' is looked up case-sensitively while `Range` is written (C97_range_refuted).
- `OggVorbis` on an empty stream: AttributeError at the end (C95_nothing_refuted).
- `HammingDb._np_code` writes one shared buffer without a lock: a search and an append in two threads take each other's code, the document keeps the wrong code in memory (C98_wrong_query_refuted, C98_wrong_code_refuted).
- `HammingDb.append` makes the entry searchable in memory before its transaction commits: a search that finds it fails with TypeError (C98_uncommitted_refuted).
- `HammingDb._catch_up_on_in_memory_store` and `append` in two threads write the same row and then count two: one entry is lost, one row is garbage (C98_lost_entry_refuted).
- `resampled` of a file whose rate is not the graph's depends on how its bytes arrive, down to no samples at all (C99_cut_refuted).
- `MusicNet` opens its csv with 'rb': csv.Error on every iteration, no sound is ever described (C100_musicnet_refuted).
- `PhatDrumLoops` applies a str pattern to `resp.content` (bytes): TypeError on every iteration (C100_phat_refuted).
- `InternetArchive` writes the user's attributes into the archive's own dicts: an attribute named `source` makes later files fail with AttributeError (C100_archive_source_refuted).
- C101: Trainer.on_batch_complete iterates over a dict that the web server's thread changes: a browser that opens or closes the training websocket during a report ends the training with a RuntimeError; a lost connection that on_close has not yet unregistered ends it with a WebSocketClosedError; epoch_key and batch_key of TrainingMonitorApp are never read.
- `BaseZoundsApp.__exit__` uses `self.server`, which the thread sets: a with block shorter than the start of the thread raises AttributeError and the port stays taken with nobody answering; all applications share one IOLoop, so leaving an inner with block stops the outer application, and the outer's own stop request is left for the next start, which returns at once (C102_short_block_refuted, C102_nested_refuted, C102_leftover_refuted).
- Slices of signals longer than 2.5 hours on exact sample boundaries can include the sample before (48 kHz, sample 432345573: C103_beyond_refuted); `Seconds(0.5)` is a duration of zero (C103_fraction_refuted); durations above 106 days compare as negative with picoseconds (C103_long_duration_refuted).
- wgan.py:99: `gradients.norm(2, dim=1)` is the length over the channels at each time, not the gradient of each sample as documented; a critic with unit gradients is charged (C104_signals_refuted).
- spectral/functional.py:250: rainbowgram takes `abs(x.real)` for the magnitude; purely imaginary coefficients are black, or everything is not-a-number (C105_brightness_refuted).
- gan_experiment.py:112: `samples / np.abs(samples.max())` is not peak normalisation (C105_experiment_scale_refuted).
- DctTransform.frequency_decomposition and dct_resample double the first sample, silence a band whose factor keeps no more coefficients than the one before, and raise for factors that keep none or too many; int(holdout_percent * len(data)) and square's hop are one short for some fractions (0.29 of 100, 15/22 of 22) (C106, C75)
RangeRequest.time_slice truncates 1e12 * seconds: 1.001 s is one picosecond short, a request for exactly one sample (1001 at 16 kHz) gets two, requests that meet leave a gap; an empty slice is written as the whole file; more than 9223372 s raises OverflowError (C107)
Assigning through a boolean array fails when the first axis is a FrequencyDimension (the mask is taken for a band); a mask before an Ellipsis keeps a TimeDimension as if the selected frames were neighbours (C108)
`array[i, :, [k, ...]]` on three axes labels the listed positions as time and leaves the time axis without a unit: numpy moves the paired axes to the front when a slice stands between an int and a list, `_new_dims` does not (C84_time_label_refuted).
DctTransform takes sizes from the axis it is given but transforms along the last: with axis=0, dct fails unless the array is square, dct_resample cuts rows off or adds silent rows, frequency_decomposition deals the rows out to the bands (C106).
* An exception of the dataset's own iterator ends a parallel ingest() as if the dataset had ended there: nothing is raised and the rest is lost (C50_rest_of_dataset_lost_refuted); with processes an item that cannot be pickled is passed over without a word (C50_unpicklable_lost_refuted).
* Reshape with a -1 raises for a batch without examples, and without a -1 accepts any shape for it, also one that no example fits (C36_reshape_nothing_refuted, C36_reshape_misfit_refuted).
* A list of booleans behind an integer and a slice exchanges the axes while the dimensions stay, so the times label the selected columns; two lists of booleans with as many true places raise (C108_columns_times_refuted, C108_two_lists_refuted).
* Datasets: single-threaded ingest does nothing; duplicate urls race; FreeSound yields n+1 results and wraps around; a cached download is never checked and a truncated file is served for ever; DataSetCache always raises.

## Not modelled

Neural-network training itself (torch, autograd, `learn/gan_experiment.py`), network
access itself, the featureflow dataflow engine (only its contract with nodes), tornado's
internals, libsndfile/libsamplerate/ffmpeg, HTML and JavaScript generation, matplotlib
rendering, the vorbis codec, PhatDrumLoops and MusicNet page parsing.

## Seeded bugs

`tools/mutate.py` copies the development, applies one edit to one definition, rebuilds
everything that depends on it, admits (in the copy only) every lemma whose proof no longer
checks, and reports the property theorems that then rest on an admitted lemma.  A theorem
counts as failed even if only its proof script breaks; edits that leave a claim true (marked
"control" or "a fix") are used to see that.  `seeded/LOG.jsonl` has one line per attempt; the
theorems added because an edit survived are in its `tightened` field.

## Axioms

What `Print Assumptions` lists for each property theorem (generated by `tools/axioms.py`):

<!-- axioms begin -->

**No axioms (closed under the global context)** — 626 theorems: 
C01_windowed_any_step, C01_windowed_default_step, C01_windowed_errors, C01_windowed_one_sample, C01_windowed_partition, C02_windowed_padded_count, C02_windowed_padded_exact, C02_windowed_padded_uses_all_refuted, C03_gapped_windows_refuted, C03_sliding_window_chunking_partial, C03_sliding_window_chunking_refuted, C04_entries, C04_sliding_window_arguments, C04_sliding_window_flatten, C04_sliding_window_rank_mismatch, C04_sliding_window_too_large, C04_sliding_window_view, C05_growable_is_a_list, C05_growable_new, C05_growable_no_realloc, C05_growable_position_unchecked, C05_growable_rejects_rate, C06_hamming_distance, C06_packed_hamming_distance, C06_packed_metric, C07_search_nearest, C08_threads_scores, C08_threads_search, C09_append_wrong_size, C09_commit_failure_refuted, C09_open_rejects, C09_view_follows_database, C100_archive, C100_archive_no_format, C100_archive_ogg, C100_archive_source_refuted, C100_archive_unreadable, C100_freesound, C100_freesound_missing, C100_json, C100_metadata, C100_metadata_request, C100_metadata_twice, C100_musicnet_as_text, C100_musicnet_no_id, C100_musicnet_refuted, C100_name, C100_name_bare, C100_nsynth, C100_nsynth_address, C100_nsynth_content, C100_nsynth_json_directory, C100_nsynth_no_index, C100_nsynth_unknown, C100_nsynth_unreadable, C100_phat_refuted, C100_predownload, C101_alone, C101_alone_ends, C101_client, C101_close_refuted, C101_closed, C101_delivered, C101_ended, C101_frequency_zero, C101_gan, C101_history, C101_left, C101_lost_refuted, C101_message, C101_message_numbers, C101_message_opaque, C101_opaque_refuted, C101_open_refuted, C101_supervised, C101_triplet, C101_visit_refuted, C102_answers, C102_goes_on, C102_leftover_refuted, C102_nested_refuted, C102_one_start_lost, C102_same_port_refuted, C102_sequence, C102_serve, C102_short_block_refuted, C102_with, C103_audio_rate, C103_beyond_refuted, C103_constructor, C103_constructor_below, C103_constructor_too_long, C103_difference, C103_dimension, C103_dimension_no_time, C103_equal, C103_fraction_refuted, C103_less, C103_long_duration_refuted, C103_long_signal_refuted, C103_multiple, C103_no_size, C103_rate_multiple, C103_schemes, C103_slice_contains, C103_slice_contains_slice, C103_slice_end, C103_slice_equal, C103_slice_hash, C103_slice_intersection, C103_slice_less, C103_slice_shift, C103_sum, C103_tolerance_refuted, C103_windowing, C103_wraps_refuted, C105_experiment_empty, C106_empty_axis, C106_first_axis_refuted, C106_last_axis, C106_no_samples_refuted, C106_size_refuted, C107_empty_written_refuted, C107_example, C107_gap_refuted, C107_millisecond_refuted, C107_sample_refuted, C107_stated_open, C107_too_far_refuted, C107_wander_refuted, C108_before_axes_times_refuted, C10_crash_mid_document_refuted, C10_first_run_exact, C10_nothing_else, C10_restart_complete_partial, C10_restart_exact_partial, C10_restart_python3_refuted, C10_single_slice_documents_safe, C11_bytes_and_others, C11_query_roundtrip, C11_uint64_codes, C11_uint64_codes_distinct, C12_brute_force_nearest, C13_audio_rate_exact, C13_audio_rate_iff, C13_audio_rate_refuted, C13_audio_rate_rejects, C13_audio_sample_rate_lookup, C13_nearest_rate, C13_nyquist, C14_consecutive_slices_partition, C14_negative_slice, C14_open_slice, C14_open_slice_refuted, C14_overlapped_sample_dropped_refuted, C14_python_slice, C14_slice_on_boundaries, C14_slice_selects_overlapping, C14_three_seconds_44100_refuted, C14_whole_seconds_iff, C15_bounds, C15_contains_instant, C15_contains_slice, C15_disjoint_error_refuted, C15_equal_hash, C15_equality, C15_intersection_duration, C15_intersection_refuted, C15_intersection_start_zero, C15_order, C15_shift, C15_units, C16_slices_adjacent, C16_slices_tile, C17_defaults, C17_slice_keeps_sampling, C17_window_covers, C17_windowed_span, C17_windowing_composes, C17_windowing_total, C18_mul_is_windowing, C18_mul_then_discrete, C18_nonpositive_rejected, C18_schemes, C19_construction, C19_reduction, C19_reduction_all_axes_refuted, C19_reshape, C19_squeeze, C19_squeeze_empty_refuted, C19_transpose, C19_window_of_one_refuted, C19_windowing, C19_windowing_empty, C19_windowing_identity, C19_windowing_identity_whole_refuted, C19_wrong_number_of_dimensions, C20_list_slice, C20_slice_positions_down, C20_slice_positions_up, C28_columns_partition, C30_concat, C30_construction, C30_end_refuted, C30_mixed_shapes, C30_mixed_types_refuted, C30_series_determined, C30_slice_rows, C30_slicing, C30_span, C30_span_starts_first, C31_error_bound, C31_long_refuted, C31_no_duration_refuted, C31_roundtrip_partial, C32_negative_refuted, C32_negative_start_refuted, C32_open_slice_refuted, C32_time_dimension, C32_timedelta, C32_timeslice, C34_audio_rate, C35_halves, C35_inverse, C35_inverts, C35_pick, C35_split, C35_transform, C36_reshape_batches, C36_reshape_chain, C36_reshape_example, C36_reshape_examples, C36_reshape_misfit_refuted, C36_reshape_nothing_any, C36_reshape_nothing_refuted, C36_reshape_other_number, C36_reshape_roundtrip, C36_reshape_rows, C37_any_order, C37_incomplete, C37_one_pipeline, C37_step, C38_at_most_n, C38_batch, C38_collision_refuted, C38_contents_partial, C38_from_added, C38_kept, C38_negative_index_refuted, C38_no_collision, C38_refuses, C39_aligned_partial, C39_unequal_lengths_refuted, C39_wrong_keys, C40_base_epochs_partial, C40_base_one_too_many_refuted, C40_callbacks_told, C40_errors_swapped_refuted, C40_interrupted, C40_supervised_covers, C40_supervised_epochs, C40_triplet_epochs_partial, C40_triplet_small_refuted, C40_unregister_bound_method_refuted, C40_wgan_epochs, C41_cuts, C41_each_instant, C41_moving_average, C41_narrow_frames_refuted, C41_tiles, C41_unsorted_refuted, C41_where, C42_empty_rows_refuted, C42_one_need, C42_total, C42_unknown, C43_bounded, C43_drains, C43_is_fifo, C43_lossless, C43_seek_read, C43_seek_refuted, C43_tell_end, C44_accepts, C44_errors, C44_flats_refuted, C44_names, C44_note_roundtrip, C44_pitch, C44_roundtrip, C45_array_features_refuted, C45_beyond_end_refuted, C45_closed_range_partial, C45_exponent_refuted, C45_first_byte_refuted, C45_last_byte_refuted, C45_malformed_refuted, C45_no_range, C45_onsets_refuted, C45_open_range, C45_reversed_refuted, C45_seconds, C45_seconds_back, C45_statuses, C45_suffix_refuted, C45_two_ranges_refuted, C46_authenticated, C46_blank_secret_refuted, C46_coroutine_refuted, C46_empty_secret_refuted, C46_login_blanks, C46_login_pattern_refuted, C46_login_works, C46_patch_refuted, C46_secured, C46_secured_all, C46_training, C46_unauthenticated, C46_unsecured, C48_dimension, C50_all_stored_partial, C50_can_finish, C50_default_does_nothing_refuted, C50_duplicates_race_refuted, C50_every_item_once_partial, C50_failing_dataset_attempts, C50_failing_dataset_can_finish, C50_failing_dataset_example, C50_failing_dataset_looks_finished, C50_item_behind_failure_lost_refuted, C50_no_skip_partial, C50_processes_attempt, C50_rest_of_dataset_lost_refuted, C50_skips_exactly_existing_partial, C50_sound_dataset, C50_unpicklable_lost_refuted, C51_archive_metadata, C51_archive_missing_original_refuted, C51_archive_partial, C51_composite, C51_composite_members, C51_directory, C51_freesound_count_refuted, C51_freesound_empty_refuted, C51_freesound_repeats_refuted, C51_freesound_results_partial, C52_cached_returned, C52_crash_refuted, C52_dataset_cache_refuted, C52_first_call_decides, C52_never_refetched, C52_prefix, C52_refused_refuted, C52_same_name_refuted, C52_succeeds_partial, C52_uninterrupted_complete_partial, C53_encode_total, C54_mono_of_mono, C54_stereo_of_stereo, C55_bad_chunk, C55_chunks, C55_empty_refuted, C55_not_rowwise_refuted, C55_pieces_cover, C55_pieces_full, C55_pieces_size, C55_rowwise, C57_empty, C57_output_partial, C57_prefix_only_refuted, C57_wrong_row_refuted, C59_chunking, C59_defined, C59_empty_first_refuted, C59_flux_refuted, C59_score, C59_value, C60_pooled, C61_iter_chunks_drift_refuted, C61_iter_chunks_exact_rates, C61_iter_chunks_partial, C61_read, C61_stream_total, C62_chunk_bytes, C62_chunk_margin, C62_chunk_samples, C62_resample_chunking_refuted, C62_resample_integer, C62_resample_total, C63_base, C63_escapes, C63_monitors_refuted, C63_repl, C63_temp_refuted, C63_unquote_quote, C64_program, C64_program_refuted, C64_single, C64_single_none, C65_bound_refuted, C65_history, C65_zero, C69_short_time_shape_partial, C69_window_cache, C73_center_peak_refuted, C73_reported, C73_spike_refuted, C75_cases, C75_half_overlap_fits, C75_machine_meets, C75_machine_step_refuted, C77_default_hop, C78_batch_covers, C78_batch_shorter_refuted, C79_size, C79_size_one_second, C79_size_refuted, C80_example, C80_noise_size_refuted, C80_silence_size_refuted, C80_tick_spacing_refuted, C82_chunks, C82_chunks_batch_refuted, C82_chunks_empty_refuted, C82_feature_map_size, C82_mean_std_single_refuted, C82_multiresolution_even, C82_multiresolution_mixed_refuted, C82_multiresolution_odd, C82_sinc_length, C83_audio_axes, C83_concat_nothing, C83_sum_all_axes_refuted, C84_duration_refuted, C84_ellipsis_first, C84_ellipsis_last, C84_two_ellipses, C85_bad_query, C85_build, C85_constant_rate_documents, C85_constant_rate_slices, C85_example_ready, C85_example_search, C85_extra_results, C85_first_code_unusable, C85_hex_digits, C85_later_code_wrong_size, C85_len_misses_others_refuted, C85_missing_extra, C85_not_json, C85_nothing_indexed, C85_page_extra_refuted, C85_page_never_served_refuted, C85_page_plain_refuted, C85_page_query, C85_plain_results, C85_random_empty_refuted, C85_random_ends, C85_random_search, C85_search, C85_stored_ascii, C85_stored_text, C85_writeonly, C85_wrong_query_size, C86_autoencoder_same, C86_bare_results, C86_chunksize_not_kept_refuted, C86_closure_refuted, C86_default_lost_refuted, C86_encoder_result_dims, C86_extract_spec, C86_faithful_example, C86_fallback_python2, C86_forward_passes, C86_gan_choice, C86_gan_differs_refuted, C86_gan_dims_other, C86_gan_passes_labels, C86_gan_result_dims, C86_gather_example, C86_gather_rounds, C86_gather_splits, C86_graph_example, C86_init_arg_missing_refuted, C86_inverse_changes_refuted, C86_learned_versions, C86_learned_yields, C86_loaded_network, C86_make_op_ok, C86_model_hash_refuted, C86_nested_example, C86_network_agrees, C86_network_dims, C86_network_dims_other, C86_no_data_refuted, C86_no_fallback_refuted, C86_no_stored_network, C86_one_at_once, C86_one_root, C86_op_attributes, C86_op_call, C86_pipeline_versions, C86_post_training_not_kept_refuted, C86_restored_eval, C86_restored_misfit, C86_retry_deterministic, C86_retry_example, C86_retry_for_ever, C86_retry_python2, C86_retry_python3_refuted, C86_retry_refused, C86_sk_empty_refuted, C86_sk_other_shape, C86_sk_roundtrip, C86_sk_rows, C86_sk_unrows, C86_stored_example, C86_stored_same, C86_stored_settings, C86_str_version_refuted, C86_version_agrees, C86_version_ignores_names_refuted, C86_version_of_network_refuted, C86_version_value, C87_contribution_example, C87_contribution_fails, C87_empty_document, C87_first_round_alone, C87_first_round_race_refuted, C87_nothing_to_sample, C87_sampler_contents, C87_sampler_example, C87_threads_example, C87_threads_finish, C87_threads_keep_rows, C87_yield_rows, C87_yield_size, C88_gan_checkpoints, C88_gan_hypotheses, C88_gan_reference, C88_gan_unfreezes_refuted, C88_minibatch_rows, C88_no_critic_refuted, C88_single_hypotheses, C88_supervised_checkpoints, C88_supervised_crash_python2, C88_supervised_crash_refuted, C88_supervised_reference, C88_triplet_checkpoint_refuted, C88_triplet_frozen, C88_triplet_no_deformation, C88_triplet_reference, C90_answers, C90_blank_refuted, C90_cube_refuted, C90_expression_not_servable, C90_expression_plain, C90_expression_served, C90_indented_refuted, C90_indented_statement, C90_not_python, C90_once_refuted, C90_prints, C90_raises, C90_run_twice_refuted, C90_statements, C90_statements_raise, C90_temp_never_dropped, C90_temp_unknown, C90_temp_url, C91_arrays, C91_onsets, C91_onsets_unconfigured, C91_others, C91_samples, C91_search_page_asks, C91_search_page_random, C91_search_page_refuted, C91_search_results_extra_refuted, C91_search_results_refuted, C91_stored, C92_binarize, C92_slice, C92_sum_refuted, C93_nothing, C93_stride_rates, C93_stride_refuted, C95_chunking, C95_nothing_refuted, C95_passes, C95_transcodes, C96_cut_refuted, C96_lengths, C96_one_frame_refuted, C96_ratio, C96_runs, C96_same_rate, C96_samples, C96_samples_same, C96_silence_long, C97_extra_refuted, C97_file, C97_kept, C97_local, C97_other, C97_range_refuted, C97_request, C97_same_fields, C97_stored, C97_text, C97_url, C97_url_stored, C98_answers, C98_disk, C98_locked_answers, C98_locked_memory, C98_lost_entry_refuted, C98_memory, C98_memory_grows, C98_never_stuck, C98_uncommitted_refuted, C98_undisturbed, C98_wrong_code_refuted, C98_wrong_query_refuted, C99_adaptive_nothing, C99_no_bytes


**`ClassicalDedekindReals.sig_forall_dec`** — 73 theorems: 
C104_interpolates, C106_meets, C108_assign, C108_assign_frequency_refuted, C108_assign_then_read, C108_before_axes, C108_before_axes_frequency_refuted, C108_complement, C108_example, C108_list_assign, C108_list_empty_refuted, C108_list_read, C108_read, C108_read_all_axes, C108_read_then_assign, C108_replace, C108_wrong_shape, C29_weights, C36_slicer_roundtrip, C54_one_column_refuted, C54_pad_mono, C54_pad_stereo_refuted, C54_silence, C54_silence_like_refuted, C54_silence_one_sample_refuted, C54_silence_shape, C54_stereo, C54_three_channels_refuted, C70_window_function, C70_window_identity, C70_window_misfit, C70_window_scalar, C70_window_single, C80_noise_values, C82_conv_size, C83_add_other, C83_add_rates, C83_add_signals, C83_dot_audio_errors, C83_dot_audio_refuted, C83_dot_many_axes_refuted, C83_dot_matrix_frequency_refuted, C83_dot_matrix_time_refuted, C83_dot_number, C83_dot_sizes, C83_dot_vector, C83_elementwise, C83_entries, C83_fewer_axes_refuted, C83_numbers, C83_repeated_axis_refuted, C83_same_shape, C83_shapes, C83_subtract_rates_refuted, C83_sum_axes, C83_sum_axis_range, C83_sum_channels, C83_sum_keepdims_refuted, C83_sum_last_axis_refuted, C83_total, C83_units_left, C83_units_right, C83_zeros_like, C83_zeros_like_audio, C84_one_list, C84_one_list_assign, C84_single_position, C84_single_position_last, C86_examples_example, C89_convolve_refuses, C92_windows, C93_windows, C93_with_onsets_refuted


**`ClassicalDedekindReals.sig_forall_dec`, `FunctionalExtensionality.functional_extensionality_dep`** — 80 theorems: 
C104_between, C104_each_example, C105_experiment_example, C105_experiment_scale, C105_experiment_scale_refuted, C105_gradient, C105_gradient_chirp, C105_gradient_shift, C105_unit_scale, C21_touched_meaning, C22_single_band_refuted, C26_band_constructor, C26_equality, C26_from_center, C26_from_start, C26_intersection_comm, C26_intersection_error, C26_intersection_set, C26_intersection_total, C36_binarize, C36_instance_scaling_peak, C36_instance_scaling_roundtrip, C36_meanstd_constant_refuted, C36_meanstd_roundtrip, C36_multiply_roundtrip, C36_multiply_zero_refuted, C36_weighted_roundtrip, C47_one_hot, C47_one_hot_range, C48_overlap_add, C54_mono_of_stereo_partial, C54_mono_of_stereo_refuted, C54_mono_value, C58_bits, C58_direction, C58_opposite, C58_rowwise, C58_shape, C58_zero, C67_centroid_refuted, C67_centroid_scales, C68_instance_scale, C68_unit_scale, C68_unit_scale_constant_refuted, C68_unit_scale_ends, C69_window_cache_refuted, C79_default_window, C79_uncovered, C80_tick_envelope, C80_ticks_sum, C81_critic, C81_critic_shift, C81_interpolate, C82_sinc_from_zero_refuted, C82_sinc_initial_refuted, C82_sinc_ordered, C83_dot_cases, C83_packbits, C83_packbits_flat_refuted, C83_packbits_frequency_refuted, C83_packbits_time_refuted, C84_single_position_example, C86_components_lose_mean_refuted, C86_components_roundtrip, C87_exact_share_refuted, C89_autocorrelation_symmetric, C89_carrier_offset, C89_convolve, C89_convolve_is_convolution, C89_fir_above_nyquist, C89_fir_request, C89_fir_requests, C89_pool, C89_pool_edge_refuted, C89_transposed_adjoint, C92_max, C92_max_default_refuted, C99_cut_refuted, C99_samples, C99_windows


**`ClassicalDedekindReals.sig_forall_dec`, `ClassicalDedekindReals.sig_not_dec`, `FunctionalExtensionality.functional_extensionality_dep`** — 97 theorems: 
C104_coupled_refuted, C104_example, C104_flat_critic, C104_linear, C104_nothing, C104_signals, C104_signals_refuted, C104_signals_zero, C104_sizes, C104_value, C104_vectors, C104_vectors_bound, C104_vectors_zero, C105_unwrap_jumps, C105_unwrap_recovers, C105_unwrap_turns, C106_no_such_axis, C106_not_square_refuted, C106_resample_errors, C106_resample_first_axis_refuted, C106_resample_last_axis, C106_resample_silenced, C106_silent, C106_zeroed_first_axis_refuted, C36_kmeans_centroids, C36_kmeans_nearest, C36_meanstd_normalised, C36_meanstd_training, C36_unit_norm_1d_refuted, C36_unit_norm_roundtrip, C36_unit_norm_unit, C36_unit_norm_zero_refuted, C48_dct_default, C48_dct_default_refuted, C48_window_power, C48_window_range, C48_window_symmetric, C49_dct_node, C49_dctiv_refuted, C49_learn_dct_partial, C49_learn_dct_refuted, C49_resample_same, C49_rfft, C49_rfft_length, C66_alias, C66_imdct, C66_mdct, C68_sine_bounded, C74_bands_disjoint, C74_resample_same, C74_resample_through, C74_resample_up_down, C75_level, C75_mean, C75_same_size, C75_silence, C78_batch_prefix, C78_fft, C78_fft_rows, C78_first_axis, C78_first_axis_padding, C78_first_axis_refuted, C78_no_window_refuted, C78_other_rate, C78_padding_refuted, C78_stft, C78_stft_batch, C78_stft_refuses, C80_sine_size_refuted, C80_sine_values, C81_band_features, C81_band_loss, C81_band_loss_zero, C81_bands, C81_penalty_signals_refuted, C81_penalty_value, C81_penalty_vectors, C82_mean_std, C82_sample_norm, C82_sample_norm_images_refuted, C82_sample_norm_mixed_refuted, C82_sinc_numbers, C82_sinc_value, C82_unit_norm, C89_auto_correlogram, C89_auto_correlogram_refuses, C89_correlate, C89_correlogram_example, C89_unit_norm, C92_dct_16000_refuted, C92_hanning_integers, C92_stft, C93_chunks, C93_end_refuted, C93_onsets, C93_transience, C99_stft


**`ClassicalDedekindReals.sig_forall_dec`, `ClassicalDedekindReals.sig_not_dec`, `Classical_Prop.classic`, `FunctionalExtensionality.functional_extensionality_dep`** — 340 theorems: 
C103_boundaries, C103_discrete, C103_multiple_discrete, C103_open_slice, C103_python_slice, C103_samples_per_second, C103_slice, C103_usual_rates, C105_brightness, C105_brightness_real, C105_brightness_refuted, C105_example, C105_hue_advance, C105_hue_alike_refuted, C105_hue_loudness, C105_hue_steady, C105_picture, C105_too_small, C106_any_order, C106_bands, C106_energy_refuted, C106_example, C106_holdout, C106_holdout_none, C106_linear, C106_resample_energy, C106_resample_sizes, C106_resample_whole_refuted, C106_resample_zero, C106_rows_dealt_refuted, C106_same_size_refuted, C106_shared_energy, C106_size, C106_size_all, C106_size_dyadic, C106_size_exact, C106_size_grows, C106_size_none, C106_size_usual, C106_size_within, C106_too_large_refuted, C106_too_small_refuted, C106_whole_refuted, C107_decimal, C107_exact, C107_open, C107_replay, C107_request, C107_stated, C107_whole_seconds, C108_columns, C108_columns_assign, C108_columns_example, C108_columns_length, C108_columns_times_refuted, C108_list_positions, C108_two_lists_refuted, C19_concat, C19_getitem, C19_getitem_accepts, C19_numpy_integer_refuted, C19_two_lists_refuted, C20_ellipsis_none_refuted, C20_getitem_data_partial, C20_none_refuted, C20_reverse_slice_refuted, C20_translation_defined, C21_hertz_slice, C21_scale_get, C21_slice_always_even, C21_slice_selects_touched, C22_linear_scale_tiles, C23_geometric_rejects, C23_geometric_scale, C24_ensure_overlap_ratio, C24_linear_never_overlaps, C25_bark, C25_bark_scale, C25_mel, C25_mel_scale, C27_equal_scales_same_bands_partial, C27_equality_is_parameters_partial, C27_explicit_equality_is_prefix, C27_explicit_equality_refuted, C27_symmetry_refuted, C28_band_gives_array, C28_construct, C28_count_mismatch, C28_duplicate_bands_refuted, C28_from_array_with_units, C28_iter_bands, C29_exact_band, C29_integer_slice_refuted, C29_other_band, C29_reslice_refuted, C33_dimension, C33_dimensions, C34_empty_rows_refuted, C34_frequency_first_refuted, C34_roundtrip, C34_rows, C47_log_modulus, C47_log_modulus_onto, C47_mu_law, C47_mu_law_ends, C47_mu_law_increasing, C47_mu_law_inverse_onto, C47_mu_law_onto, C47_mu_law_range, C48_dct_reconstruction_partial, C48_stft_reconstruction_partial, C48_window_gain, C56_bark_slice_refuted, C56_frequency_dimension_size, C56_geometric_explicit_slice, C56_linear_slice, C56_mel_slice_refuted, C66_reconstruction_partial, C67_flatness_flat, C67_flatness_range, C67_flatness_silent, C70_apply, C70_apply_slices, C70_bark_bands, C70_default_window_refuted, C70_local, C70_real_part, C70_real_part_only_refuted, C70_self_hanning, C70_self_identity_window, C70_self_refuted, C71_basis, C71_class_refuted, C71_in_range, C71_no_bands, C71_octave, C71_pitch_middle, C71_scalar, C71_shifted_refuted, C72_a_weights, C72_cut_band, C72_cut_band_refuted, C72_divide_undoes, C72_explicit_last_axis, C72_flat, C72_invertible, C72_misfit, C72_multiply, C72_no_bands, C72_one_band, C72_part, C72_rejects, C74_bands, C74_empty_selection_refuted, C74_known_rates, C74_no_sizes, C74_refuses, C74_synthesis, C74_synthesis_exact, C74_synthesis_lossy_refuted, C74_synthesis_split, C75_exact, C75_frames, C75_half_lapped, C75_half_or_more, C75_less_overlap_refuted, C75_machine, C75_machine_fails, C75_machine_frequency, C75_machine_length, C75_machine_length_half, C75_machine_step, C75_machine_step_half, C75_more_overlap_refuted, C75_no_overlap, C75_odd_refuted, C76_adds_up, C76_all, C76_band, C76_delay, C76_first_axis_fails_refuted, C76_first_axis_refuted, C76_full_turn, C76_half_spectrum, C76_half_spectrum_refuted, C76_less_than_a_sample, C76_magnitude, C76_nothing_touched, C76_refuses, C76_rows, C77_angle, C77_batch, C77_default_frames, C77_default_hop_48000_refuted, C77_factor_one, C77_factor_one_gain, C77_factor_one_louder_refuted, C77_first_sample_refuted, C77_pitch_batch, C77_pitch_length, C77_pitch_shortens_refuted, C77_pitch_too_high, C77_pitch_whole_windows, C77_pitch_zero, C77_refuses, C77_refuses_example, C77_scales, C77_semitone_shortens_refuted, C77_shape, C77_silence, C77_sinusoid, C77_tone, C77_tone_example, C77_tone_frames, C77_tone_repeats, C77_vocoder, C78_bin_in_band, C78_bin_in_band_refuted, C78_pure_tone, C79_band_of_nothing, C79_dct_exact, C79_dct_inverse, C79_example, C79_fft_closed_window, C79_fft_exact, C79_fft_inverse, C79_fft_needs_two_bins, C79_fft_phase_refuted, C79_hanning_ends_refuted, C79_overlap_check, C79_tiling_refuted, C80_noise_size_exact, C80_noise_size_partial, C80_rounding, C80_sine_one, C80_sine_size_partial, C80_tick_size, C80_tick_spacing_exact, C80_tick_spacing_partial, C80_ticks_separate, C80_ticks_too_fast, C80_whole_frames, C81_categories, C81_categories_loudness, C81_embedding_refuted, C81_embedding_rows, C81_embedding_top, C81_embedding_values, C81_one_hot_nearest, C81_one_hot_truncation_refuted, C81_perceptual_cosine, C81_perceptual_count, C81_perceptual_example, C81_perceptual_mse, C81_perceptual_nonneg, C81_perceptual_silence, C81_perceptual_value, C81_raw_samples, C81_raw_samples_refuted, C81_scores, C81_softmax, C82_gated, C83_concat_audio_many, C83_concat_many, C83_concat_many_different, C83_concat_many_frequency_refuted, C83_concat_no_axis, C83_concat_shapes, C83_concatenate, C83_concatenate_audio, C83_concatenate_different, C83_concatenate_frequency_refuted, C84_assign, C84_assign_then_read, C84_assign_time_slice, C84_audio_channel_refuted, C84_audio_frame, C84_audio_int, C84_audio_reversed, C84_audio_slice, C84_audio_step_refuted, C84_audio_time_slice, C84_empty_list_refuted, C84_index_forms, C84_integer_array_refuted, C84_read_entries, C84_selected_exist, C84_selected_once, C84_time_assign_refuted, C84_time_label_refuted, C84_two_lists_assign, C84_two_lists_refuted, C87_contribution_bounds, C87_contribution_monotone, C87_contribution_share, C87_contributions_total, C89_bank_example, C89_bank_factors, C89_carrier_refuted, C89_envelope_narrows, C89_forward_even_refuted, C89_forward_normalized, C89_forward_odd_mean, C89_forward_plain, C89_log_magnitude, C89_morlet_length, C89_morlet_symmetric, C89_morlet_value, C89_transform, C89_transform_early_refuted, C89_transform_single_refuted, C92_audio_graph, C92_chunk_size, C92_dct_any_window, C92_dct_sample_rate, C92_dct_sample_rate_16000, C92_number_of_rows_refuted, C94_arguments, C94_batches, C94_dataset_statistics_refuted, C94_hidden_failure_refuted, C94_inverts, C94_node_on_failure, C94_node_on_nothing, C94_not_invertible, C94_nothing_spreads, C94_one_pipeline_per_chunk, C94_op_accepts, C94_op_values, C94_simhash_planes, C94_skipped_refuted, C94_slicer_back, C94_statistics, C94_statistics_applied, C94_strict_training, C94_training_agrees, C99_adaptive, C99_adaptive_bytes, C99_adaptive_refused, C99_audio_cut

<!-- axioms end -->
