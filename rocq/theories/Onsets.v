(** Model of the onset graphs: MeasureOfTransience, SlidingWindow and MovingAveragePeakPicker
    (zounds/segment/onset.py, README and segment/test_onset.py:85-106 show the graph), and
    [with_onsets] of zounds/basic/audiograph.py.  Values are real numbers.  The frames are the
    FFT feature's rows, which are taken to be of the same width: ArrayWithUnits.concatenate
    refuses others. *)
From Coq Require Import ZArith Reals.
From Verif Require Import PyBase PyFacts PyMore Time Freq FreqDim Axis Windowed NdWindow SlidingNode Spectral Stft ScaleBasis Weighting Nodes Graph.
Local Open Scope R_scope.

(** ** MeasureOfTransience on complex frames *)
(** onset.py:25, 51 [np.abs]: the magnitudes, again complex after the concatenation with the
    next chunk (onset.py:36-40) *)
Definition frame_abs (row : list cplx) : list cplx := map (fun z => (cabs z, 0)) row.
(** onset.py:52-56 for one frame; [_bin_numbers] starts at 1, onset.py:26; zero sums are
    replaced by 1e-12 *)
Definition or_epsilon (x : R) : R := if Req_EM_T x 0 then / 10 ^ 12 else x.
Definition sum_list (l : list R) : R := fold_right Rplus 0 l.
Definition frame_energy (row : list cplx) : R := or_epsilon (sum_list (map (fun z => fst z * fst z) (skipn 2 row))).
Definition frame_hfc (row : list cplx) : R :=
  let numbers := map INR (seq 1 (length row)) in
  or_epsilon (sum_list (map (fun p => fst (fst p) * fst (fst p) * snd p) (combine (skipn 2 row) (skipn 2 numbers)))).
(** onset.py:57 [mot] *)
Definition frame_score (prev row : list cplx) : R := frame_hfc row / frame_hfc prev * (frame_hfc row / frame_energy row).
Definition transience_node (chunks : list (list (list cplx))) : result (list (list R)) := mot_run frame_abs frame_score chunks.

(** ** MovingAveragePeakPicker on rows of reals, onset.py:171-180; compare Nodes.ma_row *)
Definition picks (aggregate : list R -> R) (center : Z) (row : list R) : result bool :=
  let agg := aggregate row * (125 / 100) in
  match py_slice (Some (center - 2)%Z) (Some (center + 1)%Z) row with
  | [a; b; c] =>
      let peak := Rltb 0 (b - a) && Rltb (c - b) 0 in
      match py_get row center with
      | Ok v => Ok (peak && Rltb agg v)
      | Raise e => Raise e
      end
  | _ => Raise IndexError
  end.
Definition picked (aggregate : list R -> R) (center : Z) (rows : list (list R)) : result (list Z) :=
  do mask <- mapM (picks aggregate center) rows; Ok (np_where mask).
(** onset.py:146-149, 167-169: the frequency is that of the first dimension of each chunk (the same
    for all of them), the centre comes from the first chunk.  Without a chunk only [_last_chunk] runs. *)
Definition peak_node (aggregate : list R -> R) (chunks : list (arr R)) : result (list (list (Z * Z))) :=
  match chunks with
  | [] => Ok [pp_last_chunk pp_init]
  | a :: _ =>
      match a_dims a with
      | DTime t :: _ => pp_run (picked aggregate (Z.of_nat (a_width a) / 2)%Z) (t_freq t) (map a_rows chunks)
      | _ => Raise AttributeError
      end
  end.

(** ** The graph: frames with the time dimension [t], [wscheme * Stride(1, n)] and [padwith] *)
Definition onset_graph (t : timedim) (wscheme : samplerate) (n : Z) (padwith : nat) (aggregate : list R -> R) (chunks : list (list (list cplx)))
  : result (list (list (Z * Z))) :=
  do wsr <- sr_mul wscheme 1 n;
  do transience <- transience_node chunks;
  do windows <- windowed_node t wsr None padwith transience;
  peak_node aggregate windows.

(** ** ComplexDomain, onset.py:69-101: everything before onset.py:97 [data.frequency] succeeds on
    windows of three or more frames, and an ArrayWithUnits has no attribute [frequency]
    (core/axis.py has no [__getattr__]; TimeDimension has one, its arrays have not) *)
Definition complex_domain_process (windows : list (list (list cplx))) : result (list R) :=
  if existsb (fun w => Nat.ltb (length w) 3) windows then Raise IndexError else Raise AttributeError.
(** audiograph.py:263-298 [with_onsets], up to its first node that fails: [Stride(frequency=1, duration=3)] *)
Definition with_onsets (t : timedim) (width : nat) (chunks : list (list (list cplx))) : result (list (list R)) :=
  do wsr <- sr_mul half_lapped_scheme 1 3;
  do w <- span_samples t (sr_dur wsr);
  do h <- span_samples t (sr_freq wsr);
  do outs <- run (repeat ((0, 0) : cplx) width) {| c_window := w; c_step := h; c_padwith := 0; c_func := None |} chunks;
  mapM (fun o => match o with
                 | Windowed.Flat _ => Raise IndexError
                 | Rows windows => complex_domain_process windows
                 end) outs.
