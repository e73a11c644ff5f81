(** Model of training a chain of preprocessing nodes and of applying the pipeline it leaves:
    the [_process] methods of zounds/learn/preprocess.py, Preprocessor._extract_data and
    PreprocessingPipeline.  Values are real numbers.  An array is the non-empty list of its
    examples, an example the list of its features (a matrix; arrays with more axes and
    ArrayWithUnits are not in this model, so [wrap_data] finds no [kwargs]).  [mem] is what
    np.divide(..., where=...) leaves in the entries it skips. *)
From Coq Require Import ZArith Reals.
From Verif Require Import PyBase PyFacts PyMore Freq Preproc Pipeline Spectral.
Local Open Scope R_scope.

Definition matrix := list (list R).
Definition memory := nat -> nat -> R.

(** ** What the Ops compute, row by row *)
(** numpy broadcasting of a row against a vector *)
Definition broadcast (r w : list R) : result (list R * list R) :=
  if (length r =? length w)%nat then Ok (r, w)
  else match w, r with
       | [x], _ => Ok (r, repeat x (length r))
       | _, [y] => Ok (repeat y (length w), w)
       | _, _ => Raise ValueError
       end.
(** scipy.signal.convolve(d, kernel[None, ...], mode='same') of one row: the middle of the full
    convolution, starting at (len(kernel) - 1) // 2; preprocess.py:595-599 then clears what is
    negative *)
Definition conv_full (r k : list R) (n : nat) : R :=
  sumR (map (fun i => nth i k 0 * (if (i <=? n)%nat then nth (n - i) r 0 else 0)) (seq 0 (length k))).
Definition sharpen_row (k r : list R) : list R :=
  map (fun j => let v := conv_full r k (j + (length k - 1) / 2) in if Rltb v 0 then 0 else v) (seq 0 (length r)).
Definition bit (b : bool) : R := if b then 1 else 0.

(** The Op of a trained node together with its keyword arguments.  Sharpen's kernel is None by
    default (preprocess.py:591), and [None[None, ...]] is a TypeError. *)
Inductive learned :=
| LUnitNorm | LMeanStd (mean std : list R) | LInstance (max_value : R) | LMultiply (factor : R)
| LWeighted (weighting : list R) | LSlicer (s : pyslice) | LAbs | LSharpen (kernel : option (list R))
| LBinarize (threshold : R) | LSimHash (planes : list (list R)) | LLog | LMuLaw.

(** One example through the Op; [m] is the memory of the row.
    preprocess.py:176-188, 426-431, 465-475, 503-505, 530-532, 289-291, 556-565, 595-606,
    632-641, 383-400 (without packbits), 252 and 255-259 *)
Definition row_op (l : learned) (m : nat -> R) (r : list R) : result (list R) :=
  match l with
  | LUnitNorm => Ok (imap (fun j x => div_where x (norm r) (m j)) r)
  | LMeanStd mean std =>
      do a <- broadcast r mean;
      do b <- broadcast (map (fun p => fst p - snd p) (combine (fst a) (snd a))) std;
      Ok (imap (fun j p => div_where (fst p) (snd p) (m j)) (combine (fst b) (snd b)))
  | LInstance mv => Ok (imap (fun j x => mv * div_where x (max_abs r) (m j)) r)
  | LMultiply f => Ok (map (fun x => x * f) r)
  | LWeighted w => do a <- broadcast r w; Ok (map (fun p => fst p * snd p) (combine (fst a) (snd a)))
  | LSlicer s => Ok (apply_slice s r)
  | LAbs => Ok (map Rabs r)
  | LSharpen None => Raise TypeError
  | LSharpen (Some k) => Ok (sharpen_row k r)
  | LBinarize t => Ok (map (fun x => bit (Rltb t x)) r)
  | LSimHash planes =>
      if forallb (fun p => (length p =? length r)%nat) planes then Ok (map (fun p => bit (Rltb 0 (dot p r))) planes) else Raise ValueError
  | LLog => Ok (map log_modulus r)
  | LMuLaw => Ok (map (mu_law 255) r)
  end.
(** the Op on an array *)
Definition apply_op (l : learned) (mem : memory) (x : matrix) : result matrix :=
  mapM (fun p => row_op l (mem (fst p)) (snd p)) (combine (seq 0 (length x)) x).

(** ** Inverses *)
(** the keyword arguments an inverse receives: from the ForwardResult (UnitNorm, InstanceScaling),
    from the inversion Op (the others) *)
Inductive kwargs :=
| KNothing | KNorm (norms : list R) | KMax (maxes : list R) (max_value : R) | KMeanStd (mean std : list R)
| KFactor (factor : R) | KWeighting (w : list R) | KShape (width : nat) (s : pyslice).
(** preprocess.py:186, 473 the Ops that return a ForwardResult *)
Definition step_op (l : learned) (mem : memory) (x : matrix) : result (fwd matrix kwargs) :=
  do y <- apply_op l mem x;
  Ok (match l with
      | LUnitNorm => Forward y (KNorm (map norm x))
      | LInstance mv => Forward y (KMax (map max_abs x) mv)
      | _ => Plain y
      end).
(** preprocess.py:140-146 (the keyword arguments of the Op), 295-308 (Slicer), 446, 519, 545 *)
Definition step_inv_data (l : learned) (x : matrix) : result kwargs :=
  match l with
  | LMeanStd mean std => Ok (KMeanStd mean std)
  | LMultiply f => Ok (KFactor f)
  | LWeighted w => Ok (KWeighting w)
  | LSlicer s => Ok (KShape (match x with [] => 0%nat | r :: _ => length r end) s)
  | _ => Ok KNothing
  end.
(** preprocess.py:190-194, 433-438, 477-479, 507-509, 534-536, 310-315, 252, 262-266 and, for
    AbsoluteValue, Sharpen, Binarize and SimHash, 568-570, 608-610, 645-647, 403-405.  Keyword
    arguments an inverse does not know are a TypeError. *)
Definition step_inverse (l : learned) (y : matrix) (k : kwargs) : result matrix :=
  match l, k with
  | LUnitNorm, KNorm ns => Ok (unit_norm_inverse y ns)
  | LInstance _, KMax ms mv => Ok (instance_scale_inverse mv y ms)
  | LMeanStd _ _, KMeanStd mean std => Ok (meanstd_inverse mean std y)
  | LMultiply _, KFactor f => multiply_inverse f y
  | LWeighted _, KWeighting w => Ok (weighted_inverse w y)
  | LSlicer _, KShape width s => slicer_inverse s width y
  | LLog, KNothing => Ok (map (map inverse_log_modulus) y)
  | LMuLaw, KNothing => Ok (map (map (inverse_mu_law 255)) y)
  | (LAbs | LSharpen _ | LBinarize _ | LSimHash _), KNothing => Raise NotImplementedError
  | _, _ => Raise TypeError
  end.
(** preprocess.py:72-79, 91-97 the PreprocessResult a pipeline keeps: its Ops, not its data *)
Definition to_step (p : learned * memory) : step matrix kwargs :=
  {| op := step_op (fst p) (snd p); inv_data := step_inv_data (fst p); inverse := step_inverse (fst p) |}.
(** preprocess.py:689-708 and 711-731 for matrices.  Every Op call has its own memory. *)
Definition pipeline (ls : list learned) (mems : list memory) : list (step matrix kwargs) := map to_step (combine ls mems).
Definition no_wrap (_ : matrix) : option unit := None.
Definition no_rebuild (_ : unit) (x : matrix) : result matrix := Ok x.
Definition transform_rows (ls : list learned) (mems : list memory) (x : matrix) : result matrix :=
  do r <- transform no_wrap (pipeline ls mems) x None; Ok (r_data r).
Definition there_and_back_rows (ls : list learned) (mems : list memory) (x : matrix) : result matrix :=
  do r <- transform no_wrap (pipeline ls mems) x None; inverse_transform no_rebuild r.

(** ** Training *)
(** The nodes with their constructor arguments; SimHash comes with its random draw, a function
    of the means and standard deviations (functional.py:4-13). *)
Inductive node :=
| UnitNorm | MeanStd | InstanceScaling (max_value : R) | Multiply (factor : R) | Weighted (weighting : list R)
| Slicer (s : pyslice) | AbsoluteValue | Sharpen (kernel : option (list R)) | Binarize (threshold : R)
| SimHash (draw : list R -> list R -> list (list R)) | Log | MuLawCompressed.
(** preprocess.py:163-169, 198-206: what a node finds: an array, or None where the node before
    it failed and said nothing *)
Inductive datum := Nothing | Array (x : matrix).
Definition width (x : matrix) : nat := match x with [] => 0%nat | r :: _ => length r end.
(** the Op a node builds from its data: preprocess.py:200, 409-413, 442-445, 485, 229-231,
    273, 321-323, 517, 544, 576, 616, 653 *)
Definition fit (n : node) (d : datum) : result learned :=
  match n, d with
  | UnitNorm, _ => Ok LUnitNorm
  | MeanStd, Nothing => Raise AttributeError
  | MeanStd, Array x => let ms := fit_meanstd (width x) x in Ok (LMeanStd (fst ms) (snd ms))
  | InstanceScaling mv, _ => Ok (LInstance mv)
  | Multiply f, _ => Ok (LMultiply f)
  | Weighted w, _ => Ok (LWeighted w)
  | Slicer s, _ => Ok (LSlicer s)
  | AbsoluteValue, _ => Ok LAbs
  | Sharpen k, _ => Ok (LSharpen k)
  | Binarize t, _ => Ok (LBinarize t)
  | SimHash _, Nothing => Raise AttributeError
  | SimHash draw, Array x => let ms := fit_meanstd (width x) x in Ok (LSimHash (draw (fst ms) (snd ms)))
  | Log, _ => Ok LLog
  | MuLawCompressed, _ => Ok LMuLaw
  end.
(** the Op called on what the node found *)
Definition op_on (l : learned) (mem : memory) (d : datum) : result matrix :=
  match d with
  | Array x => apply_op l mem x
  | Nothing => match l with
               | LUnitNorm | LInstance _ | LMeanStd _ _ | LBinarize _ | LSimHash _ => Raise AttributeError
               | _ => Raise TypeError
               end
  end.
(** preprocess.py:203-207 (UnitNorm: only AttributeError is caught), 578-581, 618-621, 655-658
    (bare except), elsewhere nothing is caught *)
Definition catches (n : node) (e : exn) : bool :=
  match n with
  | UnitNorm => match e with AttributeError => true | _ => false end
  | AbsoluteValue | Sharpen _ | Binarize _ => true
  | _ => false
  end.
(** the _process methods *)
Definition process (n : node) (mem : memory) (d : datum) : result (learned * datum) :=
  do l <- fit n d;
  match op_on l mem d with
  | Ok y => Ok (l, Array y)
  | Raise e => if catches n e then Ok (l, Nothing) else Raise e
  end.
(** a chain: every node needs the one before; the Ops and the data every node hands on *)
Fixpoint train (ns : list (node * memory)) (d : datum) : result (list learned * list datum) :=
  match ns with
  | [] => Ok ([], [])
  | n :: ns' =>
      do r <- process (fst n) (snd n) d;
      do rest <- train ns' (snd r);
      Ok (fst r :: fst rest, snd r :: snd rest)
  end.

(** ** The graph: every chunk of the data passes through the chain, each node's result also goes
    to the PreprocessingPipeline (preprocess.py:822-836), in whatever order [order] delivers the
    results of one chunk.  The nodes are numbered from 0. *)
Definition deliveries (ls : list learned) (order : list nat) : list (nat * learned) :=
  map (fun i => (i, nth i ls LUnitNorm)) order.
Fixpoint graph_events (chunks : list (list (node * memory) * list nat * matrix)) : result (list (nat * learned)) :=
  match chunks with
  | [] => Ok []
  | (ns, order, x) :: chunks' =>
      do r <- train ns (Array x);
      do rest <- graph_events chunks';
      Ok (deliveries (fst r) order ++ rest)
  end.
Definition graph_pipelines (n : nat) (chunks : list (list (node * memory) * list nat * matrix)) : result (list (list learned)) :=
  do evs <- graph_events chunks;
  Ok (flat_map (fun o => match o with None => [] | Some ps => [ps] end) (node_run (seq 0 n) evs)).
