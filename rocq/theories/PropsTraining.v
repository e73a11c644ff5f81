(** Property C94: training a chain of preprocessors. *)
From Coq Require Import ZArith Reals Permutation.
From Verif Require Import PyBase PyFacts PyMore Freq Preproc PreprocProofs Pipeline PipelineProofs Spectral SpectralProofs Training TrainingProofs TrainingProofs2 TrainingProofs3.
Local Open Scope R_scope.
Theorem C94_training_agrees :
  forall (ns : list (node * memory)) (x : matrix) (ls : list learned) (ds : list datum)
    (mems : list memory),
  train ns (Array x) = Ok (ls, ds) ->
  clean ls x ->
  length mems = length ls ->
  length ls = length ns /\
  length ds = length ns /\
  (forall (k : nat) (y : matrix),
   nth_error ds k = Some (Array y) -> transform_rows (firstn (S k) ls) mems x = Ok y).
Proof. exact (@training_agrees). Qed.
Print Assumptions C94_training_agrees.
Theorem C94_strict_training :
  forall (ns : list (node * memory)) (x : matrix) (ls : list learned) (ds : list datum),
  train ns (Array x) = Ok (ls, ds) ->
  (forall (n : node) (e : exn), In n (map fst ns) -> catches n e = false) ->
  Forall (fun d : datum => exists y : matrix, d = Array y) ds.
Proof. exact (@strict_training). Qed.
Print Assumptions C94_strict_training.
Theorem C94_skipped_refuted :
  forall c : R,
  exists (ls : list learned) (ds : list datum) (y : matrix) (m m' : memory),
    train [(MeanStd, m)] (Array [[c]; [c]]) = Ok (ls, ds) /\
    ds = [Array y] /\ transform_rows ls [m'] [[c]; [c]] <> Ok y.
Proof. exact (@skipped_refuted). Qed.
Print Assumptions C94_skipped_refuted.
Theorem C94_batches :
  forall (ls : list learned) (mems mems' : list memory) (bs : list (list (list R))) (y : matrix),
  clean ls (concat bs) ->
  length mems = length ls ->
  length mems' = length ls ->
  transform_rows ls mems (concat bs) = Ok y <->
  (exists ys : list matrix, mapM (transform_rows ls mems') bs = Ok ys /\ y = concat ys).
Proof. exact (@transform_batches). Qed.
Print Assumptions C94_batches.
Theorem C94_statistics :
  forall (ns : list (node * memory)) (x : matrix) (ls : list learned) (ds : list datum) 
    (k : nat) (m : memory),
  train ns (Array x) = Ok (ls, ds) ->
  nth_error ns k = Some (MeanStd, m) ->
  exists z y : matrix,
    nth_error (Array x :: ds) k = Some (Array z) /\
    nth_error ls k =
    Some
      (LMeanStd (map (fun j : nat => mean_of (column j z)) (seq 0 (width z)))
         (map (fun j : nat => std_of (column j z)) (seq 0 (width z)))) /\
    nth_error ds k = Some (Array y) /\
    (rect (width z) z ->
     z <> [] ->
     forall j : nat,
     (j < width z)%nat ->
     std_of (column j z) <> 0 -> mean_of (column j y) = 0 /\ std_of (column j y) = 1).
Proof. exact (@meanstd_learns). Qed.
Print Assumptions C94_statistics.
Theorem C94_statistics_applied :
  forall (mean std : list R) (mems : list memory) (x : matrix),
  rect (length mean) x ->
  length std = length mean ->
  Forall (fun s : R => s <> 0) std ->
  length mems = 1%nat ->
  transform_rows [LMeanStd mean std] mems x =
  Ok
    (map
       (fun r : list R =>
        map (fun j : nat => (nth j r 0 - nth j mean 0) / nth j std 0) (seq 0 (length mean))) x).
Proof. exact (@meanstd_applied). Qed.
Print Assumptions C94_statistics_applied.
Theorem C94_simhash_planes :
  forall (ns : list (node * memory)) (x : matrix) (ls : list learned) (ds : list datum) 
    (k : nat) (draw : list R -> list R -> list (list R)) (m : memory),
  train ns (Array x) = Ok (ls, ds) ->
  nth_error ns k = Some (SimHash draw, m) ->
  exists z y : matrix,
    nth_error (Array x :: ds) k = Some (Array z) /\
    nth_error ds k = Some (Array y) /\
    nth_error ls k =
    Some
      (LSimHash
         (draw (map (fun j : nat => mean_of (column j z)) (seq 0 (width z)))
            (map (fun j : nat => std_of (column j z)) (seq 0 (width z))))).
Proof. exact (@simhash_learns). Qed.
Print Assumptions C94_simhash_planes.
Theorem C94_arguments :
  forall (ns : list (node * memory)) (x : matrix) (ls : list learned) (ds : list datum) 
    (k : nat) (n : node) (m : memory),
  train ns (Array x) = Ok (ls, ds) ->
  nth_error ns k = Some (n, m) ->
  match n with
  | UnitNorm => nth_error ls k = Some LUnitNorm
  | InstanceScaling mv => nth_error ls k = Some (LInstance mv)
  | Multiply f => nth_error ls k = Some (LMultiply f)
  | Weighted w => nth_error ls k = Some (LWeighted w)
  | Slicer s => nth_error ls k = Some (LSlicer s)
  | AbsoluteValue => nth_error ls k = Some LAbs
  | Sharpen kernel => nth_error ls k = Some (LSharpen kernel)
  | Binarize t => nth_error ls k = Some (LBinarize t)
  | Log => nth_error ls k = Some LLog
  | MuLawCompressed => nth_error ls k = Some LMuLaw
  | _ => True
  end.
Proof. exact (@others_learn_nothing). Qed.
Print Assumptions C94_arguments.
Theorem C94_inverts :
  forall (w : nat) (ls : list learned) (mems : list memory) (x : matrix),
  Forall (invertible w) ls ->
  rect w x ->
  length mems = length ls ->
  (exists y : matrix, transform_rows ls mems x = Ok y /\ rect w y) /\
  there_and_back_rows ls mems x = Ok x.
Proof. exact (@chain_inverts). Qed.
Print Assumptions C94_inverts.
Theorem C94_slicer_back :
  forall (s : pyslice) (mem : memory) (w : nat) (x : list (list R)),
  x <> [] ->
  rect w x ->
  exists back : matrix,
    there_and_back_rows [LSlicer s] [mem] x = Ok back /\
    length back = length x /\
    (forall (i : nat) (r : list R),
     nth_error x i = Some r ->
     exists q : list R,
       nth_error back i = Some q /\
       length q = w /\
       (forall j : nat,
        (j < w)%nat ->
        nth j q 0 =
        (if (fst (slice_range s w) <=? j) && (j <? snd (slice_range s w)) then nth j r 0 else 0))).
Proof. exact (@slicer_back). Qed.
Print Assumptions C94_slicer_back.
Theorem C94_not_invertible :
  forall (l : learned) (mem : memory) (x y : matrix),
  match l with
  | LAbs | LSharpen _ | LBinarize _ | LSimHash _ => True
  | _ => False
  end ->
  transform_rows [l] [mem] x = Ok y -> there_and_back_rows [l] [mem] x = Raise NotImplementedError.
Proof. exact (@not_invertible). Qed.
Print Assumptions C94_not_invertible.
Theorem C94_op_values :
  forall (l : learned) (r s : list R) (x : list (list R)),
  row_op l (fun _ : nat => 0) r = Ok s -> In r x -> no_skip l x -> op_meaning l r s.
Proof. exact (@op_values). Qed.
Print Assumptions C94_op_values.
Theorem C94_op_accepts :
  forall (l : learned) (m : nat -> R) (r : list R),
  match l with
  | LMeanStd mean std => length mean = length std
  | _ => True
  end ->
  match row_op l m r with
  | Ok _ =>
      match l with
      | LMeanStd w _ | LWeighted w => compatible (length w) (length r)
      | LSharpen k => k <> None
      | LSimHash planes => forall p : list R, In p planes -> length p = length r
      | _ => True
      end
  | Raise ValueError =>
      match l with
      | LMeanStd w _ | LWeighted w => ~ compatible (length w) (length r)
      | LSimHash planes => exists p : list R, In p planes /\ length p <> length r
      | _ => False
      end
  | Raise TypeError => l = LSharpen None
  | _ => False
  end.
Proof. exact (@op_accepts). Qed.
Print Assumptions C94_op_accepts.
Theorem C94_hidden_failure_refuted :
  forall (r : list R) (x : list (list R)) (m mem : memory) (y : list (list R)) (s : list R),
  let data := Array (r :: x) in
  train [(Sharpen None, m)] data = Ok ([LSharpen None], [Nothing]) /\
  transform_rows [LSharpen None] [mem] (s :: y) = Raise TypeError.
Proof. exact (@hidden_failure_refuted). Qed.
Print Assumptions C94_hidden_failure_refuted.
Theorem C94_nothing_spreads :
  forall (n : node) (m : memory) (ns : list (node * memory)) (ls : list learned) (ds : list datum),
  train ((n, m) :: ns) Nothing = Ok (ls, ds) ->
  Forall
    (fun p : node * memory =>
     match fst p with
     | UnitNorm | AbsoluteValue | Sharpen _ | Binarize _ => True
     | _ => False
     end) ((n, m) :: ns) /\ Forall (fun d : datum => d = Nothing) ds.
Proof. exact (@nothing_spreads). Qed.
Print Assumptions C94_nothing_spreads.
Theorem C94_one_pipeline_per_chunk :
  forall (n : nat) (chunks : list (list (node * memory) * list nat * matrix))
    (pipes : list (list learned)),
  (0 < n)%nat ->
  Forall
    (fun c : list (node * memory) * list nat * matrix =>
     length (fst (fst c)) = n /\ Permutation (snd (fst c)) (seq 0 n)) chunks ->
  graph_pipelines n chunks = Ok pipes <->
  Forall2
    (fun (c : list (node * memory) * list nat * matrix) (ps : list learned) =>
     exists ds : list datum, train (fst (fst c)) (Array (snd c)) = Ok (ps, ds)) chunks pipes.
Proof. exact (@one_pipeline_per_chunk). Qed.
Print Assumptions C94_one_pipeline_per_chunk.
Theorem C94_dataset_statistics_refuted :
  forall m m' : memory,
  exists pipes : list (list learned),
    graph_pipelines 1
      [([(MeanStd, m)], [0%nat], [[0]; [2]]); ([(MeanStd, m')], [0%nat], [[4]; [6]])] = 
    Ok pipes /\
    pipes = [[LMeanStd [1] [1]]; [LMeanStd [5] [1]]] /\
    fst (fit_meanstd 1 [[0]; [2]; [4]; [6]]) = [3].
Proof. exact (@dataset_statistics_refuted). Qed.
Print Assumptions C94_dataset_statistics_refuted.
Theorem C94_node_on_nothing :
  forall (n : node) (m : memory),
  process n m Nothing =
  match n with
  | UnitNorm => Ok (LUnitNorm, Nothing)
  | AbsoluteValue => Ok (LAbs, Nothing)
  | Sharpen k => Ok (LSharpen k, Nothing)
  | Binarize t => Ok (LBinarize t, Nothing)
  | MeanStd | InstanceScaling _ | SimHash _ => Raise AttributeError
  | _ => Raise TypeError
  end.
Proof. exact (@node_on_nothing). Qed.
Print Assumptions C94_node_on_nothing.
Theorem C94_node_on_failure :
  forall (n : node) (m : memory) (x : matrix) (e : exn),
  process n m (Array x) = Raise e \/
  (exists l : learned, process n m (Array x) = Ok (l, Nothing) /\ apply_op l m x = Raise e) ->
  exists l : learned,
    fit n (Array x) = Ok l /\
    apply_op l m x = Raise e /\
    process n m (Array x) =
    match n with
    | UnitNorm => match e with
                  | AttributeError => Ok (l, Nothing)
                  | _ => Raise e
                  end
    | AbsoluteValue | Sharpen _ | Binarize _ => Ok (l, Nothing)
    | _ => Raise e
    end.
Proof. exact (@node_on_failure). Qed.
Print Assumptions C94_node_on_failure.

