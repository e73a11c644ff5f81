(** Model of the losses (zounds/learn/loss.py) and of RawSampleEmbedding
    (zounds/learn/sample_embedding.py) over the reals.  Tensors are flat lists in row-major
    order together with the sizes that matter; [RuntimeError] is torch's error for tensors that
    do not fit. *)
From Verif Require Import PyBase PyMore Spectral.
From Coq Require Import Reals Lra.
Local Open Scope R_scope.

(** loss.py:177-180 *)
Definition loss_scale (n : nat) (x : R) : R := (x + 1) * (INR n / 2).
(** loss.py:188-193 [_discretized]; loss.py:169-175 [_mu_law] is loudness.py's mu_law with
    mu = n_categories.  The maximum of nothing is a RuntimeError; silence gives not-a-number
    everywhere ([None]). *)
Definition discretized (n : nat) (x : list R) : result (option (list R)) :=
  match x with
  | [] => Raise RuntimeError
  | _ =>
      let m := rmax (map Rabs x) in
      if Req_EM_T m 0 then Ok None else Ok (Some (map (fun v => loss_scale n (mu_law (INR n) (v / m))) x))
  end.
(** torch: [.long()] of a non-negative number *)
Definition long (v : R) : nat := Z.to_nat (Int_part v).
(** torch: F.softmax and F.log_softmax of one row *)
Definition exp_sum (x : list R) : R := rsum (length x) (fun i => exp (at_ x i)).
Definition softmax (x : list R) : list R := map (fun v => exp v / exp_sum x) x.
Definition log_softmax (x : list R) : list R := map (fun v => v - ln (exp_sum x)) x.
(** loss.py:182-186, sample_embedding.py:40-43, before the softmax *)
Definition closeness (n : nat) (v : R) : list R := map (fun c => - ((v - INR c) * (v - INR c) * 10 ^ 12)) (seq 0 (n + 1)).
Definition one_hot_log (n : nat) (v : R) : list R := log_softmax (closeness n v).

(** torch: NLLLoss2d of scores [inp], viewed as batch x classes x positions, and classes [t],
    viewed as batch x positions; both axes of the image are one here *)
Definition nll (classes batch positions : nat) (inp : list R) (t : list nat) : R :=
  - rsum (batch * positions) (fun i => at_ inp ((i / positions * classes + nth i t O) * positions + i mod positions)) / INR (batch * positions).
(** torch: [x.view(-1, k)] is possible *)
Definition views (len k : nat) : bool := (negb (Nat.eqb k 0) && Nat.eqb (len mod k) 0)%bool.
(** loss.py:200-212 [forward]: [channels] is input.shape[1], [width] input.shape[-1],
    [target_width] target.shape[-1].  [None] is not-a-number. *)
Definition categorical_loss (n channels width : nat) (input : list R) (target_width : nat) (target : list R) : result (option R) :=
  do categorical <- (if Nat.eqb channels (n + 1) then Ok (Some input)
                     else do d <- discretized n input; Ok (match d with None => None | Some d => Some (flat_map (one_hot_log n) d) end));
  do d <- discretized n target;
  let p := (2 * (width / 2))%nat in
  let q := (2 * (target_width / 2))%nat in
  let len := match categorical with Some c => length c | None => (length input * (n + 1))%nat end in
  if negb (views len ((n + 1) * p)) then Raise RuntimeError
  else if negb (views (length target) q) then Raise RuntimeError
  else if negb (Nat.eqb p q && Nat.eqb (len / ((n + 1) * p)) (length target / q))%bool then Raise RuntimeError
  else match categorical, d with
       | Some c, Some d => Ok (Some (nll (n + 1) (length target / q) q c (map long d)))
       | _, _ => Ok None
       end.

(** sample_embedding.py:35-38 *)
Definition embedding_scale (n : nat) (x : R) : R := (x + 1) * ((INR n + 1) / 2).
(** sample_embedding.py:46-51 [categorical]; 27-33 is mu_law again *)
Definition embedding_categorical (n : nat) (x : list R) : list (list R) :=
  map (fun v => softmax (closeness n (embedding_scale n (mu_law (INR n) v)))) x.
(** torch: nn.Linear with [inputs] columns; a row of another width is a RuntimeError *)
Definition linear_layer (inputs : nat) (weights : list (list R)) (bias : list R) (rows : list (list R)) : result (list (list R)) :=
  mapM (fun r => if Nat.eqb (length r) inputs
                 then Ok (map (fun p => rsum inputs (fun i => at_ (fst p) i * at_ r i) + snd p) (combine weights bias))
                 else Raise RuntimeError) rows.
(** sample_embedding.py:18-19, 53-61 up to the normalisation *)
Definition embedding_forward (n : nat) (weights : list (list R)) (bias : list R) (x : list R) : result (list (list R)) :=
  linear_layer n weights bias (embedding_categorical n x).

(** ** loss.py:12-115 PerceptualLoss *)
(** torch: F.conv1d of one channel with one filter: correlation with [stride], after
    [padding] zeros on both sides *)
Definition conv1d (stride padding : nat) (w x : list R) : list R :=
  map (fun i => rsum (length w) (fun j => at_ w j * at_ (repeat 0 padding ++ x ++ repeat 0 padding) (i * stride + j)))
      (seq 0 ((length x + 2 * padding - length w) / stride + 1)).
(** torch: F.relu *)
Definition relu (v : R) : R := Rmax 0 v.
(** loss.py:84-101 [_transform] of one signal, the bands one after the other (loss.py:107-108):
    [filters] are the rows of the filter bank, [fw] the weights of the bands (ones if there is no
    weighting) *)
Definition perceptual_features (lap size : nat) (log_factor : R) (filters : list (list R)) (fw : list R) (x : list R) : list R :=
  flat_map (fun p => map (fun v => ln (1 + relu v * log_factor) * snd p) (conv1d lap size (fst p) x)) (combine filters fw).
Definition dot (a b : list R) : R := rsum (length a) (fun i => at_ a i * at_ b i).
(** torch: F.cosine_similarity with its eps *)
Definition cosine_similarity (a b : list R) : R := dot a b / Rmax (sqrt (dot a a) * sqrt (dot b b)) (/ 10 ^ 8).
Definition mean (l : list R) : R := rsum (length l) (at_ l) / INR (length l).
(** loss.py:103-115 [forward], a batch of pairs of signals *)
Definition perceptual_cosine (lap size : nat) (log_factor : R) (filters : list (list R)) (fw : list R) (batch : list (list R * list R)) : R :=
  let f := perceptual_features lap size log_factor filters fw in
  - mean (map (fun p => cosine_similarity (f (fst p)) (f (snd p))) batch).
Definition perceptual_mse (lap size : nat) (log_factor : R) (filters : list (list R)) (fw : list R) (batch : list (list R * list R)) : R :=
  let f := perceptual_features lap size log_factor filters fw in
  mean (flat_map (fun p => map (fun q => (fst q - snd q) * (fst q - snd q)) (combine (f (fst p)) (f (snd p)))) batch).

(** ** The Wasserstein losses; a critic gives one number for each item of a batch *)
(** loss.py:238-248 *)
Definition generator_loss {A} (critic : A -> R) (x : list A) : R := - mean (map critic x).
(** loss.py:251-264 *)
Definition critic_loss {A} (critic : A -> R) (real fake : list A) : R := mean (map critic fake) - mean (map critic real).
(** loss.py:291, one item, coordinate by coordinate *)
Definition interpolate (alpha : R) (real fake : list R) : list R :=
  map (fun p => alpha * fst p + (1 - alpha) * snd p) (combine real fake).
(** loss.py:302-309: the penalty from the gradients, for a batch of vectors ... *)
Definition penalty_vectors (weight : R) (gradients : list (list R)) : R :=
  mean (map (fun g => (sqrt (dot g g) - 1) * (sqrt (dot g g) - 1)) gradients) * weight.
(** ... and for a batch of channels x samples: [dim=1] is the axis of the channels *)
Definition penalty_signals (weight : R) (samples : nat) (gradients : list (list (list R))) : R :=
  mean (flat_map (fun g => map (fun j => let n := sqrt (rsum (length g) (fun c => at_ (nth c g []) j * at_ (nth c g []) j)) in (n - 1) * (n - 1)) (seq 0 samples)) gradients) * weight.

(** ** loss.py:118-148 BandLoss, one signal; the bands are those of
    DctTransform.frequency_decomposition (dct_transform.py:94-118) *)
(** loss.py:133-139 *)
Definition euclid (x : list R) : R := sqrt (dot x x).
Definition shrink (x : list R) : list R := map (fun v => v / (euclid x + / 10 ^ 8)) x.
Definition band_features (bands : list (list R)) : list R * list R := (flat_map shrink bands, shrink (map euclid bands)).
(** torch: nn.MSELoss *)
Definition mse (a b : list R) : R := mean (map (fun q => (fst q - snd q) * (fst q - snd q)) (combine a b)).
(** loss.py:143-148 *)
Definition band_loss (weight : R) (input target : list (list R)) : R :=
  mse (fst (band_features input)) (fst (band_features target)) + mse (snd (band_features input)) (snd (band_features target)) * weight.
