(** Property C93: onset slices. *)
From Coq Require Import ZArith Reals Sorted.
From Verif Require Import PyBase PyFacts PyMore Time TimeProofs Freq FreqDim Axis Windowed NdWindow WindowedProofs SlidingNode SlidingNodeProofs Spectral Stft ScaleBasis Weighting Nodes NodesProofs Graph GraphProofs GraphProofs2 GraphProofs3 GraphProofs4 Onsets OnsetsProofs OnsetsProofs2.
Local Open Scope R_scope.
Theorem C93_transience :
  forall (first : list cplx) (rest : list (list cplx)) (chunks : list (list (list cplx))),
  exists os : list (list R),
    transience_node ((first :: rest) :: chunks) = Ok os /\
    (let frames := List.concat ((first :: rest) :: chunks) in
     List.concat os = map (transience frames) (seq 0 (length frames))).
Proof. exact (@transience_ok). Qed.
Print Assumptions C93_transience.
Theorem C93_windows :
  forall (t : timedim) (wsr : samplerate) (p w h : nat) (chunks : list (list R)),
  (2 <= w)%nat ->
  (1 <= h <= w)%nat ->
  (0 < t_freq t <= t_dur t)%Z ->
  span_samples t (sr_dur wsr) = Ok (Z.of_nat w) ->
  span_samples t (sr_freq wsr) = Ok (Z.of_nat h) ->
  chunks <> [] ->
  exists (arrs : list (arr R)) (k : nat) (m : timedim) (outs : list wout),
    windowed_node t wsr None p chunks = Ok arrs /\
    run 0 {| c_window := Z.of_nat w; c_step := Z.of_nat h; c_padwith := p; c_func := None |} chunks =
    Ok outs /\
    stored arrs = frames outs /\
    Forall (windowed_chunk m t w) arrs /\
    stored arrs =
    map (fun i : nat => map (fun j : nat => shifted p (List.concat chunks) (i * h + j)) (seq 0 w))
      (seq 0 k) /\
    frame_count (p + length (List.concat chunks)) w h k /\
    t_freq m = (t_freq t * Z.of_nat h)%Z /\
    t_dur m = (t_freq t * Z.of_nat w + (t_dur t - t_freq t))%Z.
Proof. exact (@windowed_plain). Qed.
Print Assumptions C93_windows.
Theorem C93_onsets :
  forall (t : timedim) (scheme : samplerate) (n : Z) (p : nat) (aggregate : list R -> R) 
    (w : nat) (wsr : samplerate) (first : list cplx) (rest : list (list cplx))
    (chunks : list (list (list cplx))),
  (4 <= w)%nat ->
  (0 < t_freq t <= t_dur t)%Z ->
  sr_mul scheme 1 n = Ok wsr ->
  span_samples t (sr_dur wsr) = Ok (Z.of_nat w) ->
  span_samples t (sr_freq wsr) = Ok 1%Z ->
  let frames := List.concat ((first :: rest) :: chunks) in
  let d := map (transience frames) (seq 0 (length frames)) in
  exists (slices : list (list (Z * Z))) (k : nat) (onsets : list nat),
    onset_graph t scheme n p aggregate ((first :: rest) :: chunks) = Ok slices /\
    frame_count (p + length frames) w 1 k /\
    StronglySorted lt onsets /\
    (forall i : nat, In i onsets <-> (i < k)%nat /\ onset aggregate p w (w / 2) d i) /\
    List.concat slices =
    zip_diff
      (0%Z :: map (fun i : nat => (Z.of_nat i * t_freq t)%Z) onsets ++ [(Z.of_nat k * t_freq t)%Z]).
Proof. exact (@onset_graph_ok). Qed.
Print Assumptions C93_onsets.
Theorem C93_chunks :
  forall (t : timedim) (scheme : samplerate) (n : Z) (p : nat) (aggregate : list R -> R) 
    (w : nat) (wsr : samplerate) (first : list cplx) (rest : list (list cplx))
    (chunks : list (list (list cplx))) (first' : list cplx) (rest' : list (list cplx))
    (chunks' : list (list (list cplx))),
  (4 <= w)%nat ->
  (0 < t_freq t <= t_dur t)%Z ->
  sr_mul scheme 1 n = Ok wsr ->
  span_samples t (sr_dur wsr) = Ok (Z.of_nat w) ->
  span_samples t (sr_freq wsr) = Ok 1%Z ->
  List.concat ((first :: rest) :: chunks) = List.concat ((first' :: rest') :: chunks') ->
  exists
    (s : list (list (Z * Z))) (k : nat) (onsets : list nat) (s' : list (list (Z * Z))) 
  (k' : nat) (onsets' : list nat),
    onset_graph t scheme n p aggregate ((first :: rest) :: chunks) = Ok s /\
    onset_graph t scheme n p aggregate ((first' :: rest') :: chunks') = Ok s' /\
    List.concat s =
    zip_diff
      (0%Z :: map (fun i : nat => (Z.of_nat i * t_freq t)%Z) onsets ++ [(Z.of_nat k * t_freq t)%Z]) /\
    List.concat s' =
    zip_diff
      (0%Z
       :: map (fun i : nat => (Z.of_nat i * t_freq t)%Z) onsets' ++ [(Z.of_nat k' * t_freq t)%Z]) /\
    ((k <= k' + 1)%nat /\ (k' <= k + 1)%nat) /\
    (forall i : nat, (i < Nat.min k k')%nat -> In i onsets <-> In i onsets') /\
    ((k <= k')%nat -> onsets = filter (fun i : nat => i <? k) onsets').
Proof. exact (@onset_chunks). Qed.
Print Assumptions C93_chunks.
Theorem C93_end_refuted :
  forall (t : timedim) (scheme : samplerate) (n : Z) (p : nat) (aggregate : list R -> R) 
    (w : nat) (wsr : samplerate) (first : list cplx) (rest : list (list cplx)) 
    (x : list cplx),
  (4 <= w)%nat ->
  (0 < t_freq t <= t_dur t)%Z ->
  sr_mul scheme 1 n = Ok wsr ->
  span_samples t (sr_dur wsr) = Ok (Z.of_nat w) ->
  span_samples t (sr_freq wsr) = Ok 1%Z ->
  (w < p + length (first :: rest))%nat ->
  exists o1 o2 : list (list (Z * Z)),
    onset_graph t scheme n p aggregate [first :: rest ++ [x]] = Ok o1 /\
    onset_graph t scheme n p aggregate [first :: rest; [x]] = Ok o2 /\
    tiles 0 (Z.of_nat (p + length (first :: rest) + 3 - w) * t_freq t) (List.concat o1) /\
    tiles 0 (Z.of_nat (p + length (first :: rest) + 2 - w) * t_freq t) (List.concat o2).
Proof. exact (@onset_end_refuted). Qed.
Print Assumptions C93_end_refuted.
Theorem C93_stride_refuted :
  forall (t : timedim) (n j : Z),
  (0 < t_freq t)%Z ->
  (0 <= j)%Z ->
  t_dur t = (t_freq t + j * t_freq t)%Z ->
  (1 <= n)%Z ->
  exists wsr : samplerate,
    sr_mul {| sr_freq := t_freq t; sr_dur := t_dur t |} 1 n = Ok wsr /\
    span_samples t (sr_freq wsr) = Ok 1%Z /\
    span_samples t (sr_dur wsr) = Ok (n + j)%Z /\
    discrete_samples wsr (t_freq t) (t_dur t) = (1%Z, n).
Proof. exact (@stride_spans). Qed.
Print Assumptions C93_stride_refuted.
Theorem C93_stride_rates :
  forall (r : Z) (w h : nat) (n : Z),
  In (r, (Z.of_nat w, Z.of_nat h)) graph_sizes ->
  In n [3%Z; 10%Z; 11%Z] ->
  exists wsr : samplerate,
    sr_mul half_lapped_scheme 1 n = Ok wsr /\
    (0 < t_freq (feature_dim r w h) <= t_dur (feature_dim r w h))%Z /\
    span_samples (feature_dim r w h) (sr_freq wsr) = Ok 1%Z /\
    span_samples (feature_dim r w h) (sr_dur wsr) = Ok (n + 1)%Z.
Proof. exact (@stride_rates). Qed.
Print Assumptions C93_stride_rates.
Theorem C93_with_onsets_refuted :
  forall (r : Z) (w h width : nat) (chunks : list (list (list cplx))),
  In (r, (Z.of_nat w, Z.of_nat h)) graph_sizes ->
  chunks <> [] -> with_onsets (feature_dim r w h) width chunks = Raise AttributeError.
Proof. exact (@with_onsets_refuted). Qed.
Print Assumptions C93_with_onsets_refuted.

Theorem C93_nothing :
  forall aggregate : list R -> R, peak_node aggregate [] = Ok [[(0%Z, 0%Z)]].
Proof. exact (@peak_nothing). Qed.
Print Assumptions C93_nothing.

