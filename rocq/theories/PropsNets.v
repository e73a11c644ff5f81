(** Property theorems: losses, embeddings of samples (C81) and helpers for networks (C82). *)
From Verif Require Import PyBase PyFacts PyMore Spectral SpectralProofs Loss LossProofs LossProofs2 LossProofs3 NetUtil NetUtilProofs.
From Coq Require Import Reals QArith ZArith.
Local Open Scope R_scope.

(** C81: losses *)
Theorem C81_categories :
  forall (n : nat) (x : list R),
  (0 < n)%nat ->
  x <> [] ->
  match discretized n x with
  | Ok (Some d) =>
      length d = length x /\
      (forall i : nat, (i < length x)%nat -> 0 <= at_ d i <= INR n) /\
      (forall i j : nat,
       (i < length x)%nat -> (j < length x)%nat -> at_ x i < at_ x j -> at_ d i < at_ d j) /\
      (forall i : nat, (i < length x)%nat -> at_ x i = 0 -> at_ d i = INR n / 2) /\
      (exists i : nat, (i < length x)%nat /\ (at_ d i = 0 \/ at_ d i = INR n)) /\
      (exists peak : R,
         (forall v : R, In v x -> Rabs v <= peak) /\
         (exists v : R, In v x /\ Rabs v = peak) /\
         (forall i : nat,
          (i < length x)%nat -> at_ d i = (mu_law (INR n) (at_ x i / peak) + 1) * (INR n / 2)))
  | Ok None => forall v : R, In v x -> v = 0
  | Raise _ => False
  end.
Proof. exact (@discretized_spec). Qed.
Print Assumptions C81_categories.
Theorem C81_categories_loudness :
  forall (n : nat) (x : list R) (k : R), 0 < k -> discretized n (map (Rmult k) x) = discretized n x.
Proof. exact (@discretized_scale). Qed.
Print Assumptions C81_categories_loudness.
Theorem C81_softmax :
  forall x : list R,
  x <> [] ->
  length (softmax x) = length x /\
  rsum (length x) (at_ (softmax x)) = 1 /\
  (forall i : nat, (i < length x)%nat -> 0 < at_ (softmax x) i <= 1) /\
  (forall i : nat,
   (i < length x)%nat ->
   at_ (softmax x) i = exp (at_ (log_softmax x) i) /\ at_ (log_softmax x) i <= 0) /\
  (forall i j : nat,
   (i < length x)%nat ->
   (j < length x)%nat ->
   at_ x i < at_ x j ->
   at_ (softmax x) i < at_ (softmax x) j /\ at_ (log_softmax x) i < at_ (log_softmax x) j).
Proof. exact (@softmax_distribution). Qed.
Print Assumptions C81_softmax.
Theorem C81_one_hot_nearest :
  forall (n : nat) (v : R) (c d : nat),
  (c <= n)%nat ->
  (d <= n)%nat ->
  Rabs (v - INR c) < Rabs (v - INR d) ->
  at_ (one_hot_log n v) d < at_ (one_hot_log n v) c <= 0 /\
  at_ (one_hot_log n v) c - at_ (one_hot_log n v) d = ((v - INR d) ^ 2 - (v - INR c) ^ 2) * 10 ^ 12.
Proof. exact (@one_hot_nearest). Qed.
Print Assumptions C81_one_hot_nearest.
Theorem C81_one_hot_truncation_refuted :
  forall (n : nat) (v : R),
  0 <= v ->
  (long v < n)%nat ->
  INR (long v) + 1 / 2 < v -> at_ (one_hot_log n v) (long v) < at_ (one_hot_log n v) (S (long v)).
Proof. exact (@one_hot_truncation). Qed.
Print Assumptions C81_one_hot_truncation_refuted.
Theorem C81_scores :
  forall (n b p : nat) (input target : list R),
  (0 < n)%nat ->
  (0 < b)%nat ->
  (0 < p)%nat ->
  Nat.even p = true ->
  length input = (b * (n + 1) * p)%nat ->
  length target = (b * p)%nat ->
  (exists v : R, In v target /\ v <> 0) ->
  exists (d : list R) (l : R),
    discretized n target = Ok (Some d) /\
    categorical_loss n (n + 1) p input p target = Ok (Some l) /\
    (forall i : nat, (i < b * p)%nat -> (long (at_ d i) <= n)%nat) /\
    l =
    -
    rsum b
      (fun i : nat =>
       rsum p (fun j : nat => at_ input ((i * (n + 1) + long (at_ d (i * p + j))) * p + j))) /
    INR (b * p) /\ ((forall v : R, In v input -> v <= 0) -> 0 <= l).
Proof. exact (@categorical_scores). Qed.
Print Assumptions C81_scores.
Theorem C81_raw_samples :
  forall (n channels b p : nat) (input target : list R),
  (0 < n)%nat ->
  (0 < b)%nat ->
  (0 < p)%nat ->
  Nat.even p = true ->
  channels <> (n + 1)%nat ->
  length input = (b * p)%nat ->
  length target = (b * p)%nat ->
  (exists v : R, In v input /\ v <> 0) ->
  (exists v : R, In v target /\ v <> 0) ->
  exists d e : list R,
    discretized n target = Ok (Some d) /\
    discretized n input = Ok (Some e) /\
    categorical_loss n channels p input p target =
    Ok
      (Some
         (-
          rsum b
            (fun i : nat =>
             rsum p
               (fun j : nat =>
                let k := (long (at_ d (i * p + j)) * p + j)%nat in
                at_ (one_hot_log n (at_ e (i * p + k / (n + 1)))) (k mod (n + 1)))) / 
          INR (b * p))).
Proof. exact (@categorical_raw). Qed.
Print Assumptions C81_raw_samples.
Theorem C81_raw_samples_refuted :
  exists l : R,
    categorical_loss 1 3 2 [1; 1] 2 [1; 1] = Ok (Some l) /\
    categorical_loss 1 3 2 [1; -1] 2 [1; 1] = Ok (Some l) /\ 4 * 10 ^ 11 <= l.
Proof. exact (@categorical_raw_refuted). Qed.
Print Assumptions C81_raw_samples_refuted.
Theorem C81_embedding_rows :
  forall (n : nat) (x : list R) (k : nat),
  (k < length x)%nat ->
  let r := nth k (embedding_categorical n x) [] in
  let v := (mu_law (INR n) (at_ x k) + 1) * ((INR n + 1) / 2) in
  length r = (n + 1)%nat /\
  rsum (n + 1) (at_ r) = 1 /\
  (forall i : nat, (i <= n)%nat -> 0 < at_ r i <= 1) /\
  (forall c d : nat,
   (c <= n)%nat ->
   (d <= n)%nat -> ln (at_ r c) - ln (at_ r d) = ((v - INR d) ^ 2 - (v - INR c) ^ 2) * 10 ^ 12).
Proof. exact (@embedding_rows). Qed.
Print Assumptions C81_embedding_rows.
Theorem C81_embedding_values :
  forall (n : nat) (v : R),
  (0 < n)%nat -> -1 <= v <= 1 -> 0 <= embedding_scale n (mu_law (INR n) v) <= INR n + 1.
Proof. exact (@embedding_values). Qed.
Print Assumptions C81_embedding_values.
Theorem C81_embedding_top :
  forall n : nat,
  (0 < n)%nat ->
  embedding_scale n (mu_law (INR n) 1) = INR n + 1 /\ embedding_scale n (mu_law (INR n) (-1)) = 0.
Proof. exact (@embedding_top). Qed.
Print Assumptions C81_embedding_top.
Theorem C81_embedding_refuted :
  forall (n : nat) (weights : list (list R)) (bias x : list R),
  x <> [] -> embedding_forward n weights bias x = Raise RuntimeError.
Proof. exact (@embedding_always_fails). Qed.
Print Assumptions C81_embedding_refuted.
Theorem C81_perceptual_count :
  forall (lap size : nat) (k : R) (filters : list (list R)) (fw : list R),
  (0 < lap)%nat ->
  (forall f : list R, In f filters -> length f = size) ->
  length fw = length filters ->
  forall x : list R,
  length (perceptual_features lap size k filters fw x) =
  (length filters * ((length x + size) / lap + 1))%nat.
Proof. exact (@perceptual_count). Qed.
Print Assumptions C81_perceptual_count.
Theorem C81_perceptual_value :
  forall (lap size : nat) (k : R) (filters : list (list R)) (fw : list R),
  (0 < lap)%nat ->
  (forall f : list R, In f filters -> length f = size) ->
  length fw = length filters ->
  forall (x : list R) (b i : nat),
  let m := ((length x + size) / lap + 1)%nat in
  (b < length filters)%nat ->
  (i < m)%nat ->
  at_ (perceptual_features lap size k filters fw x) (b * m + i) =
  ln
    (1 +
     Rmax 0
       (rsum size
          (fun j : nat =>
           at_ (nth b filters []) j *
           (if (i * lap + j <? size)%nat then 0 else at_ x (i * lap + j - size)))) * k) * 
  at_ fw b.
Proof. exact (@perceptual_value). Qed.
Print Assumptions C81_perceptual_value.
Theorem C81_perceptual_nonneg :
  forall (lap size : nat) (k : R) (filters : list (list R)) (fw : list R),
  0 <= k ->
  forall x : list R,
  (forall w : R, In w fw -> 0 <= w) ->
  forall v : R, In v (perceptual_features lap size k filters fw x) -> 0 <= v.
Proof. exact (@perceptual_nonneg). Qed.
Print Assumptions C81_perceptual_nonneg.
Theorem C81_perceptual_silence :
  forall (lap size : nat) (k : R) (filters : list (list R)) (fw : list R),
  (0 < lap)%nat ->
  length fw = length filters ->
  forall (n : nat) (v : R), In v (perceptual_features lap size k filters fw (repeat 0 n)) -> v = 0.
Proof. exact (@perceptual_silence). Qed.
Print Assumptions C81_perceptual_silence.
Theorem C81_perceptual_cosine :
  forall (lap size : nat) (k : R) (filters : list (list R)) (fw : list R),
  (0 < lap)%nat ->
  0 <= k ->
  (forall f : list R, In f filters -> length f = size) ->
  length fw = length filters ->
  forall batch : list (list R * list R),
  batch <> [] ->
  (forall p : list R * list R, In p batch -> length (fst p) = length (snd p)) ->
  -1 <= perceptual_cosine lap size k filters fw batch <= 1 /\
  perceptual_cosine lap size k filters fw (map (fun p : list R * list R => (snd p, fst p)) batch) =
  perceptual_cosine lap size k filters fw batch /\
  ((forall w : R, In w fw -> 0 <= w) -> perceptual_cosine lap size k filters fw batch <= 0) /\
  ((forall p : list R * list R,
    In p batch ->
    snd p = fst p /\
    / 10 ^ 8 <=
    dot (perceptual_features lap size k filters fw (fst p))
      (perceptual_features lap size k filters fw (fst p))) ->
   perceptual_cosine lap size k filters fw batch = -1) /\
  ((forall p : list R * list R, In p batch -> exists n : nat, fst p = repeat 0 n) ->
   perceptual_cosine lap size k filters fw batch = 0).
Proof. exact (@perceptual_cosine_spec). Qed.
Print Assumptions C81_perceptual_cosine.
Theorem C81_perceptual_mse :
  forall (lap size : nat) (k : R) (filters : list (list R)) (fw : list R),
  (0 < lap)%nat ->
  (forall f : list R, In f filters -> length f = size) ->
  length fw = length filters ->
  forall batch : list (list R * list R),
  (forall p : list R * list R, In p batch -> length (fst p) = length (snd p)) ->
  batch <> [] ->
  filters <> [] ->
  0 <= perceptual_mse lap size k filters fw batch /\
  perceptual_mse lap size k filters fw (map (fun p : list R * list R => (snd p, fst p)) batch) =
  perceptual_mse lap size k filters fw batch /\
  (perceptual_mse lap size k filters fw batch = 0 <->
   (forall p : list R * list R,
    In p batch ->
    perceptual_features lap size k filters fw (fst p) =
    perceptual_features lap size k filters fw (snd p))).
Proof. exact (@perceptual_mse_spec). Qed.
Print Assumptions C81_perceptual_mse.
Theorem C81_perceptual_example :
  exists p : list R * list R,
    In p [([1; 0], [1; 0])] /\
    / 10 ^ 8 <=
    dot (perceptual_features 1 1 1 [[1]] [1] (fst p)) (perceptual_features 1 1 1 [[1]] [1] (fst p)).
Proof. exact (@perceptual_example). Qed.
Print Assumptions C81_perceptual_example.
Theorem C81_critic :
  forall (A : Type) (critic : A -> R) (real fake : list A),
  critic_loss critic real fake = generator_loss critic real - generator_loss critic fake /\
  critic_loss critic real fake = - critic_loss critic fake real.
Proof. exact (@critic_loss_spec). Qed.
Print Assumptions C81_critic.
Theorem C81_critic_shift :
  forall (A : Type) (critic : A -> R) (c : R) (real fake : list A),
  real <> [] ->
  fake <> [] -> critic_loss (fun x : A => critic x + c) real fake = critic_loss critic real fake.
Proof. exact (@critic_loss_shift). Qed.
Print Assumptions C81_critic_shift.
Theorem C81_interpolate :
  forall (alpha : R) (real fake : list R),
  0 <= alpha <= 1 ->
  length real = length fake ->
  length (interpolate alpha real fake) = length real /\
  (forall i : nat,
   (i < length real)%nat ->
   Rmin (at_ real i) (at_ fake i) <= at_ (interpolate alpha real fake) i <=
   Rmax (at_ real i) (at_ fake i)) /\
  interpolate 1 real fake = real /\ interpolate 0 real fake = fake.
Proof. exact (@interpolate_spec). Qed.
Print Assumptions C81_interpolate.
Theorem C81_penalty_vectors :
  forall (w : R) (g : list (list R)),
  0 < w ->
  g <> [] ->
  0 <= penalty_vectors w g /\
  (penalty_vectors w g = 0 <-> (forall v : list R, In v g -> dot v v = 1)).
Proof. exact (@penalty_vectors_spec). Qed.
Print Assumptions C81_penalty_vectors.
Theorem C81_penalty_value :
  forall (w : R) (g : list (list R)) (k : R),
  0 <= k ->
  g <> [] ->
  (forall v : list R, In v g -> dot v v = k * k) -> penalty_vectors w g = w * ((k - 1) * (k - 1)).
Proof. exact (@penalty_value). Qed.
Print Assumptions C81_penalty_value.
Theorem C81_penalty_signals_refuted :
  let g := [1 / 2; 1 / 2; 1 / 2; 1 / 2] in
  dot g g = 1 /\ penalty_vectors 10 [g] = 0 /\ penalty_signals 10 4 [[g]] = 5 / 2.
Proof. exact (@penalty_signals_refuted). Qed.
Print Assumptions C81_penalty_signals_refuted.
Theorem C81_band_features :
  forall x : list R,
  length (shrink x) = length x /\
  euclid (shrink x) = euclid x / (euclid x + / 10 ^ 8) /\
  euclid (shrink x) < 1 /\
  (forall i : nat, (i < length x)%nat -> at_ (shrink x) i = at_ x i / (euclid x + / 10 ^ 8)).
Proof. exact (@shrink_spec). Qed.
Print Assumptions C81_band_features.
Theorem C81_bands :
  forall bands : list (list R),
  euclid (snd (band_features bands)) =
  euclid (map euclid bands) / (euclid (map euclid bands) + / 10 ^ 8) /\
  length (snd (band_features bands)) = length bands /\
  (forall i : nat,
   (i < length bands)%nat ->
   at_ (snd (band_features bands)) i =
   euclid (nth i bands []) / (euclid (map euclid bands) + / 10 ^ 8)) /\
  fst (band_features bands) = concat (map shrink bands).
Proof. exact (@band_features_spec). Qed.
Print Assumptions C81_bands.
Theorem C81_band_loss :
  forall (w : R) (input target : list (list R)),
  0 <= w ->
  0 <= band_loss w input target /\
  band_loss w input target = band_loss w target input /\ band_loss w input input = 0.
Proof. exact (@band_loss_spec). Qed.
Print Assumptions C81_band_loss.
Theorem C81_band_loss_zero :
  forall (w : R) (input target : list (list R)),
  0 < w ->
  map (length (A:=R)) input = map (length (A:=R)) target ->
  band_loss w input target = 0 ->
  flat_map shrink input = flat_map shrink target /\
  shrink (map euclid input) = shrink (map euclid target).
Proof. exact (@band_loss_zero). Qed.
Print Assumptions C81_band_loss_zero.

(** C82: helpers for networks.  [energy x j] is the mean square over the channels at position j,
    [variance] the unbiased variance *)
Theorem C82_sample_norm :
  forall (x : list (list R)) (w : nat),
  (forall r : list R, In r x -> length r = w) ->
  x <> [] ->
  length (sample_norm x) = length x /\
  (forall r : list R, In r (sample_norm x) -> length r = w) /\
  (forall j : nat,
   (j < w)%nat ->
   energy (sample_norm x) j = energy x j / (energy x j + 1 / 10 ^ 7) /\
   energy (sample_norm x) j < 1 /\
   (exists k : R,
      0 < k /\
      (forall c : nat,
       (c < length x)%nat -> at_ (nth c (sample_norm x) []) j = k * at_ (nth c x []) j))).
Proof. exact (@sample_norm_spec). Qed.
Print Assumptions C82_sample_norm.
Theorem C82_sample_norm_images_refuted :
  forall (b c h : nat) (x : nat -> nat -> nat -> nat -> R),
  c <> 1%nat ->
  (b * h)%nat <> 1%nat -> c <> (b * h)%nat -> sample_norm_2d b c h x = Raise RuntimeError.
Proof. exact (@sample_norm_images). Qed.
Print Assumptions C82_sample_norm_images_refuted.
Theorem C82_sample_norm_mixed_refuted :
  forall (b h : nat) (x : nat -> nat -> nat -> nat -> R),
  (1 < b * h)%nat ->
  exists y : nat -> nat -> nat -> nat -> R,
    sample_norm_2d b (b * h) h x = Ok ((b * h)%nat, y) /\
    (forall i c j w : nat,
     y i c j w =
     x i c j w /
     sqrt
       (rsum (b * h) (fun k : nat => x (c / h)%nat k (c mod h) w * x (c / h)%nat k (c mod h) w) *
        (1 / INR (b * h)) + 1 / 10 ^ 7)).
Proof. exact (@sample_norm_images_mixed). Qed.
Print Assumptions C82_sample_norm_mixed_refuted.
Theorem C82_unit_norm :
  forall (eps : R) (x : list R),
  0 < eps ->
  length (batchwise_unit_norm eps x) = length x /\
  euclid (batchwise_unit_norm eps x) = euclid x / (euclid x + eps) /\
  euclid (batchwise_unit_norm eps x) < 1 /\
  (forall i : nat,
   (i < length x)%nat -> at_ (batchwise_unit_norm eps x) i = at_ x i / (euclid x + eps)) /\
  ((forall v : R, In v x -> v = 0) -> batchwise_unit_norm eps x = x).
Proof. exact (@unit_norm_batch). Qed.
Print Assumptions C82_unit_norm.
Theorem C82_mean_std :
  forall (eps : R) (x : list R),
  0 < eps ->
  (2 <= length x)%nat ->
  exists y : list R,
    batchwise_mean_std eps x = Some y /\
    length y = length x /\
    mean y = 0 /\
    sqrt (variance y) = sqrt (variance x) / (sqrt (variance x) + eps) /\
    sqrt (variance y) < 1 /\
    (forall i : nat, (i < length x)%nat -> at_ y i = (at_ x i - mean x) / (sqrt (variance x) + eps)).
Proof. exact (@mean_std_batch). Qed.
Print Assumptions C82_mean_std.
Theorem C82_mean_std_single_refuted :
  forall eps v : R, batchwise_mean_std eps [v] = None.
Proof. exact (@mean_std_single). Qed.
Print Assumptions C82_mean_std_single_refuted.
Theorem C82_feature_map_size :
  forall inp k s p : nat,
  (0 < s)%nat ->
  (k <= inp + 2 * p)%nat ->
  feature_map_size (Z.of_nat inp) (Z.of_nat k) (Z.of_nat s) (Z.of_nat p) ==
  inject_Z (Z.of_nat (conv_size inp k s p)) <-> Nat.divide s (inp + 2 * p - k).
Proof. exact (@feature_map_size_spec). Qed.
Print Assumptions C82_feature_map_size.
Theorem C82_conv_size :
  forall (st pad : nat) (w x : list R),
  length (conv1d st pad w x) = conv_size (length x) (length w) st pad.
Proof. exact (@conv_size_spec). Qed.
Print Assumptions C82_conv_size.
Theorem C82_multiresolution_odd :
  forall (inp stride : nat) (ks : list nat),
  (0 < inp)%nat ->
  (forall k : nat, In k ks -> Nat.odd k = true) ->
  forall n : nat, In n (multiresolution_sizes inp stride ks) -> n = ((inp - 1) / stride + 1)%nat.
Proof. exact (@multiresolution_odd). Qed.
Print Assumptions C82_multiresolution_odd.
Theorem C82_multiresolution_even :
  forall (inp stride : nat) (ks : list nat),
  (forall k : nat, In k ks -> Nat.even k = true) ->
  forall n : nat, In n (multiresolution_sizes inp stride ks) -> n = (inp / stride + 1)%nat.
Proof. exact (@multiresolution_even). Qed.
Print Assumptions C82_multiresolution_even.
Theorem C82_multiresolution_mixed_refuted :
  multiresolution_sizes 100 1 [3%nat; 4%nat] = [100%nat; 101%nat].
Proof. exact (@multiresolution_mixed). Qed.
Print Assumptions C82_multiresolution_mixed_refuted.
Theorem C82_chunks :
  forall (A B : Type) (network : list A -> result (list B)) (f : A -> B) (x : list A) (c : nat),
  (0 < c)%nat ->
  x <> [] ->
  (forall y : list A, y <> [] -> network y = Ok (map f y)) ->
  apply_network network x (Some c) = apply_network network x None.
Proof. exact (@apply_network_chunks). Qed.
Print Assumptions C82_chunks.
Theorem C82_chunks_empty_refuted :
  forall (A B : Type) (network : list A -> result (list B)) (c : nat),
  apply_network network [] (Some c) = Raise ValueError.
Proof. exact (@apply_network_empty). Qed.
Print Assumptions C82_chunks_empty_refuted.
Theorem C82_chunks_batch_refuted :
  exists network : list Z -> result (list Z),
    (forall x : list Z, exists y : list Z, network x = Ok y /\ length y = length x) /\
    apply_network network [1%Z; 2%Z] None = Ok [3%Z; 3%Z] /\
    apply_network network [1%Z; 2%Z] (Some 1%nat) = Ok [1%Z; 2%Z].
Proof. exact (@apply_network_batch_refuted). Qed.
Print Assumptions C82_chunks_batch_refuted.
Theorem C82_gated :
  forall c g : R, -1 < gated c g < 1 /\ (0 < c -> 0 < gated c g) /\ (c < 0 -> gated c g < 0).
Proof. exact (@gated_bound). Qed.
Print Assumptions C82_gated.
Theorem C82_sinc_ordered :
  forall p : R * R, 0 <= start_frequency p <= stop_frequency p.
Proof. exact (@sinc_ordered). Qed.
Print Assumptions C82_sinc_ordered.
Theorem C82_sinc_initial_refuted :
  forall (sr : R) (lo hi p q : R * R),
  0 < sr ->
  0 < fst lo < snd lo ->
  0 < fst hi < snd hi ->
  fst lo < fst hi ->
  filter_parameters sr lo = Some p ->
  filter_parameters sr hi = Some q ->
  start_frequency p = sr / fst lo /\
  stop_frequency p = 2 * (sr / fst lo) - sr / snd lo /\ start_frequency q < start_frequency p.
Proof. exact (@sinc_initial_refuted). Qed.
Print Assumptions C82_sinc_initial_refuted.
Theorem C82_sinc_from_zero_refuted :
  forall sr stop : R, filter_parameters sr (0, stop) = None.
Proof. exact (@sinc_from_zero_refuted). Qed.
Print Assumptions C82_sinc_from_zero_refuted.
Theorem C82_sinc_numbers :
  forall (taps : nat) (p : R * R) (i : nat),
  (2 <= taps)%nat ->
  0 < start_frequency p ->
  (i < taps)%nat -> nth i (sinc_filter taps p) None = None <-> (2 * i + 1)%nat = taps.
Proof. exact (@sinc_filter_numbers). Qed.
Print Assumptions C82_sinc_numbers.
Theorem C82_sinc_value :
  forall (taps : nat) (p : R * R) (i : nat),
  (2 <= taps)%nat ->
  0 < start_frequency p ->
  (i < taps)%nat ->
  (2 * i + 1)%nat <> taps ->
  nth i (sinc_filter taps p) None =
  Some
    (2 * (sin (grid taps i * stop_frequency p) - sin (grid taps i * start_frequency p)) /
     grid taps i * (54 / 100 - 46 / 100 * cos (2 * PI * INR i / INR taps))).
Proof. exact (@sinc_filter_value). Qed.
Print Assumptions C82_sinc_value.
Theorem C82_sinc_length :
  forall inp taps : nat,
  (taps <= inp + 2 * (taps / 2))%nat ->
  conv_size inp taps 1 (taps / 2) = (if Nat.even taps then (inp + 1)%nat else inp).
Proof. exact (@sinc_length). Qed.
Print Assumptions C82_sinc_length.

