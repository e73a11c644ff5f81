(** Property theorems: loudness, transforms and synthesis (C47, C48, C49, C66-C69). *)
From Verif Require Import PyBase PyFacts PyMore Time Spectral SpectralProofs TransformProofs WindowProofs ReconProofs OverlapProofs SynthProofs.
From Coq Require Import Reals.
Local Open Scope R_scope.

(** C47 *)
Theorem C47_log_modulus :
  forall x : R, inverse_log_modulus (log_modulus x) = x.
Proof. exact (@log_modulus_inverse). Qed.
Print Assumptions C47_log_modulus.
Theorem C47_log_modulus_onto :
  forall y : R, log_modulus (inverse_log_modulus y) = y.
Proof. exact (@inverse_log_modulus_inverse). Qed.
Print Assumptions C47_log_modulus_onto.
Theorem C47_mu_law :
  forall mu : R, 0 < mu -> forall x : R, inverse_mu_law mu (mu_law mu x) = x.
Proof. exact (@mu_law_inverse). Qed.
Print Assumptions C47_mu_law.
Theorem C47_mu_law_inverse_onto :
  forall mu : R, 0 < mu -> forall y : R, mu_law mu (inverse_mu_law mu y) = y.
Proof. exact (@inverse_mu_law_inverse). Qed.
Print Assumptions C47_mu_law_inverse_onto.
Theorem C47_mu_law_increasing :
  forall mu : R, 0 < mu -> forall x y : R, x < y -> mu_law mu x < mu_law mu y.
Proof. exact (@mu_law_increasing). Qed.
Print Assumptions C47_mu_law_increasing.
Theorem C47_mu_law_ends :
  forall mu : R, 0 < mu -> mu_law mu 1 = 1 /\ mu_law mu (-1) = -1 /\ mu_law mu 0 = 0.
Proof. exact (@mu_law_one). Qed.
Print Assumptions C47_mu_law_ends.
Theorem C47_mu_law_range :
  forall mu : R, 0 < mu -> forall x : R, -1 <= x <= 1 -> -1 <= mu_law mu x <= 1.
Proof. exact (@mu_law_range). Qed.
Print Assumptions C47_mu_law_range.
Theorem C47_mu_law_onto :
  forall mu : R,
  0 < mu -> forall y : R, -1 <= y <= 1 -> exists x : R, -1 <= x <= 1 /\ mu_law mu x = y.
Proof. exact (@mu_law_onto). Qed.
Print Assumptions C47_mu_law_onto.
Theorem C47_one_hot :
  forall x : list R,
  x <> [] ->
  exists k : nat,
    (k < length x)%nat /\
    (forall j : nat, (j < k)%nat -> nth j x 0 < nth k x 0) /\
    (forall j : nat, (j < length x)%nat -> nth j x 0 <= nth k x 0) /\
    inverse_one_hot x = 2 * INR k / INR (length x) - 1.
Proof. exact (@inverse_one_hot_spec). Qed.
Print Assumptions C47_one_hot.
Theorem C47_one_hot_range :
  forall x : list R, x <> [] -> -1 <= inverse_one_hot x < 1.
Proof. exact (@inverse_one_hot_range). Qed.
Print Assumptions C47_one_hot_range.

(** C48: [vorbis_frames h N x] are the N half-overlapping frames of 2h samples of x, times
    the window; [half_lapped_dim sp h N] their time dimension, for samples of sp
    picoseconds; [total] the sum of the frame samples that fall on a position *)
Theorem C48_overlap_add :
  forall (sp : Z) (hop n : nat) (wfunc : option (list R)) (frames : list (list R)),
  (0 < sp)%Z ->
  (0 < n)%nat ->
  (0 < length frames)%nat ->
  Forall (fun f : list R => length f = n) frames ->
  (forall w : list R, wfunc = Some w -> length w = n) ->
  exists out : list R,
    overlap_add
      {| t_freq := Z.of_nat hop * sp; t_dur := Z.of_nat n * sp; t_size := Some (Zlen frames) |}
      wfunc (Z.of_nat n) frames = Ok out /\
    length out = ((length frames - 1) * hop + n)%nat /\
    (forall j : nat, at_ out j = total (map (apply_window wfunc) frames) hop 0 j).
Proof. exact (@overlap_add_spec). Qed.
Print Assumptions C48_overlap_add.
Theorem C48_dimension :
  forall (sp : Z) (h N : nat),
  (0 < sp)%Z ->
  (0 < h)%nat ->
  exists d : timedim,
    modified_dimension (mk_timedim sp (Some sp) None) (Z.of_nat (2 * h)) (Some (Z.of_nat h)) = Ok d /\
    metaslice d (Z.of_nat N) = half_lapped_dim sp h N.
Proof. exact (@half_lapped_dim_reached). Qed.
Print Assumptions C48_dimension.
Theorem C48_window_power :
  forall h s : nat,
  (s < h)%nat ->
  at_ (oggvorbis (2 * h)) s * at_ (oggvorbis (2 * h)) s +
  at_ (oggvorbis (2 * h)) (s + h) * at_ (oggvorbis (2 * h)) (s + h) = vorbis_gain (2 * h).
Proof. exact (@oggvorbis_power). Qed.
Print Assumptions C48_window_power.
Theorem C48_window_symmetric :
  forall n s : nat, (s < n)%nat -> at_ (oggvorbis n) (n - 1 - s) = at_ (oggvorbis n) s.
Proof. exact (@oggvorbis_symmetric). Qed.
Print Assumptions C48_window_symmetric.
Theorem C48_window_range :
  forall n s : nat, (s < n)%nat -> 0 < at_ (oggvorbis n) s <= 1.
Proof. exact (@oggvorbis_range). Qed.
Print Assumptions C48_window_range.
Theorem C48_window_gain :
  forall h : nat, (0 < h)%nat -> 1 < vorbis_gain (2 * h) <= 1 + 128 / INR (2 * h) ^ 4.
Proof. exact (@vorbis_gain_bound). Qed.
Print Assumptions C48_window_gain.
Theorem C48_stft_reconstruction_partial :
  forall (sp : Z) (h N : nat) (x : list R),
  (0 < sp)%Z ->
  (0 < h)%nat ->
  (0 < N)%nat ->
  length x = ((N + 1) * h)%nat ->
  exists (out : list R) (gain : R),
    stft_resynthesis sp h N x = Ok out /\
    length out = length x /\
    1 < gain <= 1 + 128 / INR (2 * h) ^ 4 /\
    (forall j : nat, (h <= j < N * h)%nat -> at_ out j = gain * at_ x j) /\
    (forall j : nat,
     (j < h)%nat \/ (N * h <= j < (N + 1) * h)%nat ->
     exists w : R, 0 < w <= 1 /\ at_ out j = w * at_ x j).
Proof. exact (@stft_reconstruction). Qed.
Print Assumptions C48_stft_reconstruction_partial.
Theorem C48_dct_reconstruction_partial :
  forall (sp : Z) (h N : nat) (x : list R),
  (0 < sp)%Z ->
  (0 < h)%nat ->
  (0 < N)%nat ->
  length x = ((N + 1) * h)%nat ->
  exists (out : list R) (gain : R),
    dct_resynthesis (fun n : nat => Some (oggvorbis n)) sp h N x = Ok out /\
    length out = length x /\
    1 < gain <= 1 + 128 / INR (2 * h) ^ 4 /\
    (forall j : nat, (h <= j < N * h)%nat -> at_ out j = gain * at_ x j).
Proof. exact (@dct_reconstruction). Qed.
Print Assumptions C48_dct_reconstruction_partial.
Theorem C48_dct_default :
  forall (sp : Z) (h N : nat) (x : list R),
  (0 < sp)%Z ->
  (0 < h)%nat ->
  (0 < N)%nat ->
  length x = ((N + 1) * h)%nat ->
  exists out : list R,
    dct_resynthesis (fun _ : nat => None) sp h N x = Ok out /\
    length out = length x /\
    (forall j : nat,
     (h <= j < N * h)%nat ->
     at_ out j =
     (at_ (oggvorbis (2 * h)) (j mod h) + at_ (oggvorbis (2 * h)) (j mod h + h)) * at_ x j).
Proof. exact (@dct_default_synthesis). Qed.
Print Assumptions C48_dct_default.
Theorem C48_dct_default_refuted :
  forall (sp : Z) (h N : nat),
  (0 < sp)%Z ->
  (3 <= h)%nat ->
  (2 <= N)%nat ->
  exists x out : list R,
    length x = ((N + 1) * h)%nat /\
    dct_resynthesis (fun _ : nat => None) sp h N x = Ok out /\
    ~ (exists gain : R, forall j : nat, (h <= j < N * h)%nat -> at_ out j = gain * at_ x j).
Proof. exact (@dct_default_refuted). Qed.
Print Assumptions C48_dct_default_refuted.

(** C49 *)
Theorem C49_dct_node :
  forall x : list R, idct2_ortho (dct2_ortho x) = x.
Proof. exact (@idct2_dct2). Qed.
Print Assumptions C49_dct_node.
Theorem C49_learn_dct_partial :
  forall x : list R, idct (dct x) = match x with
                                    | [] => []
                                    | a :: r => 2 * a :: r
                                    end.
Proof. exact (@dct_roundtrip_list). Qed.
Print Assumptions C49_learn_dct_partial.
Theorem C49_learn_dct_refuted :
  forall (a : R) (r : list R), a <> 0 -> idct (dct (a :: r)) <> a :: r.
Proof. exact (@dct_roundtrip_refuted). Qed.
Print Assumptions C49_learn_dct_refuted.
Theorem C49_resample_same :
  forall x : list R, dct_resample (length x) x = match x with
                                                 | [] => []
                                                 | a :: r => 2 * a :: r
                                                 end.
Proof. exact (@dct_resample_same). Qed.
Print Assumptions C49_resample_same.
Theorem C49_dctiv_refuted :
  forall a : R, a <> 0 -> dctiv (dctiv [a; 0]) <> [a; 0].
Proof. exact (@dctiv_refuted). Qed.
Print Assumptions C49_dctiv_refuted.
Theorem C49_rfft :
  forall (x : list R) (h : nat),
  length x = (2 * h)%nat -> (0 < h)%nat -> irfft_ortho (rfft_ortho 0 x) = Ok x.
Proof. exact (@irfft_rfft). Qed.
Print Assumptions C49_rfft.
Theorem C49_rfft_length :
  forall (p : nat) (x y : list R),
  irfft_ortho (rfft_ortho p x) = Ok y -> length y = (2 * ((length x + p) / 2))%nat.
Proof. exact (@irfft_rfft_length). Qed.
Print Assumptions C49_rfft_length.

(** C66: [mdct_angle] is the angle of the textbook formula *)
Theorem C66_mdct :
  forall (data : list R) (l : nat),
  length data = (2 * l)%nat ->
  (0 < l)%nat ->
  mdct data =
  map
    (fun f : nat =>
     sqrt (2 / INR l) * rsum (2 * l) (fun t : nat => at_ data t * cos (mdct_angle l f t)))
    (seq 0 l).
Proof. exact (@mdct_formula). Qed.
Print Assumptions C66_mdct.
Theorem C66_imdct :
  forall (c : list R) (l : nat),
  length c = l ->
  (0 < l)%nat ->
  imdct c =
  map (fun t : nat => sqrt (2 / INR l) * rsum l (fun f : nat => at_ c f * cos (mdct_angle l f t)))
    (seq 0 (2 * l)).
Proof. exact (@imdct_formula). Qed.
Print Assumptions C66_imdct.
Theorem C66_alias :
  forall (x : list R) (l t : nat),
  length x = (2 * l)%nat ->
  (t < 2 * l)%nat ->
  at_ (imdct (mdct x)) t =
  (if t <? l then at_ x t - at_ x (l - 1 - t) else at_ x t + at_ x (3 * l - 1 - t)).
Proof. exact (@mdct_alias). Qed.
Print Assumptions C66_alias.
Theorem C66_reconstruction_partial :
  forall (sp : Z) (h N : nat) (x : list R),
  (0 < sp)%Z ->
  (0 < h)%nat ->
  (0 < N)%nat ->
  length x = ((N + 1) * h)%nat ->
  exists (out : list R) (gain : R),
    mdct_resynthesis sp h N x = Ok out /\
    length out = length x /\
    1 < gain <= 1 + 128 / INR (2 * h) ^ 4 /\
    (forall j : nat, (h <= j < N * h)%nat -> at_ out j = gain * at_ x j).
Proof. exact (@mdct_reconstruction). Qed.
Print Assumptions C66_reconstruction_partial.

(** C67 *)
Theorem C67_flatness_range :
  forall x : list R, x <> [] -> 0 <= spectral_flatness x <= 1.
Proof. exact (@flatness_range). Qed.
Print Assumptions C67_flatness_range.
Theorem C67_flatness_flat :
  forall (c : R) (n : nat), c <> 0 -> (0 < n)%nat -> spectral_flatness (repeat c n) = 1.
Proof. exact (@flatness_flat). Qed.
Print Assumptions C67_flatness_flat.
Theorem C67_flatness_silent :
  forall x : list R, Forall (fun v : R => v = 0) x -> x <> [] -> spectral_flatness x = 0.
Proof. exact (@flatness_silent). Qed.
Print Assumptions C67_flatness_silent.
Theorem C67_centroid_scales :
  forall (c : R) (x : list R), spectral_centroid (map (Rmult c) x) = Rabs c * spectral_centroid x.
Proof. exact (@centroid_scales). Qed.
Print Assumptions C67_centroid_scales.
Theorem C67_centroid_refuted :
  exists x : list R,
    rsum (length x) (fun i : nat => Rabs (at_ x i)) > 0 /\
    spectral_centroid x <> mean_bin x /\
    (spectral_centroid x < 1 \/ INR (length x) < spectral_centroid x).
Proof. exact (@centroid_refuted). Qed.
Print Assumptions C67_centroid_refuted.

(** C68 *)
Theorem C68_instance_scale :
  forall (eps : R) (x : list R) (v : R), 0 < eps -> In v (instance_scale eps x) -> -1 < v < 1.
Proof. exact (@instance_scale_bound). Qed.
Print Assumptions C68_instance_scale.
Theorem C68_unit_scale :
  forall (x y : list R) (v : R), unit_scale x = Some y -> In v y -> 0 <= v <= 1.
Proof. exact (@unit_scale_range). Qed.
Print Assumptions C68_unit_scale.
Theorem C68_unit_scale_ends :
  forall x y : list R, x <> [] -> unit_scale x = Some y -> In 0 y /\ In 1 y.
Proof. exact (@unit_scale_ends). Qed.
Print Assumptions C68_unit_scale_ends.
Theorem C68_unit_scale_constant_refuted :
  forall x : list R, x <> [] -> unit_scale x = None <-> (forall a b : R, In a x -> In b x -> a = b).
Proof. exact (@unit_scale_constant_refuted). Qed.
Print Assumptions C68_unit_scale_constant_refuted.
Theorem C68_sine_bounded :
  forall (n sr : nat) (freqs out : list R),
  sine_synthesize n sr freqs = Ok out -> length out = n /\ (forall j : nat, Rabs (at_ out j) <= 1).
Proof. exact (@sine_bounded). Qed.
Print Assumptions C68_sine_bounded.

(** C69 *)
Theorem C69_window_cache :
  forall (w : nat -> list R) (ns : list nat) (cache : list (nat * list R)),
  Forall (fun p : nat * list R => snd p = w (fst p)) cache ->
  Forall (fun p : nat * list R => snd p = w (fst p))
    (fold_left (fun (c : wcache) (n : nat) => fst (window c n w)) ns cache) /\
  (forall n : nat,
   snd (window (fold_left (fun (c : wcache) (n0 : nat) => fst (window c n0 w)) ns cache) n w) = w n).
Proof. exact (@window_cache_consistent). Qed.
Print Assumptions C69_window_cache.
Theorem C69_window_cache_refuted :
  exists (n : nat) (w1 w2 : nat -> list R),
    w1 n <> w2 n /\ snd (window (fst (window [] n w1)) n w2) = w1 n.
Proof. exact (@window_cache_refuted). Qed.
Print Assumptions C69_window_cache_refuted.
Theorem C69_short_time_shape_partial :
  forall (batch samples size step : nat) (s : nat * nat * nat),
  (0 < batch)%nat ->
  short_time_dct_shape batch samples size step = Ok s <->
  (0 < size)%nat /\
  (0 < step)%nat /\
  (size <= samples)%nat /\ ((samples - size) / step + 1)%nat = size /\ s = (batch, size, size).
Proof. exact (@short_time_dct_shape_iff). Qed.
Print Assumptions C69_short_time_shape_partial.

