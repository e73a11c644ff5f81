(** The embedding of samples, the perceptual, band and Wasserstein losses. *)
From Verif Require Import PyBase PyFacts PyMore Spectral SpectralProofs TransformProofs ReconProofs Loss LossProofs LossProofs2.
From Coq Require Import Reals Lra Lia.
Local Open Scope R_scope.

(** ** the embedding *)
Theorem embedding_values n v : (0 < n)%nat -> -1 <= v <= 1 -> 0 <= embedding_scale n (mu_law (INR n) v) <= INR n + 1.
Proof. intros H R. pose proof (lt_0_INR n H) as P. apply (mu_law_range (INR n) P) in R. unfold embedding_scale. nra. Qed.
Theorem embedding_rows n x k : (k < length x)%nat -> let r := nth k (embedding_categorical n x) [] in let v := (mu_law (INR n) (at_ x k) + 1) * ((INR n + 1) / 2) in
  length r = (n + 1)%nat /\ rsum (n + 1) (at_ r) = 1 /\ (forall i, (i <= n)%nat -> 0 < at_ r i <= 1) /\
  forall c d, (c <= n)%nat -> (d <= n)%nat -> ln (at_ r c) - ln (at_ r d) = ((v - INR d) ^ 2 - (v - INR c) ^ 2) * 10 ^ 12.
Proof.
  intros H r u. assert (E : r = softmax (closeness n (embedding_scale n (mu_law (INR n) (at_ x k))))). { unfold r, embedding_categorical, at_. set (g := fun v => softmax (closeness n (embedding_scale n (mu_law (INR n) v)))). rewrite (nth_indep (map g x) [] (g 0)) by (rewrite map_length; exact H). now rewrite (map_nth g). } rewrite E. clear r E. set (v := at_ x k) in *. destruct (softmax_distribution _ (closeness_ne n (embedding_scale n (mu_law (INR n) v)))) as [A [B [C _]]]. rewrite closeness_length in *. split; [exact A|]. split; [exact B|]. split; [intros i Hi; apply C; lia|]. intros c d Hc Hd. pose proof (exp_sum_pos _ (closeness_ne n (embedding_scale n (mu_law (INR n) v)))) as P.
  assert (Q : forall i, (i <= n)%nat -> ln (at_ (softmax (closeness n (embedding_scale n (mu_law (INR n) v)))) i) = - ((u - INR i) * (u - INR i) * 10 ^ 12) - ln (exp_sum (closeness n (embedding_scale n (mu_law (INR n) v))))).
  { intros i Hi. unfold softmax. rewrite at_map by (rewrite closeness_length; lia). rewrite closeness_at by exact Hi. unfold Rdiv. rewrite ln_mult; [|apply exp_pos|now apply Rinv_0_lt_compat]. rewrite ln_exp, ln_Rinv by exact P. unfold Rminus. f_equal. }
  rewrite !Q by assumption. ring.
Qed.
(** full scale lies a whole category above the last one *)
Theorem embedding_top n : (0 < n)%nat -> embedding_scale n (mu_law (INR n) 1) = INR n + 1 /\ embedding_scale n (mu_law (INR n) (-1)) = 0.
Proof. intros H. destruct (mu_law_one (INR n) (lt_0_INR n H)) as [-> [-> _]]. unfold embedding_scale. split; field. Qed.
(** the linear layer has one input less than there are categories *)
Theorem embedding_always_fails n weights bias x : x <> [] -> embedding_forward n weights bias x = Raise RuntimeError.
Proof.
  intros N. unfold embedding_forward, linear_layer. destruct x as [|v x]; [contradiction|]. cbn [embedding_categorical map mapM]. unfold softmax at 1. rewrite map_length, closeness_length. destruct (Nat.eqb_spec (n + 1) n); [lia|]. reflexivity.
Qed.

(** ** vectors *)
Lemma dot_self_nonneg a : 0 <= dot a a.
Proof. unfold dot. apply rsum_nonneg. intros. nra. Qed.
Lemma dot_comm a b : length a = length b -> dot a b = dot b a.
Proof. intros L. unfold dot. rewrite <- L. apply rsum_ext. intros. ring. Qed.
Lemma rsum_minus n f g : rsum n (fun i => f i - g i) = rsum n f - rsum n g.
Proof. induction n as [|n IH]; cbn [rsum]; [lra|]. rewrite IH. ring. Qed.
Lemma cauchy a b : length a = length b -> dot a b * dot a b <= dot a a * dot b b.
Proof.
  intros L. assert (Ebb : dot b b = rsum (length a) (fun i => at_ b i * at_ b i)) by (unfold dot; now rewrite <- L).
  assert (Z : dot a a = 0 -> dot a b = 0). { intros E. unfold dot in *. assert (forall i, (i < length a)%nat -> at_ a i * at_ a i = 0) by (apply rsum_nonneg_zero; [intros; nra|exact E]). apply rsum_zero. intros i Hi. specialize (H i Hi). assert (at_ a i = 0) by nra. rewrite H0. ring. }
  destruct (Req_dec (dot a a) 0) as [E|NE]; [rewrite (Z E), E; nra|]. pose proof (dot_self_nonneg a) as Pa.
  assert (K : 0 <= rsum (length a) (fun i => (dot a a * at_ b i - dot a b * at_ a i) * (dot a a * at_ b i - dot a b * at_ a i))) by (apply rsum_nonneg; intros; apply Rle_0_sqr).
  rewrite (rsum_ext _ _ (fun i => (dot a a * dot a a) * (at_ b i * at_ b i) + ((- 2 * dot a a * dot a b) * (at_ a i * at_ b i) + (dot a b * dot a b) * (at_ a i * at_ a i)))) in K by (intros; ring).
  rewrite !rsum_plus, !rsum_scale, <- Ebb in K. fold (dot a b) in K. fold (dot a a) in K. set (A := dot a a) in *. set (D := dot a b) in *. set (B := dot b b) in *. clearbody A D B. assert (0 <= A * (A * B - D * D)) by lra. apply Rmult_le_reg_l with A; lra.
Qed.
Lemma sqrt_dot a b : length a = length b -> Rabs (dot a b) <= sqrt (dot a a) * sqrt (dot b b).
Proof.
  intros L. rewrite <- sqrt_mult by apply dot_self_nonneg. rewrite <- sqrt_Rsqr_abs. apply sqrt_le_1; [unfold Rsqr; nra|apply Rmult_le_pos; apply dot_self_nonneg|]. unfold Rsqr. now apply cauchy.
Qed.
Lemma eps_pos : 0 < / 10 ^ 8. Proof. apply Rinv_0_lt_compat. lra. Qed.
Lemma cosine_range a b : length a = length b -> -1 <= cosine_similarity a b <= 1.
Proof.
  intros L. unfold cosine_similarity. pose proof (sqrt_dot a b L) as B. set (m := Rmax _ _). assert (P : 0 < m) by (apply Rlt_le_trans with (/ 10 ^ 8); [apply eps_pos|apply Rmax_r]). assert (M : sqrt (dot a a) * sqrt (dot b b) <= m) by apply Rmax_l. clearbody m. pose proof (Rle_abs (dot a b)) as A1. pose proof (Rle_abs (- dot a b)) as A2. rewrite Rabs_Ropp in A2.
  split; apply Rmult_le_reg_r with m; try exact P; unfold Rdiv; rewrite Rmult_assoc, Rinv_l by lra; lra.
Qed.
Lemma cosine_comm a b : length a = length b -> cosine_similarity a b = cosine_similarity b a.
Proof. intros L. unfold cosine_similarity. rewrite (dot_comm a b L). f_equal. f_equal. ring. Qed.
Lemma cosine_self a : / 10 ^ 8 <= dot a a -> cosine_similarity a a = 1.
Proof. intros H. pose proof eps_pos. unfold cosine_similarity. rewrite sqrt_def by apply dot_self_nonneg. rewrite Rmax_left by exact H. field. lra. Qed.
Lemma cosine_zero a b : (forall v, In v a -> v = 0) -> cosine_similarity a b = 0.
Proof. intros H. unfold cosine_similarity. replace (dot a b) with 0; [unfold Rdiv; ring|]. symmetry. unfold dot. apply rsum_zero. intros i Hi. unfold at_ at 1. rewrite (H (nth i a 0)) by now apply nth_In. ring. Qed.

(** ** the perceptual loss *)
Section perceptual.
Variables (lap size : nat) (k : R) (filters : list (list R)) (fw : list R).
Hypothesis Hlap : (0 < lap)%nat.
Hypothesis Hk : 0 <= k.
Hypothesis Hsize : forall f, In f filters -> length f = size.
Hypothesis Hfw : length fw = length filters.
Let f := perceptual_features lap size k filters fw.

Lemma conv_length st pad w x : length (conv1d st pad w x) = ((length x + 2 * pad - length w) / st + 1)%nat.
Proof. unfold conv1d. now rewrite map_length, seq_length. Qed.
(** each band has (samples + taps) / lap + 1 features *)
Theorem perceptual_count x : length (f x) = (length filters * ((length x + size) / lap + 1))%nat.
Proof.
  unfold f, perceptual_features. clear f. revert fw Hfw. induction filters as [|w ws IH]; intros [|q qs] L; try discriminate; [reflexivity|]. cbn [combine flat_map length fst snd]. rewrite app_length, map_length, conv_length, IH by (try (intros; apply Hsize; now right); now injection L). rewrite (Hsize w) by now left. replace (length x + 2 * size - size)%nat with (length x + size)%nat by lia. reflexivity.
Qed.
Lemma perceptual_same x y : length x = length y -> length (f x) = length (f y).
Proof. intros L. rewrite !perceptual_count, L. reflexivity. Qed.
Lemma feature_in x v : In v (f x) -> exists u w, In w fw /\ v = ln (1 + relu u * k) * w.
Proof. intros H. unfold f, perceptual_features in H. apply in_flat_map in H as [[a w] [Ha H]]. apply in_map_iff in H as [u [<- _]]. exists u, w. split; [now apply in_combine_r in Ha|reflexivity]. Qed.
Lemma log_nonneg u : 0 <= ln (1 + relu u * k).
Proof. assert (0 <= relu u) by apply Rmax_l. assert (0 <= relu u * k) by now apply Rmult_le_pos. apply ln_pos. exact H0. Qed.
(** feature i of band b: the filter over the signal with [size] zeros before it, rectified, on a
    logarithmic scale and weighted *)
Theorem perceptual_value x b i : let m := ((length x + size) / lap + 1)%nat in (b < length filters)%nat -> (i < m)%nat ->
  at_ (f x) (b * m + i) = ln (1 + Rmax 0 (rsum size (fun j => at_ (nth b filters []) j * (if Nat.ltb (i * lap + j) size then 0 else at_ x (i * lap + j - size)))) * k) * at_ fw b.
Proof.
  intros m. revert b. unfold f, perceptual_features. clear f. revert fw Hfw. induction filters as [|w ws IH]; intros [|q qs] L b Hb Hi; try discriminate; [cbn in Hb; lia|]. cbn [combine flat_map fst snd].
  assert (Lw : length w = size) by (apply Hsize; now left). assert (Lc : length (conv1d lap size w x) = m) by (rewrite conv_length, Lw; unfold m; f_equal; f_equal; lia). unfold at_ at 1. destruct b as [|b].
  - rewrite app_nth1 by (rewrite map_length, Lc; lia). change (nth (0 * m + i) ?l 0) with (at_ l i). rewrite at_map by (rewrite Lc; exact Hi). cbn [nth]. unfold relu, at_ at 3. cbn [nth]. f_equal. do 4 f_equal. unfold conv1d. rewrite at_map_seq by (rewrite <- Lc, conv_length in Hi; exact Hi). rewrite Lw. apply rsum_ext. intros j Hj. f_equal.
    unfold at_. destruct (Nat.ltb_spec (i * lap + j) size) as [A|A]; [rewrite app_nth1 by (rewrite repeat_length; exact A); now rewrite nth_repeat|]. rewrite app_nth2 by (rewrite repeat_length; exact A). rewrite repeat_length. set (t := (i * lap + j - size)%nat). destruct (Nat.lt_ge_cases t (length x)) as [B|B]; [now rewrite app_nth1|]. rewrite app_nth2 by exact B. rewrite (nth_overflow x) by exact B. destruct (Nat.lt_ge_cases (t - length x) size) as [Cc|Cc]; [now rewrite nth_repeat|]. apply nth_overflow. now rewrite repeat_length.
  - rewrite app_nth2 by (rewrite map_length, Lc; lia). rewrite map_length, Lc. replace (S b * m + i - m)%nat with (b * m + i)%nat by lia. cbn [nth]. unfold at_ at 3. cbn [nth]. apply IH; [intros; apply Hsize; now right|now injection L|cbn in Hb; lia|exact Hi].
Qed.
Theorem perceptual_nonneg x : (forall w, In w fw -> 0 <= w) -> forall v, In v (f x) -> 0 <= v.
Proof. intros W v H. apply feature_in in H as [u [w [Hw ->]]]. apply Rmult_le_pos; [apply log_nonneg|now apply W]. Qed.
Theorem perceptual_silence n : forall v, In v (f (repeat 0 n)) -> v = 0.
Proof.
  intros v H. unfold f, perceptual_features in H. apply in_flat_map in H as [[a w] [Ha H]]. apply in_map_iff in H as [u [<- Hu]]. cbn [fst snd] in *. unfold conv1d in Hu. apply in_map_iff in Hu as [i [<- _]].
  rewrite rsum_zero; [unfold relu; rewrite Rmax_left by lra; rewrite Rmult_0_l, Rplus_0_r, ln_1; ring|]. intros j _. replace (at_ (repeat 0 size ++ repeat 0 n ++ repeat 0 size) (i * lap + j)) with 0; [ring|]. rewrite <- !repeat_app. unfold at_. symmetry. destruct (Nat.lt_ge_cases (i * lap + j) (size + (n + size))); [apply nth_repeat|apply nth_overflow; rewrite repeat_length; lia].
Qed.

Theorem perceptual_cosine_spec batch : batch <> [] -> (forall p, In p batch -> length (fst p) = length (snd p)) ->
  -1 <= perceptual_cosine lap size k filters fw batch <= 1 /\
  perceptual_cosine lap size k filters fw (map (fun p => (snd p, fst p)) batch) = perceptual_cosine lap size k filters fw batch /\
  ((forall w, In w fw -> 0 <= w) -> perceptual_cosine lap size k filters fw batch <= 0) /\
  ((forall p, In p batch -> snd p = fst p /\ / 10 ^ 8 <= dot (f (fst p)) (f (fst p))) -> perceptual_cosine lap size k filters fw batch = -1) /\
  ((forall p, In p batch -> exists n, fst p = repeat 0 n) -> perceptual_cosine lap size k filters fw batch = 0).
Proof.
  intros N L. unfold perceptual_cosine. fold f. set (c := fun p : list R * list R => cosine_similarity (f (fst p)) (f (snd p))). assert (Nm : map c batch <> []) by (destruct batch; [contradiction|discriminate]).
  assert (R : forall v, In v (map c batch) -> -1 <= v <= 1). { intros v H. apply in_map_iff in H as [p [<- Hp]]. unfold c. apply cosine_range. apply perceptual_same. now apply L. }
  split; [|split; [|split; [|split]]].
  - pose proof (mean_bounds _ _ _ Nm R). lra.
  - f_equal. f_equal. rewrite map_map. apply map_ext_in. intros p Hp. cbn [fst snd]. apply cosine_comm. apply perceptual_same. symmetry. now apply L.
  - intros W. assert (0 <= mean (map c batch)); [|lra]. apply mean_nonneg. intros v H. apply in_map_iff in H as [p [<- Hp]]. unfold c, cosine_similarity, Rdiv. apply Rmult_le_pos; [|left; apply Rinv_0_lt_compat; apply Rlt_le_trans with (/ 10 ^ 8); [apply eps_pos|apply Rmax_r]].
    unfold dot. apply rsum_nonneg. intros i Hi. pose proof (perceptual_same (fst p) (snd p) (L p Hp)) as S. apply Rmult_le_pos; eapply perceptual_nonneg; try exact W; apply nth_In; [exact Hi|rewrite <- S; exact Hi].
  - intros H. rewrite (mean_const _ 1 Nm); [reflexivity|]. intros v Hv. apply in_map_iff in Hv as [p [<- Hp]]. destruct (H p Hp) as [E D]. unfold c. rewrite E. now apply cosine_self.
  - intros H. rewrite (mean_const _ 0 Nm); [ring|]. intros v Hv. apply in_map_iff in Hv as [p [<- Hp]]. destruct (H p Hp) as [n E]. unfold c. rewrite E. apply cosine_zero. apply perceptual_silence.
Qed.
Theorem perceptual_mse_spec batch : (forall p, In p batch -> length (fst p) = length (snd p)) -> batch <> [] -> filters <> [] ->
  0 <= perceptual_mse lap size k filters fw batch /\
  perceptual_mse lap size k filters fw (map (fun p => (snd p, fst p)) batch) = perceptual_mse lap size k filters fw batch /\
  (perceptual_mse lap size k filters fw batch = 0 <-> forall p, In p batch -> f (fst p) = f (snd p)).
Proof.
  intros L N NF. unfold perceptual_mse. fold f. set (e := fun p : list R * list R => map (fun q => (fst q - snd q) * (fst q - snd q)) (combine (f (fst p)) (f (snd p)))).
  assert (Nn : forall v, In v (flat_map e batch) -> 0 <= v). { intros v H. apply in_flat_map in H as [p [_ H]]. apply in_map_iff in H as [q [<- _]]. apply Rle_0_sqr. }
  split; [now apply mean_nonneg|]. split.
  - f_equal. clear -L. induction batch as [|p b IH]; [reflexivity|]. cbn [map flat_map fst snd]. rewrite IH by (intros; apply L; now right). apply (f_equal2 (@app R)); [|reflexivity]. unfold e. cbn [fst snd]. generalize (f (fst p)), (f (snd p)). intros u. induction u as [|a u IHu]; intros [|c v]; try reflexivity. cbn [combine map fst snd]. rewrite IHu. f_equal. ring.
  - assert (Ne : flat_map e batch <> []). { destruct batch as [|p b]; [contradiction|]. cbn [flat_map]. intros E. apply app_eq_nil in E as [E _]. apply (f_equal (@length R)) in E. unfold e in E. rewrite map_length, combine_length, !perceptual_count in E. cbn [length] in E. destruct filters; [contradiction|]. cbn [length] in E. pose proof (L p (or_introl eq_refl)) as Lp. rewrite Lp in E. rewrite Nat.min_id in E. lia. }
    split.
    + intros E p Hp. assert (Z : forall v, In v (e p) -> v = 0). { intros v Hv. apply (mean_zero _ Nn E Ne). apply in_flat_map. now exists p. }
      pose proof (perceptual_same _ _ (L p Hp)) as S. unfold e in Z. clear -S Z. revert S Z. generalize (f (fst p)), (f (snd p)). intros u. induction u as [|a u IH]; intros [|c v] S Z; try discriminate; [reflexivity|]. cbn [combine map] in Z. f_equal; [specialize (Z _ (or_introl eq_refl)); cbn [fst snd] in Z; apply Rmult_integral in Z as [Z|Z]; lra|]. apply IH; [now injection S|]. intros w Hw. apply Z. now right.
    + intros E. apply mean_const; [exact Ne|]. intros v Hv. apply in_flat_map in Hv as [p [Hp Hv]]. unfold e in Hv. rewrite (E p Hp) in Hv. apply in_map_iff in Hv as [[a b] [<- Hq]]. cbn [fst snd]. assert (a = b); [|subst; ring]. clear -Hq. revert Hq. generalize (f (snd p)). intros u. induction u as [|c u IH]; intros H; [destruct H|destruct H as [H|H]; [injection H; congruence|now apply IH]].
Qed.
End perceptual.

(** ** Wasserstein *)
Theorem critic_loss_spec {A} (critic : A -> R) real fake : critic_loss critic real fake = generator_loss critic real - generator_loss critic fake /\ critic_loss critic real fake = - critic_loss critic fake real.
Proof. unfold critic_loss, generator_loss. split; ring. Qed.
Lemma mean_plus_const l c : l <> [] -> mean (map (fun v => v + c) l) = mean l + c.
Proof.
  intros N. unfold mean. rewrite map_length. assert (P : 0 < INR (length l)) by (apply lt_0_INR; destruct l; [contradiction|cbn; lia]). rewrite (rsum_ext _ _ (fun i => at_ l i + c)) by (intros; now rewrite at_map). rewrite rsum_plus, rsum_const. field. lra.
Qed.
(** a constant added to the critic does not matter *)
Theorem critic_loss_shift {A} (critic : A -> R) c real fake : real <> [] -> fake <> [] -> critic_loss (fun x => critic x + c) real fake = critic_loss critic real fake.
Proof.
  intros NR NF. unfold critic_loss. rewrite <- !(map_map critic (fun v => v + c)). rewrite !mean_plus_const by (intros E; apply map_eq_nil in E; contradiction). ring.
Qed.
Theorem interpolate_spec alpha real fake : 0 <= alpha <= 1 -> length real = length fake ->
  length (interpolate alpha real fake) = length real /\
  (forall i, (i < length real)%nat -> Rmin (at_ real i) (at_ fake i) <= at_ (interpolate alpha real fake) i <= Rmax (at_ real i) (at_ fake i)) /\
  interpolate 1 real fake = real /\ interpolate 0 real fake = fake.
Proof.
  intros Ha L. unfold interpolate. split; [rewrite map_length, combine_length; lia|]. split; [|split].
  - intros i Hi. unfold at_. rewrite (nth_indep (map _ _) 0 ((fun p : R * R => alpha * fst p + (1 - alpha) * snd p) (0, 0))) by (apply Nat.lt_le_trans with (length real); [exact Hi|]; rewrite map_length, combine_length; lia). rewrite (map_nth (fun p : R * R => alpha * fst p + (1 - alpha) * snd p)), combine_nth by exact L. cbn [fst snd]. set (a := nth i real 0). set (b := nth i fake 0). unfold Rmin, Rmax. destruct (Rle_dec a b); nra.
  - revert fake L. induction real as [|a r IH]; intros [|b g] L; try discriminate; [reflexivity|]. cbn [combine map fst snd]. rewrite IH by now injection L. f_equal. ring.
  - revert fake L. induction real as [|a r IH]; intros [|b g] L; try discriminate; [reflexivity|]. cbn [combine map fst snd]. rewrite IH by now injection L. f_equal. ring.
Qed.
Theorem penalty_vectors_spec w g : 0 < w -> g <> [] -> 0 <= penalty_vectors w g /\ (penalty_vectors w g = 0 <-> forall v, In v g -> dot v v = 1).
Proof.
  intros Hw N. unfold penalty_vectors. set (e := fun g : list R => (sqrt (dot g g) - 1) * (sqrt (dot g g) - 1)). assert (Nn : forall v, In v (map e g) -> 0 <= v) by (intros v H; apply in_map_iff in H as [p [<- _]]; apply Rle_0_sqr). assert (Ne : map e g <> []) by (destruct g; [contradiction|discriminate]).
  pose proof (mean_nonneg _ Nn) as P. split; [apply Rmult_le_pos; lra|]. split.
  - intros E v Hv. apply Rmult_integral in E as [E|E]; [|lra]. assert (Z : e v = 0) by (apply (mean_zero _ Nn E Ne); apply in_map_iff; now exists v). unfold e in Z. assert (sqrt (dot v v) = 1) by (apply Rmult_integral in Z as [|]; lra). rewrite <- (sqrt_def (dot v v)) by apply dot_self_nonneg. rewrite H. ring.
  - intros H. rewrite (mean_const _ 0 Ne); [ring|]. intros v Hv. apply in_map_iff in Hv as [u [<- Hu]]. unfold e. rewrite (H u Hu), sqrt_1. ring.
Qed.
(** for batch x channels x samples the norm is taken over the channels of every sample, so that
    one gradient of norm 1 is punished *)
Theorem penalty_signals_refuted : let g := [1 / 2; 1 / 2; 1 / 2; 1 / 2] in dot g g = 1 /\ penalty_vectors 10 [g] = 0 /\ penalty_signals 10 4 [[g]] = 5 / 2.
Proof.
  intros g. assert (D : dot g g = 1) by (unfold dot, at_; cbn; lra). split; [exact D|]. split; [apply (penalty_vectors_spec 10 [g]); [lra|discriminate|]; intros v [<-|[]]; exact D|].
  unfold penalty_signals. rewrite (mean_const _ (1 / 4)); [lra|discriminate|]. intros v Hv. cbn [flat_map] in Hv. rewrite app_nil_r in Hv. apply in_map_iff in Hv as [j [<- Hj]]. apply in_seq in Hj. cbn [length rsum nth]. cbv zeta. replace (at_ g j) with (1 / 2) by (unfold at_, g; do 4 (destruct j as [|j]; [reflexivity|]); lia).
  replace (0 + 1 / 2 * (1 / 2)) with (1 / 2 * (1 / 2)) by ring. rewrite sqrt_square by lra. lra.
Qed.

(** ** the band loss *)
Lemma euclid_nonneg x : 0 <= euclid x. Proof. apply sqrt_pos. Qed.
Lemma dot_scale c x : c <> 0 -> dot (map (fun v => v / c) x) (map (fun v => v / c) x) = dot x x / (c * c).
Proof.
  intros Nc. unfold dot. rewrite map_length. rewrite (rsum_ext _ _ (fun i => / (c * c) * (at_ x i * at_ x i))) by (intros i Hi; rewrite !at_map by exact Hi; field; exact Nc). rewrite rsum_scale. unfold Rdiv. ring.
Qed.
(** every band, and the vector of the bands' norms, is brought to a norm just below one *)
Theorem shrink_spec x : length (shrink x) = length x /\ euclid (shrink x) = euclid x / (euclid x + / 10 ^ 8) /\ euclid (shrink x) < 1 /\
  (forall i, (i < length x)%nat -> at_ (shrink x) i = at_ x i / (euclid x + / 10 ^ 8)).
Proof.
  pose proof (euclid_nonneg x) as P. pose proof eps_pos as Pe. set (c := euclid x + / 10 ^ 8). assert (Pc : 0 < c) by (unfold c; lra).
  assert (E : euclid (shrink x) = euclid x / c). { unfold euclid at 1. unfold shrink. fold c. rewrite dot_scale by lra. unfold Rdiv. rewrite sqrt_mult; [|apply dot_self_nonneg|left; apply Rinv_0_lt_compat; nra]. fold (euclid x). f_equal. rewrite sqrt_inv, sqrt_square by lra. reflexivity. }
  split; [apply map_length|]. split; [exact E|]. split.
  - rewrite E. apply Rmult_lt_reg_r with c; [exact Pc|]. unfold Rdiv. rewrite Rmult_assoc, Rinv_l by lra. unfold c. lra.
  - intros i Hi. unfold shrink. fold c. now rewrite at_map.
Qed.
Lemma mse_nonneg a b : 0 <= mse a b.
Proof. unfold mse. apply mean_nonneg. intros v H. apply in_map_iff in H as [q [<- _]]. apply Rle_0_sqr. Qed.
Lemma mse_comm a b : mse a b = mse b a.
Proof. unfold mse. f_equal. revert b. induction a as [|x a IH]; intros [|y b]; try reflexivity. cbn [combine map fst snd]. rewrite IH. f_equal. ring. Qed.
Lemma mse_zero a b : length a = length b -> (mse a b = 0 <-> a = b).
Proof.
  intros L. split.
  - intros E. destruct a as [|x a0], b as [|y b0]; try discriminate; [reflexivity|]. set (a := x :: a0) in *. set (b := y :: b0) in *. assert (Z : forall v, In v (map (fun q => (fst q - snd q) * (fst q - snd q)) (combine a b)) -> v = 0).
    { apply mean_zero; [|exact E|discriminate]. intros v H. apply in_map_iff in H as [q [<- _]]. apply Rle_0_sqr. }
    clear E. clearbody a b. revert b L Z. induction a as [|u a IH]; intros [|w b] L Z; try discriminate; [reflexivity|]. cbn [combine map] in Z. f_equal; [specialize (Z _ (or_introl eq_refl)); cbn [fst snd] in Z; apply Rmult_integral in Z as [Z|Z]; lra|]. apply IH; [now injection L|]. intros v Hv. apply Z. now right.
  - intros <-. destruct a as [|x a0]; [unfold mse, mean; cbn; unfold Rdiv; ring|]. unfold mse. apply mean_const; [discriminate|]. intros v Hv. apply in_map_iff in Hv as [[u w] [<- Hq]]. cbn [fst snd]. assert (u = w); [|subst; ring]. clear -Hq. revert Hq. generalize (x :: a0). intros l. induction l as [|c l IH]; intros H; [destruct H|destruct H as [H|H]; [injection H; congruence|now apply IH]].
Qed.
Theorem band_loss_spec w input target : 0 <= w -> 0 <= band_loss w input target /\ band_loss w input target = band_loss w target input /\ band_loss w input input = 0.
Proof.
  intros Hw. unfold band_loss. pose proof (mse_nonneg (fst (band_features input)) (fst (band_features target))) as A. pose proof (mse_nonneg (snd (band_features input)) (snd (band_features target))) as B. split; [|split].
  - apply Rplus_le_le_0_compat; [exact A|]. now apply Rmult_le_pos.
  - now rewrite (mse_comm (fst (band_features input))), (mse_comm (snd (band_features input))).
  - assert (Z : forall l, mse l l = 0) by (intros l; now apply mse_zero). rewrite !Z. ring.
Qed.
(** a zero loss means the same normalised bands in the same proportions *)
Theorem band_loss_zero w input target : 0 < w -> map (@length R) input = map (@length R) target ->
  band_loss w input target = 0 -> flat_map shrink input = flat_map shrink target /\ shrink (map euclid input) = shrink (map euclid target).
Proof.
  intros Hw L E. unfold band_loss in E. pose proof (mse_nonneg (fst (band_features input)) (fst (band_features target))) as A. pose proof (mse_nonneg (snd (band_features input)) (snd (band_features target))) as B.
  assert (LF : length (flat_map shrink input) = length (flat_map shrink target)). { clear -L. revert target L. induction input as [|a i IH]; intros [|b t] L; try discriminate; [reflexivity|]. cbn [flat_map]. rewrite !app_length. destruct (shrink_spec a) as [-> _]. destruct (shrink_spec b) as [-> _]. cbn [map] in L. injection L as L1 L2. rewrite L1, (IH t L2). reflexivity. }
  assert (LC : length (shrink (map euclid input)) = length (shrink (map euclid target))). { destruct (shrink_spec (map euclid input)) as [-> _]. destruct (shrink_spec (map euclid target)) as [-> _]. rewrite !map_length. apply (f_equal (@length nat)) in L. now rewrite !map_length in L. }
  unfold band_features in *. cbn [fst snd] in *. split; apply mse_zero; try assumption; nra.
Qed.

Example perceptual_example : exists p, In p [([1; 0], [1; 0])] /\ / 10 ^ 8 <= dot (perceptual_features 1 1 1 [[1]] [1] (fst p)) (perceptual_features 1 1 1 [[1]] [1] (fst p)).
Proof.
  exists ([1; 0], [1; 0]). split; [now left|]. cbn [fst]. unfold perceptual_features, conv1d. cbn [combine flat_map fst snd length Nat.add Nat.mul Nat.sub Nat.div Nat.divmod seq map rsum app repeat at_ nth]. unfold at_. cbn [nth].
  unfold dot. cbn [length rsum app map]. unfold at_. cbn [nth].
  replace (0 + 1 * 1) with 1 by ring. replace (0 + 1 * 0) with 0 by ring. unfold relu. rewrite (Rmax_right 0 1) by lra. rewrite (Rmax_left 0 0) by lra. replace (1 + 0 * 1) with 1 by ring. rewrite ln_1. replace (1 + 1 * 1) with 2 by ring.
  pose proof (ln_lt_2). nra.
Qed.

(** gradients of norm [k] cost weight * (k - 1)^2 *)
Theorem penalty_value w g k : 0 <= k -> g <> [] -> (forall v, In v g -> dot v v = k * k) -> penalty_vectors w g = w * ((k - 1) * (k - 1)).
Proof.
  intros Hk N H. unfold penalty_vectors. rewrite (mean_const _ ((k - 1) * (k - 1))); [ring|destruct g; [contradiction|discriminate]|].
  intros v Hv. apply in_map_iff in Hv as [u [<- Hu]]. rewrite (H u Hu), sqrt_square by exact Hk. reflexivity.
Qed.
(** the second term of the band loss compares the normalised norms of the bands, so
    it does not exceed what unit vectors allow *)
Theorem band_features_spec bands : euclid (snd (band_features bands)) = euclid (map euclid bands) / (euclid (map euclid bands) + / 10 ^ 8) /\
  length (snd (band_features bands)) = length bands /\
  (forall i, (i < length bands)%nat -> at_ (snd (band_features bands)) i = euclid (nth i bands []) / (euclid (map euclid bands) + / 10 ^ 8)) /\
  fst (band_features bands) = concat (map shrink bands).
Proof.
  unfold band_features. cbn [fst snd]. destruct (shrink_spec (map euclid bands)) as (L & E & _ & V). rewrite map_length in *.
  split; [exact E|]. split; [exact L|]. split; [|apply flat_map_concat_map].
  intros i Hi. rewrite V by exact Hi. f_equal. unfold at_. rewrite (nth_indep _ 0 (euclid [])) by (rewrite map_length; exact Hi). apply map_nth.
Qed.
