(** The categorical loss: what is read where. *)
From Verif Require Import PyBase PyFacts PyMore Spectral SpectralProofs TransformProofs ReconProofs Loss LossProofs.
From Coq Require Import Reals Lra Lia.
Local Open Scope R_scope.

Lemma rsum_app n m f : rsum (n + m) f = rsum n f + rsum m (fun i => f (n + i)%nat).
Proof. induction m as [|m IH]; [rewrite Nat.add_0_r; cbn [rsum]; ring|]. rewrite Nat.add_succ_r. cbn [rsum]. rewrite IH. ring. Qed.
Lemma rsum_nested b p f : rsum (b * p) f = rsum b (fun i => rsum p (fun j => f (i * p + j)%nat)).
Proof. induction b as [|b IH]; [reflexivity|]. cbn [rsum Nat.mul]. rewrite Nat.add_comm, rsum_app, IH. reflexivity. Qed.
Lemma nll_spec c b p inp t : (0 < p)%nat -> nll c b p inp t = - rsum b (fun i => rsum p (fun j => at_ inp ((i * c + nth (i * p + j) t O) * p + j)%nat)) / INR (b * p).
Proof.
  intros Hp. unfold nll. rewrite rsum_nested. f_equal. f_equal. apply rsum_ext. intros i Hi. apply rsum_ext. intros j Hj.
  rewrite Nat.div_add_l, Nat.div_small, Nat.add_0_r by lia. rewrite (Nat.add_comm (i * p) j), Nat.mod_add, Nat.mod_small by lia. rewrite (Nat.add_comm j). reflexivity.
Qed.
Lemma half_even p : Nat.even p = true -> (2 * (p / 2))%nat = p.
Proof. intros E. apply Nat.even_spec in E as [k ->]. rewrite (Nat.mul_comm 2 k), Nat.div_mul by lia. lia. Qed.
Lemma views_mul k m : (0 < k)%nat -> views (m * k) k = true.
Proof. intros. unfold views. rewrite Nat.mod_mul by lia. destruct (Nat.eqb_spec k 0); [lia|reflexivity]. Qed.

(** scores batch x classes x positions against a target of batch x positions *)
Theorem categorical_scores n b p input target : (0 < n)%nat -> (0 < b)%nat -> (0 < p)%nat -> Nat.even p = true ->
  length input = (b * (n + 1) * p)%nat -> length target = (b * p)%nat -> (exists v, In v target /\ v <> 0) ->
  exists d l, discretized n target = Ok (Some d) /\ categorical_loss n (n + 1) p input p target = Ok (Some l) /\
    (forall i, (i < b * p)%nat -> (long (at_ d i) <= n)%nat) /\
    l = - rsum b (fun i => rsum p (fun j => at_ input ((i * (n + 1) + long (at_ d (i * p + j))) * p + j)%nat)) / INR (b * p) /\
    ((forall v, In v input -> v <= 0) -> 0 <= l).
Proof.
  intros Hn Hb Hp He Li Lt [v [Hv NZ]]. assert (Nt : target <> []) by (intros ->; destruct Hv). pose proof (discretized_spec n target Hn Nt) as D. destruct (discretized n target) as [[d|]|e] eqn:Ed; [|exfalso; apply NZ; now apply D|destruct D].
  destruct D as [Ld [Rd _]]. exists d. eexists. split; [reflexivity|]. unfold categorical_loss. rewrite Nat.eqb_refl. cbn [bind]. rewrite Ed. cbn [bind]. rewrite (half_even p He), Li, Lt.
  replace (b * (n + 1) * p)%nat with (b * ((n + 1) * p))%nat by lia. rewrite views_mul, views_mul by nia. cbn [negb]. rewrite !Nat.div_mul by lia. rewrite !Nat.eqb_refl. cbn [andb negb]. split; [reflexivity|].
  split; [intros i Hi; apply long_le, Rd; lia|]. rewrite nll_spec by exact Hp.
  assert (E : forall i j, (i < b)%nat -> (j < p)%nat -> nth (i * p + j) (map long d) 0%nat = long (at_ d (i * p + j))). { intros i j Hi Hj. rewrite (nth_indep _ 0%nat (long 0)) by (rewrite map_length; nia). apply map_nth. }
  split; [f_equal; f_equal; apply rsum_ext; intros i Hi; apply rsum_ext; intros j Hj; now rewrite E|].
  intros Neg. assert (Pb : 0 < INR (b * p)) by (apply lt_0_INR; nia). unfold Rdiv. apply Rmult_le_pos; [|left; now apply Rinv_0_lt_compat].
  match goal with |- 0 <= - ?s => assert (0 <= - 1 * s); [|lra] end. rewrite <- rsum_scale. apply rsum_nonneg. intros i Hi. rewrite <- rsum_scale. apply rsum_nonneg. intros j Hj. rewrite E by assumption.
  match goal with |- 0 <= - 1 * at_ input ?k => assert (at_ input k <= 0); [|lra]; destruct (Nat.lt_ge_cases k (length input)) as [Hk|Hk]; [apply Neg; now apply nth_In|unfold at_; rewrite nth_overflow by exact Hk; lra] end.
Qed.
Lemma flat_map_at (f : R -> list R) w l : (forall v, length (f v) = w) -> (0 < w)%nat -> forall r k, (r < length l)%nat -> (k < w)%nat -> at_ (flat_map f l) (r * w + k) = at_ (f (at_ l r)) k.
Proof.
  intros Hf Hw. induction l as [|a l IH]; intros r k Hr Hk; cbn [length] in Hr; [lia|]. cbn [flat_map]. unfold at_. destruct r as [|r].
  - rewrite app_nth1 by (rewrite Hf; lia). reflexivity.
  - rewrite app_nth2 by (rewrite Hf; lia). rewrite Hf. replace (S r * w + k - w)%nat with (r * w + k)%nat by lia. apply IH; lia.
Qed.
Lemma flat_map_len (f : R -> list R) w l : (forall v, length (f v) = w) -> length (flat_map f l) = (length l * w)%nat.
Proof. intros Hf. induction l as [|a l IH]; [reflexivity|]. cbn [flat_map length]. rewrite app_length, Hf, IH. lia. Qed.
Lemma one_hot_length n v : length (one_hot_log n v) = (n + 1)%nat.
Proof. unfold one_hot_log, log_softmax. now rewrite map_length, closeness_length. Qed.

(** raw samples: where the score of category [c] of sample [j] should be, the score of category
    [(c*p + j) mod (n+1)] of sample [(c*p + j) / (n+1)] is read *)
Theorem categorical_raw n channels b p input target : (0 < n)%nat -> (0 < b)%nat -> (0 < p)%nat -> Nat.even p = true -> channels <> (n + 1)%nat ->
  length input = (b * p)%nat -> length target = (b * p)%nat -> (exists v, In v input /\ v <> 0) -> (exists v, In v target /\ v <> 0) ->
  exists d e, discretized n target = Ok (Some d) /\ discretized n input = Ok (Some e) /\
    categorical_loss n channels p input p target = Ok (Some (- rsum b (fun i => rsum p (fun j =>
      let k := (long (at_ d (i * p + j)) * p + j)%nat in at_ (one_hot_log n (at_ e (i * p + k / (n + 1)))) (k mod (n + 1)))) / INR (b * p))).
Proof.
  intros Hn Hb Hp He Hc Li Lt [u [Hu NU]] [v [Hv NZ]]. assert (Nt : target <> []) by (intros ->; destruct Hv). assert (Ni : input <> []) by (intros ->; destruct Hu).
  pose proof (discretized_spec n target Hn Nt) as D. destruct (discretized n target) as [[d|]|x] eqn:Ed; [|exfalso; apply NZ; now apply D|destruct D].
  pose proof (discretized_spec n input Hn Ni) as D'. destruct (discretized n input) as [[e|]|x] eqn:Ee; [|exfalso; apply NU; now apply D'|destruct D'].
  destruct D as [Ld [Rd _]]. destruct D' as [Le _]. exists d, e. split; [reflexivity|]. split; [reflexivity|]. unfold categorical_loss. destruct (Nat.eqb_spec channels (n + 1)) as [C|_]; [contradiction|]. rewrite Ee. cbn [bind]. rewrite Ed. cbn [bind].
  rewrite (half_even p He), Lt, (flat_map_len _ (n + 1)) by apply one_hot_length. rewrite Le, Li. replace (b * p * (n + 1))%nat with (b * ((n + 1) * p))%nat by lia. rewrite views_mul, views_mul by nia. cbn [negb]. rewrite !Nat.div_mul by lia. rewrite !Nat.eqb_refl. cbn [andb negb].
  do 2 f_equal. rewrite nll_spec by exact Hp. f_equal. f_equal. apply rsum_ext. intros i Hi. apply rsum_ext. intros j Hj. cbv zeta.
  assert (E : nth (i * p + j) (map long d) 0%nat = long (at_ d (i * p + j))). { rewrite (nth_indep _ 0%nat (long 0)) by (rewrite map_length; nia). apply map_nth. } rewrite E.
  assert (Lc : (long (at_ d (i * p + j)) <= n)%nat) by (apply long_le, Rd; nia). set (c := long (at_ d (i * p + j))) in *. set (k := (c * p + j)%nat).
  assert (Hk : (k < p * (n + 1))%nat) by (unfold k; nia). assert (Q : (k / (n + 1) < p)%nat) by (apply Nat.div_lt_upper_bound; lia).
  replace ((i * (n + 1) + c) * p + j)%nat with ((i * p + k / (n + 1)) * (n + 1) + k mod (n + 1))%nat.
  - apply flat_map_at; [apply one_hot_length|lia| |apply Nat.mod_upper_bound; lia]. rewrite Le, Li. nia.
  - pose proof (Nat.div_mod k (n + 1) ltac:(lia)) as DM. unfold k in *. nia.
Qed.

Lemma discretized_unit x : rmax (map Rabs x) = 1 -> x <> [] -> forall n, discretized n x = Ok (Some (map (fun v => loss_scale n (mu_law (INR n) v)) x)).
Proof. intros E N n. unfold discretized. destruct x as [|a x]; [contradiction|]. rewrite E. destruct (Req_EM_T 1 0) as [Z0|_]; [lra|]. do 2 f_equal. apply map_ext. intros v. do 2 f_equal. field. Qed.
Lemma scale_ends n : (0 < n)%nat -> loss_scale n (mu_law (INR n) 1) = INR n /\ loss_scale n (mu_law (INR n) (-1)) = 0.
Proof. intros H. destruct (mu_law_one (INR n) (lt_0_INR n H)) as [-> [-> _]]. unfold loss_scale. split; field. Qed.
Lemma long_nat n : long (INR n) = n.
Proof. pose proof (long_le (INR n) n ltac:(split; [apply pos_INR|lra])) as A. destruct (long_spec (INR n) (pos_INR n)) as [_ B]. rewrite <- S_INR in B. apply INR_lt in B. lia. Qed.
Lemma worst_score : at_ (one_hot_log 1 1) 0 <= - 10 ^ 12.
Proof.
  unfold one_hot_log, log_softmax. rewrite at_map by (rewrite closeness_length; lia). rewrite closeness_at by lia. replace (- ((1 - INR 0) * (1 - INR 0) * 10 ^ 12)) with (- 10 ^ 12) by (cbn [INR]; ring).
  assert (1 <= exp_sum (closeness 1 1)). { unfold exp_sum. rewrite closeness_length. cbn [Nat.add rsum]. rewrite (closeness_at 1 1 1) by lia. replace (- ((1 - INR 1) * (1 - INR 1) * 10 ^ 12)) with 0 by (cbn [INR]; ring). rewrite exp_0. pose proof (exp_pos (at_ (closeness 1 1) 0)). lra. }
  assert (0 <= ln (exp_sum (closeness 1 1))). { rewrite <- ln_1. destruct H as [H|H]; [left; apply ln_increasing; lra|right; now rewrite <- H]. } lra.
Qed.
(** with raw samples a perfect prediction can have a huge loss, the same as a wrong one *)
Theorem categorical_raw_refuted : exists l, categorical_loss 1 3 2 [1; 1] 2 [1; 1] = Ok (Some l) /\ categorical_loss 1 3 2 [1; -1] 2 [1; 1] = Ok (Some l) /\ 4 * 10 ^ 11 <= l.
Proof.
  assert (R1 : rmax (map Rabs [1; 1]) = 1) by (cbn; rewrite Rabs_R1; apply Rmax_left; lra). assert (R2 : rmax (map Rabs [1; -1]) = 1) by (cbn [map rmax fold_left]; rewrite Rabs_R1, Rabs_left by lra; apply Rmax_left; lra).
  destruct (scale_ends 1 ltac:(lia)) as [S1 S0]. assert (D1 : discretized 1 [1; 1] = Ok (Some [INR 1; INR 1])) by (rewrite discretized_unit by (exact R1 || discriminate); cbn [map]; now rewrite S1). assert (D2 : discretized 1 [1; -1] = Ok (Some [INR 1; 0])) by (rewrite discretized_unit by (exact R2 || discriminate); cbn [map]; now rewrite S1, S0).
  assert (W : at_ (one_hot_log 1 (INR 1)) 0 <= - 10 ^ 12) by apply worst_score. assert (W0 : at_ (one_hot_log 1 0) 1 = at_ (one_hot_log 1 (INR 1)) 0).
  { unfold one_hot_log, log_softmax. rewrite !at_map by (rewrite closeness_length; lia). assert (Ex : exp_sum (closeness 1 0) = exp_sum (closeness 1 (INR 1))). { unfold exp_sum. rewrite !closeness_length. cbn [Nat.add rsum]. rewrite !closeness_at by lia. replace (- ((0 - INR 0) * (0 - INR 0) * 10 ^ 12)) with (- ((INR 1 - INR 1) * (INR 1 - INR 1) * 10 ^ 12)) by (cbn [INR]; ring). replace (- ((0 - INR 1) * (0 - INR 1) * 10 ^ 12)) with (- ((INR 1 - INR 0) * (INR 1 - INR 0) * 10 ^ 12)) by (cbn [INR]; ring). ring. }
    rewrite Ex, !closeness_at by lia. cbn [INR]. ring. }
  assert (W1 : at_ (one_hot_log 1 0) 0 = at_ (one_hot_log 1 (INR 1)) 1).
  { unfold one_hot_log, log_softmax. rewrite !at_map by (rewrite closeness_length; lia). assert (Ex : exp_sum (closeness 1 0) = exp_sum (closeness 1 (INR 1))). { unfold exp_sum. rewrite !closeness_length. cbn [Nat.add rsum]. rewrite !closeness_at by lia. replace (- ((0 - INR 0) * (0 - INR 0) * 10 ^ 12)) with (- ((INR 1 - INR 1) * (INR 1 - INR 1) * 10 ^ 12)) by (cbn [INR]; ring). replace (- ((0 - INR 1) * (0 - INR 1) * 10 ^ 12)) with (- ((INR 1 - INR 0) * (INR 1 - INR 0) * 10 ^ 12)) by (cbn [INR]; ring). ring. }
    rewrite Ex, !closeness_at by lia. cbn [INR]. ring. }
  assert (In1 : exists v, In v [1; 1] /\ v <> 0) by (exists 1; split; [now left|lra]). assert (In2 : exists v, In v [1; -1] /\ v <> 0) by (exists 1; split; [now left|lra]).
  destruct (categorical_raw 1 3 1 2 [1; 1] [1; 1] ltac:(lia) ltac:(lia) ltac:(lia) eq_refl ltac:(lia) eq_refl eq_refl In1 In1) as [d [e [Ed [Ee L1]]]]. rewrite D1 in Ed, Ee. assert (Hd : d = [INR 1; INR 1]) by congruence. assert (He : e = [INR 1; INR 1]) by congruence. subst d e.
  destruct (categorical_raw 1 3 1 2 [1; -1] [1; 1] ltac:(lia) ltac:(lia) ltac:(lia) eq_refl ltac:(lia) eq_refl eq_refl In2 In1) as [d [e [Ed' [Ee' L2]]]]. rewrite D1 in Ed'. rewrite D2 in Ee'. assert (Hd : d = [INR 1; INR 1]) by congruence. assert (He : e = [INR 1; 0]) by congruence. subst d e.
  assert (A0 : at_ [INR 1; INR 1] (0 * 2 + 0) = INR 1) by reflexivity. assert (A1 : at_ [INR 1; INR 1] (0 * 2 + 1) = INR 1) by reflexivity.
  cbn [rsum] in L1, L2. rewrite A0, A1, !long_nat in L1, L2.
  change ((1 * 2 + 0) / (1 + 1))%nat with 1%nat in *. change ((1 * 2 + 0) mod (1 + 1))%nat with 0%nat in *. change ((1 * 2 + 1) / (1 + 1))%nat with 1%nat in *. change ((1 * 2 + 1) mod (1 + 1))%nat with 1%nat in *.
  change (at_ [INR 1; INR 1] (0 * 2 + 1)) with (INR 1) in L1. change (at_ [INR 1; 0] (0 * 2 + 1)) with 0 in L2. rewrite W0, W1 in L2. eexists. split; [exact L1|]. split; [rewrite L2; do 2 f_equal; cbv zeta; lra|].
  assert (V : at_ (one_hot_log 1 (INR 1)) 1 <= 0). { destruct (softmax_distribution _ (closeness_ne 1 (INR 1))) as [_ [_ [_ [Q _]]]]. apply Q. rewrite closeness_length. lia. }
  change (1 * 2)%nat with 2%nat. replace (INR 2) with 2 by (cbn; lra). lra.
Qed.
