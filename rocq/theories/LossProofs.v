(** What the losses guarantee. *)
From Verif Require Import PyBase PyFacts PyMore Spectral SpectralProofs TransformProofs ReconProofs Loss.
From Coq Require Import Reals Lra Lia.
Local Open Scope R_scope.

(** ** sums *)
Lemma rsum_nonneg n f : (forall i, (i < n)%nat -> 0 <= f i) -> 0 <= rsum n f.
Proof. induction n as [|n IH]; cbn [rsum]; intros H; [lra|]. pose proof (H n ltac:(lia)). assert (0 <= rsum n f) by (apply IH; intros; apply H; lia). lra. Qed.
Lemma rsum_pos n f : (0 < n)%nat -> (forall i, (i < n)%nat -> 0 < f i) -> 0 < rsum n f.
Proof. induction n as [|n IH]; cbn [rsum]; intros P H; [lia|]. pose proof (H n ltac:(lia)). assert (0 <= rsum n f) by (apply rsum_nonneg; intros; left; apply H; lia). lra. Qed.
Lemma rsum_nonneg_zero n f : (forall i, (i < n)%nat -> 0 <= f i) -> rsum n f = 0 -> forall i, (i < n)%nat -> f i = 0.
Proof.
  induction n as [|n IH]; cbn [rsum]; intros H E i Hi; [lia|]. pose proof (H n ltac:(lia)) as A. assert (B : 0 <= rsum n f) by (apply rsum_nonneg; intros; apply H; lia).
  destruct (Nat.eq_dec i n) as [->|Ne]; [lra|]. apply IH; [intros; apply H; lia|lra|lia].
Qed.
Lemma rsum_le n f g : (forall i, (i < n)%nat -> f i <= g i) -> rsum n f <= rsum n g.
Proof. induction n as [|n IH]; cbn [rsum]; intros H; [lra|]. pose proof (H n ltac:(lia)). assert (rsum n f <= rsum n g) by (apply IH; intros; apply H; lia). lra. Qed.
Lemma rsum_term n f i : (forall i, (i < n)%nat -> 0 <= f i) -> (i < n)%nat -> f i <= rsum n f.
Proof.
  induction n as [|n IH]; cbn [rsum]; intros H Hi; [lia|]. pose proof (H n ltac:(lia)). assert (0 <= rsum n f) by (apply rsum_nonneg; intros; apply H; lia).
  destruct (Nat.eq_dec i n) as [->|Ne]; [lra|]. assert (f i <= rsum n f) by (apply IH; [intros; apply H; lia|lia]). lra.
Qed.
Lemma mean_bounds l lo hi : l <> [] -> (forall v, In v l -> lo <= v <= hi) -> lo <= mean l <= hi.
Proof.
  intros N H. unfold mean. assert (L : (0 < length l)%nat) by (destruct l; [contradiction|cbn; lia]). assert (P0 : 0 < INR (length l)) by now apply lt_0_INR.
  assert (A : forall i, (i < length l)%nat -> lo <= at_ l i <= hi) by (intros; apply H; now apply nth_In).
  assert (B : rsum (length l) (fun _ => lo) <= rsum (length l) (at_ l)) by (apply rsum_le; intros; now apply A).
  assert (C : rsum (length l) (at_ l) <= rsum (length l) (fun _ => hi)) by (apply rsum_le; intros; now apply A). rewrite rsum_const in B, C.
  split; apply Rmult_le_reg_r with (INR (length l)); try exact P0; unfold Rdiv; rewrite Rmult_assoc, Rinv_l by lra; lra.
Qed.
Lemma mean_const l c : l <> [] -> (forall v, In v l -> v = c) -> mean l = c.
Proof. intros N H. assert (c <= mean l <= c) by (apply mean_bounds; [exact N|]; intros v Hv; rewrite (H v Hv); lra). lra. Qed.
Lemma mean_nonneg l : (forall v, In v l -> 0 <= v) -> 0 <= mean l.
Proof.
  intros H. unfold mean. destruct l as [|a l]; [cbn; unfold Rdiv; rewrite Rmult_0_l; lra|]. assert (0 < INR (length (a :: l))) by (apply lt_0_INR; cbn; lia). unfold Rdiv. apply Rmult_le_pos; [|left; now apply Rinv_0_lt_compat]. apply rsum_nonneg. intros. apply H. now apply nth_In.
Qed.
Lemma mean_zero l : (forall v, In v l -> 0 <= v) -> mean l = 0 -> l <> [] -> forall v, In v l -> v = 0.
Proof.
  intros H E N v Hv. assert (L : 0 < INR (length l)) by (apply lt_0_INR; destruct l; [contradiction|cbn; lia]). assert (Z0 : rsum (length l) (at_ l) = 0). { unfold mean in E. apply Rmult_eq_reg_r with (/ INR (length l)); [rewrite Rmult_0_l; exact E|]. apply Rinv_neq_0_compat. lra. }
  apply (In_nth _ _ 0) in Hv as [i [Hi <-]]. apply (rsum_nonneg_zero _ _ (fun i Hi => H _ (nth_In _ _ Hi)) Z0 i Hi).
Qed.

(** ** categories *)
Lemma rmax_abs_pos x : rmax (map Rabs x) <> 0 -> 0 < rmax (map Rabs x).
Proof.
  intros H. destruct x as [|a x]; [cbn in H; lra|]. assert (N : map Rabs (a :: x) <> []) by discriminate. pose proof (rmax_in _ N) as I. apply in_map_iff in I as [v [E _]]. pose proof (Rabs_pos v). lra.
Qed.
Lemma scaled_unit x v : 0 < rmax (map Rabs x) -> In v x -> -1 <= v / rmax (map Rabs x) <= 1.
Proof.
  intros P Hv. assert (B : Rabs v <= rmax (map Rabs x)) by (apply rmax_ge, in_map_iff; now exists v). set (m := rmax _) in *. pose proof (Rle_abs v) as B1. pose proof (Rle_abs (- v)) as B2. rewrite Rabs_Ropp in B2.
  split; apply Rmult_le_reg_r with m; try exact P; unfold Rdiv; rewrite Rmult_assoc, Rinv_l by lra; lra.
Qed.
Theorem discretized_spec n x : (0 < n)%nat -> x <> [] ->
  match discretized n x with
  | Raise _ => False
  | Ok None => forall v, In v x -> v = 0
  | Ok (Some d) =>
      length d = length x /\
      (forall i, (i < length x)%nat -> 0 <= at_ d i <= INR n) /\
      (forall i j, (i < length x)%nat -> (j < length x)%nat -> at_ x i < at_ x j -> at_ d i < at_ d j) /\
      (forall i, (i < length x)%nat -> at_ x i = 0 -> at_ d i = INR n / 2) /\
      (exists i, (i < length x)%nat /\ (at_ d i = 0 \/ at_ d i = INR n)) /\
      (exists peak, (forall v, In v x -> Rabs v <= peak) /\ (exists v, In v x /\ Rabs v = peak) /\
        forall i, (i < length x)%nat -> at_ d i = (mu_law (INR n) (at_ x i / peak) + 1) * (INR n / 2))
  end.
Proof.
  intros Hn Hx. assert (Pn : 0 < INR n) by now apply lt_0_INR. unfold discretized. destruct x as [|a x0]; [contradiction|]. set (x := a :: x0) in *. destruct (Req_EM_T (rmax (map Rabs x)) 0) as [E|Ne].
  - intros v Hv. assert (B : Rabs v <= rmax (map Rabs x)) by (apply rmax_ge, in_map_iff; now exists v). pose proof (Rabs_pos v). apply abs_zero. lra.
  - pose proof (rmax_abs_pos x Ne) as Pm. set (m := rmax (map Rabs x)) in *. set (f := fun v => loss_scale n (mu_law (INR n) (v / m))).
    assert (A : forall i, (i < length x)%nat -> at_ (map f x) i = f (at_ x i)). { intros i Hi. unfold at_. rewrite (nth_indep _ 0 (f 0)) by (rewrite map_length; exact Hi). apply map_nth. }
    assert (Mono : forall u v, u < v -> f u < f v). { intros u v Huv. unfold f, loss_scale. apply Rmult_lt_compat_r; [lra|]. apply Rplus_lt_compat_r. apply mu_law_increasing; [exact Pn|]. unfold Rdiv. apply Rmult_lt_compat_r; [now apply Rinv_0_lt_compat|exact Huv]. }
    destruct (mu_law_one (INR n) Pn) as [M1 [M2 M3]].
    split; [apply map_length|]. split; [|split; [|split; [|split]]].
    + intros i Hi. rewrite A by exact Hi. unfold f, loss_scale. pose proof (scaled_unit x (at_ x i) Pm (nth_In _ _ Hi)) as R. fold m in R. apply (mu_law_range (INR n) Pn) in R. nra.
    + intros i j Hi Hj H. rewrite !A by assumption. now apply Mono.
    + intros i Hi H. rewrite A, H by exact Hi. unfold f, loss_scale. replace (0 / m) with 0 by (field; lra). rewrite M3. lra.
    + assert (N : map Rabs x <> []) by discriminate. pose proof (rmax_in _ N) as I. apply in_map_iff in I as [v [E Hv]]. fold m in E. apply (In_nth _ _ 0) in Hv as [i [Hi Ev]]. exists i. split; [exact Hi|]. rewrite A by exact Hi. unfold at_. rewrite Ev. unfold f, loss_scale.
      destruct (Rle_or_lt 0 v) as [P|P].
      * right. rewrite Rabs_pos_eq in E by exact P. replace (v / m) with 1 by (rewrite E; field; lra). rewrite M1. field.
      * left. rewrite Rabs_left in E by exact P. replace (v / m) with (-1) by (replace v with (- m) by lra; field; lra). rewrite M2. lra.
    + exists m. split; [intros v Hv; apply rmax_ge, in_map_iff; now exists v|]. split; [|intros i Hi; rewrite A by exact Hi; reflexivity]. assert (N : map Rabs x <> []) by discriminate. pose proof (rmax_in _ N) as I. apply in_map_iff in I as [v [E Hv]]. now exists v.
Qed.
(** loudness does not matter *)
Theorem discretized_scale n x k : 0 < k -> discretized n (map (Rmult k) x) = discretized n x.
Proof.
  intros Hk. unfold discretized. destruct x as [|a x0]; [reflexivity|]. set (x := a :: x0) in *. change (map (Rmult k) x) with (k * a :: map (Rmult k) x0) at 1. cbv iota.
  assert (E : rmax (map Rabs (map (Rmult k) x)) = k * rmax (map Rabs x)).
  { assert (N : map Rabs x <> []) by discriminate. assert (N' : map Rabs (map (Rmult k) x) <> []) by discriminate. pose proof (rmax_in _ N) as I. pose proof (rmax_in _ N') as I'. apply in_map_iff in I as [v [E Hv]]. apply in_map_iff in I' as [w [E' Hw]]. apply in_map_iff in Hw as [u [<- Hu]].
    assert (A : Rabs u <= rmax (map Rabs x)) by (apply rmax_ge, in_map_iff; now exists u). assert (B : Rabs (k * v) <= rmax (map Rabs (map (Rmult k) x))) by (apply rmax_ge, in_map_iff; exists (k * v); split; [reflexivity|]; apply in_map_iff; now exists v).
    rewrite Rabs_mult, (Rabs_pos_eq k) in * by lra. apply Rle_antisym; [rewrite <- E'|rewrite <- E; exact B]. apply Rmult_le_compat_l; [lra|exact A]. }
  rewrite E. set (m := rmax (map Rabs x)). destruct (Req_EM_T m 0) as [Z0|NZ], (Req_EM_T (k * m) 0) as [Z1|NZ1]; try reflexivity.
  - rewrite Z0, Rmult_0_r in NZ1. now elim NZ1.
  - apply Rmult_integral in Z1 as [|]; lra.
  - do 2 f_equal. rewrite map_map. apply map_ext. intros v. do 2 f_equal. field. split; lra.
Qed.
Lemma long_le v n : 0 <= v <= INR n -> (long v <= n)%nat.
Proof.
  intros [A B]. unfold long. destruct (base_Int_part v) as [I1 I2]. assert (IZR (Int_part v) <= IZR (Z.of_nat n)) by (rewrite <- INR_IZR_INZ; lra). apply le_IZR in H. lia.
Qed.
Lemma long_spec v : 0 <= v -> INR (long v) <= v < INR (long v) + 1.
Proof.
  intros A. unfold long. destruct (base_Int_part v) as [I1 I2]. assert (P : (0 <= Int_part v)%Z). { assert (IZR (-1) < IZR (Int_part v)) by lra. apply lt_IZR in H. lia. } rewrite INR_IZR_INZ, Z2Nat.id by exact P. lra.
Qed.

(** ** softmax *)
Lemma at_map f l i : (i < length l)%nat -> at_ (map f l) i = f (at_ l i).
Proof. intros Hi. unfold at_. rewrite (nth_indep _ 0 (f 0)) by (rewrite map_length; exact Hi). apply map_nth. Qed.
Lemma exp_sum_pos x : x <> [] -> 0 < exp_sum x.
Proof. intros N. unfold exp_sum. apply rsum_pos; [destruct x; [contradiction|cbn; lia]|]. intros. apply exp_pos. Qed.
Theorem softmax_distribution x : x <> [] ->
  length (softmax x) = length x /\ rsum (length x) (at_ (softmax x)) = 1 /\ (forall i, (i < length x)%nat -> 0 < at_ (softmax x) i <= 1) /\
  (forall i, (i < length x)%nat -> at_ (softmax x) i = exp (at_ (log_softmax x) i) /\ at_ (log_softmax x) i <= 0) /\
  (forall i j, (i < length x)%nat -> (j < length x)%nat -> at_ x i < at_ x j -> at_ (softmax x) i < at_ (softmax x) j /\ at_ (log_softmax x) i < at_ (log_softmax x) j).
Proof.
  intros N. pose proof (exp_sum_pos x N) as P. assert (A : forall i, (i < length x)%nat -> at_ (softmax x) i = exp (at_ x i) / exp_sum x) by (intros; unfold softmax; now rewrite at_map). assert (B : forall i, (i < length x)%nat -> at_ (log_softmax x) i = at_ x i - ln (exp_sum x)) by (intros; unfold log_softmax; now rewrite at_map).
  assert (T : forall i, (i < length x)%nat -> exp (at_ x i) <= exp_sum x) by (intros i Hi; unfold exp_sum; apply (rsum_term _ (fun i => exp (at_ x i))); [intros; left; apply exp_pos|exact Hi]).
  split; [apply map_length|]. split; [|split; [|split]].
  - rewrite (rsum_ext _ _ (fun i => / exp_sum x * exp (at_ x i))) by (intros i Hi; rewrite A by exact Hi; unfold Rdiv; ring). rewrite rsum_scale. fold (exp_sum x). field. lra.
  - intros i Hi. rewrite A by exact Hi. split; [apply Rdiv_lt_0_compat; [apply exp_pos|exact P]|]. apply Rmult_le_reg_r with (exp_sum x); [exact P|]. unfold Rdiv. rewrite Rmult_assoc, Rinv_l by lra. specialize (T i Hi). lra.
  - intros i Hi. rewrite A, B by exact Hi. split; [unfold Rminus; rewrite exp_plus, exp_Ropp, exp_ln by exact P; reflexivity|]. specialize (T i Hi). assert (at_ x i <= ln (exp_sum x)); [|lra]. rewrite <- (ln_exp (at_ x i)). destruct T as [T|T]; [left; apply ln_increasing; [apply exp_pos|exact T]|right; now rewrite T].
  - intros i j Hi Hj H. rewrite !A, !B by assumption. split; [|lra]. unfold Rdiv. apply Rmult_lt_compat_r; [now apply Rinv_0_lt_compat|]. now apply exp_increasing.
Qed.
Lemma closeness_length n v : length (closeness n v) = (n + 1)%nat.
Proof. unfold closeness. now rewrite map_length, seq_length. Qed.
Lemma closeness_ne n v : closeness n v <> [].
Proof. intros E. pose proof (closeness_length n v). rewrite E in H. cbn in H. lia. Qed.
Lemma closeness_at n v c : (c <= n)%nat -> at_ (closeness n v) c = - ((v - INR c) * (v - INR c) * 10 ^ 12).
Proof. intros H. unfold closeness. rewrite at_map_seq by lia. reflexivity. Qed.
(** a category nearer to the value scores higher *)
Theorem one_hot_nearest n v c d : (c <= n)%nat -> (d <= n)%nat -> Rabs (v - INR c) < Rabs (v - INR d) ->
  at_ (one_hot_log n v) d < at_ (one_hot_log n v) c <= 0 /\
  at_ (one_hot_log n v) c - at_ (one_hot_log n v) d = ((v - INR d) ^ 2 - (v - INR c) ^ 2) * 10 ^ 12.
Proof.
  intros Hc Hd H. destruct (softmax_distribution _ (closeness_ne n v)) as [_ [_ [_ [S M]]]]. rewrite closeness_length in S, M. split; [|unfold one_hot_log, log_softmax; rewrite !at_map by (rewrite closeness_length; lia); rewrite !closeness_at by assumption; ring]. split; [|apply S; lia]. apply M; [lia|lia|]. rewrite !closeness_at by assumption. apply Ropp_lt_contravar. apply Rmult_lt_compat_r; [lra|]. apply Rsqr_lt_abs_1 in H. unfold Rsqr in H. exact H.
Qed.
(** but the target's category is the value cut off, not rounded *)
Theorem one_hot_truncation n v : 0 <= v -> (long v < n)%nat -> INR (long v) + 1 / 2 < v ->
  at_ (one_hot_log n v) (long v) < at_ (one_hot_log n v) (S (long v)).
Proof.
  intros P H F. destruct (long_spec v P) as [A B]. apply one_hot_nearest; [lia|lia|]. rewrite S_INR. rewrite (Rabs_pos_eq (v - INR (long v))) by lra. rewrite Rabs_left by lra. lra.
Qed.
