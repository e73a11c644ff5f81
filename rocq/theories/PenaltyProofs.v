(** Proofs about Penalty.v (C104). *)
From Verif Require Import PyBase PyMore Spectral SpectralProofs TransformProofs ReconProofs Loss LossProofs LossProofs2 Penalty.
From Coq Require Import Reals Lra Lia Psatz.
Local Open Scope R_scope.

(** ** Specification *)
(** the tensor with its [k]-th number replaced *)
Definition upd (k : nat) (t : R) (x : list R) : list R := firstn k x ++ t :: skipn (S k) x.
(** [d] is the partial derivative of [F] at [x] in the direction of the [k]-th number *)
Definition partial_is (F : list R -> R) (x : list R) (k : nat) (d : R) : Prop := derivable_pt_lim (fun t => F (upd k t x)) (at_ x k) d.
(** what is assumed of torch's grad: where a function of [n] numbers has partial derivatives, it
    returns them *)
Definition derives (n : nat) (grads : (list R -> R) -> list R -> list R) (F : list R -> R) : Prop :=
  forall x k d, length x = n -> (k < n)%nat -> partial_is F x k d -> at_ (grads F x) k = d.
(** the [i]-th of items of [m] numbers *)
Definition item (m i : nat) (x : list R) : list R := firstn m (skipn (i * m) x).

Lemma at_mapseq (n : nat) (f : nat -> R) k : (k < n)%nat -> at_ (map f (seq 0 n)) k = f k.
Proof. intros H. unfold at_. rewrite (nth_indep _ 0 (f O)) by (rewrite map_length, seq_length; lia). rewrite map_nth, seq_nth by lia. reflexivity. Qed.
Lemma at_firstn m x k : (k < m)%nat -> at_ (firstn m x) k = at_ x k.
Proof. unfold at_. revert m k. induction x as [|a x IH]; intros [|m] [|k] H; cbn; try lia; auto. - apply IH; lia. Qed.
Lemma at_skipn m x k : at_ (skipn m x) k = at_ x (m + k).
Proof. unfold at_. revert m. induction x as [|a x IH]; intros [|m]; cbn; auto. now destruct k. Qed.
Lemma at_item m i x k : (k < m)%nat -> at_ (item m i x) k = at_ x (i * m + k).
Proof. intros H. unfold item. rewrite at_firstn by lia. apply at_skipn. Qed.
Lemma upd_length k t x : (k < length x)%nat -> length (upd k t x) = length x.
Proof. intros H. unfold upd. rewrite app_length, firstn_length. cbn [length]. rewrite skipn_length. lia. Qed.
Lemma at_upd k t x j : (k < length x)%nat -> at_ (upd k t x) j = if Nat.eqb j k then t else at_ x j.
Proof.
  intros H. unfold upd, at_. destruct (Nat.eqb_spec j k) as [-> |N].
  - rewrite app_nth2; rewrite firstn_length; replace (Nat.min k (length x)) with k by lia; [now rewrite Nat.sub_diag|lia].
  - destruct (Nat.lt_ge_cases j k) as [L|L].
    + rewrite app_nth1 by (rewrite firstn_length; lia). apply at_firstn; lia.
    + rewrite app_nth2 by (rewrite firstn_length; lia). rewrite firstn_length. replace (Nat.min k (length x)) with k by lia.
      replace (j - k)%nat with (S (j - k - 1)) by lia. cbn [nth]. change (at_ (skipn (S k) x) (j - k - 1) = at_ x j). rewrite at_skipn. f_equal. lia.
Qed.
Lemma at_ext (x y : list R) : length x = length y -> (forall k, (k < length x)%nat -> at_ x k = at_ y k) -> x = y.
Proof. intros L H. apply (nth_ext _ _ 0 0 L). exact H. Qed.
Lemma item_length n m i x : length x = (n * m)%nat -> (i < n)%nat -> length (item m i x) = m.
Proof. intros L H. unfold item. rewrite firstn_length, skipn_length, L. nia. Qed.
Lemma item_upd n m i i' k t x : length x = (n * m)%nat -> (i < n)%nat -> (i' < n)%nat -> (k < m)%nat ->
  item m i (upd (i' * m + k) t x) = if Nat.eqb i i' then upd k t (item m i x) else item m i x.
Proof.
  intros L Hi Hi' Hk. assert (B : (i' * m + k < length x)%nat) by (rewrite L; nia).
  assert (LI : length (item m i (upd (i' * m + k) t x)) = m) by (apply (item_length n); [now rewrite upd_length|exact Hi]).
  assert (LX := item_length n m i x L Hi).
  apply at_ext; [rewrite LI; destruct (Nat.eqb i i'); [rewrite upd_length|]; lia|].
  intros j J. rewrite LI in J. rewrite at_item by exact J. rewrite at_upd by exact B.
  destruct (Nat.eqb_spec i i') as [-> |N].
  - rewrite at_upd by lia. rewrite at_item by exact J.
    destruct (Nat.eqb_spec (i' * m + j) (i' * m + k)); destruct (Nat.eqb_spec j k); try reflexivity; lia.
  - rewrite at_item by exact J. destruct (Nat.eqb_spec (i * m + j) (i' * m + k)) as [E|_]; [exfalso|reflexivity].
    assert (i < i' \/ i' < i)%nat by lia. nia.
Qed.

(** ** The interpolated examples *)
(** each number lies on the segment between the real and the fake one, at the place drawn for
    the whole example *)
Theorem interpolates_entry n m alpha real fake i k : (i < n)%nat -> (k < m)%nat ->
  at_ (interpolates n m alpha real fake) (i * m + k) = at_ alpha i * at_ real (i * m + k) + (1 - at_ alpha i) * at_ fake (i * m + k).
Proof.
  intros Hi Hk. unfold interpolates. rewrite at_mapseq by nia.
  replace ((i * m + k) / m)%nat with i by (rewrite Nat.add_comm, Nat.div_add by lia; rewrite Nat.div_small by lia; lia). reflexivity.
Qed.
Lemma interpolates_length n m alpha real fake : length (interpolates n m alpha real fake) = (n * m)%nat.
Proof. unfold interpolates. now rewrite map_length, seq_length. Qed.
Theorem interpolates_between n m alpha real fake i k : (i < n)%nat -> (k < m)%nat -> 0 <= at_ alpha i < 1 ->
  Rmin (at_ real (i * m + k)) (at_ fake (i * m + k)) <= at_ (interpolates n m alpha real fake) (i * m + k) <= Rmax (at_ real (i * m + k)) (at_ fake (i * m + k)).
Proof.
  intros Hi Hk A. rewrite interpolates_entry by assumption. generalize (at_ real (i * m + k)) (at_ fake (i * m + k)). intros r f.
  unfold Rmin, Rmax. destruct (Rle_dec r f); nra.
Qed.

(** ** The penalty *)
(** from the derivatives: [D i j] is the gradient column [j] of the [i]-th example *)
Definition column_norm (c : nat) (g : nat -> R) : R := sqrt (rsum c (fun i => g i * g i)).
Lemma mean_square n l v : (0 < n * l)%nat ->
  mean (map (fun v => (v - 1) * (v - 1)) (map v (seq 0 (n * l)))) =
  rsum n (fun i => rsum l (fun j => (v (i * l + j)%nat - 1) * (v (i * l + j)%nat - 1))) / INR (n * l).
Proof.
  intros H. unfold mean. rewrite map_map, map_length, seq_length. f_equal. rewrite rsum_nested.
  apply rsum_ext; intros i Hi. apply rsum_ext; intros j Hj. now rewrite at_mapseq by nia.
Qed.
Theorem penalty_value grads critic n c ls real fake alpha (D : nat -> nat -> nat -> R) :
  derives (n * (c * prod ls)) grads (total critic) -> (0 < n * prod ls)%nat -> length real = (n * (c * prod ls))%nat -> length fake = (n * (c * prod ls))%nat ->
  let x := interpolates n (c * prod ls) alpha real fake in
  (forall i j k, (i < n)%nat -> (j < prod ls)%nat -> (k < c)%nat -> partial_is (total critic) x ((i * c + k) * prod ls + j) (D i j k)) ->
  gradient_penalty grads critic (n :: c :: ls) real fake alpha =
  Ok (Some (10 / INR (n * prod ls) * rsum n (fun i => rsum (prod ls) (fun j => (column_norm c (D i j) - 1) ^ 2)))).
Proof.
  intros G P LR LF x HD. unfold gradient_penalty, view. change (prod (n :: c :: ls)) with (n * (c * prod ls))%nat. rewrite LR, Nat.eqb_refl.
  cbn [bind]. change (prod (c :: ls)) with (c * prod ls)%nat. unfold first_items. rewrite !firstn_all2 by lia. fold x.
  unfold penalty_of. destruct (Nat.eqb_spec (n * prod ls) 0) as [E|_]; [lia|]. do 2 f_equal.
  unfold norm1. rewrite mean_square by exact P. unfold Rdiv. rewrite Rmult_assoc, (Rmult_comm (/ _) 10), Rmult_comm. f_equal.
  apply rsum_ext; intros i Hi. apply rsum_ext; intros j Hj.
  replace ((i * prod ls + j) / prod ls)%nat with i by (rewrite Nat.add_comm, Nat.div_add by lia; rewrite Nat.div_small by lia; lia).
  replace ((i * prod ls + j) mod prod ls)%nat with j by (rewrite Nat.add_comm, Nat.mod_add by lia; now rewrite Nat.mod_small by lia).
  unfold column_norm. replace (rsum c (fun k => at_ (grads (total critic) x) ((i * c + k) * prod ls + j) * at_ (grads (total critic) x) ((i * c + k) * prod ls + j)))
    with (rsum c (fun k => D i j k * D i j k)); [ring|].
  apply rsum_ext; intros k Hk. rewrite (G x _ (D i j k)); [reflexivity|apply interpolates_length|nia|now apply HD].
Qed.

(** ** Critics that treat the examples independently *)
Definition itemwise (n m : nat) (critic : list R -> list R) (f : list R -> R) : Prop :=
  forall x, length x = (n * m)%nat -> total critic x = rsum n (fun i => f (item m i x)).
(** [D] is the gradient of [f] at [x] *)
Definition gradient_is (f : list R -> R) (x : list R) (D : nat -> R) : Prop := forall k, (k < length x)%nat -> partial_is f x k (D k).
Lemma derivable_ext f g x d : (forall t, f t = g t) -> derivable_pt_lim f x d -> derivable_pt_lim g x d.
Proof. intros E H eps He. destruct (H eps He) as [delta Hd]. exists delta. intros h H0 Hh. rewrite <- !E. now apply Hd. Qed.
Lemma derivable_eq f x d d' : d = d' -> derivable_pt_lim f x d -> derivable_pt_lim f x d'.
Proof. now intros ->. Qed.
Lemma derivable_rsum n (f : nat -> R -> R) x d : (forall i, (i < n)%nat -> derivable_pt_lim (f i) x (d i)) ->
  derivable_pt_lim (fun t => rsum n (fun i => f i t)) x (rsum n d).
Proof.
  induction n as [|n IH]; intros H; cbn [rsum]; [apply derivable_pt_lim_const|].
  apply (derivable_pt_lim_plus (fun t => rsum n (fun i => f i t)) (f n)); [apply IH; intros; apply H; lia|apply H; lia].
Qed.
Lemma rsum_single n i0 v : (i0 < n)%nat -> rsum n (fun i => if Nat.eqb i i0 then v else 0) = v.
Proof.
  intros H. induction n as [|n IH]; [lia|]. cbn [rsum]. destruct (Nat.eqb_spec n i0) as [-> |N].
  - rewrite (rsum_ext i0 _ (fun _ => 0)) by (intros i Hi; destruct (Nat.eqb_spec i i0); [lia|reflexivity]). rewrite rsum_const. lra.
  - rewrite IH by lia. lra.
Qed.
(** the gradient of the summed outputs is, example by example, the gradient of the critic *)
Theorem itemwise_partial n m critic f x i k d : itemwise n m critic f -> length x = (n * m)%nat -> (i < n)%nat -> (k < m)%nat ->
  partial_is f (item m i x) k d -> partial_is (total critic) x (i * m + k) d.
Proof.
  intros It L Hi Hk P. unfold partial_is in *. assert (B : (i * m + k < length x)%nat) by (rewrite L; nia).
  apply (derivable_ext (fun t => rsum n (fun i' => f (item m i' (upd (i * m + k) t x))))).
  { intros t. symmetry. apply It. now rewrite upd_length. }
  apply (derivable_ext (fun t => rsum n (fun i' => (if Nat.eqb i' i then fun t => f (upd k t (item m i x)) else fun _ => f (item m i' x)) t))).
  { intros t. apply rsum_ext. intros i' Hi'. rewrite (item_upd n) by assumption. destruct (Nat.eqb_spec i' i) as [-> |N]; reflexivity. }
  rewrite <- (rsum_single n i d Hi).
  apply (derivable_rsum n (fun i' => if Nat.eqb i' i then fun t => f (upd k t (item m i x)) else fun _ => f (item m i' x))).
  intros i' Hi'. destruct (Nat.eqb_spec i' i) as [-> |N]; [|apply derivable_pt_lim_const].
  rewrite <- at_item by exact Hk. exact P.
Qed.
Definition norm (m : nat) (g : nat -> R) : R := sqrt (rsum m (fun k => g k * g k)).
Lemma column_norm_nonneg c g : 0 <= column_norm c g.
Proof. apply sqrt_pos. Qed.

(** *** vectors: a batch of shape (n, c) *)
Theorem vectors grads critic f n c real fake alpha (D : nat -> nat -> R) :
  derives (n * c) grads (total critic) -> (0 < n)%nat -> length real = (n * c)%nat -> length fake = (n * c)%nat -> itemwise n c critic f ->
  let x := interpolates n c alpha real fake in
  (forall i, (i < n)%nat -> gradient_is f (item c i x) (D i)) ->
  gradient_penalty grads critic [n; c] real fake alpha = Ok (Some (rsum n (fun i => 10 * (norm c (D i) - 1) ^ 2) / INR n)).
Proof.
  intros G P LR LF It x HD. assert (E : (c * prod [] = c)%nat) by (cbn; lia).
  rewrite (penalty_value grads critic n c [] real fake alpha (fun i _ k => D i k)); rewrite ?E; change (prod []) with 1%nat; rewrite ?Nat.mul_1_r; try assumption.
  - do 2 f_equal. rewrite rsum_scale.
    rewrite (rsum_ext n (fun i => rsum 1 (fun _ => (column_norm c (fun k => D i k) - 1) ^ 2)) (fun i => (norm c (D i) - 1) ^ 2)); [unfold Rdiv; ring|].
    intros i Hi. unfold norm, column_norm. cbn [rsum]. ring.
  - fold x. intros i j k Hi Hj Hk. replace ((i * c + k) * 1 + j)%nat with (i * c + k)%nat by lia.
    apply (itemwise_partial n c critic f); try assumption; [apply interpolates_length|]. apply HD; [exact Hi|].
    rewrite (item_length n); [exact Hk|apply interpolates_length|exact Hi].
Qed.

Lemma some_inj (a b : R) : Ok (Some a) = Ok (Some b) -> a = b.
Proof. congruence. Qed.
Lemma one_sq a : 0 <= (a - 1) ^ 2.
Proof. pose proof (Rle_0_sqr (a - 1)). unfold Rsqr in *. nra. Qed.
Lemma ten_sq a : 0 <= 10 * (a - 1) ^ 2.
Proof. pose proof (one_sq a). lra. Qed.
Lemma one_sq0 a : (a - 1) ^ 2 = 0 -> a = 1.
Proof. intros H. apply Rminus_diag_uniq. apply Rsqr_0_uniq. unfold Rsqr. lra. Qed.
Lemma zero_iff n c (D : nat -> nat -> R) : (0 < n)%nat ->
  (rsum n (fun i => 10 * (norm c (D i) - 1) ^ 2) / INR n = 0 <-> forall i, (i < n)%nat -> norm c (D i) = 1).
Proof.
  intros P. assert (I : 0 < INR n) by now apply lt_0_INR.
  split.
  - intros E i Hi. assert (Z : rsum n (fun i => 10 * (norm c (D i) - 1) ^ 2) = 0).
    { apply (Rmult_eq_reg_r (/ INR n)); [|apply Rinv_neq_0_compat; lra]. rewrite Rmult_0_l. exact E. }
    apply (rsum_nonneg_zero n _) with (i := i) in Z; [|intros; apply ten_sq|exact Hi]. apply one_sq0. lra.
  - intros H. rewrite (rsum_ext n _ (fun _ => 0)) by (intros i Hi; rewrite H by exact Hi; ring). rewrite rsum_const. unfold Rdiv. ring.
Qed.
(** nothing is charged exactly when every example's gradient has length one *)
Theorem vectors_zero grads critic f n c real fake alpha (D : nat -> nat -> R) :
  derives (n * c) grads (total critic) -> (0 < n)%nat -> length real = (n * c)%nat -> length fake = (n * c)%nat -> itemwise n c critic f ->
  let x := interpolates n c alpha real fake in
  (forall i, (i < n)%nat -> gradient_is f (item c i x) (D i)) ->
  (gradient_penalty grads critic [n; c] real fake alpha = Ok (Some 0) <-> forall i, (i < n)%nat -> norm c (D i) = 1).
Proof.
  intros G P LR LF It x HD. rewrite (vectors grads critic f n c real fake alpha D) by assumption. rewrite <- (zero_iff n c D P).
  split; [apply some_inj|intros ->; reflexivity].
Qed.
(** a small penalty bounds the slope of the critic at every interpolated example *)
Theorem vectors_bound grads critic f n c real fake alpha (D : nat -> nat -> R) p :
  derives (n * c) grads (total critic) -> (0 < n)%nat -> length real = (n * c)%nat -> length fake = (n * c)%nat -> itemwise n c critic f ->
  let x := interpolates n c alpha real fake in
  (forall i, (i < n)%nat -> gradient_is f (item c i x) (D i)) ->
  gradient_penalty grads critic [n; c] real fake alpha = Ok (Some p) ->
  0 <= p /\ forall i, (i < n)%nat -> 1 - sqrt (INR n * p / 10) <= norm c (D i) <= 1 + sqrt (INR n * p / 10).
Proof.
  intros G P LR LF It x HD. rewrite (vectors grads critic f n c real fake alpha D) by assumption. intros E; apply some_inj in E.
  assert (I : 0 < INR n) by now apply lt_0_INR.
  assert (SS : rsum n (fun i => 10 * (norm c (D i) - 1) ^ 2) = INR n * p) .
  { rewrite <- E. unfold Rdiv. generalize (rsum n (fun i => 10 * (norm c (D i) - 1) ^ 2)). intros r. field. now apply Rgt_not_eq. }
  assert (NN : 0 <= INR n * p) by (rewrite <- SS; apply rsum_nonneg; intros; apply ten_sq).
  assert (P0 : 0 <= p) by (apply Rmult_le_reg_l with (INR n); lra). split; [exact P0|]. intros i Hi.
  assert (T : 10 * (norm c (D i) - 1) ^ 2 <= INR n * p) by (rewrite <- SS; apply (rsum_term n (fun i => 10 * (norm c (D i) - 1) ^ 2)); [intros; apply ten_sq|exact Hi]).
  assert (Q : Rabs (norm c (D i) - 1) <= sqrt (INR n * p / 10)).
  { rewrite <- sqrt_Rsqr_abs. apply sqrt_le_1_alt. unfold Rsqr. lra. }
  unfold Rabs in Q. destruct (Rcase_abs (norm c (D i) - 1)); lra.
Qed.

(** *** signals: a batch of shape (n, c, l); the norm is taken at each of the [l] positions *)
Theorem signals grads critic f n c l real fake alpha (D : nat -> nat -> R) :
  derives (n * (c * l)) grads (total critic) -> (0 < n * l)%nat -> length real = (n * (c * l))%nat -> length fake = (n * (c * l))%nat -> itemwise n (c * l) critic f ->
  let x := interpolates n (c * l) alpha real fake in
  (forall i, (i < n)%nat -> gradient_is f (item (c * l) i x) (D i)) ->
  gradient_penalty grads critic [n; c; l] real fake alpha =
  Ok (Some (10 / INR (n * l) * rsum n (fun i => rsum l (fun j => (sqrt (rsum c (fun k => D i (k * l + j)%nat * D i (k * l + j)%nat)) - 1) ^ 2)))).
Proof.
  intros G P LR LF It x HD. assert (E : prod [l] = l) by (cbn; lia).
  rewrite (penalty_value grads critic n c [l] real fake alpha (fun i j k => D i (k * l + j)%nat)); rewrite ?E; try assumption; [reflexivity|].
  fold x. intros i j k Hi Hj Hk. replace ((i * c + k) * l + j)%nat with (i * (c * l) + (k * l + j))%nat by lia.
  apply (itemwise_partial n (c * l) critic f); try assumption; [apply interpolates_length|nia|]. apply HD; [exact Hi|].
  rewrite (item_length n); [nia|apply interpolates_length|exact Hi].
Qed.
(** so a batch that is not charged has gradients of length sqrt l, not one ... *)
Theorem signals_zero grads critic f n c l real fake alpha (D : nat -> nat -> R) :
  derives (n * (c * l)) grads (total critic) -> (0 < n * l)%nat -> length real = (n * (c * l))%nat -> length fake = (n * (c * l))%nat -> itemwise n (c * l) critic f ->
  let x := interpolates n (c * l) alpha real fake in
  (forall i, (i < n)%nat -> gradient_is f (item (c * l) i x) (D i)) ->
  gradient_penalty grads critic [n; c; l] real fake alpha = Ok (Some 0) -> forall i, (i < n)%nat -> norm (c * l) (D i) = sqrt (INR l).
Proof.
  intros G P LR LF It x HD. rewrite (signals grads critic f n c l real fake alpha D) by assumption. intros E i Hi; apply some_inj in E.
  assert (I : 0 < INR (n * l)) by now apply lt_0_INR.
  assert (Z : rsum n (fun i => rsum l (fun j => (sqrt (rsum c (fun k => D i (k * l + j)%nat * D i (k * l + j)%nat)) - 1) ^ 2)) = 0).
  { apply (Rmult_eq_reg_l (10 / INR (n * l))); [lra|]. apply Rgt_not_eq. apply Rdiv_lt_0_compat; lra. }
  apply (rsum_nonneg_zero n _) with (i := i) in Z; [|intros; apply rsum_nonneg; intros; apply one_sq|exact Hi].
  unfold norm. f_equal. rewrite rsum_nested. rewrite rsum_swap. rewrite (rsum_ext l _ (fun _ => 1)); [rewrite rsum_const; ring|].
  intros j Hj. apply (rsum_nonneg_zero l _) with (i := j) in Z; [|intros; apply one_sq|exact Hj]. cbv beta in Z. apply one_sq0 in Z.
  set (w := rsum c _) in *. assert (N : 0 <= w) by (apply rsum_nonneg; intros; apply Rle_0_sqr).
  rewrite <- (sqrt_sqrt w N), Z. ring.
Qed.
(** ... and a critic whose every example has a gradient of length one is always charged *)
Theorem signals_refuted grads critic f n c l real fake alpha (D : nat -> nat -> R) :
  derives (n * (c * l)) grads (total critic) -> (0 < n)%nat -> (1 < l)%nat -> length real = (n * (c * l))%nat -> length fake = (n * (c * l))%nat -> itemwise n (c * l) critic f ->
  let x := interpolates n (c * l) alpha real fake in
  (forall i, (i < n)%nat -> gradient_is f (item (c * l) i x) (D i)) -> (forall i, (i < n)%nat -> norm (c * l) (D i) = 1) ->
  exists p, gradient_penalty grads critic [n; c; l] real fake alpha = Ok (Some p) /\ 0 < p.
Proof.
  intros G P L LR LF It x HD U. eexists. split; [apply (signals grads critic f n c l real fake alpha D); try assumption; nia|].
  assert (I : 0 < INR (n * l)) by (apply lt_0_INR; nia). set (S := rsum n _).
  assert (NS : 0 <= S) by (apply rsum_nonneg; intros; apply rsum_nonneg; intros; apply one_sq).
  assert (C : 0 < 10 / INR (n * l)) by (apply Rdiv_lt_0_compat; lra).
  destruct (Req_dec S 0) as [Z|NZ]; [exfalso|apply Rmult_lt_0_compat; [exact C|lra]].
  assert (E : gradient_penalty grads critic [n; c; l] real fake alpha = Ok (Some 0)).
  { rewrite (signals grads critic f n c l real fake alpha D); try assumption; [|nia]. fold S. rewrite Z. now rewrite Rmult_0_r. }
  pose proof (signals_zero grads critic f n c l real fake alpha D G ltac:(nia) LR LF It HD E 0%nat P) as Q. rewrite U in Q by exact P.
  apply (lt_INR 1) in L. cbn [INR] in L. rewrite <- sqrt_1 in Q. apply sqrt_inj in Q; lra.
Qed.

(** ** Particular critics *)
(** scores that change nowhere are charged ten, whatever the examples *)
Theorem flat_critic grads critic n c ls real fake alpha v :
  derives (n * (c * prod ls)) grads (total critic) -> (0 < n * prod ls)%nat -> length real = (n * (c * prod ls))%nat -> length fake = (n * (c * prod ls))%nat ->
  (forall x, total critic x = v) ->
  gradient_penalty grads critic (n :: c :: ls) real fake alpha = Ok (Some 10).
Proof.
  intros G P LR LF H. rewrite (penalty_value grads critic n c ls real fake alpha (fun _ _ _ => 0) G); try assumption.
  - do 2 f_equal. rewrite (rsum_ext n _ (fun _ => INR (prod ls))).
    + rewrite rsum_const, mult_INR. assert (0 < INR n) by (apply lt_0_INR; nia). assert (0 < INR (prod ls)) by (apply lt_0_INR; nia). field. split; apply Rgt_not_eq; assumption.
    + intros i Hi. rewrite (rsum_ext (prod ls) _ (fun _ => 1)); [rewrite rsum_const; ring|]. intros j Hj. unfold column_norm.
      rewrite (rsum_ext c _ (fun _ => 0)) by (intros; ring). rewrite rsum_const, Rmult_0_r, sqrt_0. ring.
  - intros i j k Hi Hj Hk. unfold partial_is. apply (derivable_ext (fun _ => v)); [intros; now rewrite H|]. apply derivable_pt_lim_const.
Qed.
(** linear critics: the same score for the same step wherever one stands *)
Definition linear (m : nat) (w : list R) (b : R) (y : list R) : R := rsum m (fun k => at_ w k * at_ y k) + b.
Definition linear_critic (n m : nat) (w : list R) (b : R) (x : list R) : list R := map (fun i => linear m w b (item m i x)) (seq 0 n).
Lemma linear_gradient m w b y : length y = m -> gradient_is (linear m w b) y (at_ w).
Proof.
  intros L k Hk. unfold partial_is, linear.
  apply (derivable_ext (fun t => rsum m (fun j => (if Nat.eqb j k then fun t => at_ w k * t else fun _ => at_ w j * at_ y j) t) + (fun _ => b) t)).
  { intros t. f_equal. apply rsum_ext. intros j Hj. rewrite at_upd by exact Hk. destruct (Nat.eqb_spec j k) as [-> |N]; reflexivity. }
  apply derivable_eq with (d := at_ w k + 0); [ring|]. apply (derivable_pt_lim_plus (fun t => rsum m (fun j => (if Nat.eqb j k then fun t => at_ w k * t else fun _ => at_ w j * at_ y j) t)) (fun _ => b)); [|apply derivable_pt_lim_const].
  apply derivable_eq with (d := rsum m (fun j => if Nat.eqb j k then at_ w k else 0)); [apply rsum_single; lia|]. apply (derivable_rsum m (fun j => if Nat.eqb j k then fun t => at_ w k * t else fun _ => at_ w j * at_ y j)).
  intros j Hj. destruct (Nat.eqb_spec j k) as [-> |N]; [|apply derivable_pt_lim_const].
  apply derivable_eq with (d := at_ w k * 1); [ring|]. apply (derivable_pt_lim_scal (fun t => t)). apply derivable_pt_lim_id.
Qed.
Lemma linear_itemwise n m w b : itemwise n m (linear_critic n m w b) (linear m w b).
Proof. intros x L. unfold total, linear_critic. rewrite map_length, seq_length. apply rsum_ext. intros i Hi. now rewrite at_mapseq. Qed.
Theorem linear_penalty grads n c w b real fake alpha :
  derives (n * c) grads (total (linear_critic n c w b)) -> (0 < n)%nat -> length real = (n * c)%nat -> length fake = (n * c)%nat ->
  gradient_penalty grads (linear_critic n c w b) [n; c] real fake alpha = Ok (Some (10 * (norm c (at_ w) - 1) ^ 2)).
Proof.
  intros G P LR LF. rewrite (vectors grads _ (linear c w b) n c real fake alpha (fun _ => at_ w) G P LR LF (linear_itemwise n c w b)).
  - do 2 f_equal. rewrite rsum_const. field. apply Rgt_not_eq. now apply lt_0_INR.
  - intros i Hi. apply linear_gradient. apply (item_length n); [apply interpolates_length|exact Hi].
Qed.
(** critics that look at the whole batch (as batch normalisation does): every score rises by one
    with its own example's number, yet the charge is that of a critic that is flat *)
Definition centred_critic (n : nat) (x : list R) : list R :=
  map (fun i => INR n / (INR n - 1) * (at_ x i - rsum n (at_ x) / INR n)) (seq 0 n).
Theorem coupled_refuted grads n real fake alpha :
  derives n grads (total (centred_critic n)) -> (1 < n)%nat -> length real = n -> length fake = n ->
  (forall x i, length x = n -> (i < n)%nat -> partial_is (fun x => at_ (centred_critic n x) i) x i 1) /\
  gradient_penalty grads (centred_critic n) [n; 1%nat] real fake alpha = Ok (Some 10).
Proof.
  intros G P LR LF. assert (I : 1 < INR n) by (apply (lt_INR 1) in P; exact P). split.
  - intros x i L Hi. unfold partial_is.
    apply (derivable_ext (fun t => (INR n / (INR n - 1)) * ((1 - / INR n) * t + - ((rsum n (at_ x) - at_ x i) / INR n)))).
    + intros t. unfold centred_critic. rewrite at_mapseq by exact Hi. rewrite at_upd by lia. rewrite Nat.eqb_refl. f_equal.
      replace (rsum n (at_ (upd i t x))) with (rsum n (at_ x) - at_ x i + t); [field; lra|].
      rewrite (rsum_ext n (at_ (upd i t x)) (fun j => at_ x j + (if Nat.eqb j i then t - at_ x i else 0))).
      * rewrite rsum_plus, rsum_single by exact Hi. ring.
      * intros j Hj. rewrite at_upd by lia. destruct (Nat.eqb_spec j i) as [-> |N]; ring.
    + apply derivable_eq with (d := INR n / (INR n - 1) * ((1 - / INR n) * 1 + 0)); [field; lra|].
      apply (derivable_pt_lim_scal (fun t => (1 - / INR n) * t + - ((rsum n (at_ x) - at_ x i) / INR n))).
      apply (derivable_pt_lim_plus (fun t => (1 - / INR n) * t) (fun _ => - ((rsum n (at_ x) - at_ x i) / INR n))); [|apply derivable_pt_lim_const].
      apply (derivable_pt_lim_scal (fun t => t)). apply derivable_pt_lim_id.
  - apply (flat_critic grads (centred_critic n) n 1 [] real fake alpha 0); cbn [prod fold_right]; rewrite ?Nat.mul_1_r; try assumption; [lia|].
    intros x. unfold total, centred_critic. rewrite map_length, seq_length.
    rewrite (rsum_ext n _ (fun i => INR n / (INR n - 1) * (at_ x i + - (rsum n (at_ x) / INR n)))) by (intros i Hi; rewrite at_mapseq by exact Hi; ring).
    rewrite rsum_scale, rsum_plus, rsum_const. field. lra.
Qed.

(** ** Shapes *)
(** the batches need only have as many numbers; only then is there a penalty *)
Theorem sizes grads critic shape real fake alpha :
  gradient_penalty grads critic shape real fake alpha =
  if Nat.eqb (length real) (prod shape) then
    match shape with
    | n :: c :: ls => gradient_penalty grads critic shape (firstn (prod shape) real) (firstn (prod shape) fake) alpha
    | _ => Raise IndexError
    end
  else Raise RuntimeError.
Proof.
  unfold gradient_penalty at 1, view. destruct (Nat.eqb_spec (length real) (prod shape)) as [E|N]; [|reflexivity]. cbn [bind].
  destruct shape as [|n [|c ls]]; try reflexivity.
  unfold gradient_penalty, view. rewrite firstn_length, E, Nat.min_id, Nat.eqb_refl. cbn [bind].
  change (prod (n :: c :: ls)) with (n * prod (c :: ls))%nat. unfold first_items. rewrite !firstn_firstn, !Nat.min_id. reflexivity.
Qed.

(** ** The hypotheses are met *)
Definition pair_critic : list R -> list R := linear_critic 2 2 [3 / 5; 4 / 5] 7.
Example pair_example : exists grads, derives 4 grads (total pair_critic) /\
  gradient_penalty grads pair_critic [2; 2]%nat [1; 2; 3; 4] [5; 6; 7; 8] [/ 2; / 4] = Ok (Some 0) /\
  interpolates 2 2 [/ 2; / 4] [1; 2; 3; 4] [5; 6; 7; 8] = [3; 4; 6; 7].
Proof.
  exists (fun _ x => map (fun k => at_ [3 / 5; 4 / 5] (k mod 2)) (seq 0 (length x))).
  assert (G : derives 4 (fun _ x => map (fun k => at_ [3 / 5; 4 / 5] (k mod 2)) (seq 0 (length x))) (total pair_critic)).
  { intros x k d L Hk P. rewrite at_mapseq by lia. 
    assert (Ek : (k / 2 * 2 + k mod 2 = k)%nat) by (pose proof (Nat.div_mod k 2); lia).
    assert (Q : partial_is (total pair_critic) x (k / 2 * 2 + k mod 2) (at_ [3 / 5; 4 / 5] (k mod 2))); [|rewrite Ek in Q; exact (uniqueness_limite _ _ _ _ Q P)]. clear P.
    apply (itemwise_partial 2 2 _ (linear 2 [3 / 5; 4 / 5] 7)); [apply linear_itemwise|exact L|apply Nat.div_lt_upper_bound; lia|apply Nat.mod_upper_bound; lia|].
    apply linear_gradient; [apply (item_length 2)|rewrite (item_length 2)]; try exact L; try (apply Nat.div_lt_upper_bound; lia). apply Nat.mod_upper_bound; lia. }
  split; [exact G|]. split.
  - unfold pair_critic. rewrite linear_penalty by (exact G || (cbn; lia)). do 2 f_equal. unfold norm. cbn [rsum at_ nth].
    replace (0 + 3 / 5 * (3 / 5) + 4 / 5 * (4 / 5)) with 1 by lra. rewrite sqrt_1. ring.
  - cbn. repeat f_equal; lra.
Qed.
(** nothing to charge for: the mean of nothing is not a number *)
Theorem no_items grads critic c ls real fake alpha : length real = 0%nat -> gradient_penalty grads critic (0%nat :: c :: ls) real fake alpha = Ok None.
Proof. intros L. unfold gradient_penalty, view. cbn [prod fold_right Nat.mul]. change (prod (0%nat :: c :: ls)) with 0%nat. rewrite L. cbn [Nat.eqb bind]. reflexivity. Qed.
