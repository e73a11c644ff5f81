(** Proofs about Fractions.v: the frequency bands of the learn package. *)
From Coq Require Import ZArith QArith Reals Lra Lia Bool List Permutation.
From Verif Require Import PyBase PyFacts PyMore Spectral TransformProofs ReconProofs LossProofs LossProofs2 Float64 Time64 Fractions FractionsProofs.
Import ListNotations.
Local Open Scope R_scope.

(** ** Energies *)
Lemma columns_unit n s t : (s < n)%nat -> (t < n)%nat ->
  rsum n (fun k => ortho_weight n k * ortho_weight n k * (cos (PI * INR k * (INR s + / 2) / INR n) * cos (PI * INR k * (INR t + / 2) / INR n))) = if Nat.eqb s t then 1 else 0.
Proof.
  intros Hs Ht. set (x := map (fun i => if Nat.eqb s i then 1 else 0) (seq 0 n)). assert (L : length x = n) by (unfold x; now rewrite map_length, seq_length).
  pose proof (f_equal (fun l => at_ l t) (idct2_dct2 x)) as E. cbv beta in E. unfold x in E at 2. rewrite at_map_seq in E by exact Ht.
  rewrite <- E. unfold idct2_ortho. rewrite dct2_length, L, at_map_seq by exact Ht. apply rsum_ext; intros k Hk.
  unfold dct2_ortho. rewrite L, at_map_seq by exact Hk. rewrite (TransformProofs.rsum_single n _ s Hs).
  - unfold x. rewrite at_map_seq by exact Hs. rewrite Nat.eqb_refl. ring.
  - intros i Hi N. unfold x. rewrite at_map_seq by exact Hi. destruct (Nat.eqb_spec s i); [congruence|ring].
Qed.
(** the columns of the basis are orthogonal but for their first entries *)
Lemma columns n j k : (j < n)%nat -> (k < n)%nat -> rsum n (fun i => dct_basis n i j * dct_basis n i k) = (if Nat.eqb j k then INR n / 2 else 0) + / 2.
Proof.
  intros Hj Hk. assert (Hn : (0 < n)%nat) by lia. assert (Pn : INR n <> 0) by (apply not_0_INR; lia). pose proof (columns_unit n j k Hj Hk) as C.
  assert (E : rsum n (fun i => ortho_weight n i * ortho_weight n i * (cos (PI * INR i * (INR j + / 2) / INR n) * cos (PI * INR i * (INR k + / 2) / INR n))) = 2 / INR n * rsum n (fun i => dct_basis n i j * dct_basis n i k) - 1 / INR n).
  { rewrite (rsum_first n) by exact Hn. rewrite (rsum_first n (fun i => dct_basis n i j * dct_basis n i k)) by exact Hn. rewrite (Rmult_plus_distr_l (2 / INR n)), <- rsum_scale.
    rewrite (rsum_ext (n - 1) _ (fun i => 2 / INR n * (dct_basis n (S i) j * dct_basis n (S i) k))).
    2:{ intros i _. rewrite ortho_weight_sq by exact Hn. cbn [Nat.eqb]. unfold dct_basis. do 2 f_equal; f_equal; field; exact Pn. }
    rewrite ortho_weight_sq by exact Hn. cbn [Nat.eqb]. unfold dct_basis. change (INR 0) with 0. assert (A1 : forall q, PI * 0 * q / INR n = 0) by (intros; field; exact Pn). assert (A2 : forall q, PI / INR n * (0 * q) = 0) by (intros; field; exact Pn). rewrite !A1, !A2, cos_0. field. exact Pn. }
  rewrite E in C. clear E. set (S0 := rsum n _) in *. apply Rmult_eq_reg_l with (2 / INR n); [|apply Rgt_not_eq, Rdiv_lt_0_compat; [lra|apply lt_0_INR; lia]].
  destruct (Nat.eqb j k); (replace (2 / INR n * S0) with (2 / INR n * S0 - 1 / INR n + 1 / INR n) by ring; rewrite C; field; exact Pn).
Qed.
Definition energy (x : list R) : R := rsum (length x) (fun i => at_ x i * at_ x i).
Lemma rsum_mult n f g : rsum n f * rsum n g = rsum n (fun i => rsum n (fun j => f i * g j)).
Proof. rewrite Rmult_comm, <- rsum_scale. apply rsum_ext; intros i _. rewrite Rmult_comm, <- rsum_scale. reflexivity. Qed.
Lemma square_sum n f : rsum n f * rsum n f = rsum n (fun i => rsum n (fun j => f i * f j)).
Proof. apply rsum_mult. Qed.
(** of the coefficients: the first sample counts twice *)
Theorem dct_energy x : energy (dct x) = energy x + at_ x 0 * at_ x 0.
Proof.
  unfold energy. rewrite (proj1 (dct_length x)). set (n := length x). destruct (Nat.eq_dec n 0) as [Z|Z].
  - assert (x = []) by (destruct x; [reflexivity|cbn in n; unfold n in Z; discriminate]). subst x. cbn. unfold at_. cbn. ring.
  - assert (Hn : (0 < n)%nat) by lia. assert (Pn : INR n <> 0) by (apply not_0_INR; lia).
    rewrite (rsum_ext n _ (fun j => 2 / INR n * rsum n (fun i => rsum n (fun k => at_ x i * at_ x k * (dct_basis n i j * dct_basis n k j))))).
    2:{ intros j Hj. unfold dct, base_dct. fold n. rewrite at_map_seq by exact Hj. set (s := sqrt (2 / INR n)). rewrite <- (sqrt_sq n Hn : s * s = 2 / INR n). replace (rsum n (fun i => at_ x i * dct_basis n i j) * s * (rsum n (fun i => at_ x i * dct_basis n i j) * s)) with (s * s * (rsum n (fun i => at_ x i * dct_basis n i j) * rsum n (fun i => at_ x i * dct_basis n i j))) by ring.
        f_equal. rewrite square_sum. apply rsum_ext; intros i _. apply rsum_ext; intros k _. ring. }
    rewrite rsum_scale, rsum_swap.
    rewrite (rsum_ext n _ (fun i => at_ x i * at_ x i * (if Nat.eqb i 0 then INR n else INR n / 2))).
    2:{ intros i Hi. rewrite rsum_swap. rewrite (TransformProofs.rsum_single n _ i Hi).
        - rewrite rsum_scale, basis_orthogonal by exact Hi. rewrite Nat.eqb_refl. reflexivity.
        - intros k Hk N. rewrite rsum_scale, basis_orthogonal by assumption. destruct (Nat.eqb_spec i k); [congruence|ring]. }
    rewrite (rsum_first n) by exact Hn. cbn [Nat.eqb]. rewrite (rsum_first n (fun i => at_ x i * at_ x i)) by exact Hn.
    rewrite (rsum_ext (n - 1) _ (fun i => INR n / 2 * (at_ x (S i) * at_ x (S i)))) by (intros i _; cbn [Nat.eqb]; ring). rewrite rsum_scale. field. exact Pn.
Qed.
(** of samples made of coefficients: half of the first sample is too much *)
Theorem idct_energy c : energy (idct c) = energy c + at_ (idct c) 0 * at_ (idct c) 0 / 2.
Proof.
  unfold energy. rewrite (proj2 (dct_length c)). set (n := length c). destruct (Nat.eq_dec n 0) as [Z|Z].
  - assert (c = []) by (destruct c; [reflexivity|cbn in n; unfold n in Z; discriminate]). subst c. cbn. unfold at_. cbn. lra.
  - assert (Hn : (0 < n)%nat) by lia. assert (Pn : INR n <> 0) by (apply not_0_INR; lia).
    rewrite (rsum_ext n _ (fun i => 2 / INR n * rsum n (fun j => rsum n (fun k => at_ c j * at_ c k * (dct_basis n i j * dct_basis n i k))))).
    2:{ intros i Hi. unfold idct, base_dct. fold n. rewrite at_map_seq by exact Hi. set (s := sqrt (2 / INR n)). rewrite <- (sqrt_sq n Hn : s * s = 2 / INR n). replace (rsum n (fun j => at_ c j * dct_basis n i j) * s * (rsum n (fun j => at_ c j * dct_basis n i j) * s)) with (s * s * (rsum n (fun j => at_ c j * dct_basis n i j) * rsum n (fun j => at_ c j * dct_basis n i j))) by ring.
        f_equal. rewrite square_sum. apply rsum_ext; intros j _. apply rsum_ext; intros k _. ring. }
    rewrite rsum_scale, rsum_swap.
    rewrite (rsum_ext n _ (fun j => INR n / 2 * (at_ c j * at_ c j) + / 2 * rsum n (fun k => at_ c j * at_ c k))).
    2:{ intros j Hj. rewrite rsum_swap. rewrite (rsum_ext n _ (fun k => (if Nat.eqb k j then INR n / 2 * (at_ c j * at_ c j) else 0) + / 2 * (at_ c j * at_ c k))).
        - rewrite rsum_plus, rsum_scale. f_equal. rewrite (TransformProofs.rsum_single n _ j Hj); [now rewrite Nat.eqb_refl|]. intros k _ N. destruct (Nat.eqb_spec k j); [contradiction|reflexivity].
        - intros k Hk. rewrite rsum_scale, columns by assumption. rewrite (Nat.eqb_sym j k). destruct (Nat.eqb_spec k j) as [->|]; ring. }
    rewrite rsum_plus, !rsum_scale, <- square_sum.
    assert (F : at_ (idct c) 0 = rsum n (at_ c) * sqrt (2 / INR n)). { unfold idct, base_dct. fold n. rewrite at_map_seq by exact Hn. f_equal. apply rsum_ext; intros j _. unfold dct_basis. replace (PI / INR n * (INR 0 * (INR j + / 2))) with 0 by (cbn [INR]; ring). rewrite cos_0. ring. }
    rewrite F. replace (rsum n (at_ c) * sqrt (2 / INR n) * (rsum n (at_ c) * sqrt (2 / INR n))) with (rsum n (at_ c) * rsum n (at_ c) * (sqrt (2 / INR n) * sqrt (2 / INR n))) by ring.
    rewrite sqrt_sq by exact Hn. fold (at_ c). change (fun i => at_ c i) with (at_ c). field. exact Pn.
Qed.

(** ** Sorting *)
Fixpoint insert_n (x : nat) (l : list nat) : list nat := match l with [] => [x] | y :: r => if Nat.leb x y then x :: l else y :: insert_n x r end.
Definition sort_n (l : list nat) : list nat := fold_right insert_n [] l.
Fixpoint increasing (l : list nat) : Prop := match l with [] => True | a :: r => (match r with [] => True | b :: _ => (a <= b)%nat end) /\ increasing r end.
Lemma insert_increasing x l : increasing l -> increasing (insert_n x l).
Proof.
  induction l as [|y r IH]; intros H; [cbn; auto|]. cbn [insert_n]. destruct (Nat.leb_spec x y); [cbn; auto|]. destruct H as [H1 H2]. specialize (IH H2).
  destruct r as [|z r]; [cbn; auto with arith; lia|]. cbn [insert_n] in *. destruct (Nat.leb_spec x z); cbn in *; intuition lia.
Qed.
Lemma sort_increasing l : increasing (sort_n l).
Proof. induction l as [|x l IH]; [exact I|]. apply insert_increasing. exact IH. Qed.
Lemma insert_perm x l : Permutation (x :: l) (insert_n x l).
Proof. induction l as [|y r IH]; [apply Permutation_refl|]. cbn [insert_n]. destruct (Nat.leb x y); [apply Permutation_refl|]. rewrite perm_swap. now constructor. Qed.
Lemma sort_perm l : Permutation l (sort_n l).
Proof. induction l as [|x l IH]; [constructor|]. cbn [sort_n fold_right]. rewrite <- insert_perm. now constructor. Qed.
Lemma insert_comm x y l : insert_n x (insert_n y l) = insert_n y (insert_n x l).
Proof.
  induction l as [|z r IH].
  - cbn. destruct (Nat.leb_spec x y), (Nat.leb_spec y x); try reflexivity; try (replace y with x by lia; reflexivity); lia.
  - cbn [insert_n]. destruct (Nat.leb_spec y z), (Nat.leb_spec x z); cbn [insert_n].
    + destruct (Nat.leb_spec x y), (Nat.leb_spec y x); try (replace y with x by lia; reflexivity); try lia.
      * destruct (Nat.leb_spec y z); [reflexivity|lia].
      * destruct (Nat.leb_spec x z); [reflexivity|lia].
    + destruct (Nat.leb_spec x y); [lia|]. destruct (Nat.leb_spec y z); [|lia]. destruct (Nat.leb_spec x z); [lia|reflexivity].
    + destruct (Nat.leb_spec x z); [|lia]. destruct (Nat.leb_spec y x); [lia|]. destruct (Nat.leb_spec y z); [lia|reflexivity].
    + destruct (Nat.leb_spec x z); [lia|]. destruct (Nat.leb_spec y z); [lia|]. now rewrite IH.
Qed.
Lemma sort_n_perm l l' : Permutation l l' -> sort_n l = sort_n l'.
Proof. intros H. induction H; cbn [sort_n fold_right]; [reflexivity|unfold sort_n in IHPermutation; now rewrite IHPermutation|apply insert_comm|congruence]. Qed.
(** monotone sizes sort as the factors do *)
Lemma insert_map (f : Q -> nat) x l : (forall y z, (In y (x :: l)) -> In z (x :: l) -> (y <= z)%Q -> (f y <= f z)%nat) -> increasing (map f l) -> map f (insert_q x l) = insert_n (f x) (map f l).
Proof.
  induction l as [|y r IH]; intros M I; [reflexivity|]. cbn [insert_q map insert_n]. destruct (Qle_bool x y) eqn:E.
  - apply Qle_bool_iff in E. apply M in E; cbn; auto. destruct (Nat.leb_spec (f x) (f y)); [reflexivity|lia].
  - assert (L : (y <= x)%Q). { destruct (Qlt_le_dec x y) as [H|H]; [|exact H]. apply Qlt_le_weak, Qle_bool_iff in H. congruence. } apply M in L; cbn; auto.
    cbn [map]. rewrite IH; [|intros y' z' Hy Hz; apply M; cbn in *; tauto|apply I].
    destruct (Nat.leb_spec (f x) (f y)); [|reflexivity]. assert (Ef : f x = f y) by lia. rewrite Ef.
    destruct r as [|z r]; [reflexivity|]. cbn [map insert_n] in *. destruct I as [I _]. destruct (Nat.leb_spec (f y) (f z)); [reflexivity|lia].
Qed.
Lemma insert_q_in x l y : In y (insert_q x l) <-> y = x \/ In y l.
Proof. induction l as [|z r IH]; cbn; [intuition|]. destruct (Qle_bool x z); cbn; intuition. Qed.
Lemma sort_q_in l y : In y (sort_q l) <-> In y l.
Proof. induction l as [|z r IH]; [reflexivity|]. cbn [sort_q fold_right]. rewrite insert_q_in. fold (sort_q r). rewrite IH. cbn. intuition. Qed.
Lemma sort_map (f : Q -> nat) l : (forall y z, In y l -> In z l -> (y <= z)%Q -> (f y <= f z)%nat) -> map f (sort_q l) = sort_n (map f l).
Proof.
  induction l as [|x l IH]; intros M; [reflexivity|]. cbn [sort_q fold_right map sort_n]. fold (sort_q l). fold (sort_n (map f l)). rewrite insert_map.
  - rewrite IH; [reflexivity|]. intros; apply M; cbn; auto.
  - intros y z Hy Hz. apply M; [destruct Hy as [->|Hy]; [left; reflexivity|right; now apply sort_q_in]|destruct Hz as [->|Hz]; [left; reflexivity|right; now apply sort_q_in]].
  - rewrite IH by (intros; apply M; cbn; auto). apply sort_increasing.
Qed.
