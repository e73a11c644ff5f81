(** Facts about the vocabulary of PyBase.v. *)
From Verif Require Import PyBase.
From Coq Require Import Sorting.Permutation Sorting.Sorted.

Lemma Zlen_nonneg {A} (l : list A) : (0 <= Zlen l)%Z.
Proof. unfold Zlen; lia. Qed.
Lemma Zlen_app {A} (l m : list A) : Zlen (l ++ m) = (Zlen l + Zlen m)%Z.
Proof. unfold Zlen; rewrite app_length; lia. Qed.
Lemma Zlen_cons {A} (x : A) l : Zlen (x :: l) = (1 + Zlen l)%Z.
Proof. unfold Zlen; simpl length; lia. Qed.
Lemma Zlen_nil {A} : Zlen (@nil A) = 0%Z.
Proof. reflexivity. Qed.

Lemma py_slice_from {A} (l : list A) (i : Z) :
  (0 <= i)%Z -> py_slice (Some i) None l = skipn (Z.to_nat i) l.
Proof.
  intros Hi. unfold py_slice, norm_index, Zlen.
  destruct (Z.ltb_spec i 0); [lia|].
  destruct (Z.le_gt_cases i (Z.of_nat (length l))) as [H0|H0].
  - replace (Z.max 0 (Z.min (Z.of_nat (length l)) i)) with i by lia.
    apply firstn_all2. rewrite skipn_length. lia.
  - rewrite (skipn_all2 (n := Z.to_nat i)) by lia.
    replace (Z.of_nat (length l) - Z.max 0 (Z.min (Z.of_nat (length l)) i))%Z with 0%Z by lia.
    reflexivity.
Qed.

Lemma py_slice_upto {A} (l : list A) (i : Z) :
  (0 <= i)%Z -> py_slice None (Some i) l = firstn (Z.to_nat i) l.
Proof.
  intros Hi. unfold py_slice, norm_index, Zlen.
  destruct (Z.ltb_spec i 0); [lia|]. simpl skipn.
  destruct (Z.le_gt_cases i (Z.of_nat (length l))) as [H0|H0].
  - f_equal. lia.
  - rewrite (firstn_all2 (n := Z.to_nat i)) by lia.
    apply firstn_all2. lia.
Qed.

Lemma py_slice_pos {A} (l : list A) (i j : Z) :
  (0 <= i)%Z -> (0 <= j)%Z ->
  py_slice (Some i) (Some j) l = firstn (Z.to_nat (j - i)) (skipn (Z.to_nat i) l).
Proof.
  intros Hi Hj. unfold py_slice, norm_index, Zlen.
  destruct (Z.ltb_spec i 0); [lia|]. destruct (Z.ltb_spec j 0); [lia|].
  destruct (Z.le_gt_cases i (Z.of_nat (length l))) as [H1|H1].
  - destruct (Z.le_gt_cases j (Z.of_nat (length l))) as [H2|H2].
    + f_equal; [lia | f_equal; lia].
    + rewrite (firstn_all2 (n := Z.to_nat (j - i))) by (rewrite skipn_length; lia).
      replace (Z.max 0 (Z.min (Z.of_nat (length l)) i)) with i by lia.
      apply firstn_all2. rewrite skipn_length. lia.
  - rewrite (skipn_all2 (n := Z.to_nat i)) by lia.
    rewrite (skipn_all2 (n := Z.to_nat (Z.max _ _))) by lia.
    rewrite !firstn_nil. reflexivity.
Qed.

Lemma sequence_map_some {A B} (f : A -> option B) (g : A -> B) (l : list A) :
  (forall x, In x l -> f x = Some (g x)) -> sequence (map f l) = Some (map g l).
Proof.
  induction l as [|x l IH]; intros H; simpl; [reflexivity|].
  rewrite (H x) by (left; reflexivity).
  rewrite IH by (intros y Hy; apply H; right; exact Hy). reflexivity.
Qed.

Lemma sequence_length {A} (l : list (option A)) r :
  sequence l = Some r -> length r = length l.
Proof.
  revert r; induction l as [|[x|] l IH]; simpl; intros r H; try discriminate.
  - inversion H; reflexivity.
  - destruct (sequence l) as [r'|] eqn:E; [|discriminate].
    inversion H; subst; simpl. f_equal. apply IH; reflexivity.
Qed.

Lemma map_nth_error_seq {A} (l : list A) (o k : nat) :
  o + k <= length l ->
  sequence (map (fun i => nth_error l (o + i)) (seq 0 k)) = Some (firstn k (skipn o l)).
Proof.
  revert o; induction k as [|k IH]; intros o H; [reflexivity|].
  cbn [seq map]. rewrite <- seq_shift, map_map.
  destruct (skipn o l) as [|x t] eqn:E.
  - assert (length (skipn o l) = 0) by (rewrite E; reflexivity).
    rewrite skipn_length in *. lia.
  - assert (Hx : nth_error l o = Some x).
    { rewrite <- (firstn_skipn o l), nth_error_app2; rewrite firstn_length_le by lia; [|lia].
      rewrite Nat.sub_diag, E. reflexivity. }
    replace (o + 0) with o by lia. cbn [sequence]. rewrite Hx.
    assert (Ht : skipn (S o) l = t).
    { clear -E. revert o E; induction l as [|y l IHl]; intros o E.
      - destruct o; discriminate.
      - destruct o; simpl in *; [inversion E; reflexivity|]. apply IHl; exact E. }
    rewrite (map_ext _ (fun i => nth_error l (S o + i))).
    + rewrite IH by lia. rewrite Ht. reflexivity.
    + intros a. f_equal. lia.
Qed.

Lemma skipn_skipn' {A} (i j : nat) (l : list A) : skipn i (skipn j l) = skipn (j + i) l.
Proof.
  revert l; induction j as [|j IH]; intros l; [reflexivity|].
  destruct l; [rewrite skipn_nil; reflexivity|]. simpl. apply IH.
Qed.

Lemma firstn_skipn_app {A} (n i : nat) (l m : list A) :
  i + n <= length l -> firstn n (skipn i (l ++ m)) = firstn n (skipn i l).
Proof.
  intros H. rewrite skipn_app, firstn_app, skipn_length.
  replace (n - (length l - i)) with 0 by lia. simpl. apply app_nil_r.
Qed.

(** insertion sort *)
Section SortFacts.
  Context {A : Type} (le : A -> A -> bool).
  Lemma insert_perm x l : Permutation (x :: l) (insert le x l).
  Proof.
    induction l as [|y l IH]; simpl; [reflexivity|].
    destruct (le x y); [reflexivity|].
    rewrite perm_swap. constructor. exact IH.
  Qed.
  Lemma isort_perm l : Permutation l (isort le l).
  Proof.
    induction l as [|x l IH]; simpl; [reflexivity|].
    rewrite <- insert_perm. constructor. exact IH.
  Qed.
  Hypothesis le_total : forall x y, le x y = true \/ le y x = true.
  Hypothesis le_trans : forall x y z, le x y = true -> le y z = true -> le x z = true.
  Definition leP x y : Prop := le x y = true.
  Lemma insert_sorted x l : StronglySorted leP l -> StronglySorted leP (insert le x l).
  Proof.
    induction 1 as [|y l Hs IH Hf]; simpl.
    - repeat constructor.
    - destruct (le x y) eqn:E.
      + constructor; [constructor; assumption|]. constructor; [exact E|].
        eapply Forall_impl; [|exact Hf]. intros z Hz. eapply le_trans; eassumption.
      + constructor; [exact IH|].
        assert (Hyx : le y x = true) by (destruct (le_total x y); congruence).
        apply (Permutation_Forall (insert_perm x l)). constructor; assumption.
  Qed.
  Lemma isort_sorted l : StronglySorted leP (isort le l).
  Proof. induction l; simpl; [constructor|]. apply insert_sorted. assumption. Qed.
  (** stability: filtering a class of mutually equivalent keys keeps its order *)
  Lemma insert_filter (p : A -> bool) x l :
    (forall y, p x = true -> p y = true -> le x y = true) ->
    filter p (insert le x l) = filter p (x :: l).
  Proof.
    intros H. induction l as [|y l IH]; simpl; [reflexivity|].
    destruct (le x y) eqn:E; [reflexivity|]. simpl. rewrite IH. simpl.
    destruct (p x) eqn:Px, (p y) eqn:Py; try reflexivity.
    rewrite (H y eq_refl Py) in E. discriminate.
  Qed.
  Lemma isort_stable (p : A -> bool) l :
    (forall x y, p x = true -> p y = true -> le x y = true) ->
    filter p (isort le l) = filter p l.
  Proof.
    intros H. induction l as [|x l IH]; simpl; [reflexivity|].
    rewrite insert_filter by (intros; apply H; assumption).
    simpl. rewrite IH. reflexivity.
  Qed.
  Lemma isort_length l : length (isort le l) = length l.
  Proof. symmetry. apply Permutation_length, isort_perm. Qed.
End SortFacts.

Lemma firstn_In {A} n (l : list A) x : In x (firstn n l) -> In x l.
Proof. intros H. rewrite <- (firstn_skipn n l). apply in_or_app. left; exact H. Qed.
Lemma skipn_In {A} n (l : list A) x : In x (skipn n l) -> In x l.
Proof. intros H. rewrite <- (firstn_skipn n l). apply in_or_app. right; exact H. Qed.

Lemma nth_error_ext {A} (l m : list A) :
  (forall i, nth_error l i = nth_error m i) -> l = m.
Proof.
  revert m; induction l as [|x l IH]; intros m H.
  - destruct m; [reflexivity|]. specialize (H 0); discriminate.
  - destruct m as [|y m]; [specialize (H 0); discriminate|].
    pose proof (H 0) as H0. simpl in H0. inversion H0; subst. f_equal.
    apply IH. intros i. apply (H (S i)).
Qed.

Lemma nth_error_firstn {A} (l : list A) n i :
  nth_error (firstn n l) i = if i <? n then nth_error l i else None.
Proof.
  revert n i; induction l as [|x l IH]; intros n i.
  - rewrite firstn_nil. destruct i; simpl; destruct (_ <? _); reflexivity.
  - destruct n; simpl; [destruct i; reflexivity|].
    destruct i; simpl; [reflexivity|]. rewrite IH. reflexivity.
Qed.

Lemma nth_error_skipn {A} (l : list A) n i :
  nth_error (skipn n l) i = nth_error l (n + i).
Proof.
  revert l; induction n as [|n IH]; intros l; [reflexivity|].
  destruct l; simpl; [destruct i; reflexivity|]. apply IH.
Qed.
