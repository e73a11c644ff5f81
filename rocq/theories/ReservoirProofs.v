(** Proofs about reservoirs (Reservoir.v). *)
From Verif Require Import PyBase PyFacts PyMore Reservoir.
From Coq Require Import Permutation Sorted.
Local Open Scope Z_scope.

(** ** Specification *)
(** the rows written to slots so far, oldest first; what a slot holds is the
    last row written to it *)
Fixpoint last_write {A} (ws : list (nat * A)) (k : nat) : option A :=
  match ws with
  | [] => None
  | (i, x) :: ws' => match last_write ws' k with Some y => Some y | None => if (k =? i)%nat then Some x else None end
  end.
(** the contents, by slot *)
Definition contents {A} (n : nat) (ws : list (nat * A)) : list A :=
  flat_map (fun k => match last_write ws k with Some x => [x] | None => [] end) (seq 0 n).

Lemma last_write_app {A} (a b : list (nat * A)) k :
  last_write (a ++ b) k = match last_write b k with Some y => Some y | None => last_write a k end.
Proof. induction a as [|[i x] a IH]; cbn [app last_write]; [destruct (last_write b k); reflexivity|]. rewrite IH. destruct (last_write b k); reflexivity. Qed.
Lemma last_write_in {A} (ws : list (nat * A)) k x : last_write ws k = Some x -> In (k, x) ws.
Proof.
  induction ws as [|[i y] ws IH]; cbn [last_write]; intros H; [discriminate|].
  destruct (last_write ws k); [injection H as ->; right; apply IH; reflexivity|].
  destruct (Nat.eqb_spec k i); [|discriminate]. injection H as ->. subst. left; reflexivity.
Qed.
Lemma last_write_none {A} (ws : list (nat * A)) k : last_write ws k = None <-> forall x, ~ In (k, x) ws.
Proof.
  induction ws as [|[i y] ws IH]; cbn [last_write].
  - split; [intros _ x []|reflexivity].
  - destruct (last_write ws k) as [z|] eqn:E.
    + split; [discriminate|]. intros H. exfalso. apply (H z). right. apply last_write_in. exact E.
    + destruct (Nat.eqb_spec k i) as [->|Ne].
      * split; [discriminate|]. intros H. exfalso. apply (H y). left; reflexivity.
      * split; [|reflexivity]. intros _ x [H|H]; [congruence|]. apply (proj1 IH eq_refl x H).
Qed.

(** ** Lists *)
Lemma set_nth_length {A} (x : A) l : forall n, length (set_nth n x l) = length l.
Proof. induction l as [|y l IH]; intros [|n]; cbn; try reflexivity. rewrite IH. reflexivity. Qed.
Lemma nth_error_set_nth {A} (x : A) l : forall n k, (n < length l)%nat ->
  nth_error (set_nth n x l) k = if (k =? n)%nat then Some x else nth_error l k.
Proof.
  induction l as [|y l IH]; intros n k H; [cbn in H; lia|]. destruct n as [|n], k as [|k]; cbn [set_nth nth_error Nat.eqb]; try reflexivity.
  apply IH. cbn in H. lia.
Qed.
Definition write_all {A} (ws : list (nat * A)) (a : list A) : list A := fold_left (fun a p => set_nth (fst p) (snd p) a) ws a.
Lemma write_all_length {A} (ws : list (nat * A)) : forall a, length (write_all ws a) = length a.
Proof. induction ws as [|p ws IH]; intros a; [reflexivity|]. unfold write_all in *. cbn [fold_left]. rewrite IH. apply set_nth_length. Qed.
Lemma write_all_nth {A} (ws : list (nat * A)) : forall a k, (forall i x, In (i, x) ws -> (i < length a)%nat) ->
  nth_error (write_all ws a) k = match last_write ws k with Some x => if (k <? length a)%nat then Some x else None | None => nth_error a k end.
Proof.
  induction ws as [|[i x] ws IH]; intros a k H; [reflexivity|]. unfold write_all in *. cbn [fold_left fst snd last_write].
  rewrite IH by (intros j y Hj; rewrite set_nth_length; apply (H j y); right; exact Hj).
  rewrite set_nth_length. destruct (last_write ws k) as [y|]; [reflexivity|].
  assert (Hi : (i < length a)%nat) by (apply (H i x); left; reflexivity).
  rewrite nth_error_set_nth by exact Hi. destruct (Nat.eqb_spec k i) as [->|]; [|reflexivity].
  destruct (Nat.ltb_spec i (length a)); [reflexivity|lia].
Qed.

Lemma zmem_iff i l : zmem i l = true <-> In i l.
Proof. unfold zmem. rewrite existsb_exists. split; [intros (x & H & E); apply Z.eqb_eq in E; subst; exact H|intros H; exists i; split; [exact H|apply Z.eqb_refl]]. Qed.
Lemma set_update_spec ix : forall s, NoDup s -> NoDup (set_update s ix) /\ forall i, In i (set_update s ix) <-> In i s \/ In i ix.
Proof.
  induction ix as [|j ix IH]; intros s N; unfold set_update in *; cbn [fold_left].
  - split; [exact N|]. intros i. cbn. tauto.
  - destruct (zmem j s) eqn:E.
    + destruct (IH s N) as [A B]. split; [exact A|]. intros i. rewrite B. apply zmem_iff in E. cbn. intuition (subst; auto).
    + assert (Nj : ~ In j s) by (intros H; apply zmem_iff in H; congruence).
      assert (N' : NoDup (s ++ [j])).
      { apply (Permutation_NoDup (Permutation_cons_append s j)). constructor; assumption. }
      destruct (IH (s ++ [j]) N') as [A B]. split; [exact A|]. intros i. rewrite B, in_app_iff. cbn. intuition.
Qed.

Lemma zinsert_perm x l : Permutation (x :: l) (insert Z.leb x l).
Proof. induction l as [|y l IH]; [reflexivity|]. cbn [insert]. destruct (x <=? y); [reflexivity|]. rewrite perm_swap. constructor. exact IH. Qed.
Lemma zisort_perm l : Permutation l (isort Z.leb l).
Proof. induction l as [|x l IH]; [constructor|]. cbn [isort]. rewrite <- zinsert_perm. constructor. exact IH. Qed.
Lemma zisort_sorted l : StronglySorted Z.le (isort Z.leb l).
Proof.
  induction l as [|x l IH]; [constructor|]. cbn [isort]. revert IH. generalize (isort Z.leb l). intros m S.
  induction S as [|y m S IHS F]; cbn [insert]; [repeat constructor|]. destruct (Z.leb_spec x y) as [L|L].
  - constructor; [constructor; assumption|]. constructor; [exact L|]. eapply Forall_impl; [|exact F]. cbn; lia.
  - constructor; [exact IHS|]. apply (Permutation_Forall (zinsert_perm x m)). constructor; [lia|exact F].
Qed.
Lemma strict_of_nodup l : StronglySorted Z.le l -> NoDup l -> StronglySorted Z.lt l.
Proof.
  induction 1 as [|x l S IH F]; intros N; [constructor|]. inversion N as [|? ? N1 N2]; subst. constructor; [apply IH; exact N2|].
  rewrite Forall_forall in *. intros y Hy. specialize (F y Hy). assert (x <> y) by (intros ->; contradiction). lia.
Qed.
Lemma strict_unique l : forall m, StronglySorted Z.lt l -> StronglySorted Z.lt m -> (forall x, In x l <-> In x m) -> l = m.
Proof.
  induction l as [|x l IH]; intros [|y m] Sl Sm H.
  - reflexivity.
  - exfalso. apply (proj2 (H y)). left; reflexivity.
  - exfalso. apply (proj1 (H x)). left; reflexivity.
  - inversion Sl as [|? ? Sl' Fl]; inversion Sm as [|? ? Sm' Fm]; subst. rewrite Forall_forall in Fl, Fm.
    assert (E : x = y).
    { destruct (proj1 (H x) (or_introl eq_refl)) as [E|Hx]; [congruence|].
      destruct (proj2 (H y) (or_introl eq_refl)) as [E|Hy]; [congruence|].
      specialize (Fm x Hx). specialize (Fl y Hy). lia. }
    subst y. f_equal. apply IH; [exact Sl'|exact Sm'|]. intros z. specialize (H z). cbn in H.
    split; intros Hz.
    + destruct (proj1 H (or_intror Hz)) as [->|?]; [|assumption]. specialize (Fl z Hz). lia.
    + destruct (proj2 H (or_intror Hz)) as [->|?]; [|assumption]. specialize (Fm z Hz). lia.
Qed.

Section ResProofs.
  Context {A : Type} (zero : A).

  (** one call of add: rows, indices given or drawn *)
  Record call := { c_rows : list A; c_given : option (list Z); c_draw : list Z }.
  Definition c_indices (c : call) : list Z := match c_given c with Some ix => ix | None => c_draw c end.
  (** a call names one slot below [n] per row *)
  Definition good_call (n : Z) (c : call) : Prop :=
    length (c_indices c) = length (c_rows c) /\ forall i, In i (c_indices c) -> 0 <= i < n.
  Definition no_negative (c : call) : Prop := forall i, In i (c_indices c) -> 0 <= i.
  Definition c_writes (c : call) : list (nat * A) := combine (map Z.to_nat (c_indices c)) (c_rows c).
  Fixpoint run_calls (r : reservoir A) (cs : list call) : reservoir A * list (result unit) :=
    match cs with
    | [] => (r, [])
    | c :: cs' =>
        let '(r1, o) := add zero r (c_rows c) (c_given c) (c_draw c) in
        let '(r2, os) := run_calls r1 cs' in (r2, o :: os)
    end.

  Definition good_callb (n : Z) (c : call) : bool :=
    (length (c_indices c) =? length (c_rows c))%nat && forallb (fun i => (0 <=? i) && (i <? n)) (c_indices c).
  Lemma good_callb_iff n c : good_callb n c = true <-> good_call n c.
  Proof.
    unfold good_callb, good_call. rewrite andb_true_iff, Nat.eqb_eq, forallb_forall.
    split; intros [H1 H2]; split; try exact H1; intros i Hi; specialize (H2 i Hi); lia.
  Qed.
  (** the writes of the calls that succeed *)
  Definition all_writes (n : Z) (cs : list call) : list (nat * A) :=
    flat_map (fun c => if good_callb n c then c_writes c else []) cs.

  Definition inv (n : Z) (ws : list (nat * A)) (r : reservoir A) : Prop :=
    nsamples r = n /\ NoDup (slots r) /\
    (forall i, In i (slots r) <-> 0 <= i /\ exists x, In (Z.to_nat i, x) ws) /\
    (forall k x, In (k, x) ws -> Z.of_nat k < n) /\
    match arr r with
    | None => ws = []
    | Some a => Zlen a = n /\ forall k, (k < Z.to_nat n)%nat ->
        nth_error a k = Some (match last_write ws k with Some x => x | None => zero end)
    end.

  Lemma slots_sequence n ix : (forall i, In i ix -> 0 <= i < n) -> sequence (map (slot n) ix) = Some (map Z.to_nat ix).
  Proof.
    induction ix as [|i ix IH]; intros H; [reflexivity|]. cbn [map sequence].
    pose proof (H i (or_introl eq_refl)). unfold slot at 1.
    destruct (Z.leb_spec (- n) i); [|lia]. destruct (Z.ltb_spec i n); [|lia]. cbn [andb].
    destruct (Z.ltb_spec i 0); [lia|]. rewrite IH by (intros j Hj; apply H; right; exact Hj). reflexivity.
  Qed.
  Lemma slots_sequence_bad n ix i : In i ix -> n <= i -> sequence (map (slot n) ix) = None.
  Proof.
    induction ix as [|j ix IH]; intros H Hn; [destruct H|]. cbn [map sequence]. destruct (slot n j) eqn:E; [|reflexivity].
    destruct H as [->|H].
    - unfold slot in E. destruct (Z.ltb_spec i n); [lia|]. rewrite andb_false_r in E. discriminate.
    - rewrite (IH H Hn). reflexivity.
  Qed.

  Lemma init_inv n ws r : 0 < n -> inv n ws r -> inv n ws (init_arr zero r) /\ arr (init_arr zero r) <> None.
  Proof.
    intros Hn (A1 & A2 & A3 & A4 & A5). unfold init_arr. destruct (arr r) as [a|] eqn:E.
    - split; [|congruence]. unfold inv. rewrite E. split; [exact A1|]. split; [exact A2|]. split; [exact A3|]. split; [exact A4|exact A5].
    - split; [|discriminate]. unfold inv. cbn [nsamples arr slots]. split; [exact A1|]. split; [exact A2|]. split; [exact A3|].
      split; [exact A4|]. rewrite A1. subst ws. split; [unfold Zlen; rewrite repeat_length; lia|].
      intros k Hk. cbn [last_write]. rewrite (nth_error_nth' _ zero) by (rewrite repeat_length; exact Hk). rewrite nth_repeat. reflexivity.
  Qed.

  Lemma add_inv n ws r c : 0 < n -> inv n ws r -> no_negative c ->
    exists r' o, add zero r (c_rows c) (c_given c) (c_draw c) = (r', o) /\ arr r' <> None /\
    if good_callb n c then o = Ok tt /\ inv n (ws ++ c_writes c) r'
    else o = (if (length (c_indices c) =? length (c_rows c))%nat then Raise IndexError else Raise ValueError) /\ inv n ws r'.
  Proof.
    intros Hn I Nn. destruct (init_inv n ws r Hn I) as [I1 Na]. unfold add. set (r1 := init_arr zero r) in *.
    fold (c_indices c). unfold good_callb.
    assert (EqL : (Zlen (c_indices c) =? Zlen (c_rows c)) = (length (c_indices c) =? length (c_rows c))%nat).
    { unfold Zlen. destruct (Nat.eqb_spec (length (c_indices c)) (length (c_rows c))); [rewrite e; apply Z.eqb_refl|].
      apply Z.eqb_neq. lia. }
    rewrite EqL. destruct (Nat.eqb_spec (length (c_indices c)) (length (c_rows c))) as [L|L]; cbn [andb].
    2:{ eexists _, _. split; [reflexivity|]. split; [exact Na|]. split; [reflexivity|exact I1]. }
    destruct I1 as (B1 & B2 & B3 & B4 & B5). destruct (arr r1) as [a|] eqn:Ea; [|contradiction].
    destruct B5 as [La Ca].
    destruct (forallb (fun i => (0 <=? i) && (i <? n)) (c_indices c)) eqn:F.
    - rewrite forallb_forall in F.
      assert (F' : forall i, In i (c_indices c) -> 0 <= i < n) by (intros i Hi; specialize (F i Hi); lia).
      unfold assign_rows. rewrite La, slots_sequence by exact F'. fold (c_writes c). fold (write_all (c_writes c) a).
      eexists _, _. split; [reflexivity|]. split; [discriminate|]. split; [reflexivity|].
      assert (W : forall k x, In (k, x) (c_writes c) -> exists i, In i (c_indices c) /\ Z.to_nat i = k).
      { intros k x H. apply in_combine_l in H. apply in_map_iff in H. destruct H as (i & E & Hi). exists i. split; assumption. }
      assert (W2 : forall i, In i (c_indices c) -> exists x, In (Z.to_nat i, x) (c_writes c)).
      { intros i Hi. unfold c_writes. clear - L Hi. revert L Hi. generalize (c_rows c). generalize (c_indices c).
        induction l as [|j l IH]; intros rows L H; [destruct H|]. destruct rows as [|y rows]; [discriminate|].
        cbn [map combine]. destruct H as [->|H]; [exists y; left; reflexivity|].
        destruct (IH rows ltac:(cbn in L; lia) H) as [x Hx]. exists x. right; exact Hx. }
      unfold inv. cbn [nsamples arr slots]. destruct (set_update_spec (c_indices c) (slots r1) B2) as [N' S'].
      split; [exact B1|]. split; [exact N'|]. split; [|split].
      + intros i. rewrite S', B3. split.
        * intros [[H0 [x Hx]]|Hi].
          { split; [exact H0|]. exists x. apply in_or_app. left; exact Hx. }
          { split; [apply F'; exact Hi|]. destruct (W2 i Hi) as [x Hx]. exists x. apply in_or_app. right; exact Hx. }
        * intros [H0 [x Hx]]. apply in_app_or in Hx. destruct Hx as [Hx|Hx]; [left; split; [exact H0|exists x; exact Hx]|].
          right. destruct (W _ _ Hx) as (j & Hj & E). specialize (F' j Hj). replace i with j by lia. exact Hj.
      + intros k x Hx. apply in_app_or in Hx. destruct Hx as [Hx|Hx]; [exact (B4 k x Hx)|].
        destruct (W _ _ Hx) as (j & Hj & E). specialize (F' j Hj). lia.
      + split; [unfold Zlen; rewrite write_all_length; exact La|]. intros k Hk. rewrite write_all_nth.
        * rewrite last_write_app. destruct (last_write (c_writes c) k) as [x|]; [|apply Ca; exact Hk].
          destruct (Nat.ltb_spec k (length a)); [reflexivity|]. unfold Zlen in La. lia.
        * intros i x Hx. destruct (W _ _ Hx) as (j & Hj & E). specialize (F' j Hj). unfold Zlen in La. lia.
    - assert (Ex : exists i, In i (c_indices c) /\ n <= i).
      { apply not_true_iff_false in F. clear - F Nn. unfold no_negative in Nn.
        induction (c_indices c) as [|i l IH]; [exfalso; apply F; reflexivity|].
        destruct (Z.ltb_spec i n) as [Hi|Hi]; [|exists i; split; [left; reflexivity|exact Hi]].
        destruct IH as (j & Hj & Hj'); [intros j Hj; apply Nn; right; exact Hj| |exists j; split; [right; exact Hj|exact Hj']].
        intros Fl. apply F. cbn [forallb]. rewrite Fl. pose proof (Nn i (or_introl eq_refl)). lia. }
      destruct Ex as (i & Hi & Hn'). unfold assign_rows. rewrite La, (slots_sequence_bad n (c_indices c) i Hi Hn').
      eexists _, _. split; [reflexivity|]. split; [rewrite Ea; discriminate|]. split; [reflexivity|].
      unfold inv. rewrite Ea. split; [exact B1|]. split; [exact B2|]. split; [exact B3|]. split; [exact B4|]. split; [exact La|exact Ca].
  Qed.

  Lemma run_inv n : 0 < n -> forall cs ws r, inv n ws r -> (forall c, In c cs -> no_negative c) ->
    exists r' os, run_calls r cs = (r', os) /\ inv n (ws ++ all_writes n cs) r' /\ (cs <> [] \/ arr r <> None -> arr r' <> None).
  Proof.
    intros Hn. induction cs as [|c cs IH]; intros ws r I Nn.
    - exists r, []. split; [reflexivity|]. unfold all_writes. cbn. rewrite app_nil_r. split; [exact I|]. intros [H|H]; [contradiction|exact H].
    - destruct (add_inv n ws r c Hn I (Nn c (or_introl eq_refl))) as (r1 & o & E & Na & H).
      cbn [run_calls]. rewrite E. unfold all_writes. cbn [flat_map]. fold (all_writes n cs).
      destruct (good_callb n c).
      + destruct H as [_ I1]. destruct (IH _ r1 I1 (fun d Hd => Nn d (or_intror Hd))) as (r2 & os & E2 & I2 & N2).
        rewrite E2. eexists _, _. split; [reflexivity|]. rewrite app_assoc. split; [exact I2|]. intros _. apply N2. right; exact Na.
      + destruct H as [_ I1]. destruct (IH _ r1 I1 (fun d Hd => Nn d (or_intror Hd))) as (r2 & os & E2 & I2 & N2).
        rewrite E2. eexists _, _. split; [reflexivity|]. cbn [app]. split; [exact I2|]. intros _. apply N2. right; exact Na.
  Qed.

  Lemma py_get_nat (a : list A) k x : nth_error a k = Some x -> py_get a (Z.of_nat k) = Ok x.
  Proof.
    intros H. unfold py_get. destruct (Z.ltb_spec (Z.of_nat k) 0); [lia|]. destruct (Z.ltb_spec (Z.of_nat k) 0); [lia|].
    rewrite Nat2Z.id, H. reflexivity.
  Qed.
  Lemma get_inv n ws r : 0 < n -> inv n ws r -> arr r <> None -> get r = Ok (contents (Z.to_nat n) ws).
  Proof.
    intros Hn (B1 & B2 & B3 & B4 & B5) Na. unfold get. destruct (arr r) as [a|]; [|contradiction]. destruct B5 as [La Ca].
    set (P := fun k : nat => match last_write ws k with Some _ => true | None => false end).
    set (S := map Z.of_nat (filter P (seq 0 (Z.to_nat n)))).
    assert (Sorted : StronglySorted Z.lt S).
    { unfold S. generalize 0%nat as b. generalize (Z.to_nat n). clear. intros m; induction m as [|m IH]; intros b; cbn [seq filter]; [constructor|].
      assert (Low : Forall (Z.lt (Z.of_nat b)) (map Z.of_nat (filter P (seq (S b) m)))).
      { rewrite Forall_forall. intros z Hz. apply in_map_iff in Hz. destruct Hz as (k & <- & Hk). apply filter_In in Hk.
        destruct Hk as [Hk _]. apply in_seq in Hk. lia. }
      destruct (P b); [cbn [map]; constructor; [apply IH|exact Low]|apply IH]. }
    assert (Mem : forall i, In i (slots r) <-> In i S).
    { intros i. rewrite B3. unfold S. rewrite in_map_iff. split.
      - intros [H0 [x Hx]]. exists (Z.to_nat i). split; [lia|]. apply filter_In. split.
        + apply in_seq. pose proof (B4 _ _ Hx). lia.
        + unfold P. destruct (last_write ws (Z.to_nat i)) eqn:E; [reflexivity|].
          exfalso. exact (proj1 (last_write_none ws (Z.to_nat i)) E x Hx).
      - intros (k & <- & Hk). apply filter_In in Hk. destruct Hk as [_ Hk]. unfold P in Hk.
        destruct (last_write ws k) as [x|] eqn:E; [|discriminate]. split; [lia|]. exists x. rewrite Nat2Z.id. apply last_write_in. exact E. }
    assert (Eq : isort Z.leb (slots r) = S).
    { apply strict_unique; [|exact Sorted|].
      - apply strict_of_nodup; [apply zisort_sorted|]. apply (Permutation_NoDup (zisort_perm (slots r))). exact B2.
      - intros x. rewrite <- Mem. split; intros H; [apply (Permutation_in _ (Permutation_sym (zisort_perm _)))|apply (Permutation_in _ (zisort_perm _))]; exact H. }
    assert (LenS : length (slots r) = length S) by (rewrite <- Eq; apply Permutation_length, zisort_perm).
    assert (Cont : mapM (py_get a) S = Ok (contents (Z.to_nat n) ws)).
    { unfold S, contents.
      assert (G : forall m b, (b + m <= Z.to_nat n)%nat -> mapM (py_get a) (map Z.of_nat (filter P (seq b m)))
         = Ok (flat_map (fun k => match last_write ws k with Some x => [x] | None => [] end) (seq b m))).
      { induction m as [|m IH]; intros b Hb; [reflexivity|]. cbn [seq filter flat_map]. unfold P at 1.
        pose proof (Ca b ltac:(lia)) as Cb. destruct (last_write ws b) as [x|].
        - cbn [map mapM app]. rewrite (py_get_nat _ _ _ Cb). cbn [bind]. rewrite IH by lia. reflexivity.
        - cbn [app]. apply IH. lia. }
      apply G. lia. }
    unfold res_len. rewrite B1. unfold Zlen. destruct (Z.eqb_spec (Z.of_nat (length (slots r))) n) as [Full|NotFull].
    - rewrite <- Cont. symmetry.
      assert (FP : filter P (seq 0 (Z.to_nat n)) = seq 0 (Z.to_nat n)).
      { assert (Lf : length (filter P (seq 0 (Z.to_nat n))) = Z.to_nat n) by (rewrite LenS in Full; unfold S in Full; rewrite map_length in Full; lia).
        revert Lf. generalize 0%nat as b. generalize (Z.to_nat n) as m. clear. induction m as [|m IH]; intros b L; [reflexivity|].
        cbn [seq filter] in *.
        assert (Le : (length (filter P (seq (S b) m)) <= m)%nat).
        { rewrite <- (seq_length m (Datatypes.S b)) at 2. generalize (seq (Datatypes.S b) m). intros l. induction l as [|y l IHl]; [cbn; lia|].
          cbn [filter]. destruct (P y); cbn [length]; lia. }
        destruct (P b); cbn [length] in L; [f_equal; apply IH; lia|lia]. }
      unfold S. rewrite FP.
      assert (E : forall m b, (b + m = length a)%nat -> mapM (py_get a) (map Z.of_nat (seq b m)) = Ok (skipn b a)).
      { induction m as [|m IH]; intros b Hb; [rewrite skipn_all2 by lia; reflexivity|]. cbn [seq map mapM].
        destruct (nth_error a b) as [x|] eqn:Ex; [|apply nth_error_None in Ex; lia].
        rewrite (py_get_nat _ _ _ Ex). cbn [bind]. rewrite IH by lia. cbn [bind]. f_equal.
        clear - Ex. revert b Ex. induction a as [|y a IHa]; intros [|b] Ex; try discriminate.
        - injection Ex as ->. reflexivity.
        - cbn [skipn] in *. apply IHa. exact Ex. }
      rewrite (E (Z.to_nat n) 0%nat) by (unfold Zlen in La; lia). reflexivity.
    - rewrite Eq. exact Cont.
  Qed.

  (** After any calls (those refused included) the reservoir holds, slot by
      slot, the last row an accepted call wrote there. *)
  Theorem reservoir_contents n cs r0 :
    make_reservoir n = Ok r0 -> cs <> [] -> (forall c, In c cs -> no_negative c) ->
    get (fst (run_calls r0 cs)) = Ok (contents (Z.to_nat n) (all_writes n cs)).
  Proof.
    intros M Ne Nn. unfold make_reservoir in M. destruct (Z.leb_spec n 0); [discriminate|]. injection M as <-.
    assert (I0 : inv n [] {| nsamples := n; arr := None; slots := [] |}).
    { unfold inv. cbn. split; [reflexivity|]. split; [constructor|]. split; [|split; [intros k x []|reflexivity]].
      intros i. split; [intros []|intros [_ [x []]]]. }
    destruct (run_inv n ltac:(lia) cs [] _ I0 Nn) as (r' & os & E & I & Na).
    rewrite E. cbn [fst]. apply (get_inv n); [lia|exact I|]. apply Na. left; exact Ne.
  Qed.
  Theorem reservoir_refuses n cs r0 c : make_reservoir n = Ok r0 -> (forall d, In d (cs ++ [c]) -> no_negative d) ->
    snd (add zero (fst (run_calls r0 cs)) (c_rows c) (c_given c) (c_draw c))
    = if good_callb n c then Ok tt else if (length (c_indices c) =? length (c_rows c))%nat then Raise IndexError else Raise ValueError.
  Proof.
    intros M Nn. unfold make_reservoir in M. destruct (Z.leb_spec n 0); [discriminate|]. injection M as <-.
    assert (I0 : inv n [] {| nsamples := n; arr := None; slots := [] |}).
    { unfold inv. cbn. split; [reflexivity|]. split; [constructor|]. split; [|split; [intros k x []|reflexivity]].
      intros i. split; [intros []|intros [_ [x []]]]. }
    destruct (run_inv n ltac:(lia) cs [] _ I0) as (r' & os & E & I & Na).
    { intros d Hd. apply Nn, in_or_app. left; exact Hd. }
    rewrite E. cbn [fst]. destruct (add_inv n _ r' c ltac:(lia) I) as (r2 & o & E2 & _ & Ho).
    { apply Nn, in_or_app. right; left; reflexivity. }
    rewrite E2. cbn [snd]. destruct (good_callb n c); apply Ho.
  Qed.

  Lemma contents_from n (ws : list (nat * A)) x : In x (contents n ws) -> exists k, In (k, x) ws.
  Proof.
    unfold contents. intros H. apply in_flat_map in H. destruct H as (k & _ & H).
    destruct (last_write ws k) as [y|] eqn:E; [|destruct H]. destruct H as [->|[]]. exists k. apply last_write_in. exact E.
  Qed.
  Lemma contents_length n (ws : list (nat * A)) : (length (contents n ws) <= n)%nat.
  Proof.
    unfold contents. assert (G : forall m b, (length (flat_map (fun k => match last_write ws k with Some x => [x] | None => [] end) (seq b m)) <= m)%nat).
    { induction m as [|m IH]; intros b; cbn [seq flat_map]; [cbn; lia|]. rewrite app_length. specialize (IH (S b)).
      destruct (last_write ws b); cbn [length]; lia. }
    apply G.
  Qed.
  (** every row held was added, at most [n] of them *)
  Theorem reservoir_from_added n cs x : In x (contents (Z.to_nat n) (all_writes n cs)) -> exists c, In c cs /\ good_call n c /\ In x (c_rows c).
  Proof.
    intros H. apply contents_from in H. destruct H as (k & H). unfold all_writes in H. apply in_flat_map in H.
    destruct H as (c & Hc & H). destruct (good_callb n c) eqn:G; [|destruct H]. exists c. split; [exact Hc|].
    split; [apply good_callb_iff; exact G|]. apply in_combine_r in H. exact H.
  Qed.
  (** a slot written to stays occupied, by the newest row *)
  Theorem reservoir_kept n (ws : list (nat * A)) k x newer :
    (k < n)%nat -> (forall y, ~ In (k, y) newer) -> In x (contents n (ws ++ (k, x) :: newer)).
  Proof.
    intros Hk Hn. unfold contents. apply in_flat_map. exists k. split; [apply in_seq; lia|].
    rewrite last_write_app. cbn [last_write]. rewrite (proj2 (last_write_none newer k) Hn), Nat.eqb_refl. left; reflexivity.
  Qed.
End ResProofs.

(** two rows drawn to one slot leave one row *)
Lemma reservoir_collision_refuted {A} (zero x y : A) :
  exists r, make_reservoir 2 = Ok r /\
  get (fst (run_calls zero r [{| c_rows := [x; y]; c_given := None; c_draw := [0; 0] |}])) = Ok [y].
Proof. eexists. split; reflexivity. Qed.
(** a negative index given by the caller is counted as a slot of its own: the
    reservoir claims to be full and hands out a row nobody added *)
Lemma reservoir_negative_refuted {A} (zero x y : A) :
  exists r, make_reservoir 2 = Ok r /\
  let r' := fst (run_calls zero r [{| c_rows := [x; y]; c_given := Some [1; -1]; c_draw := [] |}]) in
  res_len r' = 2 /\ get r' = Ok [zero; y].
Proof. eexists. split; [reflexivity|]. split; reflexivity. Qed.
Example reservoir_example :
  exists r, make_reservoir 3 = Ok r /\
  let cs := [{| c_rows := [10; 20]; c_given := None; c_draw := [2; 0] |}; {| c_rows := [30]; c_given := Some [1; 1]; c_draw := [] |};
             {| c_rows := [40]; c_given := None; c_draw := [2] |}] in
  (forall c, In c cs -> no_negative c) /\ get (fst (run_calls 0 r cs)) = Ok [20; 40].
Proof.
  eexists. split; [reflexivity|]. split; [|reflexivity].
  intros c [<-|[<-|[<-|[]]]] i Hi; cbn in Hi; lia.
Qed.

(** ** MultiplexedReservoir *)
Section MultiProofs.
  Context {K EX A : Type} (keq : K -> K -> bool) (zero : A).
  Hypothesis keq_spec : forall a b, keq a b = true <-> a = b.
  (** [field k e] is the row of example [e] in channel [k] *)
  Context (field : K -> EX -> A).

  (** a batch of examples, channel by channel (in the order the dict lists them) *)
  Definition batch_of (keys : list K) (es : list EX) : list (K * list A) := map (fun k => (k, map (field k) es)) keys.

  (** calls of add: the order in which the dict lists its keys, the examples and
      the draw *)
  Record mcall := { mc_keys : list K; mc_examples : list EX; mc_draw : list Z }.
  Definition good_mcall (keys : list K) (n : Z) (c : mcall) : Prop :=
    NoDup (mc_keys c) /\ (forall k, In k (mc_keys c) <-> In k keys) /\
    length (mc_draw c) = length (mc_examples c) /\ forall i, In i (mc_draw c) -> 0 <= i < n.
  Fixpoint run_mcalls (m : multi K A) (cs : list mcall) : multi K A * list (result unit) :=
    match cs with
    | [] => (m, [])
    | c :: cs' =>
        let '(m1, o) := madd keq zero m (batch_of (mc_keys c) (mc_examples c)) (fun _ => mc_draw c) in
        let '(m2, os) := run_mcalls m1 cs' in (m2, o :: os)
    end.
  Definition as_call (k : K) (c : mcall) : @call A :=
    {| c_rows := map (field k) (mc_examples c); c_given := Some (mc_draw c); c_draw := [] |}.

  Lemma keq_refl k : keq k k = true. Proof. apply keq_spec. reflexivity. Qed.

  Lemma find_update k f (l : list (K * reservoir A)) k' :
    find_key keq k' (update_key keq k f l) = if keq k' k then option_map f (find_key keq k' l) else find_key keq k' l.
  Proof.
    unfold find_key. induction l as [|[j r] l IH]; cbn [update_key find fst option_map].
    - destruct (keq k' k); reflexivity.
    - destruct (keq k j) eqn:Ekj.
      + apply keq_spec in Ekj. subst j. cbn [find fst]. destruct (keq k' k) eqn:E; [reflexivity|]. reflexivity.
      + cbn [find fst]. destruct (keq k' j) eqn:E'.
        * destruct (keq k' k) eqn:E; [|reflexivity]. apply keq_spec in E'. apply keq_spec in E. subst. rewrite keq_refl in Ekj. discriminate.
        * exact IH.
  Qed.
  Lemma update_keys k f (l : list (K * reservoir A)) : map fst (update_key keq k f l) = map fst l.
  Proof. induction l as [|[j r] l IH]; [reflexivity|]. cbn [update_key]. destruct (keq k j); cbn [map fst]; [reflexivity|rewrite IH; reflexivity]. Qed.

  (** every channel of the channels listed is updated with the same indices *)
  Lemma add_channels_ok n keys es ix : 0 < n -> length ix = length es -> (forall i, In i ix -> 0 <= i < n) -> NoDup keys ->
    forall rs (ws : K -> list (nat * A)) o,
    (forall k, In k keys -> exists r, find_key keq k rs = Some r /\ inv zero n (ws k) r) ->
    (o = None \/ o = Some ix) ->
    exists rs', add_channels keq zero rs (batch_of keys es) o (fun _ => ix) = (rs', Ok tt) /\
      map fst rs' = map fst rs /\
      forall k, if existsb (keq k) keys
        then exists r, find_key keq k rs' = Some r /\ arr r <> None /\ inv zero n (ws k ++ combine (map Z.to_nat ix) (map (field k) es)) r
        else find_key keq k rs' = find_key keq k rs.
  Proof.
    intros Hn Li Ri. induction keys as [|k keys IH]; intros Nd rs ws o H Ho.
    - exists rs. split; [reflexivity|]. split; [reflexivity|]. intros k. reflexivity.
    - inversion Nd as [|? ? N1 N2]; subst. cbn [batch_of map add_channels].
      assert (Eo : match o with Some i => i | None => ix end = ix) by (destruct Ho; subst; reflexivity). rewrite Eo.
      destruct (H k (or_introl eq_refl)) as (r & Fr & Ir). rewrite Fr.
      destruct (add_inv zero n (ws k) r {| c_rows := map (field k) es; c_given := Some ix; c_draw := [] |} Hn Ir) as (r' & out & Ea & Na & G).
      { intros i Hi. apply Ri. exact Hi. }
      cbn [c_rows c_given c_draw] in Ea. rewrite Ea.
      assert (Gb : good_callb n {| c_rows := map (field k) es; c_given := Some ix; c_draw := [] |} = true).
      { apply good_callb_iff. split; [cbn; rewrite map_length; exact Li|exact Ri]. }
      rewrite Gb in G. destruct G as [-> I'].
      destruct (IH N2 (update_key keq k (fun _ => r') rs) ws (Some ix)) as (rs' & E & M & C).
      { intros k' Hk'. rewrite find_update. destruct (keq k' k) eqn:Ek; [apply keq_spec in Ek; subst; contradiction|].
        apply H. right; exact Hk'. }
      { right; reflexivity. }
      exists rs'. unfold batch_of in E. rewrite E. split; [reflexivity|]. split; [rewrite M; apply update_keys|].
      intros k'. cbn [existsb]. specialize (C k'). destruct (keq k' k) eqn:Ek.
      + apply keq_spec in Ek. subst k'. cbn [orb].
        destruct (existsb (keq k) keys) eqn:Ex.
        { exfalso. apply existsb_exists in Ex. destruct Ex as (j & Hj & Ej). apply keq_spec in Ej. subst. contradiction. }
        rewrite C, find_update, keq_refl, Fr. exists r'. split; [reflexivity|]. split; [exact Na|exact I'].
      + cbn [orb]. destruct (existsb (keq k') keys) eqn:Ex; [|rewrite C, find_update, Ek; reflexivity].
        exact C.
  Qed.

  Definition minv (keys : list K) (n : Z) (ws : list (nat * EX)) (m : multi K A) : Prop :=
    m_nsamples m = n /\
    match m_res m with
    | None => ws = []
    | Some rs => map fst rs = keys /\ NoDup keys /\
        forall k, In k keys -> exists r, find_key keq k rs = Some r /\ arr r <> None /\
          inv zero n (map (fun w => (fst w, field k (snd w))) ws) r
    end.

  Lemma combine_field k ix (es : list EX) :
    combine ix (map (field k) es) = map (fun w : nat * EX => (fst w, field k (snd w))) (combine ix es).
  Proof. revert es. induction ix as [|i ix IH]; intros [|e es]; cbn; try reflexivity. rewrite IH. reflexivity. Qed.

  Lemma same_keys_iff a b : same_keys keq a b = true <-> forall k, In k a <-> In k b.
  Proof.
    unfold same_keys, kmem. rewrite andb_true_iff, !forallb_forall. split.
    - intros [H1 H2] k. split; intros Hk; [specialize (H1 k Hk)|specialize (H2 k Hk)];
        match goal with H : existsb _ _ = true |- _ => apply existsb_exists in H; destruct H as (j & Hj & Ej) end;
        apply keq_spec in Ej; subst; exact Hj.
    - intros H. split; intros k Hk; apply existsb_exists; exists k; (split; [apply H; exact Hk|apply keq_refl]).
  Qed.

  Definition writes_of (cs : list mcall) : list (nat * EX) :=
    flat_map (fun c => combine (map Z.to_nat (mc_draw c)) (mc_examples c)) cs.

  Definition fresh (n : Z) : reservoir A := {| nsamples := n; arr := None; slots := [] |}.
  Lemma find_init n (keys : list K) k : 0 < n -> In k keys ->
    find_key keq k (map (fun k0 => (k0, fresh n)) keys) = Some (fresh n).
  Proof.
    intros Hn. unfold find_key. induction keys as [|j keys IH]; intros H; [destruct H|]. cbn [map find fst].
    destruct (keq k j) eqn:Ek; [reflexivity|]. apply IH. destruct H as [->|H]; [rewrite keq_refl in Ek; discriminate|exact H].
  Qed.

  Lemma madd_step n keys ws m c : 0 < n -> minv keys n ws m -> (m_res m = None -> keys = mc_keys c) -> good_mcall keys n c ->
    exists m', madd keq zero m (batch_of (mc_keys c) (mc_examples c)) (fun _ => mc_draw c) = (m', Ok tt) /\
      m_res m' <> None /\ minv keys n (ws ++ combine (map Z.to_nat (mc_draw c)) (mc_examples c)) m'.
  Proof.
    intros Hn (Mn & Mr) K0 (Nk & Kk & Ld & Rd). unfold madd, init_dict.
    assert (Eb : map fst (batch_of (mc_keys c) (mc_examples c)) = mc_keys c).
    { unfold batch_of. rewrite map_map. apply map_id. }
    rewrite Eb.
    assert (Fin : forall rs, map fst rs = keys -> NoDup keys ->
       (forall k, In k keys -> exists r, find_key keq k rs = Some r /\ inv zero n (map (fun w => (fst w, field k (snd w))) ws) r) ->
       exists m', (if same_keys keq (map fst rs) (mc_keys c) then
              let '(rs', out) := add_channels keq zero rs (batch_of (mc_keys c) (mc_examples c)) None (fun _ => mc_draw c) in
              ({| m_nsamples := m_nsamples m; m_res := Some rs' |}, out)
            else (m, Raise ValueError)) = (m', Ok tt) /\ m_res m' <> None /\
            minv keys n (ws ++ combine (map Z.to_nat (mc_draw c)) (mc_examples c)) m').
    { intros rs Hk Ndk Hr. rewrite Hk. rewrite (proj2 (same_keys_iff keys (mc_keys c))) by (intros k; symmetry; apply Kk).
      destruct (add_channels_ok n (mc_keys c) (mc_examples c) (mc_draw c) Hn Ld Rd Nk rs
                  (fun k => map (fun w => (fst w, field k (snd w))) ws) None) as (rs' & E' & M' & C).
      { intros k Hk'. apply Hr. apply Kk. exact Hk'. }
      { left; reflexivity. }
      rewrite E'. eexists. split; [reflexivity|]. split; [discriminate|]. split; [exact Mn|]. cbn [m_res].
      split; [congruence|]. split; [exact Ndk|]. intros k Hk'. specialize (C k).
      assert (Ex : existsb (keq k) (mc_keys c) = true) by (apply existsb_exists; exists k; split; [apply Kk; exact Hk'|apply keq_refl]).
      rewrite Ex in C. destruct C as (r & Fr & Na & Ir). exists r. split; [exact Fr|]. split; [exact Na|].
      rewrite map_app, <- combine_field. exact Ir. }
    destruct (m_res m) as [rs|] eqn:Em.
    - cbn [bind]. rewrite Em. destruct Mr as (Hk & Nd & Hr).
      destruct (Fin rs Hk Nd) as (m' & E' & R); [|exists m'; split; [exact E'|exact R]].
      intros k Hk'. destruct (Hr k Hk') as (r & Fr & _ & Ir). exists r. split; assumption.
    - specialize (K0 eq_refl). subst keys.
      rewrite (mapM_ok _ (fun k => (k, fresh n))).
      2:{ intros k _. unfold make_reservoir. rewrite Mn. destruct (Z.leb_spec n 0); [lia|reflexivity]. }
      cbn [bind m_res m_nsamples]. subst ws.
      destruct (Fin (map (fun k => (k, fresh n)) (mc_keys c))) as (m' & E' & R).
      + rewrite map_map. apply map_id.
      + exact Nk.
      + intros k Hk'. eexists. split; [apply (find_init n); assumption|]. unfold inv. cbn.
        split; [reflexivity|]. split; [constructor|]. split; [|split; [intros i x []|reflexivity]].
        intros i. split; [intros []|intros [_ [x []]]].
      + exists m'. rewrite <- E'. split; [|exact R].
        rewrite map_map. cbn [fst]. rewrite map_id.
        rewrite (proj2 (same_keys_iff (mc_keys c) (mc_keys c))) by (intros k; reflexivity).
        destruct (add_channels _ _ _ _ _ _) as [rs' out]. rewrite Mn. reflexivity.
  Qed.

  Lemma run_mcalls_inv n keys : 0 < n -> forall cs ws m, minv keys n ws m ->
    (m_res m = None -> forall c, hd_error cs = Some c -> keys = mc_keys c) ->
    (forall c, In c cs -> good_mcall keys n c) ->
    exists m' os, run_mcalls m cs = (m', os) /\ (forall o, In o os -> o = Ok tt) /\ minv keys n (ws ++ writes_of cs) m' /\
      (cs <> [] -> m_res m' <> None).
  Proof.
    intros Hn. induction cs as [|c cs IH]; intros ws m I K0 G.
    - exists m, []. split; [reflexivity|]. split; [intros o []|]. unfold writes_of. cbn. rewrite app_nil_r. split; [exact I|]. intros H; contradiction.
    - destruct (madd_step n keys ws m c Hn I (fun H => K0 H c eq_refl) (G c (or_introl eq_refl))) as (m1 & E1 & N1 & I1).
      cbn [run_mcalls]. rewrite E1.
      destruct (IH _ m1 I1) as (m2 & os & E2 & O2 & I2 & N2).
      { intros H. contradiction. }
      { intros d Hd. apply G. right; exact Hd. }
      rewrite E2. exists m2, (Ok tt :: os). split; [reflexivity|]. split; [intros o [<-|Ho]; [reflexivity|apply O2; exact Ho]|].
      unfold writes_of. cbn [flat_map]. rewrite app_assoc. split; [exact I2|]. intros _.
      destruct cs as [|c2 cs]; [cbn in E2; injection E2 as <- _; exact N1|apply N2; discriminate].
  Qed.

  Lemma contents_field n (ws : list (nat * EX)) k :
    contents n (map (fun w => (fst w, field k (snd w))) ws) = map (field k) (contents n ws).
  Proof.
    unfold contents. rewrite (flat_map_concat_map _ (seq 0 n)), (flat_map_concat_map _ (seq 0 n)), concat_map, map_map.
    f_equal. apply map_ext. intros i.
    assert (L : last_write (map (fun w => (fst w, field k (snd w))) ws) i = option_map (field k) (last_write ws i)).
    { induction ws as [|[j e] ws IH]; [reflexivity|]. cbn [map last_write fst snd]. rewrite IH.
      destruct (last_write ws i); [reflexivity|]. cbn [option_map]. destruct (i =? j)%nat; reflexivity. }
    rewrite L. destruct (last_write ws i); reflexivity.
  Qed.

  (** all channels show the same examples in the same order *)
  Theorem multi_aligned n c cs :
    0 < n -> (forall d, In d (c :: cs) -> good_mcall (mc_keys c) n d) ->
    let m0 := {| m_nsamples := n; m_res := None |} in
    exists m os held, run_mcalls m0 (c :: cs) = (m, os) /\ (forall o, In o os -> o = Ok tt) /\
      mget m = Ok (map (fun k => (k, map (field k) held)) (mc_keys c)) /\
      held = contents (Z.to_nat n) (writes_of (c :: cs)) /\
      (forall e, In e held -> exists d, In d (c :: cs) /\ In e (mc_examples d)) /\ (length held <= Z.to_nat n)%nat.
  Proof.
    intros Hn G m0.
    destruct (run_mcalls_inv n (mc_keys c) Hn (c :: cs) [] m0) as (m & os & E1 & O & I & N).
    { split; [reflexivity|]. reflexivity. }
    { intros _ d Hd. injection Hd as <-. reflexivity. }
    { exact G. }
    exists m, os, (contents (Z.to_nat n) (writes_of (c :: cs))). split; [exact E1|]. split; [exact O|].
    specialize (N ltac:(discriminate)). destruct I as [_ I]. unfold mget. destruct (m_res m) as [rs|]; [|contradiction].
    destruct I as (Hk & Nd & Hr). split.
    - assert (Gm : forall l, incl l rs -> NoDup (map fst l) ->
         (forall p, In p l -> find_key keq (fst p) rs = Some (snd p)) ->
         mapM (fun p => do x <- get (snd p); Ok (fst p, x)) l
         = Ok (map (fun k => (k, map (field k) (contents (Z.to_nat n) (writes_of (c :: cs))))) (map fst l))).
      { induction l as [|[k r] l IHl]; intros Hi Hn' Hf; [reflexivity|]. cbn [mapM map fst snd].
        assert (Hin : In k (mc_keys c)) by (rewrite <- Hk; apply in_map_iff; exists (k, r); split; [reflexivity|apply Hi; left; reflexivity]).
        destruct (Hr k Hin) as (r' & Fr & Na & Ir). pose proof (Hf (k, r) (or_introl eq_refl)) as Hf0. cbn [fst snd] in Hf0. rewrite Hf0 in Fr. injection Fr as <-.
        rewrite (get_inv zero n _ _ Hn Ir Na). cbn [bind app]. rewrite contents_field.
        rewrite IHl; [reflexivity|intros p Hp; apply Hi; right; exact Hp|inversion Hn'; assumption|intros p Hp; apply Hf; right; exact Hp]. }
      rewrite (Gm rs); [rewrite Hk; reflexivity|apply incl_refl|rewrite Hk; exact Nd|].
      intros [k r] Hp. cbn [fst snd]. rewrite <- Hk in Nd. clear - Nd Hp keq_spec. unfold find_key.
      induction rs as [|[j q] rs IHr]; [destruct Hp|]. cbn [map fst] in Nd. inversion Nd as [|? ? N1 N2]; subst. cbn [find fst].
      destruct Hp as [Hp|Hp].
      + injection Hp as -> ->. rewrite keq_refl. reflexivity.
      + destruct (keq k j) eqn:Ek; [|apply IHr; assumption]. apply keq_spec in Ek. subst. exfalso. apply N1.
        apply in_map_iff. exists (j, r). split; [reflexivity|exact Hp].
    - split; [reflexivity|]. split; [|apply contents_length].
      intros e He. apply contents_from in He. destruct He as (k & He). unfold writes_of in He. apply in_flat_map in He.
      destruct He as (d & Hd & He). exists d. split; [exact Hd|]. apply in_combine_r in He. exact He.
  Qed.

  (** a batch with other keys is refused and changes nothing *)
  Theorem multi_wrong_keys m rs samples draw :
    m_res m = Some rs -> (exists k, ~ (In k (map fst rs) <-> In k (map fst samples))) ->
    madd keq zero m samples draw = (m, Raise ValueError).
  Proof.
    intros Hm (k & Hk). unfold madd, init_dict. rewrite Hm. rewrite Hm.
    destruct (same_keys keq (map fst rs) (map fst samples)) eqn:Es; [|reflexivity].
    exfalso. apply Hk. apply (proj1 (same_keys_iff _ _) Es).
  Qed.
End MultiProofs.

(** a batch whose channels differ in length is refused after its first channel
    has been stored: the channels no longer show the same examples *)
Lemma multi_unequal_refuted :
  let m0 := {| m_nsamples := 1; m_res := None |} in
  let '(m1, o1) := madd Nat.eqb 0 m0 [(1%nat, [11]); (2%nat, [12])] (fun _ => [0]) in
  let '(m2, o2) := madd Nat.eqb 0 m1 [(1%nat, [21]); (2%nat, [])] (fun _ => [0]) in
  o1 = Ok tt /\ o2 = Raise ValueError /\
  mget m1 = Ok [(1%nat, [11]); (2%nat, [12])] /\ mget m2 = Ok [(1%nat, [21]); (2%nat, [12])].
Proof. repeat split; reflexivity. Qed.
Example multi_example :
  let field := fun (k : nat) (e : Z) => 10 * e + Z.of_nat k in
  let c1 := {| mc_keys := [1; 2]%nat; mc_examples := [5; 6]; mc_draw := [1; 0] |} in
  let c2 := {| mc_keys := [2; 1]%nat; mc_examples := [7]; mc_draw := [1] |} in
  (forall d, In d [c1; c2] -> good_mcall (mc_keys c1) 3 d) /\
  mget (fst (run_mcalls Nat.eqb 0 field {| m_nsamples := 3; m_res := None |} [c1; c2]))
    = Ok [(1%nat, [61; 71]); (2%nat, [62; 72])].
Proof.
  split; [|reflexivity]. intros d [<-|[<-|[]]]; unfold good_mcall; cbn.
  - split; [repeat constructor; cbn; intuition lia|]. split; [tauto|]. split; [reflexivity|]. intros i Hi; intuition lia.
  - split; [repeat constructor; cbn; intuition lia|]. split; [tauto|]. split; [reflexivity|]. intros i Hi; intuition lia.
Qed.

(** ** ReservoirSampler *)
Section SamplerProofs.
  Context {A : Type} (zero : A).
  (** chunks arriving, each with the numbers drawn for it *)
  Fixpoint run_sampler (s : sampler A) (chunks : list (list A * list nat)) : sampler A :=
    match chunks with
    | [] => s
    | (d, dr) :: cs => run_sampler (s_enqueue zero s d dr) cs
    end.
  Definition stream (chunks : list (list A * list nat)) : list A := concat (map fst chunks).

  (** what the sampler holds once it has seen [seen] *)
  Definition sinv (n : nat) (seen : list A) (s : sampler A) : Prop :=
    s_n s = n /\ s_index s = length seen /\
    match s_arr s with
    | None => seen = []
    | Some r => length r = n /\
        ((length seen <= n)%nat -> firstn (length seen) r = seen) /\
        ((n <= length seen)%nat -> forall x, In x r -> In x seen)
    end.
  Lemma in_set_nth (y x : A) a : forall i, In x (set_nth i y a) -> In x a \/ x = y.
  Proof.
    induction a as [|z a IHa]; intros i H; [destruct i; destruct H|]. destruct i as [|i]; cbn [set_nth] in H.
    - destruct H as [->|H]; [right; reflexivity|left; right; exact H].
    - destruct H as [->|H]; [left; left; reflexivity|]. destruct (IHa i H) as [G|G]; [left; right; exact G|right; exact G].
  Qed.
  Lemma in_write_all (ws : list (nat * A)) : forall a x, In x (write_all ws a) -> In x a \/ exists k, In (k, x) ws.
  Proof.
    induction ws as [|[i y] ws IH]; intros a x H; [left; exact H|]. unfold write_all in *. cbn [fold_left fst snd] in H.
    destruct (IH _ _ H) as [H1|[k H1]]; [|right; exists k; right; exact H1].
    destruct (in_set_nth _ _ _ _ H1) as [H2| ->]; [left; exact H2|right; exists i; left; reflexivity].
  Qed.

  Lemma s_enqueue_inv n seen s d dr : sinv n seen s -> sinv n (seen ++ d) (s_enqueue zero s d dr) /\ s_arr (s_enqueue zero s d dr) <> None.
  Proof.
    intros (Sn & Si & Sr). unfold s_enqueue. rewrite Sn, Si.
    set (r0 := match s_arr s with Some a => a | None => repeat zero n end).
    assert (R0 : length r0 = n /\ ((length seen <= n)%nat -> firstn (length seen) r0 = seen) /\
                 ((n <= length seen)%nat -> forall x, In x r0 -> In x seen)).
    { unfold r0. destruct (s_arr s) as [r|]; [exact Sr|]. subst seen. rewrite repeat_length. split; [reflexivity|].
      split; [reflexivity|]. cbn [length]. intros Hn x Hx. replace n with 0%nat in Hx by lia. destruct Hx. }
    destruct R0 as (L0 & P0 & Q0). clearbody r0. clear Sr.
    destruct (Nat.ltb_spec (length seen) n) as [Lt|Ge].
    - set (diff := (n - length seen)%nat). set (h := firstn diff d). set (t := skipn diff d).
      set (r1 := firstn (length seen) r0 ++ h ++ skipn (length seen + length h) r0).
      assert (Lh : (length h <= diff)%nat) by (unfold h; rewrite firstn_length; lia).
      assert (L1 : length r1 = n).
      { unfold r1. rewrite !app_length, firstn_length, skipn_length. unfold diff in Lh. lia. }
      assert (F1 : firstn (length seen + length h) r1 = seen ++ h).
      { unfold r1. rewrite (P0 ltac:(lia)), app_assoc, firstn_app, app_length, Nat.sub_diag, firstn_O, app_nil_r.
        rewrite <- app_length. apply firstn_all. }
      assert (Ed : d = h ++ t) by (symmetry; apply firstn_skipn).
      assert (Lt1 : (length t = length d - diff)%nat) by (unfold t; apply skipn_length).
      clearbody t. destruct t as [|y t'].
      + rewrite app_nil_r in Ed. clearbody h. subst h.
        split; [|discriminate]. split; [reflexivity|]. cbn [s_index s_arr]. rewrite app_length.
        split; [reflexivity|]. split; [exact L1|]. split; [intros _; exact F1|].
        intros Hn x Hx. rewrite <- F1, firstn_all2 by lia. exact Hx.
      + assert (Ld : length h = diff).
        { unfold h. rewrite firstn_length. cbn [length] in Lt1. lia. }
        split; [|discriminate]. split; [reflexivity|]. cbn [s_index s_arr]. remember (y :: t') as t eqn:Et.
        assert (Ldd : length d = (length h + length t)%nat) by (rewrite Ed, app_length at 1; reflexivity).
        split; [rewrite app_length; lia|].
        fold (write_all (combine (filter (fun i => (i <? n)%nat) dr) (firstn (length (filter (fun i => (i <? n)%nat) dr)) t)) r1).
        split; [rewrite write_all_length; exact L1|].
        assert (Lt' : length t = S (length t')) by (rewrite Et; reflexivity).
        split; [rewrite app_length; unfold diff in Ld; lia|].
        intros _ x Hx. apply in_write_all in Hx. rewrite Ed, app_assoc. destruct Hx as [Hx|[k Hx]].
        * apply in_or_app. left. rewrite <- F1, firstn_all2 by (unfold diff in Ld; lia). exact Hx.
        * apply in_or_app. right. apply in_combine_r in Hx. rewrite <- (firstn_skipn (length (filter (fun i => (i <? n)%nat) dr)) t).
          apply in_or_app. left; exact Hx.
    - cbn [skipn]. destruct d as [|y d']; cbn [skipn].
      + split; [|discriminate]. split; [reflexivity|]. cbn [s_index s_arr]. rewrite app_nil_r. split; [reflexivity|].
        split; [exact L0|]. split; [exact P0|exact Q0].
      + split; [|discriminate]. split; [reflexivity|]. cbn [s_index s_arr]. rewrite app_length. split; [reflexivity|].
        match goal with |- context [fold_left _ ?ws r0] => fold (write_all ws r0); set (w := ws) end.
        split; [rewrite write_all_length; exact L0|]. cbn [length]. split; [lia|].
        intros _ x Hx. apply in_write_all in Hx. apply in_or_app. destruct Hx as [Hx|[k Hx]].
        * left. apply Q0; [exact Ge|exact Hx].
        * right. unfold w in Hx. apply in_combine_r in Hx.
          rewrite <- (firstn_skipn (length (filter (fun i => (i <? n)%nat) dr)) (y :: d')). apply in_or_app. left; exact Hx.
  Qed.
  Lemma run_sampler_inv n chunks : forall seen s, sinv n seen s ->
    sinv n (seen ++ stream chunks) (run_sampler s chunks) /\ (chunks <> [] \/ s_arr s <> None -> s_arr (run_sampler s chunks) <> None).
  Proof.
    induction chunks as [|[d dr] cs IH]; intros seen s I; cbn [run_sampler].
    - unfold stream. cbn. rewrite app_nil_r. split; [exact I|]. intros [H|H]; [contradiction|exact H].
    - destruct (s_enqueue_inv n seen s d dr I) as [I1 N1]. destruct (IH _ _ I1) as [I2 N2].
      unfold stream in *. cbn [map fst concat]. rewrite app_assoc. split; [exact I2|]. intros _. apply N2. right; exact N1.
  Qed.

  (** whatever is drawn, the node hands out min(total, n) rows of the stream;
      when the stream is no longer than n, all of it, in shuffled order *)
  Theorem sampler_output n chunks shuffle :
    chunks <> [] -> (forall l, Permutation (shuffle l) l) ->
    exists out, s_dequeue (run_sampler (make_sampler n) chunks) shuffle = Ok out /\
      length out = Nat.min (length (stream chunks)) n /\
      (forall x, In x out -> In x (stream chunks)) /\
      ((length (stream chunks) <= n)%nat -> Permutation out (stream chunks)).
  Proof.
    intros Ne Sh. destruct (run_sampler_inv n chunks [] (make_sampler n)) as [I N].
    { split; [reflexivity|]. split; [reflexivity|]. reflexivity. }
    cbn [app] in I. specialize (N (or_introl Ne)). set (s := run_sampler (make_sampler n) chunks) in *. clearbody s.
    destruct I as (In1 & Ii & Ir). unfold s_dequeue. destruct (s_arr s) as [r|]; [|contradiction].
    destruct Ir as (Lr & P & Q). rewrite In1, Ii. destruct (Nat.leb_spec (length (stream chunks)) n) as [Le|Gt].
    - rewrite (P Le). eexists. split; [reflexivity|]. split; [rewrite (Permutation_length (Sh _)); lia|].
      split; [intros x Hx; apply (Permutation_in _ (Sh _)); exact Hx|]. intros _. apply Sh.
    - eexists. split; [reflexivity|]. split; [lia|]. split; [apply Q; lia|]. lia.
  Qed.

  (** a full sampler: of a chunk, only as many of its first rows as there were
      draws below n can be kept, whichever rows those draws were for *)
  Theorem sampler_prefix_only s r d dr :
    s_arr s = Some r -> (s_n s <= s_index s)%nat ->
    exists r', s_arr (s_enqueue zero s d dr) = Some r' /\
      forall x, In x r' -> In x r \/ In x (firstn (length (filter (fun i => (i <? s_n s)%nat) dr)) d).
  Proof.
    intros Hr Hf. unfold s_enqueue. rewrite Hr. destruct (Nat.ltb_spec (s_index s) (s_n s)); [lia|]. cbn [skipn].
    destruct d as [|y d].
    - eexists. split; [reflexivity|]. intros x Hx. left; exact Hx.
    - eexists. split; [reflexivity|]. intros x Hx.
      match type of Hx with context [fold_left _ ?ws r] => fold (write_all ws r) in Hx end.
      apply in_write_all in Hx. destruct Hx as [Hx|[k Hx]]; [left; exact Hx|right]. apply in_combine_r in Hx. exact Hx.
  Qed.
End SamplerProofs.
(** two rows arrive at a full one-row sampler and the draws are 1 (discard) for
    the first and 0 (keep) for the second: the first row is kept *)
Lemma sampler_wrong_row_refuted {A} (zero x y z : A) :
  s_arr (run_sampler zero (make_sampler 1) [([x], []); ([y; z], [1; 0]%nat)]) = Some [y].
Proof. reflexivity. Qed.
(** nothing ever arrives: reading the result fails *)
Lemma sampler_empty {A} n (shuffle : list A -> list A) : s_dequeue (make_sampler n) shuffle = Raise TypeError.
Proof. reflexivity. Qed.
Example sampler_example :
  let cs := [([10; 20], []); ([30; 40; 50], [2; 0]%nat); ([60], [7%nat])] in
  cs <> [] /\ s_dequeue (run_sampler 0 (make_sampler 3) cs) (@rev Z) = Ok [50; 20; 40].
Proof. split; [discriminate|reflexivity]. Qed.

(** ** Nothing is lost without a collision; batches *)
Lemma flat_map_ext_in0 {A B} (f g : A -> list B) l : (forall x, In x l -> f x = g x) -> flat_map f l = flat_map g l.
Proof. induction l as [|x l IH]; intros H; [reflexivity|]. cbn. rewrite (H x (or_introl eq_refl)), IH; [reflexivity|]. intros y Hy; apply H; right; exact Hy. Qed.
Theorem contents_all {A} n (ws : list (nat * A)) : NoDup (map fst ws) -> (forall k x, In (k, x) ws -> (k < n)%nat) ->
  Permutation (contents n ws) (map snd ws).
Proof.
  induction ws as [|[i x] ws IH]; intros N H.
  - unfold contents. cbn. generalize (seq 0 n). intros l. induction l as [|k l IHl]; [constructor|exact IHl].
  - cbn [map fst snd] in *. inversion N as [|? ? N1 N2]; subst.
    specialize (IH N2 (fun k y Hk => H k y (or_intror Hk))).
    rewrite <- IH. unfold contents.
    assert (Hi : In i (seq 0 n)) by (apply in_seq; specialize (H i x (or_introl eq_refl)); lia).
    pose proof (seq_NoDup n 0) as Ns. apply in_split in Hi. destruct Hi as (l1 & l2 & E). rewrite E in *.
    pose proof (NoDup_remove_2 _ _ _ Ns) as Ni. rewrite !flat_map_app. cbn [flat_map].
    assert (Li : last_write ws i = None).
    { apply last_write_none. intros y Hy. apply N1. apply in_map_iff. exists (i, y). split; [reflexivity|exact Hy]. }
    assert (L0 : last_write ((i, x) :: ws) i = Some x) by (cbn [last_write]; rewrite Li, Nat.eqb_refl; reflexivity).
    rewrite L0, Li. cbn [app].
    assert (G : forall l, (forall k, In k l -> k <> i) ->
      flat_map (fun k => match last_write ((i, x) :: ws) k with Some y => [y] | None => [] end) l
      = flat_map (fun k => match last_write ws k with Some y => [y] | None => [] end) l).
    { intros l Hl. apply flat_map_ext_in0. intros k Hk. cbn [last_write]. destruct (last_write ws k); [reflexivity|].
      destruct (Nat.eqb_spec k i); [exfalso; apply (Hl k Hk); assumption|reflexivity]. }
    rewrite G by (intros k Hk ->; apply Ni, in_or_app; left; exact Hk).
    rewrite G by (intros k Hk ->; apply Ni, in_or_app; right; exact Hk).
    symmetry. apply Permutation_middle.
Qed.
(** as long as no slot is drawn twice, every row added is held *)
Theorem reservoir_no_collision {A} (zero : A) n cs r0 :
  make_reservoir n = Ok r0 -> cs <> [] -> (forall c, In c cs -> good_call n c) -> NoDup (flat_map c_indices cs) ->
  exists rows, get (fst (run_calls zero r0 cs)) = Ok rows /\ Permutation rows (flat_map c_rows cs).
Proof.
  intros M Ne G N. rewrite (reservoir_contents zero n cs r0 M Ne) by (intros c Hc i Hi; apply (proj2 (G c Hc)); exact Hi).
  eexists. split; [reflexivity|].
  assert (F : map fst (all_writes n cs) = map Z.to_nat (flat_map c_indices cs) /\ map snd (all_writes n cs) = flat_map c_rows cs).
  { clear - G. unfold all_writes. induction cs as [|c cs IH]; [split; reflexivity|].
    destruct (IH (fun d Hd => G d (or_intror Hd))) as [I1 I2]. cbn [flat_map].
    pose proof (G c (or_introl eq_refl)) as Gc. rewrite (proj2 (good_callb_iff n c) Gc), !map_app, I1, I2.
    assert (Cb : forall (a : list nat) (b : list A), length a = length b -> map fst (combine a b) = a /\ map snd (combine a b) = b).
    { induction a as [|y a IHa]; intros [|z b] L; try discriminate; [split; reflexivity|]. cbn in *.
      destruct (IHa b ltac:(lia)) as [-> ->]. split; reflexivity. }
    unfold c_writes. destruct (Cb (map Z.to_nat (c_indices c)) (c_rows c)) as [-> ->]; [rewrite map_length; apply Gc|split; reflexivity]. }
  destruct F as [F1 F2]. rewrite <- F2. 
  assert (B : forall i, In i (flat_map c_indices cs) -> 0 <= i < n).
  { intros i Hi. apply in_flat_map in Hi. destruct Hi as (c & Hc & Hi). apply (proj2 (G c Hc)). exact Hi. }
  apply contents_all.
  - rewrite F1. clear - N B. induction (flat_map c_indices cs) as [|i l IH]; [constructor|]. inversion N as [|? ? N1 N2]; subst.
    cbn [map]. constructor; [|apply IH; [exact N2|intros j Hj; apply B; right; exact Hj]].
    intros H. apply in_map_iff in H. destruct H as (j & E & Hj). apply N1.
    pose proof (B i (or_introl eq_refl)). pose proof (B j (or_intror Hj)). replace i with j by lia. exact Hj.
  - intros k x Hk. assert (In k (map fst (all_writes n cs))) by (apply in_map_iff; exists (k, x); split; [reflexivity|exact Hk]).
    rewrite F1 in H. apply in_map_iff in H. destruct H as (i & <- & Hi). specialize (B i Hi). lia.
Qed.
(** a batch: [batch] of the rows held, or a refusal *)
Theorem reservoir_batch {A} (zero : A) n cs r0 batch choice :
  make_reservoir n = Ok r0 -> cs <> [] -> (forall c, In c cs -> no_negative c) ->
  let r := fst (run_calls zero r0 cs) in
  let held := contents (Z.to_nat n) (all_writes n cs) in
  Zlen choice = batch -> (forall k, In k choice -> (k < length (slots r))%nat) ->
  res_len r = Zlen held /\
  if Zlen held <? batch then get_batch r batch choice = Raise ValueError
  else exists rows, get_batch r batch choice = Ok rows /\ Zlen rows = batch /\ forall x, In x rows -> In x held.
Proof.
  intros M Ne Nn r held Hb Hc.
  pose proof (reservoir_contents zero n cs r0 M Ne Nn) as Hg. fold r held in Hg.
  unfold make_reservoir in M. destruct (Z.leb_spec n 0); [discriminate|]. injection M as <-.
  assert (I0 : inv zero n [] {| nsamples := n; arr := None; slots := [] |}).
  { unfold inv. cbn. split; [reflexivity|]. split; [constructor|]. split; [|split; [intros k x []|reflexivity]].
    intros i. split; [intros []|intros [_ [x []]]]. }
  destruct (run_inv zero n ltac:(lia) cs [] _ I0 Nn) as (r' & os & E & I & Na).
  unfold r in *. rewrite E in *. cbn [fst] in *. clear E r. specialize (Na (or_introl Ne)). cbn [app] in I.
  destruct I as (B1 & B2 & B3 & B4 & B5). destruct (arr r') as [a|] eqn:Ea; [|contradiction]. destruct B5 as [La Ca].
  assert (Rl : res_len r' = Zlen held).
  { unfold get in Hg. rewrite Ea in Hg. unfold res_len in *. destruct (Z.eqb_spec (Zlen (slots r')) (nsamples r')) as [Ef|Ef].
    - injection Hg as Hg. rewrite <- Hg. lia.
    - apply mapM_length in Hg. unfold Zlen. rewrite Hg. f_equal. symmetry. apply Permutation_length. symmetry. apply zisort_perm. }
  split; [exact Rl|].
  assert (Lh : Zlen held <= n).
  { unfold held, Zlen. pose proof (contents_length (Z.to_nat n) (all_writes n cs)). lia. }
  unfold get_batch. rewrite B1, Rl, Ea. destruct (Z.ltb_spec (Zlen held) batch).
  - destruct (n <? batch); reflexivity.
  - destruct (Z.ltb_spec n batch); [lia|].
    set (f := fun k => match last_write (all_writes n cs) (Z.to_nat (nth k (slots r') 0)) with Some x => x | None => zero end).
    assert (P : forall k, In k choice -> py_get a (nth k (slots r') 0) = Ok (f k) /\ In (f k) held).
    { intros k Hk. assert (Hs : In (nth k (slots r') 0) (slots r')) by (apply nth_In, Hc, Hk).
      apply B3 in Hs. destruct Hs as (H0' & x & Hx). pose proof (B4 _ _ Hx) as Hlt.
      unfold f. destruct (last_write (all_writes n cs) (Z.to_nat (nth k (slots r') 0))) as [y|] eqn:Ey.
      - pose proof (Ca (Z.to_nat (nth k (slots r') 0)) ltac:(lia)) as Cb. rewrite Ey in Cb.
        split; [rewrite <- (py_get_nat _ _ _ Cb); f_equal; lia|].
        unfold held, contents. apply in_flat_map. exists (Z.to_nat (nth k (slots r') 0)). split; [apply in_seq; lia|]. rewrite Ey. left; reflexivity.
      - exfalso. exact (proj1 (last_write_none _ _) Ey x Hx). }
    exists (map f choice). split; [apply mapM_ok; intros k Hk; apply P; exact Hk|].
    split; [unfold Zlen in *; rewrite map_length; exact Hb|].
    intros x Hx. apply in_map_iff in Hx. destruct Hx as (k & <- & Hk). apply P. exact Hk.
Qed.
Example no_collision_example :
  let cs := [{| c_rows := [10; 20]; c_given := None; c_draw := [2; 0] |}; {| c_rows := [40]; c_given := Some [1]; c_draw := [] |}] in
  (forall c, In c cs -> good_call 3 c) /\ NoDup (flat_map (@c_indices Z) cs) /\
  exists r0, make_reservoir 3 = Ok r0 /\ get (fst (run_calls 0 r0 cs)) = Ok [20; 40; 10] /\
    get_batch (fst (run_calls 0 r0 cs)) 2 [1; 1]%nat = Ok [20; 20].
Proof.
  split; [|split].
  - intros c [<-|[<-|[]]]; split; try reflexivity; intros i Hi; cbn in Hi; lia.
  - cbn. repeat constructor; cbn; intuition lia.
  - eexists. split; [reflexivity|]. split; reflexivity.
Qed.
