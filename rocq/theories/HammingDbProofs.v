(** Properties C07, C08, C09. *)
From Verif Require Import PyBase PyFacts Bits BitsProofs HammingDb.
From Coq Require Import Sorting.Permutation Sorting.Sorted.

(** ** Specification *)

(** numpy's documented contract of [np.argpartition(a, k)] (k < len(a)): a
    permutation of the indices in which nothing before position k is greater,
    and nothing after it smaller, than the element at position k. *)
Definition argpartition_contract (f : list N -> nat -> list nat) : Prop :=
  forall (a : list N) k, k < length a ->
    Permutation (f a k) (seq 0 (length a)) /\
    forall i j, i <= k -> k <= j -> j < length a ->
      (nth (nth i (f a k) 0%nat) a 0 <= nth (nth j (f a k) 0%nat) a 0)%N.

(** [np.argsort(a)]: a permutation of the indices that sorts. *)
Definition argsort_contract (f : list N -> list nat) : Prop :=
  forall a : list N,
    Permutation (f a) (seq 0 (length a)) /\
    StronglySorted N.le (map (fun i => nth i a 0%N) (f a)).

(** Number of bit positions at which two byte strings differ. *)
Definition byte_diff (x y : N) : nat :=
  length (filter (fun k => negb (Bool.eqb (N.testbit_nat x k) (N.testbit_nat y k))) (seq 0 8)).
Fixpoint bit_distance (a b : bytes) : nat :=
  match a, b with
  | x :: a', y :: b' => byte_diff x y + bit_distance a' b'
  | _, _ => 0
  end.

Definition well_formed_code (cs : Z) (c : bytes) : Prop :=
  Zlen c = cs /\ Forall (fun b => b < 256)%N c.

(** The database holds well-formed codes under distinct ids. *)
Definition db_ok (cs : Z) (d : db) : Prop :=
  NoDup (map fst (db_entries d)) /\
  Forall (fun kv => (cs <= Zlen (snd kv))%Z /\
                    Forall (fun b => b < 256)%N (firstn (Z.to_nat cs) (snd kv))) (db_entries d).

(** ** popcount of words versus bytes *)
Lemma le_word_bv bs : le_word bs = bv bs.
Proof. induction bs; simpl; [reflexivity|]. rewrite IHbs; reflexivity. Qed.

Lemma popcount_byte_diff x y : (x < 256)%N -> (y < 256)%N ->
  popcount (N.lxor x y) = N.of_nat (byte_diff x y).
Proof.
  intros Hx Hy.
  assert (Hlt : (N.lxor x y < 2 ^ N.of_nat 8)%N).
  { destruct (N.eq_dec (N.lxor x y) 0) as [->|Hne]; [reflexivity|].
    apply N.log2_lt_pow2; [lia|]. pose proof (N.log2_lxor x y).
    assert (Hl : forall v, (v < 256)%N -> (N.log2 v < 8)%N).
    { intros v Hv. destruct (N.eq_dec v 0) as [->|]; [reflexivity|]. apply N.log2_lt_pow2; [lia|exact Hv]. }
    pose proof (Hl x Hx). pose proof (Hl y Hy). simpl. lia. }
  rewrite (popcount_spec 8) by exact Hlt.
  unfold byte_diff. f_equal. f_equal. apply filter_ext. intros k.
  rewrite Ndigits.Nxor_semantics. destruct (N.testbit_nat x k), (N.testbit_nat y k); reflexivity.
Qed.

Lemma lxor_bv a b : length a = length b -> Forall byte a -> Forall byte b ->
  popcount (N.lxor (bv a) (bv b)) = N.of_nat (bit_distance a b).
Proof.
  revert b; induction a as [|x a IH]; intros [|y b] Hl Ha Hb; try discriminate; [reflexivity|].
  inversion Ha; subst. inversion Hb; subst. cbn [bv bit_distance].
  assert (Hx : (N.lxor x y < 256)%N).
  { destruct (N.eq_dec (N.lxor x y) 0) as [->|Hne]; [reflexivity|].
    change 256%N with (2 ^ 8)%N. apply N.log2_lt_pow2; [lia|]. pose proof (N.log2_lxor x y).
    assert (Hll : forall v, (v < 256)%N -> (N.log2 v < 8)%N).
    { intros v Hv. destruct (N.eq_dec v 0) as [->|]; [reflexivity|]. apply N.log2_lt_pow2; [lia|exact Hv]. }
    pose proof (Hll x H1). pose proof (Hll y H3). lia. }
  assert (E : N.lxor (x + 256 * bv a) (y + 256 * bv b)
              = (N.lxor x y + 256 * N.lxor (bv a) (bv b))%N).
  { assert (Hj : forall l h, (l < 256)%N -> (l + 256 * h)%N = N.lxor l (N.shiftl h 8)).
    { intros l h Hlo. rewrite N.shiftl_mul_pow2. change (2 ^ 8)%N with 256%N.
      rewrite (N.mul_comm 256). apply N.add_nocarry_lxor.
      apply N.bits_inj_0. intros n. rewrite N.land_spec. change 256%N with (2 ^ 8)%N.
      destruct (N.lt_ge_cases n 8).
      - rewrite N.mul_pow2_bits_low by assumption. apply andb_false_r.
      - destruct (N.eq_dec l 0) as [->|Hne]; [rewrite N.bits_0; reflexivity|].
        rewrite (N.bits_above_log2 l); [reflexivity|].
        assert (N.log2 l < 8)%N by (apply N.log2_lt_pow2; [lia|exact Hlo]). lia. }
    rewrite !Hj by assumption. rewrite N.shiftl_lxor.
    apply N.bits_inj. intros n. rewrite !N.lxor_spec.
    destruct (N.testbit x n), (N.testbit y n), (N.testbit (N.shiftl (bv a) 8) n),
      (N.testbit (N.shiftl (bv b) 8) n); reflexivity. }
  rewrite E. change 256%N with (2 ^ N.of_nat 8)%N. rewrite popcount_double_add by exact Hx.
  rewrite popcount_byte_diff by assumption. rewrite IH by (try assumption; simpl in Hl; lia). lia.
Qed.

Lemma bit_distance_split k a b :
  length a = length b ->
  bit_distance a b = bit_distance (firstn k a) (firstn k b) + bit_distance (skipn k a) (skipn k b).
Proof.
  revert a b; induction k as [|k IH]; intros a b Hl; [reflexivity|].
  destruct a as [|x a], b as [|y b]; try discriminate; [reflexivity|]. cbn [firstn skipn bit_distance].
  rewrite (IH a b) by (simpl in Hl; lia). lia.
Qed.

Lemma words_u64 n bs : Forall byte bs -> Forall is_u64 (words n bs).
Proof.
  revert bs; induction n as [|n IH]; intros bs H; cbn [words]; constructor.
  - rewrite le_word_bv. unfold is_u64.
    assert (Hb : Forall byte (firstn 8 bs)).
    { apply Forall_forall. intros x Hx. rewrite Forall_forall in H. apply H.
      eapply firstn_In; exact Hx. }
    pose proof (bv_bound _ Hb) as Hlt. eapply N.lt_le_trans; [exact Hlt|].
    change (2 ^ 64)%N with (256 ^ 8)%N. apply N.pow_le_mono_r; [lia|].
    rewrite firstn_length. lia.
  - apply IH. apply Forall_forall. intros x Hx. rewrite Forall_forall in H. apply H.
    eapply skipn_In; exact Hx.
Qed.

Lemma words_distance n a b : length a = 8 * n -> length b = 8 * n ->
  Forall byte a -> Forall byte b ->
  code_distance (words n a) (words n b) = bit_distance a b.
Proof.
  revert a b; induction n as [|n IH]; intros a b Hla Hlb Ha Hb.
  - destruct a; [|discriminate]. reflexivity.
  - cbn [words code_distance]. rewrite (bit_distance_split 8 a b) by lia.
    assert (Hf : forall k (l : list N), Forall byte l -> Forall byte (firstn k l) /\ Forall byte (skipn k l)).
    { intros k l Hl. split; apply Forall_forall; intros x Hx; rewrite Forall_forall in Hl; apply Hl;
        [eapply firstn_In|eapply skipn_In]; exact Hx. }
    destruct (Hf 8 a Ha), (Hf 8 b Hb).
    rewrite IH by (rewrite ?skipn_length; try lia; assumption). f_equal.
    apply Nat2N.inj. rewrite <- popcount_lxor.
    + rewrite !le_word_bv. apply lxor_bv; try assumption. rewrite !firstn_length. lia.
    + pose proof (words_u64 1 a Ha) as Hw. cbn [words] in Hw. inversion Hw; assumption.
    + pose proof (words_u64 1 b Hb) as Hw. cbn [words] in Hw. inversion Hw; assumption.
Qed.

Lemma words_length n bs : length (words n bs) = n.
Proof. revert bs; induction n; intros bs; simpl; [reflexivity|]. rewrite IHn; reflexivity. Qed.

(** ** C08: chunked scores *)
Lemma chunks_concat {A B} (f : A -> B) (l : list A) (cs : nat) : 1 <= cs ->
  concat (map (fun i => map f (firstn cs (skipn i l))) (chunk_starts (length l) cs)) = map f l.
Proof.
  intros Hcs. unfold chunk_starts. rewrite map_map.
  remember ((length l + cs - 1) / cs) as m eqn:Hm.
  assert (Hge : length l <= m * cs).
  { subst m. pose proof (Nat.div_mod (length l + cs - 1) cs ltac:(lia)).
    pose proof (Nat.mod_upper_bound (length l + cs - 1) cs ltac:(lia)). nia. }
  clear Hm. revert l Hge. induction m as [|m IH]; intros l Hge.
  - assert (l = []) by (destruct l; [reflexivity|simpl in Hge; lia]). subst. reflexivity.
  - cbn [seq map concat]. rewrite <- seq_shift, map_map. simpl (0 * cs). cbn [skipn].
    rewrite (map_ext _ (fun i => map f (firstn cs (skipn (i * cs) (skipn cs l))))).
    + rewrite IH by (rewrite skipn_length; lia).
      rewrite <- map_app, firstn_skipn. reflexivity.
    + intros i. rewrite skipn_skipn'. reflexivity.
Qed.

Lemma scores_threads query codes t : 1 <= t -> codes <> [] ->
  scores query codes (Some t) = scores query codes None.
Proof.
  intros Ht Hne. unfold scores.
  set (cs := Nat.max 1 (length codes / t)).
  assert (Hcs : 1 <= cs) by (unfold cs; lia).
  destruct (map _ (chunk_starts (length codes) cs)) as [|x parts] eqn:E.
  - exfalso. unfold chunk_starts in E. rewrite map_map in E.
    assert (Hpos : 1 <= (length codes + cs - 1) / cs).
    { apply Nat.div_le_lower_bound; [lia|]. destruct codes; [congruence|]. simpl length. lia. }
    destruct ((length codes + cs - 1) / cs); [lia|]. discriminate.
  - rewrite <- E. f_equal. unfold packed_hamming_distance, count_packed_bits.
    set (g := fun row : list N => fold_left (fun z w => u64 (z + popcount w)) row 0%N).
    rewrite map_map.
    rewrite (map_ext _ (fun i => map (fun c => g (xor_row query c)) (firstn cs (skipn i codes)))).
    + apply (chunks_concat (fun c => g (xor_row query c)) codes cs Hcs).
    + intros i. rewrite map_map. reflexivity.
Qed.

Section Threads.
  Variable argpartition : list N -> nat -> list nat.
  Variable argsort : list N -> list nat.
  Lemma search_threads p d code n t sort : 1 <= t ->
    search argpartition argsort p d code n (Some t) sort
    = search argpartition argsort p d code n None sort.
  Proof.
    intros Ht. unfold search. destruct (p_writeonly p); [reflexivity|].
    destruct (validate_code_size p code); [|reflexivity]. cbv zeta.
    destruct (map (fun kc => np_code (check_external p d) (snd kc)) (p_codes (check_external p d)))
      as [|c cs] eqn:E.
    - cbn. rewrite ?Nat.div_0_l by lia. reflexivity.
    - rewrite scores_threads by (try assumption; discriminate). reflexivity.
  Qed.
End Threads.

(** ** C09: the invariant *)
Definition code_of (cs : Z) (kv : id * bytes) : id * bytes :=
  (fst kv, firstn (Z.to_nat cs) (snd kv)).

(** in-memory entries are distinct and all come from the database *)
Definition PInv (p : proc) (d : db) : Prop :=
  NoDup (map fst (p_codes p)) /\
  (forall k, In k (p_ids p) <-> In k (map fst (p_codes p))) /\
  incl (p_codes p) (map (code_of (p_code_size p)) (db_entries d)).

Lemma mem_id_spec k l : mem_id k l = true <-> In k l.
Proof.
  unfold mem_id. rewrite existsb_exists. split.
  - intros [x [Hx He]]. apply N.eqb_eq in He. subst; exact Hx.
  - intros H. exists k. split; [exact H|apply N.eqb_refl].
Qed.

Lemma add_code_props p k c : p_writeonly p = false ->
  p_codes (add_code p k c) = p_codes p ++ [(k, c)] /\ p_ids (add_code p k c) = k :: p_ids p
  /\ p_code_size (add_code p k c) = p_code_size p /\ p_writeonly (add_code p k c) = false.
Proof. intros H. unfold add_code. rewrite H. repeat split. Qed.

Lemma NoDup_map_fst_in {A B} (l : list (A * B)) k v1 v2 :
  NoDup (map fst l) -> In (k, v1) l -> In (k, v2) l -> v1 = v2.
Proof.
  induction l as [|[k' v'] l IH]; simpl; intros Hn H1 H2; [contradiction|].
  inversion Hn; subst.
  destruct H1 as [H1|H1], H2 as [H2|H2].
  - congruence.
  - inversion H1; subst. exfalso. apply H3. change k with (fst (k, v2)). apply in_map. exact H2.
  - inversion H2; subst. exfalso. apply H3. change k with (fst (k, v1)). apply in_map. exact H1.
  - eapply IH; eassumption.
Qed.

(** catching up makes the in-memory store a permutation of the database *)
Lemma catch_up_perm p d cs :
  p_writeonly p = false -> p_code_size p = cs -> PInv p d -> NoDup (map fst (db_entries d)) ->
  let p' := catch_up p d in
  p_writeonly p' = false /\ p_code_size p' = cs /\
  (forall k, In k (p_ids p') <-> In k (map fst (p_codes p'))) /\
  Permutation (p_codes p') (map (code_of cs) (db_entries d)).
Proof.
  intros Hw Hcs [Hn [Hids Hincl]] Hnd. cbv zeta. unfold catch_up.
  (* generalise over the remaining entries *)
  assert (Hgen : forall rest p,
    p_writeonly p = false -> p_code_size p = cs ->
    NoDup (map fst (p_codes p)) ->
    (forall k, In k (p_ids p) <-> In k (map fst (p_codes p))) ->
    NoDup (map fst rest) ->
    (forall k, In k (map fst rest) -> In k (map fst (p_codes p)) ->
        exists v, In (k, v) rest /\ In (code_of cs (k, v)) (p_codes p)) ->
    let p' := fold_left (fun p kv => if mem_id (fst kv) (p_ids p) then p
                         else add_code p (fst kv) (firstn (Z.to_nat (p_code_size p)) (snd kv))) rest p in
    p_writeonly p' = false /\ p_code_size p' = cs /\ NoDup (map fst (p_codes p')) /\
    (forall k, In k (p_ids p') <-> In k (map fst (p_codes p'))) /\
    (forall x, In x (p_codes p') <-> In x (p_codes p) \/ In x (map (code_of cs) rest))).
  { clear. intros rest. induction rest as [|[k v] rest IH]; intros p Hw Hcs Hn Hids Hnr Hcons; cbv zeta.
    - cbn [fold_left map]. refine (conj Hw (conj Hcs (conj Hn (conj Hids _)))). intros x; simpl; tauto.
    - cbn [fold_left fst snd]. inversion Hnr as [|? ? Hk Hnr']; subst.
      destruct (mem_id k (p_ids p)) eqn:Em.
      + apply mem_id_spec in Em. apply Hids in Em.
        specialize (IH p Hw eq_refl Hn Hids Hnr').
        destruct IH as [I1 [I2 [I3 [I4 I5]]]].
        { intros k' Hk' Hin. destruct (Hcons k') as [v' [Hv1 Hv2]]; [right; exact Hk'|exact Hin|].
          exists v'. split; [|exact Hv2]. destruct Hv1 as [E|Hv1]; [|exact Hv1].
          inversion E; subst. contradiction. }
        refine (conj I1 (conj I2 (conj I3 (conj I4 _)))). intros x; split.
        * intros Hx. apply I5 in Hx. destruct Hx as [Hx|Hx]; [left; exact Hx|right; right; exact Hx].
        * intros [Hx|[Hx|Hx]]; apply I5; [left; exact Hx| |right; exact Hx].
          left. destruct (Hcons k) as [v' [Hv1 Hv2]]; [left; reflexivity|exact Em|].
          destruct Hv1 as [E|Hv1].
          -- inversion E; subst. exact Hv2.
          -- exfalso. apply Hk. change k with (fst (k, v')). apply in_map. exact Hv1.
      + destruct (add_code_props p k (firstn (Z.to_nat (p_code_size p)) v) Hw) as [A1 [A2 [A3 A4]]].
        set (p1 := add_code p k (firstn (Z.to_nat (p_code_size p)) v)) in *.
        assert (Hnk : ~ In k (map fst (p_codes p))).
        { intros Hin. apply Hids in Hin. apply mem_id_spec in Hin. congruence. }
        specialize (IH p1 A4 A3).
        rewrite A1, A2, map_app in IH. cbn [map fst] in IH.
        destruct IH as [I1 [I2 [I3 [I4 I5]]]].
        { apply NoDup_rev in Hn. rewrite <- (rev_involutive (_ ++ _)), rev_app_distr. apply NoDup_rev.
          simpl. constructor; [|exact Hn]. intros Hin. apply Hnk. apply in_rev. exact Hin. }
        { intros k'. rewrite in_app_iff. simpl. rewrite Hids. tauto. }
        { exact Hnr'. }
        { intros k' Hk' Hin. apply in_app_iff in Hin. destruct Hin as [Hin|[Hin|[]]].
          - destruct (Hcons k') as [v' [Hv1 Hv2]]; [right; exact Hk'|exact Hin|].
            exists v'. split; [|apply in_or_app; left; exact Hv2].
            destruct Hv1 as [E|Hv1]; [|exact Hv1]. inversion E; subst. contradiction.
          - simpl in Hin. subst k'. contradiction. }
        refine (conj I1 (conj I2 (conj I3 (conj I4 _)))). intros x; split.
        * intros Hx. apply I5 in Hx. rewrite in_app_iff in Hx. simpl in Hx. simpl.
          unfold code_of at 1. simpl. tauto.
        * intros Hx. apply I5. rewrite in_app_iff. simpl in *. unfold code_of at 1 in Hx. simpl in Hx. tauto. }
  specialize (Hgen (db_entries d) p Hw Hcs Hn Hids Hnd).
  destruct Hgen as [G1 [G2 [G3 [G4 G5]]]].
  { intros k Hk Hin. apply in_map_iff in Hin. destruct Hin as [[k' c] [E Hin]]. simpl in E; subst k'.
    apply Hincl in Hin as Hin2. apply in_map_iff in Hin2. destruct Hin2 as [[k2 v] [E2 Hv]].
    unfold code_of in E2. simpl in E2. inversion E2; subst. exists v. split; [exact Hv|].
    unfold code_of. simpl. exact Hin. }
  split; [exact G1|]. split; [exact G2|]. split; [exact G4|].
  apply NoDup_Permutation.
  - eapply NoDup_map_inv; exact G3.
  - eapply (NoDup_map_inv fst). rewrite map_map. simpl. exact Hnd.
  - intros x. rewrite G5. split; [|tauto]. intros [H|H]; [|exact H].
    rewrite <- Hcs. apply Hincl. exact H.
Qed.

Lemma check_external_perm p d cs :
  p_writeonly p = false -> p_code_size p = cs -> PInv p d -> NoDup (map fst (db_entries d)) ->
  let p' := check_external p d in
  p_writeonly p' = false /\ p_code_size p' = cs /\ PInv p' d /\
  Permutation (p_codes p') (map (code_of cs) (db_entries d)).
Proof.
  intros Hw Hcs HI Hnd. cbv zeta. unfold check_external.
  destruct (Nat.eqb_spec (length (db_entries d)) (length (p_codes p))) as [He|Hne].
  - split; [exact Hw|]. split; [exact Hcs|]. split; [exact HI|].
    destruct HI as [Hn [_ Hincl]]. rewrite Hcs in Hincl.
    apply NoDup_Permutation_bis; [eapply NoDup_map_inv; exact Hn| |exact Hincl].
    rewrite map_length. lia.
  - destruct (catch_up_perm p d cs Hw Hcs HI Hnd) as [H1 [H2 [H3 H4]]].
    split; [exact H1|]. split; [exact H2|]. split; [|exact H4].
    split; [|split; [exact H3|]].
    + eapply Permutation_NoDup; [apply Permutation_map, Permutation_sym; exact H4|].
      rewrite map_map. simpl. exact Hnd.
    + intros x Hx. rewrite H2. eapply Permutation_in; [exact H4|exact Hx].
Qed.

(** put with a fresh key *)
Lemma put_In k v es x : ~ In k (map fst es) -> (In x (put k v es) <-> x = (k, v) \/ In x es).
Proof.
  induction es as [|[k' v'] es IH]; intros Hk; cbn [put].
  - simpl. intuition congruence.
  - simpl in Hk. destruct (N.ltb_spec k k'); [simpl; intuition congruence|].
    destruct (N.eqb_spec k k') as [->|]; [exfalso; apply Hk; left; reflexivity|].
    simpl. rewrite IH by tauto. intuition congruence.
Qed.
Lemma put_fst k v es : ~ In k (map fst es) -> Permutation (k :: map fst es) (map fst (put k v es)).
Proof.
  induction es as [|[k' v'] es IH]; intros Hk; cbn [put]; [reflexivity|].
  simpl in Hk. destruct (N.ltb k k'); [reflexivity|].
  destruct (N.eqb_spec k k') as [->|]; [exfalso; apply Hk; left; reflexivity|].
  simpl. rewrite perm_swap. constructor. apply IH. tauto.
Qed.
Lemma get_In k v es : NoDup (map fst es) -> In (k, v) es -> get k es = Some v.
Proof.
  induction es as [|[k' v'] es IH]; intros Hn Hin; [contradiction|]. cbn [get].
  inversion Hn; subst. destruct Hin as [E|Hin].
  - inversion E; subst. rewrite N.eqb_refl. reflexivity.
  - destruct (N.eqb_spec k k') as [->|]; [|apply IH; assumption].
    exfalso. apply H1. change k' with (fst (k', v)). apply in_map. exact Hin.
Qed.

(** ** Histories of one process and the outside world *)
Inductive event :=
| OwnAppend (k : id) (code data : bytes) (fate : txn_fate)
| ExternalAppend (k : id) (code data : bytes)
| Search (code : bytes) (n : nat) (threads : option nat) (sort : bool)
| Reopen (code_size : option Z).

Section History.
  Variable argpartition : list N -> nat -> list nat.
  Variable argsort : list N -> list nat.

  (** One event.  Another process appends through the same code, i.e. only
      well-formed codes are committed. *)
  Definition do_event (p : proc) (d : db) (e : event) : proc * db :=
    match e with
    | OwnAppend k code data f => let '(_, p', d') := append p d k code data f in (p', d')
    | ExternalAppend k code data =>
        if (Zlen code =? p_code_size p)%Z
        then (p, {| db_codesize := db_codesize d; db_entries := put k (code ++ data) (db_entries d) |})
        else (p, d)
    | Search code n t s => (snd (search argpartition argsort p d code n t s), d)
    | Reopen cs => match open_db d cs (p_writeonly p) with
                   | Ok (p', d') => (p', d')
                   | Raise _ => (p, d)
                   end
    end.

  (** ids are fresh (128 random bits), and transactions are all-or-nothing for
      the caller too: a failed one failed at [put]. *)
  Definition event_ok (d : db) (e : event) : Prop :=
    match e with
    | OwnAppend k code _ f => ~ In k (map fst (db_entries d)) /\ f <> CommitFails
                              /\ Forall (fun b => b < 256)%N code
    | ExternalAppend k code _ => ~ In k (map fst (db_entries d)) /\ Forall (fun b => b < 256)%N code
    | _ => True
    end.

  Inductive history : proc -> db -> list event -> proc -> db -> Prop :=
  | h_nil : forall p d, history p d [] p d
  | h_cons : forall p d e p1 d1 es p2 d2,
      event_ok d e -> do_event p d e = (p1, d1) -> history p1 d1 es p2 d2 ->
      history p d (e :: es) p2 d2.

  Definition good (cs : Z) (p : proc) (d : db) : Prop :=
    p_writeonly p = false /\ p_code_size p = cs /\ db_codesize d = Some cs /\ db_ok cs d /\ PInv p d.

  Lemma put_ok cs d k code data :
    db_ok cs d -> ~ In k (map fst (db_entries d)) -> Zlen code = cs -> Forall (fun b => b < 256)%N code ->
    db_ok cs {| db_codesize := db_codesize d; db_entries := put k (code ++ data) (db_entries d) |}.
  Proof.
    intros [Hn Hf] Hk Hl Hb. split; cbn [db_entries].
    - eapply Permutation_NoDup; [apply put_fst; exact Hk|]. constructor; assumption.
    - rewrite Forall_forall in *. intros x Hx. apply put_In in Hx; [|exact Hk].
      destruct Hx as [->|Hx]; [|apply Hf; exact Hx]. cbn [snd]. split.
      + rewrite Zlen_app. pose proof (Zlen_nonneg data). lia.
      + unfold Zlen in Hl. rewrite firstn_app. replace (Z.to_nat cs - length code) with 0 by lia.
        rewrite firstn_all2 by lia. simpl. rewrite app_nil_r. apply Forall_forall. exact Hb.
  Qed.

  Lemma firstn_code (code data : bytes) cs : Zlen code = cs ->
    firstn (Z.to_nat cs) (code ++ data) = code.
  Proof.
    intros Hl. unfold Zlen in Hl. rewrite firstn_app. replace (Z.to_nat cs - length code) with 0 by lia.
    rewrite firstn_all2 by lia. simpl. apply app_nil_r.
  Qed.

  Lemma event_good cs p d e p1 d1 :
    good cs p d -> event_ok d e -> do_event p d e = (p1, d1) ->
    good cs p1 d1 /\ incl (db_entries d) (db_entries d1).
  Proof.
    intros Hgood Hok He. pose proof Hgood as [Hw [Hcs [Hdc [Hdb HI]]]]. destruct e as [k code data f|k code data|code n t s|cs'];
      cbn [do_event event_ok] in *.
    - destruct Hok as [Hk [Hf Hb]]. unfold append, validate_code_size in He.
      destruct (Z.eqb_spec (Zlen code) (p_code_size p)) as [Hl|Hl].
      + destruct f; [|inversion He; subst; split; [exact Hgood|intros x Hx; exact Hx]|congruence].
        inversion He; subst p1 d1; clear He.
        destruct (add_code_props p k code Hw) as [A1 [A2 [A3 A4]]].
        split.
        * split; [exact A4|]. split; [congruence|]. split; [exact Hdc|].
          split; [apply put_ok; try assumption; congruence|].
          destruct HI as [Hn [Hids Hincl]].
          assert (Hnk : ~ In k (map fst (p_codes p))).
          { intros Hin. apply Hk. apply in_map_iff in Hin. destruct Hin as [[k' c] [E Hin]].
            simpl in E; subst k'. apply Hincl in Hin. apply in_map_iff in Hin.
            destruct Hin as [[k2 v] [E2 Hv]]. unfold code_of in E2. inversion E2; subst.
            change k with (fst (k, v)). apply in_map. exact Hv. }
          split; [|split].
          -- rewrite A1, map_app. simpl. apply NoDup_rev in Hn.
             rewrite <- (rev_involutive (_ ++ _)), rev_app_distr. apply NoDup_rev.
             simpl. constructor; [|exact Hn]. intros Hin. apply Hnk. apply in_rev. exact Hin.
          -- intros k'. rewrite A1, A2, map_app, in_app_iff. simpl. rewrite Hids. tauto.
          -- rewrite A1, A3. intros x Hx. apply in_app_iff in Hx. apply in_map_iff. cbn [db_entries].
             destruct Hx as [Hx|[<-|[]]].
             ++ apply Hincl in Hx. apply in_map_iff in Hx. destruct Hx as [y [E Hy]].
                exists y. split; [exact E|]. apply put_In; [exact Hk|]. right; exact Hy.
             ++ exists (k, code ++ data). split.
                ** unfold code_of. simpl. rewrite firstn_code by exact Hl. reflexivity.
                ** apply put_In; [exact Hk|]. left; reflexivity.
        * intros x Hx. cbn [db_entries]. apply put_In; [exact Hk|]. right; exact Hx.
      + inversion He; subst. split; [exact Hgood|].
        intros x Hx; exact Hx.
    - destruct Hok as [Hk Hb]. destruct (Z.eqb_spec (Zlen code) (p_code_size p)) as [Hl|Hl].
      + inversion He; subst p1 d1; clear He. split.
        * split; [exact Hw|]. split; [exact Hcs|]. split; [exact Hdc|].
          split; [apply put_ok; try assumption; congruence|].
          destruct HI as [Hn [Hids Hincl]]. split; [exact Hn|]. split; [exact Hids|].
          intros x Hx. apply Hincl in Hx. apply in_map_iff in Hx. destruct Hx as [y [E Hy]].
          apply in_map_iff. exists y. split; [exact E|]. cbn [db_entries]. apply put_In; [exact Hk|]. right; exact Hy.
        * intros x Hx. cbn [db_entries]. apply put_In; [exact Hk|]. right; exact Hx.
      + inversion He; subst. split; [exact Hgood|].
        intros x Hx; exact Hx.
    - assert (Hp1 : p1 = snd (search argpartition argsort p d code n t s)) by congruence.
      assert (Hd1 : d1 = d) by congruence. subst d1. split; [|intros x Hx; exact Hx]. clear He.
      unfold search in Hp1. rewrite Hw in Hp1. unfold validate_code_size in Hp1.
      destruct (Z.eqb_spec (Zlen code) (p_code_size p)) as [Hl|Hl]; cbn [snd] in Hp1; subst p1.
      + destruct (check_external_perm p d cs Hw Hcs HI (proj1 Hdb)) as [C1 [C2 [C3 _]]].
        exact (conj C1 (conj C2 (conj Hdc (conj Hdb C3)))).
      + exact Hgood.
    - unfold open_db in He. rewrite Hdc in He.
      assert (Hstart : good cs (catch_up {| p_code_size := cs; p_writeonly := p_writeonly p;
                                            p_codes := []; p_ids := [] |} d) d).
      { rewrite Hw. set (p0 := {| p_code_size := cs; p_writeonly := false; p_codes := []; p_ids := [] |}).
        assert (HI0 : PInv p0 d).
        { split; [constructor|]. split; [intros k; simpl; tauto|]. intros x []. }
        destruct (catch_up_perm p0 d cs eq_refl eq_refl HI0 (proj1 Hdb)) as [C1 [C2 [C3 C4]]].
        split; [exact C1|]. split; [exact C2|]. split; [exact Hdc|]. split; [exact Hdb|].
        split; [|split; [exact C3|]].
        - eapply Permutation_NoDup; [apply Permutation_map, Permutation_sym; exact C4|].
          rewrite map_map. simpl. apply Hdb.
        - intros x Hx. rewrite C2. eapply Permutation_in; [exact C4|exact Hx]. }
      assert (Hsame : good cs p d) by exact Hgood.
      destruct cs' as [a|].
      + destruct (negb (a =? 0)%Z && negb (a =? cs)%Z); inversion He; subst; split;
          try assumption; intros x Hx; exact Hx.
      + inversion He; subst. split; [assumption|]. intros x Hx; exact Hx.
  Qed.

  Lemma history_good cs p d es p' d' :
    history p d es p' d' -> good cs p d ->
    good cs p' d' /\ incl (db_entries d) (db_entries d').
  Proof.
    induction 1 as [p d|p d e p1 d1 es p2 d2 Hok He Hh IH]; intros Hg.
    - split; [exact Hg|]. intros x Hx; exact Hx.
    - destruct (event_good _ _ _ _ _ _ Hg Hok He) as [Hg1 Hi1].
      destruct (IH Hg1) as [Hg2 Hi2]. split; [exact Hg2|].
      intros x Hx. apply Hi2, Hi1, Hx.
  Qed.

  (** ** C07 *)
  Hypothesis Hpart : argpartition_contract argpartition.
  Hypothesis Hsort : argsort_contract argsort.

  Lemma take_ok {A} (l : list A) idx (def : A) : Forall (fun i => i < length l) idx ->
    take l idx = Some (map (fun i => nth i l def) idx).
  Proof.
    intros H. unfold take. apply sequence_map_some. intros i Hi.
    rewrite Forall_forall in H. apply nth_error_nth'. apply H. exact Hi.
  Qed.

  Lemma nth_perm_seq (l : list nat) n : Permutation l (seq 0 n) -> Forall (fun i => i < n) l /\ NoDup l /\ length l = n.
  Proof.
    intros H. split; [|split].
    - apply Forall_forall. intros x Hx. eapply Permutation_in in Hx; [|exact H]. apply in_seq in Hx. lia.
    - eapply Permutation_NoDup; [apply Permutation_sym; exact H|]. apply seq_NoDup.
    - rewrite (Permutation_length H). apply seq_length.
  Qed.

  (** choosing n of the rows: selection by index, first all the chosen ones *)
  Lemma selection_spec (sc : list N) n (sort : bool) :
    n < length sc ->
    exists idx,
      (if sort
       then match take sc (firstn n (argpartition sc n)) with
            | None => None
            | Some sub => take (firstn n (argpartition sc n)) (argsort sub)
            end
       else Some (firstn n (argpartition sc n))) = Some idx
      /\ length idx = n /\ NoDup idx /\ Forall (fun i => i < length sc) idx
      /\ (forall i j, In i idx -> j < length sc -> ~ In j idx -> (nth i sc 0 <= nth j sc 0)%N)
      /\ (sort = true -> StronglySorted N.le (map (fun i => nth i sc 0%N) idx)).
  Proof.
    intros Hn. destruct (Hpart sc n Hn) as [Hp Hle].
    set (perm := argpartition sc n) in *.
    destruct (nth_perm_seq _ _ Hp) as [Hb [Hnd Hlen]].
    set (part := firstn n perm).
    assert (Hpb : Forall (fun i => i < length sc) part).
    { apply Forall_forall. intros x Hx. rewrite Forall_forall in Hb. apply Hb. eapply firstn_In; exact Hx. }
    assert (Hpn : NoDup part).
    { unfold part. rewrite <- (firstn_skipn n perm) in Hnd. clear -Hnd.
      induction (firstn n perm) as [|x l IH]; [constructor|]. simpl in Hnd. inversion Hnd; subst.
      constructor; [|apply IH; assumption]. intros H. apply H1. apply in_or_app. left; exact H. }
    assert (Hpl : length part = n) by (unfold part; rewrite firstn_length; lia).
    assert (Hdom : forall i j, In i part -> j < length sc -> ~ In j part -> (nth i sc 0 <= nth j sc 0)%N).
    { intros i j Hi Hj Hnj.
      assert (Hjp : In j perm).
      { eapply Permutation_in; [apply Permutation_sym; exact Hp|]. apply in_seq. lia. }
      apply In_nth with (d := 0) in Hi. destruct Hi as [a [Ha Ea]].
      apply In_nth with (d := 0) in Hjp. destruct Hjp as [b [Hb' Eb]].
      rewrite Hpl in Ha.
      assert (Hbn : n <= b).
      { destruct (Nat.le_gt_cases n b) as [|Hlt]; [assumption|]. exfalso. apply Hnj.
        rewrite <- Eb. unfold part. rewrite <- (firstn_skipn n perm) at 1.
        rewrite app_nth1 by (fold part; lia). apply nth_In. fold part. lia. }
      assert (Ea' : nth a perm 0 = i).
      { rewrite <- Ea. unfold part. rewrite <- (firstn_skipn n perm) at 1.
        rewrite app_nth1 by (fold part; lia). reflexivity. }
      rewrite <- Ea', <- Eb. apply Hle; lia. }
    destruct sort.
    - rewrite (take_ok sc part 0%N Hpb).
      destruct (Hsort (map (fun i => nth i sc 0%N) part)) as [Hs1 Hs2].
      set (perm2 := argsort _) in *. rewrite map_length, Hpl in Hs1.
      destruct (nth_perm_seq _ _ Hs1) as [Hb2 [Hnd2 Hlen2]].
      rewrite (take_ok part perm2 0) by (rewrite Hpl; exact Hb2).
      assert (Hpp : Permutation (map (fun i => nth i part 0) perm2) part).
      { etransitivity; [apply Permutation_map; exact Hs1|].
        rewrite <- Hpl. clear.
        assert (E : map (fun i => nth i part 0) (seq 0 (length part)) = part).
        { clear. induction part as [|x l IH]; [reflexivity|]. cbn [length seq map nth]. f_equal.
          rewrite <- seq_shift, map_map. exact IH. }
        rewrite E. reflexivity. }
      eexists. split; [reflexivity|]. split; [rewrite map_length; exact Hlen2|].
      split; [eapply Permutation_NoDup; [apply Permutation_sym; exact Hpp|exact Hpn]|].
      split.
      { apply Forall_forall. intros x Hx. rewrite Forall_forall in Hpb. apply Hpb.
        eapply Permutation_in; [exact Hpp|exact Hx]. }
      split.
      { intros i j Hi Hj Hnj. apply Hdom; [eapply Permutation_in; [exact Hpp|exact Hi]|exact Hj|].
        intros H. apply Hnj. eapply Permutation_in; [apply Permutation_sym; exact Hpp|exact H]. }
      intros _. rewrite map_map.
      rewrite (map_ext_in _ (fun i => nth i (map (fun i0 => nth i0 sc 0%N) part) 0%N)); [exact Hs2|].
      intros i Hi. rewrite Forall_forall in Hb2. specialize (Hb2 i Hi).
      rewrite (nth_indep (map _ part) 0%N (nth 0 sc 0%N)) by (rewrite map_length; lia).
      rewrite (map_nth (fun i0 => nth i0 sc 0%N)). reflexivity.
    - exists part. repeat split; auto. discriminate.
  Qed.

  Lemma map_nth_default {A B} (f : A -> B) l i d d' : i < length l -> nth i (map f l) d' = f (nth i l d).
  Proof. intros H. rewrite (nth_indep _ d' (f d)) by (rewrite map_length; exact H). apply map_nth. Qed.

  Lemma search_main cs p d code n threads sort :
    good cs p d -> (0 <= cs < 2 ^ 60)%Z -> (cs mod 8 = 0)%Z -> well_formed_code cs code ->
    match threads with Some t => 1 <= t | None => True end ->
    n < length (db_entries d) ->
    exists hits,
      fst (search argpartition argsort p d code n threads sort)
        = Ok (map (fun kv => skipn (Z.to_nat cs) (snd kv)) hits)
      /\ length hits = n /\ NoDup (map fst hits) /\ incl hits (db_entries d)
      /\ (forall h o, In h hits -> In o (db_entries d) -> ~ In o hits ->
           bit_distance code (firstn (Z.to_nat cs) (snd h))
           <= bit_distance code (firstn (Z.to_nat cs) (snd o)))
      /\ (sort = true -> StronglySorted le
            (map (fun h => bit_distance code (firstn (Z.to_nat cs) (snd h))) hits)).
  Proof.
    intros [Hw [Hcs [Hdc [Hdb HI]]]] Hcs60 Hcs8 [Hcl Hcb] Ht Hn.
    assert (Hsw : search argpartition argsort p d code n threads sort
                  = search argpartition argsort p d code n None sort).
    { destruct threads as [t|]; [apply search_threads; exact Ht|reflexivity]. }
    rewrite Hsw. clear Hsw Ht.
    unfold search. rewrite Hw. unfold validate_code_size. rewrite Hcs, Hcl, Z.eqb_refl. cbv zeta. cbn [fst].
    destruct (check_external_perm p d cs Hw Hcs HI (proj1 Hdb)) as [Hw' [Hcs' [HI' Hperm]]].
    set (p' := check_external p d) in *.
    unfold scores.
    assert (Hsc : packed_hamming_distance (np_code p' code)
                    (map (fun kc => np_code p' (snd kc)) (p_codes p'))
                  = map (fun kc => N.of_nat (bit_distance code (snd kc))) (p_codes p')).
    { assert (Hwf : forall kc, In kc (p_codes p') -> length (snd kc) = Z.to_nat cs /\ Forall byte (snd kc)).
      { intros kc Hkc. eapply Permutation_in in Hkc; [|exact Hperm].
        apply in_map_iff in Hkc. destruct Hkc as [kv [<- Hkv]]. cbn [code_of snd].
        destruct Hdb as [_ Hf]. rewrite Forall_forall in Hf. destruct (Hf kv Hkv) as [Hf1 Hf2].
        split; [|exact Hf2]. unfold Zlen in Hf1. rewrite firstn_length. unfold bytes, id in *. lia. }
      unfold np_code. rewrite Hcs'.
      assert (Hlen8 : Z.to_nat cs = 8 * Z.to_nat (cs / 8)) by (Z.div_mod_to_equations; lia).
      unfold Zlen in Hcl.
      rewrite packed_main.
      - rewrite map_map. apply map_ext_in. intros kc Hkc. destruct (Hwf kc Hkc) as [H1 H2].
        rewrite words_distance; [reflexivity| | |exact Hcb|exact H2]; lia.
      - apply words_u64. exact Hcb.
      - rewrite words_length. change (2 ^ 57)%N with (Z.to_N (2 ^ 57)).
        apply N2Z.inj_lt. rewrite Z2N.id by lia. rewrite nat_N_Z. Z.div_mod_to_equations; lia.
      - intros row Hrow. apply in_map_iff in Hrow. destruct Hrow as [kc [<- Hkc]].
        rewrite !words_length. split; [reflexivity|]. apply words_u64. apply Hwf. exact Hkc. }
    rewrite Hsc. set (sc := map (fun kc => N.of_nat (bit_distance code (snd kc))) (p_codes p')).
    assert (Hlsc : length sc = length (db_entries d)).
    { unfold sc. rewrite map_length, (Permutation_length Hperm), map_length. reflexivity. }
    destruct (Nat.leb_spec (length sc) n); [lia|].
    destruct (selection_spec sc n sort ltac:(lia)) as [idx [Hsel [Hil [Hind [Hib [Hdom Hsrt]]]]]].
    rewrite Hsel.
    assert (Hlc : length (p_codes p') = length sc) by (unfold sc; rewrite map_length; reflexivity).
    rewrite (take_ok (p_codes p') idx (0%N, [])) by (rewrite Hlc; exact Hib).
    rewrite map_map.
    (* the entry of the database behind row i *)
    set (row := fun i => nth i (p_codes p') (0%N, [])).
    assert (Hrow : forall i, i < length sc -> exists v, In (fst (row i), v) (db_entries d)
                     /\ snd (row i) = firstn (Z.to_nat cs) v).
    { intros i Hi. assert (Hin : In (row i) (p_codes p')) by (apply nth_In; lia).
      eapply Permutation_in in Hin; [|exact Hperm]. apply in_map_iff in Hin.
      destruct Hin as [[k v] [E Hkv]]. rewrite <- E. exists v. split; [exact Hkv|reflexivity]. }
    set (entry := fun i => (fst (row i), match get (fst (row i)) (db_entries d) with Some v => v | None => [] end)).
    assert (Hentry : forall i, i < length sc -> In (entry i) (db_entries d)
                      /\ get (fst (row i)) (db_entries d) = Some (snd (entry i))
                      /\ snd (row i) = firstn (Z.to_nat cs) (snd (entry i))).
    { intros i Hi. destruct (Hrow i Hi) as [v [Hv1 Hv2]].
      pose proof (get_In _ _ _ (proj1 Hdb) Hv1) as Hg. unfold entry. rewrite Hg. cbn [snd]. auto. }
    rewrite (sequence_map_some _ (fun i => snd (entry i))).
    2:{ intros i Hi. rewrite Forall_forall in Hib. apply (Hentry i (Hib i Hi)). }
    exists (map entry idx). rewrite Hcs', !map_map. split; [reflexivity|].
    split; [rewrite map_length; exact Hil|].
    assert (Hrowinj : forall i j, i < length sc -> j < length sc -> fst (row i) = fst (row j) -> i = j).
    { intros i j Hi Hj E. destruct HI' as [Hnd' _].
      apply (NoDup_nth (map fst (p_codes p')) 0%N); try (rewrite map_length; lia); [exact Hnd'|].
      rewrite !(map_nth_default fst (p_codes p') _ (0%N, [])) by lia. exact E. }
    split.
    { rewrite (map_ext (fun x => fst (entry x)) (fun x => fst (row x))) by reflexivity.
      clear -Hind Hib Hrowinj. induction Hind as [|i l Hi Hl IH]; [constructor|].
      inversion Hib; subst. cbn [map]. constructor; [|apply IH; assumption].
      intros Hin. apply in_map_iff in Hin. destruct Hin as [j [E Hj]].
      apply Hrowinj in E; [subst; contradiction| |assumption].
      rewrite Forall_forall in H2. apply H2. exact Hj. }
    assert (Hscore : forall i, i < length sc -> nth i sc 0%N = N.of_nat (bit_distance code (snd (row i)))).
    { intros i Hi. unfold sc. rewrite (map_nth_default _ (p_codes p') i (0%N, [])) by lia. reflexivity. }
    split.
    { intros x Hx. apply in_map_iff in Hx. destruct Hx as [i [<- Hi]].
      rewrite Forall_forall in Hib. apply Hentry. apply Hib. exact Hi. }
    split.
    { intros h o Hh Ho Hno. apply in_map_iff in Hh. destruct Hh as [i [<- Hi]].
      rewrite Forall_forall in Hib. pose proof (Hib i Hi) as Hib'.
      destruct (Hentry i Hib') as [_ [_ E1]].
      change (bit_distance code (firstn (Z.to_nat cs) (snd (entry i)))
              <= bit_distance code (firstn (Z.to_nat cs) (snd o))). rewrite <- E1.
      (* o is some row j *)
      assert (Hoj : exists j, j < length sc /\ entry j = o).
      { assert (Hin : In (code_of cs o) (p_codes p')).
        { eapply Permutation_in; [apply Permutation_sym; exact Hperm|]. apply in_map. exact Ho. }
        apply In_nth with (d := (0%N, [])) in Hin. destruct Hin as [j [Hj Ej]].
        exists j. split; [lia|]. unfold entry, row. rewrite Ej. cbn [code_of fst].
        rewrite (get_In (fst o) (snd o)); [destruct o; reflexivity|apply Hdb|destruct o; exact Ho]. }
      destruct Hoj as [j [Hj Ej]].
      assert (Hnj : ~ In j idx).
      { intros Hin. apply Hno. rewrite <- Ej. apply in_map. exact Hin. }
      pose proof (Hdom i j Hi Hj Hnj) as Hle. rewrite !Hscore in Hle by lia.
      destruct (Hentry j Hj) as [_ [_ E2]]. rewrite E2, Ej in Hle. lia. }
    intros Hs. specialize (Hsrt Hs).
    assert (E : map (fun i => nth i sc 0%N) idx
                = map N.of_nat (map (fun x => bit_distance code (firstn (Z.to_nat cs) (snd (entry x)))) idx)).
    { rewrite map_map. apply map_ext_in. intros i Hi. rewrite Forall_forall in Hib.
      rewrite Hscore by (apply Hib; exact Hi). destruct (Hentry i (Hib i Hi)) as [_ [_ E1]].
      rewrite E1. reflexivity. }
    rewrite E in Hsrt. clear -Hsrt.
    remember (map _ idx) as l eqn:El in |- *. 
    assert (Hl : StronglySorted N.le (map N.of_nat l)) by (rewrite El; exact Hsrt). clear El Hsrt.
    induction l as [|x l IH]; [constructor|]. cbn [map] in Hl. inversion Hl; subst.
    constructor; [apply IH; assumption|]. rewrite Forall_forall in *. intros y Hy.
    specialize (H2 (N.of_nat y) (in_map _ _ _ Hy)). lia.
  Qed.

  Lemma search_too_many cs p d code n threads sort :
    good cs p d -> well_formed_code cs code ->
    match threads with Some t => 1 <= t | None => True end ->
    length (db_entries d) <= n ->
    fst (search argpartition argsort p d code n threads sort) = Raise ValueError.
  Proof.
    intros [Hw [Hcs [Hdc [Hdb HI]]]] [Hcl Hcb] Ht Hn.
    assert (Hsw : search argpartition argsort p d code n threads sort
                  = search argpartition argsort p d code n None sort).
    { destruct threads as [t|]; [apply search_threads; exact Ht|reflexivity]. }
    rewrite Hsw. unfold search. rewrite Hw. unfold validate_code_size. rewrite Hcs, Hcl, Z.eqb_refl.
    cbv zeta. cbn [fst].
    destruct (check_external_perm p d cs Hw Hcs HI (proj1 Hdb)) as [Hw' [Hcs' [HI' Hperm]]].
    unfold scores. set (sc := packed_hamming_distance _ _).
    assert (Hl : length sc = length (db_entries d)).
    { unfold sc, packed_hamming_distance, count_packed_bits. rewrite !map_length.
      rewrite (Permutation_length Hperm), map_length. reflexivity. }
    destruct (Nat.leb_spec (length sc) n); [reflexivity|lia].
  Qed.
End History.

(** After any history the entries scored by a search are exactly the database. *)
Lemma history_view argp args cs p d es p' d' :
  good cs p d -> history argp args p d es p' d' ->
  db_codesize d' = Some cs /\ incl (db_entries d) (db_entries d') /\
  NoDup (map fst (db_entries d')) /\
  (forall code n t s,
     Zlen code = cs ->
     Permutation (p_codes (snd (search argp args p' d' code n t s)))
                 (map (fun kv => (fst kv, firstn (Z.to_nat cs) (snd kv))) (db_entries d'))).
Proof.
  intros Hg Hh. destruct (history_good argp args cs _ _ _ _ _ Hh Hg) as [Hg' Hi].
  destruct Hg' as [Hw [Hcs [Hdc [Hdb HI]]]]. split; [exact Hdc|]. split; [exact Hi|].
  split; [apply Hdb|]. intros code n t s Hl.
  unfold search. rewrite Hw. unfold validate_code_size. rewrite Hcs, Hl, Z.eqb_refl. cbn [snd].
  destruct (check_external_perm p' d' cs Hw Hcs HI (proj1 Hdb)) as [_ [_ [_ Hperm]]]. exact Hperm.
Qed.

(** Each committed append is in the database afterwards, for good. *)
Lemma append_durable argp args cs p d k code data es p' d' :
  good cs p d -> ~ In k (map fst (db_entries d)) -> Forall (fun b => b < 256)%N code ->
  Zlen code = cs ->
  history argp args p d (OwnAppend k code data Commit :: es) p' d' ->
  In (k, code ++ data) (db_entries d').
Proof.
  intros Hg Hk Hb Hl Hh. inversion Hh as [|? ? ? p1 d1 ? ? ? Hok He Hrest]; subst.
  destruct (event_good argp args _ _ _ _ _ _ Hg Hok He) as [Hg1 _].
  destruct (history_good argp args _ _ _ _ _ _ Hrest Hg1) as [_ Hi]. apply Hi.
  cbn [do_event] in He. unfold append, validate_code_size in He.
  destruct Hg as [_ [Hcs _]]. rewrite Hcs, Z.eqb_refl in He. inversion He; subst.
  cbn [db_entries]. apply put_In; [exact Hk|]. left; reflexivity.
Qed.

Lemma open_fresh cs : (cs mod 8 = 0)%Z ->
  exists p d, open_db {| db_codesize := None; db_entries := [] |} (Some cs) false = Ok (p, d)
         /\ good cs p d /\ db_entries d = [].
Proof.
  intros H. unfold open_db. cbn [db_codesize]. rewrite H. simpl.
  eexists _, _. split; [reflexivity|]. split; [|reflexivity].
  unfold good, catch_up, PInv, db_ok. simpl. repeat split; try constructor; try tauto. intros x [].
Qed.

Lemma open_rejects d a w :
  (match db_codesize d with
   | Some cs => exists v, a = Some v /\ v <> 0%Z /\ v <> cs
   | None => a = None \/ exists v, a = Some v /\ (v mod 8 <> 0)%Z
   end) -> open_db d a w = Raise ValueError.
Proof.
  unfold open_db. destruct (db_codesize d) as [cs|].
  - intros [v [-> [H1 H2]]]. destruct (Z.eqb_spec v 0); [contradiction|].
    destruct (Z.eqb_spec v cs); [contradiction|]. reflexivity.
  - intros [->|[v [-> H]]]; [reflexivity|]. destruct (Z.eqb_spec (v mod 8) 0); [contradiction|]. reflexivity.
Qed.

Lemma append_wrong_size p d k code data f :
  Zlen code <> p_code_size p -> append p d k code data f = (Raise ValueError, p, d).
Proof.
  intros H. unfold append, validate_code_size. destruct (Z.eqb_spec (Zlen code) (p_code_size p)); [contradiction|reflexivity].
Qed.

(** a stable argsort meets both contracts *)
Definition ref_argsort (a : list N) : list nat :=
  isort (fun i j => (nth i a 0 <=? nth j a 0)%N) (seq 0 (length a)).
Lemma ref_argsort_sorted a : StronglySorted N.le (map (fun i => nth i a 0%N) (ref_argsort a)).
Proof.
  unfold ref_argsort.
  assert (H : StronglySorted (leP (fun i j => (nth i a 0 <=? nth j a 0)%N))
                (isort (fun i j => (nth i a 0 <=? nth j a 0)%N) (seq 0 (length a)))).
  { apply isort_sorted; intros; cbv beta in *; lia. }
  induction H as [|i l Hl IH Hf]; [constructor|]. cbn [map]. constructor; [exact IH|].
  rewrite Forall_forall in *. intros y Hy. apply in_map_iff in Hy. destruct Hy as [j [<- Hj]].
  specialize (Hf j Hj). unfold leP in Hf. lia.
Qed.
Lemma ref_argsort_ok : argsort_contract ref_argsort.
Proof.
  intros a. split; [apply Permutation_sym, isort_perm|apply ref_argsort_sorted].
Qed.
Lemma sorted_nth_le (l : list N) : StronglySorted N.le l ->
  forall i j, i <= j -> j < length l -> (nth i l 0 <= nth j l 0)%N.
Proof.
  induction 1 as [|x l Hs IH Hf]; intros i j Hij Hj; [simpl in Hj; lia|].
  destruct i, j; simpl in *; try lia.
  - rewrite Forall_forall in Hf. apply Hf. apply nth_In. lia.
  - apply IH; lia.
Qed.
Lemma ref_argpartition_ok : argpartition_contract (fun a _ => ref_argsort a).
Proof.
  intros a k Hk. destruct (ref_argsort_ok a) as [Hp Hs]. split; [exact Hp|].
  intros i j Hi Hj Hl. pose proof (Permutation_length Hp) as Hlen. rewrite seq_length in Hlen.
  pose proof (sorted_nth_le _ Hs i j ltac:(lia)) as H. rewrite map_length in H.
  specialize (H ltac:(lia)).
  rewrite !(map_nth_default (fun i => nth i a 0%N) (ref_argsort a) _ 0) in H by lia. exact H.
Qed.

(** A transaction that fails at commit leaves a phantom entry in memory: the
    in-memory store then disagrees with the database, and a later external
    append makes the sizes agree again, hiding the new entry from searches. *)
Lemma commit_failure_phantom :
  exists p d p1 d1 p2 d2,
    good 8 p d
    /\ append p d 7%N (repeat 1%N 8) [] CommitFails = (Raise LmdbError, p1, d1)
    /\ d1 = d
    /\ do_event (fun a _ => ref_argsort a) ref_argsort p1 d1
         (ExternalAppend 9%N (repeat 0%N 8) [42%N]) = (p2, d2)
    /\ In (9%N, repeat 0%N 8 ++ [42%N]) (db_entries d2)
    /\ p_codes (check_external p2 d2) = [(7%N, repeat 1%N 8)]
    /\ fst (search (fun a _ => ref_argsort a) ref_argsort p2 d2 (repeat 0%N 8) 0 None true) = Ok [].
Proof.
  destruct (open_fresh 8 eq_refl) as [p [d [Ho [Hg _]]]].
  vm_compute in Ho. inversion Ho; subst.
  do 6 eexists. split; [exact Hg|]. split; [vm_compute; reflexivity|]. split; [reflexivity|].
  split; [vm_compute; reflexivity|]. split; [vm_compute; left; reflexivity|].
  split; vm_compute; reflexivity.
Qed.

Example hamming_db_example :
  let argp := fun a (_ : nat) => ref_argsort a in
  match open_db {| db_codesize := None; db_entries := [] |} (Some 8%Z) false with
  | Ok (p, d) =>
      let '(p, d) := do_event argp ref_argsort p d (OwnAppend 5 [1;0;0;0;0;0;0;0] [10] Commit)%N in
      let '(p, d) := do_event argp ref_argsort p d (ExternalAppend 3 [255;0;0;0;0;0;0;0] [20])%N in
      let '(p, d) := do_event argp ref_argsort p d (ExternalAppend 4 [0;0;0;0;0;0;0;1] [30])%N in
      fst (search argp ref_argsort p d [3;0;0;0;0;0;0;0]%N 2 (Some 4) true) = Ok [[10];[30]]%N
  | _ => False
  end.
Proof. vm_compute. reflexivity. Qed.

(** ** The entries of the database are exactly the committed appends *)

(** Specification: what a list of events stored, as (id, code, payload). *)
Definition stored_by (cs : Z) (e : event) : list (id * bytes * bytes) :=
  match e with
  | OwnAppend k code data Commit | ExternalAppend k code data =>
      if (Zlen code =? cs)%Z then [(k, code, data)] else []
  | _ => []
  end.
Definition stored (cs : Z) (es : list event) : list (id * bytes * bytes) := flat_map (stored_by cs) es.
Definition as_value (s : id * bytes * bytes) : id * bytes := let '(k, c, data) := s in (k, c ++ data).

Lemma put_perm k v es : ~ In k (map fst es) -> Permutation ((k, v) :: es) (put k v es).
Proof.
  induction es as [|[k' v'] es IH]; intros Hk; cbn [put]; [reflexivity|].
  simpl in Hk. destruct (N.ltb k k'); [reflexivity|].
  destruct (N.eqb_spec k k') as [->|]; [exfalso; apply Hk; left; reflexivity|].
  rewrite perm_swap. constructor. apply IH. tauto.
Qed.

Lemma event_stored argp args cs p d e p1 d1 :
  good cs p d -> event_ok d e -> do_event argp args p d e = (p1, d1) ->
  Permutation (db_entries d1) (db_entries d ++ map as_value (stored_by cs e)).
Proof.
  intros Hgood Hok He. pose proof Hgood as [Hw [Hcs [Hdc [Hdb HI]]]].
  destruct e as [k code data f|k code data|code n t s|cs']; cbn [do_event event_ok stored_by] in *.
  - destruct Hok as [Hk _]. unfold append, validate_code_size in He. rewrite Hcs in He.
    destruct (Z.eqb_spec (Zlen code) cs) as [Hl|Hl].
    + destruct f; inversion He; subst; cbn [map as_value]; try (rewrite app_nil_r; reflexivity).
      cbn [db_entries]. rewrite <- put_perm by exact Hk. apply Permutation_cons_append.
    + inversion He; subst. destruct f; cbn [map]; rewrite app_nil_r; reflexivity.
  - destruct Hok as [Hk _]. rewrite Hcs in He.
    destruct (Z.eqb_spec (Zlen code) cs) as [Hl|Hl]; inversion He; subst; cbn [map as_value].
    + cbn [db_entries]. rewrite <- put_perm by exact Hk. apply Permutation_cons_append.
    + rewrite app_nil_r; reflexivity.
  - inversion He; subst. cbn [map]. rewrite app_nil_r; reflexivity.
  - cbn [map]. rewrite app_nil_r. unfold open_db in He. rewrite Hdc in He.
    destruct cs' as [a|]; [destruct (_ && _)|]; inversion He; reflexivity.
Qed.

Lemma history_stored argp args cs p d es p' d' :
  history argp args p d es p' d' -> good cs p d ->
  Permutation (db_entries d') (db_entries d ++ map as_value (stored cs es)).
Proof.
  induction 1 as [p d|p d e p1 d1 es p2 d2 Hok He Hh IH]; intros Hg.
  - cbn. rewrite app_nil_r. reflexivity.
  - destruct (event_good argp args _ _ _ _ _ _ Hg Hok He) as [Hg1 _].
    rewrite (IH Hg1). cbn [stored flat_map]. fold (stored cs es). rewrite map_app, app_assoc.
    apply Permutation_app_tail. eapply event_stored; eassumption.
Qed.

Lemma stored_sized cs es : Forall (fun s => Zlen (snd (fst s)) = cs) (stored cs es).
Proof.
  induction es as [|e es IH]; cbn [stored flat_map]; [constructor|].
  apply Forall_app. split; [|exact IH].
  destruct e as [k c dt f|k c dt| |]; cbn [stored_by]; try constructor;
    [destruct f; try constructor|]; destruct (Z.eqb_spec (Zlen c) cs); repeat constructor; assumption.
Qed.

(** A process opened on an empty database, any history, one search. *)
Lemma search_end_to_end argp args cs p0 d0 es p d code n threads sort :
  argpartition_contract argp -> argsort_contract args ->
  (0 <= cs < 2 ^ 60)%Z ->
  open_db {| db_codesize := None; db_entries := [] |} (Some cs) false = Ok (p0, d0) ->
  history argp args p0 d0 es p d ->
  well_formed_code cs code ->
  match threads with Some t => 1 <= t | None => True end ->
  (length (stored cs es) <= n ->
     fst (search argp args p d code n threads sort) = Raise ValueError) /\
  (n < length (stored cs es) ->
   exists hits rest : list (id * bytes * bytes),
     Permutation (stored cs es) (hits ++ rest) /\
     length hits = n /\
     fst (search argp args p d code n threads sort) = Ok (map snd hits) /\
     (forall h o, In h hits -> In o rest ->
        bit_distance code (snd (fst h)) <= bit_distance code (snd (fst o))) /\
     (sort = true -> StronglySorted le (map (fun h => bit_distance code (snd (fst h))) hits))).
Proof.
  intros Hp Hs Hcs Ho Hh Hc Ht.
  assert (Hcs8 : (cs mod 8 = 0)%Z).
  { unfold open_db in Ho. cbn [db_codesize] in Ho. destruct (Z.eqb_spec (cs mod 8) 0); [assumption|discriminate]. }
  destruct (open_fresh cs Hcs8) as [p0' [d0' [Ho' [Hg0 He0]]]].
  rewrite Ho in Ho'. inversion Ho'; subst p0' d0'. clear Ho'.
  pose proof (history_stored _ _ _ _ _ _ _ _ Hh Hg0) as Hst. rewrite He0 in Hst. cbn [app] in Hst.
  destruct (history_good _ _ _ _ _ _ _ _ Hh Hg0) as [Hg _].
  assert (Hlen : length (db_entries d) = length (stored cs es)).
  { rewrite (Permutation_length Hst). apply map_length. }
  split; intros Hn.
  - apply (search_too_many argp args cs); try assumption. lia.
  - destruct (search_main argp args Hp Hs cs p d code n threads sort Hg Hcs Hcs8 Hc Ht ltac:(lia))
      as [hits [H1 [H2 [H3 [H4 [H5 H6]]]]]].
    (* choose the stored triples behind the hits *)
    set (unval := fun kv : id * bytes => (fst kv, firstn (Z.to_nat cs) (snd kv), skipn (Z.to_nat cs) (snd kv))).
    assert (Hun : forall s, In s (stored cs es) -> unval (as_value s) = s).
    { intros [[k c] dt] Hin. pose proof (stored_sized cs es) as Hf. rewrite Forall_forall in Hf.
      specialize (Hf _ Hin). cbn [fst snd] in Hf. unfold unval, as_value. cbn [fst snd].
      rewrite firstn_code by exact Hf. f_equal. unfold Zlen in Hf.
      rewrite skipn_app. replace (Z.to_nat cs - length c) with 0 by lia.
      rewrite skipn_all2 by lia. reflexivity. }
    assert (Hnd : NoDup (db_entries d)).
    { destruct Hg as [_ [_ [_ [[Hn' _] _]]]]. eapply NoDup_map_inv; exact Hn'. }
    assert (Hhn : NoDup hits) by (eapply NoDup_map_inv; exact H3).
    assert (Hsplit : exists rest, Permutation (db_entries d) (hits ++ rest)).
    { clear -Hhn H4 Hnd. revert H4 Hnd. generalize (db_entries d) as es. induction Hhn as [|h l Hh Hl IH]; intros es Hi Hnd.
      - exists es. reflexivity.
      - assert (Hin : In h es) by (apply Hi; left; reflexivity).
        apply in_split in Hin. destruct Hin as [l1 [l2 ->]].
        assert (Hnd' : NoDup (l1 ++ l2)) by (apply NoDup_remove_1 in Hnd; exact Hnd).
        destruct (IH (l1 ++ l2)) as [rest Hr].
        { intros x Hx. specialize (Hi x (or_intror Hx)). apply in_app_iff in Hi. apply in_app_iff.
          destruct Hi as [Hi|[Hi|Hi]]; [left; exact Hi| |right; exact Hi]. subst; contradiction. }
        { exact Hnd'. }
        exists rest. rewrite <- Permutation_middle. simpl. constructor. exact Hr. }
    destruct Hsplit as [rest Hrest].
    exists (map unval hits), (map unval rest).
    split.
    { rewrite <- map_app. etransitivity; [|apply Permutation_map; exact Hrest].
      symmetry. etransitivity; [apply Permutation_map; exact Hst|]. rewrite map_map.
      rewrite (map_ext_in _ (fun s => s)) by exact Hun. rewrite map_id. reflexivity. }
    split; [rewrite map_length; exact H2|].
    split; [rewrite H1, map_map; reflexivity|].
    split.
    { intros h o Hh' Ho'. apply in_map_iff in Hh'. destruct Hh' as [h0 [<- Hh0]].
      apply in_map_iff in Ho'. destruct Ho' as [o0 [<- Ho0]]. cbn [unval fst snd].
      apply H5; [exact Hh0| |].
      - eapply Permutation_in; [apply Permutation_sym; exact Hrest|]. apply in_or_app; right; exact Ho0.
      - intros Hin. assert (Hnn : NoDup (hits ++ rest)) by (eapply Permutation_NoDup; [exact Hrest|exact Hnd]).
        clear -Hnn Hin Ho0. induction hits as [|x l IH]; [contradiction|]. simpl in Hnn. inversion Hnn; subst.
        destruct Hin as [->|Hin]; [|apply IH; assumption]. apply H1. apply in_or_app; right; exact Ho0. }
    intros Hsr. rewrite map_map. apply H6. exact Hsr.
Qed.

(** After any history the codes scored by a search are those stored, each once. *)
Lemma view_end_to_end argp args cs p0 d0 es p d :
  open_db {| db_codesize := None; db_entries := [] |} (Some cs) false = Ok (p0, d0) ->
  history argp args p0 d0 es p d ->
  Permutation (db_entries d) (map as_value (stored cs es)) /\
  db_codesize d = Some cs /\
  forall code n t s, Zlen code = cs ->
    Permutation (p_codes (snd (search argp args p d code n t s))) (map fst (stored cs es)).
Proof.
  intros Ho Hh.
  assert (Hcs8 : (cs mod 8 = 0)%Z).
  { unfold open_db in Ho. cbn [db_codesize] in Ho. destruct (Z.eqb_spec (cs mod 8) 0); [assumption|discriminate]. }
  destruct (open_fresh cs Hcs8) as [p0' [d0' [Ho' [Hg0 He0]]]].
  rewrite Ho in Ho'. inversion Ho'; subst p0' d0'. clear Ho'.
  pose proof (history_stored _ _ _ _ _ _ _ _ Hh Hg0) as Hst. rewrite He0 in Hst. cbn [app] in Hst.
  destruct (history_view argp args cs p0 d0 es p d Hg0 Hh) as [Hd [_ [_ Hv]]].
  split; [exact Hst|]. split; [exact Hd|]. intros code n t s Hl.
  rewrite (Hv code n t s Hl). etransitivity; [apply Permutation_map; exact Hst|].
  rewrite map_map. rewrite (map_ext_in _ fst); [reflexivity|].
  intros [[k c] dt] Hin. pose proof (stored_sized cs es) as Hf. rewrite Forall_forall in Hf.
  specialize (Hf _ Hin). cbn [fst snd as_value] in *. rewrite firstn_code by exact Hf. reflexivity.
Qed.
