(** Proofs about the training loops and apply_network (Trainer.v). *)
From Verif Require Import PyBase PyFacts PyMore PyRange Trainer.
Local Open Scope Z_scope.

(** ** Specification *)
(** [train] called [k] times from a fresh trainer: everything that happened, the
    epochs counted, and how the last call ended; after a failure the caller may
    go on calling *)
Fixpoint calls {EV} (train : Z -> list EV * Z * result unit) (k : nat) (current : Z) : list EV * Z :=
  match k with
  | O => ([], current)
  | S k' =>
      let '(evs, c, _) := train current in
      let '(evs', c') := calls train k' c in (evs ++ evs', c')
  end.
(** one epoch over some batches: a step, then each callback once, told [tr], [te] *)
Definition epoch_of {A C ERR} (cbs : list (Z * C)) (batches : list (Z * list A)) (tr te : Z -> Z -> list A -> option ERR) (e : Z)
  : list (event A C ERR) :=
  flat_map (fun b => Step e (fst b) (snd b)
                     :: map (fun p => Called (snd p) e (fst b) (tr e (fst b) (snd b)) (te e (fst b) (snd b))) cbs) batches.
(** the first [n] epochs *)
Definition epochs_of {EV} (one : Z -> list EV) (n : Z) : list EV := flat_map one (zrange n).

(** ** The loop *)
Lemma zrange_0 : zrange 0 = []. Proof. reflexivity. Qed.
Lemma zrange_nonpos n : n <= 0 -> zrange n = [].
Proof. intros H. unfold zrange. replace (Z.to_nat n) with 0%nat by lia. reflexivity. Qed.
Lemma zrange_succ n : 0 <= n -> zrange (n + 1) = zrange n ++ [n].
Proof.
  intros H. unfold zrange. replace (Z.to_nat (n + 1)) with (S (Z.to_nat n)) by lia.
  rewrite seq_S, map_app. cbn. f_equal. f_equal. lia.
Qed.
Lemma epochs_of_succ {EV} (one : Z -> list EV) n : 0 <= n -> epochs_of one (n + 1) = epochs_of one n ++ one n.
Proof. intros H. unfold epochs_of. rewrite zrange_succ, flat_map_app by exact H. cbn. rewrite app_nil_r. reflexivity. Qed.

Section Loops.
  Context {EV : Type} (stop : Z -> bool) (L : Z) (body : Z -> list EV * result unit) (one : Z -> list EV).
  Hypothesis stop_spec : forall e, stop e = (L <=? e).

  Lemma loop_ok : (forall e, body e = (one e, Ok tt)) ->
    forall n e, 0 <= e -> let m := Z.max e (Z.min (e + Z.of_nat n) L) in
    exists evs, epoch_loop stop body n e e = (evs, m, Ok tt) /\ epochs_of one e ++ evs = epochs_of one m.
  Proof.
    intros B. induction n as [|n IH]; intros e He; cbn zeta.
    - exists []. cbn [epoch_loop]. replace (Z.max e (Z.min (e + Z.of_nat 0) L)) with e by lia.
      split; [reflexivity|apply app_nil_r].
    - cbn [epoch_loop]. rewrite stop_spec. destruct (Z.leb_spec L e).
      + exists []. replace (Z.max e (Z.min (e + Z.of_nat (S n)) L)) with e by lia. split; [reflexivity|apply app_nil_r].
      + rewrite B. destruct (IH (e + 1) ltac:(lia)) as (evs & E1 & E2). rewrite E1.
        replace (Z.max (e + 1) (Z.min (e + 1 + Z.of_nat n) L)) with (Z.max e (Z.min (e + Z.of_nat (S n)) L)) in * by lia.
        exists (one e ++ evs). split; [reflexivity|]. rewrite app_assoc, <- epochs_of_succ by exact He. exact E2.
  Qed.
  Lemma calls_ok cp k : (forall e, body e = (one e, Ok tt)) -> 0 <= cp ->
    calls (run_epochs stop body cp) k 0 = (epochs_of one (Z.min (Z.of_nat k * cp) L), Z.max 0 (Z.min (Z.of_nat k * cp) L)).
  Proof.
    intros B Hc.
    assert (G : forall k e, 0 <= e -> exists evs, calls (run_epochs stop body cp) k e = (evs, Z.max e (Z.min (e + Z.of_nat k * cp) L)) /\
      epochs_of one e ++ evs = epochs_of one (Z.max e (Z.min (e + Z.of_nat k * cp) L))).
    { clear k. induction k as [|k IH]; intros e He.
      - exists []. cbn [calls]. replace (Z.max e (Z.min (e + Z.of_nat 0 * cp) L)) with e by lia. split; [reflexivity|apply app_nil_r].
      - cbn [calls]. unfold run_epochs at 1. destruct (loop_ok B (Z.to_nat cp) e He) as (evs & E1 & E2). rewrite E1.
        rewrite Z2Nat.id in * by exact Hc. set (m := Z.max e (Z.min (e + cp) L)) in *.
        destruct (IH m ltac:(lia)) as (evs' & E3 & E4). rewrite E3. exists (evs ++ evs').
        assert (Em : Z.max m (Z.min (m + Z.of_nat k * cp) L) = Z.max e (Z.min (e + Z.of_nat (S k) * cp) L)).
        { unfold m. replace (Z.of_nat (S k) * cp) with (Z.of_nat k * cp + cp) by lia.
          assert (0 <= Z.of_nat k * cp) by (apply Z.mul_nonneg_nonneg; lia). lia. }
        rewrite Em in *. split; [reflexivity|]. rewrite app_assoc, E2. exact E4. }
    destruct (G k 0 ltac:(lia)) as (evs & E1 & E2). rewrite E1. rewrite Z.add_0_l in *. cbn [epochs_of] in E2.
    unfold epochs_of at 1 in E2. cbn [zrange flat_map app] in E2. change (zrange 0) with (@nil Z) in E2. cbn [flat_map app] in E2. rewrite E2. f_equal.
    unfold epochs_of. destruct (Z.le_gt_cases 0 (Z.min (Z.of_nat k * cp) L)).
    - rewrite Z.max_r by lia. reflexivity.
    - rewrite !zrange_nonpos by lia. reflexivity.
  Qed.
End Loops.

(** ** Batches *)
Lemma run_batches_ok {EV} (f : Z -> list EV * result unit) (g : Z -> list EV) is :
  (forall i, In i is -> f i = (g i, Ok tt)) -> run_batches f is = (flat_map g is, Ok tt).
Proof.
  induction is as [|i is IH]; intros H; [reflexivity|]. cbn [run_batches flat_map]. rewrite (H i (or_introl eq_refl)).
  rewrite IH by (intros j Hj; apply H; right; exact Hj). reflexivity.
Qed.
(** a failing batch leaves what the batches before it did *)
Lemma run_batches_prefix {EV} (f : Z -> list EV * result unit) (g : Z -> list EV) is :
  (forall i, f i = (g i, Ok tt) \/ exists e, f i = ([], Raise e)) ->
  (run_batches f is = (flat_map g is, Ok tt)) \/
  (exists k e, (k < length is)%nat /\ run_batches f is = (flat_map g (firstn k is), Raise e)).
Proof.
  intros H. induction is as [|i is IH]; [left; reflexivity|]. cbn [run_batches].
  destruct (H i) as [->|[e ->]].
  - destruct IH as [->|(k & e & Hk & ->)]; [left; reflexivity|right]. exists (S k), e. split; [cbn; lia|reflexivity].
  - right. exists 0%nat, e. split; [cbn; lia|reflexivity].
Qed.

Definition offsets (b : Z) (n : nat) : list Z := map (fun k => b * Z.of_nat k) (seq 0 n).
Lemma range_offsets b n is : 0 < b -> py_range 0 n b = Ok is -> is = offsets b (length is).
Proof.
  unfold py_range. destruct (Z.eqb_spec b 0); [lia|]. intros _ H. injection H as <-.
  rewrite map_length, seq_length. reflexivity.
Qed.
Lemma flat_map_map {A B D} (f : A -> B) (g : B -> list D) l : flat_map g (map f l) = flat_map (fun x => g (f x)) l.
Proof. induction l as [|x l IH]; [reflexivity|]. cbn. rewrite IH. reflexivity. Qed.
Lemma flat_map_ext_in' {A B} (f g : A -> list B) l : (forall x, In x l -> f x = g x) -> flat_map f l = flat_map g l.
Proof. induction l as [|x l IH]; intros H; [reflexivity|]. cbn. rewrite (H x (or_introl eq_refl)), IH; [reflexivity|]. intros y Hy; apply H; right; exact Hy. Qed.
Lemma combine_map_r {A B} (f : A -> B) l : combine l (map f l) = map (fun x => (x, f x)) l.
Proof. induction l as [|x l IH]; [reflexivity|]. cbn. rewrite IH. reflexivity. Qed.

Section TrainerProofs.
  Context {A C ERR : Type} (fails : Z -> Z -> option exn) (err : Z -> Z -> list A -> ERR) (terr : Z -> Z -> ERR).
  Notation ev := (event A C ERR).

  (** the batches of a supervised epoch: the examples kept for training, in
      pieces of the batch size, named by their offset *)
  Definition supervised_batches (b h : Z) (data : list A) : list (Z * list A) :=
    let p := pieces (Z.to_nat b) (skipn (Z.to_nat h) data) in combine (offsets b (length p)) p.
  Definition supervised_spec (s : settings) (cbs : list (Z * C)) (data : list A) (h : Z) : Z -> list ev :=
    epoch_of cbs (supervised_batches (s_batch s) h data)
      (fun e i rows => if h =? 0 then None else Some (terr e i)) (fun e i rows => Some (err e i rows)).

  Lemma supervised_body s cbs data h e : 0 < s_batch s -> 0 <= h -> (forall i j, fails i j = None) ->
    supervised_epoch fails err terr s cbs data h e = (supervised_spec s cbs data h e, Ok tt).
  Proof.
    intros Hb Hh Nf. unfold supervised_epoch. rewrite py_slice_from by exact Hh. set (tr := skipn (Z.to_nat h) data).
    destruct (range_pieces (s_batch s) tr Hb) as (is & E & P). rewrite E.
    rewrite (run_batches_ok _ (fun i => Step e i (py_slice (Some i) (Some (i + s_batch s)) tr)
        :: notify cbs e i (if h =? 0 then None else Some (terr e i)) (Some (err e i (py_slice (Some i) (Some (i + s_batch s)) tr))))).
    2:{ intros i _. unfold supervised_batch. rewrite Nf. reflexivity. }
    f_equal. unfold supervised_spec, epoch_of, supervised_batches. fold tr. rewrite <- P.
    rewrite map_length, <- (range_offsets _ _ _ Hb E), combine_map_r, flat_map_map. reflexivity.
  Qed.

  (** However [train] is called, a SupervisedTrainer runs the configured number
      of epochs and no more, each over every example not held out, in order, with
      one call of each callback per batch. *)
  Theorem supervised_epochs s cbs data h k :
    0 < s_batch s -> 0 <= s_checkpoint s -> 0 <= h -> (forall i j, fails i j = None) ->
    calls (fun c => supervised_train fails err terr s cbs data h c) k 0
    = (epochs_of (supervised_spec s cbs data h) (Z.min (Z.of_nat k * s_checkpoint s) (s_epochs s)),
       Z.max 0 (Z.min (Z.of_nat k * s_checkpoint s) (s_epochs s))).
  Proof.
    intros Hb Hc Hh Nf. unfold supervised_train. apply (calls_ok _ (s_epochs s)); [reflexivity| |exact Hc].
    intros e. apply supervised_body; assumption.
  Qed.
  (** no held-out row is trained on, every other row is, once an epoch *)
  Theorem supervised_covers b h data : 0 < b ->
    concat (map snd (supervised_batches b h data)) = skipn (Z.to_nat h) data.
  Proof.
    intros Hb. unfold supervised_batches. set (p := pieces _ _).
    assert (E : map snd (combine (offsets b (length p)) p) = p).
    { assert (G : forall (o : list Z) (q : list (list A)), length o = length q -> map snd (combine o q) = q).
      { induction o as [|x o IH]; intros [|y q] Hl; try discriminate; [reflexivity|]. cbn. f_equal. apply IH. cbn in Hl. lia. }
      apply G. unfold offsets. rewrite map_length, seq_length. reflexivity. }
    rewrite E. apply pieces_concat. lia.
  Qed.

  (** the base trainer and the triplet trainer run one epoch too many *)
  Definition base_spec (s : settings) (cbs : list (Z * C)) (data : list A) : Z -> list ev :=
    epoch_of cbs (map (fun k => (s_batch s * Z.of_nat k, data)) (seq 0 (length (pieces (Z.to_nat (s_batch s)) data))))
      (fun _ _ _ => None) (fun _ _ _ => None).
  Theorem base_epochs s cbs data k :
    0 < s_batch s -> 0 <= s_checkpoint s -> (forall i j, fails i j = None) ->
    calls (fun c => base_train fails s cbs data c) k 0
    = (epochs_of (base_spec s cbs data) (Z.min (Z.of_nat k * s_checkpoint s) (s_epochs s + 1)),
       Z.max 0 (Z.min (Z.of_nat k * s_checkpoint s) (s_epochs s + 1))).
  Proof.
    intros Hb Hc Nf. unfold base_train. apply (calls_ok _ (s_epochs s + 1)).
    - intros e. destruct (Z.ltb_spec (s_epochs s) e), (Z.leb_spec (s_epochs s + 1) e); try reflexivity; lia.
    - intros e. unfold base_epoch. destruct (range_pieces (s_batch s) data Hb) as (is & E & P). rewrite E.
      rewrite (run_batches_ok _ (fun i => Step e i data :: notify cbs e i None None)).
      2:{ intros i _. unfold base_batch. rewrite Nf. reflexivity. }
      f_equal. unfold base_spec, epoch_of. rewrite flat_map_map. rewrite <- P, map_length.
      rewrite (range_offsets _ _ _ Hb E) at 1. unfold offsets. rewrite flat_map_map. reflexivity.
    - exact Hc.
  Qed.
  Definition triplet_spec (s : settings) (cbs : list (Z * C)) (data : list A) (draw : Z -> Z -> list A) (e : Z) : list ev :=
    epoch_of cbs (map (fun i => (i, draw e i)) (zrange (Zlen data / s_batch s))) (fun _ _ _ => None) (fun _ _ _ => None) e.
  Theorem triplet_epochs s cbs data draw k :
    0 < s_batch s -> 0 <= s_checkpoint s -> (forall i j, fails i j = None) ->
    calls (fun c => triplet_train fails s cbs data draw c) k 0
    = (epochs_of (triplet_spec s cbs data draw) (Z.min (Z.of_nat k * s_checkpoint s) (s_epochs s + 1)),
       Z.max 0 (Z.min (Z.of_nat k * s_checkpoint s) (s_epochs s + 1))).
  Proof.
    intros Hb Hc Nf. unfold triplet_train. destruct (Z.eqb_spec (s_batch s) 0); [lia|]. apply (calls_ok _ (s_epochs s + 1)).
    - intros e. destruct (Z.ltb_spec (s_epochs s) e), (Z.leb_spec (s_epochs s + 1) e); try reflexivity; lia.
    - intros e. rewrite (run_batches_ok _ (fun i => Step e i (draw e i) :: notify cbs e i None None)).
      2:{ intros i _. unfold triplet_batch. rewrite Nf. reflexivity. }
      f_equal. unfold triplet_spec, epoch_of. rewrite flat_map_map. reflexivity.
    - exact Hc.
  Qed.
  Definition wgan_spec (s : settings) (cbs : list (Z * C)) (data : list A) (draw : Z -> Z -> list A) (e : Z) : list ev :=
    epoch_of cbs (map (fun k => (s_batch s * Z.of_nat k, draw e (s_batch s * Z.of_nat k)))
                      (seq 0 (length (pieces (Z.to_nat (s_batch s)) data)))) (fun _ _ _ => None) (fun _ _ _ => None) e.
  Theorem wgan_epochs s cbs data draw k :
    0 < s_batch s -> 0 <= s_checkpoint s -> (forall i j, fails i j = None) ->
    calls (fun c => wgan_train fails s cbs data draw c) k 0
    = (epochs_of (wgan_spec s cbs data draw) (Z.min (Z.of_nat k * s_checkpoint s) (s_epochs s)),
       Z.max 0 (Z.min (Z.of_nat k * s_checkpoint s) (s_epochs s))).
  Proof.
    intros Hb Hc Nf. unfold wgan_train. apply (calls_ok _ (s_epochs s)); [reflexivity| |exact Hc].
    intros e. destruct (range_pieces (s_batch s) data Hb) as (is & E & P). rewrite E.
    rewrite (run_batches_ok _ (fun i => Step e i (draw e i) :: notify cbs e i None None)).
    2:{ intros i _. unfold triplet_batch. rewrite Nf. reflexivity. }
    f_equal. unfold wgan_spec, epoch_of. rewrite flat_map_map. rewrite <- P, map_length.
    rewrite (range_offsets _ _ _ Hb E) at 1. unfold offsets. rewrite flat_map_map. reflexivity.
  Qed.

  (** a step that fails: the epochs completed before it stay counted, its own
      epoch is not, and so is run again from its first batch by the next call *)
  Theorem supervised_interrupted s cbs data h current evs c x :
    0 < s_batch s -> 0 <= h -> 0 <= current ->
    supervised_train fails err terr s cbs data h current = (evs, c, Raise x) ->
    current <= c < s_epochs s /\
    exists k, (k < length (supervised_batches (s_batch s) h data))%nat /\
      epochs_of (supervised_spec s cbs data h) current ++ evs
      = epochs_of (supervised_spec s cbs data h) c
        ++ epoch_of cbs (firstn k (supervised_batches (s_batch s) h data))
             (fun e i rows => if h =? 0 then None else Some (terr e i)) (fun e i rows => Some (err e i rows)) c.
  Proof.
    intros Hb Hh. unfold supervised_train, run_epochs. generalize (Z.to_nat (s_checkpoint s)) as n. intros n.
    revert current evs c. induction n as [|n IH]; intros e evs c He H; [discriminate|].
    cbn [epoch_loop] in H. destruct (Z.leb_spec (s_epochs s) e); [discriminate|].
    assert (B : supervised_epoch fails err terr s cbs data h e = (supervised_spec s cbs data h e, Ok tt) \/
       exists k x', (k < length (supervised_batches (s_batch s) h data))%nat /\
       supervised_epoch fails err terr s cbs data h e = (epoch_of cbs (firstn k (supervised_batches (s_batch s) h data))
             (fun e i rows => if h =? 0 then None else Some (terr e i)) (fun e i rows => Some (err e i rows)) e, Raise x')).
    { unfold supervised_epoch. rewrite py_slice_from by exact Hh. set (tr := skipn (Z.to_nat h) data).
      destruct (range_pieces (s_batch s) tr Hb) as (is & E & P). rewrite E.
      assert (Sb : supervised_batches (s_batch s) h data = map (fun i => (i, py_slice (Some i) (Some (i + s_batch s)) tr)) is).
      { unfold supervised_batches. fold tr. rewrite <- P, map_length, <- (range_offsets _ _ _ Hb E), combine_map_r. reflexivity. }
      destruct (run_batches_prefix (supervised_batch fails err terr cbs s h tr e)
        (fun i => Step e i (py_slice (Some i) (Some (i + s_batch s)) tr)
        :: notify cbs e i (if h =? 0 then None else Some (terr e i)) (Some (err e i (py_slice (Some i) (Some (i + s_batch s)) tr)))) is) as [R|(k & x' & Hk & R)].
      { intros i. unfold supervised_batch. destruct (fails e i); [right; eexists; reflexivity|left; reflexivity]. }
      - left. rewrite R. f_equal. unfold supervised_spec, epoch_of. rewrite Sb, flat_map_map. reflexivity.
      - right. exists k, x'. split; [rewrite Sb, map_length; exact Hk|]. rewrite R. f_equal. unfold epoch_of.
        rewrite Sb, firstn_map, flat_map_map. reflexivity. }
    destruct B as [B|(k & x' & Hk & B)]; rewrite B in H.
    - destruct (epoch_loop _ _ n (e + 1) (e + 1)) as [[evs' c'] r'] eqn:E. injection H as <- <- ->.
      destruct (IH (e + 1) evs' c' ltac:(lia) E) as (Hc & k & Hk & Eq). split; [lia|]. exists k. split; [exact Hk|].
      rewrite app_assoc, <- epochs_of_succ by exact He. exact Eq.
    - injection H as <- <- <-. split; [lia|]. exists k. split; [exact Hk|reflexivity].
  Qed.
End TrainerProofs.

(** the callbacks are told the test error as the training error and the other
    way round *)
Lemma supervised_errors_swapped_refuted :
  let s := {| s_epochs := 1; s_batch := 2; s_checkpoint := 1 |} in
  supervised_train (fun _ _ => None) (fun _ _ _ => 1%nat) (fun _ _ => 2%nat) s [(7, tt)] [10; 20; 30] 1 0
  = ([Step 0 0 [20; 30]; Called tt 0 0 (Some 2%nat) (Some 1%nat)], 1, Ok tt).
Proof. reflexivity. Qed.
(** two epochs configured, three run *)
Lemma base_one_too_many_refuted :
  let s := {| s_epochs := 2; s_batch := 10; s_checkpoint := 1 |} in
  calls (base_train (A := Z) (C := unit) (ERR := unit) (fun _ _ => None) s [] [5]) 9 0
  = ([Step 0 0 [5]; Step 1 0 [5]; Step 2 0 [5]], 3).
Proof. reflexivity. Qed.
(** fewer examples than a batch: the triplet trainer never takes a step *)
Lemma triplet_small_refuted :
  let s := {| s_epochs := 2; s_batch := 10; s_checkpoint := 1 |} in
  calls (triplet_train (A := Z) (C := unit) (ERR := unit) (fun _ _ => None) s [] [5; 6; 7] (fun _ _ => [])) 9 0 = ([], 3).
Proof. reflexivity. Qed.
Example supervised_example :
  let s := {| s_epochs := 3; s_batch := 2; s_checkpoint := 2 |} in
  calls (supervised_train (A := Z) (C := unit) (fun _ _ => None) (fun _ _ _ => tt) (fun _ _ => tt) s [] [10; 20; 30; 40] 1) 5 0
  = ([Step 0 0 [20; 30]; Step 0 2 [40]; Step 1 0 [20; 30]; Step 1 2 [40]; Step 2 0 [20; 30]; Step 2 2 [40]], 3).
Proof. reflexivity. Qed.
Example interrupted_example :
  let s := {| s_epochs := 3; s_batch := 2; s_checkpoint := 2 |} in
  supervised_train (A := Z) (C := unit) (fun e i => if (e =? 1) && (i =? 2) then Some RuntimeError else None)
     (fun _ _ _ => tt) (fun _ _ => tt) s [] [20; 30; 40] 0 0
  = ([Step 0 0 [20; 30]; Step 0 2 [40]; Step 1 0 [20; 30]], 1, Raise RuntimeError).
Proof. reflexivity. Qed.

(** ** Callbacks *)
Lemma register_in {C} id (c : C) d : NoDup (map fst d) -> NoDup (map fst (register id c d)) /\
  forall i x, In (i, x) (register id c d) <-> (i = id /\ x = c) \/ (i <> id /\ In (i, x) d).
Proof.
  induction d as [|[j y] d IH]; intros N; cbn [register].
  - split; [repeat constructor; intros []|]. intros i x. split.
    + intros [E|[]]. injection E as <- <-. left; split; reflexivity.
    + intros [[-> ->]|[_ []]]. left; reflexivity.
  - cbn [map fst] in N. inversion N as [|? ? N1 N2]; subst. destruct (Z.eqb_spec j id) as [->|Ne].
    + split; [exact N|]. intros i x. split.
      * intros [E|H]; [injection E as <- <-; left; split; reflexivity|].
        right. split; [|right; exact H]. intros ->. apply N1. apply in_map_iff. exists (id, x). split; [reflexivity|exact H].
      * intros [[-> ->]|[Hi [E|H]]]; [left; reflexivity|injection E as <- <-; contradiction|right; exact H].
    + destruct (IH N2) as [A1 A2]. split.
      * cbn [map fst]. constructor; [|exact A1]. intros H. apply in_map_iff in H. destruct H as ((i & x) & E & H). cbn in E. subst i.
        apply A2 in H. destruct H as [[-> _]|[_ H]]; [contradiction|]. apply N1. apply in_map_iff. exists (j, x). split; [reflexivity|exact H].
      * intros i x. cbn [In]. rewrite A2. split.
        { intros [E|[H|H]]; [injection E as <- <-; right; split; [exact Ne|left; reflexivity]|left; exact H|right; split; [apply H|right; apply H]]. }
        { intros [H|[Hi [E|H]]]; [right; left; exact H|left; exact E|right; right; split; assumption]. }
Qed.
Lemma unregister_in {C} id (d : list (Z * C)) : NoDup (map fst d) -> NoDup (map fst (unregister id d)) /\
  forall i x, In (i, x) (unregister id d) <-> i <> id /\ In (i, x) d.
Proof.
  induction d as [|[j y] d IH]; intros N; cbn [unregister].
  - split; [constructor|]. intros i x. split; [intros []|intros [_ []]].
  - cbn [map fst] in N. inversion N as [|? ? N1 N2]; subst. destruct (Z.eqb_spec j id) as [->|Ne].
    + split; [exact N2|]. intros i x. split.
      * intros H. split; [|right; exact H]. intros ->. apply N1. apply in_map_iff. exists (id, x). split; [reflexivity|exact H].
      * intros [Hi [E|H]]; [injection E as <- <-; contradiction|exact H].
    + destruct (IH N2) as [A1 A2]. split.
      * cbn [map fst]. constructor; [|exact A1]. intros H. apply in_map_iff in H. destruct H as ((i & x) & E & H). cbn in E. subst i.
        apply A2 in H. apply N1. apply in_map_iff. exists (j, x). split; [reflexivity|apply H].
      * intros i x. cbn [In]. rewrite A2. split.
        { intros [E|H]; [injection E as <- <-; split; [exact Ne|left; reflexivity]|split; [apply H|right; apply H]]. }
        { intros [Hi [E|H]]; [left; exact E|right; split; assumption]. }
Qed.
(** registering and unregistering, in any order: who is told is who was
    registered and not unregistered since *)
Inductive cb_op (C : Type) := Register (id : Z) (c : C) | Unregister (id : Z).
Arguments Register {C}. Arguments Unregister {C}.
Fixpoint run_ops {C} (ops : list (cb_op C)) (d : list (Z * C)) : list (Z * C) :=
  match ops with
  | [] => d
  | Register i c :: r => run_ops r (register i c d)
  | Unregister i :: r => run_ops r (unregister i d)
  end.
(** the last word about [id] *)
Fixpoint last_word {C} (ops : list (cb_op C)) (id : Z) (now : option C) : option C :=
  match ops with
  | [] => now
  | Register i c :: r => last_word r id (if i =? id then Some c else now)
  | Unregister i :: r => last_word r id (if i =? id then None else now)
  end.
Theorem callbacks_told {C} (ops : list (cb_op C)) :
  NoDup (map fst (run_ops ops [])) /\
  forall id c, In (id, c) (run_ops ops []) <-> last_word ops id None = Some c.
Proof.
  assert (G : forall d (now : Z -> option C), NoDup (map fst d) -> (forall i x, In (i, x) d <-> now i = Some x) ->
     NoDup (map fst (run_ops ops d)) /\ forall id c, In (id, c) (run_ops ops d) <-> last_word ops id (now id) = Some c).
  { induction ops as [|[i c|i] ops IH]; intros d now N H; cbn [run_ops last_word].
    - split; [exact N|exact H].
    - destruct (register_in i c d N) as [N' R].
      destruct (IH (register i c d) (fun id => if i =? id then Some c else now id) N') as [A1 A2].
      + intros j x. rewrite R. destruct (Z.eqb_spec i j) as [->|Ne].
        * split; [intros [[_ ->]|[C0 _]]; [reflexivity|contradiction]|intros E; injection E as ->; left; split; reflexivity].
        * rewrite H. split; [intros [[-> _]|[_ E]]; [contradiction|exact E]|intros E; right; split; [congruence|exact E]].
      + split; [exact A1|exact A2].
    - destruct (unregister_in i d N) as [N' R].
      destruct (IH (unregister i d) (fun id => if i =? id then None else now id) N') as [A1 A2].
      + intros j x. rewrite R. destruct (Z.eqb_spec i j) as [->|Ne].
        * split; [intros [C0 _]; contradiction|discriminate].
        * rewrite H. split; [intros [_ E]; exact E|intros E; split; [congruence|exact E]].
      + split; [exact A1|exact A2]. }
  apply (G [] (fun _ => None)); [constructor|]. intros i x. split; [intros []|discriminate].
Qed.
(** a bound method is a new object each time it is written: unregistering it
    under its new identity leaves the first registration in place *)
Lemma unregister_bound_method_refuted {C} (log : C) a b : a <> b ->
  run_ops [Register a log; Unregister b] [] = [(a, log)].
Proof. intros H. cbn. destruct (Z.eqb_spec a b); [contradiction|reflexivity]. Qed.
Example callbacks_example : run_ops [Register 1 10; Register 2 20; Register 1 10; Unregister 2; Unregister 5] [] = [(1, 10)].
Proof. reflexivity. Qed.

(** ** apply_network *)
Theorem apply_chunks {A B} (net : list A -> list B) x c : 0 < c -> x <> [] ->
  apply_network net x (Some c) = Ok (concat (map net (pieces (Z.to_nat c) x))).
Proof.
  intros Hc Hx. unfold apply_network. destruct (range_pieces c x Hc) as (is & E & P). rewrite E. cbn [bind].
  destruct is as [|i is].
  - exfalso. cbn [map] in P. apply (f_equal (@concat A)) in P. rewrite pieces_concat in P by lia. cbn in P. congruence.
  - rewrite <- P, map_map. reflexivity.
Qed.
Lemma rowwise_pieces {A B} (net : list A -> list B) : net [] = [] -> (forall a b, net (a ++ b) = net a ++ net b) ->
  forall ps, concat (map net ps) = net (concat ps).
Proof. intros N H. induction ps as [|p ps IH]; [symmetry; exact N|]. cbn. rewrite IH, H. reflexivity. Qed.
(** a network that treats rows independently gives the same, chunked or not *)
Theorem apply_rowwise {A B} (net : list A -> list B) x c : 0 < c -> x <> [] ->
  (forall a b, net (a ++ b) = net a ++ net b) ->
  apply_network net x (Some c) = apply_network net x None.
Proof.
  intros Hc Hx H. rewrite (apply_chunks net x c Hc Hx).
  assert (N : net [] = []).
  { specialize (H [] []). cbn [app] in H. apply (f_equal (@length B)) in H. rewrite app_length in H. destruct (net []); [reflexivity|cbn in H; lia]. }
  rewrite (rowwise_pieces net N H). rewrite pieces_concat by lia. reflexivity.
Qed.
(** no rows: the chunked form fails where the other one does not *)
Theorem apply_empty_refuted {A B} (net : list A -> list B) c : 0 < c ->
  apply_network net [] (Some c) = Raise ValueError /\ apply_network net [] None = Ok (net []).
Proof.
  intros Hc. split; [|reflexivity]. unfold apply_network, py_range. destruct (Z.eqb_spec c 0); [lia|]. cbn [bind].
  pose proof (ceil_div_nonpos (Zlen (@nil A) - 0) c Hc ltac:(unfold Zlen; cbn; lia)).
  replace (Z.to_nat _) with 0%nat by lia. reflexivity.
Qed.
(** a chunk size that is not positive *)
Theorem apply_bad_chunk {A B} (net : list A -> list B) x c : c <= 0 -> apply_network net x (Some c) = Raise ValueError.
Proof.
  intros Hc. unfold apply_network, py_range. destruct (Z.eqb_spec c 0); [reflexivity|]. cbn [bind].
  replace (Z.to_nat (ceil_div (Zlen x - 0) c)) with 0%nat; [reflexivity|].
  unfold ceil_div, Zlen. assert (0 <= - (Z.of_nat (length x) - 0) / c); [|lia].
  replace (- (Z.of_nat (length x) - 0)) with (- Z.of_nat (length x)) by lia.
  rewrite <- (Z.div_opp_opp _ c) by lia. apply Z.div_pos; lia.
Qed.
(** a network whose rows see each other (batch statistics) does not *)
Lemma apply_not_rowwise_refuted :
  let net := fun rows : list Z => map (fun r => r - fold_right Z.add 0 rows) rows in
  apply_network net [1; 2; 3] (Some 2) = Ok [-2; -1; 0] /\ apply_network net [1; 2; 3] None = Ok [-5; -4; -3].
Proof. split; reflexivity. Qed.
Example apply_example : apply_network (map (Z.mul 2)) [1; 2; 3; 4; 5] (Some 2) = Ok [2; 4; 6; 8; 10] /\
  pieces 2 [1; 2; 3; 4; 5] = [[1; 2]; [3; 4]; [5]].
Proof. split; reflexivity. Qed.
