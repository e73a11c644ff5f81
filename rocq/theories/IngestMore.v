(** More of zounds/datasets/ingest.py: datasets whose own iterator raises, and items that
    cannot be sent to another process. *)
From Coq Require Import Permutation.
From Verif Require Import PyBase PyFacts PyMore Datasets DatasetsProofs.
Local Open Scope Z_scope.

(** what asking a dataset for its next item may give: an item, or an exception *)
Inductive answer := Gives (m : meta) | Raises.

(** ingest.py:43, [pool.imap_unordered(ingest_one, zip(dataset, cls_args, skip_args))]: the
    task thread of the pool asks for one item after the other; an exception of the dataset
    becomes the result of one last task and ends the asking
    (multiprocessing.pool.Pool._guarded_task_generation).  Simplified: that last task occupies
    a worker for a moment; it touches no document. *)
Fixpoint asked (answers : list answer) : list meta :=
  match answers with
  | Gives m :: rest => m :: asked rest
  | Raises :: _ | [] => []
  end.

(** ingest.py:30-50.  In the mode with processes (lines 32-34) an item reaches a worker only
    if it can be pickled: otherwise the exception becomes the result of its task, which
    nobody reads, and the next item follows (multiprocessing.pool.Pool._handle_tasks).  With
    threads (lines 35-37) everything can be handed over. *)
Inductive mode := Single | Threads (cores : nat) | Processes (cores : nat).
Definition handed (pickles : meta -> bool) (how : mode) (answers : list answer) : list meta :=
  match how with
  | Processes _ => filter pickles (asked answers)
  | Threads _ | Single => asked answers
  end.
Definition workers (how : mode) : option nat := match how with Single => None | Threads c | Processes c => Some c end.
(** ingest() returns None whatever the dataset did: no exception reaches the caller *)
Definition ingest_run (ok : meta -> bool) (skip : bool) (pickles : meta -> bool) (how : mode) (answers : list answer)
    (store store' : list Z) (log : list event) : Prop :=
  ingest ok skip (workers how) (handed pickles how answers) store store' log.

Lemma asked_gives l : asked (map Gives l) = l.
Proof. induction l as [|m l IH]; [reflexivity|]. cbn. now f_equal. Qed.
Lemma asked_raises l rest : asked (map Gives l ++ Raises :: rest) = l.
Proof. induction l as [|m l IH]; [reflexivity|]. cbn. now f_equal. Qed.
Lemma answers_split answers : answers = map Gives (asked answers) \/ exists rest, answers = map Gives (asked answers) ++ Raises :: rest.
Proof.
  induction answers as [|[m|] l IH]; [now left| |right; now exists l]. cbn. destruct IH as [E|(r & E)].
  - left. now rewrite <- E.
  - right. exists r. now rewrite <- E.
Qed.

(** a dataset that does not fail, of items that can be sent, is the case of C50 *)
Lemma run_plain ok skip pickles how dataset store store' log : (forall m, In m dataset -> pickles m = true) ->
  (ingest_run ok skip pickles how (map Gives dataset) store store' log <-> ingest ok skip (workers how) dataset store store' log).
Proof.
  intros P. unfold ingest_run. assert (handed pickles how (map Gives dataset) = dataset) as ->; [|reflexivity].
  unfold handed. rewrite asked_gives. destruct how; try reflexivity.
  clear -P. induction dataset as [|m l IH]; [reflexivity|]. cbn. rewrite (P m) by now left. f_equal. apply IH. intros x I. apply P. now right.
Qed.

(** the caller cannot tell a dataset that failed from one that ended there *)
Lemma run_fails ok skip pickles how before rest store store' log :
  ingest_run ok skip pickles how (map Gives before ++ Raises :: rest) store store' log
  <-> ingest_run ok skip pickles how (map Gives before) store store' log.
Proof. unfold ingest_run, handed. now rewrite asked_gives, asked_raises. Qed.

(** what is attempted: exactly the items before the failure, each once, in any schedule *)
Lemma run_attempts ok skip pickles cores before rest store store' log :
  ingest_run ok skip pickles (Threads cores) (map Gives before ++ Raises :: rest) store store' log ->
  Permutation before (map event_item log)
  /\ (forall m u, In m before -> m_url m = Some u -> ok m = true -> In u store')
  /\ (forall u, In u store' -> In u store \/ exists m, In m before /\ m_url m = Some u /\ ok m = true).
Proof.
  unfold ingest_run, handed, workers. rewrite asked_raises. intros H.
  destruct (ingest_parallel _ _ _ _ _ _ _ H) as (P & G1 & _). split; [exact P|]. split.
  - intros m u I. now apply (ingest_complete _ _ _ _ _ _ _ m u H).
  - intros u I. apply G1 in I as [I|(m & I & Eu & Eo)]; [now left|]. right. exists m. split; [|now split].
    apply (Permutation_in _ (Permutation_sym P)). apply in_map_iff. now exists (Processed m).
Qed.

(** the rest is lost: in no mode and no schedule is anything behind the failure stored *)
Lemma run_rest_lost ok skip pickles how before rest store store' log u :
  ingest_run ok skip pickles how (map Gives before ++ Raises :: rest) store store' log ->
  (forall m, In m before -> m_url m <> Some u) -> ~ In u store -> ~ In u store'.
Proof.
  unfold ingest_run, handed. rewrite asked_raises. intros H N1 N2 I. destruct how as [|c|c]; cbn [workers] in H.
  - apply ingest_default_refuted in H as [-> _]. contradiction.
  - destruct (ingest_parallel _ _ _ _ _ _ _ H) as (P & G1 & _). apply G1 in I as [I|(m & I & Eu & _)]; [contradiction|].
    apply (N1 m); [|exact Eu]. apply (Permutation_in _ (Permutation_sym P)). apply in_map_iff. now exists (Processed m).
  - destruct (ingest_parallel _ _ _ _ _ _ _ H) as (P & G1 & _). apply G1 in I as [I|(m & I & Eu & _)]; [contradiction|].
    apply (N1 m); [|exact Eu]. assert (Im : In m (filter pickles before)); [|now apply filter_In in Im as [Im _]].
    apply (Permutation_in _ (Permutation_sym P)). apply in_map_iff. now exists (Processed m).
Qed.

(** between processes the items that cannot be pickled are passed over, and only these *)
Lemma run_processes ok skip pickles cores answers store store' log :
  ingest_run ok skip pickles (Processes cores) answers store store' log ->
  (forall m, In m (map event_item log) <-> In m (asked answers) /\ pickles m = true)
  /\ length log = length (filter pickles (asked answers))
  /\ (forall m u, In m (asked answers) -> pickles m = true -> m_url m = Some u -> ok m = true -> In u store').
Proof.
  unfold ingest_run, handed, workers. intros H. destruct (ingest_parallel _ _ _ _ _ _ _ H) as (P & _). split; [|split].
  - intros m. rewrite <- filter_In. split; [apply (Permutation_in _ (Permutation_sym P))|apply (Permutation_in _ P)].
  - rewrite (Permutation_length P). now rewrite map_length.
  - intros m u I Ep Eu Eo. apply (ingest_complete _ _ _ _ _ _ _ m u H); [|exact Eu|exact Eo]. now apply filter_In.
Qed.
Lemma run_total ok skip pickles how answers store : match how with Single => True | Threads c | Processes c => (0 < c)%nat end ->
  exists store' log, ingest_run ok skip pickles how answers store store' log.
Proof.
  unfold ingest_run. intros Hc. destruct how as [|c|c]; cbn [workers]; [|now apply ingest_parallel_total..].
  now exists store, [].
Qed.

Definition a_meta (k : Z) : meta := {| m_id := k; m_url := Some k |}.
(** the claim "every item is attempted" with a dataset that fails once *)
Lemma run_item_lost : exists answers m, In (Gives m) answers /\ m_url m = Some 3
  /\ forall ok skip pickles how store' log, ingest_run ok skip pickles how answers [] store' log -> ~ In 3 store' /\ ~ In m (map event_item log).
Proof.
  exists [Gives (a_meta 1); Raises; Gives (a_meta 3)], (a_meta 3). split; [cbn; auto|]. split; [reflexivity|].
  intros ok skip pickles how store' log H. split.
  - refine (run_rest_lost ok skip pickles how [a_meta 1] [Gives (a_meta 3)] [] store' log 3 H _ (fun x => x)).
    intros m [<-|[]]. discriminate.
  - destruct how as [|c|c].
    + unfold ingest_run in H. cbn [workers] in H. destruct (ingest_default_refuted _ _ _ _ _ _ H) as [_ ->]. cbn [map In]. tauto.
    + pose proof (run_attempts ok skip pickles c [a_meta 1] [Gives (a_meta 3)] [] store' log H) as (P & _). intros I.
      apply (Permutation_in _ (Permutation_sym P)) in I as [I|[]]. discriminate.
    + destruct (run_processes ok skip pickles c _ [] store' log H) as (Q & _). intros I. apply Q in I as [[I|[]] _]. discriminate.
Qed.
Lemma run_unpickled_lost ok skip pickles cores dataset store store' log m : pickles m = false ->
  ingest_run ok skip pickles (Processes cores) (map Gives dataset) store store' log -> ~ In m (map event_item log).
Proof. intros E H I. destruct (run_processes _ _ _ _ _ _ _ _ H) as (Q & _). apply Q in I as [_ I]. congruence. Qed.

Example run_example : exists store' log,
  ingest_run (fun m => negb (m_id m =? 2)) true (fun m => negb (m_id m =? 4)) (Processes 3)
    [Gives (a_meta 1); Gives (a_meta 2); Gives (a_meta 4); Gives (a_meta 5); Raises; Gives (a_meta 6)] [5] store' log
  /\ In 1 store' /\ In 5 store' /\ ~ In 6 store' /\ length log = 3%nat.
Proof.
  edestruct (run_total (fun m => negb (m_id m =? 2)) true (fun m => negb (m_id m =? 4)) (Processes 3)
    [Gives (a_meta 1); Gives (a_meta 2); Gives (a_meta 4); Gives (a_meta 5); Raises; Gives (a_meta 6)] [5]) as (s & l & H); [cbn; lia|].
  exists s, l. split; [exact H|]. destruct (run_processes _ _ _ _ _ _ _ _ H) as (_ & L & C). split; [|split; [|split]].
  - apply (C (a_meta 1) 1); cbn; auto.
  - apply (C (a_meta 5) 5); cbn; auto 6.
  - refine (run_rest_lost _ _ _ _ [a_meta 1; a_meta 2; a_meta 4; a_meta 5] [Gives (a_meta 6)] [5] s l 6 H _ _).
    + cbn [In]. intros m [<-|[<-|[<-|[<-|[]]]]] E; cbn in E; congruence.
    + intros [I|[]]. discriminate.
  - rewrite L. reflexivity.
Qed.
