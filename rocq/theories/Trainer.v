(** Model of the training loops of zounds/learn (trainer.py, supervised.py,
    embedding.py, wgan.py) and of apply_network (learn/util.py).  What a training
    step computes is not modelled, only which steps run, on which rows, in which
    epochs, and what the callbacks are told. *)
From Verif Require Import PyBase PyFacts PyMore PyRange.
Local Open Scope Z_scope.

(** ** Callbacks: a dict keyed by the identity of the callback object *)
(** trainer.py:76-77 register: an existing key keeps its place *)
Fixpoint register {C} (id : Z) (c : C) (d : list (Z * C)) : list (Z * C) :=
  match d with
  | [] => [(id, c)]
  | (i, c') :: d' => if i =? id then (i, c) :: d' else (i, c') :: register id c d'
  end.
(** trainer.py:79-84 unregister: a missing key is ignored *)
Fixpoint unregister {C} (id : Z) (d : list (Z * C)) : list (Z * C) :=
  match d with
  | [] => []
  | (i, c') :: d' => if i =? id then d' else (i, c') :: unregister id d'
  end.

(** trainer.py:7-15 *)
Record settings := { s_epochs : Z; s_batch : Z; s_checkpoint : Z }.

(** Iterate with a break and exceptions: events so far, epochs completed and how
    it ended.  [stop e] is the [break] test, [body e] the batches of epoch [e].
    trainer.py:60-72, supervised.py:75-80,122; embedding.py:60-70; wgan.py:167-173,246 *)
Section Loop.
  Context {EV : Type} (stop : Z -> bool) (body : Z -> list EV * result unit).
  Fixpoint epoch_loop (n : nat) (epoch current : Z) : list EV * Z * result unit :=
    match n with
    | O => ([], current, Ok tt)
    | S n' =>
        if stop epoch then ([], current, Ok tt)
        else match body epoch with
             | (evs, Raise e) => (evs, current, Raise e)
             | (evs, Ok _) =>
                 let '(evs', c, r) := epoch_loop n' (epoch + 1) (current + 1) in (evs ++ evs', c, r)
             end
    end.
  (** [range(start, stop)] with start = _current_epoch, stop = start + checkpoint_epochs *)
  Definition run_epochs (checkpoint current : Z) : list EV * Z * result unit :=
    epoch_loop (Z.to_nat checkpoint) current current.
End Loop.

(** Run the batches in order until one fails. *)
Fixpoint run_batches {EV} (f : Z -> list EV * result unit) (is : list Z) : list EV * result unit :=
  match is with
  | [] => ([], Ok tt)
  | i :: is' =>
      match f i with
      | (evs, Raise e) => (evs, Raise e)
      | (evs, Ok _) => let '(evs', r) := run_batches f is' in (evs ++ evs', r)
      end
  end.

Section Trainers.
  Context {A C ERR : Type}.
  Inductive event :=
  | Step (epoch batch : Z) (rows : list A)                 (* one training step *)
  | Called (callback : C) (epoch batch : Z)                (* a callback told of a batch *)
           (train_error test_error : option ERR).          (* the errors it is told, if any *)
  (** trainer.py:86-88 *)
  Definition notify (cbs : list (Z * C)) (epoch batch : Z) (tr te : option ERR) : list event :=
    map (fun p => Called (snd p) epoch batch tr te) cbs.
  (** does the training step raise? *)
  Context (fails : Z -> Z -> option exn).

  (** trainer.py:59-74 Trainer.train.  The step is handed all the data. *)
  Definition base_batch (cbs : list (Z * C)) (data : list A) (epoch batch : Z) : list event * result unit :=
    match fails epoch batch with
    | Some e => ([], Raise e)
    | None => (Step epoch batch data :: notify cbs epoch batch None None, Ok tt)
    end.
  Definition base_epoch (s : settings) (cbs : list (Z * C)) (data : list A) (epoch : Z) : list event * result unit :=
    match py_range 0 (Zlen data) (s_batch s) with
    | Raise e => ([], Raise e)
    | Ok is => run_batches (base_batch cbs data epoch) is
    end.
  Definition base_train (s : settings) (cbs : list (Z * C)) (data : list A) (current : Z) : list event * Z * result unit :=
    run_epochs (fun epoch => s_epochs s <? epoch) (base_epoch s cbs data) (s_checkpoint s) current.

  (** embedding.py:57-70,85-122 TripletEmbeddingTrainer: whole batches only; the
      rows of a batch are drawn at random from the data *)
  Definition triplet_batch (cbs : list (Z * C)) (draw : Z -> Z -> list A) (epoch batch : Z) : list event * result unit :=
    match fails epoch batch with
    | Some e => ([], Raise e)
    | None => (Step epoch batch (draw epoch batch) :: notify cbs epoch batch None None, Ok tt)
    end.
  Definition triplet_train (s : settings) (cbs : list (Z * C)) (data : list A) (draw : Z -> Z -> list A) (current : Z)
    : list event * Z * result unit :=
    if s_batch s =? 0 then ([], current, Raise ZeroDivisionError)
    else run_epochs (fun epoch => s_epochs s <? epoch)
           (fun epoch => run_batches (triplet_batch cbs draw epoch) (zrange (Zlen data / s_batch s)))
           (s_checkpoint s) current.

  (** wgan.py:153-248 WassersteinGanTrainer: one generator step per batch; its
      minibatches are drawn at random *)
  Definition wgan_train (s : settings) (cbs : list (Z * C)) (data : list A) (draw : Z -> Z -> list A) (current : Z)
    : list event * Z * result unit :=
    run_epochs (fun epoch => s_epochs s <=? epoch)
      (fun epoch => match py_range 0 (Zlen data) (s_batch s) with
                    | Raise e => ([], Raise e)
                    | Ok is => run_batches (triplet_batch cbs draw epoch) is
                    end) (s_checkpoint s) current.

  (** supervised.py:53-124.  A row is an example with its label.  [holdout] is
      int(holdout_percent * len(data)); [err epoch batch rows] is the loss of a
      training batch, [terr] that of the test batch drawn.  The training error is
      reported as [test_error] and the other way round (supervised.py:115-120). *)
  Context (err : Z -> Z -> list A -> ERR) (terr : Z -> Z -> ERR).
  Definition supervised_batch (cbs : list (Z * C)) (s : settings) (holdout : Z) (train : list A) (epoch i : Z)
    : list event * result unit :=
    let rows := py_slice (Some i) (Some (i + s_batch s)) train in
    match fails epoch i with
    | Some e => ([], Raise e)
    | None =>
        let e := err epoch i rows in
        let te := if holdout =? 0 then None else Some (terr epoch i) in
        (Step epoch i rows :: notify cbs epoch i te (Some e), Ok tt)
    end.
  Definition supervised_epoch (s : settings) (cbs : list (Z * C)) (data : list A) (holdout : Z) (epoch : Z) : list event * result unit :=
    let train := py_slice (Some holdout) None data in
    match py_range 0 (Zlen train) (s_batch s) with
    | Raise e => ([], Raise e)
    | Ok is => run_batches (supervised_batch cbs s holdout train epoch) is
    end.
  Definition supervised_train (s : settings) (cbs : list (Z * C)) (data : list A) (holdout : Z) (current : Z) : list event * Z * result unit :=
    run_epochs (fun epoch => s_epochs s <=? epoch) (supervised_epoch s cbs data holdout) (s_checkpoint s) current.
End Trainers.
Arguments event : clear implicits.

(** util.py:92-109 apply_network; [net] is the network on a stack of rows.
    np.concatenate of nothing is a ValueError. *)
Definition apply_network {A B} (net : list A -> list B) (x : list A) (chunksize : option Z) : result (list B) :=
  match chunksize with
  | None => Ok (net x)
  | Some c =>
      do is <- py_range 0 (Zlen x) c;
      match is with
      | [] => Raise ValueError
      | _ => Ok (concat (map (fun i => net (py_slice (Some i) (Some (i + c)) x)) is))
      end
  end.
