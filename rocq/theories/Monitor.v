(** Model of a training that is watched: TrainingMonitorApp (zounds/ui/training_monitor.py) and the
    callbacks of the trainer (zounds/learn/trainer.py).  The training runs in one thread, the web
    server with its websockets in another (baseapp.py:245-250); a schedule says who makes the next
    step.  A callback runs as one step. *)
From Coq Require Import ZArith String.
From Verif Require Import PyBase PyFacts PyMore Ui.
Local Open Scope string_scope.
Local Open Scope list_scope.
Local Open Scope Z_scope.

Section Monitor.
  (** a value that json can write, and others (a network, tensors) *)
  Context {J : Type} (int : Z -> J).
  Inductive value := Plain (j : J) | Opaque.
  (** the keyword arguments of on_batch_complete: trainer.py:68-70, supervised.py:115-120,
      embedding.py:118-122, wgan.py:237-244 *)
  Record batch_report := { br_epoch : Z; br_batch : Z; br_values : list (string * value) }.
  Fixpoint find_key {X} (l : list (string * X)) (k : string) : option X :=
    match l with [] => None | (k', v) :: r => if String.eqb k' k then Some v else find_key r k end.
  Definition kwarg (r : batch_report) (k : string) : option value :=
    if String.eqb k "epoch" then Some (Plain (int (br_epoch r)))
    else if String.eqb k "batch" then Some (Plain (int (br_batch r)))
    else find_key (br_values r) k.
  (** [data[key] = value] *)
  Fixpoint put_key {X} (l : list (string * X)) (k : string) (v : X) : list (string * X) :=
    match l with [] => [(k, v)] | (k', v') :: r => if String.eqb k' k then (k', v) :: r else (k', v') :: put_key r k v end.
  (** json.dumps of a dict; the message is what the browser parses *)
  Fixpoint dumps (l : list (string * value)) : result (list (string * J)) :=
    match l with
    | [] => Ok []
    | (k, Plain j) :: r => do m <- dumps r; Ok ((k, j) :: m)
    | (k, Opaque) :: r => Raise TypeError
    end.
  (** training_monitor.py:35-48; [epoch_key] and [batch_key] are kept and never read *)
  Record monitor := { m_keys : list string; m_frequency : Z; m_points : Z }.
  (** training_monitor.py:88-95 *)
  Definition message (m : monitor) (r : batch_report) : result (list (string * J)) :=
    dumps (fold_left (fun d k => match kwarg r k with Some v => put_key d k v | None => d end) (m_keys m)
             [("epoch", Plain (int (br_epoch r))); ("batch", Plain (int (br_batch r)))]).
  (** training_monitor.py:58-74: self.training_history is a defaultdict(list) *)
  Definition history_step (m : monitor) (r : batch_report) (h : string -> list value) (k : string) : string -> list value :=
    let l := py_slice (Some (- m_points m)) None (h k) in
    fun x => if String.eqb x k then match kwarg r k with Some v => (l ++ [v])%list | None => l end else h x.
  Definition remember (m : monitor) (r : batch_report) (h : string -> list value) : result (string -> list value) :=
    if m_frequency m =? 0 then Raise ZeroDivisionError
    else if negb (br_batch r mod m_frequency m =? 0) then Ok h
    else Ok (fold_left (history_step m r) (m_keys m) h).

  (** what the trainers report: supervised.py:103-120 ([te] is the error on the held out data or
      'n/a', [e] the error on the training batch), wgan.py:233-244, embedding.py:118-122 *)
  Definition supervised_report (epoch batch : Z) (te e : J) : batch_report := {| br_epoch := epoch; br_batch := batch; br_values := [("train_error", Plain te); ("test_error", Plain e); ("samples", Opaque)] |}.
  Definition gan_report (epoch batch : Z) (gl rl dl : J) : batch_report := {| br_epoch := epoch; br_batch := batch; br_values := [("generator_score", Plain gl); ("real_score", Plain rl); ("critic_loss", Plain dl); ("samples", Opaque); ("network", Opaque)] |}.
  Definition triplet_report (epoch batch : Z) (error deformation : J) : batch_report := {| br_epoch := epoch; br_batch := batch; br_values := [("error", Plain error); ("deformation", Plain deformation)] |}.
  (** their monitors: training_monitor.py:154, 185, 216 *)
  Definition supervised_keys : list string := ["train_error"; "test_error"].
  Definition gan_keys : list string := ["generator_score"; "real_score"; "critic_loss"].
  Definition triplet_keys : list string := ["error"].

  (** ** The two threads *)
  (** what is registered with the trainer: the history of the application, a websocket, others
      (which neither fail nor register anything) *)
  Inductive callback := History | Client (h : nat) | Another (n : nat).
  (** the trainer: between two batches; in the loop of trainer.py:86-88 over the callbacks, at entry
      [pos], the dict having [used] entries when the loop began; ended by an exception *)
  Inductive phase := Between (todo : list batch_report) | Telling (r : batch_report) (pos used : nat) (todo : list batch_report) | Ended (e : exn).
  (** [table] is the entry table of the dict _batch_complete_callbacks: a deleted entry leaves a hole *)
  Record world := {
    table : list (option callback);
    connected : list nat;            (* the websockets that were ever opened *)
    gone : list nat;                 (* those whose connection is closed *)
    inbox : nat -> list (list (string * J));
    history : string -> list value;
    reported : list batch_report;    (* the batches all callbacks were told of *)
    trainer : phase }.
  Definition live (t : list (option callback)) : list callback := flat_map (fun o => match o with Some c => [c] | None => [] end) t.
  (** CPython's dictiter_iternextvalue: the next entry that is no hole, at or after [pos] *)
  Fixpoint next_entry (t : list (option callback)) (pos : nat) : option (nat * callback) :=
    match t, pos with
    | [], _ => None
    | _ :: r, S p => match next_entry r p with Some (i, c) => Some (S i, c) | None => None end
    | Some c :: _, O => Some (O, c)
    | None :: r, O => match next_entry r O with Some (i, c) => Some (S i, c) | None => None end
    end.
  Definition mem_nat (h : nat) (l : list nat) : bool := existsb (Nat.eqb h) l.
  (** training_monitor.py:80-97 (a websocket), 58-74 (the history).  WebSocketClosedError is
      [OtherError]: tornado 4.5.3, WebSocketHandler.write_message when the connection is gone. *)
  Definition call (m : monitor) (c : callback) (r : batch_report) (w : world) : result world :=
    match c with
    | Another _ => Ok w
    | History => do h <- remember m r (history w); Ok {| table := table w; connected := connected w; gone := gone w; inbox := inbox w; history := h; reported := reported w; trainer := trainer w |}
    | Client h =>
        if m_frequency m =? 0 then Raise ZeroDivisionError
        else if negb (br_batch r mod m_frequency m =? 0) then Ok w
        else do t <- message m r;
             if mem_nat h (gone w) then Raise OtherError
             else Ok {| table := table w; connected := connected w; gone := gone w; inbox := fun x => if Nat.eqb x h then (inbox w x ++ [t])%list else inbox w x; history := history w; reported := reported w; trainer := trainer w |}
    end.
  Definition at_phase (w : world) (p : phase) : world := {| table := table w; connected := connected w; gone := gone w; inbox := inbox w; history := history w; reported := reported w; trainer := p |}.
  (** a step of a schedule: the training's thread; a websocket opens (the dict may drop its holes when
      it grows: [compact]); its connection goes away; its on_close runs *)
  Inductive turn := Train | Open (h : nat) (compact : bool) | Lose (h : nat) | Close (h : nat).
  (** [del] leaves a hole *)
  Definition drop (h : nat) (t : list (option callback)) : list (option callback) :=
    map (fun o => match o with Some (Client x) => if Nat.eqb x h then None else o | _ => o end) t.
  Definition registered (h : nat) (w : world) : bool := existsb (fun o => match o with Some (Client x) => Nat.eqb x h | _ => false end) (table w).
  (** trainer.py:86-88: CPython compares the size of the dict before every entry, and before the end *)
  Definition tell (m : monitor) (w : world) : option world :=
    match trainer w with
    | Between [] => None
    | Between (r :: todo) => Some (at_phase w (Telling r 0 (length (live (table w))) todo))
    | Telling r pos used todo =>
        if negb (Nat.eqb (length (live (table w))) used) then Some (at_phase w (Ended RuntimeError))
        else match next_entry (table w) pos with
             | None => Some {| table := table w; connected := connected w; gone := gone w; inbox := inbox w; history := history w; reported := (reported w ++ [r])%list; trainer := Between todo |}
             | Some (i, c) => match call m c r w with Raise e => Some (at_phase w (Ended e)) | Ok w' => Some (at_phase w' (Telling r (S i) used todo)) end
             end
    | Ended _ => None
    end.
  (** [None]: this step cannot happen now.  trainer.py:76-84; training_monitor.py:99-106; tornado
      4.5.3 closes a connection (ws_connection = None) before it calls on_close *)
  Definition step (m : monitor) (t : turn) (w : world) : option world :=
    match t with
    | Train => tell m w
    | Open h compact =>
        if mem_nat h (connected w) then None
        else Some {| table := ((if compact then map Some (live (table w)) else table w) ++ [Some (Client h)])%list; connected := h :: connected w; gone := gone w; inbox := inbox w; history := history w; reported := reported w; trainer := trainer w |}
    | Lose h =>
        if mem_nat h (connected w) && negb (mem_nat h (gone w))
        then Some {| table := table w; connected := connected w; gone := h :: gone w; inbox := inbox w; history := history w; reported := reported w; trainer := trainer w |}
        else None
    | Close h =>
        if mem_nat h (gone w) && registered h w
        then Some {| table := drop h (table w); connected := connected w; gone := gone w; inbox := inbox w; history := history w; reported := reported w; trainer := trainer w |}
        else None
    end.
  Fixpoint run (m : monitor) (ts : list turn) (w : world) : option world :=
    match ts with [] => Some w | t :: r => match step m t w with Some w' => run m r w' | None => None end end.
  (** training_monitor.py:48-50: a new application for a trainer that has other callbacks *)
  Definition start (before after : list nat) (batches : list batch_report) : world :=
    {| table := map (fun n => Some (Another n)) before ++ Some History :: map (fun n => Some (Another n)) after; connected := []; gone := []; inbox := fun _ => []; history := fun _ => []; reported := []; trainer := Between batches |}.
End Monitor.
Arguments value : clear implicits.
Arguments batch_report : clear implicits.
Arguments world : clear implicits.
Arguments phase : clear implicits.
