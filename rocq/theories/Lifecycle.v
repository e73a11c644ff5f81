(** Model of the life of an application of zounds/ui (baseapp.py:245-269): started in a thread of its
    own, used inside a with block, stopped at its end; started in the main thread.  Every application
    of a process uses one loop (tornado 4.5.3, IOLoop.instance()).  A schedule says which thread makes
    the next step. *)
From Coq Require Import ZArith.
From Verif Require Import PyBase PyFacts.
Local Open Scope Z_scope.

(** the thread of an application: not started; before app.listen; before IOLoop.start; in the loop;
    returned; died with an exception *)
Inductive thread := Unborn | Preparing (port : Z) | Ready | Looping | Finished | Died (e : exn).
(** [self.server]: None, or a server with its port, open or stopped *)
Record app := { a_server : option (Z * bool); a_thread : thread }.
(** tornado 4.5.3, PollIOLoop: [running] is _running, [stops] the ioloop.stop callbacks not yet run.
    (_stopped is only true while such a callback and the end of start run, which is one step here.) *)
Record ioloop := { running : bool; stops : nat }.
(** what the main thread does: start_in_thread; something else; the three calls of __exit__
    (baseapp.py:255-259); start (baseapp.py:267-269): listen, run the loop, until it returns *)
Inductive instr := StartThread (i : nat) (port : Z) | Work | AddStop | StopServer (i : nat) | Join (i : nat) | Listen (i : nat) (port : Z) | RunLoop | InLoop.
(** [with app.start_in_thread(port): body] *)
Definition with_app (i : nat) (port : Z) (body : list instr) : list instr := (StartThread i port :: body ++ [AddStop; StopServer i; Join i])%list.
(** [app.start(port)] *)
Definition serve (i : nat) (port : Z) : list instr := [Listen i port; RunLoop].
Record process := { loop : ioloop; apps : list app; main : list instr; raised : option exn }.

Definition app_at (p : process) (i : nat) : app := nth i (apps p) {| a_server := None; a_thread := Unborn |}.
Fixpoint put_app (i : nat) (a : app) (l : list app) : list app :=
  match l, i with [], _ => [] | _ :: r, O => a :: r | x :: r, S j => x :: put_app j a r end.
(** a port is taken while a server listens on it *)
Definition taken (port : Z) (p : process) : bool := existsb (fun a => match a_server a with Some (q, true) => q =? port | _ => false end) (apps p).
(** somebody answers at a port *)
Definition answers (port : Z) (p : process) : bool := running (loop p) && taken port p.
Definition dead_or_done (t : thread) : bool := match t with Finished | Died _ => true | _ => false end.

(** ** The main thread *)
Definition goes_on (p : process) (r : list instr) (l : ioloop) (a : list app) : process := {| loop := l; apps := a; main := r; raised := None |}.
Definition fails (p : process) (e : exn) : process := {| loop := loop p; apps := apps p; main := []; raised := Some e |}.
(** tornado 4.5.3, PollIOLoop.start: what happens to a thread that calls it *)
Definition enter_loop (l : ioloop) : result ioloop := if running l then Raise RuntimeError else Ok {| running := true; stops := stops l |}.
(** one round of the loop with a stop callback: start returns; [None]: the loop waits *)
Definition leave_loop (l : ioloop) : option ioloop := match stops l with O => None | S _ => Some {| running := false; stops := 0 |} end.
(** [None]: the thread waits.  A port that is taken is an OSError ([OtherError]). *)
Definition main_step (p : process) : option process :=
  match main p with
  | [] => None
  | StartThread i port :: r => Some (goes_on p r (loop p) (put_app i {| a_server := a_server (app_at p i); a_thread := Preparing port |} (apps p)))
  | Work :: r => Some (goes_on p r (loop p) (apps p))
  | AddStop :: r => Some (goes_on p r {| running := running (loop p); stops := S (stops (loop p)) |} (apps p))
  | StopServer i :: r =>
      match a_server (app_at p i) with
      | None => Some (fails p AttributeError)
      | Some (port, _) => Some (goes_on p r (loop p) (put_app i {| a_server := Some (port, false); a_thread := a_thread (app_at p i) |} (apps p)))
      end
  | Join i :: r => if dead_or_done (a_thread (app_at p i)) then Some (goes_on p r (loop p) (apps p)) else None
  | Listen i port :: r =>
      if taken port p then Some (fails p OtherError)
      else Some (goes_on p r (loop p) (put_app i {| a_server := Some (port, true); a_thread := a_thread (app_at p i) |} (apps p)))
  | RunLoop :: r => match enter_loop (loop p) with Raise e => Some (fails p e) | Ok l => Some (goes_on p (InLoop :: r) l (apps p)) end
  | InLoop :: r => match leave_loop (loop p) with None => None | Some l => Some (goes_on p r l (apps p)) end
  end.
(** ** The thread of application [i], baseapp.py:261-265 *)
Definition thread_step (i : nat) (p : process) : option process :=
  let a := app_at p i in
  let become l s t := Some {| loop := l; apps := put_app i {| a_server := s; a_thread := t |} (apps p); main := main p; raised := raised p |} in
  match a_thread a with
  | Preparing port => if taken port p then become (loop p) (a_server a) (Died OtherError) else become (loop p) (Some (port, true)) Ready
  | Ready => match enter_loop (loop p) with Raise e => become (loop p) (a_server a) (Died e) | Ok l => become l (a_server a) Looping end
  | Looping => match leave_loop (loop p) with None => None | Some l => become l (a_server a) Finished end
  | _ => None
  end.
(** ** Schedules *)
Inductive turn := Main | Thread (i : nat).
Definition step (t : turn) (p : process) : option process := match t with Main => main_step p | Thread i => thread_step i p end.
Fixpoint run (ts : list turn) (p : process) : option process :=
  match ts with [] => Some p | t :: r => match step t p with Some p' => run r p' | None => None end end.
