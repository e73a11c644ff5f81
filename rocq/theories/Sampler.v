(** Model of zounds/learn/random_samples.py InfiniteSampler: how much a document
    contributes, the rounds it makes over a database, and what the threads of a
    parallel round do to the reservoir they share. *)
From Coq Require Import QArith Qround.
From Verif Require Import PyBase PyFacts PyMore Float64 Reservoir.
Local Open Scope Z_scope.

(** random_samples.py:184-196: [int(nsamples * (float(feature_size) / total_samples))]
    in double precision, at least 1; np.random.randint(0, 0, k) raises ValueError *)
Definition contribution (n f total : Z) : result Z :=
  if total =? 0 then Raise ZeroDivisionError
  else
    let ratio := fl (f # Z.to_pos total) in
    let k := Z.max 1 (Qfloor (fl (inject_Z n * ratio))) in
    if f =? 0 then Raise ValueError else Ok k.

Section Sampler.
  Context {A : Type} (zero : A).
  (** random_samples.py:160-174; the sum does not depend on the order in which the
      threads deliver the lengths.  A document is its filtered feature. *)
  Definition total_samples (docs : list (list A)) : Z := fold_right Z.add 0 (map Zlen docs).

  (** What the random generator returned for one document: positions in it, and slots
      of the reservoir *)
  Record draw := { d_rows : list Z; d_slots : list Z }.
  (** random_samples.py:176-199 _update_reservoir *)
  Definition update_reservoir (total : Z) (r : reservoir A) (doc : list A) (d : draw) : reservoir A * result Z :=
    match contribution (nsamples r) (Zlen doc) total with
    | Raise e => (r, Raise e)
    | Ok _ =>
        match mapM (py_get doc) (d_rows d) with
        | Raise e => (r, Raise e)
        | Ok rows =>
            match add zero r rows None (d_slots d) with
            | (r', Ok _) => (r', Ok (Zlen (d_rows d)))
            | (r', Raise e) => (r', Raise e)
            end
        end
    end.
  (** random_samples.py:217-219 one round without threads *)
  Fixpoint sampler_round (total : Z) (r : reservoir A) (docs : list (list A)) (ds : list draw) : reservoir A * result unit :=
    match docs, ds with
    | doc :: docs', d :: ds' =>
        match update_reservoir total r doc d with
        | (r', Ok _) => sampler_round total r' docs' ds'
        | (r', Raise e) => (r', Raise e)
        end
    | _, _ => (r, Ok tt)
    end.
  (** random_samples.py:201-221 the generator: what it yields in the rounds whose
      draws are given; it ends with the first exception *)
  Fixpoint sampler_yields (total : Z) (r : reservoir A) (docs : list (list A)) (rounds : list (list draw)) : list (result (list A)) :=
    match rounds with
    | [] => []
    | ds :: rounds' =>
        match sampler_round total r docs ds with
        | (_, Raise e) => [Raise e]
        | (r', Ok _) =>
            match get r' with
            | Raise e => [Raise e]
            | Ok x => Ok x :: sampler_yields total r' docs rounds'
            end
        end
    end.
  Definition sampler_process (n : Z) (docs : list (list A)) (rounds : list (list draw)) : result (list (result (list A))) :=
    do r <- make_reservoir n; Ok (sampler_yields (total_samples docs) r docs rounds).

  (** ** Threads *)
  (** one worker of a parallel round: the rows it contributes, the slots it has
      drawn, and whether its rows have dimensions *)
  Record worker := { w_rows : list A; w_slots : list nat; w_dims : bool }.
  (** random_samples.py:29-40, 42-55: the reads and writes of the shared reservoir, in
      order.  The interpreter may switch threads between any two of them; writing rows
      and updating the set are single calls into C. *)
  Inductive pc :=
  | PCheck               (* 30: self.arr is not None? *)
  | PAlloc               (* 34: self.arr = np.zeros *)
  | PWrapLoad            (* 37: the argument self.arr *)
  | PWrapStore (a : nat) (* 37: self.arr = ArrayWithUnits of the same memory *)
  | PLoad                (* 54: self.arr *)
  | PWrite (a : nat)     (* 54: [indices, ...] = samples *)
  | PRecord              (* 55: self.indices.update *)
  | PDone
  | PFailed.             (* None has no items *)
  (** [memory]: the arrays allocated so far; [current]: which one self.arr is *)
  Record shared := { memory : list (list A); current : option nat; recorded : list nat }.
  Definition write_rows (w : worker) (arr : list A) : list A :=
    fold_left (fun a p => set_nth (fst p) (snd p) a) (combine (w_slots w) (w_rows w)) arr.
  Definition wstep (n : nat) (w : worker) (p : pc) (s : shared) : pc * shared :=
    match p with
    | PCheck => (match current s with None => PAlloc | Some _ => PLoad end, s)
    | PAlloc => (if w_dims w then PWrapLoad else PLoad,
                 {| memory := memory s ++ [repeat zero n]; current := Some (length (memory s)); recorded := recorded s |})
    | PWrapLoad => (match current s with Some a => PWrapStore a | None => PFailed end, s)
    | PWrapStore a => (PLoad, {| memory := memory s; current := Some a; recorded := recorded s |})
    | PLoad => (match current s with Some a => PWrite a | None => PFailed end, s)
    | PWrite a => (PRecord, {| memory := set_nth a (write_rows w (nth a (memory s) [])) (memory s);
                               current := current s; recorded := recorded s |})
    | PRecord => (PDone, {| memory := memory s; current := current s; recorded := recorded s ++ w_slots w |})
    | PDone => (PDone, s)
    | PFailed => (PFailed, s)
    end.
  (** random_samples.py:210-216 the workers of a round under a schedule: whose turn it is *)
  Fixpoint run_threads (n : nat) (ws : list worker) (sched : list nat) (pcs : list pc) (s : shared) : list pc * shared :=
    match sched with
    | [] => (pcs, s)
    | t :: sched' =>
        match nth_error ws t, nth_error pcs t with
        | Some w, Some p => let '(p', s') := wstep n w p s in run_threads n ws sched' (set_nth t p' pcs) s'
        | _, _ => run_threads n ws sched' pcs s
        end
    end.
  Definition start_pcs (ws : list worker) : list pc := map (fun _ => PCheck) ws.
  Definition fresh : shared := {| memory := []; current := None; recorded := [] |}.
  (** what get (random_samples.py:57-62) finds in a slot *)
  Definition slot_value (s : shared) (i : nat) : option A :=
    match current s with None => None | Some a => nth_error (nth a (memory s) []) i end.
End Sampler.
Arguments worker : clear implicits.
Arguments shared : clear implicits.
