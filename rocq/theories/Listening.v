(** Model of one HammingDb used by several threads at once: HammingIndex with listen=True
    (index/index.py:52-53, 94-97) appends in a thread of its own while other threads search.  Every
    thread's step is one action on shared state; the scheduler picks any thread at any time.
    What is shared (index/hammingdb.py:48-53): the lmdb environment, [_code_bytearray] and its
    view [_code_buffer], [_append_buffer], [_codes] and [_ids].

    Simplified: codes have the right size (C09 has the check) and the database is not writeonly; the
    growing of [_codes]' array (C05) is not a step of its own, a view taken before it sees the same
    rows; ids are random 128-bit numbers and taken to be new. *)
From Coq Require Import ZArith NArith.
From Verif Require Import PyBase PyFacts PyMore HammingDb.

Section Listening.
  (** [dist]: one row of packed_hamming_distance; [select scores n]: argpartition and argsort,
      hammingdb.py:185-201; [junk]: a row of the array nothing was written to yet *)
  Context {code data : Type} (dist : code -> code -> N) (select : list N -> nat -> result (list nat)) (junk : id * code).
  Definition entry : Type := id * (code * data).

  (** what a thread does next.
      hammingdb.py:123-131 [_add_code]: the row's id; [_np_code] writes the shared buffer; the
      row's code is copied from it; Growable.append writes the row behind the last and counts it
      (npx.py:105-116); the id is remembered. *)
  Inductive add_pc := ToId | ToWrite | ToCopy | ToSlot | ToCount | ToMember.
  (** where [_add_code] was called: in [append] (hammingdb.py:155) or in
      [_catch_up_on_in_memory_store] (hammingdb.py:77-87) with these entries still to visit *)
  Inductive cont := ThenCommit | ThenCatch (q : code) (n l : nat) (todo : list entry).
  (** hammingdb.py:159-209 [search] of the query [q] for [n] results: the size on disk is read
      ([l]); compared; the new entries are added; the query is written to the shared buffer; the
      rows are looked at; one score after the other is computed from the shared buffer; the rows
      are chosen; their ids are looked up on disk. *)
  Inductive pc :=
  | Idle
  | Adding (a : add_pc) (k : id) (c : code) (t : cont)
  | Committing
  | Sizing (q : code) (n : nat)
  | Comparing (q : code) (n l : nat)
  | Catching (q : code) (n l : nat) (todo : list entry)
  | Querying (q : code) (n l : nat)
  | Viewing (q : code) (n l : nat)
  | Scoring (q : code) (n l : nat) (view : list code) (scores : list N)
  | Choosing (q : code) (n l : nat) (scores : list N)
  | Fetching (q : code) (n l : nat) (ks : list id)
  | Answered (q : code) (n l : nat) (r : result (list data)).
  Record state := {
    disk : list entry;                 (* committed *)
    pending : option entry;            (* put in the one write transaction lmdb allows at a time *)
    buf : code;                        (* [_code_bytearray] *)
    row : id * code;                   (* [_append_buffer] *)
    cells : list (id * code);          (* [_codes.logical_data] *)
    slot : id * code;                  (* the row behind the last one *)
    ids : list id;                     (* [_ids] *)
    threads : nat -> pc }.

  Definition setpc (f : nat -> pc) (i : nat) (p : pc) (j : nat) : pc := if Nat.eqb j i then p else f j.
  Definition goto (s : state) (i : nat) (p : pc) : state :=
    {| disk := disk s; pending := pending s; buf := buf s; row := row s; cells := cells s; slot := slot s; ids := ids s; threads := setpc (threads s) i p |}.
  Definition with_buf (s : state) (b : code) : state :=
    {| disk := disk s; pending := pending s; buf := b; row := row s; cells := cells s; slot := slot s; ids := ids s; threads := threads s |}.
  Definition with_row (s : state) (r : id * code) : state :=
    {| disk := disk s; pending := pending s; buf := buf s; row := r; cells := cells s; slot := slot s; ids := ids s; threads := threads s |}.
  Definition with_cells (s : state) (cs : list (id * code)) (x : id * code) : state :=
    {| disk := disk s; pending := pending s; buf := buf s; row := row s; cells := cs; slot := x; ids := ids s; threads := threads s |}.
  Definition with_ids (s : state) (l : list id) : state :=
    {| disk := disk s; pending := pending s; buf := buf s; row := row s; cells := cells s; slot := slot s; ids := l; threads := threads s |}.
  Definition with_disk (s : state) (d : list entry) (p : option entry) : state :=
    {| disk := d; pending := p; buf := buf s; row := row s; cells := cells s; slot := slot s; ids := ids s; threads := threads s |}.
  (** txn.get(_id)[code_size:], hammingdb.py:207-209; None[...] is a TypeError *)
  Definition lookup_data (d : list entry) (k : id) : result data :=
    match find (fun e => N.eqb (fst e) k) d with Some e => Ok (snd (snd e)) | None => Raise TypeError end.

  (** one step of thread [i] *)
  Definition advance (s : state) (i : nat) : option state :=
    match threads s i with
    | Idle => None
    | Adding ToId k c t => Some (goto (with_row s (k, snd (row s))) i (Adding ToWrite k c t))
    | Adding ToWrite k c t => Some (goto (with_buf s c) i (Adding ToCopy k c t))
    | Adding ToCopy k c t => Some (goto (with_row s (fst (row s), buf s)) i (Adding ToSlot k c t))
    | Adding ToSlot k c t => Some (goto (with_cells s (cells s) (row s)) i (Adding ToCount k c t))
    | Adding ToCount k c t => Some (goto (with_cells s (cells s ++ [slot s]) junk) i (Adding ToMember k c t))
    | Adding ToMember k c t =>
        Some (goto (with_ids s (k :: ids s)) i (match t with ThenCommit => Committing | ThenCatch q n l todo => Catching q n l todo end))
    | Committing => match pending s with Some e => Some (goto (with_disk s (disk s ++ [e]) None) i Idle) | None => None end
    | Sizing q n => Some (goto s i (Comparing q n (length (disk s))))
    | Comparing q n l => Some (goto s i (if Nat.eqb l (length (cells s)) then Querying q n l else Catching q n l (disk s)))
    | Catching q n l [] => Some (goto s i (Querying q n l))
    | Catching q n l (e :: todo) =>
        Some (goto s i (if existsb (N.eqb (fst e)) (ids s) then Catching q n l todo else Adding ToId (fst e) (fst (snd e)) (ThenCatch q n l todo)))
    | Querying q n l => Some (goto (with_buf s q) i (Viewing q n l))
    | Viewing q n l => Some (goto s i (Scoring q n l (map snd (cells s)) []))
    | Scoring q n l [] sc => Some (goto s i (Choosing q n l sc))
    | Scoring q n l (c :: view) sc => Some (goto s i (Scoring q n l view (sc ++ [dist (buf s) c])))
    | Choosing q n l sc =>
        Some (goto s i (match select sc n with
                        | Ok idx => Fetching q n l (map (fun j => fst (nth j (cells s) junk)) idx)
                        | Raise e => Answered q n l (Raise e)
                        end))
    | Fetching q n l ks => Some (goto s i (Answered q n l (mapM (lookup_data (disk s)) ks)))
    | Answered _ _ _ _ => Some (goto s i Idle)
    end.

  (** what can happen: a thread starts to append or to search, a thread goes on; another process
      commits an entry of its own *)
  Inductive label := Append (e : entry) | Search (q : code) | Other | External (e : entry).
  Definition new_id (s : state) (k : id) : Prop := ~ In k (ids s) /\ ~ In k (map fst (disk s)).
  Inductive step : state -> label -> state -> Prop :=
  | start_append s i k c d : threads s i = Idle -> pending s = None -> new_id s k ->
      step s (Append (k, (c, d))) (goto (with_disk s (disk s) (Some (k, (c, d)))) i (Adding ToId k c ThenCommit))
  | start_search s i q n : threads s i = Idle -> step s (Search q) (goto s i (Sizing q n))
  | go_on s i s' : advance s i = Some s' -> step s Other s'
  | external s e : pending s = None -> new_id s (fst e) -> step s (External e) (with_disk s (disk s ++ [e]) None).
  Inductive run : state -> list label -> state -> Prop :=
  | run_nil s : run s [] s
  | run_snoc s tr s1 l s2 : run s tr s1 -> step s1 l s2 -> run s (tr ++ [l]) s2.
  (** a process that has just opened the database (hammingdb.py:48-55) *)
  Definition opened (d : list entry) (b : code) : state :=
    {| disk := d; pending := None; buf := b; row := junk; cells := map (fun e => (fst e, fst (snd e))) d; slot := junk; ids := map fst d; threads := fun _ => Idle |}.

  (** the same, with a lock that is held from writing the shared buffer until the last use of what
      was written: not in the code *)
  Definition holding (p : pc) : Prop := match p with Adding ToCopy _ _ _ | Viewing _ _ _ | Scoring _ _ _ _ _ => True | _ => False end.
  Definition writing (p : pc) : Prop := match p with Adding ToWrite _ _ _ | Querying _ _ _ => True | _ => False end.
  Inductive locked_step : state -> label -> state -> Prop :=
  | locked_start s l s' : step s l s' -> l <> Other -> (forall e, l <> External e) -> locked_step s l s'
  | locked_go s i s' : advance s i = Some s' -> (writing (threads s i) -> forall j, ~ holding (threads s j)) -> locked_step s Other s'.
  Inductive locked_run : state -> list label -> state -> Prop :=
  | locked_nil s : locked_run s [] s
  | locked_snoc s tr s1 l s2 : locked_run s tr s1 -> locked_step s1 l s2 -> locked_run s (tr ++ [l]) s2.
End Listening.
Arguments entry : clear implicits.
Arguments pc : clear implicits.
Arguments state : clear implicits.
Arguments label : clear implicits.
