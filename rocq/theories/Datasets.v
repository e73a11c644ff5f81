(** Model of zounds/datasets: ingest.py, freesound.py, composite.py, internetarchive.py,
    filesystem.py, cache.py and util.py.  URLs and document ids are integers, bytes are
    integers; the network is what the responses given to the functions say. *)
From Verif Require Import PyBase PyFacts PyMore.
Local Open Scope Z_scope.

(** ** ingest.py *)

(** an element of the dataset: audio_metadata.py:46-70; [request] is None when [uri] has no
    url (a string or a local file), and [request.url] is then an AttributeError *)
Record meta := { m_id : Z; m_url : option Z }.

(** what happened to one item; [Errored] is an exception that left [ingest_one] *)
Inductive event := Skipped (m : meta) | Processed (m : meta) | Errored (m : meta).
Definition event_item (e : event) : meta := match e with Skipped m | Processed m | Errored m => m end.

(** ingest.py:6-18 in two atomic steps, between which other workers run: the existence
    check of lines 8-12, then [cls.process] of lines 14-18, whose exceptions are swallowed.
    [ok m] says whether processing [m] succeeds, and so makes the document exist. *)
Inductive stage := Checking | Processing.
Record pool := { p_pending : list meta; p_running : list (meta * stage); p_store : list Z; p_log : list event }.
Section Ingest.
  Variable ok : meta -> bool.
  Variable skip_if_exists : bool.
  Definition exists_ (store : list Z) (u : Z) : bool := existsb (Z.eqb u) store.
  (** lines 7-12 *)
  Definition check_item (store : list Z) (m : meta) : option event :=
    match m_url m with
    | None => Some (Errored m)
    | Some u => if skip_if_exists && exists_ store u then Some (Skipped m) else None
    end.
  (** lines 14-18 *)
  Definition process_item (store : list Z) (m : meta) : list Z :=
    match m_url m with Some u => if ok m then u :: store else store | None => store end.
  (** ingest.py:31-36 and 43-50: [pool.imap_unordered] hands the items of the dataset to
      [cores] workers in order, [pool.join] returns when all are done; the results (and the
      exceptions in them) are never looked at *)
  Inductive pool_step (cores : nat) : pool -> pool -> Prop :=
  | StepTake m rest running store log : (length running < cores)%nat ->
      pool_step cores {| p_pending := m :: rest; p_running := running; p_store := store; p_log := log |}
                      {| p_pending := rest; p_running := running ++ [(m, Checking)]; p_store := store; p_log := log |}
  | StepCheckDone pending before after m e store log : check_item store m = Some e ->
      pool_step cores {| p_pending := pending; p_running := before ++ (m, Checking) :: after; p_store := store; p_log := log |}
                      {| p_pending := pending; p_running := before ++ after; p_store := store; p_log := log ++ [e] |}
  | StepCheckGo pending before after m store log : check_item store m = None ->
      pool_step cores {| p_pending := pending; p_running := before ++ (m, Checking) :: after; p_store := store; p_log := log |}
                      {| p_pending := pending; p_running := before ++ (m, Processing) :: after; p_store := store; p_log := log |}
  | StepProcess pending before after m store log :
      pool_step cores {| p_pending := pending; p_running := before ++ (m, Processing) :: after; p_store := store; p_log := log |}
                      {| p_pending := pending; p_running := before ++ after; p_store := process_item store m; p_log := log ++ [Processed m] |}.
  Inductive pool_steps (cores : nat) : pool -> pool -> Prop :=
  | StepsRefl p : pool_steps cores p p
  | StepsStep p q r : pool_step cores p q -> pool_steps cores q r -> pool_steps cores p r.
  Definition pool_start (dataset : list meta) (store : list Z) : pool :=
    {| p_pending := dataset; p_running := []; p_store := store; p_log := [] |}.
  Definition pool_done (p : pool) : Prop := p_pending p = [] /\ p_running p = [].
  (** ingest.py:37-38, 43: [map] is lazy and its result is dropped, so nothing runs *)
  Definition ingest_single (dataset : list meta) (store : list Z) : list Z * list event := (store, []).
  (** the whole of ingest.py:21-50 as a relation between the store before and after *)
  Definition ingest (parallel : option nat) (dataset : list meta) (store store' : list Z) (log : list event) : Prop :=
    match parallel with
    | None => (store', log) = ingest_single dataset store
    | Some cores => exists p, pool_steps cores (pool_start dataset store) p /\ pool_done p /\ p_store p = store' /\ p_log p = log
    end.
End Ingest.

(** ** freesound.py:72-102.  [pages] are the pages of results of the query; the link of a page
    is its number; the last page has no [next] link, and [_iter_results(None)] starts the
    query again.  [fuel] bounds the number of page requests. *)
Fixpoint iter_results {A} (pages : list (list A)) (fuel : nat) (link : option nat) : list A :=
  match fuel with
  | O => []
  | S fuel =>
      let k := match link with Some k => k | None => O end in
      let next := if Nat.ltb (S k) (length pages) then Some (S k) else None in
      nth k pages [] ++ iter_results pages fuel next
  end.
(** freesound.py:104-108 *)
Fixpoint take_results {A} (n i : Z) (data : list A) : list A :=
  match data with
  | [] => []
  | x :: r => if n <? i then [] else x :: take_results n (i + 1) r
  end.
Definition freesound {A} (pages : list (list A)) (n_results : Z) (fuel : nat) : list A :=
  take_results n_results 0 (iter_results pages fuel None).

(** ** composite.py:21-24 *)
Fixpoint composite {A} (datasets : list (list A)) : list A :=
  match datasets with [] => [] | d :: r => d ++ composite r end.

(** ** filesystem.py:8-12: [os.listdir] entries, with whether each is a directory *)
Definition directory {A} (entries : list (A * bool)) : list A := map fst (filter (fun e => negb (snd e)) entries).

(** ** internetarchive.py:39-71.  A file of the archive: its key, whether it passes the filter,
    and whether its metadata are its own, those of another file, or neither. *)
Inductive source := Original | Derivative (of : Z) | OtherSource.
Record ia_file := { f_key : Z; f_pass : bool; f_source : source }.
Definition ia_find (files : list ia_file) (k : Z) : option ia_file := find (fun f => f_key f =? k) files.
(** internetarchive.py:40-44, the file whose metadata are used; [None.update] is an
    AttributeError *)
Definition ia_metadata (files : list ia_file) (f : ia_file) : result ia_file :=
  match f_source f with
  | Original => Ok f
  | Derivative k => match ia_find files k with Some g => Ok g | None => Raise KeyError end
  | OtherSource => Raise AttributeError
  end.
(** what the generator yields before it ends or raises: (key of the sound, key of the
    metadata), and the exception *)
Fixpoint ia_iter (files rest : list ia_file) : list (Z * Z) * option exn :=
  match rest with
  | [] => ([], None)
  | f :: r =>
      if f_pass f then
        match ia_metadata files f with
        | Ok g => let '(l, e) := ia_iter files r in ((f_key f, f_key g) :: l, e)
        | Raise e => ([], Some e)
        end
      else ia_iter files r
  end.
Definition internet_archive (files : list ia_file) : list (Z * Z) * option exn := ia_iter files files.

(** ** util.py:6-21 [ensure_local_file] *)

(** the contents of the files of the cache directory, by name *)
Definition fs := Z -> option (list Z).
Definition put (f : fs) (name : Z) (c : list Z) : fs := fun n => if n =? name then Some c else f n.
(** a response: what [requests.get] gives.  [r_chunks] are the chunks that arrive and
    [r_broken] says that the stream then fails; [r_length] is the Content-Length header. *)
Record response := { r_connects : bool; r_length : option Z; r_chunks : list (list Z); r_broken : bool }.
Inductive fetch_outcome := Returned | Raised | Killed.
(** the machine of lines 11-21: each state is a point where the process can be killed *)
Inductive pc := AtCheck | AtOpen | AtGet | AtHeader | AtWrite (written : nat) | Finished (o : fetch_outcome).
Record machine := { k_pc : pc; k_fs : fs }.
Definition local_step (name : Z) (r : response) (k : machine) : machine :=
  match k_pc k with
  | AtCheck => match k_fs k name with Some _ => {| k_pc := Finished Returned; k_fs := k_fs k |} | None => {| k_pc := AtOpen; k_fs := k_fs k |} end
  | AtOpen => {| k_pc := AtGet; k_fs := put (k_fs k) name [] |}
  | AtGet => {| k_pc := if r_connects r then AtHeader else Finished Raised; k_fs := k_fs k |}
  | AtHeader => {| k_pc := match r_length r with Some _ => AtWrite 0 | None => Finished Raised end; k_fs := k_fs k |}
  | AtWrite j =>
      match nth_error (r_chunks r) j with
      | Some c => (* the progress of line 18 divides by the Content-Length *)
          {| k_pc := match r_length r with Some 0 => Finished Raised | _ => AtWrite (S j) end;
             k_fs := put (k_fs k) name (concat (firstn (S j) (r_chunks r))) |}
      | None => {| k_pc := if r_broken r then Finished Raised else Finished Returned; k_fs := k_fs k |}
      end
  | Finished _ => k
  end.
Fixpoint local_run (name : Z) (r : response) (steps : nat) (k : machine) : machine :=
  match steps with O => k | S s => local_run name r s (local_step name r k) end.
(** one call: it runs to its end, or it is killed after [steps] steps, and then only the first
    [flushed] bytes of what was written are on the disk *)
Inductive call_ := Call (r : response) | KilledCall (r : response) (steps flushed : nat).
Definition total_steps (r : response) : nat := (length (r_chunks r) + 5)%nat.
Definition outcome_of (p : pc) : fetch_outcome := match p with Finished o => o | _ => Killed end.
Definition ensure_local_file (f : fs) (name : Z) (c : call_) : fs * fetch_outcome :=
  match c with
  | Call r => let k := local_run name r (total_steps r) {| k_pc := AtCheck; k_fs := f |} in (k_fs k, outcome_of (k_pc k))
  | KilledCall r steps flushed =>
      let k := local_run name r steps {| k_pc := AtCheck; k_fs := f |} in
      match k_pc k with
      | Finished o => (k_fs k, o)
      | AtCheck | AtOpen => (k_fs k, Killed)
      | _ => (match k_fs k name with Some c => put (k_fs k) name (firstn flushed c) | None => k_fs k end, Killed)
      end
  end.
Fixpoint calls (f : fs) (name : Z) (cs : list call_) : fs * list fetch_outcome :=
  match cs with
  | [] => (f, [])
  | c :: r => let '(f, o) := ensure_local_file f name c in let '(f, os) := calls f name r in (f, o :: os)
  end.
(** util.py:7-9: [urlparse(remote_url).path] as its segments between slashes; the file name is
    the last one *)
Definition file_name {A} (segments : list A) (d : A) : A := last segments d.

(** ** cache.py:14-31: [hashlib.md5] of a str is a TypeError, so the first item ends it *)
Definition dataset_cache {A} (urls : list A) : list A * option exn :=
  match urls with [] => ([], None) | _ => ([], Some TypeError) end.
