(** Model of HammingDb (zounds/index/hammingdb.py). *)
From Verif Require Import PyBase Bits.

(** Ids are 16 random bytes in hex (hammingdb.py:138-139); their order as keys is
    the order of the 128-bit numbers they denote, so they are modelled as [N]. *)
Definition id := N.
Definition bytes := list N.

(** The lmdb environment: the 'metadata' entry 'codesize' and the 'index'
    database, a map from ids to values kept in key order (what a cursor
    iterates over). *)
Record db := { db_codesize : option Z; db_entries : list (id * bytes) }.

(** lmdb [txn.put]: insert or overwrite. *)
Fixpoint put (k : id) (v : bytes) (es : list (id * bytes)) : list (id * bytes) :=
  match es with
  | [] => [(k, v)]
  | (k', v') :: es' =>
      if (k <? k')%N then (k, v) :: es
      else if (k =? k')%N then (k, v) :: es'
      else (k', v') :: put k v es'
  end.

(** lmdb [txn.get] *)
Fixpoint get (k : id) (es : list (id * bytes)) : option bytes :=
  match es with
  | [] => None
  | (k', v') :: es' => if (k =? k')%N then Some v' else get k es'
  end.

(** A process with the database open: [code_size], [writeonly], the logical
    content of the Growable [_codes] and the set [_ids]
    (hammingdb.py:11-55). *)
Record proc := {
  p_code_size : Z;
  p_writeonly : bool;
  p_codes : list (id * bytes);
  p_ids : list id
}.

Definition mem_id (k : id) (l : list id) : bool := existsb (N.eqb k) l.

(** hammingdb.py:124-132 [_add_code] *)
Definition add_code (p : proc) (k : id) (code : bytes) : proc :=
  if p_writeonly p then p
  else {| p_code_size := p_code_size p; p_writeonly := false;
          p_codes := p_codes p ++ [(k, code)]; p_ids := k :: p_ids p |}.

(** hammingdb.py:77-87 [_catch_up_on_in_memory_store] *)
Definition catch_up (p : proc) (d : db) : proc :=
  fold_left (fun p kv => if mem_id (fst kv) (p_ids p) then p
                         else add_code p (fst kv) (firstn (Z.to_nat (p_code_size p)) (snd kv)))
            (db_entries d) p.

(** hammingdb.py:11-55 [__init__]; also writes the code size of a fresh
    database. *)
Definition open_db (d : db) (code_size : option Z) (writeonly : bool) : result (proc * db) :=
  let start cs d :=
    let p := {| p_code_size := cs; p_writeonly := writeonly; p_codes := []; p_ids := [] |} in
    Ok (catch_up p d, d) in
  match db_codesize d with
  | Some cs =>
      match code_size with
      | Some a => if negb (a =? 0)%Z && negb (a =? cs)%Z then Raise ValueError else start cs d
      | None => start cs d
      end
  | None =>
      match code_size with
      | None => Raise ValueError
      | Some a =>
          if negb (a mod 8 =? 0)%Z then Raise ValueError
          else start a {| db_codesize := Some a; db_entries := db_entries d |}
      end
  end.

(** hammingdb.py:117-122 [_validate_code_size] *)
Definition validate_code_size (p : proc) (code : bytes) : result unit :=
  if (Zlen code =? p_code_size p)%Z then Ok tt else Raise ValueError.

(** What the storage engine does to one write transaction. *)
Inductive txn_fate := Commit | PutFails | CommitFails.

(** hammingdb.py:141-156 [append].  [k] is the id drawn by [_new_id]. Returns the
    outcome together with the new process state and database: [_add_code] runs
    inside the transaction, before the commit. *)
Definition append (p : proc) (d : db) (k : id) (code data : bytes) (f : txn_fate)
  : result unit * proc * db :=
  match validate_code_size p code with
  | Raise e => (Raise e, p, d)
  | Ok _ =>
      match f with
      | PutFails => (Raise LmdbError, p, d)
      | CommitFails => (Raise LmdbError, add_code p k code, d)
      | Commit => (Ok tt, add_code p k code,
                   {| db_codesize := db_codesize d; db_entries := put k (code ++ data) (db_entries d) |})
      end
  end.

(** hammingdb.py:134-136 [_check_for_external_modifications] *)
Definition check_external (p : proc) (d : db) : proc :=
  if length (db_entries d) =? length (p_codes p) then p else catch_up p d.

(** [np.frombuffer(..., dtype=np.uint64)] on a little-endian machine
    (hammingdb.py:47-48, 113-115): groups of eight bytes. *)
Fixpoint le_word (bs : bytes) : N :=
  match bs with [] => 0%N | b :: bs => (b + 256 * le_word bs)%N end.
Fixpoint words (n : nat) (bs : bytes) : list N :=
  match n with O => [] | S n' => le_word (firstn 8 bs) :: words n' (skipn 8 bs) end.
Definition np_code (p : proc) (code : bytes) : list N :=
  words (Z.to_nat (p_code_size p / 8)) code.

(** hammingdb.py:191-199: the scores, single- or multi-threaded.
    [range(0, n_codes, chunksize)] gives the chunk starts;
    [ThreadPool.map] returns the results in the order of its inputs. *)
Definition chunk_starts (n cs : nat) : list nat :=
  map (fun i => i * cs) (seq 0 ((n + cs - 1) / cs)).
Definition scores (query : list N) (codes : list (list N)) (threads : option nat) : result (list N) :=
  match threads with
  | None => Ok (packed_hamming_distance query codes)
  | Some t =>
      let n_codes := length codes in
      let chunksize := Nat.max 1 (n_codes / t) in
      match map (fun i => packed_hamming_distance query (firstn chunksize (skipn i codes)))
                (chunk_starts n_codes chunksize) with
      | [] => Raise ValueError            (* np.concatenate([]) *)
      | parts => Ok (concat parts)
      end
  end.

Section Search.
  (** numpy's argpartition and argsort; their contracts are hypotheses of the
      theorems. *)
  Variable argpartition : list N -> nat -> list nat.
  Variable argsort : list N -> list nat.

  (** [x[indices]] on a list *)
  Definition take {A} (l : list A) (idx : list nat) : option (list A) :=
    sequence (map (nth_error l) idx).

  (** hammingdb.py:172-218 [search], all the generator's items. *)
  Definition search (p : proc) (d : db) (code : bytes) (n_results : nat)
             (threads : option nat) (sort : bool) : result (list bytes) * proc :=
    if p_writeonly p then (Raise RuntimeError, p) else
    match validate_code_size p code with
    | Raise e => (Raise e, p)
    | Ok _ =>
        let p := check_external p d in
        let query := np_code p code in
        let codes := map (fun kc => np_code p (snd kc)) (p_codes p) in
        (match scores query codes threads with
         | Raise e => Raise e
         | Ok sc =>
             (* numpy: kth out of bounds *)
             if length sc <=? n_results then Raise ValueError else
             let part := firstn n_results (argpartition sc n_results) in
             match (if sort
                    then match take sc part with
                         | None => None
                         | Some sub => take part (argsort sub)
                         end
                    else Some part) with
             | None => Raise IndexError
             | Some indices =>
                 match take (p_codes p) indices with
                 | None => Raise IndexError
                 | Some nearest =>
                     match sequence (map (fun kc => get (fst kc) (db_entries d)) nearest) with
                     | None => Raise TypeError        (* None[code_size:] *)
                     | Some vals => Ok (map (skipn (Z.to_nat (p_code_size p))) vals)
                     end
                 end
             end
         end, p)
    end.
End Search.
