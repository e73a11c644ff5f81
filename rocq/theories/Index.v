(** Model of HammingIndex (zounds/index/index.py) and of the brute force
    searches (zounds/index/brute_force.py). *)
From Verif Require Import PyBase.
From Coq Require Import NArith.

(** ** The event listener, index.py:143-168 *)

(** One event of the document's event log: its id (a timestamp), the document it
    is about, and whether name and version are those of the indexed feature. *)
Record log_event := { ev_ts : N; ev_doc : N; ev_ours : bool }.

(** What survives a crash: the lmdb index (one entry per slice appended, as
    (document, slice number)), the metadata entry b'timestamp' and whether
    b'codesize' has been written. *)
Record disk := { k_entries : list (N * nat); k_ts : option N; k_init : bool }.

Definition empty_disk : disk := {| k_entries := []; k_ts := None; k_init := false |}.

(** The separately committed lmdb transactions of [add]. *)
Inductive micro := Init | AppendSlice (doc : N) (i : nat) | SetTs (ts : N).

Definition apply_micro (d : disk) (m : micro) : disk :=
  match m with
  | Init => {| k_entries := k_entries d; k_ts := k_ts d; k_init := true |}
  | AppendSlice doc i => {| k_entries := k_entries d ++ [(doc, i)]; k_ts := k_ts d; k_init := k_init d |}
  | SetTs ts => {| k_entries := k_entries d; k_ts := Some ts; k_init := k_init d |}
  end.

Section Listen.
  (** number of slices of the feature of a document *)
  Variable n_slices : N -> nat.
  (** Does lmdb accept the [str] key 'timestamp' of index.py:146?  True of
      Python 2 byte strings, false of Python 3 (TypeError). *)
  Variable str_key_ok : bool.

  (** index.py:121-141 [add]: per slice [_init_hamming_db] (a no-op when the
      database is initialised), [append], [set_metadata]. *)
  Definition add (e : log_event) : list micro :=
    flat_map (fun i => [Init; AppendSlice (ev_doc e) i; SetTs (ev_ts e)]) (seq 0 (n_slices (ev_doc e))).

  (** index.py:154-155, featureflow's [subscribe(last_id)]: events after
      [last_id] ('' is before everything). *)
  Definition after (last : option N) (e : log_event) : bool :=
    match last with None => true | Some t => (t <? ev_ts e)%N end.

  (** index.py:157-168 *)
  Definition listen_micros (d : disk) (log : list log_event) : list micro :=
    flat_map add (filter ev_ours (filter (after (k_ts d)) log)).

  (** index.py:143-168 [_listen], stopped by a crash after [crash] micro steps
      ([None]: runs until the log is exhausted). *)
  Definition listen (d : disk) (log : list log_event) (crash : option nat) : result unit * disk :=
    if k_init d && negb str_key_ok then (Raise TypeError, d)
    else
      let ms := listen_micros d log in
      match crash with
      | None => (Ok tt, fold_left apply_micro ms d)
      | Some k => (Raise Crash, fold_left apply_micro (firstn k ms) d)
      end.

  (** A life of the index: each start sees the log as it is by then. *)
  Fixpoint lives (d : disk) (runs : list (list log_event * nat)) : disk :=
    match runs with
    | [] => d
    | (log, k) :: runs => lives (snd (listen d log (Some k))) runs
    end.
End Listen.

(** ** Query encoding, index.py:179-193 *)

(** [np.packbits]: eight bits per byte, most significant first, the last byte
    padded with zeros; nonzero counts as one. *)
Definition byte_of_bits (b : list bool) : N :=
  fold_left (fun acc (x : bool) => (2 * acc + (if x then 1 else 0))%N) (firstn 8 (b ++ repeat false 8)) 0%N.
Fixpoint packbits_aux (fuel : nat) (b : list bool) : list N :=
  match fuel with
  | O => []
  | S f => match b with [] => [] | _ => byte_of_bits b :: packbits_aux f (skipn 8 b) end
  end.
Definition packbits (x : list N) : list N :=
  packbits_aux (length x) (map (fun v => negb (v =? 0)%N) x).

(** [np.unpackbits] *)
Definition unpack_byte (v : N) : list bool :=
  map (fun i => N.testbit v (N.of_nat i)) [7; 6; 5; 4; 3; 2; 1; 0].
Definition unpackbits (bs : list N) : list bool := flat_map unpack_byte bs.

Inductive feature :=
| FBytes (b : list N)
| FUint64 (w : list N)
| FUint8 (v : list N)     (* uint8 or bool array *)
| FOther.

(** Eight bytes of a uint64, little endian. *)
Fixpoint le_bytes (n : nat) (w : N) : list N :=
  match n with O => [] | S n => (w mod 256)%N :: le_bytes n (w / 256) end.

(** index.py:183-193 *)
Definition encode_query (f : feature) : result (list N) :=
  match f with
  | FBytes b => Ok b
  | FUint64 w => Ok (flat_map (le_bytes 8) w)
  | FUint8 v => Ok (packbits v)
  | FOther => Raise ValueError
  end.
(** index.py:179-181 *)
Definition decode_query (b : list N) : list bool := unpackbits b.

(** ** Brute force search, brute_force.py:9-48 *)
Section BruteForce.
  Context {Row Id D : Type}.
  (** scipy's cdist or packed_hamming_distance, row by row *)
  Variable dist : Row -> Row -> D.
  Variable argsort : list D -> list nat.

  (** A document: its id, the rows of the feature, and the frequency and
      duration of its time dimension in picoseconds. *)
  Record doc := { d_id : Id; d_rows : list Row; d_freq : Z; d_dur : Z }.

  (** constantrate.py:21-24 [iter_slices]: (start, duration), row. *)
  Definition iter_slices (d : doc) : list ((Z * Z) * Row) :=
    map (fun p => ((d_freq d * Z.of_nat (fst p), d_dur d)%Z, snd p))
        (combine (seq 0 (length (d_rows d))) (d_rows d)).

  (** brute_force.py:10-18: (self._ids, self.index); concatenating nothing is an
      error. *)
  Definition brute_init (gen : list doc) : result (list (Id * (Z * Z)) * list Row) :=
    match gen with
    | [] => Raise ValueError
    | _ => Ok (flat_map (fun d => map (fun s => (d_id d, fst s)) (iter_slices d)) gen,
               concat (map d_rows gen))
    end.

  (** brute_force.py:33-37, 44-47 *)
  Definition brute_search (ids : list (Id * (Z * Z))) (index : list Row) (q : Row) (n : nat)
    : result (list (Id * (Z * Z))) :=
    let indices := firstn n (argsort (map (dist q) index)) in
    match sequence (map (nth_error ids) indices) with
    | None => Raise IndexError
    | Some r => Ok r
    end.
End BruteForce.
