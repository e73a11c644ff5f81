(** Model of zounds/learn/random_samples.py: Reservoir, MultiplexedReservoir,
    ReservoirSampler.  The outcome of the random generator is an argument.
    Rows have one shape (numpy's broadcasting of other shapes is not modelled). *)
From Verif Require Import PyBase PyFacts PyMore.
Local Open Scope Z_scope.

Fixpoint set_nth {A} (n : nat) (x : A) (l : list A) : list A :=
  match l, n with
  | [], _ => []
  | _ :: l', O => x :: l'
  | y :: l', S m => y :: set_nth m x l'
  end.
(** numpy: [arr[indices, ...] = rows]; out-of-range indices are found before
    anything is written; of equal indices the last one wins *)
Definition slot (n i : Z) : option nat :=
  if (- n <=? i) && (i <? n) then Some (Z.to_nat (if i <? 0 then i + n else i)) else None.
Definition assign_rows {A} (arr : list A) (ix : list Z) (rows : list A) : result (list A) :=
  match sequence (map (slot (Zlen arr)) ix) with
  | None => Raise IndexError
  | Some js => Ok (fold_left (fun a p => set_nth (fst p) (snd p) a) (combine js rows) arr)
  end.
(** [set.update] *)
Definition zmem (i : Z) (l : list Z) : bool := existsb (Z.eqb i) l.
Definition set_update (s ix : list Z) : list Z := fold_left (fun s i => if zmem i s then s else s ++ [i]) ix s.

Section Reservoir.
  Context {A : Type} (zero : A).

  (** random_samples.py:8-21 *)
  Record reservoir := { nsamples : Z; arr : option (list A); slots : list Z }.
  Definition make_reservoir (n : Z) : result reservoir :=
    if n <=? 0 then Raise ValueError else Ok {| nsamples := n; arr := None; slots := [] |}.
  (** random_samples.py:23-24 *)
  Definition res_len (r : reservoir) : Z := Zlen (slots r).
  (** random_samples.py:29-40 *)
  Definition init_arr (r : reservoir) : reservoir :=
    match arr r with
    | Some _ => r
    | None => {| nsamples := nsamples r; arr := Some (repeat zero (Z.to_nat (nsamples r))); slots := slots r |}
    end.
  (** random_samples.py:42-55 add: the state afterwards and the outcome.  [draw]
      is what np.random.randint returns when no indices are given. *)
  Definition add (r : reservoir) (samples : list A) (indices : option (list Z)) (draw : list Z) : reservoir * result unit :=
    let r := init_arr r in
    let ix := match indices with Some ix => ix | None => draw end in
    if Zlen ix =? Zlen samples then
      match arr r with
      | None => (r, Raise TypeError)
      | Some a =>
          match assign_rows a ix samples with
          | Raise e => (r, Raise e)
          | Ok a' => ({| nsamples := nsamples r; arr := Some a'; slots := set_update (slots r) ix |}, Ok tt)
          end
      end
    else (r, Raise ValueError).
  (** random_samples.py:57-62 *)
  Definition get (r : reservoir) : result (list A) :=
    match arr r with
    | None => if res_len r =? nsamples r then Raise OtherError else Raise TypeError
    | Some a =>
        if res_len r =? nsamples r then Ok a
        else mapM (py_get a) (isort Z.leb (slots r))
    end.
  (** random_samples.py:64-83; [choice] picks positions in the set *)
  Definition get_batch (r : reservoir) (batch : Z) (choice : list nat) : result (list A) :=
    if nsamples r <? batch then Raise ValueError
    else if res_len r <? batch then Raise ValueError
    else match arr r with
         | None => Raise TypeError
         | Some a => mapM (fun k => py_get a (nth k (slots r) 0)) choice
         end.
End Reservoir.
Arguments reservoir : clear implicits.

(** random_samples.py:86-120 *)
Section Multiplexed.
  Context {K A : Type} (keq : K -> K -> bool) (zero : A).
  Record multi := { m_nsamples : Z; m_res : option (list (K * reservoir A)) }.
  Definition kmem (k : K) (l : list K) : bool := existsb (keq k) l.
  (** [set(a) != set(b)] *)
  Definition same_keys (a b : list K) : bool := forallb (fun k => kmem k b) a && forallb (fun k => kmem k a) b.
  Fixpoint update_key (k : K) (f : reservoir A -> reservoir A) (l : list (K * reservoir A)) : list (K * reservoir A) :=
    match l with
    | [] => []
    | (k', r) :: l' => if keq k k' then (k', f r) :: l' else (k', r) :: update_key k f l'
    end.
  Definition find_key (k : K) (l : list (K * reservoir A)) : option (reservoir A) :=
    option_map snd (find (fun p => keq k (fst p)) l).
  (** random_samples.py:93-101 *)
  Definition init_dict (m : multi) (keys : list K) : result multi :=
    match m_res m with
    | Some _ => Ok m
    | None => do rs <- mapM (fun k => do r <- make_reservoir (m_nsamples m); Ok (k, r)) keys;
              Ok {| m_nsamples := m_nsamples m; m_res := Some rs |}
    end.
  (** random_samples.py:113-117 the loop; the first channel's length sets how
      many indices are drawn, [draw n] being that outcome *)
  Fixpoint add_channels (rs : list (K * reservoir A)) (samples : list (K * list A)) (ix : option (list Z))
      (draw : nat -> list Z) : list (K * reservoir A) * result unit :=
    match samples with
    | [] => (rs, Ok tt)
    | (k, v) :: rest =>
        let ix := match ix with Some i => i | None => draw (length v) end in
        match find_key k rs with
        | None => (rs, Raise KeyError)
        | Some r =>
            let '(r', out) := add zero r v (Some ix) [] in
            let rs' := update_key k (fun _ => r') rs in
            match out with
            | Ok _ => add_channels rs' rest (Some ix) draw
            | Raise e => (rs', Raise e)
            end
        end
    end.
  (** random_samples.py:109-117 *)
  Definition madd (m : multi) (samples : list (K * list A)) (draw : nat -> list Z) : multi * result unit :=
    match init_dict m (map fst samples) with
    | Raise e => (m, Raise e)
    | Ok m1 =>
        match m_res m1 with
        | None => (m1, Raise TypeError)
        | Some rs =>
            if same_keys (map fst rs) (map fst samples) then
              let '(rs', out) := add_channels rs samples None draw in
              ({| m_nsamples := m_nsamples m1; m_res := Some rs' |}, out)
            else (m1, Raise ValueError)
        end
    end.
  (** random_samples.py:119-120 *)
  Definition mget (m : multi) : result (list (K * list A)) :=
    match m_res m with
    | None => Raise AttributeError
    | Some rs => mapM (fun p => do x <- get (snd p); Ok (fst p, x)) rs
    end.
End Multiplexed.
Arguments multi : clear implicits.

(** random_samples.py:224-279 ReservoirSampler *)
Section Sampler.
  Context {A : Type} (zero : A).
  Record sampler := { s_n : nat; s_arr : option (list A); s_index : nat }.
  Definition make_sampler (n : nat) : sampler := {| s_n := n; s_arr := None; s_index := 0 |}.
  (** random_samples.py:243-267; [draw] is random_integers(0, index, size),
      both ends included, one per remaining row *)
  Definition s_enqueue (s : sampler) (data : list A) (draw : list nat) : sampler :=
    let r := match s_arr s with Some a => a | None => repeat zero (s_n s) end in
    let diff := if (s_index s <? s_n s)%nat then (s_n s - s_index s)%nat else 0%nat in
    let head := firstn diff data in
    let r := if (s_index s <? s_n s)%nat
             then firstn (s_index s) r ++ head ++ skipn (s_index s + length head) r else r in
    let index := if (s_index s <? s_n s)%nat then (s_index s + length head)%nat else s_index s in
    let tail := skipn diff data in
    match tail with
    | [] => {| s_n := s_n s; s_arr := Some r; s_index := index |}
    | _ =>
        let ix := filter (fun i => i <? s_n s)%nat draw in
        let r := fold_left (fun a p => set_nth (fst p) (snd p) a) (combine ix (firstn (length ix) tail)) r in
        {| s_n := s_n s; s_arr := Some r; s_index := (index + length tail)%nat |}
    end.
  (** random_samples.py:269-279 once finalized; [shuffle] permutes *)
  Definition s_dequeue (s : sampler) (shuffle : list A -> list A) : result (list A) :=
    match s_arr s with
    | None => if (s_index s <=? s_n s)%nat then Raise TypeError else Raise OtherError
    | Some r => if (s_index s <=? s_n s)%nat then Ok (shuffle (firstn (s_index s) r)) else Ok r
    end.
End Sampler.
Arguments sampler : clear implicits.
