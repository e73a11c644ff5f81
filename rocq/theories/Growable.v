(** Model of Growable (zounds/nputil/npx.py:258-366). *)
From Verif Require Import PyBase.

Section Growable.
  Context {A : Type}.

  (** [_data] (uninitialised memory is [None]), [_position], and [_growth_rate]
      as the rational [num/den] with den > 0 (npx.py:283-284). *)
  Record growable := {
    g_data : list (option A);
    g_pos : nat;
    g_num : Z;
    g_den : Z
  }.

  (** npx.py:266-284 [__init__]: growth_rate <= 0 is rejected. *)
  Definition new (data : list A) (position : nat) (num den : Z) : result growable :=
    if (num <=? 0)%Z then Raise ValueError
    else Ok {| g_data := map Some data; g_pos := position; g_num := num; g_den := den |}.

  (** npx.py:301-306 *)
  Definition physical_size (g : growable) : nat := length (g_data g).
  (** npx.py:293-299 *)
  Definition logical_size (g : growable) : nat := g_pos g.
  (** npx.py:308-313 *)
  Definition logical_data (g : growable) : list (option A) := firstn (g_pos g) (g_data g).

  (** npx.py:315-318 [_tmp_size]: int(n * rate), at least one. *)
  Definition tmp_size (g : growable) : nat :=
    let n_items := Z.to_nat (Z.of_nat (physical_size g) * g_num g / g_den g) in
    if n_items =? 0 then 1 else n_items.

  (** npx.py:320-327 [_tmp], [_grow]: concatenate uninitialised memory. *)
  Definition grow (g : growable) (amt : option nat) : growable :=
    let n := match amt with None => tmp_size g | Some n => n end in
    {| g_data := g_data g ++ repeat None n; g_pos := g_pos g;
       g_num := g_num g; g_den := g_den g |}.

  Definition set_data (g : growable) (d : list (option A)) (pos : nat) : growable :=
    {| g_data := d; g_pos := pos; g_num := g_num g; g_den := g_den g |}.

  (** numpy item assignment [data[pos] = x] for pos >= 0. *)
  Definition set_item (d : list (option A)) (pos : nat) (x : A) : result (list (option A)) :=
    if pos <? length d then Ok (firstn pos d ++ Some x :: skipn (S pos) d)
    else Raise IndexError.

  (** numpy slice assignment [data[pos:pos+n] = items] with n = len(items). *)
  Definition set_slice (d : list (option A)) (pos : nat) (xs : list A) : result (list (option A)) :=
    if pos + length xs <=? length d
    then Ok (firstn pos d ++ map Some xs ++ skipn (pos + length xs) d)
    else Raise ValueError.

  (** npx.py:329-340 [append]. *)
  Definition append (g : growable) (x : A) : result growable :=
    match set_item (g_data g) (g_pos g) x with
    | Ok d => Ok (set_data g d (g_pos g + 1))
    | Raise IndexError =>
        let g := grow g None in
        do d <- set_item (g_data g) (g_pos g) x;
        Ok (set_data g d (g_pos g + 1))
    | Raise e => Raise e
    end.

  (** npx.py:342-366 [extend]. *)
  Definition extend (g : growable) (xs : list A) : result growable :=
    let pos := length xs + logical_size g in
    let g :=
      if physical_size g <? pos then
        let amt := tmp_size g in
        let amt := if physical_size g + amt <? pos then pos - physical_size g else amt in
        grow g (Some amt)
      else g in
    do d <- set_slice (g_data g) (g_pos g) xs;
    Ok (set_data g d (g_pos g + length xs)).

  Inductive op := Append (x : A) | Extend (xs : list A).
  Definition step (g : growable) (o : op) : result growable :=
    match o with Append x => append g x | Extend xs => extend g xs end.
  Fixpoint run (g : growable) (ops : list op) : result growable :=
    match ops with
    | [] => Ok g
    | o :: ops => do g' <- step g o; run g' ops
    end.
End Growable.
Arguments growable _ : clear implicits.
Arguments op _ : clear implicits.
