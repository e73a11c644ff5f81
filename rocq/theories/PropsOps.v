(** Property theorems: arithmetic, sums, products and joining of arrays with units (C83);
    reading and assigning parts of them (C84). *)
From Verif Require Import PyBase PyFacts PyMore Time TimeProofs Freq FreqDim Axis AxisProofs Ops OpsProofs OpsProofs2 OpsProofs3 OpsProofs4 OpsProofs5.
From Coq Require Import Reals Sorting.Sorted.
Local Open Scope nat_scope.

(** C83: arithmetic, sums, products, packing, joining *)
Theorem C83_entries :
  forall (f : R -> R -> R) (p q r : pyval),
  binary f p q = Ok r ->
  let s := nd_shape (arr_of p) in
  let t := nd_shape (arr_of q) in
  let u := nd_shape (arr_of r) in
  wf_nda (arr_of r) /\
  length u = Nat.max (length s) (length t) /\
  (forall k : nat, from_end u k = (if from_end s k =? 1 then from_end t k else from_end s k)) /\
  (forall ix : list nat,
   in_shape u ix ->
   exists jx kx : list nat,
     entry_used s ix jx /\
     entry_used t ix kx /\ nd_at (arr_of r) ix = f (nd_at (arr_of p) jx) (nd_at (arr_of q) kx)).
Proof. exact (@binary_entries). Qed.
Print Assumptions C83_entries.
Theorem C83_shapes :
  forall (f : R -> R -> R) (p q : pyval),
  (compatible (nd_shape (arr_of p)) (nd_shape (arr_of q)) -> exists r : pyval, binary f p q = Ok r) /\
  (~ compatible (nd_shape (arr_of p)) (nd_shape (arr_of q)) -> binary f p q = Raise ValueError).
Proof. exact (@binary_shapes). Qed.
Print Assumptions C83_shapes.
Theorem C83_units_left :
  forall (f : R -> R -> R) (c : cls) (a : units) (q r : pyval),
  binary f (PUnits c a) q = Ok r ->
  length (dims a) = ndim (data a) ->
  ndim (arr_of q) <= ndim (data a) -> exists x : nda, r = PUnits c {| data := x; dims := dims a |}.
Proof. exact (@binary_units_left). Qed.
Print Assumptions C83_units_left.
Theorem C83_units_right :
  forall (f : R -> R -> R) (p : pyval) (c : cls) (a : units) (r : pyval),
  (forall (c' : cls) (a' : units), p <> PUnits c' a') ->
  binary f p (PUnits c a) = Ok r ->
  length (dims a) = ndim (data a) ->
  ndim (arr_of p) <= ndim (data a) -> exists x : nda, r = PUnits c {| data := x; dims := dims a |}.
Proof. exact (@binary_units_right). Qed.
Print Assumptions C83_units_right.
Theorem C83_same_shape :
  forall (f : R -> R -> R) (c : cls) (a : awu) (q : pyval),
  well_formed nd_shape a ->
  nd_shape (arr_of q) = nd_shape (data a) ->
  exists x : nda,
    binary f (PUnits c a) q = Ok (PUnits c {| data := x; dims := dims a |}) /\
    well_formed nd_shape {| data := x; dims := dims a |} /\
    nd_shape x = nd_shape (data a) /\
    (forall ix : list nat,
     in_shape (nd_shape x) ix -> nd_at x ix = f (nd_at (data a) ix) (nd_at (arr_of q) ix)).
Proof. exact (@binary_same_shape). Qed.
Print Assumptions C83_same_shape.
Theorem C83_numbers :
  forall (f : R -> R -> R) (c : cls) (a : awu) (v : R),
  well_formed nd_shape a ->
  (exists x : nda,
     binary f (PUnits c a) (PNum v) = Ok (PUnits c {| data := x; dims := dims a |}) /\
     well_formed nd_shape {| data := x; dims := dims a |} /\
     nd_shape x = nd_shape (data a) /\
     (forall ix : list nat, in_shape (nd_shape x) ix -> nd_at x ix = f (nd_at (data a) ix) v)) /\
  (exists x : nda,
     binary f (PNum v) (PUnits c a) = Ok (PUnits c {| data := x; dims := dims a |}) /\
     well_formed nd_shape {| data := x; dims := dims a |} /\
     nd_shape x = nd_shape (data a) /\
     (forall ix : list nat, in_shape (nd_shape x) ix -> nd_at x ix = f v (nd_at (data a) ix))).
Proof. exact (@binary_number). Qed.
Print Assumptions C83_numbers.
Theorem C83_elementwise :
  forall (f : R -> R) (c : cls) (a : awu),
  well_formed nd_shape a ->
  wf_nda (data a) ->
  exists x : nda,
    unary f (PUnits c a) = PUnits c {| data := x; dims := dims a |} /\
    well_formed nd_shape {| data := x; dims := dims a |} /\
    nd_shape x = nd_shape (data a) /\
    (forall ix : list nat, in_shape (nd_shape x) ix -> nd_at x ix = f (nd_at (data a) ix)).
Proof. exact (@unary_keeps). Qed.
Print Assumptions C83_elementwise.
Theorem C83_fewer_axes_refuted :
  forall (f g : R -> R -> R) (c : cls) (a : awu) (c' : cls) (b : awu) (r r' : pyval),
  ndim (data a) < ndim (data b) ->
  length (dims a) = ndim (data a) ->
  length (dims b) = ndim (data b) ->
  binary f (PUnits c a) (PUnits c' b) = Ok r ->
  binary g (PUnits c' b) (PUnits c a) = Ok r' ->
  (exists x : nda, r = PRaw x) /\ (exists y : nda, r' = PUnits c' {| data := y; dims := dims b |}).
Proof. exact (@binary_fewer_axes). Qed.
Print Assumptions C83_fewer_axes_refuted.
Theorem C83_repeated_axis_refuted :
  forall (f : R -> R -> R) (c : cls) (a : awu) (t : timedim) (d' : list dim) 
    (q : pyval) (n : nat) (r : pyval),
  dims a = DTime t :: d' ->
  length (dims a) = ndim (data a) ->
  hd 0 (nd_shape (data a)) = 1 ->
  t_size t = Some 1%Z ->
  length (nd_shape (arr_of q)) = length (nd_shape (data a)) ->
  hd 0 (nd_shape (arr_of q)) = n ->
  n <> 1 ->
  binary f (PUnits c a) q = Ok r ->
  exists x : nda,
    r = PUnits c {| data := x; dims := dims a |} /\
    hd 0 (nd_shape x) = n /\
    t_span t = Ok (t_dur t) /\ ~ well_formed nd_shape {| data := x; dims := dims a |}.
Proof. exact (@binary_repeated_axis). Qed.
Print Assumptions C83_repeated_axis_refuted.
Theorem C83_audio_axes :
  forall (x : nda) (rate : Z), ndim x <> 1 -> ndim x <> 2 -> audio_new x rate = Raise ValueError.
Proof. exact (@audio_new_axes). Qed.
Print Assumptions C83_audio_axes.
Theorem C83_add_rates :
  forall (a b : units) (r r' : Z),
  samplerate a = Ok r ->
  samplerate b = Ok r' ->
  In r standard_rates ->
  In r' standard_rates ->
  (r = r' -> add (PUnits Audio a) (PUnits Audio b) = binary Rplus (PUnits Audio a) (PUnits Audio b)) /\
  (r <> r' -> add (PUnits Audio a) (PUnits Audio b) = Raise ValueError).
Proof. exact (@add_rates). Qed.
Print Assumptions C83_add_rates.
Theorem C83_add_other :
  forall (a : units) (r : Z) (q : pyval),
  samplerate a = Ok r ->
  (forall b : units, q <> PUnits Audio b) ->
  add (PUnits Audio a) q = binary Rplus (PUnits Audio a) q.
Proof. exact (@add_other). Qed.
Print Assumptions C83_add_other.
Theorem C83_add_signals :
  forall (x y : nda) (rate : Z) (a b : units),
  In rate standard_rates ->
  ndim x = 1 \/ ndim x = 2 ->
  nd_shape y = nd_shape x ->
  audio_new x rate = Ok a ->
  audio_new y rate = Ok b ->
  exists s : units,
    add (PUnits Audio a) (PUnits Audio b) = Ok (PUnits Audio s) /\
    samplerate s = Ok rate /\
    well_formed nd_shape s /\
    nd_shape (data s) = nd_shape x /\
    (forall ix : list nat,
     in_shape (nd_shape x) ix -> nd_at (data s) ix = (nd_at x ix + nd_at y ix)%R).
Proof. exact (@add_signals). Qed.
Print Assumptions C83_add_signals.
Theorem C83_subtract_rates_refuted :
  forall (x y : nda) (r r' : Z) (a b : units),
  In r standard_rates ->
  In r' standard_rates ->
  ndim x = 1 \/ ndim x = 2 ->
  nd_shape y = nd_shape x ->
  audio_new x r = Ok a ->
  audio_new y r' = Ok b ->
  exists s : units,
    binary Rminus (PUnits Audio a) (PUnits Audio b) = Ok (PUnits Audio s) /\ samplerate s = Ok r.
Proof. exact (@subtract_rates_refuted). Qed.
Print Assumptions C83_subtract_rates_refuted.
Theorem C83_total :
  forall (c : cls) (a : awu),
  dims a <> [] -> awu_sum c a None false = Ok (PNum (total (nd_flat (data a)))).
Proof. exact (@sum_total). Qed.
Print Assumptions C83_total.
Theorem C83_sum_axes :
  forall (c : cls) (a : awu) (axes : list Z) (keep : bool),
  well_formed nd_shape a ->
  (forall x : Z, In x axes -> (- Z.of_nat (ndim (data a)) <= x < Z.of_nat (ndim (data a)))%Z) ->
  let rest :=
    fun l : list nat =>
    if keep
    then replace_at (named (ndim (data a)) axes) 0 0 l
    else select (fun i : nat => negb (named (ndim (data a)) axes i)) 0 l in
  let sh :=
    if keep
    then replace_at (named (ndim (data a)) axes) 1 0 (nd_shape (data a))
    else select (fun i : nat => negb (named (ndim (data a)) axes i)) 0 (nd_shape (data a)) in
  sh <> [] ->
  exists s : units,
    awu_sum c a (Some axes) keep = Ok (PUnits Plain s) /\
    well_formed nd_shape s /\
    nd_shape (data s) = sh /\
    dims s =
    (if keep
     then replace_at (named (length (dims a)) axes) DIdent 0 (dims a)
     else select (fun i : nat => negb (named (length (dims a)) axes i)) 0 (dims a)) /\
    (forall jx : list nat,
     in_shape sh jx ->
     nd_at (data s) jx =
     total
       (map (nd_at (data a))
          (filter
             (fun ix : list nat => if list_eq_dec Nat.eq_dec (rest ix) jx then true else false)
             (all_ix (nd_shape (data a)))))).
Proof. exact (@sum_axes). Qed.
Print Assumptions C83_sum_axes.
Theorem C83_sum_axis_range :
  forall (c : cls) (a : awu) (axes : list Z) (keep : bool) (x : Z),
  In x axes ->
  (x < - Z.of_nat (ndim (data a)))%Z \/ (Z.of_nat (ndim (data a)) <= x)%Z ->
  awu_sum c a (Some axes) keep = Raise ValueError.
Proof. exact (@sum_axis_range). Qed.
Print Assumptions C83_sum_axis_range.
Theorem C83_sum_all_axes_refuted :
  forall (c : cls) (n : nat) (d : dim) (fl : list R),
  awu_sum c {| data := {| nd_shape := [n]; nd_flat := fl |}; dims := [d] |} (Some [0%Z]) false =
  Raise AttributeError.
Proof. exact (@sum_all_axes_refuted). Qed.
Print Assumptions C83_sum_all_axes_refuted.
Theorem C83_sum_keepdims_refuted :
  forall (c : cls) (a : awu) (t : timedim) (ds : list dim) (n : nat),
  well_formed nd_shape a ->
  dims a = DTime t :: ds ->
  hd 0 (nd_shape (data a)) = n ->
  n <> 1 ->
  exists s : units,
    awu_sum c a None true = Ok (PUnits c s) /\
    dims s = dims a /\
    hd 0 (nd_shape (data s)) = 1 /\ t_size t = Some (Z.of_nat n) /\ ~ well_formed nd_shape s.
Proof. exact (@sum_keepdims_refuted). Qed.
Print Assumptions C83_sum_keepdims_refuted.
Theorem C83_sum_channels :
  forall (x : nda) (n m : nat) (rate : Z) (a : units),
  In rate standard_rates ->
  nd_shape x = [n; m] ->
  audio_new x rate = Ok a ->
  exists s : units,
    audio_sum a (Some [1%Z]) false = Ok (PUnits Audio s) /\
    samplerate s = Ok rate /\
    nd_shape (data s) = [n] /\
    well_formed nd_shape s /\
    (forall i : nat,
     i < n -> nd_at (data s) [i] = total (map (fun k : nat => nd_at x [i; k]) (seq 0 m))).
Proof. exact (@sum_channels). Qed.
Print Assumptions C83_sum_channels.
Theorem C83_sum_last_axis_refuted :
  forall (x : nda) (n m : nat) (rate : Z) (a : units),
  In rate standard_rates ->
  nd_shape x = [n; m] ->
  audio_new x rate = Ok a ->
  exists s : units,
    audio_sum a (Some [(-1)%Z]) false = Ok (PUnits Plain s) /\
    (forall i : nat,
     i < n -> nd_at (data s) [i] = total (map (fun k : nat => nd_at x [i; k]) (seq 0 m))).
Proof. exact (@sum_last_axis_refuted). Qed.
Print Assumptions C83_sum_last_axis_refuted.
Theorem C83_dot_vector :
  forall (a : awu) (hd : list nat) (n : nat) (y : nda),
  well_formed nd_shape a ->
  nd_shape (data a) = hd ++ [n] ->
  nd_shape y = [n] ->
  exists s : units,
    awu_dot Plain a y = Ok (PUnits Plain s) /\
    well_formed nd_shape s /\
    nd_shape (data s) = hd /\
    dims s = removelast (dims a) /\
    (forall ix : list nat,
     in_shape hd ix ->
     nd_at (data s) ix =
     total (map (fun k : nat => (nd_at (data a) (ix ++ [k]) * nd_at y [k])%R) (seq 0 n))).
Proof. exact (@dot_vector). Qed.
Print Assumptions C83_dot_vector.
Theorem C83_dot_sizes :
  forall (c : cls) (a : awu) (n m : nat) (y : nda) (hd lead tl : list nat),
  nd_shape (data a) = hd ++ [n] ->
  nd_shape y = lead ++ m :: tl ->
  length tl <= 1 -> (tl = [] -> lead = []) -> n <> m -> awu_dot c a y = Raise ValueError.
Proof. exact (@dot_sizes). Qed.
Print Assumptions C83_dot_sizes.
Theorem C83_dot_matrix_frequency_refuted :
  forall (a : awu) (d : dim) (sc : scale) (r n c : nat) (y : nda),
  dims a = [d; DFreq sc] ->
  nd_shape (data a) = [r; n] ->
  scale_len sc = n -> nd_shape y = [n; c] -> c <> n -> awu_dot Plain a y = Raise ValueError.
Proof. exact (@dot_matrix_frequency_refuted). Qed.
Print Assumptions C83_dot_matrix_frequency_refuted.
Theorem C83_dot_matrix_time_refuted :
  forall (a : awu) (t : timedim) (n c : nat) (y : nda),
  dims a = [DTime t] ->
  norm_dim (DTime t) ->
  nd_shape (data a) = [n] ->
  nd_shape y = [n; c] ->
  exists (s : units) (u : timedim),
    awu_dot Plain a y = Ok (PUnits Plain s) /\
    nd_shape (data s) = [c] /\
    dims s = [DTime u] /\
    t_freq u = t_freq t /\
    t_dur u = t_dur t /\
    t_size u = Some (Z.of_nat c) /\
    (forall j : nat,
     j < c ->
     nd_at (data s) [j] =
     total (map (fun k : nat => (nd_at (data a) [k] * nd_at y [k; j])%R) (seq 0 n))).
Proof. exact (@dot_matrix_time_refuted). Qed.
Print Assumptions C83_dot_matrix_time_refuted.
Theorem C83_dot_audio_refuted :
  forall (a : units) (y : nda), exists e : exn, awu_dot Audio a y = Raise e.
Proof. exact (@dot_audio_refuted). Qed.
Print Assumptions C83_dot_audio_refuted.
Theorem C83_dot_many_axes_refuted :
  forall (a : awu) (hd : list nat) (n : nat) (y : nda) (p q : nat) (lead : list nat),
  length (dims a) = ndim (data a) ->
  nd_shape (data a) = hd ++ [n] ->
  nd_shape y = p :: lead ++ [n; q] ->
  awu_dot Plain a y = Raise ValueError /\
  (exists r : nda,
     np_dot (data a) y = Ok r /\
     nd_shape r = hd ++ (p :: lead) ++ [q] /\
     (forall (ix : list nat) (l : nat) (jx : list nat) (j : nat),
      in_shape hd ix ->
      l < p ->
      in_shape lead jx ->
      j < q ->
      nd_at r (ix ++ (l :: jx) ++ [j]) =
      total
        (map (fun k : nat => (nd_at (data a) (ix ++ [k]) * nd_at y ((l :: jx) ++ [k; j]))%R)
           (seq 0 n)))).
Proof. exact (@dot_many_axes_refuted). Qed.
Print Assumptions C83_dot_many_axes_refuted.
Theorem C83_dot_number :
  forall (a : awu) (y : nda),
  well_formed nd_shape a ->
  nd_shape y = [] ->
  exists s : units,
    awu_dot Plain a y = Ok (PUnits Plain s) /\
    dims s = dims a /\
    nd_shape (data s) = nd_shape (data a) /\
    (forall ix : list nat,
     in_shape (nd_shape (data a)) ix -> nd_at (data s) ix = (nd_at (data a) ix * nd_at y [])%R).
Proof. exact (@dot_number). Qed.
Print Assumptions C83_dot_number.
Theorem C83_dot_cases :
  awu_dot Plain
    {| data := {| nd_shape := [1; 2]; nd_flat := [1%R; 2%R] |}; dims := [DIdent; DIdent] |}
    {| nd_shape := [2; 2; 1]; nd_flat := [1%R; 0%R; 0%R; 1%R] |} = Raise ValueError /\
  (exists r : nda,
     np_dot {| nd_shape := [1; 2]; nd_flat := [1%R; 2%R] |}
       {| nd_shape := [2; 2; 1]; nd_flat := [1%R; 0%R; 0%R; 1%R] |} = Ok r /\
     nd_shape r = [1; 2; 1] /\ nd_at r [0; 0; 0] = 1%R /\ nd_at r [0; 1; 0] = 2%R).
Proof. exact (@dot_cases). Qed.
Print Assumptions C83_dot_cases.
Theorem C83_packbits :
  forall (a : awu) (k n : nat),
  well_formed nd_shape a ->
  nth_error (dims a) k = Some DIdent ->
  nth_error (nd_shape (data a)) k = Some n ->
  exists s : units,
    packbits a (Some k) = Ok s /\
    dims s = dims a /\
    well_formed nd_shape s /\
    (forall i : nat,
     nth_error (nd_shape (data s)) i =
     (if i =? k then Some ((n + 7) / 8) else nth_error (nd_shape (data a)) i)) /\
    (forall ix : list nat,
     in_shape (nd_shape (data s)) ix ->
     nd_at (data s) ix =
     total
       (map
          (fun b : nat =>
           let i := 8 * nth k ix 0 + b in
           if i <? n
           then
            if Req_EM_T (nd_at (data a) (firstn k ix ++ i :: skipn (S k) ix)) 0
            then 0%R
            else (2 ^ (7 - b))%R
           else 0%R) (seq 0 8))).
Proof. exact (@packbits_axis). Qed.
Print Assumptions C83_packbits.
Theorem C83_packbits_frequency_refuted :
  forall (a : awu) (k : nat) (sc : scale),
  well_formed nd_shape a ->
  nth_error (dims a) k = Some (DFreq sc) ->
  2 <= scale_len sc -> packbits a (Some k) = Raise ValueError.
Proof. exact (@packbits_frequency_refuted). Qed.
Print Assumptions C83_packbits_frequency_refuted.
Theorem C83_packbits_time_refuted :
  forall (fl : list R) (n : nat) (t : timedim),
  t_freq t <> 0%Z ->
  t_dur t = t_freq t ->
  t_size t = Some (Z.of_nat n) ->
  exists (s : units) (u : timedim),
    packbits {| data := {| nd_shape := [n]; nd_flat := fl |}; dims := [DTime t] |} (Some 0) = Ok s /\
    dims s = [DTime u] /\
    t_freq u = t_freq t /\
    t_span t = Ok (Z.of_nat n * t_freq t)%Z /\ t_span u = Ok (Z.of_nat ((n + 7) / 8) * t_freq t)%Z.
Proof. exact (@packbits_time_refuted). Qed.
Print Assumptions C83_packbits_time_refuted.
Theorem C83_packbits_flat_refuted :
  forall a : awu,
  ndim (data a) <> 1 -> length (dims a) = ndim (data a) -> packbits a None = Raise ValueError.
Proof. exact (@packbits_flat_refuted). Qed.
Print Assumptions C83_packbits_flat_refuted.
Theorem C83_zeros_like :
  forall a : awu,
  well_formed nd_shape a ->
  exists x : nda,
    zeros_like Plain a = Ok (PUnits Plain {| data := x; dims := dims a |}) /\
    nd_shape x = nd_shape (data a) /\
    well_formed nd_shape {| data := x; dims := dims a |} /\
    (forall ix : list nat, in_shape (nd_shape x) ix -> nd_at x ix = 0%R).
Proof. exact (@zeros_like_plain). Qed.
Print Assumptions C83_zeros_like.
Theorem C83_zeros_like_audio :
  forall (x : nda) (rate : Z) (a : units),
  In rate standard_rates ->
  ndim x = 1 \/ ndim x = 2 ->
  audio_new x rate = Ok a ->
  exists s : units,
    zeros_like Audio a = Ok (PUnits Audio s) /\
    samplerate s = Ok rate /\
    nd_shape (data s) = nd_shape x /\
    (forall ix : list nat, in_shape (nd_shape x) ix -> nd_at (data s) ix = 0%R).
Proof. exact (@zeros_like_audio). Qed.
Print Assumptions C83_zeros_like_audio.
Theorem C83_concatenate :
  forall (a b : awu) (m n : nat) (sh : list nat) (d : dim) (ds : list dim),
  well_formed nd_shape a ->
  wf_nda (data a) ->
  dims a = d :: ds ->
  (forall s : scale, d <> DFreq s) ->
  nd_shape (data a) = m :: sh ->
  nd_shape (data b) = n :: sh ->
  dims_eq (dims a) (dims b) = Ok true ->
  exists s : units,
    concatenate Plain a b = Ok (PUnits Plain s) /\
    well_formed nd_shape s /\
    nd_shape (data s) = m + n :: sh /\
    Forall2 same_dim (dims s) (dims a) /\
    (forall (i : nat) (ix : list nat),
     in_shape sh ix ->
     (i < m -> nd_at (data s) (i :: ix) = nd_at (data a) (i :: ix)) /\
     (m <= i -> nd_at (data s) (i :: ix) = nd_at (data b) (i - m :: ix))).
Proof. exact (@concatenate_plain). Qed.
Print Assumptions C83_concatenate.
Theorem C83_concatenate_audio :
  forall (x y : nda) (m n : nat) (sh : list nat) (rate : Z) (a b : units),
  In rate standard_rates ->
  ndim x = 1 \/ ndim x = 2 ->
  wf_nda x ->
  nd_shape x = m :: sh ->
  nd_shape y = n :: sh ->
  audio_new x rate = Ok a ->
  audio_new y rate = Ok b ->
  exists s : units,
    concatenate Audio a b = Ok (PUnits Audio s) /\
    samplerate s = Ok rate /\
    nd_shape (data s) = m + n :: sh /\
    (forall (i : nat) (ix : list nat),
     in_shape sh ix ->
     (i < m -> nd_at (data s) (i :: ix) = nd_at x (i :: ix)) /\
     (m <= i -> nd_at (data s) (i :: ix) = nd_at y (i - m :: ix))).
Proof. exact (@concatenate_audio). Qed.
Print Assumptions C83_concatenate_audio.
Theorem C83_concatenate_different :
  forall (c : cls) (a b : awu),
  dims_eq (dims a) (dims b) = Ok false -> concatenate c a b = Raise ValueError.
Proof. exact (@concatenate_different). Qed.
Print Assumptions C83_concatenate_different.
Theorem C83_concatenate_frequency_refuted :
  forall (a b : awu) (m n : nat) (sh : list nat) (sc : scale) (ds : list dim),
  dims a = DFreq sc :: ds ->
  well_formed nd_shape a ->
  nd_shape (data a) = m :: sh ->
  nd_shape (data b) = n :: sh ->
  0 < n -> dims_eq (dims a) (dims b) = Ok true -> concatenate Plain a b = Raise ValueError.
Proof. exact (@concatenate_frequency_refuted). Qed.
Print Assumptions C83_concatenate_frequency_refuted.

(** C84: reading and assigning parts *)
Theorem C84_read_entries :
  forall (a : units) (i : pyindex) (s : pyval),
  getitem_py a i = Ok s ->
  forall jx : list nat,
  in_shape (nd_shape (arr_of s)) jx ->
  exists ix : list nat, selects a i jx ix /\ nd_at (arr_of s) jx = nd_at (data a) ix.
Proof. exact (@getitem_selects). Qed.
Print Assumptions C84_read_entries.
Theorem C84_ellipsis_first :
  forall (lead last_axes : list nat) (ix : list nix),
  length last_axes = length ix ->
  (forall x : nix, In x ix -> x <> NNone /\ x <> NEll) ->
  selectors (lead ++ last_axes) (NEll :: ix) =
  (do r <- selectors last_axes ix; Ok (map full lead ++ r)).
Proof. exact (@ellipsis_first). Qed.
Print Assumptions C84_ellipsis_first.
Theorem C84_ellipsis_last :
  forall (sh : list nat) (ix : list nix),
  (forall x : nix, In x ix -> x <> NNone /\ x <> NEll) ->
  selectors sh (ix ++ [NEll]) = selectors sh ix.
Proof. exact (@ellipsis_last). Qed.
Print Assumptions C84_ellipsis_last.
Theorem C84_two_ellipses :
  forall (sh : list nat) (a b c : list nix),
  selectors sh (a ++ NEll :: b ++ NEll :: c) = Raise IndexError.
Proof. exact (@two_ellipses). Qed.
Print Assumptions C84_two_ellipses.
Theorem C84_assign :
  forall (a : units) (i : pyindex) (v : nda) (r : units),
  setitem a i v = Ok r ->
  dims r = dims a /\
  nd_shape (data r) = nd_shape (data a) /\
  (forall ix : list nat,
   in_shape (nd_shape (data a)) ix ->
   (forall jx : list nat, ~ selects a i jx ix) -> nd_at (data r) ix = nd_at (data a) ix) /\
  (forall ix : list nat,
   in_shape (nd_shape (data a)) ix ->
   (exists jx : list nat, selects a i jx ix) ->
   exists jx kx : list nat,
     selects a i jx ix /\ entry_used (nd_shape v) jx kx /\ nd_at (data r) ix = nd_at v kx).
Proof. exact (@setitem_spec). Qed.
Print Assumptions C84_assign.
Theorem C84_selected_once :
  forall (a : units) (i : pyindex) (jx jx' ix : list nat),
  no_lists i = true -> selects a i jx ix -> selects a i jx' ix -> jx = jx'.
Proof. exact (@selects_once). Qed.
Print Assumptions C84_selected_once.
Theorem C84_selected_exist :
  forall (a : units) (i : pyindex) (jx ix : list nat),
  selects a i jx ix -> in_shape (nd_shape (data a)) ix.
Proof. exact (@selects_in_shape). Qed.
Print Assumptions C84_selected_exist.
Theorem C84_assign_then_read :
  forall (a : units) (i : pyindex) (v : nda) (r : units) (s : pyval),
  setitem a i v = Ok r ->
  getitem_py r i = Ok s ->
  no_lists i = true ->
  nd_shape v = nd_shape (arr_of s) ->
  forall jx : list nat, in_shape (nd_shape v) jx -> nd_at (arr_of s) jx = nd_at v jx.
Proof. exact (@set_then_get). Qed.
Print Assumptions C84_assign_then_read.
Theorem C84_audio_slice :
  forall (x : nda) (rate : Z) (a : units) (n : nat) (sh : list nat) (lo hi : option Z) (step : Z),
  In rate standard_rates ->
  nd_shape x = n :: sh ->
  length sh <= 1 ->
  audio_new x rate = Ok a ->
  (0 < step)%Z ->
  let first :=
    match lo with
    | Some i => AxisProofs.clip 0 (Z.of_nat n) (Z.of_nat n) i
    | None => 0%Z
    end in
  let last :=
    match hi with
    | Some i => AxisProofs.clip 0 (Z.of_nat n) (Z.of_nat n) i
    | None => Z.of_nat n
    end in
  exists (s : units) (pos : list nat),
    audio_getitem a (IxOne (XSl lo hi step)) = Ok (PUnits Audio s) /\
    samplerate s = Ok rate /\
    nd_shape (data s) = length pos :: sh /\
    (forall k : nat, In k pos <-> (first <= Z.of_nat k < last)%Z /\ (step | Z.of_nat k - first)%Z) /\
    StronglySorted lt pos /\
    (forall (j : nat) (ix : list nat),
     j < length pos -> in_shape sh ix -> nd_at (data s) (j :: ix) = nd_at x (nth j pos 0 :: ix)).
Proof. exact (@audio_getitem_slice). Qed.
Print Assumptions C84_audio_slice.
Theorem C84_audio_time_slice :
  forall (x : nda) (rate : Z) (a : units) (n : nat) (sh : list nat) (i0 i1 : nat),
  In rate standard_rates ->
  nd_shape x = n :: sh ->
  length sh <= 1 ->
  audio_new x rate = Ok a ->
  i0 <= i1 <= n ->
  exists s : units,
    audio_getitem a
      (IxOne
         (XTime (Z.of_nat i0 * one_sample rate) (Some (Z.of_nat (i1 - i0) * one_sample rate)%Z))) =
    Ok (PUnits Audio s) /\
    samplerate s = Ok rate /\
    nd_shape (data s) = i1 - i0 :: sh /\
    (forall (j : nat) (ix : list nat),
     j < i1 - i0 -> in_shape sh ix -> nd_at (data s) (j :: ix) = nd_at x (i0 + j :: ix)).
Proof. exact (@audio_getitem_time). Qed.
Print Assumptions C84_audio_time_slice.
Theorem C84_audio_step_refuted :
  forall (x : nda) (rate : Z) (a : units) (n : nat) (sh : list nat) (k : nat),
  In rate standard_rates ->
  nd_shape x = n :: sh ->
  length sh <= 1 ->
  audio_new x rate = Ok a ->
  2 <= k ->
  0 < n ->
  exists s : units,
    audio_getitem a (IxOne (XSl None None (Z.of_nat k))) = Ok (PUnits Audio s) /\
    samplerate s = Ok rate /\
    nd_shape (data s) = (n - 1) / k + 1 :: sh /\
    (forall (j : nat) (ix : list nat),
     j * k < n -> in_shape sh ix -> nd_at (data s) (j :: ix) = nd_at x (j * k :: ix)).
Proof. exact (@audio_getitem_step_refuted). Qed.
Print Assumptions C84_audio_step_refuted.
Theorem C84_audio_reversed :
  forall (x : nda) (rate : Z) (a : units) (n : nat) (sh : list nat),
  In rate standard_rates ->
  nd_shape x = n :: sh ->
  length sh <= 1 ->
  audio_new x rate = Ok a ->
  exists s : units,
    audio_getitem a (IxOne (XSl None None (-1))) = Ok (PUnits Audio s) /\
    samplerate s = Ok rate /\
    nd_shape (data s) = n :: sh /\
    (forall (j : nat) (ix : list nat),
     j < n -> in_shape sh ix -> nd_at (data s) (j :: ix) = nd_at x (n - 1 - j :: ix)).
Proof. exact (@audio_getitem_reversed). Qed.
Print Assumptions C84_audio_reversed.
Theorem C84_audio_int :
  forall (x : nda) (rate : Z) (a : units) (n : nat) (k : Z),
  In rate standard_rates ->
  nd_shape x = [n] ->
  audio_new x rate = Ok a ->
  ((0 <= k < Z.of_nat n)%Z -> audio_getitem a (IxOne (XInt k)) = Ok (PNum (nd_at x [Z.to_nat k]))) /\
  ((- Z.of_nat n <= k < 0)%Z ->
   audio_getitem a (IxOne (XInt k)) = Ok (PNum (nd_at x [Z.to_nat (Z.of_nat n + k)]))) /\
  ((k < - Z.of_nat n)%Z \/ (Z.of_nat n <= k)%Z ->
   audio_getitem a (IxOne (XInt k)) = Raise IndexError).
Proof. exact (@audio_getitem_int). Qed.
Print Assumptions C84_audio_int.
Theorem C84_audio_frame :
  forall (x : nda) (rate : Z) (a : units) (n m k : nat),
  In rate standard_rates ->
  nd_shape x = [n; m] ->
  audio_new x rate = Ok a ->
  k < n ->
  exists s : units,
    audio_getitem a (IxOne (XInt (Z.of_nat k))) = Ok (PUnits Plain s) /\
    dims s = [DIdent] /\
    nd_shape (data s) = [m] /\ (forall c : nat, c < m -> nd_at (data s) [c] = nd_at x [k; c]).
Proof. exact (@audio_getitem_frame). Qed.
Print Assumptions C84_audio_frame.
Theorem C84_audio_channel_refuted :
  forall (x : nda) (rate : Z) (a : units) (n m c : nat),
  In rate standard_rates ->
  nd_shape x = [n; m] ->
  audio_new x rate = Ok a ->
  c < m ->
  exists s : units,
    audio_getitem a (IxTuple [XSl None None 1; XInt (Z.of_nat c)]) = Ok (PUnits Plain s) /\
    nd_shape (data s) = [n] /\ (forall i : nat, i < n -> nd_at (data s) [i] = nd_at x [i; c]).
Proof. exact (@audio_getitem_channel_refuted). Qed.
Print Assumptions C84_audio_channel_refuted.
Theorem C84_index_forms :
  forall (a : units) (l : list Z) (z : aix) (l' : list aix),
  getitem_py a (IxSlices (z :: l')) = getitem_py a (IxTuple (z :: l')) /\
  (forall v : nda, setitem a (IxSlices (z :: l')) v = setitem a (IxTuple (z :: l')) v) /\
  getitem_py a IxMixed = Raise ValueError /\
  (forall v : nda, setitem a IxMixed v = Raise ValueError) /\
  (l <> [] -> getitem_py a (IxInts l) = getitem_py a (IxOne (XList l))).
Proof. exact (@index_forms). Qed.
Print Assumptions C84_index_forms.
Theorem C84_empty_list_refuted :
  forall (a : units) (v : nda),
  getitem_py a (IxInts []) = Raise IndexError /\ setitem a (IxInts []) v = Raise IndexError.
Proof. exact (@empty_list_refuted). Qed.
Print Assumptions C84_empty_list_refuted.
Theorem C84_integer_array_refuted :
  forall (x : nda) (rate : Z) (a : units) (n : nat) (sh : list nat) (i j : Z),
  In rate standard_rates ->
  nd_shape x = n :: sh ->
  length sh <= 1 ->
  audio_new x rate = Ok a ->
  (sh = [] -> audio_getitem a (IxArray [i; j]) = Raise IndexError) /\
  (forall m : nat,
   sh = [m] ->
   (0 <= i < Z.of_nat n)%Z ->
   (0 <= j < Z.of_nat m)%Z ->
   forall ss : list sel,
   entries_of a (IxArray [i; j]) = Ok ss ->
   sel_shape ss = [] /\ sel_source ss [] = [Z.to_nat i; Z.to_nat j]).
Proof. exact (@integer_array_refuted). Qed.
Print Assumptions C84_integer_array_refuted.
Theorem C84_duration_refuted :
  forall (x : nda) (rate : Z) (a : units) (n : nat) (sh : list nat),
  In rate standard_rates ->
  nd_shape x = n :: sh ->
  length sh <= 1 ->
  audio_new x rate = Ok a -> duration_in_seconds a = Ok (one_sample rate, (10 ^ 12)%Z).
Proof. exact (@duration_refuted). Qed.
Print Assumptions C84_duration_refuted.
Theorem C84_assign_time_slice :
  forall (x : nda) (rate : Z) (a : units) (n i0 i1 : nat) (v : nda),
  In rate standard_rates ->
  nd_shape x = [n] ->
  audio_new x rate = Ok a ->
  i0 <= i1 <= n ->
  nd_shape v = [] \/ nd_shape v = [i1 - i0] ->
  exists r : units,
    setitem a
      (IxOne
         (XTime (Z.of_nat i0 * one_sample rate) (Some (Z.of_nat (i1 - i0) * one_sample rate)%Z))) v =
    Ok r /\
    samplerate r = Ok rate /\
    dims r = dims a /\
    nd_shape (data r) = [n] /\
    (forall k : nat, k < n -> k < i0 \/ i1 <= k -> nd_at (data r) [k] = nd_at x [k]) /\
    (forall k : nat,
     i0 <= k < i1 ->
     nd_at (data r) [k] = nd_at v match nd_shape v with
                                  | [] => []
                                  | _ :: _ => [k - i0]
                                  end).
Proof. exact (@audio_setitem_time). Qed.
Print Assumptions C84_assign_time_slice.

