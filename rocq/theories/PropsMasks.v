(** C108: boolean masks as indices. *)
From Coq Require Import Permutation Reals.
From Verif Require Import PyBase PyFacts PyMore Time Freq FreqDim Axis AxisProofs Ops OpsProofs Masks MasksProofs MasksProofs2 MasksProofs3.
Local Open Scope nat_scope.
Theorem C108_read :
  forall (a : awu) (m : mask) (rest : list nat),
  wf_mask m ->
  nd_shape (data a) = m_shape m ++ rest ->
  exists r : nda,
    getitem_mask a m = Ok (PRaw r) /\
    wf_nda r /\
    nd_shape r = trues (m_flat m) :: rest /\
    (forall ix jx : list nat,
     in_shape (m_shape m) ix ->
     mask_at m ix = true ->
     in_shape rest jx ->
     in_shape (nd_shape r) (before m ix :: jx) /\
     nd_at r (before m ix :: jx) = nd_at (data a) (ix ++ jx)) /\
    (forall k : nat,
     k < trues (m_flat m) ->
     exists ix : list nat, in_shape (m_shape m) ix /\ mask_at m ix = true /\ before m ix = k).
Proof. exact (@mask_read). Qed.
Print Assumptions C108_read.
Theorem C108_read_all_axes :
  forall (a : awu) (m : mask),
  wf_mask m ->
  wf_nda (data a) ->
  nd_shape (data a) = m_shape m ->
  getitem_mask a m =
  Ok
    (PRaw
       {|
         nd_shape := [trues (m_flat m)];
         nd_flat := map fst (filter snd (combine (nd_flat (data a)) (m_flat m)))
       |}).
Proof. exact (@mask_flat_read). Qed.
Print Assumptions C108_read_all_axes.
Theorem C108_complement :
  forall (a : awu) (m : mask),
  wf_mask m ->
  wf_nda (data a) ->
  nd_shape (data a) = m_shape m ->
  exists r s : nda,
    getitem_mask a m = Ok (PRaw r) /\
    getitem_mask a (negated m) = Ok (PRaw s) /\
    Permutation (nd_flat (data a)) (nd_flat r ++ nd_flat s).
Proof. exact (@mask_complement). Qed.
Print Assumptions C108_complement.
Theorem C108_wrong_shape :
  forall (a : awu) (m : mask) (v : nda),
  (forall rest : list nat, nd_shape (data a) <> m_shape m ++ rest) ->
  getitem_mask a m = Raise IndexError /\ np_set_mask (data a) m v = Raise IndexError.
Proof. exact (@mask_wrong_shape). Qed.
Print Assumptions C108_wrong_shape.
Theorem C108_assign :
  forall (a : awu) (m : mask) (v : nda) (rest : list nat) (d : dim) (ds : list dim),
  wf_mask m ->
  nd_shape (data a) = m_shape m ++ rest ->
  dims a = d :: ds ->
  (forall s : scale, d <> DFreq s) ->
  (broadcast (nd_shape v) (trues (m_flat m) :: rest) = Some (trues (m_flat m) :: rest) ->
   exists r : units,
     setitem_mask a m v = Ok r /\
     dims r = dims a /\
     wf_nda (data r) /\
     nd_shape (data r) = nd_shape (data a) /\
     (forall ix jx : list nat,
      in_shape (m_shape m) ix ->
      in_shape rest jx ->
      nd_at (data r) (ix ++ jx) =
      (if mask_at m ix
       then nd_at v (bc_index (nd_shape v) (before m ix :: jx))
       else nd_at (data a) (ix ++ jx)))) /\
  (broadcast (nd_shape v) (trues (m_flat m) :: rest) <> Some (trues (m_flat m) :: rest) ->
   setitem_mask a m v = Raise ValueError).
Proof. exact (@mask_assign). Qed.
Print Assumptions C108_assign.
Theorem C108_assign_frequency_refuted :
  forall (a : awu) (m : mask) (v : nda) (s : scale) (ds : list dim),
  dims a = DFreq s :: ds -> setitem_mask a m v = Raise AttributeError.
Proof. exact (@mask_assign_frequency_refuted). Qed.
Print Assumptions C108_assign_frequency_refuted.
Theorem C108_assign_then_read :
  forall (a : awu) (m : mask) (v : nda) (r : units) (rest : list nat) (d : dim) (ds : list dim),
  wf_mask m ->
  wf_nda v ->
  nd_shape (data a) = m_shape m ++ rest ->
  nd_shape v = trues (m_flat m) :: rest ->
  dims a = d :: ds -> setitem_mask a m v = Ok r -> getitem_mask r m = Ok (PRaw v).
Proof. exact (@assign_then_read). Qed.
Print Assumptions C108_assign_then_read.
Theorem C108_read_then_assign :
  forall (a : awu) (m : mask) (x : nda) (rest : list nat) (d : dim) (ds : list dim),
  wf_mask m ->
  wf_nda (data a) ->
  nd_shape (data a) = m_shape m ++ rest ->
  dims a = d :: ds ->
  (forall s : scale, d <> DFreq s) -> getitem_mask a m = Ok (PRaw x) -> setitem_mask a m x = Ok a.
Proof. exact (@read_then_assign). Qed.
Print Assumptions C108_read_then_assign.
Theorem C108_replace :
  forall (a : awu) (p : R -> bool) (c : R) (d : dim) (ds : list dim),
  wf_nda (data a) ->
  dims a = d :: ds ->
  (forall s : scale, d <> DFreq s) ->
  setitem_mask a {| m_shape := nd_shape (data a); m_flat := map p (nd_flat (data a)) |}
    {| nd_shape := []; nd_flat := [c] |} =
  Ok
    {|
      data :=
        {|
          nd_shape := nd_shape (data a);
          nd_flat := map (fun y : R => if p y then c else y) (nd_flat (data a))
        |};
      dims := dims a
    |}.
Proof. exact (@mask_replace). Qed.
Print Assumptions C108_replace.
Theorem C108_list_positions :
  forall (a : awu) (l : list bool) (rest : list nat) (d : dim) (ds : list dim),
  nd_shape (data a) = length l :: rest ->
  dims a = d :: ds ->
  positions l <> [] ->
  getitem_py a (IxInts (map Z.of_nat (positions l))) =
  (do s <- getitem_bools a l; Ok (PUnits Plain s)).
Proof. exact (@bools_as_positions). Qed.
Print Assumptions C108_list_positions.
Theorem C108_list_read :
  forall (a : awu) (l : list bool) (rest : list nat) (d : dim) (ds : list dim),
  well_formed nd_shape a ->
  l <> [] ->
  nd_shape (data a) = length l :: rest ->
  dims a = d :: ds ->
  exists s : units,
    getitem_bools a l = Ok s /\
    dims s = DIdent :: ds /\
    nd_shape (data s) = length (positions l) :: rest /\
    (forall (k : nat) (jx : list nat),
     k < length (positions l) ->
     in_shape rest jx -> nd_at (data s) (k :: jx) = nd_at (data a) (nth k (positions l) 0 :: jx)).
Proof. exact (@bools_read). Qed.
Print Assumptions C108_list_read.
Theorem C108_list_assign :
  forall (a : awu) (l : list bool) (v : nda) (rest : list nat),
  l <> [] ->
  nd_shape (data a) = length l :: rest ->
  broadcast (nd_shape v) (trues l :: rest) = Some (trues l :: rest) ->
  exists r : units,
    setitem_bools a l v = Ok r /\
    dims r = dims a /\
    nd_shape (data r) = nd_shape (data a) /\
    (forall (i : nat) (jx : list nat),
     i < length l ->
     in_shape rest jx ->
     nd_at (data r) (i :: jx) =
     (if nth i l false
      then nd_at v (bc_index (nd_shape v) (trues (firstn i l) :: jx))
      else nd_at (data a) (i :: jx))).
Proof. exact (@bools_assign). Qed.
Print Assumptions C108_list_assign.
Theorem C108_list_empty_refuted :
  forall (a : units) (v : nda),
  getitem_bools a [] = Raise IndexError /\
  setitem_bools a [] v = Raise IndexError /\
  (forall rest : list nat,
   nd_shape (data a) = 0 :: rest ->
   exists r : nda, getitem_mask a (list_mask []) = Ok (PRaw r) /\ nd_shape r = 0 :: rest).
Proof. exact (@bools_empty_refuted). Qed.
Print Assumptions C108_list_empty_refuted.
Theorem C108_before_axes :
  forall (a : awu) (l : list bool) (rest : list nat) (t : timedim) (ds : list dim),
  well_formed nd_shape a ->
  nd_shape (data a) = length l :: rest ->
  dims a = DTime t :: ds ->
  exists (s : units) (u : timedim),
    getitem_mask_rest a l = Ok s /\
    dims s = DTime u :: ds /\
    t_freq u = t_freq t /\
    t_dur u = t_dur t /\
    t_size u = Some (Z.of_nat (length (positions l))) /\
    nd_shape (data s) = length (positions l) :: rest /\
    (forall (k : nat) (jx : list nat),
     k < length (positions l) ->
     in_shape rest jx -> nd_at (data s) (k :: jx) = nd_at (data a) (nth k (positions l) 0 :: jx)).
Proof. exact (@mask_rest). Qed.
Print Assumptions C108_before_axes.
Theorem C108_before_axes_times_refuted :
  forall (l : list bool) (i j : nat) (f : Z),
  i < j ->
  nth i l false = false ->
  nth j l false = true ->
  (0 < f)%Z ->
  exists k : nat,
    k < length (positions l) /\ (Z.of_nat k * f < Z.of_nat (nth k (positions l) 0%nat) * f)%Z.
Proof. exact (@mask_rest_times_refuted). Qed.
Print Assumptions C108_before_axes_times_refuted.
Theorem C108_before_axes_frequency_refuted :
  forall (a : awu) (l : list bool) (d : dim) (ds : list dim),
  dims a = d :: ds ->
  (exists s : scale, d = DFreq s) \/ (exists e : efd, d = DExp e) ->
  covers (list_mask l) (nd_shape (data a)) = true -> getitem_mask_rest a l = Raise AttributeError.
Proof. exact (@mask_rest_frequency_refuted). Qed.
Print Assumptions C108_before_axes_frequency_refuted.
Theorem C108_example :
  well_formed nd_shape frames5 /\
  wf_nda (data frames5) /\
  getitem_mask frames5 {| m_shape := [3; 2]; m_flat := [true; false; false; true; true; false] |} =
  Ok (PRaw {| nd_shape := [3]; nd_flat := [1%R; 4%R; 5%R] |}) /\
  (exists s : units,
     getitem_mask_rest frames5 [true; false; true] = Ok s /\
     data s = {| nd_shape := [2; 2]; nd_flat := [1%R; 2%R; 5%R; 6%R] |} /\
     dims s = [DTime {| t_freq := 10; t_dur := 20; t_size := Some 2%Z |}; DIdent]) /\
  (exists s : units,
     getitem_bools frames5 [true; false; true] = Ok s /\
     data s = {| nd_shape := [2; 2]; nd_flat := [1%R; 2%R; 5%R; 6%R] |} /\
     dims s = [DIdent; DIdent]) /\
  setitem_mask frames5 {| m_shape := [3]; m_flat := [false; true; false] |}
    {| nd_shape := [2]; nd_flat := [7%R; 8%R] |} =
  Ok
    {|
      data := {| nd_shape := [3; 2]; nd_flat := [1%R; 2%R; 7%R; 8%R; 5%R; 6%R] |};
      dims := dims frames5
    |}.
Proof. exact (@masks_meet). Qed.
Print Assumptions C108_example.

