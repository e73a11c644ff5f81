(** Property theorems: dimensions of arrays and unit-aware indexing (C19, C20). *)
From Verif Require Import PyBase PyFacts PyMore Time Freq FreqDim Axis AxisProofs.
From Coq Require Import Sorting.Sorted.
Local Open Scope Z_scope.

(** C19, construction: a wrong number of dimensions is a ValueError ... *)
Theorem C19_wrong_number_of_dimensions : forall {X} (shape_of : X -> list nat) x ds,
  length (shape_of x) <> length ds -> awu_new shape_of x ds = Raise ValueError.
Proof. exact @awu_new_mismatch. Qed.
Print Assumptions C19_wrong_number_of_dimensions.

(** ... and what is constructed has one dimension per axis, of its size, and
    otherwise the dimensions given *)
Theorem C19_construction : forall {X} (shape_of : X -> list nat) x ds a,
  Forall norm_dim ds -> awu_new shape_of x ds = Ok a ->
  data a = x /\ length ds = length (shape_of x) /\ well_formed shape_of a /\ Forall2 same_dim (dims a) ds.
Proof. exact @awu_new_spec. Qed.
Print Assumptions C19_construction.

(** indexing: every axis of the result has the dimension it should have *)
Theorem C19_getitem : forall {X} (shape_of : X -> list nat) np_get (a : awu) index r,
  well_formed shape_of a -> np_index (length (dims a)) index -> plain index ->
  np_contract shape_of np_get -> simple index ->
  getitem shape_of np_get a index = Ok r ->
  well_formed shape_of r /\ Forall2 (dim_for (dims a)) (sources (length (dims a)) index) (dims r).
Proof. exact @getitem_spec. Qed.
Print Assumptions C19_getitem.

(** and does not fail over the number of dimensions *)
Theorem C19_getitem_accepts : forall {X} (shape_of : X -> list nat) np_get (a : awu) index ix arr,
  well_formed shape_of a -> np_index (length (dims a)) index -> plain index -> no_freq (dims a) ->
  np_contract shape_of np_get -> simple index ->
  compute_indices (dims a) index = Ok ix -> np_get (data a) ix = Ok arr ->
  exists r, getitem shape_of np_get a index = Ok r /\ data r = arr.
Proof. exact @getitem_accepts. Qed.
Print Assumptions C19_getitem_accepts.

Theorem C19_transpose : forall {X} (shape_of : X -> list nat) tr (a : awu),
  well_formed shape_of a -> shape_of (tr (data a)) = rev (shape_of (data a)) ->
  transpose shape_of tr a = Ok (mkAwu (tr (data a)) (rev (dims a))) /\
  well_formed shape_of (mkAwu (tr (data a)) (rev (dims a))).
Proof. exact @transpose_spec. Qed.
Print Assumptions C19_transpose.

Theorem C19_reduction : forall {X} (shape_of : X -> list nat) (a : awu) r axes (keep : bool),
  well_formed shape_of a -> shape_of r <> [] ->
  shape_of r = (if keep then replace_at (named (length (dims a)) axes) 1%nat 0 (shape_of (data a))
                else select (fun i => negb (named (length (dims a)) axes i)) 0 (shape_of (data a))) ->
  let ds := if keep then replace_at (named (length (dims a)) axes) DIdent 0 (dims a)
            else select (fun i => negb (named (length (dims a)) axes i)) 0 (dims a) in
  reduction shape_of a r axes keep = Ok (mkAwu r ds) /\ well_formed shape_of (mkAwu r ds).
Proof. exact @reduction_spec. Qed.
Print Assumptions C19_reduction.

(** a reduction over every axis, named as axes, is an error instead of a number:
    [x.sum(axis=0)] of an array with one axis *)
Theorem C19_reduction_all_axes_refuted : forall {X} (shape_of : X -> list nat) (a : awu) (r : X) axes keep,
  shape_of r = [] -> dims a <> [] -> reduction shape_of a r axes keep = Raise AttributeError.
Proof. exact @reduction_all_axes. Qed.
Print Assumptions C19_reduction_all_axes_refuted.

Theorem C19_squeeze : forall {X} (shape_of : X -> list nat) rs (a : awu),
  well_formed shape_of a -> np_reshape shape_of rs ->
  (forall n, In n (shape_of (data a)) -> (1 <= n)%nat) ->
  exists r, squeeze shape_of rs a = Ok r /\ well_formed shape_of r /\
    shape_of (data r) = filter (fun n => 1 <? n)%nat (shape_of (data a)) /\
    dims r = squeeze_dims (shape_of (data a)) (dims a).
Proof. exact @squeeze_spec. Qed.
Print Assumptions C19_squeeze.

Theorem C19_reshape : forall {X} (shape_of : X -> list nat) rs (a : awu) req y,
  well_formed shape_of a -> np_reshape shape_of rs ->
  (forall n, In n (shape_of (data a)) -> (1 <= n)%nat) ->
  rs (data a) req = Ok y ->
  exists r, reshape shape_of rs a req = Ok r /\ well_formed shape_of r /\ shape_of (data r) = shape_of y /\
    (dims r = squeeze_dims (shape_of (data a)) (dims a) \/
     dims r = insert_ones req (dims a) /\
       map Z.of_nat (shape_of (data a)) = filter (fun z => negb (Z.abs z =? 1)) req \/
     dims r = map (fun _ => DIdent) req).
Proof. exact @reshape_spec. Qed.
Print Assumptions C19_reshape.

Theorem C19_concat : forall {X} (shape_of : X -> list nat) cat (a : awu) rest r,
  well_formed shape_of a -> concat shape_of cat (a :: rest) = Ok r ->
  well_formed shape_of r /\ cat (map data (a :: rest)) = Ok (data r) /\
  Forall2 same_dim (dims r) (dims a) /\
  forall b, In b rest -> Forall2 agree (dims b) (dims a).
Proof. exact @concat_spec. Qed.
Print Assumptions C19_concat.

Theorem C19_windowing : forall {X} (shape_of : X -> list nat) win (a : awu) t ds n sh w s lo r k,
  well_formed shape_of a -> dims a = DTime t :: ds -> shape_of (data a) = n :: sh ->
  0 < t_freq t -> 0 < t_dur t -> 0 < w -> 0 < s ->
  win (data a) w s = Ok (lo, r) -> shape_of r = k :: Z.to_nat w :: sh ->
  (0 < np_size (shape_of r))%nat ->
  exists res, sliding_window_with_leftovers shape_of win a w s = Ok res /\
    well_formed shape_of res /\ data res = r /\
    dims res = DTime {| t_freq := t_freq t * s; t_dur := t_freq t * w + (t_dur t - t_freq t);
                        t_size := Some (Z.of_nat k) |}
               :: DTime {| t_freq := t_freq t; t_dur := t_dur t; t_size := Some w |} :: ds.
Proof. exact @swl_spec. Qed.
Print Assumptions C19_windowing.

(** where it fails: a numpy integer as index, two lists, a window of one
    sample, squeezing an empty array *)
Theorem C19_numpy_integer_refuted : forall {X} (shape_of : X -> list nat) np_get (a : awu) i arr ds,
  dims a = DIdent :: ds -> np_get (data a) [NNpInt i] = Ok arr ->
  length (shape_of arr) = length ds ->
  getitem shape_of np_get a [XNpInt i] = Raise ValueError.
Proof. exact @getitem_npint_refuted. Qed.
Print Assumptions C19_numpy_integer_refuted.

Theorem C19_two_lists_refuted : forall {X} (shape_of : X -> list nat) np_get (a : awu) l1 l2 arr d1 d2 ds,
  dims a = d1 :: d2 :: ds -> np_get (data a) [NList l1; NList l2] = Ok arr ->
  length (shape_of arr) = S (length ds) ->
  getitem shape_of np_get a [XList l1; XList l2] = Raise ValueError.
Proof. exact @getitem_two_lists_refuted. Qed.
Print Assumptions C19_two_lists_refuted.

Theorem C19_window_of_one_refuted : forall {X} (shape_of : X -> list nat) win (a : awu) t ds n sh s lo r k,
  well_formed shape_of a -> dims a = DTime t :: ds -> shape_of (data a) = n :: sh ->
  0 < t_freq t -> 0 < t_dur t -> 0 < s ->
  win (data a) 1 s = Ok (lo, r) -> shape_of r = k :: sh -> (0 < np_size (shape_of r))%nat ->
  sliding_window_with_leftovers shape_of win a 1 s = Raise ValueError.
Proof. exact @swl_window_one_refuted. Qed.
Print Assumptions C19_window_of_one_refuted.

Theorem C19_squeeze_empty_refuted : forall {X} (shape_of : X -> list nat) rs (a : awu),
  (forall x req, np_size (map Z.to_nat req) <> np_size (shape_of x) -> rs x req = Raise ValueError) ->
  In 0%nat (shape_of (data a)) -> squeeze shape_of rs a = Raise ValueError.
Proof. exact @squeeze_empty_refuted. Qed.
Print Assumptions C19_squeeze_empty_refuted.

(** C20: the data is what numpy gives for the translated index *)
Theorem C20_getitem_data_partial : forall {X} (shape_of : X -> list nat) np_get (a : awu) index r,
  np_index (length (dims a)) index -> good_dims (dims a) ->
  (forall k x, nth_error index k = Some x -> unit_element x = true -> no_none_counted index k) ->
  getitem shape_of np_get a index = Ok r ->
  exists ix, translated (dims a) index ix /\ np_get (data a) ix = Ok (data r).
Proof. exact @getitem_data. Qed.
Print Assumptions C20_getitem_data_partial.

(** the same translation is used for assignment, and is defined for every index
    numpy accepts whose unit elements the dimensions can translate *)
Theorem C20_translation_defined : forall ds index,
  np_index (length ds) index -> sized_dims ds ->
  count is_none index = 0%nat -> (forall i, ~ In (XNpInt i) index) ->
  (forall k x, nth_error index k = Some x -> unit_element x = true ->
     exists d y, nth_error ds (axis_of (length ds) index k) = Some d /\ dim_int_slice d x = Ok y) ->
  exists ix, compute_indices ds index = Ok ix.
Proof. exact compute_indices_accepts. Qed.
Print Assumptions C20_translation_defined.

(** with None in front (or, after an Ellipsis, behind) the wrong dimension
    translates; a reversed slice to zero on a time axis selects nothing *)
Theorem C20_none_refuted :
  compute_indices [DTime t1; DTime t2] [XNone; XTime 0 (Some 4000)] = Ok [NNone; NSl (Some 0) (Some 2) 1] /\
  axis_of 2 [XNone; XTime 0 (Some 4000)] 1 = 0%nat /\
  dim_int_slice (DTime t1) (XTime 0 (Some 4000)) = Ok (NSl (Some 0) (Some 4) 1).
Proof. exact none_wrong_axis. Qed.
Print Assumptions C20_none_refuted.

Theorem C20_ellipsis_none_refuted :
  compute_indices [DTime t1; DTime t2] [XEll; XTime 0 (Some 4000); XNone]
    = Ok [NEll; NSl (Some 0) (Some 4) 1; NNone] /\
  axis_of 2 [XEll; XTime 0 (Some 4000); XNone] 1 = 1%nat /\
  dim_int_slice (DTime t2) (XTime 0 (Some 4000)) = Ok (NSl (Some 0) (Some 2) 1).
Proof. exact ellipsis_none_wrong_axis. Qed.
Print Assumptions C20_ellipsis_none_refuted.

Theorem C20_reverse_slice_refuted :
  compute_indices [DTime t1] [XSl None (Some 0) (-1)] = Ok [NSl (Some 0) (Some 0) 1] /\
  slice_positions 10 (Some 0) (Some 0) 1 = [] /\
  slice_positions 10 None (Some 0) (-1) = [9; 8; 7; 6; 5; 4; 3; 2; 1].
Proof. exact reverse_to_zero_lost. Qed.
Print Assumptions C20_reverse_slice_refuted.

(** more on windows (C19) and on slices of ints (C20) *)
Theorem C19_windowing_empty :
  forall (X : Type) (shape_of : X -> list nat) (win : X -> Z -> Z -> result (X * X)) 
    (a : awu) (d : dim) (ds : list dim) (n : nat) (sh : list nat) (w s : Z) 
    (lo r : X),
  well_formed shape_of a ->
  dims a = d :: ds ->
  shape_of (data a) = n :: sh ->
  win (data a) w s = Ok (lo, r) ->
  shape_of r = 0%nat :: sh ->
  match d with
  | DIdent =>
      sliding_window_with_leftovers shape_of win a w s = Ok {| data := r; dims := DIdent :: ds |}
  | DTime t =>
      sliding_window_with_leftovers shape_of win a w s =
      Ok
        {|
          data := r;
          dims := DTime {| t_freq := t_freq t; t_dur := t_dur t; t_size := Some 0 |} :: ds
        |}
  | _ => True
  end.
Proof. exact (@swl_empty). Qed.
Print Assumptions C19_windowing_empty.
Theorem C19_windowing_identity :
  forall (X : Type) (shape_of : X -> list nat) (win : X -> Z -> Z -> result (X * X)) 
    (a : awu) (ds : list dim) (n : nat) (sh : list nat) (w s : Z) (lo r : X) 
    (k : nat),
  dims a = DIdent :: ds ->
  shape_of (data a) = n :: sh ->
  0 < w ->
  w <> Z.of_nat n ->
  win (data a) w s = Ok (lo, r) ->
  shape_of r = k :: Z.to_nat w :: sh ->
  (0 < np_size (shape_of r))%nat ->
  sliding_window_with_leftovers shape_of win a w s =
  Ok {| data := r; dims := repeat DIdent (2 + length sh) |}.
Proof. exact (@swl_identity). Qed.
Print Assumptions C19_windowing_identity.
Theorem C19_windowing_identity_whole_refuted :
  forall (X : Type) (shape_of : X -> list nat) (win : X -> Z -> Z -> result (X * X)) 
    (a : awu) (ds : list dim) (n : nat) (sh : list nat) (s : Z) (lo r : X) 
    (k : nat),
  well_formed shape_of a ->
  dims a = DIdent :: ds ->
  shape_of (data a) = n :: sh ->
  (0 < n)%nat ->
  win (data a) (Z.of_nat n) s = Ok (lo, r) ->
  shape_of r = k :: n :: sh ->
  (0 < np_size (shape_of r))%nat ->
  sliding_window_with_leftovers shape_of win a (Z.of_nat n) s = Raise ValueError.
Proof. exact (@swl_identity_whole). Qed.
Print Assumptions C19_windowing_identity_whole_refuted.
Theorem C20_slice_positions_up :
  forall (n : Z) (a b : option Z) (step : Z),
  0 <= n ->
  0 < step ->
  let lo := match a with
            | Some i => clip 0 n n i
            | None => 0
            end in
  let hi := match b with
            | Some i => clip 0 n n i
            | None => n
            end in
  (forall i : Z, In i (slice_positions n a b step) <-> lo <= i < hi /\ (step | i - lo)) /\
  StronglySorted Z.lt (slice_positions n a b step).
Proof. exact (@slice_positions_up). Qed.
Print Assumptions C20_slice_positions_up.
Theorem C20_slice_positions_down :
  forall (n : Z) (a b : option Z) (step : Z),
  0 <= n ->
  step < 0 ->
  let hi := match a with
            | Some i => clip (-1) (n - 1) n i
            | None => n - 1
            end in
  let lo := match b with
            | Some i => clip (-1) (n - 1) n i
            | None => -1
            end in
  (forall i : Z, In i (slice_positions n a b step) <-> lo < i <= hi /\ (step | hi - i)) /\
  StronglySorted Z.gt (slice_positions n a b step).
Proof. exact (@slice_positions_down). Qed.
Print Assumptions C20_slice_positions_down.
Theorem C20_list_slice :
  forall (A : Type) (l : list A) (a b : option Z) (step : Z),
  step <> 0 ->
  map Some (list_slice l a b step) =
  map (fun i : Z => nth_error l (Z.to_nat i)) (slice_positions (Zlen l) a b step).
Proof. exact (@list_slice_spec). Qed.
Print Assumptions C20_list_slice.

