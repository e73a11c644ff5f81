(** Property theorems: variable rate series (C30, C31), persisted durations,
    dimensions and arrays (C32-C34). *)
From Verif Require Import PyBase PyFacts PyMore Time Freq FreqDim Axis AxisProofs Vrts VrtsProofs Persist PersistProofs.
From Coq Require Import Permutation Sorted.
Local Open Scope Z_scope.

(** C30: the series of some pairs is those pairs, by start, equal starts in the
    order given ([series_of]); the specification leaves no freedom *)
Theorem C30_construction : forall {A D} (rshape : A -> list nat) (rtype : A -> D) cast,
  (forall a, cast (rtype a) a = a) ->
  forall l, homogeneous rshape rtype l ->
  exists r, vrts_make rshape rtype cast l = Ok r /\ series_of l r.
Proof. exact @make_spec. Qed.
Print Assumptions C30_construction.

(** values of different shapes (that numpy cannot broadcast) are rejected *)
Theorem C30_mixed_shapes : forall {A D} (rshape : A -> list nat) (rtype : A -> D) cast (l : list (@item A)) x y,
  In x l -> In y l -> rshape (snd x) <> rshape (snd y) -> vrts_make rshape rtype cast l = Raise ValueError.
Proof. exact @mixed_shapes. Qed.
Print Assumptions C30_mixed_shapes.

Theorem C30_series_determined : forall {A} (data r r' : list (@item A)),
  series_of data r -> series_of data r' -> r = r'.
Proof. exact @series_unique. Qed.
Print Assumptions C30_series_determined.

Theorem C30_concat : forall {A D} (rshape : A -> list nat) (rtype : A -> D) cast,
  (forall a, cast (rtype a) a = a) ->
  forall a b, homogeneous rshape rtype (a ++ b) ->
  exists r, vrts_concat rshape rtype cast a b = Ok r /\ series_of (a ++ b) r.
Proof. exact @concat_series. Qed.
Print Assumptions C30_concat.

Theorem C30_slicing : forall {A D} (rshape : A -> list nat) (rtype : A -> D) cast,
  (forall a, cast (rtype a) a = a) ->
  forall v q, homogeneous rshape rtype v ->
  StronglySorted (fun x y => start_ps x <= start_ps y) v ->
  (forall x, In x v -> exists d, ts_duration (fst x) = Some d /\ 0 < ps d) ->
  (forall dq, ts_duration q = Some dq -> 0 < ps dq) ->
  exists keep, vrts_get rshape rtype cast v q = Ok (filter keep v) /\
    forall x, In x v -> (keep x = true <-> overlaps (fst x) q).
Proof. exact @get_spec. Qed.
Print Assumptions C30_slicing.

Theorem C30_span_starts_first : forall {A} (v : list (@item A)) x r s d,
  StronglySorted (fun x y => start_ps x <= start_ps y) v ->
  v = x :: r -> vrts_span v = Ok (s, d) -> forall y, In y v -> s <= start_ps y.
Proof. exact @span_start. Qed.
Print Assumptions C30_span_starts_first.

Theorem C30_span : forall {A} (v : list (@item A)) x d,
  v <> [] -> ts_duration (fst (last v x)) = Some d ->
  vrts_span v = Ok (start_ps (hd x v), start_ps (last v x) + ps d - start_ps (hd x v)).
Proof. exact @span_exact. Qed.
Print Assumptions C30_span.

Theorem C30_slice_rows : forall {A} (v : list (@item A)) (a b : nat), (a <= b <= length v)%nat ->
  vrts_slice v (Some (Z.of_nat a)) (Some (Z.of_nat b)) = firstn (b - a) (skipn a v).
Proof. exact @slice_rows. Qed.
Print Assumptions C30_slice_rows.

(** the reported end is that of the last slice, not the latest end *)
Theorem C30_end_refuted :
  let v := [(sl 0 100, tt); (sl 10 20, tt)] in
  vrts_make (fun _ => []) (fun _ => tt) (fun _ a => a) v = Ok v /\
  vrts_span v = Ok (0, 30) /\ ts_end (sl 0 100) = Ok 100.
Proof. exact end_refuted. Qed.
Print Assumptions C30_end_refuted.

(** rows of different dtypes are converted to that of the earliest one *)
Theorem C30_mixed_types_refuted :
  let rtype := fun a : bool * Z => fst a in
  let cast := fun (d : bool) (a : bool * Z) => if d then (true, 2 * (snd a / 2)) else (false, snd a) in
  let a := (sl 0 1, (true, 4)) in let b := (sl 1 1, (false, 5)) in
  vrts_make (fun _ => []) rtype cast [a; b] = Ok [a; (sl 1 1, (true, 4))].
Proof. exact mixed_dtype_refuted. Qed.
Print Assumptions C30_mixed_types_refuted.

(** C31: exact up to 2^53 picoseconds ... *)
Theorem C31_roundtrip_partial : forall {A D} (rshape : A -> list nat) (rtype : A -> D) cast,
  (forall a, cast (rtype a) a = a) ->
  forall v, homogeneous rshape rtype v ->
  StronglySorted (fun x y => start_ps x <= start_ps y) v ->
  (forall x, In x v -> exists d, ts_duration (fst x) = Some d /\
     Z.abs (ps d) <= 2 ^ 53 /\ Z.abs (start_ps x) <= 2 ^ 53) ->
  exists raw r, vrts_encode v = Ok raw /\ vrts_decode rshape rtype cast raw = Ok r /\
    Forall2 (fun x y => ts_eq (fst x) (fst y) = true /\ snd x = snd y) v r.
Proof. exact @persist_roundtrip. Qed.
Print Assumptions C31_roundtrip_partial.

(** ... beyond, each stored instant is within a relative 2^-53 *)
Theorem C31_error_bound : forall x, Z.abs (to_double x - x) * 2 ^ 53 <= Z.abs x.
Proof. exact to_double_error. Qed.
Print Assumptions C31_error_bound.

Theorem C31_long_refuted :
  let v := [(sl (2 ^ 53 + 1) 1, tt)] in
  exists raw, vrts_encode v = Ok raw /\
    vrts_decode (fun _ => []) (fun _ => tt) (fun _ a => a) raw = Ok [(sl (2 ^ 53) 1, tt)] /\
    ts_eq (sl (2 ^ 53 + 1) 1) (sl (2 ^ 53) 1) = false.
Proof. exact persist_refuted. Qed.
Print Assumptions C31_long_refuted.

Theorem C31_no_duration_refuted : forall a : unit,
  vrts_encode [(mk_timeslice None None, a)] = Raise TypeError.
Proof. exact persist_none_refuted. Qed.
Print Assumptions C31_no_duration_refuted.

(** C32: durations keep their count and their unit *)
Theorem C32_timedelta : forall t, nonneg_td t -> decode_timedelta (encode_timedelta t) = Ok t.
Proof. exact timedelta_roundtrip. Qed.
Print Assumptions C32_timedelta.

Theorem C32_timeslice : forall duration start,
  nonneg_td duration -> (forall s, start = Some s -> nonneg_td s) ->
  let t := mk_timeslice (Some duration) start in
  exists j, encode_timeslice t = Ok j /\ decode_timeslice j = Ok t.
Proof. exact timeslice_roundtrip. Qed.
Print Assumptions C32_timeslice.

Theorem C32_time_dimension : forall f d n, nonneg_td f -> nonneg_td d ->
  decode_time (encode_time (mk_ptime f d n)) = Ok (mk_ptime f d n).
Proof. exact time_roundtrip. Qed.
Print Assumptions C32_time_dimension.

(** negative durations can be written but not read *)
Theorem C32_negative_refuted : forall t, -2 ^ 63 <= td_count t < 0 ->
  decode_timedelta (encode_timedelta t) = Raise OverflowError.
Proof. exact timedelta_negative. Qed.
Print Assumptions C32_negative_refuted.
Theorem C32_negative_start_refuted : forall duration s, nonneg_td duration -> -2 ^ 63 <= td_count s < 0 ->
  exists j, encode_timeslice (mk_timeslice (Some duration) (Some s)) = Ok j /\
    decode_timeslice j = Raise OverflowError.
Proof. exact timeslice_negative_start. Qed.
Print Assumptions C32_negative_start_refuted.
(** open-ended slices cannot be written *)
Theorem C32_open_slice_refuted : forall start, encode_timeslice (mk_timeslice None start) = Raise AttributeError.
Proof. exact timeslice_no_duration. Qed.
Print Assumptions C32_open_slice_refuted.

(** C33: every dimension a program can build, with every scale class *)
Theorem C33_dimension : forall d, built_dim d -> decode_dim (encode_dim d) = Ok d.
Proof. exact dim_roundtrip. Qed.
Print Assumptions C33_dimension.
Theorem C33_dimensions : forall ds, Forall built_dim ds -> decode_dims (encode_dims ds) = Ok ds.
Proof. exact dims_roundtrip. Qed.
Print Assumptions C33_dimensions.

(** C34: what is read back is the array constructor applied to all rows, in
    order, and the dimensions of the first chunk *)
Theorem C34_rows : forall {dtype} (itemsize : dtype -> nat) dumps loads pack_meta unpack_meta,
  (forall m r, unpack_meta (pack_meta m ++ r) = Ok (m, r)) ->
  forall c cs dt sh,
  same_array itemsize dt sh (c :: cs) -> (0 < itemsize dt * fold_right Nat.mul 1 sh)%nat ->
  Forall built_dim (c_dims c) -> json_ok dumps loads (encode_dims (c_dims c)) ->
  exists bytes, encode_chunks dumps pack_meta true (c :: cs) = Ok bytes /\
    decode_array itemsize loads unpack_meta bytes
    = awu_new raw_shape (mkRaw dt sh (all_rows (c :: cs))) (map to_dim (c_dims c)).
Proof. exact @array_roundtrip. Qed.
Print Assumptions C34_rows.

Theorem C34_roundtrip : forall {dtype} (itemsize : dtype -> nat) dumps loads pack_meta unpack_meta,
  (forall m r, unpack_meta (pack_meta m ++ r) = Ok (m, r)) ->
  forall c cs dt sh d0,
  same_array itemsize dt sh (c :: cs) -> (0 < itemsize dt * fold_right Nat.mul 1 sh)%nat ->
  Forall built_dim (c_dims c) -> json_ok dumps loads (encode_dims (c_dims c)) ->
  consistent (raw_shape (c_raw c)) (map to_dim (c_dims c)) ->
  nth_error (c_dims c) 0 = Some d0 -> (forall s, d0 <> PFreq s) ->
  exists bytes a, encode_chunks dumps pack_meta true (c :: cs) = Ok bytes /\
    decode_array itemsize loads unpack_meta bytes = Ok a /\
    data a = mkRaw dt sh (all_rows (c :: cs)) /\
    length (dims a) = length (c_dims c) /\
    forall i d, nth_error (map to_dim (c_dims c)) i = Some d ->
      exists d', nth_error (dims a) i = Some d' /\ same_dim d' d.
Proof. exact @array_roundtrip_ok. Qed.
Print Assumptions C34_roundtrip.

Theorem C34_empty_rows_refuted : forall {dtype} (itemsize : dtype -> nat) dumps loads pack_meta unpack_meta,
  (forall m r, unpack_meta (pack_meta m ++ r) = Ok (m, r)) ->
  forall c cs dt sh,
  same_array itemsize dt sh (c :: cs) -> (itemsize dt * fold_right Nat.mul 1 sh)%nat = 0%nat ->
  Forall built_dim (c_dims c) -> json_ok dumps loads (encode_dims (c_dims c)) ->
  exists bytes, encode_chunks dumps pack_meta true (c :: cs) = Ok bytes /\
    decode_array itemsize loads unpack_meta bytes = Raise ZeroDivisionError.
Proof. exact @array_zero_rows. Qed.
Print Assumptions C34_empty_rows_refuted.

Theorem C34_frequency_first_refuted : forall {dtype} (itemsize : dtype -> nat) dumps loads pack_meta unpack_meta,
  (forall m r, unpack_meta (pack_meta m ++ r) = Ok (m, r)) ->
  forall c c2 cs dt sh s,
  same_array itemsize dt sh (c :: c2 :: cs) -> (0 < itemsize dt * fold_right Nat.mul 1 sh)%nat ->
  Forall built_dim (c_dims c) -> json_ok dumps loads (encode_dims (c_dims c)) ->
  nth_error (c_dims c) 0 = Some (PFreq s) -> scale_len s = length (r_rows (c_raw c)) ->
  all_rows (c2 :: cs) <> [] ->
  exists bytes, encode_chunks dumps pack_meta true (c :: c2 :: cs) = Ok bytes /\
    decode_array itemsize loads unpack_meta bytes = Raise ValueError.
Proof. exact @array_freq_first. Qed.
Print Assumptions C34_frequency_first_refuted.

(** stored audio reads back at its own rate when that is a standard one, and
    cannot be read at all otherwise *)
Theorem C34_audio_rate : forall {dtype} (a : @awu (@raw dtype)) n sr t rest,
  1 <= n <= 10 ^ 6 -> audio_rate n = Ok sr -> dims a = DTime t :: rest -> t_freq t = sr_freq sr ->
  decoded_rate a = if existsb (Z.eqb n) standard_rates then Ok n else Raise ValueError.
Proof. exact @audio_decoded_rate. Qed.
Print Assumptions C34_audio_rate.
