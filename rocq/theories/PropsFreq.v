(** Property theorems: frequency bands, scales and dimensions (C21-C29, C56). *)
From Verif Require Import PyBase PyFacts PyMore Freq FreqProofs FreqScaleProofs FreqDim FreqDimProofs.
Local Open Scope R_scope.

(** C21: slicing any well-formed scale by a band selects, in order, exactly the
    bands the query touches ... *)
Theorem C21_slice_selects_touched : forall s q, well_formed s -> proper q -> scale_even s = false ->
  exists bs sl, scale_bands s = Ok bs /\ get_slice s (IBand q) = Ok sl /\
    apply_slice sl bs = filter (touched q) bs.
Proof. exact get_slice_selects. Qed.
Print Assumptions C21_slice_selects_touched.

(** ... where touching is positive overlap, or ending exactly where the query begins *)
Theorem C21_touched_meaning : forall q b, proper q -> proper b ->
  (touched q b = true <-> overlapping q b \/ bstop b = bstart q).
Proof. exact touched_iff. Qed.
Print Assumptions C21_touched_meaning.

(** with [always_even] at most one further band is appended *)
Theorem C21_slice_always_even : forall s q, well_formed s -> proper q -> scale_even s = true ->
  exists bs sl extra, scale_bands s = Ok bs /\ get_slice s (IBand q) = Ok sl /\
    apply_slice sl bs = filter (touched q) bs ++ extra /\ (length extra <= 1)%nat /\
    (Nat.even (length (apply_slice sl bs)) = true \/ exists pre, bs = pre ++ apply_slice sl bs).
Proof. exact get_slice_selects_even. Qed.
Print Assumptions C21_slice_always_even.

(** slices of Hertz: negative bounds count from the top, missing bounds are 0
    and the top; an empty or inverted range is an AttributeError *)
Theorem C21_hertz_slice : forall s fb st en,
  scale_band s = Ok fb ->
  let a := match st with None => 0 | Some x => if Rltb x 0 then bstop fb + x else x end in
  let b := match en with None => bstop fb | Some x => if Rltb x 0 then bstop fb + x else x end in
  0 <= bstop fb ->
  (a < b -> get_slice s (IHertz st en) = get_slice s (IBand (mkBand a b))) /\
  (b <= a -> get_slice s (IHertz st en) = Raise AttributeError).
Proof. exact hertz_slice. Qed.
Print Assumptions C21_hertz_slice.

Theorem C21_scale_get : forall s bs i, scale_bands s = Ok bs ->
  ((0 <= i < Zlen bs)%Z -> exists b, scale_get s i = Ok b /\ nth_error bs (Z.to_nat i) = Some b) /\
  ((- Zlen bs <= i < 0)%Z -> exists b, scale_get s i = Ok b /\ nth_error bs (Z.to_nat (Zlen bs + i)) = Some b) /\
  ((i < - Zlen bs \/ Zlen bs <= i)%Z -> scale_get s i = Raise IndexError).
Proof. exact scale_get_spec. Qed.
Print Assumptions C21_scale_get.

(** C22 for two bands or more *)
Theorem C22_linear_scale_tiles : forall fb n ae, proper fb -> (2 <= n)%nat ->
  exists bs, scale_bands (Linear fb n ae) = Ok bs /\
    length bs = n /\
    (forall b, In b bs -> bandwidth b = (bstop fb - bstart fb) / INR n /\ 0 < bandwidth b) /\
    (forall k a b, nth_error bs k = Some a -> nth_error bs (S k) = Some b ->
        bstop a = bstart b /\ center a < center b) /\
    (exists a, nth_error bs 0 = Some a /\ bstart a = bstart fb) /\
    (exists z, nth_error bs (n - 1) = Some z /\ bstop z = bstop fb).
Proof. exact linear_tiles. Qed.
Print Assumptions C22_linear_scale_tiles.

(** a LinearScale of one band (or none) cannot produce its bands *)
Theorem C22_single_band_refuted : forall fb n ae, (n < 2)%nat ->
  scale_bands (Linear fb n ae) = Raise IndexError.
Proof. exact (fun fb n ae => linear_bands_small fb n). Qed.
Print Assumptions C22_single_band_refuted.

(** C23 *)
Theorem C23_geometric_scale : forall sc ec r n ae, 0 < sc -> 0 < ec -> 0 < r -> (2 <= n)%nat ->
  exists bs, scale_bands (Geometric sc ec r n ae) = Ok bs /\ length bs = n /\
    (exists q, 0 < q /\ forall k a b, nth_error bs k = Some a -> nth_error bs (S k) = Some b ->
        center b = center a * q) /\
    (exists a, nth_error bs 0 = Some a /\ center a = sc) /\
    (exists z, nth_error bs (n - 1) = Some z /\ center z = ec) /\
    (forall b, In b bs -> bandwidth b / center b = r) /\
    scale_Q (Geometric sc ec r n ae) = Ok (repeat (1 / r) n).
Proof. exact geometric_scale_spec. Qed.
Print Assumptions C23_geometric_scale.
Theorem C23_geometric_rejects : forall sc ec r n, 0 < sc -> r <= 0 -> (1 <= n)%nat ->
  geometric_bands sc ec r n = Raise ValueError.
Proof. exact geometric_bands_bad. Qed.
Print Assumptions C23_geometric_rejects.

(** C24 *)
Theorem C24_ensure_overlap_ratio : forall s r, well_formed s ->
  exists bs, scale_bands s = Ok bs /\
  (ensure_overlap_ratio s r = Ok tt <->
   forall k a b, nth_error bs k = Some a -> nth_error bs (S k) = Some b ->
     r <= common_width a b / bandwidth a) /\
  (ensure_overlap_ratio s r = Ok tt \/ ensure_overlap_ratio s r = Raise OtherError).
Proof. exact ensure_overlap_spec. Qed.
Print Assumptions C24_ensure_overlap_ratio.
Theorem C24_linear_never_overlaps : forall fb n ae r, proper fb -> (2 <= n)%nat -> 0 < r ->
  ensure_overlap_ratio (Linear fb n ae) r = Raise OtherError.
Proof. exact linear_no_overlap. Qed.
Print Assumptions C24_linear_never_overlaps.

(** C25 *)
Theorem C25_bark : (forall h, bark_to_hz (hz_to_bark h) = h) /\ (forall b, hz_to_bark (bark_to_hz b) = b) /\
  (forall a b, a < b -> bark_to_hz a < bark_to_hz b) /\ (forall a b, a < b -> hz_to_bark a < hz_to_bark b).
Proof. exact (conj bark_hz_bark (conj hz_bark_hz (conj bark_to_hz_lt hz_to_bark_lt))). Qed.
Print Assumptions C25_bark.
Theorem C25_mel : (forall h, -700 < h -> mel_to_hz (hz_to_mel h) = h) /\ (forall m, hz_to_mel (mel_to_hz m) = m) /\
  (forall a b, a < b -> mel_to_hz a < mel_to_hz b) /\
  (forall a b, -700 < a -> a < b -> hz_to_mel a < hz_to_mel b) /\ (forall m, -700 < mel_to_hz m).
Proof. exact (conj mel_hz_mel (conj hz_mel_hz (conj mel_to_hz_lt (conj hz_to_mel_lt mel_to_hz_gt)))). Qed.
Print Assumptions C25_mel.

(** the bands of the two scales: equally spaced on the scale, centred, as wide as their ERB *)
Theorem C25_bark_scale : forall fb n, proper fb -> -228 <= bstart fb ->
  exists bs, scale_bands (BarkS fb n) = Ok bs /\ length bs = n /\
    (forall b, In b bs -> bandwidth b = 0.108 * center b + 24.7) /\
    (forall k b, nth_error bs k = Some b ->
       hz_to_bark (center b) = hz_to_bark (bstart fb) + INR k * ((hz_to_bark (bstop fb) - hz_to_bark (bstart fb)) / INR (n - 1))) /\
    (forall b, nth_error bs 0 = Some b -> center b = bstart fb) /\
    (forall b, (2 <= n)%nat -> nth_error bs (n - 1) = Some b -> center b = bstop fb).
Proof. exact bark_scale_bands. Qed.
Print Assumptions C25_bark_scale.
Theorem C25_mel_scale : forall fb n, proper fb -> -228 <= bstart fb ->
  exists bs, scale_bands (MelS fb n) = Ok bs /\ length bs = n /\
    (forall b, In b bs -> bandwidth b = 0.108 * center b + 24.7) /\
    (forall k b, nth_error bs k = Some b ->
       hz_to_mel (center b) = hz_to_mel (bstart fb) + INR k * ((hz_to_mel (bstop fb) - hz_to_mel (bstart fb)) / INR (n - 1))) /\
    (forall b, nth_error bs 0 = Some b -> center b = bstart fb) /\
    (forall b, (2 <= n)%nat -> nth_error bs (n - 1) = Some b -> center b = bstop fb).
Proof. exact mel_scale_bands. Qed.
Print Assumptions C25_mel_scale.

(** C26 *)
Theorem C26_band_constructor : forall s e,
  (s < e /\ make_band s e = Ok (mkBand s e)) \/ (e <= s /\ make_band s e = Raise ValueError).
Proof. exact band_construct. Qed.
Print Assumptions C26_band_constructor.
Theorem C26_intersection_set : forall a b i, intersect a b = Ok i ->
  proper i /\ forall f, within f i <-> within f a /\ within f b.
Proof. exact intersect_set. Qed.
Print Assumptions C26_intersection_set.
Theorem C26_intersection_comm : forall a b, intersect a b = intersect b a.
Proof. exact intersect_comm. Qed.
Print Assumptions C26_intersection_comm.
Theorem C26_intersection_error : forall a b, intersect a b = Raise ValueError <-> ~ overlapping a b.
Proof. exact intersect_error. Qed.
Print Assumptions C26_intersection_error.
Theorem C26_intersection_total : forall a b, (exists i, intersect a b = Ok i) \/ intersect a b = Raise ValueError.
Proof. exact intersect_total. Qed.
Print Assumptions C26_intersection_total.
Theorem C26_from_center : forall c w,
  (0 < w -> exists b, from_center c w = Ok b /\ center b = c /\ bandwidth b = w) /\
  (w <= 0 -> from_center c w = Raise ValueError).
Proof. exact (fun c w => conj (from_center_ok c w) (from_center_bad c w)). Qed.
Print Assumptions C26_from_center.
Theorem C26_from_start : forall s w,
  (0 < w -> exists b, from_start s w = Ok b /\ bstart b = s /\ bandwidth b = w) /\
  (w <= 0 -> from_start s w = Raise ValueError).
Proof. exact (fun c w => conj (from_start_ok c w) (from_start_bad c w)). Qed.
Print Assumptions C26_from_start.
Theorem C26_equality : forall a b, band_eqb a b = true <-> a = b.
Proof. exact band_eqb_eq. Qed.
Print Assumptions C26_equality.

(** C27: for all classes but ExplicitScale *)
Theorem C27_equality_is_parameters_partial : forall a b, well_formed a -> well_formed b -> is_explicit a = false ->
  exists e, scale_eq a b = Ok e /\ (e = true <-> same_params a b).
Proof. exact scale_eq_params. Qed.
Print Assumptions C27_equality_is_parameters_partial.
Theorem C27_equal_scales_same_bands_partial : forall a b, well_formed a -> well_formed b -> is_explicit a = false ->
  scale_eq a b = Ok true -> scale_bands a = scale_bands b.
Proof. exact scale_eq_same_bands. Qed.
Print Assumptions C27_equal_scales_same_bands_partial.
Theorem C27_explicit_equality_is_prefix : forall bs cs,
  scale_eq (Explicit bs) (Explicit cs) = Ok true <->
  (exists t, bs = cs ++ t) \/ (exists t, cs = bs ++ t).
Proof. exact explicit_eq_prefix. Qed.
Print Assumptions C27_explicit_equality_is_prefix.
Theorem C27_explicit_equality_refuted :
  let a := mkBand 0 100 in let b := mkBand 100 200 in let c := mkBand 100 300 in
  (well_formed (Explicit [a; b]) /\ well_formed (Explicit [a]) /\ well_formed (Explicit [a; c])) /\
  scale_eq (Explicit [a; b]) (Explicit [a]) = Ok true /\
  scale_eq (Explicit [a]) (Explicit [a; c]) = Ok true /\
  scale_eq (Explicit [a; b]) (Explicit [a; c]) = Ok false /\
  scale_bands (Explicit [a; b]) <> scale_bands (Explicit [a]).
Proof. exact explicit_eq_refuted. Qed.
Print Assumptions C27_explicit_equality_refuted.
Theorem C27_symmetry_refuted :
  exists a b, well_formed a /\ well_formed b /\ scale_eq a b = Ok true /\ scale_eq b a = Ok false.
Proof. exact scale_eq_asymmetric_refuted. Qed.
Print Assumptions C27_symmetry_refuted.

(** C28 *)
Theorem C28_columns_partition : forall ws : list nat,
  length (fa_slices ws) = length ws /\
  (forall k w, nth_error ws k = Some w -> exists a, nth_error (fa_slices ws) k = Some (a, a + w)%nat) /\
  (forall k p q, nth_error (fa_slices ws) k = Some p -> nth_error (fa_slices ws) (S k) = Some q -> snd p = fst q) /\
  (forall p, nth_error (fa_slices ws) 0 = Some p -> fst p = 0%nat) /\
  (forall p, nth_error (fa_slices ws) (length ws - 1) = Some p -> snd p = fold_right Nat.add 0%nat ws) /\
  (forall c, (c < fold_right Nat.add 0 ws)%nat ->
     exists k p, nth_error (fa_slices ws) k = Some p /\ (fst p <= c < snd p)%nat /\
     forall k' p', nth_error (fa_slices ws) k' = Some p' -> (fst p' <= c < snd p')%nat -> k' = k).
Proof. exact fa_partition. Qed.
Print Assumptions C28_columns_partition.
Theorem C28_construct : forall A (arrs : list (arr2 A)) s bs h, fa_input arrs s bs h ->
  exists w, fa_new arrs s = Ok (w, mkEfd bs s (fa_slices (map cols arrs))) /\
    hconcat arrs = Ok w /\
    length (rows w) = h /\ cols w = fold_right Nat.add 0%nat (map cols arrs) /\ shaped w.
Proof. exact @fa_new_ok. Qed.
Print Assumptions C28_construct.
Theorem C28_band_gives_array : forall A (arrs : list (arr2 A)) s bs h fa k q x,
  fa_input arrs s bs h -> Forall proper bs -> fa_new arrs s = Ok fa ->
  nth_error bs k = Some q -> nth_error arrs k = Some x ->
  exists d, fa_get fa q = Ok (x, d).
Proof. exact @fa_band. Qed.
Print Assumptions C28_band_gives_array.
Theorem C28_iter_bands : forall A (arrs : list (arr2 A)) s bs h fa,
  fa_input arrs s bs h -> Forall proper bs -> fa_new arrs s = Ok fa -> iter_bands fa = Ok arrs.
Proof. exact @fa_iter_bands. Qed.
Print Assumptions C28_iter_bands.
Theorem C28_from_array_with_units : forall A (arrs : list (arr2 A)) s bs h fa,
  fa_input arrs s bs h -> Forall proper bs -> fa_new arrs s = Ok fa -> from_array_with_units fa = Ok fa.
Proof. exact @fa_roundtrip. Qed.
Print Assumptions C28_from_array_with_units.
Theorem C28_count_mismatch : forall A (arrs : list (arr2 A)) s,
  length arrs <> scale_len s -> fa_new arrs s = Raise ValueError.
Proof. exact @fa_count_mismatch. Qed.
Print Assumptions C28_count_mismatch.
Theorem C28_duplicate_bands_refuted :
  exists (arrs : list (arr2 nat)) bs fa,
    fa_new arrs (Explicit bs) = Ok fa /\ Forall proper bs /\ iter_bands fa <> Ok arrs.
Proof. exact fa_duplicate_bands_refuted. Qed.
Print Assumptions C28_duplicate_bands_refuted.

(** C29 *)
Theorem C29_exact_band : forall d k q p,
  NoDup (ebands d) -> nth_error (ebands d) k = Some q -> nth_error (eslices d) k = Some p ->
  efd_integer_slice d q = Ok p.
Proof. exact efd_exact_band. Qed.
Print Assumptions C29_exact_band.
Theorem C29_other_band : forall s slices d q,
  make_efd s slices = Ok d -> ordered (ebands d) -> Forall proper (ebands d) -> proper q -> scale_even s = false ->
  scale_len s = length (ebands d) ->
  contiguous slices -> ~ In q (ebands d) ->
  (existsb (touched q) (ebands d) = false -> efd_integer_slice d q = Raise IndexError) /\
  (existsb (touched q) (ebands d) = true ->
     exists a b, efd_integer_slice d q = Ok (a, b) /\
     forall c, (a <= c < b)%nat <->
       exists k bk, nth_error (ebands d) k = Some bk /\ touched q bk = true /\ owns slices k c).
Proof. exact efd_other_band. Qed.
Print Assumptions C29_other_band.
Theorem C29_weights : forall bs s ws widths,
  length ws = length widths -> widths <> [] ->
  exists r, efd_weights (mkEfd bs s (fa_slices widths)) ws = Ok r /\
    length r = fold_right Nat.add 0%nat widths /\
    forall k c x, owns (fa_slices widths) k c -> nth_error ws k = Some x -> nth_error r c = Some x.
Proof. exact efd_weights_spec. Qed.
Print Assumptions C29_weights.
Theorem C29_reslice_refuted :
  exists (arrs : list (arr2 nat)) fa fa1 fa2 q,
    fa_new arrs (Explicit demo_bands) = Ok fa /\ In q demo_bands /\
    fa_get fa q = Ok fa1 /\ fa_get fa1 q = Ok fa2 /\ fst fa2 <> fst fa1.
Proof. exact efd_reslice_refuted. Qed.
Print Assumptions C29_reslice_refuted.
Theorem C29_integer_slice_refuted :
  exists fa fa1, fa_new demo_arrs (Explicit demo_bands) = Ok fa /\
    fa_get_ints fa (0, 2)%nat = Ok fa1 /\
    cols (fst fa1) = 2%nat /\ ebands (snd fa1) = demo_bands /\ eslices (snd fa1) = [(0,2);(2,5)]%nat.
Proof. exact efd_int_slice_refuted. Qed.
Print Assumptions C29_integer_slice_refuted.

(** C56: slicing a scale gives a scale with exactly the selected bands *)
Theorem C56_linear_slice : forall fb n ae ix sl, proper fb -> (2 <= n)%nat ->
  get_slice (Linear fb n ae) ix = Ok sl ->
  exists bs, scale_bands (Linear fb n ae) = Ok bs /\
    let sel := apply_slice sl bs in
    ((2 <= length sel)%nat -> exists s', scale_slice (Linear fb n ae) ix = Ok s' /\
        scale_bands s' = Ok sel /\ scale_len s' = length sel) /\
    (length sel = 1%nat -> exists s', scale_slice (Linear fb n ae) ix = Ok s' /\
        scale_len s' = 1%nat /\ scale_bands s' = Raise IndexError) /\
    (length sel = 0%nat -> scale_slice (Linear fb n ae) ix = Raise IndexError).
Proof. exact linear_slice. Qed.
Print Assumptions C56_linear_slice.
Theorem C56_geometric_explicit_slice : forall s ix sl, well_formed s ->
  match s with Geometric _ _ _ _ _ | Explicit _ => True | _ => False end ->
  get_slice s ix = Ok sl ->
  exists bs, scale_bands s = Ok bs /\
    let sel := apply_slice sl bs in
    (sel <> [] -> scale_slice s ix = Ok (Explicit sel) /\ scale_bands (Explicit sel) = Ok sel) /\
    (sel = [] -> scale_slice s ix = Raise IndexError).
Proof. exact explicit_like_slice. Qed.
Print Assumptions C56_geometric_explicit_slice.
Theorem C56_bark_slice_refuted : forall fb n ix sl bs b rest, proper fb -> 0 <= bstart fb ->
  scale_bands (BarkS fb n) = Ok bs -> get_slice (BarkS fb n) ix = Ok sl ->
  apply_slice sl bs = b :: rest ->
  exists s', scale_slice (BarkS fb n) ix = Ok s' /\ scale_bands s' <> Ok (b :: rest).
Proof. exact bark_slice_wrong. Qed.
Print Assumptions C56_bark_slice_refuted.
Theorem C56_mel_slice_refuted : forall fb n ix sl bs b rest, proper fb -> 0 <= bstart fb ->
  scale_bands (MelS fb n) = Ok bs -> get_slice (MelS fb n) ix = Ok sl ->
  apply_slice sl bs = b :: rest ->
  exists s', scale_slice (MelS fb n) ix = Ok s' /\ scale_bands s' <> Ok (b :: rest).
Proof. exact mel_slice_wrong. Qed.
Print Assumptions C56_mel_slice_refuted.
Theorem C56_frequency_dimension_size : forall s ix sl s' bs,
  scale_bands s = Ok bs -> get_slice s ix = Ok sl -> fdim_metaslice s ix = Ok s' ->
  fdim_validate s' (length (apply_slice sl bs)) = Ok tt.
Proof. exact fdim_slice_size. Qed.
Print Assumptions C56_frequency_dimension_size.
