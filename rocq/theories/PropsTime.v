(** Property theorems C13-C18.  Proofs are in TimeProofs.v. *)
From Verif Require Import PyBase Time TimeProofs.
From Coq Require Import Sorting.Permutation Sorting.Sorted.
Local Open Scope Z_scope.

(** C13: a rate of n samples per second reports n, exactly when n divides
    10^12 with a remainder below the quotient; for all n up to a million. *)
Theorem C13_audio_rate_exact :
  forall n : Z, 1 <= n <= 10 ^ 6 ->
  exists s, audio_rate n = Ok s /\ samples_per_second (sr_freq s) = n.
Proof. exact audio_rate_usual. Qed.
Print Assumptions C13_audio_rate_exact.

Theorem C13_audio_rate_iff :
  forall n : Z, 1 <= n <= 10 ^ 12 ->
  exists s, audio_rate n = Ok s /\ sr_freq s = 10 ^ 12 / n /\ sr_dur s = 10 ^ 12 / n /\
  (samples_per_second (sr_freq s) = n <-> (10 ^ 12) mod n < 10 ^ 12 / n).
Proof. exact audio_rate_iff. Qed.
Print Assumptions C13_audio_rate_iff.

(** C13 for every rate is false: *)
Theorem C13_audio_rate_refuted :
  exists s, audio_rate 1500000 = Ok s /\ samples_per_second (sr_freq s) = 1500001.
Proof. exact audio_rate_limit. Qed.
Print Assumptions C13_audio_rate_refuted.

Theorem C13_audio_rate_rejects :
  forall n : Z, n < 0 \/ 10 ^ 12 < n -> audio_rate n = Raise ValueError.
Proof. exact audio_rate_rejects. Qed.
Print Assumptions C13_audio_rate_rejects.

Theorem C13_audio_sample_rate_lookup :
  forall n : Z, audio_sample_rate n =
  if existsb (Z.eqb n) [96000; 48000; 44100; 22050; 16000; 11025] then Ok n else Raise ValueError.
Proof. exact audio_sample_rate_values. Qed.
Print Assumptions C13_audio_sample_rate_lookup.

Theorem C13_nearest_rate :
  forall n : Z,
  In (nearest_audio_sample_rate n) [96000; 48000; 44100; 22050; 16000; 11025] /\
  forall r, In r [96000; 48000; 44100; 22050; 16000; 11025] ->
    Z.abs (n - nearest_audio_sample_rate n) <= Z.abs (n - r) /\
    (Z.abs (n - r) = Z.abs (n - nearest_audio_sample_rate n) -> r <= nearest_audio_sample_rate n).
Proof. exact nearest_values. Qed.
Print Assumptions C13_nearest_rate.

Theorem C13_nyquist :
  forall n : Z, 1 <= n <= 10 ^ 6 -> exists s, audio_rate n = Ok s /\ nyquist s = n / 2.
Proof. exact audio_nyquist. Qed.
Print Assumptions C13_nyquist.

(** C14: which samples a TimeSlice selects; sample k extends over
    [k*f, k*f+d).  The stop is exact except for samples overlapped by at most
    1/200 of the sampling period, which are left out. *)
Theorem C14_slice_selects_overlapping :
  forall (t : timedim) (start dur a b : Z),
  0 < t_freq t -> integer_based_slice t (ITime start (Some dur)) = Ok (a, b) ->
  (forall k, 0 <= k -> (a <= k <-> start < k * t_freq t + t_dur t)) /\ 0 <= a /\
  (let e := start + dur in
   (200 * (e mod t_freq t) <= t_freq t -> forall k, k < b <-> (k + 1) * t_freq t <= e) /\
   (t_freq t < 200 * (e mod t_freq t) -> forall k, k < b <-> k * t_freq t < e)).
Proof. exact slice_exact. Qed.
Print Assumptions C14_slice_selects_overlapping.

Theorem C14_slice_on_boundaries :
  forall (t : timedim) (a b : Z), 0 < t_freq t -> t_dur t = t_freq t -> 0 <= a ->
  integer_based_slice t (ITime (a * t_freq t) (Some (b * t_freq t - a * t_freq t))) = Ok (a, b).
Proof. exact slice_on_boundaries. Qed.
Print Assumptions C14_slice_on_boundaries.

(** C14: cutting at sample positions partitions the samples. *)
Theorem C14_consecutive_slices_partition :
  forall (A : Type) (t : timedim) (rows : list A) (cs : list Z) (c0 : Z),
  0 < t_freq t -> t_dur t = t_freq t ->
  StronglySorted Z.le (c0 :: cs) -> 0 <= c0 -> Forall (fun c => c <= Zlen rows) (c0 :: cs) ->
  exists parts,
    map (take_time t rows) (cuts (c0 :: cs)) = map Ok parts /\
    concat parts = py_slice (Some c0) (Some (last cs c0)) rows.
Proof. exact (fun A => slices_partition). Qed.
Print Assumptions C14_consecutive_slices_partition.

Theorem C14_negative_slice :
  forall (t : timedim) (n k : Z),
  0 < t_freq t -> t_dur t = t_freq t -> t_size t = Some n -> 0 < k <= n ->
  integer_based_slice t (ISlice (Some (- (k * t_freq t))) None) = Ok (n - k, n).
Proof. exact negative_slice. Qed.
Print Assumptions C14_negative_slice.

(** C14: slices of durations and open-ended slices; [e] is the end of the signal. *)
Theorem C14_python_slice :
  forall (t : timedim) (e : Z) (s p : option Z), t_span t = Ok e -> 0 <= e ->
  let bound d o := match o with None => d | Some x => if x <? 0 then e + x else x end in
  let a := bound 0 s in let b := bound e p in
  integer_based_slice t (ISlice s p) = integer_based_slice t (ITime a (Some (b - a))).
Proof. exact python_slice_nonneg. Qed.
Print Assumptions C14_python_slice.

Theorem C14_open_slice :
  forall (t : timedim) (e start : Z), t_span t = Ok e ->
  integer_based_slice t (ITime start None) = integer_based_slice t (ITime start (Some (e - start))).
Proof. exact open_slice. Qed.
Print Assumptions C14_open_slice.

(** A dimension that does not know its size has no end. *)
Theorem C14_open_slice_refuted :
  forall (t : timedim) (start s : Z), t_size t = None ->
  integer_based_slice t (ITime start None) = Raise TypeError /\
  integer_based_slice t (ISlice (Some s) None) = Raise TypeError.
Proof. exact open_slice_refuted. Qed.
Print Assumptions C14_open_slice_refuted.

(** Without the tolerance the claim is false. *)
Theorem C14_overlapped_sample_dropped_refuted :
  exists t start dur a b k,
    0 < t_freq t /\ integer_based_slice t (ITime start (Some dur)) = Ok (a, b) /\
    a <= k /\ start < k * t_freq t + t_dur t /\ k * t_freq t < start + dur /\ ~ k < b.
Proof. exact slice_drops_sample. Qed.
Print Assumptions C14_overlapped_sample_dropped_refuted.

(** whole seconds of audio: exact iff the drift of the truncated sampling period
    is within the tolerance; three seconds at 44.1kHz are not. *)
Theorem C14_whole_seconds_iff :
  forall (n k : Z) (sr : samplerate), 1 <= n <= 10 ^ 6 -> 0 <= k -> audio_rate n = Ok sr ->
  (integer_based_slice {| t_freq := sr_freq sr; t_dur := sr_dur sr; t_size := None |}
     (ITime 0 (Some (k * 10 ^ 12))) = Ok (0, k * n)
   <-> 200 * (k * (10 ^ 12 mod n)) <= sr_freq sr).
Proof. exact whole_seconds. Qed.
Print Assumptions C14_whole_seconds_iff.

Theorem C14_three_seconds_44100_refuted :
  exists sr, audio_rate 44100 = Ok sr /\ forall size,
  integer_based_slice {| t_freq := sr_freq sr; t_dur := sr_dur sr; t_size := size |}
    (ITime 0 (Some (3 * 10 ^ 12))) = Ok (0, 3 * 44100 + 1).
Proof. exact three_seconds_44100. Qed.
Print Assumptions C14_three_seconds_44100_refuted.

(** C15: units, construction and ends of slices *)
Theorem C15_units :
  forall c : Z, ps {| td_count := c; td_unit := Ps |} = c /\ ps {| td_count := c; td_unit := Ns |} = 1000 * c /\
  ps {| td_count := c; td_unit := Us |} = 1000000 * c /\ ps {| td_count := c; td_unit := Ms |} = 1000000000 * c /\
  ps {| td_count := c; td_unit := Sec |} = 1000000000000 * c /\
  ps {| td_count := c; td_unit := Min |} = 60 * (1000000000000 * c) /\
  ps {| td_count := c; td_unit := Hr |} = 3600 * (1000000000000 * c).
Proof. exact units. Qed.
Print Assumptions C15_units.

Theorem C15_bounds :
  forall d s : option td,
  ps (ts_start (mk_timeslice d s)) = match s with None => 0 | Some x => ps x end /\
  ts_duration (mk_timeslice d s) = d /\
  ts_end (mk_timeslice d s) = match d with
                              | None => Raise TypeError
                              | Some x => Ok (match s with None => 0 | Some y => ps y end + ps x)
                              end.
Proof. exact mk_timeslice_bounds. Qed.
Print Assumptions C15_bounds.

Theorem C15_order :
  forall a b : timeslice,
  (ts_lt a b = true <-> ps (ts_start a) < ps (ts_start b)) /\ (ts_lt a b = true -> ts_eq a b = false).
Proof. exact ts_order. Qed.
Print Assumptions C15_order.

Theorem C15_equality :
  forall a b : timeslice, ts_eq a b = true <->
  ps (ts_start a) = ps (ts_start b) /\ option_map ps (ts_duration a) = option_map ps (ts_duration b).
Proof. exact ts_eq_iff. Qed.
Print Assumptions C15_equality.

Theorem C15_equal_hash :
  forall (F : Type) (fl : Z -> F) (h : F * option F -> Z) (a b : timeslice),
  ts_eq a b = true -> ts_hash fl h a = ts_hash fl h b.
Proof. exact (fun F => ts_eq_hash). Qed.
Print Assumptions C15_equal_hash.

(** the duration of a & b is that of the set intersection; & is commutative *)
Theorem C15_intersection_duration :
  forall (a b : timeslice) (da db : td),
  ts_duration a = Some da -> ts_duration b = Some db ->
  exists r, ts_and a b = Ok r /\ ts_and b a = Ok r /\
  exists d, ts_duration r = Some d /\ 0 <= ps d /\
  (0 < ps d -> exists s, forall x, (inside a x /\ inside b x) <-> s <= x < s + ps d) /\
  (ps d = 0 -> forall x, ~ (inside a x /\ inside b x)).
Proof. exact ts_and_spec. Qed.
Print Assumptions C15_intersection_duration.

(** but it forgets the start, and disjoint slices are no error: *)
Theorem C15_intersection_start_zero :
  forall a b r : timeslice, ts_and a b = Ok r -> ps (ts_start r) = 0.
Proof. exact ts_and_start. Qed.
Print Assumptions C15_intersection_start_zero.

Theorem C15_intersection_refuted :
  exists a b r x, ts_and a b = Ok r /\ inside r x /\ ~ inside a x.
Proof. exact ts_and_refuted. Qed.
Print Assumptions C15_intersection_refuted.

Theorem C15_disjoint_error_refuted :
  exists a b r, (forall x, ~ (inside a x /\ inside b x)) /\ ts_and a b = Ok r.
Proof. exact ts_and_disjoint_refuted. Qed.
Print Assumptions C15_disjoint_error_refuted.

Theorem C15_contains_instant :
  forall (t : timeslice) (d x : td), ts_duration t = Some d ->
  exists b, ts_contains t x = Ok b /\
  (b = true <-> ps (ts_start t) < ps x < ps (ts_start t) + ps d) /\
  (b = true -> inside t (ps x)).
Proof. exact ts_contains_spec. Qed.
Print Assumptions C15_contains_instant.

Theorem C15_contains_slice :
  forall (t o : timeslice) (d d' : td), ts_duration t = Some d -> ts_duration o = Some d' ->
  exists b, ts_contains_slice t o = Ok b /\
  (b = true <-> ps (ts_start t) < ps (ts_start o) /\ ps (ts_start o) + ps d' < ps (ts_start t) + ps d) /\
  (b = true -> forall x, inside o x -> inside t x).
Proof. exact ts_contains_slice_spec. Qed.
Print Assumptions C15_contains_slice.

Theorem C15_shift :
  forall (t : timeslice) (o : td) (x : Z), inside (ts_shift t o) (x + ps o) <-> inside t x.
Proof. exact ts_shift_spec. Qed.
Print Assumptions C15_shift.

(** C16 *)
Theorem C16_slices_tile :
  forall times : list Z,
  exists srt, Permutation times srt /\ StronglySorted Z.le srt /\
    length (slices times) = (length times - 1)%nat /\
    (forall i s d, nth_error (slices times) i = Some (s, d) ->
       nth_error srt i = Some s /\ nth_error srt (S i) = Some (s + d) /\ 0 <= d) /\
    (times <> [] -> fold_right Z.add 0 (map snd (slices times)) = last srt 0 - hd 0 srt).
Proof. exact slices_spec. Qed.
Print Assumptions C16_slices_tile.

Theorem C16_slices_adjacent :
  forall (times : list Z) (i : nat) (s1 d1 s2 d2 : Z),
  nth_error (slices times) i = Some (s1, d1) -> nth_error (slices times) (S i) = Some (s2, d2) ->
  s2 = s1 + d1.
Proof. exact slices_adjacent. Qed.
Print Assumptions C16_slices_adjacent.

(** C17 *)
Theorem C17_window_covers :
  forall (t : timedim) (w s : Z) (t' : timedim),
  0 < t_freq t -> 0 < t_dur t -> 1 <= w -> 1 <= s ->
  modified_dimension t w (Some s) = Ok t' ->
  forall i,
    i * t_freq t' = (i * s) * t_freq t /\
    i * t_freq t' + t_dur t' = (i * s + w - 1) * t_freq t + t_dur t /\
    (t_freq t <= t_dur t -> forall x,
       covers (t_freq t') (t_dur t') i x <->
       exists k, i * s <= k < i * s + w /\ covers (t_freq t) (t_dur t) k x).
Proof. exact windowed_dimension_covers. Qed.
Print Assumptions C17_window_covers.

Theorem C17_windowing_composes :
  forall (t : timedim) (w1 s1 w2 s2 : Z) (t1 t2 : timedim),
  0 < t_freq t -> 0 < t_dur t -> 1 <= w1 -> 1 <= s1 -> 1 <= w2 -> 1 <= s2 ->
  modified_dimension t w1 (Some s1) = Ok t1 -> modified_dimension t1 w2 (Some s2) = Ok t2 ->
  modified_dimension t ((w2 - 1) * s1 + w1) (Some (s1 * s2)) = Ok t2.
Proof. exact windowing_composes. Qed.
Print Assumptions C17_windowing_composes.

Theorem C17_windowing_total :
  forall (t : timedim) (w s : Z), 0 < t_freq t -> 0 < t_dur t -> 1 <= w -> 1 <= s ->
  modified_dimension t w (Some s)
  = Ok {| t_freq := t_freq t * s; t_dur := t_freq t * w + (t_dur t - t_freq t); t_size := None |}.
Proof. exact modified_ok. Qed.
Print Assumptions C17_windowing_total.

Theorem C17_windowed_span :
  forall (t : timedim) (w s : Z) (t' : timedim) (n : Z),
  0 < t_freq t -> 0 < t_dur t -> 1 <= w -> 1 <= s ->
  modified_dimension t w (Some s) = Ok t' ->
  t_span (metaslice t' n) = Ok (((n - 1) * s + w - 1) * t_freq t + t_dur t).
Proof. exact windowed_span. Qed.
Print Assumptions C17_windowed_span.

Theorem C17_slice_keeps_sampling :
  forall (t : timedim) (n : Z), t_dur t <> 0 ->
  t_freq (metaslice t n) = t_freq t /\ t_dur (metaslice t n) = t_dur t /\ t_size (metaslice t n) = Some n.
Proof. exact metaslice_keeps. Qed.
Print Assumptions C17_slice_keeps_sampling.

Theorem C17_defaults :
  forall (t : timedim) (w f : Z) (size : option Z), 1 <= w ->
  modified_dimension t w None = modified_dimension t w (Some w) /\
  mk_timedim f None size = mk_timedim f (Some f) size /\ mk_timedim f (Some 0) size = mk_timedim f (Some f) size.
Proof. exact dimension_defaults. Qed.
Print Assumptions C17_defaults.

(** C18: the half lapped and custom schemes of an audio rate are its multiples *)
Theorem C18_schemes :
  forall (n : Z) (s : samplerate) (step w : Z), audio_rate n = Ok s ->
  half_lapped s w step = sr_mul s step w /\ windowing_scheme s w step = sr_mul s step w.
Proof. exact schemes. Qed.
Print Assumptions C18_schemes.

(** C18 *)
Theorem C18_mul_then_discrete :
  forall (f d : Z) (sr : samplerate) (step w : Z),
  mk_samplerate f d = Ok sr -> 1 <= step -> 1 <= w ->
  exists sr', sr_mul sr step w = Ok sr' /\
    discrete_samples sr' f d = (step, w) /\
    sr_overlap sr' = (w - step) * f + (d - f) /\
    sr_overlap_ratio sr' = (sr_overlap sr', w * f + (d - f)).
Proof. exact mul_discrete_inverse. Qed.
Print Assumptions C18_mul_then_discrete.

Theorem C18_mul_is_windowing :
  forall (f d : Z) (sr : samplerate) (step w : Z) (t' : timedim),
  mk_samplerate f d = Ok sr -> 1 <= step -> 1 <= w ->
  modified_dimension {| t_freq := f; t_dur := d; t_size := None |} w (Some step) = Ok t' ->
  sr_mul sr step w = Ok {| sr_freq := t_freq t'; sr_dur := t_dur t' |}.
Proof. exact mul_is_windowing. Qed.
Print Assumptions C18_mul_is_windowing.

Theorem C18_nonpositive_rejected :
  forall f d : Z, f <= 0 \/ d <= 0 -> mk_samplerate f d = Raise ValueError.
Proof. exact samplerate_rejects. Qed.
Print Assumptions C18_nonpositive_rejected.
