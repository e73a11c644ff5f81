(** C103: the arithmetic of times with the numbers of the machine. *)
From Coq Require Import ZArith QArith.
From Verif Require Import PyBase Time Time64 Time64Proofs Time64Proofs3 Time64Proofs4 Time64Proofs5 Time64Proofs6.
Local Open Scope Z_scope.
Theorem C103_less :
  forall a b : td, small a -> small b -> td_lt a b = (ps a <? ps b).
Proof. exact (@td_lt_ok). Qed.
Print Assumptions C103_less.
Theorem C103_equal :
  forall a b : td, small a -> small b -> td_eq a b = (ps a =? ps b).
Proof. exact (@td_eq_ok). Qed.
Print Assumptions C103_equal.
Theorem C103_sum :
  forall a b : td,
  small a ->
  small b ->
  - 2 ^ 63 < ps a + ps b < 2 ^ 63 ->
  ps (td_add a b) = ps a + ps b /\ td_unit (td_add a b) = finer (td_unit a) (td_unit b).
Proof. exact (@td_add_ok). Qed.
Print Assumptions C103_sum.
Theorem C103_difference :
  forall a b : td,
  small a ->
  small b ->
  - 2 ^ 63 < ps a - ps b < 2 ^ 63 ->
  ps (td_sub a b) = ps a - ps b /\ td_unit (td_sub a b) = finer (td_unit a) (td_unit b).
Proof. exact (@td_sub_ok). Qed.
Print Assumptions C103_difference.
Theorem C103_multiple :
  forall (n : Z) (a : td),
  small a ->
  - 2 ^ 63 < n * ps a < 2 ^ 63 -> ps (td_mul n a) = n * ps a /\ td_unit (td_mul n a) = td_unit a.
Proof. exact (@td_mul_ok). Qed.
Print Assumptions C103_multiple.
Theorem C103_wraps_refuted :
  forall a b : td,
  td_unit a = td_unit b ->
  - 2 ^ 63 < td_count a < 2 ^ 63 ->
  - 2 ^ 63 < td_count b < 2 ^ 63 ->
  2 ^ 63 <= td_count a + td_count b ->
  td_count (td_add a b) = td_count a + td_count b - 2 ^ 64 /\ td_count (td_add a b) < 0.
Proof. exact (@td_add_wraps). Qed.
Print Assumptions C103_wraps_refuted.
Theorem C103_long_duration_refuted :
  forall h : Z, 2562 < h <= 5124 -> td_lt {| td_count := h; td_unit := Hr |} (picoseconds 0) = true.
Proof. exact (@long_duration_refuted). Qed.
Print Assumptions C103_long_duration_refuted.
Theorem C103_constructor :
  forall (u : tunit) (z : Z),
  - 2 ^ 63 <= z < 2 ^ 63 -> duration_of u (inject_Z z) = Ok {| td_count := z; td_unit := u |}.
Proof. exact (@duration_of_int). Qed.
Print Assumptions C103_constructor.
Theorem C103_constructor_below :
  forall (u : tunit) (x : Q),
  (0 <= x)%Q ->
  (x < inject_Z (2 ^ 63))%Q ->
  exists t : td,
    duration_of u x = Ok t /\ (inject_Z (td_count t) <= x < inject_Z (td_count t + 1))%Q.
Proof. exact (@duration_of_below). Qed.
Print Assumptions C103_constructor_below.
Theorem C103_constructor_too_long :
  forall (u : tunit) (z : Z), 2 ^ 63 <= z -> duration_of u (inject_Z z) = Raise OtherError.
Proof. exact (@too_long_raises). Qed.
Print Assumptions C103_constructor_too_long.
Theorem C103_fraction_refuted :
  forall (u : tunit) (x : Q),
  (0 <= x)%Q ->
  (x < 1)%Q ->
  duration_of u x = Ok {| td_count := 0; td_unit := u |} /\
  td_eq {| td_count := 0; td_unit := u |} (picoseconds 0) = true.
Proof. exact (@fraction_refuted). Qed.
Print Assumptions C103_fraction_refuted.
Theorem C103_slice :
  forall (t : dim64) (s d : td),
  usual t ->
  within s ->
  within d ->
  within (td_sub s (td_sub (d_dur t) (d_freq t))) ->
  0 <= ps s + ps d < 2 ^ 53 ->
  clear (ps s + ps d) (ps (d_freq t)) ->
  slice64 t (TSlice s (Some d)) = integer_based_slice (exact t) (ITime (ps s) (Some (ps d))).
Proof. exact (@slice_agrees). Qed.
Print Assumptions C103_slice.
Theorem C103_open_slice :
  forall (t : dim64) (s : td) (n : Z),
  usual t ->
  d_size t = Some n ->
  within s ->
  within (td_sub s (td_sub (d_dur t) (d_freq t))) ->
  0 <= n * ps (d_freq t) + (ps (d_dur t) - ps (d_freq t)) ->
  clear (n * ps (d_freq t) + (ps (d_dur t) - ps (d_freq t))) (ps (d_freq t)) ->
  slice64 t (TSlice s None) = integer_based_slice (exact t) (ITime (ps s) None).
Proof. exact (@open_agrees). Qed.
Print Assumptions C103_open_slice.
Theorem C103_python_slice :
  forall (t : dim64) (n : Z) (start stop : option td),
  usual t ->
  d_size t = Some n ->
  ps (d_freq t) <= ps (d_dur t) ->
  (forall s : td,
   start = Some s -> 0 <= n * ps (d_freq t) + (ps (d_dur t) - ps (d_freq t)) + ps s /\ within s) ->
  (forall s : td,
   stop = Some s -> 0 <= n * ps (d_freq t) + (ps (d_dur t) - ps (d_freq t)) + ps s /\ within s) ->
  (let e := n * ps (d_freq t) + (ps (d_dur t) - ps (d_freq t)) in
   forall s : td, stop = Some s -> clear (if ps s <? 0 then e + ps s else ps s) (ps (d_freq t))) ->
  clear (n * ps (d_freq t) + (ps (d_dur t) - ps (d_freq t))) (ps (d_freq t)) ->
  slice64 t (DSlice start stop) =
  integer_based_slice (exact t) (ISlice (option_map ps start) (option_map ps stop)).
Proof. exact (@python_agrees). Qed.
Print Assumptions C103_python_slice.
Theorem C103_boundaries :
  forall (t : dim64) (a b : Z),
  usual t ->
  ps (d_dur t) = ps (d_freq t) ->
  0 <= a <= b ->
  b * ps (d_freq t) < 2 ^ 53 ->
  slice64 t (TSlice (td_mul a (d_freq t)) (Some (td_mul (b - a) (d_freq t)))) = Ok (a, b).
Proof. exact (@boundaries). Qed.
Print Assumptions C103_boundaries.
Theorem C103_beyond_refuted :
  slice64 rate48 (TSlice (td_mul 432345573 (d_freq rate48)) (Some (td_mul 1 (d_freq rate48)))) =
  Ok (432345572, 432345574).
Proof. exact (@beyond_refuted). Qed.
Print Assumptions C103_beyond_refuted.
Theorem C103_tolerance_refuted :
  slice64 rate16 (TSlice (picoseconds 0) (Some (picoseconds (8 * 62500000 + 312500)))) = Ok (0, 9) /\
  slice64 rate16 (TSlice (picoseconds 0) (Some (picoseconds (11 * 62500000 + 312500)))) =
  Ok (0, 11) /\
  (forall k : Z,
   integer_based_slice (exact rate16) (ITime 0 (Some (k * 62500000 + 312500))) = Ok (0, k)).
Proof. exact (@tolerance_refuted). Qed.
Print Assumptions C103_tolerance_refuted.
Theorem C103_long_signal_refuted :
  exists (n : Z) (e : td),
    end64 {| d_freq := picoseconds 22675736; d_dur := picoseconds 22675736; d_size := Some n |} =
    Ok e /\
    0 < n /\
    ps e < 0 /\
    (exists b : Z,
       slice64
         {| d_freq := picoseconds 22675736; d_dur := picoseconds 22675736; d_size := Some n |}
         (TSlice (picoseconds 0) None) = Ok (0, b) /\ b < 0).
Proof. exact (@long_signal_refuted). Qed.
Print Assumptions C103_long_signal_refuted.
Theorem C103_samples_per_second :
  forall f : td, 0 < ps f < 2 ^ 53 -> samples_per_second64 f = Ok (samples_per_second (ps f)).
Proof. exact (@per_second). Qed.
Print Assumptions C103_samples_per_second.
Theorem C103_usual_rates :
  forall n : Z, 1 <= n <= 10 ^ 6 -> samples_per_second64 (picoseconds (10 ^ 12 / n)) = Ok n.
Proof. exact (@usual_rates). Qed.
Print Assumptions C103_usual_rates.
Theorem C103_rate_multiple :
  forall (r : rate64) (s w : Z),
  small_rate r ->
  0 <= s * ps (r_freq r) < 2 ^ 52 ->
  0 <= w * ps (r_freq r) + ps (r_dur r) < 2 ^ 52 ->
  (exists x : rate64, rate_mul64 r s w = Ok x /\ sr_mul (exact_rate r) s w = Ok (exact_rate x)) \/
  rate_mul64 r s w = Raise ValueError /\ sr_mul (exact_rate r) s w = Raise ValueError.
Proof. exact (@rate_mul_agrees). Qed.
Print Assumptions C103_rate_multiple.
Theorem C103_discrete :
  forall r t : rate64,
  small_rate r ->
  small_rate t ->
  0 <= ps (r_dur r) - (ps (r_dur t) - ps (r_freq t)) < 2 ^ 52 ->
  discrete64 r t = Ok (discrete_samples (exact_rate r) (ps (r_freq t)) (ps (r_dur t))).
Proof. exact (@discrete_agrees). Qed.
Print Assumptions C103_discrete.
Theorem C103_multiple_discrete :
  forall (r : rate64) (s w : Z),
  small_rate r ->
  1 <= s ->
  1 <= w ->
  s * ps (r_freq r) < 2 ^ 52 ->
  w * ps (r_freq r) + ps (r_dur r) < 2 ^ 52 ->
  exists x : rate64, rate_mul64 r s w = Ok x /\ discrete64 x r = Ok (s, w).
Proof. exact (@mul_discrete). Qed.
Print Assumptions C103_multiple_discrete.
Theorem C103_windowing :
  forall (t : dim64) (w : Z) (s : option Z),
  usual t ->
  1 <= w ->
  match s with
  | Some s0 => 0 <= s0
  | None => True
  end ->
  w * ps (d_freq t) + ps (d_dur t) < 2 ^ 53 ->
  match s with
  | Some s0 => s0 * ps (d_freq t) < 2 ^ 53
  | None => True
  end ->
  exists x : dim64, modified64 t w s = Ok x /\ modified_dimension (exact t) w s = Ok (exact x).
Proof. exact (@modified_agrees). Qed.
Print Assumptions C103_windowing.
Theorem C103_slice_end :
  forall t : timeslice,
  modest_slice t -> ts_end t = match end_of64 t with
                               | Ok e => Ok (ps e)
                               | Raise x => Raise x
                               end.
Proof. exact (@end_agrees). Qed.
Print Assumptions C103_slice_end.
Theorem C103_slice_equal :
  forall a b : timeslice, modest_slice a -> modest_slice b -> eq64 a b = ts_eq a b.
Proof. exact (@eq_agrees). Qed.
Print Assumptions C103_slice_equal.
Theorem C103_slice_less :
  forall a b : timeslice,
  modest_slice a -> modest_slice b -> td_lt (ts_start a) (ts_start b) = ts_lt a b.
Proof. exact (@lt_agrees). Qed.
Print Assumptions C103_slice_less.
Theorem C103_slice_hash :
  forall a b : timeslice,
  modest_slice a -> modest_slice b -> eq64 a b = true -> hashed64 a = hashed64 b.
Proof. exact (@hash_agrees). Qed.
Print Assumptions C103_slice_hash.
Theorem C103_slice_intersection :
  forall a b : timeslice,
  modest_slice a ->
  modest_slice b ->
  match and64 a b with
  | Ok x =>
      match ts_and a b with
      | Ok y => eq64 x y = true /\ ts_eq x y = true
      | Raise _ => False
      end
  | Raise e => match ts_and a b with
               | Ok _ => False
               | Raise e' => e = e'
               end
  end.
Proof. exact (@and_agrees). Qed.
Print Assumptions C103_slice_intersection.
Theorem C103_slice_contains :
  forall (t : timeslice) (x : td), modest_slice t -> modest x -> contains64 t x = ts_contains t x.
Proof. exact (@contains_agrees). Qed.
Print Assumptions C103_slice_contains.
Theorem C103_slice_contains_slice :
  forall t o : timeslice,
  modest_slice t -> modest_slice o -> contains_slice64 t o = ts_contains_slice t o.
Proof. exact (@contains_slice_agrees). Qed.
Print Assumptions C103_slice_contains_slice.
Theorem C103_slice_shift :
  forall (t : timeslice) (o : td),
  modest_slice t ->
  modest o ->
  ps (ts_start (shift64 t o)) = ps (ts_start (ts_shift t o)) /\
  ts_duration (shift64 t o) = ts_duration t /\ ps (ts_start (shift64 t o)) = ps (ts_start t) + ps o.
Proof. exact (@shift_agrees). Qed.
Print Assumptions C103_slice_shift.
Theorem C103_audio_rate :
  forall n : Z,
  match audio_rate64 n with
  | Ok x => match audio_rate n with
            | Ok y => exact_rate x = y
            | Raise _ => False
            end
  | Raise e => match audio_rate n with
               | Ok _ => False
               | Raise e' => e = e'
               end
  end.
Proof. exact (@audio_rate_agrees). Qed.
Print Assumptions C103_audio_rate.
Theorem C103_schemes :
  forall (r : rate64) (w h : Z),
  small_rate r ->
  r_freq r = r_dur r ->
  1 <= w ->
  1 <= h ->
  w * ps (r_freq r) < 2 ^ 62 ->
  h * ps (r_freq r) < 2 ^ 62 ->
  exists x : rate64,
    windowing_scheme64 r w h = Ok x /\
    half_lapped64 r w h = Ok x /\
    exact_rate x = {| sr_freq := h * ps (r_freq r); sr_dur := w * ps (r_freq r) |}.
Proof. exact (@schemes_agree). Qed.
Print Assumptions C103_schemes.
Theorem C103_dimension :
  forall (f : td) (d : option td) (size : option Z),
  exact (mk_dim64 f d size) = mk_timedim (ps f) (option_map ps d) size.
Proof. exact (@dimension_agrees). Qed.
Print Assumptions C103_dimension.
Theorem C103_dimension_no_time :
  forall (f d : td) (size : option Z), td_count d = 0 -> d_dur (mk_dim64 f (Some d) size) = f.
Proof. exact (@dimension_duration). Qed.
Print Assumptions C103_dimension_no_time.
Theorem C103_no_size :
  forall (t : dim64) (s : td) (start stop : option td) (d : td),
  d_size t = None ->
  slice64 t (TSlice s None) = Raise TypeError /\
  slice64 t (DSlice start None) = Raise TypeError /\
  (td_lt d {| td_count := 0; td_unit := Sec |} = true ->
   slice64 t (DSlice (Some d) stop) = Raise TypeError /\
   slice64 t (DSlice None (Some d)) = Raise TypeError).
Proof. exact (@no_size). Qed.
Print Assumptions C103_no_size.

