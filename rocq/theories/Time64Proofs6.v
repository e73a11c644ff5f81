(** Proofs about Time64.v: time slices. *)
From Coq Require Import ZArith QArith Lia Bool.
From Verif Require Import PyBase PyFacts Time TimeProofs Float64 Time64 Time64Proofs Time64Proofs3 Time64Proofs4 Time64Proofs5.
Local Open Scope Z_scope.

(** a slice with all its times within 2^62 picoseconds, 53 days *)
Definition modest (t : td) : Prop := - 2 ^ 62 < ps t < 2 ^ 62.
Definition modest_slice (t : timeslice) : Prop :=
  modest (ts_start t) /\ match ts_duration t with None => True | Some d => modest d /\ modest (td_add (ts_start t) d) end.
Lemma modest_small t : modest t -> small t.
Proof. unfold modest, small. lia. Qed.
Lemma add_modest a b : modest a -> modest b -> ps (td_add a b) = ps a + ps b.
Proof. intros Ha Hb. unfold modest in *. apply td_add_ok; unfold small; lia. Qed.
Lemma sub_modest a b : modest a -> modest b -> ps (td_sub a b) = ps a - ps b.
Proof. intros Ha Hb. unfold modest in *. apply td_sub_ok; unfold small; lia. Qed.
Lemma lt_modest a b : modest a -> modest b -> td_lt a b = (ps a <? ps b).
Proof. intros. apply td_lt_ok; now apply modest_small. Qed.
Lemma max_modest a b : modest a -> modest b -> ps (max_td a b) = Z.max (ps a) (ps b).
Proof. intros Ha Hb. unfold max_td. rewrite lt_modest by assumption. destruct (Z.ltb_spec (ps a) (ps b)); lia. Qed.
Lemma min_modest a b : modest a -> modest b -> ps (min_td a b) = Z.min (ps a) (ps b).
Proof. intros Ha Hb. unfold min_td. rewrite lt_modest by assumption. destruct (Z.ltb_spec (ps b) (ps a)); lia. Qed.
(** the end *)
Theorem end_agrees t : modest_slice t -> ts_end t = match end_of64 t with Ok e => Ok (ps e) | Raise x => Raise x end.
Proof. intros [Hs Hd]. unfold ts_end, end_of64. destruct (ts_duration t) as [d|]; [|reflexivity]. destruct Hd as [Hd _]. now rewrite add_modest. Qed.
(** the order and equality *)
Theorem eq_agrees a b : modest_slice a -> modest_slice b -> eq64 a b = ts_eq a b.
Proof.
  intros [Ha Da] [Hb Db]. unfold eq64, ts_eq. rewrite td_eq_ok by now apply modest_small. f_equal. destruct (ts_duration a), (ts_duration b); try reflexivity. apply td_eq_ok; apply modest_small; [apply Da|apply Db].
Qed.
Theorem lt_agrees a b : modest_slice a -> modest_slice b -> td_lt (ts_start a) (ts_start b) = ts_lt a b.
Proof. intros [Ha _] [Hb _]. now apply lt_modest. Qed.
(** equal slices, of whatever units, are hashed alike *)
Lemma div_same a b : small a -> small b -> ps a = ps b -> td_div a (picoseconds 1) = td_div b (picoseconds 1).
Proof.
  intros Ha Hb E. assert (S1 : small (picoseconds 1)) by (unfold small, ps; cbn [td_count td_unit picoseconds unit_ps]; lia). unfold td_div. assert (F : forall u, finer u Ps = Ps) by (intros []; reflexivity). cbn [picoseconds td_unit]. rewrite !F.
  assert (C : forall x, small x -> cast Ps x = ps x). { intros x Hx. destruct (cast_ok Ps x) as [Ex _]; [apply unit_pos|exact Hx|]. cbn [unit_ps] in Ex. lia. }
  change (cast Ps {| td_count := 1; td_unit := Ps |}) with (cast Ps (picoseconds 1)). rewrite !C by assumption. now rewrite E.
Qed.
Theorem hash_agrees a b : modest_slice a -> modest_slice b -> eq64 a b = true -> hashed64 a = hashed64 b.
Proof.
  intros Ha Hb E. rewrite eq_agrees in E by assumption. unfold ts_eq in E. apply andb_true_iff in E as [E1 E2]. apply Z.eqb_eq in E1. destruct Ha as [Ha Da], Hb as [Hb Db]. unfold hashed64. f_equal; [apply div_same; auto using modest_small|]. destruct (ts_duration a) as [x|], (ts_duration b) as [y|]; try discriminate; [|reflexivity]. cbn [option_map]. f_equal. apply Z.eqb_eq in E2. apply div_same; auto using modest_small; apply modest_small; [apply Da|apply Db].
Qed.
(** intersection *)
Theorem and_agrees a b : modest_slice a -> modest_slice b ->
  match and64 a b, ts_and a b with Ok x, Ok y => eq64 x y = true /\ ts_eq x y = true | Raise e, Raise e' => e = e' | _, _ => False end.
Proof.
  intros Ha Hb. pose proof (end_agrees a Ha) as Ea. pose proof (end_agrees b Hb) as Eb. unfold and64, ts_and. rewrite Ea, Eb. unfold end_of64. destruct Ha as [Ha Da], Hb as [Hb Db]. destruct (ts_duration a) as [da|]; cbn [bind]; [|reflexivity]. destruct (ts_duration b) as [db|]; cbn [bind]; [|reflexivity].
  destruct Da as [Da Ea'], Db as [Db Eb']. set (ea := td_add (ts_start a) da) in *. set (eb := td_add (ts_start b) db) in *.
  assert (Mn : ps (min_td ea eb) = Z.min (ps ea) (ps eb)) by now apply min_modest. assert (Mx : ps (max_td (ts_start a) (ts_start b)) = Z.max (ps (ts_start a)) (ps (ts_start b))) by now apply max_modest.
  assert (Mmn : modest (min_td ea eb)) by (unfold modest in *; lia). assert (Mmx : modest (max_td (ts_start a) (ts_start b))) by (unfold modest in *; lia).
  set (dl := td_sub (min_td ea eb) (max_td (ts_start a) (ts_start b))). assert (Ed : ps dl = Z.min (ps ea) (ps eb) - Z.max (ps (ts_start a)) (ps (ts_start b))) by (unfold dl; now rewrite sub_modest, Mn, Mx).
  assert (S0 : small (picoseconds 0)) by (unfold small, ps; cbn [td_count td_unit picoseconds unit_ps]; lia). assert (Sd : small dl) by (unfold small, modest in *; lia).
  assert (X : ps (max_td (picoseconds 0) dl) = Z.max 0 (ps dl)). { unfold max_td. rewrite td_lt_ok by assumption. change (ps (picoseconds 0)) with 0. destruct (Z.ltb_spec 0 (ps dl)); [lia|]. change (ps (picoseconds 0)) with 0. lia. }
  cbn [ts_start ts_duration mk_timeslice]. unfold eq64, ts_eq. cbn [ts_start ts_duration mk_timeslice]. set (z := Z.max 0 (Z.min (ps ea) (ps eb) - Z.max (ps (ts_start a)) (ps (ts_start b)))).
  assert (Ez : ps (max_td (picoseconds 0) dl) = z) by (rewrite X, Ed; reflexivity). assert (Pz : ps (picoseconds z) = z) by (unfold ps; cbn [picoseconds td_count td_unit unit_ps]; ring). split.
  - rewrite !td_eq_ok; try exact S0; [rewrite Ez, Pz; rewrite !Z.eqb_refl; reflexivity| |]; unfold small; rewrite ?Ez, ?Pz; unfold z, modest in *; lia.
  - rewrite Ez, Pz, !Z.eqb_refl. reflexivity.
Qed.
(** containment *)
Theorem contains_agrees t x : modest_slice t -> modest x -> contains64 t x = ts_contains t x.
Proof.
  intros Ht Hx. pose proof (end_agrees t Ht) as E. unfold contains64, ts_contains. rewrite E. destruct Ht as [Hs Hd]. rewrite lt_modest by assumption. destruct (ps (ts_start t) <? ps x); [|reflexivity]. unfold end_of64. destruct (ts_duration t) as [d|]; [|reflexivity]. cbn [bind]. destruct Hd as [_ He]. now rewrite lt_modest.
Qed.
Theorem contains_slice_agrees t o : modest_slice t -> modest_slice o -> contains_slice64 t o = ts_contains_slice t o.
Proof.
  intros Ht Ho. pose proof (end_agrees t Ht) as E. pose proof (end_agrees o Ho) as Eo. unfold contains_slice64, ts_contains_slice. rewrite E, Eo. destruct Ht as [Hs Hd], Ho as [Hso Hdo]. rewrite lt_modest by assumption. destruct (ps (ts_start t) <? ps (ts_start o)); [|reflexivity]. unfold end_of64. destruct (ts_duration o) as [d|]; [|reflexivity]. destruct (ts_duration t) as [d'|]; [|reflexivity]. cbn [bind]. destruct Hd as [_ He], Hdo as [_ Heo]. now rewrite lt_modest.
Qed.
(** moving *)
Theorem shift_agrees t o : modest_slice t -> modest o -> ps (ts_start (shift64 t o)) = ps (ts_start (ts_shift t o)) /\ ts_duration (shift64 t o) = ts_duration t /\ ps (ts_start (shift64 t o)) = ps (ts_start t) + ps o.
Proof.
  intros [Hs _] Ho. unfold shift64, ts_shift. rewrite !start_value. rewrite add_modest by assumption. split; [|split; reflexivity]. unfold ps. cbn [picoseconds td_count td_unit unit_ps]. ring.
Qed.
(** ** Rates of audio *)
Theorem audio_rate_agrees n : match audio_rate64 n, audio_rate n with Ok x, Ok y => exact_rate x = y | Raise e, Raise e' => e = e' | _, _ => False end.
Proof.
  unfold audio_rate64, audio_rate. destruct (n =? 0); [reflexivity|]. unfold mk_rate64, mk_samplerate. cbn [picoseconds td_count]. destruct (10 ^ 12 / n <=? 0); [reflexivity|]. unfold exact_rate. cbn [r_freq r_dur]. assert (E : ps (picoseconds (10 ^ 12 / n)) = 10 ^ 12 / n) by (unfold ps; cbn [picoseconds td_count td_unit unit_ps]; ring). fold (picoseconds (10 ^ 12 / n)). now rewrite E.
Qed.
Theorem schemes_agree r w h : small_rate r -> r_freq r = r_dur r -> 1 <= w -> 1 <= h -> w * ps (r_freq r) < 2 ^ 62 -> h * ps (r_freq r) < 2 ^ 62 ->
  exists x, windowing_scheme64 r w h = Ok x /\ half_lapped64 r w h = Ok x /\ exact_rate x = {| sr_freq := h * ps (r_freq r); sr_dur := w * ps (r_freq r) |}.
Proof.
  intros [Hf Hd] E Hw Hh Bw Bh. assert (Mw : ps (td_mul w (r_freq r)) = w * ps (r_freq r)) by (apply td_mul_ok; unfold small; nia). assert (Mh : ps (td_mul h (r_freq r)) = h * ps (r_freq r)) by (apply td_mul_ok; unfold small; nia).
  unfold windowing_scheme64, half_lapped64, mk_rate64. rewrite <- E. rewrite !count_sign, Mw, Mh. destruct (Z.leb_spec (h * ps (r_freq r)) 0); [nia|]. destruct (Z.leb_spec (w * ps (r_freq r)) 0); [nia|]. eexists. split; [reflexivity|]. split; [reflexivity|]. unfold exact_rate. cbn [r_freq r_dur]. now rewrite Mw, Mh.
Qed.
Example mixed_case : let a := {| ts_start := {| td_count := 1; td_unit := Sec |}; ts_duration := Some {| td_count := 2500; td_unit := Ms |} |} in let b := {| ts_start := {| td_count := 3000000; td_unit := Us |}; ts_duration := Some {| td_count := 1; td_unit := Min |} |} in
  modest_slice a /\ modest_slice b /\ and64 a b = Ok {| ts_start := picoseconds 0; ts_duration := Some {| td_count := 500000; td_unit := Us |} |} /\ contains64 a (picoseconds (3 * 10 ^ 12)) = Ok true.
Proof. cbv zeta. unfold modest_slice, modest. repeat split; vm_compute; reflexivity. Qed.
(** ** Constructing a dimension: no duration, or one of no time, means the frequency *)
Theorem dimension_agrees f d size : exact (mk_dim64 f d size) = mk_timedim (ps f) (option_map ps d) size.
Proof.
  unfold exact, mk_dim64, mk_timedim. cbn [d_freq d_dur d_size]. destruct d as [d|]; cbn [option_map]; [|reflexivity].
  assert (U : (0 < unit_ps (td_unit d))%Z) by (destruct (td_unit d); reflexivity).
  assert (E : Z.eqb (td_count d) 0 = Z.eqb (ps d) 0).
  { unfold ps. destruct (Z.eqb_spec (td_count d) 0) as [-> |N]; [now rewrite Z.mul_0_l|].
    symmetry. apply Z.eqb_neq. intros Z0. apply Z.mul_eq_0 in Z0. destruct Z0 as [Z0|Z0]; [now apply N|now rewrite Z0 in U]. }
  rewrite E. now destruct (Z.eqb (ps d) 0).
Qed.
Theorem dimension_duration f d size : td_count d = 0%Z -> d_dur (mk_dim64 f (Some d) size) = f.
Proof. intros E. unfold mk_dim64. cbn [d_dur]. now rewrite E. Qed.
(** ** A dimension whose size is not known has no end: open slices and slices from the end raise *)
Theorem no_size t s start stop d : d_size t = None ->
  slice64 t (TSlice s None) = Raise TypeError /\
  slice64 t (DSlice start None) = Raise TypeError /\
  (td_lt d {| td_count := 0; td_unit := Sec |} = true -> slice64 t (DSlice (Some d) stop) = Raise TypeError /\ slice64 t (DSlice None (Some d)) = Raise TypeError).
Proof.
  intros H. split; [unfold slice64, as_timeslice, end64; cbn [bind]; now rewrite H|]. split.
  - unfold slice64, as_timeslice, end64. rewrite H. cbn [bind].
    destruct (td_lt (match start with None => _ | Some s => s end) _); reflexivity.
  - intros L. unfold slice64, as_timeslice, end64. rewrite H. split; [rewrite L; reflexivity|].
    change (td_lt {| td_count := 0; td_unit := Sec |} {| td_count := 0; td_unit := Sec |}) with false. cbv iota. cbn [bind]. rewrite L. reflexivity.
Qed.
