(** pitch_shift, the gain of time_stretch, and the default frames (C77). *)
From Verif Require Import PyBase PyFacts PyMore Time TimeProofs Freq FreqProofs FreqScaleProofs FreqDim FreqDimProofs Axis Windowed WindowedProofs NdWindow NdWindowProofs Spectral SpectralProofs TransformProofs ReconProofs OverlapProofs Resample ResampleProofs SquareProofs PhaseShiftProofs Stft StftProofs TimeStretch TimeStretchProofs TimeStretchProofs2.
From Coq Require Import Reals Lra Psatz.
Local Open Scope R_scope.

(** ** re-sampling window by window *)
Definition repitch_gen (K m original : nat) (stretched : list R) : result (list R) :=
  let padding := (K - length stretched mod K)%nat in
  let padded := stretched ++ repeat 0 padding in
  let windows := rows_of (length padded / K) K padded in
  do rs <- mapM (resample m) windows;
  Ok (firstn original (List.concat rs)).
Lemma repitch_eq factor original x : repitch_row factor original x = repitch_gen 1024 (to_int (1024 * factor)) original x.
Proof. reflexivity. Qed.
Lemma rows_of_rows {A} n k : forall l : list A, length l = (n * k)%nat ->
  length (rows_of n k l) = n /\ (forall w, In w (rows_of n k l) -> length w = k) /\ List.concat (rows_of n k l) = l.
Proof.
  induction n as [|n IH]; intros l L.
  - cbn in L. destruct l; [|discriminate]. repeat split. intros w [].
  - cbn [rows_of]. cbn [Nat.mul] in L. destruct (IH (skipn k l)) as (A1 & A2 & A3); [rewrite skipn_length; lia|]. cbn [length List.concat]. split; [lia|]. split.
    + intros w [<-|Hw]; [rewrite firstn_length; lia|now apply A2].
    + rewrite A3. apply firstn_skipn.
Qed.
Lemma concat_length_const {A} (l : list (list A)) k : (forall w, In w l -> length w = k) -> length (List.concat l) = (length l * k)%nat.
Proof. induction l as [|a l IH]; intros H; [reflexivity|]. cbn [List.concat length]. rewrite app_length, IH, (H a (or_introl eq_refl)); [reflexivity|]. intros w Hw. apply H. now right. Qed.
Lemma repitch_gen_ok K m original x : (0 < K)%nat -> (0 < m)%nat ->
  exists out, repitch_gen K m original x = Ok out /\ length out = Nat.min original ((length x / K + 1) * m)
    /\ (m = K -> out = firstn original (x ++ repeat 0 (K - length x mod K)%nat)).
Proof.
  intros HK Hm. unfold repitch_gen. set (padded := x ++ repeat 0 (K - length x mod K)%nat).
  assert (Lp : length padded = ((length x / K + 1) * K)%nat).
  { unfold padded. rewrite app_length, repeat_length. pose proof (Nat.div_mod (length x) K ltac:(lia)). pose proof (Nat.mod_upper_bound (length x) K ltac:(lia)). nia. }
  rewrite Lp, Nat.div_mul by lia. destruct (rows_of_rows (length x / K + 1) K padded Lp) as (R1 & R2 & R3).
  rewrite (mapM_ok _ (resample_row m)).
  2: { intros w Hw. apply resample_ok; [exact Hm|]. intros ->. specialize (R2 [] Hw). cbn in R2. lia. }
  cbn [bind]. eexists. split; [reflexivity|]. split.
  - rewrite firstn_length. f_equal. rewrite (concat_length_const _ m); [now rewrite map_length, R1|]. intros w Hw. apply in_map_iff in Hw as (u & <- & _). apply resample_row_length.
  - intros ->. f_equal. rewrite <- R3 at 2. f_equal. rewrite <- map_id. apply map_ext_in. intros w Hw. pose proof (R2 w Hw) as Lw. rewrite <- Lw at 1. apply resample_same. intros ->. cbn in Lw. lia.
Qed.
Lemma repitch_gen_zero K original x : (0 < K)%nat -> repitch_gen K 0 original x = Raise ValueError.
Proof.
  intros HK. unfold repitch_gen. set (padded := x ++ repeat 0 (K - length x mod K)%nat).
  assert (Lp : length padded = ((length x / K + 1) * K)%nat).
  { unfold padded. rewrite app_length, repeat_length. pose proof (Nat.div_mod (length x) K ltac:(lia)). pose proof (Nat.mod_upper_bound (length x) K ltac:(lia)). nia. }
  rewrite Lp, Nat.div_mul by lia. rewrite Nat.add_1_r. reflexivity.
Qed.

Section Pitch.
  Context (t : timedim) (r : Z) (sr : samplerate) (width W H hop : nat).
  Context (Hr : In r standard_rates) (Ht : t_freq t = (10 ^ 12 / r)%Z) (Hd : t_dur t = t_freq t)
    (HW : samples_in (t_freq t) (sr_dur sr) = Z.of_nat W) (HH : samples_in (t_freq t) (sr_freq sr) = Z.of_nat H)
    (Hhop : round_half_even (sr_freq sr) (t_freq t) = Z.of_nat hop)
    (HW2 : (2 <= W <= width)%nat) (H1 : (1 <= H)%nat) (Pd : (0 < sr_dur sr)%Z).

  Lemma factor_pos s : 0 < pitch_factor s.
  Proof. unfold pitch_factor, Rpower. apply exp_pos. Qed.
  Lemma pitch_eq s x : length x = width -> pitch_shift1 t s (Some sr) x =
    (do row <- repitch_gen 1024 (to_int (1024 * pitch_factor s)) width (stretched hop W H width (pitch_factor s) x);
     Ok ([DIdent; DTime (mk_timedim (t_freq t) (Some (t_freq t)) (Some (Z.of_nat (length row))))], [row])).
  Proof.
    intros Lx. unfold pitch_shift1, time_stretch1. rewrite Lx. destruct (Nat.eqb_spec width 1); [lia|]. pose proof (factor_pos s) as Pf.
    rewrite (stretched_result t r sr width W H hop Hr Ht Hd HW HH Hhop HW2 H1 Pd) by (try assumption; discriminate). cbn [bind fst snd map mapM]. rewrite repitch_eq.
    destruct (repitch_gen _ _ _ _) as [row|e]; [|reflexivity]. cbn [bind hd fit_dims fit_dim]. do 2 f_equal. do 2 f_equal. f_equal. f_equal. unfold mk_timedim. cbn [t_freq t_dur].
    assert (0 < t_freq t)%Z by (apply (std_freq_pos r); assumption). destruct (Z.eqb_spec (t_freq t) 0); [lia|]. reflexivity.
  Qed.
  (** [m] samples for each window of 1024; the last window is never dropped *)
  Theorem pitch_length s x : length x = width -> 1 <= 1024 * pitch_factor s ->
    exists ds row, pitch_shift1 t s (Some sr) x = Ok (ds, [row]) /\
      length row = Nat.min width ((to_int (INR width / pitch_factor s) / 1024 + 1) * to_int (1024 * pitch_factor s)).
  Proof.
    intros Lx Hm. rewrite pitch_eq by exact Lx. assert (M : (0 < to_int (1024 * pitch_factor s))%nat).
    { destruct (to_int_spec (1024 * pitch_factor s)) as [_ B]; [lra|]. destruct (to_int (1024 * pitch_factor s)); [cbn in B; lra|lia]. }
    set (m := to_int (1024 * pitch_factor s)) in *. clearbody m. assert (K0 : (0 < 1024)%nat) by (apply Nat.ltb_lt; reflexivity).
    destruct (repitch_gen_ok 1024 m width (stretched hop W H width (pitch_factor s) x) K0 M) as (row & E & L & _).
    rewrite E. cbn [bind]. eexists. exists row. split; [reflexivity|]. rewrite L.
    destruct (stretched_ok width W H hop HW2 H1 (pitch_factor s) x) as (_ & L2 & _). rewrite L2. reflexivity.
  Qed.
  (** more than ten octaves up, there is no window left *)
  Theorem pitch_too_high s x : length x = width -> 1024 * pitch_factor s < 1 -> pitch_shift1 t s (Some sr) x = Raise ValueError.
  Proof.
    intros Lx Hm. rewrite pitch_eq by exact Lx. rewrite (to_int_unique _ 0) by (pose proof (factor_pos s); cbn; lra). rewrite repitch_gen_zero by (apply Nat.ltb_lt; reflexivity). reflexivity.
  Qed.
  Lemma inr_1024 : INR 1024 = 1024.
  Proof. rewrite INR_IZR_INZ. reflexivity. Qed.
  (** shifts by whole octaves keep the length *)
  Theorem pitch_octaves s x m : length x = width -> (0 < m)%nat -> 1024 * pitch_factor s = INR m ->
    exists ds row, pitch_shift1 t s (Some sr) x = Ok (ds, [row]) /\ length row = width.
  Proof.
    intros Lx Hm Em. assert (M1 : 1 <= INR m) by (apply (le_INR 1); lia). destruct (pitch_length s x Lx) as (ds & row & E & L); [lra|]. exists ds, row. split; [exact E|]. rewrite L. apply Nat.min_l.
    rewrite Em, to_int_nat. pose proof (factor_pos s) as Pf. set (f := pitch_factor s) in *. set (k := to_int (INR width / f)) in *.
    assert (P : 0 <= INR width / f) by (apply Rmult_le_pos; [apply pos_INR|left; now apply Rinv_0_lt_compat]).
    destruct (to_int_spec _ P) as [_ B]. fold k in B. apply (Rmult_lt_compat_r f) in B; [|exact Pf]. replace (INR width / f * f) with (INR width) in B by (field; lra).
    assert (D : (k + 1 <= (k / 1024 + 1) * 1024)%nat).
    { pose proof (Nat.div_mod k 1024 ltac:(discriminate)). pose proof (Nat.mod_upper_bound k 1024 ltac:(discriminate)). lia. }
    set (q := (k / 1024 + 1)%nat) in *. clearbody q. apply le_INR in D. rewrite mult_INR, plus_INR, inr_1024 in D. change (INR 1) with 1 in D.
    apply INR_le. rewrite mult_INR. assert (f = INR m / 1024) by lra. apply Rlt_le. apply Rlt_le_trans with ((INR k + 1) * f); [exact B|].
    apply Rle_trans with (INR q * 1024 * f); [apply Rmult_le_compat_r; lra|]. right. rewrite H0. field.
  Qed.
  (** ... and by nothing at all nothing is changed after the stretch by 1 *)
  Theorem pitch_zero x ds row : length x = width -> time_stretch1 t 1 (Some sr) x = Ok (ds, [row]) -> pitch_shift1 t 0 (Some sr) x = Ok (ds, [row]).
  Proof.
    intros Lx E. rewrite pitch_eq by exact Lx. assert (F : pitch_factor 0 = 1) by (unfold pitch_factor; replace (- 0 / 12) with 0 by field; apply Rpower_O; lra). rewrite F.
    unfold time_stretch1 in E. rewrite Lx in E. destruct (Nat.eqb_spec width 1); [lia|].
    rewrite (stretched_result t r sr width W H hop Hr Ht Hd HW HH Hhop HW2 H1 Pd) in E by (try lra; discriminate). cbn [map] in E. injection E as <- <-.
    rewrite Rmult_1_r. replace (to_int 1024) with 1024%nat by (rewrite <- inr_1024; symmetry; apply to_int_nat). assert (K0 : (0 < 1024)%nat) by (apply Nat.ltb_lt; reflexivity).
    destruct (repitch_gen_ok 1024 1024 width (stretched hop W H width 1 x) K0 K0) as (row & E & L & A). rewrite E. cbn [bind]. rewrite (A eq_refl).
    destruct (stretched_ok width W H hop HW2 H1 1 x) as (_ & L2 & _). assert (Ew : to_int (INR width / 1) = width) by (replace (INR width / 1) with (INR width) by field; apply to_int_nat). rewrite Ew in *.
    rewrite firstn_app, L2, Nat.sub_diag. cbn [firstn]. rewrite app_nil_r, firstn_all2 by lia. rewrite L2. reflexivity.
  Qed.
  (** every item of a batch is shifted as if it were alone *)
  Theorem pitch_batch s rows ds out : (forall x, In x rows -> length x = width) -> 1 <= 1024 * pitch_factor s ->
    pitch_shift2 DIdent (DTime t) s (Some sr) width rows = Ok (ds, out) ->
    length out = length rows /\ forall b, (b < length rows)%nat -> pitch_shift1 t s (Some sr) (nth b rows []) = Ok (ds, [nth b out []]).
  Proof.
    intros Hlen Hm E. pose proof (factor_pos s) as Pf. unfold pitch_shift2 in E. destruct rows as [|x0 rows].
    { unfold time_stretch2, discrete_samples in E. rewrite (stft2_refuses t sr hanning DIdent width [] W Hd) in E; [discriminate|apply (std_freq_pos r); assumption|exact HW|now right; right]. }
    rewrite (stretched_result t r sr width W H hop Hr Ht Hd HW HH Hhop HW2 H1 Pd) in E by (try assumption; discriminate). cbn [bind fst snd] in E. set (l := x0 :: rows) in *.
    assert (M : (0 < to_int (1024 * pitch_factor s))%nat).
    { destruct (to_int_spec (1024 * pitch_factor s)) as [_ B]; [lra|]. destruct (to_int (1024 * pitch_factor s)); [cbn in B; lra|lia]. }
    set (m := to_int (1024 * pitch_factor s)) in *. assert (K0 : (0 < 1024)%nat) by (apply Nat.ltb_lt; reflexivity).
    set (g := fun y => match repitch_gen 1024 m width y with Ok o => o | Raise _ => [] end).
    assert (G : forall y, repitch_gen 1024 m width y = Ok (g y) /\ length (g y) = Nat.min width ((length y / 1024 + 1) * m)).
    { intros y. destruct (repitch_gen_ok 1024 m width y K0 M) as (row & Ey & L & _). unfold g. rewrite Ey. split; [reflexivity|exact L]. }
    rewrite (mapM_ok _ g) in E by (intros y _; rewrite repitch_eq; apply G). cbn [bind] in E. cbn [fit_dims fit_dim bind] in E. apply (f_equal (fun p => match p with Ok q => q | Raise _ => ([], []) end)) in E. apply pair_equal_spec in E as [<- <-].
    rewrite !map_length. split; [reflexivity|]. intros b Hb. rewrite pitch_eq by (apply Hlen, nth_In, Hb). fold m. rewrite (proj1 (G _)). cbn [bind].
    set (st := fun x => g (stretched hop W H width (pitch_factor s) x)). rewrite map_map. change (fun x => g (stretched hop W H width (pitch_factor s) x)) with st.
    assert (Nb : nth b (map st l) [] = st (nth b l [])) by (rewrite (nth_indep _ [] (st [])) by (now rewrite map_length); apply map_nth). rewrite Nb. change (g (stretched hop W H width (pitch_factor s) (nth b l []))) with (st (nth b l [])).
    assert (Ls : forall x, length (st x) = Nat.min width ((to_int (INR width / pitch_factor s) / 1024 + 1) * m)).
    { intros x. unfold st. rewrite (proj2 (G _)). destruct (stretched_ok width W H hop HW2 H1 (pitch_factor s) x) as (_ & L2 & _). rewrite L2. reflexivity. }
    assert (Lh : length (hd [] (map st l)) = length (st (nth b l []))) by (unfold l at 1; cbn [map hd]; rewrite !Ls; reflexivity).
    rewrite Lh. set (n := length (st (nth b l []))). clearbody n. unfold mk_timedim. cbn [t_freq t_dur]. assert (0 < t_freq t)%Z by (apply (std_freq_pos r); assumption). destruct (Z.eqb_spec (t_freq t) 0); [lia|]. destruct (Z.eqb_spec (t_freq t) 0); [lia|]. reflexivity.
  Qed.
End Pitch.

(** other shifts lose the end of long signals: the windows become [int(1024 * factor)] samples
    long instead of [1024 * factor] *)
Theorem pitch_shortens_refuted t r sr W H hop s : In r standard_rates -> t_freq t = (10 ^ 12 / r)%Z -> t_dur t = t_freq t ->
  samples_in (t_freq t) (sr_dur sr) = Z.of_nat W -> samples_in (t_freq t) (sr_freq sr) = Z.of_nat H -> round_half_even (sr_freq sr) (t_freq t) = Z.of_nat hop ->
  (2 <= W)%nat -> (1 <= H)%nat -> (0 < sr_dur sr)%Z -> 1 <= 1024 * pitch_factor s -> (forall m, 1024 * pitch_factor s <> INR m) ->
  exists n0, forall x, (n0 <= length x)%nat -> exists ds row, pitch_shift1 t s (Some sr) x = Ok (ds, [row]) /\ (length row < length x)%nat.
Proof.
  intros Hr Ht Hd HW HH Hhop HW2 H1 Pd Hm Hn. pose proof (factor_pos s) as Pf. set (f := pitch_factor s) in *. set (m := to_int (1024 * f)).
  destruct (to_int_spec (1024 * f)) as [A B]; [lra|]. fold m in A, B. assert (A' : INR m < 1024 * f) by (destruct A as [A|A]; [exact A|exfalso; apply (Hn m); now rewrite A]).
  set (g := 1024 * f - INR m). assert (G : 0 < g) by (unfold g; lra). set (lim := 1024 * f * (INR m + 1) / g). assert (PL : 0 <= lim).
  { unfold lim. apply Rmult_le_pos; [|left; now apply Rinv_0_lt_compat]. pose proof (pos_INR m). nra. }
  exists (Nat.max W (to_int lim + 1)). intros x Hx. destruct (pitch_length t r sr (length x) W H hop Hr Ht Hd HW HH Hhop ltac:(lia) H1 Pd s x eq_refl Hm) as (ds & row & E & L).
  exists ds, row. split; [exact E|]. rewrite L. fold f m. set (w := length x) in *. set (k := to_int (INR w / f)).
  enough ((k / 1024 + 1) * m < w)%nat by lia. apply INR_lt. rewrite mult_INR, plus_INR. change (INR 1) with 1.
  assert (Pw : 0 <= INR w / f) by (apply Rmult_le_pos; [apply pos_INR|left; now apply Rinv_0_lt_compat]). destruct (to_int_spec _ Pw) as [C _]. fold k in C.
  assert (D : INR (k / 1024) * 1024 <= INR k).
  { rewrite <- inr_1024, <- mult_INR. apply le_INR. pose proof (Nat.div_mod k 1024 ltac:(discriminate)). lia. }
  assert (Q : INR (k / 1024) * 1024 * f <= INR w). { apply Rle_trans with (INR w / f * f); [apply Rmult_le_compat_r; lra|]. right. field. lra. }
  assert (LW : lim < INR w). { destruct (to_int_spec lim PL) as [_ U]. apply Rlt_le_trans with (INR (to_int lim) + 1); [exact U|]. rewrite <- S_INR. apply le_INR. lia. }
  assert (LW2 : 1024 * f * (INR m + 1) < INR w * g). { apply (Rmult_lt_compat_r g) in LW; [|exact G]. unfold lim in LW. replace (1024 * f * (INR m + 1) / g * g) with (1024 * f * (INR m + 1)) in LW by (field; lra). exact LW. }
  set (q := INR (k / 1024)) in *. set (M := INR m) in *. set (w' := INR w) in *. assert (PM : 0 <= M) by apply pos_INR. clearbody q M w'. clear - Q LW2 Pf PM Hm. unfold g in LW2.
  set (F := 1024 * f) in *. assert (Q' : q * F <= w') by (unfold F; lra). assert (PF : 0 < F) by (unfold F; lra). clearbody F. apply Rmult_lt_reg_l with F; [exact PF|]. nra.
Qed.
(** a semitone up: 966.5 samples are cut to 966 *)
Theorem semitone_fraction : 966 < 1024 * pitch_factor 1 < 967.
Proof.
  assert (F : pitch_factor 1 ^ 12 = / 2).
  { unfold pitch_factor. rewrite <- Rpower_pow by (unfold Rpower; apply exp_pos). rewrite Rpower_mult. replace (- (1) / 12 * INR 12) with (- (1)) by (cbn [INR]; field). rewrite Rpower_Ropp, Rpower_1 by lra. reflexivity. }
  pose proof (factor_pos 1) as P. set (f := pitch_factor 1) in *. clearbody f. split; apply Rnot_le_lt; intros C.
  - assert (f ^ 12 <= (966 / 1024) ^ 12) by (apply pow_incr; lra). lra.
  - assert ((967 / 1024) ^ 12 <= f ^ 12) by (apply pow_incr; lra). lra.
Qed.
Theorem semitone_shortens_refuted t r sr W H hop : In r standard_rates -> t_freq t = (10 ^ 12 / r)%Z -> t_dur t = t_freq t ->
  samples_in (t_freq t) (sr_dur sr) = Z.of_nat W -> samples_in (t_freq t) (sr_freq sr) = Z.of_nat H -> round_half_even (sr_freq sr) (t_freq t) = Z.of_nat hop ->
  (2 <= W)%nat -> (1 <= H)%nat -> (0 < sr_dur sr)%Z ->
  exists n0, forall x, (n0 <= length x)%nat -> exists ds row, pitch_shift1 t 1 (Some sr) x = Ok (ds, [row]) /\ (length row < length x)%nat.
Proof.
  intros. pose proof semitone_fraction as F. apply (pitch_shortens_refuted t r sr W H hop 1); try assumption; [lra|]. intros m E. rewrite E in F. destruct F as [A B].
  assert (E1 : INR 966 = 966) by (rewrite INR_IZR_INZ; reflexivity). assert (E2 : INR 967 = 967) by (rewrite INR_IZR_INZ; reflexivity). rewrite <- E1 in A. rewrite <- E2 in B. apply INR_lt in A. apply INR_lt in B. lia.
Qed.

(** ** a factor of 1 does not give the signal back *)
Lemma cos_ge x : 0 <= x <= 1 -> 1 - x * x / 2 <= cos x.
Proof.
  intros H. replace (cos x) with (1 - 2 * sin (x / 2) * sin (x / 2)) by (rewrite <- cos_2a_sin; f_equal; field).
  assert (S : 0 <= sin (x / 2) <= x / 2). { split; [apply sin_ge_0; [lra|pose proof PI2_1; lra]|]. destruct (Req_dec x 0) as [->|N]; [replace (0 / 2) with 0 by field; rewrite sin_0; lra|]. left. apply sin_lt_x. lra. }
  set (y := sin (x / 2)) in *. clearbody y. nra.
Qed.
Lemma cos_pi_minus' y : cos (PI - y) = - cos y.
Proof. rewrite cos_minus, cos_PI, sin_PI. ring. Qed.
Lemma hanning_peak q : (2 <= q)%nat -> 91 / 100 <= hanning (4 * q)%nat (2 * q - 1)%nat.
Proof.
  intros Hq. unfold hanning. destruct (Nat.leb_spec (4 * q) 1); [lia|]. set (n := INR (4 * q - 1)). assert (Hn : 7 <= n) by (unfold n; replace 7 with (INR 7) by (cbn; lra); apply le_INR; lia).
  replace (2 * PI * INR (2 * q - 1) / n) with (PI - PI / n).
  2: { assert (E : INR (2 * q - 1) = (n - 1) / 2). { unfold n. rewrite !minus_INR, !mult_INR by lia. cbn [INR]. field. } rewrite E. field. lra. }
  rewrite cos_pi_minus'. set (y := PI / n). pose proof PI_4. pose proof PI_RGT_0.
  assert (Py : 0 <= y <= 4 / 7). { unfold y. split; [apply Rmult_le_pos; [lra|left; apply Rinv_0_lt_compat; lra]|]. apply Rmult_le_reg_r with n; [lra|]. replace (PI / n * n) with PI by (field; lra). nra. }
  pose proof (cos_ge y ltac:(lra)). nra.
Qed.
Lemma hanning_side q : (1 <= q)%nat -> / 2 <= hanning (4 * q)%nat (3 * q - 1)%nat.
Proof.
  intros Hq. unfold hanning. destruct (Nat.leb_spec (4 * q) 1); [lia|]. set (n := INR (4 * q - 1)). assert (Hn : 3 <= n) by (unfold n; replace 3 with (INR 3) by (cbn; lra); apply le_INR; lia).
  assert (E : INR (3 * q - 1) = 3 * n / 4 - / 4). { unfold n. rewrite !minus_INR, !mult_INR by lia. cbn [INR]. field. } rewrite E.
  set (y := 2 * PI * (3 * n / 4 - / 4) / n). pose proof PI_RGT_0 as P.
  assert (Y : y = 3 * (PI / 2) - PI / 2 * / n) by (unfold y; field; lra). assert (N : 0 < / n <= / 3) by (split; [apply Rinv_0_lt_compat; lra|apply Rinv_le_contravar; lra]).
  assert (C : cos y < 0). { rewrite Y. set (u := / n) in *. clearbody u. apply cos_lt_0; nra. }
  lra.
Qed.
Lemma rsum_two n f : (2 <= n)%nat -> (forall i, (i < n)%nat -> 0 <= f i) -> f 0%nat + f 1%nat <= rsum n f.
Proof.
  intros Hn Hf. induction n as [|n IH]; [lia|]. cbn [rsum]. destruct (Nat.eq_dec n 1) as [->|N]; [cbn [rsum]; lra|]. specialize (IH ltac:(lia) ltac:(intros; apply Hf; lia)). pose proof (Hf n ltac:(lia)). lra.
Qed.
(** with frames that overlap by three quarters, as the default ones do, some sample of every
    signal comes out more than 7 percent louder *)
Theorem stretch_one_louder_refuted t r sr width H x row ds : In r standard_rates -> t_freq t = (10 ^ 12 / r)%Z -> t_dur t = t_freq t ->
  samples_in (t_freq t) (sr_dur sr) = Z.of_nat (4 * H) -> samples_in (t_freq t) (sr_freq sr) = Z.of_nat H -> round_half_even (sr_freq sr) (t_freq t) = Z.of_nat H ->
  (2 <= H)%nat -> (5 * H <= width)%nat -> (0 < sr_dur sr)%Z -> length x = width -> time_stretch1 t 1 (Some sr) x = Ok (ds, [row]) ->
  exists g, 107 / 100 < g /\ at_ row (3 * H - 1) = g * at_ x (3 * H - 1).
Proof.
  intros Hr Ht Hd HW HH Hhop H2 Hw Pd Lx E. set (p := (3 * H - 1)%nat).
  set (f := fun i : nat => if (Nat.leb (i * H) p && Nat.ltb p (i * H + 4 * H))%bool then hanning (4 * H)%nat (p - i * H)%nat * hanning (4 * H)%nat (p - i * H)%nat else 0).
  exists (rsum ((width - 4 * H) / H + 1) f). split.
  - assert (N : (2 <= (width - 4 * H) / H + 1)%nat). { assert (1 <= (width - 4 * H) / H)%nat by (apply Nat.div_le_lower_bound; lia). lia. }
    pose proof (rsum_two _ f N) as T. assert (P : forall i, (i < (width - 4 * H) / H + 1)%nat -> 0 <= f i) by (intros i _; unfold f; destruct (_ && _)%bool; [apply Rle_0_sqr|lra]). specialize (T P).
    pose proof (hanning_peak H H2) as A. pose proof (hanning_side H ltac:(lia)) as B.
    assert (F0 : f 0%nat = hanning (4 * H)%nat (3 * H - 1)%nat * hanning (4 * H)%nat (3 * H - 1)%nat).
    { unfold f, p. rewrite Nat.mul_0_l, Nat.sub_0_r, Nat.add_0_l. destruct (Nat.leb_spec 0 (3 * H - 1)); [|lia]. destruct (Nat.ltb_spec (3 * H - 1) (4 * H)); [reflexivity|lia]. }
    assert (F1 : f 1%nat = hanning (4 * H)%nat (2 * H - 1)%nat * hanning (4 * H)%nat (2 * H - 1)%nat).
    { unfold f, p. rewrite Nat.mul_1_l. destruct (Nat.leb_spec H (3 * H - 1)); [|lia]. destruct (Nat.ltb_spec (3 * H - 1) (H + 4 * H)); [|lia]. cbn [andb]. replace (3 * H - 1 - H)%nat with (2 * H - 1)%nat by lia. reflexivity. }
    rewrite F0, F1 in T. set (a := hanning (4 * H)%nat (3 * H - 1)%nat) in *. set (b := hanning (4 * H)%nat (2 * H - 1)%nat) in *. clearbody a b. clearbody f. nra.
  - rewrite (stretch_one_gain t r sr width (4 * H) H H Hr Ht Hd HW HH Hhop ltac:(lia) ltac:(lia) Pd (2 * H) x row ds ltac:(lia) eq_refl Lx E p ltac:(unfold p; lia)). rewrite Rmult_comm. reflexivity.
Qed.

(** ** the default frames *)
Theorem default_frames t factor width rows x :
  time_stretch2 DIdent (DTime t) factor None width rows = time_stretch2 DIdent (DTime t) factor (Some stretch_frames) width rows /\
  time_stretch1 t factor None x = time_stretch1 t factor (Some stretch_frames) x.
Proof. split; reflexivity. Qed.
(** frames are read and put back at the same distance, and are of an even number of samples *)
Theorem default_hop r : In r standard_rates -> r <> 48000%Z -> r <> 96000%Z -> let f := (10 ^ 12 / r)%Z in
  exists H, (0 < H)%Z /\ samples_in f (sr_freq stretch_frames) = H /\ round_half_even (sr_freq stretch_frames) f = H /\ samples_in f (sr_dur stretch_frames) = (4 * H)%Z.
Proof.
  intros Hr N1 N2. cbv zeta. repeat (destruct Hr as [<-|Hr]; [first [congruence|eexists; split; [|split; [vm_compute; reflexivity|split; vm_compute; reflexivity]]; vm_compute; reflexivity]|]). destruct Hr.
Qed.
(** at 48000 samples per second the frames are read 558 samples apart and put back 557 apart:
    what is to stay as it is runs together *)
Theorem default_hop_48000_refuted t x row ds : t_freq t = (10 ^ 12 / 48000)%Z -> t_dur t = t_freq t -> (2230 <= length x)%nat ->
  time_stretch1 t 1 None x = Ok (ds, [row]) -> forall p, (p < length x)%nat ->
  at_ row p = rsum ((length x - 2230) / 558 + 1) (fun i =>
    if (Nat.leb (i * 557) p && Nat.ltb p (i * 557 + 2230))%bool
    then at_ x (p + i) * (hanning 2230%nat (p - i * 557)%nat * hanning 2230%nat (p - i * 557)%nat) else 0).
Proof.
  intros Ht Hd Hw E p Hp. rewrite (proj2 (default_frames t 1 0 [] x)) in E. assert (Hr : In 48000%Z standard_rates) by (right; left; reflexivity).
  assert (HW : samples_in (t_freq t) (sr_dur stretch_frames) = Z.of_nat 2230) by (rewrite Ht; vm_compute; reflexivity).
  assert (HH : samples_in (t_freq t) (sr_freq stretch_frames) = Z.of_nat 558) by (rewrite Ht; vm_compute; reflexivity).
  assert (Hhop : round_half_even (sr_freq stretch_frames) (t_freq t) = Z.of_nat 557) by (rewrite Ht; vm_compute; reflexivity).
  assert (Pd : (0 < sr_dur stretch_frames)%Z) by (vm_compute; reflexivity).
  assert (W2 : (2 <= 2230 <= length x)%nat) by (split; [apply Nat.leb_le; reflexivity|exact Hw]).
  assert (H1 : (1 <= 558)%nat) by (apply Nat.leb_le; reflexivity). assert (Wh : 2230%nat = (2 * 1115)%nat) by reflexivity.
  destruct (stretch_one t 48000 stretch_frames (length x) 2230 558 557 Hr Ht Hd HW HH Hhop W2 H1 Pd 1115 x row ds Wh eq_refl E) as [_ A]. rewrite (A p Hp). apply rsum_ext. intros i _.
  destruct (Nat.leb_spec (i * 557) p); cbn [andb]; [|reflexivity]. destruct (Nat.ltb p (i * 557 + 2230)); [|reflexivity]. replace (i * 558 + (p - i * 557))%nat with (p + i)%nat by lia. reflexivity.
Qed.

(** ** examples *)
Example stretch_example : exists ds row, time_stretch1 at_11025 2 (Some frames_4_2) [1; 2; 3; 4; 5; 6; 7; 8; 9] = Ok (ds, [row]) /\ length row = 4%nat.
Proof.
  assert (Hr : In 11025%Z standard_rates) by (do 5 right; left; reflexivity).
  assert (Ht : t_freq at_11025 = (10 ^ 12 / 11025)%Z) by reflexivity. assert (Hd : t_dur at_11025 = t_freq at_11025) by reflexivity.
  assert (HW : samples_in (t_freq at_11025) (sr_dur frames_4_2) = Z.of_nat 4) by (vm_compute; reflexivity).
  assert (HH : samples_in (t_freq at_11025) (sr_freq frames_4_2) = Z.of_nat 2) by (vm_compute; reflexivity).
  assert (Hhop : round_half_even (sr_freq frames_4_2) (t_freq at_11025) = Z.of_nat 2) by (vm_compute; reflexivity).
  assert (Pd : (0 < sr_dur frames_4_2)%Z) by (vm_compute; reflexivity).
  unfold time_stretch1. cbn [length Nat.eqb].
  rewrite (stretched_result at_11025 11025 frames_4_2 9 4 2 2 Hr Ht Hd HW HH Hhop ltac:(lia) ltac:(lia) Pd) by (try lra; discriminate). cbn [map].
  eexists. eexists. split; [reflexivity|]. destruct (stretched_ok 9 4 2 2 ltac:(lia) ltac:(lia) 2 [1; 2; 3; 4; 5; 6; 7; 8; 9]) as (_ & L & _). rewrite L. apply to_int_unique. cbn [INR]. lra.
Qed.
Example pitch_example : exists ds row, pitch_shift1 at_11025 12 (Some frames_4_2) [1; 2; 3; 4; 5; 6; 7; 8; 9] = Ok (ds, [row]) /\ length row = 9%nat.
Proof.
  assert (Hr : In 11025%Z standard_rates) by (do 5 right; left; reflexivity).
  assert (Ht : t_freq at_11025 = (10 ^ 12 / 11025)%Z) by reflexivity. assert (Hd : t_dur at_11025 = t_freq at_11025) by reflexivity.
  assert (HW : samples_in (t_freq at_11025) (sr_dur frames_4_2) = Z.of_nat 4) by (vm_compute; reflexivity).
  assert (HH : samples_in (t_freq at_11025) (sr_freq frames_4_2) = Z.of_nat 2) by (vm_compute; reflexivity).
  assert (Hhop : round_half_even (sr_freq frames_4_2) (t_freq at_11025) = Z.of_nat 2) by (vm_compute; reflexivity).
  assert (Pd : (0 < sr_dur frames_4_2)%Z) by (vm_compute; reflexivity).
  assert (F : 1024 * pitch_factor 12 = INR 512).
  { unfold pitch_factor. replace (- (12) / 12) with (- (1)) by field. rewrite Rpower_Ropp, Rpower_1 by lra. rewrite INR_IZR_INZ. change (IZR (Z.of_nat 512)) with 512. field. }
  apply (pitch_octaves at_11025 11025 frames_4_2 9 4 2 2 Hr Ht Hd HW HH Hhop ltac:(lia) ltac:(lia) Pd 12 _ 512); [reflexivity|apply Nat.ltb_lt; reflexivity|exact F].
Qed.
