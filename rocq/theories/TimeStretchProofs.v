(** time_stretch and pitch_shift (C77). *)
From Verif Require Import PyBase PyFacts PyMore Time TimeProofs Freq FreqProofs FreqScaleProofs FreqDim FreqDimProofs Axis Windowed WindowedProofs NdWindow NdWindowProofs Spectral SpectralProofs TransformProofs ReconProofs OverlapProofs Resample ResampleProofs SquareProofs PhaseShiftProofs Stft StftProofs TimeStretch.
From Coq Require Import Reals Lra Psatz.
Local Open Scope R_scope.

(** ** numbers *)
Lemma to_int_nat n : to_int (INR n) = n.
Proof. unfold to_int. rewrite Int_part_INR. apply Nat2Z.id. Qed.
(** [int] is the largest integer below *)
Lemma to_int_spec x : 0 <= x -> INR (to_int x) <= x < INR (to_int x) + 1.
Proof.
  intros H. unfold to_int. destruct (base_Int_part x) as [A B]. assert (0 <= Int_part x)%Z by (apply Z.lt_succ_r; apply lt_IZR; rewrite succ_IZR; lra).
  rewrite INR_IZR_INZ, Z2Nat.id by assumption. lra.
Qed.
Lemma to_int_unique x n : INR n <= x < INR n + 1 -> to_int x = n.
Proof.
  intros H. assert (0 <= x) by (pose proof (pos_INR n); lra). destruct (to_int_spec x H0) as [A B]. assert (INR (to_int x) < INR (S n)) by (rewrite S_INR; lra). assert (INR n < INR (S (to_int x))) by (rewrite S_INR; lra).
  apply INR_lt in H1, H2. lia.
Qed.
Lemma arange_one n : arange_count n 1 = n.
Proof.
  unfold arange_count. replace (- (INR n / 1)) with (IZR (- Z.of_nat n)) by (rewrite opp_IZR, <- INR_IZR_INZ; field).
  assert (E : Int_part (IZR (- Z.of_nat n)) = (- Z.of_nat n)%Z).
  { unfold Int_part. rewrite <- (up_tech (IZR (- Z.of_nat n)) (- Z.of_nat n)); [lia|lra|apply IZR_lt; lia]. }
  rewrite E. lia.
Qed.
(** the steps: as many as fit below [n] *)
Lemma arange_spec n step i : 0 < step -> (i < arange_count n step)%nat <-> INR i * step < INR n.
Proof.
  intros Hs. unfold arange_count. set (x := INR n / step). destruct (base_Int_part (- x)) as [A B]. set (z := Int_part (- x)) in *.
  assert (Px : 0 <= x) by (unfold x; apply Rmult_le_pos; [apply pos_INR|left; now apply Rinv_0_lt_compat]).
  assert (Zn : (0 <= - z)%Z) by (apply Z.opp_nonneg_nonpos; apply le_IZR; lra).
  assert (E : INR i * step < INR n <-> INR i < x).
  { unfold x. split; intros H.
    - apply Rmult_lt_reg_r with step; [exact Hs|]. replace (INR n / step * step) with (INR n) by (field; lra). exact H.
    - apply Rmult_lt_compat_r with (r := step) in H; [|exact Hs]. replace (INR n / step * step) with (INR n) in H by (field; lra). exact H. }
  rewrite E. split; intros H.
  - assert (Z.of_nat i < - z)%Z as Hz by lia. assert (Z.of_nat i <= - z - 1)%Z as Hz2 by lia. apply IZR_le in Hz2. rewrite minus_IZR, opp_IZR, <- INR_IZR_INZ in Hz2. lra.
  - apply Nat2Z.inj_lt. rewrite Z2Nat.id by exact Zn. apply lt_IZR. rewrite <- INR_IZR_INZ, opp_IZR. lra.
Qed.
Lemma polar c : magnitude c * cos (angle c) = fst c /\ magnitude c * sin (angle c) = snd c.
Proof.
  destruct c as [x y]. unfold magnitude, angle. cbn [fst snd].
  assert (At : forall u, x <> 0 -> u = Rabs x -> sqrt (x * x + y * y) * (1 / sqrt (1 + Rsqr (y / x))) = u).
  { intros u Hx ->. assert (S1 : 0 < 1 + Rsqr (y / x)) by (pose proof (Rle_0_sqr (y / x)); lra).
    replace (x * x + y * y) with (Rsqr (Rabs x) * (1 + Rsqr (y / x))) by (rewrite <- Rsqr_abs; unfold Rsqr; field; exact Hx).
    rewrite sqrt_mult by (try apply Rle_0_sqr; lra). rewrite sqrt_Rsqr by apply Rabs_pos. field. apply Rgt_not_eq. apply sqrt_lt_R0. exact S1. }
  assert (Cs : x <> 0 -> sqrt (x * x + y * y) * cos (atan (y / x)) = Rabs x) by (intros Hx; rewrite cos_atan; now apply At).
  assert (Sn : x <> 0 -> sqrt (x * x + y * y) * sin (atan (y / x)) = Rabs x * (y / x)).
  { intros Hx. rewrite sin_atan. replace (y / x / sqrt (1 + Rsqr (y / x))) with (1 / sqrt (1 + Rsqr (y / x)) * (y / x)); [rewrite <- Rmult_assoc; f_equal; now apply At|].
    field. split; [exact Hx|apply Rgt_not_eq, sqrt_lt_R0; pose proof (Rle_0_sqr (y / x)); lra]. }
  destruct (Rlt_dec 0 x) as [X|X].
  - rewrite Cs, Sn by lra. rewrite Rabs_pos_eq by lra. split; [reflexivity|field; lra].
  - destruct (Rlt_dec x 0) as [X'|X'].
    + assert (C : Rabs x = - x) by (apply Rabs_left; exact X'). destruct (Rle_dec 0 y).
      * assert (X0 : x <> 0) by lra. rewrite neg_cos, neg_sin, !Ropp_mult_distr_r_reverse. rewrite (Cs X0), (Sn X0), C. split; [ring|field; exact X0].
      * replace (atan (y / x) - PI) with (atan (y / x) + PI + 2 * IZR (-1) * PI) by ring. rewrite cos_period_Z, sin_period_Z, neg_cos, neg_sin.
        assert (X0 : x <> 0) by lra. rewrite !Ropp_mult_distr_r_reverse. rewrite (Cs X0), (Sn X0), C. split; [ring|field; exact X0].
    + assert (x = 0) by lra. subst x. replace (0 * 0 + y * y) with (Rsqr y) by (unfold Rsqr; ring). rewrite sqrt_Rsqr_abs. destruct (Rlt_dec 0 y).
      * rewrite cos_PI2, sin_PI2, Rabs_pos_eq by lra. split; ring.
      * destruct (Rlt_dec y 0).
        -- rewrite cos_neg, sin_neg, cos_PI2, sin_PI2, Rabs_left by lra. split; ring.
        -- assert (y = 0) by lra. subst y. rewrite Rabs_R0, cos_0, sin_0. split; ring.
Qed.
Lemma angle_scale c z : 0 < c -> angle (cscale c z) = angle z.
Proof.
  intros Hc. destruct z as [x y]. unfold angle, cscale. cbn [fst snd].
  destruct (Rlt_dec 0 x) as [A|A], (Rlt_dec 0 (c * x)) as [B|B]; try nra.
  - f_equal. field. lra.
  - destruct (Rlt_dec x 0) as [A2|A2], (Rlt_dec (c * x) 0) as [B2|B2]; try nra.
    + destruct (Rle_dec 0 y), (Rle_dec 0 (c * y)); try nra; f_equal; f_equal; field; lra.
    + destruct (Rlt_dec 0 y), (Rlt_dec 0 (c * y)); try nra. destruct (Rlt_dec y 0), (Rlt_dec (c * y) 0); try nra.
Qed.
Lemma magnitude_scale c z : 0 <= c -> magnitude (cscale c z) = c * magnitude z.
Proof.
  intros Hc. destruct z as [x y]. unfold magnitude, cscale. cbn [fst snd]. replace (c * x * (c * x) + c * y * (c * y)) with (Rsqr c * (x * x + y * y)) by (unfold Rsqr; ring).
  rewrite sqrt_mult by (try apply Rle_0_sqr; nra). now rewrite sqrt_Rsqr.
Qed.

(** ** overlap-add, cut at the end of the output *)
Lemma add_slice_cut arr start n f : length f = n -> (0 < n)%nat ->
  exists arr', add_slice arr (Z.of_nat start) (Z.of_nat start + Z.of_nat n) f = Ok arr' /\ length arr' = length arr
    /\ forall j, (j < length arr)%nat -> at_ arr' j = at_ arr j + contribution f start j.
Proof.
  intros Ef Hn. destruct (Nat.le_gt_cases (start + n) (length arr)) as [K|K].
  { destruct (add_slice_spec arr start n f Ef Hn K) as (a & E & L & A). exists a. split; [exact E|]. split; [exact L|]. intros j _. apply A. }
  unfold add_slice. set (l := (length arr - start)%nat).
  assert (Es : py_slice (Some (Z.of_nat start)) (Some (Z.of_nat start + Z.of_nat n)%Z) arr = skipn start arr).
  { unfold py_slice, norm_index, Zlen. destruct (Z.ltb_spec (Z.of_nat start) 0); [lia|]. destruct (Z.ltb_spec (Z.of_nat start + Z.of_nat n) 0); [lia|].
    destruct (Nat.le_gt_cases (length arr) start) as [Q|Q].
    - rewrite (skipn_all2 arr (n := start)) by lia. rewrite (skipn_all2 arr) by lia. apply firstn_nil.
    - replace (Z.to_nat (Z.max 0 (Z.min (Z.of_nat (length arr)) (Z.of_nat start)))) with start by lia.
      apply firstn_all2. rewrite skipn_length. lia. }
  rewrite Es. assert (Ls : length (skipn start arr) = l) by apply skipn_length. rewrite Ls.
  assert (Lf : length (firstn l f) = l) by (rewrite firstn_length; unfold l; lia).
  assert (Erep : (if Nat.eqb (length (firstn l f)) 1 then repeat (at_ (firstn l f) 0) l else firstn l f) = firstn l f).
  { destruct (Nat.eqb_spec (length (firstn l f)) 1) as [E1|_]; [|reflexivity]. rewrite Lf in E1. rewrite E1 in *. destruct (firstn 1 f) as [|a [|b g]]; try discriminate. reflexivity. }
  rewrite Erep, Lf, Nat.eqb_refl.
  set (b := Z.to_nat (norm_index (Zlen arr) (Z.of_nat start))).
  assert (Eb : b = Nat.min start (length arr)) by (unfold b, norm_index, Zlen; destruct (Z.ltb_spec (Z.of_nat start) 0); lia).
  eexists. split; [reflexivity|]. split.
  - rewrite !app_length, map_length, combine_length, firstn_length, Ls, Lf, !skipn_length. unfold l. lia.
  - intros j Hj. rewrite at_app, firstn_length. replace (Nat.min b (length arr)) with b by lia. unfold contribution. destruct (Nat.ltb_spec j b) as [Q|Q].
    + rewrite at_firstn. destruct (Nat.ltb_spec j b); [|lia]. destruct (Nat.leb_spec start j); [lia|]. ring.
    + destruct (Nat.leb_spec start j); [|lia]. rewrite at_app, map_length, combine_length, Ls, Lf, Nat.min_id. destruct (Nat.ltb_spec (j - b) l) as [Q2|Q2]; [|unfold l in Q2; lia].
      rewrite at_combine_add by (rewrite Ls, Lf; reflexivity). rewrite at_skipn, at_firstn. destruct (Nat.ltb_spec (j - b) l); [|lia]. replace b with start by lia. f_equal. f_equal. lia.
Qed.
Lemma overlap_cut frames : forall arr hop n i0, (0 < n)%nat -> Forall (fun f => length f = n) frames ->
  exists out, overlap_from arr (Z.of_nat hop) (Z.of_nat n) (Z.of_nat i0) frames = Ok out /\ length out = length arr
    /\ forall j, (j < length arr)%nat -> at_ out j = at_ arr j + total frames hop i0 j.
Proof.
  induction frames as [|f r IH]; intros arr hop n i0 Hn HF.
  - exists arr. split; [reflexivity|]. split; [reflexivity|]. intros j _. unfold total. cbn. ring.
  - inversion HF as [|? ? Hf HF']; subst. cbn [overlap_from].
    destruct (add_slice_cut arr (i0 * hop) (length f) f eq_refl Hn) as (a1 & E1 & L1 & A1).
    rewrite Nat2Z.inj_mul in E1. rewrite E1. cbn [bind].
    replace (Z.of_nat i0 + 1)%Z with (Z.of_nat (S i0)) by lia.
    destruct (IH a1 hop (length f) (S i0) Hn HF') as (out & E2 & L2 & A2).
    exists out. split; [exact E2|]. split; [congruence|]. intros j Hj. rewrite A2, A1 by lia. unfold total. cbn [length].
    rewrite (rsum_first (S (length r))) by lia. replace (S (length r) - 1)%nat with (length r) by lia. rewrite Nat.add_0_r. cbn [nth].
    rewrite (rsum_ext (length r) _ (fun i => contribution (nth (S i) (f :: r) []) ((i0 + S i) * hop) j)) by (intros; cbn [nth]; f_equal; lia).
    cbn [nth]. ring.
Qed.

(** ** the frames *)
Definition irfft_row (c : list cplx) : list R := match irfft_ortho c with Ok l => l | Raise _ => [] end.
Lemma irfft_total c : (2 <= length c)%nat -> irfft_ortho c = Ok (irfft_row c) /\ length (irfft_row c) = (2 * (length c - 1))%nat.
Proof.
  intros H. unfold irfft_row, irfft_ortho. destruct (Nat.eqb_spec (2 * (length c - 1)) 0); [lia|]. split; [reflexivity|]. now rewrite map_length, seq_length.
Qed.
Lemma new_coeffs_length D m hop factor i : length (new_coeffs D m hop factor i) = m.
Proof. unfold new_coeffs. now rewrite map_length, seq_length. Qed.
(** output frame i: the inverse transform of the new coefficients, windowed *)
Definition out_frame D m hop factor i : list R := windowing hanning (irfft_row (new_coeffs D m hop factor i)).
Lemma stretch_row_ok hop m width factor D : (2 <= m)%nat ->
  exists out, stretch_row hop m width factor D = Ok out /\ length out = to_int (INR width / factor) /\
    forall j, (j < length out)%nat -> at_ out j = rsum (arange_count (length D) factor) (fun i => contribution (out_frame D m hop factor i) (i * hop) j).
Proof.
  intros Hm. unfold stretch_row. rewrite mapM_map. rewrite (mapM_ok _ (fun i => irfft_row (new_coeffs D m hop factor i))).
  2: { intros i _. apply irfft_total. now rewrite new_coeffs_length. }
  cbn [bind]. rewrite map_map. set (N := arange_count (length D) factor). set (frames := map (fun i => windowing hanning (irfft_row (new_coeffs D m hop factor i))) (seq 0 N)).
  destruct (overlap_cut frames (repeat 0 (to_int (INR width / factor))) hop (2 * (m - 1)) 0) as (out & E & L & A); [lia| |].
  { apply Forall_forall. intros f Hf. apply in_map_iff in Hf as (i & <- & _). rewrite windowing_length. assert (Li : (2 <= length (new_coeffs D m hop factor i))%nat) by (now rewrite new_coeffs_length). rewrite (proj2 (irfft_total _ Li)). now rewrite new_coeffs_length. }
  change 0%Z with (Z.of_nat 0). exists out. split; [exact E|]. rewrite repeat_length in *. split; [exact L|]. intros j Hj. rewrite A by lia. unfold at_ at 1. rewrite nth_repeat, Rplus_0_l.
  unfold total. assert (Lf : length frames = N) by (unfold frames; now rewrite map_length, seq_length). rewrite Lf. apply rsum_ext. intros i Hi. cbn [Nat.add]. unfold frames. now rewrite nth_map_seq.
Qed.

(** the frames that the short-time transform of one row has *)
Definition row_frames (W H width : nat) (x : list R) : list (list cplx) :=
  map (fun i => rfft_ortho 0 (windowing hanning (firstn W (skipn (i * H) x)))) (seq 0 ((width - W) / H + 1)).
Lemma stft2_rows t r sr width rows W H : In r standard_rates -> t_freq t = (10 ^ 12 / r)%Z -> t_dur t = t_freq t ->
  samples_in (t_freq t) (sr_dur sr) = Z.of_nat W -> samples_in (t_freq t) (sr_freq sr) = Z.of_nat H -> (1 <= W <= width)%nat -> (1 <= H)%nat -> (0 < sr_dur sr)%Z -> rows <> [] ->
  exists ds, stft2 DIdent (DTime t) sr (Some hanning) width rows = Ok (ds, map (row_frames W H width) rows).
Proof.
  intros Hr Ht Hd HW HH [W1 W2] H1 Pd Hne. set (n := ((width - W) / H + 1)%nat). assert (Pf := std_freq_pos r _ Hr Ht). unfold stft2. rewrite !span_ok by assumption. rewrite HW, HH. cbn [bind].
  assert (Eg : (Nat.eqb (length rows) 0 || (Z.of_nat width <? Z.of_nat W)%Z || (Z.of_nat W <? 1)%Z)%bool = false).
  { destruct (Nat.eqb_spec (length rows) 0) as [E0|_]; [destruct rows; [contradiction|discriminate]|]. destruct (Z.ltb_spec (Z.of_nat width) (Z.of_nat W)); [lia|]. destruct (Z.ltb_spec (Z.of_nat W) 1); [lia|reflexivity]. }
  rewrite Eg. unfold batch_windows. rewrite !Nat2Z.id. fold n.
  set (fr := fun r : list R => map (fun i => firstn W (skipn (i * H) r)) (seq 0 n)).
  rewrite (rows_of_flat_map n fr rows) by (intros y _; unfold fr; now rewrite map_length, seq_length).
  unfold fft_batch. cbn [Nat.ltb Nat.leb]. destruct (Nat.eqb_spec W 0); [lia|]. unfold fft_dim. rewrite (scale_std t _ r Hr Ht). cbn [bind fit_dims fit_dim]. unfold fdim_validate. cbn [scale_len]. rewrite Nat.eqb_refl. cbn [bind].
  eexists. f_equal. f_equal. rewrite !map_map. apply map_ext. intros x. unfold fr, row_frames. fold n. now rewrite !map_map.
Qed.

Section Stretch.
  Context (t : timedim) (r : Z) (sr : samplerate) (width W H hop : nat).
  (** samples at a standard rate, frames of [W] samples taken [H] apart and put back [hop]
      apart *)
  Context (Hr : In r standard_rates) (Ht : t_freq t = (10 ^ 12 / r)%Z) (Hd : t_dur t = t_freq t)
    (HW : samples_in (t_freq t) (sr_dur sr) = Z.of_nat W) (HH : samples_in (t_freq t) (sr_freq sr) = Z.of_nat H)
    (Hhop : round_half_even (sr_freq sr) (t_freq t) = Z.of_nat hop)
    (HW2 : (2 <= W <= width)%nat) (H1 : (1 <= H)%nat) (Pd : (0 < sr_dur sr)%Z).

  Lemma time_stretch2_eq factor rows : 0 < factor -> rows <> [] ->
    time_stretch2 DIdent (DTime t) factor (Some sr) width rows =
    (do out <- mapM (fun x => stretch_row hop (W / 2 + 1) width factor (row_frames W H width x)) rows;
     Ok ([DIdent; DTime (mk_timedim (t_freq t) (Some (t_freq t)) (Some (Z.of_nat (to_int (INR width / factor)))))], out)).
  Proof.
    intros Hf Hne. unfold time_stretch2. cbn [discrete_samples]. unfold discrete_samples. rewrite Hhop, Nat2Z.id.
    destruct (stft2_rows t r sr width rows W H Hr Ht Hd HW HH ltac:(lia) H1 Pd Hne) as [ds E]. rewrite E. cbn [bind snd].
    destruct (Req_EM_T factor 0); [lra|]. destruct (Rlt_dec factor 0); [lra|]. rewrite span_ok by (try assumption; apply (std_freq_pos r); assumption). rewrite HW. cbn [bind]. rewrite Nat2Z.id.
    rewrite mapM_map. cbn [fit_dims fit_dim bind]. rewrite Hd. reflexivity.
  Qed.
  Lemma half_ge : (2 <= W / 2 + 1)%nat.
  Proof. assert (1 <= W / 2)%nat by (apply Nat.div_le_lower_bound; lia). lia. Qed.

  (** the number of rows is kept, and every row gets [int(width / factor)] samples *)
  Theorem stretch_shape factor rows : 0 < factor -> rows <> [] ->
    exists n out, time_stretch2 DIdent (DTime t) factor (Some sr) width rows = Ok ([DIdent; DTime (mk_timedim (t_freq t) (Some (t_freq t)) (Some (Z.of_nat n)))], out) /\
      length out = length rows /\ (forall row, In row out -> length row = n) /\ INR n * factor <= INR width < (INR n + 1) * factor.
  Proof.
    intros Hf Hne. rewrite time_stretch2_eq by assumption.
    set (g := fun x => match stretch_row hop (W / 2 + 1) width factor (row_frames W H width x) with Ok o => o | Raise _ => [] end).
    assert (G : forall x, stretch_row hop (W / 2 + 1) width factor (row_frames W H width x) = Ok (g x) /\ length (g x) = to_int (INR width / factor)).
    { intros x. destruct (stretch_row_ok hop (W / 2 + 1) width factor (row_frames W H width x) half_ge) as (o & E & L & _). unfold g. rewrite E. split; [reflexivity|exact L]. }
    rewrite (mapM_ok _ g) by (intros x _; apply G). cbn [bind]. exists (to_int (INR width / factor)), (map g rows). split; [reflexivity|]. split; [apply map_length|]. split.
    - intros row Hin. apply in_map_iff in Hin as (x & <- & _). apply G.
    - assert (P : 0 <= INR width / factor) by (apply Rmult_le_pos; [apply pos_INR|left; now apply Rinv_0_lt_compat]). destruct (to_int_spec _ P) as [A B].
      set (n := INR (to_int (INR width / factor))) in *. split.
      + apply Rmult_le_compat_r with (r := factor) in A; [|lra]. replace (INR width / factor * factor) with (INR width) in A by (field; lra). exact A.
      + apply Rmult_lt_compat_r with (r := factor) in B; [|lra]. replace (INR width / factor * factor) with (INR width) in B by (field; lra). exact B.
  Qed.

  (** every item of a batch is stretched as if it were alone *)
  Theorem stretch_batch factor rows ds out : 0 < factor -> (forall x, In x rows -> length x = width) ->
    time_stretch2 DIdent (DTime t) factor (Some sr) width rows = Ok (ds, out) ->
    forall b, (b < length rows)%nat -> time_stretch1 t factor (Some sr) (nth b rows []) = Ok (ds, [nth b out []]).
  Proof.
    intros Hf Hlen E b Hb. assert (Hne : rows <> []) by (intros ->; cbn in Hb; lia). rewrite time_stretch2_eq in E by assumption.
    destruct (mapM _ rows) as [o|] eqn:Em; [|discriminate]. cbn [bind] in E. injection E as <- <-.
    assert (Lb : length (nth b rows []) = width) by (apply Hlen, nth_In, Hb). unfold time_stretch1. rewrite Lb. destruct (Nat.eqb_spec width 1); [lia|].
    rewrite time_stretch2_eq by (try assumption; discriminate). cbn [mapM]. apply mapM_inv in Em.
    assert (Q : stretch_row hop (W / 2 + 1) width factor (row_frames W H width (nth b rows [])) = Ok (nth b o [])).
    { clear -Em Hb. revert b Hb. induction Em as [|x y l l' Hxy _ IH]; intros b Hb; [cbn in Hb; lia|]. destruct b as [|b]; [exact Hxy|]. cbn [nth]. apply IH. cbn in Hb. lia. }
    rewrite Q. reflexivity.
  Qed.

  (** the first sample is silent whatever the signal and the factor *)
  Theorem stretch_first_zero_refuted factor rows ds out row : 0 < factor -> (1 <= hop)%nat -> (2 <= W)%nat ->
    time_stretch2 DIdent (DTime t) factor (Some sr) width rows = Ok (ds, out) -> In row out -> at_ row 0 = 0.
  Proof.
    intros Hf Hh _ E Hin. destruct rows as [|x0 rows]. { unfold time_stretch2, discrete_samples in E. rewrite (stft2_refuses t sr hanning DIdent width [] W Hd) in E; [discriminate|apply (std_freq_pos r); assumption|exact HW|now right; right]. }
    rewrite time_stretch2_eq in E by (try assumption; discriminate).
    destruct (mapM _ _) as [o|] eqn:Em; [|discriminate]. cbn [bind] in E. injection E as <- <-. apply mapM_inv in Em.
    assert (Q : exists x, stretch_row hop (W / 2 + 1) width factor (row_frames W H width x) = Ok row).
    { clear -Em Hin. induction Em as [|x y l l' Hxy _ IH]; [destruct Hin|]. destruct Hin as [<-|Hin]; [exists x; exact Hxy|exact (IH Hin)]. }
    destruct Q as [x Q]. destruct (stretch_row_ok hop (W / 2 + 1) width factor (row_frames W H width x) half_ge) as (o' & E' & L & A). rewrite Q in E'. injection E' as <-.
    destruct (Nat.eq_dec (length row) 0) as [Z0|Z0]; [apply at_out; lia|]. rewrite A by lia. apply rsum_zero. intros i Hi. unfold contribution.
    destruct (Nat.leb_spec (i * hop) 0) as [K|K]; [|reflexivity]. assert (i = 0)%nat by nia. subst i. cbn [Nat.mul Nat.sub]. unfold out_frame.
    assert (Lf : length (irfft_row (new_coeffs (row_frames W H width x) (W / 2 + 1) hop factor 0)) = (2 * (W / 2 + 1 - 1))%nat) by (assert (Li : (2 <= length (new_coeffs (row_frames W H width x) (W / 2 + 1) hop factor 0))%nat) by (rewrite new_coeffs_length; apply half_ge); rewrite (proj2 (irfft_total _ Li)); now rewrite new_coeffs_length).
    pose proof half_ge as Hg. rewrite windowing_at by lia. unfold hanning. destruct (Nat.leb_spec (length (irfft_row (new_coeffs (row_frames W H width x) (W / 2 + 1) hop factor 0))) 1); [lia|].
    cbn [INR]. rewrite Rmult_0_r. unfold Rdiv. rewrite Rmult_0_l, cos_0. ring.
  Qed.
End Stretch.
