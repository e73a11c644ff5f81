(** A tone keeps its pitch when it is stretched (C77): signals that repeat from frame to frame. *)
From Verif Require Import PyBase PyFacts PyMore Time Freq FreqDim Axis Windowed NdWindow Spectral OverlapProofs TransformProofs ReconProofs LossProofs2 Resample ResampleProofs PhaseShiftProofs Stft StftProofs TimeStretch TimeStretchProofs TimeStretchProofs2 TimeStretchProofs3.
From Coq Require Import Reals Lra Lia.
Local Open Scope R_scope.

(** the signal repeats itself after [H] samples *)
Definition repeats (H : nat) (x : list R) : Prop := forall j, (j + H < length x)%nat -> at_ x (j + H) = at_ x j.
Lemma repeats_mul H x i : repeats H x -> forall j, (j + i * H < length x)%nat -> at_ x (j + i * H) = at_ x j.
Proof.
  intros P. induction i as [|i IH]; intros j Hj; [now rewrite Nat.mul_0_l, Nat.add_0_r|].
  cbn [Nat.mul] in Hj. replace (j + S i * H)%nat with ((j + i * H) + H)%nat by lia. rewrite P by lia. apply IH. lia.
Qed.
Lemma repeats_mod H x j : repeats H x -> (1 <= H)%nat -> (j < length x)%nat -> at_ x (j mod H) = at_ x j.
Proof.
  intros P H1 Hj. pose proof (Nat.div_mod j H ltac:(lia)) as D. rewrite D at 2. rewrite Nat.add_comm, (Nat.mul_comm H). symmetry. apply repeats_mul; [exact P|]. rewrite Nat.mul_comm. lia.
Qed.
Lemma repeats_frame H x W i : repeats H x -> (i * H + W <= length x)%nat -> firstn W (skipn (i * H) x) = firstn W x.
Proof.
  intros P L. apply list_ext_at; [rewrite !firstn_length, skipn_length; lia|]. intros j Hj. rewrite firstn_length, skipn_length in Hj.
  rewrite !at_firstn. destruct (Nat.ltb_spec j W); [|reflexivity]. rewrite at_skipn, (Nat.add_comm (i * H)). apply repeats_mul; [exact P|lia].
Qed.
Lemma rsum_upto n m (f : nat -> R) : (m <= n)%nat -> (forall i, (m <= i < n)%nat -> f i = 0) -> rsum n f = rsum m f.
Proof.
  intros L Z. replace n with (m + (n - m))%nat by lia. rewrite rsum_app. rewrite (rsum_zero (n - m)); [ring|]. intros i Hi. apply Z. lia.
Qed.

(** frames that are all alike come back as they were, whatever the factor *)
Lemma new_coeffs_alike D m hop factor i c : length c = m -> 0 < factor ->
  (forall p, (p < length D)%nat -> nth p D [] = c) -> (1 <= length D)%nat -> INR i * factor <= INR (length D - 1) ->
  new_coeffs D m hop factor i = c.
Proof.
  intros Lc Hf A L1 Hi. apply nth_ext with (d := cz) (d' := cz); [now rewrite new_coeffs_length|]. intros k Hk. rewrite new_coeffs_length in Hk.
  unfold new_coeffs. rewrite nth_map_seq by exact Hk.
  assert (S1 : forall y p, 0 <= y <= INR p -> exists q, to_int y = q /\ (q <= p)%nat /\ INR q <= y < INR q + 1).
  { intros y p [Hy1 Hy2]. destruct (to_int_spec y Hy1) as [U V]. exists (to_int y). split; [reflexivity|]. split; [|split; [exact U|exact V]]. apply INR_le. lra. }
  assert (Cf : forall p, (p < length D)%nat -> coeff D p k = nth k c (0, 0)) by (intros p Hp; unfold coeff; now rewrite A).
  assert (Ph : exists z, phase_acc D m hop factor i k = angle (nth k c (0, 0)) + 2 * IZR z * PI).
  { assert (G : forall j, (j <= i)%nat -> exists z, phase_acc D m hop factor j k = angle (nth k c (0, 0)) + 2 * IZR z * PI).
    { induction j as [|j IH]; intros Hj.
      - exists 0%Z. unfold phase_acc. cbn [rsum]. rewrite Cf by lia. ring.
      - destruct (IH ltac:(lia)) as [z E]. unfold phase_acc in *. cbn [rsum]. rewrite <- Rplus_assoc, E. unfold dphase.
        assert (Hy : 0 <= step_time factor j /\ step_time factor j + factor <= INR (length D - 1)).
        { unfold step_time. split; [apply Rmult_le_pos; [apply pos_INR|lra]|]. apply Rle_trans with (INR i * factor); [|exact Hi]. replace (INR j * factor + factor) with (INR (S j) * factor) by (rewrite S_INR; ring). apply Rmult_le_compat_r; [lra|]. apply le_INR. lia. }
        destruct Hy as [Hy1 Hy2]. destruct (S1 (step_time factor j) (length D - 1)%nat ltac:(split; lra)) as (q & Eq & Lq & B).
        assert (Eq2 : second_frame factor j = S q) by (unfold second_frame; apply to_int_unique; rewrite S_INR; lra).
        assert (Lq2 : (q < length D - 1)%nat) by (apply INR_lt; lra).
        unfold first_frame. rewrite Eq, Eq2, !Cf by lia. set (rr := np_round _). exists (z - rr)%Z. rewrite minus_IZR. ring. }
    apply G. lia. }
  destruct Ph as [z Ez]. rewrite Ez, cos_period_Z, sin_period_Z.
  assert (M : mag D factor i k = magnitude (nth k c (0, 0))).
  { unfold mag. assert (Hy : 0 <= step_time factor i) by (unfold step_time; apply Rmult_le_pos; [apply pos_INR|lra]).
    destruct (S1 (step_time factor i) (length D - 1)%nat ltac:(split; [exact Hy|exact Hi])) as (q & Eq & Lq & B).
    unfold first_frame. rewrite Eq, Cf by lia. destruct (Nat.eq_dec q (length D - 1)) as [Eql|Nql].
    - assert (W0 : weight factor i = 0).
      { assert (Es : step_time factor i = INR q) by (unfold step_time in *; rewrite Eql in *; lra). unfold weight. rewrite Es, Int_part_INR, <- INR_IZR_INZ. ring. }
      rewrite W0. ring.
    - assert (Eq2 : second_frame factor i = S q) by (unfold second_frame; apply to_int_unique; rewrite S_INR; lra). rewrite Eq2, Cf by lia. ring. }
  rewrite M. destruct (polar (nth k c (0, 0))) as [P Q]. rewrite P, Q. change cz with (0, 0) at 1. now destruct (nth k c (0, 0)).
Qed.

Section Tone.
  Context (t : timedim) (r : Z) (sr : samplerate) (width W H hop : nat).
  Context (Hr : In r standard_rates) (Ht : t_freq t = (10 ^ 12 / r)%Z) (Hd : t_dur t = t_freq t)
    (HW : samples_in (t_freq t) (sr_dur sr) = Z.of_nat W) (HH : samples_in (t_freq t) (sr_freq sr) = Z.of_nat H)
    (Hhop : round_half_even (sr_freq sr) (t_freq t) = Z.of_nat hop)
    (HW2 : (2 <= W <= width)%nat) (H1 : (1 <= H)%nat) (Pd : (0 < sr_dur sr)%Z).

  (** the waveform of one frame is written again and again, [hop] samples apart, while the
      factor does not leave the input frames *)
  Theorem stretch_repeats factor x row ds h : 0 < factor -> W = (2 * h)%nat -> (1 <= hop)%nat -> length x = width -> repeats H x ->
    time_stretch1 t factor (Some sr) x = Ok (ds, [row]) ->
    forall p, (p < length row)%nat -> INR (p / hop) * factor <= INR ((width - W) / H) ->
      at_ row p = rsum (p / hop + 1) (fun i =>
        if Nat.ltb (p - i * hop) W then at_ x (p - i * hop) * (hanning W (p - i * hop)%nat * hanning W (p - i * hop)%nat) else 0).
  Proof.
    intros Hf Wh Hh1 Lx P E p Hp Hst. unfold time_stretch1 in E. rewrite Lx in E. destruct (Nat.eqb_spec width 1); [lia|].
    rewrite (stretched_result t r sr width W H hop Hr Ht Hd HW HH Hhop HW2 H1 Pd) in E by (try assumption; discriminate).
    apply (f_equal (fun p => match p with Ok q => q | Raise _ => ([], []) end)) in E. apply pair_equal_spec in E as [_ E]. cbn [map] in E. injection E as <-.
    destruct (stretched_ok width W H hop HW2 H1 factor x) as (_ & L & A). rewrite L in Hp. rewrite A by exact Hp.
    set (F := ((width - W) / H + 1)%nat) in *. set (D := row_frames W H width x) in *.
    assert (LD : length D = F) by (unfold D, row_frames; now rewrite map_length, seq_length).
    assert (AL : forall i, (i < F)%nat -> length (firstn W (skipn (i * H) x)) = W /\ nth i D [] = rfft_ortho 0 (windowing hanning (firstn W x))).
    { intros i Hi. destruct (frame_at width W H hop HW2 H1 x i Lx Hi) as [Lf Ef]. split; [exact Lf|]. unfold D. rewrite Ef. do 2 f_equal. apply repeats_frame; [exact P|].
      assert (i * H <= (width - W) / H * H)%nat by (apply Nat.mul_le_mono_r; lia). pose proof (Nat.mul_div_le (width - W) H ltac:(lia)). lia. }
    set (c := rfft_ortho 0 (windowing hanning (firstn W x))) in *. assert (L0 : length (firstn W x) = W) by (rewrite firstn_length; lia).
    assert (Lc : length c = (W / 2 + 1)%nat) by (unfold c; rewrite rfft_length, windowing_length, L0, Nat.add_0_r; reflexivity).
    assert (Out : forall i, INR i * factor <= INR ((width - W) / H) -> out_frame D (W / 2 + 1) hop factor i = windowing hanning (windowing hanning (firstn W x))).
    { intros i Hi. unfold out_frame. rewrite (new_coeffs_alike D _ hop factor i c Lc Hf); [|intros q Hq; apply AL; lia|lia|rewrite LD; unfold F; rewrite Nat.add_sub; exact Hi].
      f_equal. unfold irfft_row, c. rewrite (irfft_rfft _ h) by (rewrite ?windowing_length; lia). reflexivity. }
    assert (Mono : forall i, (i <= p / hop)%nat -> INR i * factor <= INR ((width - W) / H)).
    { intros i Hi. apply Rle_trans with (INR (p / hop) * factor); [|exact Hst]. apply Rmult_le_compat_r; [lra|]. now apply le_INR. }
    rewrite (rsum_upto (arange_count F factor) (p / hop + 1)).
    - apply rsum_ext. intros i Hi. rewrite Out by (apply Mono; lia). unfold contribution.
      assert (K : (i * hop <= p)%nat). { pose proof (Nat.mul_div_le p hop ltac:(lia)). assert (i * hop <= p / hop * hop)%nat by (apply Nat.mul_le_mono_r; lia). lia. }
      destruct (Nat.leb_spec (i * hop) p); [|lia]. destruct (Nat.ltb_spec (p - i * hop) W) as [K2|K2].
      + rewrite windowing_at by (rewrite windowing_length; lia). rewrite windowing_length, L0. rewrite windowing_at by lia. rewrite L0, at_firstn. destruct (Nat.ltb_spec (p - i * hop) W); [|lia]. ring.
      + apply at_out. rewrite !windowing_length, L0. exact K2.
    - assert (p / hop < arange_count F factor)%nat; [|lia]. apply arange_spec; [exact Hf|]. unfold F. rewrite plus_INR. cbn [INR]. lra.
    - intros i [Hi _]. unfold contribution. destruct (Nat.leb_spec (i * hop) p) as [K|K]; [|reflexivity]. exfalso.
      assert (p < i * hop)%nat; [|lia]. pose proof (Nat.div_mod p hop ltac:(lia)) as Dm. pose proof (Nat.mod_upper_bound p hop ltac:(lia)) as Mb. assert ((p / hop + 1) * hop <= i * hop)%nat by (apply Nat.mul_le_mono_r; lia). nia.
  Qed.

  (** how loud output sample [p] is, whatever the signal and the factor *)
  Definition steady_gain (p : nat) : R := rsum (p / H + 1) (fun i => if Nat.ltb (p - i * H) W then hanning W (p - i * H)%nat * hanning W (p - i * H)%nat else 0).

  (** frames put back as far apart as they were read: the output is the tone, however far it is
      stretched *)
  Theorem stretch_tone factor x row ds h : 0 < factor -> W = (2 * h)%nat -> hop = H -> length x = width -> repeats H x ->
    time_stretch1 t factor (Some sr) x = Ok (ds, [row]) ->
    forall p, (p < length row)%nat -> INR (p / H) * factor <= INR ((width - W) / H) ->
      at_ row p = at_ x (p mod H) * steady_gain p.
  Proof.
    intros Hf Wh Eh Lx P E p Hp Hst. rewrite (stretch_repeats factor x row ds h Hf Wh ltac:(lia) Lx P E p Hp) by (rewrite Eh; exact Hst).
    unfold steady_gain. rewrite <- rsum_scale, Eh. apply rsum_ext. intros i Hi. destruct (Nat.ltb_spec (p - i * H) W) as [K|K]; [|ring].
    assert (Em : at_ x (p mod H) = at_ x (p - i * H)).
    { rewrite <- (repeats_mod H x (p - i * H) P H1) by lia. f_equal.
      assert (i * H <= p)%nat. { pose proof (Nat.mul_div_le p H ltac:(lia)). assert (i * H <= p / H * H)%nat by (apply Nat.mul_le_mono_r; lia). lia. }
      replace p with ((p - i * H) + i * H)%nat at 1 by lia. now rewrite Nat.mod_add by lia. }
    rewrite Em. reflexivity.
  Qed.
  Lemma steady_gain_next p : (W <= p + H)%nat -> steady_gain (p + H) = steady_gain p.
  Proof.
    intros G. unfold steady_gain. assert (Eq : ((p + H) / H = p / H + 1)%nat). { replace (p + H)%nat with (p + 1 * H)%nat by lia. rewrite Nat.div_add by lia. lia. }
    rewrite Eq, (Nat.add_1_r (p / H + 1)), rsum_first0. rewrite Nat.mul_0_l, Nat.sub_0_r. destruct (Nat.ltb_spec (p + H) W); [lia|]. rewrite Rplus_0_l.
    apply rsum_ext. intros i _. replace (p + H - S i * H)%nat with (p - i * H)%nat by (cbn [Nat.mul]; lia). reflexivity.
  Qed.
  (** so in the middle the output repeats as well *)
  Theorem stretch_tone_repeats factor x row ds h : 0 < factor -> W = (2 * h)%nat -> hop = H -> length x = width -> repeats H x ->
    time_stretch1 t factor (Some sr) x = Ok (ds, [row]) ->
    forall p, (W <= p + H)%nat -> (p + H < length row)%nat -> INR ((p + H) / H) * factor <= INR ((width - W) / H) ->
      at_ row (p + H) = at_ row p.
  Proof.
    intros Hf Wh Eh Lx P E p Gp Hp Hst. assert (Eq : ((p + H) / H = p / H + 1)%nat). { replace (p + H)%nat with (p + 1 * H)%nat by lia. rewrite Nat.div_add by lia. lia. }
    assert (Hst0 : INR (p / H) * factor <= INR ((width - W) / H)). { rewrite Eq, plus_INR in Hst. cbn [INR] in Hst. lra. }
    rewrite (stretch_tone factor x row ds h Hf Wh Eh Lx P E (p + H)) by (assumption || lia). rewrite (stretch_tone factor x row ds h Hf Wh Eh Lx P E p) by (assumption || lia).
    rewrite steady_gain_next by exact Gp. f_equal. f_equal. replace (p + H)%nat with (p + 1 * H)%nat by lia. now rewrite Nat.mod_add by lia.
  Qed.
  (** and a sinusoid of [cycles] turns per hop has as many afterwards, in the same phase *)
  Theorem stretch_sinusoid factor a phi cycles row ds h : 0 < factor -> W = (2 * h)%nat -> hop = H -> (H <= W)%nat ->
    let tone := fun j : nat => a * cos (2 * PI * INR cycles * INR j / INR H + phi) in
    time_stretch1 t factor (Some sr) (map tone (seq 0 width)) = Ok (ds, [row]) ->
    forall p, (p < length row)%nat -> INR (p / H) * factor <= INR ((width - W) / H) ->
      at_ row p = tone p * steady_gain p.
  Proof.
    intros Hf Wh Eh HWH tone E p Hp Hst. assert (HR : 0 < INR H) by (apply lt_0_INR; lia).
    assert (T : forall j i, tone (j + i * H)%nat = tone j).
    { intros j i. unfold tone. f_equal. rewrite plus_INR, mult_INR. replace (2 * PI * INR cycles * (INR j + INR i * INR H) / INR H + phi) with (2 * PI * INR cycles * INR j / INR H + phi + 2 * INR (cycles * i) * PI) by (rewrite mult_INR; field; lra). apply cos_period. }
    assert (P : repeats H (map tone (seq 0 width))).
    { intros j Hj. rewrite map_length, seq_length in Hj. rewrite !at_map_seq by lia. replace (j + H)%nat with (j + 1 * H)%nat by lia. apply T. }
    rewrite (stretch_tone factor _ row ds h Hf Wh Eh ltac:(now rewrite map_length, seq_length) P E p Hp Hst). f_equal.
    rewrite at_map_seq by (pose proof (Nat.mod_upper_bound p H ltac:(lia)); lia). pose proof (Nat.div_mod p H ltac:(lia)) as D. rewrite D at 2. rewrite Nat.add_comm, (Nat.mul_comm H). symmetry. apply T.
  Qed.
End Tone.

(** one beat after another: a pulse every second sample, stretched to twice its length *)
Example tone_example : exists ds row, time_stretch1 at_11025 (/ 2) (Some frames_4_2) [1; 0; 1; 0; 1; 0; 1; 0; 1] = Ok (ds, [row]) /\ length row = 18%nat /\
  (forall p, (p < 8)%nat -> at_ row p = (if Nat.even p then 1 else 0) * steady_gain 4 2 p) /\ steady_gain 4 2 2 = 9 / 16.
Proof.
  assert (Hr : In 11025%Z standard_rates) by (do 5 right; left; reflexivity).
  assert (Ht : t_freq at_11025 = (10 ^ 12 / 11025)%Z) by reflexivity. assert (Hd : t_dur at_11025 = t_freq at_11025) by reflexivity.
  assert (HW : samples_in (t_freq at_11025) (sr_dur frames_4_2) = Z.of_nat 4) by (vm_compute; reflexivity).
  assert (HH : samples_in (t_freq at_11025) (sr_freq frames_4_2) = Z.of_nat 2) by (vm_compute; reflexivity).
  assert (Hhop : round_half_even (sr_freq frames_4_2) (t_freq at_11025) = Z.of_nat 2) by (vm_compute; reflexivity).
  assert (Pd : (0 < sr_dur frames_4_2)%Z) by (vm_compute; reflexivity).
  set (x := [1; 0; 1; 0; 1; 0; 1; 0; 1]). assert (E : time_stretch1 at_11025 (/ 2) (Some frames_4_2) x = Ok ([DIdent; DTime (mk_timedim (t_freq at_11025) (Some (t_freq at_11025)) (Some (Z.of_nat (to_int (INR 9 / / 2)))))], [stretched 2 4 2 9 (/ 2) x])).
  { unfold time_stretch1. change (length x) with 9%nat. cbn [Nat.eqb]. rewrite (stretched_result at_11025 11025 frames_4_2 9 4 2 2 Hr Ht Hd HW HH Hhop ltac:(lia) ltac:(lia) Pd) by (lra || discriminate). reflexivity. }
  exists [DIdent; DTime (mk_timedim (t_freq at_11025) (Some (t_freq at_11025)) (Some (Z.of_nat (to_int (INR 9 / / 2)))))], (stretched 2 4 2 9 (/ 2) x).
  assert (L : length (stretched 2 4 2 9 (/ 2) x) = 18%nat).
  { destruct (stretched_ok 9 4 2 2 ltac:(lia) ltac:(lia) (/ 2) x) as (_ & L & _). rewrite L. apply to_int_unique. cbn [INR]. lra. }
  split; [exact E|]. split; [exact L|]. split.
  - intros p Hp. assert (P : repeats 2 x) by (intros j Hj; change (length x) with 9%nat in Hj; do 7 (destruct j as [|j]; [reflexivity|]); lia).
    rewrite (stretch_tone at_11025 11025 frames_4_2 9 4 2 2 Hr Ht Hd HW HH Hhop ltac:(lia) ltac:(lia) Pd (/ 2) x _ _ 2 ltac:(lra) eq_refl eq_refl eq_refl P E p).
    + f_equal. rewrite <- Nat.bit0_mod. do 8 (destruct p as [|p]; [reflexivity|]). lia.
    + rewrite L. lia.
    + change ((9 - 4) / 2)%nat with 2%nat. do 8 (destruct p as [|p]; [change (_ / 2)%nat with 0%nat || change (_ / 2)%nat with 1%nat || change (_ / 2)%nat with 2%nat || change (_ / 2)%nat with 3%nat; cbn [INR]; lra|]). lia.
  - unfold steady_gain. change (2 / 2 + 1)%nat with 2%nat. cbn [rsum]. change (2 - 0 * 2)%nat with 2%nat. change (2 - 1 * 2)%nat with 0%nat. cbn [Nat.ltb Nat.leb].
    unfold hanning. cbn [Nat.leb Nat.sub]. replace (2 * PI * INR 2 / INR 3) with (PI / 3 + PI) by (cbn [INR]; field). rewrite neg_cos, cos_PI3.
    replace (2 * PI * INR 0 / INR 3) with 0 by (cbn [INR]; field). rewrite cos_0. field.
Qed.
