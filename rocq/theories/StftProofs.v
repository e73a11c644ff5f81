(** fft and stft (C78). *)
From Verif Require Import PyBase PyFacts PyMore Time TimeProofs Freq FreqProofs FreqScaleProofs FreqDim FreqDimProofs Axis Windowed WindowedProofs NdWindow NdWindowProofs Spectral SpectralProofs TransformProofs ReconProofs OverlapProofs ResampleProofs Stft.
From Coq Require Import Reals Lra Psatz.
Local Open Scope R_scope.

(** ** Specification *)
(** coefficient k of the unitary discrete Fourier transform of the [m] numbers [x 0 .. x (m - 1)]
    followed by [n - m] zeros *)
Definition dft_coeff (n m : nat) (x : nat -> R) (k : nat) : cplx :=
  (/ sqrt (INR n) * rsum m (fun t => x t * cos (2 * PI * INR k * INR t / INR n)),
   - (/ sqrt (INR n) * rsum m (fun t => x t * sin (2 * PI * INR k * INR t / INR n)))).
(** the dimension of the coefficients of [n] samples at [r] samples per second *)
Definition spectrum_dim (r : Z) (n : nat) : dim := DFreq (Linear (mkBand 0 (IZR (r / 2))) (n / 2 + 1) false).
(** how many samples of [f] picoseconds a duration spans: a hundredth of a sample or less is
    rounded off, more than that counts as a sample *)
Definition samples_in (f dur : Z) : Z := (dur / f + (if 200 * (dur mod f) <=? f then 0 else 1))%Z.
Notation cz := ((0, 0) : cplx).

(** ** the scale *)
Lemma rate_std r : In r standard_rates -> audio_sample_rate (trunc_div (10 ^ 12) (10 ^ 12 / r)) = Ok r /\
  exists sr, audio_rate r = Ok sr /\ nyquist sr = (r / 2)%Z /\ (0 < r / 2)%Z.
Proof.
  intros H. repeat (destruct H as [<-|H]; [split; [vm_compute; reflexivity|eexists; split; [reflexivity|split; vm_compute; reflexivity]]|]). destruct H.
Qed.
Theorem scale_std t n r : In r standard_rates -> t_freq t = (10 ^ 12 / r)%Z ->
  fft_scale t n = Ok (Linear (mkBand 0 (IZR (r / 2))) n false).
Proof.
  intros Hr Ht. destruct (rate_std r Hr) as [E (sr & E2 & E3 & P)]. unfold fft_scale. rewrite Ht, E. cbn [bind]. rewrite E2. cbn [bind]. rewrite E3.
  unfold make_band, Rleb. destruct (Rle_dec (IZR (r / 2)) 0) as [C|_]; [|reflexivity]. apply le_IZR in C. lia.
Qed.
Theorem scale_other t n : (forall r, In r standard_rates -> trunc_div (10 ^ 12) (t_freq t) <> r) -> fft_scale t n = Raise ValueError.
Proof.
  intros H. unfold fft_scale, audio_sample_rate.
  replace (find (fun r => (trunc_div (10 ^ 12) (t_freq t) =? rate_sps r)%Z) standard_rates) with (@None Z); [reflexivity|].
  symmetry. assert (G : forall l, (forall r, In r l -> In r standard_rates) -> find (fun r => (trunc_div (10 ^ 12) (t_freq t) =? rate_sps r)%Z) l = None).
  { induction l as [|r l IH]; intros Hl; [reflexivity|]. cbn [find]. destruct (Z.eqb_spec (trunc_div (10 ^ 12) (t_freq t)) (rate_sps r)) as [E|_].
    - exfalso. rewrite rate_sps_standard in E by (apply Hl; left; reflexivity). apply (H r); [apply Hl; left; reflexivity|exact E].
    - apply IH. intros r' Hr'. apply Hl. right. exact Hr'. }
  apply G. auto.
Qed.

(** ** the coefficients *)
Lemma rfft_coeff p x k : (k <= (length x + p) / 2)%nat -> nth k (rfft_ortho p x) cz = dft_coeff (length x + p) (length x) (at_ x) k.
Proof.
  intros Hk. unfold rfft_ortho. rewrite nth_map_seq by (rewrite app_length, repeat_length; lia). rewrite app_length, repeat_length.
  set (n := (length x + p)%nat). unfold dft_coeff, cscale, Spectral.fft. rewrite csum_fst, csum_snd. cbn [fst snd].
  assert (Z0 : forall g : nat -> R, rsum n (fun t => at_ (x ++ repeat 0 p) t * g t) = rsum (length x) (fun t => at_ x t * g t)).
  { intros g. unfold n. clear. induction p as [|p IH].
    - rewrite Nat.add_0_r. cbn [repeat]. rewrite app_nil_r. reflexivity.
    - rewrite Nat.add_succ_r. cbn [rsum]. transitivity (rsum (length x + p) (fun t => at_ (x ++ repeat 0 p) t * g t) + 0).
      + f_equal.
        * apply rsum_ext. intros t Ht. f_equal. unfold at_. destruct (Nat.lt_ge_cases t (length x)) as [K|K].
          -- now rewrite !app_nth1 by lia.
          -- rewrite !app_nth2 by lia. now rewrite !nth_repeat.
        * unfold at_. rewrite app_nth2 by lia. rewrite nth_repeat. ring.
      + rewrite IH. ring. }
  f_equal.
  - f_equal. rewrite <- Z0. apply rsum_ext. intros t _. cbn [cmul cexp_neg fst snd]. ring.
  - replace (- (/ sqrt (INR n) * rsum (length x) (fun t => at_ x t * sin (2 * PI * INR k * INR t / INR n)))) with (/ sqrt (INR n) * (-1 * rsum (length x) (fun t => at_ x t * sin (2 * PI * INR k * INR t / INR n)))) by ring.
    f_equal. rewrite <- Z0, <- rsum_scale. apply rsum_ext. intros t _. cbn [cmul cexp_neg fst snd]. ring.
Qed.

Theorem fft1_ok t r x : In r standard_rates -> t_freq t = (10 ^ 12 / r)%Z -> x <> [] ->
  exists out, fft1 (DTime t) 0 x = Ok ([spectrum_dim r (length x)], out) /\ length out = (length x / 2 + 1)%nat /\
    forall k, (k <= length x / 2)%nat -> nth k out cz = dft_coeff (length x) (length x) (at_ x) k.
Proof.
  intros Hr Ht Hx. exists (rfft_ortho 0 x). unfold fft1. cbn [Nat.ltb Nat.leb]. destruct (Nat.eqb_spec (length x) 0) as [E|_]; [destruct x; [contradiction|discriminate]|].
  pose proof (rfft_length 0 x) as L. rewrite Nat.add_0_r in L. cbv zeta. unfold fft_dim. rewrite (scale_std t _ r Hr Ht). cbn [bind].
  unfold fit_dims, fit_dim, fdim_validate. cbn [scale_len]. rewrite Nat.eqb_refl. cbn [bind]. rewrite L. split; [reflexivity|]. split; [reflexivity|].
  intros k Hk. rewrite rfft_coeff by (rewrite Nat.add_0_r; exact Hk). now rewrite Nat.add_0_r.
Qed.
Theorem fft_rows_ok t r d0 d0' p width rows : In r standard_rates -> t_freq t = (10 ^ 12 / r)%Z -> (0 < width + p)%nat ->
  (forall x, In x rows -> length x = width) -> fit_dim d0 (length rows) = Ok d0' ->
  exists out, fft_rows d0 (DTime t) p width rows = Ok ([d0'; spectrum_dim r (width + p)], out) /\ length out = length rows /\
    forall i, (i < length rows)%nat -> length (nth i out []) = ((width + p) / 2 + 1)%nat /\
      forall k, (k <= (width + p) / 2)%nat -> nth k (nth i out []) cz = dft_coeff (width + p) width (at_ (nth i rows [])) k.
Proof.
  intros Hr Ht Hn Hw Hd. exists (map (rfft_ortho p) rows). unfold fft_rows. destruct (Nat.eqb_spec (width + p) 0); [lia|].
  unfold fft_dim. rewrite (scale_std t _ r Hr Ht). cbn [bind fit_dims]. rewrite Hd. cbn [bind]. unfold fit_dim, fdim_validate. cbn [scale_len]. rewrite Nat.eqb_refl. cbn [bind].
  split; [reflexivity|]. split; [apply map_length|]. intros i Hi. assert (Lr : length (nth i rows []) = width) by (apply Hw, nth_In, Hi).
  rewrite (nth_indep _ [] (rfft_ortho p [])) by (now rewrite map_length). rewrite map_nth. rewrite rfft_length, Lr. split; [reflexivity|]. intros k Hk.
  rewrite rfft_coeff by (rewrite Lr; exact Hk). now rewrite Lr.
Qed.
(** no other rate is accepted, whatever the array *)
Theorem fft_other_rate t p width rows d0 x : (forall r, In r standard_rates -> trunc_div (10 ^ 12) (t_freq t) <> r) ->
  fft1 (DTime t) p x = Raise ValueError /\ fft_rows d0 (DTime t) p width rows = Raise ValueError.
Proof.
  intros H. unfold fft1, fft_rows, fft_dim. rewrite !(scale_other t _ H). cbn [bind].
  split; [destruct (Nat.ltb 0 p); [reflexivity|]; destruct (Nat.eqb (length x) 0); reflexivity|]. destruct (Nat.eqb (width + p) 0); reflexivity.
Qed.
(** zero-padding is offered for two-dimensional arrays only *)
Theorem fft_padding_refuted d d0 d1 d2 p n w x batch : (0 < p)%nat ->
  fft1 d p x = Raise ValueError /\ fft_batch d0 d1 d2 p n w batch = Raise ValueError.
Proof. intros H. unfold fft1, fft_batch. destruct (Nat.ltb_spec 0 p); [split; reflexivity|lia]. Qed.

(** ** the frequency of a coefficient lies in its band *)
Definition bin_hz (r : Z) (n k : nat) : R := INR k * IZR r / INR n.
Theorem bin_in_band r n k : In r standard_rates -> Z.even r = true -> (2 <= n)%nat -> (k <= n / 2)%nat ->
  exists bs b, scale_bands (Linear (mkBand 0 (IZR (r / 2))) (n / 2 + 1) false) = Ok bs /\ nth_error bs k = Some b /\
    bstart b <= bin_hz r n k <= bstop b.
Proof.
  intros Hr He Hn Hk. destruct (rate_std r Hr) as [_ (sr & _ & _ & P)]. set (h := (n / 2)%nat) in *.
  assert (Hh : (1 <= h)%nat) by (unfold h; apply Nat.div_le_lower_bound; lia).
  assert (Hnh : (n = 2 * h \/ n = 2 * h + 1)%nat) by (unfold h; pose proof (Nat.div_mod n 2 ltac:(lia)); pose proof (Nat.mod_upper_bound n 2 ltac:(lia)); lia). clearbody h.
  set (fb := mkBand 0 (IZR (r / 2))). assert (Pf : proper fb) by (unfold proper, fb; cbn; apply (IZR_lt 0); exact P).
  exists (map (lin_band fb (h + 1)) (seq 0 (h + 1))), (lin_band fb (h + 1) k). split; [cbn [scale_bands]; apply linear_bands_ok; [exact Pf|lia]|].
  split; [rewrite nth_error_map, nth_error_nth' with (d := 0%nat) by (rewrite seq_length; lia); rewrite seq_nth by lia; reflexivity|].
  assert (Er : IZR r = 2 * IZR (r / 2)).
  { rewrite <- mult_IZR. f_equal. pose proof (Z.div_mod r 2 ltac:(lia)) as D. assert (r mod 2 = 0)%Z by (rewrite Zmod_even, He; reflexivity). lia. }
  unfold bin_hz. rewrite Er. unfold lin_band, lin_width, fb. cbn [bstart bstop]. set (y := IZR (r / 2)). assert (Py : 0 < y) by (apply (IZR_lt 0); exact P).
  rewrite !plus_INR. change (INR 1) with 1. assert (K1 : INR k <= INR h) by (apply le_INR; exact Hk). assert (K0 : 0 <= INR k) by apply pos_INR.
  assert (H1 : 1 <= INR h) by (apply (le_INR 1); exact Hh).
  assert (N2 : 2 * INR h <= INR n <= 2 * INR h + 1).
  { destruct Hnh as [-> | ->]; rewrite ?plus_INR, mult_INR; change (INR 2) with 2; change (INR 1) with 1; lra. }
  clearbody y. set (a := INR k) in *. set (c := INR h) in *. set (m := INR n) in *. clearbody a c m.
  rewrite !Rplus_0_l, Rminus_0_r.
  replace (a * (y / (c + 1))) with ((a / (c + 1)) * y) by (field; lra). replace ((a + 1) * (y / (c + 1))) with (((a + 1) / (c + 1)) * y) by (field; lra).
  replace (a * (2 * y) / m) with ((2 * a / m) * y) by (field; lra).
  split; apply Rmult_le_compat_r; try lra.
  - apply Rmult_le_reg_r with (c + 1); [lra|]. replace (a / (c + 1) * (c + 1)) with a by (field; lra).
    apply Rmult_le_reg_r with m; [lra|]. replace (2 * a / m * (c + 1) * m) with (2 * a * (c + 1)) by (field; lra). nra.
  - apply Rmult_le_reg_r with (c + 1); [lra|]. replace ((a + 1) / (c + 1) * (c + 1)) with (a + 1) by (field; lra).
    apply Rmult_le_reg_r with m; [lra|]. replace (2 * a / m * (c + 1) * m) with (2 * a * (c + 1)) by (field; lra). nra.
Qed.
(** at 11025 Hz the band of the last coefficient ends half a hertz below its frequency *)
Theorem bin_in_band_refuted : exists n k bs b, (2 <= n)%nat /\ (k <= n / 2)%nat /\
  scale_bands (Linear (mkBand 0 (IZR (11025 / 2))) (n / 2 + 1) false) = Ok bs /\ nth_error bs k = Some b /\ bstop b < bin_hz 11025 n k.
Proof.
  exists 2%nat, 1%nat. set (fb := mkBand 0 (IZR (11025 / 2))). assert (Pf : proper fb) by (unfold proper, fb; cbn; lra).
  exists (map (lin_band fb 2) (seq 0 2)), (lin_band fb 2 1). split; [lia|]. split; [reflexivity|]. split; [cbn [scale_bands]; apply (linear_bands_ok fb 2); [exact Pf|lia]|].
  split; [reflexivity|]. unfold bin_hz, lin_band, lin_width, fb. cbn. lra.
Qed.

(** ** a pure tone *)
(** [A cos (2 pi k t / n + phi)], k turns in n samples *)
Definition tone (n k : nat) (A phi : R) (t : nat) : R := A * cos (2 * PI * INR k * INR t / INR n + phi).
Lemma tone_coeff n k j A phi : (0 < k)%nat -> (2 * k < n)%nat -> (j <= n / 2)%nat ->
  dft_coeff n n (tone n k A phi) j = if Nat.eqb j k then (A * sqrt (INR n) / 2 * cos phi, A * sqrt (INR n) / 2 * sin phi) else cz.
Proof.
  intros Hk Hn Hj. assert (Pn : 0 < INR n) by (apply lt_0_INR; lia). assert (N0 : INR n <> 0) by lra.
  assert (Hj2 : (2 * j <= n)%nat) by (pose proof (Nat.mul_div_le n 2 ltac:(lia)); lia).
  assert (Sq : sqrt (INR n) * sqrt (INR n) = INR n) by (apply sqrt_sqrt; lra). assert (S0 : sqrt (INR n) <> 0) by (intros E0; rewrite E0 in Sq; lra).
  assert (C : rsum n (fun t => tone n k A phi t * cos (2 * PI * INR j * INR t / INR n)) = if Nat.eqb j k then A / 2 * (INR n * cos phi) else 0).
  { rewrite (rsum_ext n _ (fun t => A / 2 * (cos (2 * PI * IZR (Z.of_nat k - Z.of_nat j) * INR t / INR n + phi) + cos (2 * PI * IZR (Z.of_nat k + Z.of_nat j) * INR t / INR n + phi)))).
    2: { intros t _. unfold tone. rewrite Rmult_assoc, cos_product, minus_IZR, plus_IZR, <- !INR_IZR_INZ.
         replace (2 * PI * INR k * INR t / INR n + phi - 2 * PI * INR j * INR t / INR n) with (2 * PI * (INR k - INR j) * INR t / INR n + phi) by (field; exact N0).
         replace (2 * PI * INR k * INR t / INR n + phi + 2 * PI * INR j * INR t / INR n) with (2 * PI * (INR k + INR j) * INR t / INR n + phi) by (field; exact N0). field. }
    rewrite rsum_scale, rsum_plus, !cos_sum_period by lia.
    destruct (Z.eqb_spec ((Z.of_nat k + Z.of_nat j) mod Z.of_nat n) 0) as [E|_]; [rewrite Z.mod_small in E by lia; lia|].
    destruct (Nat.eqb_spec j k) as [->|Nj].
    - rewrite Z.sub_diag, Z.mod_0_l, Z.eqb_refl by lia. ring.
    - destruct (Z.eqb_spec ((Z.of_nat k - Z.of_nat j) mod Z.of_nat n) 0) as [E|_]; [|ring].
      exfalso. apply Z.mod_divide in E; [|lia]. destruct E as [z Ez]. assert (z <= -1 \/ z = 0 \/ 1 <= z)%Z as [Hz|[Hz|Hz]] by lia; nia. }
  assert (D : rsum n (fun t => tone n k A phi t * sin (2 * PI * INR j * INR t / INR n)) = if Nat.eqb j k then - (A / 2 * (INR n * sin phi)) else 0).
  { rewrite (rsum_ext n _ (fun t => A / 2 * (cos (2 * PI * IZR (Z.of_nat k - Z.of_nat j) * INR t / INR n + (phi + PI / 2)) + cos (2 * PI * IZR (Z.of_nat k + Z.of_nat j) * INR t / INR n + (phi - PI / 2))))).
    2: { intros t _. unfold tone. rewrite minus_IZR, plus_IZR, <- !INR_IZR_INZ.
         set (u := 2 * PI * INR k * INR t / INR n). set (v := 2 * PI * INR j * INR t / INR n).
         replace (2 * PI * (INR k - INR j) * INR t / INR n + (phi + PI / 2)) with ((u + phi - v) + PI / 2) by (unfold u, v; field; exact N0).
         replace (2 * PI * (INR k + INR j) * INR t / INR n + (phi - PI / 2)) with ((u + phi + v) - PI / 2) by (unfold u, v; field; exact N0).
         set (y := u + phi). clearbody y v. rewrite (cos_plus _ (PI / 2)), (cos_minus _ (PI / 2)), cos_PI2, sin_PI2, sin_minus, sin_plus. field. }
    rewrite rsum_scale, rsum_plus, !cos_sum_period by lia.
    destruct (Z.eqb_spec ((Z.of_nat k + Z.of_nat j) mod Z.of_nat n) 0) as [E|_]; [rewrite Z.mod_small in E by lia; lia|].
    destruct (Nat.eqb_spec j k) as [->|Nj].
    - rewrite Z.sub_diag, Z.mod_0_l, Z.eqb_refl by lia. rewrite cos_plus, cos_PI2, sin_PI2. ring.
    - destruct (Z.eqb_spec ((Z.of_nat k - Z.of_nat j) mod Z.of_nat n) 0) as [E|_]; [|ring].
      exfalso. apply Z.mod_divide in E; [|lia]. destruct E as [z Ez]. assert (z <= -1 \/ z = 0 \/ 1 <= z)%Z as [Hz|[Hz|Hz]] by lia; nia. }
  unfold dft_coeff. rewrite C, D. destruct (Nat.eqb j k).
  - set (s := sqrt (INR n)) in *. clearbody s. rewrite <- Sq. f_equal; field; exact S0.
  - f_equal; ring.
Qed.
(** a tone of k turns in n samples has all its energy in coefficient k, and slicing the
    spectrum by any band around its frequency selects that coefficient *)
Theorem pure_tone t r n k A phi : In r standard_rates -> Z.even r = true -> t_freq t = (10 ^ 12 / r)%Z -> (0 < k)%nat -> (2 * k < n)%nat ->
  exists s out, fft1 (DTime t) 0 (map (tone n k A phi) (seq 0 n)) = Ok ([DFreq s], out) /\ scale_len s = length out /\
    (forall j, j <> k -> nth j out cz = cz) /\
    nth k out cz = (A * sqrt (INR n) / 2 * cos phi, A * sqrt (INR n) / 2 * sin phi) /\
    forall q, bstart q < bin_hz r n k < bstop q ->
      exists i j, get_slice_band s q = Ok (i, j) /\ (i <= k < j)%nat.
Proof.
  intros Hr He Ht Hk Hn. set (x := map (tone n k A phi) (seq 0 n)). assert (Lx : length x = n) by (unfold x; now rewrite map_length, seq_length).
  destruct (fft1_ok t r x Hr Ht) as (out & E & L & C); [intros E0; rewrite E0 in Lx; cbn in Lx; lia|]. rewrite Lx in *.
  assert (Hkn : (k <= n / 2)%nat) by (apply Nat.div_le_lower_bound; lia).
  assert (Cj : forall j, (j <= n / 2)%nat -> nth j out cz = dft_coeff n n (tone n k A phi) j).
  { intros j Hj. rewrite C by exact Hj. unfold dft_coeff. f_equal; [|f_equal]; f_equal; apply rsum_ext; intros i Hi; unfold x; now rewrite at_map_seq by exact Hi. }
  exists (Linear (mkBand 0 (IZR (r / 2))) (n / 2 + 1) false), out. split; [exact E|]. split; [symmetry; exact L|]. split.
  { intros j Hj. destruct (Nat.le_gt_cases j (n / 2)) as [K|K]; [|apply nth_overflow; lia]. rewrite Cj, tone_coeff by assumption. now apply Nat.eqb_neq in Hj as ->. }
  split; [rewrite Cj, tone_coeff by assumption; now rewrite Nat.eqb_refl|].
  intros q [Q1 Q2]. destruct (bin_in_band r n k Hr He ltac:(lia) Hkn) as (bs & b & Eb & Nb & B1 & B2).
  assert (W : well_formed (Linear (mkBand 0 (IZR (r / 2))) (n / 2 + 1) false)).
  { constructor; [unfold proper; cbn; destruct (rate_std r Hr) as [_ (sr & _ & _ & P)]; apply (IZR_lt 0); exact P|lia]. }
  destruct (well_formed_bands _ W) as (bs' & Eb' & _ & Ho & _). rewrite Eb in Eb'. injection Eb' as <-.
  destruct (get_slice_range _ bs q Eb Ho) as (i & j & Es & _ & _ & _ & T). cbn [scale_even andb] in Es. exists i, j. split; [exact Es|].
  apply (T k b Nb). unfold touched, Rltb, Rleb. destruct (Rlt_dec (bstart b) (bstop q)); [|lra]. destruct (Rle_dec (bstart q) (bstop b)); [reflexivity|lra].
Qed.

(** ** the other axis *)
(** [fft(x, axis=0)] names as many bands as the array has columns: it works only for arrays
    that happen to have as many columns as the transform has coefficients *)
Theorem axis0_ok t r d1 d1' width rows : In r standard_rates -> t_freq t = (10 ^ 12 / r)%Z -> rows <> [] ->
  width = (length rows / 2 + 1)%nat -> fit_dim d1 width = Ok d1' ->
  exists out, fft_axis0 (DTime t) d1 0 width rows = Ok ([spectrum_dim r (length rows); d1'], out) /\ length out = width /\
    forall k j, (k < width)%nat -> (j < width)%nat -> nth j (nth k out []) cz = dft_coeff (length rows) (length rows) (fun i => at_ (nth i rows []) j) k.
Proof.
  intros Hr Ht Hx Hw Hd. unfold fft_axis0. cbn [Nat.ltb Nat.leb bind]. destruct (Nat.eqb_spec (length rows) 0) as [E|_]; [destruct rows; [contradiction|discriminate]|].
  rewrite <- Hw. unfold fft_dim. rewrite (scale_std t _ r Hr Ht). cbn [bind fit_dims]. unfold fit_dim at 1, fdim_validate. cbn [scale_len]. rewrite Nat.eqb_refl. cbn [bind]. rewrite Hd. cbn [bind].
  eexists. split; [unfold spectrum_dim; rewrite <- Hw; reflexivity|]. split; [now rewrite map_length, seq_length|]. intros k j Hk Hj.
  rewrite nth_map_seq by exact Hk. set (g := fun c : list cplx => nth k c (0, 0)). rewrite (nth_indep _ cz (g [])) by (now rewrite map_length, map_length, seq_length). rewrite (map_nth g). unfold g.
  rewrite nth_map_seq by exact Hj. assert (Lc : length (column rows j) = length rows) by apply map_length. rewrite rfft_coeff by (rewrite Lc, Nat.add_0_r; lia). rewrite Nat.add_0_r, Lc.
  assert (A : forall i, (i < length rows)%nat -> at_ (column rows j) i = at_ (nth i rows []) j).
  { intros i Hi. unfold column, at_ at 1. set (f := fun r => at_ r j). rewrite (nth_indep _ 0 (f [])) by (now rewrite map_length). now rewrite (map_nth f). }
  unfold dft_coeff. f_equal; [|f_equal]; f_equal; apply rsum_ext; intros i Hi; now rewrite A.
Qed.
Theorem axis0_refuted d0 d1 width rows : width <> (length rows / 2 + 1)%nat -> fft_axis0 d0 d1 0 width rows = Raise ValueError \/ fft_axis0 d0 d1 0 width rows = Raise AttributeError.
Proof.
  intros Hw. unfold fft_axis0. cbn [Nat.ltb Nat.leb bind]. destruct (Nat.eqb (length rows) 0); [left; reflexivity|].
  unfold fft_dim. destruct d0 as [|t|s|e]; try (right; reflexivity). left. unfold fft_scale. destruct (audio_sample_rate _) as [r|e] eqn:Er.
  2: { unfold audio_sample_rate in Er. destruct (find _ _); [discriminate|]. injection Er as <-. reflexivity. }
  assert (Hr : In r standard_rates). { unfold audio_sample_rate in Er. destruct (find _ standard_rates) as [z|] eqn:Ef; [|discriminate]. injection Er as <-. apply find_some in Ef. apply Ef. }
  cbn [bind]. destruct (rate_std r Hr) as [_ (sr & E2 & E3 & P)]. rewrite E2. cbn [bind]. rewrite E3. unfold make_band, Rleb. destruct (Rle_dec (IZR (r / 2)) 0) as [C|_]; [apply le_IZR in C; lia|].
  cbn [bind fit_dims]. unfold fit_dim at 1, fdim_validate. cbn [scale_len]. destruct (Nat.eqb_spec (length rows / 2 + 1) width); [congruence|reflexivity].
Qed.
(** with [axis=0] the padding is not the number of zeros asked for: either the call fails or
    the array's own length is doubled *)
Theorem axis0_padding d0 d1 p width rows ds out : (0 < p)%nat -> fft_axis0 d0 d1 p width rows = Ok (ds, out) ->
  p = width /\ length out = (length rows + 1)%nat.
Proof.
  intros Hp. unfold fft_axis0. destruct (Nat.ltb_spec 0 p); [|lia]. destruct (Nat.eqb_spec p width) as [->|]; [|discriminate]. cbn [bind].
  destruct (Nat.eqb _ 0); [discriminate|]. destruct (fft_dim d0 width) as [f|]; [|discriminate]. cbn [bind]. destruct (fit_dims _ _); [|discriminate]. cbn [bind]. intros [= _ <-].
  split; [reflexivity|]. rewrite map_length, seq_length, app_length, repeat_length. replace (length rows + length rows)%nat with (length rows * 2)%nat by lia. change (fst (Nat.divmod (length rows * 2) 1 0 1)) with (length rows * 2 / 2)%nat. rewrite Nat.div_mul by lia. reflexivity.
Qed.

(** ** the short-time transform *)
Lemma span_ok t dur : (0 < t_freq t)%Z -> t_dur t = t_freq t -> span_samples t dur = Ok (samples_in (t_freq t) dur).
Proof.
  intros Hf Hd. unfold span_samples, integer_based_slice. cbn [bind fst snd]. rewrite Hd, !Z.sub_diag, Z.div_0_l by lia. rewrite ceil_round2 by exact Hf. unfold samples_in. rewrite Z.add_0_l. f_equal. lia.
Qed.
Lemma windowing_length w f : length (windowing w f) = length f.
Proof. unfold windowing. now rewrite map_length, seq_length. Qed.
Lemma windowing_at w f t : (t < length f)%nat -> at_ (windowing w f) t = at_ f t * w (length f) t.
Proof. intros H. unfold windowing. now rewrite at_map_seq. Qed.
Lemma std_freq_pos r f : In r standard_rates -> f = (10 ^ 12 / r)%Z -> (0 < f)%Z.
Proof. intros H ->. repeat (destruct H as [<-|H]; [vm_compute; reflexivity|]). destruct H. Qed.
Lemma dft_ext n m f g k : (forall t, (t < m)%nat -> f t = g t) -> dft_coeff n m f k = dft_coeff n m g k.
Proof. intros H. unfold dft_coeff. f_equal; [|f_equal]; f_equal; apply rsum_ext; intros t Ht; now rewrite H. Qed.

(** one signal: the number of frames of [W] samples, [H] apart *)
Definition n_frames (L W H : nat) : nat := if Nat.leb L W then 1 else if Nat.eqb W H then (L + H - 1) / H else L / H.
Theorem stft1_ok t r wsr wd x W H : In r standard_rates -> t_freq t = (10 ^ 12 / r)%Z -> t_dur t = t_freq t ->
  samples_in (t_freq t) (sr_dur wsr) = Z.of_nat W -> samples_in (t_freq t) (sr_freq wsr) = Z.of_nat H -> (2 <= W)%nat -> (1 <= H <= W)%nat ->
  let n := n_frames (length x) W H in
  exists out, stft1 t wsr (Some wd) x = Ok ([DTime (mk_timedim (t_freq t * Z.of_nat H) (Some (t_freq t * Z.of_nat W)%Z) (Some (Z.of_nat n))); spectrum_dim r W], out) /\
    length out = n /\ forall i, (i < n)%nat -> length (nth i out []) = (W / 2 + 1)%nat /\
      forall k, (k <= W / 2)%nat -> nth k (nth i out []) cz = dft_coeff W W (fun j => at_ x (i * H + j) * wd W j) k.
Proof.
  intros Hr Ht Hd HW HH W2 [H1 HWH]. cbv zeta. assert (Pf := std_freq_pos r _ Hr Ht). unfold stft1. rewrite !span_ok by assumption. rewrite HW, HH. cbn [bind].
  destruct (windowed_pad 0 x W H W2 H1 HWH) as (z & E & Fit & _). rewrite E. cbn [bind snd].
  change (padded_count (length x) W H) with (n_frames (length x) W H) in *. set (n := n_frames (length x) W H) in *.
  assert (Em : modified_dimension t (Z.of_nat W) (Some (Z.of_nat H)) = Ok (mk_timedim (t_freq t * Z.of_nat H) (Some (t_freq t * Z.of_nat W)%Z) None)).
  { unfold modified_dimension, t_overlap, mk_samplerate. destruct (Z.eqb_spec (Z.of_nat H) 0); [lia|]. destruct (Z.leb_spec (t_freq t) 0); [lia|]. rewrite Hd. destruct (Z.leb_spec (t_freq t) 0); [lia|]. cbn [bind].
    unfold sr_overlap. cbn [sr_freq sr_dur]. rewrite Z.sub_diag, Z.add_0_r. reflexivity. }
  rewrite Em. cbn [bind]. rewrite Nat2Z.id. set (rows := windows (x ++ repeat 0 z) W H n).
  assert (Lr : length rows = n) by apply windows_length.
  assert (Hrow : forall i, (i < n)%nat -> nth i rows [] = window_at (x ++ repeat 0 z) W H i) by (intros i Hi; unfold rows, windows; now rewrite nth_map_seq by exact Hi).
  assert (Lrow : forall i, (i < n)%nat -> length (nth i rows []) = W).
  { intros i Hi. rewrite Hrow by exact Hi. apply window_at_full. rewrite app_length, repeat_length. assert (i * H <= (n - 1) * H)%nat by (apply Nat.mul_le_mono_r; lia). lia. }
  assert (Ew : forall i, (i < n)%nat -> nth i (map (windowing wd) rows) [] = windowing wd (nth i rows [])).
  { intros i Hi. rewrite (nth_indep _ [] (windowing wd [])) by (rewrite map_length, Lr; exact Hi). apply map_nth. }
  destruct (fft_rows_ok t r (DTime (mk_timedim (t_freq t * Z.of_nat H) (Some (t_freq t * Z.of_nat W)%Z) None)) (DTime (mk_timedim (t_freq t * Z.of_nat H) (Some (t_freq t * Z.of_nat W)%Z) (Some (Z.of_nat n)))) 0 W (map (windowing wd) rows) Hr Ht) as (out & Eo & Lo & C).
  { lia. }
  { intros y Hy. apply in_map_iff in Hy as (u & <- & Hu). rewrite windowing_length. apply (In_nth _ _ []) in Hu as (i & Hi & <-). apply Lrow. lia. }
  { cbn [fit_dim mk_timedim t_freq t_dur]. rewrite map_length, Lr. do 2 f_equal. unfold mk_timedim. cbn [t_freq t_dur]. f_equal.
    destruct (Z.eqb_spec (t_freq t * Z.of_nat W) 0); [nia|]. destruct (Z.eqb_spec (t_freq t * Z.of_nat W) 0); [nia|reflexivity]. }
  rewrite Nat.add_0_r in *. rewrite map_length, Lr in *. exists out. split; [exact Eo|]. split; [exact Lo|]. intros i Hi. destruct (C i Hi) as [C1 C2]. split; [exact C1|]. intros k Hk. rewrite C2 by exact Hk.
  apply dft_ext. intros j Hj. rewrite Ew by exact Hi. rewrite windowing_at by (rewrite Lrow; assumption). rewrite Lrow by exact Hi. f_equal. rewrite Hrow by exact Hi.
  unfold window_at. rewrite at_firstn. destruct (Nat.ltb_spec j W); [|lia]. rewrite at_skipn. unfold at_. destruct (Nat.lt_ge_cases (i * H + j) (length x)) as [K|K]; [now rewrite app_nth1|]. rewrite app_nth2, nth_repeat, nth_overflow by lia. reflexivity.
Qed.

(** a batch of signals: only whole frames *)
Theorem stft2_ok t r wsr wd width rows W H : In r standard_rates -> t_freq t = (10 ^ 12 / r)%Z -> t_dur t = t_freq t ->
  samples_in (t_freq t) (sr_dur wsr) = Z.of_nat W -> samples_in (t_freq t) (sr_freq wsr) = Z.of_nat H -> (1 <= W <= width)%nat -> (1 <= H)%nat -> (0 < sr_dur wsr)%Z ->
  rows <> [] -> (forall x, In x rows -> length x = width) ->
  let n := ((width - W) / H + 1)%nat in
  exists out, stft2 DIdent (DTime t) wsr (Some wd) width rows =
      Ok ([DIdent; DTime (mk_timedim (sr_freq wsr) (Some (sr_dur wsr)) (Some (Z.of_nat n))); spectrum_dim r W], out) /\
    length out = length rows /\ forall b, (b < length rows)%nat -> length (nth b out []) = n /\
      forall i, (i < n)%nat -> length (nth i (nth b out []) []) = (W / 2 + 1)%nat /\
        forall k, (k <= W / 2)%nat -> nth k (nth i (nth b out []) []) cz = dft_coeff W W (fun j => at_ (nth b rows []) (i * H + j) * wd W j) k.
Proof.
  intros Hr Ht Hd HW HH [W1 W2] H1 Pd Hne Hlen. cbv zeta. set (n := ((width - W) / H + 1)%nat). assert (Pf := std_freq_pos r _ Hr Ht). unfold stft2. rewrite !span_ok by assumption. rewrite HW, HH. cbn [bind].
  assert (Eg : (Nat.eqb (length rows) 0 || (Z.of_nat width <? Z.of_nat W)%Z || (Z.of_nat W <? 1)%Z)%bool = false).
  { destruct (Nat.eqb_spec (length rows) 0) as [E0|_]; [destruct rows; [contradiction|discriminate]|]. destruct (Z.ltb_spec (Z.of_nat width) (Z.of_nat W)); [lia|]. destruct (Z.ltb_spec (Z.of_nat W) 1); [lia|reflexivity]. }
  rewrite Eg. unfold batch_windows. rewrite !Nat2Z.id. fold n.
  set (fr := fun r : list R => map (fun i => firstn W (skipn (i * H) r)) (seq 0 n)).
  rewrite (rows_of_flat_map n fr rows) by (intros y _; unfold fr; now rewrite map_length, seq_length).
  unfold fft_batch. cbn [Nat.ltb Nat.leb]. destruct (Nat.eqb_spec W 0); [lia|]. unfold fft_dim. rewrite (scale_std t _ r Hr Ht). cbn [bind fit_dims fit_dim]. unfold fdim_validate. cbn [scale_len]. rewrite Nat.eqb_refl. cbn [bind].
  eexists. split.
  { cbn [mk_timedim t_freq t_dur]. unfold spectrum_dim. do 5 f_equal. unfold mk_timedim. cbn [t_freq t_dur]. do 2 f_equal. destruct (Z.eqb_spec (sr_dur wsr) 0); [lia|]. destruct (Z.eqb_spec (sr_dur wsr) 0); [lia|reflexivity]. }
  rewrite !map_length. split; [reflexivity|]. intros b Hb. set (g := fun x : list R => map (rfft_ortho 0) (map (windowing wd) (fr x))). rewrite map_map, map_map. fold g.
  assert (Eb : nth b (map g rows) [] = g (nth b rows [])).
  { rewrite (nth_indep _ [] (g [])) by (now rewrite map_length). apply map_nth. }
  rewrite Eb. unfold g. set (x := nth b rows []). assert (Lx : length x = width) by (apply Hlen, nth_In, Hb).
  assert (Lf : length (fr x) = n) by (unfold fr; now rewrite map_length, seq_length). rewrite !map_length. split; [exact Lf|]. intros i Hi.
  assert (Ei : nth i (map (rfft_ortho 0) (map (windowing wd) (fr x))) [] = rfft_ortho 0 (windowing wd (firstn W (skipn (i * H) x)))).
  { rewrite (nth_indep _ [] (rfft_ortho 0 (windowing wd []))) by (now rewrite !map_length, Lf). rewrite map_nth, map_nth. unfold fr. now rewrite nth_map_seq. }
  rewrite Ei. assert (Hi2 : (i * H + W <= width)%nat).
  { assert (i <= (width - W) / H)%nat by (unfold n in Hi; lia). assert (i * H <= (width - W) / H * H)%nat by (apply Nat.mul_le_mono_r; assumption).
    pose proof (Nat.mul_div_le (width - W) H ltac:(lia)). lia. }
  assert (Lw : length (firstn W (skipn (i * H) x)) = W) by (rewrite firstn_length, skipn_length; lia).
  rewrite rfft_length, windowing_length, Lw, Nat.add_0_r. split; [reflexivity|]. intros k Hk.
  rewrite rfft_coeff by (rewrite windowing_length, Lw, Nat.add_0_r; exact Hk). rewrite windowing_length, Lw, Nat.add_0_r.
  apply dft_ext. intros j Hj. rewrite windowing_at by lia. rewrite Lw. f_equal. rewrite at_firstn. destruct (Nat.ltb_spec j W); [|lia]. apply at_skipn.
Qed.

(** the two agree on the frames the batch form has *)
Theorem batch_is_prefix t r wsr wd width rows W H ds out : In r standard_rates -> t_freq t = (10 ^ 12 / r)%Z -> t_dur t = t_freq t ->
  samples_in (t_freq t) (sr_dur wsr) = Z.of_nat W -> samples_in (t_freq t) (sr_freq wsr) = Z.of_nat H -> (2 <= W <= width)%nat -> (1 <= H <= W)%nat -> (0 < sr_dur wsr)%Z ->
  (forall x, In x rows -> length x = width) -> stft2 DIdent (DTime t) wsr (Some wd) width rows = Ok (ds, out) ->
  forall b, (b < length rows)%nat -> exists ds1 out1, stft1 t wsr (Some wd) (nth b rows []) = Ok (ds1, out1) /\
    nth b out [] = firstn ((width - W) / H + 1) out1 /\
    length (nth b out []) = ((width - W) / H + 1)%nat /\ length out1 = n_frames width W H.
Proof.
  intros Hr Ht Hd HW HH [W1 W2] [H1 H2] Pd Hlen E b Hb. assert (Hne : rows <> []) by (intros ->; cbn in Hb; lia).
  destruct (stft2_ok t r wsr wd width rows W H Hr Ht Hd HW HH ltac:(lia) H1 Pd Hne Hlen) as (out' & E' & Lo & C). rewrite E in E'. injection E' as -> ->. cbv zeta in C.
  destruct (stft1_ok t r wsr wd (nth b rows []) W H Hr Ht Hd HW HH W1 (conj H1 H2)) as (out1 & E1 & L1 & C1). cbv zeta in *.
  rewrite (Hlen (nth b rows [])) in * by (apply nth_In, Hb). eexists. exists out1. split; [exact E1|].
  set (m := ((width - W) / H + 1)%nat) in *. assert (Hm : (m <= n_frames width W H)%nat).
  { unfold n_frames, m. destruct (Nat.leb_spec width W) as [K|K].
    - replace (width - W)%nat with 0%nat by lia. rewrite Nat.div_0_l by lia. lia.
    - assert (G : ((width - W) / H + 1 <= width / H)%nat).
      { replace ((width - W) / H + 1)%nat with ((width - W + 1 * H) / H)%nat by (rewrite Nat.div_add by lia; reflexivity). apply Nat.div_le_mono; lia. }
      destruct (Nat.eqb W H); [|exact G]. etransitivity; [exact G|]. apply Nat.div_le_mono; lia. }
  destruct (C b Hb) as [Lb Cb]. split; [|split; [exact Lb|exact L1]].
  apply nth_ext with (d := []) (d' := []); [rewrite firstn_length, L1, Lb; lia|]. intros i Hi. rewrite Lb in Hi.
  assert (Ef : nth i (firstn m out1) [] = nth i out1 []).
  { rewrite <- (firstn_skipn m out1) at 2. rewrite app_nth1; [reflexivity|rewrite firstn_length, L1; lia]. }
  rewrite Ef. destruct (Cb i Hi) as [Li Ci]. destruct (C1 i ltac:(lia)) as [Li1 Ci1].
  apply nth_ext with (d := cz) (d' := cz); [congruence|]. intros k Hk. rewrite Li in Hk. rewrite Ci, Ci1 by lia. reflexivity.
Qed.
(** but the batch form has fewer frames: with frames that overlap by half it misses the last *)
Theorem batch_differs_refuted W H width : (1 <= H)%nat -> W = (2 * H)%nat -> (W < width)%nat -> (((width - W) / H + 1) + 1 = n_frames width W H)%nat.
Proof.
  intros H1 -> K. unfold n_frames. destruct (Nat.leb_spec width (2 * H)); [lia|]. destruct (Nat.eqb_spec (2 * H) H); [lia|].
  replace (width / H)%nat with ((width - 2 * H + 2 * H) / H)%nat by (f_equal; lia). rewrite Nat.div_add by lia. lia.
Qed.
(** a sample of the batch that lies in no frame *)
Theorem batch_drops_refuted W H width : (1 <= W <= width)%nat -> (1 <= H <= W)%nat ->
  (forall p, (p < width)%nat -> exists i, (i < (width - W) / H + 1)%nat /\ (i * H <= p < i * H + W)%nat) <-> ((width - W) mod H = 0)%nat.
Proof.
  intros [W1 W2] [H1 H2]. set (m := ((width - W) / H)%nat). assert (D := Nat.div_mod (width - W) H ltac:(lia)). fold m in D. pose proof (Nat.mod_upper_bound (width - W) H ltac:(lia)) as U.
  set (e := ((width - W) mod H)%nat) in *. split.
  - intros A. destruct (A (width - 1)%nat ltac:(lia)) as (i & Hi & B). assert (i * H <= m * H)%nat by (apply Nat.mul_le_mono_r; lia). lia.
  - intros E0 p Hp. destruct (Nat.lt_ge_cases p (m * H + W)) as [K|K]; [|lia]. exists (Nat.min m (p / H)). split; [lia|].
    pose proof (Nat.div_mod p H ltac:(lia)) as Dp. pose proof (Nat.mod_upper_bound p H ltac:(lia)) as Up. destruct (Nat.le_ge_cases m (p / H)) as [L|L].
    + rewrite Nat.min_l by lia. nia.
    + rewrite Nat.min_r by lia. nia.
Qed.
(** without a window function ([window=None] included) nothing can be transformed *)
Theorem stft_no_window_refuted t wsr x d0 d1 width rows :
  is_ok (stft1 t wsr None x) = false /\ is_ok (stft2 d0 d1 wsr None width rows) = false.
Proof.
  split.
  - unfold stft1. destruct (span_samples t (sr_dur wsr)); [|reflexivity]. cbn [bind]. destruct (span_samples t (sr_freq wsr)); [|reflexivity]. cbn [bind].
    destruct (windowed _ _ _ _ _) as [p|]; [|reflexivity]. cbn [bind]. destruct (snd p); [reflexivity|]. destruct (modified_dimension _ _ _); reflexivity.
  - unfold stft2. destruct d0; try reflexivity. destruct d1; try reflexivity. destruct (span_samples t0 (sr_dur wsr)); [|reflexivity]. cbn [bind]. destruct (span_samples t0 (sr_freq wsr)); [|reflexivity]. cbn [bind].
    destruct (_ || _)%bool; reflexivity.
Qed.
(** what is refused: a batch whose first dimension is not an identity, and signals shorter than
    a frame *)
Theorem stft2_refuses t wsr wd d0 width rows W : t_dur t = t_freq t -> (0 < t_freq t)%Z -> samples_in (t_freq t) (sr_dur wsr) = Z.of_nat W ->
  (d0 <> DIdent \/ (width < W)%nat \/ rows = []) -> stft2 d0 (DTime t) wsr (Some wd) width rows = Raise ValueError.
Proof.
  intros Hd Pf HW Hc. unfold stft2. destruct d0; try reflexivity. rewrite !span_ok by assumption. rewrite HW. cbn [bind].
  destruct Hc as [Hc|[Hc|Hc]]; [congruence| |].
  - destruct (Z.ltb_spec (Z.of_nat width) (Z.of_nat W)); [|lia]. now rewrite orb_true_r.
  - subst rows. reflexivity.
Qed.

(** ** examples *)
Definition at_11025 : timedim := mk_timedim (10 ^ 12 / 11025) None (Some 8%Z).
Example fft1_example : exists out, fft1 (DTime at_11025) 0 [1; 0; 0; 0] = Ok ([spectrum_dim 11025 4], out) /\ length out = 3%nat.
Proof. destruct (fft1_ok at_11025 11025 [1; 0; 0; 0]) as (out & E & L & _); [cbn; tauto|reflexivity|discriminate|]. exists out. split; [exact E|exact L]. Qed.
Definition frames_4_2 : samplerate := {| sr_freq := 2 * (10 ^ 12 / 11025); sr_dur := 4 * (10 ^ 12 / 11025) |}.
Example stft_example : exists out out2 ds ds2,
  stft1 at_11025 frames_4_2 (Some hanning) [1; 2; 3; 4; 5; 6; 7; 8; 9] = Ok (ds, out) /\ length out = 4%nat /\
  stft2 DIdent (DTime at_11025) frames_4_2 (Some hanning) 9 [[1; 2; 3; 4; 5; 6; 7; 8; 9]] = Ok (ds2, out2) /\ length (nth 0 out2 []) = 3%nat.
Proof.
  assert (Hr : In 11025%Z standard_rates) by (do 5 right; left; reflexivity).
  assert (Ht : t_freq at_11025 = (10 ^ 12 / 11025)%Z) by reflexivity. assert (Hd : t_dur at_11025 = t_freq at_11025) by reflexivity.
  assert (HW : samples_in (t_freq at_11025) (sr_dur frames_4_2) = Z.of_nat 4) by (vm_compute; reflexivity).
  assert (HH : samples_in (t_freq at_11025) (sr_freq frames_4_2) = Z.of_nat 2) by (vm_compute; reflexivity).
  set (x := [1; 2; 3; 4; 5; 6; 7; 8; 9]).
  destruct (stft1_ok at_11025 11025 frames_4_2 hanning x 4 2 Hr Ht Hd HW HH ltac:(lia) ltac:(lia)) as (out & E & L & _).
  assert (Pd : (0 < sr_dur frames_4_2)%Z) by (vm_compute; reflexivity). assert (Hne : [x] <> []) by discriminate.
  assert (Hl : forall y, In y [x] -> length y = 9%nat) by (intros y [<-|[]]; reflexivity).
  destruct (stft2_ok at_11025 11025 frames_4_2 hanning 9 [x] 4 2 Hr Ht Hd HW HH ltac:(lia) ltac:(lia) Pd Hne Hl) as (out2 & E2 & L2 & C).
  exists out, out2. eexists. eexists. split; [exact E|]. split; [exact L|]. split; [exact E2|]. exact (proj1 (C 0%nat ltac:(cbn; lia))).
Qed.
Example tone_example : exists s out, fft1 (DTime (mk_timedim (10 ^ 12 / 22050) None None)) 0 (map (tone 8 2 1 0) (seq 0 8)) = Ok ([DFreq s], out) /\
  exists i j, get_slice_band s (mkBand 5000 6000) = Ok (i, j) /\ (i <= 2 < j)%nat.
Proof.
  assert (Hr : In 22050%Z standard_rates) by (do 3 right; left; reflexivity).
  destruct (pure_tone (mk_timedim (10 ^ 12 / 22050) None None) 22050 8 2 1 0 Hr eq_refl eq_refl ltac:(lia) ltac:(lia)) as (s & out & E & _ & _ & _ & G).
  exists s, out. split; [exact E|]. apply G. unfold bin_hz. cbn. lra.
Qed.
