(** The frequency-adaptive transform followed by its synthesizer (C79). *)
From Verif Require Import PyBase PyFacts PyMore Time TimeProofs Freq FreqProofs FreqScaleProofs FreqDim FreqDimProofs PhaseShift PhaseShiftProofs Spectral SpectralProofs OverlapProofs TransformProofs ReconProofs SynthProofs Resample ResampleProofs Stft StftProofs TimeStretchProofs FreqAdapt FreqAdaptProofs FreqAdaptProofs2.
From Coq Require Import Reals Lra Lia.
Local Open Scope R_scope.

(** ** Specification: which of the bins a band takes, and with what weight *)
Fixpoint first_touched (q : band) (bins : list band) : nat :=
  match bins with [] => 0%nat | b :: r => if touched q b then 0%nat else S (first_touched q r) end.
Definition how_many (q : band) (bins : list band) : nat := length (filter (touched q) bins).
(** from the first bin the band touches, as many as it touches; one more if the number has to
    be even and is not *)
Definition band_bins (even : bool) (bins : list band) (q : band) : nat * nat :=
  (first_touched q bins, (first_touched q bins + how_many q bins + (if even && Nat.odd (how_many q bins) then 1 else 0))%nat).
(** the sum of the windows of the bands that take bin [k] of [N] *)
Definition gain (w : bwindow) (N : nat) (ps : list (nat * nat)) (k : nat) : R :=
  fold_right Rplus 0 (map (fun p => if inside p k then w (width N p) (k - fst p)%nat else 0) ps).
(** the same, without the bands of which [k] is the first or the last bin *)
Definition inner_gain (w : bwindow) (N : nat) (ps : list (nat * nat)) (k : nat) : R :=
  fold_right Rplus 0 (map (fun p => if inside p k then (if (Nat.eqb k (fst p) || Nat.eqb (k - fst p) (width N p - 1))%bool then 0 else w (width N p) (k - fst p)%nat) else 0) ps).
(** the bins of [N] coefficients below the Nyquist frequency *)
Definition spectrum_bins (sr : samplerate) (N : nat) : list band := map (lin_band (mkBand 0 (IZR (nyquist sr))) N) (seq 0 N).

(** ** the selection *)
Lemma first_touched_range q bins i j : (i < j <= length bins)%nat -> (forall k b, nth_error bins k = Some b -> (touched q b = true <-> (i <= k < j)%nat)) -> first_touched q bins = i.
Proof.
  revert i j. induction bins as [|b r IH]; intros i j Hij H; cbn [length] in *; [lia|]. cbn [first_touched]. pose proof (H 0%nat b eq_refl) as H0.
  destruct (touched q b) eqn:T.
  - destruct H0 as [H0 _]. specialize (H0 eq_refl). lia.
  - assert (i <> 0)%nat by (intros ->; destruct H0 as [_ H0]; specialize (H0 ltac:(lia)); discriminate).
    destruct i as [|i]; [lia|]. f_equal. apply (IH i (j - 1)%nat); [lia|]. intros k b' Hk. rewrite (H (S k) b' Hk). lia.
Qed.
Lemma select_linear fb n ae q : proper fb -> (2 <= n)%nat -> proper q -> let bins := map (lin_band fb n) (seq 0 n) in
  (how_many q bins <> 0)%nat -> select (Linear fb n ae) (Some q) = Ok (band_bins ae bins q) /\ (first_touched q bins + how_many q bins <= n)%nat.
Proof.
  intros Pf Hn Pq bins Hc. destruct (well_formed_bands (Linear fb n ae) (wf_linear fb n ae Pf Hn)) as (bs & Eb & Lb & Ho & Hp). assert (bs = bins) by (cbn [scale_bands] in Eb; rewrite linear_bands_ok in Eb by assumption; injection Eb as <-; reflexivity). subst bs. cbn [scale_len] in Lb.
  destruct (get_slice_range (Linear fb n ae) bins q Eb Ho) as (i & j & E & Li & Lj & Hle & H). pose proof (Hle Hp Pq) as Hij. rewrite Lb in *.
  assert (F : filter (touched q) bins = firstn (j - i) (skipn i bins)) by (apply filter_range; exact H).
  assert (C : how_many q bins = (j - i)%nat) by (unfold how_many; rewrite F, firstn_length, skipn_length, Lb; lia).
  assert (Fi : first_touched q bins = i) by (apply (first_touched_range q bins i j); [rewrite Lb; lia|exact H]).
  assert (O : negb (Z.even (Z.of_nat j - Z.of_nat i)) = Nat.odd (j - i)). { rewrite <- Nat2Z.inj_sub by lia. rewrite <- Nat.negb_even. f_equal. destruct (Nat.even (j - i)) eqn:Ev; [apply Z.even_spec; apply Nat.even_spec in Ev as [m Em]; exists (Z.of_nat m); lia|]. destruct (Z.even (Z.of_nat (j - i))) eqn:Zv; [|reflexivity]. apply Z.even_spec in Zv as [m Em]. assert (Nat.even (j - i) = true) by (apply Nat.even_spec; exists (Z.to_nat m); lia). congruence. }
  split; [|lia]. unfold select, scale_slice. cbn [get_slice]. rewrite E. cbn [bind]. rewrite Eb. cbn [bind scale_even]. rewrite O.
  rewrite apply_nat_slice. cbn [construct_from_slice]. set (j' := if ae && Nat.odd (j - i) then S j else j). assert (Hj : (i < j')%nat) by (unfold j'; destruct (ae && Nat.odd (j - i)); lia).
  assert (Sb : exists b, span_band (firstn (j' - i) (skipn i bins)) = Ok b).
  { set (l := firstn (j' - i) (skipn i bins)). assert (Ll : length l = Nat.min (j' - i) (n - i)) by (unfold l; rewrite firstn_length, skipn_length, Lb; reflexivity).
    assert (Nl : l <> []) by (intros El; rewrite El in Ll; cbn in Ll; lia).
    destruct (span_band_ok l (mkBand 0 1) Nl) as [Sp _]; [|unfold l; apply ordered_sub; exact Ho|eexists; exact Sp].
    rewrite Forall_forall in Hp. apply Hp. assert (I : In (nth 0 l (mkBand 0 1)) l) by (apply nth_In; lia).
    unfold l in I at 2. rewrite <- (firstn_skipn i bins). apply in_or_app. right. rewrite <- (firstn_skipn (j' - i) (skipn i bins)). apply in_or_app. now left. }
  destruct Sb as [b Sb]. rewrite Sb. cbn [bind]. f_equal. unfold band_bins. rewrite Fi, C. f_equal. unfold j'. destruct (ae && Nat.odd (j - i)); lia.
Qed.

Lemma select_nothing fb n ae q : proper fb -> (2 <= n)%nat -> proper q ->
  how_many q (map (lin_band fb n) (seq 0 n)) = 0%nat -> select (Linear fb n ae) (Some q) = Raise IndexError.
Proof.
  intros Pf Hn Pq Hc. set (bins := map (lin_band fb n) (seq 0 n)) in *. destruct (well_formed_bands (Linear fb n ae) (wf_linear fb n ae Pf Hn)) as (bs & Eb & Lb & Ho & Hp). assert (bs = bins) by (cbn [scale_bands] in Eb; rewrite linear_bands_ok in Eb by assumption; injection Eb as <-; reflexivity). subst bs. cbn [scale_len] in Lb.
  destruct (get_slice_range (Linear fb n ae) bins q Eb Ho) as (i & j & E & Li & Lj & Hle & H). pose proof (Hle Hp Pq) as Hij. rewrite Lb in *.
  assert (F : filter (touched q) bins = firstn (j - i) (skipn i bins)) by (apply filter_range; exact H).
  assert (C : (j - i)%nat = 0%nat) by (unfold how_many in Hc; rewrite F, firstn_length, skipn_length, Lb in Hc; lia). assert (j = i) by lia. subst j.
  unfold select, scale_slice. cbn [get_slice]. rewrite E. cbn [bind]. rewrite Eb. cbn [bind scale_even]. rewrite Z.sub_diag. cbn [Z.even negb]. rewrite andb_false_r. rewrite apply_nat_slice, Nat.sub_diag. reflexivity.
Qed.
Lemma band_bins_width even fb n q : let bins := map (lin_band fb n) (seq 0 n) in (first_touched q bins + how_many q bins <= n)%nat ->
  (how_many q bins <= width n (band_bins even bins q) <= how_many q bins + 1)%nat /\ (even = false -> width n (band_bins even bins q) = how_many q bins).
Proof. intros bins H. unfold width, band_bins. cbn [fst snd]. destruct (even && Nat.odd (how_many q bins)) eqn:O; split; try lia; try (intros Ev; rewrite Ev in O; discriminate). Qed.

(** ** the weights *)
Lemma cut_w {A} N p (row : list A) : length row = N -> length (cut p row) = width N p.
Proof. intros L. rewrite cut_length, L. unfold width. lia. Qed.
Lemma gathered_dct w N row ps k v : length row = N -> (k < N)%nat ->
  gathered 0 Rmult Rplus (fun r => r) w ps row k v = v + gain (the_window w) N ps k * at_ row k.
Proof.
  intros L Hk. unfold gathered, gain. revert v. induction ps as [|p ps IH]; intros v; cbn [fold_left map fold_right]; [ring|]. rewrite IH.
  destruct (inside p k) eqn:I; [|ring]. unfold inside in I. apply andb_prop in I as [I1 I2]. apply Nat.leb_le in I1. apply Nat.ltb_lt in I2.
  unfold piece, window_row. rewrite (cut_w N p row L). set (f := fun i => _). rewrite (nth_indep _ 0 (f 0%nat)) by (rewrite map_length, seq_length; unfold width; lia). rewrite (map_nth f), seq_nth by (unfold width; lia). unfold f. rewrite cut_nth by (rewrite ?L; lia).
  replace (fst p + (0 + (k - fst p)))%nat with k by lia. replace (0 + (k - fst p))%nat with (k - fst p)%nat by lia. unfold at_. ring.
Qed.
Lemma gathered_fft w N row ps k v : length row = N -> (k < N)%nat -> Forall (fun p => (2 <= width N p)%nat) ps ->
  gathered cz cscale cadd real_ends w ps row k v = (fst v + gain (the_window w) N ps k * fst (nth k row cz), snd v + inner_gain (the_window w) N ps k * snd (nth k row cz)).
Proof.
  intros L Hk F. unfold gathered, gain, inner_gain. revert v. induction F as [|p ps V F IH]; intros [vr vi]; cbn [fold_left map fold_right fst snd]; [f_equal; ring|].
  rewrite IH. clear IH. destruct (inside p k) eqn:I; [|cbn [fst snd]; f_equal; ring]. unfold inside in I. apply andb_prop in I as [I1 I2]. apply Nat.leb_le in I1. apply Nat.ltb_lt in I2.
  unfold piece, real_ends. rewrite window_row_length, (cut_w N p row L). set (g := fun i => _). rewrite (nth_indep _ cz (g 0%nat)) by (rewrite map_length, seq_length; unfold width; lia). rewrite (map_nth g), seq_nth by (unfold width; lia). unfold g. clear g.
  unfold window_row. rewrite (cut_w N p row L). set (f := fun i => _). rewrite (nth_indep _ cz (f 0%nat)) by (rewrite map_length, seq_length; unfold width; lia). rewrite (map_nth f), seq_nth by (unfold width; lia). unfold f. rewrite cut_nth by (rewrite ?L; lia).
  replace (fst p + (0 + (0 + (k - fst p))))%nat with k by lia. replace (0 + (0 + (k - fst p)))%nat with (k - fst p)%nat by lia. replace (0 + (k - fst p))%nat with (k - fst p)%nat by lia. unfold cscale, cadd. cbn [fst snd].
  replace (Nat.eqb (k - fst p) 0) with (Nat.eqb k (fst p)) by (apply eq_true_iff_eq; rewrite !Nat.eqb_eq; lia). destruct (Nat.eqb k (fst p) || Nat.eqb (k - fst p) (width N p - 1))%bool; f_equal; ring.
Qed.

(** ** the whole way *)
Lemma nyq_proper sr : (0 < nyquist sr)%Z -> proper (mkBand 0 (IZR (nyquist sr))).
Proof. intros H. unfold proper. cbn [bstart bstop]. now apply (IZR_lt 0). Qed.
Lemma from_sample_rate_ok sr n ae : (0 < nyquist sr)%Z -> from_sample_rate sr n ae = Ok (Linear (mkBand 0 (IZR (nyquist sr))) n ae).
Proof. intros H. unfold from_sample_rate, make_band. apply (IZR_lt 0) in H. destruct (Rleb (IZR (nyquist sr)) 0) eqn:E; [apply Rleb_true in E; lra|reflexivity]. Qed.
Lemma list_of_nth {A} (d : A) f o N : length o = N -> (forall k, (k < N)%nat -> nth k o d = f k) -> o = map f (seq 0 N).
Proof. intros L H. apply nth_ext with (d := d) (d' := f 0%nat); [now rewrite map_length, seq_length|]. intros k Hk. rewrite (map_nth f), seq_nth by lia. apply H. lia. Qed.
Lemma out_rows {A} (d : A) (F : list A -> nat -> A) N (rows out : list (list A)) : length out = length rows ->
  (forall i row, nth_error rows i = Some row -> exists o, nth_error out i = Some o /\ length o = N /\ forall k, (k < N)%nat -> nth k o d = F row k) ->
  out = map (fun row => map (F row) (seq 0 N)) rows.
Proof.
  revert out. induction rows as [|row rows IH]; intros [|o out] L H; try discriminate; [reflexivity|]. cbn [map]. f_equal.
  - destruct (H 0%nat row eq_refl) as (o' & E & Lo & K). injection E as <-. now apply (list_of_nth d).
  - apply IH; [now injection L|]. intros i r Hr. exact (H (S i) r Hr).
Qed.
Lemma selections ae sr N qs (valid : nat -> Prop) : (0 < nyquist sr)%Z -> (2 <= N)%nat -> Forall proper qs ->
  (forall q, In q qs -> how_many q (spectrum_bins sr N) <> 0%nat /\ valid (width N (band_bins ae (spectrum_bins sr N) q))) ->
  Forall2 (fun q p => select (Linear (mkBand 0 (IZR (nyquist sr))) N ae) (Some q) = Ok p /\ valid (width N p)) qs (map (band_bins ae (spectrum_bins sr N)) qs).
Proof.
  intros Hny HN Hp H. induction Hp as [|q qs Pq Hp IH]; cbn [map]; constructor.
  - destruct (H q (or_introl eq_refl)) as [Hc V]. split; [|exact V]. apply (select_linear _ N ae q (nyq_proper sr Hny) HN Pq Hc).
  - apply IH. intros q' Hq. apply H. now right.
Qed.

Theorem adaptive_dct_roundtrip self qs sr td w data N :
  scale_bands self = Ok qs -> Forall proper qs -> qs <> [] -> NoDup qs ->
  (0 < nyquist sr)%Z -> raw_samples sr (t_dur td) = N -> (2 <= N)%nat -> cols data = N -> shaped data ->
  (forall q, In q qs -> exists b, In b (spectrum_bins sr N) /\ touched q b = true) ->
  exists fa, adaptive_transform 0 Rmult along_idct w (Linear (mkBand 0 (IZR (nyquist sr))) N true) data self = Ok fa /\
    adaptive_dct_synthesize self sr td fa =
    dct_synthesize (fun _ => None) td (map (fun row => map (fun k => gain (the_window w) N (map (band_bins true (spectrum_bins sr N)) qs) k * at_ row k) (seq 0 N)) (rows data)).
Proof.
  intros Eb Hp Hq Nd Hny Hr HN Hc Hs Ht. set (lin := Linear (mkBand 0 (IZR (nyquist sr))) N true).
  destruct (adaptive_roundtrip 0 Rmult Rplus along_idct along_dct (fun r => r) (fun n => n <> 0%nat)) with (w := w) (s := lin) (data := data) (N := N) (self := self) (qs := qs) (ps := map (band_bins true (spectrum_bins sr N)) qs) as (fa & out & Efa & Eo & Lo & K); try assumption; try reflexivity.
  - intros row V. exists (idct2_ortho row), (length row). cbn [arow acols along_idct along_dct]. destruct (Nat.eqb_spec (length row) 0); [contradiction|]. rewrite dct2_idct2. pose proof (idct2_length row) as L. auto 8.
  - apply (selections true sr N qs (fun n => n <> 0%nat)); try assumption. intros q Hin. destruct (Ht q Hin) as (b & Hb & T). assert (C : how_many q (spectrum_bins sr N) <> 0%nat). { unfold how_many. intros E. apply length_zero_iff_nil in E. assert (I : In b (filter (touched q) (spectrum_bins sr N))) by (apply filter_In; now split). rewrite E in I. destruct I. }
    split; [exact C|]. rewrite Forall_forall in Hp. destruct (select_linear _ N true q (nyq_proper sr Hny) HN (Hp q Hin) C) as [_ B]. destruct (band_bins_width true _ N q B) as [W _]. fold (spectrum_bins sr N) in W. lia.
  - exists fa. split; [exact Efa|]. unfold adaptive_dct_synthesize. rewrite Hr, from_sample_rate_ok by exact Hny. cbn [bind]. fold lin. rewrite Eo. cbn [bind]. f_equal.
    apply (out_rows 0 (fun row k => gain (the_window w) N (map (band_bins true (spectrum_bins sr N)) qs) k * at_ row k) N); [exact Lo|]. intros i row Hrow. destruct (K i row Hrow) as (o & Eo' & Lo' & Ko). exists o. split; [exact Eo'|]. split; [exact Lo'|]. intros k Hk. rewrite (Ko k Hk).
    unfold shaped in Hs. rewrite Forall_forall in Hs. rewrite (gathered_dct w N) by (try exact Hk; rewrite (Hs row (nth_error_In _ _ Hrow)); exact Hc). ring.
Qed.

Theorem adaptive_fft_roundtrip self qs sr td w data N :
  scale_bands self = Ok qs -> Forall proper qs -> qs <> [] -> NoDup qs ->
  (0 < nyquist sr)%Z -> (raw_samples sr (t_dur td) / 2 + 1)%nat = N -> (2 <= N)%nat -> cols data = N -> shaped data ->
  (forall q, In q qs -> (2 <= how_many q (spectrum_bins sr N))%nat) ->
  exists fa, adaptive_transform cz cscale along_irfft w (Linear (mkBand 0 (IZR (nyquist sr))) N false) data self = Ok fa /\
    adaptive_fft_synthesize self sr td fa =
    fft_synthesize td (map (fun row => map (fun k => (gain (the_window w) N (map (band_bins false (spectrum_bins sr N)) qs) k * fst (nth k row cz),
                                                     inner_gain (the_window w) N (map (band_bins false (spectrum_bins sr N)) qs) k * snd (nth k row cz))) (seq 0 N)) (rows data)).
Proof.
  intros Eb Hp Hq Nd Hny Hr HN Hc Hs Ht. set (lin := Linear (mkBand 0 (IZR (nyquist sr))) N false).
  assert (V2 : forall q, In q qs -> how_many q (spectrum_bins sr N) <> 0%nat /\ (2 <= width N (band_bins false (spectrum_bins sr N) q))%nat).
  { intros q Hin. pose proof (Ht q Hin) as C. split; [lia|]. rewrite Forall_forall in Hp. assert (C' : how_many q (spectrum_bins sr N) <> 0%nat) by lia. destruct (select_linear _ N false q (nyq_proper sr Hny) HN (Hp q Hin) C') as [_ B]. destruct (band_bins_width false _ N q B) as [W _]. fold (spectrum_bins sr N) in W. lia. }
  destruct (adaptive_roundtrip cz cscale cadd along_irfft along_rfft real_ends (fun n => (2 <= n)%nat)) with (w := w) (s := lin) (data := data) (N := N) (self := self) (qs := qs) (ps := map (band_bins false (spectrum_bins sr N)) qs) as (fa & out & Efa & Eo & Lo & K); try assumption; try reflexivity.
  - intros row V. destruct (rfft_irfft row V) as (x & E1 & Lx & E2). exists x, (2 * (length row - 1))%nat. cbn [arow acols along_irfft along_rfft]. destruct (Nat.eqb_spec (2 * (length row - 1)) 0); [lia|]. rewrite E1, E2. split; [reflexivity|]. split; [reflexivity|]. split; [exact Lx|]. split; [reflexivity|]. split; [|unfold real_ends; now rewrite map_length, seq_length].
    f_equal. rewrite (Nat.mul_comm 2), Nat.div_mul by lia. lia.
  - apply selections with (valid := fun n => (2 <= n)%nat); assumption.
  - exists fa. split; [exact Efa|]. unfold adaptive_fft_synthesize. rewrite Hr, from_sample_rate_ok by exact Hny. cbn [bind]. fold lin. match goal with |- bind ?x _ = _ => change x with (adaptive_coeffs cz cadd along_rfft self lin fa) end. rewrite Eo. cbn [bind]. f_equal.
    apply (out_rows cz (fun row k => (gain (the_window w) N (map (band_bins false (spectrum_bins sr N)) qs) k * fst (nth k row cz), inner_gain (the_window w) N (map (band_bins false (spectrum_bins sr N)) qs) k * snd (nth k row cz))) N); [exact Lo|]. intros i row Hrow. destruct (K i row Hrow) as (o & Eo' & Lo' & Ko). exists o. split; [exact Eo'|]. split; [exact Lo'|]. intros k Hk. rewrite (Ko k Hk).
    unfold shaped in Hs. rewrite Forall_forall in Hs. rewrite (gathered_fft w N); [cbn [fst snd]; f_equal; ring|rewrite (Hs row (nth_error_In _ _ Hrow)); exact Hc|exact Hk|].
    apply Forall_forall. intros p Hpin. apply in_map_iff in Hpin as (q & <- & Hin). apply (V2 q Hin).
Qed.

(** ** what the weights are *)
Lemma gain_uncovered w N ps k : (forall p, In p ps -> inside p k = false) -> gain w N ps k = 0 /\ inner_gain w N ps k = 0.
Proof. unfold gain, inner_gain. induction ps as [|p ps IH]; intros H; cbn [map fold_right]; [auto|]. rewrite (H p (or_introl eq_refl)). destruct IH as [E1 E2]; [intros; apply H; now right|]. rewrite E1, E2. lra. Qed.
Lemma gain_ones N ps k : gain (the_window None) N ps k = INR (length (filter (fun p => inside p k) ps)).
Proof. unfold gain, the_window. induction ps as [|p ps IH]; cbn [map fold_right filter]; [reflexivity|]. rewrite IH. destruct (inside p k); cbn [length]; rewrite ?S_INR; ring. Qed.
(** a window that is zero at both ends, as np.hanning *)
Lemma gain_closed w N ps k : (forall n, (2 <= n)%nat -> w n 0%nat = 0 /\ w n (n - 1)%nat = 0) -> Forall (fun p => (2 <= width N p)%nat) ps ->
  inner_gain w N ps k = gain w N ps k.
Proof.
  intros H F. unfold gain, inner_gain. induction F as [|p ps V F IH]; cbn [map fold_right]; [reflexivity|]. rewrite IH. f_equal. destruct (inside p k); [|reflexivity]. destruct (H _ V) as [H0 H1].
  destruct (Nat.eqb_spec k (fst p)) as [->|_]; cbn [orb]; [now rewrite Nat.sub_diag|]. destruct (Nat.eqb_spec (k - fst p) (width N p - 1)) as [->|_]; [now rewrite H1|reflexivity].
Qed.

Definition np_hanning : bwindow := fun n i => if Nat.eqb n 1 then 1 else 1 / 2 - 1 / 2 * cos (2 * PI * INR i / INR (n - 1)).
Lemma hanning_closed n : (2 <= n)%nat -> np_hanning n 0%nat = 0 /\ np_hanning n (n - 1)%nat = 0.
Proof.
  intros H. unfold np_hanning. destruct (Nat.eqb_spec n 1); [lia|]. split.
  - replace (2 * PI * INR 0 / INR (n - 1)) with 0 by (cbn [INR]; unfold Rdiv; ring). rewrite cos_0. lra.
  - replace (2 * PI * INR (n - 1) / INR (n - 1)) with (2 * PI) by (field; apply not_0_INR; lia). rewrite cos_2PI. lra.
Qed.

(** every bin with weight one: the synthesizer sees the coefficients themselves *)
Theorem adaptive_dct_exact self qs sr td w data N :
  scale_bands self = Ok qs -> Forall proper qs -> qs <> [] -> NoDup qs ->
  (0 < nyquist sr)%Z -> raw_samples sr (t_dur td) = N -> (2 <= N)%nat -> cols data = N -> shaped data ->
  (forall q, In q qs -> exists b, In b (spectrum_bins sr N) /\ touched q b = true) ->
  (forall k, (k < N)%nat -> gain (the_window w) N (map (band_bins true (spectrum_bins sr N)) qs) k = 1) ->
  exists fa, adaptive_transform 0 Rmult along_idct w (Linear (mkBand 0 (IZR (nyquist sr))) N true) data self = Ok fa /\
    adaptive_dct_synthesize self sr td fa = dct_synthesize (fun _ => None) td (rows data).
Proof.
  intros Eb Hp Hq Nd Hny Hr HN Hc Hs Ht G. destruct (adaptive_dct_roundtrip self qs sr td w data N Eb Hp Hq Nd Hny Hr HN Hc Hs Ht) as (fa & E1 & E2). exists fa. split; [exact E1|]. rewrite E2. f_equal.
  rewrite <- (map_id (rows data)) at 2. apply map_ext_in. intros row Hin. unfold shaped in Hs. rewrite Forall_forall in Hs. symmetry. apply (list_of_nth 0); [rewrite (Hs row Hin); exact Hc|]. intros k Hk. rewrite (G k Hk). unfold at_. ring.
Qed.

(** ** failures *)
Lemma process_none {A B} zero mul (t : along A B) w fb N ae data q : proper fb -> (2 <= N)%nat -> proper q -> how_many q (map (lin_band fb N) (seq 0 N)) = 0%nat ->
  process_band zero mul t w (Linear fb N ae) data q = Raise ValueError.
Proof. intros Pf HN Pq H. unfold process_band. rewrite select_nothing by assumption. reflexivity. Qed.
Lemma mapM_raise {A B} (f : A -> result B) e l x : In x l -> f x = Raise e -> (forall y, In y l -> f y = Raise e \/ exists v, f y = Ok v) -> mapM f l = Raise e.
Proof.
  induction l as [|y l IH]; intros Hin Hx H; [destruct Hin|]. cbn [mapM]. destruct (H y (or_introl eq_refl)) as [E|[v E]]; rewrite E; cbn [bind]; [reflexivity|].
  destruct Hin as [->|Hin]; [congruence|]. rewrite IH; [reflexivity|exact Hin|exact Hx|]. intros z Hz. apply H. now right.
Qed.
Lemma process_irfft_cases w fb N data q : proper fb -> (2 <= N)%nat -> proper q -> cols data = N -> shaped data ->
  (2 <= how_many q (map (lin_band fb N) (seq 0 N)) -> exists y, process_band cz cscale along_irfft w (Linear fb N false) data q = Ok y)%nat /\
  (how_many q (map (lin_band fb N) (seq 0 N)) < 2 -> process_band cz cscale along_irfft w (Linear fb N false) data q = Raise ValueError)%nat.
Proof.
  intros Pf HN Pq Hc Hs. set (bins := map (lin_band fb N) (seq 0 N)) in *.
  assert (RT : forall row : list cplx, (2 <= length row)%nat -> exists y m, arow along_irfft row = Ok y /\ acols along_irfft (length row) = Ok m /\ length y = m /\ arow along_rfft y = Ok (real_ends row) /\ acols along_rfft m = Ok (length row) /\ length (real_ends row) = length row).
  { intros row V. destruct (rfft_irfft row V) as (x & E1 & Lx & E2). exists x, (2 * (length row - 1))%nat. cbn [arow acols along_irfft along_rfft]. destruct (Nat.eqb_spec (2 * (length row - 1)) 0); [lia|]. rewrite E1, E2. split; [reflexivity|]. split; [reflexivity|]. split; [exact Lx|]. split; [reflexivity|]. split; [|unfold real_ends; now rewrite map_length, seq_length].
    f_equal. rewrite (Nat.mul_comm 2), Nat.div_mul by lia. lia. }
  split; intros C.
  - assert (C' : how_many q bins <> 0%nat) by lia. destruct (select_linear fb N false q Pf HN Pq C') as [Es B]. destruct (band_bins_width false fb N q B) as [_ W]. fold bins in W.
    destruct (band_ok cz cscale along_irfft along_rfft real_ends (fun n => (2 <= n)%nat) RT w (Linear fb N false) data N Hc Hs q (band_bins false bins q) Es) as (y & Ey & _); [rewrite (W eq_refl); exact C|]. now exists y.
  - destruct (Nat.eq_dec (how_many q bins) 0) as [Z|NZ]; [now apply process_none|].
    destruct (select_linear fb N false q Pf HN Pq NZ) as [Es B]. destruct (band_bins_width false fb N q B) as [_ W]. fold bins in W, Es. unfold process_band. rewrite Es. cbn [bind]. unfold apply_along, col_slice. cbn [cols]. rewrite Hc. fold (width N (band_bins false bins q)). rewrite (W eq_refl).
    cbn [acols along_irfft]. replace (2 * (how_many q bins - 1))%nat with 0%nat by lia. reflexivity.
Qed.
Theorem adaptive_fft_needs_two self qs fb N w data : scale_bands self = Ok qs -> Forall proper qs -> proper fb -> (2 <= N)%nat -> cols data = N -> shaped data ->
  (exists q, In q qs /\ (how_many q (map (lin_band fb N) (seq 0 N)) < 2)%nat) -> adaptive_transform cz cscale along_irfft w (Linear fb N false) data self = Raise ValueError.
Proof.
  intros Eb Hp Pf HN Hc Hs (q & Hin & C). unfold adaptive_transform. rewrite Eb. cbn [bind]. rewrite Forall_forall in Hp. rewrite (mapM_raise _ ValueError qs q Hin); [reflexivity|apply process_irfft_cases; auto|].
  intros y Hy. destruct (process_irfft_cases w fb N data y Pf HN (Hp y Hy) Hc Hs) as [K1 K2]. destruct (Nat.le_gt_cases 2 (how_many y (map (lin_band fb N) (seq 0 N)))); [right; auto|left; auto].
Qed.
Theorem adaptive_dct_needs_one self qs fb N ae w data : scale_bands self = Ok qs -> Forall proper qs -> proper fb -> (2 <= N)%nat -> cols data = N -> shaped data ->
  (exists q, In q qs /\ forall b, In b (map (lin_band fb N) (seq 0 N)) -> touched q b = false) -> adaptive_transform 0 Rmult along_idct w (Linear fb N ae) data self = Raise ValueError.
Proof.
  intros Eb Hp Pf HN Hc Hs (q & Hin & C). unfold adaptive_transform. rewrite Eb. cbn [bind]. rewrite Forall_forall in Hp.
  assert (Z : how_many q (map (lin_band fb N) (seq 0 N)) = 0%nat). { unfold how_many. destruct (filter (touched q) (map (lin_band fb N) (seq 0 N))) as [|b l] eqn:E; [reflexivity|]. assert (I : In b (filter (touched q) (map (lin_band fb N) (seq 0 N)))) by (rewrite E; now left). apply filter_In in I as [I1 I2]. rewrite (C b I1) in I2. discriminate. }
  rewrite (mapM_raise _ ValueError qs q Hin); [reflexivity|apply process_none; auto|].
  intros y Hy. unfold process_band. destruct (Nat.eq_dec (how_many y (map (lin_band fb N) (seq 0 N))) 0) as [Z'|NZ]; [rewrite select_nothing by auto; now left|].
  destruct (select_linear fb N ae y Pf HN (Hp y Hy) NZ) as [Es B]. rewrite Es. cbn [bind]. unfold apply_along. cbn [along_idct acols arow cols]. destruct (Nat.eqb (cols (col_slice _ data)) 0); [now left|]. right. cbn [bind].
  rewrite (mapM_ok _ idct2_ortho) by reflexivity. eexists. reflexivity.
Qed.

Theorem adaptive_fft_exact self qs sr td w data N :
  scale_bands self = Ok qs -> Forall proper qs -> qs <> [] -> NoDup qs ->
  (0 < nyquist sr)%Z -> (raw_samples sr (t_dur td) / 2 + 1)%nat = N -> (2 <= N)%nat -> cols data = N -> shaped data ->
  (forall q, In q qs -> (2 <= how_many q (spectrum_bins sr N))%nat) ->
  (forall k, (k < N)%nat -> gain (the_window w) N (map (band_bins false (spectrum_bins sr N)) qs) k = 1) ->
  (forall k row, (k < N)%nat -> In row (rows data) -> inner_gain (the_window w) N (map (band_bins false (spectrum_bins sr N)) qs) k = 1 \/ snd (nth k row cz) = 0) ->
  exists fa, adaptive_transform cz cscale along_irfft w (Linear (mkBand 0 (IZR (nyquist sr))) N false) data self = Ok fa /\
    adaptive_fft_synthesize self sr td fa = fft_synthesize td (rows data).
Proof.
  intros Eb Hp Hq Nd Hny Hr HN Hc Hs Ht G I. destruct (adaptive_fft_roundtrip self qs sr td w data N Eb Hp Hq Nd Hny Hr HN Hc Hs Ht) as (fa & E1 & E2). exists fa. split; [exact E1|]. rewrite E2. f_equal.
  rewrite <- (map_id (rows data)) at 2. apply map_ext_in. intros row Hin. unfold shaped in Hs. rewrite Forall_forall in Hs. symmetry. apply (list_of_nth cz); [rewrite (Hs row Hin); exact Hc|]. intros k Hk. rewrite (G k Hk).
  destruct (nth k row cz) as [a b] eqn:En. cbn [fst snd]. f_equal; [ring|]. destruct (I k row Hk Hin) as [E|E]; [rewrite E; ring|rewrite En in E; cbn [snd] in E; rewrite E; ring].
Qed.
(** np.hanning: the lowest and the highest bin always get nothing *)
Theorem hanning_ends N ps : Forall (fun p => (2 <= width N p)%nat) ps -> gain np_hanning N ps 0 = 0 /\ gain np_hanning N ps (N - 1) = 0.
Proof.
  intros F. unfold gain. induction F as [|p ps V F [IH1 IH2]]; cbn [map fold_right]; [auto|]. rewrite IH1, IH2. destruct (hanning_closed _ V) as [H0 H1]. split.
  - destruct (inside p 0) eqn:I; [|ring]. replace (0 - fst p)%nat with 0%nat by lia. rewrite H0. ring.
  - destruct (inside p (N - 1)) eqn:I; [|ring]. unfold inside in I. apply andb_prop in I as [I1 I2]. apply Nat.leb_le in I1. apply Nat.ltb_lt in I2. replace (N - 1 - fst p)%nat with (width N p - 1)%nat by (unfold width; lia). rewrite H1. ring.
Qed.

(** ** how many coefficients the synthesizer expects *)
Lemma raw_samples_exact sr W : (0 < sr_freq sr)%Z -> raw_samples sr (Z.of_nat W * sr_freq sr) = W.
Proof. intros H. unfold raw_samples. rewrite Z.div_mul by lia. lia. Qed.
Lemma raw_samples_second r : In r standard_rates -> raw_samples {| sr_freq := 10 ^ 12 / r; sr_dur := 10 ^ 12 / r |} (10 ^ 12) = Z.to_nat r.
Proof. intros H. unfold raw_samples. cbn [sr_freq]. f_equal. cbn in H. repeat (destruct H as [<-|H]; [reflexivity|]). destruct H. Qed.
(** 23 milliseconds at 44100 samples per second: windows of 1015 samples, 1014 coefficients *)
Lemma raw_samples_short : samples_in (10 ^ 12 / 44100) (23 * 10 ^ 9) = 1015%Z /\ Z.of_nat (raw_samples {| sr_freq := 10 ^ 12 / 44100; sr_dur := 10 ^ 12 / 44100 |} (23 * 10 ^ 9)) = 1014%Z.
Proof. split; [reflexivity|]. unfold raw_samples. cbn [sr_freq]. rewrite Z2Nat.id; [reflexivity|]. vm_compute. discriminate. Qed.

(** ** cases *)
Lemma touched_yes q b : bstart b < bstop q -> bstart q <= bstop b -> touched q b = true.
Proof. intros. unfold touched. apply andb_true_intro. split; [now apply Rltb_true|now apply Rleb_true]. Qed.
Lemma touched_no q b : bstop q <= bstart b \/ bstop b < bstart q -> touched q b = false.
Proof. intros [H|H]; unfold touched; [apply andb_false_intro1; now apply Rltb_false|apply andb_false_intro2; destruct (Rleb (bstart q) (bstop b)) eqn:E; [apply Rleb_true in E; lra|reflexivity]]. Qed.
Definition demo_rate : samplerate := {| sr_freq := 125000000000; sr_dur := 125000000000 |}.
Lemma demo_spectrum : nyquist demo_rate = 4%Z /\ spectrum_bins demo_rate 4 = [mkBand 0 1; mkBand 1 2; mkBand 2 3; mkBand 3 4].
Proof.
  assert (E : nyquist demo_rate = 4%Z) by reflexivity. split; [exact E|]. unfold spectrum_bins. rewrite E. assert (W : lin_width (mkBand 0 4) 4 = 1) by (unfold lin_width; cbn [bstart bstop INR]; lra). cbn [seq map]. unfold lin_band. rewrite W. cbn [bstart bstop INR Nat.add]. repeat f_equal; lra.
Qed.
Ltac touch := repeat first [rewrite touched_yes by (cbn [bstart bstop]; lra) | rewrite touched_no by (cbn [bstart bstop]; lra)].
Lemma demo_bins even : let bins := spectrum_bins demo_rate 4 in
  band_bins even bins (mkBand 0 (3 / 2)) = (0, 2)%nat /\ how_many (mkBand 0 (3 / 2)) bins = 2%nat /\
  band_bins even bins (mkBand (5 / 2) 4) = (2, 4)%nat /\ how_many (mkBand (5 / 2) 4) bins = 2%nat /\
  band_bins even bins (mkBand 0 2) = (0, 2)%nat /\ how_many (mkBand 0 2) bins = 2%nat /\
  band_bins even bins (mkBand 2 4) = (1, if even then 5 else 4)%nat /\ how_many (mkBand 2 4) bins = 3%nat.
Proof.
  cbv zeta. rewrite (proj2 demo_spectrum). unfold band_bins, how_many. cbn [first_touched filter]. touch. cbn [length Nat.odd Nat.even andb negb Nat.add]. destruct even; cbn; auto 12.
Qed.

Definition demo_td (hop : Z) (W : Z) : timedim := {| t_freq := hop * 125000000000; t_dur := W * 125000000000; t_size := None |}.
Lemma demo_proper : Forall proper [mkBand 0 (3 / 2); mkBand (5 / 2) 4; mkBand 0 2; mkBand 2 4].
Proof. repeat constructor; unfold proper; cbn [bstart bstop]; lra. Qed.
Lemma nodup2 (a b : band) : bstart a <> bstart b -> NoDup [a; b].
Proof. intros H. constructor; [|constructor; [intros []|constructor]]. intros [E|[]]. rewrite E in H. contradiction. Qed.
(** two bands that take two bins each: nothing is lost *)
Example adaptive_dct_example rows hop : Forall (fun r => length r = 4%nat) rows ->
  exists fa, adaptive_transform 0 Rmult along_idct None (Linear (mkBand 0 4) 4 true) (mkArr 4 rows) (Explicit [mkBand 0 (3 / 2); mkBand (5 / 2) 4]) = Ok fa /\
    adaptive_dct_synthesize (Explicit [mkBand 0 (3 / 2); mkBand (5 / 2) 4]) demo_rate (demo_td hop 4) fa = dct_synthesize (fun _ => None) (demo_td hop 4) rows.
Proof.
  intros Hs. pose proof demo_proper as P. inversion P as [|? ? P1 P']; subst. inversion P' as [|? ? P2 _]; subst. pose proof (proj1 demo_spectrum) as Ny. destruct (demo_bins true) as (B1 & C1 & B2 & C2 & _).
  pose proof (adaptive_dct_exact (Explicit [mkBand 0 (3 / 2); mkBand (5 / 2) 4]) [mkBand 0 (3 / 2); mkBand (5 / 2) 4] demo_rate (demo_td hop 4) None (mkArr 4 rows) 4) as T. rewrite Ny in T. apply T; clear T; try reflexivity.
  - constructor; [exact P1|constructor; [exact P2|constructor]].
  - discriminate.
  - apply nodup2. cbn [bstart]. lra.
  - lia.
  - exact Hs.
  - assert (K : forall q, how_many q (spectrum_bins demo_rate 4) = 2%nat -> exists b, In b (spectrum_bins demo_rate 4) /\ touched q b = true).
    { intros q Hq. unfold how_many in Hq. destruct (filter (touched q) (spectrum_bins demo_rate 4)) as [|b l] eqn:E; [discriminate|]. exists b. apply filter_In. rewrite E. now left. }
    intros q [<-|[<-|[]]]; apply K; assumption.
  - intros k Hk. rewrite gain_ones. cbn [map]. rewrite B1, B2. destruct k as [|[|[|[|k]]]]; try lia; reflexivity.
Qed.
(** two bands that meet at a multiple of the bin width: the bin below is in both *)
Theorem tiling_doubles hop x0 x1 x2 x3 :
  exists fa, adaptive_transform 0 Rmult along_idct None (Linear (mkBand 0 4) 4 true) (mkArr 4 [[x0; x1; x2; x3]]) (Linear (mkBand 0 4) 2 false) = Ok fa /\
    adaptive_dct_synthesize (Linear (mkBand 0 4) 2 false) demo_rate (demo_td hop 4) fa = dct_synthesize (fun _ => None) (demo_td hop 4) [[x0; 2 * x1; x2; x3]].
Proof.
  pose proof demo_proper as P. inversion P as [|? ? _ P']; subst. inversion P' as [|? ? _ P'']; subst. inversion P'' as [|? ? P3 P3']; subst. inversion P3' as [|? ? P4 _]; subst. pose proof (proj1 demo_spectrum) as Ny. destruct (demo_bins true) as (_ & _ & _ & _ & B1 & C1 & B2 & C2).
  pose proof (adaptive_dct_roundtrip (Linear (mkBand 0 4) 2 false) [mkBand 0 2; mkBand 2 4] demo_rate (demo_td hop 4) None (mkArr 4 [[x0; x1; x2; x3]]) 4) as T. rewrite Ny in T. destruct T as (fa & E1 & E2); try reflexivity.
  - cbn [scale_bands]. rewrite linear_bands_ok; [|unfold proper; cbn [bstart bstop]; lra|lia]. assert (W : lin_width (mkBand 0 4) 2 = 2) by (unfold lin_width; cbn [bstart bstop INR]; lra). cbn [seq map]. unfold lin_band. rewrite W. cbn [bstart bstop INR Nat.add]. repeat f_equal; lra.
  - constructor; [exact P3|constructor; [exact P4|constructor]].
  - discriminate.
  - apply nodup2. cbn [bstart]. lra.
  - lia.
  - repeat constructor.
  - assert (K : forall q, how_many q (spectrum_bins demo_rate 4) <> 0%nat -> exists b, In b (spectrum_bins demo_rate 4) /\ touched q b = true).
    { intros q Hq. unfold how_many in Hq. destruct (filter (touched q) (spectrum_bins demo_rate 4)) as [|b l] eqn:E; [now destruct Hq|]. exists b. apply filter_In. rewrite E. now left. }
    intros q [<-|[<-|[]]]; apply K; congruence.
  - exists fa. split; [exact E1|]. rewrite E2. f_equal. cbn [rows map seq]. rewrite B1, B2, !gain_ones. cbn [filter inside fst snd Nat.leb Nat.ltb andb length INR at_ nth]. repeat f_equal; ring.
Qed.
(** bands of two bins through irfft and back: every imaginary part is lost *)
Theorem fft_phase_lost hop (row : list cplx) : length row = 4%nat ->
  exists fa, adaptive_transform cz cscale along_irfft None (Linear (mkBand 0 4) 4 false) (mkArr 4 [row]) (Explicit [mkBand 0 (3 / 2); mkBand (5 / 2) 4]) = Ok fa /\
    adaptive_fft_synthesize (Explicit [mkBand 0 (3 / 2); mkBand (5 / 2) 4]) demo_rate (demo_td hop 6) fa = fft_synthesize (demo_td hop 6) [map (fun c => (fst c, 0)) row].
Proof.
  intros L. pose proof demo_proper as P. inversion P as [|? ? P1 P']; subst. inversion P' as [|? ? P2 _]; subst. pose proof (proj1 demo_spectrum) as Ny. destruct (demo_bins false) as (B1 & C1 & B2 & C2 & _).
  pose proof (adaptive_fft_roundtrip (Explicit [mkBand 0 (3 / 2); mkBand (5 / 2) 4]) [mkBand 0 (3 / 2); mkBand (5 / 2) 4] demo_rate (demo_td hop 6) None (mkArr 4 [row]) 4) as T. rewrite Ny in T. destruct T as (fa & E1 & E2); try reflexivity.
  - constructor; [exact P1|constructor; [exact P2|constructor]].
  - discriminate.
  - apply nodup2. cbn [bstart]. lra.
  - lia.
  - constructor; [exact L|constructor].
  - intros q [<-|[<-|[]]]; lia.
  - exists fa. split; [exact E1|]. rewrite E2. f_equal. cbn [rows map]. rewrite B1, B2. do 4 (destruct row as [|[? ?] row]; [discriminate|]). destruct row; [|discriminate]. cbn [map seq fst snd nth]. rewrite !gain_ones.
    unfold inner_gain. cbn [map filter inside fst snd Nat.leb Nat.ltb andb length INR nth fold_right width Nat.min Nat.sub Nat.eqb orb]. repeat f_equal; ring.
Qed.
(** the end bins with np.hanning, the transform's documented use *)
Theorem hanning_loses_ends self qs sr td data N :
  scale_bands self = Ok qs -> Forall proper qs -> qs <> [] -> NoDup qs ->
  (0 < nyquist sr)%Z -> raw_samples sr (t_dur td) = N -> (2 <= N)%nat -> cols data = N -> shaped data ->
  (forall q, In q qs -> (2 <= how_many q (spectrum_bins sr N))%nat) ->
  exists fa coeffs, adaptive_transform 0 Rmult along_idct (Some np_hanning) (Linear (mkBand 0 (IZR (nyquist sr))) N true) data self = Ok fa /\
    adaptive_dct_synthesize self sr td fa = dct_synthesize (fun _ => None) td coeffs /\ length coeffs = length (rows data) /\
    Forall (fun r => length r = N /\ at_ r 0 = 0 /\ at_ r (N - 1) = 0) coeffs.
Proof.
  intros Eb Hp Hq Nd Hny Hr HN Hc Hs Ht. assert (Ht1 : forall q, In q qs -> exists b, In b (spectrum_bins sr N) /\ touched q b = true).
  { intros q Hin. pose proof (Ht q Hin) as C. unfold how_many in C. destruct (filter (touched q) (spectrum_bins sr N)) as [|b l] eqn:E; [cbn in C; lia|]. exists b. apply filter_In. rewrite E. now left. }
  destruct (adaptive_dct_roundtrip self qs sr td (Some np_hanning) data N Eb Hp Hq Nd Hny Hr HN Hc Hs Ht1) as (fa & E1 & E2). eexists fa, _. split; [exact E1|]. split; [exact E2|]. split; [apply map_length|].
  apply Forall_forall. intros r Hr'. apply in_map_iff in Hr' as (row & <- & _). split; [now rewrite map_length, seq_length|]. rewrite !at_map_seq by lia. cbn [the_window].
  destruct (hanning_ends N (map (band_bins true (spectrum_bins sr N)) qs)) as [H0 H1].
  - apply Forall_forall. intros p Hpin. apply in_map_iff in Hpin as (q & <- & Hin). pose proof (Ht q Hin). rewrite Forall_forall in Hp. assert (C' : how_many q (spectrum_bins sr N) <> 0%nat) by lia. destruct (select_linear _ N true q (nyq_proper sr Hny) HN (Hp q Hin) C') as [_ B]. destruct (band_bins_width true _ N q B) as [W _]. fold (spectrum_bins sr N) in W. lia.
  - rewrite H0, H1. split; ring.
Qed.
(** a window that closes: real and imaginary parts get the same weight *)
Theorem adaptive_fft_closed self qs sr td w data N :
  scale_bands self = Ok qs -> Forall proper qs -> qs <> [] -> NoDup qs ->
  (0 < nyquist sr)%Z -> (raw_samples sr (t_dur td) / 2 + 1)%nat = N -> (2 <= N)%nat -> cols data = N -> shaped data ->
  (forall q, In q qs -> (2 <= how_many q (spectrum_bins sr N))%nat) ->
  (forall n, (2 <= n)%nat -> w n 0%nat = 0 /\ w n (n - 1)%nat = 0) ->
  exists fa, adaptive_transform cz cscale along_irfft (Some w) (Linear (mkBand 0 (IZR (nyquist sr))) N false) data self = Ok fa /\
    adaptive_fft_synthesize self sr td fa =
    fft_synthesize td (map (fun row => map (fun k => cscale (gain w N (map (band_bins false (spectrum_bins sr N)) qs) k) (nth k row cz)) (seq 0 N)) (rows data)).
Proof.
  intros Eb Hp Hq Nd Hny Hr HN Hc Hs Ht Hw. destruct (adaptive_fft_roundtrip self qs sr td (Some w) data N Eb Hp Hq Nd Hny Hr HN Hc Hs Ht) as (fa & E1 & E2). exists fa. split; [exact E1|]. rewrite E2. f_equal.
  apply map_ext. intros row. apply map_ext. intros k. cbn [the_window]. rewrite gain_closed; [reflexivity|exact Hw|].
  apply Forall_forall. intros p Hpin. apply in_map_iff in Hpin as (q & <- & Hin). pose proof (Ht q Hin). rewrite Forall_forall in Hp. assert (C' : how_many q (spectrum_bins sr N) <> 0%nat) by lia. destruct (select_linear _ N false q (nyq_proper sr Hny) HN (Hp q Hin) C') as [_ B]. destruct (band_bins_width false _ N q B) as [_ W]. fold (spectrum_bins sr N) in W. rewrite (W eq_refl). assumption.
Qed.
(** the constructor's check *)
Theorem adaptive_init_spec s : well_formed s -> exists bs, scale_bands s = Ok bs /\ adaptive_init false s = Ok tt /\
  ((forall k a b, nth_error bs k = Some a -> nth_error bs (S k) = Some b -> 1 / 2 <= common_width a b / bandwidth a) -> adaptive_init true s = Ok tt) /\
  ((exists k a b, nth_error bs k = Some a /\ nth_error bs (S k) = Some b /\ common_width a b / bandwidth a < 1 / 2) -> adaptive_init true s = Raise ValueError).
Proof.
  intros H. destruct (ensure_overlap_spec s (1 / 2) H) as (bs & E & K & C). exists bs. split; [exact E|]. split; [reflexivity|]. unfold adaptive_init. split.
  - intros F. now rewrite (proj2 K F).
  - intros (k & a & b & Ha & Hb & Hlt). destruct C as [C|C]; [|now rewrite C]. pose proof (proj1 K C k a b Ha Hb). lra.
Qed.
