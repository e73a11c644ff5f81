(** Proofs about Graph.v: every feature of the audio graph is a function of the windows. *)
From Coq Require Import ZArith QArith Qround Reals Lia Lra.
From Verif Require Import PyBase PyFacts PyMore Time TimeProofs Float64 Freq FreqProofs FreqScaleProofs FreqDim Axis Windowed NdWindow SlidingNode Spectral Stft ScaleBasis ScaleBasisProofs ChromaProofs Weighting Synths Graph TransformProofs ReconProofs StftProofs GraphProofs.
Local Open Scope R_scope.

(** ** Specification: the features of one window [x] of [w] samples *)
Definition spectrum (w : nat) (x : list R) : list cplx := map (dft_coeff w w (fun t => nth t x 0)) (seq 0 (w / 2 + 1)).
Definition magnitude (z : cplx) : R := sqrt (fst z * fst z + snd z * snd z).
Definition magnitudes (w : nat) (x : list R) : list R := map magnitude (spectrum w x).
Definition cosines (w : nat) (x : list R) : list R :=
  map (fun k => (if Nat.eqb k 0 then sqrt (1 / INR w) else sqrt (2 / INR w)) * rsum w (fun t => nth t x 0 * cos (PI * INR k * (INR t + / 2) / INR w))) (seq 0 w).
(** the sum, under a Hanning window, of what each band touches *)
Definition hann (n : nat) : list R := map (fun j => if Nat.leb n 1 then 1 else / 2 - / 2 * cos (2 * PI * INR j / INR (n - 1))) (seq 0 n).
Definition band_sums (qs bs : list band) (mags : list R) : list R :=
  map (fun q => let p := picked q bs mags in rsum (length p) (fun j => nth j (hann (length p)) 0 * nth j p 0)) qs.
Definition centroid (v : list R) : R := rsum (length v) (fun i => Rabs (nth i v 0) * INR (i + 1)) / rsum (length v) (fun i => INR (i + 1)).
(** the A-weights of a scale: the curve, moved so that its least value is 1 *)
Definition a_weights (bs : list band) (ws : list R) : Prop :=
  exists least, In least (map (fun b => a_curve (center b)) bs) /\ (forall b, In b bs -> least <= a_curve (center b)) /\
    ws = map (fun b => 1 + (a_curve (center b) - least)) bs.
(** the weight of bin [k] in the chroma of pitch class [c]: the windows around the semitones of
    that class between two semitones *)
Definition chroma_weight (bs : list band) (lo hi : Z) (c k : nat) : R :=
  total (map (fun m => win_at hann (around m) bs k) (filter (fun m => ((m - 1) mod 12 =? Z.of_nat c)%Z) (zfrom lo (Z.to_nat (hi - lo - 1))))).
Definition chromas (bs : list band) (lo hi : Z) (ws mags : list R) : list R :=
  map (fun c => rsum (length bs) (fun k => chroma_weight bs lo hi c k * (nth k mags 0 * nth k ws 0))) (seq 0 12).
(** cepstral coefficients 1 .. 13 *)
Definition cepstrum (mags : list R) : list R :=
  map (fun k => 2 * rsum (length mags) (fun t => ln (nth t mags 0 + / 10 ^ 12) * cos (PI * INR k * (INR t + / 2) / INR (length mags)))) (seq 1 13).

(** ** Inner products *)
Lemma dot_rsum a b : length a = length b -> dot a b = rsum (length b) (fun j => nth j a 0 * nth j b 0).
Proof.
  revert b. induction a as [|x a IH]; intros [|y b] H; try discriminate; [reflexivity|]. rewrite dot_cons, IH by (cbn in H; lia). cbn [length].
  rewrite (rsum_first (S (length b))) by lia. cbn [nth Nat.sub]. rewrite Nat.sub_0_r. reflexivity.
Qed.
Lemma hanning_hann n : hanning_list n = hann n.
Proof. reflexivity. Qed.
Lemma hann_length n : length (hann n) = n. Proof. unfold hann. now rewrite map_length, seq_length. Qed.
Lemma hanning_window : window_is hanning_win hann.
Proof. apply window_func. intros n. rewrite hanning_hann. split; [reflexivity|apply hann_length]. Qed.

(** ** The nodes *)
Definition lin (r : Z) (n : nat) : scale := Linear (mkBand 0 (IZR (r / 2))) n false.
Definition spectral_chunk (m : timedim) (r : Z) (n : nat) (b : arr cplx) : Prop :=
  a_dims b = [DTime (sized m (length (a_rows b))); DFreq (lin r n)] /\ a_width b = n /\ Forall (fun row => length row = n) (a_rows b).
Lemma sized_sized m a b : sized (sized m a) b = sized m b. Proof. reflexivity. Qed.
Lemma fit_freq t s n : (t_dur t <> 0)%Z -> scale_len s = n -> forall k, fit_dims [DTime t; DFreq s] [k; n] = Ok [DTime (sized t k); DFreq s].
Proof. intros H <- k. cbn [fit_dims]. rewrite fit_time by exact H. cbn [bind fit_dim]. unfold fdim_validate. rewrite Nat.eqb_refl. reflexivity. Qed.
Lemma fit_ident t n : (t_dur t <> 0)%Z -> forall k, fit_dims [DTime t; DIdent] [k; n] = Ok [DTime (sized t k); DIdent].
Proof. intros H k. cbn [fit_dims]. rewrite fit_time by exact H. reflexivity. Qed.

Lemma rfft_spectrum w x : length x = w -> rfft_ortho 0 x = spectrum w x.
Proof.
  intros L. unfold spectrum. apply nth_ext with (d := cz) (d' := cz).
  - unfold rfft_ortho. rewrite !map_length, !seq_length, app_length. cbn [repeat length]. now rewrite L, Nat.add_0_r.
  - intros k Hk. assert (Hk' : (k < w / 2 + 1)%nat) by (unfold rfft_ortho in Hk; rewrite map_length, seq_length, app_length in Hk; cbn [repeat length] in Hk; now rewrite L, Nat.add_0_r in Hk).
    rewrite rfft_coeff by (rewrite L, Nat.add_0_r; lia). rewrite L, Nat.add_0_r. rewrite nth_map_seq by exact Hk'. reflexivity.
Qed.
Lemma fft_chunk m t r w a : In r standard_rates -> t_freq t = (10 ^ 12 / r)%Z -> (t_dur m <> 0)%Z -> (1 <= w)%nat -> windowed_chunk m t w a ->
  exists b, fft_node 0 a = Ok b /\ spectral_chunk m r (w / 2 + 1) b /\ a_rows b = map (spectrum w) (a_rows a).
Proof.
  intros Hr Ht Hm Hw (Ed & Ew & Hrows & _). unfold fft_node. rewrite Ed, Ew. unfold fft_rows. rewrite Nat.add_0_r. destruct (Nat.eqb_spec w 0); [lia|].
  cbn [fft_dim]. rewrite (scale_std (sized t w) _ r Hr Ht). cbn [bind]. rewrite fit_freq by (exact Hm || reflexivity). cbn [bind fst snd]. rewrite sized_sized.
  assert (E : map (rfft_ortho 0) (a_rows a) = map (spectrum w) (a_rows a)). { apply map_ext_in. intros x Hx. apply rfft_spectrum. rewrite Forall_forall in Hrows. now apply Hrows. }
  rewrite E. eexists. split; [reflexivity|]. split; [|reflexivity]. unfold spectral_chunk. cbn [a_dims a_width a_rows]. rewrite map_length. split; [reflexivity|]. split; [reflexivity|].
  apply Forall_map, Forall_forall. intros x _. unfold spectrum. now rewrite map_length, seq_length.
Qed.
Lemma dct2_cosines w x : length x = w -> dct2_ortho x = cosines w x.
Proof. intros <-. reflexivity. Qed.
Lemma dct_chunk m t r w a : (t_dur m <> 0)%Z -> windowed_chunk m t w a -> dct_scale w (t_dur m) false = Ok (lin r w) ->
  exists b, dct_node false a = Ok b /\ a_dims b = [DTime (sized m (length (a_rows b))); DFreq (lin r w)] /\ a_width b = w /\ a_rows b = map (cosines w) (a_rows a).
Proof.
  intros Hm (Ed & Ew & Hrows & _) Es. unfold dct_node, cosine_node. rewrite Ed, Ew. cbn [sized t_dur]. rewrite Es. cbn [bind]. rewrite fit_freq by (exact Hm || reflexivity). cbn [bind]. rewrite sized_sized.
  eexists. split; [reflexivity|]. cbn [a_dims a_width a_rows]. rewrite map_length. split; [reflexivity|]. split; [reflexivity|]. apply map_ext_in. intros x Hx. apply dct2_cosines. rewrite Forall_forall in Hrows. now apply Hrows.
Qed.

Lemma nth_error_eq {A} (l l' : list A) : (forall i, nth_error l i = nth_error l' i) -> l = l'.
Proof.
  revert l'. induction l as [|x l IH]; intros [|y l'] H; [reflexivity|specialize (H 0%nat); discriminate|specialize (H 0%nat); discriminate|].
  f_equal; [specialize (H 0%nat); cbn in H; congruence|]. apply IH. intros i. exact (H (S i)).
Qed.
Lemma bark_apply fb n other rows : well_formed (BarkS fb n) -> well_formed other -> scale_even other = false ->
  exists qs bs, scale_bands (BarkS fb n) = Ok qs /\ length qs = n /\ scale_bands other = Ok bs /\ length bs = scale_len other /\
  (Forall (fun r => length r = scale_len other) rows ->
   bark_bands_node fb n hanning_win other rows = Ok (map (fun row => band_sums qs bs (map magnitude row)) rows)).
Proof.
  intros Hs Ho He. destruct (well_formed_bands _ Hs) as (qs & Eq & Lq & _). destruct (well_formed_bands _ Ho) as (bs & Eb & Lb & _).
  exists qs, bs. split; [exact Eq|]. split; [exact Lq|]. split; [exact Eb|]. split; [exact Lb|]. intros Hrows.
  unfold bark_bands_node. destruct (scale_basis (BarkS fb n) other hanning_win) as [B|e] eqn:EB.
  2:{ exfalso. destruct (apply_spec (BarkS fb n) other hanning_win hann [] Hs Ho hanning_window (Forall_nil _)) as (? & out & _ & _ & C & _). unfold scale_apply in C. rewrite EB in C. discriminate. }
  assert (LB : length B = length qs).
  { unfold scale_basis in EB. unfold base_basis in EB. rewrite Eq in EB. cbn [bind] in EB. apply mapM_length in EB. exact EB. }
  unfold scale_apply. rewrite EB. cbn [bind]. rewrite forallb_length by (apply Forall_map; apply Forall_impl with (2 := Hrows); intros r; now rewrite map_length).
  f_equal. rewrite map_map. apply map_ext_in. intros row Hin. assert (Lrow : length (map cabs row) = scale_len other) by (rewrite map_length; rewrite Forall_forall in Hrows; now apply Hrows).
  destruct (apply_touched (BarkS fb n) other hanning_win hann [map cabs row] Hs Ho He hanning_window ltac:(constructor; [exact Lrow|constructor])) as (qs' & bs' & out & E1 & E2 & E3 & H).
  rewrite Eq in E1. injection E1 as <-. rewrite Eb in E2. injection E2 as <-. unfold scale_apply in E3. rewrite EB in E3. cbn [bind forallb map] in E3. rewrite Lrow, Nat.eqb_refl in E3. cbn [andb] in E3. injection E3 as <-.
  apply nth_error_eq. intros i. destruct (nth_error qs i) as [q|] eqn:Ei.
  - destruct (H 0%nat (map cabs row) i q eq_refl Ei) as (orow & Eo & En). cbn in Eo. injection Eo as <-. rewrite En. unfold band_sums. rewrite (map_nth_error _ _ _ Ei). cbv zeta. f_equal. change cabs with magnitude. rewrite dot_rsum by apply hann_length. reflexivity.
  - assert (length qs <= i)%nat by now apply nth_error_None. unfold band_sums. rewrite (proj2 (nth_error_None _ _)) by (rewrite map_length; lia). symmetry. apply nth_error_None. rewrite map_length. lia.
Qed.

Lemma lin_wf r n : In r standard_rates -> (2 <= n)%nat -> well_formed (lin r n).
Proof. intros Hr Hn. constructor; [|exact Hn]. unfold proper. cbn [bstart bstop]. apply (IZR_lt 0). destruct (rate_std r Hr) as [_ (_ & _ & _ & P)]. exact P. Qed.
Definition bark_band (r : Z) : band := mkBand 20 (IZR (r / 2)).
Lemma nyq_20 r : In r standard_rates -> 20 < IZR (r / 2).
Proof. intros H. apply (IZR_lt 20). repeat (destruct H as [<-|H]; [vm_compute; reflexivity|]). destruct H. Qed.
Lemma bark_wf r n : In r standard_rates -> well_formed (BarkS (bark_band r) n).
Proof. intros Hr. pose proof (nyq_20 r Hr). constructor; unfold proper, bark_band; cbn [bstart bstop]; lra. Qed.

Lemma np_min_spec l : l <> [] -> In (np_min l) l /\ forall x, In x l -> np_min l <= x.
Proof.
  destruct l as [|x l]; [congruence|]. intros _. cbn [np_min]. assert (G : forall l x, (In (fold_left Rmin l x) (x :: l)) /\ forall y, In y (x :: l) -> fold_left Rmin l x <= y).
  { clear. induction l as [|y l IH]; intros x; cbn [fold_left]; [split; [now left|intros y [<-|[]]; lra]|]. destruct (IH (Rmin x y)) as [I1 I2]. split.
    - destruct I1 as [E|I1]; [|right; now right]. rewrite <- E. unfold Rmin. destruct (Rle_dec x y); [now left|right; now left].
    - intros z [<-|[<-|Hz]]; [eapply Rle_trans; [apply I2; now left|apply Rmin_l]|eapply Rle_trans; [apply I2; now left|apply Rmin_r]|apply I2; now right]. }
  apply G.
Qed.
Lemma a_weights_ok other bs : scale_bands other = Ok bs -> bs <> [] -> exists ws, wdata AWeighting other = Ok ws /\ a_weights bs ws /\ length ws = length bs.
Proof.
  intros E Hne. unfold wdata. rewrite E. cbn [bind]. set (c := map (fun b => a_curve (center b)) bs). assert (Hc : c <> []) by (unfold c; destruct bs; [congruence|discriminate]).
  destruct (np_min_spec c Hc) as [I1 I2]. exists (map (fun b => 1 + (a_curve (center b) - np_min c)) bs). split.
  - assert (Ec : forall f : R -> R, match c with [] => Raise ValueError | _ => Ok (map f c) end = Ok (map f c)) by (intros; destruct c; [congruence|reflexivity]). rewrite Ec. f_equal. unfold c. now rewrite map_map.
  - split; [|now rewrite map_length]. exists (np_min c). split; [exact I1|]. split; [|reflexivity]. intros b Hb. apply I2. unfold c. apply in_map_iff. now exists b.
Qed.
Lemma chroma_apply fb other bs : 0 < bstart fb -> proper fb -> well_formed other -> scale_even other = false -> scale_bands other = Ok bs -> length bs = scale_len other ->
  exists lo hi, nearest_semitone (bstart fb) lo /\ nearest_semitone (bstop fb) hi /\
  (forall ws rows, Forall (fun r => length r = scale_len other) rows -> length ws = scale_len other ->
   scale_apply (Chroma fb) other hanning_win (map (fun r => map (fun p => cabs (fst p) * snd p) (combine r ws)) rows)
   = Ok (map (fun row => chromas bs lo hi ws (map magnitude row)) rows)).
Proof.
  intros H0 Hp Ho He Eb Lb. destruct (chroma_spec fb other hanning_win hann H0 Hp Ho He hanning_window) as (bs' & B & lo & hi & Eb' & Nl & Nh & EB & LB & RB & Hc).
  rewrite Eb in Eb'. injection Eb' as <-. exists lo, hi. split; [exact Nl|]. split; [exact Nh|]. intros ws rows Hrows Lw. unfold scale_apply. rewrite EB. cbn [bind].
  rewrite forallb_length.
  2:{ apply Forall_map. apply Forall_impl with (2 := Hrows). intros r Hr. rewrite map_length, combine_length. lia. }
  f_equal. rewrite map_map. apply map_ext_in. intros row Hin. assert (Lrow : length row = scale_len other) by (rewrite Forall_forall in Hrows; now apply Hrows).
  unfold chromas. apply nth_ext with (d := 0) (d' := 0); [rewrite !map_length, seq_length; exact LB|]. intros c Hc'. rewrite map_length, LB in Hc'.
  rewrite (nth_indep (map (fun b => dot b _) B) 0 (dot [] (map (fun p => cabs (fst p) * snd p) (combine row ws)))) by (rewrite map_length; lia).
  rewrite (map_nth (fun b => dot b (map (fun p => cabs (fst p) * snd p) (combine row ws))) B []). rewrite nth_map_seq by exact Hc'.
  assert (Ln : length (nth c B []) = scale_len other) by (rewrite Forall_forall in RB; apply RB, nth_In; lia).
  rewrite dot_rsum by (rewrite map_length, combine_length; lia). rewrite map_length, combine_length, Lrow, Lw, Nat.min_id, Lb. apply rsum_ext. intros k Hk. rewrite Hc by assumption. f_equal.
  rewrite (nth_indep (map (fun p => cabs (fst p) * snd p) (combine row ws)) 0 ((fun p => cabs (fst p) * snd p) ((0, 0), 0))) by (rewrite map_length, combine_length; rewrite Lw; replace (length row) with (scale_len other) by (symmetry; exact Lrow); lia). rewrite (map_nth (fun p => cabs (fst p) * snd p)). rewrite combine_nth by (etransitivity; [exact Lrow|symmetry; exact Lw]). cbn [fst snd]. f_equal.
  rewrite (nth_indep (map magnitude row) 0 (magnitude (0, 0))) by (rewrite map_length; replace (length row) with (scale_len other) by (symmetry; exact Lrow); exact Hk). rewrite map_nth. reflexivity.
Qed.

Lemma magnitude_nonneg z : 0 <= magnitude z. Proof. apply sqrt_pos. Qed.
Lemma safe_log_ok (row : list cplx) : safe_log (map cabs row) = Ok (map (fun v => ln (v + / 10 ^ 12)) (map magnitude row)).
Proof.
  unfold safe_log. replace (existsb (fun v => Rltb v 0) (map cabs row)) with false; [reflexivity|]. symmetry. induction row as [|z row IH]; [reflexivity|]. cbn [map existsb]. rewrite IH, orb_false_r.
  unfold Rltb. destruct (Rlt_dec (cabs z) 0) as [C|]; [|reflexivity]. pose proof (magnitude_nonneg z). unfold magnitude in *. unfold cabs in C. lra.
Qed.
Lemma cepstrum_row mags : (14 <= length mags)%nat -> firstn 13 (skipn 1 (dct2_raw (map (fun v => ln (v + / 10 ^ 12)) mags))) = cepstrum mags.
Proof.
  intros H. unfold dct2_raw, cepstrum. rewrite map_length. set (n := length mags) in *.
  assert (Es : firstn 13 (skipn 1 (seq 0 n)) = seq 1 13). { do 14 (destruct n as [|n]; [lia|]). reflexivity. }
  rewrite skipn_map, firstn_map, Es. apply map_ext. intros k. f_equal. apply rsum_ext. intros t Ht. f_equal. unfold at_.
  rewrite (nth_indep _ 0 ((fun v => ln (v + / 10 ^ 12)) 0)) by (rewrite map_length; exact Ht). now rewrite (map_nth (fun v => ln (v + / 10 ^ 12))).
Qed.
Lemma bfcc_chunk m r n b : (t_dur m <> 0)%Z -> (14 <= n)%nat -> spectral_chunk m r n b ->
  exists o, bfcc_node 13 1 b = Ok o /\ a_dims o = [DTime (sized m (length (a_rows o))); DIdent] /\ a_width o = 13%nat /\ a_rows o = map (fun row => cepstrum (map magnitude row)) (a_rows b).
Proof.
  intros Hm Hn (Ed & Ew & Hrows). unfold bfcc_node. rewrite Ed, Ew.
  assert (El : mapM (fun r => safe_log (map cabs r)) (a_rows b) = Ok (map (fun row => map (fun v => ln (v + / 10 ^ 12)) (map magnitude row)) (a_rows b))).
  { generalize (a_rows b) as l. induction l as [|x l IH]; [reflexivity|]. cbn [mapM]. rewrite safe_log_ok. cbn [bind]. rewrite IH. reflexivity. }
  rewrite El. cbn [bind]. replace (Nat.min 13 (n - 1)) with 13%nat by lia. rewrite fit_ident by exact Hm. cbn [bind]. rewrite sized_sized. eexists. split; [reflexivity|]. cbn [a_dims a_width a_rows]. rewrite !map_length. split; [reflexivity|]. split; [reflexivity|].
  rewrite map_map. apply map_ext_in. intros row Hin. apply cepstrum_row. rewrite map_length. rewrite Forall_forall in Hrows. rewrite (Hrows row Hin). exact Hn.
Qed.
