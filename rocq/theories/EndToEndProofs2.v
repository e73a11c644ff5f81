(** Proofs about EndToEnd.v: the frequency-adaptive graph. *)
From Coq Require Import ZArith Reals Lia Lra.
From Verif Require Import PyBase PyFacts PyMore Time TimeProofs Freq FreqProofs FreqScaleProofs FreqDim FreqDimProofs Axis PhaseShift PhaseShiftProofs Windowed NdWindow SlidingNode Spectral SpectralProofs OverlapProofs SynthProofs Stft ScaleBasis Weighting Graph FreqAdapt Audio SoundNodes TransformProofs ReconProofs StftProofs GraphProofs GraphProofs2 GraphProofs3 GraphProofs4 TimeStretchProofs FreqAdaptProofs FreqAdaptProofs2 FreqAdaptProofs3 EndToEnd EndToEndProofs.
Local Open Scope R_scope.

(** ** A transform of some rows and then of some more is the transform of all of them *)
Section Stack.
  Context {A B : Type} (zero : A) (mul : R -> A -> A) (t : along A B) (w : option bwindow) (lin s : scale).
  Definition stack {C} (x y : arr2 C) : arr2 C := FreqDim.mkArr (cols x) (rows x ++ rows y).
  Notation pb := (process_band zero mul t w lin).
  Notation at_once := (fun d => adaptive_transform zero mul t w lin d s).

  Lemma mapM_app_ok {X Y} (f : X -> result Y) l l' r r' : mapM f l = Ok r -> mapM f l' = Ok r' -> mapM f (l ++ l')%list = Ok (r ++ r')%list.
  Proof.
    revert r. induction l as [|x l IH]; intros r; cbn [mapM List.app]; [intros [= <-]; auto|]. destruct (f x); [|discriminate]. cbn [bind]. destruct (mapM f l); [|discriminate]. cbn [bind]. intros [= <-] H'. rewrite (IH _ eq_refl H'). reflexivity.
  Qed.
  Lemma band_stack d1 d2 q b1 b2 : cols d1 = cols d2 -> pb d1 q = Ok b1 -> pb d2 q = Ok b2 -> cols b1 = cols b2 /\ pb (stack d1 d2) q = Ok (stack b1 b2).
  Proof.
    intros Hc. unfold process_band. destruct (match PhaseShift.select lin (Some q) with Ok p => Ok p | Raise IndexError => Raise ValueError | Raise e => Raise e end) as [p|]; [|discriminate]. cbn [bind].
    unfold apply_along, col_slice, stack. cbn [cols rows]. rewrite <- Hc. destruct (acols t (Nat.min (snd p) (cols d1) - fst p)) as [n|]; [|discriminate]. cbn [bind]. rewrite !map_app.
    match goal with |- context [do r <- mapM (arow t) ?l1; _] => remember l1 as x1 end. match goal with |- context [_ ++ ?l2] => remember l2 as x2 end.
    destruct (mapM (arow t) x1) as [r1|] eqn:E1; [|discriminate]. cbn [bind]. destruct (mapM (arow t) x2) as [r2|] eqn:E2; [|discriminate]. cbn [bind]. intros [= <-] [= <-]. cbn [cols rows]. split; [reflexivity|]. rewrite (mapM_app_ok (arow t) x1 x2 r1 r2 E1 E2). reflexivity.
  Qed.
  Lemma bands_stack d1 d2 qs : cols d1 = cols d2 -> forall a1 a2, mapM (pb d1) qs = Ok a1 -> mapM (pb d2) qs = Ok a2 ->
    Forall2 (fun x y => cols x = cols y) a1 a2 /\ mapM (pb (stack d1 d2)) qs = Ok (map (fun p => stack (fst p) (snd p)) (combine a1 a2)).
  Proof.
    intros Hc. induction qs as [|q qs IH]; intros a1 a2; cbn [mapM]; [intros [= <-] [= <-]; split; [constructor|reflexivity]|].
    destruct (pb d1 q) as [b1|] eqn:E1; [|discriminate]. destruct (pb d2 q) as [b2|] eqn:E2; [|intros _; discriminate]. cbn [bind]. destruct (mapM (pb d1) qs) as [r1|]; [|discriminate]. destruct (mapM (pb d2) qs) as [r2|]; [|intros _; discriminate].
    cbn [bind]. intros [= <-] [= <-]. destruct (IH r1 r2 eq_refl eq_refl) as [F E]. destruct (band_stack d1 d2 q b1 b2 Hc E1 E2) as [Ec Es]. rewrite Es. cbn [bind]. rewrite E. cbn [bind combine map fst snd]. split; [constructor; assumption|reflexivity].
  Qed.
  Lemma hcat_app {C} (x1 : list (list C)) : forall y1 x2 y2, length x1 = length y1 -> hcat (x1 ++ x2) (y1 ++ y2) = (hcat x1 y1 ++ hcat x2 y2)%list.
  Proof. induction x1 as [|r x1 IH]; intros [|z y1] x2 y2 H; try discriminate; [reflexivity|]. cbn [List.app hcat]. now rewrite IH by (cbn in H; lia). Qed.
  Lemma hconcat_stack {C} (a1 : list (arr2 C)) : forall a2 w1 w2, Forall2 (fun x y => cols x = cols y) a1 a2 -> hconcat a1 = Ok w1 -> hconcat a2 = Ok w2 ->
    cols w1 = cols w2 /\ hconcat (map (fun p => stack (fst p) (snd p)) (combine a1 a2)) = Ok (stack w1 w2).
  Proof.
    induction a1 as [|x1 a1 IH]; intros a2 w1 w2 F; [discriminate|]. inversion F as [|x x2 l a2' Hx F']; subst. destruct F' as [|y1 y2 a1 a2' Hy F'].
    - cbn [hconcat combine map fst snd]. intros [= <-] [= <-]. auto.
    - intros H1 H2. assert (H1' : (do y <- hconcat (y1 :: a1); if (length (rows x1) =? length (rows y))%nat then Ok (FreqDim.mkArr (cols x1 + cols y) (hcat (rows x1) (rows y))) else Raise ValueError) = Ok w1) by exact H1.
      assert (H2' : (do y <- hconcat (y2 :: a2'); if (length (rows x2) =? length (rows y))%nat then Ok (FreqDim.mkArr (cols x2 + cols y) (hcat (rows x2) (rows y))) else Raise ValueError) = Ok w2) by exact H2. clear H1 H2.
      destruct (hconcat (y1 :: a1)) as [v1|] eqn:V1; [|discriminate]. destruct (hconcat (y2 :: a2')) as [v2|] eqn:V2; [|discriminate]. cbn [bind] in H1', H2'.
      destruct (Nat.eqb_spec (length (rows x1)) (length (rows v1))) as [L1|]; [|discriminate]. destruct (Nat.eqb_spec (length (rows x2)) (length (rows v2))) as [L2|]; [|discriminate]. injection H1' as <-. injection H2' as <-.
      destruct (IH (y2 :: a2') v1 v2 (Forall2_cons _ _ Hy F') eq_refl V2) as [Cv Ev]. cbn [cols]. split; [lia|].
      change (map (fun p => stack (fst p) (snd p)) (combine (x1 :: y1 :: a1) (x2 :: y2 :: a2'))) with (stack x1 x2 :: map (fun p => stack (fst p) (snd p)) (combine (y1 :: a1) (y2 :: a2'))).
      remember (map (fun p => stack (fst p) (snd p)) (combine (y1 :: a1) (y2 :: a2'))) as rest eqn:Er. assert (Nr : exists z rest', rest = z :: rest') by (subst rest; cbn [combine map]; eauto). destruct Nr as (z & rest' & ->).
      change (hconcat (stack x1 x2 :: z :: rest')) with (do y <- hconcat (z :: rest'); if (length (rows (stack x1 x2)) =? length (rows y))%nat then Ok (FreqDim.mkArr (cols (stack x1 x2) + cols y) (hcat (rows (stack x1 x2)) (rows y))) else Raise ValueError).
      rewrite Ev. cbn [bind]. unfold stack. cbn [rows cols]. rewrite !app_length, L1, L2, Nat.eqb_refl. rewrite hcat_app by exact L1. reflexivity.
  Qed.
  Lemma stack_cols (a1 : list (arr2 B)) : forall a2, Forall2 (fun x y => cols x = cols y) a1 a2 -> map cols (map (fun p => stack (fst p) (snd p)) (combine a1 a2)) = map cols a1 /\ map cols a2 = map cols a1.
  Proof. intros a2 F. induction F as [|x y l l' H F [I1 I2]]; [auto|]. cbn [combine map fst snd stack cols]. rewrite I1, I2, H. auto. Qed.
  Lemma transform_stack d1 d2 x1 e1 x2 e2 : cols d1 = cols d2 -> at_once d1 = Ok (x1, e1) -> at_once d2 = Ok (x2, e2) ->
    cols x1 = cols x2 /\ e1 = e2 /\ at_once (stack d1 d2) = Ok (stack x1 x2, e1).
  Proof.
    intros Hc. unfold adaptive_transform. destruct (scale_bands s) as [qs|]; [|discriminate]. cbn [bind]. destruct (mapM (pb d1) qs) as [a1|] eqn:E1; [|discriminate]. destruct (mapM (pb d2) qs) as [a2|] eqn:E2; [|intros _; discriminate].
    cbn [bind]. destruct (bands_stack d1 d2 qs Hc a1 a2 E1 E2) as [F E]. rewrite E. cbn [bind]. destruct (stack_cols a1 a2 F) as [C1 C2]. unfold fa_new. rewrite C1, C2. destruct (make_efd s (fa_slices (map cols a1))) as [e|]; [|discriminate]. cbn [bind].
    destruct (hconcat a1) as [w1|] eqn:W1; [|discriminate]. destruct (hconcat a2) as [w2|] eqn:W2; [|intros _; discriminate]. cbn [bind]. intros [= <- <-] [= <- <-]. destruct (hconcat_stack a1 a2 w1 w2 F W1 W2) as [C E']. rewrite E'. auto.
  Qed.
  (** for any number of chunks *)
  Lemma transform_chunks n ds : forall d x e rest, cols d = n -> Forall (fun d' => cols d' = n) ds -> at_once d = Ok (x, e) -> Forall2 (fun d' r => at_once d' = Ok r) ds rest ->
    Forall (fun r => snd r = e) rest /\ at_once (FreqDim.mkArr n (rows d ++ List.concat (map rows ds))) = Ok (FreqDim.mkArr (cols x) (rows x ++ List.concat (map (fun r => rows (fst r)) rest)), e).
  Proof.
    induction ds as [|d2 ds IH]; intros d x e rest Hn F E G.
    - inversion G; subst. split; [constructor|]. cbn [map List.concat]. rewrite !app_nil_r. destruct d, x. exact E.
    - inversion G as [|a r l rest' Er G']; subst. apply Forall_cons_iff in F. destruct F as [Hd2 F]. destruct r as [x2 e2]. destruct (transform_stack d d2 x e x2 e2 ltac:(congruence) E Er) as (Cx & <- & Es).
      destruct (IH (stack d d2) (stack x x2) e rest') as [Fe Et]; [reflexivity|exact F|exact Es|exact G'|]. split; [constructor; [reflexivity|exact Fe]|]. cbn [stack rows cols] in Et. cbn [map List.concat fst]. rewrite !app_assoc. exact Et.
  Qed.
  (** one row out for each row in *)
  Lemma hconcat_rows {C} n (a : list (arr2 C)) : forall w', Forall (fun x => length (rows x) = n) a -> hconcat a = Ok w' -> length (rows w') = n.
  Proof.
    induction a as [|x a IH]; intros w' F; [discriminate|]. apply Forall_cons_iff in F. destruct F as [Hx F]. destruct a as [|y a]; [intros [= <-]; exact Hx|].
    intros H. assert (H' : (do z <- hconcat (y :: a); if (length (rows x) =? length (rows z))%nat then Ok (FreqDim.mkArr (cols x + cols z) (hcat (rows x) (rows z))) else Raise ValueError) = Ok w') by exact H.
    destruct (hconcat (y :: a)) as [z|] eqn:Z; [|discriminate]. cbn [bind] in H'. destruct (Nat.eqb_spec (length (rows x)) (length (rows z))); [|discriminate]. injection H' as <-. cbn [rows]. rewrite hcat_length; assumption.
  Qed.
  Lemma transform_rows d x e : at_once d = Ok (x, e) -> length (rows x) = length (rows d).
  Proof.
    unfold adaptive_transform. destruct (scale_bands s) as [qs|]; [|discriminate]. cbn [bind]. destruct (mapM (pb d) qs) as [a|] eqn:E; [|discriminate]. cbn [bind]. unfold fa_new. destruct (make_efd s _); [|discriminate]. cbn [bind].
    destruct (hconcat a) as [v|] eqn:V; [|discriminate]. cbn [bind]. intros [= <- _]. apply (hconcat_rows _ a v); [|exact V]. clear V v.
    revert a E. induction qs as [|q qs IH]; intros a; cbn [mapM]; [intros [= <-]; constructor|]. destruct (pb d q) as [b|] eqn:Eb; [|discriminate]. cbn [bind]. destruct (mapM (pb d) qs) as [r|]; [|discriminate]. cbn [bind]. intros [= <-]. constructor; [|apply IH; reflexivity].
    revert Eb. unfold process_band. destruct (match PhaseShift.select lin (Some q) with Ok p => Ok p | Raise IndexError => Raise ValueError | Raise e => Raise e end) as [p|]; [|discriminate]. cbn [bind]. unfold apply_along, col_slice. cbn [cols rows].
    destruct (acols t _) as [n|]; [|discriminate]. cbn [bind]. destruct (mapM (arow t) _) as [r1|] eqn:E1; [|discriminate]. cbn [bind]. intros [= <-]. cbn [rows]. apply mapM_length in E1. rewrite E1, !map_length. reflexivity.
  Qed.
End Stack.

(** ** The graph *)
Lemma window_closed n : (2 <= n)%nat -> adaptive_window n 0%nat = 0 /\ adaptive_window n (n - 1)%nat = 0.
Proof. exact (hanning_closed n). Qed.

Lemma std_rate r sr : In r standard_rates -> audio_rate r = Ok sr -> sr_freq sr = (10 ^ 12 / r)%Z /\ nyquist sr = (r / 2)%Z /\ (0 < nyquist sr)%Z.
Proof. intros H E. repeat (destruct H as [<-|H]; [vm_compute in E; injection E as <-; vm_compute; auto|]). destruct H. Qed.

Lemma std_pos r : In r standard_rates -> (0 < 10 ^ 12 / r)%Z.
Proof. intros H. repeat (destruct H as [<-|H]; [reflexivity|]). destruct H. Qed.

Section Graph.
  Variables (r : Z) (wsr : samplerate) (sr : samplerate) (s : scale) (qs : list band) (check : bool) (w h : nat).
  Hypotheses (Hr : In r standard_rates) (Hw : (2 <= w)%nat) (Hh : (1 <= h <= w)%nat)
    (Sw : span_samples (sample_dim r) (sr_dur wsr) = Ok (Z.of_nat w)) (Sh : span_samples (sample_dim r) (sr_freq wsr) = Ok (Z.of_nat h))
    (Er : audio_rate r = Ok sr) (Ec : adaptive_init check s = Ok tt)
    (Eq : scale_bands s = Ok qs) (Hp : Forall proper qs) (Hq : qs <> []) (Nd : NoDup qs).
  Let N := (w / 2 + 1)%nat.
  Hypothesis Ht : forall q, In q qs -> (2 <= how_many q (spectrum_bins sr N))%nat.

  Theorem adaptive_graph_ok chunks : chunks <> [] ->
    let x := List.concat chunks in
    let spectra k := map (fun i => map (dft_coeff w w (fun t => nth t (frame (vorbis w) w h x i) 0)) (seq 0 N)) (seq 0 k) in
    exists A k m e, adaptive_graph r wsr check s chunks = Ok A /\ frame_count (length x) w h k /\
      t_freq m = (10 ^ 12 / r * Z.of_nat h)%Z /\ t_dur m = (10 ^ 12 / r * Z.of_nat w)%Z /\
      Forall (fun a => fst a = sized m (length (rows (fst (snd a)))) /\ snd (snd a) = e) A /\
      (exists whole, adaptive_stored A = Ok (whole, e) /\
        adaptive_transform (0, 0) cscale along_irfft (Some adaptive_window) (Linear (mkBand 0 (IZR (r / 2))) N false) (FreqDim.mkArr N (spectra k)) s = Ok (whole, e) /\
        adaptive_fft_synthesize s sr m (whole, e) =
        fft_synthesize m (map (fun row => map (fun k => cscale (gain adaptive_window N (map (band_bins false (spectrum_bins sr N)) qs) k) (nth k row (0, 0))) (seq 0 N)) (spectra k))).
  Proof.
    intros Hne x spectra. destruct (stft_graph_ok r wsr 0 w h chunks Hr Hw Hh Sw Sh Hne) as (W & F & k & m & Eg & Kc & _ & Sf & Mf & Md & T).
    rewrite !Nat.add_0_r in Sf, T. fold N in Sf, T. change (stored F = spectra k) in Sf.
    destruct (std_rate r sr Hr Er) as (Sf' & Ny & Hny).
    assert (Hraw : forall t, t_dur t = t_dur m -> (raw_samples sr (t_dur t) / 2 + 1)%nat = N).
    { intros t ->. rewrite Md, Z.mul_comm, <- Sf'. rewrite raw_samples_exact; [reflexivity|]. rewrite Sf'. apply std_pos. exact Hr. }
    assert (HN : (2 <= N)%nat) by (unfold N; pose proof (Nat.div_le_mono 2 w 2 ltac:(lia) Hw) as D; change (2 / 2)%nat with 1%nat in D; lia).
    assert (Rows : forall row, In row (stored F) -> length row = N) by (rewrite Sf; intros row Hin; apply in_map_iff in Hin; destruct Hin as (i & <- & _); rewrite map_length, seq_length; reflexivity).
    assert (One : forall R', (forall row, In row R' -> length row = N) -> exists fa, adaptive_transform (0, 0) cscale along_irfft (Some adaptive_window) (Linear (mkBand 0 (IZR (r / 2))) N false) (FreqDim.mkArr N R') s = Ok fa /\
      adaptive_fft_synthesize s sr m fa = fft_synthesize m (map (fun row => map (fun k => cscale (gain adaptive_window N (map (band_bins false (spectrum_bins sr N)) qs) k) (nth k row (0, 0))) (seq 0 N)) R')).
    { intros R' HR. rewrite <- Ny. apply (adaptive_fft_closed s qs sr m adaptive_window (FreqDim.mkArr N R') N Eq Hp Hq Nd Hny (Hraw m eq_refl) HN eq_refl); [apply Forall_forall; exact HR|exact Ht|exact window_closed]. }
    assert (Ch : forall a, In a F -> exists fa, adaptive_node s a = Ok (sized m (length (a_rows a)), fa) /\ adaptive_transform (0, 0) cscale along_irfft (Some adaptive_window) (Linear (mkBand 0 (IZR (r / 2))) N false) (FreqDim.mkArr N (a_rows a)) s = Ok fa).
    { intros a Ha. rewrite Forall_forall in T. destruct (T a Ha) as [Ed Ew]. destruct (One (a_rows a)) as (fa & Ef & _). { intros row Hrow. apply Rows. unfold stored. apply in_concat. exists (a_rows a). split; [apply in_map; exact Ha|exact Hrow]. }
      exists fa. split; [|exact Ef]. unfold adaptive_node. rewrite Ed, Ew. exact (f_equal (fun z => do fa <- z; Ok (sized m (length (a_rows a)), fa)) Ef). }
    assert (G : exists A, mapM (adaptive_node s) F = Ok A /\ Forall2 (fun a c => fst c = sized m (length (a_rows a)) /\ adaptive_transform (0, 0) cscale along_irfft (Some adaptive_window) (Linear (mkBand 0 (IZR (r / 2))) N false) (FreqDim.mkArr N (a_rows a)) s = Ok (snd c)) F A).
    { apply mapM_chunks. intros a Ha. destruct (Ch a Ha) as (fa & E1 & E2). eexists. split; [exact E1|]. split; [reflexivity|exact E2]. }
    destruct G as (A & EA & FA). assert (NF : F <> []). { intros ->. unfold stored in Sf. cbn in Sf. assert (K0 : k <> 0%nat) by (clear -Kc; unfold frame_count in Kc; destruct (Nat.leb _ _); lia). destruct k; [contradiction|discriminate]. }
    destruct F as [|a0 F]; [contradiction|]. inversion FA as [|a0' c0 F' A' [E0 E0'] FA']; subst a0' F' A. destruct c0 as [t0 [x0 e]]. cbn [fst snd] in E0, E0'.
    destruct (transform_chunks (0, 0) cscale along_irfft (Some adaptive_window) (Linear (mkBand 0 (IZR (r / 2))) N false) s N (map (fun a => FreqDim.mkArr N (a_rows a)) F) (FreqDim.mkArr N (a_rows a0)) x0 e (map snd A') eq_refl) as [Fe Et].
    { apply Forall_forall. intros d Hd. apply in_map_iff in Hd. destruct Hd as (a & <- & _). reflexivity. }
    { exact E0'. }
    { clear -FA'. induction FA' as [|a c F A' [_ H] FA IH]; constructor; [exact H|exact IH]. }
    exists ((t0, (x0, e)) :: A'), k, m, e. unfold adaptive_graph. rewrite Ec. cbn [bind]. rewrite Eg. cbn [bind snd]. rewrite EA. split; [reflexivity|]. split; [exact Kc|]. split; [exact Mf|]. split; [exact Md|].
    split.
    - rewrite Forall_map in Fe. constructor; cbn [fst snd]; [rewrite (transform_rows _ _ _ _ _ _ _ _ _ E0'); cbn [rows]; auto|].
      apply Forall_forall. intros c Hc. rewrite Forall_forall in Fe. split; [|exact (Fe c Hc)]. clear -FA' Hc. induction FA' as [|a c' F A' [H H'] FA IH]; [destruct Hc|]. destruct Hc as [->|Hc]; [|auto]. destruct c as [t' [x' e']]. cbn [fst snd] in *. rewrite (transform_rows _ _ _ _ _ _ _ _ _ H'). exact H.
    - exists (FreqDim.mkArr (cols x0) (rows x0 ++ List.concat (map (fun c => rows (fst (snd c))) A'))). split; [reflexivity|].
      rewrite !map_map in Et. cbn [rows] in Et. change (a_rows a0 ++ List.concat (map (fun a => a_rows a) F))%list with (stored (a0 :: F)) in Et. rewrite Sf in Et. split; [exact Et|].
      destruct (One (spectra k)) as (fa & Ef & Es); [intros row Hrow; rewrite <- Sf in Hrow; apply Rows; exact Hrow|]. rewrite Et in Ef. injection Ef as <-. exact Es.
  Qed.
End Graph.

(** ** From the bytes *)
Theorem nothing_stored : adaptive_stored [] = Raise ValueError.
Proof. reflexivity. Qed.
Section Bytes.
  Context {B Q : Type} (decode : list B -> list (list R)) (src_new : Q) (src : Q -> list (list R) -> nat -> bool -> Q * list (list R)).
  (** a scale that fails its test is refused before any byte is read *)
  Theorem adaptive_refused depth rate channels r wsr check s fuel chunks bytes e : adaptive_init check s = Raise e ->
    adaptive_graph r wsr check s chunks = Raise e /\
    (forall a, adaptive_bytes decode src_new src depth rate channels fuel r wsr check s bytes <> Ok a).
  Proof.
    intros E. assert (G : forall c, adaptive_graph r wsr check s c = Raise e) by (intros c; unfold adaptive_graph; rewrite E; reflexivity). split; [apply G|].
    intros a. unfold adaptive_bytes. destruct (resampled_graph _ _ _ _ _ _ _ _ _); cbn [bind]; [rewrite G|]; discriminate.
  Qed.

  (** resynthesis of the features of a file is the inverse transform of its spectra, bin [k] of each
      scaled by the sum of the windows of the bands that take it; for any way to cut the bytes *)
  Theorem adaptive_bytes_ok (depth r : Z) (channels : nat) wsr sr s qs check w h b bs :
    (0 < depth)%Z -> (0 < channels)%nat -> monotone decode ->
    In r standard_rates -> (2 <= w)%nat -> (1 <= h <= w)%nat ->
    span_samples (sample_dim r) (sr_dur wsr) = Ok (Z.of_nat w) -> span_samples (sample_dim r) (sr_freq wsr) = Ok (Z.of_nat h) ->
    audio_rate r = Ok sr -> adaptive_init check s = Ok tt -> scale_bands s = Ok qs -> Forall proper qs -> qs <> [] -> NoDup qs ->
    (forall q, In q qs -> (2 <= how_many q (spectrum_bins sr (w / 2 + 1)))%nat) ->
    let x := map (mono_sample channels) (decode (List.concat (b :: bs))) in
    let spectra k := map (fun i => map (dft_coeff w w (fun t => nth t (frame (vorbis w) w h x i) 0)) (seq 0 (w / 2 + 1))) (seq 0 k) in
    exists fuel0, forall fuel, (fuel0 <= fuel)%nat -> exists A k m whole e,
      adaptive_bytes decode src_new src depth r channels fuel r wsr check s (b :: bs) = Ok A /\
      adaptive_stored A = Ok (whole, e) /\ frame_count (length x) w h k /\
      t_freq m = (10 ^ 12 / r * Z.of_nat h)%Z /\ t_dur m = (10 ^ 12 / r * Z.of_nat w)%Z /\
      adaptive_fft_synthesize s sr m (whole, e) =
      fft_synthesize m (map (fun row => map (fun j => cscale (gain adaptive_window (w / 2 + 1) (map (band_bins false (spectrum_bins sr (w / 2 + 1))) qs) j) (nth j row (0, 0))) (seq 0 (w / 2 + 1))) (spectra k)).
  Proof.
    intros Hd Hc Hm Hr Hw Hh Sw Sh Er Ec Eq Hp Hq Nd Ht x spectra. assert (Hp' : (0 < r)%Z) by (clear -Hr; repeat (destruct Hr as [<-|Hr]; [reflexivity|]); destruct Hr).
    destruct (resampled_some decode src_new src depth r channels b bs Hd Hp' Hc Hm) as (f0 & H). exists f0. intros f Hf. destruct (H f Hf) as (chunks & E & C & Ne).
    destruct (adaptive_graph_ok r wsr sr s qs check w h Hr Hw Hh Sw Sh Er Ec Eq Hp Hq Nd Ht chunks Ne) as (A & k & m & e & Eg & Kc & Mf & Md & _ & whole & Es & _ & Ey). rewrite C in Kc, Ey.
    exists A, k, m, whole, e. unfold adaptive_bytes. rewrite E. cbn [bind]. split; [exact Eg|]. split; [exact Es|]. split; [exact Kc|]. split; [exact Mf|]. split; [exact Md|exact Ey].
  Qed.
End Bytes.

(** ** cases *)
Example bytes_are_samples : monotone (fun b : list R => map (fun v => [v]) b).
Proof. intros a b. exists (map (fun v => [v]) b). apply map_app. Qed.
(** windows of six samples every three at 16 kHz, and two bands *)
Definition six : samplerate := {| sr_freq := 3 * 62500000; sr_dur := 6 * 62500000 |}.
Definition kHz16 : samplerate := {| sr_freq := 62500000; sr_dur := 62500000 |}.
Lemma six_bins : nyquist kHz16 = 8000%Z /\ spectrum_bins kHz16 4 = [mkBand 0 2000; mkBand 2000 4000; mkBand 4000 6000; mkBand 6000 8000].
Proof.
  assert (E : nyquist kHz16 = 8000%Z) by reflexivity. split; [exact E|]. unfold spectrum_bins. rewrite E. assert (W : lin_width (mkBand 0 8000) 4 = 2000) by (unfold lin_width; cbn [bstart bstop INR]; lra). cbn [seq map]. unfold lin_band. rewrite W. cbn [bstart bstop INR Nat.add]. repeat f_equal; lra.
Qed.
Example adaptive_case (x : list R) b bs : x = List.concat (b :: bs) -> exists fuel A k m whole e,
  adaptive_bytes (fun b : list R => map (fun v => [v]) b) tt (fun q _ _ _ => (q, [])) 1 16000 1 fuel 16000 six false (Explicit [mkBand 0 3000; mkBand 5000 8000]) (b :: bs) = Ok A /\
  adaptive_stored A = Ok (whole, e) /\ frame_count (length x) 6 3 k /\ t_freq m = 187500000%Z /\
  adaptive_fft_synthesize (Explicit [mkBand 0 3000; mkBand 5000 8000]) kHz16 m (whole, e) =
  fft_synthesize m (map (fun row => map (fun j => cscale (gain adaptive_window 4 [(0, 2); (2, 4)]%nat j) (nth j row (0, 0))) (seq 0 4))
    (map (fun i => map (dft_coeff 6 6 (fun t => nth t (frame (vorbis 6) 6 3 x i) 0)) (seq 0 4)) (seq 0 k))).
Proof.
  intros ->. assert (Bn : map (band_bins false (spectrum_bins kHz16 4)) [mkBand 0 3000; mkBand 5000 8000] = [(0, 2); (2, 4)]%nat /\ how_many (mkBand 0 3000) (spectrum_bins kHz16 4) = 2%nat /\ how_many (mkBand 5000 8000) (spectrum_bins kHz16 4) = 2%nat).
  { rewrite (proj2 six_bins). unfold band_bins, how_many. cbn [first_touched filter map]. touch. cbn. auto. }
  destruct Bn as (Bn & B1 & B2).
  destruct (adaptive_bytes_ok (fun b : list R => map (fun v => [v]) b) tt (fun (q : unit) (_ : list (list R)) (_ : nat) (_ : bool) => (q, [])) 1 16000 1 six kHz16 (Explicit [mkBand 0 3000; mkBand 5000 8000]) [mkBand 0 3000; mkBand 5000 8000] false 6 3 b bs) as (f0 & H); try reflexivity; try lia.
  - exact bytes_are_samples.
  - cbn. tauto.
  - repeat constructor; unfold proper; cbn [bstart bstop]; lra.
  - discriminate.
  - apply nodup2. cbn [bstart]. lra.
  - intros q [<-|[<-|[]]]; change (6 / 2 + 1)%nat with 4%nat; lia.
  - destruct (H f0 ltac:(lia)) as (A & k & m & whole & e & E1 & E2 & E3 & E4 & _ & E5). exists f0, A, k, m, whole, e. change (6 / 2 + 1)%nat with 4%nat in E5. rewrite Bn in E5.
    assert (Ex : map (mono_sample 1) (map (fun v : R => [v]) (List.concat (b :: bs))) = List.concat (b :: bs)) by (rewrite map_map; unfold mono_sample; cbn [Nat.eqb nth]; apply map_id). rewrite Ex in E3, E5. auto 10.
Qed.
