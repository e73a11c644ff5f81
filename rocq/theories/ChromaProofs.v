(** Proofs about the chroma part of ScaleBasis.v (ChromaScale, Chroma). *)
From Verif Require Import PyBase PyFacts PyMore Freq FreqProofs FreqScaleProofs ScaleBasis ScaleBasisProofs.
Local Open Scope R_scope.

(* ------------------------------------------------------------------ *)
(** * Specification *)
(** the weight a window gives to bin [k] when it is laid over the bins a band
    touches *)
Definition win_at (g : nat -> list R) (q : band) (bs : list band) (k : nat) : R :=
  match nth_error bs k with
  | Some b =>
      if touched q b
      then nth (length (filter (touched q) (firstn k bs))) (g (length (filter (touched q) bs))) 0
      else 0
  | None => 0
  end.
(** the pitch [s] semitones above A440, in hertz *)
Definition pitch (s : Z) : R := 440 * Rpower 2 (IZR s / 12).
(** the band from the semitone below [m] to the semitone above [m] *)
Definition around (m : Z) : band := mkBand (pitch (m - 1)) (pitch (m + 1)).
(** consecutive integers *)
Definition zfrom (a : Z) (n : nat) : list Z := map (fun i => (a + Z.of_nat i)%Z) (seq 0 n).
Definition total (l : list R) : R := fold_right Rplus 0 l.
(** [n] is a nearest whole number of semitones above A440 to [hz] *)
Definition nearest_semitone (hz : R) (n : Z) : Prop :=
  Rabs (IZR n - 12 * (ln (hz / 440) / ln 2)) <= / 2.

(* ------------------------------------------------------------------ *)
Lemma ln2_pos : 0 < ln 2.
Proof. rewrite <- ln_1. apply ln_increasing; lra. Qed.
Lemma semitone_hz_pitch s : semitone_hz s = pitch s.
Proof.
  unfold semitone_hz, pitch. f_equal. rewrite Rpower_mult. f_equal. unfold Rdiv. lra.
Qed.
Lemma pitch_lt a b : (a < b)%Z -> pitch a < pitch b.
Proof.
  intros H. unfold pitch. apply Rmult_lt_compat_l; [lra|]. apply Rpower_lt; [lra|].
  apply IZR_lt in H. lra.
Qed.
Lemma pitch_le a b : (a <= b)%Z -> pitch a <= pitch b.
Proof. intros H. apply Z.le_lteq in H. destruct H as [H| ->]; [left; apply pitch_lt; assumption|right; reflexivity]. Qed.
Lemma pitch_pos a : 0 < pitch a.
Proof. unfold pitch. apply Rmult_lt_0_compat; [lra|apply exp_pos]. Qed.
Lemma pitch_0 : pitch 0 = 440.
Proof. unfold pitch. replace (IZR 0 / 12) with 0 by lra. rewrite Rpower_O by lra. lra. Qed.
Lemma pitch_octave s : pitch (s + 12) = 2 * pitch s.
Proof.
  unfold pitch. rewrite plus_IZR. replace ((IZR s + 12) / 12) with (IZR s / 12 + 1) by lra.
  rewrite Rpower_plus, Rpower_1 by lra. lra.
Qed.
Lemma pitch_middle s : pitch s * pitch s = pitch (s - 1) * pitch (s + 1).
Proof.
  unfold pitch.
  replace (440 * Rpower 2 (IZR s / 12) * (440 * Rpower 2 (IZR s / 12)))
    with (440 * 440 * (Rpower 2 (IZR s / 12) * Rpower 2 (IZR s / 12))) by lra.
  replace (440 * Rpower 2 (IZR (s - 1) / 12) * (440 * Rpower 2 (IZR (s + 1) / 12)))
    with (440 * 440 * (Rpower 2 (IZR (s - 1) / 12) * Rpower 2 (IZR (s + 1) / 12))) by lra.
  rewrite <- !Rpower_plus. rewrite minus_IZR, plus_IZR. do 2 f_equal. lra.
Qed.
Lemma around_proper m : proper (around m).
Proof. unfold proper, around; cbn [bstart bstop]. apply pitch_lt. lia. Qed.

Lemma rround_nearest x : Rabs (IZR (rround x) - x) <= / 2.
Proof.
  unfold rround. pose proof (base_fp x) as [A B].
  assert (E : x = IZR (Int_part x) + frac_part x) by (unfold frac_part; lra).
  set (n := Int_part x) in *. set (f := frac_part x) in *. clearbody n f.
  destruct (Rltb f (/ 2)) eqn:E1; rbool.
  - apply Rabs_le. lra.
  - destruct (Rltb (/ 2) f) eqn:E2; rbool.
    + rewrite plus_IZR. apply Rabs_le. lra.
    + destruct (Z.even n); rewrite ?plus_IZR; apply Rabs_le; lra.
Qed.
Lemma hz_to_int_ok hz : 0 < hz -> exists n, hz_to_int_semitone hz = Ok n /\ nearest_semitone hz n.
Proof.
  intros H. unfold hz_to_int_semitone.
  assert (E1 : Rltb hz 0 = false) by (apply Rltb_false; lra). rewrite E1.
  assert (E2 : Reqb hz 0 = false) by (unfold Reqb; destruct (Req_EM_T hz 0); [lra|reflexivity]). rewrite E2.
  eexists; split; [reflexivity|]. unfold nearest_semitone.
  replace (12 * (ln (hz / 440) / ln 2)) with (hz_semitone hz); [apply rround_nearest|].
  unfold hz_semitone. unfold Rpower at 1. rewrite ln_exp. pose proof ln2_pos. field. lra.
Qed.

(* ------------------------------------------------------------------ *)
(** * Slices as windows over touched bins *)
Lemma filter_touched_range q bs i j :
  (i <= j)%nat -> (j <= length bs)%nat ->
  (forall k b, nth_error bs k = Some b -> (touched q b = true <-> (i <= k < j)%nat)) ->
  length (filter (touched q) bs) = (j - i)%nat /\
  forall k, (i <= k < j)%nat -> length (filter (touched q) (firstn k bs)) = (k - i)%nat.
Proof.
  intros Hij Hj H. split.
  - rewrite (filter_range _ _ i j H), firstn_length, skipn_length. lia.
  - intros k Hk. rewrite (filter_range _ _ i j).
    + rewrite firstn_length, skipn_length, firstn_length. lia.
    + intros k' b Hb. assert (L : (k' < k)%nat).
      { destruct (Nat.lt_ge_cases k' k); [assumption|].
        rewrite (proj2 (nth_error_None (firstn k bs) k')) in Hb; [discriminate|]. rewrite firstn_length. lia. }
      apply H. rewrite <- Hb. symmetry. clear - L. revert k' L bs; induction k as [|k IH]; intros k' L bs; [lia|].
      destruct bs as [|b bs]; [destruct k'; reflexivity|]. destruct k' as [|k']; [reflexivity|]. simpl. apply IH. lia.
Qed.

Lemma win_at_range g q bs i j k :
  (i <= j)%nat -> (j <= length bs)%nat -> (k < length bs)%nat ->
  (forall k b, nth_error bs k = Some b -> (touched q b = true <-> (i <= k < j)%nat)) ->
  win_at g q bs k = if (i <=? k)%nat && (k <? j)%nat then nth (k - i) (g (j - i)%nat) 0 else 0.
Proof.
  intros Hij Hj Hk H. unfold win_at.
  destruct (nth_error bs k) as [b|] eqn:Eb; [|apply nth_error_None in Eb; lia].
  destruct (filter_touched_range q bs i j Hij Hj H) as [T P].
  specialize (H k b Eb).
  destruct (Nat.leb_spec i k), (Nat.ltb_spec k j); cbn [andb].
  - rewrite (proj2 H) by lia. rewrite T, P by lia. reflexivity.
  - destruct (touched q b); [|reflexivity]. destruct H as [H _]. specialize (H eq_refl). lia.
  - destruct (touched q b); [|reflexivity]. destruct H as [H _]. specialize (H eq_refl). lia.
  - destruct (touched q b); [|reflexivity]. destruct H as [H _]. specialize (H eq_refl). lia.
Qed.

Lemma nth_map_add a b k : (k < length a)%nat -> length a = length b ->
  nth k (map (fun q : R * R => fst q + snd q) (combine a b)) 0 = nth k a 0 + nth k b 0.
Proof.
  revert b k; induction a as [|x a IH]; intros [|y b] k Hk L; simpl in *; try discriminate; try lia.
  destruct k as [|k]; [reflexivity|]. apply IH; lia.
Qed.

Lemma add_to_slice_spec row i j v :
  (i <= j)%nat -> (j <= length row)%nat -> length v = (j - i)%nat ->
  length (add_to_slice row (i, j) v) = length row /\
  forall k, (k < length row)%nat ->
    nth k (add_to_slice row (i, j) v) 0
    = nth k row 0 + (if (i <=? k)%nat && (k <? j)%nat then nth (k - i) v 0 else 0).
Proof.
  intros Hij Hj Hv. unfold add_to_slice, put_slice. cbn [fst].
  set (mid := map (fun q : R * R => fst q + snd q) (combine (firstn (length v) (skipn i row)) v)).
  assert (Lf : length (firstn (length v) (skipn i row)) = length v).
  { rewrite firstn_length, skipn_length. lia. }
  assert (Lm : length mid = (j - i)%nat).
  { unfold mid. rewrite map_length, combine_length, Lf. lia. }
  split.
  - rewrite !app_length, firstn_length, skipn_length, Lm. lia.
  - intros k Hk.
    destruct (Nat.leb_spec i k) as [A|A]; cbn [andb].
    + rewrite app_nth2 by (rewrite firstn_length; lia). rewrite firstn_length, Nat.min_l by lia.
      destruct (Nat.ltb_spec k j) as [B|B].
      * rewrite app_nth1 by lia. unfold mid. rewrite nth_map_add by lia. f_equal.
        rewrite <- (firstn_skipn i row) at 2. rewrite app_nth2 by (rewrite firstn_length; lia).
        rewrite firstn_length, Nat.min_l by lia.
        rewrite <- (firstn_skipn (length v) (skipn i row)) at 2. rewrite app_nth1 by lia. reflexivity.
      * rewrite app_nth2 by lia. rewrite Lm, Rplus_0_r.
        rewrite <- (firstn_skipn j row) at 2. rewrite app_nth2 by (rewrite firstn_length; lia).
        rewrite firstn_length, Nat.min_l by lia.
        replace (i + (j - i))%nat with j by lia. f_equal. lia.
    + rewrite app_nth1 by (rewrite firstn_length; lia). rewrite Rplus_0_r.
      rewrite <- (firstn_skipn i row) at 2. rewrite app_nth1 by (rewrite firstn_length; lia). reflexivity.
Qed.

Lemma update_row_length basis c f : length (update_row basis c f) = length basis.
Proof. revert c; induction basis as [|r basis IH]; intros [|c]; simpl; auto. Qed.
Lemma update_row_nth basis c f c' : (c' < length basis)%nat ->
  nth c' (update_row basis c f) [] = if (c' =? c)%nat then f (nth c' basis []) else nth c' basis [].
Proof.
  revert c c'; induction basis as [|r basis IH]; intros c c' H; simpl in H; [lia|].
  destruct c as [|c], c' as [|c']; simpl; try reflexivity. apply IH. lia.
Qed.
Lemma update_row_Forall (P : list R -> Prop) basis c f :
  (forall r, P r -> P (f r)) -> Forall P basis -> Forall P (update_row basis c f).
Proof.
  intros Hf H. revert c; induction H as [|r l Hr Hl IH]; intros [|c]; simpl; constructor; auto.
Qed.

Section Loop.
  Context (other : scale) (bs : list band) (w : win) (g : nat -> list R).
  Context (Hbs : scale_bands other = Ok bs) (Hlen : length bs = scale_len other)
    (Hord : ordered bs) (Hprop : Forall proper bs) (He : scale_even other = false) (Hw : window_is w g).

  Lemma chroma_loop_spec pairs basis :
    Forall (fun p => proper (snd p)) pairs ->
    length basis = 12%nat -> Forall (fun r => length r = scale_len other) basis ->
    exists out, chroma_loop other w pairs basis = Ok out /\ length out = 12%nat /\
      Forall (fun r => length r = scale_len other) out /\
      forall c k, (c < 12)%nat -> (k < scale_len other)%nat ->
        nth k (nth c out []) 0 = nth k (nth c basis []) 0
          + total (map (fun p => win_at g (snd p) bs k)
                       (filter (fun p => (fst p mod 12 =? Z.of_nat c)%Z) pairs)).
  Proof.
    revert basis; induction pairs as [|[s q] pairs IH]; intros basis Hp Hb Hr; simpl.
    - exists basis. split; [reflexivity|]. split; [assumption|]. split; [assumption|]. intros. lra.
    - inversion Hp as [|? ? Hq Hp']; subst. cbn [snd] in Hq.
      destruct (get_slice_range other bs q Hbs Hord) as [i [j [E [Li [Lj [Hij Hrng]]]]]].
      specialize (Hij Hprop Hq). rewrite E, He. cbn [andb bind].
      destruct (Hw (slice_len (scale_len other) (i, j))) as [Lg Eg]. rewrite Eg. cbn [bind].
      assert (SL : slice_len (scale_len other) (i, j) = (j - i)%nat).
      { unfold slice_len; cbn [fst snd]. rewrite <- Hlen. lia. }
      rewrite SL in *. clear Eg.
      set (v := g (j - i)%nat) in *.
      set (cc := Z.to_nat (s mod 12)).
      assert (Hcc : (cc < 12)%nat /\ Z.of_nat cc = (s mod 12)%Z).
      { unfold cc. pose proof (Z.mod_pos_bound s 12 ltac:(lia)). lia. }
      set (f := fun row => add_to_slice row (i, j) v).
      assert (Hf : forall r, length r = scale_len other -> length (f r) = scale_len other).
      { intros r Hr0. unfold f. destruct (add_to_slice_spec r i j v) as [A _]; [lia|lia|assumption|]. congruence. }
      destruct (IH (update_row basis cc f) Hp') as [out [Eo [Lo [Ro No]]]].
      { rewrite update_row_length. assumption. }
      { apply update_row_Forall; assumption. }
      exists out. split; [exact Eo|]. split; [assumption|]. split; [assumption|].
      intros c k Hc Hk. rewrite No by assumption. rewrite update_row_nth by lia.
      assert (Lc : length (nth c basis []) = scale_len other).
      { rewrite Forall_forall in Hr. apply Hr, nth_In. lia. }
      destruct (Nat.eqb_spec c cc) as [Ec|Ec].
      + subst c. replace (s mod 12 =? Z.of_nat cc)%Z with true by (symmetry; apply Z.eqb_eq; lia).
        cbn [map total fold_right]. fold total.
        unfold f. destruct (add_to_slice_spec (nth cc basis []) i j v) as [_ A]; [lia|lia|assumption|].
        rewrite A by lia. cbn [snd]. rewrite (win_at_range g q bs i j k) by (lia || assumption).
        unfold v, total. lra.
      + replace (s mod 12 =? Z.of_nat c)%Z with false by (symmetry; apply Z.eqb_neq; lia). reflexivity.
  Qed.
End Loop.

(* ------------------------------------------------------------------ *)
(** * The bands *)
Lemma chroma_bands_ok start stop :
  let n := Z.to_nat (stop - start + 1) in
  chroma_bands (semitone_range start stop)
  = Ok (map (fun i => around (start + Z.of_nat i)) (seq 0 (n - 2))).
Proof.
  intros n. unfold chroma_bands.
  assert (L : length (semitone_range start stop) = n).
  { unfold semitone_range. rewrite map_length, seq_length. reflexivity. }
  rewrite L. apply mapM_ok. intros i Hi. apply in_seq in Hi.
  assert (N : forall k, (k < n)%nat -> nth k (map semitone_hz (semitone_range start stop)) 0 = pitch (start - 1 + Z.of_nat k)).
  { intros k Hk. rewrite (nth_indep _ 0 (semitone_hz 0)) by (rewrite map_length, L; assumption).
    rewrite map_nth. unfold semitone_range.
    rewrite (nth_indep _ 0%Z ((fun i : nat => (start - 1 + Z.of_nat i)%Z) 0%nat)) by (rewrite map_length, seq_length; assumption).
    rewrite (map_nth (fun i : nat => (start - 1 + Z.of_nat i)%Z)), seq_nth by assumption.
    apply semitone_hz_pitch. }
  rewrite !N by lia. unfold around.
  replace (start + Z.of_nat i - 1)%Z with (start - 1 + Z.of_nat i)%Z by lia.
  replace (start + Z.of_nat i + 1)%Z with (start - 1 + Z.of_nat (i + 2))%Z by lia.
  apply make_band_ok. apply pitch_lt. lia.
Qed.
Lemma combine_map_seq {A B} (f : nat -> A) (h : nat -> B) a n m : (m <= n)%nat ->
  combine (map f (seq a n)) (map h (seq a m)) = map (fun i => (f i, h i)) (seq a m).
Proof.
  revert a n; induction m as [|m IH]; intros a n H; simpl.
  - destruct (map f (seq a n)); reflexivity.
  - destruct n as [|n]; [lia|]. simpl. f_equal. apply IH. lia.
Qed.
Lemma filter_map {A B} (p : B -> bool) (f : A -> B) l : filter p (map f l) = map f (filter (fun x => p (f x)) l).
Proof. induction l as [|x l IH]; simpl; [reflexivity|]. destruct (p (f x)); simpl; rewrite IH; reflexivity. Qed.

Lemma chroma_spec fb other w g :
  0 < bstart fb -> proper fb -> well_formed other -> scale_even other = false -> window_is w g ->
  exists bs basis lo hi,
    scale_bands other = Ok bs /\ nearest_semitone (bstart fb) lo /\ nearest_semitone (bstop fb) hi /\
    scale_basis (Chroma fb) other w = Ok basis /\ length basis = 12%nat /\
    Forall (fun r => length r = scale_len other) basis /\
    forall c k, (c < 12)%nat -> (k < scale_len other)%nat ->
      nth k (nth c basis []) 0
      = total (map (fun m => win_at g (around m) bs k)
                   (filter (fun m => ((m - 1) mod 12 =? Z.of_nat c)%Z) (zfrom lo (Z.to_nat (hi - lo - 1))))).
Proof.
  intros H0 Hp Ho He Hw. unfold proper in Hp.
  destruct (well_formed_bands other Ho) as [bs [Hb [Hlen [Hord Hprop]]]].
  destruct (hz_to_int_ok (bstart fb) H0) as [lo [El Nl]].
  destruct (hz_to_int_ok (bstop fb) ltac:(lra)) as [hi [Eh Nh]].
  cbn [scale_basis]. unfold chroma_basis. rewrite El, Eh. cbn [bind].
  rewrite chroma_bands_ok. cbn [bind]. unfold semitone_range.
  rewrite combine_map_seq by lia.
  set (n := (Z.to_nat (hi - lo + 1) - 2)%nat).
  destruct (chroma_loop_spec other bs w g Hb Hlen Hord Hprop He Hw
    (map (fun i : nat => ((lo - 1 + Z.of_nat i)%Z, around (lo + Z.of_nat i))) (seq 0 n))
    (repeat (repeat 0 (scale_len other)) 12)) as [out [Eo [Lo [Ro No]]]].
  { apply Forall_forall. intros p Hin. apply in_map_iff in Hin. destruct Hin as [i [<- _]]. apply around_proper. }
  { apply repeat_length. }
  { apply Forall_forall. intros r Hr. apply repeat_spec in Hr. subst r. apply repeat_length. }
  exists bs, out, lo, hi. split; [assumption|]. split; [assumption|]. split; [assumption|].
  split; [exact Eo|]. split; [assumption|]. split; [assumption|].
  intros c k Hc Hk. rewrite No by assumption.
  rewrite (nth_indep (repeat (repeat 0 (scale_len other)) 12) [] (repeat 0 (scale_len other))) by (rewrite repeat_length; lia).
  rewrite !nth_repeat, Rplus_0_l. f_equal.
  unfold zfrom. replace (Z.to_nat (hi - lo - 1)) with n by (unfold n; lia).
  rewrite !filter_map, !map_map. cbn [fst snd].
  f_equal. apply filter_ext. intros i.
  replace (lo + Z.of_nat i - 1)%Z with (lo - 1 + Z.of_nat i)%Z by lia. reflexivity.
Qed.

(* ------------------------------------------------------------------ *)
(** * Which pitch classes a bin is credited to *)
(** a bin strictly between the pitches [m - 1] and [m] *)
Definition between (m : Z) (b : band) : Prop := pitch (m - 1) < bstart b /\ bstart b < bstop b /\ bstop b < pitch m.

Lemma pitch_lt_inv a b : pitch a < pitch b -> (a < b)%Z.
Proof. intros H. destruct (Z.lt_ge_cases a b) as [|G]; [assumption|]. apply pitch_le in G. lra. Qed.
Lemma between_touched m b x : between m b -> touched (around x) b = true <-> (x = m - 1 \/ x = m)%Z.
Proof.
  intros [A [B C]]. unfold touched, around; cbn [bstart bstop]. rewrite andb_true_iff, Rltb_true, Rleb_true. split.
  - intros [D E]. assert (F : (m - 1 < x + 1)%Z) by (apply pitch_lt_inv; lra).
    assert (G : (x - 1 < m)%Z) by (apply pitch_lt_inv; lra). lia.
  - intros H. pose proof (pitch_le m (x + 1) ltac:(lia)). pose proof (pitch_le (x - 1) (m - 1) ltac:(lia)). lra.
Qed.

Lemma total_zero l : Forall (fun x => x = 0) l -> total l = 0.
Proof. intros H; induction H as [|x l E _ IH]; [reflexivity|]. change (total (x :: l)) with (x + total l). lra. Qed.

(** the credit goes to the two classes one below the two nearest pitches *)
Lemma chroma_shifted fb other w g :
  0 < bstart fb -> proper fb -> well_formed other -> scale_even other = false -> window_is w g ->
  exists bs basis, scale_bands other = Ok bs /\ scale_basis (Chroma fb) other w = Ok basis /\
    forall m k b c, nth_error bs k = Some b -> between m b -> (c < 12)%nat ->
      Z.of_nat c <> ((m - 2) mod 12)%Z -> Z.of_nat c <> ((m - 1) mod 12)%Z ->
      nth k (nth c basis []) 0 = 0.
Proof.
  intros H0 Hp Ho He Hw.
  destruct (chroma_spec fb other w g H0 Hp Ho He Hw) as [bs [basis [lo [hi [Hb [_ [_ [E [_ [_ N]]]]]]]]]].
  exists bs, basis. split; [assumption|]. split; [assumption|].
  intros m k b c Hk Hbt Hc N1 N2.
  destruct (well_formed_bands other Ho) as [bs' [Hb' [Hlen _]]]. rewrite Hb in Hb'. inversion Hb'; subst bs'.
  rewrite N; [|assumption|rewrite <- Hlen; apply nth_error_Some; congruence].
  apply total_zero. apply Forall_forall. intros x Hx. apply in_map_iff in Hx. destruct Hx as [s [<- Hs]].
  apply filter_In in Hs. destruct Hs as [_ Hs]. apply Z.eqb_eq in Hs.
  unfold win_at. rewrite Hk. destruct (touched (around s) b) eqn:Et; [|reflexivity].
  apply (between_touched m b s Hbt) in Et. exfalso. destruct Et as [-> | ->]; [|congruence].
  replace (m - 1 - 1)%Z with (m - 2)%Z in Hs by lia. congruence.
Qed.

Lemma NoDup_zfrom a n : NoDup (zfrom a n).
Proof.
  unfold zfrom. apply FinFun.Injective_map_NoDup; [intros x y H; lia|apply seq_NoDup].
Qed.
Lemma in_zfrom a n x : In x (zfrom a n) <-> (a <= x < a + Z.of_nat n)%Z.
Proof.
  unfold zfrom. rewrite in_map_iff. split.
  - intros [i [<- Hi]]. apply in_seq in Hi. lia.
  - intros H. exists (Z.to_nat (x - a)). split; [lia|]. apply in_seq. lia.
Qed.
Lemma total_single (f : Z -> R) l x : NoDup l -> In x l -> (forall y, In y l -> y <> x -> f y = 0) ->
  total (map f l) = f x.
Proof.
  intros Hn. induction Hn as [|y l Hy Hn IH]; intros Hin Hz; [contradiction|].
  cbn [map]. change (total (f y :: map f l)) with (f y + total (map f l)). destruct Hin as [->|Hin].
  - rewrite (total_zero (map f l)); [lra|]. apply Forall_forall. intros r Hr. apply in_map_iff in Hr.
    destruct Hr as [z [<- Hz']]. apply Hz; [right; assumption|]. intros ->. contradiction.
  - rewrite IH; [|assumption|intros; apply Hz; [right|]; assumption].
    rewrite (Hz y); [lra|left; reflexivity|]. intros ->. contradiction.
Qed.

(** with a constant window: exactly one unit of credit to each of those classes,
    inside the range [lo .. hi - 2] of whole semitones *)
Lemma chroma_scalar fb other r :
  0 < bstart fb -> proper fb -> well_formed other -> scale_even other = false ->
  exists bs basis lo hi, scale_bands other = Ok bs /\
    nearest_semitone (bstart fb) lo /\ nearest_semitone (bstop fb) hi /\
    scale_basis (Chroma fb) other (WScalar r) = Ok basis /\
    forall m k b, nth_error bs k = Some b -> between m b ->
      ((lo <= m - 1 <= hi - 2)%Z -> nth k (nth (Z.to_nat ((m - 2) mod 12)) basis []) 0 = r) /\
      ((lo <= m <= hi - 2)%Z -> nth k (nth (Z.to_nat ((m - 1) mod 12)) basis []) 0 = r).
Proof.
  intros H0 Hp Ho He.
  destruct (chroma_spec fb other (WScalar r) (repeat r) H0 Hp Ho He (window_scalar r))
    as [bs [basis [lo [hi [Hb [Nl [Nh [E [_ [_ N]]]]]]]]]].
  exists bs, basis, lo, hi. repeat (split; [assumption|]).
  destruct (well_formed_bands other Ho) as [bs' [Hb' [Hlen [Hord Hprop]]]]. rewrite Hb in Hb'. inversion Hb'; subst bs'.
  intros m k b Hk Hbt.
  assert (Lk : (k < length bs)%nat) by (apply nth_error_Some; congruence).
  assert (K : forall x, (x = m - 1 \/ x = m)%Z -> (lo <= x <= hi - 2)%Z ->
            nth k (nth (Z.to_nat ((x - 1) mod 12)) basis []) 0 = r).
  { intros x Hx Hr. pose proof (Z.mod_pos_bound (x - 1) 12 ltac:(lia)) as Hm.
    rewrite N by lia. rewrite Z2Nat.id by lia.
    rewrite (total_single _ _ x).
    - destruct (get_slice_range other bs (around x) Hb Hord) as [i [j [_ [Li [Lj [Hij Hrng]]]]]].
      specialize (Hij Hprop (around_proper x)).
      rewrite (win_at_range _ _ _ i j k) by (lia || assumption).
      assert (T : touched (around x) b = true) by (apply (between_touched m); assumption).
      apply (Hrng k b Hk) in T.
      destruct (Nat.leb_spec i k); [|lia]. destruct (Nat.ltb_spec k j); [|lia]. cbn [andb].
      rewrite (nth_indep _ 0 r) by (rewrite repeat_length; lia). apply nth_repeat.
    - apply NoDup_filter, NoDup_zfrom.
    - apply filter_In. split; [apply in_zfrom; lia|apply Z.eqb_refl].
    - intros y Hy Hne. apply filter_In in Hy. destruct Hy as [_ Hy]. apply Z.eqb_eq in Hy.
      unfold win_at. rewrite Hk. destruct (touched (around y) b) eqn:Et; [|reflexivity].
      exfalso. apply (between_touched m b y Hbt) in Et.
      assert (D : (x - 1 = y - 1 + 1 \/ y - 1 = x - 1 + 1)%Z) by lia.
      clear - Hy D. Z.div_mod_to_equations. lia. }
  split; intros Hr.
  - specialize (K (m - 1)%Z (or_introl eq_refl) Hr). replace (m - 1 - 1)%Z with (m - 2)%Z in K by lia. exact K.
  - apply (K m (or_intror eq_refl) Hr).
Qed.

(** bins outside the covered semitones contribute to no class *)
Lemma chroma_range fb other w g :
  0 < bstart fb -> proper fb -> well_formed other -> scale_even other = false -> window_is w g ->
  exists bs basis lo hi, scale_bands other = Ok bs /\
    nearest_semitone (bstart fb) lo /\ nearest_semitone (bstop fb) hi /\
    scale_basis (Chroma fb) other w = Ok basis /\
    forall k b c, nth_error bs k = Some b -> (c < 12)%nat ->
      (bstop b < pitch (lo - 1) \/ pitch (hi - 1) <= bstart b) -> nth k (nth c basis []) 0 = 0.
Proof.
  intros H0 Hp Ho He Hw.
  destruct (chroma_spec fb other w g H0 Hp Ho He Hw) as [bs [basis [lo [hi [Hb [Nl [Nh [E [_ [_ N]]]]]]]]]].
  exists bs, basis, lo, hi. repeat (split; [assumption|]).
  destruct (well_formed_bands other Ho) as [bs' [Hb' [Hlen [Hord Hprop]]]]. rewrite Hb in Hb'. inversion Hb'; subst bs'.
  intros k b c Hk Hc Hout.
  rewrite N; [|assumption|rewrite <- Hlen; apply nth_error_Some; congruence].
  apply total_zero. apply Forall_forall. intros x Hx. apply in_map_iff in Hx. destruct Hx as [s [<- Hs]].
  apply filter_In in Hs. destruct Hs as [Hs _]. apply in_zfrom in Hs.
  unfold win_at. rewrite Hk. destruct (touched (around s) b) eqn:Et; [|reflexivity]. exfalso.
  unfold touched, around in Et. cbn [bstart bstop] in Et. rewrite andb_true_iff, Rltb_true, Rleb_true in Et.
  destruct Et as [T1 T2]. destruct Hout as [A|A].
  - pose proof (pitch_le (lo - 1) (s - 1) ltac:(lia)). lra.
  - pose proof (pitch_le (s + 1) (hi - 1) ltac:(lia)). lra.
Qed.

(** [ChromaScale] supports neither bands nor slicing, in either role *)
Lemma chroma_no_bands fb ix q other w :
  scale_bands (Chroma fb) = Raise NotImplementedError /\
  get_slice (Chroma fb) (IBand q) = Raise NotImplementedError /\
  (forall i, scale_get (Chroma fb) i = Raise NotImplementedError) /\
  scale_slice (Chroma fb) ix = Raise NotImplementedError /\
  scale_len (Chroma fb) = 12%nat /\
  (well_formed other -> (1 <= scale_len other)%nat -> scale_basis other (Chroma fb) w = Raise NotImplementedError).
Proof.
  split; [reflexivity|]. split; [reflexivity|]. split; [reflexivity|]. split; [reflexivity|]. split; [reflexivity|].
  intros Ho Hl. rewrite wf_base by assumption. unfold base_basis.
  destruct (well_formed_bands other Ho) as [bs [Hb [Hlen _]]]. rewrite Hb. cbn [bind].
  destruct bs as [|b bs]; [simpl in Hlen; lia|]. reflexivity.
Qed.

(** 430-435 Hz is closer to A (440 Hz) than to G sharp (415.3 Hz), yet the class
    of A gets no credit for it, while G sharp and G do *)
Lemma pitch_m1 : pitch (-1) < 420.
Proof.
  unfold pitch. set (x := Rpower 2 (IZR (-1) / 12)).
  assert (X : x ^ 12 = / 2).
  { unfold x. rewrite <- Rpower_pow by (apply exp_pos). rewrite Rpower_mult.
    replace (IZR (-1) / 12 * INR 12) with (- (1)) by (simpl; lra).
    rewrite Rpower_Ropp, Rpower_1 by lra. reflexivity. }
  destruct (Rlt_le_dec x (42 / 44)) as [L|L]; [lra|exfalso].
  assert (P : (42 / 44) ^ 12 <= x ^ 12) by (apply pow_incr; lra).
  rewrite X in P. lra.
Qed.
Lemma nearest_unique hz n k : 12 * (ln (hz / 440) / ln 2) = IZR n -> nearest_semitone hz k -> k = n.
Proof.
  intros E H. unfold nearest_semitone in H. rewrite E, <- minus_IZR in H.
  unfold Rabs in H. destruct (Rcase_abs (IZR (k - n))) as [C|C].
  - assert (B : IZR (-1) < IZR (k - n)) by lra. apply lt_IZR in C. apply lt_IZR in B. lia.
  - assert (A : IZR (k - n) < IZR 1) by lra. apply Rge_le in C. apply (le_IZR 0) in C. apply lt_IZR in A. lia.
Qed.
Lemma chroma_class_refuted :
  exists fb b basis, 0 < bstart fb < bstart b /\ bstop b < bstop fb /\
    Rabs (bstop b - pitch 0) < Rabs (bstop b - pitch (-1)) /\
    Rabs (bstart b - pitch 0) < Rabs (bstart b - pitch (-1)) /\
    scale_basis (Chroma fb) (Explicit [b]) (WScalar 1) = Ok basis /\
    nth 0 (nth 0 basis []) 0 = 0 /\
    nth 0 (nth 11 basis []) 0 = 1 /\ nth 0 (nth 10 basis []) 0 = 1.
Proof.
  set (fb := mkBand 220 880). set (b := mkBand 430 435).
  assert (W : well_formed (Explicit [b])).
  { constructor; [discriminate| |].
    - repeat constructor. unfold proper, b; simpl; lra.
    - intros i j x y Hij Hx Hy. destruct i as [|[|i]], j as [|[|j]]; simpl in *; try discriminate; try lia.
      inversion Hx; inversion Hy; subst. lra. }
  assert (P : proper fb) by (unfold proper, fb; simpl; lra).
  pose proof pitch_m1 as PM. pose proof pitch_0 as P0. pose proof (pitch_pos (-1)) as PP.
  assert (B : between 0 b) by (unfold between, b; cbn [bstart bstop]; change (0 - 1)%Z with (-1)%Z; lra).
  destruct (chroma_scalar fb (Explicit [b]) 1 ltac:(unfold fb; simpl; lra) P W eq_refl)
    as [bs [basis [lo [hi [Hb [Nl [Nh [E K]]]]]]]].
  destruct (chroma_shifted fb (Explicit [b]) (WScalar 1) (repeat 1) ltac:(unfold fb; simpl; lra) P W eq_refl (window_scalar 1))
    as [bs' [basis' [Hb' [E' K']]]].
  rewrite E in E'. inversion E'; subst basis'. cbn [scale_bands] in Hb, Hb'. inversion Hb; inversion Hb'; subst.
  pose proof ln2_pos as L2.
  assert (lo = (-12)%Z).
  { apply (nearest_unique 220); [|exact Nl]. replace (220 / 440) with (/ 2) by lra. rewrite ln_Rinv by lra. field. lra. }
  assert (hi = 12%Z).
  { apply (nearest_unique 880); [|exact Nh]. replace (880 / 440) with 2 by lra. field. lra. }
  subst lo hi.
  destruct (K 0%Z 0%nat b eq_refl B) as [K1 K2].
  exists fb, b, basis. split; [unfold fb, b; simpl; lra|]. split; [unfold fb, b; simpl; lra|].
  unfold b in *; cbn [bstart bstop] in *. rewrite P0.
  split; [rewrite (Rabs_left (435 - 440)), (Rabs_right (435 - pitch (-1))) by lra; lra|].
  split; [rewrite (Rabs_left (430 - 440)), (Rabs_right (430 - pitch (-1))) by lra; lra|].
  split; [assumption|]. split; [|split].
  - apply (K' 0%Z 0%nat (mkBand 430 435) 0%nat eq_refl B); [lia| |]; intros H; vm_compute in H; discriminate.
  - apply K2. lia.
  - apply K1. lia.
Qed.
