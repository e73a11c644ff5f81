(** Properties C13-C18. *)
From Verif Require Import PyBase PyFacts Time.
From Coq Require Import Sorting.Permutation Sorting.Sorted.
Local Open Scope Z_scope.

(** ** Rounding *)
Lemma round_half_even_exact p q k : 0 < q -> p = k * q -> round_half_even p q = k.
Proof.
  intros Hq ->. unfold round_half_even. rewrite Z.div_mul by lia.
  replace (k * q - k * q) with 0 by lia. destruct (Z.ltb_spec (2 * 0) q); lia.
Qed.

(** ** C13 *)
Lemma audio_rate_iff n : 1 <= n <= 10 ^ 12 ->
  exists s, audio_rate n = Ok s /\ sr_freq s = 10 ^ 12 / n /\ sr_dur s = 10 ^ 12 / n /\
  (samples_per_second (sr_freq s) = n <-> (10 ^ 12) mod n < 10 ^ 12 / n).
Proof.
  intros Hn. unfold audio_rate. destruct (Z.eqb_spec n 0); [lia|]. unfold mk_samplerate.
  assert (Hq : 1 <= 10 ^ 12 / n) by (apply Z.div_le_lower_bound; lia).
  destruct (Z.leb_spec (10 ^ 12 / n) 0); [lia|].
  eexists. split; [reflexivity|]. split; [reflexivity|]. split; [reflexivity|]. cbn [sr_freq].
  unfold samples_per_second, trunc_div. rewrite Z.quot_div_nonneg by lia.
  pose proof (Z.div_mod (10 ^ 12) n ltac:(lia)) as E.
  pose proof (Z.mod_pos_bound (10 ^ 12) n ltac:(lia)) as Hr.
  set (q := 10 ^ 12 / n) in *. set (r := (10 ^ 12) mod n) in *.
  pose proof (Z.div_mod (10 ^ 12) q ltac:(lia)) as E2.
  pose proof (Z.mod_pos_bound (10 ^ 12) q ltac:(lia)) as Hr2.
  set (n' := 10 ^ 12 / q) in *. set (r' := (10 ^ 12) mod q) in *.
  split; intros Hx.
  - subst n'. rewrite Hx in E2. nia.
  - nia.
Qed.

Lemma audio_rate_usual n : 1 <= n <= 10 ^ 6 ->
  exists s, audio_rate n = Ok s /\ samples_per_second (sr_freq s) = n.
Proof.
  intros Hn. destruct (audio_rate_iff n ltac:(lia)) as [s [H1 [_ [_ H2]]]].
  exists s. split; [exact H1|]. apply H2.
  pose proof (Z.mod_pos_bound (10 ^ 12) n ltac:(lia)).
  assert (10 ^ 6 <= 10 ^ 12 / n) by (apply Z.div_le_lower_bound; lia). lia.
Qed.

Lemma audio_rate_limit :
  exists s, audio_rate 1500000 = Ok s /\ samples_per_second (sr_freq s) = 1500001.
Proof. eexists. split; reflexivity. Qed.

Lemma audio_rate_rejects n : n < 0 \/ 10 ^ 12 < n -> audio_rate n = Raise ValueError.
Proof.
  intros H. unfold audio_rate. destruct (Z.eqb_spec n 0); [lia|].
  unfold mk_samplerate. destruct (Z.leb_spec (10 ^ 12 / n) 0) as [|Hp]; [reflexivity|].
  exfalso. destruct H.
  - assert (10 ^ 12 / n <= 0); [|lia]. 
    replace (10 ^ 12) with (- - 10 ^ 12) by lia.
    replace n with (- - n) by lia. rewrite Z.div_opp_opp by lia.
    apply Z.div_le_upper_bound; lia.
  - rewrite Z.div_small in Hp by lia. lia.
Qed.

Lemma rate_sps_standard : forall r, In r standard_rates -> rate_sps r = r.
Proof. intros r H. simpl in H. repeat destruct H as [<-|H]; try reflexivity. destruct H. Qed.

Lemma audio_sample_rate_spec n :
  audio_sample_rate n = (if existsb (Z.eqb n) standard_rates then Ok n else Raise ValueError).
Proof.
  unfold audio_sample_rate.
  assert (H : forall l, (forall r, In r l -> rate_sps r = r) ->
     match find (fun r => n =? rate_sps r) l with Some r => Ok r | None => Raise ValueError end
     = if existsb (Z.eqb n) l then Ok n else Raise ValueError).
  { induction l as [|r l IH]; intros Hl; [reflexivity|]. cbn [find existsb].
    rewrite (Hl r (or_introl eq_refl)). destruct (Z.eqb_spec n r) as [->|]; [reflexivity|].
    apply IH. intros; apply Hl; right; assumption. }
  apply H. apply rate_sps_standard.
Qed.

Lemma argmin_spec l : l <> [] -> (argmin l < length l)%nat /\ forall x, In x l -> nth (argmin l) l 0 <= x.
Proof.
  induction l as [|x l IH]; intros Hne; [congruence|]. destruct l as [|y l'].
  - simpl. split; [lia|]. intros z [<-|[]]. lia.
  - destruct (IH ltac:(discriminate)) as [H1 H2]. remember (y :: l') as l eqn:El.
    assert (E : argmin (x :: l) = let j := argmin l in if x <=? nth j l 0 then 0%nat else S j)
      by (subst l; reflexivity).
    rewrite E. cbv zeta. destruct (Z.leb_spec x (nth (argmin l) l 0)); cbn [nth length].
    + split; [lia|]. intros z [<-|Hz]; [lia|]. specialize (H2 z Hz). lia.
    + split; [lia|]. intros z [<-|Hz]; [lia|]. apply H2; exact Hz.
Qed.

Lemma nearest_spec n :
  In (nearest_audio_sample_rate n) standard_rates /\
  forall r, In r standard_rates -> Z.abs (n - nearest_audio_sample_rate n) <= Z.abs (n - r).
Proof.
  unfold nearest_audio_sample_rate.
  set (l := map (fun r => Z.abs (n - rate_sps r)) standard_rates).
  destruct (argmin_spec l ltac:(discriminate)) as [H1 H2].
  assert (Hl : length l = length standard_rates) by apply map_length.
  set (j := argmin l) in *. clearbody j.
  assert (Hin : In (nth j standard_rates 0) standard_rates) by (apply nth_In; lia).
  split; [exact Hin|]. intros r Hr.
  specialize (H2 (Z.abs (n - rate_sps r)) (in_map _ _ _ Hr)).
  assert (E : nth j l 0 = Z.abs (n - rate_sps (nth j standard_rates 0))).
  { unfold l. rewrite (nth_indep _ 0 (Z.abs (n - rate_sps 0))) by (fold l; lia).
    apply (map_nth (fun r => Z.abs (n - rate_sps r))). }
  rewrite E, !rate_sps_standard in H2 by assumption. exact H2.
Qed.

(** ** C14 *)
Lemma ceil_round2 e f : 0 < f ->
  ceil_div (round2 e f) 100 = e / f + (if 200 * (e mod f) <=? f then 0 else 1).
Proof.
  intros Hf. unfold round2, round_half_even, ceil_div.
  pose proof (Z.div_mod e f ltac:(lia)) as E. pose proof (Z.mod_pos_bound e f Hf) as Hr.
  set (q := e / f) in *. set (r := e mod f) in *.
  assert (Hdiv : 100 * e / f = 100 * q + (100 * r) / f).
  { rewrite E. replace (100 * (f * q + r)) with (100 * r + (100 * q) * f) by ring.
    rewrite Z.div_add by lia. lia. }
  rewrite Hdiv.
  pose proof (Z.div_mod (100 * r) f ltac:(lia)) as E2. pose proof (Z.mod_pos_bound (100 * r) f Hf) as Hr2.
  set (a := 100 * r / f) in *. set (b := (100 * r) mod f) in *.
  replace (100 * e - (100 * q + a) * f) with b by nia.
  assert (Ha : 0 <= a < 100) by nia.
  assert (Hev : Z.even (100 * q + a) = Z.even a).
  { rewrite Z.even_add, Z.even_mul. simpl. destruct (Z.even a); reflexivity. }
  rewrite Hev.
  destruct (Z.ltb_spec (2 * b) f), (Z.leb_spec (200 * r) f).
  - assert (a = 0) by nia. replace (- (100 * q + a)) with (- q * 100) by lia. rewrite Z.div_mul by lia. lia.
  - assert (1 <= a) by nia.
    assert (H2 : - (100 * q + a) / 100 = - q - 1).
    { symmetry. apply Z.div_unique with (r := 100 - a); lia. } lia.
  - destruct (Z.ltb_spec f (2 * b)).
    + exfalso. assert (a = 0) by nia. nia.
    + assert (a = 0) by nia. subst a. rewrite H2. cbn [Z.even].
      replace (- (100 * q + 0)) with (- q * 100) by lia. rewrite Z.div_mul by lia. lia.
  - assert (H3 : - (100 * q + a + 1) / 100 = - q - 1).
    { symmetry. apply Z.div_unique with (r := 99 - a); lia. }
    destruct (Z.ltb_spec f (2 * b)); [lia|].
    destruct (Z.even a) eqn:Ea; [|lia].
    assert (1 <= a) by (assert (a <> 0) by nia; lia).
    assert (H5 : - (100 * q + a) / 100 = - q - 1).
    { symmetry. apply Z.div_unique with (r := 100 - a); lia. } lia.
Qed.

(** The start and stop indices chosen for a TimeSlice: sample k has extent
    [k*f, k*f+d). *)
Lemma slice_exact t start dur a b :
  0 < t_freq t -> integer_based_slice t (ITime start (Some dur)) = Ok (a, b) ->
  (forall k, 0 <= k -> (a <= k <-> start < k * t_freq t + t_dur t)) /\ 0 <= a /\
  (let e := start + dur in
   (200 * (e mod t_freq t) <= t_freq t -> forall k, k < b <-> (k + 1) * t_freq t <= e) /\
   (t_freq t < 200 * (e mod t_freq t) -> forall k, k < b <-> k * t_freq t < e)).
Proof.
  intros Hf H. unfold integer_based_slice in H. cbn [bind] in H. inversion H; subst a b; clear H.
  set (f := t_freq t) in *. set (d := t_dur t).
  split; [|split; [lia|]].
  - intros k Hk.
    pose proof (Z.div_mod (start - (d - f)) f ltac:(lia)) as E.
    pose proof (Z.mod_pos_bound (start - (d - f)) f Hf) as Hr.
    set (q := (start - (d - f)) / f) in *. split; intros H.
    + assert (q <= k) by lia. nia.
    + assert (q < k + 1) by nia. lia.
  - cbv zeta. set (e := start + dur). rewrite ceil_round2 by exact Hf.
    pose proof (Z.div_mod e f ltac:(lia)) as E. pose proof (Z.mod_pos_bound e f Hf) as Hr.
    set (q := e / f) in *. split; intros Hc k.
    + destruct (Z.leb_spec (200 * (e mod f)) f); [|lia]. split; intros; nia.
    + destruct (Z.leb_spec (200 * (e mod f)) f); [lia|]. split; intros; nia.
Qed.

(** a slice with both ends on sample positions of a non-overlapping dimension *)
Lemma slice_on_boundaries t a b : 0 < t_freq t -> t_dur t = t_freq t -> 0 <= a ->
  integer_based_slice t (ITime (a * t_freq t) (Some (b * t_freq t - a * t_freq t))) = Ok (a, b).
Proof.
  intros Hf Hd Ha. unfold integer_based_slice. cbn [bind].
  rewrite Hd, Z.sub_diag, Z.sub_0_r, Z.div_mul by lia.
  rewrite ceil_round2 by exact Hf. replace (a * t_freq t + (b * t_freq t - a * t_freq t)) with (b * t_freq t) by lia.
  rewrite Z.div_mul, Z.mod_mul by lia. destruct (Z.leb_spec (200 * 0) (t_freq t)); [|lia].
  do 2 f_equal; lia.
Qed.

(** cutting at sample positions c0 <= c1 <= ... partitions the samples *)
Fixpoint cuts (l : list Z) : list (Z * Z) :=
  match l with
  | a :: ((b :: _) as l') => (a, b) :: cuts l'
  | _ => []
  end.
Definition take_time {A} (t : timedim) (rows : list A) (c : Z * Z) : result (list A) :=
  do i <- integer_based_slice t (ITime (fst c * t_freq t) (Some (snd c * t_freq t - fst c * t_freq t)));
  Ok (py_slice (Some (fst i)) (Some (snd i)) rows).

Lemma py_slice_nat {A} (rows : list A) a b : 0 <= a <= b -> b <= Zlen rows ->
  py_slice (Some a) (Some b) rows = firstn (Z.to_nat (b - a)) (skipn (Z.to_nat a) rows).
Proof.
  intros H1 H2. unfold py_slice, norm_index.
  destruct (Z.ltb_spec a 0); [lia|]. destruct (Z.ltb_spec b 0); [lia|].
  rewrite !Z.min_r, !Z.max_r by lia. reflexivity.
Qed.

Lemma last_cons' {A} (l : list A) (a d : A) : last (a :: l) d = last l a.
Proof.
  revert a d; induction l as [|x l IH]; intros a d; [reflexivity|].
  change (last (a :: x :: l) d) with (last (x :: l) d). rewrite !IH. reflexivity.
Qed.
Lemma last_In' {A} (l : list A) (d : A) : In (last l d) (d :: l).
Proof.
  revert d; induction l as [|x l IH]; intros d; [left; reflexivity|].
  rewrite last_cons'. right. apply IH.
Qed.

Lemma slices_partition {A} (t : timedim) (rows : list A) (cs : list Z) c0 :
  0 < t_freq t -> t_dur t = t_freq t ->
  StronglySorted Z.le (c0 :: cs) -> 0 <= c0 -> Forall (fun c => c <= Zlen rows) (c0 :: cs) ->
  exists parts,
    map (take_time t rows) (cuts (c0 :: cs)) = map Ok parts /\
    concat parts = py_slice (Some c0) (Some (last cs c0)) rows.
Proof.
  intros Hf Hd. revert c0. induction cs as [|c1 cs IH]; intros c0 Hs H0 Hb.
  - exists []. split; [reflexivity|]. simpl. inversion Hb; subst. rewrite py_slice_nat by lia.
    rewrite Z.sub_diag. reflexivity.
  - inversion Hs as [|? ? Hs' Hle]; subst. inversion Hb as [|? ? Hb0 Hb']; subst.
    assert (H01 : c0 <= c1) by (inversion Hle; assumption).
    destruct (IH c1 Hs' ltac:(lia) Hb') as [parts [E1 E2]].
    exists (py_slice (Some c0) (Some c1) rows :: parts). split.
    + cbn [cuts map]. f_equal; [|exact E1].
      unfold take_time. cbn [fst snd]. rewrite slice_on_boundaries by assumption. reflexivity.
    + cbn [concat]. rewrite E2.
      assert (Hlast : c1 <= last cs c1 <= Zlen rows /\ last (c1 :: cs) c0 = last cs c1).
      { pose proof (last_cons' cs c1 c0) as Hl. pose proof (last_In' cs c1) as Hin.
        split; [|exact Hl]. rewrite Forall_forall in Hb'. split; [|apply Hb'; exact Hin].
        destruct Hin as [E|Hin]; [rewrite <- E; lia|].
        inversion Hs' as [|? ? _ Hle']; subst. rewrite Forall_forall in Hle'. apply Hle'. exact Hin. }
      destruct Hlast as [Hl1 Hl2]. rewrite Hl2. inversion Hb'; subst.
      rewrite !py_slice_nat by lia.
      set (m := last cs c1) in *.
      replace (Z.to_nat (m - c0)) with (Z.to_nat (c1 - c0) + Z.to_nat (m - c1))%nat by lia.
      replace (skipn (Z.to_nat c1) rows) with (skipn (Z.to_nat (c1 - c0)) (skipn (Z.to_nat c0) rows)).
      2:{ rewrite skipn_skipn'. f_equal. lia. }
      generalize (skipn (Z.to_nat c0) rows) as l. intros l.
      generalize (Z.to_nat (c1 - c0)) as i, (Z.to_nat (m - c1)) as j. clear. intros i j.
      revert i. induction l as [|x l IH]; intros [|i]; simpl; try reflexivity.
      * rewrite firstn_nil. reflexivity.
      * f_equal. apply IH.
Qed.

(** the whole duration and negative Python slices *)
Lemma negative_slice t n k : 0 < t_freq t -> t_dur t = t_freq t -> t_size t = Some n -> 0 < k <= n ->
  integer_based_slice t (ISlice (Some (- (k * t_freq t))) None) = Ok (n - k, n).
Proof.
  intros Hf Hd Hs Hk. unfold integer_based_slice.
  destruct (Z.ltb_spec (- (k * t_freq t)) 0); [|nia]. unfold t_span. rewrite Hs. cbn [bind].
  destruct (Z.ltb_spec (n * t_freq t + (t_dur t - t_freq t)) 0); [nia|]. cbn [bind].
  rewrite Hd, Z.sub_diag, !Z.add_0_r, Z.sub_0_r.
  replace (n * t_freq t + - (k * t_freq t)) with ((n - k) * t_freq t) by ring.
  rewrite Z.div_mul by lia. rewrite ceil_round2 by exact Hf.
  replace ((n - k) * t_freq t + (n * t_freq t - (n - k) * t_freq t)) with (n * t_freq t) by ring.
  rewrite Z.div_mul, Z.mod_mul by lia. destruct (Z.leb_spec (200 * 0) (t_freq t)); [|lia].
  do 2 f_equal; lia.
Qed.

(** The "kludge" drops a sample that the slice really overlaps. *)
Lemma slice_drops_sample :
  exists t start dur a b k,
    0 < t_freq t /\ integer_based_slice t (ITime start (Some dur)) = Ok (a, b) /\
    a <= k /\ start < k * t_freq t + t_dur t /\ k * t_freq t < start + dur /\ ~ k < b.
Proof.
  exists {| t_freq := 1000; t_dur := 1000; t_size := None |}, 0, 2003, 0, 2, 2.
  split; [simpl; lia|]. split; [reflexivity|]. simpl. lia.
Qed.

(** ** C15 *)
(** the set of instants of a slice *)
Definition inside (t : timeslice) (x : Z) : Prop :=
  match ts_duration t with
  | Some d => ps (ts_start t) <= x < ps (ts_start t) + ps d
  | None => ps (ts_start t) <= x
  end.

Lemma ts_eq_iff a b : ts_eq a b = true <->
  ps (ts_start a) = ps (ts_start b) /\ option_map ps (ts_duration a) = option_map ps (ts_duration b).
Proof.
  unfold ts_eq. destruct (ts_duration a), (ts_duration b); simpl; split; intros H.
  - split; [lia|f_equal; lia].
  - destruct H as [H1 H2]. inversion H2. lia.
  - lia.
  - destruct H; discriminate.
  - lia.
  - destruct H; discriminate.
  - split; [lia|reflexivity].
  - lia.
Qed.

Lemma ts_eq_hash {F} (fl : Z -> F) h a b : ts_eq a b = true -> ts_hash fl h a = ts_hash fl h b.
Proof.
  intros H. apply ts_eq_iff in H. destruct H as [H1 H2]. unfold ts_hash. rewrite H1.
  f_equal. f_equal. destruct (ts_duration a), (ts_duration b); simpl in *; congruence.
Qed.

Lemma ts_and_spec a b da db :
  ts_duration a = Some da -> ts_duration b = Some db ->
  exists r, ts_and a b = Ok r /\ ts_and b a = Ok r /\
  exists d, ts_duration r = Some d /\ 0 <= ps d /\
  (0 < ps d -> exists s, forall x, (inside a x /\ inside b x) <-> s <= x < s + ps d) /\
  (ps d = 0 -> forall x, ~ (inside a x /\ inside b x)).
Proof.
  intros Ha Hb. unfold ts_and, ts_end. rewrite Ha, Hb. cbn [bind].
  eexists. split; [reflexivity|]. split.
  { rewrite (Z.min_comm (ps (ts_start b) + ps db)), (Z.max_comm (ps (ts_start b))). reflexivity. }
  eexists. split; [reflexivity|].
  set (m := Z.max 0 _). assert (Em : ps (picoseconds m) = m) by (unfold ps, picoseconds; simpl; lia).
  rewrite Em. unfold m. clear Em m.
  split; [lia|]. unfold inside. rewrite Ha, Hb. split.
  - intros H. exists (Z.max (ps (ts_start a)) (ps (ts_start b))). intros x. lia.
  - intros H x. lia.
Qed.

(** the result of [&] starts at zero, wherever the slices are *)
Lemma ts_and_start a b r : ts_and a b = Ok r -> ps (ts_start r) = 0.
Proof.
  unfold ts_and, ts_end. destruct (ts_duration a), (ts_duration b); try discriminate. cbn [bind].
  intros H; inversion H; reflexivity.
Qed.
Lemma ts_and_refuted : exists a b r x,
  ts_and a b = Ok r /\ inside r x /\ ~ inside a x.
Proof.
  exists (mk_timeslice (Some (picoseconds 10)) (Some (picoseconds 100))),
         (mk_timeslice (Some (picoseconds 10)) (Some (picoseconds 105))),
         (mk_timeslice (Some (picoseconds 5)) None), 2.
  split; [reflexivity|]. unfold inside; vm_compute. split; [split; congruence|]. intros [H _]. apply H; reflexivity.
Qed.
Lemma ts_and_disjoint_refuted : exists a b r,
  (forall x, ~ (inside a x /\ inside b x)) /\ ts_and a b = Ok r.
Proof.
  exists (mk_timeslice (Some (picoseconds 10)) None),
         (mk_timeslice (Some (picoseconds 10)) (Some (picoseconds 50))).
  eexists. split; [|reflexivity]. intros x. unfold inside; vm_compute ps; simpl.
  unfold ps; simpl. lia.
Qed.

Lemma ts_contains_spec t d x : ts_duration t = Some d ->
  exists b, ts_contains t x = Ok b /\
  (b = true <-> ps (ts_start t) < ps x < ps (ts_start t) + ps d) /\
  (b = true -> inside t (ps x)).
Proof.
  intros Hd. unfold ts_contains, ts_end, inside. rewrite Hd.
  destruct (Z.ltb_spec (ps (ts_start t)) (ps x)); cbn [bind]; eexists; (split; [reflexivity|]); (split; [split|]); intros; lia.
Qed.

Lemma ts_contains_slice_spec t o d d' : ts_duration t = Some d -> ts_duration o = Some d' ->
  exists b, ts_contains_slice t o = Ok b /\
  (b = true <-> ps (ts_start t) < ps (ts_start o) /\ ps (ts_start o) + ps d' < ps (ts_start t) + ps d) /\
  (b = true -> forall x, inside o x -> inside t x).
Proof.
  intros Hd Hd'. unfold ts_contains_slice, ts_end, inside. rewrite Hd, Hd'.
  destruct (Z.ltb_spec (ps (ts_start t)) (ps (ts_start o))); cbn [bind]; eexists; (split; [reflexivity|]); (split; [split|]); intros; lia.
Qed.

(** shifting moves the instants *)
Lemma ts_shift_spec t o x : inside (ts_shift t o) (x + ps o) <-> inside t x.
Proof.
  unfold inside, ts_shift, mk_timeslice. cbn [ts_duration ts_start].
  assert (E : ps (if td_count (picoseconds (ps (ts_start t) + ps o)) =? 0 then picoseconds 0
              else picoseconds (ps (ts_start t) + ps o)) = ps (ts_start t) + ps o).
  { cbn [td_count picoseconds]. destruct (Z.eqb_spec (ps (ts_start t) + ps o) 0) as [E|E];
      unfold ps at 1; cbn [td_count td_unit unit_ps picoseconds]; lia. }
  rewrite E. destruct (ts_duration t); lia.
Qed.

(** ** C16 *)
Lemma zip_diff_nth l i a b : nth_error l i = Some a -> nth_error l (S i) = Some b ->
  nth_error (zip_diff l) i = Some (a, b - a).
Proof.
  revert i; induction l as [|x l IH]; intros i Ha Hb; [destruct i; discriminate|].
  destruct l as [|y l']; [destruct i; discriminate|].
  destruct i as [|i]; cbn [nth_error zip_diff] in *.
  - inversion Ha; inversion Hb; subst; reflexivity.
  - apply IH; assumption.
Qed.
Lemma zip_diff_length l : length (zip_diff l) = (length l - 1)%nat.
Proof.
  induction l as [|x l IH]; [reflexivity|]. destruct l as [|y l']; [reflexivity|].
  change (S (length (zip_diff (y :: l'))) = (length (x :: y :: l') - 1)%nat).
  rewrite IH. simpl. lia.
Qed.
Lemma zip_diff_sum l : l <> [] -> fold_right Z.add 0 (map snd (zip_diff l)) = last l 0 - hd 0 l.
Proof.
  induction l as [|x l IH]; intros Hne; [congruence|]. destruct l as [|y l'].
  - simpl. lia.
  - change (y - x + fold_right Z.add 0 (map snd (zip_diff (y :: l'))) = last (x :: y :: l') 0 - x).
    rewrite IH by discriminate. change (last (x :: y :: l') 0) with (last (y :: l') 0). simpl hd. lia.
Qed.

Lemma slices_spec (times : list Z) :
  exists srt, Permutation times srt /\ StronglySorted Z.le srt /\
    length (slices times) = (length times - 1)%nat /\
    (forall i s d, nth_error (slices times) i = Some (s, d) ->
       nth_error srt i = Some s /\ nth_error srt (S i) = Some (s + d) /\ 0 <= d) /\
    (times <> [] -> fold_right Z.add 0 (map snd (slices times)) = last srt 0 - hd 0 srt).
Proof.
  exists (isort Z.leb times).
  assert (Hs : StronglySorted Z.le (isort Z.leb times)).
  { assert (H : StronglySorted (leP Z.leb) (isort Z.leb times)).
    { apply isort_sorted; intros; cbv beta in *; lia. }
    induction H as [|x l Hl IH Hf]; constructor; [exact IH|].
    rewrite Forall_forall in *. intros y Hy. specialize (Hf y Hy). unfold leP in Hf. lia. }
  pose proof (isort_perm Z.leb times) as Hp.
  split; [exact Hp|]. split; [exact Hs|].
  split.
  { unfold slices. rewrite zip_diff_length. rewrite (Permutation_length Hp). reflexivity. }
  split.
  - unfold slices. set (l := isort Z.leb times) in *. intros i s d Hi.
    assert (Hlt : (i < length (zip_diff l))%nat) by (apply nth_error_Some; congruence).
    rewrite zip_diff_length in Hlt.
    destruct (nth_error l i) as [a|] eqn:Ea; [|apply nth_error_None in Ea; lia].
    destruct (nth_error l (S i)) as [b|] eqn:Eb; [|apply nth_error_None in Eb; lia].
    rewrite (zip_diff_nth _ _ _ _ Ea Eb) in Hi. inversion Hi; subst.
    split; [reflexivity|]. split; [f_equal; lia|].
    assert (s <= b); [|lia]. clear -Hs Ea Eb. revert i Ea Eb.
    induction Hs as [|x l Hl IH Hf]; intros i Ea Eb; [destruct i; discriminate|].
    destruct i as [|i].
    + change (nth_error l 0 = Some b) in Eb. inversion Ea; subst. rewrite Forall_forall in Hf.
      apply Hf. eapply nth_error_In; exact Eb.
    + exact (IH i Ea Eb).
  - intros Hne. unfold slices. apply zip_diff_sum. intros E. rewrite E in Hp.
    apply Permutation_sym, Permutation_nil in Hp. contradiction.
Qed.

(** consecutive slices touch *)
Lemma slices_adjacent (times : list Z) i s1 d1 s2 d2 :
  nth_error (slices times) i = Some (s1, d1) -> nth_error (slices times) (S i) = Some (s2, d2) ->
  s2 = s1 + d1.
Proof.
  intros H1 H2. destruct (slices_spec times) as [srt [_ [_ [_ [H _]]]]].
  destruct (H _ _ _ H1) as [_ [E1 _]]. destruct (H _ _ _ H2) as [E2 _]. congruence.
Qed.

(** ** C17 *)
Definition covers (f d i x : Z) : Prop := i * f <= x < i * f + d.

Lemma modified_ok t w s : 0 < t_freq t -> 0 < t_dur t -> 1 <= w -> 1 <= s ->
  modified_dimension t w (Some s)
  = Ok {| t_freq := t_freq t * s; t_dur := t_freq t * w + (t_dur t - t_freq t); t_size := None |}.
Proof.
  intros Hf Hd Hw Hs. unfold modified_dimension, t_overlap, mk_samplerate.
  destruct (Z.eqb_spec s 0); [lia|]. destruct (Z.leb_spec (t_freq t) 0); [lia|].
  destruct (Z.leb_spec (t_dur t) 0); [lia|]. cbn [bind sr_overlap sr_dur sr_freq].
  unfold mk_timedim, sr_overlap. cbn [sr_dur sr_freq].
  destruct (Z.eqb_spec (t_freq t * w + (t_dur t - t_freq t)) 0); [nia|reflexivity].
Qed.

Lemma windowed_dimension_covers t w s t' : 0 < t_freq t -> 0 < t_dur t -> 1 <= w -> 1 <= s ->
  modified_dimension t w (Some s) = Ok t' ->
  forall i,
    i * t_freq t' = (i * s) * t_freq t /\
    i * t_freq t' + t_dur t' = (i * s + w - 1) * t_freq t + t_dur t /\
    (t_freq t <= t_dur t -> forall x,
       covers (t_freq t') (t_dur t') i x <->
       exists k, i * s <= k < i * s + w /\ covers (t_freq t) (t_dur t) k x).
Proof.
  intros Hf Hd Hw Hs H i. rewrite modified_ok in H by assumption. inversion H; subst t'; clear H.
  cbn [t_freq t_dur]. split; [ring|]. split; [ring|]. intros Hov x. unfold covers. split.
  - intros [H1 H2].
    destruct (Z_lt_le_dec x ((i * s + w - 1) * t_freq t)) as [Hlt|Hge].
    + exists (x / t_freq t). pose proof (Z.div_mod x (t_freq t) ltac:(lia)) as E.
      pose proof (Z.mod_pos_bound x (t_freq t) Hf) as Hr. set (q := x / t_freq t) in *.
      split; [|nia]. split; nia.
    + exists (i * s + w - 1). split; [lia|]. split; [exact Hge|]. nia.
  - intros [k [Hk [H1 H2]]]. split; nia.
Qed.

(** windowing twice is windowing once *)
Lemma windowing_composes t w1 s1 w2 s2 t1 t2 :
  0 < t_freq t -> 0 < t_dur t -> 1 <= w1 -> 1 <= s1 -> 1 <= w2 -> 1 <= s2 ->
  modified_dimension t w1 (Some s1) = Ok t1 -> modified_dimension t1 w2 (Some s2) = Ok t2 ->
  modified_dimension t ((w2 - 1) * s1 + w1) (Some (s1 * s2)) = Ok t2.
Proof.
  intros Hf Hd Hw1 Hs1 Hw2 Hs2 H1 H2. rewrite modified_ok in H1 by assumption.
  inversion H1; subst t1; clear H1. rewrite modified_ok in H2; cbn [t_freq t_dur] in *; try nia.
  inversion H2; subst t2. rewrite modified_ok by (try assumption; nia). do 2 f_equal; ring.
Qed.

(** the span of n windows ends where the last sample they use ends *)
Lemma windowed_span t w s t' n : 0 < t_freq t -> 0 < t_dur t -> 1 <= w -> 1 <= s ->
  modified_dimension t w (Some s) = Ok t' ->
  t_span (metaslice t' n) = Ok (((n - 1) * s + w - 1) * t_freq t + t_dur t).
Proof.
  intros Hf Hd Hw Hs H. rewrite modified_ok in H by assumption. inversion H; subst t'; clear H.
  unfold metaslice, t_span, mk_timedim. cbn [t_freq t_dur t_size].
  destruct (Z.eqb_spec (t_freq t * w + (t_dur t - t_freq t)) 0); [nia|]. f_equal. ring.
Qed.

(** ** C18 *)
Lemma mul_discrete_inverse f d sr step w :
  mk_samplerate f d = Ok sr -> 1 <= step -> 1 <= w ->
  exists sr', sr_mul sr step w = Ok sr' /\
    discrete_samples sr' f d = (step, w) /\
    sr_overlap sr' = (w - step) * f + (d - f) /\
    sr_overlap_ratio sr' = (sr_overlap sr', w * f + (d - f)).
Proof.
  unfold mk_samplerate at 1. destruct (Z.leb_spec f 0); [discriminate|].
  destruct (Z.leb_spec d 0); [discriminate|]. intros Hs H1 H2. inversion Hs; subst sr; clear Hs.
  unfold sr_mul, mk_samplerate, sr_overlap. cbn [sr_freq sr_dur].
  destruct (Z.leb_spec (f * step) 0); [nia|]. destruct (Z.leb_spec (f * w + (d - f)) 0); [nia|].
  eexists. split; [reflexivity|]. unfold discrete_samples, sr_overlap_ratio, sr_overlap. cbn [sr_freq sr_dur].
  split; [|split; [ring|f_equal; ring]].
  f_equal; apply round_half_even_exact; lia.
Qed.

Lemma samplerate_rejects f d : f <= 0 \/ d <= 0 -> mk_samplerate f d = Raise ValueError.
Proof.
  intros H. unfold mk_samplerate. destruct (Z.leb_spec f 0); [reflexivity|].
  destruct (Z.leb_spec d 0); [reflexivity|lia].
Qed.

(** the product describes the windows of C17 *)
Lemma mul_is_windowing f d sr step w t' :
  mk_samplerate f d = Ok sr -> 1 <= step -> 1 <= w ->
  modified_dimension {| t_freq := f; t_dur := d; t_size := None |} w (Some step) = Ok t' ->
  sr_mul sr step w = Ok {| sr_freq := t_freq t'; sr_dur := t_dur t' |}.
Proof.
  unfold mk_samplerate at 1. destruct (Z.leb_spec f 0); [discriminate|].
  destruct (Z.leb_spec d 0); [discriminate|]. intros Hs H1 H2 Hm. inversion Hs; subst sr; clear Hs.
  rewrite modified_ok in Hm by (cbn; lia). inversion Hm; subst; clear Hm. cbn [t_freq t_dur].
  unfold sr_mul, mk_samplerate, sr_overlap. cbn [sr_freq sr_dur].
  destruct (Z.leb_spec (f * step) 0); [nia|]. destruct (Z.leb_spec (f * w + (d - f)) 0); [nia|]. reflexivity.
Qed.

(** ** Examples *)
Example time_example :
  exists sr, audio_rate 44100 = Ok sr /\ sr_freq sr = 22675736 /\ nyquist sr = 22050 /\
  half_lapped sr 2048 1024 = sr_mul sr 1024 2048 /\
  integer_based_slice {| t_freq := sr_freq sr; t_dur := sr_freq sr; t_size := Some 441000 |}
    (ITime (10 ^ 12) (Some (10 ^ 12))) = Ok (44100, 88200).
Proof.
  eexists. split; [reflexivity|]. split; [reflexivity|]. split; [reflexivity|].
  split; [reflexivity|]. vm_compute. reflexivity.
Qed.
Example slices_example : slices [30; 0; 10] = [(0, 10); (10, 20)].
Proof. reflexivity. Qed.

(** Because the sampling period is truncated to picoseconds, a slice of three
    whole seconds of 44.1kHz audio selects one sample too many: the drift has
    grown beyond the tolerance of 1/200 of a sample. *)
Lemma three_seconds_44100 :
  exists sr, audio_rate 44100 = Ok sr /\ forall size,
  integer_based_slice {| t_freq := sr_freq sr; t_dur := sr_dur sr; t_size := size |}
    (ITime 0 (Some (3 * 10 ^ 12))) = Ok (0, 3 * 44100 + 1).
Proof. eexists. split; [reflexivity|]. intros size. vm_compute. reflexivity. Qed.

(** k whole seconds at n samples per second select k*n samples exactly when the
    drift k * (10^12 mod n) stays within the tolerance. *)
Lemma whole_seconds n k sr : 1 <= n <= 10 ^ 6 -> 0 <= k -> audio_rate n = Ok sr ->
  (integer_based_slice {| t_freq := sr_freq sr; t_dur := sr_dur sr; t_size := None |}
     (ITime 0 (Some (k * 10 ^ 12))) = Ok (0, k * n)
   <-> 200 * (k * (10 ^ 12 mod n)) <= sr_freq sr).
Proof.
  intros Hn Hk Hs. destruct (audio_rate_iff n ltac:(lia)) as [s [H1 [H2 [H3 _]]]].
  rewrite Hs in H1. inversion H1; subst s. clear H1.
  unfold integer_based_slice. cbn [bind t_freq t_dur]. rewrite H2, H3, Z.sub_diag.
  change (0 - 0) with 0. 
  assert (Hq : 10 ^ 6 <= 10 ^ 12 / n) by (apply Z.div_le_lower_bound; lia).
  rewrite Z.div_0_l by lia. rewrite Z.add_0_l. rewrite ceil_round2 by lia.
  pose proof (Z.div_mod (10 ^ 12) n ltac:(lia)) as E.
  pose proof (Z.mod_pos_bound (10 ^ 12) n ltac:(lia)) as Hr.
  set (q := 10 ^ 12 / n) in *. set (r := (10 ^ 12) mod n) in *.
  pose proof (Z.div_mod (k * 10 ^ 12) q ltac:(lia)) as E2.
  pose proof (Z.mod_pos_bound (k * 10 ^ 12) q ltac:(lia)) as Hr2.
  set (a := k * 10 ^ 12 / q) in *. set (b := (k * 10 ^ 12) mod q) in *.
  assert (E3 : k * r = q * (a - k * n) + b).
  { assert (Hx : k * 10 ^ 12 = k * (n * q + r)) by (f_equal; exact E). rewrite Hx in E2. lia. }
  destruct (Z.leb_spec (200 * b) q).
  - split; intros H0.
    + assert (a = k * n) by (injection H0; lia). subst a. rewrite H1 in E3. lia.
    + assert (a = k * n) by nia. do 2 f_equal; lia.
  - split; intros H0.
    + assert (a + 1 = k * n) by (injection H0; lia). nia.
    + exfalso. assert (0 <= a - k * n) by nia. nia.
Qed.

(** ** More about indices, rates and order *)
(** a Python slice of durations is the time slice between its bounds; negative bounds count
    from the end, missing ones are the beginning and the end *)
Lemma python_slice t e s p : t_span t = Ok e ->
  let a := match s with None => 0 | Some x => if x <? 0 then e + x else x end in
  let b := match p with None => if e <? 0 then e + e else e | Some x => if x <? 0 then e + x else x end in
  integer_based_slice t (ISlice s p) = integer_based_slice t (ITime a (Some (b - a))).
Proof.
  intros He. cbn zeta. unfold integer_based_slice. rewrite He. destruct s as [x|], p as [y|]; cbn [bind];
  repeat match goal with |- context [?u <? 0] => destruct (u <? 0); cbn [bind] end; reflexivity.
Qed.
Lemma python_slice_nonneg t e s p : t_span t = Ok e -> 0 <= e ->
  let bound d o := match o with None => d | Some x => if x <? 0 then e + x else x end in
  let a := bound 0 s in let b := bound e p in
  integer_based_slice t (ISlice s p) = integer_based_slice t (ITime a (Some (b - a))).
Proof. intros He Hn. cbn zeta. rewrite (python_slice t e s p He). destruct (Z.ltb_spec e 0); [lia|]. reflexivity. Qed.
(** a time slice without a duration ends with the signal *)
Lemma open_slice t e start : t_span t = Ok e -> integer_based_slice t (ITime start None) = integer_based_slice t (ITime start (Some (e - start))).
Proof. intros He. unfold integer_based_slice. rewrite He. cbn [bind]. now replace (start + (e - start)) with e by ring. Qed.
Lemma open_slice_refuted t start s : t_size t = None -> integer_based_slice t (ITime start None) = Raise TypeError /\ integer_based_slice t (ISlice (Some s) None) = Raise TypeError.
Proof.
  intros H. unfold integer_based_slice, t_span. rewrite H. cbn [bind]. split; [reflexivity|]. destruct (s <? 0); reflexivity.
Qed.
Lemma audio_nyquist n : 1 <= n <= 10 ^ 6 -> exists s, audio_rate n = Ok s /\ nyquist s = n / 2.
Proof. intros H. destruct (audio_rate_usual n H) as (s & E & Es). exists s. split; [exact E|]. unfold nyquist. now rewrite Es. Qed.
(** the usual schemes are multiples of the rate *)
Lemma schemes n s step w : audio_rate n = Ok s -> half_lapped s w step = sr_mul s step w /\ windowing_scheme s w step = sr_mul s step w.
Proof.
  intros E. assert (D : sr_dur s = sr_freq s).
  { unfold audio_rate in E. destruct (n =? 0); [discriminate|]. cbn zeta in E. unfold mk_samplerate in E. destruct (10 ^ 12 / n <=? 0); [discriminate|]. now injection E as <-. }
  unfold half_lapped, windowing_scheme, sr_mul, sr_overlap. rewrite D, Z.sub_diag, Z.add_0_r. auto.
Qed.
Lemma standard_rates_list : standard_rates = [96000; 48000; 44100; 22050; 16000; 11025].
Proof. reflexivity. Qed.
Lemma audio_sample_rate_values n : audio_sample_rate n =
  if existsb (Z.eqb n) [96000; 48000; 44100; 22050; 16000; 11025] then Ok n else Raise ValueError.
Proof. rewrite <- standard_rates_list. apply audio_sample_rate_spec. Qed.
(** at equal distance the higher rate is taken *)
Lemma argmin_first l : l <> [] -> forall i, (i < argmin l)%nat -> nth (argmin l) l 0 < nth i l 0.
Proof.
  induction l as [|x l IH]; intros Hl i Hi; [contradiction|]. destruct l as [|y l]; [cbn in Hi; lia|]. set (m := y :: l) in *.
  assert (E : argmin (x :: m) = if x <=? nth (argmin m) m 0 then 0%nat else S (argmin m)) by reflexivity.
  rewrite E in *. destruct (Z.leb_spec x (nth (argmin m) m 0)) as [H|H]; [lia|]. cbn [nth]. destruct i as [|i]; [exact H|]. apply IH; [discriminate|lia].
Qed.
Lemma nearest_values n : In (nearest_audio_sample_rate n) [96000; 48000; 44100; 22050; 16000; 11025] /\
  forall r, In r [96000; 48000; 44100; 22050; 16000; 11025] ->
    Z.abs (n - nearest_audio_sample_rate n) <= Z.abs (n - r) /\ (Z.abs (n - r) = Z.abs (n - nearest_audio_sample_rate n) -> r <= nearest_audio_sample_rate n).
Proof.
  rewrite <- standard_rates_list. destruct (nearest_spec n) as [A B]. split; [exact A|]. intros r Hr. split; [now apply B|]. intros E.
  unfold nearest_audio_sample_rate in *. set (l := map (fun r => Z.abs (n - rate_sps r)) standard_rates) in *.
  destruct (argmin_spec l ltac:(discriminate)) as [H1 _]. pose proof (argmin_first l ltac:(discriminate)) as F.
  assert (L : length l = length standard_rates) by apply map_length.
  assert (N : forall j, (j < length standard_rates)%nat -> nth j l 0 = Z.abs (n - nth j standard_rates 0)).
  { intros j Hj. unfold l. rewrite (nth_indep _ 0 (Z.abs (n - rate_sps 0))) by (rewrite map_length; exact Hj).
    rewrite (map_nth (fun r => Z.abs (n - rate_sps r))). rewrite rate_sps_standard; [reflexivity|]. now apply nth_In. }
  destruct (In_nth _ _ 0 Hr) as (i & Hi & <-). set (j := argmin l) in *. clearbody j.
  destruct (Nat.lt_ge_cases i j) as [Hij|Hij].
  - specialize (F i Hij). rewrite !N in F by lia. lia.
  - clear - Hij Hi. assert (K : forall a b, (a <= b < 6)%nat -> nth b standard_rates 0 <= nth a standard_rates 0).
    { intros a b H. do 6 (destruct a as [|a]; [do 6 (destruct b as [|b]; [cbn; lia|]); lia|]). lia. }
    apply K. cbn in Hi. lia.
Qed.
(** slices are ordered by their starts *)
Lemma ts_order a b : (ts_lt a b = true <-> ps (ts_start a) < ps (ts_start b)) /\ (ts_lt a b = true -> ts_eq a b = false).
Proof.
  unfold ts_lt. split; [apply Z.ltb_lt|]. intros H%Z.ltb_lt. destruct (ts_eq a b) eqn:E; [|reflexivity]. apply ts_eq_iff in E. lia.
Qed.
(** units *)
Lemma units c : ps {| td_count := c; td_unit := Ps |} = c /\ ps {| td_count := c; td_unit := Ns |} = 1000 * c /\
  ps {| td_count := c; td_unit := Us |} = 1000000 * c /\ ps {| td_count := c; td_unit := Ms |} = 1000000000 * c /\
  ps {| td_count := c; td_unit := Sec |} = 1000000000000 * c /\ ps {| td_count := c; td_unit := Min |} = 60 * (1000000000000 * c) /\
  ps {| td_count := c; td_unit := Hr |} = 3600 * (1000000000000 * c).
Proof. unfold ps. cbn [td_count td_unit unit_ps]. change (10 ^ 12) with 1000000000000. repeat apply conj; lia. Qed.
(** slicing keeps the spacing and extent of the samples *)
Lemma metaslice_keeps t n : t_dur t <> 0 -> t_freq (metaslice t n) = t_freq t /\ t_dur (metaslice t n) = t_dur t /\ t_size (metaslice t n) = Some n.
Proof. intros H. unfold metaslice, mk_timedim. cbn [t_freq t_dur t_size]. destruct (Z.eqb_spec (t_dur t) 0); [contradiction|]. auto. Qed.
(** the default step is the window; a missing or zero duration is the frequency *)
Lemma dimension_defaults t w f size : 1 <= w -> modified_dimension t w None = modified_dimension t w (Some w) /\
  mk_timedim f None size = mk_timedim f (Some f) size /\ mk_timedim f (Some 0) size = mk_timedim f (Some f) size.
Proof.
  intros Hw. unfold modified_dimension, mk_timedim. destruct (Z.eqb_spec w 0); [lia|]. cbn [Z.eqb]. destruct (f =? 0); auto.
Qed.
Lemma mk_timeslice_bounds d s : ps (ts_start (mk_timeslice d s)) = match s with None => 0 | Some x => ps x end /\
  ts_duration (mk_timeslice d s) = d /\
  ts_end (mk_timeslice d s) = match d with None => Raise TypeError | Some x => Ok (match s with None => 0 | Some y => ps y end + ps x) end.
Proof.
  assert (K : ps (ts_start (mk_timeslice d s)) = match s with None => 0 | Some x => ps x end).
  { unfold mk_timeslice. cbn [ts_start]. destruct s as [x|]; [|reflexivity]. destruct (Z.eqb_spec (td_count x) 0) as [E|E]; [|reflexivity]. unfold ps. now rewrite E. }
  split; [exact K|]. split; [reflexivity|]. unfold ts_end. rewrite K. reflexivity.
Qed.
