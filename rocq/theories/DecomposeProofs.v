(** Frequency decomposition and its synthesis (C74). *)
From Verif Require Import PyBase PyFacts PyMore Time Freq FreqProofs FreqScaleProofs FreqDim FreqDimProofs Spectral SpectralProofs TransformProofs ReconProofs Resample ResampleProofs Decompose.
From Coq Require Import Reals Lra Psatz Sorting.Sorted Sorting.Permutation FinFun.
Local Open Scope R_scope.

(** ** what a decomposition should be.  [low_pass n m r]: the row r of n samples brought down
    to m samples and back *)
Definition low_pass (n m : nat) (r : list R) : list R := resample_row n (resample_row m r).
(** what is left of r below the band: everything, or what the previous size could not hold *)
Definition left_over (n : nat) (prev : option nat) (r : list R) : list R :=
  match prev with None => r | Some m => lsub r (low_pass n m r) end.
(** each size, with the one before *)
Fixpoint with_previous (prev : option nat) (sizes : list nat) : list (option nat * nat) :=
  match sizes with [] => [] | m :: r => (prev, m) :: with_previous (Some m) r end.
Definition edge (nyq : Z) (n : nat) (m : option nat) : R := match m with None => 0 | Some m => IZR nyq * (INR m / INR n) end.
Definition spec_band (n : nat) (x : arr2 R) (p : option nat * nat) : arr2 R :=
  mkArr (snd p) (map (fun r => resample_row (snd p) (left_over n (fst p) r)) (rows x)).
Definition spec_hz (nyq : Z) (n : nat) (p : option nat * nat) : band := mkBand (edge nyq n (fst p)) (edge nyq n (Some (snd p))).

Lemma combine_map_same {A B C} (f : A -> B) (g : A -> C) l : combine (map f l) (map g l) = map (fun x => (f x, g x)) l.
Proof. induction l as [|a l IH]; [reflexivity|]. cbn. now rewrite IH. Qed.
Lemma low_pass_length n m r : length (low_pass n m r) = n.
Proof. apply resample_row_length. Qed.
Lemma left_over_length n prev r : length r = n -> length (left_over n prev r) = n.
Proof. intros H. destruct prev; [|exact H]. cbn. now rewrite lsub_length; rewrite ?low_pass_length. Qed.
Lemma low_pass_id n m r : length r = n -> (0 < n)%nat -> (n <= m)%nat -> low_pass n m r = r.
Proof. intros H Hn Hm. subst n. unfold low_pass. apply resample_up_down; [now apply nonempty_length|exact Hm]. Qed.
(** what a small size holds passes through a larger one unchanged *)
Lemma low_pass_nested n m m' r : length r = n -> (0 < m')%nat -> (m' <= m)%nat -> (0 < n)%nat -> low_pass n m (low_pass n m' r) = low_pass n m' r.
Proof.
  intros H Hm' Hm Hn. destruct (Nat.le_gt_cases n m) as [A|A]; [now apply low_pass_id; [apply low_pass_length| |]|].
  unfold low_pass. set (y := resample_row m' r). assert (Ly : length y = m') by apply resample_row_length.
  assert (Ny : y <> []) by (apply nonempty_length; lia).
  rewrite (resample_through m n y Ny) by lia.
  destruct (Nat.eq_dec m m') as [->|N]; [assert (Es : resample_row m' y = y) by (rewrite <- Ly; now apply resample_same); now rewrite Es|]. apply resample_through; [exact Ny|lia|lia].
Qed.
Lemma lsub_self a : lsub a a = repeat 0 (length a).
Proof.
  apply list_ext_at; [now rewrite lsub_length, repeat_length|]. rewrite lsub_length by reflexivity. intros i Hi. rewrite lsub_at, at_zeros by reflexivity. ring.
Qed.
(** the part of what is left that the size m holds *)
Lemma low_pass_left n m prev r : length r = n -> (0 < n)%nat -> (0 < m)%nat -> (forall m', prev = Some m' -> (0 < m' < m)%nat) ->
  low_pass n m (left_over n prev r) = match prev with None => low_pass n m r | Some m' => lsub (low_pass n m r) (low_pass n m' r) end.
Proof.
  intros H Hn Hm Hp. destruct prev as [m'|]; [|reflexivity]. specialize (Hp m' eq_refl). cbn [left_over].
  unfold low_pass at 1. rewrite resample_sub; [|exact Hm|apply nonempty_length; lia|now rewrite low_pass_length].
  rewrite resample_sub; [|exact Hn|apply nonempty_length; rewrite resample_row_length; lia|now rewrite !resample_row_length].
  f_equal. change (low_pass n m (low_pass n m' r) = low_pass n m' r). apply low_pass_nested; lia.
Qed.
Lemma left_over_step n m prev r : length r = n -> (0 < n)%nat -> (0 < m)%nat -> (forall m', prev = Some m' -> (0 < m' < m)%nat) ->
  lsub (left_over n prev r) (low_pass n m (left_over n prev r)) = left_over n (Some m) r.
Proof.
  intros H Hn Hm Hp. rewrite low_pass_left by assumption. cbn [left_over]. destruct prev as [m'|]; [|reflexivity]. cbn [left_over].
  apply list_ext_at; [rewrite !lsub_length; rewrite ?lsub_length, ?low_pass_length; rewrite ?low_pass_length; congruence|].
  intros i _. rewrite !lsub_at; rewrite ?lsub_length, ?low_pass_length; rewrite ?low_pass_length; try congruence. ring.
Qed.

(** ** the loop *)
Lemma resample2_ok num x : (0 < num)%nat -> (0 < cols x)%nat -> resample2 num x = Ok (mkArr num (map (resample_row num) (rows x))).
Proof. intros H1 H2. unfold resample2. destruct (Nat.eqb_spec num 0); [lia|]. destruct (Nat.eqb_spec (cols x) 0); [lia|]. reflexivity. Qed.
Lemma edge_lt nyq n prev m : (0 < nyq)%Z -> (0 < n)%nat -> (0 < m)%nat -> (forall m', prev = Some m' -> (0 < m' < m)%nat) -> edge nyq n prev < edge nyq n (Some m).
Proof.
  intros Hy Hn Hm Hp. assert (P : 0 < INR n) by (apply lt_0_INR; lia). assert (Y : 0 < IZR nyq) by (apply (IZR_lt 0); lia).
  assert (M : 0 < INR m) by (apply lt_0_INR; lia). destruct prev as [m'|]; cbn [edge].
  - specialize (Hp m' eq_refl). apply Rmult_lt_compat_l; [exact Y|]. apply Rmult_lt_compat_r; [now apply Rinv_0_lt_compat|]. apply lt_INR. lia.
  - apply Rmult_lt_0_compat; [exact Y|]. now apply Rdiv_lt_0_compat.
Qed.
Lemma map_ext_Forall {A B} (f g : A -> B) P l : Forall P l -> (forall a, P a -> f a = g a) -> map f l = map g l.
Proof. intros F H. apply map_ext_in. intros a Ha. apply H. rewrite Forall_forall in F. auto. Qed.
Lemma decompose_loop_ok nyq n x sizes : (0 < nyq)%Z -> (0 < n)%nat -> cols x = n -> shaped x -> forall prev,
  StronglySorted lt sizes -> Forall (fun m => (0 < m)%nat) sizes -> (forall m', prev = Some m' -> (0 < m')%nat /\ Forall (fun m => (m' < m)%nat) sizes) ->
  decompose_loop nyq n sizes (mkArr n (map (left_over n prev) (rows x))) (edge nyq n prev)
  = Ok (map (spec_band n x) (with_previous prev sizes), map (spec_hz nyq n) (with_previous prev sizes)).
Proof.
  intros Hy Hn Hc Hx. unfold shaped in Hx. rewrite Hc in Hx. induction sizes as [|m sizes IH]; intros prev Hs Hpos Hp; [reflexivity|].
  inversion Hs as [|? ? Hs' Hlt]; subst. inversion Hpos as [|? ? Hm Hpos']; subst.
  assert (Hp' : forall m', prev = Some m' -> (0 < m' < m)%nat) by (intros m' E; destruct (Hp m' E) as [A B]; inversion B; subst; lia).
  set (n := cols x) in *.
  cbn [decompose_loop with_previous map].
  assert (E1 : (if Nat.eqb m n then Ok (mkArr n (map (left_over n prev) (rows x))) else resample2 m (mkArr n (map (left_over n prev) (rows x))))
    = Ok (spec_band n x (prev, m))).
  { unfold spec_band. cbn [fst snd]. destruct (Nat.eqb_spec m n) as [E|N].
    - rewrite E. f_equal. f_equal. apply (map_ext_Forall _ _ _ _ Hx). intros r Hr. symmetry. rewrite <- (left_over_length n prev r Hr) at 1.
      apply resample_same. apply nonempty_length. rewrite left_over_length; assumption.
    - rewrite resample2_ok by (cbn [cols]; assumption). cbn [rows]. now rewrite map_map. }
  rewrite E1. cbn [bind]. rewrite resample2_ok by (cbn; assumption). cbn [bind spec_band rows cols fst snd].
  assert (Eb : make_band (edge nyq n prev) (IZR nyq * (INR m / INR n)) = Ok (spec_hz nyq n (prev, m))).
  { unfold spec_hz. cbn [fst snd]. apply make_band_ok. now apply edge_lt. }
  rewrite Eb. cbn [bind].
  assert (E2 : arr_op Rminus (mkArr n (map (left_over n prev) (rows x))) (mkArr n (map (resample_row n) (map (fun r => resample_row m (left_over n prev r)) (rows x))))
    = mkArr n (map (left_over n (Some m)) (rows x))).
  { unfold arr_op. cbn [cols rows]. f_equal. rewrite (map_map (fun r => resample_row m (left_over n prev r))), combine_map_same, map_map. cbn [fst snd].
    apply (map_ext_Forall _ _ _ _ Hx). intros r Hr. apply (left_over_step n m prev r); assumption. }
  rewrite E2. change (IZR nyq * (INR m / INR n)) with (edge nyq n (Some m)). rewrite IH; [reflexivity|exact Hs'|exact Hpos'|].
  intros m' [= <-]. now split.
Qed.

(** ** the decomposition *)
Definition sample_rate_known (tf nyq : Z) : Prop := exists rate, audio_sample_rate (samples_per_second tf) = Ok rate /\ nyq = (rate_sps rate / 2)%Z.
Lemma known_positive tf nyq : sample_rate_known tf nyq -> (0 < nyq)%Z.
Proof.
  intros (rate & E & ->). unfold audio_sample_rate in E. destruct (find _ _) as [r|] eqn:F; [|discriminate]. injection E as ->.
  apply find_some in F as [I _]. unfold standard_rates in I. cbn [In] in I. repeat (destruct I as [<-|I]; [vm_compute; reflexivity|]). destruct I.
Qed.
(** distinct sizes, none of them zero, in increasing order *)
Lemma sorted_sizes sizes : NoDup sizes -> Forall (fun m => (0 < m)%nat) sizes ->
  StronglySorted lt (isort Nat.leb sizes) /\ Forall (fun m => (0 < m)%nat) (isort Nat.leb sizes) /\ NoDup (isort Nat.leb sizes).
Proof.
  intros N F. pose proof (isort_perm Nat.leb sizes) as P.
  assert (N' : NoDup (isort Nat.leb sizes)) by exact (Permutation_NoDup P N).
  split; [|split; [exact (Permutation_Forall P F)|exact N']].
  assert (S' : StronglySorted (leP Nat.leb) (isort Nat.leb sizes)).
  { apply isort_sorted; intros; rewrite ?Nat.leb_le in *; lia. }
  clear P F N. induction S' as [|a l S' IH H]; [constructor|]. inversion N' as [|? ? Ni Nd]; subst. constructor; [now apply IH|].
  rewrite Forall_forall in *. intros b Hb. specialize (H b Hb). red in H. apply Nat.leb_le in H. assert (a <> b) by (intros ->; contradiction). lia.
Qed.
Lemma with_previous_length prev sizes : length (with_previous prev sizes) = length sizes.
Proof. revert prev; induction sizes as [|m s IH]; intros prev; [reflexivity|]. cbn. now rewrite IH. Qed.
Lemma with_previous_snd prev sizes : map snd (with_previous prev sizes) = sizes.
Proof. revert prev; induction sizes as [|m s IH]; intros prev; [reflexivity|]. cbn. now rewrite IH. Qed.
Lemma with_previous_bounds prev sizes : StronglySorted lt sizes -> Forall (fun m => (0 < m)%nat) sizes ->
  (forall m', prev = Some m' -> (0 < m')%nat /\ Forall (fun m => (m' < m)%nat) sizes) ->
  Forall (fun p => (0 < snd p)%nat /\ forall m', fst p = Some m' -> (0 < m' < snd p)%nat) (with_previous prev sizes).
Proof.
  revert prev. induction sizes as [|m s IH]; intros prev Hs Hp Hb; [constructor|]. inversion Hs as [|? ? Hs' Hl]; subst. inversion Hp as [|? ? Hm Hp']; subst.
  cbn [with_previous]. constructor.
  - cbn [fst snd]. split; [exact Hm|]. intros m' E. destruct (Hb m' E) as [A B]. inversion B; subst. lia.
  - apply IH; [exact Hs'|exact Hp'|]. intros m' [= <-]. now split.
Qed.
Lemma edge_inj nyq n a b : (0 < nyq)%Z -> (0 < n)%nat -> edge nyq n (Some a) = edge nyq n (Some b) -> a = b.
Proof.
  intros Hy Hn E. cbn [edge] in E. apply INR_eq. assert (IZR nyq <> 0) by (apply not_0_IZR; lia). assert (INR n <> 0) by (apply not_0_INR; lia).
  apply Rmult_eq_reg_l in E; [|assumption]. apply Rmult_eq_reg_r with (/ INR n); [exact E|now apply Rinv_neq_0_compat].
Qed.
Lemma spec_hz_nodup nyq n prev sizes : (0 < nyq)%Z -> (0 < n)%nat -> NoDup sizes -> NoDup (map (spec_hz nyq n) (with_previous prev sizes)).
Proof.
  intros Hy Hn N. assert (G : NoDup (map bstop (map (spec_hz nyq n) (with_previous prev sizes)))).
  { rewrite map_map. cbn [spec_hz bstop]. rewrite <- (map_map snd (fun m => edge nyq n (Some m))), with_previous_snd.
    apply FinFun.Injective_map_NoDup; [|exact N]. intros a b. now apply edge_inj. }
  apply NoDup_map_inv in G. exact G.
Qed.
Lemma spec_hz_first nyq n m s : exists b r, map (spec_hz nyq n) (with_previous None (m :: s)) = b :: r /\ bstart b = 0.
Proof. eexists. eexists. split; [reflexivity|]. reflexivity. Qed.
Lemma last_with_previous prev sizes d : sizes <> [] -> snd (last (with_previous prev sizes) d) = last sizes (snd d).
Proof.
  revert prev. induction sizes as [|m s IH]; intros prev H; [contradiction|]. destruct s as [|m' s]; [reflexivity|].
  change (with_previous prev (m :: m' :: s)) with ((prev, m) :: with_previous (Some m) (m' :: s)).
  change (last (m :: m' :: s) (snd d)) with (last (m' :: s) (snd d)). rewrite <- (IH (Some m)) by discriminate. reflexivity.
Qed.
Lemma last_map {A B} (f : A -> B) l d : last (map f l) (f d) = f (last l d).
Proof. induction l as [|a l IH]; [reflexivity|]. destruct l; [reflexivity|]. exact IH. Qed.
Lemma last_In {A} (l : list A) d : l <> [] -> In (last l d) l.
Proof. induction l as [|a l IH]; [contradiction|]. intros _. destruct l as [|b l]; [now left|]. right. apply IH. discriminate. Qed.
Lemma last_indep {A} (l : list A) d d' : l <> [] -> last l d = last l d'.
Proof. induction l as [|a l IH]; [contradiction|]. intros _. destruct l as [|b l]; [reflexivity|]. apply IH. discriminate. Qed.

Definition decomposable (tf : Z) (x : arr2 R) (sizes : list nat) (nyq : Z) : Prop :=
  sample_rate_known tf nyq /\ (0 < cols x)%nat /\ shaped x /\ sizes <> [] /\ NoDup sizes /\ Forall (fun m => (0 < m)%nat) sizes.
Definition spec_arrays (x : arr2 R) (sizes : list nat) : list (arr2 R) := map (spec_band (cols x) x) (with_previous None (isort Nat.leb sizes)).
Definition spec_bands (nyq : Z) (x : arr2 R) (sizes : list nat) : list band := map (spec_hz nyq (cols x)) (with_previous None (isort Nat.leb sizes)).
Lemma decomposition_fa tf x sizes nyq : decomposable tf x sizes nyq -> exists fa,
  frequency_decomposition tf x sizes = Ok fa /\ fa_new (spec_arrays x sizes) (Explicit (spec_bands nyq x sizes)) = Ok fa /\
  fa_input (spec_arrays x sizes) (Explicit (spec_bands nyq x sizes)) (spec_bands nyq x sizes) (length (rows x)) /\
  Forall proper (spec_bands nyq x sizes) /\ ebands (snd fa) = spec_bands nyq x sizes /\ length (rows (fst fa)) = length (rows x) /\
  escale (snd fa) = Explicit (spec_bands nyq x sizes).
Proof.
  intros (K & Hc & Hx & Hne & Hd & Hp). pose proof (known_positive _ _ K) as Y. destruct K as (rate & Er & En).
  destruct (sorted_sizes sizes Hd Hp) as (So & Po & No). set (z := isort Nat.leb sizes) in *.
  assert (Hz : z <> []) by (intros E; apply Hne; apply length_zero_iff_nil; rewrite <- (isort_length Nat.leb sizes); fold z; now rewrite E).
  assert (Pr : Forall proper (spec_bands nyq x sizes)).
  { unfold spec_bands. fold z. rewrite Forall_map. assert (B : Forall (fun p => (0 < snd p)%nat /\ forall m', fst p = Some m' -> (0 < m' < snd p)%nat) (with_previous None z)) by (apply with_previous_bounds; [exact So|exact Po|discriminate]).
    apply Forall_impl with (2 := B). intros [pv m] [B1 B2]. red. cbn. now apply edge_lt. }
  assert (Fi : fa_input (spec_arrays x sizes) (Explicit (spec_bands nyq x sizes)) (spec_bands nyq x sizes) (length (rows x))).
  { red. split; [reflexivity|]. split; [reflexivity|]. split; [now apply spec_hz_nodup|]. split; [unfold spec_arrays, spec_bands; now rewrite !map_length|].
    split; [unfold spec_arrays; fold z; destruct z; [contradiction|discriminate]|].
    unfold spec_arrays. rewrite Forall_map, Forall_forall. intros p _. unfold spec_band, shaped. cbn [rows cols]. split; [apply map_length|].
    rewrite Forall_map, Forall_forall. intros r _. apply resample_row_length. }
  destruct (fa_new_ok _ _ _ _ Fi) as (w & Ew & _ & Lw & _ & _).
  exists (w, mkEfd (spec_bands nyq x sizes) (Explicit (spec_bands nyq x sizes)) (fa_slices (map cols (spec_arrays x sizes)))).
  split; [|split; [exact Ew|split; [exact Fi|split; [exact Pr|split; [reflexivity|split; [exact Lw|reflexivity]]]]]].
  unfold frequency_decomposition. fold z. rewrite Er. cbn [bind]. rewrite <- En.
  pose proof (decompose_loop_ok nyq (cols x) x z Y Hc eq_refl Hx None So Po) as L. cbn [edge] in L.
  assert (Ex : mkArr (cols x) (map (left_over (cols x) None) (rows x)) = x) by (destruct x as [c r]; cbn [cols rows]; f_equal; apply map_id).
  rewrite Ex in L. rewrite L by discriminate. cbn [bind fst snd].
  fold (spec_bands nyq x sizes) (spec_arrays x sizes) in *. change (map (spec_hz nyq (cols x)) (with_previous None z)) with (spec_bands nyq x sizes).
  change (map (spec_band (cols x) x) (with_previous None z)) with (spec_arrays x sizes).
  assert (M : make_explicit (spec_bands nyq x sizes) = Ok (Explicit (spec_bands nyq x sizes))).
  { unfold make_explicit, span_band. unfold spec_bands. fold z. destruct z as [|m s] eqn:Ez; [contradiction|].
    cbn [with_previous map]. set (l := spec_hz nyq (cols x) (None, m) :: map (spec_hz nyq (cols x)) (with_previous (Some m) s)).
    assert (El : l = map (spec_hz nyq (cols x)) (with_previous None (m :: s))) by reflexivity.
    assert (Lst : last l (spec_hz nyq (cols x) (None, m)) = spec_hz nyq (cols x) (last (with_previous None (m :: s)) (None, m))) by (rewrite El; apply last_map).
    rewrite Lst. rewrite make_band_ok; [reflexivity|]. cbn [spec_hz bstart bstop fst edge].
    rewrite last_with_previous by discriminate. cbn [snd]. apply (edge_lt nyq (cols x) None); [exact Y|exact Hc| |discriminate].
    rewrite Forall_forall in Po. apply Po. apply last_In. discriminate. }
  rewrite M. cbn [bind]. exact Ew.
Qed.

(** the bands tile the spectrum up to the largest size, in increasing order of size; the
    band of each size holds, at that size, what the smaller sizes could not hold *)
Lemma with_previous_nth sizes k m prev : nth_error sizes k = Some m ->
  nth_error (with_previous prev sizes) k = Some (match k with O => prev | S j => nth_error sizes j end, m).
Proof.
  revert k prev. induction sizes as [|a s IH]; intros [|k] prev H; try discriminate; [injection H as ->; reflexivity|].
  cbn [with_previous nth_error] in *. rewrite (IH k (Some a) H). destruct k; reflexivity.
Qed.
Theorem decomposition_bands tf x sizes nyq : decomposable tf x sizes nyq -> exists fa, frequency_decomposition tf x sizes = Ok fa /\
  length (ebands (snd fa)) = length sizes /\
  forall k m, nth_error (isort Nat.leb sizes) k = Some m -> exists q a d, nth_error (ebands (snd fa)) k = Some q /\
    bstart q = match k with O => 0 | S j => IZR nyq * (INR (nth j (isort Nat.leb sizes) 0%nat) / INR (cols x)) end /\
    bstop q = IZR nyq * (INR m / INR (cols x)) /\
    fa_get fa q = Ok (a, d) /\ cols a = m /\
    rows a = map (fun r => resample_row m (match k with O => r | S j => lsub r (low_pass (cols x) (nth j (isort Nat.leb sizes) 0%nat) r) end)) (rows x).
Proof.
  intros D. destruct (decomposition_fa tf x sizes nyq D) as (fa & E & Ef & Fi & Pr & Eb & _ & _). exists fa. split; [exact E|]. rewrite Eb.
  split; [unfold spec_bands; now rewrite map_length, with_previous_length, isort_length|].
  intros k m Hk. pose proof (with_previous_nth _ _ _ None Hk) as Hw. set (p := (match k with O => None | S j => nth_error (isort Nat.leb sizes) j end, m)) in *.
  assert (Hq : nth_error (spec_bands nyq x sizes) k = Some (spec_hz nyq (cols x) p)) by (unfold spec_bands; now rewrite nth_error_map, Hw).
  assert (Ha : nth_error (spec_arrays x sizes) k = Some (spec_band (cols x) x p)) by (unfold spec_arrays; now rewrite nth_error_map, Hw).
  destruct (fa_band _ _ _ _ fa k _ _ Fi Pr Ef Hq Ha) as [d Hd].
  exists (spec_hz nyq (cols x) p), (spec_band (cols x) x p), d. split; [exact Hq|].
  assert (Hp : forall j, k = S j -> nth_error (isort Nat.leb sizes) j = Some (nth j (isort Nat.leb sizes) 0%nat)).
  { intros j ->. apply nth_error_nth'. assert (S j < length (isort Nat.leb sizes))%nat by (apply nth_error_Some; congruence). lia. }
  split. { unfold p, spec_hz. cbn [fst bstart]. destruct k as [|j]; [reflexivity|]. now rewrite (Hp j eq_refl). }
  split; [reflexivity|]. split; [exact Hd|]. split; [reflexivity|]. unfold p, spec_band. cbn [rows fst snd]. destruct k as [|j]; [reflexivity|].
  now rewrite (Hp j eq_refl).
Qed.
(** a band holds nothing that the size before it could hold *)
Theorem decomposition_disjoint n m' m r : length r = n -> (0 < n)%nat -> (0 < m' < m)%nat ->
  resample_row m' (resample_row m (lsub r (low_pass n m' r))) = repeat 0 m'.
Proof.
  intros H Hn Hm. assert (Hr : r <> []) by (apply nonempty_length; lia).
  destruct (Nat.le_gt_cases n m') as [A|A].
  - rewrite low_pass_id, lsub_self, !resample_zeros by lia. reflexivity.
  - unfold low_pass. set (y := resample_row m' r). assert (Ly : length y = m') by apply resample_row_length. assert (Ny : y <> []) by (apply nonempty_length; lia).
    rewrite resample_sub; [|lia|exact Hr|now rewrite resample_row_length]. rewrite (resample_through m n y Ny) by lia.
    rewrite resample_sub; [|lia|apply nonempty_length; rewrite resample_row_length; lia|now rewrite !resample_row_length].
    rewrite (resample_through m' m r Hr) by lia. rewrite (resample_through m' m y Ny) by lia.
    fold y. assert (Es : resample_row m' y = y) by (rewrite <- Ly; now apply resample_same). rewrite Es, lsub_self, Ly. reflexivity.
Qed.

(** ** the synthesis *)
Definition added (out : nat) (bands : option (list nat)) (o : arr2 R) (p : nat * arr2 R) : arr2 R :=
  if band_selected bands (fst p) then arr_op Rplus o (mkArr out (map (resample_row out) (rows (snd p)))) else o.
Lemma synth_loop_ok out fa bands : (0 < out)%nat -> forall qs arrs i acc, length qs = length arrs ->
  (forall k q a, nth_error qs k = Some q -> nth_error arrs k = Some a -> (exists d, fa_get fa q = Ok (a, d)) /\ (0 < cols a)%nat) ->
  synth_loop out fa bands i qs acc = Ok (fold_left (added out bands) (combine (seq i (length arrs)) arrs) acc).
Proof.
  intros Ho. induction qs as [|q qs IH]; intros [|a arrs] i acc L H; try discriminate; [reflexivity|].
  cbn [synth_loop length seq combine fold_left]. assert (H' : forall k q a, nth_error qs k = Some q -> nth_error arrs k = Some a -> (exists d, fa_get fa q = Ok (a, d)) /\ (0 < cols a)%nat) by (intros k; apply (H (S k))).
  unfold added at 2. cbn [fst snd]. destruct (band_selected bands i); [|apply IH; [now injection L|exact H']].
  destruct (H 0%nat q a eq_refl eq_refl) as [[d Hd] Hc]. rewrite Hd. cbn [bind fst]. rewrite resample2_ok by assumption. cbn [bind]. apply IH; [now injection L|exact H'].
Qed.
Definition added_row (out n : nat) (bands : option (list nat)) (r o : list R) (p : nat * (option nat * nat)) : list R :=
  if band_selected bands (fst p) then ladd o (resample_row out (resample_row (snd (snd p)) (left_over n (fst (snd p)) r))) else o.
Lemma added_rows out n x bands ps : forall i g,
  fold_left (added out bands) (combine (seq i (length ps)) (map (spec_band n x) ps)) (mkArr out (map g (rows x)))
  = mkArr out (map (fun r => fold_left (added_row out n bands r) (combine (seq i (length ps)) ps) (g r)) (rows x)).
Proof.
  induction ps as [|p ps IH]; intros i g; [reflexivity|]. cbn [length seq map combine fold_left].
  unfold added at 2. unfold added_row at 2. cbn [fst snd]. destruct (band_selected bands i); [|apply IH].
  rewrite <- IH. f_equal. unfold arr_op. cbn [rows cols spec_band]. f_equal. rewrite map_map, combine_map_same, map_map. reflexivity.
Qed.
Lemma synth_rows tf x sizes nyq fa out bands : decomposable tf x sizes nyq -> frequency_decomposition tf x sizes = Ok fa -> (0 < out)%nat ->
  decomposition_synthesize out fa bands = Ok (mkArr out (map (fun r =>
    fold_left (added_row out (cols x) bands r) (combine (seq 0 (length sizes)) (with_previous None (isort Nat.leb sizes))) (repeat 0 out)) (rows x))).
Proof.
  intros D E Ho. destruct (decomposition_fa tf x sizes nyq D) as (fa' & E' & Ef & Fi & Pr & Eb & Lr & _). rewrite E' in E. injection E as ->.
  unfold decomposition_synthesize. rewrite Lr, Eb. destruct D as (_ & Hc & Hx & _ & Hd & Hp). destruct (sorted_sizes sizes Hd Hp) as (So & Po & No).
  rewrite (synth_loop_ok out fa bands Ho _ (spec_arrays x sizes)).
  - unfold spec_arrays. rewrite map_length. 
    replace (repeat (repeat 0 out) (length (rows x))) with (map (fun _ : list R => repeat 0 out) (rows x)).
    + rewrite added_rows. now rewrite with_previous_length, isort_length.
    + clear. induction (rows x) as [|r l IH]; [reflexivity|]. cbn [map length repeat]. f_equal. exact IH.
  - unfold spec_bands, spec_arrays. now rewrite !map_length.
  - intros k q a Hq Ha. split; [exact (fa_band _ _ _ _ fa k q a Fi Pr Ef Hq Ha)|].
    unfold spec_arrays in Ha. rewrite nth_error_map in Ha. destruct (nth_error (with_previous None (isort Nat.leb sizes)) k) as [p|] eqn:Ek; [|discriminate].
    injection Ha as <-. cbn [spec_band cols]. rewrite Forall_forall in Po. apply Po. rewrite <- (with_previous_snd None). apply in_map. eapply nth_error_In. exact Ek.
Qed.
Definition held (out : nat) (prev : option nat) (r : list R) : list R :=
  match prev with None => repeat 0 out | Some m => resample_row out (resample_row m r) end.
Lemma ladd_zeros out a : length a = out -> ladd (repeat 0 out) a = a.
Proof.
  intros H. apply list_ext_at; [now rewrite ladd_length; rewrite repeat_length|]. intros i _. rewrite ladd_at by (now rewrite repeat_length). rewrite at_zeros. ring.
Qed.
Lemma held_step out n prev m r : length r = n -> (0 < n)%nat -> (0 < out)%nat -> (0 < m)%nat -> (forall m', prev = Some m' -> (0 < m' < m)%nat) ->
  ladd (held out prev r) (resample_row out (resample_row m (left_over n prev r))) = held out (Some m) r.
Proof.
  intros H Hn Ho Hm Hp. assert (Hr : r <> []) by (apply nonempty_length; lia).
  destruct prev as [m'|]; [|apply ladd_zeros, resample_row_length]. specialize (Hp m' eq_refl). cbn [held left_over].
  destruct (Nat.le_gt_cases n m') as [A|A].
  - rewrite low_pass_id, lsub_self, !resample_zeros by lia. rewrite (resample_through out m r Hr) by lia.
    assert (E : resample_row out (resample_row m' r) = resample_row out r).
    { destruct (Nat.eq_dec m' n) as [->|]; [assert (Es : resample_row n r = r) by (rewrite <- H; now apply resample_same); now rewrite Es|]. apply resample_through; [exact Hr|exact Ho|lia]. }
    rewrite E. apply list_ext_at; [rewrite ladd_length; rewrite ?repeat_length, ?resample_row_length; reflexivity|].
    intros i _. rewrite ladd_at, at_zeros by (now rewrite repeat_length, resample_row_length). ring.
  - unfold low_pass. set (y := resample_row m' r). assert (Ly : length y = m') by apply resample_row_length. assert (Ny : y <> []) by (apply nonempty_length; lia).
    rewrite resample_sub; [|lia|exact Hr|now rewrite resample_row_length]. rewrite (resample_through m n y Ny) by lia.
    rewrite resample_sub; [|exact Ho|apply nonempty_length; rewrite resample_row_length; lia|now rewrite !resample_row_length].
    rewrite (resample_through out m y Ny) by lia.
    apply list_ext_at; [rewrite ladd_length; rewrite ?lsub_length; rewrite ?resample_row_length; reflexivity|].
    intros i _. rewrite ladd_at, lsub_at; rewrite ?lsub_length; rewrite ?resample_row_length; try reflexivity. ring.
Qed.
Lemma held_all out n r sizes : length r = n -> (0 < n)%nat -> (0 < out)%nat -> forall prev i,
  StronglySorted lt sizes -> Forall (fun m => (0 < m)%nat) sizes -> (forall m', prev = Some m' -> (0 < m')%nat /\ Forall (fun m => (m' < m)%nat) sizes) ->
  fold_left (added_row out n None r) (combine (seq i (length sizes)) (with_previous prev sizes)) (held out prev r)
  = held out (match sizes with [] => prev | _ => Some (last sizes 0%nat) end) r.
Proof.
  intros H Hn Ho. induction sizes as [|m s IH]; intros prev i Hs Hp Hb; [reflexivity|].
  inversion Hs as [|? ? Hs' Hl]; subst. inversion Hp as [|? ? Hm Hp']; subst. cbn [length seq with_previous combine fold_left].
  unfold added_row at 2. cbn [band_selected fst snd]. rewrite held_step; [|reflexivity|assumption|assumption|assumption|].
  - rewrite IH; [|exact Hs'|exact Hp'|intros m' [= <-]; now split]. destruct s; reflexivity.
  - intros m' E. destruct (Hb m' E) as [B1 B2]. inversion B2; subst. lia.
Qed.
(** the largest of the sizes *)
Definition largest (sizes : list nat) : nat := fold_right Nat.max 0%nat sizes.
Lemma last_largest sizes : NoDup sizes -> Forall (fun m => (0 < m)%nat) sizes -> sizes <> [] -> last (isort Nat.leb sizes) 0%nat = largest sizes.
Proof.
  intros N F Hne. destruct (sorted_sizes sizes N F) as (So & _ & _). pose proof (isort_perm Nat.leb sizes) as P. 
  assert (E : largest sizes = largest (isort Nat.leb sizes)).
  { unfold largest. clear - P. induction P; cbn; lia. }
  rewrite E. assert (Hz : isort Nat.leb sizes <> []) by (intros Q; apply Hne, length_zero_iff_nil; rewrite <- (isort_length Nat.leb sizes); now rewrite Q).
  clear - So Hz. induction (isort Nat.leb sizes) as [|a l IH]; [contradiction|]. inversion So as [|? ? So' Ha]; subst. destruct l as [|b l]; [cbn; lia|].
  change (last (a :: b :: l) 0%nat) with (last (b :: l) 0%nat). rewrite IH by (assumption || discriminate). change (largest (a :: b :: l)) with (Nat.max a (largest (b :: l))).
  assert (b <= largest (b :: l))%nat by (cbn; lia). inversion Ha; subst. lia.
Qed.
(** synthesis to any size: the samples, brought to the largest size of the decomposition and
    from there to the size asked for *)
Theorem synthesis_all tf x sizes nyq fa out : decomposable tf x sizes nyq -> frequency_decomposition tf x sizes = Ok fa -> (0 < out)%nat ->
  decomposition_synthesize out fa None = Ok (mkArr out (map (fun r => resample_row out (resample_row (largest sizes) r)) (rows x))).
Proof.
  intros D E Ho. rewrite (synth_rows tf x sizes nyq fa out None D E Ho). destruct D as (_ & Hc & Hx & Hne & Hd & Hp). destruct (sorted_sizes sizes Hd Hp) as (So & Po & No).
  f_equal. f_equal. apply (map_ext_Forall _ _ _ _ Hx). intros r Hr. rewrite <- (isort_length Nat.leb sizes).
  change (repeat 0 out) with (held out None r). rewrite held_all by (try assumption; discriminate).
  assert (Hz : isort Nat.leb sizes <> []) by (intros Q; apply Hne, length_zero_iff_nil; rewrite <- (isort_length Nat.leb sizes); now rewrite Q).
  rewrite <- last_largest by assumption. destruct (isort Nat.leb sizes); [contradiction|reflexivity].
Qed.
(** with a size that is not smaller than the samples, nothing is lost *)
Theorem synthesis_exact tf x sizes nyq fa : decomposable tf x sizes nyq -> frequency_decomposition tf x sizes = Ok fa ->
  (exists m, In m sizes /\ (cols x <= m)%nat) -> decomposition_synthesize (cols x) fa None = Ok x.
Proof.
  intros D E (m & Im & Hm). assert (Hc : (0 < cols x)%nat) by apply D. rewrite (synthesis_all tf x sizes nyq fa (cols x) D E Hc).
  assert (L : (m <= largest sizes)%nat) by (unfold largest; clear - Im; induction sizes as [|a s IH]; [destruct Im|]; destruct Im as [->|I]; cbn; [lia|specialize (IH I); lia]).
  destruct D as (_ & _ & Hx & _). destruct x as [n rs]. unfold shaped in Hx. cbn [cols rows] in *. f_equal. f_equal. rewrite <- (map_id rs) at 2.
  apply (map_ext_Forall _ _ _ _ Hx). intros r Hr. change (low_pass n (largest sizes) r = r). apply low_pass_id; [exact Hr|exact Hc|lia].
Qed.
(** without one, something can be lost *)
Lemma synthesis_lossy_refuted : exists tf x sizes nyq fa, decomposable tf x sizes nyq /\ frequency_decomposition tf x sizes = Ok fa /\
  decomposition_synthesize (cols x) fa None <> Ok x.
Proof.
  exists (10 ^ 12 / 44100)%Z, (mkArr 2 [[1; -1]]), [1%nat], 22050%Z.
  assert (D : decomposable (10 ^ 12 / 44100) (mkArr 2 [[1; -1]]) [1%nat] 22050).
  { split; [exists 44100%Z; split; vm_compute; reflexivity|]. split; [cbn; lia|]. split; [repeat constructor|]. split; [discriminate|]. split; [constructor; [intros []|constructor]|]. constructor; [lia|constructor]. }
  destruct (decomposition_fa _ _ _ _ D) as (fa & E & _). exists fa. split; [exact D|]. split; [exact E|].
  rewrite (synthesis_all _ _ _ _ _ _ D E) by (cbn; lia). cbn [cols rows map largest fold_right Nat.max]. intros X.
  assert (F : at_ (resample_row 2 (resample_row 1 [1; -1])) 0 = 1)
    by exact (f_equal (fun r => match r with Ok a => at_ (hd [] (rows a)) 0 | Raise _ => 0 end) X). revert F.
  rewrite resample_kernel; [|lia|apply nonempty_length; rewrite resample_row_length; lia|lia]. rewrite resample_row_length. cbn [rsum].
  rewrite resample_kernel; [|lia|discriminate|lia]. cbn [length rsum]. unfold rs_kernel. cbn [Nat.min Nat.div Nat.divmod fst rsum at_ nth]. lra.
Qed.

(** ** selecting bands *)
Lemma added_row_length out n bands r o p : length o = out -> length (added_row out n bands r o p) = out.
Proof. intros H. unfold added_row. destruct (band_selected _ _); [|exact H]. rewrite ladd_length; [exact H|]. now rewrite resample_row_length. Qed.
Lemma folded_length out n bands r ps : forall o, length o = out -> length (fold_left (added_row out n bands r) ps o) = out.
Proof. induction ps as [|p ps IH]; intros o H; [exact H|]. cbn. apply IH. now apply added_row_length. Qed.
Lemma split_rows out n a b r ps : (forall p, In p ps -> band_selected (Some a) (fst p) = negb (band_selected (Some b) (fst p))) ->
  forall o o', length o = out -> length o' = out ->
  ladd (fold_left (added_row out n (Some a) r) ps o) (fold_left (added_row out n (Some b) r) ps o') = fold_left (added_row out n None r) ps (ladd o o').
Proof.
  intros H. induction ps as [|p ps IH]; intros o o' L L'; [reflexivity|]. cbn [fold_left].
  rewrite IH; [|intros q Hq; apply H; now right|now apply added_row_length|now apply added_row_length]. f_equal.
  unfold added_row. rewrite (H p (or_introl eq_refl)). change (band_selected None (fst p)) with true. cbv iota. set (y := resample_row out _). assert (Ly : length y = out) by apply resample_row_length.
  assert (A : forall u v, length u = out -> length v = out -> length (ladd u v) = out) by (intros u v U V; rewrite ladd_length; congruence).
  assert (B : forall u v i, length u = out -> length v = out -> at_ (ladd u v) i = at_ u i + at_ v i) by (intros u v i U V; apply ladd_at; congruence).
  destruct (band_selected (Some b) (fst p)); cbn [negb]; apply list_ext_at; try (rewrite !A by auto; reflexivity); intros i _; rewrite !B by auto; ring.
Qed.
(** the bands of two selections that share no band and leave none out add up to the whole *)
Theorem synthesis_split tf x sizes nyq fa out a b : decomposable tf x sizes nyq -> frequency_decomposition tf x sizes = Ok fa -> (0 < out)%nat ->
  a <> [] -> b <> [] -> (forall i, (i < length sizes)%nat -> (In i a <-> ~ In i b)) ->
  exists ya yb, decomposition_synthesize out fa (Some a) = Ok ya /\ decomposition_synthesize out fa (Some b) = Ok yb /\
    decomposition_synthesize out fa None = Ok (arr_op Rplus ya yb).
Proof.
  intros D E Ho Ha Hb H. rewrite !(synth_rows tf x sizes nyq fa out _ D E Ho). eexists. eexists. split; [reflexivity|]. split; [reflexivity|].
  f_equal. unfold arr_op. cbn [cols rows]. f_equal. rewrite combine_map_same, map_map. apply map_ext. intros r. cbn [fst snd]. symmetry.
  change (map2 Rplus) with ladd.
  rewrite (split_rows out (cols x) a b); rewrite ?repeat_length; try reflexivity.
  - f_equal. apply ladd_zeros. apply repeat_length.
  - intros [i p] I. apply in_combine_l in I. apply in_seq in I. cbn [fst]. specialize (H i ltac:(lia)).
    assert (S1 : forall l, l <> [] -> band_selected (Some l) i = existsb (Nat.eqb i) l) by (intros [|? ?]; [contradiction|reflexivity]). rewrite !S1 by assumption.
    assert (S2 : forall l, existsb (Nat.eqb i) l = true <-> In i l).
    { intros l. rewrite existsb_exists. split; [intros (j & I1 & I2); apply Nat.eqb_eq in I2; now subst|]. intros I1. exists i. split; [exact I1|apply Nat.eqb_refl]. }
    destruct (existsb (Nat.eqb i) a) eqn:Ea, (existsb (Nat.eqb i) b) eqn:Eb; try reflexivity; exfalso.
    + apply S2 in Ea, Eb. tauto.
    + assert (~ In i a) by (rewrite <- S2; congruence). assert (~ In i b) by (rewrite <- S2; congruence). tauto.
Qed.
(** an empty selection selects everything *)
Theorem synthesis_none_refuted out fa : decomposition_synthesize out fa (Some []) = decomposition_synthesize out fa None.
Proof.
  unfold decomposition_synthesize. set (acc := mkArr _ _). clearbody acc. generalize 0%nat as i. revert acc. induction (ebands (snd fa)) as [|q l IH]; intros acc i; [reflexivity|].
  cbn [synth_loop band_selected]. destruct (fa_get fa q) as [c|]; [|reflexivity]. cbn [bind]. destruct (resample2 out (fst c)); [|reflexivity]. cbn [bind]. apply IH.
Qed.

(** ** what is refused *)
Lemma resample2_errors num x e : resample2 num x = Raise e -> e = ValueError.
Proof. unfold resample2. destruct (_ || _); congruence. Qed.
Lemma loop_errors nyq n sizes : forall data start e, decompose_loop nyq n sizes data start = Raise e -> e = ValueError.
Proof.
  induction sizes as [|m s IH]; intros data start e; [discriminate|]. cbn [decompose_loop].
  destruct (if Nat.eqb m n then Ok data else resample2 m data) as [b|e1] eqn:E1; cbn [bind].
  2: { intros [= <-]. destruct (Nat.eqb m n); [discriminate|]. now apply resample2_errors in E1. }
  destruct (resample2 n b) as [c|e2] eqn:E2; cbn [bind]; [|intros [= <-]; now apply resample2_errors in E2].
  unfold make_band. destruct (Rleb _ _); cbn [bind]; [congruence|]. destruct (decompose_loop _ _ s _ _) as [r|e3] eqn:E3; cbn [bind]; [discriminate|]. intros [= <-]. now apply IH in E3.
Qed.
Lemma loop_increasing nyq n sizes : (0 < nyq)%Z -> (0 < n)%nat -> forall data prev r, decompose_loop nyq n sizes data (edge nyq n prev) = Ok r ->
  StronglySorted lt sizes /\ Forall (fun m => match prev with None => (0 < m)%nat | Some m' => (m' < m)%nat end) sizes.
Proof.
  intros Hy Hn. assert (Y : 0 < IZR nyq) by (apply (IZR_lt 0); lia). assert (Pn : 0 < / INR n) by (apply Rinv_0_lt_compat, lt_0_INR; lia).
  induction sizes as [|m s IH]; intros data prev r; [split; constructor|]. cbn [decompose_loop].
  destruct (if Nat.eqb m n then Ok data else resample2 m data) as [b|e1]; cbn [bind]; [|discriminate].
  destruct (resample2 n b) as [c|e2]; cbn [bind]; [|discriminate].
  destruct (make_band _ _) as [q|e3] eqn:E3; cbn [bind]; [|discriminate]. destruct (decompose_loop _ _ s _ _) as [r'|e4] eqn:E4; cbn [bind]; [|discriminate]. intros _.
  assert (Lt : edge nyq n prev < edge nyq n (Some m)).
  { unfold make_band in E3. destruct (Rleb _ _) eqn:Er; [discriminate|]. rbool. exact Er. }
  apply (IH _ (Some m)) in E4 as [S1 S2].
  assert (M : match prev with None => (0 < m)%nat | Some m' => (m' < m)%nat end).
  { destruct prev as [m'|]; cbn [edge] in Lt.
    - apply INR_lt. apply Rmult_lt_reg_l in Lt; [|exact Y]. unfold Rdiv in Lt. now apply Rmult_lt_reg_r in Lt.
    - apply INR_lt. cbn [INR]. apply Rmult_lt_reg_r with (/ INR n); [exact Pn|]. apply Rmult_lt_reg_l with (IZR nyq); [exact Y|]. unfold Rdiv in Lt. lra. }
  split; [constructor; [exact S1|exact S2]|]. constructor; [exact M|]. apply Forall_impl with (2 := S2). intros a Ha. destruct prev; lia.
Qed.
Lemma strictly_NoDup l : StronglySorted lt l -> NoDup l.
Proof.
  induction 1 as [|a l S' IH H]; constructor; [|exact IH]. intros I. rewrite Forall_forall in H. specialize (H a I). lia.
Qed.
(** a repeated size and the size zero are refused *)
Theorem decomposition_refuses tf x sizes nyq : sample_rate_known tf nyq -> (0 < cols x)%nat -> ~ NoDup sizes \/ In 0%nat sizes ->
  frequency_decomposition tf x sizes = Raise ValueError.
Proof.
  intros K Hc H. pose proof (known_positive _ _ K) as Y. destruct K as (rate & Er & En). unfold frequency_decomposition. rewrite Er. cbn [bind]. rewrite <- En.
  destruct (decompose_loop nyq (cols x) (isort Nat.leb sizes) x 0) as [r|e] eqn:E; cbn [bind]; [|f_equal; now apply loop_errors in E].
  exfalso. apply (loop_increasing nyq (cols x) _ Y Hc x None r) in E as [S1 S2]. pose proof (isort_perm Nat.leb sizes) as P. destruct H as [H|H].
  - apply H. apply (Permutation_NoDup (Permutation_sym P)). now apply strictly_NoDup.
  - apply (Permutation_in _ P) in H. rewrite Forall_forall in S2. specialize (S2 0%nat H). cbn in S2. lia.
Qed.
Theorem decomposition_no_sizes tf x nyq : sample_rate_known tf nyq -> frequency_decomposition tf x [] = Raise IndexError.
Proof. intros (rate & Er & _). unfold frequency_decomposition. rewrite Er. reflexivity. Qed.
(** only the sample rates zounds knows can be decomposed *)
Theorem decomposition_rates tf x sizes fa : frequency_decomposition tf x sizes = Ok fa -> exists nyq, sample_rate_known tf nyq.
Proof.
  unfold frequency_decomposition. destruct (audio_sample_rate _) as [rate|] eqn:E; [|discriminate]. intros _. now exists (rate_sps rate / 2)%Z, rate.
Qed.

(** two rows of four samples, decomposed into sizes 4 and 2 *)
Definition demo_rows : arr2 R := mkArr 4 [[1; 2; 3; 4]; [0; 0; 1; 0]].
Example demo_decomposable : decomposable (10 ^ 12 / 44100) demo_rows [4; 2]%nat 22050.
Proof.
  split; [exists 44100%Z; split; vm_compute; reflexivity|]. split; [cbn; lia|]. split; [repeat constructor|]. split; [discriminate|].
  split; [constructor; [intros [H|[]]; discriminate|constructor; [intros []|constructor]]|]. constructor; [lia|constructor; [lia|constructor]].
Qed.
Example demo_exact : exists fa, frequency_decomposition (10 ^ 12 / 44100) demo_rows [4; 2]%nat = Ok fa /\ decomposition_synthesize 4 fa None = Ok demo_rows /\
  map bstop (ebands (snd fa)) = [11025; 22050].
Proof.
  destruct (decomposition_fa _ _ _ _ demo_decomposable) as (fa & E & _ & _ & _ & Eb & _). exists fa. split; [exact E|]. split.
  - apply (synthesis_exact _ demo_rows _ _ _ demo_decomposable E). exists 4%nat. split; [now left|cbn; lia].
  - rewrite Eb. unfold spec_bands. cbn. f_equal; [lra|f_equal; lra].
Qed.
