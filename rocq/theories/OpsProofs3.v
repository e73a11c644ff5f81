(** Proofs about Ops.v: dot with matrices, bit packing, concatenation, zeros. *)
From Verif Require Import PyBase PyFacts PyMore Time Freq FreqDim Axis AxisProofs Ops OpsProofs OpsProofs2.
From Coq Require Import Reals Lra.
Local Open Scope nat_scope.

(** an axis with a frequency scale of another size is refused *)
Lemma fit_dims_freq ds : forall sh k sc n, length ds = length sh -> nth_error ds k = Some (DFreq sc) -> nth_error sh k = Some n -> scale_len sc <> n ->
  fit_dims ds sh = Raise ValueError.
Proof.
  induction ds as [|d ds IH]; intros [|m sh] k sc n L Hd Hs Ne; try discriminate L; [destruct k; discriminate Hd|].
  cbn [fit_dims]. destruct k as [|k].
  - cbn in Hd, Hs. injection Hd as ->. injection Hs as ->. cbn [fit_dim]. unfold fdim_validate.
    destruct (Nat.eqb_spec n (scale_len sc)); [congruence|reflexivity].
  - assert (F : forall e, fit_dim d m = Raise e -> e = ValueError).
    { intros e. destruct d; cbn; try discriminate. unfold fdim_validate. destruct (_ =? _); [discriminate|]. intros [= <-]. reflexivity. }
    destruct (fit_dim d m) as [e|e] eqn:E; [|rewrite (F e eq_refl); reflexivity]. cbn [bind].
    rewrite (IH sh k sc n); [reflexivity|simpl in L; lia|exact Hd|exact Hs|exact Ne].
Qed.
Lemma awu_new_freq x ds k sc n : nth_error ds k = Some (DFreq sc) -> nth_error (nd_shape x) k = Some n -> scale_len sc <> n ->
  awu_new nd_shape x ds = Raise ValueError.
Proof.
  intros H1 H2 H3. unfold awu_new. destruct (Nat.eqb_spec (length (nd_shape x)) (length ds)) as [E|]; [|reflexivity].
  rewrite (fit_dims_freq ds (nd_shape x) k sc n); [reflexivity|congruence|assumption|assumption|assumption].
Qed.

(** with a matrix the last axis of the result is given the dimension of the axis that
    was contracted away: an error when that is a frequency scale of another size ... *)
Theorem dot_matrix_frequency_refuted a d sc r n c y : dims a = [d; DFreq sc] -> nd_shape (data a) = [r; n] -> scale_len sc = n ->
  nd_shape y = [n; c] -> c <> n -> awu_dot Plain a y = Raise ValueError.
Proof.
  intros D S L Sy Ne. unfold awu_dot, np_dot. rewrite S, Sy. cbn [rev app]. rewrite Nat.eqb_refl. cbn [bind length app].
  rewrite (awu_new_freq _ _ 1 sc c); [reflexivity|rewrite D; reflexivity|reflexivity|congruence].
Qed.
(** ... and a wrong label when it is time: the [c] sums over all samples are called
    samples [t_freq t] apart *)
Theorem dot_matrix_time_refuted a t n c y : dims a = [DTime t] -> norm_dim (DTime t) -> nd_shape (data a) = [n] -> nd_shape y = [n; c] ->
  exists s u, awu_dot Plain a y = Ok (PUnits Plain s) /\ nd_shape (data s) = [c] /\ dims s = [DTime u] /\
    t_freq u = t_freq t /\ t_dur u = t_dur t /\ t_size u = Some (Z.of_nat c) /\
    forall j, j < c -> nd_at (data s) [j] = total (map (fun k => nd_at (data a) [k] * nd_at y [k; j])%R (seq 0 n)).
Proof.
  intros D N S Sy. unfold awu_dot, np_dot. rewrite S, Sy. cbn [rev app]. rewrite Nat.eqb_refl. cbn [bind length app].
  rewrite D. unfold ndim, awu_new. cbn [nd_shape nd_build length firstn Nat.eqb fit_dims fit_dim bind].
  eexists; eexists. split; [reflexivity|]. split; [reflexivity|]. split; [reflexivity|]. cbn [t_freq t_dur t_size mk_timedim].
  split; [reflexivity|]. split; [cbn in N; destruct (Z.eqb_spec (t_dur t) 0); [destruct N; congruence|reflexivity]|]. split; [reflexivity|].
  intros j Hj. cbn [data]. change (nd_at (nd_build [c] ?f) [j]) with (nd_at (nd_build [c] f) [j]). rewrite nd_at_build by (repeat constructor; exact Hj). reflexivity.
Qed.
(** AudioSamples.dot never returns *)
Theorem dot_audio_refuted a y : exists e, awu_dot Audio a y = Raise e.
Proof.
  unfold awu_dot. destruct (np_dot (data a) y) as [r|e]; [|eexists; reflexivity]. cbn [bind].
  destruct (ndim r) as [|[|[|]]]; eexists; reflexivity.
Qed.
Theorem dot_sizes c a n m y hd lead tl : nd_shape (data a) = hd ++ [n] -> nd_shape y = lead ++ m :: tl -> length tl <= 1 -> (tl = [] -> lead = []) -> n <> m -> awu_dot c a y = Raise ValueError.
Proof.
  intros S Sy L Lt Ne. unfold awu_dot, np_dot. rewrite S, rev_app_distr, Sy, rev_app_distr. cbn [rev app].
  destruct tl as [|c0 [|]]; cbn [length] in L; [|cbn [rev app]|lia].
  - rewrite (Lt eq_refl). cbn [rev app]. destruct (Nat.eqb_spec n m); [contradiction|]. reflexivity.
  - destruct (Nat.eqb_spec n m); [contradiction|]. reflexivity.
Qed.
(** with an array of more than two axes there are more axes than dimensions *)
Theorem dot_many_axes_refuted a hd n y p q lead : length (dims a) = ndim (data a) -> nd_shape (data a) = hd ++ [n] -> nd_shape y = p :: lead ++ [n; q] ->
  awu_dot Plain a y = Raise ValueError /\
  exists r, np_dot (data a) y = Ok r /\ nd_shape r = hd ++ (p :: lead) ++ [q] /\
    forall ix l jx j, in_shape hd ix -> l < p -> in_shape lead jx -> j < q ->
      nd_at r (ix ++ (l :: jx) ++ [j]) = total (map (fun k => nd_at (data a) (ix ++ [k]) * nd_at y ((l :: jx) ++ [k; j]))%R (seq 0 n)).
Proof.
  intros Ld Sa Sy. assert (E : rev (nd_shape y) = q :: n :: rev (p :: lead)).
  { rewrite Sy. change (p :: lead ++ [n; q]) with ((p :: lead) ++ [n; q]). rewrite rev_app_distr. reflexivity. }
  unfold awu_dot, np_dot. rewrite Sa, rev_app_distr, E. cbn [rev app]. rewrite Nat.eqb_refl. rewrite rev_involutive, rev_app_distr. cbn [rev app]. rewrite rev_involutive. cbn [bind]. split.
  - unfold awu_new, ndim. cbn [nd_shape nd_build]. rewrite firstn_length, Ld. unfold ndim. rewrite Sa, !app_length. cbn [length]. rewrite app_length. cbn [length].
    destruct (Nat.eqb_spec (length hd + S (length lead + 1)) (Nat.min (length hd + S (length lead + 1)) (length hd + 1))) as [X|]; [lia|reflexivity].
  - eexists. split; [reflexivity|]. split; [reflexivity|]. intros ix l jx j I Il J Jl.
    rewrite app_length, rev_length, rev_length. cbn [length].
    assert (K : in_shape (hd ++ (p :: lead) ++ [q]) (ix ++ (l :: jx) ++ [j])).
    { apply Forall2_app; [exact I|]. apply Forall2_app; [constructor; [exact Il|exact J]|constructor; [exact Jl|constructor]]. }
    rewrite nd_at_build by exact K. cbv zeta. rewrite <- (in_shape_length _ _ I), <- (in_shape_length _ _ J).
    rewrite firstn_app, Nat.sub_diag, firstn_O, firstn_all, app_nil_r, skipn_app, Nat.sub_diag, skipn_all. cbn [skipn app].
    replace (length jx + 1) with (S (length jx)) by lia. f_equal. apply map_ext. intros k. do 2 f_equal. cbn [firstn nth app]. f_equal.
    rewrite firstn_app, Nat.sub_diag, firstn_O, firstn_all, app_nil_r. rewrite nth_middle. reflexivity.
Qed.
(** with an array without axes: every entry is multiplied and keeps its units *)
Theorem dot_number a y : well_formed nd_shape a -> nd_shape y = [] -> 
  exists s, awu_dot Plain a y = Ok (PUnits Plain s) /\ dims s = dims a /\ nd_shape (data s) = nd_shape (data a) /\
    forall ix, in_shape (nd_shape (data a)) ix -> nd_at (data s) ix = (nd_at (data a) ix * nd_at y [])%R.
Proof.
  intros [C N] Sy. destruct y as [shy fy]. cbn [nd_shape] in Sy. subst shy.
  assert (E : np_dot (data a) (mkNda [] fy) = Ok (nd_build (nd_shape (data a)) (fun ix => (nd_at (data a) (bc_index (nd_shape (data a)) ix) * nd_at (mkNda [] fy) (bc_index [] ix))%R))).
  { transitivity (np_binary Rmult (data a) (mkNda [] fy)); [unfold np_dot; cbn [nd_shape rev]; destruct (rev (nd_shape (data a))); reflexivity|].
    unfold np_binary. cbn [nd_shape]. rewrite broadcast_scalar. reflexivity. }
  unfold awu_dot. rewrite E. cbn [bind]. unfold ndim. cbn [nd_shape nd_build]. rewrite <- (Forall2_len _ _ _ C), firstn_all. rewrite awu_new_same by assumption. cbn [bind].
  eexists. split; [reflexivity|]. split; [reflexivity|]. split; [reflexivity|]. intros ix I. cbn [data]. rewrite nd_at_build by exact I. rewrite bc_index_same by exact I. rewrite bc_index_scalar. reflexivity.
Qed.

Example dot_cases : 
  awu_dot Plain (mkAwu (mkNda [1; 2] [1; 2]%R) [DIdent; DIdent]) (mkNda [2; 2; 1] [1; 0; 0; 1]%R) = Raise ValueError /\
  exists r, np_dot (mkNda [1; 2] [1; 2]%R) (mkNda [2; 2; 1] [1; 0; 0; 1]%R) = Ok r /\ nd_shape r = [1; 2; 1] /\ nd_at r [0; 0; 0] = 1%R /\ nd_at r [0; 1; 0] = 2%R.
Proof. split; [reflexivity|]. eexists. split; [reflexivity|]. split; [reflexivity|]. unfold nd_at. cbn. split; lra. Qed.

(** ** packbits *)
Lemma byte_of_bits bits : byte_of bits = total (map (fun b => if (bits b : bool) then 2 ^ (7 - b) else 0)%R (seq 0 8)).
Proof.
  unfold byte_of, total. cbn [seq fold_left map fold_right].
  replace (7 - 0) with 7 by lia. replace (7 - 1) with 6 by lia. replace (7 - 2) with 5 by lia. replace (7 - 3) with 4 by lia.
  replace (7 - 4) with 3 by lia. replace (7 - 5) with 2 by lia. replace (7 - 6) with 1 by lia. replace (7 - 7) with 0 by lia.
  destruct (bits 0), (bits 1), (bits 2), (bits 3), (bits 4), (bits 5), (bits 6), (bits 7); cbn; lra.
Qed.
Lemma packed_axis sh k : k < length sh ->
  map (fun p => if fst p =? k then bytes_for (snd p) else snd p) (combine (seq 0 (length sh)) sh) = set_nth k (bytes_for (nth k sh 0)) sh.
Proof.
  intros H. assert (G : forall s l, map (fun p => if fst p =? s + k then bytes_for (snd p) else snd p) (combine (seq s (length l)) l)
     = if k <? length l then set_nth k (bytes_for (nth k l 0)) l else l).
  { clear. revert k. induction k as [|k IH]; intros s l.
    - destruct l as [|x l]; [reflexivity|]. cbn [length seq combine map fst snd]. rewrite Nat.add_0_r, Nat.eqb_refl. cbn [set_nth firstn skipn app nth].
      change (0 <? S (length l)) with true. cbn iota. unfold set_nth. cbn [firstn skipn app]. f_equal.
      assert (Q : forall l s', s < s' -> map (fun p => if fst p =? s then bytes_for (snd p) else snd p) (combine (seq s' (length l)) l) = l).
      { clear. induction l as [|y l IH]; intros s' Hs; [reflexivity|]. cbn [length seq combine map fst snd]. destruct (Nat.eqb_spec s' s); [lia|]. rewrite IH by lia. reflexivity. }
      apply Q. lia.
    - destruct l as [|x l]; [reflexivity|]. cbn [length seq combine map fst snd]. destruct (Nat.eqb_spec s (s + S k)); [lia|].
      replace (s + S k) with (S s + k) by lia. rewrite IH. change (S k <? S (length l)) with (k <? length l).
      destruct (k <? length l); reflexivity. }
  specialize (G 0 sh). cbn [Nat.add] in G. rewrite G. destruct (Nat.ltb_spec k (length sh)); [reflexivity|lia].
Qed.
Lemma nth_error_set_nth k v (l : list nat) i : k < length l -> nth_error (set_nth k v l) i = if i =? k then Some v else nth_error l i.
Proof.
  unfold set_nth. revert l i. induction k as [|k IH]; intros [|x l] i H; cbn in H; try lia.
  - destruct i; reflexivity.
  - destruct i as [|i]; [reflexivity|]. cbn [firstn skipn app nth_error]. apply IH. lia.
Qed.
Lemma set_nth_F2 {A} (R : A -> nat -> Prop) k v ds sh d : Forall2 R ds sh -> nth_error ds k = Some d -> R d v -> Forall2 R ds (set_nth k v sh).
Proof.
  intros F. revert k. induction F as [|x n ds sh H F IH]; intros [|k] Hd Hv; cbn in Hd; try discriminate Hd.
  - injection Hd as ->. constructor; assumption.
  - unfold set_nth. cbn [firstn skipn app]. constructor; [assumption|]. apply (IH k Hd Hv).
Qed.
(** eight entries along the axis become one, its bits most significant first; an axis
    without units keeps everything else in place *)
Theorem packbits_axis a k n : well_formed nd_shape a -> nth_error (dims a) k = Some DIdent -> nth_error (nd_shape (data a)) k = Some n ->
  exists s, packbits a (Some k) = Ok s /\ dims s = dims a /\ well_formed nd_shape s /\
    (forall i, nth_error (nd_shape (data s)) i = if i =? k then Some ((n + 7) / 8) else nth_error (nd_shape (data a)) i) /\
    forall ix, in_shape (nd_shape (data s)) ix -> nd_at (data s) ix =
      total (map (fun b => let i := 8 * nth k ix 0 + b in
        if i <? n then (if Req_EM_T (nd_at (data a) (firstn k ix ++ i :: skipn (S k) ix)) 0 then 0%R else (2 ^ (7 - b))%R) else 0%R) (seq 0 8)).
Proof.
  intros [C N] Hd Hn. assert (Lk : k < length (nd_shape (data a))) by (apply nth_error_Some; congruence).
  pose proof (nth_error_nth _ _ 0 Hn) as En.
  unfold packbits, np_packbits, np_packbits_shape. destruct (Nat.ltb_spec k (length (nd_shape (data a)))); [|lia]. cbn [bind].
  rewrite packed_axis by exact Lk. rewrite En.
  assert (C' : consistent (set_nth k (bytes_for n) (nd_shape (data a))) (dims a)) by (eapply set_nth_F2; [exact C|exact Hd|exact I]).
  rewrite awu_new_same by assumption. eexists. split; [reflexivity|]. split; [reflexivity|]. split; [split; assumption|]. cbn [data nd_shape nd_build].
  split; [intros i; apply nth_error_set_nth; exact Lk|].
  intros ix I. rewrite nd_at_build by exact I. rewrite byte_of_bits. f_equal. apply map_ext. intros b. cbv zeta. unfold set_nth.
  destruct (8 * nth k ix 0 + b <? n); [|reflexivity]. cbn [andb]. destruct (Req_EM_T _ 0); reflexivity.
Qed.
(** a frequency scale of two bands or more makes it an error ... *)
Theorem packbits_frequency_refuted a k sc : well_formed nd_shape a -> nth_error (dims a) k = Some (DFreq sc) -> 2 <= scale_len sc ->
  packbits a (Some k) = Raise ValueError.
Proof.
  intros [C N] Hd Hs.
  assert (Hn : nth_error (nd_shape (data a)) k = Some (scale_len sc)).
  { clear N. unfold consistent in C. revert k Hd. induction C as [|d n ds sh H C IH]; intros [|k] Hd; cbn in Hd; try discriminate Hd; [|apply IH; exact Hd].
    injection Hd as ->. cbn in H. subst n. reflexivity. }
  assert (Lk : k < length (nd_shape (data a))) by (apply nth_error_Some; congruence).
  unfold packbits, np_packbits, np_packbits_shape. destruct (Nat.ltb_spec k (length (nd_shape (data a)))); [|lia]. cbn [bind].
  rewrite packed_axis by exact Lk. rewrite (nth_error_nth _ _ 0 Hn).
  apply (awu_new_freq _ _ k sc (bytes_for (scale_len sc)) Hd); [cbn [nd_shape nd_build]; rewrite nth_error_set_nth by exact Lk; rewrite Nat.eqb_refl; reflexivity|].
  intros E. unfold bytes_for in E. pose proof (Nat.div_lt_upper_bound (scale_len sc + 7) 8 (scale_len sc)) as B. lia.
Qed.
(** ... a time axis keeps its frequency, so the packed signal claims an eighth of the
    duration ... *)
Theorem packbits_time_refuted fl n t : (t_freq t <> 0)%Z -> t_dur t = t_freq t -> t_size t = Some (Z.of_nat n) ->
  exists s u, packbits (mkAwu (mkNda [n] fl) [DTime t]) (Some 0) = Ok s /\ dims s = [DTime u] /\ t_freq u = t_freq t /\
    t_span t = Ok (Z.of_nat n * t_freq t)%Z /\ t_span u = Ok (Z.of_nat ((n + 7) / 8) * t_freq t)%Z.
Proof.
  intros F0 D Sz. eexists; eexists. split; [reflexivity|]. split; [reflexivity|]. unfold t_span. cbn [t_freq t_dur t_size mk_timedim].
  rewrite D, Sz. destruct (Z.eqb_spec (t_freq t) 0); [contradiction|].
  split; [reflexivity|]. split; f_equal; unfold bytes_for; cbn [fst snd Nat.eqb]; ring.
Qed.
(** ... and without an axis only arrays of one axis can be packed *)
Theorem packbits_flat_refuted a : ndim (data a) <> 1 -> length (dims a) = ndim (data a) -> packbits a None = Raise ValueError.
Proof.
  intros H L. unfold packbits, np_packbits, np_packbits_shape. cbn [bind]. apply awu_new_mismatch. cbn [nd_shape nd_build length]. lia.
Qed.

(** ** zeros_like and concatenate *)
Theorem zeros_like_plain a : well_formed nd_shape a ->
  exists x, zeros_like Plain a = Ok (PUnits Plain (mkAwu x (dims a))) /\ nd_shape x = nd_shape (data a) /\ well_formed nd_shape (mkAwu x (dims a)) /\
    forall ix, in_shape (nd_shape x) ix -> nd_at x ix = 0%R.
Proof.
  intros [C N]. unfold zeros_like, from_example. rewrite awu_new_same by assumption. cbn [bind]. eexists. split; [reflexivity|]. split; [reflexivity|].
  split; [split; assumption|]. intros ix I. apply nd_at_build. exact I.
Qed.
Theorem zeros_like_audio x rate a : In rate standard_rates -> ndim x = 1 \/ ndim x = 2 -> audio_new x rate = Ok a ->
  exists s, zeros_like Audio a = Ok (PUnits Audio s) /\ samplerate s = Ok rate /\ nd_shape (data s) = nd_shape x /\
    forall ix, in_shape (nd_shape x) ix -> nd_at (data s) ix = 0%R.
Proof.
  intros Hr Hd Ha. destruct (audio_new_spec x rate Hr Hd) as (a' & t & Ea & Da & _ & _ & _ & _ & _ & W & Sa). rewrite Ha in Ea. injection Ea as <-.
  unfold zeros_like, from_example. rewrite Sa, Da. cbn [bind].
  destruct (audio_new_spec (nd_build (nd_shape x) (fun _ => 0%R)) rate Hr Hd) as (b & u & Eb & Db & _ & _ & _ & _ & _ & Wb & Sb).
  rewrite Eb. cbn [bind]. exists b. split; [reflexivity|]. split; [exact Sb|]. rewrite Db. split; [reflexivity|].
  intros ix I. apply nd_at_build. exact I.
Qed.
Lemma nat_list_eqb_refl l : nat_list_eqb l l = true.
Proof. unfold nat_list_eqb. destruct (list_eq_dec Nat.eq_dec l l); congruence. Qed.
(** the entries of two arrays one after the other along the first axis *)
Lemma np_cat_spec x y m n sh : wf_nda x -> nd_shape x = m :: sh -> nd_shape y = n :: sh ->
  exists z, np_cat x y = Ok z /\ nd_shape z = (m + n) :: sh /\ nd_flat z = nd_flat x ++ nd_flat y /\
    forall i ix, in_shape sh ix -> (i < m -> nd_at z (i :: ix) = nd_at x (i :: ix)) /\ (m <= i -> nd_at z (i :: ix) = nd_at y (i - m :: ix)).
Proof.
  intros W Sx Sy. unfold np_cat. rewrite Sx, Sy, nat_list_eqb_refl. eexists. split; [reflexivity|]. cbn [nd_shape nd_flat].
  split; [reflexivity|]. split; [reflexivity|]. unfold wf_nda in W. rewrite Sx, np_size_cons in W.
  intros i ix I. pose proof (ravel_bound _ _ I) as B. unfold nd_at. cbn [nd_shape nd_flat]. rewrite Sx, Sy. cbn [ravel]. split; intros H.
  - apply app_nth1. rewrite W. nia.
  - rewrite app_nth2 by (rewrite W; nia). f_equal. rewrite W. nia.
Qed.
Theorem concatenate_plain a b m n sh d ds : well_formed nd_shape a -> wf_nda (data a) -> dims a = d :: ds -> (forall s, d <> DFreq s) ->
  nd_shape (data a) = m :: sh -> nd_shape (data b) = n :: sh -> dims_eq (dims a) (dims b) = Ok true ->
  exists s, concatenate Plain a b = Ok (PUnits Plain s) /\ well_formed nd_shape s /\ nd_shape (data s) = (m + n) :: sh /\
    Forall2 same_dim (dims s) (dims a) /\
    forall i ix, in_shape sh ix -> (i < m -> nd_at (data s) (i :: ix) = nd_at (data a) (i :: ix)) /\
      (m <= i -> nd_at (data s) (i :: ix) = nd_at (data b) (i - m :: ix)).
Proof.
  intros [C N] W D Nf Sa Sb E. unfold concatenate. rewrite E. cbn [bind].
  destruct (np_cat_spec (data a) (data b) m n sh W Sa Sb) as (z & Ez & Sz & _ & V). rewrite Ez. cbn [bind from_example].
  pose proof (Forall2_len _ _ _ C) as L. rewrite Sa in L. cbn in L.
  assert (C' : forall i s k, nth_error (dims a) i = Some (DFreq s) -> nth_error (nd_shape z) i = Some k -> scale_len s = k).
  { intros i s k H1 H2. rewrite Sz in H2. rewrite D in H1. destruct i as [|i]; [cbn in H1; injection H1 as H1; elim (Nf s H1)|]. cbn in H1, H2.
    unfold consistent in C. rewrite D, Sa in C. inversion C as [|? ? ? ? _ C1]; subst. clear - C1 H1 H2. revert i H1 H2.
    induction C1 as [|x p ds sh Hx C1 IH]; intros [|i] H1 H2; cbn in H1, H2; try discriminate H1; [|apply (IH i H1 H2)].
    injection H1 as ->. injection H2 as <-. exact Hx. }
  destruct (awu_new_ok nd_shape z (dims a)) as [s Es]; [rewrite Sz; cbn; lia|exact C'|]. rewrite Es. cbn [bind].
  destruct (awu_new_spec nd_shape z (dims a) s N Es) as (Dz & _ & Ws & Sd).
  exists s. split; [reflexivity|]. split; [exact Ws|]. rewrite Dz. split; [exact Sz|]. split; [exact Sd|exact V].
Qed.
Theorem concatenate_audio x y m n sh rate a b : In rate standard_rates -> ndim x = 1 \/ ndim x = 2 -> wf_nda x ->
  nd_shape x = m :: sh -> nd_shape y = n :: sh -> audio_new x rate = Ok a -> audio_new y rate = Ok b ->
  exists s, concatenate Audio a b = Ok (PUnits Audio s) /\ samplerate s = Ok rate /\ nd_shape (data s) = (m + n) :: sh /\
    forall i ix, in_shape sh ix -> (i < m -> nd_at (data s) (i :: ix) = nd_at x (i :: ix)) /\
      (m <= i -> nd_at (data s) (i :: ix) = nd_at y (i - m :: ix)).
Proof.
  intros Hr Hd Wx Sx Sy Ha Hb.
  destruct (audio_new_spec x rate Hr Hd) as (a' & t & Ea & Da & Ht & Tl & Tf & Td & _ & W & Sa). rewrite Ha in Ea. injection Ea as <-.
  assert (Hd' : ndim y = 1 \/ ndim y = 2) by (unfold ndim in *; rewrite Sy; rewrite Sx in Hd; exact Hd).
  destruct (audio_new_spec y rate Hr Hd') as (b' & u & Eb & Db & Hu & Ul & Uf & Ud & _ & Wb & Sb). rewrite Hb in Eb. injection Eb as <-.
  assert (Nd : ndim y = ndim x) by (unfold ndim; rewrite Sx, Sy; reflexivity).
  unfold concatenate.
  assert (E : dims_eq (dims a) (dims b) = Ok true).
  { destruct (dims a) as [|d ds]; [discriminate Ht|]. destruct (dims b) as [|e es]; [discriminate Hu|]. cbn in Ht, Hu, Tl, Ul. injection Ht as ->. injection Hu as ->.
    cbn [dims_eq dim_eq bind]. rewrite Tf, Td, Uf, Ud, !Z.eqb_refl. cbn [andb]. rewrite Nd in Ul. rewrite Tl, Ul. destruct (ndim x =? 2); reflexivity. }
  rewrite E. cbn [bind]. rewrite Da, Db. destruct (np_cat_spec x y m n sh Wx Sx Sy) as (z & Ez & Sz & _ & V). rewrite Ez. cbn [bind from_example]. rewrite Sa. cbn [bind].
  destruct (audio_new_spec z rate Hr) as (s & v & Es & Ds & _ & _ & _ & _ & _ & Ws & Ss); [unfold ndim in *; rewrite Sz; rewrite Sx in Hd; exact Hd|].
  rewrite Es. cbn [bind]. exists s. split; [reflexivity|]. split; [exact Ss|]. rewrite Ds. split; [exact Sz|exact V].
Qed.
Theorem concatenate_different c a b : dims_eq (dims a) (dims b) = Ok false -> concatenate c a b = Raise ValueError.
Proof. intros E. unfold concatenate. rewrite E. reflexivity. Qed.
(** arrays whose first axis is a frequency scale cannot be concatenated *)
Theorem concatenate_frequency_refuted a b m n sh sc ds : dims a = DFreq sc :: ds -> well_formed nd_shape a ->
  nd_shape (data a) = m :: sh -> nd_shape (data b) = n :: sh -> 0 < n -> dims_eq (dims a) (dims b) = Ok true ->
  concatenate Plain a b = Raise ValueError.
Proof.
  intros D [C N] Sa Sb Hn E. unfold concatenate. rewrite E. cbn [bind]. unfold np_cat. rewrite Sa, Sb, nat_list_eqb_refl. cbn [bind from_example].
  rewrite (awu_new_freq _ _ 0 sc (m + n)); [reflexivity|rewrite D; reflexivity|reflexivity|].
  unfold consistent in C. rewrite D, Sa in C. inversion C as [|? ? ? ? Hs _]; subst. cbn in Hs. lia.
Qed.
