(** Proofs about Ops.v: indexing and assigning to audio signals. *)
From Verif Require Import PyBase PyFacts PyMore Time TimeProofs Freq FreqDim Axis AxisProofs Ops OpsProofs OpsProofs2 OpsProofs3 OpsProofs4.
From Coq Require Import Reals Lra Sorting.Sorted.
Local Open Scope nat_scope.

Definition is_slice (x : aix) : bool := match x with XSl _ _ _ | XTime _ _ | XTimes _ _ => true | _ => false end.
Lemma one_sample_pos rate : In rate standard_rates -> (0 < one_sample rate)%Z.
Proof. intros H. cbn [standard_rates In] in H. repeat (destruct H as [<-|H]; [reflexivity|]). destruct H. Qed.
(** the array and dimensions of AudioSamples(x, rate) *)
Lemma audio_form x rate a n sh : In rate standard_rates -> nd_shape x = n :: sh -> length sh <= 1 -> audio_new x rate = Ok a ->
  a = mkAwu x (DTime {| t_freq := one_sample rate; t_dur := one_sample rate; t_size := Some (Z.of_nat n) |} :: map (fun _ => DIdent) sh).
Proof.
  intros Hr S L H. destruct (audio_new_spec x rate Hr) as (a' & t & Ea & Da & Ht & Tl & F & D & Sz & _ & _).
  { unfold ndim. rewrite S. cbn. destruct sh as [|? [|]]; cbn in *; lia. }
  rewrite H in Ea. injection Ea as <-. destruct a as [y ds]. cbn [data dims] in *. subst y. f_equal.
  destruct ds as [|d ds]; [discriminate|]. injection Ht as ->. cbn [tl] in Tl. subst ds.
  destruct t as [f d s]. cbn in F, D, Sz. subst. unfold ndim. rewrite S. cbn [hd].
  f_equal. destruct sh as [|? [|]]; cbn in *; try reflexivity; lia.
Qed.
Lemma audio_new_ok x rate n sh : In rate standard_rates -> nd_shape x = n :: sh -> length sh <= 1 ->
  exists a, audio_new x rate = Ok a /\ samplerate a = Ok rate.
Proof.
  intros Hr S L. destruct (audio_new_spec x rate Hr) as (a' & t & Ea & _ & _ & _ & _ & _ & _ & _ & Sr).
  { unfold ndim. rewrite S. cbn. destruct sh as [|? [|]]; cbn in *; lia. }
  exists a'. auto.
Qed.
Lemma dims_eq_refl_audio f n n' sh : dims_eq (DTime {| t_freq := f; t_dur := f; t_size := n |} :: map (fun _ => DIdent) (sh : list nat))
  (DTime {| t_freq := f; t_dur := f; t_size := n' |} :: map (fun _ => DIdent) sh) = Ok true.
Proof.
  cbn [dims_eq dim_eq t_freq t_dur bind]. rewrite Z.eqb_refl. cbn [andb]. induction sh as [|m sh IH]; [reflexivity|]. cbn [map dims_eq dim_eq bind]. exact IH.
Qed.
Lemma source_full sh : forall jx, in_shape sh jx -> sel_source (map full sh) jx = jx.
Proof.
  induction sh as [|n sh IH]; intros jx I; inversion I as [|j ? jx' ? Hj Hr]; subst; [reflexivity|].
  cbn [map sel_source full hd tl]. rewrite seq_nth by exact Hj. cbn [Nat.add]. f_equal. apply IH. exact Hr.
Qed.
Lemma shape_full sh : sel_shape (map full sh) = sh.
Proof. induction sh as [|n sh IH]; [reflexivity|]. cbn [map sel_shape full]. rewrite seq_length, IH. reflexivity. Qed.
(** slicing the first axis *)
Lemma audio_slice x rate a n sh e lo hi st : In rate standard_rates -> nd_shape x = n :: sh -> length sh <= 1 -> audio_new x rate = Ok a ->
  is_slice e = true -> compute_indices (dims a) [e] = Ok [NSl lo hi st] -> (st <> 0)%Z ->
  let pos := map Z.to_nat (slice_positions (Z.of_nat n) lo hi st) in
  exists s, audio_getitem a (IxOne e) = Ok (PUnits Audio s) /\ samplerate s = Ok rate /\ nd_shape (data s) = length pos :: sh /\
    forall j ix, j < length pos -> in_shape sh ix -> nd_at (data s) (j :: ix) = nd_at x (nth j pos 0 :: ix).
Proof.
  intros Hr Hs L Ha He Hc Hst pos. pose proof (one_sample_pos rate Hr) as Po.
  rewrite (audio_form _ _ _ _ _ Hr Hs L Ha) in *. set (t := {| t_freq := _ |}) in *. cbn [dims data] in *.
  set (a0 := mkAwu x _) in *.
  assert (G : getitem_py a0 (IxOne e) = Ok (PUnits Plain (mkAwu (nd_build (length pos :: sh) (fun jx => nd_at x (nth (hd 0 jx) pos 0 :: tl jx)))
    (DTime {| t_freq := one_sample rate; t_dur := one_sample rate; t_size := Some (Z.of_nat (length pos)) |} :: map (fun _ => DIdent) sh)))).
  { assert (G1 : getitem nd_shape np_getitem a0 [e] = Ok (mkAwu (nd_build (length pos :: sh) (fun jx => nd_at x (nth (hd 0 jx) pos 0 :: tl jx)))
      (DTime {| t_freq := one_sample rate; t_dur := one_sample rate; t_size := Some (Z.of_nat (length pos)) |} :: map (fun _ => DIdent) sh))).
    { unfold getitem. cbn [dims data a0]. rewrite Hc. cbn [bind]. unfold np_getitem, selectors. rewrite Hs.
      cbn [count filter is_nell length Nat.ltb Nat.leb sels]. destruct (Z.eqb_spec st 0); [contradiction|]. cbn [bind]. fold pos.
      cbn [sel_shape]. rewrite shape_full.
      rewrite (build_ext _ _ (fun jx => nd_at x (nth (hd 0 jx) pos 0 :: tl jx))).
      2:{ intros jx I. inversion I as [|j ? jx' ? Hj Hr']; subst. cbn [sel_source hd tl]. rewrite source_full by exact Hr'. reflexivity. }
      cbn [nd_shape nd_build]. unfold new_dims. 
      assert (N : new_dims_from (DTime t :: map (fun _ => DIdent) sh) (Zlen (DTime t :: map (fun _ : nat => DIdent) sh) - Z.of_nat (count consumes [e])) (length pos :: sh) 0 0 [e] =
        Ok (DTime (metaslice t (Z.of_nat (length pos))) :: map (fun _ => DIdent) sh)).
      { destruct e; try discriminate He; cbn [new_dims_from]; unfold metaslice_or_dim;
          change (py_get (DTime t :: map (fun _ : nat => DIdent) sh) 0) with (Ok (DTime t)); cbn [bind];
          change (py_get (length pos :: sh) 0) with (Ok (length pos)); cbn [bind dim_metaslice];
          unfold py_slice; cbn [Z.add]; destruct sh as [|? [|]]; try (cbn in L; lia); reflexivity. }
      rewrite N. cbn [bind]. unfold awu_new. cbn [nd_shape length]. rewrite map_length, Nat.eqb_refl.
      cbn [fit_dims fit_dim]. unfold metaslice, mk_timedim. cbn [t_freq t_dur t_size t bind].
      destruct (Z.eqb_spec (one_sample rate) 0); [lia|]. destruct (Z.eqb_spec (one_sample rate) 0); [lia|].
      destruct sh as [|? [|]]; cbn in L; try lia; reflexivity. }
    destruct e; try discriminate He; cbn [getitem_py tuplify bind]; rewrite G1; reflexivity. }
  unfold audio_getitem. rewrite G. cbn [bind dims data a0].
  pose proof (dims_eq_refl_audio (one_sample rate) (Some (Z.of_nat (length pos))) (Some (Z.of_nat n)) sh) as Q. fold t in Q. rewrite Q. cbn [bind].
  destruct (audio_new_ok x rate n sh Hr Hs L) as (a1 & E1 & S1).
  rewrite (audio_form _ _ _ _ _ Hr Hs L E1) in S1. fold t a0 in S1. rewrite S1. cbn [bind].
  set (y := nd_build _ _). destruct (audio_new_ok y rate (length pos) sh Hr eq_refl L) as (w & Ew & Sw). rewrite Ew. cbn [bind].
  exists w. split; [reflexivity|]. split; [exact Sw|]. rewrite (audio_form _ _ _ _ _ Hr (eq_refl : nd_shape y = _) L Ew). cbn [data].
  split; [reflexivity|]. intros j ix Hj Hix. unfold y. rewrite nd_at_build by (constructor; assumption). reflexivity.
Qed.

(** [samples[lo:hi:step]] with a positive step: a signal of the same rate with the
    samples Python's slice selects, in order *)
Theorem audio_getitem_slice x rate a n sh lo hi step : In rate standard_rates -> nd_shape x = n :: sh -> length sh <= 1 -> audio_new x rate = Ok a ->
  (0 < step)%Z ->
  let first := match lo with None => 0%Z | Some i => AxisProofs.clip 0 (Z.of_nat n) (Z.of_nat n) i end in
  let last := match hi with None => Z.of_nat n | Some i => AxisProofs.clip 0 (Z.of_nat n) (Z.of_nat n) i end in
  exists s pos, audio_getitem a (IxOne (XSl lo hi step)) = Ok (PUnits Audio s) /\ samplerate s = Ok rate /\
    nd_shape (data s) = length pos :: sh /\
    (forall k, In k pos <-> (first <= Z.of_nat k < last)%Z /\ (step | Z.of_nat k - first)%Z) /\ StronglySorted lt pos /\
    forall j ix, j < length pos -> in_shape sh ix -> nd_at (data s) (j :: ix) = nd_at x (nth j pos 0 :: ix).
Proof.
  intros Hr Hs L Ha Hst first last_. pose proof (one_sample_pos rate Hr) as Po.
  assert (Sel : forall lo' hi' st', (0 < st')%Z ->
    (forall i, In i (slice_positions (Z.of_nat n) lo' hi' st') <-> (first <= i < last_)%Z /\ (step | i - first)%Z) ->
    compute_indices (dims a) [XSl lo hi step] = Ok [NSl lo' hi' st'] ->
    exists s pos, audio_getitem a (IxOne (XSl lo hi step)) = Ok (PUnits Audio s) /\ samplerate s = Ok rate /\
      nd_shape (data s) = length pos :: sh /\
      (forall k, In k pos <-> (first <= Z.of_nat k < last_)%Z /\ (step | Z.of_nat k - first)%Z) /\ StronglySorted lt pos /\
      forall j ix, j < length pos -> in_shape sh ix -> nd_at (data s) (j :: ix) = nd_at x (nth j pos 0 :: ix)).
  { intros lo' hi' st' Hst' Hin Hc.
    destruct (audio_slice x rate a n sh (XSl lo hi step) lo' hi' st' Hr Hs L Ha eq_refl Hc ltac:(lia)) as (s & E1 & E2 & E3 & E4).
    exists s, (map Z.to_nat (slice_positions (Z.of_nat n) lo' hi' st')).
    assert (P : forall z, In z (slice_positions (Z.of_nat n) lo' hi' st') -> (0 <= z)%Z) by (intros z Hz; apply slice_positions_range in Hz; lia).
    split; [exact E1|]. split; [exact E2|]. split; [exact E3|]. split; [|split; [|exact E4]].
    - intros k. rewrite in_map_iff. split.
      + intros (z & <- & Hz). rewrite Z2Nat.id by (apply P; exact Hz). apply Hin. exact Hz.
      + intros Hk. exists (Z.of_nat k). split; [lia|]. apply Hin. exact Hk.
    - destruct (slice_positions_up (Z.of_nat n) lo' hi' st' ltac:(lia) Hst') as [_ St]. revert P St. clear.
      generalize (slice_positions (Z.of_nat n) lo' hi' st') as l. induction l as [|z l IH]; intros P St; [constructor|].
      inversion St as [|? ? St' F]; subst. cbn [map]. constructor; [apply IH; [intros; apply P; right; assumption|exact St']|].
      apply Forall_forall. intros k Hk. apply in_map_iff in Hk. destruct Hk as (y & <- & Hy). rewrite Forall_forall in F. specialize (F y Hy).
      pose proof (P z (or_introl eq_refl)). lia. }
  pose proof (proj1 (slice_positions_up (Z.of_nat n) lo hi step ltac:(lia) Hst)) as Up.
  destruct (match hi with Some 0%Z => true | _ => false end) eqn:Z0.
  2:{ apply (Sel lo hi step Hst Up). rewrite (audio_form _ _ _ _ _ Hr Hs L Ha). unfold compute_indices. cbn [dims compute_from burns].
      destruct (int_based lo hi); [reflexivity|]. change (py_get (DTime ?t :: ?r) 0%Z) with (Ok (DTime t)). cbn [bind].
      unfold dim_int_slice, time_int_slice. destruct hi as [[|p|p]|]; try discriminate Z0; reflexivity. }
  destruct hi as [[|p|p]|]; try discriminate Z0. clear Z0.
  assert (Em : forall l s0, (0 <= s0)%Z -> l = Some s0 -> forall i, In i (slice_positions (Z.of_nat n) l (Some 0%Z) 1) <-> (first <= i < last_)%Z /\ (step | i - first)%Z).
  { intros l s0 H0 -> i. rewrite (proj1 (slice_positions_up (Z.of_nat n) (Some s0) (Some 0%Z) 1 ltac:(lia) ltac:(lia))).
    unfold last_, first. unfold AxisProofs.clip. change (0 <? 0)%Z with false. destruct lo as [l|]; [generalize (l <? 0)%Z; intros bl|]; generalize (s0 <? 0)%Z; intros bs; split; intros [H1 _]; exfalso; try destruct bl; destruct bs; lia. }
  assert (R0 : forall d, (0 < d)%Z -> forall s0, ceil_div (round2 (s0 + - s0) d) 100 = 0%Z).
  { intros d Hd s0. rewrite ceil_round2 by exact Hd. replace (s0 + - s0)%Z with 0%Z by lia. rewrite Z.div_0_l, Z.mod_0_l by lia. destruct (Z.leb_spec (200 * 0) d); lia. }
  rewrite (audio_form _ _ _ _ _ Hr Hs L Ha) in Sel. set (t := {| t_freq := _ |}) in *. cbn [dims] in Sel.
  rewrite (audio_form _ _ _ _ _ Hr Hs L Ha). fold t.
  destruct lo as [l|].
  - destruct (Z.ltb_spec l 0) as [Ll|Ll].
    + eapply (Sel (Some (Z.max 0 _)) (Some 0%Z) 1%Z ltac:(lia)); [apply (Em _ (Z.max 0 ((one_sample rate * Z.of_nat n + l) / one_sample rate)%Z)); [lia|reflexivity]|].
      unfold compute_indices. cbn [compute_from burns].
      replace (int_based (Some l) (Some 0%Z)) with false by (destruct l; reflexivity).
      change (py_get (DTime t :: ?r) 0%Z) with (Ok (DTime t)). cbn [bind]. unfold dim_int_slice, time_int_slice.
      destruct (Z.ltb_spec l 0); [|lia]. unfold t_span, integer_based_slice. cbn [t t_size t_freq t_dur bind fst snd]. rewrite R0 by exact Po.
      rewrite Z.sub_diag, Z.add_0_r, Z.sub_0_r, (Z.mul_comm (Z.of_nat n)). reflexivity.
    + apply (Sel (Some l) (Some 0%Z) step Hst Up). unfold compute_indices. cbn [compute_from burns].
      replace (int_based (Some l) (Some 0%Z)) with false by (destruct l; reflexivity).
      change (py_get (DTime t :: ?r) 0%Z) with (Ok (DTime t)). cbn [bind]. unfold dim_int_slice, time_int_slice.
      destruct (Z.ltb_spec l 0); [lia|]. reflexivity.
  - apply (Sel (Some 0%Z) (Some 0%Z) 1%Z ltac:(lia)); [apply (Em _ 0%Z); [lia|reflexivity]|].
    unfold compute_indices. cbn [compute_from burns]. change (int_based None (Some 0%Z)) with false.
    change (py_get (DTime t :: ?r) 0%Z) with (Ok (DTime t)). cbn [bind]. unfold dim_int_slice, time_int_slice.
    unfold integer_based_slice. cbn [t t_size t_freq t_dur bind fst snd]. rewrite Z.sub_diag, Z.sub_0_r, Z.div_0_l by lia.
    change (0 + 0)%Z with (0 + - 0)%Z. rewrite R0 by exact Po. reflexivity.
Qed.

Lemma positions_between n i0 i1 : i0 <= i1 <= n ->
  map Z.to_nat (slice_positions (Z.of_nat n) (Some (Z.of_nat i0)) (Some (Z.of_nat i1)) 1) = seq i0 (i1 - i0).
Proof.
  intros Hi.
  unfold slice_positions. change (0 <? 1)%Z with true. cbv iota zeta.
    destruct (Z.ltb_spec (Z.of_nat i0) 0); [lia|]. destruct (Z.ltb_spec (Z.of_nat i1) 0); [lia|].
    rewrite !(Z.min_r (Z.of_nat n)) by lia. rewrite !(Z.max_r 0) by lia. rewrite map_map. unfold zrange.
    replace (Z.to_nat (if (Z.of_nat i0 <? Z.of_nat i1)%Z then ((Z.of_nat i1 - Z.of_nat i0 - 1) / 1 + 1)%Z else 0%Z)) with (i1 - i0).
    2:{ rewrite Z.div_1_r. destruct (Z.ltb_spec (Z.of_nat i0) (Z.of_nat i1)); lia. }
    rewrite map_map. clear. revert i0. 
    assert (G : forall m i0 k, map (fun y => Z.to_nat (Z.of_nat i0 + Z.of_nat y * 1)) (seq k m) = seq (i0 + k) m).
    { induction m as [|m IH]; intros i0 k; [reflexivity|]. cbn [seq map]. f_equal; [lia|]. rewrite IH. f_equal. lia. }
    intros i0. rewrite G, Nat.add_0_r. reflexivity.
Qed.
(** a time slice between sample positions: those samples *)
Theorem audio_getitem_time x rate a n sh i0 i1 : In rate standard_rates -> nd_shape x = n :: sh -> length sh <= 1 -> audio_new x rate = Ok a ->
  i0 <= i1 <= n ->
  exists s, audio_getitem a (IxOne (XTime (Z.of_nat i0 * one_sample rate) (Some (Z.of_nat (i1 - i0) * one_sample rate)%Z))) = Ok (PUnits Audio s) /\
    samplerate s = Ok rate /\ nd_shape (data s) = (i1 - i0) :: sh /\
    forall j ix, j < i1 - i0 -> in_shape sh ix -> nd_at (data s) (j :: ix) = nd_at x (i0 + j :: ix).
Proof.
  intros Hr Hs L Ha Hi. pose proof (one_sample_pos rate Hr) as Po.
  pose proof (positions_between n i0 i1 Hi) as P.
  destruct (audio_slice x rate a n sh (XTime (Z.of_nat i0 * one_sample rate) (Some (Z.of_nat (i1 - i0) * one_sample rate)%Z))
    (Some (Z.of_nat i0)) (Some (Z.of_nat i1)) 1%Z Hr Hs L Ha eq_refl) as (s & E1 & E2 & E3 & E4).
  - rewrite (audio_form _ _ _ _ _ Hr Hs L Ha). unfold compute_indices. set (t := {| t_freq := _ |}). cbn [dims compute_from burns].
    change (py_get (DTime t :: ?r) 0%Z) with (Ok (DTime t)). cbn [bind dim_int_slice].
    replace (Z.of_nat (i1 - i0) * one_sample rate)%Z with (Z.of_nat i1 * t_freq t - Z.of_nat i0 * t_freq t)%Z by (cbn [t t_freq]; rewrite Nat2Z.inj_sub by lia; ring).
    change (Z.of_nat i0 * one_sample rate)%Z with (Z.of_nat i0 * t_freq t)%Z.
    rewrite slice_on_boundaries; [reflexivity|exact Po|reflexivity|lia].
  - lia.
  - cbv zeta in *. rewrite P, seq_length in *. exists s. split; [exact E1|]. split; [exact E2|]. split; [exact E3|].
    intros j ix Hj Hix. rewrite E4 by assumption. rewrite seq_nth by exact Hj. reflexivity.
Qed.
(** taking every k-th sample keeps the rate: one second of the result is [k] seconds
    of the signal *)
Theorem audio_getitem_step_refuted x rate a n sh k : In rate standard_rates -> nd_shape x = n :: sh -> length sh <= 1 -> audio_new x rate = Ok a ->
  2 <= k -> 0 < n ->
  exists s, audio_getitem a (IxOne (XSl None None (Z.of_nat k))) = Ok (PUnits Audio s) /\ samplerate s = Ok rate /\
    nd_shape (data s) = (n - 1) / k + 1 :: sh /\
    forall j ix, j * k < n -> in_shape sh ix -> nd_at (data s) (j :: ix) = nd_at x (j * k :: ix).
Proof.
  intros Hr Hs L Ha Hk Hn.
  assert (P : map Z.to_nat (slice_positions (Z.of_nat n) None None (Z.of_nat k)) = map (fun j => j * k) (seq 0 ((n - 1) / k + 1))).
  { unfold slice_positions. destruct (Z.ltb_spec 0 (Z.of_nat k)); [|lia]. cbv zeta.
    destruct (Z.ltb_spec 0 (Z.of_nat n)); [|lia]. rewrite map_map. unfold zrange. rewrite map_map.
    replace (Z.to_nat ((Z.of_nat n - 0 - 1) / Z.of_nat k + 1)) with ((n - 1) / k + 1).
    2:{ replace (Z.of_nat n - 0 - 1)%Z with (Z.of_nat (n - 1)) by lia. rewrite <- Nat2Z.inj_div. lia. }
    apply map_ext. intros j. rewrite Z.add_0_l, <- Nat2Z.inj_mul. apply Nat2Z.id. }
  destruct (audio_slice x rate a n sh (XSl None None (Z.of_nat k)) None None (Z.of_nat k) Hr Hs L Ha eq_refl eq_refl) as (s & E1 & E2 & E3 & E4); [lia|].
  cbv zeta in *. rewrite P in *. rewrite map_length, seq_length in *. exists s. split; [exact E1|]. split; [exact E2|]. split; [exact E3|].
  intros j ix Hj Hix. assert (J : j < (n - 1) / k + 1).
  { enough (j <= (n - 1) / k) by lia. apply Nat.div_le_lower_bound; lia. }
  rewrite E4 by assumption. rewrite (nth_indep _ 0 (0 * k)) by (rewrite map_length, seq_length; exact J).
  rewrite (map_nth (fun j => j * k)), seq_nth by exact J. reflexivity.
Qed.
(** [samples[::-1]] is the signal backwards, at the same rate *)
Theorem audio_getitem_reversed x rate a n sh : In rate standard_rates -> nd_shape x = n :: sh -> length sh <= 1 -> audio_new x rate = Ok a ->
  exists s, audio_getitem a (IxOne (XSl None None (-1)%Z)) = Ok (PUnits Audio s) /\ samplerate s = Ok rate /\
    nd_shape (data s) = n :: sh /\
    forall j ix, j < n -> in_shape sh ix -> nd_at (data s) (j :: ix) = nd_at x (n - 1 - j :: ix).
Proof.
  intros Hr Hs L Ha.
  assert (P : map Z.to_nat (slice_positions (Z.of_nat n) None None (-1)%Z) = map (fun j => n - 1 - j) (seq 0 n)).
  { unfold slice_positions. change (0 <? -1)%Z with false. cbv iota zeta. rewrite map_map. unfold zrange. rewrite map_map.
    replace (Z.to_nat (if (-1 <? Z.of_nat n - 1)%Z then ((Z.of_nat n - 1 - -1 - 1) / - -1 + 1)%Z else 0%Z)) with n.
    2:{ change (- -1)%Z with 1%Z. rewrite Z.div_1_r. destruct (Z.ltb_spec (-1) (Z.of_nat n - 1)); lia. }
    apply map_ext_in. intros j Hj. apply in_seq in Hj. lia. }
  destruct (audio_slice x rate a n sh (XSl None None (-1)%Z) None None (-1)%Z Hr Hs L Ha eq_refl eq_refl) as (s & E1 & E2 & E3 & E4); [lia|].
  cbv zeta in *. rewrite P in *. rewrite map_length, seq_length in *. exists s. split; [exact E1|]. split; [exact E2|]. split; [exact E3|].
  intros j ix Hj Hix. rewrite E4 by assumption. rewrite (nth_indep _ 0 (n - 1 - 0)) by (rewrite map_length, seq_length; exact Hj).
  rewrite (map_nth (fun j => n - 1 - j)), seq_nth by exact Hj. reflexivity.
Qed.
(** an int: the sample of a mono signal, counted from the end if negative *)
Theorem audio_getitem_int x rate a n k : In rate standard_rates -> nd_shape x = [n] -> audio_new x rate = Ok a ->
  ((0 <= k < Z.of_nat n)%Z -> audio_getitem a (IxOne (XInt k)) = Ok (PNum (nd_at x [Z.to_nat k]))) /\
  ((- Z.of_nat n <= k < 0)%Z -> audio_getitem a (IxOne (XInt k)) = Ok (PNum (nd_at x [Z.to_nat (Z.of_nat n + k)]))) /\
  ((k < - Z.of_nat n \/ Z.of_nat n <= k)%Z -> audio_getitem a (IxOne (XInt k)) = Raise IndexError).
Proof.
  intros Hr Hs Ha. rewrite (audio_form _ _ _ _ _ Hr Hs (Nat.le_0_l 1) Ha). unfold audio_getitem, getitem_py. cbn [data].
  unfold ndim. rewrite Hs. cbn [length]. unfold np_getitem, selectors. rewrite Hs. cbn [count filter is_nell length Nat.ltb Nat.leb sels]. unfold pick.
  split; [|split]; intros H.
  - replace ((- Z.of_nat n <=? k)%Z && (k <? Z.of_nat n)%Z) with true by lia. destruct (Z.ltb_spec k 0); [lia|]. reflexivity.
  - replace ((- Z.of_nat n <=? k)%Z && (k <? Z.of_nat n)%Z) with true by lia. destruct (Z.ltb_spec k 0); [|lia].
    rewrite (Z.add_comm (Z.of_nat n)). reflexivity.
  - replace ((- Z.of_nat n <=? k)%Z && (k <? Z.of_nat n)%Z) with false by lia. reflexivity.
Qed.
(** an int into several channels: one entry for each channel, without a time axis *)
Theorem audio_getitem_frame x rate a n m k : In rate standard_rates -> nd_shape x = [n; m] -> audio_new x rate = Ok a -> k < n ->
  exists s, audio_getitem a (IxOne (XInt (Z.of_nat k))) = Ok (PUnits Plain s) /\ dims s = [DIdent] /\ nd_shape (data s) = [m] /\
    forall c, c < m -> nd_at (data s) [c] = nd_at x [k; c].
Proof.
  intros Hr Hs Ha Hk. rewrite (audio_form _ _ _ _ _ Hr Hs (le_n 1) Ha). set (t := {| t_freq := _ |}).
  unfold audio_getitem, getitem_py. cbn [data]. unfold ndim. rewrite Hs. cbn [length tuplify bind map].
  unfold getitem, compute_indices. cbn [dims compute_from burns bind as_is data]. unfold np_getitem, selectors. rewrite Hs.
  cbn [count filter is_nell length Nat.ltb Nat.leb sels]. unfold pick.
  replace ((- Z.of_nat n <=? Z.of_nat k)%Z && (Z.of_nat k <? Z.of_nat n)%Z) with true by lia. destruct (Z.ltb_spec (Z.of_nat k) 0); [lia|].
  rewrite Nat2Z.id. cbn [bind map sel_shape full]. rewrite seq_length.
  eexists. split; [reflexivity|]. cbn [dims data]. split; [reflexivity|]. split; [reflexivity|].
  intros c Hc. rewrite nd_at_build by (constructor; [exact Hc|constructor]). cbn [sel_source hd tl map full]. rewrite seq_nth by exact Hc. reflexivity.
Qed.
(** one channel of several: the samples, but no longer AudioSamples *)
Theorem audio_getitem_channel_refuted x rate a n m c : In rate standard_rates -> nd_shape x = [n; m] -> audio_new x rate = Ok a -> c < m ->
  exists s, audio_getitem a (IxTuple [XSl None None 1%Z; XInt (Z.of_nat c)]) = Ok (PUnits Plain s) /\ nd_shape (data s) = [n] /\
    forall i, i < n -> nd_at (data s) [i] = nd_at x [i; c].
Proof.
  intros Hr Hs Ha Hc. pose proof (one_sample_pos rate Hr) as Po. rewrite (audio_form _ _ _ _ _ Hr Hs (le_n 1) Ha). set (t := {| t_freq := _ |}).
  assert (P : map Z.to_nat (slice_positions (Z.of_nat n) None None 1%Z) = seq 0 n).
  { unfold slice_positions. change (0 <? 1)%Z with true. cbv iota zeta. rewrite map_map. unfold zrange. rewrite map_map.
    replace (Z.to_nat (if (0 <? Z.of_nat n)%Z then ((Z.of_nat n - 0 - 1) / 1 + 1)%Z else 0%Z)) with n.
    2:{ rewrite Z.div_1_r. destruct (Z.ltb_spec 0 (Z.of_nat n)); lia. }
    rewrite <- (map_id (seq 0 n)) at 2. apply map_ext. intros j. lia. }
  unfold audio_getitem, getitem_py. cbn [data tuplify bind map].
  unfold getitem, compute_indices. cbn [dims compute_from burns bind as_is data int_based andb]. unfold np_getitem, selectors. rewrite Hs.
  cbn [count filter is_nell length Nat.ltb Nat.leb sels]. change (1 =? 0)%Z with false. cbv iota. rewrite P. cbn [bind]. unfold pick.
  replace ((- Z.of_nat m <=? Z.of_nat c)%Z && (Z.of_nat c <? Z.of_nat m)%Z) with true by lia. destruct (Z.ltb_spec (Z.of_nat c) 0); [lia|].
  rewrite Nat2Z.id. cbn [bind map sel_shape]. rewrite seq_length. set (y := nd_build _ _).
  assert (W : exists ds, (do ds <- new_dims [DTime t; DIdent] [XSl None None 1%Z; XInt (Z.of_nat c)] (nd_shape y); awu_new nd_shape y ds) = Ok (mkAwu y [DTime ds])).
  { exists {| t_freq := one_sample rate; t_dur := one_sample rate; t_size := Some (Z.of_nat n) |}.
    assert (N : new_dims [DTime t; DIdent] [XSl None None 1%Z; XInt (Z.of_nat c)] (nd_shape y) = Ok [DTime (metaslice t (Z.of_nat n))]) by reflexivity.
    rewrite N. cbn [bind]. unfold awu_new. cbn [nd_shape y nd_build length Nat.eqb fit_dims fit_dim]. unfold metaslice, mk_timedim. cbn [t_freq t_dur t_size t].
    destruct (Z.eqb_spec (one_sample rate) 0); [lia|]. destruct (Z.eqb_spec (one_sample rate) 0); [lia|]. reflexivity. }
  destruct W as (u & W). rewrite W. cbn [bind dims].
  exists (mkAwu y [DTime u]). split.
  - cbn [dims_eq dim_eq bind]. destruct (_ && _); reflexivity.
  - split; [reflexivity|]. intros i Hi. cbn [data]. unfold y. rewrite nd_at_build by (constructor; [exact Hi|constructor]).
    cbn [sel_source hd tl]. rewrite seq_nth by exact Hi. reflexivity.
Qed.
(** ** other index forms *)
Theorem index_forms a l z l' : (getitem_py a (IxSlices (z :: l')) = getitem_py a (IxTuple (z :: l'))) /\
  (forall v, setitem a (IxSlices (z :: l')) v = setitem a (IxTuple (z :: l')) v) /\
  getitem_py a IxMixed = Raise ValueError /\ (forall v, setitem a IxMixed v = Raise ValueError) /\
  (l <> [] -> getitem_py a (IxInts l) = getitem_py a (IxOne (XList l))).
Proof.
  split; [reflexivity|]. split; [reflexivity|]. split; [reflexivity|]. split; [reflexivity|].
  intros H. destruct l as [|i l]; [congruence|]. reflexivity.
Qed.
(** numpy returns an array without rows for an empty list *)
Theorem empty_list_refuted a v : getitem_py a (IxInts []) = Raise IndexError /\ setitem a (IxInts []) v = Raise IndexError.
Proof. split; reflexivity. Qed.
(** an array of two positions into a mono signal is an error (numpy selects two samples);
    into two channels it selects one sample *)
Theorem integer_array_refuted x rate a n sh i j : In rate standard_rates -> nd_shape x = n :: sh -> length sh <= 1 -> audio_new x rate = Ok a ->
  (sh = [] -> audio_getitem a (IxArray [i; j]) = Raise IndexError) /\
  (forall m, sh = [m] -> (0 <= i < Z.of_nat n)%Z -> (0 <= j < Z.of_nat m)%Z ->
     forall ss, entries_of a (IxArray [i; j]) = Ok ss -> sel_shape ss = [] /\ sel_source ss [] = [Z.to_nat i; Z.to_nat j]).
Proof.
  intros Hr Hs L Ha. rewrite (audio_form _ _ _ _ _ Hr Hs L Ha). split; [intros ->; reflexivity|].
  intros m -> Hi Hj ss. unfold entries_of. cbn [tuplify bind map dims data]. rewrite Hs. unfold compute_indices. cbn [compute_from burns].
  change (py_get (DTime ?t :: ?r) 0%Z) with (Ok (DTime t)). cbn [bind dim_int_slice as_is].
  change (py_get [DTime ?t; DIdent] (0 + 1)%Z) with (Ok DIdent). cbn [bind dim_int_slice as_is].
  unfold selectors. cbn [count filter is_nell length Nat.ltb Nat.leb sels]. unfold pick.
  replace ((- Z.of_nat n <=? i)%Z && (i <? Z.of_nat n)%Z) with true by lia. destruct (Z.ltb_spec i 0); [lia|].
  replace ((- Z.of_nat m <=? j)%Z && (j <? Z.of_nat m)%Z) with true by lia. destruct (Z.ltb_spec j 0); [lia|].
  cbn [bind map]. intros [= <-]. split; reflexivity.
Qed.
(** the length in seconds does not depend on the signal: one sample period *)
Theorem duration_refuted x rate a n sh : In rate standard_rates -> nd_shape x = n :: sh -> length sh <= 1 -> audio_new x rate = Ok a ->
  duration_in_seconds a = Ok (one_sample rate, 10 ^ 12)%Z.
Proof. intros Hr Hs L Ha. rewrite (audio_form _ _ _ _ _ Hr Hs L Ha). reflexivity. Qed.

(** ** assignment to a stretch of time: exactly the samples in it change; [v] is a number
    or has one entry for each sample *)
Theorem audio_setitem_time x rate a n i0 i1 v : In rate standard_rates -> nd_shape x = [n] -> audio_new x rate = Ok a ->
  i0 <= i1 <= n -> nd_shape v = [] \/ nd_shape v = [i1 - i0] ->
  exists r, setitem a (IxOne (XTime (Z.of_nat i0 * one_sample rate) (Some (Z.of_nat (i1 - i0) * one_sample rate)%Z))) v = Ok r /\
    samplerate r = Ok rate /\ dims r = dims a /\ nd_shape (data r) = [n] /\
    (forall k, k < n -> k < i0 \/ i1 <= k -> nd_at (data r) [k] = nd_at x [k]) /\
    (forall k, i0 <= k < i1 -> nd_at (data r) [k] = nd_at v (match nd_shape v with [] => [] | _ => [k - i0] end)).
Proof.
  intros Hr Hs Ha Hi Hv. set (e := XTime _ _).
  destruct (audio_getitem_time x rate a n [] i0 i1 Hr Hs (Nat.le_0_l 1) Ha Hi) as (s & Es & _ & Ss & Vs). fold e in Es.
  assert (Rs : exists u, getitem_py a (IxOne e) = Ok (PUnits Plain u) /\ nd_shape (data u) = [i1 - i0] /\ entries_of a (IxOne e) = Ok [TPos (seq i0 (i1 - i0))]).
  { assert (En : entries_of a (IxOne e) = Ok [TPos (seq i0 (i1 - i0))]).
    { unfold entries_of. cbn [tuplify bind]. rewrite (audio_form _ _ _ _ _ Hr Hs (Nat.le_0_l 1) Ha). cbn [dims data]. rewrite Hs.
      set (t := {| t_freq := _ |}). unfold compute_indices, e. cbn [compute_from burns].
      change (py_get (DTime t :: ?r) 0%Z) with (Ok (DTime t)). cbn [bind dim_int_slice].
      replace (Z.of_nat (i1 - i0) * one_sample rate)%Z with (Z.of_nat i1 * t_freq t - Z.of_nat i0 * t_freq t)%Z by (cbn [t t_freq]; rewrite Nat2Z.inj_sub by lia; ring).
      change (Z.of_nat i0 * one_sample rate)%Z with (Z.of_nat i0 * t_freq t)%Z.
            rewrite slice_on_boundaries; [|exact (one_sample_pos rate Hr)|reflexivity|lia]. unfold pair_nix. cbn [bind fst snd].
      unfold selectors. cbn [count filter is_nell length Nat.ltb Nat.leb sels]. change (1 =? 0)%Z with false. cbv iota. rewrite positions_between by exact Hi. reflexivity. }
    unfold audio_getitem in Es. destruct (getitem_py a (IxOne e)) as [p|] eqn:Ep; [|discriminate]. 
    destruct (getitem_entries _ _ _ Ep) as (ss & E1 & E2 & _). rewrite En in E1. injection E1 as <-. cbn [sel_shape] in E2. rewrite seq_length in E2.
    unfold getitem_py in Ep. cbn [e tuplify bind] in Ep. destruct (getitem nd_shape np_getitem a _) as [u|]; [|discriminate]. injection Ep as <-.
    exists u. split; [reflexivity|]. split; [exact E2|exact En]. }
  destruct Rs as (u & Eu & Su & En).
  assert (Ex : exists r, setitem a (IxOne e) v = Ok r).
  { unfold entries_of in En. unfold setitem. destruct (tuplify (IxOne e)) as [ix|]; [|discriminate]. cbn [bind] in *.
    destruct (compute_indices (dims a) ix) as [iy|]; [|discriminate]. cbn [bind] in *. unfold np_setitem. rewrite En. cbn [bind sel_shape]. rewrite seq_length.
    destruct Hv as [-> | ->]; unfold broadcast; cbn [rev app bc_rev option_map]; try rewrite Nat.eqb_refl; cbn [option_map rev app];
      rewrite (proj2 (nat_list_eqb_true _ _) eq_refl); eexists; reflexivity. }
  destruct Ex as (r & Er). exists r. split; [exact Er|]. destruct (setitem_spec _ _ _ _ Er) as (D & Sh & Out & In_).
  assert (Da : data a = x) by (rewrite (audio_form _ _ _ _ _ Hr Hs (Nat.le_0_l 1) Ha); reflexivity).
  rewrite Da, Hs in *.
  split; [|split; [exact D|split; [exact Sh|split]]].
  - destruct (audio_new_ok x rate n [] Hr Hs (Nat.le_0_l 1)) as (a1 & E1 & S1). rewrite Ha in E1. injection E1 as <-.
    unfold samplerate, sps, frequency in *. rewrite D. exact S1.
  - intros k Hk Ho. apply Out; [constructor; [exact Hk|constructor]|]. intros jx (ss & E & I & S). rewrite En in E. injection E as <-.
    cbn [sel_shape] in I. rewrite seq_length in I. inversion I as [|j ? jx' ? Hj Hr']; subst. cbn [sel_source hd] in S. rewrite seq_nth in S by exact Hj. injection S as S. lia.
  - intros k Hk. destruct (In_ [k]) as (jx & kx & (ss & E & I & S) & (Ik & U) & ->).
    + constructor; [lia|constructor].
    + exists [k - i0]. exists [TPos (seq i0 (i1 - i0))]. split; [exact En|]. cbn [sel_shape]. rewrite seq_length. split; [constructor; [lia|constructor]|].
      cbn [sel_source hd]. rewrite seq_nth by lia. f_equal. lia.
    + rewrite En in E. injection E as <-. cbn [sel_shape] in I. rewrite seq_length in I. inversion I as [|j ? jx' ? Hj Hr']; subst. inversion Hr'; subst.
      cbn [sel_source hd] in S. rewrite seq_nth in S by exact Hj. injection S as S. f_equal.
      destruct Hv as [Hv|Hv]; rewrite Hv in *.
      * inversion Ik. reflexivity.
      * inversion Ik as [|q ? kx' ? Hq Hrq]; subst. inversion Hrq; subst. specialize (U 0 ltac:(cbn; lia)). cbn [length nth Nat.sub Nat.add] in U.
        destruct (Nat.eqb_spec (i1 - i0) 1); f_equal; lia.
Qed.

(** ** concrete cases *)
Definition ex_mono : nda := mkNda [5] [1; 2; 3; 4; 5]%R.
Definition ex_stereo : nda := mkNda [3; 2] [1; 2; 3; 4; 5; 6]%R.
Example ex_signals : exists a b, audio_new ex_mono 11025 = Ok a /\ audio_new ex_stereo 11025 = Ok b /\ In 11025%Z standard_rates /\
  well_formed nd_shape a /\ well_formed nd_shape b /\ wf_nda ex_mono /\ wf_nda ex_stereo /\ samplerate a = Ok 11025%Z.
Proof.
  assert (R : In 11025%Z standard_rates) by (cbn; auto 10).
  destruct (audio_new_spec ex_mono 11025 R (or_introl eq_refl)) as (a & t & E & _ & _ & _ & _ & _ & _ & W & Sr).
  destruct (audio_new_spec ex_stereo 11025 R (or_intror eq_refl)) as (b & u & F & _ & _ & _ & _ & _ & _ & V & _).
  exists a, b. split; [exact E|]. split; [exact F|]. split; [exact R|]. split; [exact W|]. split; [exact V|]. split; [reflexivity|]. split; [reflexivity|exact Sr].
Qed.
(** the second and third sample are replaced by one number and read back; in a stereo
    signal a column is replaced *)
Example ex_assign : exists a r s b q, audio_new ex_mono 11025 = Ok a /\ setitem a (IxOne (XSl (Some 1) (Some 3) 1)%Z) (mkNda [2] [8; 9]%R) = Ok r /\
  nd_flat (data r) = [1; 8; 9; 4; 5]%R /\ getitem_py r (IxOne (XSl (Some 1) (Some 3) 1)%Z) = Ok s /\ nd_shape (arr_of s) = [2] /\
  audio_new ex_stereo 11025 = Ok b /\ setitem b (IxTuple [XSl None None 1; XInt 0]%Z) (mkNda [] [0]%R) = Ok q /\ nd_flat (data q) = [0; 2; 0; 4; 0; 6]%R.
Proof. do 5 eexists. repeat (split; [reflexivity|]). reflexivity. Qed.
(** a list of positions may select an entry twice: the later value stays *)
Example ex_twice : exists a r, audio_new ex_mono 11025 = Ok a /\ setitem a (IxInts [1; 1]%Z) (mkNda [2] [8; 9]%R) = Ok r /\
  nd_flat (data r) = [1; 9; 3; 4; 5]%R.
Proof. do 2 eexists. repeat (split; [reflexivity|]). reflexivity. Qed.

(** ** Ellipsis in an index *)
Lemma takes_all ix : (forall x, In x ix -> x <> NNone /\ x <> NEll) -> count nix_takes ix = length ix /\ count is_nell ix = 0%nat.
Proof.
  induction ix as [|x ix IH]; intros H; [split; reflexivity|]. destruct (IH (fun y Hy => H y (or_intror Hy))) as [A B]. destruct (H x (or_introl eq_refl)) as [N1 N2].
  unfold count in *. destruct x; try contradiction; cbn [filter nix_takes is_nell length]; rewrite ?A, ?B; split; reflexivity.
Qed.
(** after an Ellipsis come the last axes *)
Theorem ellipsis_first lead last_axes ix : length last_axes = length ix -> (forall x, In x ix -> x <> NNone /\ x <> NEll) ->
  selectors (lead ++ last_axes) (NEll :: ix) = do r <- selectors last_axes ix; Ok (map full lead ++ r).
Proof.
  intros L H. destruct (takes_all ix H) as [A B]. unfold selectors. unfold count in *. cbn [filter is_nell nix_takes length]. rewrite A, B, app_length. cbn [Nat.ltb Nat.leb sels].
  replace (length lead + length last_axes - length ix)%nat with (length lead) by lia. rewrite skipn_app, skipn_all, Nat.sub_diag, firstn_app, firstn_all, Nat.sub_diag, app_nil_r. cbn [skipn app].
  assert (G : forall e e' s l, (forall x, In x l -> x <> NNone /\ x <> NEll) -> sels e s l = sels e' s l).
  { intros e e' s l. revert s. induction l as [|x l IH]; intros s Hl; [reflexivity|]. assert (Hl' : forall y, In y l -> y <> NNone /\ y <> NEll) by (intros y Hy; apply Hl; now right).
    destruct (Hl x (or_introl eq_refl)) as [N1 N2]. destruct x; try contradiction; cbn [sels]; (destruct s as [|n s]; [reflexivity|]); now rewrite (IH s Hl'). }
  f_equal. now apply G.
Qed.
(** one at the end adds nothing *)
Theorem ellipsis_last sh ix : (forall x, In x ix -> x <> NNone /\ x <> NEll) -> selectors sh (ix ++ [NEll]) = selectors sh ix.
Proof.
  intros H. destruct (takes_all ix H) as [A B]. unfold selectors. unfold count in *. rewrite !filter_app, !app_length, A, B. cbn [filter is_nell nix_takes length Nat.add Nat.ltb Nat.leb]. rewrite Nat.add_0_r.
  set (e := (length sh - length ix)%nat).
  assert (G : forall l s, (forall x, In x l -> x <> NNone /\ x <> NEll) -> (length s - length l <= e)%nat -> sels e s (l ++ [NEll]) = sels e s l).
  { induction l as [|x l IH]; intros s Hl Le.
    - cbn [app sels length] in *. rewrite Nat.sub_0_r in Le. cbn [sels bind]. rewrite skipn_all2, firstn_all2 by exact Le. cbn [map]. now rewrite app_nil_r.
    - assert (Hl' : forall y, In y l -> y <> NNone /\ y <> NEll) by (intros y Hy; apply Hl; now right). destruct (Hl x (or_introl eq_refl)) as [N1 N2].
      destruct x; try contradiction; cbn [app sels]; (destruct s as [|n s]; [reflexivity|]); cbn [length Nat.sub] in Le; now rewrite (IH s Hl' Le). }
  apply G; [exact H|unfold e; lia].
Qed.
Theorem two_ellipses sh a b c : selectors sh (a ++ NEll :: b ++ NEll :: c) = Raise IndexError.
Proof.
  unfold selectors. assert (G : (1 <? count is_nell (a ++ NEll :: b ++ NEll :: c))%nat = true); [|now rewrite G].
  apply Nat.ltb_lt. unfold count. rewrite filter_app, app_length. cbn [filter is_nell length]. rewrite filter_app, app_length. cbn [filter is_nell length]. lia.
Qed.
