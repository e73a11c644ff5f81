(** Proofs about Ops.v: sample rates, sums, products, packing, concatenation. *)
From Verif Require Import PyBase PyFacts PyMore Time Freq FreqDim Axis AxisProofs Ops OpsProofs.
From Coq Require Import Reals Lra.
Local Open Scope nat_scope.

(** ** AudioSamples *)
(** what AudioSamples(x, rate) is *)
Lemma audio_new_spec x rate : In rate standard_rates -> ndim x = 1 \/ ndim x = 2 ->
  exists a t, audio_new x rate = Ok a /\ data a = x /\ hd_error (dims a) = Some (DTime t) /\
    (tl (dims a) = if ndim x =? 2 then [DIdent] else []) /\
    t_freq t = one_sample rate /\ t_dur t = one_sample rate /\ t_size t = Some (Z.of_nat (hd 0 (nd_shape x))) /\
    well_formed nd_shape a /\ samplerate a = Ok rate.
Proof.
  intros Hr Hd.
  assert (P : one_sample rate <> 0%Z /\
    (if one_sample rate =? 0 then Raise OverflowError else Ok (samples_per_second (one_sample rate)))%Z = Ok (samples_per_second (one_sample rate)) /\
    audio_sample_rate (samples_per_second (one_sample rate)) = Ok rate).
  { cbn [standard_rates In] in Hr. repeat (destruct Hr as [<-|Hr]; [split; [vm_compute; discriminate|split; vm_compute; reflexivity]|]). destruct Hr. }
  destruct P as (P0 & P1 & P2).
  unfold audio_new, audio_dims. set (o := one_sample rate) in *. clearbody o.
  assert (M : forall n, mk_timedim o (Some o) n = {| t_freq := o; t_dur := o; t_size := n |}).
  { intros n. unfold mk_timedim. destruct (Z.eqb_spec o 0); [contradiction|reflexivity]. }
  destruct x as [sh fl]. unfold ndim in *. cbn [nd_shape] in *.
  assert (S1 : forall ds n, samplerate {| data := mkNda sh fl; dims := DTime {| t_freq := o; t_dur := o; t_size := n |} :: ds |} = Ok rate).
  { intros ds n. unfold samplerate, sps, frequency. cbn [dims].
    change (py_get (DTime {| t_freq := o; t_dur := o; t_size := n |} :: ds) 0) with (Ok (DTime {| t_freq := o; t_dur := o; t_size := n |})).
    cbn [bind t_freq]. rewrite P1. exact P2. }
  destruct Hd as [Hd|Hd].
  - destruct sh as [|n [|]]; try discriminate Hd. cbn [length bind]. rewrite !M. unfold awu_new. cbn [nd_shape length Nat.eqb fit_dims fit_dim bind t_freq t_dur]. rewrite M. cbn [bind].
    eexists; eexists. split; [reflexivity|]. split; [reflexivity|]. split; [reflexivity|]. split; [reflexivity|]. cbn [t_freq t_dur t_size hd].
    split; [reflexivity|]. split; [reflexivity|]. split; [reflexivity|]. split; [|apply S1].
    split; constructor; try constructor; cbn; auto.
  - destruct sh as [|n [|m [|]]]; try discriminate Hd. cbn [length bind]. rewrite !M. unfold awu_new. cbn [nd_shape length Nat.eqb fit_dims fit_dim bind t_freq t_dur]. rewrite M. cbn [bind].
    eexists; eexists. split; [reflexivity|]. split; [reflexivity|]. split; [reflexivity|]. split; [reflexivity|]. cbn [t_freq t_dur t_size hd].
    split; [reflexivity|]. split; [reflexivity|]. split; [reflexivity|]. split; [|apply S1].
    split; repeat constructor; cbn; auto.
Qed.
Theorem audio_new_axes x rate : ndim x <> 1 -> ndim x <> 2 -> audio_new x rate = Raise ValueError.
Proof.
  intros H1 H2. unfold audio_new, audio_dims. destruct (ndim x) as [|[|[|]]]; try reflexivity; congruence.
Qed.
(** distinct standard rates have distinct sample periods *)
Lemma one_sample_inj r r' : In r standard_rates -> In r' standard_rates -> one_sample r = one_sample r' -> r = r'.
Proof.
  intros H H'. cbn [standard_rates In] in H, H'.
  repeat (destruct H as [<-|H]; [repeat (destruct H' as [<-|H']; [vm_compute; intros E; try reflexivity; discriminate E|]); destruct H'|]).
  destruct H.
Qed.
Theorem add_rates a b r r' : samplerate a = Ok r -> samplerate b = Ok r' -> In r standard_rates -> In r' standard_rates ->
  (r = r' -> add (PUnits Audio a) (PUnits Audio b) = binary Rplus (PUnits Audio a) (PUnits Audio b)) /\
  (r <> r' -> add (PUnits Audio a) (PUnits Audio b) = Raise ValueError).
Proof.
  intros Ha Hb I I'. unfold add. cbn [rate_of]. rewrite Ha, Hb. cbn [bind]. split; intros E.
  - subst r'. rewrite Z.eqb_refl. reflexivity.
  - destruct (Z.eqb_spec (one_sample r) (one_sample r')) as [H|]; [|reflexivity]. elim E. apply one_sample_inj; assumption.
Qed.
Theorem add_other a r q : samplerate a = Ok r -> (forall b, q <> PUnits Audio b) ->
  add (PUnits Audio a) q = binary Rplus (PUnits Audio a) q.
Proof. intros Ha Hq. unfold add. rewrite Ha. cbn [bind]. destruct q as [v|x|[|] b]; try reflexivity. elim (Hq b). reflexivity. Qed.
(** adding two mono signals of the same rate and length: a mono signal of that rate *)
Theorem add_signals x y rate a b : In rate standard_rates -> ndim x = 1 \/ ndim x = 2 ->
  nd_shape y = nd_shape x -> audio_new x rate = Ok a -> audio_new y rate = Ok b ->
  exists s, add (PUnits Audio a) (PUnits Audio b) = Ok (PUnits Audio s) /\ samplerate s = Ok rate /\
    well_formed nd_shape s /\ nd_shape (data s) = nd_shape x /\
    forall ix, in_shape (nd_shape x) ix -> nd_at (data s) ix = (nd_at x ix + nd_at y ix)%R.
Proof.
  intros Hr Hd S Ha Hb.
  destruct (audio_new_spec x rate Hr Hd) as (a' & t & Ea & Da & Ht & _ & _ & _ & _ & W & Sa). rewrite Ha in Ea. injection Ea as <-.
  assert (Hd' : ndim y = 1 \/ ndim y = 2) by (unfold ndim in *; rewrite S; exact Hd).
  destruct (audio_new_spec y rate Hr Hd') as (b' & u & Eb & Db & _ & _ & _ & _ & _ & _ & Sb). rewrite Hb in Eb. injection Eb as <-.
  rewrite (proj1 (add_rates _ _ _ _ Sa Sb Hr Hr) eq_refl).
  destruct (binary_same_shape Rplus Audio a (PUnits Audio b) W) as (z & E & Wz & Sz & V); [cbn [arr_of]; congruence|].
  exists (mkAwu z (dims a)). split; [exact E|]. split; [exact Sa|]. split; [exact Wz|]. cbn [data]. split; [congruence|].
  intros ix I. rewrite V by (rewrite Sz, Da; exact I). cbn [arr_of]. rewrite Da, Db. reflexivity.
Qed.
(** but [-] (and [*], [/], or [+] with another kind of array on the left) takes any rate *)
Theorem subtract_rates_refuted x y r r' a b : In r standard_rates -> In r' standard_rates ->
  ndim x = 1 \/ ndim x = 2 -> nd_shape y = nd_shape x ->
  audio_new x r = Ok a -> audio_new y r' = Ok b ->
  exists s, binary Rminus (PUnits Audio a) (PUnits Audio b) = Ok (PUnits Audio s) /\ samplerate s = Ok r.
Proof.
  intros Hr Hr' Hd S Ha Hb.
  destruct (audio_new_spec x r Hr Hd) as (a' & t & Ea & Da & Ht & _ & _ & _ & _ & W & Sa). rewrite Ha in Ea. injection Ea as <-.
  assert (Hd' : ndim y = 1 \/ ndim y = 2) by (unfold ndim in *; rewrite S; exact Hd).
  destruct (audio_new_spec y r' Hr' Hd') as (b' & u & Eb & Db & _). rewrite Hb in Eb. injection Eb as <-.
  destruct (binary_same_shape Rminus Audio a (PUnits Audio b) W) as (z & E & _); [cbn [arr_of]; congruence|].
  exists (mkAwu z (dims a)). split; [exact E|exact Sa].
Qed.

(** ** sums *)
Theorem sum_total c a : dims a <> [] -> awu_sum c a None false = Ok (PNum (total (nd_flat (data a)))).
Proof.
  intros D. unfold awu_sum, array_wrap, np_total, ndim, the_item. cbn [nd_shape nd_flat length nth].
  destruct (dims a) as [|d ds]; [congruence|]. reflexivity.
Qed.
(** the indices along which [x] is summed to give entry [jx] *)
Lemma ones_at_replace ax v l : ones_at ax v l = replace_at ax v 0 l.
Proof.
  unfold ones_at. assert (G : forall k, map (fun p => if ax (fst p) then v else snd p) (combine (seq k (length l)) l) = replace_at ax v k l); [|apply G].
  induction l as [|x l IH]; intros k; [reflexivity|]. cbn [length seq combine map replace_at fst snd]. rewrite IH. reflexivity.
Qed.
Lemma keep_axes_select ax l : keep_axes ax l = select (fun i => negb (ax i)) 0 l.
Proof.
  unfold keep_axes. assert (G : forall k, map snd (filter (fun p => negb (ax (fst p))) (combine (seq k (length l)) l)) = select (fun i => negb (ax i)) k l); [|apply G].
  induction l as [|x l IH]; intros k; [reflexivity|].
  cbn [length seq combine filter fst select]. destruct (ax k); cbn [negb]; [apply IH|]. cbn [map snd]. rewrite IH. reflexivity.
Qed.
Lemma select_ext {A} p q (l : list A) : forall k, (forall i, k <= i < k + length l -> p i = q i) -> select p k l = select q k l.
Proof.
  induction l as [|x l IH]; intros k H; [reflexivity|]. cbn [select]. rewrite (H k) by (cbn; lia).
  rewrite (IH (S k)) by (intros i Hi; apply H; cbn; lia). reflexivity.
Qed.
Lemma replace_at_ext {A} p q (v : A) (l : list A) : forall k, (forall i, k <= i < k + length l -> p i = q i) -> replace_at p v k l = replace_at q v k l.
Proof.
  induction l as [|x l IH]; intros k H; [reflexivity|]. cbn [replace_at]. rewrite (H k) by (cbn; lia).
  rewrite (IH (S k)) by (intros i Hi; apply H; cbn; lia). reflexivity.
Qed.
(** sum over named axes: one entry for each index of the remaining axes, the sum of
    all entries with that index; the remaining axes keep their units *)
Theorem sum_axes c a axes (keep : bool) : well_formed nd_shape a ->
  (forall x, In x axes -> (- Z.of_nat (ndim (data a)) <= x < Z.of_nat (ndim (data a)))%Z) ->
  let rest := fun l : list nat => if keep then replace_at (named (ndim (data a)) axes) 0 0 l
                                  else select (fun i => negb (named (ndim (data a)) axes i)) 0 l in
  let sh := if keep then replace_at (named (ndim (data a)) axes) 1 0 (nd_shape (data a))
            else select (fun i => negb (named (ndim (data a)) axes i)) 0 (nd_shape (data a)) in
  sh <> [] ->
  exists s, awu_sum c a (Some axes) keep = Ok (PUnits Plain s) /\ well_formed nd_shape s /\
    nd_shape (data s) = sh /\
    dims s = (if keep then replace_at (named (length (dims a)) axes) DIdent 0 (dims a)
              else select (fun i => negb (named (length (dims a)) axes i)) 0 (dims a)) /\
    forall jx, in_shape sh jx -> nd_at (data s) jx =
      total (map (nd_at (data a)) (filter (fun ix => if list_eq_dec Nat.eq_dec (rest ix) jx then true else false) (all_ix (nd_shape (data a))))).
Proof.
  intros W Hax rest sh Ne. pose proof W as [C N]. pose proof (Forall2_len _ _ _ C) as Ld.
  unfold awu_sum, np_sum.
  replace (existsb (fun x => ((x <? - Z.of_nat (ndim (data a))) || (Z.of_nat (ndim (data a)) <=? x))%Z) axes) with false.
  2:{ symmetry. apply not_true_iff_false. intros E. apply existsb_exists in E. destruct E as (x & Hx & E). specialize (Hax x Hx). lia. }
  assert (Esh : (if keep then ones_at (reduced (Z.of_nat (ndim (data a))) axes) 1 (nd_shape (data a)) else keep_axes (reduced (Z.of_nat (ndim (data a))) axes) (nd_shape (data a))) = sh).
  { subst sh. destruct keep.
    - rewrite ones_at_replace. apply replace_at_ext. intros i Hi. apply reduced_named. unfold ndim. lia.
    - rewrite keep_axes_select. apply select_ext. intros i Hi. rewrite reduced_named; [reflexivity|unfold ndim; lia]. }
  rewrite Esh. cbn [bind].
  set (r := nd_build sh _).
  destruct (reduction_spec nd_shape a r axes keep W) as [E W'].
  - exact Ne.
  - cbn [nd_shape nd_build r]. subst sh. unfold ndim. rewrite Ld. reflexivity.
  - rewrite E. cbn [bind]. eexists. split; [reflexivity|]. split; [exact W'|]. split; [reflexivity|]. split; [reflexivity|].
    intros jx I. cbn [data]. subst r. rewrite nd_at_build by exact I. do 2 f_equal. apply filter_ext_in.
    intros ix Hix. apply all_ix_in in Hix. apply in_shape_length in Hix.
    unfold nat_list_eqb. subst rest. cbn beta. destruct keep.
    + rewrite ones_at_replace. rewrite (replace_at_ext (reduced (Z.of_nat (ndim (data a))) axes) (named (ndim (data a)) axes)); [reflexivity|].
      intros i Hi. apply reduced_named. unfold ndim. lia.
    + rewrite keep_axes_select. rewrite (select_ext _ (fun i => negb (named (ndim (data a)) axes i))); [reflexivity|].
      intros i Hi. rewrite reduced_named; [reflexivity|unfold ndim; lia].
Qed.
Theorem sum_axis_range c a axes keep x : In x axes ->
  (x < - Z.of_nat (ndim (data a)) \/ Z.of_nat (ndim (data a)) <= x)%Z -> awu_sum c a (Some axes) keep = Raise ValueError.
Proof.
  intros I H. unfold awu_sum, np_sum.
  replace (existsb _ axes) with true; [reflexivity|]. symmetry. apply existsb_exists. exists x. split; [exact I|]. lia.
Qed.
(** the sum over the only axis (or all of them, named) is an error *)
Theorem sum_all_axes_refuted c n d fl :
  awu_sum c (mkAwu (mkNda [n] fl) [d]) (Some [0%Z]) false = Raise AttributeError.
Proof. reflexivity. Qed.
(** a total with keepdims keeps the dimensions of the summed axes *)
Theorem sum_keepdims_refuted c a t ds n : well_formed nd_shape a -> dims a = DTime t :: ds -> hd 0 (nd_shape (data a)) = n -> n <> 1 ->
  exists s, awu_sum c a None true = Ok (PUnits c s) /\ dims s = dims a /\ hd 0 (nd_shape (data s)) = 1 /\
    t_size t = Some (Z.of_nat n) /\ ~ well_formed nd_shape s.
Proof.
  intros [C N] D H Hn. pose proof (Forall2_len _ _ _ C) as L. unfold awu_sum, array_wrap, ndim. cbn [nd_shape]. rewrite map_length, L, Nat.eqb_refl.
  eexists. split; [reflexivity|]. split; [reflexivity|]. cbn [data nd_shape].
  destruct (nd_shape (data a)) as [|m sh] eqn:S; [rewrite D in L; discriminate L|]. cbn in H. subst m. cbn [map hd].
  split; [reflexivity|]. unfold consistent in C. rewrite D in C. inversion C as [|? ? ? ? Hs Hr]; subst. cbn in Hs.
  split; [exact Hs|]. intros [C' _]. cbn [data dims nd_shape] in C'. rewrite D in C'. inversion C' as [|? ? ? ? Hs' ?]; subst. cbn in Hs'.
  rewrite Hs in Hs'. injection Hs' as E. lia.
Qed.
Lemma filter_row i m : forall n k, k <= i < k + n ->
  filter (fun ix => if list_eq_dec Nat.eq_dec (firstn 1 ix) [i] then true else false)
    (flat_map (fun j => map (cons j) (all_ix [m])) (seq k n)) = map (fun c => [i; c]) (seq 0 m).
Proof.
  assert (A1 : all_ix [m] = map (fun c => [c]) (seq 0 m)).
  { cbn [all_ix map]. clear. generalize 0. induction m as [|m IH]; intros z; [reflexivity|]. cbn. rewrite IH. reflexivity. }
  rewrite A1. clear A1.
  set (p := fun ix : list nat => if list_eq_dec Nat.eq_dec (firstn 1 ix) [i] then true else false).
  assert (Hp : forall j c, p [j; c] = if Nat.eq_dec j i then true else false).
  { intros j c. unfold p. cbn [firstn]. destruct (list_eq_dec Nat.eq_dec [j] [i]), (Nat.eq_dec j i); congruence. }
  clearbody p.
  assert (F : forall j, filter p (map (cons j) (map (fun c => [c]) (seq 0 m))) = if Nat.eq_dec j i then map (fun c => [i; c]) (seq 0 m) else []).
  { intros j. rewrite map_map. generalize (seq 0 m) as l. intros l. destruct (Nat.eq_dec j i) as [->|Nj].
    - induction l as [|c l IH]; [reflexivity|]. cbn [map filter]. rewrite Hp. destruct (Nat.eq_dec i i); [|congruence]. rewrite IH. reflexivity.
    - induction l as [|c l IH]; [reflexivity|]. cbn [map filter]. rewrite Hp. destruct (Nat.eq_dec j i); [congruence|]. exact IH. }
  induction n as [|n IH]; intros k H; [lia|]. cbn [seq flat_map]. rewrite filter_app, F.
  destruct (Nat.eq_dec k i) as [->|Nk]; [|rewrite (IH (S k)) by lia; reflexivity].
  match goal with |- _ ++ ?z = _ => assert (Z : z = []); [|rewrite Z; apply app_nil_r] end.
  assert (Z : forall n k, i < k -> filter p (flat_map (fun j => map (cons j) (map (fun c => [c]) (seq 0 m))) (seq k n)) = []).
  { clear - F. induction n as [|n IH]; intros k H; [reflexivity|]. cbn [seq flat_map]. rewrite filter_app, F.
    destruct (Nat.eq_dec k i); [lia|]. apply IH. lia. }
  apply Z. lia.
Qed.
(** summing the channels of a signal: a signal of the same rate, entry by entry *)
Lemma sum_rows c a n m fl axes : data a = mkNda [n; m] fl -> well_formed nd_shape a -> axes = [1%Z] \/ axes = [(-1)%Z] ->
  exists s, awu_sum c a (Some axes) false = Ok (PUnits Plain s) /\ nd_shape (data s) = [n] /\ dims s = firstn 1 (dims a) /\ well_formed nd_shape s /\
    forall i, i < n -> nd_at (data s) [i] = total (map (fun k => nd_at (data a) [i; k]) (seq 0 m)).
Proof.
  intros D W Hax. pose proof W as [C N]. pose proof (Forall2_len _ _ _ C) as L. rewrite D in L. cbn in L.
  destruct (sum_axes c a axes false W) as (s & E & Ws & Ss & Ds & V).
  - rewrite D. cbn. destruct Hax as [-> | ->]; intros x [<-|[]]; lia.
  - rewrite D. destruct Hax as [-> | ->]; cbn; discriminate.
  - exists s. split; [exact E|].
    assert (Nm : forall i, i < 2 -> named 2 axes i = (i =? 1)).
    { intros [|[|i]] Hi; [destruct Hax as [-> | ->]; reflexivity|destruct Hax as [-> | ->]; reflexivity|lia]. }
    assert (Q : nd_shape (data s) = [n]). { rewrite Ss, D. unfold ndim. cbn [nd_shape length select]. rewrite !Nm by lia. reflexivity. }
    split; [exact Q|]. split.
    { rewrite Ds. rewrite L. destruct (dims a) as [|d0 [|d1 [|]]]; try discriminate L. cbn [select]. rewrite !Nm by lia. reflexivity. }
    split; [exact Ws|]. intros i Hi. rewrite V.
    + rewrite D at 2. cbn [nd_shape]. f_equal. rewrite <- (map_map (fun k => [i; k]) (nd_at (data a))). f_equal.
      transitivity (filter (fun ix => if list_eq_dec Nat.eq_dec (firstn 1 ix) [i] then true else false) (all_ix [n; m])).
      * apply filter_ext_in. intros ix Hix. apply all_ix_in in Hix. rewrite D. cbn [ndim nd_shape length].
        unfold ndim. cbn [nd_shape length].
        inversion Hix as [|i0 ? ix' ? H0 H1]; subst. inversion H1 as [|i1 ? ix'' ? H2 H3]; subst. inversion H3; subst.
        cbn [select]. rewrite !Nm by lia. reflexivity.
      * cbn [all_ix]. apply (filter_row i m n 0). lia.
    + rewrite <- Ss, Q. repeat constructor. exact Hi.
Qed.
Theorem sum_channels x n m rate a : In rate standard_rates -> nd_shape x = [n; m] -> audio_new x rate = Ok a ->
  exists s, audio_sum a (Some [1%Z]) false = Ok (PUnits Audio s) /\ samplerate s = Ok rate /\ nd_shape (data s) = [n] /\
    well_formed nd_shape s /\
    forall i, i < n -> nd_at (data s) [i] = total (map (fun k => nd_at x [i; k]) (seq 0 m)).
Proof.
  intros Hr S Ha. destruct (audio_new_spec x rate Hr) as (a' & t & Ea & Da & Ht & _ & _ & _ & _ & W & Sa); [right; unfold ndim; rewrite S; reflexivity|].
  rewrite Ha in Ea. injection Ea as <-. destruct x as [sh fl]. cbn in S. subst sh.
  destruct (sum_rows Audio a n m fl [1%Z] Da W (or_introl eq_refl)) as (s & E & Ss & _ & _ & V).
  unfold audio_sum. rewrite E. cbn [bind arr_of]. rewrite Da. cbn [ndim nd_shape length Nat.eqb andb axis_is_one]. unfold ndim. cbn [nd_shape length Nat.eqb andb]. rewrite Sa. cbn [bind].
  destruct (audio_new_spec (data s) rate Hr) as (b & u & Eb & Db & _ & _ & _ & _ & _ & Wb & Sb); [left; unfold ndim; rewrite Ss; reflexivity|].
  rewrite Eb. cbn [bind]. exists b. split; [reflexivity|]. split; [exact Sb|]. rewrite Db. split; [exact Ss|]. split; [exact Wb|].
  intros i Hi. rewrite V by exact Hi. rewrite Da. reflexivity.
Qed.
(** the same axis named from the end: the same numbers, but no AudioSamples *)
Theorem sum_last_axis_refuted x n m rate a : In rate standard_rates -> nd_shape x = [n; m] -> audio_new x rate = Ok a ->
  exists s, audio_sum a (Some [(-1)%Z]) false = Ok (PUnits Plain s) /\
    forall i, i < n -> nd_at (data s) [i] = total (map (fun k => nd_at x [i; k]) (seq 0 m)).
Proof.
  intros Hr S Ha. destruct (audio_new_spec x rate Hr) as (a' & t & Ea & Da & Ht & _ & _ & _ & _ & W & Sa); [right; unfold ndim; rewrite S; reflexivity|].
  rewrite Ha in Ea. injection Ea as <-. destruct x as [sh fl]. cbn in S. subst sh.
  destruct (sum_rows Audio a n m fl [(-1)%Z] Da W (or_intror eq_refl)) as (s & E & Ss & _ & _ & V).
  unfold audio_sum. rewrite E. cbn [bind]. rewrite andb_false_r. exists s. split; [reflexivity|].
  intros i Hi. rewrite V by exact Hi. rewrite Da. reflexivity.
Qed.

(** ** dot *)
(** with a vector: the last axis is contracted, the others keep their units *)
Theorem dot_vector a hd n y : well_formed nd_shape a -> nd_shape (data a) = hd ++ [n] -> nd_shape y = [n] ->
  exists s, awu_dot Plain a y = Ok (PUnits Plain s) /\ well_formed nd_shape s /\ nd_shape (data s) = hd /\
    dims s = removelast (dims a) /\
    forall ix, in_shape hd ix -> nd_at (data s) ix = total (map (fun k => nd_at (data a) (ix ++ [k]) * nd_at y [k])%R (seq 0 n)).
Proof.
  intros [C N] S Sy. unfold awu_dot, np_dot. rewrite S, rev_app_distr, Sy. cbn [rev app]. rewrite Nat.eqb_refl, rev_involutive. cbn [bind].
  assert (F : firstn (length hd) (dims a) = removelast (dims a) /\ consistent hd (removelast (dims a)) /\ Forall norm_dim (removelast (dims a))).
  { unfold consistent in *. rewrite S in C. apply Forall2_app_inv_r in C. destruct C as (d1 & d2 & C1 & C2 & E). rewrite E in *.
    inversion C2 as [|d ? ? ? Cd Ce]; subst. inversion Ce; subst. rewrite removelast_last. apply Forall_app in N. destruct N as [N1 N2].
    split; [|split; assumption]. rewrite <- (Forall2_len _ _ _ C1). rewrite firstn_app, Nat.sub_diag, firstn_all. cbn. apply app_nil_r. }
  destruct F as (F1 & F2 & F3). unfold ndim. cbn [nd_shape nd_build]. rewrite F1.
  rewrite awu_new_same by assumption. cbn [bind]. eexists. split; [reflexivity|]. split; [split; assumption|]. split; [reflexivity|]. split; [reflexivity|].
  intros ix I. cbn [data]. rewrite nd_at_build by exact I. reflexivity.
Qed.
