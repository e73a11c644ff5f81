(** Proofs about the rounds of InfiniteSampler and its threads (Sampler.v). *)
From Coq Require Import Lia.
From Verif Require Import PyBase PyFacts PyMore Reservoir ReservoirProofs Sampler.
Local Open Scope Z_scope.

Lemma f2_nth {X Y} (P : X -> Y -> Prop) l m : Forall2 P l m -> forall t x y, nth_error l t = Some x -> nth_error m t = Some y -> P x y.
Proof. induction 1 as [|a b l m H F IH]; intros [|t] x y Hx Hy; try discriminate; cbn in *; [injection Hx as <-; injection Hy as <-; exact H|exact (IH t x y Hx Hy)]. Qed.
Lemma f2_in {X Y} (P : X -> Y -> Prop) l m y : Forall2 P l m -> In y m -> exists x, P x y.
Proof. induction 1 as [|a b l m H F IH]; intros Hi; [destruct Hi|]. destruct Hi as [->|Hi]; [exists a; exact H|exact (IH Hi)]. Qed.

Section Rounds.
  Context {A : Type} (zero : A).
  (** What the random generator may return for a document: as many positions in it as
      it contributes, and for each a slot of the reservoir *)
  Definition valid_draw (n total : Z) (doc : list A) (d : draw) : Prop :=
    contribution n (Zlen doc) total = Ok (Zlen (d_rows d)) /\
    (forall i, In i (d_rows d) -> 0 <= i < Zlen doc) /\
    length (d_slots d) = length (d_rows d) /\
    (forall i, In i (d_slots d) -> 0 <= i < n).
  (** the rows and where they go *)
  Definition draw_writes (doc : list A) (d : draw) : list (nat * A) :=
    combine (map Z.to_nat (d_slots d)) (map (fun i => nth (Z.to_nat i) doc zero) (d_rows d)).
  Definition round_writes (docs : list (list A)) (ds : list draw) : list (nat * A) :=
    flat_map (fun p => draw_writes (fst p) (snd p)) (combine docs ds).
  Definition rounds_writes (docs : list (list A)) (rounds : list (list draw)) : list (nat * A) :=
    flat_map (round_writes docs) rounds.

  Lemma update_ok n total ws r doc d : 0 < n -> inv zero n ws r -> valid_draw n total doc d ->
    exists r', update_reservoir zero total r doc d = (r', Ok (Zlen (d_rows d))) /\ arr r' <> None /\ inv zero n (ws ++ draw_writes doc d) r'.
  Proof.
    intros Hn I (V1 & V2 & V3 & V4). unfold update_reservoir. pose proof I as I0. destruct I0 as (En & _). rewrite En, V1.
    rewrite (mapM_ok (py_get doc) (fun i => nth (Z.to_nat i) doc zero)).
    2:{ intros i Hi. specialize (V2 i Hi). unfold Zlen in V2. assert (G : nth_error doc (Z.to_nat i) = Some (nth (Z.to_nat i) doc zero)) by (apply nth_error_nth'; lia).
        apply py_get_nat in G. rewrite Z2Nat.id in G by lia. exact G. }
    set (c := {| c_rows := map (fun i => nth (Z.to_nat i) doc zero) (d_rows d); c_given := None; c_draw := d_slots d |}).
    assert (Gc : good_callb n c = true).
    { apply good_callb_iff. split; cbn [c_rows c_indices c_given c_draw c]; [rewrite map_length; exact V3|exact V4]. }
    destruct (add_inv zero n ws r c Hn I) as (r' & o & E & Na & Ho); [intros i Hi; apply (V4 i Hi)|].
    rewrite Gc in Ho. destruct Ho as [-> Ho]. cbn [c c_rows c_given c_draw] in E. rewrite E. exists r'. split; [reflexivity|]. split; [exact Na|exact Ho].
  Qed.
  Lemma round_ok n total docs ds : forall ws r, 0 < n -> inv zero n ws r -> Forall2 (valid_draw n total) docs ds ->
    exists r', sampler_round zero total r docs ds = (r', Ok tt) /\ (docs <> [] \/ arr r <> None -> arr r' <> None) /\ inv zero n (ws ++ round_writes docs ds) r'.
  Proof.
    intros ws r Hn I F. revert ws r I. induction F as [|doc d docs ds V F IH]; intros ws r I.
    - exists r. split; [reflexivity|]. split; [intros [?|?]; [congruence|assumption]|]. unfold round_writes. cbn. rewrite app_nil_r. exact I.
    - destruct (update_ok n total ws r doc d Hn I V) as (r1 & E1 & N1 & I1). destruct (IH _ _ I1) as (r2 & E2 & N2 & I2).
      exists r2. cbn [sampler_round]. rewrite E1, E2. split; [reflexivity|]. split; [intros _; apply N2; right; exact N1|].
      unfold round_writes in *. cbn [combine flat_map fst snd]. rewrite app_assoc. exact I2.
  Qed.
  Lemma yields_ok n total docs rounds : forall ws r, 0 < n -> docs <> [] -> inv zero n ws r -> Forall (Forall2 (valid_draw n total) docs) rounds ->
    sampler_yields zero total r docs rounds
    = map (fun k => Ok (contents (Z.to_nat n) (ws ++ rounds_writes docs (firstn (S k) rounds)))) (seq 0 (length rounds)).
  Proof.
    intros ws r Hn Ne I F. revert ws r I. induction F as [|ds rounds V F IH]; intros ws r I; [reflexivity|].
    destruct (round_ok n total docs ds ws r Hn I V) as (r1 & E1 & N1 & I1). cbn [sampler_yields length seq map]. rewrite E1.
    rewrite (get_inv zero n _ r1 Hn I1) by (apply N1; left; exact Ne). f_equal.
    - cbn [firstn]. unfold rounds_writes. cbn [flat_map]. rewrite app_nil_r. reflexivity.
    - rewrite (IH _ _ I1), <- seq_shift, map_map. apply map_ext. intros k. cbn [firstn]. unfold rounds_writes. cbn [flat_map]. rewrite app_assoc. reflexivity.
  Qed.
  (** One round at a time, one document after the other: each yield holds, slot by
      slot, the newest row drawn for the slot in all rounds so far. *)
  Theorem sampler_contents n docs rounds : 0 < n -> docs <> [] ->
    Forall (Forall2 (valid_draw n (total_samples docs)) docs) rounds ->
    sampler_process zero n docs rounds
    = Ok (map (fun k => Ok (contents (Z.to_nat n) (rounds_writes docs (firstn (S k) rounds)))) (seq 0 (length rounds))).
  Proof.
    intros Hn Ne F. unfold sampler_process, make_reservoir. destruct (Z.leb_spec n 0); [lia|]. cbn [bind].
    rewrite (yields_ok n _ docs rounds []); [reflexivity|exact Hn|exact Ne| |exact F].
    unfold inv. cbn. split; [reflexivity|]. split; [constructor|]. split; [|split; [intros k x []|reflexivity]].
    intros i. split; [intros []|intros [_ [x []]]].
  Qed.
  (** Rows held come from the documents; there are at most n of them, and some *)
  Theorem yield_rows n total docs rounds x : (forall ds, In ds rounds -> Forall2 (valid_draw n total) docs ds) ->
    In x (contents (Z.to_nat n) (rounds_writes docs rounds)) -> exists doc, In doc docs /\ In x doc.
  Proof.
    intros F H. apply contents_from in H. destruct H as (k & H). unfold rounds_writes in H. apply in_flat_map in H. destruct H as (ds & Hds & H).
    unfold round_writes in H. apply in_flat_map in H. destruct H as ([doc d] & Hp & H). cbn [fst snd] in H.
    pose proof (in_combine_l _ _ _ _ Hp) as Hd. exists doc. split; [exact Hd|].
    assert (V : valid_draw n total doc d).
    { specialize (F ds Hds). clear - F Hp. induction F as [|a b docs ds V F IH]; [destruct Hp|]. destruct Hp as [E|Hp]; [injection E as <- <-; exact V|exact (IH Hp)]. }
    unfold draw_writes in H. apply in_combine_r in H. apply in_map_iff in H. destruct H as (i & <- & Hi). destruct V as (_ & V & _). specialize (V i Hi). apply nth_In. unfold Zlen in V. lia.
  Qed.
  Theorem yield_size n total docs ds rounds : 0 < n -> docs <> [] -> Forall2 (valid_draw n total) docs ds -> In ds rounds ->
    (1 <= length (contents (Z.to_nat n) (rounds_writes docs rounds)) <= Z.to_nat n)%nat.
  Proof.
    intros Hn Ne F Hr. split; [|apply contents_length].
    destruct F as [|doc d docs ds V F]; [congruence|]. destruct V as (V1 & _ & V3 & V4).
    assert (K : (0 < length (d_rows d))%nat).
    { unfold contribution in V1. destruct (total =? 0); [discriminate|]. cbn zeta in V1. destruct (Zlen doc =? 0); [discriminate|]. injection V1 as V1. unfold Zlen in V1. lia. }
    destruct (d_slots d) as [|s l] eqn:Es; [cbn in V3; lia|]. destruct (d_rows d) as [|i m] eqn:Er; [cbn in K; lia|].
    pose proof (V4 s (or_introl eq_refl)) as Hs.
    assert (W : exists x, In (Z.to_nat s, x) (rounds_writes (doc :: docs) rounds)).
    { eexists. unfold rounds_writes. apply in_flat_map. exists (d :: ds). split; [exact Hr|]. unfold round_writes. cbn [combine flat_map fst snd]. apply in_or_app. left.
      unfold draw_writes. rewrite Es, Er. left. reflexivity. }
    destruct W as (x & W). unfold contents.
    destruct (last_write (rounds_writes (doc :: docs) rounds) (Z.to_nat s)) as [y|] eqn:E.
    2:{ exfalso. exact (proj1 (last_write_none _ _) E x W). }
    assert (In y (flat_map (fun k => match last_write (rounds_writes (doc :: docs) rounds) k with Some x => [x] | None => [] end) (seq 0 (Z.to_nat n)))).
    { apply in_flat_map. exists (Z.to_nat s). split; [apply in_seq; lia|]. rewrite E. left; reflexivity. }
    destruct (flat_map _ _); [contradiction|cbn; lia].
  Qed.
  (** An empty document ends the generator with an exception, in the first round *)
  Theorem empty_document n pre post rounds ds : 0 < n -> total_samples (pre ++ [] :: post) <> 0 ->
    forall dpre d dpost, ds = dpre ++ d :: dpost -> Forall2 (valid_draw n (total_samples (pre ++ [] :: post))) pre dpre ->
    sampler_process zero n (pre ++ [] :: post) (ds :: rounds) = Ok [Raise ValueError].
  Proof.
    intros Hn Ht dpre d dpost -> F. unfold sampler_process, make_reservoir. destruct (Z.leb_spec n 0); [lia|]. cbn [bind sampler_yields].
    set (t := total_samples _) in *. clearbody t.
    assert (G : forall ws r, inv zero n ws r -> exists r', sampler_round zero t r (pre ++ [] :: post) (dpre ++ d :: dpost) = (r', Raise ValueError)).
    { clear - F Hn Ht. induction F as [|a b pre dpre V F IH]; intros ws r I.
      - cbn [app sampler_round]. unfold update_reservoir, contribution. destruct (Z.eqb_spec t 0); [contradiction|]. cbn. eexists; reflexivity.
      - destruct (update_ok n t ws r a b Hn I V) as (r1 & E1 & _ & I1). cbn [app sampler_round]. rewrite E1. apply (IH _ _ I1). }
    destruct (G [] {| nsamples := n; arr := None; slots := [] |}) as (r' & ->); [|reflexivity].
    unfold inv. cbn. split; [reflexivity|]. split; [constructor|]. split; [|split; [intros k x []|reflexivity]].
    intros i. split; [intros []|intros [_ [x []]]].
  Qed.
  (** a database of empty documents, and an empty database *)
  Theorem nothing_to_sample n : 0 < n -> (forall doc docs d ds rounds, Forall (eq []) (doc :: docs) ->
      sampler_process zero n (doc :: docs) ((d :: ds) :: rounds) = Ok [Raise ZeroDivisionError]) /\
    (forall ds rounds, sampler_process zero n [] (ds :: rounds) = Ok [Raise TypeError]) /\
    (forall docs rounds m, m <= 0 -> sampler_process zero m docs rounds = Raise ValueError).
  Proof.
    intros Hn. split; [|split].
    - intros doc docs d ds rounds F. assert (T : total_samples (doc :: docs) = 0) by (unfold total_samples; induction F as [|x l H F IH]; [reflexivity|cbn [map fold_right]; rewrite IH, <- H; reflexivity]).
      unfold sampler_process, make_reservoir. destruct (Z.leb_spec n 0); [lia|]. rewrite T. cbn [bind sampler_yields sampler_round]. reflexivity.
    - intros ds rounds. unfold sampler_process, make_reservoir. destruct (Z.leb_spec n 0); [lia|]. destruct n; [lia|reflexivity|lia].
    - intros docs rounds m Hm. unfold sampler_process, make_reservoir. destruct (Z.leb_spec m 0); [reflexivity|lia].
  Qed.

  (** ** Threads *)
  Definition good_worker (n : nat) (w : worker A) : Prop :=
    length (w_slots w) = length (w_rows w) /\ forall i, In i (w_slots w) -> (i < n)%nat.
  (** a worker puts row x into slot i *)
  Definition puts (w : worker A) (i : nat) (x : A) : Prop := In (i, x) (combine (w_slots w) (w_rows w)).
  (** reading the reservoir while its array is number [a] *)
  Definition holds (a : nat) (s : shared A) (G : nat -> A -> Prop) (i : nat) : Prop :=
    exists x, nth_error (nth a (memory s) []) i = Some x /\ G i x.
  Definition pc_ok (a : nat) (s : shared A) (G : nat -> A -> Prop) (w : worker A) (p : pc) : Prop :=
    match p with
    | PCheck | PLoad | PWrapLoad => True
    | PWrapStore b => b = a
    | PWrite b => b = a
    | PRecord => forall i, In i (w_slots w) -> holds a s G i
    | PDone => forall i, In i (w_slots w) -> In i (recorded s)
    | PAlloc | PFailed => False
    end.
  Definition state_ok (n a : nat) (ws : list (worker A)) (G : nat -> A -> Prop) (pcs : list pc) (s : shared A) : Prop :=
    current s = Some a /\ (a < length (memory s))%nat /\ length (nth a (memory s) []) = n /\
    (forall i, In i (recorded s) -> holds a s G i) /\
    Forall2 (pc_ok a s G) ws pcs.

  Lemma set_nth_same (l : list (list A)) a x d : (a < length l)%nat -> nth a (set_nth a x l) d = x.
  Proof. intros H. apply nth_error_nth. rewrite nth_error_set_nth, Nat.eqb_refl by exact H. reflexivity. Qed.
  Lemma write_holds w arr i (n : nat) : good_worker n w -> length arr = n -> (i < n)%nat ->
    exists x, nth_error (write_rows w arr) i = Some x /\ (puts w i x \/ (nth_error arr i = Some x /\ ~ In i (w_slots w))).
  Proof.
    intros [L B] La Hi. assert (E := write_all_nth (combine (w_slots w) (w_rows w)) arr i).
    unfold write_all in E. unfold write_rows. rewrite E. 2:{ intros j x H. apply in_combine_l in H. rewrite La. exact (B j H). }
    destruct (last_write _ i) as [x|] eqn:Ew.
    - destruct (Nat.ltb_spec i (length arr)); [|lia]. exists x. split; [reflexivity|left]. apply last_write_in. exact Ew.
    - destruct (nth_error arr i) as [x|] eqn:Ex; [|apply nth_error_None in Ex; lia]. exists x. split; [reflexivity|right]. split; [reflexivity|].
      intros H. apply In_nth_error in H. destruct H as (k & Hk). assert (K : (k < length (w_rows w))%nat) by (rewrite <- L; apply nth_error_Some; congruence).
      destruct (nth_error (w_rows w) k) as [y|] eqn:Ey; [|apply nth_error_None in Ey; lia].
      apply (proj1 (last_write_none _ _) Ew y). clear - Hk Ey. revert k Hk Ey. generalize (w_rows w) as l. generalize (w_slots w) as m. induction m as [|a m IH]; intros [|b l] [|k] H1 H2; cbn in *; try discriminate; [injection H1 as ->; injection H2 as ->; left; reflexivity|right; exact (IH l k H1 H2)].
  Qed.
  Lemma pc_ok_mono a s s' G w p : (forall i, holds a s G i -> holds a s' G i) -> (forall i, In i (recorded s) -> In i (recorded s')) ->
    pc_ok a s G w p -> pc_ok a s' G w p.
  Proof. intros H R. destruct p; cbn; auto. Qed.
  Lemma wstep_ok n a ws (G : nat -> A -> Prop) w p s pcs t : Forall (good_worker n) ws -> (forall v i x, In v ws -> puts v i x -> G i x) ->
    state_ok n a ws G pcs s -> nth_error ws t = Some w -> nth_error pcs t = Some p ->
    state_ok n a ws G (set_nth t (fst (wstep zero n w p s)) pcs) (snd (wstep zero n w p s)).
  Proof.
    intros Gw Gp (C & La & Ln & R & F) Hw Hp.
    assert (Inw : In w ws) by (eapply nth_error_In; exact Hw).
    assert (Gww : good_worker n w) by (rewrite Forall_forall in Gw; apply Gw; exact Inw).
    assert (Pw : pc_ok a s G w p). { clear - F Hw Hp. revert t Hw Hp. induction F as [|x y ws pcs H F IH]; intros [|t] Hw Hp; try discriminate; cbn in *; [congruence|eauto]. }
    assert (Upd : forall s' p', (forall i, holds a s G i -> holds a s' G i) -> (forall i, In i (recorded s) -> In i (recorded s')) -> pc_ok a s' G w p' ->
              Forall2 (pc_ok a s' G) ws (set_nth t p' pcs)).
    { intros s' p' M1 M2 P'. clear - F Hw Hp M1 M2 P'. revert t Hw Hp. induction F as [|x y ws pcs H F IH]; intros [|t] Hw Hp; try discriminate; cbn in *.
      - injection Hw as ->. constructor; [exact P'|]. clear - F M1 M2. induction F as [|u v ws pcs H F IH]; constructor; [eapply pc_ok_mono; eassumption|exact IH].
      - constructor; [eapply pc_ok_mono; eassumption|]. eapply IH; eassumption. }
    destruct p as [| | |b| |b| | |]; cbn [wstep fst snd]; cbn [pc_ok] in Pw; try contradiction.
    - rewrite C. split; [exact C|]. split; [exact La|]. split; [exact Ln|]. split; [exact R|]. apply Upd; auto; exact I.
    - rewrite C. split; [exact C|]. split; [exact La|]. split; [exact Ln|]. split; [exact R|]. apply Upd; auto; reflexivity.
    - subst b. split; [reflexivity|]. split; [exact La|]. split; [exact Ln|]. split; [exact R|]. apply Upd; auto; exact I.
    - rewrite C. split; [exact C|]. split; [exact La|]. split; [exact Ln|]. split; [exact R|]. apply Upd; auto; reflexivity.
    - subst b. set (arr := nth a (memory s) []) in *.
      assert (Nth : nth a (set_nth a (write_rows w arr) (memory s)) [] = write_rows w arr) by (apply set_nth_same; exact La).
      assert (Lw : length (write_rows w arr) = n) by (rewrite <- Ln; apply (write_all_length (combine (w_slots w) (w_rows w)) arr)).
      assert (M : forall i, holds a s G i -> holds a {| memory := set_nth a (write_rows w arr) (memory s); current := current s; recorded := recorded s |} G i).
      { intros i (x & Hx & Gx). unfold holds. cbn [memory]. rewrite Nth. fold arr in Hx. assert (Hi : (i < n)%nat) by (rewrite <- Ln; apply nth_error_Some; congruence).
        destruct (write_holds w arr i n Gww Ln Hi) as (y & Hy & [Py|[Ey _]]); exists y; (split; [exact Hy|]).
        - exact (Gp w i y Inw Py).
        - rewrite Ey in Hx. injection Hx as ->. exact Gx. }
      unfold state_ok. cbn [current memory recorded]. split; [exact C|]. split; [rewrite set_nth_length; exact La|]. split; [rewrite Nth; exact Lw|]. split; [intros i Hi; apply M, R, Hi|].
      apply Upd; [exact M|auto|]. cbn [pc_ok]. intros i Hi. unfold holds. cbn [memory]. rewrite Nth. assert (Hn : (i < n)%nat) by (apply (proj2 Gww); exact Hi).
      destruct (write_holds w arr i n Gww Ln Hn) as (y & Hy & [Py|[_ No]]); [|contradiction]. exists y. split; [exact Hy|exact (Gp w i y Inw Py)].
    - unfold state_ok. cbn [current memory recorded]. split; [exact C|]. split; [exact La|]. split; [exact Ln|]. split.
      + intros i Hi. apply in_app_or in Hi. destruct Hi as [Hi|Hi]; [apply R in Hi|apply Pw in Hi]; exact Hi.
      + apply Upd; [intros i Hi; exact Hi|intros i Hi; cbn; apply in_or_app; left; exact Hi|]. cbn. intros i Hi. apply in_or_app. right; exact Hi.
    - split; [exact C|]. split; [exact La|]. split; [exact Ln|]. split; [exact R|]. apply Upd; auto.
  Qed.
  Lemma run_ok n a ws (G : nat -> A -> Prop) sched : Forall (good_worker n) ws -> (forall v i x, In v ws -> puts v i x -> G i x) ->
    forall pcs s, state_ok n a ws G pcs s ->
    state_ok n a ws G (fst (run_threads zero n ws sched pcs s)) (snd (run_threads zero n ws sched pcs s)).
  Proof.
    intros Gw Gp. induction sched as [|t sched IH]; intros pcs s H; [exact H|]. cbn [run_threads].
    destruct (nth_error ws t) as [w|] eqn:Ew; [|apply IH; exact H]. destruct (nth_error pcs t) as [p|] eqn:Ep; [|apply IH; exact H].
    pose proof (wstep_ok n a ws G w p s pcs t Gw Gp H Ew Ep) as K. destruct (wstep zero n w p s) as [p' s']. apply IH. exact K.
  Qed.
  Lemma start_ok n a ws G s : current s = Some a -> (a < length (memory s))%nat -> length (nth a (memory s) []) = n ->
    (forall i, In i (recorded s) -> holds a s G i) -> state_ok n a ws G (start_pcs ws) s.
  Proof. intros C L N R. split; [exact C|]. split; [exact L|]. split; [exact N|]. split; [exact R|]. unfold start_pcs. clear. induction ws; cbn; constructor; [exact I|assumption]. Qed.

  (** Once the reservoir has its array, threads cannot lose rows: whatever the schedule,
      every occupied slot holds what it held before or a row a thread put there, and a
      thread that has finished has its slots occupied. *)
  Theorem threads_keep_rows n a ws s sched : Forall (good_worker n) ws ->
    current s = Some a -> (a < length (memory s))%nat -> length (nth a (memory s) []) = n ->
    (forall i, In i (recorded s) -> (i < n)%nat) ->
    let '(pcs, s') := run_threads zero n ws sched (start_pcs ws) s in
    (forall i, In i (recorded s') -> exists x, slot_value s' i = Some x /\
       ((In i (recorded s) /\ slot_value s i = Some x) \/ exists w, In w ws /\ puts w i x)) /\
    (forall t w, nth_error ws t = Some w -> nth_error pcs t = Some PDone -> forall i, In i (w_slots w) -> In i (recorded s')) /\
    ~ In PFailed pcs.
  Proof.
    intros Gw C L N R. set (G := fun i x => (In i (recorded s) /\ slot_value s i = Some x) \/ exists w, In w ws /\ puts w i x).
    pose proof (run_ok n a ws G sched Gw (fun v i x Hv Hp => or_intror (ex_intro _ v (conj Hv Hp))) (start_pcs ws) s) as K.
    destruct (run_threads zero n ws sched (start_pcs ws) s) as [pcs s']. cbn [fst snd] in K.
    destruct K as (C' & L' & N' & R' & F').
    { apply start_ok; try assumption. intros i Hi. unfold holds. destruct (nth_error (nth a (memory s) []) i) as [x|] eqn:E.
      - exists x. split; [reflexivity|]. left. split; [exact Hi|]. unfold slot_value. rewrite C. exact E.
      - apply nth_error_None in E. specialize (R i Hi). lia. }
    split; [|split].
    - intros i Hi. destruct (R' i Hi) as (x & Hx & Gx). exists x. split; [unfold slot_value; rewrite C'; exact Hx|exact Gx].
    - intros t w Hw Hp i Hi. assert (P : pc_ok a s' G w PDone) by exact (f2_nth _ _ _ F' t w PDone Hw Hp).
      exact (P i Hi).
    - intros Hin. destruct (f2_in _ _ _ _ F' Hin) as (? & []).
  Qed.
  (** A thread that gets as many turns as it has steps finishes, whatever the others do *)
  Definition left_over (p : pc) : nat :=
    match p with PCheck => 4 | PAlloc => 6 | PWrapLoad => 5 | PWrapStore _ => 4 | PLoad => 3 | PWrite _ => 2 | PRecord => 1 | PDone | PFailed => 0 end.
  Theorem threads_finish n a ws s sched t w : Forall (good_worker n) ws ->
    current s = Some a -> (a < length (memory s))%nat -> length (nth a (memory s) []) = n ->
    (forall i, In i (recorded s) -> (i < n)%nat) ->
    nth_error ws t = Some w -> (4 <= count_occ Nat.eq_dec sched t)%nat ->
    nth_error (fst (run_threads zero n ws sched (start_pcs ws) s)) t = Some PDone.
  Proof.
    intros Gw C L N R Hw. set (G := fun (i : nat) (x : A) => True).
    assert (Gp : forall v i x, In v ws -> puts v i x -> G i x) by (intros; exact I).
    assert (S0 : state_ok n a ws G (start_pcs ws) s).
    { apply start_ok; try assumption. intros i Hi. unfold holds. destruct (nth_error (nth a (memory s) []) i) as [x|] eqn:E; [exists x; split; [reflexivity|exact I]|].
      apply nth_error_None in E. specialize (R i Hi). lia. }
    assert (P0 : nth_error (start_pcs ws) t = Some PCheck) by (unfold start_pcs; rewrite nth_error_map, Hw; reflexivity).
    change 4%nat with (left_over PCheck). revert S0 P0. generalize PCheck as p. generalize (start_pcs ws) as pcs. clear C L N R. revert s.
    induction sched as [|u sched IH]; intros s pcs p S P Hc.
    - cbn [count_occ] in Hc. cbn [run_threads fst]. rewrite P. assert (Pw : pc_ok a s G w p) by (destruct S as (_ & _ & _ & _ & F); exact (f2_nth _ _ _ F t w p Hw P)).
      destruct p; cbn [left_over] in Hc; try lia; [reflexivity|destruct Pw].
    - assert (Pw : pc_ok a s G w p) by (destruct S as (_ & _ & _ & _ & F); exact (f2_nth _ _ _ F t w p Hw P)).
      cbn [run_threads]. destruct (nth_error ws u) as [v|] eqn:Ev.
      2:{ assert (u <> t) by congruence. cbn [count_occ] in Hc. destruct (Nat.eq_dec u t); [contradiction|]. exact (IH s pcs p S P Hc). }
      destruct (nth_error pcs u) as [q|] eqn:Eq.
      2:{ assert (u <> t) by congruence. cbn [count_occ] in Hc. destruct (Nat.eq_dec u t); [contradiction|]. exact (IH s pcs p S P Hc). }
      pose proof (wstep_ok n a ws G v q s pcs u Gw Gp S Ev Eq) as K. destruct (wstep zero n v q s) as [q' s'] eqn:Es. cbn [fst snd] in K.
      assert (Lu : (u < length pcs)%nat) by (apply nth_error_Some; congruence).
      cbn [count_occ] in Hc. destruct (Nat.eq_dec u t) as [->|Ne].
      + assert (v = w) by congruence. assert (q = p) by congruence. subst v q.
        apply (IH s' _ q' K); [rewrite nth_error_set_nth, Nat.eqb_refl by exact Lu; reflexivity|].
        destruct S as (C & _). destruct p; cbn [pc_ok] in Pw; try contradiction; cbn [wstep left_over] in *; rewrite ?C in Es; injection Es as <- <-; cbn [left_over]; lia.
      + apply (IH s' _ p K); [|exact Hc]. rewrite nth_error_set_nth by exact Lu. destruct (Nat.eqb_spec t u); [congruence|exact P].
  Qed.

  (** In the first round the array is made by the threads themselves.  If one thread makes
      its first two steps (finding no array, allocating one) before any other starts, which
      holds when the round has one thread, nothing is lost either. *)
  Theorem first_round_alone n ws t w sched : Forall (good_worker n) ws -> nth_error ws t = Some w ->
    let '(pcs, s') := run_threads zero n ws (t :: t :: sched) (start_pcs ws) fresh in
    (forall i, In i (recorded s') -> exists x, slot_value s' i = Some x /\ exists v, In v ws /\ puts v i x) /\
    (forall u v, nth_error ws u = Some v -> nth_error pcs u = Some PDone -> forall i, In i (w_slots v) -> In i (recorded s')) /\
    ~ In PFailed pcs.
  Proof.
    intros Gw Hw. set (G := fun i x => exists v, In v ws /\ puts v i x).
    assert (P0 : nth_error (start_pcs ws) t = Some PCheck) by (unfold start_pcs; rewrite nth_error_map, Hw; reflexivity).
    assert (Lt : (t < length (start_pcs ws))%nat) by (apply nth_error_Some; congruence).
    cbn [run_threads]. rewrite Hw, P0. cbn [wstep fresh current]. rewrite nth_error_set_nth, Nat.eqb_refl by exact Lt. cbn [wstep fresh memory recorded app length].
    set (p2 := if w_dims w then PWrapLoad else PLoad). set (s2 := {| memory := [repeat zero n]; current := Some 0%nat; recorded := [] |}).
    set (pcs2 := set_nth t p2 (set_nth t PAlloc (start_pcs ws))).
    pose proof (run_ok n 0 ws G sched Gw (fun v i x Hv Hp => ex_intro _ v (conj Hv Hp)) pcs2 s2) as K.
    destruct (run_threads zero n ws sched pcs2 s2) as [pcs s']. cbn [fst snd] in K.
    destruct K as (C' & L' & N' & R' & F').
    { split; [reflexivity|]. split; [cbn; lia|]. split; [apply repeat_length|]. split; [intros i []|].
      unfold pcs2, p2, start_pcs. clearbody G. clear. revert t. induction ws as [|v ws IH]; intros t; [destruct t; constructor|]. cbn [map]. destruct t as [|t]; cbn [set_nth].
      - constructor; [destruct (w_dims w); exact I|]. clear. induction ws; constructor; [exact I|assumption].
      - constructor; [exact I|]. apply IH. }
    split; [|split].
    - intros i Hi. destruct (R' i Hi) as (x & Hx & Gx). exists x. split; [unfold slot_value; rewrite C'; exact Hx|exact Gx].
    - intros u v Hv Hp i Hi. assert (P : pc_ok 0 s' G v PDone) by exact (f2_nth _ _ _ F' u v PDone Hv Hp).
      exact (P i Hi).
    - intros Hin. destruct (f2_in _ _ _ _ F' Hin) as (? & []).
  Qed.
  (** Otherwise two threads may both find no array: the rows of the one whose array is
      replaced are lost, and its slots, counted as occupied, read as zeros. *)
  Theorem first_round_race_refuted (x y : A) :
    let ws := [{| w_rows := [x]; w_slots := [0%nat]; w_dims := false |}; {| w_rows := [y]; w_slots := [1%nat]; w_dims := false |}] in
    let '(pcs, s') := run_threads zero 2 ws [0;1;0;0;0;0;1;1;1;1]%nat (start_pcs ws) fresh in
    pcs = [PDone; PDone] /\ recorded s' = [0; 1]%nat /\ slot_value s' 0 = Some zero /\ slot_value s' 1 = Some y.
  Proof. cbn. repeat split. Qed.
End Rounds.

Example sampler_example :
  let docs := [[10; 20; 30]; [40]] in
  let rounds := [[{| d_rows := [0; 2; 2]; d_slots := [0; 1; 3] |}; {| d_rows := [0]; d_slots := [1] |}];
                 [{| d_rows := [1; 1; 0]; d_slots := [2; 2; 0] |}; {| d_rows := [0]; d_slots := [3] |}]] in
  Forall (Forall2 (valid_draw 4 (total_samples docs)) docs) rounds /\
  sampler_process 0 4 docs rounds = Ok [Ok [10; 40; 30]; Ok [10; 40; 20; 40]].
Proof.
  split; [|vm_compute; reflexivity].
  assert (D : forall n t doc d, contribution n (Zlen doc) t = Ok (Zlen (d_rows d)) -> forallb (fun i => (0 <=? i) && (i <? Zlen doc))%bool (d_rows d) = true ->
     (length (d_slots d) =? length (d_rows d))%nat = true -> forallb (fun i => (0 <=? i) && (i <? n))%bool (d_slots d) = true -> @valid_draw Z n t doc d).
  { intros n t doc d H1 H2 H3 H4. split; [exact H1|]. rewrite forallb_forall in H2, H4. split; [intros i Hi; specialize (H2 i Hi); lia|]. split; [apply Nat.eqb_eq; exact H3|intros i Hi; specialize (H4 i Hi); lia]. }
  repeat (apply Forall_cons || apply Forall_nil || apply Forall2_cons || apply Forall2_nil); apply D; vm_compute; reflexivity.
Qed.
Example threads_example :
  let ws := [{| w_rows := [11; 12]; w_slots := [0; 2]%nat; w_dims := true |}; {| w_rows := [13]; w_slots := [2%nat]; w_dims := true |}] in
  Forall (good_worker 3) ws /\
  run_threads 0 3 ws [0;0;1;0;1;0;0;1;0;1;0]%nat (start_pcs ws) fresh
  = ([PDone; PDone], {| memory := [[11; 0; 12]]; current := Some 0%nat; recorded := [2; 0; 2]%nat |}).
Proof.
  split; [|reflexivity]. apply Forall_cons; [|apply Forall_cons; [|apply Forall_nil]]; (split; [reflexivity|]); cbn; intros i Hi; intuition lia.
Qed.
