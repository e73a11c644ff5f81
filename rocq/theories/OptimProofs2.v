(** Proofs about the trainers of one network (Optim.v). *)
From Coq Require Import Lia.
From Verif Require Import PyBase PyFacts PyMore PyRange Optim OptimProofs.
Local Open Scope Z_scope.

Section Single.
  Context {V S : Type} (vzero : V -> V) (vadd : V -> V -> V) (adam : S -> V -> V -> V * S) (s0 : S) (to_none : bool).
  Context (zero_l : forall h g, vadd (vzero h) g = g).
  Notation zero_grad := (zero_grad vzero to_none).
  Notation accumulate := (accumulate vadd).
  Notation opt_step := (opt_step adam).
  Notation held := (adam_held adam).

  (** The state seen from outside: optimizer states and values; flags never change *)
  Definition state_is (req : list bool) (q : opt S * list V) (st : single V S) : Prop :=
    n_opt st = Some (fst q) /\ vals (n_params st) = snd q /\ map p_req (n_params st) = req /\
    held_trainable (fst q) (n_params st) /\ existsb p_req (n_params st) = true.

  (** zero_grad, backward and step: a step of the held parameters with this gradient *)
  Lemma one_step req q st gs : state_is req q st -> length gs = length (snd q) ->
    let ps := zero_grad (n_params st) in
    exists ps2, backward vadd [(ps, map Some gs)] = Ok [ps2] /\
    let '(o', ps') := opt_step (fst q) ps2 in
    state_is req (held (fst q) (snd q) gs) {| n_params := ps'; n_opt := Some o'; n_epoch := n_epoch st |}.
  Proof.
    intros (A1 & A2 & A3 & A4 & A5) Lg ps.
    assert (Vp : vals ps = snd q) by (unfold ps; rewrite zero_vals; exact A2).
    assert (Rp : map p_req ps = req) by (unfold ps; rewrite zero_req; exact A3).
    assert (Ex : forall l : list (param V), existsb p_req l = existsb (fun b => b) (map p_req l)) by (induction l as [|x l IH]; [reflexivity|cbn; rewrite IH; reflexivity]).
    assert (Ep : existsb p_req ps = true) by (rewrite Ex, Rp, <- A3, <- Ex; exact A5).
    assert (Lp : length gs = length ps) by (rewrite Lg, <- Vp, vals_length; reflexivity).
    assert (Hp : held_trainable (fst q) ps).
    { unfold held_trainable in *. clear - A4. unfold ps, Optim.zero_grad. induction A4 as [|s p o l H F IH]; cbn [map]; constructor; [exact H|exact IH]. }
    exists (accumulate ps (map Some gs)). split.
    - unfold backward. cbn [existsb fst snd map]. rewrite (reached_some ps gs Ep Lp). reflexivity.
    - pose proof (step_spec vzero vadd adam zero_l (fst q) ps gs Hp (zero_clean vzero to_none _) Lp) as K.
      destruct (opt_step (fst q) (accumulate ps (map Some gs))) as [o' ps']. destruct K as (E & R & H & _). rewrite Vp in E.
      unfold state_is. cbn [n_opt n_params]. rewrite <- E. cbn [fst snd]. repeat split; [congruence|exact H|]. rewrite Ex, R, <- Ex. exact Ep.
  Qed.

  (** ** Loops *)
  Section Loops.
    Context {R : Type} (f : Z -> Z -> single V S -> single V S * result R)
            (next : opt S * list V -> Z * Z -> opt S * list V) (rep : opt S * list V -> Z * Z -> R) (req : list bool).
    Context (f_ok : forall e b q st, state_is req q st ->
      exists st', f e b st = (st', Ok (rep q (e, b))) /\ state_is req (next q (e, b)) st' /\ n_epoch st' = n_epoch st).
    Fixpoint reps (q : opt S * list V) (ps : list (Z * Z)) : list R :=
      match ps with [] => [] | p :: ps' => rep q p :: reps (next q p) ps' end.
    Lemma reps_app ps : forall qs q, reps q (ps ++ qs) = reps q ps ++ reps (fold_left next ps q) qs.
    Proof. induction ps as [|p ps IH]; intros qs q; [reflexivity|]. cbn [app reps fold_left]. rewrite IH. reflexivity. Qed.
    Lemma steps_ok e bs : forall q st, state_is req q st ->
      exists st', steps f e bs st = (st', reps q (map (pair e) bs), Ok tt) /\ state_is req (fold_left next (map (pair e) bs) q) st' /\ n_epoch st' = n_epoch st.
    Proof.
      induction bs as [|b bs IH]; intros q st H; [exists st; repeat split; apply H|]. cbn [steps map reps fold_left].
      destruct (f_ok e b q st H) as (s1 & E1 & H1 & P1). rewrite E1. destruct (IH _ _ H1) as (s2 & E2 & H2 & P2). rewrite E2. exists s2. split; [reflexivity|]. split; [exact H2|congruence].
    Qed.
    Lemma epochs_steps_ok lim bs n : forall epoch q st, state_is req q st ->
      let m := Nat.min n (Z.to_nat (lim - epoch)) in
      exists st', epochs_of_steps f (fun e => lim <=? e) bs n epoch st = (st', reps q (epoch_pairs bs epoch m), Ok tt) /\
        state_is req (fold_left next (epoch_pairs bs epoch m) q) st' /\ n_epoch st' = n_epoch st + Z.of_nat m.
    Proof.
      induction n as [|n IH]; intros epoch q st H m.
      - exists st. unfold m. cbn. split; [reflexivity|]. split; [exact H|lia].
      - cbn [epochs_of_steps]. destruct (Z.leb_spec lim epoch) as [Le|Lt].
        + assert (M0 : m = 0%nat) by (unfold m; lia). rewrite M0. exists st. cbn. split; [reflexivity|]. split; [exact H|lia].
        + destruct (steps_ok epoch bs q st H) as (s1 & E1 & H1 & P1). rewrite E1.
          set (s1' := {| n_params := n_params s1; n_opt := n_opt s1; n_epoch := n_epoch s1 + 1 |}).
          destruct (IH (epoch + 1) _ s1' H1) as (s2 & E2 & H2 & P2). rewrite E2.
          assert (Em : m = Datatypes.S (Nat.min n (Z.to_nat (lim - (epoch + 1))))) by (unfold m; lia).
          rewrite Em. set (m' := Nat.min n (Z.to_nat (lim - (epoch + 1)))) in *. rewrite epoch_pairs_S, reps_app.
          exists s2. split; [reflexivity|]. split; [rewrite fold_left_app; exact H2|]. rewrite P2. unfold s1'. cbn [n_epoch]. lia.
    Qed.
  End Loops.

  Section Trainers.
    Context {A L : Type}.
    Context (t_loss : list V -> list A -> list A -> list A -> L * list V) (cut : A -> A)
            (anchors negatives : Z -> Z -> list Z) (pick : Z -> Z -> nat)
            (s_loss : list V -> list A -> L * list V) (crashes : Z -> Z -> option bool) (python2 : bool).
    Context (wide neg : Z -> Z -> list A) (deform : Z -> Z -> list A -> list A -> list A).
    Notation triplet_fit := (triplet_fit vzero vadd adam s0 to_none t_loss cut anchors negatives pick).
    Notation supervised_fit := (supervised_fit vzero vadd adam to_none s_loss crashes python2).
    Notation supervised_step := (supervised_step vzero vadd adam to_none s_loss crashes python2).

    (** Specification of a triplet step: anchors and positives come from the same drawn
        examples, the positives by the deformation chosen *)
    Definition triplet_eval (v : list V) (p : Z * Z) : L * list V :=
      let w := wide (fst p) (snd p) in
      let a := map cut w in
      t_loss v a (deform (fst p) (snd p) a w) (map cut (neg (fst p) (snd p))).
    Definition triplet_next (q : opt S * list V) (p : Z * Z) : opt S * list V := held (fst q) (snd q) (snd (triplet_eval (snd q) p)).
    Definition triplet_rep (q : opt S * list V) (p : Z * Z) : L := fst (triplet_eval (snd q) p).
    Definition fresh_opt (req : list bool) : opt S := map (fun b : bool => if b then Some s0 else None) req.

    (** Every call starts Adam afresh, on the parameters that are trainable *)
    Theorem triplet_reference fs batch epochs checkpoint data (st : single V S) :
      (forall v a p n, length (snd (t_loss v a p n)) = length v) ->
      (forall e b, mapM (py_get data) (anchors e b) = Ok (wide e b) /\ mapM (py_get data) (negatives e b) = Ok (neg e b) /\ nth_error fs (pick e b) = Some (deform e b)) ->
      0 < batch -> existsb p_req (n_params st) = true ->
      let m := Nat.min (Z.to_nat checkpoint) (Z.to_nat (epochs + 1 - n_epoch st)) in
      let pairs := epoch_pairs (zrange (Zlen data / batch)) (n_epoch st) m in
      let q := (fresh_opt (map p_req (n_params st)), vals (n_params st)) in
      exists st', triplet_fit (Some fs) batch epochs checkpoint data st = (st', reps triplet_next triplet_rep q pairs, Ok tt) /\
        vals (n_params st') = snd (fold_left triplet_next pairs q) /\
        n_opt st' = Some (fst (fold_left triplet_next pairs q)) /\
        map p_req (n_params st') = map p_req (n_params st) /\ n_epoch st' = n_epoch st + Z.of_nat m.
    Proof.
      intros Sh Dr Hb Ex m pairs q. unfold Optim.triplet_fit.
      assert (Io : opt_init s0 (n_params st) = Ok (fst q)) by (unfold opt_init; rewrite Ex; unfold q, fresh_opt; cbn [fst]; rewrite map_map; reflexivity).
      rewrite Io. destruct (Z.eqb_spec batch 0); [lia|]. cbn [n_epoch].
      set (st1 := {| n_params := n_params st; n_opt := Some (fst q); n_epoch := n_epoch st |}).
      assert (H1 : state_is (map p_req (n_params st)) q st1).
      { unfold state_is, st1. cbn [n_opt n_params]. repeat split; [|exact Ex]. exact (init_spec s0 _ _ Io). }
      pose proof (epochs_steps_ok (triplet_step vzero vadd adam to_none t_loss cut anchors negatives pick (Some fs) data) triplet_next triplet_rep (map p_req (n_params st))) as K.
      assert (Fok : forall e b q st, state_is (map p_req (n_params st1)) q st ->
         exists st', triplet_step vzero vadd adam to_none t_loss cut anchors negatives pick (Some fs) data e b st = (st', Ok (triplet_rep q (e, b))) /\
           state_is (map p_req (n_params st1)) (triplet_next q (e, b)) st' /\ n_epoch st' = n_epoch st).
      { clear K H1 Io. intros e b q' st' H'. unfold triplet_step. cbn [n_params n_opt n_epoch]. destruct (Dr e b) as (D1 & D2 & D3). rewrite D1, D2, D3.
        rewrite zero_vals. pose proof H' as (B1 & B2 & _). rewrite B2. unfold triplet_rep, triplet_next, triplet_eval. cbn [fst snd].
        pose proof (Sh (snd q') (map cut (wide e b)) (deform e b (map cut (wide e b)) (wide e b)) (map cut (neg e b))) as Lg.
        destruct (t_loss _ _ _ _) as [l gs]. cbn [fst snd] in *.
        destruct (one_step _ q' st' gs H' Lg) as (ps2 & -> & K). rewrite B1. destruct (opt_step (fst q') ps2) as [o' ps']. eexists. split; [reflexivity|]. split; [exact K|reflexivity]. }
      specialize (K Fok (epochs + 1) (zrange (Zlen data / batch)) (Z.to_nat checkpoint) (n_epoch st) q st1 H1). cbv zeta in K. fold m pairs in K. destruct K as (st2 & E2 & H2 & P2).
      assert (Stop : forall n e s, epochs_of_steps (triplet_step vzero vadd adam to_none t_loss cut anchors negatives pick (Some fs) data) (fun e => epochs <? e) (zrange (Zlen data / batch)) n e s
               = epochs_of_steps (triplet_step vzero vadd adam to_none t_loss cut anchors negatives pick (Some fs) data) (fun e => epochs + 1 <=? e) (zrange (Zlen data / batch)) n e s).
      { clear. induction n as [|n IH]; intros e s; [reflexivity|]. cbn [epochs_of_steps]. replace (epochs <? e) with (epochs + 1 <=? e) by (destruct (Z.ltb_spec epochs e), (Z.leb_spec (epochs + 1) e); lia || reflexivity).
        destruct (epochs + 1 <=? e); [reflexivity|]. destruct (steps _ e _ s) as [[s1 ls] [u|ex]]; [|reflexivity]. rewrite IH. reflexivity. }
      rewrite Stop. exists st2. split; [exact E2|]. destruct H2 as (C1 & C2 & C3 & _). repeat split; assumption.
    Qed.
    (** Frozen parameters stay as they are *)
    Lemma held_frozen o : forall vs gs j, nth_error o j = Some None -> nth_error (fst (held o vs gs)) j = Some None /\ nth_error (snd (held o vs gs)) j = nth_error vs j.
    Proof.
      induction o as [|s o IH]; intros vs gs j H; [destruct j; discriminate|]. destruct vs as [|v vs]; [destruct s; (split; [exact H|reflexivity])|].
      destruct gs as [|g gs]; [destruct s; (split; [exact H|reflexivity])|]. specialize (IH vs gs). cbn [adam_held].
      destruct s as [s|]; [destruct (adam s v g) as [v' s']|]; destruct (held o vs gs) as [a b]; (destruct j as [|j]; [try discriminate H; split; reflexivity|]); cbn in *; apply IH; exact H.
    Qed.
    Lemma fold_frozen ps : forall q j, nth_error (fst q) j = Some None -> nth_error (snd (fold_left triplet_next ps q)) j = nth_error (snd q) j.
    Proof.
      induction ps as [|p ps IH]; intros q j H; [reflexivity|]. cbn [fold_left]. destruct (held_frozen (fst q) (snd q) (snd (triplet_eval (snd q) p)) j H) as [A1 A2].
      rewrite IH by exact A1. exact A2.
    Qed.
    Theorem triplet_frozen fs batch epochs checkpoint data (st : single V S) j v :
      (forall v a p n, length (snd (t_loss v a p n)) = length v) ->
      (forall e b, mapM (py_get data) (anchors e b) = Ok (wide e b) /\ mapM (py_get data) (negatives e b) = Ok (neg e b) /\ nth_error fs (pick e b) = Some (deform e b)) ->
      0 < batch -> existsb p_req (n_params st) = true ->
      nth_error (map p_req (n_params st)) j = Some false -> nth_error (vals (n_params st)) j = Some v ->
      nth_error (vals (n_params (fst (fst (triplet_fit (Some fs) batch epochs checkpoint data st))))) j = Some v.
    Proof.
      intros Sh Dr Hb Ex Fj Vj. destruct (triplet_reference fs batch epochs checkpoint data st Sh Dr Hb Ex) as (st' & E & Vs & _). rewrite E. cbn [fst]. rewrite Vs.
      rewrite fold_frozen; [exact Vj|]. cbn [fst]. unfold fresh_opt. rewrite nth_error_map, Fj. reflexivity.
    Qed.
    (** no deformations, or none to choose from *)
    Theorem triplet_no_deformation fs e b data st : anchors e b = [] -> negatives e b = [] ->
      snd (triplet_step vzero vadd adam to_none t_loss cut anchors negatives pick fs data e b st)
      = match fs with None => Raise TypeError | Some [] => Raise IndexError
        | Some l => snd (triplet_step vzero vadd adam to_none t_loss cut anchors negatives pick (Some l) data e b st) end.
    Proof. intros Ha Hn. unfold triplet_step. rewrite Ha, Hn. cbn [mapM]. destruct fs as [[|f fs]|]; [|reflexivity|reflexivity]. destruct (pick e b); reflexivity. Qed.

    (** *** The supervised trainer *)
    Definition supervised_next (batch : Z) (train : list A) (q : opt S * list V) (p : Z * Z) : opt S * list V :=
      match crashes (fst p) (snd p) with
      | Some _ => q
      | None => held (fst q) (snd q) (snd (s_loss (snd q) (py_slice (Some (snd p)) (Some (snd p + batch)) train)))
      end.
    Definition supervised_rep (batch : Z) (train : list A) (q : opt S * list V) (p : Z * Z) : option L :=
      match crashes (fst p) (snd p) with
      | Some _ => None
      | None => Some (fst (s_loss (snd q) (py_slice (Some (snd p)) (Some (snd p + batch)) train)))
      end.
    Lemma supervised_step_ok batch train req e b q st : (forall v xs, length (snd (s_loss v xs)) = length v) ->
      (forall e i, crashes e i = None \/ (python2 = true /\ crashes e i = Some true)) -> state_is req q st ->
      exists st', supervised_step batch train e b st = (st', Ok (supervised_rep batch train q (e, b))) /\ state_is req (supervised_next batch train q (e, b)) st' /\ n_epoch st' = n_epoch st.
    Proof.
      intros Sh Cr H'. unfold Optim.supervised_step, supervised_rep, supervised_next. cbn [n_params n_opt n_epoch fst snd]. destruct (Cr e b) as [-> | [-> ->]].
      - rewrite zero_vals. pose proof H' as (B1 & B2 & _). rewrite B2. pose proof (Sh (snd q) (py_slice (Some b) (Some (b + batch)) train)) as Lg.
        destruct (s_loss _ _) as [l gs]. cbn [fst snd] in *. destruct (one_step _ q st gs H' Lg) as (ps2 & -> & K). rewrite B1. destruct (opt_step (fst q) ps2) as [o' ps'].
        eexists. split; [reflexivity|]. split; [exact K|reflexivity].
      - eexists. split; [reflexivity|]. split; [|reflexivity]. destruct H' as (B1 & B2 & B3 & B4 & B5). unfold state_is. cbn [n_opt n_params]. rewrite zero_vals, zero_req.
        repeat split; try assumption.
        + clear - B4. unfold held_trainable in *. unfold Optim.zero_grad. induction B4 as [|s p o l H F IH]; cbn [map]; constructor; [exact H|exact IH].
        + clear - B5. unfold Optim.zero_grad. induction (n_params st) as [|p l IH]; [exact B5|]. cbn [map existsb p_req] in *. apply orb_true_iff in B5. apply orb_true_iff. destruct B5 as [B5|B5]; [left; exact B5|right; exact (IH B5)].
    Qed.
    (** The optimizer made at construction goes on from call to call *)
    Theorem supervised_reference batch epochs checkpoint train req q st :
      (forall v xs, length (snd (s_loss v xs)) = length v) ->
      (forall e i, crashes e i = None \/ (python2 = true /\ crashes e i = Some true)) -> 0 < batch -> state_is req q st ->
      exists is, py_range 0 (Zlen train) batch = Ok is /\
      let m := Nat.min (Z.to_nat checkpoint) (Z.to_nat (epochs - n_epoch st)) in
      let pairs := epoch_pairs is (n_epoch st) m in
      exists st', supervised_fit batch epochs checkpoint train st = (st', reps (supervised_next batch train) (supervised_rep batch train) q pairs, Ok tt) /\
        state_is req (fold_left (supervised_next batch train) pairs q) st' /\ n_epoch st' = n_epoch st + Z.of_nat m.
    Proof.
      intros Sh Cr Hb H. assert (exists is, py_range 0 (Zlen train) batch = Ok is) as (is & Pr) by (unfold py_range; destruct (Z.eqb_spec batch 0); [lia|]; eexists; reflexivity).
      exists is. split; [exact Pr|]. intros m pairs. unfold Optim.supervised_fit. rewrite Pr.
      apply (epochs_steps_ok (supervised_step batch train) _ _ req); [|exact H]. intros e b q' st' H'. apply supervised_step_ok; assumption.
    Qed.
    Fixpoint supervised_calls (batch epochs checkpoint : Z) (train : list A) (k : nat) (st : single V S) : single V S * list (option L) * result unit :=
      match k with
      | O => (st, [], Ok tt)
      | Datatypes.S k' =>
          match supervised_fit batch epochs checkpoint train st with
          | (st', rs, Raise e) => (st', rs, Raise e)
          | (st', rs, Ok _) => let '(st'', rs', o) := supervised_calls batch epochs checkpoint train k' st' in (st'', rs ++ rs', o)
          end
      end.
    Theorem supervised_checkpoints batch epochs checkpoint train req q st k :
      (forall v xs, length (snd (s_loss v xs)) = length v) ->
      (forall e i, crashes e i = None \/ (python2 = true /\ crashes e i = Some true)) -> 0 < batch -> state_is req q st -> n_epoch st = 0 ->
      exists is, py_range 0 (Zlen train) batch = Ok is /\
      let m := Nat.min (k * Z.to_nat checkpoint) (Z.to_nat epochs) in
      exists st', supervised_calls batch epochs checkpoint train k st = (st', reps (supervised_next batch train) (supervised_rep batch train) q (epoch_pairs is 0 m), Ok tt) /\
        state_is req (fold_left (supervised_next batch train) (epoch_pairs is 0 m) q) st' /\ n_epoch st' = Z.of_nat m.
    Proof.
      intros Sh Cr Hb H E0. assert (exists is, py_range 0 (Zlen train) batch = Ok is) as (is & Pr) by (unfold py_range; destruct (Z.eqb_spec batch 0); [lia|]; eexists; reflexivity).
      exists is. split; [exact Pr|].
      assert (G : forall k a st q, state_is req q st -> n_epoch st = Z.of_nat a ->
        let m := Nat.min (k * Z.to_nat checkpoint) (Z.to_nat epochs - a) in
        exists st', supervised_calls batch epochs checkpoint train k st = (st', reps (supervised_next batch train) (supervised_rep batch train) q (epoch_pairs is (Z.of_nat a) m), Ok tt) /\
        state_is req (fold_left (supervised_next batch train) (epoch_pairs is (Z.of_nat a) m) q) st' /\ n_epoch st' = Z.of_nat (a + m)).
      { clear - Sh Cr Hb Pr zero_l. induction k as [|k IH]; intros a st q H Ea m.
        - exists st. unfold m. cbn. split; [reflexivity|]. split; [exact H|]. rewrite Ea. f_equal. lia.
        - cbn [supervised_calls]. destruct (supervised_reference batch epochs checkpoint train req q st Sh Cr Hb H) as (is' & Pr' & s1 & E1 & H1 & P1).
          assert (is' = is) by congruence. subst is'. clear Pr'. rewrite E1. clear E1. rewrite Ea in *.
          set (m1 := Nat.min (Z.to_nat checkpoint) (Z.to_nat (epochs - Z.of_nat a))) in *.
          destruct (IH (a + m1)%nat s1 _ H1 ltac:(lia)) as (s2 & E2 & H2 & P2). rewrite E2.
          assert (Em : m = (m1 + Nat.min (k * Z.to_nat checkpoint) (Z.to_nat epochs - (a + m1)))%nat).
          { unfold m, m1. cbn [Nat.mul]. replace (Z.to_nat (epochs - Z.of_nat a)) with (Z.to_nat epochs - a)%nat by lia. lia. }
          rewrite Em. clear Em m. rewrite <- epoch_pairs_app. rewrite reps_app. rewrite Nat2Z.inj_add in E2, H2. exists s2. split; [rewrite Nat2Z.inj_add; reflexivity|].
          split; [rewrite fold_left_app; exact H2|]. rewrite P2. f_equal. lia. }
      intros m. destruct (G k 0%nat st q H E0) as (st' & E & H' & P). rewrite Nat.sub_0_r in *. exists st'. split; [exact E|]. split; [exact H'|exact P].
    Qed.
    (** A RuntimeError in the forward pass, on Python 2: a failed assertion skips the batch,
        any other ends the training; no value changes *)
    Theorem supervised_crash_python2 batch train e i st a : crashes e i = Some a -> python2 = true ->
      snd (supervised_step batch train e i st) = (if a then Ok None else Raise RuntimeError) /\
      vals (n_params (fst (supervised_step batch train e i st))) = vals (n_params st) /\ n_opt (fst (supervised_step batch train e i st)) = n_opt st.
    Proof. intros C P. unfold Optim.supervised_step. rewrite C, P. cbn. split; [reflexivity|]. split; [apply zero_vals|reflexivity]. Qed.
    (** A RuntimeError in the forward pass: on Python 3 the handler itself fails; no value changes *)
    Theorem supervised_crash_refuted batch train e i st a : crashes e i = Some a -> python2 = false ->
      snd (supervised_step batch train e i st) = Raise AttributeError /\
      vals (n_params (fst (supervised_step batch train e i st))) = vals (n_params st).
    Proof. intros C P. unfold Optim.supervised_step. rewrite C, P. cbn. split; [reflexivity|apply zero_vals]. Qed.
  End Trainers.
End Single.

(** ** Cases *)
(** Adam's place is taken by momentum on integers: the state is the velocity *)
Definition momentum (s v g : Z) : Z * Z := (v - (s + g), s + g).
(** Stopping for a checkpoint changes what the triplet trainer learns *)
Theorem triplet_checkpoint_refuted :
  let fit := triplet_fit (fun _ => 0) Z.add momentum 0 true (fun v _ _ _ => (0, map (fun _ => 1) v)) (fun x : Z => x) (fun _ _ => [0]) (fun _ _ => [0]) (fun _ _ => 0%nat) (Some [fun a _ => a]) in
  let st := {| n_params := [{| p_val := 0; p_grad := None; p_req := true |}]; n_opt := None; n_epoch := 0 |} in
  let once := fst (fst (fit 1 10 2 [5] st)) in
  let twice := fst (fst (fit 1 10 1 [5] (fst (fst (fit 1 10 1 [5] st))))) in
  n_epoch once = 2 /\ n_epoch twice = 2 /\ vals (n_params once) = [-3] /\ vals (n_params twice) = [-2].
Proof. repeat split. Qed.
(** Parameters frozen by the user are unfrozen and trained *)
Definition toy_gan := gan_train (fun _ => 0) Z.add momentum 0 true (fun e => e)
  (fun (_ : Z) (g c : list Z) (xs : list Z) (z : Z) => (z, 7, map (fun v => v + fold_right Z.add 0 xs) c))
  (fun _ g c z => (z, map (fun v => v + 1) g, c)) (fun _ _ _ => [0]) (fun _ _ _ => 3) (fun _ _ => 2).
Theorem gan_unfreezes_refuted :
  let st := {| g_gen := [{| p_val := 10; p_grad := None; p_req := false |}]; g_crit := [{| p_val := 20; p_grad := Some 99; p_req := false |}];
               g_gopt := None; g_copt := None; g_epoch := 0 |} in
  toy_gan 2 1 5 1 [4] st
  = ({| g_gen := [{| p_val := -1; p_grad := Some 11; p_req := true |}]; g_crit := [{| p_val := -28; p_grad := None; p_req := false |}];
        g_gopt := Some [Some 11]; g_copt := Some [Some 24]; g_epoch := 1 |}, [{| r_epoch := 0; r_batch := 0; r_gen := 2; r_real := 7; r_critic := 3 |}], Ok tt).
Proof. reflexivity. Qed.
(** positions within the data draw rows of the data, so many *)
Theorem minibatch_rows {A} (data : list A) ix : (forall i, In i ix -> 0 <= i < Zlen data) ->
  exists rows, mapM (py_get data) ix = Ok rows /\ length rows = length ix /\
    Forall2 (fun i x => nth_error data (Z.to_nat i) = Some x) ix rows.
Proof.
  induction ix as [|i ix IH]; intros H; [exists []; repeat split; constructor|].
  destruct (IH (fun j Hj => H j (or_intror Hj))) as (rows & E & L & F). pose proof (H i (or_introl eq_refl)) as Hi. unfold Zlen in Hi.
  destruct (nth_error data (Z.to_nat i)) as [x|] eqn:Ex; [|apply nth_error_None in Ex; lia].
  exists (x :: rows). cbn [mapM]. unfold py_get at 1. destruct (Z.ltb_spec i 0); [lia|]. cbv zeta. destruct (Z.ltb_spec i 0); [lia|]. rewrite Ex. cbn [bind]. rewrite E. cbn. repeat split; [lia|]. constructor; assumption.
Qed.
Example gan_hypotheses :
  d_shaped (fun (_ : Z) (g c : list Z) (xs : list Z) (z : Z) => (z, 7, map (fun v => v + fold_right Z.add 0 xs) c)) /\
  g_shaped (fun (_ : Z) g c (z : Z) => (z, map (fun v => v + 1) g, c)) /\
  drawn (fun _ _ _ => [0]) (fun _ _ _ => [4]) [4] /\
  start_ref 0 {| g_gen := [{| p_val := 10; p_grad := None; p_req := false |}]; g_crit := [{| p_val := 20; p_grad := Some 99; p_req := false |}];
               g_gopt := None; g_copt := None; g_epoch := 0 |} {| f_gen := [10]; f_gs := [0]; f_crit := [20]; f_cs := [0] |}.
Proof.
  split; [intros k g c xs z; cbn; apply map_length|]. split; [intros k g c z; cbn; rewrite map_length; split; reflexivity|]. split; [intros e i c; reflexivity|].
  unfold start_ref. cbn. repeat split; try discriminate. right. repeat split. left. reflexivity.
Qed.
Example single_hypotheses :
  state_is [true; false] ([Some 3; None], [5; 6])
    {| n_params := [{| p_val := 5; p_grad := Some 1; p_req := true |}; {| p_val := 6; p_grad := None; p_req := false |}]; n_opt := Some [Some 3; None]; n_epoch := 0 |} /\
  fold_left (supervised_next momentum (fun v xs => (0, map (fun x => x + fold_right Z.add 0 xs) v)) (fun _ _ => None) 2 [1; 2; 3]) (epoch_pairs [0; 2] 0 1) ([Some 3; None], [5; 6])
  = ([Some 8; None], [-14; 6]).
Proof. split; [|reflexivity]. unfold state_is. cbn. repeat split. repeat constructor. intros N; contradiction. Qed.
