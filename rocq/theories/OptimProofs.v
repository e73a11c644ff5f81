(** Proofs about the trainers' gradients and optimizers (Optim.v). *)
From Coq Require Import Lia.
From Verif Require Import PyBase PyFacts PyMore PyRange Optim.
Local Open Scope Z_scope.

Section Proofs.
  Context {V S : Type} (vzero : V -> V) (vadd : V -> V -> V) (adam : S -> V -> V -> V * S) (s0 : S) (to_none : bool).
  Context (zero_l : forall h g, vadd (vzero h) g = g).
  Notation zero_grad := (zero_grad vzero to_none).
  Notation accumulate := (accumulate vadd).
  Notation opt_step := (opt_step adam).

  (** ** Specification: one optimizer step with given gradients.  Parameters the
      optimizer does not hold stay as they are. *)
  Fixpoint adam_held (o : opt S) (vs gs : list V) : opt S * list V :=
    match o, vs, gs with
    | Some s :: o', v :: vs', g :: gs' =>
        let '(v', s') := adam s v g in let '(a, b) := adam_held o' vs' gs' in (Some s' :: a, v' :: b)
    | None :: o', v :: vs', _ :: gs' => let '(a, b) := adam_held o' vs' gs' in (None :: a, v :: b)
    | _, _, _ => (o, vs)
    end.
  (** all parameters are held *)
  Fixpoint adam_all (ss : list S) (vs gs : list V) : list S * list V :=
    match ss, vs, gs with
    | s :: ss', v :: vs', g :: gs' =>
        let '(v', s') := adam s v g in let '(a, b) := adam_all ss' vs' gs' in (s' :: a, v' :: b)
    | _, _, _ => (ss, vs)
    end.
  Lemma held_all ss : forall vs gs, adam_held (map Some ss) vs gs = (map Some (fst (adam_all ss vs gs)), snd (adam_all ss vs gs)).
  Proof.
    induction ss as [|s ss IH]; intros [|v vs] [|g gs]; try reflexivity. cbn [map adam_held adam_all]. destruct (adam s v g) as [v' s'].
    rewrite IH. destruct (adam_all ss vs gs) as [a b]. reflexivity.
  Qed.
  Lemma all_lengths ss : forall vs gs, length (fst (adam_all ss vs gs)) = length ss /\ length (snd (adam_all ss vs gs)) = length vs.
  Proof.
    induction ss as [|s ss IH]; intros [|v vs] [|g gs]; try (split; reflexivity). cbn [adam_all]. destruct (adam s v g) as [v' s'].
    specialize (IH vs gs). destruct (adam_all ss vs gs) as [a b]. cbn in *. lia.
  Qed.

  (** ** Gradients after zero_grad *)
  Definition clean (p : param V) : Prop := p_grad p = None \/ exists h, p_grad p = Some (vzero h).
  Lemma zero_clean ps : Forall clean (zero_grad ps).
  Proof.
    unfold Optim.zero_grad. rewrite Forall_forall. intros p Hp. apply in_map_iff in Hp. destruct Hp as (q & <- & _). unfold clean. cbn [p_grad].
    destruct to_none; [left; reflexivity|]. destruct (p_grad q) as [h|]; [right; exists h; reflexivity|left; reflexivity].
  Qed.
  Lemma zero_vals ps : vals (zero_grad ps) = vals ps. Proof. unfold vals, Optim.zero_grad. rewrite map_map. apply map_ext. reflexivity. Qed.
  Lemma zero_req ps : map p_req (zero_grad ps) = map p_req ps. Proof. unfold Optim.zero_grad. rewrite map_map. apply map_ext. reflexivity. Qed.
  Lemma require_vals b (ps : list (param V)) : vals (require b ps) = vals ps. Proof. unfold vals, require. rewrite map_map. apply map_ext. reflexivity. Qed.
  Lemma require_req b (ps : list (param V)) : map p_req (require b ps) = map (fun _ => b) ps. Proof. unfold require. rewrite map_map. apply map_ext. reflexivity. Qed.
  Lemma require_clean b ps : Forall clean ps -> Forall clean (require b ps).
  Proof. unfold require. intros F. rewrite Forall_forall in *. intros p Hp. apply in_map_iff in Hp. destruct Hp as (q & <- & Hq). exact (F q Hq). Qed.
  Lemma vals_length (ps : list (param V)) : length (vals ps) = length ps. Proof. apply map_length. Qed.
  Lemma accumulate_vals ps : forall gs, vals (accumulate ps gs) = vals ps /\ map p_req (accumulate ps gs) = map p_req ps /\ length (accumulate ps gs) = length ps.
  Proof.
    induction ps as [|p ps IH]; intros [|g gs]; try (repeat split; reflexivity). cbn [Optim.accumulate]. destruct (IH gs) as (A & B & C). unfold vals in *. cbn [map length]. rewrite A, B, C.
    unfold add_grad. destruct g as [g|]; [|repeat split; reflexivity]. destruct (p_req p) eqn:E; repeat split; cbn; try rewrite E; reflexivity.
  Qed.
  Lemma accumulate_frozen ps : forall gs, (forall p, In p ps -> p_req p = false) -> accumulate ps gs = ps.
  Proof.
    induction ps as [|p ps IH]; intros [|g gs] H; try reflexivity. cbn [Optim.accumulate]. rewrite IH by (intros q Hq; apply H; right; exact Hq). f_equal.
    unfold add_grad. destruct g; [|reflexivity]. pose proof (H p (or_introl eq_refl)) as E. destruct (p_req p); [discriminate|reflexivity].
  Qed.
  Lemma accumulate_none (ps qs : list (param V)) : accumulate ps (map (fun _ => None) qs) = ps.
  Proof. revert qs; induction ps as [|p ps IH]; intros [|q qs]; try reflexivity. cbn. rewrite IH. reflexivity. Qed.

  (** the step uses the gradient of the last backward and nothing else *)
  Definition held_trainable (o : opt S) (ps : list (param V)) : Prop := Forall2 (fun s p => s <> None -> p_req p = true) o ps.
  Lemma step_spec o ps : forall gs, held_trainable o ps -> Forall clean ps -> length gs = length ps ->
    let '(o', ps') := opt_step o (accumulate ps (map Some gs)) in
    (o', vals ps') = adam_held o (vals ps) gs /\ map p_req ps' = map p_req ps /\ held_trainable o' ps' /\ length ps' = length ps.
  Proof.
    intros gs H. revert gs. induction H as [|s p o ps Hs H IH]; intros [|g gs] C L; try discriminate; [repeat split; constructor|].
    inversion C as [|? ? Cp Cps]; subst. specialize (IH gs Cps ltac:(cbn in L; lia)). cbn [map Optim.accumulate Optim.opt_step].
    destruct (opt_step o (accumulate ps (map Some gs))) as [o' ps']. destruct IH as (E & R & K & Le). unfold vals in *. cbn [map adam_held].
    destruct s as [s|].
    - specialize (Hs ltac:(discriminate)). unfold add_grad. rewrite Hs. unfold step1. cbn [p_grad p_val p_req].
      assert (G : match p_grad p with Some h => vadd h g | None => g end = g) by (destruct Cp as [->|[h ->]]; [reflexivity|apply zero_l]). rewrite G.
      destruct (adam s (p_val p) g) as [v' s']. rewrite <- E. cbn [map p_val p_req length]. rewrite R, Le. repeat split; try reflexivity. constructor; [reflexivity|exact K].
    - unfold step1. rewrite <- E. assert (A : p_val (add_grad vadd p (Some g)) = p_val p) by (unfold add_grad; destruct (p_req p); reflexivity). assert (B : p_req (add_grad vadd p (Some g)) = p_req p) by (unfold add_grad; destruct (p_req p) eqn:Q; [reflexivity|exact Q]). cbn [map length]. rewrite R, A, B, Le. repeat split; try reflexivity. constructor; [intros N; contradiction|exact K].
  Qed.
  Lemma reached_some (ps : list (param V)) gs : existsb p_req ps = true -> length gs = length ps -> reached ps (map Some gs) = true.
  Proof.
    unfold reached. revert gs. induction ps as [|p ps IH]; intros [|g gs] H L; try discriminate. cbn [existsb map combine fst snd] in *. apply orb_true_iff in H. apply orb_true_iff.
    destruct H as [->|H]; [left; reflexivity|right; apply IH; [exact H|cbn in L; lia]].
  Qed.
  Lemma reached_none (ps qs : list (param V)) : reached ps (map (fun _ => None) qs) = false.
  Proof. unfold reached. revert qs. induction ps as [|p ps IH]; intros [|q qs]; try reflexivity. cbn. rewrite andb_false_r. apply IH. Qed.
  Lemma init_spec ps o : opt_init s0 ps = Ok o -> held_trainable o ps.
  Proof. unfold opt_init. destruct (existsb p_req ps); [|discriminate]. intros E. injection E as <-. unfold held_trainable. clear. induction ps as [|p ps IH]; constructor; [|exact IH]. destruct (p_req p); [reflexivity|intros N; contradiction]. Qed.
  Lemma require_init (ps : list (param V)) : ps <> [] -> opt_init s0 (require true ps) = Ok (map Some (map (fun _ => s0) ps)).
  Proof. unfold opt_init, require. destruct ps as [|p ps]; [contradiction|]. intros _. cbn [map existsb p_req]. rewrite orb_true_l. f_equal. f_equal. rewrite !map_map. apply map_ext. reflexivity. Qed.
  Lemma held_of_req (ss : list S) : forall ps : list (param V), length ss = length ps -> (forall p, In p ps -> p_req p = true) -> held_trainable (map Some ss) ps.
  Proof. induction ss as [|s ss IH]; intros [|p ps] L H; try discriminate; constructor; [intros _; apply H; left; reflexivity|]. apply IH; [cbn in L; lia|intros q Hq; apply H; right; exact Hq]. Qed.
  Lemma req_all (ps : list (param V)) b : map p_req ps = map (fun _ => b) ps -> forall p, In p ps -> p_req p = b.
  Proof. induction ps as [|q ps IH]; intros E p Hp; [destruct Hp|]. cbn [map] in E. injection E as E1 E2. destruct Hp as [->|Hp]; [exact E1|exact (IH E2 p Hp)]. Qed.
  Lemma req_map (ps qs : list (param V)) b : map p_req ps = map p_req qs -> map p_req qs = map (fun _ => b) qs -> map p_req ps = map (fun _ => b) ps.
  Proof. revert qs. induction ps as [|p ps IH]; intros [|q qs] E F; try discriminate; [reflexivity|]. cbn [map] in *. injection E as E1 E2. injection F as F1 F2. rewrite E1, F1. f_equal. exact (IH qs E2 F2). Qed.
  Lemma exists_req (ps : list (param V)) : ps <> [] -> map p_req ps = map (fun _ => true) ps -> existsb p_req ps = true.
  Proof. destruct ps as [|p ps]; [contradiction|]. intros _ E. cbn in *. injection E as -> _. reflexivity. Qed.

  (** ** The generative adversarial network *)
  Section Gan.
    Context {A N K L : Type}.
    Context (kwargs_of : Z -> K)
            (d_loss : K -> list V -> list V -> list A -> N -> L * L * list V)
            (g_loss : K -> list V -> list V -> N -> L * list V * list V)
            (rows_drawn : Z -> Z -> nat -> list Z) (noise_drawn : Z -> Z -> nat -> N) (gen_noise : Z -> Z -> N).
    (** the examples drawn *)
    Context (rows : Z -> Z -> nat -> list A).

    (** *** Specification: the algorithm of the paper, without gradient buffers and flags *)
    Record ref := { f_gen : list V; f_gs : list S; f_crit : list V; f_cs : list S }.
    Definition ref_critic (e i : Z) (r : ref) (c : nat) : ref :=
      let gs := snd (d_loss (kwargs_of e) (f_gen r) (f_crit r) (rows e i c) (noise_drawn e i c)) in
      let '(ss, vs) := adam_all (f_cs r) (f_crit r) gs in
      {| f_gen := f_gen r; f_gs := f_gs r; f_crit := vs; f_cs := ss |}.
    Definition ref_gen (e i : Z) (r : ref) : ref :=
      let gs := snd (fst (g_loss (kwargs_of e) (f_gen r) (f_crit r) (gen_noise e i))) in
      let '(ss, vs) := adam_all (f_gs r) (f_gen r) gs in
      {| f_gen := vs; f_gs := ss; f_crit := f_crit r; f_cs := f_cs r |}.
    Definition ref_batch (n : nat) (r : ref) (p : Z * Z) : ref :=
      ref_gen (fst p) (snd p) (fold_left (ref_critic (fst p) (snd p)) (seq 0 n) r).
    (** what is reported: the generator's loss after the critic's n updates, the critic's
        before the last of them *)
    Definition ref_report (n : nat) (r : ref) (p : Z * Z) : report L :=
      let e := fst p in let i := snd p in
      let before := fold_left (ref_critic e i) (seq 0 (n - 1)) r in
      let after := fold_left (ref_critic e i) (seq 0 n) r in
      let d := d_loss (kwargs_of e) (f_gen before) (f_crit before) (rows e i (n - 1)) (noise_drawn e i (n - 1)) in
      {| r_epoch := e; r_batch := i;
         r_gen := fst (fst (g_loss (kwargs_of e) (f_gen after) (f_crit after) (gen_noise e i)));
         r_real := snd (fst d); r_critic := fst (fst d) |}.
    Fixpoint ref_reports (n : nat) (r : ref) (ps : list (Z * Z)) : list (report L) :=
      match ps with
      | [] => []
      | p :: ps' => ref_report n r p :: ref_reports n (ref_batch n r p) ps'
      end.
    Definition ref_train (n : nat) (r : ref) (ps : list (Z * Z)) : ref := fold_left (ref_batch n) ps r.

    (** gradients have one entry per parameter *)
    Definition d_shaped : Prop := forall k g c xs z, length (snd (d_loss k g c xs z)) = length c.
    Definition g_shaped : Prop := forall k g c z, length (snd (fst (g_loss k g c z))) = length g /\ length (snd (g_loss k g c z)) = length c.
    Definition drawn (data : list A) : Prop := forall e i c, mapM (py_get data) (rows_drawn e i c) = Ok (rows e i c).
    (** the trainer's parameters and optimizers are those of [r] *)
    Definition agrees (r : ref) (st : gan V S) : Prop :=
      vals (g_gen st) = f_gen r /\ vals (g_crit st) = f_crit r /\
      g_gopt st = Some (map Some (f_gs r)) /\ g_copt st = Some (map Some (f_cs r)) /\
      length (f_gs r) = length (f_gen r) /\ length (f_cs r) = length (f_crit r) /\ f_gen r <> [] /\ f_crit r <> [].

    Notation critic_iteration := (critic_iteration vzero vadd adam to_none kwargs_of d_loss rows_drawn noise_drawn).
    Notation critic_loop := (critic_loop vzero vadd adam to_none kwargs_of d_loss rows_drawn noise_drawn).
    Notation gan_batch := (gan_batch vzero vadd adam to_none kwargs_of d_loss g_loss rows_drawn noise_drawn gen_noise).
    Notation gan_batches := (gan_batches vzero vadd adam to_none kwargs_of d_loss g_loss rows_drawn noise_drawn gen_noise).
    Notation gan_epochs := (gan_epochs vzero vadd adam to_none kwargs_of d_loss g_loss rows_drawn noise_drawn gen_noise).
    Notation gan_train := (gan_train vzero vadd adam s0 to_none kwargs_of d_loss g_loss rows_drawn noise_drawn gen_noise).

    Lemma nonempty_vals (ps : list (param V)) : vals ps <> [] -> ps <> []. Proof. intros H ->. apply H. reflexivity. Qed.
    Lemma iteration_ok data e i c r st : d_shaped -> drawn data -> agrees r st -> map p_req (g_crit st) = map (fun _ => true) (g_crit st) ->
      exists st', critic_iteration data e i c st = (st', Ok (fst (d_loss (kwargs_of e) (f_gen r) (f_crit r) (rows e i c) (noise_drawn e i c)))) /\
        agrees (ref_critic e i r c) st' /\ map p_req (g_crit st') = map (fun _ => true) (g_crit st') /\ g_gen st' = g_gen st /\ g_epoch st' = g_epoch st.
    Proof.
      intros Ds Dr (A1 & A2 & A3 & A4 & A5 & A6 & A7 & A8) R. unfold Optim.critic_iteration. unfold zero_discriminator_gradients, set_crit. cbn [g_gen g_crit g_gopt g_copt g_epoch].
      rewrite (Dr e i c). rewrite zero_vals, A1, A2.
      pose proof (Ds (kwargs_of e) (f_gen r) (f_crit r) (rows e i c) (noise_drawn e i c)) as Lg.
      unfold ref_critic. destruct (d_loss (kwargs_of e) (f_gen r) (f_crit r) (rows e i c) (noise_drawn e i c)) as [[l real] gs]. cbn [fst snd] in *.
      set (cr := zero_grad (g_crit st)). assert (Lc : length cr = length (f_crit r)) by (unfold cr; rewrite <- (vals_length (zero_grad _)), zero_vals, A2; reflexivity).
      assert (Rc : map p_req cr = map (fun _ => true) cr) by (apply (req_map cr (g_crit st)); [apply zero_req|exact R]).
      assert (Nc : cr <> []) by (intros E; apply A8; apply length_zero_iff_nil; rewrite <- Lc, E; reflexivity).
      unfold backward. cbn [existsb map fst snd]. rewrite reached_none, (reached_some cr gs) by (try apply exists_req; try assumption; congruence).
      cbn [orb]. rewrite accumulate_none, A4.
      assert (H : held_trainable (map Some (f_cs r)) cr) by (apply held_of_req; [congruence|apply req_all; exact Rc]).
      pose proof (step_spec (map Some (f_cs r)) cr gs H (zero_clean _) ltac:(congruence)) as E.
      destruct (opt_step (map Some (f_cs r)) (accumulate cr (map Some gs))) as [o' cr']. destruct E as (E & R' & _ & L').
      assert (Vc : vals cr = f_crit r) by (unfold cr; rewrite zero_vals; exact A2). rewrite Vc, held_all in E.
      pose proof (all_lengths (f_cs r) (f_crit r) gs) as Ll. destruct (adam_all (f_cs r) (f_crit r) gs) as [ss vs]. cbn [fst snd] in E, Ll. injection E as -> E.
      eexists. split; [reflexivity|]. split; [|split; [|split; reflexivity]].
      - unfold agrees. cbn [g_gen g_crit g_gopt g_copt f_gen f_gs f_crit f_cs]. repeat split; try assumption; try lia; try reflexivity.
        intros En. apply A8. apply length_zero_iff_nil. rewrite <- (proj2 Ll), En. reflexivity.
      - cbn [g_crit]. apply (req_map cr' cr); assumption.
    Qed.
    Lemma loop_ok data e i cs : forall r st last, d_shaped -> drawn data -> agrees r st -> map p_req (g_crit st) = map (fun _ => true) (g_crit st) ->
      exists st', critic_loop data e i cs last st = (st', Ok (match rev cs with [] => last
           | c :: pre => let r' := fold_left (ref_critic e i) (rev pre) r in Some (fst (d_loss (kwargs_of e) (f_gen r') (f_crit r') (rows e i c) (noise_drawn e i c))) end)) /\
        agrees (fold_left (ref_critic e i) cs r) st' /\ g_gen st' = g_gen st /\ g_epoch st' = g_epoch st.
    Proof.
      induction cs as [|c cs IH]; intros r st last Ds Dr Ag R; [exists st; repeat split; try reflexivity; apply Ag|].
      destruct (iteration_ok data e i c r st Ds Dr Ag R) as (s1 & E1 & Ag1 & R1 & G1 & Ep1). cbn [Optim.critic_loop]. rewrite E1.
      destruct (IH (ref_critic e i r c) s1 (Some (fst (d_loss (kwargs_of e) (f_gen r) (f_crit r) (rows e i c) (noise_drawn e i c)))) Ds Dr Ag1 R1) as (s2 & E2 & Ag2 & G2 & Ep2).
      exists s2. split; [|split; [exact Ag2|split; congruence]]. rewrite E2. do 2 f_equal. cbn [rev].
      destruct (rev cs) as [|d pre] eqn:Er; [reflexivity|]. cbn [app]. rewrite rev_app_distr. reflexivity.
    Qed.
    Lemma rev_seq n : rev (seq 0 (Datatypes.S n)) = n :: rev (seq 0 n).
    Proof. rewrite seq_S, rev_app_distr. reflexivity. Qed.

    (** after a batch: the generator can be trained further, the critic is frozen and has
        no gradient of the generator's loss *)
    Definition after_batch (st : gan V S) : Prop :=
      (forall p, In p (g_gen st) -> p_req p = true) /\ (forall p, In p (g_crit st) -> p_req p = false /\ clean p).
    Lemma batch_ok data n_critic e i r st : d_shaped -> g_shaped -> drawn data -> agrees r st ->
      exists st', gan_batch n_critic data e i st
        = (st', if 0 <? n_critic then Ok (ref_report (Z.to_nat n_critic) r (e, i)) else Raise UnboundLocalError) /\
        agrees (ref_batch (Z.to_nat n_critic) r (e, i)) st' /\ after_batch st' /\ g_epoch st' = g_epoch st.
    Proof.
      intros Ds Gs Dr (A1 & A2 & A3 & A4 & A5 & A6 & A7 & A8). unfold Optim.gan_batch. cbv zeta.
      set (st1 := unfreeze_discriminator _).
      assert (Ag1 : agrees r st1).
      { unfold st1, unfreeze_discriminator, freeze_generator, zero_discriminator_gradients, zero_generator_gradients, set_gen, set_crit, agrees. cbn [g_gen g_crit g_gopt g_copt].
        rewrite !require_vals, !zero_vals. repeat split; assumption. }
      assert (R1 : map p_req (g_crit st1) = map (fun _ => true) (g_crit st1)).
      { unfold st1, unfreeze_discriminator, set_crit. cbn [g_crit]. rewrite require_req. unfold require. rewrite !map_map. apply map_ext. reflexivity. }
      destruct (loop_ok data e i (seq 0 (Z.to_nat n_critic)) r st1 None Ds Dr Ag1 R1) as (st2 & E2 & Ag2 & _ & Ep2). rewrite E2.
      set (r2 := fold_left (ref_critic e i) (seq 0 (Z.to_nat n_critic)) r) in *. clear E2.
      unfold freeze_discriminator, unfreeze_generator, zero_generator_gradients, zero_discriminator_gradients, set_gen, set_crit. cbn [g_gen g_crit g_gopt g_copt g_epoch].
      destruct Ag2 as (B1 & B2 & B3 & B4 & B5 & B6 & B7 & B8). rewrite !require_vals, !zero_vals, B1, B2.
      pose proof (Gs (kwargs_of e) (f_gen r2) (f_crit r2) (gen_noise e i)) as Lg.
      assert (Ref : ref_batch (Z.to_nat n_critic) r (e, i) = ref_gen e i r2) by reflexivity. rewrite Ref. clear Ref.
      assert (Rep : forall dl rl, (0 < n_critic) -> Some (dl, rl) = match rev (seq 0 (Z.to_nat n_critic)) with [] => None
           | c :: pre => let r' := fold_left (ref_critic e i) (rev pre) r in Some (fst (d_loss (kwargs_of e) (f_gen r') (f_crit r') (rows e i c) (noise_drawn e i c))) end ->
         {| r_epoch := e; r_batch := i; r_gen := fst (fst (g_loss (kwargs_of e) (f_gen r2) (f_crit r2) (gen_noise e i))); r_real := rl; r_critic := dl |} = ref_report (Z.to_nat n_critic) r (e, i)).
      { intros dl rl Hn. unfold ref_report. cbn [fst snd]. fold r2. destruct (Z.to_nat n_critic) as [|n] eqn:En; [lia|]. rewrite rev_seq. cbv zeta. rewrite rev_involutive.
        replace (Datatypes.S n - 1)%nat with n by lia. destruct (d_loss _ _ _ _ _) as [[a b] ds]. cbn [fst snd]. intros H. injection H as -> ->. reflexivity. }
      assert (Last : (match rev (seq 0 (Z.to_nat n_critic)) with [] => None
           | c :: pre => let r' := fold_left (ref_critic e i) (rev pre) r in Some (fst (d_loss (kwargs_of e) (f_gen r') (f_crit r') (rows e i c) (noise_drawn e i c))) end) = None <-> n_critic <= 0).
      { destruct (Z.to_nat n_critic) as [|n] eqn:En; [split; [lia|reflexivity]|]. rewrite rev_seq. split; [discriminate|lia]. }
      set (last := match rev (seq 0 (Z.to_nat n_critic)) with [] => None | c :: pre => _ end) in *. clearbody last.
      unfold ref_gen. destruct (g_loss (kwargs_of e) (f_gen r2) (f_crit r2) (gen_noise e i)) as [[l gs] cs]. cbn [fst snd] in *. destruct Lg as [Lg Lc].
      set (ge := require true (zero_grad (g_gen st2))). set (cr := require false (zero_grad (g_crit st2))).
      assert (Vg : vals ge = f_gen r2) by (unfold ge; rewrite require_vals, zero_vals; exact B1).
      assert (Lge : length ge = length (f_gen r2)) by (rewrite <- Vg, vals_length; reflexivity).
      assert (Rg : map p_req ge = map (fun _ => true) ge) by (unfold ge; rewrite require_req; unfold require; rewrite map_map; reflexivity).
      assert (Rcr : forall p, In p cr -> p_req p = false) by (intros p Hp; unfold cr, require in Hp; apply in_map_iff in Hp; destruct Hp as (q & <- & _); reflexivity).
      assert (Ng : ge <> []) by (intros E; apply B7; apply length_zero_iff_nil; rewrite <- Lge, E; reflexivity).
      unfold backward. cbn [existsb map fst snd]. rewrite (reached_some ge gs) by (try apply exists_req; try assumption; congruence).
      cbn [orb]. rewrite (accumulate_frozen cr) by exact Rcr. rewrite B3.
      assert (H : held_trainable (map Some (f_gs r2)) ge) by (apply held_of_req; [congruence|apply req_all; exact Rg]).
      pose proof (step_spec (map Some (f_gs r2)) ge gs H (require_clean true _ (zero_clean _)) ltac:(congruence)) as E.
      destruct (opt_step (map Some (f_gs r2)) (accumulate ge (map Some gs))) as [o' ge']. destruct E as (E & R' & _ & L').
      rewrite Vg, held_all in E.
      pose proof (all_lengths (f_gs r2) (f_gen r2) gs) as Ll. destruct (adam_all (f_gs r2) (f_gen r2) gs) as [ss vs]. cbn [fst snd] in E, Ll. injection E as -> E.
      set (st3 := {| g_gen := ge'; g_crit := cr; g_gopt := Some (map Some ss); g_copt := g_copt st2; g_epoch := g_epoch st2 |}).
      exists st3. split; [|split; [|split]].
      - destruct last as [[dl rl]|].
        + assert (Hn : 0 < n_critic) by (destruct (Z.ltb_spec 0 n_critic); [assumption|]; pose proof (proj2 Last ltac:(lia)); discriminate).
          destruct (Z.ltb_spec 0 n_critic); [|lia]. rewrite <- (Rep dl rl Hn eq_refl). reflexivity.
        + pose proof (proj1 Last eq_refl). destruct (Z.ltb_spec 0 n_critic); [lia|reflexivity].
      - unfold agrees, st3. cbn [g_gen g_crit g_gopt g_copt f_gen f_gs f_crit f_cs]. unfold cr. rewrite require_vals, zero_vals. repeat split; try assumption; try lia.
        intros En. apply B7. apply length_zero_iff_nil. rewrite <- (proj2 Ll), En. reflexivity.
      - unfold after_batch, st3. cbn [g_gen g_crit]. split; [apply req_all; apply (req_map ge' ge); assumption|].
        intros p Hp. split; [exact (Rcr p Hp)|]. pose proof (require_clean false _ (zero_clean (g_crit st2))) as F. rewrite Forall_forall in F. exact (F p Hp).
      - unfold st3. cbn [g_epoch]. rewrite Ep2. reflexivity.
    Qed.
    Lemma batches_ok data n_critic e is : forall r st, d_shaped -> g_shaped -> drawn data -> 0 < n_critic -> agrees r st ->
      exists st', gan_batches n_critic data e is st = (st', ref_reports (Z.to_nat n_critic) r (map (pair e) is), Ok tt) /\
        agrees (ref_train (Z.to_nat n_critic) r (map (pair e) is)) st' /\ (is <> [] -> after_batch st') /\ (is = [] -> st' = st) /\ g_epoch st' = g_epoch st.
    Proof.
      induction is as [|i is IH]; intros r st Ds Gs Dr Hn Ag; [exists st; repeat split; try reflexivity; try apply Ag; congruence|].
      destruct (batch_ok data n_critic e i r st Ds Gs Dr Ag) as (s1 & E1 & Ag1 & F1 & P1). cbn [Optim.gan_batches map ref_reports]. rewrite E1.
      destruct (Z.ltb_spec 0 n_critic); [|lia].
      destruct (IH _ s1 Ds Gs Dr Hn Ag1) as (s2 & E2 & Ag2 & F2 & I2 & P2). rewrite E2. exists s2. split; [reflexivity|]. split; [exact Ag2|]. split; [|split; [discriminate|congruence]].
      intros _. destruct is as [|j is]; [rewrite (I2 eq_refl); exact F1|apply F2; discriminate].
    Qed.
    (** the batches of the epochs from [a] on, [n] of them *)
    Definition epoch_pairs (is : list Z) (a : Z) (n : nat) : list (Z * Z) :=
      flat_map (fun k => map (pair (a + Z.of_nat k)) is) (seq 0 n).
    Lemma epoch_pairs_S is a n : epoch_pairs is a (Datatypes.S n) = map (pair a) is ++ epoch_pairs is (a + 1) n.
    Proof.
      unfold epoch_pairs. cbn [seq flat_map]. replace (a + Z.of_nat 0) with a by lia. f_equal. rewrite <- seq_shift, flat_map_concat_map, map_map, <- flat_map_concat_map.
      apply flat_map_ext. intros k. replace (a + Z.of_nat (Datatypes.S k)) with (a + 1 + Z.of_nat k) by lia. reflexivity.
    Qed.
    Lemma reports_app n ps : forall qs r, ref_reports n r (ps ++ qs) = ref_reports n r ps ++ ref_reports n (ref_train n r ps) qs.
    Proof. induction ps as [|p ps IH]; intros qs r; [reflexivity|]. cbn [app ref_reports]. rewrite IH. reflexivity. Qed.
    Lemma epochs_ok data n_critic batch epochs is : forall n epoch r st, d_shaped -> g_shaped -> drawn data -> 0 < n_critic ->
      py_range 0 (Zlen data) batch = Ok is -> agrees r st ->
      let m := Nat.min n (Z.to_nat (epochs - epoch)) in
      exists st', gan_epochs n_critic batch epochs data n epoch st = (st', ref_reports (Z.to_nat n_critic) r (epoch_pairs is epoch m), Ok tt) /\
        agrees (ref_train (Z.to_nat n_critic) r (epoch_pairs is epoch m)) st' /\ (is <> [] -> (0 < m)%nat -> after_batch st') /\
        (m = 0%nat -> st' = st) /\ g_epoch st' = g_epoch st + Z.of_nat m.
    Proof.
      induction n as [|n IH]; intros epoch r st Ds Gs Dr Hn Pr Ag m.
      - exists st. unfold m. cbn. repeat split; try reflexivity; try apply Ag; try lia.
      - cbn [Optim.gan_epochs]. destruct (Z.leb_spec epochs epoch) as [Le|Lt].
        + assert (M0 : m = 0%nat) by (unfold m; lia). rewrite M0. exists st. cbn. repeat split; try reflexivity; try apply Ag; try lia.
        + rewrite Pr. destruct (batches_ok data n_critic epoch is r st Ds Gs Dr Hn Ag) as (s1 & E1 & Ag1 & F1 & I1 & P1). rewrite E1.
          set (s1' := {| g_gen := g_gen s1; g_crit := g_crit s1; g_gopt := g_gopt s1; g_copt := g_copt s1; g_epoch := g_epoch s1 + 1 |}).
          destruct (IH (epoch + 1) (ref_train (Z.to_nat n_critic) r (map (pair epoch) is)) s1' Ds Gs Dr Hn Pr Ag1) as (s2 & E2 & Ag2 & F2 & I2 & P2). rewrite E2.
          assert (Em : m = Datatypes.S (Nat.min n (Z.to_nat (epochs - (epoch + 1))))).
          { unfold m. replace (Z.to_nat (epochs - epoch)) with (Datatypes.S (Z.to_nat (epochs - (epoch + 1)))) by (rewrite <- Z2Nat.inj_succ by lia; f_equal; lia). lia. }
          rewrite Em in *. clearbody m. set (m' := Nat.min n (Z.to_nat (epochs - (epoch + 1)))) in *. rewrite epoch_pairs_S, reports_app.
          exists s2. split; [reflexivity|]. split; [unfold ref_train; rewrite fold_left_app; exact Ag2|]. split; [|split; [discriminate|rewrite P2; unfold s1'; cbn [g_epoch]; lia]].
          intros Ni _. destruct m' as [|m']; [rewrite (I2 eq_refl); exact (F1 Ni)|apply F2; [exact Ni|lia]].
    Qed.
    (** what the trainer starts from: optimizers already made by an earlier call, or none *)
    Definition start_ref (st : gan V S) (r : ref) : Prop :=
      vals (g_gen st) = f_gen r /\ vals (g_crit st) = f_crit r /\ f_gen r <> [] /\ f_crit r <> [] /\
      ((g_gopt st = Some (map Some (f_gs r)) /\ g_copt st = Some (map Some (f_cs r)) /\ length (f_gs r) = length (f_gen r) /\ length (f_cs r) = length (f_crit r)) \/
       ((g_gopt st = None \/ g_copt st = None) /\ f_gs r = map (fun _ => s0) (f_gen r) /\ f_cs r = map (fun _ => s0) (f_crit r))).
    Lemma init_ok st r : start_ref st r -> exists st', init_optimizers s0 (unfreeze_generator (unfreeze_discriminator st)) = (st', Ok tt) /\ agrees r st' /\ g_epoch st' = g_epoch st.
    Proof.
      intros (A1 & A2 & A3 & A4 & A5). unfold init_optimizers, unfreeze_generator, unfreeze_discriminator, set_gen, set_crit. cbn [g_gen g_crit g_gopt g_copt g_epoch].
      destruct A5 as [(B1 & B2 & B3 & B4)|(B & C1 & C2)].
      - rewrite B1, B2. eexists. split; [reflexivity|]. split; [|reflexivity]. unfold agrees. cbn [g_gen g_crit g_gopt g_copt]. rewrite !require_vals. repeat split; assumption.
      - assert (Ng : g_gen st <> []) by (apply nonempty_vals; congruence). assert (Nc : g_crit st <> []) by (apply nonempty_vals; congruence).
        rewrite (require_init _ Ng), (require_init _ Nc).
        assert (M : forall ps : list (param V), map (fun _ => s0) ps = map (fun _ => s0) (vals ps)) by (intros; unfold vals; rewrite map_map; reflexivity).
        rewrite !M, A1, A2, <- C1, <- C2.
        assert (L1 : length (f_gs r) = length (f_gen r)) by (rewrite C1, map_length; reflexivity).
        assert (L2 : length (f_cs r) = length (f_crit r)) by (rewrite C2, map_length; reflexivity).
        destruct (g_gopt st) as [x|], (g_copt st) as [y|]; try (destruct B; discriminate); eexists; (split; [reflexivity|]); (split; [|reflexivity]);
          unfold agrees; cbn [g_gen g_crit g_gopt g_copt]; rewrite !require_vals; repeat split; assumption.
    Qed.

    (** Whatever gradients and flags are left over from before, training is the reference
        algorithm on the batches of the epochs that are due. *)
    Theorem gan_reference data n_critic batch epochs checkpoint st r : d_shaped -> g_shaped -> drawn data -> 0 < n_critic -> 0 < batch -> start_ref st r ->
      exists is, py_range 0 (Zlen data) batch = Ok is /\
      let m := Nat.min (Z.to_nat checkpoint) (Z.to_nat (epochs - g_epoch st)) in
      let pairs := epoch_pairs is (g_epoch st) m in
      exists st', gan_train n_critic batch epochs checkpoint data st = (st', ref_reports (Z.to_nat n_critic) r pairs, Ok tt) /\
        start_ref st' (ref_train (Z.to_nat n_critic) r pairs) /\ g_epoch st' = g_epoch st + Z.of_nat m /\
        (is <> [] -> (0 < m)%nat -> after_batch st').
    Proof.
      intros Ds Gs Dr Hn Hb St. assert (exists is, py_range 0 (Zlen data) batch = Ok is) as (is & Pr) by (unfold py_range; destruct (Z.eqb_spec batch 0); [lia|]; eexists; reflexivity).
      exists is. split; [exact Pr|]. intros m pairs. unfold Optim.gan_train. destruct (init_ok st r St) as (s1 & E1 & Ag & P1). rewrite E1.
      destruct (epochs_ok data n_critic batch epochs is (Z.to_nat checkpoint) (g_epoch s1) r s1 Ds Gs Dr Hn Pr Ag) as (s2 & E2 & Ag2 & F2 & _ & P2). rewrite P1 in *.
      exists s2. split; [exact E2|]. split; [|split; [exact P2|exact F2]].
      destruct Ag2 as (B1 & B2 & B3 & B4 & B5 & B6 & B7 & B8). unfold start_ref. split; [exact B1|]. split; [exact B2|]. split; [exact B7|]. split; [exact B8|]. left. repeat split; assumption.
    Qed.

    (** Training in calls of [checkpoint] epochs each is training without stopping *)
    Fixpoint gan_calls (n_critic batch epochs checkpoint : Z) (data : list A) (k : nat) (st : gan V S) : gan V S * list (report L) * result unit :=
      match k with
      | O => (st, [], Ok tt)
      | Datatypes.S k' =>
          match gan_train n_critic batch epochs checkpoint data st with
          | (st', rs, Raise e) => (st', rs, Raise e)
          | (st', rs, Ok _) => let '(st'', rs', o) := gan_calls n_critic batch epochs checkpoint data k' st' in (st'', rs ++ rs', o)
          end
      end.
    Lemma epoch_pairs_app is n : forall a m, epoch_pairs is a n ++ epoch_pairs is (a + Z.of_nat n) m = epoch_pairs is a (n + m).
    Proof.
      induction n as [|n IH]; intros a m; [cbn [epoch_pairs seq flat_map app Nat.add]; replace (a + Z.of_nat 0) with a by lia; reflexivity|].
      change (Datatypes.S n + m)%nat with (Datatypes.S (n + m)). rewrite !epoch_pairs_S, <- app_assoc. f_equal. rewrite <- IH. do 2 f_equal. lia.
    Qed.
    Theorem gan_checkpoints data n_critic batch epochs checkpoint k st r : d_shaped -> g_shaped -> drawn data -> 0 < n_critic -> 0 < batch -> start_ref st r -> g_epoch st = 0 ->
      exists is, py_range 0 (Zlen data) batch = Ok is /\
      let m := Nat.min (k * Z.to_nat checkpoint) (Z.to_nat epochs) in
      exists st', gan_calls n_critic batch epochs checkpoint data k st = (st', ref_reports (Z.to_nat n_critic) r (epoch_pairs is 0 m), Ok tt) /\
        start_ref st' (ref_train (Z.to_nat n_critic) r (epoch_pairs is 0 m)) /\ g_epoch st' = Z.of_nat m.
    Proof.
      intros Ds Gs Dr Hn Hb St E0. assert (exists is, py_range 0 (Zlen data) batch = Ok is) as (is & Pr) by (unfold py_range; destruct (Z.eqb_spec batch 0); [lia|]; eexists; reflexivity).
      exists is. split; [exact Pr|].
      assert (G : forall k a st r, start_ref st r -> g_epoch st = Z.of_nat a ->
        let m := Nat.min (k * Z.to_nat checkpoint) (Z.to_nat epochs - a) in
        exists st', gan_calls n_critic batch epochs checkpoint data k st = (st', ref_reports (Z.to_nat n_critic) r (epoch_pairs is (Z.of_nat a) m), Ok tt) /\
        start_ref st' (ref_train (Z.to_nat n_critic) r (epoch_pairs is (Z.of_nat a) m)) /\ g_epoch st' = Z.of_nat (a + m)).
      { clear - Ds Gs Dr Hn Hb Pr zero_l. induction k as [|k IH]; intros a st r St Ea m.
        - exists st. unfold m. cbn. split; [reflexivity|]. split; [exact St|]. rewrite Ea. f_equal. lia.
        - cbn [gan_calls]. destruct (gan_reference data n_critic batch epochs checkpoint st r Ds Gs Dr Hn Hb St) as (is' & Pr' & s1 & E1 & St1 & P1 & _).
          assert (is' = is) by congruence. subst is'. clear Pr'. rewrite E1. clear E1. rewrite Ea in *.
          set (m1 := Nat.min (Z.to_nat checkpoint) (Z.to_nat (epochs - Z.of_nat a))) in *.
          destruct (IH (a + m1)%nat s1 _ St1 ltac:(lia)) as (s2 & E2 & St2 & P2). rewrite E2.
          assert (Em : m = (m1 + Nat.min (k * Z.to_nat checkpoint) (Z.to_nat epochs - (a + m1)))%nat).
          { unfold m, m1. cbn [Nat.mul]. replace (Z.to_nat (epochs - Z.of_nat a)) with (Z.to_nat epochs - a)%nat by lia. lia. }
          rewrite Em. clear Em m. rewrite <- epoch_pairs_app. rewrite reports_app. rewrite Nat2Z.inj_add in E2, St2. exists s2. split; [rewrite Nat2Z.inj_add; reflexivity|].
          split; [unfold ref_train in *; rewrite fold_left_app; exact St2|]. rewrite P2. f_equal. lia. }
      intros m. destruct (G k 0%nat st r St E0) as (st' & E & St' & P). rewrite Nat.sub_0_r in *. exists st'. split; [exact E|]. split; [exact St'|exact P].
    Qed.
    (** Without critic iterations the first batch raises, after the generator's step *)
    Theorem no_critic data n_critic batch epochs checkpoint st r : d_shaped -> g_shaped -> drawn data -> n_critic <= 0 -> 0 < batch -> start_ref st r ->
      data <> [] -> g_epoch st < epochs -> 0 < checkpoint ->
      exists st', gan_train n_critic batch epochs checkpoint data st = (st', [], Raise UnboundLocalError) /\ agrees (ref_gen (g_epoch st) 0 r) st'.
    Proof.
      intros Ds Gs Dr Hn Hb St Nd He Hc. unfold Optim.gan_train. destruct (init_ok st r St) as (s1 & E1 & Ag & P1). rewrite E1. rewrite P1.
      destruct (Z.to_nat checkpoint) as [|n] eqn:En; [lia|]. cbn [Optim.gan_epochs]. destruct (Z.leb_spec epochs (g_epoch st)); [lia|].
      assert (exists is, py_range 0 (Zlen data) batch = Ok (0 :: is)) as (is & ->).
      { unfold py_range. destruct (Z.eqb_spec batch 0); [lia|]. destruct data as [|x data]; [contradiction|].
        assert (Lp : 0 < Zlen (x :: data)) by (unfold Zlen; cbn [length]; lia).
        unfold ceil_div.
        match goal with |- context [map ?f (seq 0 (Z.to_nat ?q))] => destruct (Z.to_nat q) as [|q'] eqn:Eq; [|cbn [seq map]; eexists; repeat f_equal; lia] end.
        exfalso. pose proof (Z.div_mod (- (Zlen (x :: data) - 0)) batch ltac:(lia)). pose proof (Z.mod_pos_bound (- (Zlen (x :: data) - 0)) batch Hb). nia. }
      cbn [Optim.gan_batches]. destruct (batch_ok data n_critic (g_epoch st) 0 r s1 Ds Gs Dr Ag) as (s2 & E2 & Ag2 & _). rewrite E2. destruct (Z.ltb_spec 0 n_critic); [lia|].
      exists s2. split; [reflexivity|]. unfold ref_batch in Ag2. cbn [fst snd] in Ag2. replace (Z.to_nat n_critic) with 0%nat in Ag2 by lia. exact Ag2.
    Qed.
  End Gan.
End Proofs.
