(** Proofs about learned models (Learned.v): scikit-learn models, graphs, and
    examples that meet the hypotheses of LearnedProofs2. *)
From Coq Require Import String Reals Lra.
From Verif Require Import PyBase PyFacts PyMore PyRange Trainer TrainerProofs Spectral TransformProofs Preproc PreprocProofs Axis AxisProofs Learned LearnedProofs LearnedProofs2.
Local Open Scope string_scope.

(** ** scikit-learn models *)
Lemma no_minus_one l : (forall n, In n l -> 0 <= n)%Z -> filter (fun n => (n =? -1)%Z) l = [] /\ filter (fun n => negb (n =? -1)%Z) l = l /\
  forallb (fun n => -1 <=? n)%Z l = true /\ (forall c, map (fun n => if (n =? -1)%Z then c else n) l = l).
Proof.
  induction l as [|n l IH]; intros H; [repeat split|].
  destruct (IH (fun x I => H x (or_intror I))) as (A & B & C & D). specialize (H n (or_introl eq_refl)). cbn [filter forallb map].
  destruct (Z.eqb_spec n (-1)); [lia|]. cbn [negb]. rewrite A, B, C. repeat split; [destruct (Z.leb_spec (-1) n); [reflexivity|lia]|].
  intros c. rewrite D. reflexivity.
Qed.
(** an array of at least one example, each of one or more numbers *)
Definition examples (n : Z) (tail : list Z) (a : ndarr) : Prop :=
  fst a = n :: tail /\ (0 < n)%Z /\ (forall k, In k tail -> 0 < k)%Z /\ Zlen (snd a) = (n * prodZ tail)%Z.
Lemma prodZ_pos l : (forall k, In k l -> 0 < k)%Z -> (0 < prodZ l)%Z.
Proof.
  induction l as [|k l IH]; intros H; [reflexivity|]. unfold prodZ in *. cbn [fold_right]. apply Z.mul_pos_pos; [apply H; left; reflexivity|].
  apply IH. intros x X. apply H. right. exact X.
Qed.
(** what the model is given: one row for each example, its numbers in their order *)
Theorem sk_rows n tail (a : ndarr) : examples n tail a -> sk_flatten a = Ok ([n; prodZ tail], snd a).
Proof.
  intros (S & N & T & L). unfold sk_flatten. rewrite S. unfold reshape_to, Preproc.np_reshape.
  assert (E : (n =? -1)%Z = false) by (apply Z.eqb_neq; lia).
  assert (F1 : filter (fun n => (n =? -1)%Z) [n; (-1)%Z] = [(-1)%Z]) by (cbn [filter]; rewrite E; reflexivity).
  assert (F2 : filter (fun n => negb (n =? -1)%Z) [n; (-1)%Z] = [n]) by (cbn [filter]; rewrite E; reflexivity).
  rewrite F1, F2. cbn [List.length]. unfold prodZ at 1 2 3. cbn [fold_right forallb]. rewrite L, Z.mul_1_r.
  replace (-1 <=? n)%Z with true by lia. replace (n =? 0)%Z with false by lia. rewrite Z.mul_comm, Z.mod_mul by lia.
  change (-1 <=? -1)%Z with true. cbn [andb negb Z.eqb bind map]. rewrite E, Z.div_mul by lia. reflexivity.
Qed.
(** rows of the trained size come back in the shape of the training examples *)
Theorem sk_unrows n tail (m : ndarr) : (0 < n)%Z -> (forall k, In k tail -> 0 < k)%Z -> Zlen (snd m) = (n * prodZ tail)%Z ->
  reshape_to m ((-1)%Z :: tail) = Ok (n :: tail, snd m).
Proof.
  intros N T L. assert (T' : forall k, In k tail -> (0 <= k)%Z) by (intros k K; specialize (T k K); lia).
  destruct (no_minus_one tail T') as (A & B & C & D). pose proof (prodZ_pos tail T) as P.
  unfold reshape_to, Preproc.np_reshape. cbn [filter]. change (-1 =? -1)%Z with true. cbn [negb List.length]. rewrite A, B. cbn [List.length forallb].
  rewrite C. change (-1 <=? -1)%Z with true. cbn [andb]. rewrite L. destruct (Z.eqb_spec (prodZ tail) 0); [lia|]. cbn [negb andb].
  rewrite Z.mod_mul by lia. cbn [Z.eqb map bind]. change (-1 =? -1)%Z with true. cbn iota. rewrite Z.div_mul by lia. rewrite D. reflexivity.
Qed.
(** a model that undoes itself gives back any array of examples of the trained shape *)
Theorem sk_roundtrip n tail (train a : ndarr) (model model_inverse : ndarr -> result ndarr) :
  examples n tail a -> (exists k, fst train = k :: tail) ->
  (forall m, (do r <- model m; model_inverse r) = Ok m) ->
  (do r <- sk_forward model a; sk_backward model_inverse (sk_shape train) r) = Ok a.
Proof.
  intros E [k0 S0] M. assert (S : sk_shape train = tail) by (unfold sk_shape; rewrite S0; reflexivity). unfold sk_forward. rewrite (sk_rows n tail a E). cbn [bind]. specialize (M ([n; prodZ tail], snd a)).
  destruct (model _) as [r|e]; [|discriminate]. cbn [bind] in *. unfold sk_backward. rewrite M. cbn [bind].
  destruct E as (F & N & T & L). rewrite S, (sk_unrows n tail ([n; prodZ tail], snd a) N T L). destruct a as [sh d]. cbn in F. rewrite F. reflexivity.
Qed.
(** examples of another shape with as many numbers come back in the training shape *)
Theorem sk_other_shape n tail tail' (train a : ndarr) (model model_inverse : ndarr -> result ndarr) :
  examples n tail a -> (exists k, fst train = k :: tail') -> (forall k, In k tail' -> 0 < k)%Z -> prodZ tail' = prodZ tail ->
  (forall m, (do r <- model m; model_inverse r) = Ok m) ->
  (do r <- sk_forward model a; sk_backward model_inverse (sk_shape train) r) = Ok (n :: tail', snd a).
Proof.
  intros E [k0 S0] T' P M. assert (S : sk_shape train = tail') by (unfold sk_shape; rewrite S0; reflexivity). unfold sk_forward. rewrite (sk_rows n tail a E). cbn [bind]. specialize (M ([n; prodZ tail], snd a)).
  destruct (model _) as [r|e]; [|discriminate]. cbn [bind] in *. unfold sk_backward. rewrite M. cbn [bind].
  destruct E as (F & N & T & L). rewrite S, (sk_unrows n tail'); [reflexivity|exact N|exact T'|]. cbn. rewrite L, P. reflexivity.
Qed.
(** no examples: numpy cannot tell how many columns there are *)
Theorem sk_empty_refuted tail d (model : ndarr -> result ndarr) : (forall k, In k tail -> 0 < k)%Z ->
  sk_forward model (0%Z :: tail, d) = Raise ValueError.
Proof. intros _. reflexivity. Qed.

(** ** Models with components *)
Section Components.
  Local Open Scope R_scope.
  Context (components : list (list R)) (w : nat).
  Let n := List.length components.
  (** Specification: as many orthonormal components as features *)
  Definition orthonormal : Prop := forall i j, (i < w)%nat -> (j < w)%nat ->
    rsum n (fun k => at_ (nth k components []) i * at_ (nth k components []) j) = if (i =? j)%nat then 1 else 0.
  Lemma project_back mean row j : orthonormal -> (j < w)%nat ->
    rsum n (fun k => at_ (centred_transform components w mean row) k * at_ (nth k components []) j) = at_ row j - at_ mean j.
  Proof.
    intros O J. rewrite (rsum_ext _ _ (fun k => rsum w (fun i => (at_ row i - at_ mean i) * (at_ (nth k components []) i * at_ (nth k components []) j)))).
    2: { intros k K. unfold centred_transform. rewrite at_map_seq by exact K. rewrite Rmult_comm, <- rsum_scale. apply rsum_ext. intros i _. ring. }
    rewrite rsum_swap. rewrite (rsum_ext _ _ (fun i => (at_ row i - at_ mean i) * (if (i =? j)%nat then 1 else 0))).
    2: { intros i I. rewrite rsum_scale, O by assumption. reflexivity. }
    rewrite (rsum_single w _ j J).
    - rewrite Nat.eqb_refl. ring.
    - intros i _ N. apply Nat.eqb_neq in N. rewrite N. ring.
  Qed.
  (** SklearnModel with a centred linear model gives back a row; WithComponents gives it
      back without the mean *)
  Theorem components_roundtrip mean row : orthonormal -> List.length row = w ->
    centred_inverse components w mean (centred_transform components w mean row) = row /\
    (forall j, (j < w)%nat -> at_ (components_inverse components w (centred_transform components w mean row)) j = at_ row j - at_ mean j).
  Proof.
    intros O L. split.
    - apply (nth_ext _ _ 0 0); unfold centred_inverse; rewrite map_length, seq_length; [symmetry; exact L|].
      intros j J. change (at_ (map (fun j => rsum (List.length components) (fun k => at_ (centred_transform components w mean row) k * at_ (nth k components []) j) + at_ mean j) (seq 0 w)) j = at_ row j).
      rewrite at_map_seq by exact J. fold n. rewrite project_back by assumption. ring.
    - intros j J. unfold components_inverse. rewrite at_map_seq by exact J. apply project_back; assumption.
  Qed.
End Components.
Section Components2.
  Local Open Scope R_scope.
  Theorem components_lose_mean_refuted :
    orthonormal [[1]] 1 /\ components_inverse [[1]] 1 (centred_transform [[1]] 1 [5] [7]) <> [7] /\
    centred_inverse [[1]] 1 [5] (centred_transform [[1]] 1 [5] [7]) = [7].
  Proof.
    assert (O : orthonormal [[1]] 1).
    { intros i j I J. replace i with 0%nat by lia. replace j with 0%nat by lia. cbn. unfold at_. cbn. ring. }
    split; [exact O|]. destruct (components_roundtrip [[1]] 1 [5] [7] O eq_refl) as (A & B). split; [|exact A].
    intros C. specialize (B 0%nat ltac:(lia)). rewrite C in B. unfold at_ in B. cbn in B. lra.
  Qed.
End Components2.

(** ** Learning graphs *)
(** a class with one root is accepted, any other is refused *)
Theorem one_root features : match single_root features with
  | Ok f => exists before after, features = (before ++ (f, true) :: after)%list /\ forall g, In g (before ++ after) -> snd g = false
  | Raise e => e = ValueError /\ List.length (filter snd features) <> 1
  end.
Proof.
  assert (Z : forall l : list (string * bool), filter snd l = [] -> forall g, In g l -> snd g = false).
  { induction l as [|g l IH]; intros F x X; [destruct X|]. cbn [filter] in F. destruct (snd g) eqn:G; [discriminate|].
    destruct X as [<-|X]; [exact G|apply IH; assumption]. }
  unfold single_root. destruct (filter snd features) as [|f [|g r]] eqn:E; [split; [reflexivity|discriminate]| |split; [reflexivity|discriminate]].
  induction features as [|g features IH]; [discriminate|]. cbn [filter] in E. destruct (snd g) eqn:G.
  - injection E as -> E. exists [], features. split; [destruct f; cbn in *; subst; reflexivity|]. cbn [app]. apply Z, E.
  - destruct (IH E) as (b & a & -> & H). exists (g :: b), a. split; [reflexivity|]. intros x [<-|X]; [exact G|apply H, X].
Qed.
(** the network of the first stage that holds one *)
Theorem loaded_network {V} (ops : list (op V)) : match load_network true ops with
  | Ok n => exists before o after, ops = (before ++ o :: after)%list /\ lookup "network" (o_kwargs o) = Some n /\
              forall p, In p before -> lookup "network" (o_kwargs p) = None
  | Raise e => e = RuntimeError /\ forall p, In p ops -> lookup "network" (o_kwargs p) = None
  end.
Proof.
  unfold load_network. induction ops as [|o ops IH]; cbn [first_network]; [split; [reflexivity|intros p []]|].
  rewrite op_attributes by discriminate. destruct (lookup "network" (o_kwargs o)) as [n|] eqn:L.
  - exists [], o, ops. split; [reflexivity|]. split; [exact L|intros p []].
  - destruct (first_network ops) as [n|e].
    + destruct IH as (b & q & a & -> & Q & H). exists (o :: b), q, a. split; [reflexivity|]. split; [exact Q|].
      intros p [<-|P]; [exact L|apply H, P].
    + destruct IH as (-> & H). split; [reflexivity|]. intros p [<-|P]; [exact L|apply H, P].
Qed.
Theorem no_stored_network {V} (ops : list (op V)) : load_network false ops = Raise RuntimeError.
Proof. reflexivity. Qed.
(** util.model_hash never gives a hash under Python 3 *)
Theorem model_hash_refuted md5 text ps : model_hash true md5 text ps = Raise TypeError.
Proof. reflexivity. Qed.

(** ** Examples *)
(** a class with one argument [size], whose networks have one weight of that size *)
Definition ex_params (c : unit) : list string := ["size"].
Definition ex_construct (c : unit) (args : list nat) : result (net nat (list Z) unit) :=
  match args with
  | [s] => Ok {| n_cls := c; n_dict := [("training", 1); ("size", s)]; n_weights := [("w", repeat 0%Z s)]; n_training := true |}
  | _ => Raise TypeError
  end.
Definition ex_fits (a b : kw (list Z)) : bool :=
  match a, b with [(k, x)], [(k', y)] => (k =? k') && (List.length x =? List.length y)%nat | _, _ => false end.
Definition ex_net : net nat (list Z) unit :=
  {| n_cls := tt; n_dict := [("training", 1); ("size", 2)]; n_weights := [("w", [5; -3]%Z)]; n_training := false |}.
Definition ex_code (params : list string) (varkw : bool) (r : result (held nat (list Z) unit)) : code (held nat (list Z) unit) :=
  {| c_data := true; c_params := params; c_varkw := varkw; c_free := false; c_body := fun _ _ => r; c_bytes := "" |}.
Definition ex_result : presult nat (list Z) unit :=
  {| p_data := Some 9;
     p_op := {| o_code := ex_code ["network"; "chunk_size"] false (Ok (HVal 1)); o_kwargs := [("network", HNet ex_net); ("chunk_size", HVal 4)] |};
     p_inv_data := {| o_code := ex_code [] true (Ok (HVal 0)); o_kwargs := [] |};
     p_inverse := {| o_code := ex_code [] false (Raise NotImplementedError); o_kwargs := [] |};
     p_name := "PyTorchNetwork" |}.
Example faithful_example : faithful ex_params ex_construct ex_fits ex_net.
Proof.
  exists [2], {| n_cls := tt; n_dict := [("training", 1); ("size", 2)]; n_weights := [("w", [0; 0]%Z)]; n_training := true |}.
  repeat split. constructor; [reflexivity|constructor].
Qed.
Example stored_example : exists p' dict, store_and_load ex_params ex_construct ex_fits ex_result = Ok (dict, p') /\
  p_op p' = p_op ex_result /\ call_op (p_op p') (HVal 7) [] = Ok (HVal 1) /\
  call_op (p_inverse p') (HVal 7) (inv_kwargs (p_inv_data p')) = Raise TypeError /\ read_data dict p' = Raise AttributeError.
Proof. eexists _, _. split; [reflexivity|]. repeat split; reflexivity. Qed.
(** a network made of another network that is passed to its constructor *)
Example nested_example :
  getstate (fun _ => ["encoder"]) {| p_data := None; p_op := {| o_code := ex_code ["network"] false (Ok (HVal 1)); o_kwargs := [("network", HNet ex_net)] |};
    p_inv_data := {| o_code := ex_code [] true (Ok (HVal 0)); o_kwargs := [] |};
    p_inverse := {| o_code := ex_code [] false (Raise NotImplementedError); o_kwargs := [] |}; p_name := "" |} = Raise KeyError.
Proof. reflexivity. Qed.
Example retry_example :
  let forward := fun l : list nat => if (List.length l <=? 3)%nat then Ok (List.length l) else Raise RuntimeError in
  retry true forward (repeat 0 200) (Ok (Some 3)) /\ retry false forward (repeat 0 200) (Raise AttributeError).
Proof.
  cbn zeta. split.
  - apply retry_again; [reflexivity|reflexivity|]. rewrite cut_down. apply retry_ok. reflexivity.
  - apply retry_no_message; reflexivity.
Qed.
Example examples_example : examples 2 [1; 3]%Z ([2; 1; 3]%Z, [1; 2; 3; 4; 5; 6]%R) /\
  sk_flatten ([2; 1; 3]%Z, [1; 2; 3; 4; 5; 6]%R) = Ok ([2; 3]%Z, [1; 2; 3; 4; 5; 6]%R).
Proof.
  assert (E : examples 2 [1; 3]%Z ([2; 1; 3]%Z, [1; 2; 3; 4; 5; 6]%R)).
  { split; [reflexivity|]. split; [lia|]. split; [intros k [<-|[<-|[]]]; lia|reflexivity]. }
  split; [exact E|exact (sk_rows _ _ _ E)].
Qed.
Example graph_example : single_root [("a", false); ("b", true)] = Ok "b" /\ single_root [("a", true); ("b", true)] = Raise ValueError /\
  load_network true [{| o_code := ex_code [] false (Ok (HVal 1)); o_kwargs := [] |}; p_op ex_result] = Ok (HNet ex_net).
Proof. repeat split; reflexivity. Qed.
