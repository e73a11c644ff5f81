(** More about the Reshape preprocessor (zounds/learn/preprocess.py:332-362), modelled in
    Preproc.v as [reshape_op] and [reshape_inverse]: examples one by one, batches, no
    examples, two in a chain, and the way back for another number of examples. *)
From Coq Require Import ZArith Reals.
From Verif Require Import PyBase PyFacts PyMore Freq Preproc PreprocProofs.
Local Open Scope Z_scope.

Definition onto {A} (f : A -> A) (r : result A) : result A := match r with Ok x => Ok (f x) | Raise e => Raise e end.

Lemma prodZ_cons n l : prodZ (n :: l) = n * prodZ l.
Proof. reflexivity. Qed.

(** the shape of a whole batch is the shape of one example, with the number of examples in
    front; errors are the same *)
Lemma batch_shape n size new : 0 < n -> 0 <= size -> np_reshape (n * size) (n :: new) = onto (cons n) (np_reshape size new).
Proof.
  intros Hn Hs. unfold np_reshape. cbn [filter]. destruct (Z.eqb_spec n (-1)) as [E|_]; [lia|]. cbn [negb].
  rewrite prodZ_cons. set (known := prodZ (filter (fun k => negb (k =? -1)) new)).
  destruct (length (filter (fun k => k =? -1) new)) as [|[|c]].
  - cbn [forallb]. replace (0 <=? n) with true by (symmetry; apply Z.leb_le; lia). cbn [andb].
    replace (n * known =? n * size) with (known =? size) by (destruct (Z.eqb_spec known size), (Z.eqb_spec (n * known) (n * size)); try reflexivity; nia).
    now destruct (forallb _ new && _).
  - cbn [forallb]. replace (-1 <=? n) with true by (symmetry; apply Z.leb_le; lia). cbn [andb].
    destruct (Z.eqb_spec known 0) as [E|E].
    + rewrite E. replace (n * 0) with 0 by lia. cbn [Z.eqb negb]. now destruct (forallb _ new).
    + destruct (Z.eqb_spec (n * known) 0) as [E2|_]; [nia|]. cbn [negb].
      rewrite Z.mul_mod_distr_l by lia.
      replace (n * (size mod known) =? 0) with (size mod known =? 0)
        by (destruct (Z.eqb_spec (size mod known) 0), (Z.eqb_spec (n * (size mod known)) 0); try reflexivity; nia).
      destruct (_ && _ && _); [|reflexivity]. cbn [onto map]. destruct (Z.eqb_spec n (-1)); [lia|].
      do 2 f_equal. apply map_ext. intros k. destruct (k =? -1); [|reflexivity]. apply Z.div_mul_cancel_l; lia.
  - reflexivity.
Qed.

Lemma concat_size {A} (m : nat) (ex : list (list A)) : (forall e, In e ex -> length e = m) -> Zlen (concat ex) = Zlen ex * Z.of_nat m.
Proof.
  intros H. unfold Zlen. induction ex as [|e ex IH]; [reflexivity|]. cbn [concat length]. rewrite app_length, (H e) by now left.
  rewrite Nat2Z.inj_add, IH by (intros x I; apply H; now right). lia.
Qed.

(** Reshape treats the examples one by one: the array of the examples [ex] (each [m] numbers
    of shape [rest]) becomes the array of the reshaped examples, or every example is refused *)
Lemma reshape_by_example (m : nat) (ex : list (list R)) rest new : ex <> [] -> (forall e, In e ex -> length e = m) ->
  (forall s, (forall e, In e ex -> reshape_to (rest, e) new = Ok (s, e)) ->
     reshape_op new (Zlen ex :: rest, concat ex) = Ok (Zlen ex :: s, concat ex))
  /\ (forall err, (exists e, In e ex /\ reshape_to (rest, e) new = Raise err) ->
     reshape_op new (Zlen ex :: rest, concat ex) = Raise err)
  /\ (forall y, reshape_op new (Zlen ex :: rest, concat ex) = Ok y ->
     exists s, y = (Zlen ex :: s, concat ex) /\ forall e, In e ex -> reshape_to (rest, e) new = Ok (s, e)).
Proof.
  intros Ne L. destruct ex as [|e0 ex']; [contradiction|]. set (ex := e0 :: ex') in *.
  assert (Hn : 0 < Zlen ex) by (unfold Zlen; cbn [length ex]; lia).
  assert (I0 : In e0 ex) by now left.
  assert (Q : forall e, In e ex -> np_reshape (Zlen e) new = np_reshape (Z.of_nat m) new) by (intros e I; unfold Zlen; now rewrite (L e I)).
  assert (B : reshape_op new (Zlen ex :: rest, concat ex)
    = match np_reshape (Z.of_nat m) new with Ok s => Ok (Zlen ex :: s, concat ex) | Raise err => Raise err end).
  { unfold reshape_op, reshape_to. cbn [fst snd firstn app]. rewrite (concat_size m ex L), batch_shape by lia.
    destruct (np_reshape (Z.of_nat m) new); reflexivity. }
  rewrite B. unfold reshape_to. cbn [fst snd]. split; [|split].
  - intros s H. specialize (H e0 I0). rewrite (Q e0 I0) in H. destruct (np_reshape (Z.of_nat m) new) as [s'|]; cbn [bind] in H; [|discriminate].
    now injection H as ->.
  - intros err (e & I & H). rewrite (Q e I) in H. destruct (np_reshape (Z.of_nat m) new) as [s'|]; cbn [bind] in H; [discriminate|].
    now injection H as ->.
  - intros y H. destruct (np_reshape (Z.of_nat m) new) as [s'|] eqn:E; [|discriminate]. injection H as <-. exists s'. split; [reflexivity|].
    intros e I. rewrite (Q e I). reflexivity.
Qed.

(** batch by batch is the same as all at once *)
Lemma reshape_batches (m : nat) (ex1 ex2 : list (list R)) rest new s1 s2 : ex1 <> [] -> ex2 <> [] ->
  (forall e, In e (ex1 ++ ex2) -> length e = m) ->
  reshape_op new (Zlen ex1 :: rest, concat ex1) = Ok (Zlen ex1 :: s1, concat ex1) ->
  reshape_op new (Zlen ex2 :: rest, concat ex2) = Ok (Zlen ex2 :: s2, concat ex2) ->
  s1 = s2 /\ reshape_op new (Zlen (ex1 ++ ex2) :: rest, concat (ex1 ++ ex2)) = Ok (Zlen (ex1 ++ ex2) :: s1, concat ex1 ++ concat ex2).
Proof.
  intros N1 N2 L H1 H2.
  assert (L1 : forall e, In e ex1 -> length e = m) by (intros e I; apply L; apply in_app_iff; now left).
  assert (L2 : forall e, In e ex2 -> length e = m) by (intros e I; apply L; apply in_app_iff; now right).
  destruct (reshape_by_example m ex1 rest new N1 L1) as (_ & _ & A1).
  destruct (reshape_by_example m ex2 rest new N2 L2) as (_ & _ & A2).
  destruct (A1 _ H1) as (s & E & B1). injection E as ->. destruct (A2 _ H2) as (t & E & B2). injection E as ->.
  destruct ex1 as [|e1 ex1]; [contradiction|]. destruct ex2 as [|e2 ex2]; [contradiction|].
  assert (E : s = t).
  { pose proof (B1 e1 (or_introl eq_refl)) as C1. pose proof (B2 e2 (or_introl eq_refl)) as C2.
    unfold reshape_to in *. cbn [fst snd] in *. unfold Zlen in *. rewrite (L1 e1) in C1 by now left. rewrite (L2 e2) in C2 by now left.
    revert C1 C2. destruct (np_reshape (Z.of_nat m) new); cbn [bind]; [|discriminate]. intros C1 C2. congruence. }
  split; [exact E|]. rewrite <- concat_app.
  destruct (reshape_by_example m ((e1 :: ex1) ++ e2 :: ex2) rest new) as (A & _); [discriminate|exact L|].
  apply A. intros e I. apply in_app_iff in I as [I|I]; [now apply B1|]. rewrite E. now apply B2.
Qed.

(** of two Reshapes in a chain the last one decides *)
Lemma reshape_twice n rest (d : list R) a b y : 0 <= n ->
  reshape_op a (n :: rest, d) = Ok y -> reshape_op b y = reshape_op b (n :: rest, d).
Proof.
  intros Hn H. unfold reshape_op, reshape_to in *. cbn [fst snd firstn app] in *.
  destruct (np_reshape (Zlen d) (n :: a)) as [s|] eqn:E; cbn [bind] in H; [|discriminate]. injection H as <-. cbn [fst snd].
  assert (F : firstn 1 s = [n]); [|change (do sh <- np_reshape (Zlen d) (firstn 1 s ++ b); Ok (sh, d)) with (bind (np_reshape (Zlen d) (firstn 1 s ++ b)) (fun sh => Ok (sh, d))) || idtac; destruct s as [|k s]; [discriminate|]; cbn [firstn] in F |- *; injection F as ->; reflexivity].
  unfold np_reshape in E. cbn [filter] in E. destruct (Z.eqb_spec n (-1)); [lia|]. cbn [negb] in E.
  destruct (length (filter (fun k => k =? -1) a)) as [|[|c]]; [| |discriminate].
  - destruct (forallb _ _ && _); [|discriminate]. now injection E as <-.
  - destruct (forallb _ _ && _ && _); [|discriminate]. injection E as <-. cbn [map firstn]. destruct (Z.eqb_spec n (-1)); [lia|reflexivity].
Qed.

(** without examples a -1 cannot be resolved, and any other shape is taken, also one no
    example would fit *)
Lemma reshape_nothing rest new : In (-1) new -> reshape_op new (0 :: rest, []) = Raise ValueError.
Proof.
  intros I. unfold reshape_op, reshape_to, np_reshape. cbn [fst snd firstn app filter].
  replace (0 =? -1) with false by reflexivity. cbn [negb]. rewrite prodZ_cons.
  assert (P : (0 < length (filter (fun k => (k =? -1)%Z) new))%nat).
  { induction new as [|k l IH]; [contradiction|]. cbn [filter]. destruct (Z.eqb_spec k (-1)); [cbn; lia|]. apply IH. destruct I; [congruence|assumption]. }
  destruct (length (filter (fun k => k =? -1) new)) as [|[|c]]; [lia| |reflexivity].
  rewrite Z.mul_0_l, Z.eqb_refl. cbn [negb]. now rewrite andb_false_r.
Qed.
Lemma reshape_nothing_any rest new : (forall k, In k new -> 0 <= k) -> reshape_op new (0 :: rest, []) = Ok (0 :: new, []).
Proof.
  intros N. unfold reshape_op, reshape_to. cbn [fst snd firstn app].
  rewrite (np_reshape_same (0 :: new) []); [reflexivity|reflexivity|]. intros k [<-|I]; [lia|]. now apply N.
Qed.
Lemma reshape_misfit_nothing : exists new, (forall d : list R, length d = 6%nat -> reshape_op new ([1; 6], d) = Raise ValueError)
  /\ reshape_op new ([0; 6], []) = Ok ([0; 5], []).
Proof.
  exists [5]. split; [|reflexivity]. intros d L. unfold reshape_op, reshape_to, Zlen. cbn [fst snd firstn app]. rewrite L. reflexivity.
Qed.

(** the way back demands as many numbers as training had: other numbers of examples raise *)
Lemma reshape_back_other n rest (y : ndarr) : 0 <= n -> (forall k, In k rest -> 0 <= k) -> Zlen (snd y) <> n * prodZ rest ->
  reshape_inverse (n :: rest) y = Raise ValueError.
Proof.
  intros Hn N P. unfold reshape_inverse, reshape_to, np_reshape.
  assert (F : filter (fun k => k =? -1) (n :: rest) = []).
  { assert (G : forall l, (forall k, In k l -> 0 <= k) -> filter (fun k => k =? -1) l = []).
    { clear. induction l as [|k l IH]; intros N; [reflexivity|]. cbn. destruct (Z.eqb_spec k (-1)) as [E|_]; [specialize (N k (or_introl eq_refl)); lia|].
      apply IH. intros x I. apply N. now right. }
    apply G. intros k [<-|I]; [exact Hn|now apply N]. }
  assert (F2 : filter (fun k => negb (k =? -1)) (n :: rest) = n :: rest).
  { assert (G : forall l, (forall k, In k l -> 0 <= k) -> filter (fun k => negb (k =? -1)) l = l).
    { clear. induction l as [|k l IH]; intros N; [reflexivity|]. cbn. destruct (Z.eqb_spec k (-1)) as [E|_]; [specialize (N k (or_introl eq_refl)); lia|].
      cbn. f_equal. apply IH. intros x I. apply N. now right. }
    apply G. intros k [<-|I]; [exact Hn|now apply N]. }
  rewrite F, F2. cbn [length]. rewrite prodZ_cons. destruct (Z.eqb_spec (n * prodZ rest) (Zlen (snd y))) as [E|_]; [congruence|].
  now rewrite andb_false_r.
Qed.

(** two examples of four numbers, reshaped to 2 by whatever fits *)
Example reshape_example (a b c d e f g h : R) :
  reshape_op [2; -1] ([2; 4], [a; b; c; d; e; f; g; h]) = Ok ([2; 2; 2], [a; b; c; d; e; f; g; h])
  /\ reshape_op [3; -1] ([2; 4], [a; b; c; d; e; f; g; h]) = Raise ValueError
  /\ reshape_inverse [2; 4] ([2; 2; 2], [a; b; c; d; e; f; g; h]) = Ok ([2; 4], [a; b; c; d; e; f; g; h])
  /\ reshape_inverse [2; 4] ([1; 2; 2], [a; b; c; d]) = Raise ValueError
  /\ reshape_op [2; 1; 1; 2] ([2; 2; 2], [a; b; c; d; e; f; g; h]) = Ok ([2; 2; 1; 1; 2], [a; b; c; d; e; f; g; h]).
Proof. repeat split. Qed.
