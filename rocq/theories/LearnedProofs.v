(** Proofs about learned models (Learned.v): gathering dependencies, Ops and
    their versions. *)
From Coq Require Import String Reals.
From Verif Require Import PyBase PyFacts PyMore PyRange Trainer TrainerProofs Spectral Preproc Axis Learned.
From Verif Require Pipeline.
Local Open Scope string_scope.

(** ** Dicts *)
Lemma lookup_set {V} k v (d : kw V) x : lookup x (dict_set k v d) = if x =? k then Some v else lookup x d.
Proof.
  induction d as [|[k' v'] d IH]; cbn [dict_set lookup].
  - reflexivity.
  - destruct (String.eqb_spec k k') as [->|N]; cbn [lookup].
    + destruct (String.eqb_spec x k'); reflexivity.
    + rewrite IH. destruct (String.eqb_spec x k') as [->|]; [|reflexivity].
      destruct (String.eqb_spec k' k); [congruence|reflexivity].
Qed.
Lemma keys_set {V} k v (d : kw V) x : In x (keys (dict_set k v d)) <-> x = k \/ In x (keys d).
Proof.
  induction d as [|[k' v'] d IH]; cbn [dict_set keys map fst].
  - cbn. intuition congruence.
  - destruct (String.eqb_spec k k') as [->|N]; cbn [map fst In].
    + intuition congruence.
    + unfold keys in IH. rewrite IH. intuition congruence.
Qed.
Lemma nodup_set {V} k v (d : kw V) : NoDup (keys d) -> NoDup (keys (dict_set k v d)).
Proof.
  induction d as [|[k' v'] d IH]; intros H; cbn [dict_set keys map fst].
  - repeat constructor. intros [].
  - inversion H as [|? ? A B]; subst. destruct (String.eqb_spec k k') as [->|N]; cbn [map fst].
    + constructor; assumption.
    + constructor; [|apply IH, B]. intros I. apply keys_set in I. destruct I as [I|I]; [congruence|contradiction].
Qed.
Lemma lookup_in {V} k (d : kw V) : In k (keys d) <-> exists v, lookup k d = Some v.
Proof.
  induction d as [|[k' v'] d IH]; cbn [keys map fst lookup].
  - split; [intros []|intros [v H]; discriminate].
  - destruct (String.eqb_spec k k') as [->|N].
    + split; [eexists; reflexivity|left; reflexivity].
    + unfold keys in IH. rewrite <- IH. cbn. intuition congruence.
Qed.
Lemma lookup_update {V} (e : kw V) : forall d k, NoDup (keys e) ->
  lookup k (dict_update d e) = match lookup k e with Some v => Some v | None => lookup k d end.
Proof.
  induction e as [|[k' v'] e IH]; intros d k N; [reflexivity|].
  unfold dict_update. cbn [fold_left fst snd lookup]. fold (dict_update (dict_set k' v' d) e).
  inversion N as [|? ? A B]; subst. rewrite (IH _ _ B), lookup_set.
  destruct (String.eqb_spec k k') as [->|]; [|reflexivity].
  destruct (lookup k' e) as [v|] eqn:L; [|reflexivity].
  exfalso. apply A. apply lookup_in. exists v. exact L.
Qed.
Lemma nodup_update {V} (e : kw V) : forall d, NoDup (keys d) -> NoDup (keys (dict_update d e)).
Proof.
  induction e as [|[k' v'] e IH]; intros d N; [exact N|].
  unfold dict_update. cbn [fold_left fst snd]. apply IH, nodup_set, N.
Qed.
Lemma keys_update {V} (e : kw V) d k : NoDup (keys e) -> In k (keys (dict_update d e)) <-> In k (keys d) \/ In k (keys e).
Proof.
  intros N. rewrite !lookup_in, lookup_update by exact N.
  destruct (lookup k e) as [v|].
  - split; [right; eexists; reflexivity|intros _; eexists; reflexivity].
  - split; [left; assumption|intros [H|[v H]]; [exact H|discriminate]].
Qed.
Lemma update_empty {V} (e : kw V) : NoDup (keys e) -> dict_update [] e = e.
Proof.
  intros N. assert (H : forall e d : kw V, NoDup (keys (d ++ e)%list) -> dict_update d e = (d ++ e)%list).
  { clear. induction e as [|[k v] e IH]; intros d N; [symmetry; apply app_nil_r|].
    unfold dict_update. cbn [fold_left fst snd].
    assert (S : dict_set k v d = (d ++ [(k, v)])%list).
    { unfold keys in N. rewrite map_app in N. cbn [map fst] in N. apply NoDup_remove_2 in N.
      assert (M : ~ In k (map fst d)) by (intros I; apply N, in_or_app; left; exact I). clear - M.
      induction d as [|[k' v'] d IH]; [reflexivity|]. cbn [dict_set]. destruct (String.eqb_spec k k') as [->|].
      - exfalso. apply M. left. reflexivity.
      - cbn. rewrite IH; [reflexivity|]. intros I. apply M. right. exact I. }
    rewrite S. fold (dict_update (d ++ [(k, v)])%list e). rewrite IH; rewrite <- app_assoc; [reflexivity|exact N]. }
  apply H. exact N.
Qed.
Lemma mem_spec k l : mem k l = true <-> In k l.
Proof.
  unfold mem. rewrite existsb_exists. split.
  - intros (x & I & E). apply String.eqb_eq in E. congruence.
  - intros I. exists k. split; [exact I|apply String.eqb_refl].
Qed.

(** ** Gathering one value per dependency *)
(** Specification: what was pushed last under a name; a stretch of pushes in which
    every dependency pushed, and did not without the last one. *)
Definition last_of {D} (k : string) (evs : list (string * D)) : option D := lookup k (rev evs).
Definition covers {D} (ks : list string) (evs : list (string * D)) : Prop := forall k, In k ks -> In k (keys evs).
Definition complete_round {D} (ks : list string) (b : list (string * D)) : Prop :=
  b <> [] /\ covers ks b /\ ~ covers ks (removelast b).

Section Gather.
  Context {D : Type} (ks : list string) (Nks : NoDup ks) (Hks : ks <> []).
  Definition cache_of (evs : list (string * D)) : kw D := dict_update [] evs.

  Lemma cache_snoc evs k d : cache_of (evs ++ [(k, d)])%list = dict_set k d (cache_of evs).
  Proof. unfold cache_of, dict_update. rewrite fold_left_app. reflexivity. Qed.
  Lemma cache_lookup evs k : lookup k (cache_of evs) = last_of k evs.
  Proof.
    induction evs as [|[k' d] evs IH] using rev_ind; [reflexivity|].
    rewrite cache_snoc, lookup_set, IH. unfold last_of. rewrite rev_app_distr. reflexivity.
  Qed.
  Lemma cache_nodup evs : NoDup (keys (cache_of evs)).
  Proof. apply nodup_update. constructor. Qed.
  Lemma cache_keys evs k : In k (keys (cache_of evs)) <-> In k (keys evs).
  Proof.
    induction evs as [|[k' d] evs IH] using rev_ind; [reflexivity|].
    rewrite cache_snoc, keys_set, IH. unfold keys. rewrite map_app, in_app_iff. cbn. intuition congruence.
  Qed.
  Lemma cache_size evs : (forall p, In p evs -> In (fst p) ks) ->
    (List.length (cache_of evs) = List.length ks <-> covers ks evs).
  Proof.
    intros Sub. assert (L : List.length (cache_of evs) = List.length (keys (cache_of evs))) by (unfold keys; rewrite map_length; reflexivity).
    assert (I : incl (keys (cache_of evs)) ks).
    { intros k K. apply (proj1 (cache_keys _ _)) in K. unfold keys in K. apply in_map_iff in K. destruct K as (p & <- & P). apply Sub, P. }
    rewrite L. split.
    - intros E k K. apply (proj1 (cache_keys _ _)). refine (NoDup_length_incl (l' := ks) (cache_nodup evs) _ I k K). lia.
    - intros C. apply Nat.le_antisymm.
      + apply NoDup_incl_length; [apply cache_nodup|exact I].
      + apply NoDup_incl_length; [exact Nks|]. intros k K. apply (proj2 (cache_keys _ _)), C, K.
  Qed.
  Lemma covers_dec (evs : list (string * D)) : covers ks evs \/ ~ covers ks evs.
  Proof.
    clear Nks Hks. induction ks as [|k l IH]; [left; intros ? []|].
    destruct (in_dec string_dec k (keys evs)) as [I|I].
    - destruct IH as [H|H]; [left|right].
      + intros x [<-|X]; [exact I|apply H, X].
      + intros C. apply H. intros x X. apply C. right. exact X.
    - right. intros C. apply I, C. left. reflexivity.
  Qed.
  Lemma covers_app (a b : list (string * D)) : covers ks a -> covers ks (a ++ b)%list.
  Proof. intros H k K. unfold keys. rewrite map_app. apply in_or_app. left. apply H, K. Qed.

  (** pushes that do not complete a round *)
  Lemma feed_waiting evs : forall done rest, (forall p, In p (done ++ evs)%list -> In (fst p) ks) ->
    ~ covers ks (done ++ evs)%list ->
    net_feed (List.length ks) (Some (cache_of done)) (evs ++ rest)%list =
    (repeat None (List.length evs) ++ net_feed (List.length ks) (Some (cache_of (done ++ evs))) rest)%list.
  Proof.
    induction evs as [|[k d] evs IH]; intros done rest Sub H.
    - rewrite app_nil_r. reflexivity.
    - cbn [app net_feed List.length repeat]. unfold net_enqueue. rewrite <- cache_snoc.
      assert (A : (done ++ (k, d) :: evs)%list = ((done ++ [(k, d)]) ++ evs)%list) by (rewrite <- app_assoc; reflexivity).
      rewrite A in Sub, H. unfold net_dequeue.
      assert (N : List.length (cache_of (done ++ [(k, d)])%list) <> List.length ks).
      { rewrite cache_size; [intros C; apply H, covers_app, C|]. intros p P. apply Sub, in_or_app. left. exact P. }
      rewrite (proj2 (Nat.eqb_neq _ _) N). rewrite IH by assumption. rewrite <- A. reflexivity.
  Qed.
  (** one complete round *)
  Lemma feed_round b rest c : c = Some [] \/ c = None -> (forall p, In p b -> In (fst p) ks) -> complete_round ks b ->
    net_feed (List.length ks) c (b ++ rest)%list =
    (repeat None (List.length b - 1) ++ Some (cache_of b) :: net_feed (List.length ks) None rest)%list.
  Proof.
    intros C Sub (N & Cv & NC).
    destruct (exists_last N) as (b' & [k d] & ->). rewrite removelast_last in NC.
    assert (S' : forall p, In p b' -> In (fst p) ks) by (intros p P; apply Sub, in_or_app; left; exact P).
    assert (E : net_feed (List.length ks) c ((b' ++ [(k, d)]) ++ rest)%list =
                net_feed (List.length ks) (Some (cache_of [])) ((b' ++ [(k, d)]) ++ rest)%list).
    { destruct C as [->| ->]; [reflexivity|]. destruct b' as [|[k' d'] b']; reflexivity. }
    rewrite E. clear E C.
    rewrite <- app_assoc. rewrite (feed_waiting b' [] ([(k, d)] ++ rest)%list S' NC). cbn [app].
    rewrite app_length. cbn [List.length]. replace (List.length b' + 1 - 1)%nat with (List.length b') by lia. f_equal.
    cbn [app net_feed]. unfold net_enqueue. rewrite <- cache_snoc. unfold net_dequeue.
    rewrite (proj2 (Nat.eqb_eq _ _) (proj2 (cache_size _ Sub) Cv)). reflexivity.
  Qed.

  Lemma feed_rounds blocks : forall c rest, c = Some [] \/ c = None ->
    (forall p, In p (List.concat blocks ++ rest)%list -> In (fst p) ks) ->
    Forall (complete_round ks) blocks -> ~ covers ks rest ->
    net_feed (List.length ks) c (List.concat blocks ++ rest)%list =
    (flat_map (fun b => repeat None (List.length b - 1) ++ [Some (cache_of b)]) blocks ++ repeat None (List.length rest))%list.
  Proof.
    induction blocks as [|b blocks IH]; intros c rest C Sub F R; cbn [List.concat flat_map app].
    - cbn [List.concat app] in Sub.
      assert (E : net_feed (List.length ks) c (rest ++ [])%list = net_feed (List.length ks) (Some (cache_of [])) (rest ++ [])%list).
      { rewrite app_nil_r. destruct C as [->| ->]; [reflexivity|]. destruct rest as [|[k d] rest]; reflexivity. }
      rewrite <- (app_nil_r rest) at 1. rewrite E, (feed_waiting rest [] [] Sub R). cbn [net_feed]. apply app_nil_r.
    - inversion F; subst. cbn [List.concat] in Sub. rewrite <- app_assoc in Sub. rewrite <- (app_assoc b).
      rewrite feed_round; [| exact C | intros p P; apply Sub, in_or_app; left; exact P | assumption].
      rewrite (IH None rest (or_intror eq_refl)); [| intros p P; apply Sub, in_or_app; right; exact P | assumption | assumption].
      rewrite <- !app_assoc. reflexivity.
  Qed.

  (** what the node hands to training: one dict for each round, at its last push,
      with the latest value of every dependency *)
  Theorem gather_rounds blocks rest :
    (forall p, In p (List.concat blocks ++ rest)%list -> In (fst p) ks) ->
    Forall (complete_round ks) blocks -> ~ covers ks rest ->
    exists ds : list (kw D),
      Forall2 (fun b d => NoDup (keys d) /\ (forall k, In k (keys d) <-> In k ks) /\
                          forall k, In k ks -> lookup k d = last_of k b /\ last_of k b <> None) blocks ds /\
      net_run (List.length ks) (List.concat blocks ++ rest)%list =
      (flat_map (fun p => repeat None (List.length (fst p) - 1) ++ [Some (snd p)]) (combine blocks ds) ++
       repeat None (List.length rest))%list.
  Proof.
    intros Sub F R. exists (map cache_of blocks). split.
    - assert (Sb : forall b, In b blocks -> forall p, In p b -> In (fst p) ks).
      { intros b B p P. apply Sub, in_or_app. left. apply in_concat. exists b. split; assumption. }
      clear Sub R. induction F as [|b blocks Hb F IH]; [constructor|]. cbn [map]. constructor.
      + split; [apply cache_nodup|]. destruct Hb as (_ & Cv & _). split.
        * intros k. rewrite cache_keys. split; [|apply Cv]. intros K. unfold keys in K. apply in_map_iff in K.
          destruct K as (p & <- & P). apply (Sb b (or_introl eq_refl) p P).
        * intros k K. split; [apply cache_lookup|]. rewrite <- cache_lookup.
          destruct (proj1 (lookup_in k (cache_of b))) as [v Hv]; [apply (proj2 (cache_keys _ _)), Cv, K|]. rewrite Hv. discriminate.
      + apply IH. intros b' B. apply Sb. right. exact B.
    - unfold net_run. rewrite (feed_rounds blocks (Some []) rest (or_introl eq_refl) Sub F R). f_equal.
      rewrite combine_map_r, flat_map_map. reflexivity.
  Qed.
  (** and every history splits in this way *)
  Theorem gather_splits (evs : list (string * D)) : exists blocks rest,
    evs = (List.concat blocks ++ rest)%list /\ Forall (complete_round ks) blocks /\ ~ covers ks rest.
  Proof.
    assert (M : forall n (evs : list (string * D)), List.length evs <= n -> exists blocks rest,
      evs = (List.concat blocks ++ rest)%list /\ Forall (complete_round ks) blocks /\ ~ covers ks rest).
    { assert (E0 : ~ covers ks (@nil (string * D))).
      { intros C. clear Nks. destruct ks as [|k l]; [congruence|]. destruct (C k (or_introl eq_refl)). }
      induction n as [|n IH]; intros l L.
      - exists [], []. destruct l; [|cbn in L; lia]. split; [reflexivity|]. split; [constructor|exact E0].
      - destruct (covers_dec l) as [C|C]; [|exists [], l; split; [reflexivity|]; split; [constructor|exact C]].
        (* the shortest prefix that covers *)
        assert (P : exists b r, l = (b ++ r)%list /\ complete_round ks b).
        { clear IH L. revert C. induction l as [|p l IHl] using rev_ind; intros C; [contradiction|].
          destruct (covers_dec l) as [C'|C'].
          - destruct (IHl C') as (b & r & -> & B). exists b, (r ++ [p])%list. split; [symmetry; apply app_assoc|exact B].
          - exists (l ++ [p])%list, []. split; [symmetry; apply app_nil_r|]. split; [destruct l; discriminate|].
            split; [exact C|]. rewrite removelast_last. exact C'. }
        destruct P as (b & r & -> & B). destruct (IH r) as (bs & rest & -> & F & R).
        { destruct B as (B & _). rewrite app_length in L. destruct b; [congruence|cbn in L; lia]. }
        exists (b :: bs), rest. split; [cbn [List.concat]; rewrite app_assoc; reflexivity|]. split; [constructor; assumption|exact R]. }
    apply (M (List.length evs) evs (le_n _)).
  Qed.
End Gather.

(** PyTorchGan, PyTorchAutoEncoder: everything pushed is handed on at once, except a
    dict with another number of keys than there are dependencies, which never is *)
Theorem one_at_once {D} (is_dict : D -> option nat) needs evs :
  one_feed is_dict needs evs =
  map (fun d => match is_dict d with
                | None => Some d
                | Some n => if (n =? needs)%nat then Some d else None
                end) evs.
Proof.
  induction evs as [|d evs IH]; [reflexivity|]. cbn [one_feed map]. rewrite IH. f_equal.
  unfold one_dequeue. destruct (is_dict d) as [n|]; [|reflexivity]. destruct (n =? needs)%nat; reflexivity.
Qed.

Example gather_example :
  let evs := [("data", 1); ("data", 2); ("labels", 3); ("labels", 4); ("data", 5); ("data", 6)] in
  net_run 2 evs = [None; None; Some [("data", 2); ("labels", 3)]; None; Some [("labels", 4); ("data", 5)]; None] /\
  complete_round ["data"; "labels"] [("data", 1); ("data", 2); ("labels", 3)] /\
  complete_round ["data"; "labels"] [("labels", 4); ("data", 5)] /\
  ~ covers ["data"; "labels"] [("data", 6)].
Proof.
  cbn zeta. split; [reflexivity|]. split; [|split].
  - split; [discriminate|]. split; [intros k [<-|[<-|[]]]; cbn; tauto|].
    intros C. specialize (C "labels" (or_intror (or_introl eq_refl))). cbn in C. destruct C as [C|[C|[]]]; discriminate.
  - split; [discriminate|]. split; [intros k [<-|[<-|[]]]; cbn; tauto|].
    intros C. specialize (C "data" (or_introl eq_refl)). cbn in C. destruct C as [C|[]]; discriminate.
  - intros C. specialize (C "labels" (or_intror (or_introl eq_refl))). cbn in C. destruct C as [C|[]]; discriminate.
Qed.

Lemma concat_cons (s : string) l : String.concat "" (s :: l) = s ++ String.concat "" l.
Proof.
  destruct l as [|t l]; [|reflexivity]. cbn. symmetry. induction s as [|x s IH]; [reflexivity|cbn; rewrite IH; reflexivity].
Qed.

(** ** Calling an Op *)
Section Op.
  Context {V : Type}.
  (** Specification of a Python call with keyword arguments, as far as it concerns
      the names: everything given is wanted and everything wanted is given *)
  Definition acceptable (c : code V) (given : list string) : Prop :=
    c_free c = false /\ c_data c = true /\ (forall p, In p (c_params c) -> In p given) /\
    (c_varkw c = true \/ forall p, In p given -> In p (c_params c)).

  Lemma call_acceptable (c : code V) arg k : acceptable c (keys k) -> call_code c arg k = c_body c arg k.
  Proof.
    intros (F & P & A & B). unfold call_code. rewrite F, P. cbn [negb].
    assert (E : existsb (fun p => negb (mem (fst p) (c_params c)) && negb (c_varkw c)) k = false).
    { apply not_true_is_false. intros T. apply existsb_exists in T. destruct T as (p & I & T).
      apply andb_true_iff in T. destruct T as (T & U). apply negb_true_iff in T, U.
      destruct B as [B|B]; [congruence|]. assert (M : mem (fst p) (c_params c) = true).
      { apply mem_spec, B. unfold keys. apply in_map, I. } congruence. }
    rewrite E. assert (G : forallb (fun p => mem p (keys k)) (c_params c) = true).
    { apply forallb_forall. intros p I. apply mem_spec, A, I. }
    rewrite G. reflexivity.
  Qed.
  Lemma call_unacceptable (c : code V) arg k : ~ acceptable c (keys k) -> call_code c arg k = Raise TypeError.
  Proof.
    intros N. unfold call_code. destruct (c_free c) eqn:F; [reflexivity|]. destruct (c_data c) eqn:P; [|reflexivity]. cbn [negb].
    destruct (existsb _ k) eqn:E; [reflexivity|]. destruct (forallb _ (c_params c)) eqn:G; [|reflexivity].
    exfalso. apply N. split; [exact F|]. split; [exact P|]. split.
    - intros p I. rewrite forallb_forall in G. apply mem_spec, G, I.
    - destruct (c_varkw c) eqn:K; [left; reflexivity|right]. intros p I. unfold keys in I. apply in_map_iff in I.
      destruct I as (q & <- & I). destruct (mem (fst q) (c_params c)) eqn:M; [apply mem_spec, M|].
      assert (T : existsb (fun p => negb (mem (fst p) (c_params c)) && negb false) k = true).
      { apply existsb_exists. exists q. split; [exact I|]. rewrite M. reflexivity. }
      congruence.
  Qed.

  (** an Op runs its function with the arguments it holds, which win over those it
      is called with *)
  Theorem op_call (o : op V) arg k : NoDup (keys (o_kwargs o)) -> NoDup (keys k) ->
    exists m, NoDup (keys m) /\
      (forall x, lookup x m = match lookup x (o_kwargs o) with Some v => Some v | None => lookup x k end) /\
      (acceptable (o_code o) (keys m) -> call_op o arg k = c_body (o_code o) arg m) /\
      (~ acceptable (o_code o) (keys m) -> call_op o arg k = Raise TypeError).
  Proof.
    intros N K. exists (dict_update k (o_kwargs o)). split; [apply nodup_update, K|].
    split; [intros x; apply lookup_update, N|]. split; [apply call_acceptable|apply call_unacceptable].
  Qed.
  (** a parameter with a default value that nobody gives: the default is lost *)
  Theorem default_lost_refuted (o : op V) arg k p : NoDup (keys (o_kwargs o)) ->
    In p (c_params (o_code o)) -> ~ In p (keys k) -> ~ In p (keys (o_kwargs o)) -> call_op o arg k = Raise TypeError.
  Proof.
    intros N I A B. apply call_unacceptable. intros (_ & _ & C & _). specialize (C p I).
    apply keys_update in C; [|exact N]. tauto.
  Qed.
  (** a function that uses variables of an enclosing one, or takes no data (as the
      default inverse of BasePreprocessor), cannot be called *)
  Theorem closure_refuted (o : op V) arg k : c_free (o_code o) = true -> call_op o arg k = Raise TypeError.
  Proof. intros F. apply call_unacceptable. intros (C & _). congruence. Qed.
  Theorem no_data_refuted (o : op V) arg k : c_data (o_code o) = false -> call_op o arg k = Raise TypeError.
  Proof. intros F. apply call_unacceptable. intros (_ & C & _). congruence. Qed.
  (** reading the arguments of an Op as attributes *)
  Theorem op_attributes (o : op V) k : k <> "_kwargs" ->
    op_attr o k = match lookup k (o_kwargs o) with Some v => Ok v | None => Raise AttributeError end.
  Proof. intros N. unfold op_attr. destruct (String.eqb_spec k "_kwargs"); [congruence|reflexivity]. Qed.

  (** *** Versions *)
  Context (look : V -> hashed) (md5 : string -> string).
  Definition contents (v : V) : string :=
    match look v with HVersionStr s | HVersionBytes s | HBuffer s => s end.
  Definition hashable (v : V) : Prop := match look v with HVersionStr _ => False | _ => True end.
  Lemma hash_values_spec vs : Forall hashable vs -> hash_values look vs = Ok (String.concat "" (map contents vs)).
  Proof.
    induction 1 as [|v vs H F IH]; [reflexivity|]. cbn [hash_values map].
    unfold hashable in H. unfold update_with. cbn [map]. rewrite concat_cons. unfold contents at 1. destruct (look v) as [s|s|s]; [destruct H| |]; cbn [bind]; rewrite IH; cbn [bind].
    all: reflexivity.
  Qed.
  Lemma hash_values_str vs v s : In v vs -> look v = HVersionStr s -> hash_values look vs = Raise TypeError.
  Proof.
    induction vs as [|w vs IH]; intros I L; [destruct I|]. cbn [hash_values]. unfold update_with. destruct I as [->|I].
    - rewrite L. reflexivity.
    - destruct (look w); cbn [bind]; [reflexivity| |]; rewrite (IH I L); reflexivity.
  Qed.
  (** the version is the hash of the code followed by the contents of the arguments,
      in their order *)
  Theorem version_value (c : code V) k : Forall hashable (map snd k) ->
    op_version look md5 c k = Ok (md5 (c_bytes c ++ String.concat "" (map (fun p => contents (snd p)) k))).
  Proof. intros F. unfold op_version. rewrite (hash_values_spec _ F). cbn [bind]. rewrite map_map. reflexivity. Qed.
  (** two versions agree exactly when what is hashed agrees, unless md5 collides on it *)
  Theorem version_agrees (c c' : code V) k k' v v' :
    Forall hashable (map snd k) -> Forall hashable (map snd k') ->
    op_version look md5 c k = Ok v -> op_version look md5 c' k' = Ok v' ->
    let a := c_bytes c ++ String.concat "" (map (fun p => contents (snd p)) k) in
    let b := c_bytes c' ++ String.concat "" (map (fun p => contents (snd p)) k') in
    (md5 a = md5 b -> a = b) -> (v = v' <-> a = b).
  Proof.
    intros F F' H H' a b Inj. rewrite version_value in H, H' by assumption. injection H as <-. injection H' as <-.
    fold a b. split; [exact Inj|congruence].
  Qed.
  (** an argument whose version is a str (every version in this library is one) *)
  Theorem str_version_refuted (c : code V) k v s : In v (map snd k) -> look v = HVersionStr s ->
    make_op look md5 c k = Raise TypeError.
  Proof. intros I L. unfold make_op, op_version. rewrite (hash_values_str _ _ _ I L). reflexivity. Qed.
  Theorem make_op_ok (c : code V) k : Forall hashable (map snd k) -> make_op look md5 c k = Ok {| o_code := c; o_kwargs := k |}.
  Proof. intros F. unfold make_op. rewrite version_value by exact F. reflexivity. Qed.
End Op.

(** names of arguments are not hashed: two Ops with one version that compute
    different things, whatever the hash *)
Theorem version_ignores_names_refuted (md5 : string -> string) :
  let c := {| c_data := true; c_params := ["a"; "b"]; c_varkw := false; c_free := false;
              c_body := fun x k => match lookup "a" k, lookup "b" k with Some a, Some b => Ok (x + a - b)%Z | _, _ => Raise KeyError end;
              c_bytes := "code" |} in
  let look := fun z : Z => HBuffer (if (z =? 1)%Z then "1" else "2") in
  let o := {| o_code := c; o_kwargs := [("a", 1%Z); ("b", 2%Z)] |} in
  let o' := {| o_code := c; o_kwargs := [("b", 1%Z); ("a", 2%Z)] |} in
  make_op look md5 c (o_kwargs o) = Ok o /\ make_op look md5 c (o_kwargs o') = Ok o' /\
  op_version look md5 c (o_kwargs o) = op_version look md5 c (o_kwargs o') /\
  call_op o 0%Z [] = Ok (-1)%Z /\ call_op o' 0%Z [] = Ok 1%Z.
Proof. repeat split; reflexivity. Qed.
(** a network is hashed by its address: equal networks at two addresses have two
    versions, different networks at one address have one *)
Theorem version_of_network_refuted {V} (look : V -> hashed) (md5 : string -> string) (c : code V) n n' a a' v v' :
  look n = HBuffer a -> look n' = HBuffer a' ->
  op_version look md5 c [("network", n)] = Ok v -> op_version look md5 c [("network", n')] = Ok v' ->
  (md5 (c_bytes c ++ a) = md5 (c_bytes c ++ a') -> a = a') ->
  (v = v' <-> a = a').
Proof.
  intros L L' H H' Inj. unfold op_version in *. cbn [map snd hash_values] in *. unfold update_with in *. rewrite L in H. rewrite L' in H'.
  cbn [bind] in H, H'. assert (E : forall s, s ++ "" = s) by (induction s as [|x s IH]; [reflexivity|cbn; rewrite IH; reflexivity]).
  rewrite E in H, H'. injection H as <-. injection H' as <-. split; [exact Inj|congruence].
Qed.

(** *** The version of a pipeline *)
Lemma append_inj_l (a b c d : string) : String.length a = String.length c -> a ++ b = c ++ d -> a = c /\ b = d.
Proof.
  revert c. induction a as [|x a IH]; intros [|y c] L H; try discriminate L; [split; [reflexivity|exact H]|].
  cbn in L, H. injection H as -> H. injection L as L. destruct (IH c L H) as [-> ->]. split; reflexivity.
Qed.
Lemma concat_inj n l : forall m, n <> 0 -> (forall s, In s l -> String.length s = n) -> (forall s, In s m -> String.length s = n) ->
  String.concat "" l = String.concat "" m -> l = m.
Proof.
  induction l as [|s l IH]; intros [|t m] N L M H; [reflexivity| | |].
  - exfalso. rewrite concat_cons in H. specialize (M t (or_introl eq_refl)). cbn in H. destruct t; [cbn in M; congruence|discriminate].
  - exfalso. rewrite concat_cons in H. specialize (L s (or_introl eq_refl)). cbn in H. destruct s; [cbn in L; congruence|discriminate].
  - rewrite !concat_cons in H. destruct (append_inj_l _ _ _ _ (eq_trans (L s (or_introl eq_refl)) (eq_sym (M t (or_introl eq_refl)))) H) as [-> H'].
    f_equal. apply IH; [exact N| intros; apply L; right; assumption| intros; apply M; right; assumption|exact H'].
Qed.
(** hexadecimal digests have 32 characters: the versions of two pipelines agree exactly
    when they have Ops of the same versions in the same order, unless md5 collides *)
Theorem pipeline_versions (md5 : string -> string) vs ws :
  (forall s, In s (vs ++ ws)%list -> String.length s = 32) ->
  (pipeline_version md5 vs = pipeline_version md5 ws -> String.concat "" vs = String.concat "" ws) ->
  (pipeline_version md5 vs = pipeline_version md5 ws <-> vs = ws).
Proof.
  intros L Inj. split; [|intros ->; reflexivity]. intros E. apply (concat_inj 32); [discriminate| | |apply Inj, E].
  - intros s I. apply L, in_or_app. left. exact I.
  - intros s I. apply L, in_or_app. right. exact I.
Qed.
(** the version of a Learned node *)
Theorem learned_versions (md5 : string -> string) vs :
  (forall v, learned_version md5 (Some v) vs = v) /\ learned_version md5 None vs = md5 (String.concat "" vs).
Proof. split; reflexivity. Qed.
(** what a Learned node yields is the data of the pipeline's result on the chunk,
    converted first when a type is wanted *)
Theorem learned_yields {D K W} (wrap : D -> option W) astype wrapper (ps : list (Pipeline.step D K)) chunk :
  let x := match astype with Some f => f chunk | None => chunk end in
  match Pipeline.transform wrap ps x wrapper with
  | Ok r => learned_process wrap astype wrapper ps chunk = Ok (Pipeline.r_data r)
  | Raise e => learned_process wrap astype wrapper ps chunk = Raise e
  end.
Proof. cbn zeta. unfold learned_process. destruct (Pipeline.transform _ _ _ _); reflexivity. Qed.

