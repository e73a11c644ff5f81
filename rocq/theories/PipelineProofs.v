(** Proofs about pipelines (Pipeline.v). *)
From Verif Require Import PyBase PyFacts PyMore Pipeline.

Section PipelineProofs.
  Context {D K W : Type} (wrap : D -> option W) (rebuild : W -> D -> result D).
  Notation step := (step D K).

  (** *** Specification *)
  (** one forward step: the output and the data its inverse will need, computed
      from this very input *)
  Definition forward (p : step) (x : D) : result (D * K) :=
    do out <- op p x;
    match out with
    | Forward d k => Ok (d, k)
    | Plain d => do k <- inv_data p x; Ok (d, k)
    end.
  (** the data [y] computed from [x] re-wrapped the way [x] was *)
  Definition as_input (x y : D) : result D :=
    match wrap x with None => Ok y | Some w => rebuild w y end.
  (** the forward pass *)
  Fixpoint there (ps : list step) (x : D) : result D :=
    match ps with
    | [] => Ok x
    | p :: ps' => do yk <- forward p x; there ps' (fst yk)
    end.
  (** forward, [middle], and back: every step encloses the later ones *)
  Fixpoint there_and_back (ps : list step) (middle : D -> result D) (x : D) : result D :=
    match ps with
    | [] => middle x
    | p :: ps' =>
        do yk <- forward p x;
        do z <- there_and_back ps' middle (fst yk);
        do d <- inverse p z (snd yk);
        as_input x d
    end.

  (** *** Proofs *)
  Lemma unroll_app (ks : list K) ws (ps : list step) ks' ws' ps' d :
    length ks = length ps -> length ws = length ps ->
    unroll rebuild (ks ++ ks') (ws ++ ws') (ps ++ ps') d
    = do e <- unroll rebuild ks ws ps d; unroll rebuild ks' ws' ps' e.
  Proof.
    revert ws ps d. induction ks as [|k ks IH]; intros [|w ws] [|p ps] d L1 L2; try discriminate; [reflexivity|].
    cbn [app unroll]. destruct (inverse p d k) as [e|]; [|reflexivity]. cbn [bind].
    destruct (unwrap rebuild e w) as [f|]; [|reflexivity]. cbn [bind]. apply IH; cbn in *; lia.
  Qed.
  Lemma run_lengths (ps : list step) : forall x d ks ws, run wrap ps x = Ok (d, ks, ws) ->
    length ks = length ps /\ length ws = length ps.
  Proof.
    induction ps as [|p ps IH]; intros x d ks ws H; cbn [run] in H; [injection H as <- <- <-; split; reflexivity|].
    destruct (op p x) as [out|]; [|discriminate]. cbn [bind] in H.
    match type of H with bind ?m _ = _ => destruct m as [dk|]; [|discriminate] end. cbn [bind] in H.
    destruct (run wrap ps (fst dk)) as [[[d' ks'] ws']|] eqn:E; [|discriminate]. cbn [bind] in H.
    injection H as <- <- <-. apply IH in E. cbn. lia.
  Qed.

  Lemma run_there (ps : list step) : forall x,
    there ps x = do r <- run wrap ps x; Ok (fst (fst r)).
  Proof.
    induction ps as [|p ps IH]; intros x; [reflexivity|]. cbn [there run]. unfold forward.
    destruct (op p x) as [out|]; [|reflexivity]. cbn [bind]. destruct out as [d|d k]; cbn [bind].
    - destruct (inv_data p x) as [k|]; [|reflexivity]. cbn [bind fst]. rewrite IH.
      destruct (run wrap ps d) as [[[? ?] ?]|]; reflexivity.
    - cbn [fst]. rewrite IH. destruct (run wrap ps d) as [[[? ?] ?]|]; reflexivity.
  Qed.

  Theorem transform_data (ps : list step) x f :
    (do r <- transform wrap ps x f; Ok (r_data r))
    = do y <- there ps x; match f with None => Ok y | Some g => g y end.
  Proof.
    rewrite run_there. unfold transform. destruct (run wrap ps x) as [[[d ks] ws]|]; [|reflexivity].
    cbn [bind fst]. destruct f as [g|]; [destruct (g d)|]; reflexivity.
  Qed.

  Theorem inverse_is_reverse (ps : list step) x f :
    (do r <- transform wrap ps x f; inverse_transform rebuild r)
    = there_and_back ps (match f with None => @Ok D | Some g => g end) x.
  Proof.
    revert x. induction ps as [|p ps IH]; intros x.
    - unfold transform. cbn. destruct f as [g|]; [destruct (g x)|]; reflexivity.
    - cbn [there_and_back]. unfold forward. specialize (IH).
      unfold transform in *. cbn [run]. destruct (op p x) as [out|]; [|reflexivity]. cbn [bind].
      match goal with |- _ = bind ?m _ => destruct m as [[y k]|]; [|reflexivity] end.
      cbn [bind fst snd]. specialize (IH y).
      destruct (run wrap ps y) as [[[d ks] ws]|] eqn:R; [|cbn [bind] in IH |- *; rewrite <- IH; reflexivity].
      cbn [bind] in IH |- *.
      match goal with |- bind (bind ?m _) _ = _ => destruct m as [d'|]; [|cbn [bind] in IH |- *; rewrite <- IH; reflexivity] end.
      cbn [bind] in IH |- *. rewrite <- IH. unfold inverse_transform. cbn [r_inv r_wrap r_steps r_data rev].
      destruct (run_lengths _ _ _ _ _ R) as [L1 L2].
      rewrite unroll_app by (rewrite !rev_length; assumption).
      destruct (unroll rebuild (rev ks) (rev ws) (rev ps) d') as [e|]; [|reflexivity]. cbn [bind unroll].
      destruct (inverse p e k) as [e'|]; [|reflexivity]. cbn [bind].
      unfold unwrap, as_input. destruct (wrap x); [destruct (rebuild w e')|]; reflexivity.
  Qed.

  (** if every step inverts itself on what reaches it, so does the pipeline *)
  Fixpoint inverts_along (ps : list step) (x : D) : Prop :=
    match ps with
    | [] => True
    | p :: ps' => exists y k d, forward p x = Ok (y, k) /\ inverse p y k = Ok d /\ as_input x d = Ok x /\
                  inverts_along ps' y
    end.
  Theorem pipeline_inverts ps x : inverts_along ps x ->
    (do r <- transform wrap ps x None; inverse_transform rebuild r) = Ok x.
  Proof.
    rewrite inverse_is_reverse. revert x. induction ps as [|p ps IH]; intros x H; [reflexivity|].
    destruct H as (y & k & d & F & I & A & H). cbn [there_and_back]. rewrite F. cbn [bind fst snd].
    rewrite (IH y H). cbn [bind]. rewrite I. cbn [bind]. exact A.
  Qed.

  (** a pipeline split in two does what the whole does *)
  Theorem pipeline_split (a b : list step) x f :
    (do r <- transform wrap (a ++ b) x f; Ok (r_data r))
    = do r <- transform wrap a x None; do s <- transform wrap b (r_data r) f; Ok (r_data s).
  Proof.
    rewrite transform_data.
    replace (do r <- transform wrap a x None; do s <- transform wrap b (r_data r) f; Ok (r_data s))
      with (do y <- (do r <- transform wrap a x None; Ok (r_data r)); do s <- transform wrap b y f; Ok (r_data s))
      by (destruct (transform wrap a x None); reflexivity).
    rewrite transform_data.
    assert (A : there (a ++ b) x = do y <- there a x; there b y).
    { revert x. induction a as [|p a IH]; intros x; [reflexivity|]. cbn [app there].
      destruct (forward p x) as [yk|]; [|reflexivity]. cbn [bind]. apply IH. }
    rewrite A. destruct (there a x) as [y|]; [|reflexivity]. cbn [bind]. rewrite transform_data. reflexivity.
  Qed.
  Theorem pipeline_halves (ps : list step) (k : Z) :
    sub_slice ps None (Some k) ++ sub_slice ps (Some k) None = ps.
  Proof.
    unfold sub_slice, py_slice. set (n := Zlen ps). set (j := norm_index n k).
    assert (Hj : (0 <= j <= n)%Z) by (unfold j, norm_index, n, Zlen; destruct (k <? 0)%Z; lia).
    rewrite Z.sub_0_r. cbn [Z.to_nat skipn]. rewrite (firstn_all2 (n := Z.to_nat (n - j))).
    - apply firstn_skipn.
    - rewrite skipn_length. unfold n, Zlen in *. lia.
  Qed.
  (** picking steps by a list of positions keeps the order of the list *)
  Theorem pipeline_pick (ps : list step) (ix : list nat) : Forall (fun i => (i < length ps)%nat) ix ->
    exists qs, sub_list ps (map Z.of_nat ix) = Ok qs /\ map Some qs = map (nth_error ps) ix.
  Proof.
    induction 1 as [|i ix Hi _ IH]; [exists []; split; reflexivity|].
    destruct IH as (qs & E & M). unfold sub_list in *. cbn [map mapM].
    destruct (nth_error ps i) as [p|] eqn:Ep; [|apply nth_error_None in Ep; lia].
    assert (G : py_get ps (Z.of_nat i) = Ok p).
    { unfold py_get. destruct (Z.ltb_spec (Z.of_nat i) 0); [lia|]. destruct (Z.ltb_spec (Z.of_nat i) 0); [lia|].
      rewrite Nat2Z.id, Ep. reflexivity. }
    rewrite G. cbn [bind]. rewrite E. cbn [bind].
    exists (p :: qs). split; [reflexivity|]. cbn [map]. rewrite M. reflexivity.
  Qed.

End PipelineProofs.

(** doubling, then negating, then adding the input's own first value (kept as
    inversion data); nothing is wrapped *)
Example pipeline_runs :
  let dbl := {| op := fun x => Ok (Plain (2 * x)%Z); inv_data := fun _ => Ok 0%Z; inverse := fun y _ => Ok (y / 2)%Z |} in
  let self := {| op := fun x => Ok (Forward (x + 10 * x)%Z x); inv_data := fun _ => Raise TypeError;
                 inverse := fun y k => Ok (y - 10 * k)%Z |} in
  inverts_along (fun _ => @None unit) (fun _ y => Ok y) [dbl; self; dbl] 7%Z /\
  (do r <- transform (fun _ => @None unit) [dbl; self; dbl] 7%Z None; Ok (r_data r)) = Ok 308%Z /\
  (do r <- transform (fun _ => @None unit) [dbl; self; dbl] 7%Z None; inverse_transform (fun _ y => Ok y) r) = Ok 7%Z.
Proof.
  repeat split; try (vm_compute; reflexivity). cbn. repeat (do 3 eexists; split; [reflexivity|]; split; [reflexivity|]; split; [reflexivity|]).
  exact I.
Qed.

(** ** The node *)
Section NodeProofs.
  Context {P : Type}.

  (** *** Specification: what a dependency last delivered among [evs] *)
  Fixpoint latest (evs : list (nat * P)) (n : nat) : option P :=
    match evs with
    | [] => None
    | (m, p) :: evs' => match latest evs' n with Some q => Some q | None => if n =? m then Some p else None end
    end.
  Definition all_delivered (needs : list nat) (evs : list (nat * P)) : Prop :=
    forall n, In n needs -> exists p, In (n, p) evs.

  Lemma latest_app a b n : latest (a ++ b) n = match latest b n with Some q => Some q | None => latest a n end.
  Proof.
    induction a as [|[m p] a IH]; cbn [app latest]; [destruct (latest b n); reflexivity|].
    rewrite IH. destruct (latest b n); reflexivity.
  Qed.
  Lemma latest_some evs n p : In (n, p) evs -> latest evs n <> None.
  Proof.
    induction evs as [|[m q] evs IH]; intros H; [destruct H|]. cbn [latest].
    destruct (latest evs n) eqn:E; [discriminate|]. destruct H as [H|H].
    - injection H as -> ->. rewrite Nat.eqb_refl. discriminate.
    - apply IH in H. congruence.
  Qed.
  Lemma latest_in evs n p : latest evs n = Some p -> In (n, p) evs.
  Proof.
    induction evs as [|[m q] evs IH]; intros H; [discriminate|]. cbn [latest] in H.
    destruct (latest evs n); [injection H as ->; right; apply IH; reflexivity|].
    destruct (Nat.eqb_spec n m); [|discriminate]. injection H as ->. subst. left; reflexivity.
  Qed.

  Definition state_of (needs : list nat) (evs : list (nat * P)) : odict := map (fun n => (n, latest evs n)) needs.

  Lemma set_item_state needs evs k p : NoDup needs -> In k needs ->
    set_item (state_of needs evs) k (Some p) = state_of needs (evs ++ [(k, p)]).
  Proof.
    unfold state_of. induction needs as [|n needs IH]; intros N H; [destruct H|].
    inversion N as [|? ? N1 N2]; subst. cbn [map set_item]. rewrite latest_app. cbn [latest].
    destruct (Nat.eqb_spec k n) as [->|Ne].
    - rewrite Nat.eqb_refl. f_equal. apply map_ext_in. intros m Hm. rewrite latest_app. cbn [latest].
      destruct (Nat.eqb_spec m n); [subst; contradiction|reflexivity].
    - destruct (Nat.eqb_spec n k); [congruence|]. rewrite IH; [reflexivity|exact N2|].
      destruct H; [congruence|assumption].
  Qed.
  Lemma sequence_state needs evs :
    match sequence (map snd (state_of needs evs)) with
    | Some ps => Forall2 (fun n p => latest evs n = Some p) needs ps
    | None => exists n, In n needs /\ latest evs n = None
    end.
  Proof.
    induction needs as [|n needs IH]; [constructor|]. cbn [state_of map sequence snd].
    destruct (latest evs n) as [p|] eqn:E; [|exists n; split; [left; reflexivity|exact E]].
    unfold state_of in IH. destruct (sequence (map snd (map _ needs))) as [ps|].
    - constructor; assumption.
    - destruct IH as (m & H1 & H2). exists m. split; [right; exact H1|exact H2].
  Qed.

  (** Everything about one stretch between two emissions: [seen] has arrived
      since the last one. *)
  Theorem node_step needs seen k p : NoDup needs -> In k needs ->
    exists o, arrive needs (state_of needs seen) (k, p)
      = (match o with None => state_of needs (seen ++ [(k, p)]) | Some _ => state_of needs [] end, o) /\
    match o with
    | None => ~ all_delivered needs (seen ++ [(k, p)])
    | Some ps => all_delivered needs (seen ++ [(k, p)]) /\
        Forall2 (fun n q => latest (seen ++ [(k, p)]) n = Some q) needs ps
    end.
  Proof.
    intros N H. unfold arrive. cbn [fst snd]. rewrite set_item_state by assumption.
    unfold dequeue. pose proof (sequence_state needs (seen ++ [(k, p)])) as S.
    destruct (sequence _) as [ps|].
    - exists (Some ps). split; [reflexivity|]. split; [|exact S].
      intros n Hn. clear - S Hn. induction S as [|m q ns qs E S IH]; [destruct Hn|].
      destruct Hn as [->|Hn]; [exists q; apply latest_in; exact E|apply IH; exact Hn].
    - exists None. split; [reflexivity|]. destruct S as (n & Hn & E). intros A.
      destruct (A n Hn) as [q Hq]. apply latest_some in Hq. contradiction.
  Qed.

  (** as long as something is missing nothing is emitted; the arrival that
      completes the set emits one pipeline, its steps in declared order, and the
      node starts afresh *)
  Lemma feed_quiet needs evs : forall seen rest, NoDup needs -> (forall e, In e evs -> In (fst e) needs) ->
    (exists n, In n needs /\ latest (seen ++ evs) n = None) ->
    feed needs (state_of needs seen) (evs ++ rest) = repeat None (length evs) ++ feed needs (state_of needs (seen ++ evs)) rest.
  Proof.
    induction evs as [|[k p] evs IH]; intros seen rest N I (n & Hn & E).
    - cbn [app length repeat]. rewrite app_nil_r. reflexivity.
    - cbn [app feed length repeat].
      destruct (node_step needs seen k p N (I (k, p) (or_introl eq_refl))) as (o & A & Ho). rewrite A.
      destruct o as [ps|].
      + exfalso. destruct Ho as [All _]. destruct (All n Hn) as [q Hq]. apply latest_some in Hq. apply Hq.
        change ((k, p) :: evs) with ([(k, p)] ++ evs) in E. rewrite app_assoc, latest_app in E.
        destruct (latest evs n); [discriminate|exact E].
      + f_equal. replace (seen ++ (k, p) :: evs) with ((seen ++ [(k, p)]) ++ evs) by (rewrite <- app_assoc; reflexivity).
        apply IH; [exact N|intros e He; apply I; right; exact He|].
        exists n. split; [exact Hn|]. rewrite <- app_assoc. exact E.
  Qed.

  Theorem one_pipeline needs evs k p rest :
    NoDup needs -> (forall e, In e (evs ++ [(k, p)]) -> In (fst e) needs) ->
    ~ all_delivered needs evs -> all_delivered needs (evs ++ [(k, p)]) ->
    exists ps, Forall2 (fun n q => latest (evs ++ [(k, p)]) n = Some q) needs ps /\
      node_run needs (evs ++ (k, p) :: rest) = repeat None (length evs) ++ Some ps :: node_run needs rest.
  Proof.
    intros N I A1 A2.
    assert (M : exists n, In n needs /\ latest ([] ++ evs) n = None).
    { cbn [app]. pose proof (sequence_state needs evs) as S. destruct (sequence _) as [qs|]; [|exact S].
      exfalso. apply A1. intros n Hn. clear - S Hn. induction S as [|m q ns qs' E S IH]; [destruct Hn|].
      destruct Hn as [->|Hn]; [exists q; apply latest_in; exact E|apply IH; exact Hn]. }
    unfold node_run. change (init_pipeline needs) with (@state_of needs []).
    rewrite (feed_quiet needs evs [] _ N) by (try exact M; intros e He; apply I; apply in_or_app; left; exact He).
    cbn [app feed]. destruct (node_step needs evs k p N) as (o & A & Ho).
    { apply (I (k, p)). apply in_or_app; right; left; reflexivity. }
    rewrite A. destruct o as [ps|].
    - exists ps. split; [apply Ho|]. reflexivity.
    - exfalso. apply Ho. exact A2.
  Qed.
  Theorem no_pipeline needs evs :
    NoDup needs -> (forall e, In e evs -> In (fst e) needs) -> ~ all_delivered needs evs ->
    node_run needs evs = repeat None (length evs).
  Proof.
    intros N I A. unfold node_run. change (init_pipeline needs) with (@state_of needs []).
    rewrite <- (app_nil_r evs) at 1. rewrite feed_quiet; [cbn; apply app_nil_r|exact N|exact I|].
    cbn [app]. pose proof (sequence_state needs evs) as S. destruct (sequence _) as [qs|]; [|exact S].
    exfalso. apply A. intros n Hn. clear - S Hn. induction S as [|m q ns qs' E S IH]; [destruct Hn|].
    destruct Hn as [->|Hn]; [exists q; apply latest_in; exact E|apply IH; exact Hn].
  Qed.

  (** every dependency delivering once, in any order: one pipeline, the declared
      steps in the declared order *)
  Theorem any_order needs (val : nat -> P) order :
    needs <> [] -> NoDup needs -> Permutation.Permutation order needs ->
    node_run needs (map (fun n => (n, val n)) order)
    = repeat None (length needs - 1) ++ [Some (map val needs)].
  Proof.
    intros Ne N Pm.
    assert (No : NoDup order) by (apply (Permutation.Permutation_NoDup (Permutation.Permutation_sym Pm)); exact N).
    assert (Lo : length order = length needs) by (apply Permutation.Permutation_length; exact Pm).
    destruct (rev order) as [|k r] eqn:R.
    { apply (f_equal (@rev nat)) in R. rewrite rev_involutive in R. subst order. cbn in Lo.
      destruct needs; [contradiction|discriminate]. }
    apply (f_equal (@rev nat)) in R. rewrite rev_involutive in R. cbn [rev] in R. subst order.
    set (o := rev r) in *. rewrite map_app. cbn [map].
    set (ev := fun n => (n, val n)).
    assert (Ko : ~ In k o) by (apply NoDup_remove_2 in No; rewrite app_nil_r in No; exact No).
    destruct (one_pipeline needs (map ev o) k (val k) []) as (ps & F & E).
    - exact N.
    - intros e He. apply in_app_or in He. apply (Permutation.Permutation_in (l := o ++ [k])); [exact Pm|].
      apply in_or_app. destruct He as [He|[<-|[]]]; [|right; left; reflexivity].
      apply in_map_iff in He. destruct He as (n & <- & Hn). left. exact Hn.
    - intros A. destruct (A k) as [q Hq].
      { apply (Permutation.Permutation_in _ Pm). apply in_or_app; right; left; reflexivity. }
      apply in_map_iff in Hq. destruct Hq as (n & En & Hn). injection En as -> _. contradiction.
    - intros n Hn. exists (val n). apply (Permutation.Permutation_in _ (Permutation.Permutation_sym Pm)) in Hn.
      apply in_app_or in Hn. apply in_or_app. destruct Hn as [Hn|[->|[]]]; [left; apply in_map_iff; exists n; split; [reflexivity|exact Hn]|right; left; reflexivity].
    - unfold ev in *. rewrite E. cbn [node_run feed]. rewrite map_length.
      rewrite app_length in Lo. cbn [length] in Lo. replace (length needs - 1)%nat with (length o) by lia.
      do 3 f_equal. clear - F. revert F.
      assert (V : forall n q, latest (map (fun n => (n, val n)) o ++ [(k, val k)]) n = Some q -> q = val n).
      { intros n q Hq. apply latest_in in Hq. apply in_app_or in Hq. destruct Hq as [Hq|[Hq|[]]]; [|congruence].
        apply in_map_iff in Hq. destruct Hq as (m & Em & _). congruence. }
      induction 1 as [|n q ns qs H F IH]; [reflexivity|]. cbn [map]. f_equal; [exact (V n q H)|exact IH].
  Qed.

  Example node_example (a b c a' : P) :
    node_run [3; 1; 2]%nat [(1, b); (3, a); (3, a'); (2, c); (2, c)]%nat
    = [None; None; None; Some [a'; b; c]; None].
  Proof. reflexivity. Qed.
End NodeProofs.
