(** Proofs about learned models (Learned.v): extraction, storage, what training
    nodes pass on, dimensions of results, scikit-learn models, graphs. *)
From Coq Require Import String Reals Lra.
From Verif Require Import PyBase PyFacts PyMore PyRange Trainer TrainerProofs Spectral TransformProofs Preproc PreprocProofs Axis AxisProofs Learned LearnedProofs.
Local Open Scope string_scope.

(** ** Extracting data *)
(** Specification: the values at the ends of paths through nested dicts; [None]
    inside: there is one, but no data can be had from it *)
Inductive leaf {D} : pushed D -> list string -> option D -> Prop :=
| leaf_raw d : leaf (PRaw d) [] (Some d)
| leaf_result o : leaf (PResult o) [] o
| leaf_dict l k v path o : In (k, v) l -> leaf v path o -> leaf (PDict l) (k :: path) o.
Inductive xleaf {D} : extracted D -> list string -> D -> Prop :=
| xleaf_raw d : xleaf (XRaw d) [] d
| xleaf_dict l k v path d : In (k, v) l -> xleaf v path d -> xleaf (XDict l) (k :: path) d.

Section Extract.
  Context {D : Type}.
  Lemma pushed_induction (P : pushed D -> Prop) : (forall d, P (PRaw d)) -> (forall o, P (PResult o)) ->
    (forall l, Forall (fun p => P (snd p)) l -> P (PDict l)) -> forall p, P p.
  Proof.
    intros H1 H2 H3. fix IH 1. intros [d|o|l]; [apply H1|apply H2|]. apply H3.
    induction l as [|[k v] l IHl]; constructor; [apply IH|exact IHl].
  Qed.
  Definition extract_items (l : list (string * pushed D)) : result (list (string * extracted D)) :=
    mapM (fun p => do x <- extract_data (snd p); Ok (fst p, x)) l.
  Lemma extract_dict (l : list (string * pushed D)) : extract_data (PDict l) = do r <- extract_items l; Ok (XDict r).
  Proof.
    cbn [extract_data]. f_equal. unfold extract_items. induction l as [|[k v] l IH]; [reflexivity|].
    cbn [mapM fst snd]. rewrite IH. destruct (extract_data v); reflexivity.
  Qed.
  (** the data of every PreprocessResult, in its place; and it fails exactly when one
      has none to give *)
  Theorem extract_spec (p : pushed D) :
    match extract_data p with
    | Ok x => forall path d, xleaf x path d <-> leaf p path (Some d)
    | Raise e => e = AttributeError /\ exists path, leaf p path None
    end /\ (forall path, leaf p path None -> extract_data p = Raise AttributeError).
  Proof.
    induction p as [d|o|l IH] using pushed_induction.
    - cbn. split.
      + intros path x. split; intros H; inversion H; constructor.
      + intros path H. inversion H.
    - destruct o as [d|]; cbn.
      + split; [|intros path H; inversion H]. intros path x. split; intros H; inversion H; subst; constructor.
      + split; [|reflexivity]. split; [reflexivity|]. exists []. constructor.
    - rewrite extract_dict. split.
      + destruct (extract_items l) as [r|e] eqn:E; cbn [bind].
        * assert (Z : Forall2 (fun (p : string * pushed D) q => fst q = fst p /\ forall path d, xleaf (snd q) path d <-> leaf (snd p) path (Some d)) l r).
          { revert r E. induction IH as [|[k v] l (Hv & _) Hl IHl]; intros r E.
            - injection E as <-. constructor.
            - unfold extract_items in E. cbn [mapM fst snd] in E. fold (extract_items l) in E. cbn [snd] in Hv.
              destruct (extract_data v) as [x|]; [|discriminate]. cbn [bind] in E.
              destruct (extract_items l) as [r'|] eqn:E'; [|discriminate]. injection E as <-.
              constructor; [split; [reflexivity|exact Hv]|apply IHl; reflexivity]. }
          intros path d. split; intros H.
          -- inversion H as [|? k v path' ? I X]; subst. clear H.
             assert (exists v', In (k, v') l /\ leaf v' path' (Some d)).
             { clear - Z I X. induction Z as [|[k1 v1] [k2 v2] l r (K & Q) Z IHZ]; [destruct I|]. cbn in K, Q. subst. destruct I as [I|I].
               - injection I as -> ->. exists v1. split; [left; reflexivity|apply Q, X].
               - destruct (IHZ I) as (v' & A & B). exists v'. split; [right; exact A|exact B]. }
             destruct H as (v' & A & B). econstructor; eassumption.
          -- inversion H as [| |? k v path' ? I X]; subst. clear H.
             assert (exists v', In (k, v') r /\ xleaf v' path' d).
             { clear - Z I X. induction Z as [|[k1 v1] [k2 v2] l r (K & Q) Z IHZ]; [destruct I|]. cbn in K, Q. subst. destruct I as [I|I].
               - injection I as -> ->. exists v2. split; [left; reflexivity|apply Q, X].
               - destruct (IHZ I) as (v' & A & B). exists v'. split; [right; exact A|exact B]. }
             destruct H as (v' & A & B). econstructor; eassumption.
        * revert e E. induction IH as [|[k v] l (Hv & _) Hl IHl]; intros e E; [discriminate|].
          unfold extract_items in E. cbn [mapM fst snd] in E. fold (extract_items l) in E. cbn [snd] in Hv.
          destruct (extract_data v) as [x|e']; cbn [bind] in E.
          -- destruct (extract_items l) as [r'|e''] eqn:E'; [discriminate|]. injection E as <-.
             destruct (IHl _ eq_refl) as (A & path & B). split; [exact A|]. exists path. inversion B; subst. econstructor; [right; eassumption|assumption].
          -- injection E as <-. destruct Hv as (A & path & B). split; [exact A|]. exists (k :: path). econstructor; [left; reflexivity|exact B].
      + intros path H. inversion H as [| |? k v path' ? I X]; subst. clear H.
        assert (E : extract_items l = Raise AttributeError); [|rewrite E; reflexivity].
        induction IH as [|[k1 v1] l (Hm & Hv) Hl IHl]; [destruct I|]. unfold extract_items. cbn [mapM fst snd]. fold (extract_items l).
        cbn [snd] in Hv, Hm. destruct I as [I|I].
        * injection I as -> ->. rewrite (Hv _ X). reflexivity.
        * rewrite (IHl I). destruct (extract_data v1) as [x|e]; [reflexivity|]. destruct Hm as (-> & _). reflexivity.
  Qed.
End Extract.

(** ** Storing and loading a trained network *)
Section Storage.
  Context {V W Cls : Type} (params : Cls -> list string) (construct : Cls -> list V -> result (net V W Cls))
          (fits : kw W -> kw W -> bool).

  (** Specification: a network that was built by its class from [args], which the class
      keeps under their names, and trained since: only its weights changed, and it is
      in evaluation mode *)
  Definition faithful (n : net V W Cls) : Prop :=
    exists args n0, construct (n_cls n) args = Ok n0 /\ n_cls n0 = n_cls n /\ n_dict n0 = n_dict n /\
      Forall2 (fun p v => lookup p (n_dict n) = Some v) (params (n_cls n)) args /\
      fits (n_weights n0) (n_weights n) = true /\ n_training n = false.

  Lemma init_args (n : net V W Cls) args : Forall2 (fun p v => lookup p (n_dict n) = Some v) (params (n_cls n)) args ->
    extract_init_args params n = Ok args.
  Proof.
    unfold extract_init_args. induction 1 as [|p v ps vs H F IH]; [reflexivity|]. cbn [mapM]. rewrite H. cbn [bind]. rewrite IH. reflexivity.
  Qed.
  (** an argument of the constructor that is not among the attributes, as when it is a
      module or a parameter itself: the result cannot be stored *)
  Theorem init_arg_missing_refuted (p : presult V W Cls) n rest k :
    o_kwargs (p_op p) = ("network", HNet n) :: rest -> In k (params (n_cls n)) -> lookup k (n_dict n) = None ->
    getstate params p = Raise KeyError.
  Proof.
    intros O I L. unfold getstate. rewrite op_attributes by discriminate. rewrite O. cbn [lookup]. rewrite String.eqb_refl. cbn [bind].
    assert (E : extract_init_args params n = Raise KeyError); [|rewrite E; reflexivity].
    unfold extract_init_args. induction (params (n_cls n)) as [|x ps IH]; [destruct I|]. cbn [mapM]. destruct I as [->|I].
    - rewrite L. reflexivity.
    - destruct (lookup x (n_dict n)); [|reflexivity]. cbn [bind]. rewrite (IH I). reflexivity.
  Qed.
  Lemma del_keeps {X} k : forall (d r : kw X), dict_del k d = Ok r -> forall k', k' <> k -> lookup k' r = lookup k' d.
  Proof.
    induction d as [|[k1 v] d IH]; intros r H k' N; [discriminate|]. cbn [dict_del lookup] in *. destruct (String.eqb_spec k k1) as [->|N1].
    - injection H as <-. destruct (String.eqb_spec k' k1); [contradiction|reflexivity].
    - destruct (dict_del k d) as [q|e]; [|discriminate]. cbn [bind] in H. injection H as <-. cbn [lookup]. destruct (k' =? k1)%string; [reflexivity|]. now apply IH.
  Qed.
  (** wherever the network stands among the settings of the Op, all the other settings are
      stored, and restored *)
  Theorem stored_settings (p : presult V W Cls) s : getstate params p = Ok s ->
    (forall k, k <> "network" -> lookup k (s_op_kwargs s) = lookup k (o_kwargs (p_op p))) /\
    forall dict p', setstate construct fits s = Ok (dict, p') -> forall k, k <> "network" -> lookup k (o_kwargs (p_op p')) = lookup k (o_kwargs (p_op p)).
  Proof.
    intros H. assert (A : forall k, k <> "network" -> lookup k (s_op_kwargs s) = lookup k (o_kwargs (p_op p))).
    { unfold getstate in H. destruct (op_attr (p_op p) "network") as [[v|n]|e]; cbn [bind] in H; try discriminate. destruct (extract_init_args params n); [|discriminate]. cbn [bind] in H.
      destruct (dict_del "network" (o_kwargs (p_op p))) as [r|e] eqn:D; [|discriminate]. cbn [bind] in H. injection H as <-. cbn [s_op_kwargs]. intros k N. now apply (del_keeps "network"). }
    split; [exact A|]. intros dict p' S k N. rewrite <- A by exact N. unfold setstate in S. destruct (construct _ _); [|discriminate]. cbn [bind] in S. destruct (load_state _ _ _); [|discriminate]. cbn [bind] in S.
    destruct (mem _ _); [discriminate|]. injection S as _ <-. cbn [p_op o_kwargs lookup]. destruct (String.eqb_spec k "network"); [contradiction|reflexivity].
  Qed.
  (** everything that can be called comes back as it was, and [data] does not come back *)
  Theorem stored_same (p : presult V W Cls) n rest :
    faithful n -> o_kwargs (p_op p) = ("network", HNet n) :: rest -> ~ In "network" (keys rest) -> ~ In "data" (keys rest) ->
    o_kwargs (p_inverse p) = [] ->
    exists p' dict, store_and_load params construct fits p = Ok (dict, p') /\
      p_op p' = p_op p /\ p_inverse p' = p_inverse p /\ p_name p' = p_name p /\
      o_code (p_inv_data p') = o_code (p_inv_data p) /\ o_kwargs (p_inv_data p') = [("network", HNet n)] /\
      (forall arg k, call_op (p_op p') arg k = call_op (p_op p) arg k) /\
      read_data dict p' = Raise AttributeError.
  Proof.
    intros (args & n0 & C & K & Di & F & Ft & T) O NR ND I.
    assert (G : getstate params p = Ok {| s_forward := o_code (p_op p); s_op_kwargs := rest; s_inv_data := o_code (p_inv_data p);
              s_backward := o_code (p_inverse p); s_weights := n_weights n; s_name := p_name p; s_cls := n_cls n; s_init_args := args |}).
    { unfold getstate. rewrite op_attributes by discriminate. rewrite O. cbn [lookup dict_del]. rewrite String.eqb_refl. cbn [bind].
      rewrite (init_args n args F). reflexivity. }
    unfold store_and_load. rewrite G. cbn [bind]. unfold setstate. cbn [s_cls s_init_args s_weights s_op_kwargs]. rewrite C. cbn [bind].
    unfold load_state. rewrite Ft. cbn [bind].
    assert (M : mem "network" (keys rest) = false).
    { apply not_true_is_false. intros M. apply mem_spec in M. contradiction. }
    rewrite M.
    assert (E : set_eval {| n_cls := n_cls n0; n_dict := n_dict n0; n_weights := n_weights n; n_training := n_training n0 |} = n).
    { unfold set_eval. cbn. rewrite K, Di. destruct n as [a b c d]. cbn in *. subst d. reflexivity. }
    rewrite E. cbn zeta. cbn [s_forward s_inv_data s_backward s_name]. eexists _, _. split; [reflexivity|].
    destruct p as [pd [oc ok] [ic ik] [bc bk] nm]. cbn [p_op p_inverse p_name p_inv_data o_code o_kwargs] in *. subst ok bk.
    repeat (split; [reflexivity|]). unfold read_data. change (lookup "data" _) with (@None unit) at 1. cbn [p_op].
    rewrite op_attributes by discriminate. cbn [o_kwargs]. change (lookup "data" (("network", HNet n) :: rest)) with (lookup "data" rest).
    destruct (lookup "data" rest) as [v|] eqn:L; [|reflexivity]. exfalso. apply ND, lookup_in. exists v. exact L.
  Qed.
  (** an autoencoder keeps its network for the inverse, so that the whole result is the
      same, apart from its data *)
  Theorem autoencoder_same (p : presult V W Cls) n :
    faithful n -> o_kwargs (p_op p) = [("network", HNet n)] -> o_kwargs (p_inv_data p) = [("network", HNet n)] ->
    o_kwargs (p_inverse p) = [] ->
    exists p' dict, store_and_load params construct fits p = Ok (dict, p') /\
      p' = {| p_data := None; p_op := p_op p; p_inv_data := p_inv_data p; p_inverse := p_inverse p; p_name := p_name p |}.
  Proof.
    intros F O I B. destruct (stored_same p n [] F O (fun x => x) (fun x => x) B) as (p' & dict & S & A1 & A2 & A3 & A4 & A5 & _).
    assert (D : p_data p' = None).
    { unfold store_and_load in S. destruct (getstate params p) as [s|]; [|discriminate]. cbn in S. unfold setstate in S.
      destruct (construct _ _) as [m|]; [|discriminate]. cbn [bind] in S. destruct (load_state fits m (s_weights s)); [|discriminate]. cbn [bind] in S.
      destruct (mem _ _); [discriminate|]. injection S as _ <-. reflexivity. }
    exists p', dict. split; [exact S|]. destruct p' as [d o [ic ik] v m]. cbn in *. subst. f_equal.
    destruct (p_inv_data p) as [c k]. cbn in *. congruence.
  Qed.
  (** a PyTorchNetwork or PyTorchGan holds nothing for its inverse: asking for the inverse
      raises NotImplementedError before it was stored and TypeError afterwards *)
  Theorem inverse_changes_refuted (p : presult V W Cls) n rest d :
    faithful n -> o_kwargs (p_op p) = ("network", HNet n) :: rest -> ~ In "network" (keys rest) -> ~ In "data" (keys rest) ->
    o_kwargs (p_inv_data p) = [] -> o_kwargs (p_inverse p) = [] ->
    c_data (o_code (p_inverse p)) = true -> c_free (o_code (p_inverse p)) = false ->
    c_params (o_code (p_inverse p)) = [] -> c_varkw (o_code (p_inverse p)) = false ->
    (forall x k, c_body (o_code (p_inverse p)) x k = Raise NotImplementedError) ->
    exists p' dict, store_and_load params construct fits p = Ok (dict, p') /\
      call_op (p_inverse p) d (inv_kwargs (p_inv_data p)) = Raise NotImplementedError /\
      call_op (p_inverse p') d (inv_kwargs (p_inv_data p')) = Raise TypeError.
  Proof.
    intros F O NR ND I B C1 C2 C3 C4 C5. destruct (stored_same p n rest F O NR ND B) as (p' & dict & S & A1 & A2 & A3 & A4 & A5 & _).
    exists p', dict. split; [exact S|]. unfold inv_kwargs, call_op, call_code. rewrite A2, A5, I, B, C1, C2, C3, C4. cbn. rewrite C5. split; reflexivity.
  Qed.
  (** a restored network is in evaluation mode, whatever mode it was stored in *)
  Theorem restored_eval s dict p' : setstate construct fits s = Ok (dict, p') ->
    exists n, op_attr (p_op p') "network" = Ok (HNet n) /\ n_training n = false /\ n_weights n = s_weights s.
  Proof.
    unfold setstate. destruct (construct _ _) as [m|]; [|discriminate]. cbn [bind]. unfold load_state.
    destruct (fits _ _); [|discriminate]. cbn [bind]. destruct (mem _ _); [discriminate|]. intros H. injection H as _ <-.
    eexists. split; [reflexivity|]. split; reflexivity.
  Qed.
  (** weights that do not fit the network that the class builds now *)
  Theorem restored_misfit s m : construct (s_cls s) (s_init_args s) = Ok m -> fits (n_weights m) (s_weights s) = false ->
    setstate construct fits s = Raise RuntimeError.
  Proof. intros C F. unfold setstate. rewrite C. cbn [bind]. unfold load_state. rewrite F. reflexivity. Qed.
End Storage.

(** ** Falling back when memory runs out *)
(** under Python 3 the fallback fails: the node raises AttributeError *)
Theorem no_fallback_refuted {D} (forward : D -> result D) x : forward x = Raise RuntimeError ->
  try_forward false forward x = Raise AttributeError.
Proof. intros H. unfold try_forward. rewrite H. reflexivity. Qed.
Theorem fallback_python2 {D} (forward : D -> result D) x : forward x = Raise RuntimeError -> try_forward true forward x = Ok None.
Proof. intros H. unfold try_forward. rewrite H. reflexivity. Qed.
Theorem forward_passes {D} m (forward : D -> result D) x y : forward x = Ok y -> try_forward m forward x = Ok (Some y).
Proof. intros H. unfold try_forward. rewrite H. reflexivity. Qed.

Section Retry.
  Context {A B : Type} (forward : list A -> result B).
  Theorem retry_deterministic m inp r r' : retry m forward inp r -> retry m forward inp r' -> r = r'.
  Proof.
    intros H. revert r'. induction H as [inp y E|inp E|inp E M|inp r E M H IH|inp e E N1 N2]; intros r' H'; inversion H'; subst; try congruence.
    apply IH. assumption.
  Qed.
  Theorem retry_python3_refuted inp r : forward inp = Raise RuntimeError -> (retry false forward inp r <-> r = Raise AttributeError).
  Proof.
    intros E. split.
    - intros H. inversion H; subst; congruence.
    - intros ->. apply retry_no_message; [exact E|reflexivity].
  Qed.
  (** data of a shape that the network refuses ends the loop without a result *)
  Theorem retry_refused m inp r : forward inp = Raise ValueError -> (retry m forward inp r <-> r = Ok None).
  Proof.
    intros E. split.
    - intros H. inversion H; subst; congruence.
    - intros ->. apply retry_value. exact E.
  Qed.
  Lemma cut_down (inp : list A) : py_slice None (Some (Zlen inp / 64)%Z) inp = firstn (List.length inp / 64) inp.
  Proof.
    rewrite py_slice_upto.
    - f_equal. unfold Zlen. rewrite <- (Nat2Z.id (_ / 64)). f_equal. rewrite Nat2Z.inj_div. reflexivity.
    - unfold Zlen. apply Z.div_pos; lia.
  Qed.
  (** had it worked: the longest of the tried prefixes that fits, each a 64th of the
      one before *)
  Theorem retry_python2 limit inp :
    (forall l, limit < List.length l -> forward l = Raise RuntimeError) ->
    (forall l, List.length l <= limit -> exists y, forward l = Ok y) ->
    exists k y, forward (firstn (List.length inp / 64 ^ k) inp) = Ok y /\ retry true forward inp (Ok (Some y)) /\
      List.length inp / 64 ^ k <= limit /\ (forall j, j < k -> limit < List.length inp / 64 ^ j).
  Proof.
    intros Big Small. remember (List.length inp) as n eqn:En. revert inp En.
    induction n as [n IH] using (well_founded_induction lt_wf). intros inp En.
    destruct (le_lt_dec n limit) as [L|L].
    - destruct (Small inp) as [y Y]; [lia|]. exists 0, y. cbn [Nat.pow]. rewrite Nat.div_1_r. rewrite firstn_all2 by lia.
      split; [exact Y|]. split; [apply retry_ok, Y|]. split; [exact L|lia].
    - assert (D : n / 64 < n) by (apply Nat.div_lt; lia).
      assert (Ln : n / 64 = List.length (firstn (n / 64) inp)) by (rewrite firstn_length; lia).
      destruct (IH (n / 64) D (firstn (n / 64) inp) Ln) as (k & y & Y & R & K & J). exists (S k), y.
      assert (P : n / 64 ^ S k = n / 64 / 64 ^ k).
      { rewrite Nat.pow_succ_r'. rewrite Nat.div_div; [reflexivity|lia|apply Nat.pow_nonzero; lia]. }
      rewrite P. rewrite firstn_firstn in Y. replace (Nat.min (n / 64 / 64 ^ k) (n / 64)) with (n / 64 / 64 ^ k) in Y.
      2: { symmetry. apply Nat.min_l. apply Nat.div_le_upper_bound; [apply Nat.pow_nonzero; lia|].
           pose proof (Nat.pow_nonzero 64 k ltac:(lia)). nia. }
      split; [exact Y|]. split.
      + apply retry_again; [apply Big; lia|reflexivity|]. rewrite cut_down, <- En. exact R.
      + split; [exact K|]. intros [|j] Hj; [cbn [Nat.pow]; rewrite Nat.div_1_r; exact L|].
        rewrite Nat.pow_succ_r', <- Nat.div_div; [apply J; lia|lia|apply Nat.pow_nonzero; lia].
  Qed.
  (** and without an end when even no rows at all do not fit *)
  Theorem retry_for_ever : (forall l, forward l = Raise RuntimeError) -> forall inp r, ~ retry true forward inp r.
  Proof. intros H inp r R. induction R; try congruence. Qed.
End Retry.

(** ** What is passed on and what the Op computes *)
(** for a network that treats examples independently the two agree, whatever the chunk
    sizes, if nothing is done to the data after training *)
Theorem network_agrees {A B} (net : list A -> list B) chunksize batch x :
  (forall a b, net (a ++ b)%list = (net a ++ net b)%list) -> (0 < batch)%Z -> (forall c, chunksize = Some c -> (0 <= c)%Z) -> x <> [] ->
  network_passes_on net (fun l => l) chunksize batch x = Ok (net x) /\ network_op net chunksize batch x = Ok (net x).
Proof.
  intros H Hb Hc Hx. unfold network_passes_on, network_op, stored_chunksize. split; rewrite apply_rowwise; try assumption; try reflexivity.
  unfold train_chunksize. destruct chunksize as [c|]; [|exact Hb]. specialize (Hc c eq_refl). destruct (Z.eqb_spec c 0); lia.
Qed.
(** the chunk size that was asked for is not the one the Op uses: a network that
    does not treat examples independently shows it *)
Theorem chunksize_not_kept_refuted :
  let net := fun rows : list Z => map (fun _ => Zlen rows) rows in
  network_passes_on net (fun l => l) (Some 2%Z) 3 [0; 0; 0; 0]%Z = Ok [2; 2; 2; 2]%Z /\
  network_op net (Some 2%Z) 3 [0; 0; 0; 0]%Z = Ok [3; 3; 3; 1]%Z.
Proof. split; reflexivity. Qed.
(** the Op does not apply the function that follows training *)
Theorem post_training_not_kept_refuted :
  network_passes_on (map (Z.add 1)) (map (Z.mul 2)) None 3 [1; 2]%Z = Ok [3; 5]%Z /\ network_op (map (Z.add 1)) None 3 [1; 2]%Z = Ok [2; 3]%Z.
Proof. split; reflexivity. Qed.
(** a GAN passes on the labels of its discriminator even when its Op generates *)
Theorem gan_passes_labels {A B} (gen disc : list A -> list B) w x :
  gan_passes_on gen disc w x = apply_network disc x (Some 128%Z) /\
  gan_op gen disc w x = apply_network (match w with Generator => gen | Discriminator => disc end) x (Some 128%Z).
Proof. split; reflexivity. Qed.
Theorem gan_differs_refuted : gan_passes_on (map (Z.add 1)) (map (Z.mul 2)) Generator [5]%Z = Ok [10]%Z /\
  gan_op (map (Z.add 1)) (map (Z.mul 2)) Generator [5]%Z = Ok [6]%Z.
Proof. split; reflexivity. Qed.
Theorem gan_choice s : match which_of s with
  | Ok Generator => s = "generator" | Ok Discriminator => s = "discriminator"
  | Raise e => e = ValueError /\ s <> "generator" /\ s <> "discriminator" end.
Proof.
  unfold which_of. destruct (String.eqb_spec s "generator"); [assumption|]. destruct (String.eqb_spec s "discriminator"); [assumption|].
  split; [reflexivity|]. split; assumption.
Qed.

(** ** Dimensions of the results *)
Lemma slice_but_last {A} (l : list A) x : py_slice None (Some (-1)%Z) (l ++ [x])%list = l.
Proof.
  unfold py_slice, norm_index, Zlen. rewrite app_length. cbn [List.length]. change (Z.to_nat 0) with 0. cbn [skipn].
  change (-1 <? 0)%Z with true. cbn iota.
  replace (Z.to_nat _) with (List.length l + 0) by lia. rewrite firstn_app_2. cbn [firstn]. apply app_nil_r.
Qed.
Section Dims.
  Context {X : Type} (shape_of : X -> list nat).
  (** examples by features: the examples keep their dimension *)
  Theorem network_dims (a : @awu X) (r : X) n m d0 ds : well_formed shape_of a -> dims a = d0 :: ds ->
    shape_of r = [n; m] -> hd 0%nat (shape_of (data a)) = n ->
    net_dims shape_of (Units a) r = Ok (Units (mkAwu r [d0; DIdent])).
  Proof.
    intros (C & N) D S H. unfold net_dims. rewrite D. cbn. rewrite D in C, N.
    destruct (shape_of (data a)) as [|n' sh]; [inversion C|]. cbn in H. subst n'. inversion C; subst. inversion N; subst.
    rewrite awu_new_same; [reflexivity| |].
    - rewrite S. constructor; [assumption|]. constructor; [exact I|constructor].
    - constructor; [assumption|]. constructor; [exact I|constructor].
  Qed.
  Theorem network_dims_other (a : @awu X) (r : X) : dims a <> [] -> List.length (shape_of r) <> 2 ->
    net_dims shape_of (Units a) r = Ok (Bare r).
  Proof.
    intros D S. unfold net_dims. destruct (dims a) as [|d0 ds]; [congruence|]. cbn. rewrite awu_new_mismatch; [reflexivity|exact S].
  Qed.
  (** the discriminator's or generator's result keeps all dimensions but the last when it
      has as many *)
  Theorem gan_result_dims (a : @awu X) (r : X) ds d : well_formed shape_of a -> dims a = (ds ++ [d])%list ->
    List.length (shape_of r) = List.length (dims a) -> firstn (List.length ds) (shape_of r) = firstn (List.length ds) (shape_of (data a)) ->
    gan_dims shape_of (Units a) r = Ok (Units (mkAwu r (ds ++ [DIdent])%list)).
  Proof.
    intros (C & N) D L F. unfold gan_dims. rewrite D. assert (P : py_slice None (Some (-1)%Z) (ds ++ [d])%list = ds).
    { apply slice_but_last. }
    rewrite P. rewrite D in C, N, L. rewrite app_length in L. cbn in L. apply Forall_app in N. destruct N as (N & _).
    unfold consistent in C. apply Forall2_app_inv_l in C. destruct C as (s1 & s2 & C1 & C2 & E). rewrite E in F.
    pose proof (Forall2_len _ _ _ C1) as LL. replace (List.length ds) with (List.length s1) in F, L by lia. rewrite firstn_app, firstn_all, Nat.sub_diag in F. cbn [firstn] in F.
    rewrite app_nil_r in F. rewrite awu_new_same; [reflexivity| |].
    - rewrite <- (firstn_skipn (List.length s1) (shape_of r)), F. apply Forall2_app; [exact C1|].
      assert (K : List.length (skipn (List.length s1) (shape_of r)) = 1) by (rewrite skipn_length; lia).
      destruct (skipn (List.length s1) (shape_of r)) as [|m [|]]; try discriminate K. constructor; [exact I|constructor].
    - apply Forall_app. split; [exact N|]. constructor; [exact I|constructor].
  Qed.
  Theorem gan_dims_other (a : @awu X) (r : X) : dims a <> [] -> List.length (shape_of r) <> List.length (dims a) ->
    gan_dims shape_of (Units a) r = Ok (Bare r).
  Proof.
    intros D L. unfold gan_dims. rewrite awu_new_mismatch; [reflexivity|]. destruct (exists_last D) as (ds & d & E). rewrite E in *.
    rewrite slice_but_last, app_length. rewrite app_length in L. exact L.
  Qed.
  (** an encoding keeps the dimension of the examples and has plain ones besides *)
  Theorem encoder_result_dims (a : @awu X) (r : X) n sh d0 ds : well_formed shape_of a -> dims a = d0 :: ds ->
    shape_of r = n :: sh -> hd 0%nat (shape_of (data a)) = n ->
    encoder_dims shape_of (Units a) r = Ok (Units (mkAwu r (d0 :: repeat DIdent (List.length sh)))).
  Proof.
    intros (C & N) D S H. unfold encoder_dims. rewrite D, S. rewrite D in C, N.
    assert (P : py_slice None (Some 1%Z) (d0 :: ds) = [d0]).
    { rewrite py_slice_upto by lia. reflexivity. }
    rewrite P. cbn [List.length]. rewrite Nat.sub_succ, Nat.sub_0_r. cbn [app].
    destruct (shape_of (data a)) as [|n' sh']; [inversion C|]. cbn in H. subst n'. inversion C; subst. inversion N; subst.
    rewrite awu_new_same; [reflexivity| |].
    - rewrite S. constructor; [assumption|]. clear. induction sh as [|m sh IH]; constructor; [exact I|exact IH].
    - constructor; [assumption|]. clear. induction sh as [|m sh IH]; constructor; [exact I|exact IH].
  Qed.
  (** arrays without dimensions *)
  Theorem bare_results (x r : X) : net_dims shape_of (Bare x) r = Ok (Bare r) /\ gan_dims shape_of (Bare x) r = Ok (Bare r) /\
    encoder_dims shape_of (Bare x) r = Ok (Bare r).
  Proof. repeat split. Qed.
End Dims.
