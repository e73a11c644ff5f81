(** Proofs about Ops.v: arithmetic and broadcasting. *)
From Verif Require Import PyBase PyFacts PyMore Time Freq FreqDim Axis AxisProofs Ops.
From Coq Require Import Reals Lra.
Local Open Scope nat_scope.

(** ** Specification vocabulary *)
(** [ix] is a valid index of an array of shape [sh] *)
Definition in_shape (sh ix : list nat) : Prop := Forall2 (fun i n => i < n) ix sh.

(** ** arrays *)
Lemma np_size_cons n sh : np_size (n :: sh) = n * np_size sh.
Proof. reflexivity. Qed.
Lemma all_ix_length sh : length (all_ix sh) = np_size sh.
Proof.
  induction sh as [|n sh IH]; [reflexivity|]. rewrite np_size_cons. cbn [all_ix].
  rewrite <- IH. clear IH.
  assert (G : forall k, length (flat_map (fun i => map (cons i) (all_ix sh)) (seq k n)) = n * length (all_ix sh)).
  { clear. induction n as [|n IH]; intros k; [reflexivity|]. cbn [seq flat_map].
    rewrite app_length, map_length, IH. lia. }
  apply G.
Qed.
Lemma ravel_bound sh : forall ix, in_shape sh ix -> ravel sh ix < np_size sh.
Proof.
  induction sh as [|n sh IH]; intros ix H; inversion H as [|i ? ix' ? Hi Hr]; subst; cbn [ravel].
  - cbn. lia.
  - rewrite np_size_cons. specialize (IH _ Hr). nia.
Qed.
Lemma nth_block {A} (d : A) (f : nat -> list A) (k m : nat) : (forall i, length (f i) = m) ->
  forall n s j, k < n -> j < m -> nth (k * m + j) (flat_map f (seq s n)) d = nth j (f (s + k)) d.
Proof.
  intros L n. revert k. induction n as [|n IH]; intros k s j Hk Hj; [lia|]. cbn [seq flat_map].
  destruct k as [|k].
  - rewrite app_nth1 by (rewrite L; lia). rewrite Nat.add_0_r. reflexivity.
  - rewrite app_nth2 by (rewrite L; lia). rewrite L.
    replace (S k * m + j - m) with (k * m + j) by lia. rewrite IH by lia. f_equal. f_equal. lia.
Qed.
Lemma all_ix_nth sh : forall ix, in_shape sh ix -> nth (ravel sh ix) (all_ix sh) [] = ix.
Proof.
  induction sh as [|n sh IH]; intros ix H; inversion H as [|i ? ix' ? Hi Hr]; subst; cbn [ravel all_ix].
  - reflexivity.
  - rewrite (nth_block [] (fun i => map (cons i) (all_ix sh)) i (np_size sh)).
    + cbn [Nat.add]. change (nth (ravel sh ix') (map (cons i) (all_ix sh)) []) with
        (nth (ravel sh ix') (map (cons i) (all_ix sh)) []).
      rewrite nth_indep with (d' := i :: []) by (rewrite map_length, all_ix_length; apply ravel_bound; exact Hr).
      rewrite (map_nth (cons i)). f_equal. apply IH. exact Hr.
    + intros j. rewrite map_length. apply all_ix_length.
    + exact Hi.
    + apply ravel_bound. exact Hr.
Qed.
Lemma all_ix_in sh ix : In ix (all_ix sh) <-> in_shape sh ix.
Proof.
  revert ix. induction sh as [|n sh IH]; intros ix; cbn [all_ix].
  - split; [intros [<-|[]]; constructor|intros H; inversion H; left; reflexivity].
  - rewrite in_flat_map. split.
    + intros (i & Hi & Hx). apply in_seq in Hi. apply in_map_iff in Hx. destruct Hx as (r & <- & Hr).
      constructor; [lia|]. apply IH. exact Hr.
    + intros H. inversion H as [|i ? r ? Hi Hr]; subst. exists i. split; [apply in_seq; lia|].
      apply in_map. apply IH. exact Hr.
Qed.
Lemma nd_at_build sh f ix : in_shape sh ix -> nd_at (nd_build sh f) ix = f ix.
Proof.
  intros H. unfold nd_at, nd_build. cbn [nd_shape nd_flat].
  rewrite nth_indep with (d' := f []) by (rewrite map_length, all_ix_length; apply ravel_bound; exact H).
  rewrite map_nth. f_equal. apply all_ix_nth. exact H.
Qed.
Lemma build_wf sh f : wf_nda (nd_build sh f).
Proof. unfold wf_nda, nd_build. cbn. rewrite map_length. apply all_ix_length. Qed.
Lemma build_ext sh f g : (forall ix, in_shape sh ix -> f ix = g ix) -> nd_build sh f = nd_build sh g.
Proof. intros H. unfold nd_build. f_equal. apply map_ext_in. intros ix Hi. apply H. apply all_ix_in. exact Hi. Qed.
Lemma map_seq_nth {A} (d : A) (l : list A) : map (fun i => nth i l d) (seq 0 (length l)) = l.
Proof.
  induction l as [|x l IH]; [reflexivity|]. cbn [length seq map nth]. f_equal.
  rewrite <- seq_shift, map_map. exact IH.
Qed.
(** entries of a well-formed array are its content, in order *)
Lemma ravel_all_ix sh : map (ravel sh) (all_ix sh) = seq 0 (np_size sh).
Proof.
  induction sh as [|n sh IH]; [reflexivity|]. rewrite np_size_cons. cbn [all_ix ravel].
  assert (G : forall n k, map (ravel (n :: sh)) (flat_map (fun i => map (cons i) (all_ix sh)) (seq k n)) = seq (k * np_size sh) (n * np_size sh)).
  { clear n. induction n as [|n IHn]; intros k; [reflexivity|]. cbn [seq flat_map]. rewrite map_app, map_map.
    transitivity (map (fun x => k * np_size sh + x) (map (ravel sh) (all_ix sh)) ++ seq (S k * np_size sh) (n * np_size sh)).
    - f_equal; [rewrite map_map; reflexivity|]. rewrite <- (IHn (S k)). apply map_ext. intros [|]; reflexivity.
    - rewrite IH. replace (S n * np_size sh) with (np_size sh + n * np_size sh) by lia. rewrite seq_app. f_equal.
      + assert (Q : forall m c z, map (fun x => c + x) (seq z m) = seq (c + z) m).
        { clear. induction m as [|m IHm]; intros c z; [reflexivity|]. cbn [seq map]. f_equal. rewrite IHm. f_equal. lia. }
        rewrite Q. f_equal. lia.
      + f_equal. lia. }
  apply (G n 0).
Qed.
Lemma build_at x : wf_nda x -> nd_build (nd_shape x) (nd_at x) = x.
Proof.
  intros W. destruct x as [sh fl]. unfold wf_nda in W. cbn [nd_shape nd_flat] in W. unfold nd_build, nd_at. cbn [nd_shape nd_flat]. f_equal.
  rewrite <- (map_map (ravel sh) (fun i => nth i fl 0%R)). rewrite ravel_all_ix, <- W. apply map_seq_nth.
Qed.
(** two arrays with the same entries are the same *)
Lemma nda_ext x y : wf_nda x -> wf_nda y -> nd_shape x = nd_shape y ->
  (forall ix, in_shape (nd_shape x) ix -> nd_at x ix = nd_at y ix) -> x = y.
Proof.
  intros Wx Wy S H. rewrite <- (build_at x Wx), <- (build_at y Wy), <- S. apply build_ext. exact H.
Qed.
Lemma in_shape_length sh ix : in_shape sh ix -> length ix = length sh.
Proof. apply Forall2_len. Qed.

(** ** broadcasting: the rule as documented by numpy.  [axis_from_end s k] is the
    size of the k-th axis from the end; a missing axis counts as one. *)
Definition from_end (s : list nat) (k : nat) : nat := nth k (rev s) 1.
Definition compatible (s t : list nat) : Prop :=
  forall k, from_end s k = from_end t k \/ from_end s k = 1 \/ from_end t k = 1.
Lemma bc_rev_spec s : forall t r, bc_rev s t = Some r ->
  length r = Nat.max (length s) (length t) /\
  (forall k, nth k s 1 = nth k t 1 \/ nth k s 1 = 1 \/ nth k t 1 = 1) /\
  forall k, nth k r 1 = if nth k s 1 =? 1 then nth k t 1 else nth k s 1.
Proof.
  induction s as [|m s IH]; intros t r H.
  - cbn in H. injection H as <-. split; [reflexivity|]. split; intros k; destruct k; cbn; auto.
  - destruct t as [|n t].
    + cbn in H. injection H as <-. split; [cbn; lia|]. split; intros k.
      * right; right. destruct k; reflexivity.
      * destruct (nth k (m :: s) 1 =? 1) eqn:E; [|reflexivity]. apply Nat.eqb_eq in E. rewrite E. destruct k; reflexivity.
    + cbn [bc_rev] in H. destruct (bc_rev s t) as [q|] eqn:E; [|discriminate].
      destruct (IH _ _ E) as (L & C & V).
      assert (G : exists h, r = h :: q /\ (m = n \/ m = 1 \/ n = 1) /\ h = if m =? 1 then n else m).
      { destruct (Nat.eqb_spec m n); [injection H as <-; exists m; subst; split; [reflexivity|]; split; [auto|destruct (n =? 1); reflexivity]|].
        destruct (Nat.eqb_spec m 1); [injection H as <-; exists n; split; [reflexivity|]; split; [auto|reflexivity]|].
        destruct (Nat.eqb_spec n 1); [|discriminate]. injection H as <-. exists m. split; [reflexivity|]. split; [auto|reflexivity]. }
      destruct G as (h & -> & G1 & G2). split; [cbn; lia|]. split; intros [|k]; cbn [nth]; auto.
Qed.
Lemma bc_rev_total s : forall t, (forall k, nth k s 1 = nth k t 1 \/ nth k s 1 = 1 \/ nth k t 1 = 1) ->
  exists r, bc_rev s t = Some r.
Proof.
  induction s as [|m s IH]; intros t H; [eexists; reflexivity|]. destruct t as [|n t]; [eexists; reflexivity|].
  cbn [bc_rev]. destruct (IH t) as [r ->]. { intros k. apply (H (S k)). }
  specialize (H 0). cbn in H.
  destruct (Nat.eqb_spec m n); [eexists; reflexivity|]. destruct (Nat.eqb_spec m 1); [eexists; reflexivity|].
  destruct (Nat.eqb_spec n 1); [eexists; reflexivity|]. lia.
Qed.
Lemma broadcast_spec s t r : broadcast s t = Some r ->
  compatible s t /\ length r = Nat.max (length s) (length t) /\
  forall k, from_end r k = if from_end s k =? 1 then from_end t k else from_end s k.
Proof.
  unfold broadcast, compatible, from_end. destruct (bc_rev (rev s) (rev t)) as [q|] eqn:E; [|discriminate].
  cbn. intros [= <-]. destruct (bc_rev_spec _ _ _ E) as (L & C & V). rewrite rev_involutive.
  rewrite !rev_length in *. auto.
Qed.
Lemma broadcast_none s t : broadcast s t = None <-> ~ compatible s t.
Proof.
  split.
  - intros H C. destruct (bc_rev_total (rev s) (rev t) C) as [r E]. unfold broadcast in H. rewrite E in H. discriminate.
  - intros H. destruct (broadcast s t) as [r|] eqn:E; [|reflexivity]. elim H. apply (broadcast_spec _ _ _ E).
Qed.
Lemma bc_rev_same s : bc_rev s s = Some s.
Proof. induction s as [|m s IH]; [reflexivity|]. cbn. rewrite IH, Nat.eqb_refl. reflexivity. Qed.
Lemma broadcast_same s : broadcast s s = Some s.
Proof. unfold broadcast. rewrite bc_rev_same. cbn. rewrite rev_involutive. reflexivity. Qed.
Lemma broadcast_scalar s : broadcast s [] = Some s.
Proof.
  unfold broadcast. cbn [rev]. replace (bc_rev (rev s) []) with (Some (rev s)) by (destruct (rev s); reflexivity).
  cbn. rewrite rev_involutive. reflexivity.
Qed.
Lemma broadcast_scalar_l s : broadcast [] s = Some s.
Proof. unfold broadcast. cbn. rewrite rev_involutive. reflexivity. Qed.
Lemma bc_rev_comm s : forall t, bc_rev s t = bc_rev t s.
Proof.
  induction s as [|m s IH]; intros [|n t]; try reflexivity. cbn [bc_rev]. rewrite IH.
  destruct (bc_rev t s); [|reflexivity]. rewrite (Nat.eqb_sym n m).
  destruct (Nat.eqb_spec m n) as [->|D]; [reflexivity|].
  destruct (Nat.eqb_spec m 1) as [->|Dm]; destruct (Nat.eqb_spec n 1) as [->|Dn]; try reflexivity; congruence.
Qed.
Lemma broadcast_comm s t : broadcast s t = broadcast t s.
Proof. unfold broadcast. rewrite bc_rev_comm. reflexivity. Qed.

Lemma bc_index_same s ix : in_shape s ix -> bc_index s ix = ix.
Proof.
  intros H. unfold bc_index. rewrite (in_shape_length _ _ H), Nat.sub_diag. cbn [skipn].
  unfold in_shape in H. induction H as [|i n ix sh Hi Hr IH]; [reflexivity|]. cbn [clip]. rewrite IH.
  destruct (Nat.eqb_spec n 1) as [->|]; [replace i with 0 by lia|]; reflexivity.
Qed.
Lemma bc_index_scalar ix : bc_index [] ix = [].
Proof. unfold bc_index. cbn. reflexivity. Qed.
Lemma clip_in_shape s : forall r ix, length s = length r ->
  (forall i, i < length s -> nth i s 1 = 1 \/ nth i s 1 = nth i r 1) -> in_shape r ix -> in_shape s (clip s ix).
Proof.
  induction s as [|n s IH]; intros r ix L H I; [constructor|].
  destruct r as [|m r]; [discriminate L|]. inversion I as [|i ? ix' ? Hi Hr]; subst. cbn [clip]. constructor.
  - specialize (H 0 ltac:(cbn; lia)). cbn in H. destruct (Nat.eqb_spec n 1); lia.
  - apply (IH r); [simpl in L; lia| |exact Hr]. intros k Hk. apply (H (S k)). cbn. lia.
Qed.
Lemma skipn_in_shape k : forall r ix, in_shape r ix -> in_shape (skipn k r) (skipn k ix).
Proof.
  induction k as [|k IH]; intros r ix H; [exact H|]. inversion H; subst; [constructor|]. apply IH. assumption.
Qed.
Lemma nth_from_end (s : list nat) i : i < length s -> nth i s 1 = from_end s (length s - 1 - i).
Proof. intros H. unfold from_end. rewrite rev_nth by lia. f_equal. lia. Qed.
Lemma nth_skipn' {A} (l : list A) d : forall k i, nth i (skipn k l) d = nth (k + i) l d.
Proof. induction l as [|x l IH]; intros [|k] i; try reflexivity; [destruct i; reflexivity|]. apply IH. Qed.
Lemma bc_index_in_shape s t r ix : broadcast s t = Some r -> in_shape r ix -> in_shape s (bc_index s ix).
Proof.
  intros B I. destruct (broadcast_spec _ _ _ B) as (C & L & V). unfold bc_index.
  rewrite (in_shape_length _ _ I).
  apply (clip_in_shape s (skipn (length r - length s) r)); [rewrite skipn_length; lia| |apply skipn_in_shape; exact I].
  intros i Hi. rewrite nth_skipn'. rewrite (nth_from_end s i Hi), (nth_from_end r) by lia.
  replace (length r - 1 - (length r - length s + i)) with (length s - 1 - i) by lia.
  rewrite V. specialize (C (length s - 1 - i)).
  destruct (Nat.eqb_spec (from_end s (length s - 1 - i)) 1); [left; assumption|right; reflexivity].
Qed.
Lemma bc_index_nth s t r ix i : broadcast s t = Some r -> in_shape r ix -> i < length s ->
  nth i (bc_index s ix) 0 = if nth i s 1 =? 1 then 0 else nth (length r - length s + i) ix 0.
Proof.
  intros B I Hi. destruct (broadcast_spec _ _ _ B) as (C & L & V). unfold bc_index.
  rewrite (in_shape_length _ _ I). rewrite <- nth_skipn'.
  assert (Lk : length s <= length (skipn (length r - length s) ix)) by (rewrite skipn_length, (in_shape_length _ _ I); lia).
  revert Lk Hi. generalize (skipn (length r - length s) ix) as jx. clear. revert i.
  induction s as [|n s IH]; intros i jx Lk Hi; [cbn in Hi; lia|].
  destruct jx as [|j jx]; [cbn in Lk; lia|]. destruct i as [|i]; [cbn; destruct (n =? 1); reflexivity|].
  cbn [clip nth]. apply IH; cbn in *; lia.
Qed.

(** numpy's rule for the entry of an operand used at entry [ix] of the result: axes
    are aligned at the end, and an axis of size one is read at 0 *)
Definition entry_used (s ix jx : list nat) : Prop :=
  in_shape s jx /\ forall i, i < length s -> nth i jx 0 = if nth i s 1 =? 1 then 0 else nth (length ix - length s + i) ix 0.
Lemma bc_index_used s t r ix : broadcast s t = Some r -> in_shape r ix -> entry_used s ix (bc_index s ix).
Proof.
  intros B I. split; [eapply bc_index_in_shape; eassumption|]. intros i Hi.
  rewrite (in_shape_length _ _ I). eapply bc_index_nth; eassumption.
Qed.

(** ** arithmetic *)
Lemma wrapped_arr ps r : wf_nda r -> arr_of (wrapped ps r) = r.
Proof.
  intros W. assert (Z0 : (ndim r =? 0) = true -> mkNda [] [the_item r] = r).
  { intros E. apply Nat.eqb_eq in E. destruct r as [[|] fl]; [|discriminate E]. unfold wf_nda in W. cbn in W.
    destruct fl as [|v [|]]; try discriminate W. reflexivity. }
  unfold wrapped. destruct (find _ ps) as [[v|x|c a]|]; try (destruct (ndim r =? 0) eqn:E; [apply Z0; reflexivity|reflexivity]).
  unfold array_wrap. destruct (_ =? ndim r); [reflexivity|]. destruct (ndim r =? 0) eqn:E; [apply Z0; reflexivity|reflexivity].
Qed.
Theorem binary_entries f p q r : binary f p q = Ok r ->
  let s := nd_shape (arr_of p) in let t := nd_shape (arr_of q) in let u := nd_shape (arr_of r) in
  wf_nda (arr_of r) /\ length u = Nat.max (length s) (length t) /\
  (forall k, from_end u k = if from_end s k =? 1 then from_end t k else from_end s k) /\
  forall ix, in_shape u ix -> exists jx kx,
    entry_used s ix jx /\ entry_used t ix kx /\ nd_at (arr_of r) ix = f (nd_at (arr_of p) jx) (nd_at (arr_of q) kx).
Proof.
  intros H s t u. unfold binary, np_binary in H. fold s t in H.
  destruct (broadcast s t) as [sh|] eqn:B; [|discriminate]. cbn [bind] in H. injection H as <-.
  subst u. rewrite wrapped_arr in * by apply build_wf. cbn [nd_shape nd_build].
  destruct (broadcast_spec _ _ _ B) as (C & L & V).
  split; [apply build_wf|]. split; [exact L|]. split; [exact V|].
  intros ix I. exists (bc_index s ix), (bc_index t ix).
  split; [eapply bc_index_used; eassumption|]. split; [eapply bc_index_used; [rewrite broadcast_comm|]; eassumption|].
  rewrite nd_at_build by exact I. reflexivity.
Qed.
Theorem binary_shapes f p q :
  (compatible (nd_shape (arr_of p)) (nd_shape (arr_of q)) -> exists r, binary f p q = Ok r) /\
  (~ compatible (nd_shape (arr_of p)) (nd_shape (arr_of q)) -> binary f p q = Raise ValueError).
Proof.
  unfold binary, np_binary. split; intros H.
  - destruct (broadcast _ _) eqn:B; [eexists; reflexivity|]. apply broadcast_none in B. contradiction.
  - apply broadcast_none in H. rewrite H. reflexivity.
Qed.
(** the units of the result: those of the left operand, if it has as many axes as the
    result; of the right operand, if the left has none *)
Theorem binary_units_left f c a q r : binary f (PUnits c a) q = Ok r ->
  length (dims a) = ndim (data a) -> ndim (arr_of q) <= ndim (data a) ->
  exists x, r = PUnits c (mkAwu x (dims a)).
Proof.
  intros H D Q. destruct (binary_entries _ _ _ _ H) as (_ & L & _). unfold ndim in *. cbn [arr_of] in L.
  unfold binary in H. destruct (np_binary _ _ _) as [x|]; [|discriminate]. cbn [bind] in H. injection H as <-.
  cbn [wrapped find] in *. unfold array_wrap in *. destruct (Nat.eqb_spec (length (dims a)) (ndim x)) as [E|N]; [eexists; reflexivity|].
  exfalso. apply N. destruct (Nat.eqb_spec (ndim x) 0) as [E0|]; cbn [arr_of nd_shape length] in L; unfold ndim in *; lia.
Qed.
Theorem binary_units_right f p c a r : (forall c' a', p <> PUnits c' a') -> binary f p (PUnits c a) = Ok r ->
  length (dims a) = ndim (data a) -> ndim (arr_of p) <= ndim (data a) ->
  exists x, r = PUnits c (mkAwu x (dims a)).
Proof.
  intros Np H D Q. destruct (binary_entries _ _ _ _ H) as (_ & L & _). unfold ndim in *.
  unfold binary in H. destruct (np_binary _ _ _) as [x|]; [|discriminate]. cbn [bind] in H. injection H as <-.
  assert (E1 : wrapped [p; PUnits c a] x = array_wrap c a x) by (destruct p; [reflexivity|reflexivity|elim (Np c0 a0); reflexivity]).
  rewrite E1 in *. unfold array_wrap in *. destruct (Nat.eqb_spec (length (dims a)) (ndim x)) as [E|N]; [eexists; reflexivity|].
  exfalso. apply N. cbn [arr_of] in L. destruct (Nat.eqb_spec (ndim x) 0) as [E0|]; cbn [arr_of nd_shape length] in L; unfold ndim in *; lia.
Qed.
(** an operand of the same shape, or a number: all units stay, and are right *)
Theorem binary_same_shape f c a q : well_formed nd_shape a -> nd_shape (arr_of q) = nd_shape (data a) ->
  exists x, binary f (PUnits c a) q = Ok (PUnits c (mkAwu x (dims a))) /\
    well_formed nd_shape (mkAwu x (dims a)) /\ nd_shape x = nd_shape (data a) /\
    forall ix, in_shape (nd_shape x) ix -> nd_at x ix = f (nd_at (data a) ix) (nd_at (arr_of q) ix).
Proof.
  intros [C N] S. unfold binary, np_binary. cbn [arr_of]. rewrite S, broadcast_same. cbn [bind wrapped find].
  unfold array_wrap. rewrite (Forall2_len _ _ _ C). unfold ndim. cbn [nd_shape nd_build]. rewrite Nat.eqb_refl.
  eexists. split; [reflexivity|]. split; [split; assumption|]. split; [reflexivity|].
  intros ix I. change (in_shape (nd_shape (data a)) ix) in I. rewrite nd_at_build by exact I.
  rewrite bc_index_same by exact I. reflexivity.
Qed.
Theorem binary_number f c a v : well_formed nd_shape a ->
  (exists x, binary f (PUnits c a) (PNum v) = Ok (PUnits c (mkAwu x (dims a))) /\
    well_formed nd_shape (mkAwu x (dims a)) /\ nd_shape x = nd_shape (data a) /\
    forall ix, in_shape (nd_shape x) ix -> nd_at x ix = f (nd_at (data a) ix) v) /\
  (exists x, binary f (PNum v) (PUnits c a) = Ok (PUnits c (mkAwu x (dims a))) /\
    well_formed nd_shape (mkAwu x (dims a)) /\ nd_shape x = nd_shape (data a) /\
    forall ix, in_shape (nd_shape x) ix -> nd_at x ix = f v (nd_at (data a) ix)).
Proof.
  intros [C N]. unfold binary, np_binary. cbn [arr_of nd_shape]. rewrite broadcast_scalar, broadcast_scalar_l.
  cbn [bind wrapped find]. unfold array_wrap. rewrite (Forall2_len _ _ _ C). unfold ndim. cbn [nd_shape nd_build].
  rewrite Nat.eqb_refl.
  split; (eexists; split; [reflexivity|]; split; [split; assumption|]; split; [reflexivity|]; intros ix I;
    change (in_shape (nd_shape (data a)) ix) in I; rewrite nd_at_build by exact I;
    rewrite bc_index_scalar, (bc_index_same (nd_shape (data a))) by exact I; reflexivity).
Qed.
Theorem unary_keeps f c a : well_formed nd_shape a -> wf_nda (data a) ->
  exists x, unary f (PUnits c a) = PUnits c (mkAwu x (dims a)) /\ well_formed nd_shape (mkAwu x (dims a)) /\
    nd_shape x = nd_shape (data a) /\
    forall ix, in_shape (nd_shape x) ix -> nd_at x ix = f (nd_at (data a) ix).
Proof.
  intros [C N] W. unfold unary. cbn [arr_of wrapped find]. unfold array_wrap, ndim. cbn [nd_shape].
  rewrite (Forall2_len _ _ _ C), Nat.eqb_refl. eexists. split; [reflexivity|]. split; [split; assumption|].
  split; [reflexivity|]. cbn [nd_shape]. intros ix I. unfold nd_at. cbn [nd_shape nd_flat].
  rewrite nth_indep with (d' := f 0%R) by (rewrite map_length, W; apply ravel_bound; exact I). apply map_nth.
Qed.
(** false in general: a left operand with fewer axes loses the units that the swapped
    expression keeps ... *)
Theorem binary_fewer_axes f g c a c' b r r' : ndim (data a) < ndim (data b) ->
  length (dims a) = ndim (data a) -> length (dims b) = ndim (data b) ->
  binary f (PUnits c a) (PUnits c' b) = Ok r -> binary g (PUnits c' b) (PUnits c a) = Ok r' ->
  (exists x, r = PRaw x) /\ exists y, r' = PUnits c' (mkAwu y (dims b)).
Proof.
  intros Lt Da Db H H'. split; [|eapply binary_units_left; [eassumption|assumption|cbn; lia]].
  destruct (binary_entries _ _ _ _ H) as (_ & L & _). unfold ndim in *. cbn [arr_of] in L.
  unfold binary in H. destruct (np_binary _ _ _) as [x|] eqn:E; [|discriminate]. cbn [bind] in H. injection H as <-.
  cbn [wrapped find] in *.
  assert (W : wf_nda x). { unfold np_binary in E. destruct (broadcast _ _); [|discriminate]. injection E as <-. apply build_wf. }
  pose proof (wrapped_arr [PUnits c a] x W) as Ar. cbn [wrapped find] in Ar. rewrite Ar in L.
  unfold array_wrap, ndim. destruct (Nat.eqb_spec (length (dims a)) (length (nd_shape x))); [lia|].
  destruct (Nat.eqb_spec (length (nd_shape x)) 0); [lia|]. eexists; reflexivity.
Qed.
(** ... and when an axis of size one is repeated, its dimension keeps saying one *)
Theorem binary_repeated_axis f c a t d' q n r :
  dims a = DTime t :: d' -> length (dims a) = ndim (data a) -> hd 0 (nd_shape (data a)) = 1 -> t_size t = Some 1%Z ->
  length (nd_shape (arr_of q)) = length (nd_shape (data a)) -> hd 0 (nd_shape (arr_of q)) = n -> n <> 1 ->
  binary f (PUnits c a) q = Ok r ->
  exists x, r = PUnits c (mkAwu x (dims a)) /\ hd 0 (nd_shape x) = n /\ t_span t = Ok (t_dur t) /\
    ~ well_formed nd_shape (mkAwu x (dims a)).
Proof.
  intros Ed D H1 Sz Lq Hn N H.
  destruct (binary_entries _ _ _ _ H) as (_ & L & V & _). cbn [arr_of] in L, V.
  destruct (binary_units_left _ _ _ _ _ H D) as [x ->]; [unfold ndim; lia|].
  exists x. split; [reflexivity|]. cbn [arr_of data] in L, V.
  assert (Hx : hd 0 (nd_shape x) = n).
  { rewrite Lq, Nat.max_id in L. specialize (V (length (nd_shape x) - 1)).
    rewrite Ed in D. cbn in D. unfold ndim in D.
    assert (G : forall l : list nat, length l = length (nd_shape x) -> from_end l (length (nd_shape x) - 1) = hd 0 l).
    { intros [|h l] Hl; [cbn in Hl; lia|]. rewrite <- Hl. unfold from_end. rewrite rev_nth by (cbn; lia). cbn [length].
      replace (S (length l) - S (S (length l) - 1)) with 0 by lia. reflexivity. }
    rewrite !G in V by lia. rewrite V, H1, Hn. reflexivity. }
  split; [exact Hx|]. split; [unfold t_span; rewrite Sz; f_equal; lia|].
  intros [C _]. cbn [data dims] in C. rewrite Ed in C. inversion C as [|? ? ? ? Hs _ E1 E2]; subst.
  cbn in Hs. rewrite <- E2 in Hx. cbn [hd] in Hx. rewrite Sz in Hs. injection Hs as Hs. lia.
Qed.
