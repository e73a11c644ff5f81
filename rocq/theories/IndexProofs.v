(** Properties C10, C11, C12. *)
From Verif Require Import PyBase PyFacts Index.
From Verif Require HammingDb.
From Coq Require Import NArith Sorting.Permutation Sorting.Sorted.

(** ** C10 *)

(** every slice of the documents of our events *)
Definition expected (n_slices : N -> nat) (log : list log_event) : list (N * nat) :=
  flat_map (fun e => map (pair (ev_doc e)) (seq 0 (n_slices (ev_doc e)))) (filter ev_ours log).

(** event ids grow along the log *)
Definition log_ordered (log : list log_event) : Prop :=
  StronglySorted (fun a b => (ev_ts a < ev_ts b)%N) log.

(** A crash after [k] steps of [add]s is safe when it does not leave a document
    whose event id has been recorded although slices are missing: it is within the
    first two steps of a document or not before its last append. *)
Fixpoint safe_crash (n_slices : N -> nat) (evs : list log_event) (k : nat) : Prop :=
  match evs with
  | [] => True
  | e :: evs =>
      let n := 3 * n_slices (ev_doc e) in
      if n <=? k then safe_crash n_slices evs (k - n)
      else k <= 2 \/ n - 1 <= k
  end.

(** all the crashes of a life are safe, and logs only grow *)
Fixpoint safe_lives (n_slices : N -> nat) (d : disk) (runs : list (list log_event * nat))
         (final : list log_event) : Prop :=
  match runs with
  | [] => True
  | (log, k) :: runs =>
      (exists tail, final = log ++ tail) /\
      safe_crash n_slices (filter ev_ours (filter (after (k_ts d)) log)) k /\
      safe_lives n_slices (snd (listen n_slices true d log (Some k))) runs final
  end.

Lemma fold_micro_add n_slices e d :
  fold_left apply_micro (add n_slices e) d
  = {| k_entries := k_entries d ++ map (pair (ev_doc e)) (seq 0 (n_slices (ev_doc e)));
       k_ts := if n_slices (ev_doc e) =? 0 then k_ts d else Some (ev_ts e);
       k_init := k_init d || negb (n_slices (ev_doc e) =? 0) |}.
Proof.
  unfold add. remember (n_slices (ev_doc e)) as n eqn:En. clear En.
  assert (H : forall s d,
    fold_left apply_micro (flat_map (fun i => [Init; AppendSlice (ev_doc e) i; SetTs (ev_ts e)]) (seq s n)) d
    = {| k_entries := k_entries d ++ map (pair (ev_doc e)) (seq s n);
         k_ts := if n =? 0 then k_ts d else Some (ev_ts e);
         k_init := k_init d || negb (n =? 0) |}); [|apply H]. clear d.
  induction n as [|n IH]; intros s d.
  - simpl. rewrite app_nil_r, orb_false_r. destruct d; reflexivity.
  - cbn [seq flat_map app fold_left apply_micro k_entries k_ts k_init]. rewrite IH.
    cbn [k_entries k_ts k_init map]. rewrite <- app_assoc. cbn [app].
    f_equal; [destruct (n =? 0); reflexivity|]. simpl. destruct (k_init d); reflexivity.
Qed.

Lemma fold_add_prefix n_slices e d k :
  k <= 2 ->
  k_ts (fold_left apply_micro (firstn k (add n_slices e)) d) = k_ts d.
Proof.
  intros Hk. unfold add. destruct (n_slices (ev_doc e)) as [|n]; [destruct k; reflexivity|].
  cbn [seq flat_map app]. destruct k as [|[|[|k]]]; try reflexivity. lia.
Qed.

Lemma fold_micro_incl ms d : incl (k_entries d) (k_entries (fold_left apply_micro ms d)).
Proof.
  revert d; induction ms as [|m ms IH]; intros d; [intros x Hx; exact Hx|].
  cbn [fold_left]. intros x Hx. apply IH. destruct m; cbn [apply_micro k_entries]; try exact Hx.
  apply in_or_app; left; exact Hx.
Qed.

Lemma add_length n_slices e : length (add n_slices e) = 3 * n_slices (ev_doc e).
Proof.
  unfold add. remember (n_slices (ev_doc e)) as n eqn:En. clear En.
  assert (H : forall s, length (flat_map (fun i => [Init; AppendSlice (ev_doc e) i; SetTs (ev_ts e)]) (seq s n)) = 3 * n);
    [|apply H].
  induction n as [|n IH]; intros s; [reflexivity|].
  cbn [seq flat_map app length]. rewrite IH. lia.
Qed.

(** what has been recorded as done is there *)
Definition done_ok (n_slices : N -> nat) (log : list log_event) (d : disk) : Prop :=
  forall e, In e log -> ev_ours e = true -> after (k_ts d) e = false ->
  forall i, i < n_slices (ev_doc e) -> In (ev_doc e, i) (k_entries d).

Lemma add_all_slices n_slices e d i : i < n_slices (ev_doc e) ->
  In (ev_doc e, i) (k_entries (fold_left apply_micro (add n_slices e) d)).
Proof.
  intros Hi. rewrite fold_micro_add. cbn [k_entries]. apply in_or_app. right.
  apply in_map. apply in_seq. lia.
Qed.

(** the steps of [add] up to the last append *)
Lemma add_almost n_slices e d k : 3 * n_slices (ev_doc e) - 1 <= k -> 1 <= n_slices (ev_doc e) ->
  forall i, i < n_slices (ev_doc e) ->
  In (ev_doc e, i) (k_entries (fold_left apply_micro (firstn k (add n_slices e)) d)).
Proof.
  intros Hk Hn i Hi. destruct (Nat.le_gt_cases (3 * n_slices (ev_doc e)) k).
  - rewrite firstn_all2 by (rewrite add_length; lia). apply add_all_slices; exact Hi.
  - assert (E : k = 3 * n_slices (ev_doc e) - 1) by lia. subst k. clear Hk H.
    (* one step before the end: the missing step is a SetTs *)
    pose proof (add_all_slices n_slices e d i Hi) as Hin.
    assert (Hsplit : exists m, add n_slices e = firstn (3 * n_slices (ev_doc e) - 1) (add n_slices e) ++ [SetTs m]).
    { exists (ev_ts e). unfold add. remember (n_slices (ev_doc e)) as n eqn:En.
      destruct n as [|n]; [lia|]. rewrite seq_S, flat_map_app. cbn [flat_map app].
      assert (Hl : length (flat_map (fun i0 => [Init; AppendSlice (ev_doc e) i0; SetTs (ev_ts e)]) (seq 0 n)) = 3 * n).
      { clear. assert (H : forall s, length (flat_map (fun i0 => [Init; AppendSlice (ev_doc e) i0; SetTs (ev_ts e)]) (seq s n)) = 3 * n);
          [|apply H]. induction n as [|n IH]; intros s; [reflexivity|].
        cbn [seq flat_map app length]. rewrite IH. lia. }
      rewrite firstn_app, Hl. replace (3 * S n - 1 - 3 * n) with 2 by lia.
      rewrite firstn_all2 by (rewrite Hl; lia). cbn [firstn]. rewrite <- app_assoc. reflexivity. }
    destruct Hsplit as [m Hm]. rewrite Hm, fold_left_app in Hin. exact Hin.
Qed.

Definition has_all (n_slices : N -> nat) (d : disk) (e : log_event) : Prop :=
  forall i, i < n_slices (ev_doc e) -> In (ev_doc e, i) (k_entries d).

Lemma has_all_mono n_slices ms d e : has_all n_slices d e ->
  has_all n_slices (fold_left apply_micro ms d) e.
Proof. intros H i Hi. apply fold_micro_incl. apply H; exact Hi. Qed.

(** [post]: pending events of this run, [tail]: events not seen by this run *)
Definition Inv n_slices (final : list log_event) (d : disk) (post tail : list log_event) : Prop :=
  (forall e, In e final -> ev_ours e = true -> has_all n_slices d e \/ In e post \/ In e tail) /\
  Forall (fun e => after (k_ts d) e = true) (post ++ tail).

Lemma Inv_done n_slices final d post tail : Inv n_slices final d post tail -> done_ok n_slices final d.
Proof.
  intros [H1 H2] e He Ho Ha. rewrite Forall_forall in H2.
  destruct (H1 e He Ho) as [H|H]; [exact H|].
  rewrite (H2 e) in Ha by (apply in_or_app; exact H). discriminate.
Qed.

Lemma prefix_ts n_slices e d k :
  k_ts (fold_left apply_micro (firstn k (add n_slices e)) d) = k_ts d \/
  k_ts (fold_left apply_micro (firstn k (add n_slices e)) d) = Some (ev_ts e).
Proof.
  assert (H : forall ms d, (forall m, In m ms -> match m with SetTs t => t = ev_ts e | _ => True end) ->
    k_ts (fold_left apply_micro ms d) = k_ts d \/ k_ts (fold_left apply_micro ms d) = Some (ev_ts e)).
  { clear. intros ms. induction ms as [|m ms IH]; intros d H; [left; reflexivity|]. cbn [fold_left].
    assert (H' : forall m0, In m0 ms -> match m0 with SetTs t => t = ev_ts e | _ => True end)
      by (intros; apply H; right; assumption).
    destruct (IH (apply_micro d m) H') as [E|E]; [|right; exact E]. rewrite E.
    pose proof (H m (or_introl eq_refl)) as Hm. destruct m; cbn [apply_micro k_ts].
    - left; reflexivity. - left; reflexivity. - right; congruence. }
  apply H. intros m Hm. apply firstn_In in Hm. unfold add in Hm. apply in_flat_map in Hm.
  destruct Hm as [i [_ Hm]]. simpl in Hm. destruct Hm as [<-|[<-|[<-|[]]]]; auto.
Qed.

Lemma Inv_full n_slices final e post tail d :
  log_ordered ((e :: post) ++ tail) ->
  Inv n_slices final d (e :: post) tail ->
  Inv n_slices final (fold_left apply_micro (add n_slices e) d) post tail.
Proof.
  intros Ho [H1 H2]. split.
  - intros e' He' Hours. destruct (H1 e' He' Hours) as [H|[[->|H]|H]].
    + left. apply has_all_mono. exact H.
    + left. intros i Hi. apply add_all_slices; exact Hi.
    + right; left; exact H.
    + right; right; exact H.
  - simpl in Ho, H2. inversion Ho; inversion H2; subst. apply Forall_forall. intros x Hx.
    rewrite Forall_forall in *. rewrite <- (firstn_all (add n_slices e)).
    destruct (prefix_ts n_slices e d (length (add n_slices e))) as [E|E]; rewrite E.
    + auto.
    + simpl. apply N.ltb_lt. auto.
Qed.

Lemma Inv_run n_slices final post : forall tail d k,
  log_ordered (post ++ tail) ->
  Inv n_slices final d post tail -> safe_crash n_slices post k ->
  exists post', Inv n_slices final
    (fold_left apply_micro (firstn k (flat_map (add n_slices) post)) d) post' tail.
Proof.
  induction post as [|e post IH]; intros tail d k Ho HI Hs.
  - exists []. destruct k; exact HI.
  - cbn [flat_map safe_crash] in *. rewrite firstn_app, add_length.
    destruct (Nat.leb_spec (3 * n_slices (ev_doc e)) k) as [Hle|Hgt].
    + rewrite (firstn_all2 (add n_slices e)) by (rewrite add_length; lia). rewrite fold_left_app.
      apply IH; [inversion Ho; assumption| |exact Hs].
      apply Inv_full; assumption.
    + replace (k - 3 * n_slices (ev_doc e)) with 0 by lia. cbn [firstn]. rewrite app_nil_r.
      destruct Hs as [Hs|Hs].
      * exists (e :: post). destruct HI as [H1 H2]. split.
        -- intros e' He' Hours. destruct (H1 e' He' Hours) as [H|H]; [left; apply has_all_mono; exact H|right; exact H].
        -- rewrite fold_add_prefix by exact Hs. exact H2.
      * exists post. destruct HI as [H1 H2]. split.
        -- intros e' He' Hours. destruct (H1 e' He' Hours) as [H|[[->|H]|H]].
           ++ left. apply has_all_mono. exact H.
           ++ left. intros i Hi. apply add_almost; lia.
           ++ right; left; exact H.
           ++ right; right; exact H.
        -- simpl in Ho, H2. inversion Ho; inversion H2; subst. apply Forall_forall. intros x Hx.
           rewrite Forall_forall in *.
           destruct (prefix_ts n_slices e d k) as [E|E]; rewrite E.
           ++ auto.
           ++ simpl. apply N.ltb_lt. auto.
Qed.

Lemma Inv_start n_slices log tail d :
  done_ok n_slices (log ++ tail) d ->
  Inv n_slices (log ++ tail) d (filter ev_ours (filter (after (k_ts d)) log)) (filter (after (k_ts d)) tail).
Proof.
  intros Hd. split.
  - intros e He Ho. destruct (after (k_ts d) e) eqn:Ea; [|left; intros i Hi; apply (Hd e); assumption].
    right. apply in_app_iff in He. destruct He as [He|He]; [left|right].
    + apply filter_In. split; [apply filter_In; auto|exact Ho].
    + apply filter_In. auto.
  - apply Forall_forall. intros x Hx. apply in_app_iff in Hx. destruct Hx as [Hx|Hx].
    + apply filter_In in Hx. destruct Hx as [Hx _]. apply filter_In in Hx. apply Hx.
    + apply filter_In in Hx. apply Hx.
Qed.

Lemma ordered_filters n_slices' log tail (f g h : log_event -> bool) :
  n_slices' = 0 ->
  log_ordered (log ++ tail) -> log_ordered (filter f (filter g log) ++ filter h tail).
Proof.
  intros _. unfold log_ordered. induction log as [|e l IH]; simpl; intros H.
  - induction H as [|x m Hm IHm Hf]; [constructor|]. simpl. destruct (h x); [|exact IHm].
    constructor; [exact IHm|]. rewrite Forall_forall in *. intros y Hy. apply filter_In in Hy. apply Hf, Hy.
  - inversion H as [|? ? H' Hf]; subst. specialize (IH H').
    assert (Hsub : Forall (fun b => (ev_ts e < ev_ts b)%N) (filter f (filter g l) ++ filter h tail)).
    { rewrite Forall_forall in *. intros y Hy. apply Hf. apply in_app_iff in Hy. apply in_app_iff.
      destruct Hy as [Hy|Hy]; apply filter_In in Hy; destruct Hy as [Hy _]; [apply filter_In in Hy; tauto|tauto]. }
    destruct (g e); [|exact IH]. simpl. destruct (f e); [|exact IH]. constructor; assumption.
Qed.

Lemma lives_done n_slices final runs : forall d,
  log_ordered final -> done_ok n_slices final d -> safe_lives n_slices d runs final ->
  done_ok n_slices final (lives n_slices true d runs).
Proof.
  induction runs as [|[log k] runs IH]; intros d Ho Hd Hs; [exact Hd|].
  cbn [lives safe_lives] in *. destruct Hs as [[tail Ht] [Hk Hs]]. apply IH; try assumption.
  unfold listen. cbn [negb]. rewrite andb_false_r. cbn [snd]. subst final.
  destruct (Inv_run n_slices (log ++ tail) (filter ev_ours (filter (after (k_ts d)) log))
              (filter (after (k_ts d)) tail) d k) as [post' HI].
  - apply (ordered_filters 0); [reflexivity|exact Ho].
  - apply Inv_start; exact Hd.
  - exact Hk.
  - eapply Inv_done; exact HI.
Qed.

Lemma Inv_all n_slices final post : forall d,
  log_ordered post -> Inv n_slices final d post [] ->
  Inv n_slices final (fold_left apply_micro (flat_map (add n_slices) post) d) [] [].
Proof.
  induction post as [|e post IH]; intros d Ho HI; [exact HI|].
  cbn [flat_map]. rewrite fold_left_app. apply IH; [inversion Ho; assumption|].
  apply Inv_full; [rewrite app_nil_r; exact Ho|exact HI].
Qed.

(** After crashes that are safe, a restart catches up completely. *)
Lemma index_complete n_slices final runs :
  log_ordered final -> safe_lives n_slices empty_disk runs final ->
  let '(r, d) := listen n_slices true (lives n_slices true empty_disk runs) final None in
  r = Ok tt /\ incl (expected n_slices final) (k_entries d).
Proof.
  intros Ho Hs. unfold listen. cbn [negb]. rewrite andb_false_r. split; [reflexivity|].
  assert (Hd : done_ok n_slices final (lives n_slices true empty_disk runs)).
  { apply lives_done; try assumption. intros e _ _ Ha. discriminate. }
  set (d0 := lives n_slices true empty_disk runs) in *.
  assert (HI : Inv n_slices final d0 (filter ev_ours (filter (after (k_ts d0)) final)) []).
  { pose proof (Inv_start n_slices final [] d0) as H. rewrite app_nil_r in H. apply H. exact Hd. }
  apply Inv_all in HI.
  - destruct HI as [H1 _]. intros [doc i] Hx. unfold expected in Hx. apply in_flat_map in Hx.
    destruct Hx as [e [He Hx]]. apply filter_In in He. destruct He as [He Hours].
    apply in_map_iff in Hx. destruct Hx as [j [E Hj]]. inversion E; subst.
    destruct (H1 e He Hours) as [H|[[]|[]]]. apply H. apply in_seq in Hj. lia.
  - rewrite <- app_nil_r.
    apply (ordered_filters 0 final [] ev_ours (after (k_ts d0)) (fun _ => true)); [reflexivity|].
    rewrite app_nil_r. exact Ho.
Qed.

(** The first run, uninterrupted, indexes every slice exactly once, in order, with
    byte or str keys. *)
Lemma index_first_run n_slices str_ok log :
  let '(r, d) := listen n_slices str_ok empty_disk log None in
  r = Ok tt /\ k_entries d = expected n_slices log.
Proof.
  unfold listen, listen_micros. cbn [k_init empty_disk andb k_ts]. split; [reflexivity|].
  assert (Hf : filter (after None) log = log).
  { induction log; simpl; [reflexivity|]. rewrite IHlog; reflexivity. }
  rewrite Hf. unfold expected.
  assert (H : forall evs d, k_entries (fold_left apply_micro (flat_map (add n_slices) evs) d)
    = k_entries d ++ flat_map (fun e => map (pair (ev_doc e)) (seq 0 (n_slices (ev_doc e)))) evs).
  { clear. induction evs as [|e evs IH]; intros d; [simpl; rewrite app_nil_r; reflexivity|].
    cbn [flat_map]. rewrite fold_left_app, IH, fold_micro_add. cbn [k_entries].
    rewrite <- app_assoc. reflexivity. }
  rewrite H. reflexivity.
Qed.

(** With one slice per document every crash is safe. *)
Lemma one_slice_safe n_slices evs k : (forall doc, n_slices doc <= 1) -> safe_crash n_slices evs k.
Proof.
  intros H. revert k; induction evs as [|e evs IH]; intros k; simpl; [exact I|].
  destruct (Nat.leb_spec (n_slices (ev_doc e) + (n_slices (ev_doc e) + (n_slices (ev_doc e) + 0))) k); [apply IH|].
  specialize (H (ev_doc e)). lia.
Qed.

(** A crash in the middle of a document loses the rest of it for good. *)
Definition ex_log : list log_event :=
  [{| ev_ts := 1; ev_doc := 10; ev_ours := true |}; {| ev_ts := 2; ev_doc := 11; ev_ours := true |}]%N.
Lemma index_crash_refuted :
  exists (n_slices : N -> nat) (log : list log_event) (k : nat),
    log_ordered log /\
    let d := snd (listen n_slices true empty_disk log (Some k)) in
    let '(r, d') := listen n_slices true d log None in
    r = Ok tt /\ In (10%N, 2) (expected n_slices log) /\ ~ In (10%N, 2) (k_entries d').
Proof.
  exists (fun _ => 3), ex_log, 4. split; [repeat constructor; simpl; lia|].
  vm_compute. split; [reflexivity|]. split; [tauto|]. intuition congruence.
Qed.

(** With Python 3 str keys a restart on an initialised index raises TypeError
    and indexes nothing more, whatever the log. *)
Lemma index_restart_py3 n_slices d log crash :
  k_init d = true -> listen n_slices false d log crash = (Raise TypeError, d).
Proof. intros H. unfold listen. rewrite H. reflexivity. Qed.

(** ** C11 *)
Lemma byte_unpack b : length b = 8 -> unpack_byte (byte_of_bits b) = b.
Proof.
  intros H. do 8 (destruct b as [|[|] b]; [discriminate| |]); destruct b; try discriminate; reflexivity.
Qed.
Lemma byte_of_bits_ext b : byte_of_bits b = byte_of_bits (firstn 8 (b ++ repeat false 8)).
Proof.
  unfold byte_of_bits. f_equal. rewrite (firstn_app 8 (firstn 8 _)), firstn_firstn. simpl (Nat.min 8 8).
  rewrite firstn_length, app_length. simpl (length (repeat false 8)).
  replace (8 - Nat.min 8 (length b + 8)) with 0 by lia. simpl. rewrite app_nil_r. reflexivity.
Qed.

Lemma unpack_pack_aux fuel : forall b, length b <= fuel ->
  flat_map unpack_byte (packbits_aux fuel b)
  = b ++ repeat false (if length b mod 8 =? 0 then 0 else 8 - length b mod 8).
Proof.
  induction fuel as [|fuel IH]; intros b Hf.
  - destruct b; [reflexivity|simpl in Hf; lia].
  - destruct b as [|x b']; [reflexivity|]. cbn [packbits_aux flat_map].
    set (b := x :: b') in *. 
    assert (Hpos : 1 <= length b) by (simpl; lia).
    rewrite byte_of_bits_ext, byte_unpack
      by (rewrite firstn_length, app_length; simpl (length (repeat false 8)); lia).
    destruct (Nat.le_gt_cases 8 (length b)) as [Hge|Hlt].
    + rewrite IH by (rewrite skipn_length; lia). rewrite skipn_length.
      replace ((length b - 8) mod 8) with (length b mod 8).
      2:{ replace (length b) with (length b - 8 + 1 * 8) at 1 by lia. apply Nat.mod_add; lia. }
      rewrite firstn_app. replace (8 - length b) with 0 by lia. rewrite firstn_O, app_nil_r.
      rewrite app_assoc, firstn_skipn. reflexivity.
    + rewrite (skipn_all2 b) by lia.
      assert (E : packbits_aux fuel [] = []) by (destruct fuel; reflexivity). rewrite E. cbn [flat_map].
      rewrite app_nil_r, Nat.mod_small by lia.
      destruct (Nat.eqb_spec (length b) 0); [lia|].
      rewrite firstn_app, firstn_all2 by lia. f_equal.
      assert (Hr : forall m n, n <= m -> firstn n (repeat false m) = repeat false n).
      { clear. induction m; intros [|n] H; simpl; try reflexivity; try lia. rewrite IHm by lia; reflexivity. }
      apply Hr. lia.
Qed.

Lemma packbits_length_aux fuel : forall b, length b <= fuel ->
  length (packbits_aux fuel b) = (length b + 7) / 8.
Proof.
  induction fuel as [|fuel IH]; intros b Hf.
  - destruct b; [reflexivity|simpl in Hf; lia].
  - destruct b as [|x b']; [reflexivity|]. cbn [packbits_aux length]. set (b := x :: b') in *.
    assert (Hpos : 1 <= length b) by (simpl; lia).
    rewrite IH by (rewrite skipn_length; lia). rewrite skipn_length.
    change (S (length b')) with (length b).
    destruct (Nat.le_gt_cases 8 (length b)).
    + replace (length b + 7) with (length b - 8 + 7 + 1 * 8) by lia. rewrite Nat.div_add by lia. lia.
    + replace (length b - 8) with 0 by lia. simpl ((0 + 7) / 8).
      replace (length b + 7) with ((length b - 1) + 1 * 8) by lia. rewrite Nat.div_add by lia.
      rewrite Nat.div_small by lia. reflexivity.
Qed.

Lemma query_roundtrip (v : list N) :
  exists code, encode_query (FUint8 v) = Ok code /\
  length code = (length v + 7) / 8 /\
  decode_query code = map (fun x => negb (x =? 0)%N) v
     ++ repeat false (if length v mod 8 =? 0 then 0 else 8 - length v mod 8).
Proof.
  eexists. split; [reflexivity|]. split.
  - unfold packbits. rewrite packbits_length_aux; rewrite map_length; lia.
  - unfold decode_query, unpackbits, packbits. rewrite unpack_pack_aux by (rewrite map_length; lia).
    rewrite map_length. reflexivity.
Qed.

(** uint64 codes keep their bits: byte k of a word is its digit k in base 256 *)
Lemma le_bytes_spec n : forall w k, k < n ->
  nth_error (le_bytes n w) k = Some ((w / 256 ^ N.of_nat k) mod 256)%N.
Proof.
  induction n as [|n IH]; intros w k Hk; [lia|]. destruct k as [|k]; cbn [le_bytes nth_error].
  - simpl. rewrite N.div_1_r. reflexivity.
  - rewrite IH by lia. rewrite Nat2N.inj_succ, N.pow_succ_r', N.div_div by (try lia; apply N.pow_nonzero; lia).
    reflexivity.
Qed.
Fixpoint of_le (bs : list N) : N := match bs with [] => 0 | b :: bs => b + 256 * of_le bs end%N.
Lemma of_le_bytes n : forall w, (w < 256 ^ N.of_nat n)%N -> of_le (le_bytes n w) = w.
Proof.
  induction n as [|n IH]; intros w Hw.
  - simpl in *. lia.
  - cbn [le_bytes of_le]. rewrite IH.
    + pose proof (N.div_mod w 256 ltac:(lia)). lia.
    + rewrite Nat2N.inj_succ, N.pow_succ_r' in Hw. apply N.div_lt_upper_bound; lia.
Qed.
Lemma encode_uint64_injective (v w : list N) :
  Forall (fun x => x < 2 ^ 64)%N v -> Forall (fun x => x < 2 ^ 64)%N w ->
  encode_query (FUint64 v) = encode_query (FUint64 w) -> v = w.
Proof.
  cbn [encode_query]. intros Hv Hw E. assert (E' : flat_map (le_bytes 8) v = flat_map (le_bytes 8) w) by congruence.
  clear E. revert w Hw E'. induction Hv as [|x v Hx Hv IH]; intros [|y w] Hw E; try reflexivity; try discriminate.
  inversion Hw; subst. cbn [flat_map] in E.
  assert (E1 : firstn 8 (le_bytes 8 x ++ flat_map (le_bytes 8) v) = firstn 8 (le_bytes 8 y ++ flat_map (le_bytes 8) w))
    by (rewrite E; reflexivity).
  assert (E2 : skipn 8 (le_bytes 8 x ++ flat_map (le_bytes 8) v) = skipn 8 (le_bytes 8 y ++ flat_map (le_bytes 8) w))
    by (rewrite E; reflexivity).
  change (firstn 8 (le_bytes 8 x ++ flat_map (le_bytes 8) v)) with (le_bytes 8 x) in E1.
  change (firstn 8 (le_bytes 8 y ++ flat_map (le_bytes 8) w)) with (le_bytes 8 y) in E1.
  change (skipn 8 (le_bytes 8 x ++ flat_map (le_bytes 8) v)) with (flat_map (le_bytes 8) v) in E2.
  change (skipn 8 (le_bytes 8 y ++ flat_map (le_bytes 8) w)) with (flat_map (le_bytes 8) w) in E2.
  f_equal.
  - rewrite <- (of_le_bytes 8 x), <- (of_le_bytes 8 y) by assumption. rewrite E1. reflexivity.
  - apply IH; assumption.
Qed.

Example query_example : encode_query (FUint8 [1;0;1;1;0;0;0;0;7]%N) = Ok [176; 128]%N
  /\ decode_query [176; 128]%N = [true;false;true;true;false;false;false;false;true;false;false;false;false;false;false;false].
Proof. split; reflexivity. Qed.

(** ** C12 *)
Section BruteProofs.
  Context {Row Id D : Type}.
  Variable dist : Row -> Row -> D.
  Variable argsort : list D -> list nat.
  Variable le : D -> D -> Prop.

  (** np.argsort: a permutation of the indices whose values ascend *)
  Definition argsort_sorts : Prop := forall a : list D,
    Permutation (argsort a) (seq 0 (length a)) /\
    StronglySorted (fun i j => forall x y, nth_error a i = Some x -> nth_error a j = Some y -> le x y) (argsort a).

  (** what the caller handed in: every row with the identity it should have *)
  Definition labelled (gen : list (@doc Row Id)) : list ((Id * (Z * Z)) * Row) :=
    flat_map (fun d => map (fun p => ((d_id d, (d_freq d * Z.of_nat (fst p), d_dur d)%Z), snd p))
                           (combine (seq 0 (length (d_rows d))) (d_rows d))) gen.

  Lemma snd_combine {A B} (l : list A) (m : list B) : length l = length m -> map snd (combine l m) = m.
  Proof. revert m; induction l; intros [|y m] H; try discriminate; simpl; [reflexivity|]. rewrite IHl by (simpl in H; lia). reflexivity. Qed.

  Lemma brute_init_labelled gen ids index : brute_init gen = Ok (ids, index) ->
    ids = map fst (labelled gen) /\ index = map snd (labelled gen).
  Proof.
    intros H. unfold brute_init in H. destruct gen as [|d0 gen0]; [discriminate|].
    remember (d0 :: gen0) as gen. inversion H; subst ids index. clear. split.
    - induction gen as [|d gen IH]; [reflexivity|]. unfold labelled in *. cbn [flat_map]. rewrite map_app, <- IH.
      f_equal. unfold iter_slices. rewrite !map_map. reflexivity.
    - induction gen as [|d gen IH]; [reflexivity|]. unfold labelled in *. cbn [flat_map map concat]. rewrite map_app, <- IH.
      f_equal. rewrite map_map. cbn [snd]. rewrite snd_combine by (rewrite seq_length; reflexivity). reflexivity.
  Qed.

  Lemma brute_main gen ids index q n :
    argsort_sorts ->
    brute_init gen = Ok (ids, index) ->
    exists hits rest,
      Permutation (labelled gen) (hits ++ rest) /\
      length hits = Nat.min n (length (labelled gen)) /\
      brute_search dist argsort ids index q n = Ok (map fst hits) /\
      StronglySorted le (map (fun h => dist q (snd h)) hits) /\
      (forall h o, In h hits -> In o rest -> le (dist q (snd h)) (dist q (snd o))).
  Proof.
    intros Hs Hi. destruct (brute_init_labelled _ _ _ Hi) as [-> ->]. clear Hi.
    generalize (labelled gen) as L; intros L. unfold brute_search. rewrite map_map.
    set (ds := map (fun x => dist q (snd x)) L).
    destruct (Hs ds) as [Hp Hss]. assert (Hlds : length ds = length L) by (unfold ds; apply map_length).
    rewrite Hlds in Hp.
    assert (Hb : forall i, In i (argsort ds) -> i < length L).
    { intros i Hin. eapply Permutation_in in Hin; [|exact Hp]. apply in_seq in Hin. lia. }
    assert (HL : L = [] \/ exists l0 : (Id * (Z * Z)) * Row, In l0 L).
    { destruct L as [|l0 L']; [left; reflexivity|right; exists l0; left; reflexivity]. }
    destruct HL as [EL|[l0 _]].
    { rewrite EL in *. assert (E : argsort ds = []).
      { destruct (argsort ds) as [|i l] eqn:E; [reflexivity|]. specialize (Hb i). simpl in Hb.
        exfalso. assert (i < 0) by (apply Hb; left; reflexivity). lia. }
      exists [], []. rewrite E. rewrite firstn_nil. simpl. rewrite Nat.min_0_r.
      repeat split; try constructor. intros h o []. }
    set (get := fun i => nth i L l0).
    exists (map get (firstn n (argsort ds))), (map get (skipn n (argsort ds))).
    assert (Hget : forall i, i < length L -> nth_error L i = Some (get i)) by (intros; apply nth_error_nth'; assumption).
    split.
    { rewrite <- map_app, firstn_skipn. etransitivity; [|apply Permutation_map, Permutation_sym; exact Hp].
      assert (E : map get (seq 0 (length L)) = L).
      { unfold get. clear. generalize l0. intros d. induction L as [|x l IH]; [reflexivity|].
        cbn [length seq map nth]. f_equal. rewrite <- seq_shift, map_map. exact IH. }
      rewrite E. reflexivity. }
    split.
    { rewrite map_length, firstn_length, (Permutation_length Hp), seq_length. reflexivity. }
    split.
    { rewrite (sequence_map_some _ (fun i => fst (get i))).
      - rewrite map_map. reflexivity.
      - intros i Hin. apply firstn_In in Hin. rewrite nth_error_map, (Hget i (Hb i Hin)). reflexivity. }
    assert (Hds : forall i, i < length L -> nth_error ds i = Some (dist q (snd (get i)))).
    { intros i Hi. unfold ds. rewrite nth_error_map, (Hget i Hi). reflexivity. }
    rewrite <- (firstn_skipn n (argsort ds)) in Hss, Hb.
    revert Hss Hb. generalize (firstn n (argsort ds)) as a, (skipn n (argsort ds)) as b. intros a b Hss Hb.
    split.
    - rewrite map_map. induction a as [|i a IH]; [constructor|]. simpl in Hss. inversion Hss; subst.
      cbn [map]. constructor; [apply IH; [assumption|intros j Hj; apply Hb; right; exact Hj]|].
      rewrite Forall_forall in *. intros y Hy. apply in_map_iff in Hy. destruct Hy as [j [<- Hj]].
      apply (H2 j); [apply in_or_app; left; exact Hj| |]; apply Hds, Hb; simpl; auto. right. apply in_or_app; left; exact Hj.
    - intros h o Hh Ho. apply in_map_iff in Hh. destruct Hh as [i [<- Hi]].
      apply in_map_iff in Ho. destruct Ho as [j [<- Hj]].
      induction a as [|i' a IH]; [contradiction|]. simpl in Hss. inversion Hss; subst.
      destruct Hi as [->|Hi].
      + rewrite Forall_forall in H2. apply (H2 j); [apply in_or_app; right; exact Hj| |]; apply Hds, Hb; simpl; auto.
        right. apply in_or_app; right; exact Hj.
      + apply IH; [assumption|intros x Hx; apply Hb; right; exact Hx|exact Hi].
  Qed.
End BruteProofs.

(** a concrete instance: integer rows, absolute difference, stable argsort *)
Definition z_argsort (a : list Z) : list nat :=
  isort (fun i j => (nth i a 0 <=? nth j a 0)%Z) (seq 0 (length a)).
Lemma z_argsort_ok : argsort_sorts z_argsort Z.le.
Proof.
  intros a. split; [apply Permutation_sym, isort_perm|]. unfold z_argsort.
  assert (H : StronglySorted (leP (fun i j => (nth i a 0 <=? nth j a 0)%Z))
     (isort (fun i j => (nth i a 0 <=? nth j a 0)%Z) (seq 0 (length a)))).
  { apply isort_sorted; intros; cbv beta in *; lia. }
  induction H as [|i l Hl IH Hf]; constructor; [exact IH|].
  rewrite Forall_forall in *. intros j Hj x y Hx Hy. specialize (Hf j Hj). unfold leP in Hf.
  apply (nth_error_nth _ _ 0%Z) in Hx. apply (nth_error_nth _ _ 0%Z) in Hy. subst. lia.
Qed.
Example brute_example :
  let gen := [{| d_id := 1; d_rows := [5; 9]; d_freq := 10; d_dur := 20 |};
              {| d_id := 2; d_rows := [6]; d_freq := 10; d_dur := 20 |}]%Z in
  match brute_init gen with
  | Ok (ids, index) => brute_search (fun a b => Z.abs (a - b)) z_argsort ids index 8%Z 2
  | Raise e => Raise e
  end = Ok [(1, (10, 20)); (2, (0, 20))]%Z.
Proof. reflexivity. Qed.

(** *** what else the index can hold: nothing, whatever the crashes *)
Fixpoint growing (runs : list (list log_event * nat)) (final : list log_event) : Prop :=
  match runs with [] => True | (log, k) :: runs => (exists tail, final = log ++ tail) /\ growing runs final end.
Lemma micro_entries n_slices evs : forall ms d, (forall m, In m ms -> In m (flat_map (add n_slices) evs)) ->
  incl (k_entries (fold_left apply_micro ms d)) (k_entries d ++ flat_map (fun e => map (pair (ev_doc e)) (seq 0 (n_slices (ev_doc e)))) evs).
Proof.
  induction ms as [|m ms IH]; intros d H; [apply incl_appl, incl_refl|]. cbn [fold_left]. intros x Hx.
  apply (IH (apply_micro d m) (fun m' Hm' => H m' (or_intror Hm'))) in Hx. specialize (H m (or_introl eq_refl)).
  destruct m as [|doc i|t]; cbn [apply_micro k_entries] in Hx; try exact Hx. rewrite <- app_assoc in Hx. apply in_app_iff in Hx. apply in_app_iff.
  destruct Hx as [Hx|[<-|Hx]]; [now left| |now right]. right. apply in_flat_map in H. destruct H as (e & He & H). unfold add in H.
  apply in_flat_map in H. destruct H as (j & Hj & [H|[H|[H|[]]]]); try discriminate. injection H as <- <-. apply in_flat_map. exists e. split; [exact He|]. now apply in_map.
Qed.
Lemma listen_entries n_slices str_ok d log tail crash :
  incl (k_entries d) (expected n_slices (log ++ tail)) -> incl (k_entries (snd (listen n_slices str_ok d log crash))) (expected n_slices (log ++ tail)).
Proof.
  intros H. unfold listen. destruct (k_init d && negb str_ok); [exact H|].
  assert (G : forall ms, (forall m, In m ms -> In m (listen_micros n_slices d log)) -> incl (k_entries (fold_left apply_micro ms d)) (expected n_slices (log ++ tail))).
  { intros ms Hm x Hx. apply (micro_entries n_slices _ ms d Hm) in Hx. apply in_app_iff in Hx. destruct Hx as [Hx|Hx]; [now apply H|].
    apply in_flat_map in Hx. destruct Hx as (e & He & Hx). unfold expected. apply in_flat_map. exists e. split; [|exact Hx].
    apply filter_In in He. destruct He as [He Ho]. apply filter_In in He. apply filter_In. split; [apply in_app_iff; tauto|exact Ho]. }
  destruct crash as [k|]; cbn [snd]; apply G; intros m Hm; [now apply firstn_In in Hm|exact Hm].
Qed.
Lemma index_nothing_else n_slices str_ok final runs crash : growing runs final ->
  incl (k_entries (snd (listen n_slices str_ok (lives n_slices str_ok empty_disk runs) final crash))) (expected n_slices final).
Proof.
  intros Hg. rewrite <- (app_nil_r final). rewrite <- (app_nil_r final) in Hg. rewrite (app_nil_r final) at 1. apply listen_entries. rewrite (app_nil_r final) in *.
  assert (H : incl (k_entries empty_disk) (expected n_slices final)) by (intros x []). revert H. generalize empty_disk as d. revert Hg.
  induction runs as [|[log k] runs IH]; intros Hg d H; [exact H|]. destruct Hg as [[tail ->] Hg]. cbn [lives]. apply IH; [exact Hg|]. now apply listen_entries.
Qed.

(** *** crashes between documents: every slice exactly once, in order *)
Definition clean_crash (n_slices : N -> nat) (evs : list log_event) (k : nat) : Prop :=
  exists pre post, evs = pre ++ post /\
    (k = 3 * list_sum (map (fun e => n_slices (ev_doc e)) pre) \/ (post = [] /\ 3 * list_sum (map (fun e => n_slices (ev_doc e)) pre) <= k)).
Fixpoint clean_lives (n_slices : N -> nat) (d : disk) (runs : list (list log_event * nat)) (final : list log_event) : Prop :=
  match runs with
  | [] => True
  | (log, k) :: runs => (exists tail, final = log ++ tail) /\ clean_crash n_slices (filter ev_ours (filter (after (k_ts d)) log)) k /\
      clean_lives n_slices (snd (listen n_slices true d log (Some k))) runs final
  end.
Definition upto (n_slices : N -> nat) (final : list log_event) (d : disk) : Prop := exists pre rest, final = pre ++ rest /\
  k_entries d = expected n_slices pre /\ (forall e, In e pre -> ev_ours e = true -> after (k_ts d) e = true -> n_slices (ev_doc e) = 0) /\
  (forall e, In e rest -> after (k_ts d) e = true).
Lemma expected_app n_slices l m : expected n_slices (l ++ m) = expected n_slices l ++ expected n_slices m.
Proof. unfold expected. now rewrite filter_app, flat_map_app. Qed.
Lemma StronglySorted_app_inv {A} (R : A -> A -> Prop) l m : StronglySorted R (l ++ m) ->
  StronglySorted R l /\ StronglySorted R m /\ (forall x y, In x l -> In y m -> R x y).
Proof.
  induction l as [|a l IH]; intros H; [repeat split; [constructor|exact H|intros x y []]|]. cbn [app] in H. inversion H as [|? ? H1 H2]; subst.
  destruct (IH H1) as (A1 & A2 & A3). rewrite Forall_forall in H2. split; [constructor; [exact A1|apply Forall_forall; intros y Hy; apply H2, in_app_iff; now left]|].
  split; [exact A2|]. intros x y [<-|Hx] Hy; [apply H2, in_app_iff; now right|now apply A3].
Qed.
Lemma upto_one n_slices pre e rest d : log_ordered (pre ++ e :: rest) -> k_entries d = expected n_slices pre ->
  (forall x, In x pre -> ev_ours x = true -> after (k_ts d) x = true -> n_slices (ev_doc x) = 0) -> (forall x, In x (e :: rest) -> after (k_ts d) x = true) ->
  let d' := if ev_ours e then fold_left apply_micro (add n_slices e) d else d in
  k_entries d' = expected n_slices (pre ++ [e]) /\ (forall x, In x (pre ++ [e]) -> ev_ours x = true -> after (k_ts d') x = true -> n_slices (ev_doc x) = 0) /\
  (forall x, In x rest -> after (k_ts d') x = true).
Proof.
  intros Ho Hk Hp Hr. cbn zeta. rewrite expected_app. unfold expected at 2. cbn [filter flat_map]. destruct (ev_ours e) eqn:Ee.
  - rewrite fold_micro_add. cbn [k_entries k_ts flat_map]. rewrite app_nil_r, Hk. split; [reflexivity|]. destruct (Nat.eqb_spec (n_slices (ev_doc e)) 0) as [E0|E0].
    + split; [|intros x Hx; apply Hr; now right]. intros x Hx Ox Ax. apply in_app_iff in Hx. destruct Hx as [Hx|[<-|[]]]; [now apply Hp|exact E0].
    + apply StronglySorted_app_inv in Ho. destruct Ho as (_ & Ho & Hc). split.
      * intros x Hx _ Ax. cbn [after] in Ax. apply N.ltb_lt in Ax. apply in_app_iff in Hx. destruct Hx as [Hx|[<-|[]]]; [|lia].
        specialize (Hc x e Hx (or_introl eq_refl)). lia.
      * intros x Hx. cbn [after]. apply N.ltb_lt. inversion Ho as [|? ? ? Hf]; subst. rewrite Forall_forall in Hf. now apply Hf.
  - cbn [flat_map]. rewrite app_nil_r. split; [exact Hk|]. split; [|intros x Hx; apply Hr; now right].
    intros x Hx Ox Ax. apply in_app_iff in Hx. destruct Hx as [Hx|[<-|[]]]; [now apply Hp|congruence].
Qed.
Lemma upto_many n_slices new : forall pre rest d, log_ordered (pre ++ new ++ rest) -> k_entries d = expected n_slices pre ->
  (forall x, In x pre -> ev_ours x = true -> after (k_ts d) x = true -> n_slices (ev_doc x) = 0) -> (forall x, In x (new ++ rest) -> after (k_ts d) x = true) ->
  upto n_slices (pre ++ new ++ rest) (fold_left apply_micro (flat_map (add n_slices) (filter ev_ours new)) d) /\
  k_entries (fold_left apply_micro (flat_map (add n_slices) (filter ev_ours new)) d) = expected n_slices (pre ++ new).
Proof.
  induction new as [|e new IH]; intros pre rest d Ho Hk Hp Hr.
  - cbn [filter flat_map fold_left app] in *. rewrite app_nil_r. split; [|exact Hk]. exists pre, rest. auto.
  - destruct (upto_one n_slices pre e (new ++ rest) d Ho Hk Hp Hr) as (A & B & C). cbn [filter].
    replace (pre ++ (e :: new) ++ rest) with ((pre ++ [e]) ++ new ++ rest) in * by (rewrite <- app_assoc; reflexivity).
    replace (pre ++ e :: new) with ((pre ++ [e]) ++ new) by (rewrite <- app_assoc; reflexivity).
    destruct (ev_ours e); [cbn [flat_map]; rewrite fold_left_app|]; apply IH; auto.
Qed.
Lemma list_sum_micros n_slices evs : length (flat_map (add n_slices) evs) = 3 * list_sum (map (fun e => n_slices (ev_doc e)) evs).
Proof. induction evs as [|e evs IH]; [reflexivity|]. cbn [flat_map map list_sum fold_right]. rewrite app_length, add_length, IH. unfold list_sum. lia. Qed.
Lemma filter_split {A} (f : A -> bool) (l a b : list A) : filter f l = a ++ b -> exists l1 l2, l = l1 ++ l2 /\ filter f l1 = a /\ filter f l2 = b.
Proof.
  revert a. induction l as [|x l IH]; intros a E.
  - cbn in E. symmetry in E. apply app_eq_nil in E. destruct E as [-> ->]. exists [], []. auto.
  - cbn [filter] in E. destruct (f x) eqn:Ef.
    + destruct a as [|y a].
      * exists [], (x :: l). split; [reflexivity|]. split; [reflexivity|]. cbn [filter]. now rewrite Ef.
      * cbn [app] in E. injection E as <- E. destruct (IH a E) as (l1 & l2 & -> & E1 & E2). exists (x :: l1), l2. split; [reflexivity|]. cbn [filter]. rewrite Ef, E1. auto.
    + destruct (IH a E) as (l1 & l2 & -> & E1 & E2). exists (x :: l1), l2. split; [reflexivity|]. cbn [filter]. rewrite Ef. auto.
Qed.
Lemma firstn_list_sum n_slices a b k : (k = 3 * list_sum (map (fun e => n_slices (ev_doc e)) a) \/ (b = [] /\ 3 * list_sum (map (fun e => n_slices (ev_doc e)) a) <= k)) ->
  firstn k (flat_map (add n_slices) (a ++ b)) = flat_map (add n_slices) a.
Proof.
  rewrite flat_map_app, firstn_app, list_sum_micros. intros [->|[-> H]].
  - rewrite Nat.sub_diag. cbn [firstn]. rewrite app_nil_r. apply firstn_all2. now rewrite list_sum_micros.
  - cbn [flat_map]. rewrite firstn_nil, app_nil_r. apply firstn_all2. now rewrite list_sum_micros.
Qed.
(** the events of [log] still to be done, and that the documents without slices among those
    seen already do not matter *)
Lemma pending_micros n_slices (ts : option N) pre : (forall e, In e pre -> ev_ours e = true -> after ts e = true -> n_slices (ev_doc e) = 0) ->
  flat_map (add n_slices) (filter ev_ours (filter (after ts) pre)) = [].
Proof.
  induction pre as [|e pre IH]; intros H; [reflexivity|]. cbn [filter]. specialize (IH (fun x Hx => H x (or_intror Hx))). specialize (H e (or_introl eq_refl)).
  destruct (after ts e) eqn:Ea; [|exact IH]. cbn [filter]. destruct (ev_ours e); [|exact IH]. cbn [flat_map]. rewrite IH, app_nil_r.
  unfold add. rewrite H by reflexivity. reflexivity.
Qed.
Lemma filter_all {A} (f : A -> bool) l : (forall x, In x l -> f x = true) -> filter f l = l.
Proof. induction l as [|x l IH]; intros H; [reflexivity|]. cbn [filter]. rewrite (H x (or_introl eq_refl)), IH; [reflexivity|]. intros y Hy. apply H. now right. Qed.
Lemma prefix_split {A} (log tail pre rest : list A) : log ++ tail = pre ++ rest ->
  (exists l2, log = pre ++ l2 /\ rest = l2 ++ tail) \/ (exists x, pre = log ++ x /\ tail = x ++ rest).
Proof. intros E. apply app_eq_app in E. destruct E as (l & [[-> ->]|[-> ->]]); [left|right]; now exists l. Qed.
Lemma clean_run n_slices log tail d (k : nat) : log_ordered (log ++ tail) -> upto n_slices (log ++ tail) d ->
  clean_crash n_slices (filter ev_ours (filter (after (k_ts d)) log)) k -> upto n_slices (log ++ tail) (snd (listen n_slices true d log (Some k))).
Proof.
  intros Ho U (a & b & Eab & Hk). unfold listen. cbn [negb]. rewrite andb_false_r. cbn [snd]. unfold listen_micros. rewrite Eab, (firstn_list_sum n_slices a b k Hk).
  destruct U as (pre & rest & E & Ue & Up & Ur). destruct (prefix_split _ _ _ _ E) as [(l2 & -> & ->)|(x & -> & ->)].
  - rewrite !filter_app in Eab. rewrite (filter_all (after (k_ts d)) l2) in Eab by (intros y Hy; apply Ur, in_app_iff; now left).
    apply app_eq_app in Eab. destruct Eab as (z & [[Ea Eb]|[Ea Eb]]).
    + (* the prefix ends among the documents without slices *)
      assert (N : flat_map (add n_slices) a = []).
      { pose proof (pending_micros n_slices (k_ts d) pre Up) as P. rewrite Ea, flat_map_app in P. now apply app_eq_nil in P. }
      rewrite N. cbn [fold_left]. exists pre, (l2 ++ tail). rewrite <- app_assoc in *. auto.
    + destruct (filter_split ev_ours l2 _ _ Eb) as (m1 & m2 & -> & E1 & _). rewrite Ea, flat_map_app, (pending_micros n_slices (k_ts d) pre Up), <- E1. cbn [app].
      rewrite <- !app_assoc in *. apply (upto_many n_slices m1 pre (m2 ++ tail) d Ho Ue Up). intros y Hy. apply Ur. exact Hy.
  - assert (N : flat_map (add n_slices) a = []).
    { assert (P : flat_map (add n_slices) (filter ev_ours (filter (after (k_ts d)) log)) = []) by (apply pending_micros; intros e He; apply Up, in_app_iff; now left).
      rewrite Eab, flat_map_app in P. now apply app_eq_nil in P. }
    rewrite N. cbn [fold_left]. exists (log ++ x), rest. rewrite <- app_assoc. auto.
Qed.
Lemma index_exact n_slices final runs : log_ordered final -> clean_lives n_slices empty_disk runs final ->
  let '(r, d) := listen n_slices true (lives n_slices true empty_disk runs) final None in r = Ok tt /\ k_entries d = expected n_slices final.
Proof.
  intros Ho Hs. assert (U : upto n_slices final (lives n_slices true empty_disk runs)).
  { assert (U0 : upto n_slices final empty_disk) by (exists [], final; repeat split; auto; intros e []). revert Hs U0. generalize empty_disk as d.
    induction runs as [|[log k] runs IH]; intros d Hs U; [exact U|]. destruct Hs as ([tail ->] & Hk & Hs). cbn [lives]. apply IH; [exact Hs|]. now apply clean_run. }
  unfold listen. cbn [negb]. rewrite andb_false_r. split; [reflexivity|]. destruct U as (pre & rest & -> & Ue & Up & Ur). unfold listen_micros.
  rewrite !filter_app, flat_map_app, (pending_micros n_slices _ pre Up), (filter_all (after _) rest Ur). cbn [app].
  pose proof (upto_many n_slices rest pre [] _ ltac:(rewrite app_nil_r; exact Ho) Ue Up ltac:(rewrite app_nil_r; exact Ur)) as [_ K]. exact K.
Qed.
Example index_exact_example : exists runs, length runs = 2 /\
  clean_lives (fun _ => 3) empty_disk runs [{| ev_ts := 1; ev_doc := 10; ev_ours := true |}; {| ev_ts := 2; ev_doc := 11; ev_ours := false |}; {| ev_ts := 3; ev_doc := 12; ev_ours := true |}]%N.
Proof.
  exists [([{| ev_ts := 1; ev_doc := 10; ev_ours := true |}]%N, 9); ([{| ev_ts := 1; ev_doc := 10; ev_ours := true |}; {| ev_ts := 2; ev_doc := 11; ev_ours := false |}; {| ev_ts := 3; ev_doc := 12; ev_ours := true |}]%N, 0)].
  split; [reflexivity|]. cbn [clean_lives]. split; [now eexists|]. split; [|split; [exists []; reflexivity|split; [|exact I]]].
  - exists [{| ev_ts := 1; ev_doc := 10; ev_ours := true |}]%N, []. split; [reflexivity|]. now left.
  - exists [], [{| ev_ts := 3; ev_doc := 12; ev_ours := true |}]%N. split; [reflexivity|]. now left.
Qed.

(** ** C11, the other forms of a query *)
Lemma le_word_le_bytes n : forall w rest, (w < 256 ^ N.of_nat n)%N -> HammingDb.le_word (firstn n (le_bytes n w ++ rest)) = w.
Proof.
  induction n as [|n IH]; intros w rest H.
  - cbn in H |- *. lia.
  - cbn [le_bytes app firstn HammingDb.le_word]. rewrite IH.
    + pose proof (N.div_mod w 256). lia.
    + apply N.div_lt_upper_bound; [lia|]. rewrite Nat2N.inj_succ, N.pow_succ_r' in H. exact H.
Qed.
Lemma le_bytes_length n : forall w, length (le_bytes n w) = n.
Proof. induction n as [|n IH]; intros w; [reflexivity|]. cbn [le_bytes length]. now rewrite IH. Qed.
Lemma le_bytes_byte n : forall w, Forall (fun b => b < 256)%N (le_bytes n w).
Proof. induction n as [|n IH]; intros w; cbn [le_bytes]; constructor; [apply N.mod_lt; lia|apply IH]. Qed.
Lemma encode_uint64_words (v : list N) : Forall (fun x => x < 2 ^ 64)%N v ->
  exists code, encode_query (FUint64 v) = Ok code /\ length code = 8 * length v /\ Forall (fun b => b < 256)%N code /\ HammingDb.words (length v) code = v.
Proof.
  intros H. exists (flat_map (le_bytes 8) v). split; [reflexivity|]. induction H as [|x v Hx Hv IH]; [repeat split; constructor|].
  destruct IH as (A & B & C). cbn [flat_map length]. rewrite app_length, le_bytes_length, A. split; [lia|]. split; [apply Forall_app; split; [apply le_bytes_byte|exact B]|].
  cbn [HammingDb.words]. rewrite (le_word_le_bytes 8 x _ Hx). f_equal. rewrite skipn_app, le_bytes_length, skipn_all2 by (rewrite le_bytes_length; lia). exact C.
Qed.
Lemma encode_other (b : list N) : encode_query (FBytes b) = Ok b /\ encode_query FOther = Raise ValueError.
Proof. split; reflexivity. Qed.
