(** ujson.loads(ujson.dumps(j)) = j for values without floats. *)
From Verif Require Import PyBase Time Freq FreqDim Axis Persist Midi MidiProofs Json.
From Coq Require Import NArith String Ascii Lia DecimalString.
Import ListNotations.
Local Open Scope N_scope.

Lemma unquote_escape a t : unquote (escape a ++ t) = cons_char a (unquote t).
Proof.
  destruct a as [b0 b1 b2 b3 b4 b5 b6 b7].
  destruct b0, b1, b2, b3, b4, b5, b6, b7; reflexivity.
Qed.
Lemma unquote_escaped s t : unquote (escaped s ++ 34 :: t) = Some (s, t).
Proof.
  induction s as [|a s IH]; [reflexivity|]. cbn [escaped]. rewrite <- app_assoc, unquote_escape, IH. reflexivity.
Qed.
Lemma unquote_quoted s t : exists r, quoted s ++ t = 34 :: r /\ unquote r = Some (s, t).
Proof.
  exists (escaped s ++ 34 :: t). split; [|apply unquote_escaped].
  unfold quoted. cbn [app]. rewrite <- app_assoc. reflexivity.
Qed.

(** integers *)
Lemma uint_chars d : Forall (fun c => num_char c = true) (text (NilEmpty.string_of_uint d)).
Proof. induction d; cbn; constructor; auto. Qed.
Lemma nz_uint_chars d : Forall (fun c => num_char c = true) (text (NilZero.string_of_uint d)).
Proof. destruct d; try apply uint_chars. repeat constructor. Qed.
Lemma py_str_chars z : Forall (fun c => num_char c = true) (text (py_str z)).
Proof.
  unfold py_str, NilZero.string_of_int. destruct (Z.to_int z) as [d|d]; [apply nz_uint_chars|].
  constructor; [reflexivity|apply nz_uint_chars].
Qed.
Definition no_num (t : list N) : Prop := match t with c :: _ => num_char c = false | [] => True end.
Lemma span_text s t : Forall (fun c => num_char c = true) (text s) -> no_num t ->
  span_num (text s ++ t) = (s, t).
Proof.
  intros H Ht. induction s as [|a s IH].
  - destruct t as [|c t]; [reflexivity|]. cbn. cbn in Ht. rewrite Ht. reflexivity.
  - cbn in H. inversion H as [|? ? H1 H2]; subst. cbn [text list_ascii_of_string map app span_num].
    rewrite H1. change (map N_of_ascii (list_ascii_of_string s)) with (text s). rewrite (IH H2), ascii_N_embedding. reflexivity.
Qed.
Lemma py_str_nonempty z : exists c r, text (py_str z) = c :: r /\ num_char c = true.
Proof.
  pose proof (py_str_chars z) as H. destruct (py_str_head z) as [c [r [E _]]]. rewrite E in *.
  cbn in *. inversion H; subst. eauto.
Qed.

(** size of a value: a bound on the fuel needed *)
Fixpoint size (j : json) : nat :=
  match j with
  | JArr l => S (fold_right (fun x n => S (size x) + n)%nat O l)
  | JObj o => S (fold_right (fun p n => S (size (snd p)) + n)%nat O o)
  | _ => 1%nat
  end.

Section Ind.
  Variable P : json -> Prop.
  Hypothesis Hnull : P JNull.
  Hypothesis Hbool : forall b, P (JBool b).
  Hypothesis Hint : forall z, P (JInt z).
  Hypothesis Hnum : forall r, P (JNum r).
  Hypothesis Hstr : forall s, P (JStr s).
  Hypothesis Harr : forall l, Forall P l -> P (JArr l).
  Hypothesis Hobj : forall o, Forall (fun p => P (snd p)) o -> P (JObj o).
  Fixpoint json_induction (j : json) : P j :=
    match j with
    | JNull => Hnull | JBool b => Hbool b | JInt z => Hint z | JNum r => Hnum r | JStr s => Hstr s
    | JArr l => Harr l ((fix go l : Forall P l := match l with [] => Forall_nil _ | x :: r => Forall_cons _ (json_induction x) (go r) end) l)
    | JObj o => Hobj o ((fix go o : Forall (fun p => P (snd p)) o :=
        match o with [] => Forall_nil _ | p :: r => Forall_cons _ (json_induction (snd p)) (go r) end) o)
    end.
End Ind.

Definition reads (j : json) : Prop := textual j = true ->
  forall f rest, (size j <= f)%nat -> no_num rest -> parse f (dumps j ++ rest) = Ok (j, rest).

Lemma dumps_head j : textual j = true -> exists c r, dumps j = c :: r /\ c <> 93 /\ c <> 125.
Proof.
  destruct j; intros H; try discriminate; cbn.
  - repeat eexists; discriminate.
  - destruct b; repeat eexists; discriminate.
  - destruct (py_str_nonempty z) as [c [r [E Hc]]]. exists c, r. split; [exact E|].
    split; intros ->; discriminate.
  - repeat eexists; discriminate.
  - repeat eexists; discriminate.
  - repeat eexists; discriminate.
Qed.

Lemma separated_cons {A} (g : A -> list N) x y l :
  separated (map g (x :: y :: l)) = g x ++ 44 :: separated (map g (y :: l)).
Proof. reflexivity. Qed.
Lemma items_read l : l <> [] -> Forall reads l -> forallb textual l = true ->
  forall f rest, (fold_right (fun x n => S (size x) + n) 0 l <= f)%nat ->
  items f (separated (map dumps l) ++ 93 :: rest) = Ok (l, rest).
Proof.
  induction l as [|j l IH]; [congruence|]. intros _ HF HT f rest Hf.
  inversion HF as [|? ? Hj HF']; subst. cbn [forallb] in HT. apply andb_prop in HT. destruct HT as [Tj Tl].
  cbn [fold_right] in Hf. destruct f as [|f]; [lia|]. cbn [items].
  destruct l as [|j' l'].
  - cbn [map separated]. rewrite (Hj Tj) by (cbn; try reflexivity; lia). reflexivity.
  - rewrite separated_cons. rewrite <- app_assoc. cbn [app].
    rewrite (Hj Tj) by (cbn; try reflexivity; lia). cbn [bind].
    change (44 =? 44) with true. cbv iota.
    rewrite (IH ltac:(discriminate) HF' Tl f rest) by lia. reflexivity.
Qed.
Lemma fields_read o : o <> [] -> Forall (fun p => reads (snd p)) o -> forallb (fun p => textual (snd p)) o = true ->
  forall f rest, (fold_right (fun p n => S (size (snd p)) + n) 0 o <= f)%nat ->
  fields f (separated (map (fun p => quoted (fst p) ++ 58 :: dumps (snd p)) o) ++ 125 :: rest) = Ok (o, rest).
Proof.
  induction o as [|[k j] o IH]; [congruence|]. intros _ HF HT f rest Hf.
  inversion HF as [|? ? Hj HF']; subst. cbn [forallb snd] in HT, Hj. apply andb_prop in HT. destruct HT as [Tj To].
  cbn [fold_right snd] in Hf. destruct f as [|f]; [lia|]. cbn [fields].
  destruct o as [|p' o'].
  - cbn [map separated fst snd]. rewrite <- app_assoc. cbn [app].
    destruct (unquote_quoted k (58 :: dumps j ++ 125 :: rest)) as [r [E U]]. rewrite E.
    cbn [eat N.eqb Pos.eqb]. rewrite U. cbn [eat N.eqb Pos.eqb].
    rewrite (Hj Tj) by (cbn; try reflexivity; lia). reflexivity.
  - rewrite separated_cons. cbn [fst snd]. rewrite <- !app_assoc. cbn [app].
    rewrite <- ?app_assoc. cbn [app].
    match goal with |- context [quoted k ++ 58 :: ?t] => destruct (unquote_quoted k (58 :: t)) as [r [E U]] end.
    rewrite E. cbn [eat N.eqb Pos.eqb]. rewrite U. cbn [eat N.eqb Pos.eqb].
    rewrite (Hj Tj) by (cbn; try reflexivity; lia). cbn [bind].
    change (44 =? 44) with true. cbv iota.
    rewrite (IH ltac:(discriminate) HF' To f rest) by lia. reflexivity.
Qed.

Lemma parse_dumps j : reads j.
Proof.
  induction j using json_induction; intros T f rest Hf Hr; (destruct f as [|f]; [cbn in Hf; lia|]).
  - reflexivity.
  - destruct b; reflexivity.
  - cbn [dumps]. destruct (py_str_nonempty z) as [c [r [E Hc]]].
    assert (Hs : span_num (c :: r ++ rest) = (py_str z, rest)).
    { rewrite <- (span_text (py_str z) rest (py_str_chars z) Hr), E. reflexivity. }
    rewrite E. cbn [app parse].
    assert (Hne : forall k, num_char k = false -> c =? k = false).
    { intros k Hk. destruct (N.eqb_spec c k) as [->|]; [congruence|reflexivity]. }
    rewrite !Hne by reflexivity. rewrite Hs, py_int_str. reflexivity.
  - discriminate.
  - cbn [dumps]. destruct (unquote_quoted s rest) as [r [E U]]. rewrite E. cbn [parse N.eqb Pos.eqb]. rewrite U. reflexivity.
  - cbn [dumps textual size] in *. cbn [app parse]. change (91 =? 110) with false. change (91 =? 116) with false.
    change (91 =? 102) with false. change (91 =? 34) with false. change (91 =? 91) with true. cbv iota.
    rewrite <- app_assoc. cbn [app].
    destruct l as [|j l]; [reflexivity|].
    assert (HE : eat [93] (separated (map dumps (j :: l)) ++ 93 :: rest) = None).
    { cbn [forallb] in T. apply andb_prop in T. destruct T as [Tj _].
      destruct (dumps_head j Tj) as [c [r [E [H1 _]]]].
      assert (G : exists r', separated (map dumps (j :: l)) = c :: r').
      { cbn [map]. destruct l; cbn [map separated]; rewrite E; cbn [app]; eauto. }
      destruct G as [r' G]. rewrite G. cbn [app eat]. destruct (N.eqb_spec 93 c) as [<-|]; [congruence|reflexivity]. }
    rewrite HE, items_read; [reflexivity|discriminate|assumption|assumption|]. lia.
  - cbn [dumps textual size] in *. cbn [app parse]. change (123 =? 110) with false. change (123 =? 116) with false.
    change (123 =? 102) with false. change (123 =? 34) with false. change (123 =? 91) with false.
    change (123 =? 123) with true. cbv iota.
    rewrite <- app_assoc. cbn [app].
    destruct o as [|p o]; [reflexivity|].
    assert (HE : eat [125] (separated (map (fun p => quoted (fst p) ++ 58 :: dumps (snd p)) (p :: o)) ++ 125 :: rest) = None).
    { cbn [map]. destruct o; cbn [map separated]; reflexivity. }
    rewrite HE, fields_read; [reflexivity|discriminate|assumption|assumption|]. lia.
Qed.

Lemma size_le_dumps j : textual j = true -> (size j <= List.length (dumps j))%nat.
Proof.
  induction j using json_induction; intros T; cbn [size dumps textual] in *; try discriminate.
  - cbn; lia.
  - destruct b; cbn; lia.
  - destruct (py_str_nonempty z) as [c [r [E _]]]. rewrite E. cbn; lia.
  - unfold quoted. cbn. lia.
  - cbn [List.length]. rewrite app_length. cbn [List.length].
    assert (G : (fold_right (fun x n => S (size x) + n) 0 l <= List.length (separated (map dumps l)) + (if l then 0 else 1))%nat).
    { revert T H. clear. induction l as [|j l IH]; intros T HF; [cbn; lia|].
      cbn [forallb] in T. apply andb_prop in T. destruct T as [Tj Tl]. inversion HF; subst. specialize (H1 Tj).
      specialize (IH Tl H2). cbn [fold_right map]. destruct l; cbn [map separated] in *.
      - cbn in *. lia.
      - rewrite app_length. cbn [List.length] in *. lia. }
    destruct l; [cbn in *; lia|]. lia.
  - cbn [List.length]. rewrite app_length. cbn [List.length].
    set (g := fun p : string * json => quoted (fst p) ++ 58 :: dumps (snd p)) in *.
    assert (G : (fold_right (fun p n => S (size (snd p)) + n) 0 o <= List.length (separated (map g o)))%nat).
    { revert T H. clear. induction o as [|[k j] o IH]; intros T HF; [cbn; lia|].
      cbn [forallb snd] in T. apply andb_prop in T. destruct T as [Tj Tl]. inversion HF; subst. cbn [snd] in H1. specialize (H1 Tj).
      specialize (IH Tl H2).
      assert (L : (S (size j) <= List.length (g (k, j)))%nat).
      { unfold g. rewrite app_length. cbn [List.length fst snd]. lia. }
      cbn [fold_right map snd]. destruct o; cbn [map separated] in *.
      - cbn in *. lia.
      - rewrite app_length. cbn [List.length] in *. lia. }
    lia.
Qed.

Theorem loads_dumps j : textual j = true -> loads (dumps j) = Ok j.
Proof.
  intros T. unfold loads. pose proof (size_le_dumps j T).
  pose proof (parse_dumps j T (S (List.length (dumps j))) [] ltac:(lia) I) as P. rewrite app_nil_r in P. rewrite P. reflexivity.
Qed.

(** the text is plain ASCII, so encoding it as UTF-8 changes nothing *)
Lemma text_ascii_digits z : Forall (fun c => c < 128) (text (py_str z)).
Proof.
  eapply Forall_impl; [|apply py_str_chars]. intros c H. unfold num_char in H.
  apply orb_prop in H. destruct H as [H|H].
  - apply andb_prop in H. destruct H as [_ H]. apply N.leb_le in H. lia.
  - apply N.eqb_eq in H. lia.
Qed.
Lemma escape_ascii a : Forall (fun c => c < 128) (escape a).
Proof.
  destruct a as [b0 b1 b2 b3 b4 b5 b6 b7].
  destruct b0, b1, b2, b3, b4, b5, b6, b7; vm_compute; repeat constructor.
Qed.
Lemma quoted_ascii s : Forall (fun c => c < 128) (quoted s).
Proof.
  unfold quoted. constructor; [lia|]. apply Forall_app. split; [|repeat constructor; lia].
  induction s; cbn [escaped]; [constructor|]. apply Forall_app. split; [apply escape_ascii|assumption].
Qed.
Lemma separated_Forall (P : N -> Prop) l : P 44 -> Forall (Forall P) l -> Forall P (separated l).
Proof.
  intros H44 H. induction H as [|x l Hx Hl IH]; [constructor|]. destruct l; [exact Hx|].
  cbn [separated]. apply Forall_app. split; [exact Hx|]. constructor; [exact H44|exact IH].
Qed.
Theorem dumps_ascii j : Forall (fun c => c < 128) (dumps j).
Proof.
  induction j using json_induction; cbn [dumps].
  - repeat constructor.
  - destruct b; repeat constructor.
  - apply text_ascii_digits.
  - constructor.
  - apply quoted_ascii.
  - constructor; [lia|]. apply Forall_app. split; [|repeat constructor; lia].
    apply separated_Forall; [lia|]. rewrite Forall_map. exact H.
  - constructor; [lia|]. apply Forall_app. split; [|repeat constructor; lia].
    apply separated_Forall; [lia|]. rewrite Forall_map. eapply Forall_impl; [|exact H].
    intros p Hp. apply Forall_app. split; [apply quoted_ascii|]. constructor; [lia|exact Hp].
Qed.

Example json_text :
  dumps (JObj [("_id", JStr "a/b""c"); ("n", JArr [JInt (-12); JNull; JBool true; JObj []])]%string)
  = text "{""_id"":""a\/b\""c"",""n"":[-12,null,true,{}]}"%string.
Proof. reflexivity. Qed.

(** hexadecimal digits of either case *)
Theorem hex_digits c d : unhex c = Some d <-> (c = 48 + d /\ d < 10)%N \/ ((c = 87 + d \/ c = 55 + d) /\ 10 <= d < 16)%N.
Proof.
  unfold unhex. destruct (N.leb_spec 48 c), (N.leb_spec c 57), (N.leb_spec 97 c), (N.leb_spec c 102), (N.leb_spec 65 c), (N.leb_spec c 70); cbn [andb]; (split; [intros E; try discriminate; injection E as <-; lia|intros E; first [exfalso; lia|f_equal; lia]]).
Qed.
(** text that is not JSON is a ValueError, whatever it is *)
Theorem loads_errors t e : loads t = Raise e -> e = ValueError.
Proof.
  assert (PI : forall s e, py_int s = Raise e -> e = ValueError).
  { intros s x. unfold py_int. destruct s as [|a r]; [cbn; congruence|]. repeat match goal with |- context [match ?u with _ => _ end] => destruct u end; congruence. }
  assert (G : forall f, (forall t e, parse f t = Raise e -> e = ValueError) /\ (forall t e, items f t = Raise e -> e = ValueError) /\ (forall t e, fields f t = Raise e -> e = ValueError)).
  { induction f as [|f (IP & II & IF)]; [repeat split; intros t0 e0; cbn; congruence|].
    assert (P : forall t0 e0, parse (S f) t0 = Raise e0 -> e0 = ValueError).
    { intros t0 e0. cbn [parse]. destruct t0 as [|c r]; [congruence|]. 
      destruct (c =? 110)%N; [destruct (eat (text "ull") r); congruence|]. destruct (c =? 116)%N; [destruct (eat (text "rue") r); congruence|]. destruct (c =? 102)%N; [destruct (eat (text "alse") r); congruence|].
      destruct (c =? 34)%N; [destruct (unquote r) as [[? ?]|]; congruence|].
      destruct (c =? 91)%N; [destruct (eat [93%N] r); [congruence|]; destruct (items f r) as [[? ?]|] eqn:E; cbn [bind]; [congruence|intros X; injection X as <-; exact (II _ _ E)]|].
      destruct (c =? 123)%N; [destruct (eat [125%N] r); [congruence|]; destruct (fields f r) as [[? ?]|] eqn:E; cbn [bind]; [congruence|intros X; injection X as <-; exact (IF _ _ E)]|].
      destruct (span_num (c :: r)) as [s r']. destruct (py_int s) eqn:E; cbn [bind]; [congruence|intros X; injection X as <-; exact (PI _ _ E)]. }
    split; [exact P|]. split.
    - intros t0 e0. cbn [items]. destruct (parse f t0) as [[j r]|] eqn:E; cbn [bind]; [|intros X; injection X as <-; exact (IP _ _ E)]. destruct r as [|c r]; [congruence|].
      destruct (c =? 44)%N; [|destruct (c =? 93)%N; congruence]. destruct (items f r) as [[? ?]|] eqn:E2; cbn [bind]; [congruence|intros X; injection X as <-; exact (II _ _ E2)].
    - intros t0 e0. cbn [fields]. destruct (eat [34%N] t0) as [r|]; [|congruence]. destruct (unquote r) as [[k r']|]; [|congruence]. destruct (eat [58%N] r') as [r2|]; [|congruence].
      destruct (parse f r2) as [[j r3]|] eqn:E; cbn [bind]; [|intros X; injection X as <-; exact (IP _ _ E)]. destruct r3 as [|c r3]; [congruence|].
      destruct (c =? 44)%N; [|destruct (c =? 125)%N; congruence]. destruct (fields f r3) as [[? ?]|] eqn:E2; cbn [bind]; [congruence|intros X; injection X as <-; exact (IF _ _ E2)]. }
  unfold loads. destruct (parse (S (List.length t)) t) as [[j [|c r]]|x] eqn:E; [congruence|congruence|]. intros X. injection X as <-. exact (proj1 (G _) _ _ E).
Qed.
