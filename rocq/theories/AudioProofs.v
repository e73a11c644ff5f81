(** Facts about Audio.v: C43 (buffers), C53 and C54 (AudioSamples), C61 (streaming
    decode), C62 (chunk sizes and resampled lengths). *)
From Verif Require Import PyBase PyFacts PyMore PyRange Time Audio.
From Coq Require Import Reals Lra.
Local Open Scope Z_scope.

(** ** C43 *)
Section BufferFacts.
  Context {A : Type} (zero : A).

  (** Specification: a FIFO queue. *)
  Fixpoint fifo (q : list A) (ops : list (op A)) : list (list A) :=
    match ops with
    | [] => []
    | Write d :: rest => [] :: fifo (q ++ d) rest
    | Read c :: rest =>
        let n := if c <? 0 then length q else Z.to_nat c in
        firstn n q :: fifo (skipn n q) rest
    | ReadInto buf :: rest => firstn (length buf) q :: fifo (skipn (length buf) q) rest
    end.
  Definition written (ops : list (op A)) : list A :=
    concat (map (fun o => match o with Write d => d | _ => [] end) ops).

  Definition unread (m : membuf A) : list A := skipn (Z.to_nat (b_pos (m_buf m))) (b_data (m_buf m)).
  Definition mb_ok (m : membuf A) : Prop := 0 <= b_pos (m_buf m) <= Zlen (b_data (m_buf m)).

  Lemma mb_read_spec m c : mb_ok m ->
    let n := if c <? 0 then length (unread m) else Z.to_nat c in
    snd (mb_read m c) = firstn n (unread m) /\ mb_ok (fst (mb_read m c)) /\
    unread (fst (mb_read m c)) = skipn n (unread m).
  Proof.
    intros Hok n. unfold mb_read.
    assert (E : (if c =? -1 then bio_read (m_buf m) (-1) else bio_read (m_buf m) c) = bio_read (m_buf m) c).
    { destruct (Z.eqb_spec c (-1)) as [->|]; reflexivity. }
    rewrite E. unfold bio_read. cbn [fst snd].
    set (rest := skipn (Z.to_nat (b_pos (m_buf m))) (b_data (m_buf m))).
    assert (Ed : (if c <? 0 then rest else firstn (Z.to_nat c) rest) = firstn n rest).
    { subst n. unfold unread. fold rest. destruct (c <? 0); [rewrite firstn_all; reflexivity|reflexivity]. }
    rewrite Ed. split; [reflexivity|].
    assert (Lr : length rest = (length (b_data (m_buf m)) - Z.to_nat (b_pos (m_buf m)))%nat) by (subst rest; apply skipn_length).
    unfold mb_ok, Zlen in *. split.
    - cbn [m_buf with_buf b_pos b_data]. rewrite firstn_length. lia.
    - unfold unread. cbn [m_buf with_buf b_pos b_data]. fold rest. unfold Zlen. rewrite firstn_length.
      replace (Z.to_nat (b_pos (m_buf m) + Z.of_nat (Nat.min n (length rest))))
        with (Z.to_nat (b_pos (m_buf m)) + Nat.min n (length rest))%nat by lia.
      rewrite <- skipn_skipn'. fold rest. destruct (Nat.le_ge_cases n (length rest)).
      + rewrite Nat.min_l by lia. reflexivity.
      + rewrite Nat.min_r by lia. rewrite !skipn_all2 by lia. reflexivity.
  Qed.

  Lemma bio_append b d : 0 <= b_pos b -> exists b1, bio_seek b 0 2 = Ok b1 /\
    b_data (bio_write zero b1 d) = b_data b ++ d.
  Proof.
    intros Hp. cbn [bio_seek Z.eqb]. eexists. split; [reflexivity|]. unfold bio_write. cbn [b_data b_pos].
    unfold Zlen. rewrite Z.add_0_r. rewrite Z.max_r by lia. rewrite Nat2Z.id.
    destruct (Z.eqb_spec (Z.of_nat (length d)) 0) as [E|E].
    - destruct d; [rewrite app_nil_r; reflexivity|cbn in E; lia].
    - rewrite firstn_all, Nat.sub_diag. cbn [repeat]. rewrite app_nil_r, skipn_all2 by lia. rewrite app_nil_r. reflexivity.
  Qed.

  Lemma mb_write_spec m d : mb_ok m -> exists m', mb_write zero m d = Ok (m', Zlen d) /\ mb_ok m' /\
    unread m' = unread m ++ d /\ m_max m' = m_max m /\
    Zlen (b_data (m_buf m')) <= Z.max 0 (m_max m) + Zlen (unread m').
  Proof.
    intros Hok. unfold mb_write. unfold mb_ok in Hok.
    destruct (Z.ltb_spec (m_max m) (b_pos (m_buf m))) as [Ht|Ht].
    - cbn [bio_read Z.ltb Z.compare]. fold (unread m).
      assert (Ew : b_data (bio_write zero new_bytesio (unread m)) = unread m).
      { unfold bio_write. cbn [new_bytesio b_data b_pos Z.to_nat]. destruct (Z.eqb_spec (Zlen (unread m)) 0) as [E|E].
        - unfold Zlen in E. destruct (unread m); [reflexivity|cbn in E; lia].
        - cbn [firstn Nat.sub repeat app length]. rewrite skipn_nil, app_nil_r. reflexivity. }
      destruct (bio_append (bio_write zero new_bytesio (unread m)) d) as [b1 [E1 E2]].
      { unfold bio_write. cbn [b_pos new_bytesio]. pose proof (Zlen_nonneg (unread m)). lia. }
      rewrite E1. cbn [bind bio_seek Z.eqb Z.ltb Z.compare]. eexists. split; [reflexivity|].
      rewrite Ew in E2. unfold mb_ok, unread at 1 3. cbn [m_buf with_buf b_pos b_data Z.to_nat skipn]. rewrite E2.
      split; [pose proof (Zlen_nonneg (unread m ++ d)); lia|]. split; [reflexivity|]. split; [reflexivity|]. lia.
    - destruct (bio_append (m_buf m) d ltac:(lia)) as [b1 [E1 E2]]. rewrite E1. cbn [bind].
      unfold bio_seek at 1. cbn [Z.eqb]. destruct (Z.ltb_spec (b_pos (m_buf m)) 0); [lia|]. cbn [bind].
      eexists. split; [reflexivity|]. unfold mb_ok, unread. cbn [m_buf with_buf b_pos b_data]. rewrite E2.
      split; [rewrite Zlen_app; pose proof (Zlen_nonneg d); lia|]. split.
      + rewrite skipn_app. f_equal. unfold Zlen in Hok.
        replace (Z.to_nat (b_pos (m_buf m)) - length (b_data (m_buf m)))%nat with 0%nat by lia. reflexivity.
      + split; [reflexivity|]. unfold Zlen in *. rewrite skipn_length, app_length. lia.
  Qed.

  (** the results of any history of calls are those of a FIFO queue, whatever the
      size at which the buffer is trimmed *)
  Lemma mb_is_fifo content_length max_size ops :
    exists m, mb_history zero (membuf_new content_length max_size) ops = Ok (m, fifo [] ops).
  Proof.
    assert (G : forall ops m, mb_ok m -> exists m', mb_history zero m ops = Ok (m', fifo (unread m) ops)).
    { clear. induction ops as [|o ops IH]; intros m Hok; [exists m; reflexivity|].
      cbn [mb_history]. destruct o as [c|buf|d]; cbn [mb_op].
      - destruct (mb_read_spec m c Hok) as [R1 [R2 R3]]. destruct (mb_read m c) as [m1 d1] eqn:E. cbn [fst snd bind] in *.
        destruct (IH m1 R2) as [m' E']. rewrite E'. cbn [bind]. exists m'. rewrite R1, R3. reflexivity.
      - unfold mb_readinto. destruct (mb_read_spec m (Zlen buf) Hok) as [R1 [R2 R3]].
        destruct (mb_read m (Zlen buf)) as [m1 d1] eqn:E. cbn [fst snd] in *. cbn [bind].
        destruct (IH m1 R2) as [m' E']. rewrite E'. cbn [bind]. exists m'. cbn [fifo].
        destruct (Z.ltb_spec (Zlen buf) 0) as [L|_]; [pose proof (Zlen_nonneg buf); lia|].
        assert (Ez : Z.to_nat (Zlen buf) = length buf) by (unfold Zlen; lia). rewrite Ez in R1, R3. rewrite R3.
        do 3 f_equal. rewrite <- R1.
        assert (E2 : Z.to_nat (Zlen d1) = length d1) by (unfold Zlen; lia).
        rewrite E2, firstn_app, firstn_all, Nat.sub_diag. cbn [firstn]. rewrite app_nil_r. reflexivity.
      - destruct (mb_write_spec m d Hok) as [m1 [E [Hok1 [U _]]]]. rewrite E. cbn [bind].
        destruct (IH m1 Hok1) as [m' E']. rewrite E'. cbn [bind]. exists m'. rewrite U. reflexivity. }
    apply G. unfold mb_ok. cbn. unfold Zlen. cbn. lia.
  Qed.
  (** a queue returns a prefix of what was put in *)
  Lemma fifo_prefix q ops : exists rest, concat (fifo q ops) ++ rest = q ++ written ops.
  Proof.
    revert q; induction ops as [|o ops IH]; intros q; [exists q; cbn; rewrite app_nil_r; reflexivity|].
    destruct o as [c|buf|d]; cbn [fifo concat].
    - set (n := if c <? 0 then length q else Z.to_nat c). destruct (IH (skipn n q)) as [rest E]. exists rest.
      rewrite <- app_assoc, E, app_assoc, firstn_skipn. reflexivity.
    - destruct (IH (skipn (length buf) q)) as [rest E]. exists rest.
      rewrite <- app_assoc, E, app_assoc, firstn_skipn. reflexivity.
    - destruct (IH (q ++ d)) as [rest E]. exists rest. cbn [app]. rewrite E. unfold written. cbn [map concat].
      rewrite app_assoc. reflexivity.
  Qed.
  Lemma mb_lossless content_length max_size ops m outs :
    mb_history zero (membuf_new content_length max_size) ops = Ok (m, outs) ->
    exists rest, concat outs ++ rest = written ops.
  Proof.
    intros H. destruct (mb_is_fifo content_length max_size ops) as [m' E]. rewrite E in H. injection H as <- <-.
    exact (fifo_prefix [] ops).
  Qed.
  (** reading everything at the end returns all that was not read before *)
  Lemma mb_drains content_length max_size ops m outs :
    mb_history zero (membuf_new content_length max_size) (ops ++ [Read (-1)]) = Ok (m, outs) ->
    concat outs = written ops.
  Proof.
    intros H. destruct (mb_is_fifo content_length max_size (ops ++ [Read (-1)])) as [m' E]. rewrite E in H.
    injection H as <- <-.
    enough (G : forall q, concat (fifo q (ops ++ [Read (-1)])) = q ++ written ops) by exact (G []).
    clear E. induction ops as [|o ops IH]; intros q.
    - cbn. rewrite firstn_all, !app_nil_r. reflexivity.
    - destruct o as [c|buf|d]; cbn [app fifo concat].
      + rewrite IH, app_assoc, firstn_skipn. reflexivity.
      + rewrite IH, app_assoc, firstn_skipn. reflexivity.
      + rewrite IH. cbn [app]. unfold written. cbn [map concat]. rewrite app_assoc. reflexivity.
  Qed.
  (** right after a write the buffer holds the unread bytes and at most [max_size] others *)
  Lemma mb_bounded content_length max_size ops d m outs :
    mb_history zero (membuf_new content_length max_size) (ops ++ [Write d]) = Ok (m, outs) ->
    Zlen (b_data (m_buf m)) <= Z.max 0 max_size + (Zlen (written (ops ++ [Write d])) - Zlen (concat outs)).
  Proof.
    assert (G : forall ops m0 m outs, mb_ok m0 -> mb_history zero m0 ops = Ok (m, outs) ->
      mb_ok m /\ m_max m = m_max m0 /\ concat outs ++ unread m = unread m0 ++ written ops).
    { clear. induction ops as [|o ops IH]; intros m0 m outs Hok H.
      - injection H as <- <-. split; [exact Hok|]. split; [reflexivity|]. cbn. rewrite app_nil_r. reflexivity.
      - cbn [mb_history] in H. destruct o as [c|buf|d]; cbn [mb_op] in H.
        + destruct (mb_read_spec m0 c Hok) as [R1 [R2 R3]]. assert (Mx : m_max (fst (mb_read m0 c)) = m_max m0).
          { unfold mb_read. destruct (if c =? -1 then _ else _). reflexivity. }
          destruct (mb_read m0 c) as [m1 d1]. cbn [fst snd bind] in *.
          destruct (mb_history zero m1 ops) as [[m2 ds]|e] eqn:E; [|discriminate]. cbn [bind] in H. injection H as <- <-.
          destruct (IH _ _ _ R2 E) as [I1 [I2 I3]]. split; [exact I1|]. split; [congruence|]. cbn [concat].
          rewrite <- app_assoc, I3, R1, R3, app_assoc, firstn_skipn. reflexivity.
        + unfold mb_readinto in H. destruct (mb_read_spec m0 (Zlen buf) Hok) as [R1 [R2 R3]].
          assert (Mx : m_max (fst (mb_read m0 (Zlen buf))) = m_max m0).
          { unfold mb_read. destruct (if Zlen buf =? -1 then _ else _). reflexivity. }
          destruct (mb_read m0 (Zlen buf)) as [m1 d1]. cbn [fst snd bind] in *.
          destruct (mb_history zero m1 ops) as [[m2 ds]|e] eqn:E; [|discriminate]. cbn [bind] in H. injection H as <- <-.
          destruct (IH _ _ _ R2 E) as [I1 [I2 I3]]. split; [exact I1|]. split; [congruence|]. cbn [concat].
          assert (E2 : Z.to_nat (Zlen d1) = length d1) by (unfold Zlen; lia).
          rewrite E2, firstn_app, firstn_all, Nat.sub_diag. cbn [firstn]. rewrite app_nil_r.
          rewrite <- app_assoc, I3, R1, R3, app_assoc, firstn_skipn. reflexivity.
        + destruct (mb_write_spec m0 d Hok) as [m1 [E0 [Hok1 [U [Mx _]]]]]. rewrite E0 in H. cbn [bind] in H.
          destruct (mb_history zero m1 ops) as [[m2 ds]|e] eqn:E; [|discriminate]. cbn [bind] in H. injection H as <- <-.
          destruct (IH _ _ _ Hok1 E) as [I1 [I2 I3]]. split; [exact I1|]. split; [congruence|]. cbn [concat app].
          rewrite I3, U. unfold written. cbn [map concat]. rewrite app_assoc. reflexivity. }
    assert (S : forall ops m0 m outs, mb_history zero m0 (ops ++ [Write d]) = Ok (m, outs) ->
      exists m1 o1, mb_history zero m0 ops = Ok (m1, o1) /\ exists n, mb_write zero m1 d = Ok (m, n) /\ concat outs = concat o1).
    { clear. induction ops as [|o ops IH]; intros m0 m outs H.
      - exists m0, []. split; [reflexivity|]. cbn [app mb_history mb_op] in H. destruct (mb_write zero m0 d) as [[m1 n]|e]; [|discriminate].
        cbn [bind] in H. injection H as <- <-. exists n. split; reflexivity.
      - cbn [app mb_history] in *. destruct (mb_op zero m0 o) as [[m1 d1]|e]; [|discriminate]. cbn [bind] in *.
        destruct (mb_history zero m1 (ops ++ [Write d])) as [[m2 ds]|e] eqn:E; [|discriminate]. cbn [bind] in H. injection H as <- <-.
        destruct (IH _ _ _ E) as [m3 [o3 [E3 [n [E4 E5]]]]]. rewrite E3. cbn [bind]. exists m3, (d1 :: o3). split; [reflexivity|].
        exists n. split; [exact E4|]. cbn [concat]. congruence. }
    intros H. destruct (S _ _ _ _ H) as [m1 [o1 [E1 [n [E2 E3]]]]].
    assert (O0 : mb_ok (membuf_new (A := A) content_length max_size)) by (unfold mb_ok; cbn; unfold Zlen; cbn; lia).
    destruct (G _ _ _ _ O0 E1) as [I1 [I2 I3]].
    destruct (mb_write_spec m1 d I1) as [m' [E4 [_ [U [_ B]]]]]. rewrite E4 in E2. injection E2 as <- <-.
    destruct (G _ _ _ _ O0 H) as [_ [_ I4]]. change (unread (membuf_new (A := A) content_length max_size)) with (@nil A) in I4. cbn [app] in I4.
    rewrite I2 in B. cbn [membuf_new m_max] in B.
    assert (Hl : Zlen (concat outs) + Zlen (unread m') = Zlen (written (ops ++ [Write d]))).
    { rewrite <- Zlen_app, I4. reflexivity. }
    lia.
  Qed.
  (** random access as long as nothing was trimmed: if all that was written fits, a
      seek followed by a read returns the bytes at that offset of the whole stream *)
  Lemma mb_seek_read content_length max_size ops m outs k c :
    mb_history zero (membuf_new content_length max_size) ops = Ok (m, outs) ->
    Zlen (written ops) <= max_size -> 0 <= k -> 0 <= c ->
    exists m', mb_seek m k 0 = Ok m' /\ snd (mb_tell m') = k /\
      snd (mb_read m' c) = firstn (Z.to_nat c) (skipn (Z.to_nat k) (written ops)).
  Proof.
    assert (G : forall ops m0 m outs, mb_ok m0 -> m_max m0 = max_size -> m_tell_end m0 = false ->
      Zlen (b_data (m_buf m0)) + Zlen (written ops) <= max_size ->
      mb_history zero m0 ops = Ok (m, outs) ->
      b_data (m_buf m) = b_data (m_buf m0) ++ written ops /\ m_tell_end m = false).
    { clear. induction ops as [|o ops IH]; intros m0 m outs Hok Hm Ht Hl H.
      - injection H as <- <-. rewrite app_nil_r. split; [reflexivity|exact Ht].
      - cbn [mb_history] in H.
        destruct (mb_op zero m0 o) as [[m1 d1]|e] eqn:Eo; [|discriminate]. cbn [bind] in H.
        destruct (mb_history zero m1 ops) as [[m2 ds]|e] eqn:E; [|discriminate]. cbn [bind] in H. injection H as <- <-.
        assert (Hw : forall o, Zlen (written (o :: ops)) = Zlen (match o with Write d => d | _ => [] end) + Zlen (written ops)).
        { intros o'. unfold written. cbn [map concat]. apply Zlen_app. }
        rewrite Hw in Hl. pose proof (Zlen_nonneg (written ops)) as Nw.
        assert (Hl' : Zlen (b_data (m_buf m0)) + Zlen (written ops) <= max_size).
        { pose proof (Zlen_nonneg (match o with Write d => d | _ => [] end)). lia. }
        destruct o as [c|buf|d]; cbn [mb_op] in Eo.
        + injection Eo as Eo. pose proof (mb_read_spec m0 c Hok) as [_ [R2 _]]. rewrite Eo in R2. cbn [fst] in R2.
          assert (D : b_data (m_buf m1) = b_data (m_buf m0) /\ m_max m1 = m_max m0 /\ m_tell_end m1 = m_tell_end m0).
          { unfold mb_read, bio_read in Eo. destruct (c =? -1); injection Eo as <- _; repeat split. }
          destruct D as [D1 [D2 D3]]. destruct (IH m1 m2 ds R2 ltac:(congruence) ltac:(congruence) ltac:(rewrite D1; exact Hl') E) as [I1 I2].
          split; [|exact I2]. rewrite I1, D1. reflexivity.
        + unfold mb_readinto in Eo. pose proof (mb_read_spec m0 (Zlen buf) Hok) as [_ [R2 _]].
          destruct (mb_read m0 (Zlen buf)) as [m1' d1'] eqn:E1. injection Eo as <- <-. cbn [fst] in R2.
          assert (D : b_data (m_buf m1') = b_data (m_buf m0) /\ m_max m1' = m_max m0 /\ m_tell_end m1' = m_tell_end m0).
          { unfold mb_read, bio_read in E1. destruct (Zlen buf =? -1); injection E1 as <- _; repeat split. }
          destruct D as [D1 [D2 D3]]. destruct (IH m1' m2 ds R2 ltac:(congruence) ltac:(congruence) ltac:(rewrite D1; exact Hl') E) as [I1 I2].
          split; [|exact I2]. rewrite I1, D1. reflexivity.
        + destruct (mb_write_spec m0 d Hok) as [m1' [E0 [Hok1 [_ [Mx _]]]]]. rewrite E0 in Eo. cbn [bind] in Eo. injection Eo as <- <-.
          assert (D : b_data (m_buf m1') = b_data (m_buf m0) ++ d /\ m_tell_end m1' = m_tell_end m0).
          { unfold mb_write in E0. unfold mb_ok in Hok. pose proof (Zlen_nonneg d).
            destruct (Z.ltb_spec (m_max m0) (b_pos (m_buf m0))) as [L|_]; [lia|].
            destruct (bio_append (m_buf m0) d ltac:(lia)) as [b1 [B1 B2]]. rewrite B1 in E0. cbn [bind] in E0.
            unfold bio_seek in E0. cbn [Z.eqb] in E0. destruct (b_pos (m_buf m0) <? 0); [discriminate|].
            cbn [bind] in E0. injection E0 as <-. cbn [m_buf with_buf b_data m_tell_end]. split; [exact B2|reflexivity]. }
          destruct D as [D1 D3]. destruct (IH m1' m2 ds Hok1 ltac:(congruence) ltac:(congruence) ltac:(rewrite D1, Zlen_app; lia) E) as [I1 I2].
          split; [|exact I2]. rewrite I1, D1. unfold written. cbn [map concat]. rewrite app_assoc. reflexivity. }
    intros H Hw Hk Hc.
    assert (O0 : mb_ok (membuf_new (A := A) content_length max_size)) by (unfold mb_ok; cbn; unfold Zlen; cbn; lia).
    destruct (G ops _ m outs O0 eq_refl eq_refl ltac:(cbn [membuf_new m_buf new_bytesio b_data]; rewrite Zlen_nil; lia) H) as [D T].
    cbn [membuf_new m_buf new_bytesio b_data app] in D.
    unfold mb_seek, bio_seek. cbn [Z.eqb]. destruct (Z.ltb_spec k 0); [lia|]. cbn [bind]. eexists. split; [reflexivity|].
    split; [unfold mb_tell; cbn [m_tell_end]; rewrite T; reflexivity|].
    unfold mb_read. cbn [m_buf]. destruct (Z.eqb_spec c (-1)); [lia|]. unfold bio_read. cbn [b_pos b_data].
    destruct (Z.ltb_spec c 0); [lia|]. cbn [snd]. rewrite D. reflexivity.
  Qed.
End BufferFacts.
(** once trimmed, absolute offsets mean something else *)
Lemma mb_seek_refuted : exists ops m outs m',
  mb_history 0%nat (membuf_new 100 2) ops = Ok (m, outs) /\ mb_seek m 0 0 = Ok m' /\
  snd (mb_read m' 1) <> firstn 1 (written ops).
Proof.
  exists [Write [10; 11; 12; 13]%nat; Read 3; Write [14]%nat]. eexists. eexists. eexists.
  split; [vm_compute; reflexivity|]. split; [vm_compute; reflexivity|]. vm_compute. discriminate.
Qed.
Example mb_ex : match mb_history 0%nat (membuf_new 100 2) [Write [10; 11; 12; 13]%nat; Read 3; Write [14]%nat; ReadInto [0; 0; 0]%nat] with
  | Ok (m, outs) => outs = [[]; [10; 11; 12]; []; [13; 14]]%nat /\ b_data (m_buf m) = [13; 14]%nat | Raise _ => False end.
Proof. vm_compute. split; reflexivity. Qed.
(** [seek(0, SEEK_END)] then [tell()] reports the announced length once *)
Lemma mb_tell_end {A} (m m' : membuf A) : mb_seek m 0 2 = Ok m' ->
  snd (mb_tell m') = m_content_length m /\ snd (mb_tell (fst (mb_tell m'))) = b_pos (m_buf m').
Proof. unfold mb_seek. cbn [bio_seek Z.eqb bind]. intros H; injection H as <-. split; reflexivity. Qed.

(** ** C61: streaming decode *)
Section AudioStreamFacts.
  Context {A F G : Type} (decode : list A -> list F) (g : F -> G).
  (** more bytes only add frames *)
  Hypothesis decode_monotone : forall a b, exists t, decode (a ++ b) = decode a ++ t.

  Definition as_inv (st : @as_state A) (emitted : list G) : Prop :=
    (as_read st <= length (decode (as_bytes st)))%nat /\ emitted = map g (firstn (as_read st) (decode (as_bytes st))).

  Lemma firstn_add {B} (l : list B) a b : firstn (a + b) l = firstn a l ++ firstn b (skipn a l).
  Proof.
    revert l; induction a as [|a IH]; intros l; [reflexivity|]. destruct l as [|x l]; [rewrite !firstn_nil; reflexivity|].
    cbn. f_equal. apply IH.
  Qed.
  Lemma get_samples_inv st n em : as_inv st em ->
    as_inv (fst (get_samples decode st n)) (em ++ map g (snd (get_samples decode st n))).
  Proof.
    intros [H1 H2]. unfold get_samples, as_inv. cbn [fst snd as_read as_bytes].
    set (l := decode (as_bytes st)) in *. rewrite firstn_length, skipn_length. split; [lia|].
    subst em. rewrite <- map_app. f_equal. rewrite firstn_add. f_equal.
    destruct (Nat.le_ge_cases (Z.to_nat n) (length l - as_read st)).
    - rewrite Nat.min_l by lia. reflexivity.
    - rewrite Nat.min_r by lia. rewrite !firstn_all2; [reflexivity| |]; rewrite skipn_length; lia.
  Qed.
  Lemma as_feed_inv chunk_size chunks : forall st em, as_inv st em ->
    let r := as_feed decode (map g) chunk_size st chunks in
    as_inv (fst r) (em ++ concat (snd r)) /\ as_bytes (fst r) = as_bytes st ++ concat chunks /\
    length (snd r) = length chunks /\
    as_chunk (fst r) = match as_chunk st, chunks with
                       | Some n, _ => Some n | None, [] => None | None, b :: _ => Some (chunk_size (Zlen b)) end.
  Proof.
    induction chunks as [|b bs IH]; intros st em H.
    - cbn. rewrite !app_nil_r. split; [exact H|]. split; [reflexivity|]. split; [reflexivity|]. destruct (as_chunk st); reflexivity.
    - cbn [as_feed]. unfold as_process.
      set (n := match as_chunk st with Some n => n | None => chunk_size (Zlen b) end).
      set (st0 := {| as_bytes := as_bytes st ++ b; as_read := as_read st; as_chunk := Some n |}).
      assert (I0 : as_inv st0 em).
      { destruct H as [H1 H2]. destruct (decode_monotone (as_bytes st) b) as [t Et]. unfold as_inv, st0. cbn [as_read as_bytes].
        rewrite Et, app_length. split; [lia|]. rewrite H2, firstn_app.
        replace (as_read st - length (decode (as_bytes st)))%nat with 0%nat by lia. cbn [firstn]. rewrite app_nil_r. reflexivity. }
      pose proof (get_samples_inv st0 n em I0) as I1.
      assert (B1 : as_bytes (fst (get_samples decode st0 n)) = as_bytes st ++ b) by reflexivity.
      assert (C1 : as_chunk (fst (get_samples decode st0 n)) = Some n) by reflexivity.
      destruct (get_samples decode st0 n) as [st1 d]. cbn [fst snd] in *.
      destruct (IH st1 _ I1) as [J1 [J2 [J3 J4]]]. destruct (as_feed decode (map g) chunk_size st1 bs) as [st2 os]. cbn [fst snd] in *.
      split; [cbn [concat]; rewrite app_assoc; exact J1|]. split; [rewrite J2, B1; cbn [concat]; rewrite app_assoc; reflexivity|].
      split; [cbn [length]; lia|]. rewrite J4, C1. subst n. destruct (as_chunk st); reflexivity.
  Qed.
  Lemma as_last_spec n : 0 < n -> forall fuel st em, as_inv st em ->
    (length (decode (as_bytes st)) - as_read st < fuel)%nat ->
    em ++ concat (as_last_chunk decode (map g) fuel st n) = map g (decode (as_bytes st)).
  Proof.
    intros Hn. induction fuel as [|f IH]; intros st em H Hf; [lia|]. cbn [as_last_chunk].
    pose proof (get_samples_inv st n em H) as I1.
    assert (B1 : as_bytes (fst (get_samples decode st n)) = as_bytes st) by reflexivity.
    assert (R1 : as_read (fst (get_samples decode st n)) = (as_read st + length (snd (get_samples decode st n)))%nat) by reflexivity.
    assert (D1 : snd (get_samples decode st n) = firstn (Z.to_nat n) (skipn (as_read st) (decode (as_bytes st)))) by reflexivity.
    destruct (get_samples decode st n) as [st1 d]. cbn [fst snd] in *.
    destruct d as [|x d].
    - cbn [concat]. rewrite app_nil_r. destruct H as [H1 H2]. rewrite H2. f_equal. apply firstn_all2.
      apply (f_equal (@length F)) in D1. rewrite firstn_length, skipn_length in D1. cbn [length] in D1. lia.
    - cbn [concat]. rewrite app_assoc. rewrite (IH st1 _ I1); [rewrite B1; reflexivity|]. rewrite B1, R1. cbn [length].
      apply (f_equal (@length F)) in D1. rewrite firstn_length, skipn_length in D1. cbn [length] in D1. lia.
  Qed.
  (** everything that can be decoded from the whole byte stream comes out once, in
      order, however the bytes are cut into chunks *)
  Lemma audio_stream_total chunk_size b bs : (forall n, 0 < chunk_size n) ->
    exists fuel0, forall fuel, (fuel0 <= fuel)%nat ->
      exists outs, as_run decode (map g) fuel chunk_size (b :: bs) = Ok outs /\
        concat outs = map g (decode (concat (b :: bs))) /\ (length (b :: bs) <= length outs)%nat.
  Proof.
    intros Hc. exists (S (length (decode (concat (b :: bs))))). intros fuel Hf.
    assert (I0 : as_inv as_init (@nil G)) by (split; [cbn; lia|reflexivity]).
    destruct (as_feed_inv chunk_size (b :: bs) as_init [] I0) as [J1 [J2 [J3 J4]]].
    unfold as_run. destruct (as_feed decode (map g) chunk_size as_init (b :: bs)) as [st os]. cbn [fst snd as_init as_chunk as_bytes app] in *.
    rewrite J4. eexists. split; [reflexivity|]. rewrite concat_app. split.
    - rewrite (as_last_spec (chunk_size (Zlen b)) (Hc _) fuel st (concat os) J1); rewrite J2; [reflexivity|lia].
    - rewrite app_length, J3. lia.
  Qed.
End AudioStreamFacts.
Lemma audio_stream_nothing_refuted {A F G} (decode : list A -> list F) (tm : list F -> list G) fuel cs :
  as_run decode tm fuel cs [] = Raise AttributeError.
Proof. reflexivity. Qed.
Example audio_stream_ex :
  as_run (fun b : list nat => map (fun x => (x * 10)%nat) b) (map (fun x => x)) 10 (fun _ => 2) [[1; 2; 3]; [4; 5]; []]%nat
  = Ok [[10; 20]; [30; 40]; [50]]%nat.
Proof. reflexivity. Qed.

(** the chunk size is at least one second of samples *)
Lemma chunk_size_samples_pos byte_depth channels samplerate len : 0 < byte_depth -> 0 < channels -> 0 < samplerate ->
  samplerate <= chunk_size_samples byte_depth channels samplerate len.
Proof.
  intros Hb Hc Hs. unfold chunk_size_samples. set (bps := byte_depth * samplerate * channels).
  assert (0 < bps) by (unfold bps; nia). destruct (Z.ltb_spec (len - 6 * bps) bps); [lia|].
  unfold trunc_div. rewrite Z.quot_div_nonneg by nia. apply Z.div_le_lower_bound; nia.
Qed.
(** ... and leaves six seconds of bytes in the buffer when there are that many *)
Lemma chunk_size_samples_margin byte_depth channels samplerate len : 0 < byte_depth -> 0 < channels -> 0 < samplerate ->
  7 * (byte_depth * samplerate * channels) <= len ->
  chunk_size_samples byte_depth channels samplerate len * (byte_depth * channels) <= len - 6 * (byte_depth * samplerate * channels).
Proof.
  intros Hb Hc Hs Hl. unfold chunk_size_samples. set (bps := byte_depth * samplerate * channels) in *.
  assert (Hp : 0 < bps) by (unfold bps; nia). destruct (Z.ltb_spec (len - 6 * bps) bps); [lia|].
  unfold trunc_div. rewrite Z.quot_div_nonneg by nia.
  pose proof (Z.mul_div_le ((len - 6 * bps) * samplerate) bps Hp) as M.
  assert (Hq : 0 <= (len - 6 * bps) * samplerate / bps) by (apply Z.div_pos; nia).
  set (q := (len - 6 * bps) * samplerate / bps) in *.
  assert (bps * q <= (len - 6 * bps) * samplerate) by exact M.
  assert (q * (byte_depth * channels) * samplerate <= (len - 6 * bps) * samplerate).
  { replace (q * (byte_depth * channels) * samplerate) with (bps * q) by (unfold bps; ring). exact M. }
  nia.
Qed.
(** a byte chunk holds whole sample frames and no more than the duration asked for *)
Lemma chunk_size_bytes_spec frequency duration channels bit_depth :
  0 < frequency -> 0 <= duration -> 0 < channels -> 8 <= bit_depth ->
  exists frames, chunk_size_bytes frequency duration channels bit_depth = frames * (bit_depth / 8 * channels) /\
    frames * frequency <= duration < (frames + 1) * frequency.
Proof.
  intros Hf Hd Hc Hb. unfold chunk_size_bytes, trunc_div. rewrite Z.quot_div_nonneg by lia.
  exists (duration / frequency). split; [ring|].
  pose proof (Z.mul_div_le duration frequency Hf). pose proof (Z.mul_succ_div_gt duration frequency Hf). lia.
Qed.

(** [iter_chunks] *)
Section OggFacts.
  Context {A : Type}.
  Lemma pieces_last {B} c (l : list B) : (0 < c)%nat -> exists front r, l = concat front ++ r /\
    Forall (fun p => length p = c) front /\ (length r < c)%nat.
  Proof.
    intros Hc. remember (length l) as n eqn:En. revert l En. induction n as [n IH] using lt_wf_ind. intros l En.
    destruct (Nat.lt_ge_cases n c) as [L|L]; [exists [], l; split; [reflexivity|split; [constructor|lia]]|].
    destruct (IH (n - c)%nat ltac:(lia) (skipn c l) ltac:(rewrite skipn_length; lia)) as [front [r [E [F R]]]].
    exists (firstn c l :: front), r. split; [cbn [concat]; rewrite <- app_assoc, <- E, firstn_skipn; reflexivity|].
    split; [constructor; [rewrite firstn_length; lia|exact F]|exact R].
  Qed.

  Lemma ogg_start sr k : 0 < sr <= 10 ^ 12 -> 0 <= k ->
    let freq := ogg_freq sr in let n := 10 ^ 12 / freq in
    trunc_div (k * second_ps) freq = k * n + k * (10 ^ 12 mod freq) / freq.
  Proof.
    intros Hs Hk freq n. unfold trunc_div, second_ps.
    assert (Hf : 0 < freq) by (unfold freq, ogg_freq; apply Z.div_str_pos; lia).
    rewrite Z.quot_div_nonneg by lia. pose proof (Z.div_mod (10 ^ 12) freq ltac:(lia)) as M.
    fold n in M. rewrite M at 1. replace (k * (freq * n + 10 ^ 12 mod freq)) with (k * (10 ^ 12 mod freq) + (k * n) * freq) by ring.
    rewrite Z.div_add by lia. ring.
  Qed.
  (** reading a TimeSlice: from the sample at its start, as many as its duration holds, or to the end *)
  Lemma ogg_get_spec sr (samples : list A) i d : 0 < sr <= 10 ^ 12 ->
    let freq := 10 ^ 12 / sr in
    (i <= length samples)%nat -> (forall n, d = Some n -> 0 <= n) ->
    ogg_get sr samples (Z.of_nat i * freq) d =
      Ok (match d with None => skipn i samples | Some n => firstn (Z.to_nat (n / freq)) (skipn i samples) end).
  Proof.
    intros Hs freq Hi Hd. assert (Hf : 0 < freq) by (unfold freq; apply Z.div_str_pos; lia).
    unfold ogg_get, sf_read_at. change (ogg_freq sr) with freq.
    assert (E : trunc_div (Z.of_nat i * freq) freq = Z.of_nat i) by (unfold trunc_div; apply Z.quot_mul; lia).
    rewrite E. destruct (Z.ltb_spec (Z.of_nat i) 0); [lia|]. destruct (Z.ltb_spec (Zlen samples) (Z.of_nat i)); [unfold Zlen in *; lia|].
    cbn [orb]. rewrite Nat2Z.id. destruct d as [n|]; [|reflexivity].
    specialize (Hd n eq_refl). unfold trunc_div. rewrite Z.quot_div_nonneg by lia.
    assert (0 <= n / freq) by (apply Z.div_pos; lia). destruct (Z.ltb_spec (n / freq) 0); [lia|reflexivity].
  Qed.

  (** the chunks are one second each and put together they are the samples, as long
      as the error of the rounded sample period stays below one sample *)
  Lemma ogg_iter_total sr (samples : list A) :
    0 < sr <= 10 ^ 12 ->
    let freq := 10 ^ 12 / sr in let n := 10 ^ 12 / freq in
    (Zlen samples / n) * (10 ^ 12 mod freq) < freq ->
    exists fuel0, forall fuel, (fuel0 <= fuel)%nat ->
      exists front r, ogg_iter_chunks fuel sr samples = Ok (front ++ [r]) /\
        concat front ++ r = samples /\ Forall (fun c => Zlen c = n) front /\ Zlen r < n.
  Proof.
    intros Hs freq n Hdrift.
    assert (Hf : 0 < freq) by (unfold freq; apply Z.div_str_pos; lia).
    assert (Hfl : freq <= 10 ^ 12) by (unfold freq; apply Z.div_le_upper_bound; lia).
    assert (Hn : 0 < n) by (unfold n; apply Z.div_str_pos; lia).
    assert (En : trunc_div second_ps (ogg_freq sr) = n).
    { unfold trunc_div, second_ps, ogg_freq. fold freq. rewrite Z.quot_div_nonneg by lia. reflexivity. }
    destruct (pieces_last (Z.to_nat n) samples ltac:(lia)) as [front [r [E [F R]]]].
    exists (S (length front)). intros fuel Hfuel.
    enough (G : forall front' k fuel, Forall (fun p => length p = Z.to_nat n) front' ->
              (length front' < fuel)%nat -> skipn (k * Z.to_nat n) samples = concat front' ++ r ->
              (k * Z.to_nat n <= length samples)%nat ->
              ogg_iter fuel sr samples (Z.of_nat k * second_ps) = Ok (front' ++ [r])).
    { exists front, r. split; [apply (G front 0%nat); [exact F|lia|exact E|lia]|].
      split; [symmetry; exact E|]. split; [|unfold Zlen; lia]. apply Forall_impl with (2 := F). intros p Hp. unfold Zlen. lia. }
    clear front F E fuel Hfuel. induction front' as [|p front' IH]; intros k fuel F Hfuel E Hk.
    - destruct fuel as [|fuel]; [lia|]. cbn [ogg_iter]. unfold ogg_get. rewrite (ogg_start sr (Z.of_nat k) Hs) by lia.
      rewrite En. unfold ogg_freq. fold freq. fold n.
      assert (Hz : Z.of_nat k * (10 ^ 12 mod freq) / freq = 0).
      { apply Z.div_small. pose proof (Z.mod_pos_bound (10 ^ 12) freq Hf).
        assert (Z.of_nat k <= Zlen samples / n) by (apply Z.div_le_lower_bound; unfold Zlen; nia). nia. }
      rewrite Hz, Z.add_0_r. unfold sf_read_at.
      assert (Hkn : Z.of_nat k * n <= Zlen samples) by (unfold Zlen; nia).
      destruct (Z.ltb_spec (Z.of_nat k * n) 0); [lia|]. destruct (Z.ltb_spec (Zlen samples) (Z.of_nat k * n)); [lia|].
      cbn [orb]. destruct (Z.ltb_spec n 0); [lia|]. cbn [bind].
      replace (Z.to_nat (Z.of_nat k * n)) with (k * Z.to_nat n)%nat by nia. rewrite E. cbn [concat app].
      rewrite (firstn_all2 r (Nat.lt_le_incl _ _ R)). destruct (Z.leb_spec n (Zlen r)) as [L|_]; [unfold Zlen in L; lia|]. reflexivity.
    - apply Forall_cons_iff in F. destruct F as [Hp F]. destruct fuel as [|fuel]; [cbn in Hfuel; lia|].
      assert (Lk : (S k * Z.to_nat n <= length samples)%nat).
      { apply (f_equal (@length A)) in E. rewrite skipn_length in E. cbn [concat] in E. rewrite !app_length in E. nia. }
      cbn [ogg_iter]. unfold ogg_get. rewrite (ogg_start sr (Z.of_nat k) Hs) by lia.
      rewrite En. unfold ogg_freq. fold freq. fold n.
      assert (Hz : Z.of_nat k * (10 ^ 12 mod freq) / freq = 0).
      { apply Z.div_small. pose proof (Z.mod_pos_bound (10 ^ 12) freq Hf).
        assert (Z.of_nat k <= Zlen samples / n) by (apply Z.div_le_lower_bound; unfold Zlen; nia). nia. }
      rewrite Hz, Z.add_0_r. unfold sf_read_at.
      assert (Hkn : Z.of_nat k * n <= Zlen samples) by (unfold Zlen; nia).
      destruct (Z.ltb_spec (Z.of_nat k * n) 0); [lia|]. destruct (Z.ltb_spec (Zlen samples) (Z.of_nat k * n)); [lia|].
      cbn [orb]. destruct (Z.ltb_spec n 0); [lia|]. cbn [bind].
      replace (Z.to_nat (Z.of_nat k * n)) with (k * Z.to_nat n)%nat by nia. rewrite E. cbn [concat].
      rewrite <- app_assoc. rewrite <- Hp, firstn_app, firstn_all, Nat.sub_diag. cbn [firstn]. rewrite app_nil_r.
      destruct (Z.leb_spec n (Zlen p)) as [_|L]; [|unfold Zlen in L; lia].
      replace (Z.of_nat k * second_ps + second_ps) with (Z.of_nat (S k) * second_ps) by (rewrite Nat2Z.inj_succ; ring).
      rewrite (IH (S k) fuel F); [reflexivity|cbn in Hfuel; lia| |exact Lk].
      replace (S k * Z.to_nat n)%nat with (k * Z.to_nat n + Z.to_nat n)%nat by lia.
      rewrite <- skipn_skipn', E. cbn [concat]. rewrite <- app_assoc, <- Hp, skipn_app, skipn_all, Nat.sub_diag. reflexivity.
  Qed.
  (** at 44.1 kHz a sample is skipped after 535 seconds *)
  Lemma ogg_iter_drift_refuted (samples : list A) : 536 * 44100 <= Zlen samples ->
    ogg_get 44100 samples (534 * second_ps) (Some second_ps) = Ok (firstn (Z.to_nat 44100) (skipn (Z.to_nat (534 * 44100)) samples)) /\
    ogg_get 44100 samples (535 * second_ps) (Some second_ps) = Ok (firstn (Z.to_nat 44100) (skipn (Z.to_nat (535 * 44100 + 1)) samples)).
  Proof.
    intros H. unfold ogg_get, second_ps.
    replace (trunc_div (10 ^ 12) (ogg_freq 44100)) with 44100 by (vm_compute; reflexivity).
    replace (trunc_div (534 * 10 ^ 12) (ogg_freq 44100)) with (534 * 44100) by (vm_compute; reflexivity).
    replace (trunc_div (535 * 10 ^ 12) (ogg_freq 44100)) with (535 * 44100 + 1) by (vm_compute; reflexivity).
    unfold sf_read_at. split.
    - destruct (Z.ltb_spec (Zlen samples) (534 * 44100)); [lia|]. reflexivity.
    - destruct (Z.ltb_spec (Zlen samples) (535 * 44100 + 1)); [lia|]. reflexivity.
  Qed.
  (** at rates that divide 10^12 there is no drift *)
  Lemma ogg_exact_rate sr : 0 < sr -> 10 ^ 12 mod sr = 0 -> 10 ^ 12 mod (10 ^ 12 / sr) = 0 /\ 10 ^ 12 / (10 ^ 12 / sr) = sr.
  Proof.
    intros Hs Hm. assert (E : 10 ^ 12 = sr * (10 ^ 12 / sr)) by (pose proof (Z.div_mod (10 ^ 12) sr ltac:(lia)); lia).
    assert (Hq : 0 < 10 ^ 12 / sr) by nia. set (q := 10 ^ 12 / sr) in *. rewrite E. split.
    - apply Z.mod_mul. lia.
    - apply Z.div_mul. lia.
  Qed.

  (** ** C53: what reaches the encoder *)
  Lemma encode_total fmt_ogg sps (samples : list A) : 0 < sps ->
    exists chunks, encode_writes fmt_ogg sps samples = Ok chunks /\ concat chunks = samples /\
      (fmt_ogg = true -> forall c, In c chunks -> 0 < Zlen c <= 20 * sps) /\
      (fmt_ogg = true -> forall k c, nth_error chunks k = Some c -> (S k < length chunks)%nat -> Zlen c = 20 * sps) /\
      (fmt_ogg = false -> chunks = [samples]).
  Proof.
    intros Hs. unfold encode_writes. destruct fmt_ogg.
    - unfold ogg_writes. destruct (range_pieces (sps * 20) samples ltac:(lia)) as [is [E1 E2]]. rewrite E1. cbn [bind].
      eexists. split; [reflexivity|]. rewrite E2. assert (Hc : (0 < Z.to_nat (sps * 20))%nat) by lia.
      split; [apply pieces_concat; exact Hc|]. split; [|split; [|discriminate]].
      + intros _ c Hin. pose proof (pieces_sizes _ _ _ Hc Hin). unfold Zlen. lia.
      + intros _ k c Hk Hl. pose proof (pieces_full _ _ _ _ Hc Hk Hl). unfold Zlen. lia.
    - exists [samples]. split; [reflexivity|]. split; [cbn; apply app_nil_r|]. repeat split; discriminate || reflexivity.
  Qed.
End OggFacts.
Example ogg_iter_ex : ogg_iter_chunks 10 2 [1; 2; 3; 4; 5]%nat = Ok [[1; 2]; [3; 4]; [5]]%nat /\
  ogg_iter_chunks 10 2 [1; 2; 3; 4]%nat = Ok [[1; 2]; [3; 4]; []]%nat.
Proof. split; reflexivity. Qed.
Example encode_ex : encode_writes true 1 (repeat 7%nat 45) = Ok [repeat 7%nat 20; repeat 7%nat 20; repeat 7%nat 5].
Proof. reflexivity. Qed.

(** ** C62: resampled lengths *)
Lemma round_bound p q : 0 < q -> 2 * Z.abs (round_half_even p q * q - p) <= q.
Proof.
  intros Hq. unfold round_half_even. pose proof (Z.div_mod p q ltac:(lia)) as M. pose proof (Z.mod_pos_bound p q Hq) as B.
  set (f := p / q) in *. set (r := p mod q) in *. replace (p - f * q) with r by lia.
  destruct (Z.ltb_spec (2 * r) q); [replace (f * q - p) with (- r) by lia; lia|].
  destruct (Z.ltb_spec q (2 * r)); [replace ((f + 1) * q - p) with (q - r) by lia; lia|].
  destruct (Z.even f); [replace (f * q - p) with (- r) by lia; lia|replace ((f + 1) * q - p) with (q - r) by lia; lia].
Qed.
Definition total (l : list Z) : Z := fold_right Z.add 0 l.
(** the length of the output is off by at most half a sample per chunk *)
Lemma resample_total p q lens : 0 < q ->
  2 * Z.abs (total (map (resample_length p q) lens) * q - total lens * p) <= Zlen lens * q.
Proof.
  intros Hq. induction lens as [|n lens IH]; [unfold Zlen; cbn; lia|]. cbn [map total fold_right] in *. rewrite Zlen_cons.
  fold (total (map (resample_length p q) lens)) in *. fold (total lens) in *.
  pose proof (round_bound (n * p) q Hq) as B. unfold resample_length at 1. lia.
Qed.
(** exactly right when the ratio is an integer *)
Lemma resample_integer p lens : total (map (resample_length p 1) lens) = total lens * p.
Proof.
  pose proof (resample_total p 1 lens ltac:(lia)). induction lens as [|n lens IH]; [reflexivity|].
  cbn [map total fold_right] in *. fold (total (map (resample_length p 1) lens)) in *. fold (total lens) in *.
  rewrite IH by (apply resample_total; lia). pose proof (round_bound (n * p) 1 ltac:(lia)). unfold resample_length. lia.
Qed.
(** but it does depend on the chunking otherwise *)
Lemma resample_chunking_refuted : exists lens,
  total (map (resample_length 1 2) lens) <> resample_length 1 2 (total lens).
Proof. exists [1; 1; 1; 1]. vm_compute. discriminate. Qed.

(** ** C54 *)
Local Open Scope R_scope.
Lemma mono_of_mono x : to_mono (Mono x) = Mono x.
Proof. reflexivity. Qed.
Lemma stereo_of_stereo rows : to_stereo (Multi 2 rows) = Multi 2 rows.
Proof. reflexivity. Qed.
Lemma stereo_channels x : channels (to_stereo (Mono x)) = 2%nat /\ n_samples (to_stereo (Mono x)) = length x /\
  wf_samples (to_stereo (Mono x)) /\
  forall i c, (c < 2)%nat -> sample_at (to_stereo (Mono x)) i c = nth_error x i.
Proof.
  split; [reflexivity|]. cbn [to_stereo channels Nat.eqb n_samples sample_at wf_samples]. unfold transpose.
  split; [rewrite map_length, seq_length; reflexivity|]. split.
  - rewrite Forall_forall. intros r Hr. apply in_map_iff in Hr. destruct Hr as [j [<- _]]. reflexivity.
  - intros i c Hc. rewrite nth_error_map. destruct (Nat.lt_ge_cases i (length x)) as [L|L].
    + rewrite (nth_error_nth' (seq 0 (length x)) 0%nat) by (rewrite seq_length; exact L). rewrite seq_nth by exact L. cbn [option_map].
      rewrite (nth_error_nth' x 0 L). destruct c as [|[|c]]; [reflexivity|reflexivity|lia].
    + rewrite (proj2 (nth_error_None (seq 0 (length x)) i)) by (rewrite seq_length; exact L).
      rewrite (proj2 (nth_error_None x i)) by exact L. reflexivity.
Qed.
(** mono of several channels is a quarter of their sum *)
Lemma mono_value c rows : c <> 1%nat -> wf_samples (Multi c rows) ->
  channels (to_mono (Multi c rows)) = 1%nat /\ n_samples (to_mono (Multi c rows)) = length rows /\
  forall i r, nth_error rows i = Some r -> sample_at (to_mono (Multi c rows)) i 0 = Some (rsum r / 4).
Proof.
  intros Hc Hwf. unfold to_mono. cbn [channels]. destruct (Nat.eqb_spec c 1) as [E|_]; [contradiction|].
  cbn [channels n_samples sample_at]. split; [reflexivity|]. split; [apply map_length|].
  intros i r H. rewrite nth_error_map, H. cbn [option_map]. f_equal. field.
Qed.
(** a signal made stereo and then mono again comes back at half its level *)
Lemma mono_of_stereo x : to_mono (to_stereo (Mono x)) = Mono (map (fun v => v / 2) x).
Proof.
  unfold to_stereo. cbn [channels Nat.eqb]. unfold to_mono. cbn [channels Nat.eqb]. f_equal. unfold transpose. rewrite map_map.
  apply nth_error_ext. intros i. rewrite !nth_error_map. destruct (Nat.lt_ge_cases i (length x)) as [L|L].
  - rewrite (nth_error_nth' (seq 0 (length x)) 0%nat) by (rewrite seq_length; exact L). rewrite seq_nth by exact L.
    rewrite (nth_error_nth' x 0 L). cbn [option_map map Nat.add rsum fold_right]. f_equal. field.
  - rewrite (proj2 (nth_error_None (seq 0 (length x)) i)) by (rewrite seq_length; exact L).
    rewrite (proj2 (nth_error_None x i)) by exact L. reflexivity.
Qed.
Lemma mono_of_stereo_refuted : exists x, to_mono (to_stereo (Mono x)) <> Mono x.
Proof. exists [1]. rewrite mono_of_stereo. cbn [map]. intros H. injection H. lra. Qed.
(** more than two channels are not refused by [stereo]: channels become samples *)
Lemma stereo_of_three_refuted : exists rows, wf_samples (Multi 3 rows) /\ n_samples (Multi 3 rows) = 5%nat /\
  channels (to_stereo (Multi 3 rows)) = 10%nat /\ n_samples (to_stereo (Multi 3 rows)) = 3%nat.
Proof.
  exists (repeat [0; 0; 0] 5). cbn. repeat split. repeat constructor.
Qed.
(** the same happens to one channel stored with two axes *)
Lemma stereo_of_one_column_refuted : exists rows, wf_samples (Multi 1 rows) /\ n_samples (Multi 1 rows) = 5%nat /\
  channels (to_stereo (Multi 1 rows)) = 10%nat /\ n_samples (to_stereo (Multi 1 rows)) = 1%nat.
Proof. exists (repeat [0] 5). cbn. repeat split. repeat constructor. Qed.

Definition all_equal (v : R) (s : samples) : Prop :=
  match s with Mono x => Forall (eq v) x | Multi _ rows => Forall (Forall (eq v)) rows end.
Lemma repeat_Forall {B} (P : B -> Prop) x n : P x -> Forall P (repeat x n).
Proof. intros H. induction n; constructor; assumption. Qed.
(** silence is silent, and has the right shape when it is longer than one sample *)
Lemma silence_silent f d c s : silence f d c = Ok s -> all_equal 0 s.
Proof.
  unfold silence, silence_filled. destruct (_ <? 0)%Z; [discriminate|].
  destruct (Z.to_nat _) as [|[|m]]; destruct c as [|[|c]]; intros H; try discriminate; injection H as <-; cbn [all_equal];
    repeat (apply repeat_Forall || constructor).
Qed.
Lemma silence_shape f d c : (0 < f)%Z -> (2 * f <= d)%Z -> (1 <= c)%nat ->
  exists s, silence f d c = Ok s /\ channels s = c /\ n_samples s = Z.to_nat (d / f).
Proof.
  intros Hf Hd Hc. unfold silence, silence_filled, trunc_div. rewrite Z.quot_div_nonneg by lia.
  assert (Hn : (2 <= d / f)%Z) by (apply Z.div_le_lower_bound; lia).
  destruct (Z.ltb_spec (d / f) 0); [lia|]. destruct (Z.to_nat (d / f)) as [|[|m]] eqn:E; [lia|lia|].
  destruct c as [|[|c]]; [lia| |]; eexists; (split; [reflexivity|]); cbn [channels n_samples]; rewrite repeat_length; split; reflexivity.
Qed.
(** one sample of silence is an error (mono) or loses its time axis (stereo) *)
Lemma silence_one_sample_refuted : silence 10 10 1 = Raise ValueError /\ silence 10 10 2 = Ok (Mono [0; 0]).
Proof. split; reflexivity. Qed.
(** [silence_like] is not silent at all *)
Lemma silence_like_loud s f d x : silence_like s f d = Ok x -> all_equal 1 x.
Proof.
  unfold silence_like. destruct (silence f d (channels s)) as [y|e]; [|discriminate]. cbn [bind]. intros H. injection H as <-.
  destruct y as [l|c rows]; cbn [all_equal].
  - induction l; constructor; [reflexivity|assumption].
  - induction rows as [|r rows IH]; constructor; [|exact IH]. induction r; constructor; [reflexivity|assumption].
Qed.
Lemma silence_like_refuted : exists s x, silence_like s 1 2 = Ok x /\ ~ all_equal 0 x.
Proof. exists (Mono []), (Mono [1; 1]). split; [reflexivity|]. intros H. apply Forall_inv in H. symmetry in H. exact (R1_neq_R0 H). Qed.
(** padding appends silence to a mono signal *)
Lemma pad_mono x f d : (0 < f)%Z -> (2 * f <= d)%Z ->
  pad_with_silence (Mono x) f d = Ok (Mono (x ++ repeat 0 (Z.to_nat (d / f)))).
Proof.
  intros Hf Hd. unfold pad_with_silence, silence, silence_filled, trunc_div. rewrite Z.quot_div_nonneg by lia.
  assert (Hn : (2 <= d / f)%Z) by (apply Z.div_le_lower_bound; lia).
  destruct (Z.ltb_spec (d / f) 0); [lia|]. destruct (Z.to_nat (d / f)) as [|[|m]] eqn:E; [lia|lia|]. reflexivity.
Qed.
Lemma pad_stereo_refuted rows f d : exists e, pad_with_silence (Multi 2 rows) f d = Raise e.
Proof.
  unfold pad_with_silence. destruct (silence f d 1) as [[x|c r]|e]; cbn [bind]; eexists; reflexivity.
Qed.
Example mono_ex : to_mono (Multi 2 [[1; 3]; [0; 2]]) = Mono [1; 1 / 2].
Proof. unfold to_mono. cbn. f_equal. f_equal; [field|f_equal; field]. Qed.
