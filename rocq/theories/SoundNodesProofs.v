(** Proofs about OggVorbis, Resampler and MetaData. *)
From Coq Require Import ZArith String Lia.
From Verif Require Import PyBase PyFacts PyMore PyRange Time Audio AudioProofs SoundNodes.
Local Open Scope Z_scope.

(** ** OggVorbis *)
Section OggFacts.
  Context {A F : Type} (zero : A) (decode : list A -> list F) (is_ogg : list A -> bool) (rate : list A -> Z) (chunk_size : list A -> Z)
          (enc_open : list A) (enc_write : list (list F) -> list F -> list A) (enc_close : list (list F) -> list A).
  (** more bytes only add frames *)
  Hypothesis decode_monotone : forall a b, exists t, decode (a ++ b) = (decode a ++ t)%list.
  Notation node := (ogg_node zero decode is_ogg rate chunk_size enc_open enc_write enc_close).

  (** the file the encoder makes of these pieces *)
  Fixpoint written_bytes (before ws : list (list F)) : list A :=
    match ws with [] => [] | w :: ws' => (enc_write before w ++ written_bytes (before ++ [w]) ws')%list end.
  Definition ogg_file (ws : list (list F)) : list A := (enc_open ++ written_bytes [] ws ++ enc_close ws)%list.

  Lemma written_snoc ws : forall b w, written_bytes b (ws ++ [w]) = (written_bytes b ws ++ enc_write (b ++ ws) w)%list.
  Proof. induction ws as [|v ws IH]; intros b w; cbn [List.app written_bytes]; [rewrite !app_nil_r; reflexivity|]. rewrite IH, <- !app_assoc. reflexivity. Qed.

  (** everything encoded so far has been handed on or waits in the buffer; everything read was written *)
  Definition og_inv (lim : Z) (s : ogg_state A F) (out : list A) : Prop :=
    mb_ok (o_out s) /\ (out ++ unread (o_out s))%list = (enc_open ++ written_bytes [] (o_written s))%list /\
    (o_read s <= length (decode (o_in s)))%nat /\ List.concat (o_written s) = firstn (o_read s) (decode (o_in s)) /\
    Forall (fun w => 0 < Zlen w <= lim) (o_written s).
  (** the same, with the frames [pending] read but not written *)
  Definition og_pending (lim : Z) (s : ogg_state A F) (out : list A) (pending : list F) : Prop :=
    mb_ok (o_out s) /\ (out ++ unread (o_out s))%list = (enc_open ++ written_bytes [] (o_written s))%list /\
    (o_read s <= length (decode (o_in s)))%nat /\ (List.concat (o_written s) ++ pending)%list = firstn (o_read s) (decode (o_in s)) /\
    Forall (fun w => 0 < Zlen w <= lim) (o_written s).
  Definition same_but_out (s s' : ogg_state A F) : Prop := o_in s' = o_in s /\ o_read s' = o_read s /\ o_chunk s' = o_chunk s /\ o_rate s' = o_rate s.

  Lemma sf_writes_ok lim pieces : forall s out pending, og_pending lim s out (List.concat pieces ++ pending) -> Forall (fun w => 0 < Zlen w <= lim) pieces ->
    exists s', sf_writes zero enc_write s pieces = Ok s' /\ og_pending lim s' out pending /\ same_but_out s s'.
  Proof.
    induction pieces as [|p ps IH]; intros s out pending H Fp; cbn [sf_writes].
    - exists s. split; [reflexivity|]. split; [exact H|repeat split].
    - apply Forall_cons_iff in Fp. destruct Fp as [Hp Fp]. destruct H as (H1 & H2 & H3 & H4 & H5). unfold sf_write.
      destruct (mb_write_spec zero (o_out s) (enc_write (o_written s) p) H1) as (m' & E & K1 & K2 & _). rewrite E. cbn [bind fst].
      set (s1 := {| o_in := o_in s; o_read := o_read s; o_chunk := o_chunk s; o_rate := o_rate s; o_out := m'; o_written := (o_written s ++ [p])%list |}).
      destruct (IH s1 out pending) as (s' & E' & I' & (B1 & B2 & B3 & B4)).
      + unfold og_pending, s1. cbn [o_out o_written o_read o_in]. split; [exact K1|]. split; [rewrite K2, app_assoc, H2, written_snoc, <- !app_assoc; reflexivity|]. split; [exact H3|]. split; [|apply Forall_app; split; [exact H5|repeat constructor; lia]].
        rewrite concat_app. cbn [List.concat]. rewrite app_nil_r, <- H4. cbn [List.concat]. rewrite <- !app_assoc. reflexivity.
      + exact Fp.
      + exists s'. split; [exact E'|]. split; [exact I'|]. unfold s1 in *. cbn [o_in o_read o_chunk o_rate] in *. repeat split; assumption.
  Qed.
  Lemma transcode_ok lim fuel : forall s out, og_inv lim s out -> 0 < o_chunk s -> 0 < o_rate s -> lim = 20 * o_rate s -> (length (decode (o_in s)) - o_read s < fuel)%nat ->
    exists s', transcode zero decode enc_write fuel s = Ok s' /\ og_inv lim s' out /\ o_in s' = o_in s /\ o_chunk s' = o_chunk s /\ o_rate s' = o_rate s /\ o_read s' = length (decode (o_in s)).
  Proof.
    induction fuel as [|f IH]; intros s out H Hc Hr Hl Hf; [lia|]. cbn [transcode]. destruct H as (H1 & H2 & H3 & H4 & H5). unfold sf_read.
    remember (firstn (Z.to_nat (o_chunk s)) (skipn (o_read s) (decode (o_in s)))) as d eqn:Dd.
    set (s1 := {| o_in := o_in s; o_read := o_read s + length d; o_chunk := o_chunk s; o_rate := o_rate s; o_out := o_out s; o_written := o_written s |}).
    assert (Ld : length d = Nat.min (Z.to_nat (o_chunk s)) (length (decode (o_in s)) - o_read s)) by (rewrite Dd, firstn_length, skipn_length; reflexivity).
    assert (P1 : og_pending lim s1 out d).
    { unfold og_pending, s1. cbn [o_out o_written o_read o_in]. split; [exact H1|]. split; [exact H2|]. split; [lia|]. split; [|exact H5]. rewrite firstn_add, H4. f_equal. rewrite Dd at 1. destruct (Nat.le_ge_cases (Z.to_nat (o_chunk s)) (length (decode (o_in s)) - o_read s)).
      - f_equal. lia.
      - rewrite !firstn_all2; [reflexivity| |]; rewrite skipn_length; lia. }
    destruct d as [|x d'].
    - exists s1. split; [reflexivity|]. destruct P1 as (Q1 & Q2 & Q3 & Q4 & Q5). rewrite app_nil_r in Q4. split; [unfold og_inv; auto|]. unfold s1. cbn [o_in o_chunk o_rate o_read length]. cbn [length] in Ld. split; [reflexivity|]. split; [reflexivity|]. split; [reflexivity|lia].
    - destruct (encode_total true (o_rate s) (x :: d') Hr) as (pieces & E & Ec & Es & _). unfold encode_writes in E. rewrite E. cbn [bind].
      destruct (sf_writes_ok lim pieces s1 out []) as (s2 & E2 & I2 & (B1 & B2 & B3 & B4)).
      { rewrite app_nil_r, Ec. exact P1. }
      { apply Forall_forall. intros w Hw. specialize (Es eq_refl w Hw). lia. }
      rewrite E2. cbn [bind]. destruct I2 as (I1 & I2 & I3 & I4 & I5). rewrite app_nil_r in I4. unfold s1 in B1, B2, B3, B4. cbn [o_in o_read o_chunk o_rate] in B1, B2, B3, B4. assert (Lp : (0 < length (x :: d'))%nat) by (cbn; lia).
      destruct (IH s2 out) as (s3 & E3 & J1 & J2 & J3 & J4 & J5); [unfold og_inv; auto|lia|lia|lia|rewrite B1, B2; lia|].
      exists s3. split; [exact E3|]. split; [exact J1|]. rewrite J2, J3, J4, J5, B1, B3, B4. auto.
  Qed.
  Lemma dequeue_ok lim fuel s out : og_inv lim s out -> 0 < o_chunk s -> 0 < o_rate s -> lim = 20 * o_rate s -> (length (decode (o_in s)) - o_read s < fuel)%nat ->
    exists s' bytes, ogg_dequeue zero decode enc_write enc_close fuel false (OEncode s) = Ok (OEncode s', Some bytes) /\ og_inv lim s' (out ++ bytes) /\ unread (o_out s') = [] /\
      o_in s' = o_in s /\ o_chunk s' = o_chunk s /\ o_rate s' = o_rate s /\ o_read s' = length (decode (o_in s)).
  Proof.
    intros H Hc Hr Hl Hf. destruct (transcode_ok lim fuel s out H Hc Hr Hl Hf) as (s1 & E & (H1 & H2 & H3 & H4 & H5) & B1 & B2 & B3 & B4). cbn [ogg_dequeue]. rewrite E. cbn [bind].
    pose proof (mb_read_spec (o_out s1) (-1) H1) as M. cbn [Z.ltb Z.compare] in M. destruct (mb_read (o_out s1) (-1)) as [m b]. cbn [fst snd] in M. destruct M as (M1 & M2 & M3). rewrite firstn_all in M1. rewrite skipn_all in M3.
    do 2 eexists. split; [reflexivity|]. unfold og_inv. cbn [o_out o_written o_read o_in o_chunk o_rate]. split; [|rewrite B1, B2, B3, B4; auto]. split; [exact M2|]. split; [rewrite M3, app_nil_r, M1; exact H2|]. split; [exact H3|]. split; [exact H4|exact H5].
  Qed.
  Lemma feed_ok lim fuel bs : forall s out, og_inv lim s out -> 0 < o_chunk s -> 0 < o_rate s -> lim = 20 * o_rate s -> (length (decode (o_in s ++ List.concat bs)) < fuel)%nat ->
    exists s' outs, ogg_feed zero decode is_ogg rate chunk_size enc_open enc_write enc_close fuel (OEncode s) bs = Ok (OEncode s', outs) /\ og_inv lim s' (out ++ List.concat outs) /\
      o_in s' = (o_in s ++ List.concat bs)%list /\ o_chunk s' = o_chunk s /\ o_rate s' = o_rate s /\ length outs = length bs.
  Proof.
    induction bs as [|b bs IH]; intros s out H Hc Hr Hl Hf; cbn [ogg_feed].
    - exists s, []. split; [reflexivity|]. cbn [List.concat]. rewrite !app_nil_r. auto.
    - cbn [ogg_enqueue bind]. set (s1 := {| o_in := (o_in s ++ b)%list; o_read := o_read s; o_chunk := o_chunk s; o_rate := o_rate s; o_out := o_out s; o_written := o_written s |}).
      assert (I1 : og_inv lim s1 out).
      { destruct H as (H1 & H2 & H3 & H4 & H5). destruct (decode_monotone (o_in s) b) as [t Et]. unfold og_inv, s1. cbn [o_out o_written o_read o_in]. rewrite Et, app_length. split; [exact H1|]. split; [exact H2|]. split; [lia|]. split; [|exact H5]. rewrite H4, firstn_app. replace (o_read s - length (decode (o_in s)))%nat with 0%nat by lia. cbn [firstn]. now rewrite app_nil_r. }
      assert (Hb : (length (decode (o_in s ++ b)) <= length (decode (o_in s ++ List.concat (b :: bs))))%nat).
      { cbn [List.concat]. rewrite app_assoc. destruct (decode_monotone (o_in s ++ b) (List.concat bs)) as [t ->]. rewrite app_length. lia. }
      destruct (dequeue_ok lim fuel s1 out I1) as (s2 & bytes & E & I2 & _ & B1 & B2 & B3 & _); [exact Hc|exact Hr|exact Hl|unfold s1; cbn [o_in o_read]; lia|].
      rewrite E. cbn [bind fst snd]. unfold s1 in B1, B2, B3. cbn [o_in o_chunk o_rate] in B1, B2, B3.
      destruct (IH s2 (out ++ bytes)%list I2) as (s3 & outs & E3 & I3 & C1 & C2 & C3 & C4); [lia|lia|lia|rewrite B1, <- app_assoc; exact Hf|].
      rewrite E3. cbn [bind fst snd emitted List.app]. exists s3, (bytes :: outs). split; [reflexivity|]. cbn [List.concat length]. rewrite app_assoc. split; [exact I3|]. rewrite C1, C2, C3, C4, B1, B2, B3, <- app_assoc. auto.
  Qed.
  (** every frame of the input reaches the encoder once, in order, in pieces of at most 20
      seconds, and the chunks that come out are the encoder's file *)
  Theorem ogg_transcodes b bs fuel : is_ogg b = false -> 0 < chunk_size b -> 0 < rate b -> (length (decode (List.concat (b :: bs))) < fuel)%nat ->
    exists s outs, node fuel (b :: bs) = Ok (OEncode s, outs) /\
      List.concat (o_written s) = decode (List.concat (b :: bs)) /\
      (forall w, In w (o_written s) -> 0 < Zlen w <= 20 * rate b) /\
      List.concat outs = ogg_file (o_written s) /\ length outs = S (length (b :: bs)).
  Proof.
    intros Ho Hc Hr Hf. unfold ogg_node. cbn [ogg_feed ogg_enqueue]. rewrite Ho.
    destruct (mb_write_spec zero (membuf_new (A := A) (Zlen b) (10 * 1024 * 1024)) enc_open) as (m & E & K1 & K2 & _); [unfold mb_ok; cbn; lia|]. rewrite E. cbn [bind fst].
    set (s0 := {| o_in := b; o_read := 0; o_chunk := chunk_size b; o_rate := rate b; o_out := m; o_written := [] |}).
    assert (I0 : og_inv (20 * rate b) s0 []).
    { unfold og_inv, s0. cbn [o_out o_written o_read o_in List.app written_bytes List.concat firstn]. split; [exact K1|]. split; [rewrite K2, app_nil_r; reflexivity|]. split; [lia|]. split; [reflexivity|constructor]. }
    assert (Hb : (length (decode b) <= length (decode (List.concat (b :: bs))))%nat) by (cbn [List.concat]; destruct (decode_monotone b (List.concat bs)) as [t ->]; rewrite app_length; lia).
    destruct (dequeue_ok (20 * rate b) fuel s0 [] I0) as (s1 & bytes & E1 & I1 & _ & B1 & B2 & B3 & _); [exact Hc|exact Hr|reflexivity|unfold s0; cbn [o_in o_read]; lia|].
    rewrite E1. cbn [bind fst snd]. unfold s0 in B1, B2, B3. cbn [o_in o_chunk o_rate] in B1, B2, B3. cbn [List.app] in I1.
    destruct (feed_ok (20 * rate b) fuel bs s1 bytes I1) as (s2 & outs & E2 & I2 & C1 & C2 & C3 & C4); [lia|lia|lia|rewrite B1; exact Hf|]. rewrite E2. cbn [bind fst snd emitted].
    rewrite B1 in C1. change (b ++ List.concat bs)%list with (List.concat (b :: bs)) in C1.
    destruct (transcode_ok (20 * rate b) fuel s2 (bytes ++ List.concat outs)%list I2) as (s3 & E3 & (J1 & J2 & J3 & J4 & J5) & D1 & D2 & D3 & D4); [lia|lia|lia|rewrite C1; lia|].
    cbn [ogg_dequeue]. rewrite E3. cbn [bind]. destruct (mb_write_spec zero (o_out s3) (enc_close (o_written s3)) J1) as (m3 & E4 & L1 & L2 & _). rewrite E4. cbn [bind fst].
    pose proof (mb_read_spec m3 (-1) L1) as M. cbn [Z.ltb Z.compare] in M. destruct (mb_read m3 (-1)) as [m4 last]. cbn [fst snd] in M. destruct M as (M1 & _). rewrite firstn_all in M1.
    do 2 eexists. split; [reflexivity|]. cbn [o_written]. split; [rewrite J4, D4, D1, C1; apply firstn_all|]. split; [intros w Hw; rewrite Forall_forall in J5; now apply J5|]. split.
    - rewrite concat_app. cbn [fst snd emitted List.concat List.app]. rewrite app_nil_r. unfold ogg_file. rewrite (app_assoc enc_open), <- J2, <- !app_assoc, M1, L2. reflexivity.
    - rewrite app_length. cbn [fst snd emitted length List.app]. lia.
  Qed.
  (** an Ogg stream passes through untouched, chunk by chunk *)
  Theorem ogg_passes b bs fuel : is_ogg b = true -> exists o, node fuel (b :: bs) = Ok (o, b :: bs).
  Proof.
    intros Ho. unfold ogg_node. cbn [ogg_feed ogg_enqueue]. rewrite Ho. cbn [bind ogg_dequeue fst snd emitted].
    assert (G : ogg_feed zero decode is_ogg rate chunk_size enc_open enc_write enc_close fuel (OPass None) bs = Ok (OPass None, bs)) by (induction bs as [|c cs IH]; cbn [ogg_feed ogg_enqueue bind ogg_dequeue fst snd emitted]; [reflexivity|rewrite IH; reflexivity]).
    rewrite G. cbn [bind fst snd ogg_dequeue emitted List.app]. rewrite app_nil_r. eexists. reflexivity.
  Qed.
  (** nothing at all: the end of the stream finds no decoder *)
  Theorem ogg_nothing_refuted fuel : node fuel [] = Raise AttributeError.
  Proof. reflexivity. Qed.
  (** an encoder that does not notice where the pieces end makes the same file of every chunking
      whose first chunk tells SoundFile the same *)
  Theorem ogg_chunking b bs c cs fuel : (forall ws ws', List.concat ws = List.concat ws' -> ogg_file ws = ogg_file ws') ->
    List.concat (b :: bs) = List.concat (c :: cs) -> is_ogg b = is_ogg c -> 0 < chunk_size b -> 0 < chunk_size c -> 0 < rate b -> 0 < rate c -> (length (decode (List.concat (b :: bs))) < fuel)%nat ->
    exists o outs o' outs', node fuel (b :: bs) = Ok (o, outs) /\ node fuel (c :: cs) = Ok (o', outs') /\ List.concat outs = List.concat outs'.
  Proof.
    intros He Heq Ho Hb Hc Rb Rc Hf. destruct (is_ogg b) eqn:Eb.
    - destruct (ogg_passes b bs fuel Eb) as (o & E). destruct (ogg_passes c cs fuel (eq_sym Ho)) as (o' & E'). exists o, (b :: bs), o', (c :: cs). auto.
    - destruct (ogg_transcodes b bs fuel Eb Hb Rb Hf) as (s & outs & E & W & _ & O & _). rewrite Heq in Hf. destruct (ogg_transcodes c cs fuel (eq_sym Ho) Hc Rc Hf) as (s' & outs' & E' & W' & _ & O' & _).
      exists (OEncode s), outs, (OEncode s'), outs'. split; [exact E|]. split; [exact E'|]. rewrite O, O'. apply He. rewrite W, W', Heq. reflexivity.
  Qed.
End OggFacts.
(** frames of two bytes; an encoder that writes each frame's sum, with a byte for every piece *)
Fixpoint pairs (l : list Z) : list Z := match l with a :: b :: r => (a + b) :: pairs r | _ => [] end.
Lemma pairs_monotone b : forall n a, (length a <= n)%nat -> exists t, pairs (a ++ b) = (pairs a ++ t)%list.
Proof. induction n as [|n IH]; intros [|x [|y a]] H; cbn [length] in H; try lia; try (eexists; reflexivity). destruct (IH a ltac:(lia)) as [t E]. exists t. cbn [List.app pairs]. rewrite E. reflexivity. Qed.
Example ogg_example :
  exists s outs, ogg_node 0 pairs (fun b => match b with 79 :: _ => true | _ => false end) (fun _ => 1) (fun _ => 30) [1] (fun _ w => 2 :: w) (fun ws => [Z.of_nat (length ws)]) 100 [[1; 2; 3]; [4; 5]; [6]]
    = Ok (OEncode s, outs) /\ List.concat (o_written s) = [3; 7; 11] /\ length outs = 4%nat.
Proof.
  destruct (ogg_transcodes 0 pairs (fun b => match b with 79 :: _ => true | _ => false end) (fun _ => 1) (fun _ => 30) [1] (fun _ w => 2 :: w) (fun ws => [Z.of_nat (length ws)])
    (fun a b => pairs_monotone b _ a (le_n _)) [1; 2; 3] [[4; 5]; [6]] 100) as (s & outs & E & W & _ & _ & N); [reflexivity|lia|lia|cbn; lia|]. exists s, outs. split; [exact E|]. split; [exact W|exact N].
Qed.
