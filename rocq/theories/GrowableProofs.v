(** Property C05. *)
From Verif Require Import PyBase PyFacts Growable.

(** What the caller added, in order. *)
Definition added {A} (o : op A) : list A :=
  match o with Append x => [x] | Extend xs => xs end.

Lemma firstn_app_exact {A} (l m : list A) n : length l = n -> firstn n (l ++ m) = l.
Proof. intros <-. rewrite firstn_app, Nat.sub_diag, firstn_all. simpl. apply app_nil_r. Qed.

Lemma set_item_ok {A} (d : list (option A)) pos x : pos < length d ->
  exists d', set_item d pos x = Ok d' /\ length d' = length d
          /\ firstn (pos + 1) d' = firstn pos d ++ [Some x].
Proof.
  intros H. unfold set_item. destruct (Nat.ltb_spec pos (length d)); [|lia].
  eexists. split; [reflexivity|]. split.
  - rewrite app_length, firstn_length_le by lia. cbn [length]. rewrite skipn_length. lia.
  - replace (firstn pos d ++ Some x :: skipn (S pos) d)
      with ((firstn pos d ++ [Some x]) ++ skipn (S pos) d)
      by (rewrite <- app_assoc; reflexivity).
    apply firstn_app_exact. rewrite app_length, firstn_length_le by lia. simpl. lia.
Qed.

Lemma step_ok {A} (g : growable A) (o : op A) :
  logical_size g <= physical_size g ->
  exists g', step g o = Ok g'
    /\ logical_size g' <= physical_size g'
    /\ logical_size g' = logical_size g + length (added o)
    /\ logical_data g' = logical_data g ++ map Some (added o)
    /\ physical_size g <= physical_size g'
    /\ g_num g' = g_num g /\ g_den g' = g_den g.
Proof.
  unfold logical_size, physical_size, logical_data. intros Hinv.
  destruct o as [x|xs]; cbn [step added].
  - unfold append. destruct (Nat.eq_dec (g_pos g) (length (g_data g))) as [He|Hne].
    + assert (Hfail : set_item (g_data g) (g_pos g) x = Raise IndexError).
      { unfold set_item. destruct (Nat.ltb_spec (g_pos g) (length (g_data g))); [lia|reflexivity]. }
      rewrite Hfail.
      assert (Ht : 1 <= tmp_size g).
      { unfold tmp_size. destruct (Nat.eqb_spec (Z.to_nat (Z.of_nat (physical_size g) * g_num g / g_den g)) 0); lia. }
      set (g1 := grow g None).
      assert (Hlen : length (g_data g1) = length (g_data g) + tmp_size g).
      { unfold g1, grow. cbn [g_data]. rewrite app_length, repeat_length. reflexivity. }
      assert (Hp : g_pos g1 = g_pos g) by reflexivity.
      destruct (set_item_ok (g_data g1) (g_pos g1) x ltac:(lia)) as [d' [Hd [Hl Hf]]].
      rewrite Hd. cbn [bind]. eexists. split; [reflexivity|]. cbn [set_data g_pos g_data g_num g_den].
      repeat split; try (simpl; lia).
      rewrite Hf, Hp. f_equal. unfold g1, grow. cbn [g_data].
      rewrite firstn_app. replace (g_pos g - length (g_data g)) with 0 by lia. simpl. apply app_nil_r.
    + destruct (set_item_ok (g_data g) (g_pos g) x ltac:(lia)) as [d' [Hd [Hl Hf]]].
      rewrite Hd. eexists. split; [reflexivity|]. cbn [set_data g_pos g_data g_num g_den].
      repeat split; try (simpl; lia). exact Hf.
  - unfold extend. unfold logical_size, physical_size.
    set (g1 := if length (g_data g) <? length xs + g_pos g then _ else g).
    assert (Hg1 : exists n, g_data g1 = g_data g ++ repeat None n /\ g_pos g1 = g_pos g
                  /\ g_pos g + length xs <= length (g_data g) + n
                  /\ g_num g1 = g_num g /\ g_den g1 = g_den g).
    { unfold g1. destruct (Nat.ltb_spec (length (g_data g)) (length xs + g_pos g)).
      - unfold grow. cbn [g_data g_pos g_num g_den]. eexists. split; [reflexivity|]. split; [reflexivity|].
        split; [|split; reflexivity].
        destruct (Nat.ltb_spec (length (g_data g) + tmp_size g) (length xs + g_pos g)); lia.
      - exists 0. simpl. rewrite app_nil_r. repeat split; lia. }
    destruct Hg1 as [n [Hd [Hp [Hfit [Hnum Hden]]]]].
    unfold set_slice. rewrite Hd, Hp.
    destruct (Nat.leb_spec (g_pos g + length xs) (length (g_data g ++ repeat None n))) as [Hb|Hb];
      [|rewrite app_length, repeat_length in Hb; lia].
    cbn [bind]. eexists. split; [reflexivity|]. cbn [set_data g_pos g_data g_num g_den].
    assert (Hl : length (firstn (g_pos g) (g_data g ++ repeat None n)) = g_pos g).
    { apply firstn_length_le. rewrite app_length, repeat_length. lia. }
    rewrite !app_length, map_length, Hl, skipn_length.
    rewrite app_length, repeat_length in *.
    repeat split; try lia.
    rewrite app_assoc. rewrite firstn_app_exact by (rewrite app_length, Hl, map_length; lia).
    f_equal. rewrite firstn_app. replace (g_pos g - length (g_data g)) with 0 by lia.
    simpl. apply app_nil_r.
Qed.

Lemma growable_main {A} (g : growable A) (ops : list (op A)) :
  logical_size g <= physical_size g ->
  exists g', run g ops = Ok g'
    /\ logical_size g' <= physical_size g'
    /\ logical_size g' = logical_size g + length (concat (map added ops))
    /\ logical_data g' = logical_data g ++ map Some (concat (map added ops))
    /\ physical_size g <= physical_size g'.
Proof.
  revert g; induction ops as [|o ops IH]; intros g Hinv.
  - exists g. simpl. rewrite app_nil_r. repeat split; try lia.
  - destruct (step_ok g o Hinv) as [g1 [H1 [Hi1 [Hs1 [Hd1 [Hp1 _]]]]]].
    destruct (IH g1 Hi1) as [g2 [H2 [Hi2 [Hs2 [Hd2 Hp2]]]]].
    exists g2. cbn [run]. rewrite H1. cbn [bind]. split; [exact H2|].
    cbn [map concat]. rewrite app_length, map_app, app_assoc, <- Hd1.
    repeat split; try lia. exact Hd2.
Qed.

(** no reallocation while there is room *)
Lemma growable_no_realloc {A} (g : growable A) (o : op A) g' :
  logical_size g + length (added o) <= physical_size g -> step g o = Ok g' ->
  physical_size g' = physical_size g.
Proof.
  unfold logical_size, physical_size. intros H Hs. destruct o as [x|xs]; cbn [step added length] in *.
  - unfold append, set_item in Hs. destruct (Nat.ltb_spec (g_pos g) (length (g_data g))); [|lia].
    inversion Hs; subst. unfold set_data; simpl g_data.
    destruct (set_item_ok (g_data g) (g_pos g) x ltac:(lia)) as [d' [Hd [Hl _]]].
    unfold set_item in Hd. destruct (Nat.ltb_spec (g_pos g) (length (g_data g))); [|lia].
    inversion Hd as [He]. rewrite He. exact Hl.
  - unfold extend, set_slice, physical_size, logical_size in Hs.
    destruct (Nat.ltb_spec (length (g_data g)) (length xs + g_pos g)); [lia|].
    destruct (Nat.leb_spec (g_pos g + length xs) (length (g_data g))); [|lia].
    cbn [bind] in Hs. inversion Hs; subst. cbn [set_data g_data].
    rewrite !app_length, map_length, firstn_length_le, skipn_length by lia. lia.
Qed.

(** The docstring (npx.py:272-273) allows a position larger than the array;
    append then fails. *)
Lemma growable_position_beyond :
  exists (g : growable nat) x, new [] 5 1 1 = Ok g /\ append g x = Raise IndexError.
Proof. eexists _, 1. split; reflexivity. Qed.

Example growable_example :
  (do g <- new [7; 8] 1 1 1; do g <- run g [Append 1; Extend [2; 3; 4; 5; 6]; Append 9];
   Ok (logical_data g, physical_size g))
  = Ok (map Some [7; 1; 2; 3; 4; 5; 6; 9], 14).
Proof. reflexivity. Qed.

Lemma growable_rejects {A} (data : list A) (position : nat) (num den : Z) :
  (num <= 0)%Z -> new data position num den = Raise ValueError.
Proof. intros H. unfold new. destruct (Z.leb_spec num 0); [reflexivity|lia]. Qed.

Lemma growable_new {A} (data : list A) (position : nat) (num den : Z) : (0 < num)%Z -> position <= length data ->
  exists g, new data position num den = Ok g /\ logical_size g = position /\
    physical_size g = length data /\ logical_data g = map Some (firstn position data).
Proof.
  intros Hn Hp. unfold new. destruct (Z.leb_spec num 0); [lia|]. eexists. split; [reflexivity|]. unfold logical_size, physical_size, logical_data. cbn [g_data g_pos].
  rewrite map_length, firstn_map. auto.
Qed.
