(** Property C06: the bit counting code counts differing bits. *)
From Verif Require Import PyBase PyFacts Bits.
From Coq Require Import NArith.Ndigits.
Local Open Scope N_scope.

(** ** Specification *)
(** Number of positions k < 64 at which two words differ. *)
Definition differing_bits (x y : N) : nat :=
  length (filter (fun k => negb (Bool.eqb (N.testbit_nat x k) (N.testbit_nat y k))) (seq 0 64)).

(** The same for codes made of several words. *)
Fixpoint code_distance (a b : list N) : nat :=
  match a, b with
  | x :: a', y :: b' => (differing_bits x y + code_distance a' b')%nat
  | _, _ => O
  end.

Definition is_u64 (x : N) : Prop := x < 2 ^ 64.

(** ** popcount *)
Lemma popcount_div2 z : popcount z = (if N.odd z then 1 else 0) + popcount (N.div2 z).
Proof. destruct z as [|[p|p|]]; reflexivity. Qed.

Lemma popcount_spec (n : nat) : forall z, z < 2 ^ N.of_nat n ->
  popcount z = N.of_nat (length (filter (N.testbit_nat z) (seq 0 n))).
Proof.
  induction n as [|n IH]; intros z Hz.
  - simpl in *. assert (z = 0) by lia. subst; reflexivity.
  - rewrite popcount_div2.
    assert (Hd : N.div2 z < 2 ^ N.of_nat n).
    { rewrite Nat2N.inj_succ, N.pow_succ_r' in Hz. rewrite N.div2_div.
      apply N.div_lt_upper_bound; lia. }
    rewrite (IH _ Hd). cbn [seq filter]. rewrite <- seq_shift.
    assert (Hf : length (filter (N.testbit_nat z) (map S (seq 0 n)))
               = length (filter (N.testbit_nat (N.div2 z)) (seq 0 n))).
    { clear. induction (seq 0 n) as [|k l IHl]; [reflexivity|]. cbn [map filter].
      replace (N.testbit_nat z (S k)) with (N.testbit_nat (N.div2 z) k)
        by (destruct z as [|[p|p|]]; reflexivity).
      destruct (N.testbit_nat (N.div2 z) k); cbn [length]; rewrite IHl; reflexivity. }
    replace (N.testbit_nat z 0) with (N.odd z) by (destruct z as [|[p|p|]]; reflexivity).
    destruct (N.odd z); cbn [length]; rewrite Hf; lia.
Qed.

Lemma lxor_u64 x y : is_u64 x -> is_u64 y -> is_u64 (N.lxor x y).
Proof.
  unfold is_u64. intros Hx Hy.
  destruct (N.eq_dec (N.lxor x y) 0) as [->|Hne]; [reflexivity|].
  apply N.log2_lt_pow2; [lia|].
  pose proof (N.log2_lxor x y).
  assert (Hlt : forall v, v < 2 ^ 64 -> N.log2 v < 64).
  { intros v Hv. destruct (N.eq_dec v 0) as [->|]; [reflexivity|]. apply N.log2_lt_pow2; lia. }
  pose proof (Hlt x Hx). pose proof (Hlt y Hy). lia.
Qed.

Lemma popcount_lxor x y : is_u64 x -> is_u64 y ->
  popcount (N.lxor x y) = N.of_nat (differing_bits x y).
Proof.
  intros Hx Hy. rewrite (popcount_spec 64) by (apply lxor_u64; assumption).
  unfold differing_bits. f_equal. f_equal. apply filter_ext. intros k.
  replace (N.testbit_nat (N.lxor x y) k) with (xorb (N.testbit_nat x k) (N.testbit_nat y k)).
  - destruct (N.testbit_nat x k), (N.testbit_nat y k); reflexivity.
  - symmetry. apply Nxor_semantics.
Qed.

Lemma differing_le_64 x y : (differing_bits x y <= 64)%nat.
Proof.
  unfold differing_bits. rewrite <- (seq_length 64 0) at 2.
  generalize (seq 0 64). intros l. induction l; simpl; [lia|]. destruct (negb _); simpl; lia.
Qed.

Lemma code_distance_le a b : (code_distance a b <= 64 * length a)%nat.
Proof.
  revert b; induction a as [|x a IH]; intros b; simpl; [lia|]. destruct b as [|y b]; [lia|].
  pose proof (differing_le_64 x y). pose proof (IH b). lia.
Qed.

Lemma packed_row (a b : list N) (acc : N) :
  length a = length b -> Forall is_u64 a -> Forall is_u64 b ->
  acc + N.of_nat (64 * length a) < 2 ^ 64 ->
  fold_left (fun z w => u64 (z + popcount w)) (xor_row a b) acc = acc + N.of_nat (code_distance a b).
Proof.
  revert b acc; induction a as [|x a IH]; intros [|y b] acc Hl Ha Hb Hacc; try discriminate.
  - simpl. lia.
  - inversion Ha; subst. inversion Hb; subst. cbn [xor_row fold_left code_distance].
    rewrite popcount_lxor by assumption.
    pose proof (differing_le_64 x y) as Hd. cbn [length] in Hacc.
    assert (Hu : u64 (acc + N.of_nat (differing_bits x y)) = acc + N.of_nat (differing_bits x y)).
    { unfold u64. apply N.mod_small. lia. }
    rewrite Hu. rewrite IH; try assumption; try (simpl in Hl; lia).
Qed.

Lemma packed_main (a : list N) (b : list (list N)) :
  Forall is_u64 a -> N.of_nat (length a) < 2 ^ 57 ->
  (forall row, In row b -> length row = length a /\ Forall is_u64 row) ->
  packed_hamming_distance a b = map (fun row => N.of_nat (code_distance a row)) b.
Proof.
  intros Ha Hl Hb. unfold packed_hamming_distance, count_packed_bits. rewrite map_map.
  apply map_ext_in. intros row Hr. destruct (Hb row Hr) as [Hlen Hrow].
  rewrite packed_row by (try congruence; try assumption; lia). lia.
Qed.

(** ** metric laws *)
Definition hd64 (x y : N) : nat := differing_bits x y.

Lemma differing_sym x y : differing_bits x y = differing_bits y x.
Proof.
  unfold differing_bits. f_equal. apply filter_ext. intros k.
  destruct (N.testbit_nat x k), (N.testbit_nat y k); reflexivity.
Qed.

Lemma differing_zero x y : is_u64 x -> is_u64 y -> (differing_bits x y = 0%nat <-> x = y).
Proof.
  intros Hx Hy. split.
  - intros H. apply N.lxor_eq. pose proof (popcount_lxor x y Hx Hy) as Hp. rewrite H in Hp.
    destruct (N.lxor x y) as [|p]; [reflexivity|]. exfalso. cbn [popcount N.of_nat] in Hp. clear -Hp.
    induction p as [p IHp|p IHp|]; cbn [popcount_pos] in Hp; [lia|apply IHp; exact Hp|lia].
  - intros ->. unfold differing_bits. generalize (seq 0 64). induction l; simpl; [reflexivity|].
    rewrite eqb_reflx. exact IHl.
Qed.

Lemma differing_triangle x y z : (differing_bits x z <= differing_bits x y + differing_bits y z)%nat.
Proof.
  unfold differing_bits. generalize (seq 0 64). induction l as [|k l IH]; simpl; [lia|].
  destruct (N.testbit_nat x k), (N.testbit_nat y k), (N.testbit_nat z k); simpl; lia.
Qed.

Lemma code_sym a b : code_distance a b = code_distance b a.
Proof.
  revert b; induction a as [|x a IH]; intros [|y b]; simpl; try reflexivity.
  rewrite IH, differing_sym. reflexivity.
Qed.
Lemma code_zero a b : length a = length b -> Forall is_u64 a -> Forall is_u64 b ->
  (code_distance a b = 0%nat <-> a = b).
Proof.
  intros Hl Ha. revert b Hl. induction Ha as [|x a Hx Ha IH]; intros [|y b] Hl Hb; try discriminate.
  - simpl; tauto.
  - inversion Hb; subst. simpl. split.
    + intros H. f_equal; [apply (differing_zero x y); auto; lia|].
      apply IH; auto; simpl in Hl; lia.
    + intros H. inversion H; subst.
      rewrite (proj2 (differing_zero y y Hx Hx) eq_refl). simpl. apply IH; auto.
Qed.
Lemma code_triangle a b c : length a = length b -> length b = length c ->
  (code_distance a c <= code_distance a b + code_distance b c)%nat.
Proof.
  revert b c; induction a as [|x a IH]; intros [|y b] [|z c] H1 H2; try discriminate; simpl; [lia|].
  pose proof (differing_triangle x y z). simpl in *.
  pose proof (IH b c ltac:(lia) ltac:(lia)). lia.
Qed.

(** ** count_bits (SWAR) *)
Fixpoint bv (bs : list N) : N :=
  match bs with [] => 0 | b :: bs => b + 256 * bv bs end.
Definition byte (b : N) : Prop := b < 256.

Lemma bv_bound bs : Forall byte bs -> bv bs < 256 ^ N.of_nat (length bs).
Proof.
  induction 1 as [|b bs Hb _ IH]; [reflexivity|]. cbn [bv length].
  rewrite Nat2N.inj_succ, N.pow_succ_r'. unfold byte in Hb. lia.
Qed.

Lemma land_join lo hi mlo mhi : lo < 256 -> mlo < 256 ->
  N.land (lo + 256 * hi) (mlo + 256 * mhi) = N.land lo mlo + 256 * N.land hi mhi.
Proof.
  intros H1 H2.
  assert (Hj : forall l h, l < 256 -> l + 256 * h = N.lor l (N.shiftl h 8)).
  { intros l h Hl. rewrite N.shiftl_mul_pow2. change (2 ^ 8) with 256.
    rewrite (N.mul_comm 256). rewrite <- N.lxor_lor, <- N.add_nocarry_lxor; try reflexivity;
    apply N.bits_inj_0; intros n; rewrite N.land_spec;
    change 256 with (2 ^ 8); destruct (N.lt_ge_cases n 8);
    try (rewrite N.mul_pow2_bits_low by assumption; apply andb_false_r);
    (destruct (N.eq_dec l 0) as [->|Hne]; [rewrite N.bits_0; reflexivity|];
     rewrite (N.bits_above_log2 l); [reflexivity|];
     assert (N.log2 l < 8) by (apply N.log2_lt_pow2; [lia|exact Hl]); lia). }
  assert (Hl : N.land lo mlo < 256).
  { destruct (N.eq_dec (N.land lo mlo) 0) as [->|Hne]; [reflexivity|].
    change 256 with (2^8). apply N.log2_lt_pow2; [lia|].
    pose proof (N.log2_land lo mlo).
    destruct (N.eq_dec lo 0) as [->|]; [rewrite N.land_0_l in Hne; lia|].
    assert (N.log2 lo < 8) by (apply N.log2_lt_pow2; [lia|exact H1]). lia. }
  rewrite (Hj lo hi), (Hj mlo mhi), (Hj _ (N.land hi mhi)) by assumption.
  apply N.bits_inj. intros n. rewrite N.land_spec, !N.lor_spec, N.land_spec.
  destruct (N.lt_ge_cases n 8) as [Hn|Hn].
  - rewrite !N.shiftl_spec_low by assumption. rewrite !orb_false_r. reflexivity.
  - rewrite !N.shiftl_spec_high' by assumption. rewrite N.land_spec.
    assert (Ht : forall v, v < 256 -> N.testbit v n = false).
    { intros v Hv. destruct (N.eq_dec v 0) as [->|]; [apply N.bits_0|].
      apply N.bits_above_log2. assert (N.log2 v < 8) by (apply N.log2_lt_pow2; [lia|exact Hv]). lia. }
    rewrite (Ht lo), (Ht mlo) by assumption. reflexivity.
Qed.

(** shifting right by k, then masking with a mask that keeps only the low 8-k
    bits of every byte, acts byte by byte *)
Lemma land_shift_join lo hi mlo mhi k : k <= 8 -> lo < 256 -> mlo < 2 ^ (8 - k) ->
  N.land (N.shiftr (lo + 256 * hi) k) (mlo + 256 * mhi)
  = N.land (N.shiftr lo k) mlo + 256 * N.land (N.shiftr hi k) mhi.
Proof.
  intros Hk Hlo Hm.
  assert (Hpow : 2 ^ (8 - k) * 2 ^ k = 256).
  { rewrite <- N.pow_add_r. replace (8 - k + k) with 8 by lia. reflexivity. }
  assert (Hpk : 2 ^ k <> 0) by (apply N.pow_nonzero; lia).
  assert (Hmlt : mlo < 256) by nia.
  assert (Hq : N.shiftr (lo + 256 * hi) k = N.shiftr lo k + 2 ^ (8 - k) * hi).
  { rewrite !N.shiftr_div_pow2. rewrite <- Hpow.
    replace (lo + 2 ^ (8 - k) * 2 ^ k * hi) with (lo + (2 ^ (8 - k) * hi) * 2 ^ k) by lia.
    rewrite N.div_add by assumption. lia. }
  rewrite Hq.
  (* split hi = hl + 2^k * hh *)
  assert (Hhi : hi = hi mod 2 ^ k + 2 ^ k * (N.shiftr hi k)).
  { rewrite N.shiftr_div_pow2. pose proof (N.div_mod hi (2 ^ k) Hpk). lia. }
  set (hl := hi mod 2 ^ k) in *.
  assert (Hhl : hl < 2 ^ k) by (apply N.mod_lt; assumption).
  assert (Hsh : N.shiftr lo k < 2 ^ (8 - k)).
  { rewrite N.shiftr_div_pow2. apply N.div_lt_upper_bound; [assumption|]. lia. }
  assert (E : N.shiftr lo k + 2 ^ (8 - k) * hi
            = (N.shiftr lo k + 2 ^ (8 - k) * hl) + 256 * N.shiftr hi k).
  { rewrite Hhi at 1. rewrite <- Hpow. lia. }
  rewrite E. rewrite land_join; [|nia|assumption]. f_equal.
  (* the bits of hl fall outside the mask *)
  apply N.bits_inj. intros n. rewrite !N.land_spec.
  destruct (N.lt_ge_cases n (8 - k)) as [Hn|Hn].
  - f_equal. rewrite (N.mul_comm (2 ^ (8 - k))).
    replace (N.testbit (N.shiftr lo k) n)
      with (N.testbit ((N.shiftr lo k + hl * 2 ^ (8 - k)) mod 2 ^ (8 - k)) n).
    + rewrite N.mod_pow2_bits_low by assumption. reflexivity.
    + rewrite N.mod_add by (apply N.pow_nonzero; lia).
      rewrite N.mod_small by assumption. reflexivity.
  - assert (Ht : N.testbit mlo n = false).
    { destruct (N.eq_dec mlo 0) as [->|]; [apply N.bits_0|].
      apply N.bits_above_log2. assert (N.log2 mlo < 8 - k) by (apply N.log2_lt_pow2; lia). lia. }
    rewrite Ht, !andb_false_r. reflexivity.
Qed.

Definition f1 (b : N) : N := b - N.land (N.shiftr b 1) 0x55.
Definition f2 (b : N) : N := N.land b 0x33 + N.land (N.shiftr b 2) 0x33.
Definition f3 (b : N) : N := N.land (b + N.shiftr b 4) 0x0F.

Lemma land_le x m : N.land x m <= x.
Proof.
  pose proof (N.add_nocarry_lxor (N.land x m) (N.ldiff x m)) as H.
  assert (Hd : N.land (N.land x m) (N.ldiff x m) = 0).
  { apply N.bits_inj_0. intros n. rewrite !N.land_spec, N.ldiff_spec.
    destruct (N.testbit x n), (N.testbit m n); reflexivity. }
  specialize (H Hd).
  assert (Hx : N.lxor (N.land x m) (N.ldiff x m) = x).
  { apply N.bits_inj. intros n. rewrite N.lxor_spec, N.land_spec, N.ldiff_spec.
    destruct (N.testbit x n), (N.testbit m n); reflexivity. }
  lia.
Qed.

Lemma step1 bs : Forall byte bs ->
  bv bs - N.land (N.shiftr (bv bs) 1) (bv (repeat 0x55 (length bs))) = bv (map f1 bs)
  /\ N.land (N.shiftr (bv bs) 1) (bv (repeat 0x55 (length bs))) <= bv bs.
Proof.
  induction 1 as [|b bs Hb _ [IH1 IH2]]; [split; reflexivity|].
  cbn [bv length repeat map]. rewrite land_shift_join by (try assumption; reflexivity || lia).
  unfold f1 at 1. rewrite <- IH1.
  assert (N.land (N.shiftr b 1) 85 <= b).
  { etransitivity; [apply land_le|]. rewrite N.shiftr_div_pow2. apply N.div_le_upper_bound; lia. }
  lia.
Qed.

Lemma step2 bs : Forall byte bs ->
  N.land (bv bs) (bv (repeat 0x33 (length bs)))
  + N.land (N.shiftr (bv bs) 2) (bv (repeat 0x33 (length bs))) = bv (map f2 bs).
Proof.
  induction 1 as [|b bs Hb _ IH]; [reflexivity|].
  cbn [bv length repeat map].
  rewrite land_shift_join by (try assumption; reflexivity || lia).
  rewrite land_join by (try assumption; reflexivity).
  unfold f2 at 1. rewrite <- IH. lia.
Qed.

(** both nibbles at most 4 *)
Definition small_nibbles (b : N) : Prop := b mod 16 <= 4 /\ b / 16 <= 4.

Lemma step3 bs : Forall small_nibbles bs ->
  N.land (bv bs + N.shiftr (bv bs) 4) (bv (repeat 0x0F (length bs))) = bv (map f3 bs).
Proof.
  induction 1 as [|b bs [Hb1 Hb2] Hbs IH]; [reflexivity|].
  cbn [bv length repeat map].
  assert (Hb : b <= 68) by (pose proof (N.div_mod b 16 ltac:(lia)); lia).
  (* (b + 256 h) >> 4 = b>>4 + 16 h = b >> 4 + 16 (h mod 16) + 256 (h >> 4) *)
  set (h := bv bs) in *.
  assert (Hs : N.shiftr (b + 256 * h) 4 = N.shiftr b 4 + 16 * (h mod 16) + 256 * N.shiftr h 4).
  { rewrite !N.shiftr_div_pow2. change (2 ^ 4) with 16.
    replace (b + 256 * h) with (b + 16 * h * 16) by lia. rewrite N.div_add by lia.
    pose proof (N.div_mod h 16 ltac:(lia)). lia. }
  assert (Hh : h mod 16 <= 4).
  { unfold h. destruct Hbs as [|b' bs' [Hb' _] _]; [change (bv []) with 0; rewrite N.mod_0_l by lia; lia|]. cbn [bv].
    replace (b' + 256 * bv bs') with (b' + 16 * bv bs' * 16) by lia.
    rewrite N.mod_add by lia. exact Hb'. }
  assert (Hb4 : N.shiftr b 4 <= 4) by (rewrite N.shiftr_div_pow2; exact Hb2).
  rewrite Hs.
  replace (b + 256 * h + (N.shiftr b 4 + 16 * (h mod 16) + 256 * N.shiftr h 4))
    with ((b + N.shiftr b 4 + 16 * (h mod 16)) + 256 * (h + N.shiftr h 4)) by lia.
  rewrite land_join by lia. rewrite IH. f_equal.
  unfold f3. change 15 with (N.ones 4). rewrite !N.land_ones. change (2 ^ 4) with 16.
  replace (b + N.shiftr b 4 + 16 * (h mod 16)) with (b + N.shiftr b 4 + (h mod 16) * 16) by lia.
  rewrite N.mod_add by lia. reflexivity.
Qed.

(** finite sweep over the 256 byte values *)
Definition all_bytes : list N := map N.of_nat (seq 0 256).
Definition small_nibblesb (b : N) : bool := (b mod 16 <=? 4) && (b / 16 <=? 4).
Lemma byte_sweep :
  forallb (fun b => (f3 (f2 (f1 b)) =? popcount b) && small_nibblesb (f2 (f1 b))
                    && (f1 b <? 256) && (popcount b <=? 8)) all_bytes = true.
Proof. vm_compute. reflexivity. Qed.
Lemma byte_facts b : byte b ->
  f3 (f2 (f1 b)) = popcount b /\ small_nibbles (f2 (f1 b)) /\ byte (f1 b) /\ popcount b <= 8.
Proof.
  intros Hb. pose proof byte_sweep as H. rewrite forallb_forall in H.
  assert (Hin : In b all_bytes).
  { unfold all_bytes. apply in_map_iff. exists (N.to_nat b). split; [apply N2Nat.id|].
    apply in_seq. unfold byte in Hb. lia. }
  specialize (H b Hin). rewrite !andb_true_iff in H. unfold small_nibblesb in H.
  rewrite andb_true_iff in H. unfold small_nibbles, byte. 
  destruct H as [[[H1 [H2 H3]] H4] H5].
  apply N.eqb_eq in H1. apply N.leb_le in H2, H3, H5. apply N.ltb_lt in H4. tauto.
Qed.

Lemma popcount_double_add (k : nat) : forall b h, b < 2 ^ N.of_nat k ->
  popcount (b + 2 ^ N.of_nat k * h) = popcount b + popcount h.
Proof.
  induction k as [|k IH]; intros b h Hb.
  - simpl in *. assert (b = 0) by lia. subst. simpl. f_equal. destruct h; reflexivity.
  - rewrite Nat2N.inj_succ, N.pow_succ_r' in *.
    rewrite (popcount_div2 (b + _)), (popcount_div2 b).
    replace (N.odd (b + 2 * 2 ^ N.of_nat k * h)) with (N.odd b).
    + replace (N.div2 (b + 2 * 2 ^ N.of_nat k * h)) with (N.div2 b + 2 ^ N.of_nat k * h).
      * rewrite IH; [lia|]. rewrite N.div2_div. apply N.div_lt_upper_bound; lia.
      * rewrite !N.div2_div. replace (b + 2 * 2 ^ N.of_nat k * h) with (b + (2 ^ N.of_nat k * h) * 2) by lia.
        rewrite N.div_add by lia. reflexivity.
    + rewrite N.odd_add. rewrite <- N.mul_assoc, N.odd_mul. simpl. rewrite xorb_false_r. reflexivity.
Qed.

Lemma popcount_bv bs : Forall byte bs -> popcount (bv bs) = fold_right (fun b s => popcount b + s) 0 bs.
Proof.
  induction 1 as [|b bs Hb _ IH]; [reflexivity|]. cbn [bv fold_right].
  change 256 with (2 ^ N.of_nat 8). rewrite popcount_double_add by exact Hb. rewrite IH. reflexivity.
Qed.

Lemma bytes_of (n : nat) : forall z, z < 256 ^ N.of_nat n ->
  exists bs, length bs = n /\ Forall byte bs /\ bv bs = z.
Proof.
  induction n as [|n IH]; intros z Hz.
  - exists []. simpl in *. repeat split; [constructor|lia].
  - rewrite Nat2N.inj_succ, N.pow_succ_r' in Hz.
    destruct (IH (z / 256)) as [bs [Hl [Hb He]]].
    { apply N.div_lt_upper_bound; lia. }
    exists (z mod 256 :: bs). repeat split; [simpl; lia| |].
    + constructor; [|exact Hb]. apply N.mod_lt. lia.
    + cbn [bv]. rewrite He. pose proof (N.div_mod z 256 ltac:(lia)). lia.
Qed.

Lemma gather p0 p1 p2 p3 p4 p5 p6 p7 :
  p0 <= 8 -> p1 <= 8 -> p2 <= 8 -> p3 <= 8 -> p4 <= 8 -> p5 <= 8 -> p6 <= 8 -> p7 <= 8 ->
  ((p0 + 256 * (p1 + 256 * (p2 + 256 * (p3 + 256 * (p4 + 256 * (p5 + 256 * (p6 + 256 * (p7 + 256 * 0)))))))) * 0x101010101010101) mod 2 ^ 64 / 2 ^ 56 = (p0 + (p1 + (p2 + (p3 + (p4 + (p5 + (p6 + (p7 + 0)))))))).
Proof.
  intros.
  change (2 ^ 56) with 72057594037927936. change (2 ^ 64) with 18446744073709551616.
  symmetry. apply (N.div_unique _ _ _ ((p0) * 1 + (p0 + p1) * 256 + (p0 + p1 + p2) * 65536 + (p0 + p1 + p2 + p3) * 16777216 + (p0 + p1 + p2 + p3 + p4) * 4294967296 + (p0 + p1 + p2 + p3 + p4 + p5) * 1099511627776 + (p0 + p1 + p2 + p3 + p4 + p5 + p6) * 281474976710656)); [lia|].
  symmetry. apply (N.mod_unique _ _ ((p1 + p2 + p3 + p4 + p5 + p6 + p7) * 1 + (p2 + p3 + p4 + p5 + p6 + p7) * 256 + (p3 + p4 + p5 + p6 + p7) * 65536 + (p4 + p5 + p6 + p7) * 16777216 + (p5 + p6 + p7) * 4294967296 + (p6 + p7) * 1099511627776 + (p7) * 281474976710656)); lia.
Qed.

Lemma count_bits1_correct z : is_u64 z -> count_bits1 z = popcount z.
Proof.
  intros Hz. destruct (bytes_of 8 z Hz) as [bs [Hl [Hb He]]]. subst z.
  unfold count_bits1.
  change 0x5555555555555555 with (bv (repeat 0x55 8)).
  change 0x3333333333333333 with (bv (repeat 0x33 8)).
  change 0xF0F0F0F0F0F0F0F with (bv (repeat 0x0F 8)).
  assert (Hbd : forall l, length l = 8%nat -> Forall byte l -> u64 (bv l) = bv l).
  { intros l Hll Hlb. unfold u64. apply N.mod_small.
    pose proof (bv_bound l Hlb) as H. rewrite Hll in H. exact H. }
  pose proof (proj1 (step1 bs Hb)) as Hs1. rewrite Hl in Hs1. rewrite Hs1.
  assert (Hb1 : Forall byte (map f1 bs)).
  { clear -Hb. induction Hb; constructor; [apply byte_facts; assumption|assumption]. }
  assert (Hsn : Forall small_nibbles (map f2 (map f1 bs))).
  { clear -Hb. induction Hb; constructor; [apply byte_facts; assumption|assumption]. }
  assert (Hb2 : Forall byte (map f2 (map f1 bs))).
  { eapply Forall_impl; [|exact Hsn]. intros b [H1 H2]. unfold byte.
    pose proof (N.div_mod b 16 ltac:(lia)). lia. }
  rewrite (Hbd (map f1 bs)) by (try assumption; rewrite map_length; exact Hl).
  assert (Hs2 := step2 (map f1 bs) Hb1). rewrite map_length, Hl in Hs2. rewrite Hs2.
  rewrite (Hbd (map f2 (map f1 bs))) by (try assumption; rewrite !map_length; exact Hl).
  assert (Hu : u64 (bv (map f2 (map f1 bs)) + N.shiftr (bv (map f2 (map f1 bs))) 4)
             = bv (map f2 (map f1 bs)) + N.shiftr (bv (map f2 (map f1 bs))) 4).
  { unfold u64. apply N.mod_small.
    rewrite N.shiftr_div_pow2. change (2 ^ 4) with 16.
    assert (Hlt : bv (map f2 (map f1 bs)) < 72 * 256 ^ 7).
    { clear -Hsn Hl. remember (map f2 (map f1 bs)) as l.
      assert (Hll : length l = 8%nat) by (subst; rewrite !map_length; exact Hl). clear Heql Hl.
      assert (Hle : Forall (fun b => b <= 68) l).
      { eapply Forall_impl; [|exact Hsn]. intros b [H1 H2]. pose proof (N.div_mod b 16 ltac:(lia)). lia. }
      do 8 (destruct l as [|? l]; [discriminate|]). destruct l; [|discriminate].
      repeat match goal with H : Forall _ (_ :: _) |- _ => inversion H; clear H; subst end.
      cbn [bv]. change (256 ^ 7) with 72057594037927936. lia. }
    assert (bv (map f2 (map f1 bs)) / 16 <= bv (map f2 (map f1 bs))) by (apply N.div_le_upper_bound; lia).
    change (256 ^ 7) with 72057594037927936 in Hlt.
    change (2 ^ 64) with 18446744073709551616. lia. }
  rewrite Hu.
  assert (Hs3 := step3 (map f2 (map f1 bs)) Hsn). rewrite !map_length, Hl in Hs3. rewrite Hs3.
  rewrite (popcount_bv bs Hb). clear Hs3 Hs2 Hs1 Hu Hb1 Hsn Hb2 Hbd Hz.
  assert (Hmap : map f3 (map f2 (map f1 bs)) = map popcount bs).
  { rewrite !map_map. apply map_ext_in. intros b Hin.
    rewrite Forall_forall in Hb. apply byte_facts. apply Hb. exact Hin. }
  rewrite Hmap.
  assert (Hpc : Forall (fun b => popcount b <= 8) bs).
  { eapply Forall_impl; [|exact Hb]. intros b Hbb. apply byte_facts. exact Hbb. }
  clear Hb Hmap.
  do 8 (destruct bs as [|? bs]; [discriminate|]). destruct bs; [|discriminate]. clear Hl.
  repeat match goal with H : Forall _ (_ :: _) |- _ => inversion H; clear H; subst end.
  cbn [map bv fold_right].
  rewrite N.shiftr_div_pow2. unfold u64. apply gather; assumption.
Qed.

Lemma hamming_distance_main a b : is_u64 a -> Forall is_u64 b ->
  hamming_distance a b = map (fun x => N.of_nat (differing_bits a x)) b.
Proof.
  intros Ha Hb. unfold hamming_distance, count_bits. rewrite map_map. apply map_ext_in.
  intros x Hx. rewrite Forall_forall in Hb. pose proof (Hb x Hx) as Hx64.
  rewrite count_bits1_correct by (apply lxor_u64; assumption).
  apply popcount_lxor; assumption.
Qed.

Example hamming_example :
  packed_hamming_distance [0xFF; 1] [[0xF0; 1]; [0xFF; 1]; [0; 2]] = [4; 0; 10]
  /\ hamming_distance 5 [5; 4; 0xFFFFFFFFFFFFFFFF] = [0; 1; 62].
Proof. split; vm_compute; reflexivity. Qed.

Lemma packed_metric (a b c : list N) :
  Forall is_u64 a -> Forall is_u64 b -> Forall is_u64 c ->
  length a = length b -> length b = length c -> N.of_nat (length a) < 2 ^ 57 ->
  exists ab ba bc ac,
    packed_hamming_distance a [b; c] = [ab; ac] /\
    packed_hamming_distance b [a; c] = [ba; bc] /\
    (ab = 0 <-> a = b) /\ ab = ba /\ ac <= ab + bc.
Proof.
  intros Ha Hb Hc Hab Hbc Hl.
  exists (N.of_nat (code_distance a b)), (N.of_nat (code_distance b a)),
    (N.of_nat (code_distance b c)), (N.of_nat (code_distance a c)).
  split; [|split; [|split; [|split]]].
  - rewrite packed_main; [reflexivity|exact Ha|exact Hl|].
    intros row [<-|[<-|[]]]; split; auto; congruence.
  - rewrite packed_main; [reflexivity|exact Hb|congruence|].
    intros row [<-|[<-|[]]]; split; auto; congruence.
  - rewrite <- (code_zero a b Hab Ha Hb). lia.
  - rewrite code_sym. reflexivity.
  - pose proof (code_triangle a b c Hab Hbc). lia.
Qed.
