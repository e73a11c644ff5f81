(** Proofs about Time64.v: durations. *)
From Coq Require Import ZArith QArith Qround Lia Bool.
From Verif Require Import PyBase PyFacts Time Float64 Time64.
Local Open Scope Z_scope.

(** ** Specification *)
(** a duration below 2^63 picoseconds, about 106 days, either way *)
Definition small (t : td) : Prop := - 2 ^ 63 < ps t < 2 ^ 63.

Lemma i64_id z : - 2 ^ 63 <= z < 2 ^ 63 -> i64 z = z.
Proof. intros H. unfold i64. rewrite Z.mod_small by lia. lia. Qed.
Lemma i64_range z : - 2 ^ 63 <= i64 z < 2 ^ 63.
Proof. unfold i64. pose proof (Z.mod_pos_bound (z + 2 ^ 63) (2 ^ 64) ltac:(lia)). lia. Qed.
Lemma unit_pos u : 1 <= unit_ps u.
Proof. destruct u; intros H; vm_compute in H; discriminate H. Qed.
(** a unit is a whole number of every finer one *)
Lemma unit_divides u v : unit_ps u <= unit_ps v -> unit_ps v = unit_ps v / unit_ps u * unit_ps u.
Proof. destruct u, v; intros H; vm_compute in H; try (exfalso; apply H; reflexivity); vm_compute; reflexivity. Qed.
Lemma finer_l u v : unit_ps (finer u v) <= unit_ps u.
Proof. unfold finer. destruct (Z.leb_spec (unit_ps u) (unit_ps v)); lia. Qed.
Lemma finer_r u v : unit_ps (finer u v) <= unit_ps v.
Proof. unfold finer. destruct (Z.leb_spec (unit_ps u) (unit_ps v)); lia. Qed.
Lemma cast_ok u t : unit_ps u <= unit_ps (td_unit t) -> small t -> cast u t * unit_ps u = ps t /\ is_nat (cast u t) = false.
Proof.
  intros Hu Hs. unfold small, ps in Hs. pose proof (unit_pos u) as Pu. pose proof (unit_pos (td_unit t)) as Pt. pose proof (unit_divides u (td_unit t) Hu) as D.
  set (k := unit_ps (td_unit t) / unit_ps u) in *. assert (Hk : 1 <= k) by (assert (0 < k) by nia; lia).
  assert (B : - 2 ^ 63 < td_count t * k < 2 ^ 63) by nia. assert (Bc : - 2 ^ 63 < td_count t < 2 ^ 63) by nia.
  unfold cast, is_nat, nat_count. destruct (Z.eqb_spec (td_count t) (- 2 ^ 63)); [lia|]. fold k. rewrite i64_id by lia. split; [unfold ps; rewrite D; ring|]. apply Z.eqb_neq. lia.
Qed.
Section Two.
  Context (a b : td) (Ha : small a) (Hb : small b).
  Let u := finer (td_unit a) (td_unit b).
  Lemma cast_two : (cast u a * unit_ps u = ps a /\ is_nat (cast u a) = false) /\ (cast u b * unit_ps u = ps b /\ is_nat (cast u b) = false).
  Proof. split; apply cast_ok; [apply finer_l|exact Ha|apply finer_r|exact Hb]. Qed.
  Lemma cast_range : - 2 ^ 63 < cast u a < 2 ^ 63 /\ - 2 ^ 63 < cast u b < 2 ^ 63.
  Proof. destruct cast_two as [[Ea _] [Eb _]]. unfold small in *. pose proof (unit_pos u). nia. Qed.
  Theorem td_lt_ok : td_lt a b = (ps a <? ps b).
  Proof.
    unfold td_lt, compare_td. fold u. destruct cast_two as [[Ea Na] [Eb Nb]]. rewrite Na, Nb. cbn [orb]. pose proof (unit_pos u). rewrite <- Ea, <- Eb. destruct (Z.ltb_spec (cast u a) (cast u b)), (Z.ltb_spec (cast u a * unit_ps u) (cast u b * unit_ps u)); try reflexivity; nia.
  Qed.
  Theorem td_eq_ok : td_eq a b = (ps a =? ps b).
  Proof.
    unfold td_eq, compare_td. fold u. destruct cast_two as [[Ea Na] [Eb Nb]]. rewrite Na, Nb. cbn [orb]. pose proof (unit_pos u). rewrite <- Ea, <- Eb. destruct (Z.eqb_spec (cast u a) (cast u b)), (Z.eqb_spec (cast u a * unit_ps u) (cast u b * unit_ps u)); try reflexivity; nia.
  Qed.
  Theorem td_add_ok : - 2 ^ 63 < ps a + ps b < 2 ^ 63 -> ps (td_add a b) = ps a + ps b /\ td_unit (td_add a b) = u.
  Proof.
    intros H. unfold td_add, both. fold u. destruct cast_two as [[Ea Na] [Eb Nb]]. rewrite Na, Nb. cbn [orb td_unit]. split; [|reflexivity]. unfold ps at 1. cbn [td_count td_unit]. pose proof (unit_pos u). rewrite i64_id by nia. rewrite <- Ea, <- Eb. ring.
  Qed.
  Theorem td_sub_ok : - 2 ^ 63 < ps a - ps b < 2 ^ 63 -> ps (td_sub a b) = ps a - ps b /\ td_unit (td_sub a b) = u.
  Proof.
    intros H. unfold td_sub, both. fold u. destruct cast_two as [[Ea Na] [Eb Nb]]. rewrite Na, Nb. cbn [orb td_unit]. split; [|reflexivity]. unfold ps at 1. cbn [td_count td_unit]. pose proof (unit_pos u). rewrite i64_id by nia. rewrite <- Ea, <- Eb. ring.
  Qed.
End Two.
Theorem td_mul_ok n a : small a -> - 2 ^ 63 < n * ps a < 2 ^ 63 -> ps (td_mul n a) = n * ps a /\ td_unit (td_mul n a) = td_unit a.
Proof.
  unfold small, ps, td_mul. cbn [td_count td_unit]. intros H B. pose proof (unit_pos (td_unit a)). unfold is_nat, nat_count. destruct (Z.eqb_spec (td_count a) (- 2 ^ 63)); [nia|]. rewrite i64_id by nia. split; [ring|reflexivity].
Qed.
(** sums beyond: modulo 2^64 in the finer unit *)
Theorem td_add_wraps a b : td_unit a = td_unit b -> - 2 ^ 63 < td_count a < 2 ^ 63 -> - 2 ^ 63 < td_count b < 2 ^ 63 -> 2 ^ 63 <= td_count a + td_count b -> td_count (td_add a b) = td_count a + td_count b - 2 ^ 64 /\ td_count (td_add a b) < 0.
Proof.
  intros U Ha Hb Hs. unfold td_add, both. rewrite <- U. assert (F : finer (td_unit a) (td_unit a) = td_unit a) by (unfold finer; rewrite Z.leb_refl; reflexivity). rewrite F. unfold cast. rewrite <- U. assert (D : unit_ps (td_unit a) / unit_ps (td_unit a) = 1) by (apply Z.div_same; pose proof (unit_pos (td_unit a)); lia). rewrite D, !Z.mul_1_r. unfold is_nat, nat_count.
  destruct (Z.eqb_spec (td_count a) (- 2 ^ 63)); [lia|]. destruct (Z.eqb_spec (td_count b) (- 2 ^ 63)); [lia|]. rewrite (i64_id (td_count a)), (i64_id (td_count b)) by lia. destruct (Z.eqb_spec (td_count a) (- 2 ^ 63)); [lia|]. destruct (Z.eqb_spec (td_count b) (- 2 ^ 63)); [lia|]. cbn [orb td_count].
  unfold i64. replace (td_count a + td_count b + 2 ^ 63) with (td_count a + td_count b - 2 ^ 63 + 1 * 2 ^ 64) by lia. rewrite Z.mod_add by lia. rewrite Z.mod_small by lia. lia.
Qed.
(** an hour more than 106 days is before the beginning *)
Theorem long_duration_refuted : forall h, 2562 < h <= 5124 -> td_lt {| td_count := h; td_unit := Hr |} (picoseconds 0) = true.
Proof.
  intros h H. unfold td_lt, compare_td. cbn [picoseconds td_unit finer unit_ps]. change (finer Hr Ps) with Ps. unfold cast. cbn [td_count td_unit unit_ps]. unfold is_nat, nat_count. destruct (Z.eqb_spec h (- 2 ^ 63)); [lia|]. change (i64 (0 * (1 / 1))) with 0. rewrite Z.div_1_r. assert (E : i64 (h * (3600 * 10 ^ 12)) = h * (3600 * 10 ^ 12) - 2 ^ 64). { unfold i64. replace (h * (3600 * 10 ^ 12) + 2 ^ 63) with (h * (3600 * 10 ^ 12) - 2 ^ 63 + 1 * 2 ^ 64) by lia. rewrite Z.mod_add by lia. rewrite Z.mod_small by lia. lia. } rewrite E. destruct (Z.eqb_spec (h * (3600 * 10 ^ 12) - 2 ^ 64) (- 2 ^ 63)); [lia|]. change (0 =? - 2 ^ 63) with false. change (if false then - 2 ^ 63 else 0) with 0. change (0 =? - 2 ^ 63) with false. cbn [orb]. apply Z.ltb_lt. match goal with |- _ < ?x => change x with 0 end. lia.
Qed.

(** ** Construction *)
(** [int(x)] drops the fraction *)
Lemma trunc_int z : trunc (inject_Z z) = z.
Proof. unfold trunc. cbn [inject_Z Qnum Qden]. apply Z.quot_1_r. Qed.
Lemma trunc_floor x : (0 <= x)%Q -> trunc x = Qfloor x.
Proof. intros H. destruct x as [n d]. unfold trunc, Qfloor. cbn [Qnum Qden]. unfold Qle in H. cbn [Qnum Qden] in H. apply Z.quot_div_nonneg; lia. Qed.
Lemma trunc_opp x : trunc (- x) = - trunc x.
Proof. destruct x as [n d]. unfold trunc. cbn [Qopp Qnum Qden]. rewrite Z.quot_opp_l by lia. reflexivity. Qed.
Theorem duration_of_ok u x : - 2 ^ 63 <= trunc x < 2 ^ 63 -> exists t, duration_of u x = Ok t /\ td_unit t = u /\ ps t = trunc x * unit_ps u.
Proof. intros H. unfold duration_of. destruct (Z.ltb_spec (trunc x) (- 2 ^ 63)); [lia|]. destruct (Z.leb_spec (2 ^ 63) (trunc x)); [lia|]. cbn [orb]. eexists. split; [reflexivity|]. split; reflexivity. Qed.
Theorem duration_of_int u z : - 2 ^ 63 <= z < 2 ^ 63 -> duration_of u (inject_Z z) = Ok {| td_count := z; td_unit := u |}.
Proof. intros H. unfold duration_of. rewrite trunc_int. destruct (Z.ltb_spec z (- 2 ^ 63)); [lia|]. destruct (Z.leb_spec (2 ^ 63) z); [lia|]. reflexivity. Qed.
(** up to a whole unit is lost *)
Theorem duration_of_below u x : (0 <= x)%Q -> (x < inject_Z (2 ^ 63))%Q -> exists t, duration_of u x = Ok t /\ (inject_Z (td_count t) <= x < inject_Z (td_count t + 1))%Q.
Proof.
  intros H0 H1. assert (B : 0 <= trunc x < 2 ^ 63). { rewrite trunc_floor by exact H0. split; [rewrite <- (Qfloor_Z 0); apply Qfloor_resp_le; exact H0|]. assert (inject_Z (Qfloor x) < inject_Z (2 ^ 63))%Q by (eapply Qle_lt_trans; [apply Qfloor_le|exact H1]). rewrite <- Zlt_Qlt in H. exact H. }
  destruct (duration_of_ok u x ltac:(lia)) as (t & E & U & P). exists t. split; [exact E|]. unfold duration_of in E. destruct (Z.ltb_spec (trunc x) (- 2 ^ 63)); [lia|]. destruct (Z.leb_spec (2 ^ 63) (trunc x)); [lia|]. cbn [orb] in E. injection E as <-. cbn [td_count]. rewrite trunc_floor by exact H0. split; [apply Qfloor_le|apply Qlt_floor].
Qed.
(** a duration of less than one unit is none *)
Theorem fraction_refuted u x : (0 <= x)%Q -> (x < 1)%Q -> duration_of u x = Ok {| td_count := 0; td_unit := u |} /\ td_eq {| td_count := 0; td_unit := u |} (picoseconds 0) = true.
Proof.
  intros H0 H1. assert (T : trunc x = 0). { rewrite trunc_floor by exact H0. apply Z.le_antisymm; [|rewrite <- (Qfloor_Z 0); apply Qfloor_resp_le; exact H0]. assert (L : (inject_Z (Qfloor x) < inject_Z 1)%Q) by (eapply Qle_lt_trans; [apply Qfloor_le|exact H1]). rewrite <- Zlt_Qlt in L. lia. }
  split; [unfold duration_of; rewrite T; reflexivity|]. rewrite td_eq_ok; [reflexivity| |]; unfold small, ps; cbn [td_count td_unit picoseconds]; lia.
Qed.
Theorem too_long_raises u z : 2 ^ 63 <= z -> duration_of u (inject_Z z) = Raise OtherError.
Proof. intros H. unfold duration_of. rewrite trunc_int. destruct (Z.ltb_spec z (- 2 ^ 63)); [lia|]. destruct (Z.leb_spec (2 ^ 63) z); [reflexivity|lia]. Qed.
