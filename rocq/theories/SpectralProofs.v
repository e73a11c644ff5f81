(** Facts about loudness, transforms and synthesis (C47, C48, C49, C66-C69). *)
From Verif Require Import PyBase PyFacts PyMore Time Spectral.
From Coq Require Import Reals Lra Psatz.
Local Open Scope R_scope.

(** ** C47: companding *)
Lemma sign_cases x : (x < 0 /\ sign x = -1) \/ (x = 0 /\ sign x = 0) \/ (0 < x /\ sign x = 1).
Proof. unfold sign. destruct (Rlt_dec x 0); [auto|]. destruct (Rlt_dec 0 x); [auto|]. right. left. split; [lra|reflexivity]. Qed.
Lemma sign_abs x : sign x * Rabs x = x.
Proof.
  destruct (sign_cases x) as [[H ->]|[[-> ->]|[H ->]]]; [rewrite Rabs_left by exact H| |rewrite Rabs_right by lra]; lra.
Qed.
Lemma abs_sign x y : 0 <= y -> (x = 0 -> y = 0) -> Rabs (sign x * y) = y.
Proof.
  intros Hy H0. destruct (sign_cases x) as [[H ->]|[[H ->]|[H ->]]].
  - replace (-1 * y) with (- y) by ring. rewrite Rabs_Ropp. apply Rabs_right. lra.
  - rewrite (H0 H). rewrite Rmult_0_l. apply Rabs_R0.
  - rewrite Rmult_1_l. apply Rabs_right. lra.
Qed.
Lemma sign_sign x y : 0 <= y -> (y = 0 -> x = 0) -> sign (sign x * y) = sign x.
Proof.
  intros Hy H0. destruct (sign_cases x) as [[H ->]|[[H ->]|[H ->]]].
  - assert (0 < y) by (destruct Hy as [|E]; [assumption|symmetry in E; apply H0 in E; lra]).
    destruct (sign_cases (-1 * y)) as [[K ->]|[[K ->]|[K ->]]]; try reflexivity; lra.
  - rewrite Rmult_0_l. destruct (sign_cases 0) as [[K ->]|[[K ->]|[K ->]]]; try reflexivity; lra.
  - assert (0 < y) by (destruct Hy as [|E]; [assumption|symmetry in E; apply H0 in E; lra]).
    destruct (sign_cases (1 * y)) as [[K ->]|[[K ->]|[K ->]]]; try reflexivity; lra.
Qed.
Lemma ln_pos y : 0 <= y -> 0 <= ln (1 + y) /\ (ln (1 + y) = 0 -> y = 0).
Proof.
  intros Hy. split.
  - rewrite <- ln_1. destruct Hy as [Hy|<-]; [left; apply ln_increasing; lra|right; f_equal; lra].
  - intros E. rewrite <- ln_1 in E. apply ln_inv in E; lra.
Qed.
Lemma abs_zero x : Rabs x = 0 -> x = 0.
Proof. intros H. pose proof (sign_abs x). rewrite H in H0. lra. Qed.

Lemma log_modulus_inverse x : inverse_log_modulus (log_modulus x) = x.
Proof.
  unfold inverse_log_modulus, log_modulus. pose proof (Rabs_pos x) as P. rewrite (Rplus_comm (Rabs x) 1).
  destruct (ln_pos (Rabs x) P) as [L1 L2].
  rewrite abs_sign; [|exact L1|intros ->; rewrite Rabs_R0, Rplus_0_r; apply ln_1].
  rewrite sign_sign; [|exact L1|intros E; apply abs_zero, L2, E].
  rewrite exp_ln by lra. replace (1 + Rabs x - 1) with (Rabs x) by ring. rewrite Rmult_comm. apply sign_abs.
Qed.
Lemma inverse_log_modulus_inverse y : log_modulus (inverse_log_modulus y) = y.
Proof.
  unfold inverse_log_modulus, log_modulus. pose proof (Rabs_pos y) as P.
  assert (E1 : 0 <= exp (Rabs y) - 1).
  { destruct P as [P|P]; [pose proof (exp_increasing 0 (Rabs y) P); rewrite exp_0 in *; lra|rewrite <- P, exp_0; lra]. }
  assert (E2 : exp (Rabs y) - 1 = 0 -> y = 0).
  { intros E. apply abs_zero. apply exp_inv. rewrite exp_0. lra. }
  rewrite (Rmult_comm _ (sign y)). rewrite abs_sign; [|exact E1|intros ->; rewrite Rabs_R0, exp_0; ring].
  rewrite sign_sign by assumption. replace (exp (Rabs y) - 1 + 1) with (exp (Rabs y)) by ring. rewrite ln_exp. apply sign_abs.
Qed.

Section Mu.
  Context (mu : R) (Hmu : 0 < mu).
  Lemma ln_mu : 0 < ln (1 + mu).
  Proof. rewrite <- ln_1. apply ln_increasing; lra. Qed.
  Lemma mu_mag x : 0 <= ln (1 + mu * Rabs x) / ln (1 + mu) /\ (ln (1 + mu * Rabs x) / ln (1 + mu) = 0 -> x = 0) /\
    (x = 0 -> ln (1 + mu * Rabs x) / ln (1 + mu) = 0).
  Proof.
    pose proof ln_mu. pose proof (Rabs_pos x) as P. assert (Q : 0 <= mu * Rabs x) by (apply Rmult_le_pos; lra).
    destruct (ln_pos _ Q) as [L1 L2]. split; [|split].
    - apply Rmult_le_pos; [exact L1|]. left. apply Rinv_0_lt_compat. exact H.
    - intros E. unfold Rdiv in E. apply Rmult_integral in E as [E|E].
      + apply L2 in E. apply Rmult_integral in E as [E|E]; [lra|]. apply abs_zero. exact E.
      + pose proof (Rinv_0_lt_compat _ H). lra.
    - intros ->. rewrite Rabs_R0, Rmult_0_r, Rplus_0_r, ln_1. unfold Rdiv. ring.
  Qed.
  Lemma mu_law_inverse x : inverse_mu_law mu (mu_law mu x) = x.
  Proof.
    unfold inverse_mu_law, mu_law. destruct (mu_mag x) as [M1 [M2 M3]]. pose proof ln_mu.
    rewrite abs_sign by assumption. rewrite sign_sign by assumption.
    replace (ln (1 + mu * Rabs x) / ln (1 + mu) * ln (1 + mu)) with (ln (1 + mu * Rabs x)) by (field; lra).
    rewrite exp_ln. 2:{ pose proof (Rabs_pos x). assert (0 <= mu * Rabs x) by (apply Rmult_le_pos; lra). lra. }
    replace ((1 + mu * Rabs x - 1) / mu * sign x) with (sign x * Rabs x) by (field; lra). apply sign_abs.
  Qed.
  Lemma inverse_mu_law_inverse y : mu_law mu (inverse_mu_law mu y) = y.
  Proof.
    unfold inverse_mu_law, mu_law. pose proof ln_mu as L. pose proof (Rabs_pos y) as P.
    set (z := (exp (Rabs y * ln (1 + mu)) - 1) / mu).
    assert (Q : 0 <= Rabs y * ln (1 + mu)) by (apply Rmult_le_pos; lra).
    assert (E1 : 0 <= exp (Rabs y * ln (1 + mu)) - 1).
    { destruct Q as [Q|Q]; [pose proof (exp_increasing 0 _ Q) as X; rewrite exp_0 in X; lra|rewrite <- Q, exp_0; lra]. }
    assert (Z1 : 0 <= z) by (apply Rmult_le_pos; [exact E1|left; apply Rinv_0_lt_compat; exact Hmu]).
    assert (Z2 : z = 0 -> y = 0).
    { intros E. unfold z, Rdiv in E. apply Rmult_integral in E as [E|E]; [|pose proof (Rinv_0_lt_compat _ Hmu); lra].
      assert (E' : Rabs y * ln (1 + mu) = 0) by (apply exp_inv; rewrite exp_0; lra).
      apply Rmult_integral in E' as [E'|E']; [apply abs_zero; exact E'|lra]. }
    assert (Z3 : y = 0 -> z = 0).
    { intros ->. unfold z. rewrite Rabs_R0, Rmult_0_l, exp_0. unfold Rdiv. ring. }
    rewrite (Rmult_comm z). rewrite abs_sign by assumption. rewrite sign_sign by assumption.
    unfold z. replace (1 + mu * ((exp (Rabs y * ln (1 + mu)) - 1) / mu)) with (exp (Rabs y * ln (1 + mu))) by (field; lra).
    rewrite ln_exp. replace (Rabs y * ln (1 + mu) / ln (1 + mu)) with (Rabs y) by (field; lra). apply sign_abs.
  Qed.
  Lemma mu_law_increasing x y : x < y -> mu_law mu x < mu_law mu y.
  Proof.
    intros Hxy. destruct (mu_mag x) as [X1 [X2 X3]]. destruct (mu_mag y) as [Y1 [Y2 Y3]].
    assert (G : forall a b, 0 <= a < b -> ln (1 + mu * a) / ln (1 + mu) < ln (1 + mu * b) / ln (1 + mu)).
    { intros a b [Ha Hb]. apply Rmult_lt_compat_r; [apply Rinv_0_lt_compat, ln_mu|]. assert (0 <= mu * a) by (apply Rmult_le_pos; lra).
      apply ln_increasing; [lra|]. apply Rplus_lt_compat_l. apply Rmult_lt_compat_l; lra. }
    unfold mu_law. assert (P : forall z, 0 <= z -> z <> 0 -> 0 < z) by (intros z [|<-]; [auto|contradiction]).
    assert (X4 : x <> 0 -> 0 < ln (1 + mu * Rabs x) / ln (1 + mu)) by auto.
    assert (Y4 : y <> 0 -> 0 < ln (1 + mu * Rabs y) / ln (1 + mu)) by auto.
    assert (GL : x < 0 -> y < 0 -> ln (1 + mu * Rabs y) / ln (1 + mu) < ln (1 + mu * Rabs x) / ln (1 + mu)).
    { intros Hx Hy. apply G. rewrite !Rabs_left by assumption. lra. }
    assert (GR : 0 < x -> 0 < y -> ln (1 + mu * Rabs x) / ln (1 + mu) < ln (1 + mu * Rabs y) / ln (1 + mu)).
    { intros Hx Hy. apply G. rewrite !Rabs_right by lra. lra. }
    set (gx := ln (1 + mu * Rabs x) / ln (1 + mu)) in *. set (gy := ln (1 + mu * Rabs y) / ln (1 + mu)) in *. clearbody gx gy.
    destruct (sign_cases x) as [[Hx ->]|[[Hx ->]|[Hx ->]]]; destruct (sign_cases y) as [[Hy ->]|[[Hy ->]|[Hy ->]]]; try lra.
    all: try (specialize (X4 ltac:(lra))); try (specialize (Y4 ltac:(lra))); lra.
  Qed.
  Lemma mu_law_one : mu_law mu 1 = 1 /\ mu_law mu (-1) = -1 /\ mu_law mu 0 = 0.
  Proof.
    pose proof ln_mu. unfold mu_law. rewrite Rabs_R1. replace (Rabs (-1)) with 1 by (rewrite Rabs_left; lra).
    rewrite Rabs_R0, Rmult_1_r. destruct (sign_cases 1) as [[K ->]|[[K ->]|[K ->]]]; try lra.
    destruct (sign_cases (-1)) as [[K' ->]|[[K' ->]|[K' ->]]]; try lra.
    destruct (sign_cases 0) as [[K2 ->]|[[K2 ->]|[K2 ->]]]; try lra. split; [field; lra|]. split; [field; lra|ring].
  Qed.
  Lemma mu_law_range x : -1 <= x <= 1 -> -1 <= mu_law mu x <= 1.
  Proof.
    destruct mu_law_one as [A [B _]]. intros [[H1| <-] [H2| ->]].
    - pose proof (mu_law_increasing _ _ H1). pose proof (mu_law_increasing _ _ H2). lra.
    - lra.
    - lra.
    - lra.
  Qed.
  (** onto: every y in [-1,1] is the image of one x in [-1,1] *)
  Lemma mu_law_onto y : -1 <= y <= 1 -> exists x, -1 <= x <= 1 /\ mu_law mu x = y.
  Proof.
    intros Hy. exists (inverse_mu_law mu y). pose proof (inverse_mu_law_inverse y) as E. split; [|exact E].
    destruct mu_law_one as [A [B _]]. split.
    - destruct (Rle_lt_dec (-1) (inverse_mu_law mu y)) as [|H]; [assumption|]. apply mu_law_increasing in H. lra.
    - destruct (Rle_lt_dec (inverse_mu_law mu y) 1) as [|H]; [assumption|]. apply mu_law_increasing in H. lra.
  Qed.
End Mu.
(** the default mu = 255 *)
Example mu_law_255 x : inverse_mu_law 255 (mu_law 255 x) = x.
Proof. apply mu_law_inverse. lra. Qed.

(** ** scaling *)
Lemma fold_max_ge l : forall m, m <= fold_left Rmax l m /\ (forall x, In x l -> x <= fold_left Rmax l m).
Proof.
  induction l as [|a l IH]; intros m; [split; [right; reflexivity|intros x []]|]. cbn [fold_left]. destruct (IH (Rmax m a)) as [H1 H2].
  pose proof (Rmax_l m a). pose proof (Rmax_r m a). split; [lra|]. intros x [<-|H3]; [lra|auto].
Qed.
Lemma fold_max_in l : forall m, In (fold_left Rmax l m) (m :: l).
Proof.
  induction l as [|a l IH]; intros m; [left; reflexivity|]. cbn [fold_left]. destruct (IH (Rmax m a)) as [E|H].
  - rewrite <- E. unfold Rmax. destruct (Rle_dec m a); [right; left; reflexivity|left; reflexivity].
  - right. right. exact H.
Qed.
Lemma rmax_ge l x : In x l -> x <= rmax l.
Proof. destruct l as [|a l]; [intros []|]. cbn [rmax]. destruct (fold_max_ge l a) as [H1 H2]. intros [<-|H]; auto. Qed.
Lemma rmax_in l : l <> [] -> In (rmax l) l.
Proof. destruct l as [|a l]; [contradiction|]. intros _. apply fold_max_in. Qed.
Lemma fold_min_le l : forall m, fold_left Rmin l m <= m /\ (forall x, In x l -> fold_left Rmin l m <= x).
Proof.
  induction l as [|a l IH]; intros m; [split; [right; reflexivity|intros x []]|]. cbn [fold_left]. destruct (IH (Rmin m a)) as [H1 H2].
  pose proof (Rmin_l m a). pose proof (Rmin_r m a). split; [lra|]. intros x [<-|H3]; [lra|auto].
Qed.
Lemma fold_min_in l : forall m, In (fold_left Rmin l m) (m :: l).
Proof.
  induction l as [|a l IH]; intros m; [left; reflexivity|]. cbn [fold_left]. destruct (IH (Rmin m a)) as [E|H].
  - rewrite <- E. unfold Rmin. destruct (Rle_dec m a); [left; reflexivity|right; left; reflexivity].
  - right. right. exact H.
Qed.
Lemma rmin_le l x : In x l -> rmin l <= x.
Proof. destruct l as [|a l]; [intros []|]. cbn [rmin]. destruct (fold_min_le l a) as [H1 H2]. intros [<-|H]; auto. Qed.
Lemma rmin_in l : l <> [] -> In (rmin l) l.
Proof. destruct l as [|a l]; [contradiction|]. intros _. apply fold_min_in. Qed.

Lemma instance_scale_bound eps x v : 0 < eps -> In v (instance_scale eps x) -> -1 < v < 1.
Proof.
  intros He H. unfold instance_scale in H. apply in_map_iff in H as [a [<- Ha]].
  assert (M : Rabs a <= rmax (map Rabs x)) by (apply rmax_ge, in_map, Ha).
  pose proof (Rabs_pos a). set (m := rmax (map Rabs x)) in *. assert (P : 0 < m + eps) by lra.
  cut (Rabs (a / (m + eps)) < 1). { intros X. apply Rabs_def2 in X. lra. }
  unfold Rdiv. rewrite Rabs_mult, (Rabs_right (/ (m + eps))). 2:{ left. apply Rinv_0_lt_compat. exact P. }
  apply Rmult_lt_reg_r with (m + eps); [exact P|]. rewrite Rmult_assoc, Rinv_l, Rmult_1_r by lra. lra.
Qed.
Lemma unit_scale_range x y v : unit_scale x = Some y -> In v y -> 0 <= v <= 1.
Proof.
  unfold unit_scale. set (s := map (fun v0 => v0 - rmin x) x). destruct (Req_EM_T (rmax s) 0) as [|N]; [discriminate|]. intros [= <-] H.
  apply in_map_iff in H as [b [<- Hb]]. pose proof (rmax_ge s b Hb) as M. unfold s in Hb. apply in_map_iff in Hb as [a [<- Ha]].
  pose proof (rmin_le x a Ha). assert (P : 0 < rmax s) by lra. split.
  - apply Rmult_le_pos; [lra|left; apply Rinv_0_lt_compat; exact P].
  - apply Rmult_le_reg_r with (rmax s); [exact P|]. unfold Rdiv. rewrite Rmult_assoc, Rinv_l, Rmult_1_r by lra. lra.
Qed.
(** both ends of the unit interval are reached *)
Lemma unit_scale_ends x y : x <> [] -> unit_scale x = Some y -> In 0 y /\ In 1 y.
Proof.
  intros Hx. unfold unit_scale. set (s := map (fun v0 => v0 - rmin x) x). destruct (Req_EM_T (rmax s) 0) as [|N]; [discriminate|]. intros [= <-].
  split.
  - apply in_map_iff. exists 0. split; [unfold Rdiv; ring|]. apply in_map_iff. exists (rmin x). split; [ring|]. apply rmin_in. exact Hx.
  - apply in_map_iff. exists (rmax s). split; [field; exact N|]. apply rmax_in. unfold s. destruct x; [contradiction|discriminate].
Qed.
(** exactly the constant arrays are turned into nan *)
Lemma unit_scale_constant_refuted x : x <> [] -> unit_scale x = None <-> (forall a b, In a x -> In b x -> a = b).
Proof.
  intros Hx. unfold unit_scale. set (s := map (fun v0 => v0 - rmin x) x). destruct (Req_EM_T (rmax s) 0) as [E|N].
  - split; [intros _|reflexivity]. intros a b Ha Hb.
    assert (Q : forall c, In c x -> c = rmin x).
    { intros c Hc. pose proof (rmin_le x c Hc). assert (c - rmin x <= rmax s) by (apply rmax_ge; unfold s; apply in_map_iff; exists c; auto). lra. }
    rewrite (Q a Ha), (Q b Hb). reflexivity.
  - split; [discriminate|]. intros H. exfalso. apply N. assert (Hs : s <> []) by (unfold s; destruct x; [contradiction|discriminate]).
    pose proof (rmax_in s Hs) as I. unfold s in I at 2. apply in_map_iff in I as [a [Ea Ia]]. rewrite <- Ea.
    rewrite (H a (rmin x) Ia (rmin_in x Hx)). ring.
Qed.

(** ** inverse_one_hot *)
Lemma argmax_from_spec l : forall i best m, (best < i)%nat ->
  (forall j, (j < length l)%nat -> nth j l 0 <= m) /\ argmax_from l i best m = best \/
  exists j, (j < length l)%nat /\ argmax_from l i best m = (i + j)%nat /\ m < nth j l 0 /\
    (forall k, (k < j)%nat -> nth k l 0 < nth j l 0) /\ (forall k, (k < length l)%nat -> nth k l 0 <= nth j l 0).
Proof.
  induction l as [|x l IH]; intros i best m Hb; [left; split; [cbn; lia|reflexivity]|]. cbn [argmax_from].
  destruct (Rlt_dec m x) as [H|H].
  - right. destruct (IH (S i) i x (Nat.lt_succ_diag_r i)) as [[A ->]|(j & J1 & -> & J2 & J3 & J4)].
    + exists O. split; [cbn; lia|]. split; [lia|]. split; [exact H|]. split; [intros; lia|]. intros [|k] Hk; [lra|]. apply A. cbn in Hk. lia.
    + exists (S j). split; [cbn; lia|]. split; [lia|]. cbn [nth]. split; [lra|]. split; intros [|k] Hk; try lra; [apply J3|apply J4]; cbn in Hk; lia.
  - destruct (IH (S i) best m) as [[A ->]|(j & J1 & -> & J2 & J3 & J4)]; [lia| |].
    + left. split; [|reflexivity]. intros [|k] Hk; cbn [nth]; [lra|apply A; cbn in Hk; lia].
    + right. exists (S j). split; [cbn; lia|]. split; [lia|]. cbn [nth]. split; [lra|]. split; intros [|k] Hk; try lra; [apply J3|apply J4]; cbn in Hk; lia.
Qed.
(** the category read is the first of the largest entries; category [k] of [n] is read as 2k/n - 1 *)
Lemma inverse_one_hot_spec x : x <> [] -> exists k, (k < length x)%nat /\
  (forall j, (j < k)%nat -> nth j x 0 < nth k x 0) /\ (forall j, (j < length x)%nat -> nth j x 0 <= nth k x 0) /\
  inverse_one_hot x = 2 * INR k / INR (length x) - 1.
Proof.
  intros Hx. assert (G : exists k, (k < length x)%nat /\ (forall j, (j < k)%nat -> nth j x 0 < nth k x 0) /\
    (forall j, (j < length x)%nat -> nth j x 0 <= nth k x 0) /\ argmax x = k).
  { destruct x as [|a l]; [contradiction|]. unfold argmax. destruct (argmax_from_spec l 1 0 a) as [[A ->]|(j & J1 & -> & J2 & J3 & J4)]; [lia| |].
    - exists O. split; [cbn; lia|]. split; [intros; lia|]. split; [|reflexivity]. intros [|j] Hj; cbn [nth]; [lra|apply A; cbn in Hj; lia].
    - exists (S j). split; [cbn; lia|]. split; [|split; [|reflexivity]]; intros [|k] Hk; cbn [nth]; try lra; [apply J3|apply J4]; cbn in Hk; lia. }
  destruct G as (k & K1 & K2 & K3 & K4). exists k. split; [exact K1|]. split; [exact K2|]. split; [exact K3|].
  unfold inverse_one_hot. rewrite K4. assert (INR (length x) <> 0) by (apply not_0_INR; lia). field. exact H.
Qed.
Lemma inverse_one_hot_range x : x <> [] -> -1 <= inverse_one_hot x < 1.
Proof.
  intros Hx. destruct (inverse_one_hot_spec x Hx) as (k & K & _ & _ & ->).
  assert (P : 0 < INR (length x)) by (apply lt_0_INR; lia). assert (K' : INR k < INR (length x)) by (apply lt_INR; exact K). pose proof (pos_INR k) as K0.
  assert (L : 0 <= INR k / INR (length x) < 1).
  { split; [apply Rmult_le_pos; [exact K0|left; now apply Rinv_0_lt_compat]|]. apply Rmult_lt_reg_r with (INR (length x)); [exact P|]. unfold Rdiv. rewrite Rmult_assoc, Rinv_l, Rmult_1_r, Rmult_1_l by lra. exact K'. }
  unfold Rdiv in *. rewrite Rmult_assoc. lra.
Qed.
Example inverse_one_hot_example : inverse_one_hot [0; 0; 0; 1] = / 2.
Proof.
  unfold inverse_one_hot, argmax. cbn [argmax_from length]. repeat (destruct (Rlt_dec _ _); try lra). cbn [INR]. lra.
Qed.
