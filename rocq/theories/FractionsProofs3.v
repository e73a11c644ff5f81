(** Proofs about Fractions.v: the bands of DctTransform.frequency_decomposition. *)
From Coq Require Import ZArith QArith Reals Lra Lia Bool List Permutation.
From Verif Require Import PyBase PyFacts PyMore Spectral TransformProofs ReconProofs LossProofs LossProofs2 Float64 Time64 Fractions FractionsProofs FractionsProofs2.
Import ListNotations.
Local Open Scope R_scope.

Definition band_size (x : list R) (f : Q) : nat := Z.to_nat (part64 f (Z.of_nat (length x))).
Definition machine_length {A} (x : list A) : Prop := (0 < length x)%nat /\ (Z.of_nat (length x) <= 2 ^ 53)%Z.

Lemma mapM_map {A B C} (f : B -> result C) (g : A -> B) l : mapM f (map g l) = mapM (fun a => f (g a)) l.
Proof. induction l as [|a l IH]; [reflexivity|]. cbn. destruct (f (g a)); [|reflexivity]. cbn. now rewrite IH. Qed.
Lemma combine_map {A B} (g : A -> B) l l' : combine (map g l) (map g l') = map (fun p => (g (fst p), g (snd p))) (combine l l').
Proof. revert l'. induction l as [|a l IH]; intros [|b l']; try reflexivity. cbn. now rewrite IH. Qed.
Lemma size_mono x f g : (Z.of_nat (length x) <= 2 ^ 53)%Z -> (0 <= f)%Q -> (f <= g)%Q -> (band_size x f <= band_size x g)%nat.
Proof. intros B Hf H. unfold band_size. pose proof (part_mono f g (Z.of_nat (length x)) Hf H ltac:(lia)). lia. Qed.
(** the decomposition depends on the sizes only *)
Theorem by_sizes factors x : machine_length x -> (forall f, In f factors -> (0 <= f)%Q) ->
  learn_decomposition factors x = mapM (fun p => learn_band (dct x) (fst p) (snd p)) (combine (0%nat :: sort_n (map (band_size x) factors)) (sort_n (map (band_size x) factors))).
Proof.
  intros [Hn B] P. unfold learn_decomposition. destruct (Nat.eqb_spec (length x) 0) as [E|_]; [lia|]. fold (band_size x).
  rewrite <- (sort_map (band_size x) factors) by (intros; apply size_mono; auto).
  assert (Z0 : band_size x 0 = 0%nat) by (unfold band_size; now rewrite part_none by lia). rewrite <- Z0 at 1. change (band_size x 0 :: map (band_size x) (sort_q factors)) with (map (band_size x) (0%Q :: sort_q factors)).
  rewrite combine_map, mapM_map. reflexivity.
Qed.
Theorem any_order factors factors' x : machine_length x -> (forall f, In f factors -> (0 <= f)%Q) -> Permutation factors factors' -> learn_decomposition factors x = learn_decomposition factors' x.
Proof.
  intros M P E. rewrite !by_sizes; try assumption; [|intros f H; apply P; eapply Permutation_in; [apply Permutation_sym; exact E|exact H]].
  now rewrite (sort_n_perm _ _ (Permutation_map (band_size x) E)).
Qed.

(** one band *)
Definition band_samples (x : list R) (a b : nat) : list R := idct (repeat 0 a ++ firstn (b - a) (skipn a (dct x))).
Lemma band_ok x a b : (a <= b <= length x)%nat -> (0 < b)%nat -> learn_band (dct x) a b = Ok (band_samples x a b).
Proof.
  intros H Hb. unfold learn_band. assert (L : length (firstn (b - a) (skipn a (dct x))) = (b - a)%nat) by (rewrite firstn_length, skipn_length, (proj1 (dct_length x)); lia).
  rewrite L, Nat.eqb_refl. cbn [bind]. destruct (Nat.eqb_spec b 0); [lia|reflexivity].
Qed.
Definition kept (x : list R) (a b : nat) : list R := repeat 0 a ++ firstn (b - a) (skipn a (dct x)).
Lemma kept_length x a b : (a <= b <= length x)%nat -> length (kept x a b) = b.
Proof. intros H. unfold kept. rewrite app_length, repeat_length, firstn_length, skipn_length, (proj1 (dct_length x)). lia. Qed.
Lemma kept_before x a b j : (j < a)%nat -> at_ (kept x a b) j = 0.
Proof. intros H. unfold kept, at_. rewrite app_nth1 by (now rewrite repeat_length). apply nth_repeat. Qed.
Lemma nth_firstn {A} (l : list A) n i d : (i < n)%nat -> nth i (firstn n l) d = nth i l d.
Proof. revert l i. induction n as [|n IH]; intros [|a l] [|i] H; cbn; try reflexivity; try lia. apply IH. lia. Qed.
Lemma nth_skipn {A} (l : list A) n i d : nth i (skipn n l) d = nth (n + i) l d.
Proof. revert l. induction n as [|n IH]; intros [|a l]; cbn; try reflexivity; [now destruct i|apply IH]. Qed.
Lemma kept_at x a b k : (k < b - a)%nat -> at_ (kept x a b) (a + k) = at_ (dct x) (a + k).
Proof.
  intros H. unfold kept, at_. rewrite app_nth2 by (rewrite repeat_length; lia). rewrite repeat_length. replace (a + k - a)%nat with k by lia.
  rewrite nth_firstn by exact H. apply nth_skipn.
Qed.
Lemma kept_sum x a b g : (a <= b <= length x)%nat -> (forall j, (j < a)%nat -> g j (at_ (kept x a b) j) = 0) -> rsum b (fun j => g j (at_ (kept x a b) j)) = rsum (b - a) (fun k => g (a + k)%nat (at_ (dct x) (a + k))).
Proof.
  intros H Z. replace b with (a + (b - a))%nat at 1 by lia. rewrite rsum_app. rewrite (TransformProofs.rsum_zero a) by exact Z. rewrite Rplus_0_l.
  apply rsum_ext; intros k Hk. now rewrite kept_at.
Qed.
Lemma band_length x a b : (a <= b <= length x)%nat -> length (band_samples x a b) = b.
Proof. intros H. unfold band_samples. fold (kept x a b). rewrite (proj2 (dct_length _)). now apply kept_length. Qed.
Lemma band_value x a b t : (a <= b <= length x)%nat -> (t < b)%nat ->
  at_ (band_samples x a b) t = sqrt (2 / INR b) * rsum (b - a) (fun k => at_ (dct x) (a + k) * cos (PI / INR b * (INR t * (INR (a + k) + / 2)))).
Proof.
  intros H Ht. unfold band_samples. fold (kept x a b). unfold idct, base_dct. rewrite kept_length by exact H. rewrite at_map_seq by exact Ht. rewrite Rmult_comm. f_equal.
  unfold dct_basis. apply (kept_sum x a b (fun j v => v * cos (PI / INR b * (INR t * (INR j + / 2)))) H). intros j Hj. rewrite kept_before by exact Hj. ring.
Qed.
Lemma band_energy x a b : (a <= b <= length x)%nat -> energy (band_samples x a b) = rsum (b - a) (fun k => at_ (dct x) (a + k) * at_ (dct x) (a + k)) + at_ (band_samples x a b) 0 * at_ (band_samples x a b) 0 / 2.
Proof.
  intros H. unfold band_samples. fold (kept x a b). rewrite idct_energy. f_equal. unfold energy. rewrite kept_length by exact H.
  apply (kept_sum x a b (fun _ v => v * v) H). intros j Hj. rewrite kept_before by exact Hj. ring.
Qed.

(** ** All bands *)
Lemma combine_nth_shift (l : list nat) i : (i < length l)%nat -> nth i (combine (0%nat :: l) l) (0%nat, 0%nat) = (nth i (0%nat :: l) 0%nat, nth i l 0%nat).
Proof.
  intros H. assert (L : forall (d : nat) l i, (i < length l)%nat -> nth i (combine (d :: l) l) (0%nat, 0%nat) = (nth i (d :: l) 0%nat, nth i l 0%nat)); [|apply L; exact H].
  clear. intros d l. revert d. induction l as [|b l IH]; intros d i H; [cbn in H; lia|]. destruct i as [|i]; [reflexivity|]. change (nth i (combine (b :: l) l) (0%nat, 0%nat) = (nth i (b :: l) 0%nat, nth i l 0%nat)). apply IH. cbn in H; lia.
Qed.
Lemma increasing_nth l i : increasing l -> (S i < length l)%nat -> (nth i l 0 <= nth (S i) l 0)%nat.
Proof.
  revert i. induction l as [|a l IH]; intros i I H; [cbn in H; lia|]. destruct l as [|b l]; [cbn in H; lia|]. destruct i as [|i]; [apply I|].
  change (nth (S i) (a :: b :: l) 0%nat) with (nth i (b :: l) 0%nat). change (nth (S (S i)) (a :: b :: l) 0%nat) with (nth (S i) (b :: l) 0%nat). apply IH; [apply I|cbn in *; lia].
Qed.
Lemma shifted_le l i : increasing l -> (i < length l)%nat -> (nth i (0%nat :: l) 0 <= nth i l 0)%nat.
Proof. intros I H. destruct i as [|i]; [cbn; lia|]. cbn [nth]. now apply increasing_nth. Qed.
Definition usual_factor (x : list R) (f : Q) : Prop := (0 <= f <= 1)%Q /\ (1 <= part64 f (Z.of_nat (length x)))%Z.
Theorem bands factors x : machine_length x -> (forall f, In f factors -> usual_factor x f) ->
  exists sizes out, learn_decomposition factors x = Ok out /\
    Permutation (map (fun f => Z.to_nat (part64 f (Z.of_nat (length x)))) factors) sizes /\ (forall i, (S i < length sizes)%nat -> (nth i sizes 0 <= nth (S i) sizes 0)%nat) /\ length out = length factors /\
    forall i, (i < length factors)%nat ->
      let start := nth i (0%nat :: sizes) 0%nat in
      let stop := nth i sizes 0%nat in
      (start <= stop <= length x)%nat /\ (0 < stop)%nat /\ length (nth i out []) = stop /\
      (forall t, (t < stop)%nat -> at_ (nth i out []) t = sqrt (2 / INR stop) * rsum (stop - start) (fun k => at_ (dct x) (start + k) * cos (PI / INR stop * (INR t * (INR (start + k) + / 2))))) /\
      energy (nth i out []) - at_ (nth i out []) 0 * at_ (nth i out []) 0 / 2 = rsum (stop - start) (fun k => at_ (dct x) (start + k) * at_ (dct x) (start + k)).
Proof.
  intros M U. set (sizes := sort_n (map (band_size x) factors)). set (pairs := combine (0%nat :: sizes) sizes).
  assert (Pm : Permutation (map (band_size x) factors) sizes) by apply sort_perm. assert (I : increasing sizes) by apply sort_increasing.
  assert (Ls : length sizes = length factors) by (rewrite <- (Permutation_length Pm); apply map_length).
  assert (S1 : forall i, (i < length sizes)%nat -> (1 <= nth i sizes 0 <= length x)%nat).
  { intros i Hi. assert (In (nth i sizes 0%nat) sizes) as J by now apply nth_In. apply (Permutation_in _ (Permutation_sym Pm)) in J. apply in_map_iff in J as (f & <- & J). destruct (U f J) as [Q1 Q2].
    pose proof (part_le f (Z.of_nat (length x)) Q1 ltac:(destruct M; lia)). unfold band_size. lia. }
  assert (Lp : length pairs = length sizes) by (unfold pairs; rewrite combine_length; cbn [length]; lia).
  assert (V : forall p, In p pairs -> (fst p <= snd p <= length x)%nat /\ (0 < snd p)%nat).
  { intros p J. apply (In_nth _ _ (0%nat, 0%nat)) in J as (i & Hi & <-). rewrite Lp in Hi. unfold pairs. rewrite combine_nth_shift by exact Hi. cbn [fst snd]. pose proof (shifted_le sizes i I Hi). pose proof (S1 i Hi). lia. }
  exists sizes, (map (fun p => band_samples x (fst p) (snd p)) pairs). split; [|split; [exact Pm|split; [intros i Hi; now apply increasing_nth|split; [rewrite map_length; lia|]]]].
  - rewrite by_sizes; [|exact M|intros f J; apply (U f J)]. fold sizes. fold pairs. apply mapM_ok. intros p J. destruct (V p J). now apply band_ok.
  - intros i Hi start stop. assert (N : nth i (map (fun p => band_samples x (fst p) (snd p)) pairs) [] = band_samples x start stop).
    { rewrite (nth_indep _ [] (band_samples x 0 0)) by (rewrite map_length; lia). rewrite (map_nth (fun p => band_samples x (fst p) (snd p)) pairs (0%nat, 0%nat)). unfold pairs. rewrite combine_nth_shift by lia. reflexivity. }
    rewrite N. assert (Hs : (start <= stop)%nat) by (apply shifted_le; [exact I|lia]). assert (S2 := S1 i ltac:(lia)). fold stop in S2. assert (R : (start <= stop <= length x)%nat) by lia.
    split; [exact R|]. split; [lia|]. split; [now apply band_length|]. split; [intros t Ht; now apply band_value|]. rewrite (band_energy x start stop R). ring.
Qed.
(** when one factor is 1 the bands share out the energy of the coefficients *)
Lemma last_step (b : nat) l d : last (b :: l) d = last l b.
Proof. revert b d. induction l as [|c l IH]; intros b d; [reflexivity|]. change (last (b :: c :: l) d) with (last (c :: l) d). now rewrite !IH. Qed.
Lemma last_above d l : increasing (d :: l) -> (d <= last l d)%nat.
Proof. revert d. induction l as [|b l IH]; intros d I; [cbn [last]; lia|]. rewrite last_step. destruct I as [I1 I2]. specialize (IH b I2). lia. Qed.
Lemma telescope (g : nat -> R) l d : increasing (d :: l) -> rsum (length l) (fun i => rsum (nth i l 0%nat - nth i (d :: l) 0%nat) (fun k => g (nth i (d :: l) 0%nat + k)%nat)) = rsum (last l d - d) (fun k => g (d + k)%nat).
Proof.
  revert d. induction l as [|b l IH]; intros d I; [cbn [length rsum last]; now rewrite Nat.sub_diag|].
  cbn [length]. rewrite (rsum_first (S (length l))) by lia. replace (S (length l) - 1)%nat with (length l) by lia. cbn [nth].
  destruct I as [Hb I']. specialize (IH b I'). cbn [nth] in IH. rewrite IH, last_step. pose proof (last_above b l I') as Hl.
  replace (last l b - d)%nat with ((b - d) + (last l b - b))%nat by lia. rewrite rsum_app. f_equal. apply rsum_ext; intros k _. f_equal. lia.
Qed.
Lemma last_max l d m : increasing (d :: l) -> In m l -> (forall v, In v l -> (v <= m)%nat) -> last l d = m.
Proof.
  revert d. induction l as [|b l IH]; intros d I J H; [destruct J|]. rewrite last_step. destruct I as [_ I]. destruct l as [|c l].
  - cbn [last]. destruct J as [J|[]]. exact J.
  - apply IH; [exact I| |intros v V; apply H; now right]. destruct J as [<-|J]; [|exact J]. assert (b = c) as -> by (apply Nat.le_antisymm; [apply I|apply H; cbn; auto]). now left.
Qed.
Theorem shared_energy factors x : machine_length x -> (forall f, In f factors -> usual_factor x f) -> In 1%Q factors ->
  exists out, learn_decomposition factors x = Ok out /\ rsum (length out) (fun i => energy (nth i out []) - at_ (nth i out []) 0 * at_ (nth i out []) 0 / 2) = energy x + at_ x 0 * at_ x 0.
Proof.
  intros M U J. destruct (bands factors x M U) as (sizes & out & E & Pm & Inc & L & B). exists out. split; [exact E|].
  assert (Ls : length sizes = length factors) by (rewrite <- (Permutation_length Pm); apply map_length).
  assert (I0 : increasing (0%nat :: sizes)). { clear -Inc. split; [destruct sizes; [exact I|lia]|]. induction sizes as [|a l IH]; [exact I|]. split; [destruct l as [|b l]; [exact I|apply (Inc 0%nat); cbn; lia]|apply IH; intros i Hi; apply (Inc (S i)); cbn; lia]. }
  rewrite (rsum_ext _ _ (fun i => rsum (nth i sizes 0%nat - nth i (0%nat :: sizes) 0%nat) (fun k => at_ (dct x) (nth i (0%nat :: sizes) 0%nat + k) * at_ (dct x) (nth i (0%nat :: sizes) 0%nat + k)))) by (intros i Hi; rewrite L in Hi; apply (B i Hi)).
  rewrite L, <- Ls. rewrite (telescope (fun j => at_ (dct x) j * at_ (dct x) j) sizes 0 I0).
  assert (N : forall v, In v sizes -> (v <= length x)%nat). { intros v V. apply (In_nth _ _ 0%nat) in V as (i & Hi & <-). rewrite Ls in Hi. apply (B i Hi). }
  assert (A : In (length x) sizes). { apply (Permutation_in _ Pm). apply in_map_iff. exists 1%Q. split; [|exact J]. rewrite part_all by (destruct M; lia). lia. }
  rewrite (last_max sizes 0 (length x) I0 A N), Nat.sub_0_r. rewrite <- dct_energy. unfold energy. rewrite (proj1 (dct_length x)). apply rsum_ext; intros k _. reflexivity.
Qed.
(** a band is silent exactly when the signal has nothing in its range *)
Theorem silent_band x a b : (a <= b <= length x)%nat -> (0 < b)%nat -> ((forall t, (t < b)%nat -> at_ (band_samples x a b) t = 0) <-> forall k, (a <= k < b)%nat -> at_ (dct x) k = 0).
Proof.
  intros H Hb. split.
  - intros Z k Hk. pose proof (band_energy x a b H) as E. rewrite (Z 0%nat Hb) in E. unfold energy in E. rewrite band_length in E by exact H.
    rewrite (TransformProofs.rsum_zero b) in E by (intros i Hi; rewrite Z by exact Hi; ring). assert (E0 : rsum (b - a) (fun k => at_ (dct x) (a + k) * at_ (dct x) (a + k)) = 0) by lra.
    pose proof (rsum_nonneg_zero (b - a) _ (fun i _ => Rle_0_sqr (at_ (dct x) (a + i))) E0 (k - a)%nat ltac:(lia)) as E1. cbv beta in E1. replace (a + (k - a))%nat with k in E1 by lia. apply Rmult_integral in E1. tauto.
  - intros Z t Ht. rewrite band_value by assumption. rewrite TransformProofs.rsum_zero; [ring|]. intros k Hk. rewrite Z by lia. ring.
Qed.

Theorem silent x a b : (a <= b <= length x)%nat -> (0 < b)%nat ->
  exists y, learn_band (dct x) a b = Ok y /\ length y = b /\ ((forall t, (t < b)%nat -> at_ y t = 0) <-> forall k, (a <= k < b)%nat -> at_ (dct x) k = 0).
Proof. intros H Hb. exists (band_samples x a b). split; [now apply band_ok|]. split; [now apply band_length|]. now apply silent_band. Qed.

(** ** What goes wrong *)
Theorem whole a r : machine_length (a :: r) -> learn_decomposition [1%Q] (a :: r) = Ok [2 * a :: r].
Proof.
  intros M. rewrite by_sizes; [|exact M|intros f [<-|[]]; discriminate]. cbn [map sort_n fold_right insert_n]. unfold band_size. rewrite part_all by (destruct M; lia). rewrite Nat2Z.id.
  cbn [combine mapM fst snd]. rewrite band_ok by (destruct M; lia). cbn [bind]. do 2 f_equal. unfold band_samples. cbn [repeat app]. rewrite Nat.sub_0_r. cbn [skipn].
  rewrite firstn_all2 by (rewrite (proj1 (dct_length _)); lia). apply dct_roundtrip_list.
Qed.
Theorem energy_refuted a r : a <> 0 -> machine_length (a :: r) -> exists y, learn_decomposition [1%Q] (a :: r) = Ok [y] /\ energy y = energy (a :: r) + 3 * a * a /\ energy y <> energy (a :: r).
Proof.
  intros N M. exists (2 * a :: r). split; [now apply whole|]. assert (E : energy (2 * a :: r) = energy (a :: r) + 3 * a * a).
  { unfold energy. cbn [length]. rewrite !(rsum_first (S (length r))) by lia. replace (rsum (S (length r) - 1) (fun j => at_ (2 * a :: r) (S j) * at_ (2 * a :: r) (S j))) with (rsum (S (length r) - 1) (fun j => at_ (a :: r) (S j) * at_ (a :: r) (S j))) by reflexivity.
    change (at_ (2 * a :: r) 0) with (2 * a). change (at_ (a :: r) 0) with a. ring. }
  split; [exact E|]. rewrite E. assert (0 < a * a) by (destruct (Rtotal_order a 0) as [H|[H|H]]; [nra|contradiction|nra]). nra.
Qed.
(** two factors that keep equally many coefficients: the second band is silent *)
Theorem same_size_refuted f g x : machine_length x -> usual_factor x f -> usual_factor x g -> part64 f (Z.of_nat (length x)) = part64 g (Z.of_nat (length x)) ->
  exists y, learn_decomposition [f; g] x = Ok [y; repeat 0 (Z.to_nat (part64 f (Z.of_nat (length x))))].
Proof.
  intros M [F1 F2] [G1 G2] E. rewrite by_sizes; [|exact M|intros q [<-|[<-|[]]]; tauto]. cbn [map]. unfold band_size. rewrite <- E. set (b := Z.to_nat (part64 f (Z.of_nat (length x)))).
  pose proof (part_le f (Z.of_nat (length x)) F1 ltac:(destruct M; lia)) as Lf. assert (Hb : (0 < b <= length x)%nat) by (unfold b; lia).
  cbn [sort_n fold_right insert_n]. rewrite Nat.leb_refl. cbn [combine mapM fst snd]. rewrite !band_ok by lia. cbn [bind]. exists (band_samples x 0 b). do 3 f_equal.
  apply nth_ext with (d := 0) (d' := 0); [rewrite band_length by lia; now rewrite repeat_length|]. intros t Ht. rewrite band_length in Ht by lia. rewrite nth_repeat. fold (at_ (band_samples x b b) t).
  rewrite (band_value x b b t) by lia. rewrite Nat.sub_diag. cbn [rsum]. ring.
Qed.
(** a factor that keeps no coefficient *)
Theorem too_small_refuted factors f x : machine_length x -> (forall g, In g factors -> (0 <= g)%Q) -> In f factors -> (part64 f (Z.of_nat (length x)) = 0)%Z -> learn_decomposition factors x = Raise ZeroDivisionError.
Proof.
  intros M P J Z0. rewrite by_sizes by assumption. set (sizes := sort_n (map (band_size x) factors)). assert (I : increasing sizes) by apply sort_increasing.
  assert (Js : In 0%nat sizes). { apply (Permutation_in _ (sort_perm _)). apply in_map_iff. exists f. split; [unfold band_size; now rewrite Z0|exact J]. }
  destruct sizes as [|b l]; [destruct Js|]. assert (b = 0%nat). { clear -I Js. revert b I Js. induction l as [|c l IH]; intros b I [J|J]; try exact J; [destruct J|]. destruct I as [I1 I2]. specialize (IH c I2 J). lia. }
  subst b. cbn [combine mapM fst snd]. unfold learn_band. cbn [Nat.sub firstn length]. cbn. reflexivity.
Qed.
(** a factor that asks for more coefficients than there are *)
Theorem too_large_refuted f x : machine_length x -> (0 <= f)%Q -> (Z.of_nat (length x) < part64 f (Z.of_nat (length x)))%Z -> (2 <= length x)%nat -> learn_decomposition [f] x = Raise OtherError.
Proof.
  intros M P G L. rewrite by_sizes; [|exact M|intros q [<-|[]]; exact P]. cbn [map sort_n fold_right insert_n combine mapM fst snd]. unfold learn_band. set (b := band_size x f). assert (Hb : (length x < b)%nat) by (unfold b, band_size; lia).
  rewrite Nat.sub_0_r. cbn [skipn]. rewrite firstn_all2 by (rewrite (proj1 (dct_length x)); lia). rewrite (proj1 (dct_length x)).
  destruct (Nat.eqb_spec (length x) b); [lia|]. destruct (Nat.eqb_spec (length x) 1); [lia|]. reflexivity.
Qed.
Theorem no_samples_refuted factors : learn_decomposition factors [] = Raise ZeroDivisionError.
Proof. reflexivity. Qed.

(** ** dct_resample *)
Theorem resample_sizes f x : machine_length x -> (0 <= f)%Q ->
  (part64 f (Z.of_nat (length x)) = 0%Z /\ dct_resample64 f None x = Raise ZeroDivisionError) \/
  exists y, dct_resample64 f None x = Ok y /\ Z.of_nat (length y) = part64 f (Z.of_nat (length x)).
Proof.
  intros [M B] P. pose proof (part_mono 0 f (Z.of_nat (length x)) ltac:(discriminate) P ltac:(lia)) as Q. unfold dct_resample64. set (n := part64 f (Z.of_nat (length x))) in *.
  destruct (Nat.eqb_spec (length x) 0); [lia|]. destruct (Z.ltb_spec n 0); [lia|]. destruct (Z.eqb_spec n 0); [now left|]. right. eexists. split; [reflexivity|].
  cbn [zeroed]. rewrite (proj2 (dct_length _)), app_length, firstn_length, repeat_length, (proj1 (dct_length x)). lia.
Qed.
Theorem resample_whole a r : machine_length (a :: r) -> dct_resample64 1 None (a :: r) = Ok (2 * a :: r).
Proof.
  intros M. unfold dct_resample64. rewrite part_all by (destruct M; lia). cbn [length Nat.eqb]. destruct (Z.ltb_spec (Z.of_nat (S (length r))) 0); [lia|]. destruct (Z.eqb_spec (Z.of_nat (S (length r))) 0); [lia|].
  rewrite Nat2Z.id. change (S (length r)) with (length (a :: r)). cbn [zeroed]. f_equal. exact (dct_resample_same (a :: r)).
Qed.
(** more samples keep the energy of the coefficients *)
Theorem resample_energy f x y : machine_length x -> (1 <= f)%Q -> dct_resample64 f None x = Ok y -> energy y - at_ y 0 * at_ y 0 / 2 = energy x + at_ x 0 * at_ x 0.
Proof.
  intros [M B] P E. pose proof (part_mono 1 f (Z.of_nat (length x)) ltac:(discriminate) P ltac:(lia)) as Q. rewrite part_all in Q by lia. unfold dct_resample64 in E. set (n := part64 f (Z.of_nat (length x))) in *.
  destruct (Nat.eqb_spec (length x) 0); [lia|]. destruct (Z.ltb_spec n 0); [lia|]. destruct (Z.eqb_spec n 0); [lia|]. cbn [zeroed] in E. assert (Ey : y = dct_resample (Z.to_nat n) x) by (unfold dct_resample; congruence). subst y. clear E. unfold dct_resample. rewrite idct_energy.
  rewrite <- dct_energy. unfold Rminus. rewrite Rplus_assoc, Rplus_opp_r, Rplus_0_r. unfold energy. rewrite firstn_all2 by (rewrite (proj1 (dct_length x)); lia).
  rewrite app_length, repeat_length. set (m := (Z.to_nat n - length (dct x))%nat). rewrite rsum_app. rewrite (TransformProofs.rsum_zero m).
  - rewrite Rplus_0_r. apply rsum_ext; intros i Hi. unfold at_. now rewrite app_nth1 by exact Hi.
  - intros i Hi. unfold at_. rewrite app_nth2 by lia. rewrite nth_repeat. ring.
Qed.

(** the coefficients of a zero slice do not sound *)
Lemma skipn_seq_ k n : forall s, skipn k (seq s n) = seq (s + k) (n - k).
Proof.
  revert n. induction k as [|k IH]; intros n s; [cbn [skipn]; now rewrite Nat.add_0_r, Nat.sub_0_r|]. destruct n as [|n]; cbn [skipn seq Nat.sub]; [reflexivity|].
  rewrite IH. f_equal; lia.
Qed.
Lemma firstn_seq_ k n : forall s, firstn k (seq s n) = seq s (Nat.min k n).
Proof. revert n. induction k as [|k IH]; intros [|n] s; cbn [firstn seq Nat.min]; try reflexivity. now rewrite IH. Qed.
Definition inside (a b : Z) (j : nat) : bool := ((a <=? Z.of_nat j) && (Z.of_nat j <? b))%Z.
Lemma inside_slice a b n j : (0 <= a)%Z -> (0 <= b)%Z -> (j < n)%nat -> existsb (Nat.eqb j) (apply_slice (Some a, Some b) (seq 0 n)) = inside a b j.
Proof.
  intros Ha Hb Hj. unfold apply_slice. cbn [fst snd]. rewrite py_slice_pos by lia. set (l := firstn _ _).
  assert (I : In j l <-> inside a b j = true).
  { unfold inside. rewrite andb_true_iff, Z.leb_le, Z.ltb_lt. unfold l. rewrite skipn_seq_, firstn_seq_, in_seq. lia. }
  destruct (inside a b j) eqn:E.
  - apply existsb_exists. exists j. split; [now apply I|apply Nat.eqb_refl].
  - destruct (existsb (Nat.eqb j) l) eqn:X; [|reflexivity]. apply existsb_exists in X as (k & K & Ek). apply Nat.eqb_eq in Ek. subst k. apply I in K. discriminate.
Qed.
Theorem resample_value f a b x y : machine_length x -> (0 <= f)%Q -> (0 <= a)%Z -> (0 <= b)%Z -> dct_resample64 f (Some (Some a, Some b)) x = Ok y ->
  forall t, (t < length y)%nat -> at_ y t = sqrt (2 / INR (length y)) * rsum (length y) (fun j => (if inside a b j then 0 else at_ (dct x) j) * cos (PI / INR (length y) * (INR t * (INR j + / 2)))).
Proof.
  intros [M B] P Ha Hb E. pose proof (part_mono 0 f (Z.of_nat (length x)) ltac:(discriminate) P ltac:(lia)) as Q. unfold dct_resample64 in E. set (n := part64 f (Z.of_nat (length x))) in *.
  destruct (Nat.eqb_spec (length x) 0); [lia|]. destruct (Z.ltb_spec n 0); [lia|]. destruct (Z.eqb_spec n 0); [discriminate|].
  set (new := firstn (Z.to_nat n) (dct x) ++ repeat 0 (Z.to_nat n - length (dct x))) in *. assert (Ln : length new = Z.to_nat n) by (unfold new; rewrite app_length, firstn_length, repeat_length; lia).
  assert (Ey : y = idct (zeroed (Some (Some a, Some b)) new)) by congruence. clear E. subst y. cbn [zeroed]. rewrite (proj2 (dct_length _)), map_length, seq_length, Ln. intros t Ht.
  unfold idct at 1, base_dct. rewrite map_length, seq_length. rewrite at_map_seq by exact Ht. rewrite Rmult_comm. f_equal. apply rsum_ext; intros j Hj.
  rewrite at_map_seq by exact Hj. rewrite inside_slice by assumption. unfold dct_basis. destruct (inside a b j); [reflexivity|]. f_equal.
  unfold new, at_. destruct (le_lt_dec (length (dct x)) j) as [G|G].
  - rewrite (nth_overflow (dct x)) by exact G. rewrite app_nth2 by (rewrite firstn_length; lia). apply nth_repeat.
  - rewrite app_nth1 by (rewrite firstn_length; lia). now apply nth_firstn.
Qed.
Theorem resample_silenced f x y : machine_length x -> (0 <= f)%Q -> dct_resample64 f (Some (None, None)) x = Ok y -> y = repeat 0 (length y).
Proof.
  intros [M B] P E. unfold dct_resample64 in E. set (n := part64 f (Z.of_nat (length x))) in *. destruct (Nat.eqb (length x) 0); [discriminate|]. destruct (n <? 0)%Z; [discriminate|]. destruct (n =? 0)%Z; [discriminate|].
  set (new := firstn (Z.to_nat n) (dct x) ++ repeat 0 (Z.to_nat n - length (dct x))) in *. assert (Ey : y = idct (zeroed (Some (None, None)) new)) by congruence. clear E. subst y.
  assert (Zr : zeroed (Some (None, None)) new = repeat 0 (length new)).
  { cbn [zeroed]. apply nth_ext with (d := 0) (d' := 0); [now rewrite map_length, seq_length, repeat_length|]. intros j Hj. rewrite map_length, seq_length in Hj. rewrite nth_repeat. fold (at_ (map (fun j0 => if existsb (Nat.eqb j0) (apply_slice (None, None) (seq 0 (length new))) then 0 else at_ new j0) (seq 0 (length new))) j).
    rewrite at_map_seq by exact Hj. assert (X : existsb (Nat.eqb j) (apply_slice (None, None) (seq 0 (length new))) = true); [|now rewrite X]. apply existsb_exists. exists j. split; [|apply Nat.eqb_refl].
    unfold apply_slice, py_slice. cbn [fst snd]. unfold norm_index, Zlen. rewrite ?Nat2Z.id, ?seq_length, ?Nat.sub_0_r. cbn. rewrite ?Nat2Z.id, ?Nat.sub_0_r. rewrite ?firstn_all2 by (rewrite ?seq_length; lia). apply in_seq. lia. }
  rewrite Zr. rewrite (proj2 (dct_length _)), repeat_length. apply nth_ext with (d := 0) (d' := 0); [now rewrite (proj2 (dct_length _)), !repeat_length|]. intros t Ht. rewrite (proj2 (dct_length _)), repeat_length in Ht. rewrite nth_repeat.
  fold (at_ (idct (repeat 0 (length new))) t). unfold idct, base_dct. rewrite repeat_length. rewrite at_map_seq by exact Ht. rewrite TransformProofs.rsum_zero; [ring|]. intros i Hi. unfold at_. rewrite nth_repeat. ring.
Qed.

(** ** Bands of a sum *)
Lemma bands_list factors x : machine_length x -> (forall f, In f factors -> usual_factor x f) ->
  let sizes := sort_n (map (fun f => Z.to_nat (part64 f (Z.of_nat (length x)))) factors) in
  learn_decomposition factors x = Ok (map (fun p => band_samples x (fst p) (snd p)) (combine (0%nat :: sizes) sizes)) /\
  forall p, In p (combine (0%nat :: sizes) sizes) -> (fst p <= snd p <= length x)%nat /\ (0 < snd p)%nat.
Proof.
  intros M U sizes. assert (I : increasing sizes) by apply sort_increasing.
  assert (S1 : forall i, (i < length sizes)%nat -> (1 <= nth i sizes 0%nat <= length x)%nat).
  { intros i Hi. assert (In (nth i sizes 0%nat) sizes) as J by now apply nth_In. apply (Permutation_in _ (Permutation_sym (sort_perm _))) in J. apply in_map_iff in J as (f & <- & J). destruct (U f J) as [Q1 Q2].
    pose proof (part_le f (Z.of_nat (length x)) Q1 ltac:(destruct M; lia)). lia. }
  assert (V : forall p, In p (combine (0%nat :: sizes) sizes) -> (fst p <= snd p <= length x)%nat /\ (0 < snd p)%nat).
  { intros p J. apply (In_nth _ _ (0%nat, 0%nat)) in J as (i & Hi & <-). rewrite combine_length in Hi. cbn [length] in Hi. rewrite combine_nth_shift by lia. cbn [fst snd]. pose proof (shifted_le sizes i I ltac:(lia)). pose proof (S1 i ltac:(lia)). lia. }
  split; [|exact V]. rewrite by_sizes; [|exact M|intros f J; apply (U f J)]. apply mapM_ok. intros p J. destruct (V p J). now apply band_ok.
Qed.
Definition mix (c : R) (x y : list R) : list R := map (fun i => c * at_ x i + at_ y i) (seq 0 (length x)).
Lemma dct_mix c x y j : length x = length y -> at_ (dct (mix c x y)) j = c * at_ (dct x) j + at_ (dct y) j.
Proof.
  intros L. assert (Lm : length (mix c x y) = length x) by (unfold mix; now rewrite map_length, seq_length). destruct (le_lt_dec (length x) j) as [G|G].
  - unfold at_. rewrite !nth_overflow by (rewrite (proj1 (dct_length _)); lia). ring.
  - unfold dct, base_dct. rewrite Lm, <- L. rewrite !at_map_seq by exact G. rewrite (rsum_ext (length x) _ (fun i => c * (at_ x i * dct_basis (length x) i j) + at_ y i * dct_basis (length x) i j)).
    + rewrite rsum_plus, rsum_scale. ring.
    + intros i Hi. unfold mix. rewrite at_map_seq by exact Hi. ring.
Qed.
Theorem linear factors c x y : machine_length x -> length x = length y -> (forall f, In f factors -> usual_factor x f) ->
  exists bx by_, learn_decomposition factors x = Ok bx /\ learn_decomposition factors y = Ok by_ /\
    learn_decomposition factors (mix c x y) = Ok (map (fun i => mix c (nth i bx []) (nth i by_ [])) (seq 0 (length factors))).
Proof.
  intros M L U. assert (Lm : length (mix c x y) = length x) by (unfold mix; now rewrite map_length, seq_length).
  destruct (bands_list factors x M U) as [Ex V]. destruct (bands_list factors y) as [Ey _]; [unfold machine_length in *; now rewrite <- L|intros f J; unfold usual_factor; rewrite <- L; exact (U f J)|].
  destruct (bands_list factors (mix c x y)) as [Em _]; [unfold machine_length in *; now rewrite Lm|intros f J; unfold usual_factor; rewrite Lm; exact (U f J)|]. rewrite <- L in Ey. rewrite Lm in Em.
  set (sizes := sort_n _) in *. set (pairs := combine (0%nat :: sizes) sizes) in *. eexists _, _. split; [exact Ex|]. split; [exact Ey|]. rewrite Em. f_equal.
  assert (Lp : length pairs = length factors). { unfold pairs. rewrite combine_length. cbn [length]. unfold sizes. rewrite <- (Permutation_length (sort_perm _)), map_length. lia. }
  rewrite <- Lp. apply nth_ext with (d := []) (d' := []); [now rewrite !map_length, seq_length|]. intros i Hi. rewrite map_length in Hi.
  set (p := nth i pairs (0%nat, 0%nat)). assert (N : forall z, nth i (map (fun p => band_samples z (fst p) (snd p)) pairs) [] = band_samples z (fst p) (snd p)).
  { intros z. rewrite (nth_indep _ [] (band_samples z 0 0)) by (now rewrite map_length). apply (map_nth (fun p => band_samples z (fst p) (snd p)) pairs (0%nat, 0%nat)). }
  assert (H : (fst p <= snd p <= length x)%nat /\ (0 < snd p)%nat) by (apply V; now apply nth_In). rewrite N. set (g := fun i0 => mix c _ _).
  rewrite (nth_indep (map g _) [] (g 0%nat)) by (now rewrite map_length, seq_length). rewrite map_nth, seq_nth by exact Hi. cbn [Nat.add]. unfold g. rewrite !N. destruct H as [H Hb].
  apply nth_ext with (d := 0) (d' := 0); [unfold mix at 2; rewrite map_length, seq_length, !band_length by (rewrite ?Lm; exact H); reflexivity|].
  intros t Ht. rewrite band_length in Ht by (rewrite Lm; exact H). fold (at_ (band_samples (mix c x y) (fst p) (snd p)) t). fold (at_ (mix c (band_samples x (fst p) (snd p)) (band_samples y (fst p) (snd p))) t).
  unfold mix at 2. rewrite band_length by exact H. rewrite at_map_seq by exact Ht. rewrite !band_value by (rewrite ?Lm, <- ?L; (exact H || exact Ht)).
  rewrite (rsum_ext _ _ (fun k => c * (at_ (dct x) (fst p + k) * cos (PI / INR (snd p) * (INR t * (INR (fst p + k) + / 2)))) + at_ (dct y) (fst p + k) * cos (PI / INR (snd p) * (INR t * (INR (fst p + k) + / 2))))).
  - rewrite rsum_plus, rsum_scale. ring.
  - intros k _. rewrite dct_mix by exact L. ring.
Qed.

(** ** Held out examples *)
Theorem holdout_split {A} p (data : list A) : (0 <= p <= 1)%Q -> (Z.of_nat (length data) <= 2 ^ 53)%Z ->
  fst (holdout64 p data) ++ snd (holdout64 p data) = data /\ Z.of_nat (length (fst (holdout64 p data))) = part64 p (Z.of_nat (length data)).
Proof.
  intros P B. pose proof (part_le p (Z.of_nat (length data)) P ltac:(lia)) as Q. unfold holdout64. cbn [fst snd]. rewrite py_slice_upto, py_slice_from by lia. split; [apply firstn_skipn|]. rewrite firstn_length. lia.
Qed.
Theorem holdout_none {A} (data : list A) : (Z.of_nat (length data) <= 2 ^ 53)%Z -> holdout64 0 data = ([], data).
Proof. intros B. unfold holdout64. rewrite part_none by lia. rewrite py_slice_upto, py_slice_from by lia. reflexivity. Qed.
Example bands_example : learn_decomposition [1 # 2]%Q [0; 1] = Ok [[1]].
Proof.
  assert (M : machine_length [0; 1]) by (split; [cbn; lia|cbn [length]; lia]).
  rewrite by_sizes; [|exact M|intros f [<-|[]]; discriminate]. unfold band_size. cbn [map length]. replace (Z.to_nat (part64 (1 # 2) (Z.of_nat 2))) with 1%nat by (vm_compute; reflexivity).
  cbn [sort_n fold_right insert_n combine mapM fst snd]. rewrite band_ok by (cbn [length]; lia). cbn [bind]. do 3 f_equal.
  unfold band_samples. cbn [Nat.sub repeat app skipn]. unfold dct at 1, base_dct at 1. cbn [length seq map firstn]. unfold idct, base_dct. cbn [length seq map rsum at_ nth]. unfold at_. cbn [nth]. do 2 f_equal. unfold dct_basis. cbn [INR].
  replace (PI / 1 * (0 * (0 + / 2))) with 0 by field. replace (PI / (1 + 1) * (1 * (0 + / 2))) with (PI / 4) by field. rewrite cos_0, cos_PI4.
  replace (2 / (1 + 1)) with 1 by field. replace (2 / 1) with 2 by field. rewrite sqrt_1. assert (S2 : sqrt 2 <> 0) by (apply Rgt_not_eq, sqrt_lt_R0; lra). field. exact S2.
Qed.
Example bands_meets : machine_length [1; 2; 3; 4] /\ (forall f, In f [1; 1 # 4; fls (9 # 10)]%Q -> usual_factor [1; 2; 3; 4] f) /\ map (fun f => part64 f 4) [1; 1 # 4; fls (9 # 10)]%Q = [4; 1; 3]%Z.
Proof.
  split; [split; [cbn; lia|cbn [length]; lia]|]. split; [|vm_compute; reflexivity].
  intros f [<-|[<-|[<-|[]]]]; (split; [split; unfold Qle; vm_compute; discriminate|vm_compute; discriminate]).
Qed.
