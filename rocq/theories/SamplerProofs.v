(** Proofs about InfiniteSampler (Sampler.v). *)
From Coq Require Import QArith Qround Qreals Reals Lra Lia.
From Flocq Require Import Core.
From Verif Require Import PyBase PyFacts PyMore Float64 Float64Proofs SynthsProofs Reservoir ReservoirProofs Sampler.
Local Open Scope Z_scope.

(** ** What a document contributes *)
(** the double that int() truncates *)
Lemma share_error n f total : 0 < n -> 0 <= f -> 0 < total ->
  let y := Q2R (fl (inject_Z n * fl (f # Z.to_pos total))) in
  let x := (IZR n * IZR f / IZR total)%R in
  (0 <= y /\ Rabs (y - x) <= x * / 2 ^ 51)%R.
Proof.
  intros Hn Hf Ht y x.
  assert (Q0 : (0 <= f # Z.to_pos total)%Q) by (unfold Qle; cbn; lia).
  set (q := fl (f # Z.to_pos total)) in *.
  assert (Q1 : (0 <= q)%Q) by (apply fl_nonneg; exact Q0).
  assert (Q2 : (0 <= inject_Z n * q)%Q) by (apply Qmult_le_0_compat; [unfold Qle; cbn; lia|exact Q1]).
  pose proof (fl_error _ Q0) as E1. fold q in E1. pose proof (fl_error _ Q2) as E2.
  assert (B : (/ 2 * bpow radix2 (-53 + 1) = / 2 ^ 53)%R) by (cbn; lra). rewrite B in E1, E2. clear B.
  rewrite Q2R_mult in E2. assert (Rn : Q2R (inject_Z n) = IZR n) by (unfold Q2R; cbn; lra). rewrite Rn in E2.
  assert (Rf : Q2R (f # Z.to_pos total) = (IZR f / IZR total)%R) by (unfold Q2R; cbn [Qnum Qden]; rewrite Z2Pos.id by lia; reflexivity).
  rewrite Rf in E1. fold y in E2.
  assert (Y0 : (0 <= y)%R) by (unfold y; apply Qle_Rle in Q2; pose proof (Qle_Rle _ _ (fl_nonneg _ ltac:(apply Rle_Qle; exact Q2))) as K; replace (Q2R 0) with 0%R in K by (unfold Q2R; cbn; lra); exact K).
  split; [exact Y0|].
  assert (N0 : (0 < IZR n)%R) by now apply (IZR_lt 0). assert (F0 : (0 <= IZR f)%R) by now apply (IZR_le 0). assert (T0 : (0 < IZR total)%R) by now apply (IZR_lt 0).
  assert (R0 : (0 <= IZR f / IZR total)%R) by (apply Rmult_le_pos; [exact F0|left; apply Rinv_0_lt_compat; exact T0]).
  assert (Ex : x = (IZR n * (IZR f / IZR total))%R) by (unfold x; field; lra). rewrite Ex. clear Ex Rf Rn x.
  set (r := (IZR f / IZR total)%R) in *. set (p := Q2R q) in *. set (m := IZR n) in *. clearbody r p m y.
  assert (K1 : (- (/ 2 ^ 53 * r) <= p - r <= / 2 ^ 53 * r)%R) by (unfold Rabs in E1; destruct (Rcase_abs (p - r)); lra).
  assert (K2 : (- (/ 2 ^ 53 * (m * p)) <= y - m * p <= / 2 ^ 53 * (m * p))%R) by (unfold Rabs in E2; destruct (Rcase_abs (y - m * p)); lra).
  assert (U : (0 <= / 2 ^ 53 <= / 4)%R) by (split; [left; apply Rinv_0_lt_compat; lra|cbn; lra]).
  assert (V : (/ 2 ^ 51 = 4 * / 2 ^ 53)%R) by (cbn; lra). rewrite V. set (u := (/ 2 ^ 53)%R) in *. clearbody u.
  assert (P : (0 <= m * r)%R) by (apply Rmult_le_pos; lra).
  assert (L1 : (m * r - u * (m * r) <= m * p <= m * r + u * (m * r))%R) by nra.
  apply Rabs_le. nra.
Qed.

Lemma floor_bounds q : (IZR (Qfloor q) <= Q2R q < IZR (Qfloor q) + 1)%R.
Proof.
  pose proof (Qle_Rle _ _ (Qfloor_le q)) as A. pose proof (Qlt_Rlt _ _ (Qlt_floor q)) as B.
  rewrite Q2R_Z in A. rewrite Q2R_Z, plus_IZR in B. split; lra.
Qed.
Definition share (n f total : Z) : R := (IZR n * IZR f / IZR total)%R.

(** Between 1 and n samples per document *)
Theorem contribution_bounds n f total : 0 < n <= 2 ^ 53 -> 0 < f <= total ->
  exists k, contribution n f total = Ok k /\ 1 <= k <= n.
Proof.
  intros Hn Hf. unfold contribution. destruct (Z.eqb_spec total 0); [lia|]. destruct (Z.eqb_spec f 0); [lia|]. cbn zeta.
  eexists. split; [reflexivity|]. split; [lia|]. apply Z.max_lub; [lia|].
  assert (Q0 : (0 <= f # Z.to_pos total)%Q) by (unfold Qle; cbn; lia).
  assert (Q1 : (fl (f # Z.to_pos total) <= inject_Z 1)%Q).
  { apply fl_below; [lia|exact Q0|]. unfold Qle. cbn. rewrite Z2Pos.id by lia. lia. }
  assert (Q2 : (fl (inject_Z n * fl (f # Z.to_pos total)) <= inject_Z n)%Q).
  { apply fl_below; [lia| |].
    - apply Qmult_le_0_compat; [unfold Qle; cbn; lia|apply fl_nonneg; exact Q0].
    - rewrite <- (Qmult_1_r (inject_Z n)) at 2. rewrite !(Qmult_comm (inject_Z n)). apply Qmult_le_compat_r; [exact Q1|unfold Qle; cbn; lia]. }
  apply Qfloor_resp_le in Q2. rewrite Qfloor_Z in Q2. exact Q2.
Qed.
(** Longer documents contribute no less *)
Theorem contribution_monotone n f g total k l : 0 < n -> 0 < f <= g -> 0 < total ->
  contribution n f total = Ok k -> contribution n g total = Ok l -> k <= l.
Proof.
  intros Hn Hf Ht. unfold contribution. destruct (Z.eqb_spec total 0); [lia|]. destruct (Z.eqb_spec f 0); [lia|]. destruct (Z.eqb_spec g 0); [lia|]. cbn zeta.
  intros A B. injection A as <-. injection B as <-. apply Z.max_le_compat_l. apply Qfloor_resp_le. apply fl_le.
  - apply Qmult_le_0_compat; [unfold Qle; cbn; lia|]. apply fl_nonneg. unfold Qle; cbn; lia.
  - rewrite !(Qmult_comm (inject_Z n)). apply Qmult_le_compat_r; [|unfold Qle; cbn; lia]. apply fl_le; unfold Qle; cbn; nia.
Qed.
(** The number of samples is the document's share, at least one, to within one *)
Theorem contribution_share n f total k : 0 < n <= 2 ^ 50 -> 0 < f <= total -> contribution n f total = Ok k ->
  (share n f total - 3 / 2 < IZR k < share n f total + 3 / 2)%R /\ ((1 < k)%Z -> (IZR k <= share n f total + 1 / 2)%R).
Proof.
  intros Hn Hf E. unfold contribution in E. destruct (Z.eqb_spec total 0); [lia|]. destruct (Z.eqb_spec f 0); [lia|]. cbn zeta in E. injection E as <-.
  pose proof (share_error n f total ltac:(lia) ltac:(lia) ltac:(lia)) as H. cbn zeta in H. fold (share n f total) in H. destruct H as [H0 H1].
  set (q := fl (inject_Z n * fl (f # Z.to_pos total))) in *. pose proof (floor_bounds q) as F. set (x := share n f total) in *.
  assert (X : (0 < x <= IZR n)%R).
  { assert (N0 : (0 < IZR n)%R) by (apply (IZR_lt 0); lia). assert (F0 : (0 < IZR f)%R) by (apply (IZR_lt 0); lia). assert (T0 : (IZR f <= IZR total)%R) by (apply IZR_le; lia).
    unfold x, share, Rdiv. split; [apply Rmult_lt_0_compat; [nra|apply Rinv_0_lt_compat; lra]|].
    rewrite Rmult_assoc. rewrite <- (Rmult_1_r (IZR n)) at 2. apply Rmult_le_compat_l; [lra|]. apply (Rmult_le_reg_r (IZR total)); [lra|]. rewrite Rmult_assoc, Rinv_l; lra. }
  assert (N : (IZR n <= 2 ^ 50)%R) by (replace (2 ^ 50)%R with (IZR (2 ^ 50)) by (cbn; lra); apply IZR_le; lia).
  assert (D : (x * / 2 ^ 51 <= / 2)%R). { replace (/ 2 ^ 51)%R with (/ 2 * / 2 ^ 50)%R by (cbn; lra). assert (P : (0 < / 2 ^ 50)%R) by (apply Rinv_0_lt_compat; lra). assert (Q : (2 ^ 50 * / 2 ^ 50 = 1)%R) by (field; lra). nra. }
  assert (K : (- / 2 <= Q2R q - x <= / 2)%R) by (unfold Rabs in H1; destruct (Rcase_abs (Q2R q - x)); lra).
  assert (Lo : (IZR (Z.max 1 (Qfloor q)) >= IZR (Qfloor q))%R) by (apply Rle_ge, IZR_le; lia).
  split; [split; [lra|]|].
  - destruct (Z.max_spec 1 (Qfloor q)) as [[_ ->]|[_ ->]]; lra.
  - intros G. assert (E : Z.max 1 (Qfloor q) = Qfloor q) by lia. rewrite E. lra.
Qed.
(** Together the documents of a round contribute as many samples as the reservoir
    holds, to within the number of documents *)
Theorem contributions_total n (sizes ks : list Z) :
  0 < n <= 2 ^ 50 -> (forall f, In f sizes -> 0 < f) -> sizes <> [] ->
  let total := fold_right Z.add 0 sizes in
  Forall2 (fun f k => contribution n f total = Ok k) sizes ks ->
  n - Zlen sizes <= fold_right Z.add 0 ks <= n + Zlen sizes.
Proof.
  intros Hn Hs Ne total H.
  assert (P : 0 < total). { unfold total. clear H total ks. destruct sizes as [|f l]; [contradiction|]. cbn [fold_right]. pose proof (Hs f (or_introl eq_refl)).
    assert (0 <= fold_right Z.add 0 l). { clear Ne. assert (G : forall f, In f l -> 0 < f) by (intros; apply Hs; right; assumption). clear Hs H. induction l as [|g l IH]; [cbn; lia|]. cbn [fold_right]. pose proof (G g (or_introl eq_refl)). specialize (IH (fun f Hf => G f (or_intror Hf))). lia. } lia. }
  assert (T0 : (0 < IZR total)%R) by now apply (IZR_lt 0). assert (N0 : (0 < IZR n)%R) by (apply (IZR_lt 0); lia).
  assert (Each : forall f k, In f sizes -> contribution n f total = Ok k ->
    (share n f total * (1 - / 2 ^ 51) - 1 < IZR k <= share n f total * (1 + / 2 ^ 51) + 1)%R).
  { intros f k Hf E. pose proof (Hs f Hf). unfold contribution in E. destruct (Z.eqb_spec total 0); [lia|]. destruct (Z.eqb_spec f 0); [lia|]. cbn zeta in E. injection E as <-.
    pose proof (share_error n f total ltac:(lia) ltac:(lia) ltac:(lia)) as G. cbn zeta in G. fold (share n f total) in G. destruct G as [G0 G1].
    set (q := fl (inject_Z n * fl (f # Z.to_pos total))) in *. pose proof (floor_bounds q) as F. set (x := share n f total) in *.
    assert (K : (- (x * / 2 ^ 51) <= Q2R q - x <= x * / 2 ^ 51)%R) by (unfold Rabs in G1; destruct (Rcase_abs (Q2R q - x)); lra).
    assert (Lo : (IZR (Z.max 1 (Qfloor q)) >= IZR (Qfloor q))%R) by (apply Rle_ge, IZR_le; lia).
    split; [lra|]. destruct (Z.max_spec 1 (Qfloor q)) as [[_ ->]|[_ ->]]; lra. }
  assert (Sum : (IZR n * IZR (fold_right Z.add 0%Z sizes) / IZR total * (1 - / 2 ^ 51) - IZR (Zlen sizes) <= IZR (fold_right Z.add 0%Z ks)
             <= IZR n * IZR (fold_right Z.add 0%Z sizes) / IZR total * (1 + / 2 ^ 51) + IZR (Zlen sizes))%R).
  { clear Ne Hs. revert H Each. generalize total as t. intros t. clear. intros H Each. unfold Zlen. induction H as [|f k fs ks E H IH]; [cbn; lra|].
    specialize (IH (fun g l Hg => Each g l (or_intror Hg))). pose proof (Each f k (or_introl eq_refl) E) as A. cbn [fold_right length]. rewrite Nat2Z.inj_succ. unfold Z.succ. rewrite !plus_IZR. unfold share in A.
    replace (IZR n * (IZR f + IZR (fold_right Z.add 0%Z fs)) / IZR t)%R with (IZR n * IZR f / IZR t + IZR n * IZR (fold_right Z.add 0%Z fs) / IZR t)%R by (unfold Rdiv; ring). lra. }
  fold total in Sum. replace (IZR n * IZR total / IZR total)%R with (IZR n) in Sum by (field; lra).
  assert (N : (IZR n <= 2 ^ 50)%R) by (replace (2 ^ 50)%R with (IZR (2 ^ 50)) by (cbn; lra); apply IZR_le; lia).
  assert (D : (IZR n * / 2 ^ 51 <= / 2)%R). { replace (/ 2 ^ 51)%R with (/ 2 * / 2 ^ 50)%R by (cbn; lra). assert (Q : (2 ^ 50 * / 2 ^ 50 = 1)%R) by (field; lra). assert (W : (0 < / 2 ^ 50)%R) by (apply Rinv_0_lt_compat; lra). nra. }
  split.
  - apply Z.lt_succ_r. apply lt_IZR. unfold Z.succ. rewrite plus_IZR, minus_IZR. lra.
  - apply Z.lt_succ_r. apply lt_IZR. unfold Z.succ. rewrite !plus_IZR. lra.
Qed.
(** The share is rounded down, even when it is whole: of 98 samples a document that is
    one forty-ninth of the database contributes one, not two *)
Theorem exact_share_refuted : share 98 1 49 = 2%R /\ contribution 98 1 49 = Ok 1.
Proof. split; [unfold share; lra|vm_compute; reflexivity]. Qed.
Theorem contribution_fails n f : contribution n f 0 = Raise ZeroDivisionError /\ (forall total, total <> 0 -> contribution n 0 total = Raise ValueError).
Proof. split; [reflexivity|]. intros total H. unfold contribution. destruct (Z.eqb_spec total 0); [contradiction|]. reflexivity. Qed.
Example contribution_example : contribution 1000 30 100 = Ok 300 /\ contribution 1000 1 5000 = Ok 1 /\ contribution 10 7 7 = Ok 10.
Proof. repeat split; vm_compute; reflexivity. Qed.
