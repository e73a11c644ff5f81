(** FrequencyAdaptive.square (C75). *)
From Verif Require Import PyBase PyFacts PyMore Time Freq FreqProofs FreqDim FreqDimProofs Spectral SpectralProofs TransformProofs WindowProofs ReconProofs OverlapProofs Resample ResampleProofs Decompose DecomposeProofs Square.
From Coq Require Import Reals Lra Psatz.
Local Open Scope R_scope.

(** ** what one band contributes *)
(** the row [r] resampled to [n] values and scaled by one factor, which brings its maximum
    back to the maximum of [r] up to 1e-8 *)
Definition squared_row (n : nat) (r : list R) : list R :=
  map (fun v => v / (rmax (resample_row n r) / (rmax r + / 10 ^ 8) + / 10 ^ 8)) (resample_row n r).
Lemma squared_row_length n r : length (squared_row n r) = n.
Proof. unfold squared_row. now rewrite map_length, resample_row_length. Qed.
Lemma sq_resample_ok b n : (0 < n)%nat -> (0 < cols b)%nat -> sq_resample b n = Ok (concat (map (squared_row n) (rows b))).
Proof.
  intros Hn Hc. unfold sq_resample. rewrite resample2_ok by assumption. cbn [bind rows]. rewrite <- (map_id (rows b)) at 1. rewrite combine_map_same, map_map. reflexivity.
Qed.
Lemma concat_length_const {A} n (l : list (list A)) : Forall (fun r => length r = n) l -> length (concat l) = (length l * n)%nat.
Proof. induction 1 as [|r l H _ IH]; [reflexivity|]. cbn. rewrite app_length, IH, H. reflexivity. Qed.
Lemma concat_nth {A} (d : A) n l : Forall (fun r => length r = n) l -> forall t k, (t < length l)%nat -> (k < n)%nat -> nth (t * n + k) (concat l) d = nth k (nth t l []) d.
Proof.
  induction 1 as [|r l H _ IH]; intros t k Ht Hk; [cbn in Ht; lia|]. cbn [concat]. destruct t as [|t].
  - cbn [nth Nat.mul Nat.add]. apply app_nth1. lia.
  - cbn [length] in Ht. rewrite app_nth2 by (rewrite H; nia). cbn [nth]. rewrite <- IH by lia. f_equal. rewrite H. nia.
Qed.
Lemma squared_rows_len n l : Forall (fun r => length r = n) (map (squared_row n) l).
Proof. apply Forall_forall. intros r H. apply in_map_iff in H as (x & <- & _). apply squared_row_length. Qed.
Lemma mapM_all {A B} (f : A -> result B) (g : A -> B) l : (forall a, In a l -> f a = Ok (g a)) -> mapM f l = Ok (map g l).
Proof.
  induction l as [|a l IH]; intros H; [reflexivity|]. cbn. rewrite (H a) by now left. cbn [bind]. rewrite IH by (intros; apply H; now right). reflexivity.
Qed.

(** ** the stack *)
Lemma vstack_ok L l : l <> [] -> Forall (fun g => length g = L) l -> vstack_T l = Ok (map (fun i => map (fun g => at_ g i) l) (seq 0 L)).
Proof.
  intros Hl F. unfold vstack_T. destruct l as [|f l]; [contradiction|]. assert (E : length f = L) by (inversion F; assumption). rewrite E.
  replace (forallb _ (f :: l)) with true; [reflexivity|]. symmetry. apply forallb_forall. intros g Hg. rewrite Forall_forall in F. apply Nat.eqb_eq. now apply F.
Qed.
Lemma groups_length {A} n (l : list A) h : (0 < n)%nat -> length l = (h * n)%nat -> length (groups n l) = h.
Proof. intros Hn E. unfold groups. rewrite map_length, seq_length, E. apply Nat.div_mul. lia. Qed.
Lemma groups_nth {A} n (l : list A) h t : (0 < n)%nat -> length l = (h * n)%nat -> (t < h)%nat -> nth t (groups n l) [] = firstn n (skipn (t * n) l).
Proof.
  intros Hn E Ht. unfold groups. rewrite E, Nat.div_mul by lia.
  rewrite (nth_indep _ [] (firstn n (skipn (0 * n) l))) by (now rewrite map_length, seq_length). rewrite (map_nth (fun i => firstn n (skipn (i * n) l)) (seq 0 h) 0%nat t).
  now rewrite seq_nth.
Qed.
Lemma nth_firstn_skipn {A} (d : A) n a l k : (k < n)%nat -> nth k (firstn n (skipn a l)) d = nth (a + k) l d.
Proof.
  intros Hk. revert n k Hk l. induction a as [|a IH]; intros n k Hk l.
  - cbn [skipn Nat.add]. revert k Hk l. induction n as [|n IHn]; intros k Hk l; [lia|]. destruct l; [reflexivity|]. destruct k; [reflexivity|]. cbn. apply IHn. lia.
  - destruct l as [|x l]; [cbn; rewrite firstn_nil; destruct k; reflexivity|]. cbn. now apply IH.
Qed.

(** the hypotheses of [square]: a FrequencyAdaptive of [h] rows made from the bands [arrs] *)
Definition squarable (arrs : list (arr2 R)) (s : scale) (bs : list band) (h : nat) (fa : arr2 R * efd) : Prop :=
  fa_input arrs s bs h /\ Forall proper bs /\ fa_new arrs s = Ok fa /\ Forall (fun a => (0 < cols a)%nat) arrs.
(** row [t] of band [b] *)
Definition band_row (arrs : list (arr2 R)) (b t : nat) : list R := nth t (rows (nth b arrs (mkArr 0 []))) [].

Definition stack (arrs : list (arr2 R)) (h n : nat) : list (list R) :=
  map (fun i => map (fun g => at_ g i) (map (fun b => concat (map (squared_row n) (rows b))) arrs)) (seq 0 (h * n)).
Lemma square_start f d arrs s bs h fa n ola : squarable arrs s bs h fa -> (0 < n)%nat ->
  square f d fa n ola =
    let stacked := stack arrs h n in
    let chunk_frequency := round_half_even d (Z.of_nat n) in
    let arr := groups n stacked in
    if negb ola then Ok (Framed chunk_frequency arr)
    else if (d - f =? 0)%Z then Ok (Stacked chunk_frequency stacked)
    else
      do out <- add_chunks (repeat (repeat 0 (length arrs)) (Z.to_nat (round_half_even (Z.of_nat (h * n) * (d - f) + Z.of_nat n * (d - f)) d)))
                  (Z.to_nat (Z.of_nat n * (d - f) / d)) 0 arr;
      Ok (Stacked chunk_frequency out).
Proof.
  intros (Fi & Pr & Ef & Fc) Hn. unfold square. rewrite (fa_iter_bands arrs s bs h fa Fi Pr Ef). cbn [bind].
  rewrite (mapM_all _ (fun b => concat (map (squared_row n) (rows b)))) by (intros a Ha; rewrite Forall_forall in Fc; apply sq_resample_ok; auto). cbn [bind].
  destruct Fi as (Hb & Hl & Hd & Ha & Hne & Hf).
  rewrite (vstack_ok (h * n)).
  - cbn [bind]. fold (stack arrs h n). assert (Ls : length (stack arrs h n) = (h * n)%nat) by (unfold stack; now rewrite map_length, seq_length). rewrite Ls.
    assert (Es : scale_len (escale (snd fa)) = length arrs).
    { unfold fa_new, make_efd in Ef. rewrite Hb in Ef. destruct (Nat.eqb _ _); [|discriminate]. cbn [bind] in Ef. destruct (hconcat arrs); [|discriminate]. injection Ef as <-. cbn [snd escale]. congruence. }
    rewrite Es. reflexivity.
  - destruct arrs; [contradiction|discriminate].
  - apply Forall_forall. intros g Hg. apply in_map_iff in Hg as (b & <- & Ib). rewrite (concat_length_const n) by apply squared_rows_len. rewrite map_length. rewrite Forall_forall in Hf. now rewrite (proj1 (Hf b Ib)).
Qed.
Lemma stack_length arrs h n : length (stack arrs h n) = (h * n)%nat.
Proof. unfold stack. now rewrite map_length, seq_length. Qed.
Lemma stack_row arrs h n t k : Forall (fun x => length (rows x) = h /\ shaped x) arrs -> (t < h)%nat -> (k < n)%nat ->
  nth (t * n + k) (stack arrs h n) [] = map (fun a => at_ (squared_row n (nth t (rows a) [])) k) arrs.
Proof.
  intros F Ht Hk. unfold stack. set (g := fun i : nat => _). assert (Hi : (t * n + k < h * n)%nat) by nia.
  rewrite (nth_indep _ [] (g 0%nat)) by (now rewrite map_length, seq_length). rewrite (map_nth g (seq 0 (h * n)) 0%nat), seq_nth by exact Hi. unfold g. rewrite map_map.
  apply map_ext_in. intros a Ha. rewrite Forall_forall in F. specialize (F a Ha) as [Fa _]. unfold at_. cbn [Nat.add].
  rewrite concat_nth; [|apply squared_rows_len|rewrite map_length; lia|exact Hk].
  rewrite (nth_indep _ [] (squared_row n [])) by (rewrite map_length; lia). now rewrite (map_nth (squared_row n)).
Qed.
Lemma at_bands n t k arrs b : (b < length arrs)%nat -> at_ (map (fun a => at_ (squared_row n (nth t (rows a) [])) k) arrs) b = at_ (squared_row n (band_row arrs b t)) k.
Proof.
  intros Hb. unfold band_row. set (g := fun a : arr2 R => _). unfold at_ at 1. rewrite (nth_indep _ 0 (g (mkArr 0 []))) by (now rewrite map_length). rewrite (map_nth g). reflexivity.
Qed.

Theorem square_framed f d arrs s bs h fa n : squarable arrs s bs h fa -> (0 < n)%nat -> exists frames,
  square f d fa n false = Ok (Framed (round_half_even d (Z.of_nat n)) frames) /\ length frames = h /\
  forall t, (t < h)%nat -> length (nth t frames []) = n /\
  forall k, (k < n)%nat -> length (nth k (nth t frames []) []) = length arrs /\
  forall b, (b < length arrs)%nat -> at_ (nth k (nth t frames []) []) b = at_ (squared_row n (band_row arrs b t)) k.
Proof.
  intros Q Hn. rewrite (square_start f d arrs s bs h fa n false Q Hn). cbn [negb]. eexists. split; [reflexivity|].
  assert (Ls := stack_length arrs h n). split; [now apply groups_length|]. intros t Ht. rewrite (groups_nth n _ h t) by assumption.
  split; [rewrite firstn_length, skipn_length, Ls; nia|]. intros k Hk. rewrite nth_firstn_skipn by exact Hk.
  destruct Q as ((_ & _ & _ & _ & _ & Hf) & _). rewrite stack_row by assumption. split; [apply map_length|]. intros b Hb. now apply at_bands.
Qed.

(** ** overlap-add *)
(** what a frame that starts at row [start] contributes to row [j], band [b] *)
Definition placed (frame : list (list R)) (start j b : nat) : R := if Nat.leb start j then at_ (nth (j - start) frame []) b else 0.
Lemma at_nil b : at_ [] b = 0.
Proof. unfold at_. destruct b; reflexivity. Qed.
Lemma map2_at a b i : length a = length b -> at_ (map2 Rplus a b) i = at_ a i + at_ b i.
Proof. intros H. unfold map2. now apply at_combine_add. Qed.
Lemma nth_map2 B a b j : length a = length b -> Forall (fun r => length r = B) a -> Forall (fun r => length r = B) b -> forall c,
  at_ (nth j (map (fun p => map2 Rplus (fst p) (snd p)) (combine a b)) []) c = at_ (nth j a []) c + at_ (nth j b []) c.
Proof.
  revert b j. induction a as [|r a IH]; intros [|r' b] j E Fa Fb c; try discriminate; [destruct j; cbn [map combine nth]; rewrite at_nil; ring|].
  inversion Fa; inversion Fb; subst. destruct j as [|j]; cbn [combine map nth fst snd]; [apply map2_at; congruence|]. apply IH; auto.
Qed.
Lemma map2_rows B a b : Forall (fun r => length r = B) a -> Forall (fun r => length r = B) b ->
  Forall (fun r => length r = B) (map (fun p => map2 Rplus (fst p) (snd p)) (combine a b)).
Proof.
  intros Fa Fb. apply Forall_forall. intros r H. apply in_map_iff in H as ((x, y) & <- & I). cbn [fst snd]. unfold map2. rewrite map_length, combine_length.
  rewrite Forall_forall in Fa, Fb. rewrite (Fa x), (Fb y); [apply Nat.min_id| |]; [now apply in_combine_r in I|now apply in_combine_l in I].
Qed.
Lemma Forall_firstn {A} (P : A -> Prop) n l : Forall P l -> Forall P (firstn n l).
Proof. intros H. rewrite <- (firstn_skipn n l) in H. now apply Forall_app in H. Qed.
Lemma Forall_skipn {A} (P : A -> Prop) n l : Forall P l -> Forall P (skipn n l).
Proof. intros H. rewrite <- (firstn_skipn n l) in H. now apply Forall_app in H. Qed.
Lemma nth_firstn_at {A} (d : A) n l j : (j < n)%nat -> nth j (firstn n l) d = nth j l d.
Proof. intros H. exact (nth_firstn_skipn d n 0 l j H). Qed.
Lemma nth_skipn_at {A} (d : A) n l j : nth j (skipn n l) d = nth (n + j) l d.
Proof. revert l. induction n as [|n IH]; intros l; [reflexivity|]. destruct l; [destruct j; reflexivity|]. cbn. apply IH. Qed.
Lemma add_rows_ok B out start chunk : (start + length chunk <= length out)%nat -> Forall (fun r => length r = B) out -> Forall (fun r => length r = B) chunk ->
  exists out', add_rows out start chunk = Ok out' /\ length out' = length out /\ Forall (fun r => length r = B) out' /\
  forall j b, at_ (nth j out' []) b = at_ (nth j out []) b + placed chunk start j b.
Proof.
  intros H Fo Fc. unfold add_rows. set (n := length chunk) in *.
  assert (Ls : length (firstn n (skipn start out)) = n) by (rewrite firstn_length, skipn_length; lia). rewrite Ls, Nat.eqb_refl.
  assert (Fs : Forall (fun r => length r = B) (firstn n (skipn start out))) by now apply Forall_firstn, Forall_skipn.
  set (mid := map _ _). assert (Lm : length mid = n) by (unfold mid; rewrite map_length, combine_length, Ls; apply Nat.min_id).
  eexists. split; [reflexivity|]. split; [rewrite !app_length, Lm, firstn_length, skipn_length; lia|]. split.
  - apply Forall_app. split; [now apply Forall_firstn|]. apply Forall_app. split; [now apply map2_rows|now apply Forall_skipn].
  - intros j b. unfold placed. destruct (Nat.leb_spec start j) as [J|J].
    + rewrite app_nth2; rewrite firstn_length; replace (Nat.min start (length out)) with start by lia; [|lia].
      destruct (Nat.lt_ge_cases (j - start) n) as [K|K].
      * rewrite app_nth1 by lia. unfold mid. rewrite (nth_map2 B) by (assumption || congruence). rewrite nth_firstn_skipn by exact K. do 2 f_equal. f_equal. lia.
      * rewrite app_nth2 by lia. rewrite nth_skipn_at, (nth_overflow chunk) by lia. rewrite at_nil, Rplus_0_r, Lm. do 2 f_equal. lia.
    + rewrite app_nth1 by (rewrite firstn_length; lia). rewrite nth_firstn_at by exact J. ring.
Qed.
Lemma add_chunks_ok B n step chunks : forall out i, Forall (fun c => length c = n /\ Forall (fun r => length r = B) c) chunks -> Forall (fun r => length r = B) out ->
  (forall k, (k < length chunks)%nat -> (step * (i + k) + n <= length out)%nat) ->
  exists out', add_chunks out step i chunks = Ok out' /\ length out' = length out /\
  forall j b, at_ (nth j out' []) b = at_ (nth j out []) b + rsum (length chunks) (fun k => placed (nth k chunks []) (step * (i + k)) j b).
Proof.
  induction chunks as [|c chunks IH]; intros out i Fc Fo H.
  - exists out. split; [reflexivity|]. split; [reflexivity|]. intros j b. cbn. ring.
  - inversion Fc as [|? ? [Lc Rc] Fc']; subst. cbn [add_chunks]. pose proof (H 0%nat ltac:(cbn; lia)) as H0. rewrite Nat.add_0_r in H0.
    destruct (add_rows_ok B out (step * i) c H0 Fo Rc) as (o1 & E1 & L1 & F1 & V1). rewrite E1. cbn [bind].
    destruct (IH o1 (S i) Fc' F1) as (o2 & E2 & L2 & V2).
    { intros k Hk. rewrite L1. specialize (H (S k) ltac:(cbn; lia)). now replace (S i + k)%nat with (i + S k)%nat by lia. }
    exists o2. split; [exact E2|]. split; [congruence|]. intros j b. rewrite V2, V1. cbn [length]. rewrite (rsum_first (S (length chunks))) by lia.
    replace (S (length chunks) - 1)%nat with (length chunks) by lia. cbn [nth]. rewrite Nat.add_0_r.
    rewrite (rsum_ext (length chunks) (fun k => placed (nth k chunks []) (step * (S i + k)) j b) (fun k => placed (nth k chunks []) (step * (i + S k)) j b)) by (intros k _; do 2 f_equal; lia). ring.
Qed.
Lemma add_rows_misfit out start chunk : (length out < start + length chunk)%nat -> (1 < length chunk)%nat -> add_rows out start chunk = Raise ValueError.
Proof.
  intros H Hc. unfold add_rows. destruct (Nat.eqb_spec (length (firstn (length chunk) (skipn start out))) (length chunk)) as [E|E].
  - rewrite firstn_length, skipn_length in E. lia.
  - destruct (Nat.eqb_spec (length chunk) 1); [lia|reflexivity].
Qed.
Lemma add_rows_cases out start chunk : add_rows out start chunk = Raise ValueError \/ exists o, add_rows out start chunk = Ok o /\ length o = length out.
Proof.
  unfold add_rows. destruct (Nat.eqb_spec (length (firstn (length chunk) (skipn start out))) (length chunk)) as [E|E].
  - right. eexists. split; [reflexivity|]. rewrite !app_length, map_length, combine_length, E, Nat.min_id, firstn_length, skipn_length. rewrite firstn_length, skipn_length in E. destruct (Nat.le_gt_cases start (length out)); [lia|].
    assert (length chunk = 0)%nat by lia. lia.
  - destruct (Nat.eqb (length chunk) 1); [right; eexists; split; reflexivity|now left].
Qed.
Lemma add_chunks_misfit n step chunks : forall out i, (1 < n)%nat -> chunks <> [] -> Forall (fun c => length c = n) chunks -> (length out < step * (i + (length chunks - 1)) + n)%nat ->
  add_chunks out step i chunks = Raise ValueError.
Proof.
  induction chunks as [|c chunks IH]; intros out i Hn Hne F H; [contradiction|]. inversion F as [|? ? Lc F']; subst. cbn [add_chunks].
  destruct chunks as [|c' chunks].
  - rewrite add_rows_misfit; [reflexivity| |exact Hn]. cbn [length] in H. rewrite Nat.add_0_r in H. exact H.
  - destruct (add_rows_cases out (step * i) c) as [E|(o & E & L)]; rewrite E; [reflexivity|]. cbn [bind]. apply IH; [exact Hn|discriminate|exact F'|]. rewrite L.
    cbn [length] in *. replace (S i + (S (length chunks) - 1))%nat with (i + (S (S (length chunks)) - 1))%nat by lia. exact H.
Qed.
Lemma groups_shape arrs s bs h fa n : squarable arrs s bs h fa -> (0 < n)%nat ->
  Forall (fun c => length c = n /\ Forall (fun r => length r = length arrs) c) (groups n (stack arrs h n)).
Proof.
  intros Q Hn. destruct Q as ((_ & _ & _ & _ & _ & Hf) & _). assert (Ls := stack_length arrs h n). apply Forall_forall. intros c Hc.
  unfold groups in Hc. rewrite Ls, Nat.div_mul in Hc by lia. apply in_map_iff in Hc as (t & <- & It). apply in_seq in It. split; [rewrite firstn_length, skipn_length, Ls; nia|].
  apply Forall_firstn, Forall_skipn. unfold stack. apply Forall_forall. intros r Hr. apply in_map_iff in Hr as (i & <- & _). now rewrite !map_length.
Qed.
(** the value of band [b] at row [j] when frame [t] starts at row [t * hop] *)
Definition overlapped (arrs : list (arr2 R)) (h n hop j b : nat) : R :=
  rsum h (fun t => if Nat.leb (t * hop) j && Nat.ltb j (t * hop + n) then at_ (squared_row n (band_row arrs b t)) (j - t * hop) else 0).
Lemma placed_frames arrs s bs h fa n hop j b : squarable arrs s bs h fa -> (0 < n)%nat -> (b < length arrs)%nat ->
  rsum (length (groups n (stack arrs h n))) (fun k => placed (nth k (groups n (stack arrs h n)) []) (hop * (0 + k)) j b) = overlapped arrs h n hop j b.
Proof.
  intros Q Hn Hb. assert (Ls := stack_length arrs h n). rewrite (groups_length n _ h) by assumption. unfold overlapped. apply rsum_ext. intros t Ht.
  rewrite (groups_nth n _ h t) by assumption. cbn [Nat.add]. rewrite (Nat.mul_comm hop t). unfold placed. destruct (Nat.leb_spec (t * hop) j) as [J|J]; [|reflexivity]. cbn [andb].
  destruct (Nat.ltb_spec j (t * hop + n)) as [K|K].
  - rewrite nth_firstn_skipn by lia. destruct Q as ((_ & _ & _ & _ & _ & Hf) & _). rewrite stack_row by (assumption || lia). now apply at_bands.
  - rewrite nth_overflow; [apply at_nil|]. rewrite firstn_length. lia.
Qed.
Lemma zeros_rows B m : Forall (fun r : list R => length r = B) (repeat (repeat 0 B) m).
Proof. apply Forall_forall. intros r H. apply repeat_spec in H as ->. apply repeat_length. Qed.
Lemma zeros_at B m j b : at_ (nth j (repeat (repeat 0 B) m) []) b = 0.
Proof.
  destruct (Nat.lt_ge_cases j m) as [H|H].
  - rewrite (nth_indep _ [] (repeat 0 B)) by (now rewrite repeat_length). rewrite nth_repeat. apply at_zeros.
  - rewrite nth_overflow by (now rewrite repeat_length). apply at_nil.
Qed.
(** half-lapped frames of an even number of samples are laid out as the time dimension says *)
Theorem square_half_lapped f arrs s bs h fa m : squarable arrs s bs h fa -> (0 < m)%nat -> (0 < f)%Z -> exists out,
  square f (2 * f) fa (2 * m) true = Ok (Stacked (round_half_even (2 * f) (Z.of_nat (2 * m))) out) /\ length out = ((h + 1) * m)%nat /\
  forall j b, (b < length arrs)%nat -> at_ (nth j out []) b = overlapped arrs h (2 * m) m j b.
Proof.
  intros Q Hm Hf. rewrite (square_start f (2 * f) arrs s bs h fa (2 * m) true Q) by lia. cbn [negb].
  destruct (Z.eqb_spec (2 * f - f) 0); [lia|]. cbv zeta.
  replace (Z.of_nat (h * (2 * m)) * (2 * f - f) + Z.of_nat (2 * m) * (2 * f - f))%Z with (Z.of_nat ((h + 1) * m) * (2 * f))%Z by nia.
  rewrite round_exact, Nat2Z.id by lia.
  replace (Z.of_nat (2 * m) * (2 * f - f))%Z with (Z.of_nat m * (2 * f))%Z by nia. rewrite Z.div_mul, Nat2Z.id by lia.
  destruct (add_chunks_ok (length arrs) (2 * m) m (groups (2 * m) (stack arrs h (2 * m))) (repeat (repeat 0 (length arrs)) ((h + 1) * m)) 0) as (out & E & L & V).
  - apply (groups_shape arrs s bs h fa); [exact Q|lia].
  - apply zeros_rows.
  - rewrite (groups_length (2 * m) _ h); [|lia|apply stack_length]. intros k Hk. rewrite repeat_length. nia.
  - rewrite E. cbn [bind]. exists out. split; [reflexivity|]. split; [now rewrite L, repeat_length|]. intros j b Hb. rewrite V, zeros_at, Rplus_0_l.
    apply (placed_frames arrs s bs h fa); [exact Q|lia|exact Hb].
Qed.
(** frames that do not overlap follow each other *)
Theorem square_no_overlap f arrs s bs h fa n : squarable arrs s bs h fa -> (0 < n)%nat -> exists out,
  square f f fa n true = Ok (Stacked (round_half_even f (Z.of_nat n)) out) /\ length out = (h * n)%nat /\
  forall t k b, (t < h)%nat -> (k < n)%nat -> (b < length arrs)%nat -> at_ (nth (t * n + k) out []) b = at_ (squared_row n (band_row arrs b t)) k.
Proof.
  intros Q Hn. rewrite (square_start f f arrs s bs h fa n true Q Hn). cbn [negb]. replace (f - f =? 0)%Z with true by (symmetry; apply Z.eqb_eq; lia).
  eexists. split; [reflexivity|]. split; [apply stack_length|]. intros t k b Ht Hk Hb. destruct Q as ((_ & _ & _ & _ & _ & Hf) & _). rewrite stack_row by assumption. now apply at_bands.
Qed.
(** [d = q * f / ...]: n (d - f) / d is the hop the code uses, n f / d the hop the time
    dimension asks for.  More than half: laid out too far apart. *)
Theorem square_more_overlap_refuted f d arrs s bs h fa n hop : squarable arrs s bs h fa -> (0 < n)%nat -> (0 < f)%Z -> (2 * f < d)%Z ->
  (Z.of_nat n * f = Z.of_nat hop * d)%Z -> exists out,
  square f d fa n true = Ok (Stacked (round_half_even d (Z.of_nat n)) out) /\ length out = ((h + 1) * (n - hop))%nat /\ (hop < n - hop)%nat /\
  forall j b, (b < length arrs)%nat -> at_ (nth j out []) b = overlapped arrs h n (n - hop) j b.
Proof.
  intros Q Hn Hf Hd E. assert (Hh : (hop < n - hop)%nat) by nia. rewrite (square_start f d arrs s bs h fa n true Q) by lia. cbn [negb].
  destruct (Z.eqb_spec (d - f) 0); [lia|]. cbv zeta.
  replace (Z.of_nat (h * n) * (d - f) + Z.of_nat n * (d - f))%Z with (Z.of_nat ((h + 1) * (n - hop)) * d)%Z by nia.
  rewrite round_exact, Nat2Z.id by lia.
  replace (Z.of_nat n * (d - f))%Z with (Z.of_nat (n - hop) * d)%Z by nia. rewrite Z.div_mul, Nat2Z.id by lia.
  destruct (add_chunks_ok (length arrs) n (n - hop) (groups n (stack arrs h n)) (repeat (repeat 0 (length arrs)) ((h + 1) * (n - hop))) 0) as (out & Eo & L & V).
  - apply (groups_shape arrs s bs h fa); [exact Q|lia].
  - apply zeros_rows.
  - rewrite (groups_length n _ h); [|lia|apply stack_length]. intros k Hk. rewrite repeat_length. nia.
  - rewrite Eo. cbn [bind]. exists out. split; [reflexivity|]. split; [now rewrite L, repeat_length|]. split; [exact Hh|]. intros j b Hb. rewrite V, zeros_at, Rplus_0_l.
    apply (placed_frames arrs s bs h fa); [exact Q|lia|exact Hb].
Qed.
(** less than half (but some): the last frame does not fit *)
Theorem square_less_overlap_refuted f d arrs s bs h fa n hop : squarable arrs s bs h fa -> (0 < n)%nat -> (0 < h)%nat -> (0 < f < d)%Z -> (d < 2 * f)%Z ->
  (Z.of_nat n * f = Z.of_nat hop * d)%Z -> square f d fa n true = Raise ValueError.
Proof.
  intros Q Hn Hh Hf Hd E. assert (H2 : (n - hop < hop)%nat) by nia. assert (H3 : (0 < n - hop)%nat) by nia. rewrite (square_start f d arrs s bs h fa n true Q) by lia. cbn [negb].
  destruct (Z.eqb_spec (d - f) 0); [lia|]. cbv zeta.
  replace (Z.of_nat (h * n) * (d - f) + Z.of_nat n * (d - f))%Z with (Z.of_nat ((h + 1) * (n - hop)) * d)%Z by nia.
  rewrite round_exact, Nat2Z.id by lia.
  replace (Z.of_nat n * (d - f))%Z with (Z.of_nat (n - hop) * d)%Z by nia. rewrite Z.div_mul, Nat2Z.id by lia.
  pose proof (groups_shape arrs s bs h fa n Q Hn) as Gs. assert (Lg : length (groups n (stack arrs h n)) = h) by (apply groups_length; [lia|apply stack_length]).
  rewrite (add_chunks_misfit n); [reflexivity|lia|intros N; rewrite N in Lg; cbn in Lg; lia| |].
  - apply Forall_impl with (2 := Gs). now intros a [A _].
  - rewrite repeat_length, Lg. nia.
Qed.

(** ** the level of a band *)
Definition mean (x : list R) : R := / INR (length x) * rsum (length x) (at_ x).
Lemma resample_one x : x <> [] -> at_ (resample_row 1 x) 0 = mean x.
Proof.
  intros Hx. rewrite resample_kernel by (assumption || lia). unfold mean. f_equal. apply rsum_ext. intros s Hs. unfold rs_kernel.
  assert (L : (0 < length x)%nat) by now apply nonempty_length. replace (Nat.min 1 (length x)) with 1%nat by lia. cbn [Nat.div Nat.divmod fst rsum Nat.sub Nat.even]. ring.
Qed.
(** resampling keeps the mean *)
Theorem resample_mean n x : (0 < n)%nat -> x <> [] -> mean (resample_row n x) = mean x.
Proof.
  intros Hn Hx. assert (L : (0 < length x)%nat) by now apply nonempty_length. rewrite <- (resample_one x Hx), <- resample_one by (apply nonempty_length; now rewrite resample_row_length).
  destruct (Nat.eq_dec n 1) as [->|N].
  - pose proof (resample_same (resample_row 1 x)) as E. rewrite resample_row_length in E. rewrite E by (apply nonempty_length; now rewrite resample_row_length). reflexivity.
  - rewrite resample_through by (assumption || lia). reflexivity.
Qed.
Lemma at_In x i : (i < length x)%nat -> In (at_ x i) x.
Proof. intros H. unfold at_. now apply nth_In. Qed.
Lemma rsum_le n f g : (forall i, (i < n)%nat -> f i <= g i) -> rsum n f <= rsum n g.
Proof. induction n as [|n IH]; intros H; [apply Rle_refl|]. cbn. apply Rplus_le_compat; [apply IH; auto|apply H; lia]. Qed.
Lemma rsum_const n c : rsum n (fun _ => c) = INR n * c.
Proof. induction n as [|n IH]; [cbn; ring|]. cbn [rsum]. rewrite IH, S_INR. ring. Qed.
Lemma mean_le_max x : x <> [] -> mean x <= rmax x.
Proof.
  intros Hx. assert (L : (0 < length x)%nat) by now apply nonempty_length. assert (P : 0 < INR (length x)) by now apply lt_0_INR.
  unfold mean. apply Rmult_le_reg_l with (INR (length x)); [exact P|]. rewrite <- Rmult_assoc, Rinv_r, Rmult_1_l by lra.
  rewrite <- rsum_const. apply rsum_le. intros i Hi. now apply rmax_ge, at_In.
Qed.
Lemma max_le_sum x : x <> [] -> (forall v, In v x -> 0 <= v) -> rmax x <= INR (length x) * mean x.
Proof.
  intros Hx Hp. assert (L : (0 < length x)%nat) by now apply nonempty_length. assert (P : 0 < INR (length x)) by now apply lt_0_INR.
  unfold mean. rewrite <- Rmult_assoc, Rinv_r, Rmult_1_l by lra. destruct (In_nth x (rmax x) 0 (rmax_in x Hx)) as (i & Hi & Ei). rewrite <- Ei.
  assert (G : forall n, (i < n)%nat -> (n <= length x)%nat -> nth i x 0 <= rsum n (at_ x)).
  { induction n as [|n IH]; intros H1 H2; [lia|]. cbn [rsum]. assert (0 <= at_ x n) by (apply Hp, at_In; lia).
    destruct (Nat.eq_dec i n) as [->|]; [|specialize (IH ltac:(lia) ltac:(lia)); lra].
    assert (0 <= rsum n (at_ x)) by (rewrite <- (Rmult_0_r (INR n)), <- rsum_const; apply rsum_le; intros j Hj; apply Hp, at_In; lia). unfold at_ at 2. lra. }
  apply (G (length x)); lia.
Qed.
Lemma rmax_scaled c l : l <> [] -> 0 < c -> rmax (map (fun v => v / c) l) = rmax l / c.
Proof.
  intros Hl Hc. assert (Pc : 0 < / c) by now apply Rinv_0_lt_compat. apply Rle_antisym.
  - assert (I : In (rmax (map (fun v => v / c) l)) (map (fun v => v / c) l)) by (apply rmax_in; destruct l; [contradiction|discriminate]).
    apply in_map_iff in I as (v & E & Iv). rewrite <- E. apply Rmult_le_compat_r; [lra|]. now apply rmax_ge.
  - apply rmax_ge. apply in_map_iff. exists (rmax l). split; [reflexivity|]. now apply rmax_in.
Qed.
(** a band of magnitudes keeps its maximum, up to a relative error of its length times 1e-8 *)
Theorem squared_peak n r : (0 < n)%nat -> r <> [] -> (forall v, In v r -> 0 <= v) ->
  rmax r - INR (length r) * / 10 ^ 8 * (rmax r + / 10 ^ 8) <= rmax (squared_row n r) <= rmax r + / 10 ^ 8.
Proof.
  intros Hn Hr Hp. set (q := resample_row n r). assert (Hq : q <> []) by (apply nonempty_length; unfold q; now rewrite resample_row_length).
  assert (Mm : 0 <= mean r /\ rmax r <= INR (length r) * mean r).
  { split; [|now apply max_le_sum]. unfold mean. apply Rmult_le_pos; [left; apply Rinv_0_lt_compat, lt_0_INR; now apply nonempty_length|].
    rewrite <- (Rmult_0_r (INR (length r))), <- rsum_const. apply rsum_le. intros i Hi. now apply Hp, at_In. }
  assert (Mq : mean r <= rmax q) by (rewrite <- (resample_mean n r Hn Hr); now apply mean_le_max).
  assert (M0 : 0 <= rmax r) by (apply Hp; now apply rmax_in).
  set (e := / 10 ^ 8) in *. assert (He : 0 < e) by (unfold e; apply Rinv_0_lt_compat; lra).
  set (M := rmax r) in *. set (Q := rmax q) in *. assert (Q0 : 0 <= Q) by lra.
  assert (C0 : 0 < Q / (M + e) + e) by (apply Rplus_le_lt_0_compat; [apply Rmult_le_pos; [exact Q0|left; apply Rinv_0_lt_compat; lra]|exact He]).
  unfold squared_row. fold q. fold Q. fold e. fold M. rewrite rmax_scaled by assumption. fold Q.
  assert (L : 1 <= INR (length r)) by (apply (le_INR 1); now apply nonempty_length). set (l := INR (length r)) in *.
  assert (EQ : Q / (Q / (M + e) + e) = (M + e) * Q / (Q + e * (M + e))) by (field; split; nra). rewrite EQ.
  assert (D : 0 < Q + e * (M + e)) by nra. assert (MQ : M <= l * Q) by nra. clearbody l e M Q. split.
  - apply Rmult_le_reg_r with (Q + e * (M + e)); [exact D|]. replace ((M + e) * Q / (Q + e * (M + e)) * (Q + e * (M + e))) with ((M + e) * Q) by (field; lra).
    assert (0 <= l * Q - M) by lra. assert (0 <= e * (M + e)) by nra. assert (0 <= (l * Q - M) * (e * (M + e))) by nra. assert (0 <= l * (e * (M + e)) * (e * (M + e))) by (apply Rmult_le_pos; nra). nra.
  - apply Rmult_le_reg_r with (Q + e * (M + e)); [exact D|]. replace ((M + e) * Q / (Q + e * (M + e)) * (Q + e * (M + e))) with ((M + e) * Q) by (field; lra). nra.
Qed.
(** silence stays silent *)
Theorem squared_silence n m : (0 < m)%nat -> squared_row n (repeat 0 m) = repeat 0 n.
Proof.
  intros Hm. unfold squared_row. rewrite resample_zeros by exact Hm. set (c := _ + _). clearbody c. apply list_ext_at; [now rewrite map_length|]. rewrite map_length, repeat_length.
  intros i Hi. rewrite at_zeros. unfold at_. rewrite (nth_indep _ 0 (0 / c)) by (now rewrite map_length, repeat_length). rewrite (map_nth (fun v => v / c)), nth_repeat. unfold Rdiv. ring.
Qed.
(** a band that already has n values is only scaled *)
Theorem squared_same r : r <> [] -> squared_row (length r) r = map (fun v => v / (rmax r / (rmax r + / 10 ^ 8) + / 10 ^ 8)) r.
Proof. intros Hr. unfold squared_row. now rewrite resample_same. Qed.

(** ** example: two bands, two rows *)
Definition sq_arrs : list (arr2 R) := [mkArr 1 [[1]; [2]]; mkArr 2 [[0; 3]; [4; 1]]].
Definition sq_bands : list band := [mkBand 0 100; mkBand 100 300].
Example sq_squarable : exists fa, squarable sq_arrs (Explicit sq_bands) sq_bands 2 fa.
Proof.
  assert (I : fa_input sq_arrs (Explicit sq_bands) sq_bands 2).
  { split; [reflexivity|]. split; [reflexivity|]. split.
    { constructor; [|constructor; [simpl; tauto|constructor]]. simpl. intros [K|[]]. injection K. lra. }
    split; [reflexivity|]. split; [discriminate|]. repeat constructor. }
  destruct (fa_new_ok _ _ _ _ I) as (w & E & _). eexists. split; [exact I|]. split; [repeat constructor; unfold proper; simpl; lra|]. split; [exact E|]. repeat constructor.
Qed.
