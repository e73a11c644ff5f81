(** Overlap-add and reconstruction (C48, C66). *)
From Verif Require Import PyBase PyFacts PyMore Time Spectral SpectralProofs TransformProofs WindowProofs ReconProofs.
From Coq Require Import Reals Lra Psatz.
Local Open Scope R_scope.

(** what one frame that starts at [start] contributes to sample [j] *)
Definition contribution (f : list R) (start j : nat) : R := if Nat.leb start j then at_ f (j - start) else 0.
Lemma at_out l i : (length l <= i)%nat -> at_ l i = 0.
Proof. intros H. unfold at_. now apply nth_overflow. Qed.
Lemma at_app l m i : at_ (l ++ m) i = if Nat.ltb i (length l) then at_ l i else at_ m (i - length l).
Proof. unfold at_. destruct (Nat.ltb_spec i (length l)); [now apply app_nth1|now apply app_nth2]. Qed.
Lemma at_firstn l n i : at_ (firstn n l) i = if Nat.ltb i n then at_ l i else 0.
Proof.
  destruct (Nat.ltb_spec i n) as [H|H]; [|apply at_out; rewrite firstn_length; lia].
  unfold at_. rewrite <- (firstn_skipn n l) at 2. destruct (Nat.lt_ge_cases i (length (firstn n l))) as [L|L].
  - now rewrite app_nth1.
  - rewrite (nth_overflow (firstn n l)) by lia. rewrite nth_overflow; [reflexivity|]. rewrite app_length, skipn_length. rewrite firstn_length in L |- *. lia.
Qed.
Lemma at_skipn l n i : at_ (skipn n l) i = at_ l (n + i).
Proof. revert n. induction l as [|a l IH]; intros n; [unfold at_; destruct n, i; reflexivity|]. destruct n as [|n]; [reflexivity|]. apply IH. Qed.
Lemma at_combine_add l m i : length l = length m -> at_ (map (fun p => fst p + snd p) (combine l m)) i = at_ l i + at_ m i.
Proof.
  revert m i. induction l as [|a l IH]; intros [|b m] i E; try discriminate; [unfold at_; destruct i; cbn; ring|].
  destruct i as [|i]; [reflexivity|]. injection E as E. exact (IH m i E).
Qed.
Lemma at_combine_mul l m i : at_ (map (fun p => fst p * snd p) (combine l m)) i = at_ l i * at_ m i.
Proof.
  revert m i. induction l as [|a l IH]; intros [|b m] i; [unfold at_; destruct i; cbn; ring|unfold at_; destruct i; cbn; ring|unfold at_; destruct i; cbn; ring|].
  destruct i as [|i]; [reflexivity|]. exact (IH m i).
Qed.

Lemma add_slice_spec arr start n f : length f = n -> (0 < n)%nat -> (start + n <= length arr)%nat ->
  exists arr', add_slice arr (Z.of_nat start) (Z.of_nat start + Z.of_nat n) f = Ok arr' /\ length arr' = length arr
    /\ forall j, at_ arr' j = at_ arr j + contribution f start j.
Proof.
  intros Ef Hn Hlen. unfold add_slice.
  rewrite py_slice_pos by (unfold Zlen; lia).
  assert (Elen : length (firstn (Z.to_nat (Z.of_nat start + Z.of_nat n - Z.of_nat start)) (skipn (Z.to_nat (Z.of_nat start)) arr)) = n).
  { rewrite firstn_length, skipn_length. lia. }
  rewrite Elen. rewrite (firstn_all2 f) by lia.
  assert (Erep : (if Nat.eqb (length f) 1 then repeat (at_ f 0) n else f) = f).
  { destruct (Nat.eqb_spec (length f) 1) as [E|E]; [|reflexivity]. destruct f as [|a [|b f]]; try discriminate. subst n. reflexivity. }
  rewrite Erep, Ef, Nat.eqb_refl.
  assert (Enorm : Z.to_nat (norm_index (Zlen arr) (Z.of_nat start)) = start).
  { unfold norm_index, Zlen. destruct (Z.ltb_spec (Z.of_nat start) 0); [lia|]. lia. }
  rewrite Enorm. replace (Z.to_nat (Z.of_nat start + Z.of_nat n - Z.of_nat start)) with n by lia. rewrite Nat2Z.id.
  eexists. split; [reflexivity|]. split.
  - rewrite !app_length, map_length, combine_length, !firstn_length, !skipn_length. lia.
  - intros j. rewrite at_app. rewrite firstn_length. replace (Nat.min start (length arr)) with start by lia. unfold contribution.
    destruct (Nat.ltb_spec j start) as [L|L].
    + rewrite at_firstn. destruct (Nat.ltb_spec j start); [|lia]. destruct (Nat.leb_spec start j); [lia|]. ring.
    + destruct (Nat.leb_spec start j); [|lia]. rewrite at_app, map_length, combine_length, firstn_length, skipn_length.
      replace (Nat.min (Nat.min n (length arr - start)) (length f)) with n by lia.
      destruct (Nat.ltb_spec (j - start) n) as [L2|L2].
      * rewrite at_combine_add by (rewrite firstn_length, skipn_length; lia). rewrite at_firstn. destruct (Nat.ltb_spec (j - start) n); [|lia].
        rewrite at_skipn. do 2 f_equal. lia.
      * rewrite at_skipn. rewrite (at_out f) by lia. rewrite Rplus_0_r. f_equal. lia.
Qed.
(** the sum of what the frames contribute, frame [i] starting at [(i0 + i) * hop] *)
Definition total (frames : list (list R)) (hop i0 j : nat) : R :=
  rsum (length frames) (fun i => contribution (nth i frames []) ((i0 + i) * hop) j).
Lemma overlap_from_spec frames : forall arr hop n i0, (0 < n)%nat -> Forall (fun f => length f = n) frames ->
  ((i0 + length frames) * hop + n <= length arr + hop)%nat ->
  exists out, overlap_from arr (Z.of_nat hop) (Z.of_nat n) (Z.of_nat i0) frames = Ok out /\ length out = length arr
    /\ forall j, at_ out j = at_ arr j + total frames hop i0 j.
Proof.
  induction frames as [|f r IH]; intros arr hop n i0 Hn HF Hlen.
  - exists arr. split; [reflexivity|]. split; [reflexivity|]. intros j. unfold total. cbn. ring.
  - inversion HF as [|? ? Hf HF']; subst. cbn [overlap_from]. cbn [length] in Hlen.
    destruct (add_slice_spec arr (i0 * hop) (length f) f eq_refl Hn) as (a1 & E1 & L1 & A1); [nia|].
    rewrite Nat2Z.inj_mul in E1. rewrite E1. cbn [bind].
    replace (Z.of_nat i0 + 1)%Z with (Z.of_nat (S i0)) by lia.
    destruct (IH a1 hop (length f) (S i0) Hn HF') as (out & E2 & L2 & A2); [nia|].
    exists out. split; [exact E2|]. split; [congruence|]. intros j. rewrite A2, A1. unfold total. cbn [length].
    rewrite (rsum_first (S (length r))) by lia. replace (S (length r) - 1)%nat with (length r) by lia. rewrite Nat.add_0_r. cbn [nth].
    rewrite (rsum_ext (length r) _ (fun i => contribution (nth (S i) (f :: r) []) ((i0 + S i) * hop) j)) by (intros; cbn [nth]; f_equal; lia).
    cbn [nth]. ring.
Qed.
Lemma round_exact p q : (0 < q)%Z -> round_half_even (p * q) q = p.
Proof. intros H. unfold round_half_even. rewrite Z.div_mul by lia. replace (p * q - p * q)%Z with 0%Z by ring. destruct (Z.ltb_spec (2 * 0) q); [reflexivity|lia]. Qed.
(** Overlap-add of [N] frames of [n] samples, one every [hop] samples of [sp] picoseconds: the
    result has [(N-1) * hop + n] samples, and each is the sum of the windowed samples
    that fall on it. *)
Lemma overlap_add_spec (sp : Z) (hop n : nat) (wfunc : option (list R)) (frames : list (list R)) :
  (0 < sp)%Z -> (0 < n)%nat -> (0 < length frames)%nat -> Forall (fun f => length f = n) frames -> (forall w, wfunc = Some w -> length w = n) ->
  exists out, overlap_add {| t_freq := Z.of_nat hop * sp; t_dur := Z.of_nat n * sp; t_size := Some (Zlen frames) |} wfunc (Z.of_nat n) frames = Ok out
    /\ length out = ((length frames - 1) * hop + n)%nat
    /\ forall j, at_ out j = total (map (apply_window wfunc) frames) hop 0 j.
Proof.
  intros Hsp Hn HN HF Hw. unfold overlap_add. cbn [t_dur t_freq t_size].
  destruct (Z.eqb_spec (Z.of_nat n) 0); [lia|]. rewrite (Z.mul_comm (Z.of_nat n) sp), Z.div_mul by lia. destruct (Z.eqb_spec sp 0); [lia|].
  rewrite (Z.mul_comm sp), !round_exact by exact Hsp. unfold t_span. cbn [t_size t_freq t_dur bind].
  replace (Zlen frames * (Z.of_nat hop * sp) + (Z.of_nat n * sp - Z.of_nat hop * sp))%Z with ((Z.of_nat ((length frames - 1) * hop + n)) * sp)%Z by (unfold Zlen; nia).
  rewrite Z.div_mul, Nat2Z.id by lia.
  destruct (overlap_from_spec (map (apply_window wfunc) frames) (repeat 0 ((length frames - 1) * hop + n)) hop n 0 Hn) as (out & E & L & A).
  - rewrite Forall_map. apply Forall_impl with (2 := HF). intros f Ef. unfold apply_window. destruct wfunc as [w|]; [|exact Ef].
    rewrite map_length, combine_length, (Hw w eq_refl). lia.
  - rewrite map_length, repeat_length. nia.
  - change 0%Z with (Z.of_nat 0). exists out. split; [exact E|]. rewrite repeat_length in L. split; [exact L|]. intros j. rewrite A.
    unfold at_ at 1. rewrite nth_repeat. ring.
Qed.

(** ** Half-overlapping frames *)
Lemma nth_map_nil {A B} (f : list A -> list B) l i : f [] = [] -> nth i (map f l) [] = f (nth i l []).
Proof. intros E. rewrite <- E at 1. apply map_nth. Qed.
Lemma contribution_out f start j n : length f = n -> (j < start \/ start + n <= j)%nat -> contribution f start j = 0.
Proof. intros E H. unfold contribution. destruct (Nat.leb_spec start j); [|reflexivity]. apply at_out. lia. Qed.
Lemma total_interior frames h k r : (0 < h)%nat -> Forall (fun f => length f = (2 * h)%nat) frames -> (1 <= k)%nat -> (k < length frames)%nat -> (r < h)%nat ->
  total frames h 0 (k * h + r) = at_ (nth (k - 1) frames []) (r + h) + at_ (nth k frames []) r.
Proof.
  intros Hh HF Hk1 Hk Hr. unfold total. set (g := fun i => contribution (nth i frames []) ((0 + i) * h) (k * h + r)).
  assert (G : forall i, (i < length frames)%nat -> g i = (if Nat.eqb i (k - 1) then at_ (nth (k - 1) frames []) (r + h) else 0) + (if Nat.eqb i k then at_ (nth k frames []) r else 0)).
  { intros i Hi. unfold g. cbn [Nat.add]. assert (L : length (nth i frames []) = (2 * h)%nat) by (rewrite Forall_forall in HF; apply HF, nth_In; exact Hi).
    destruct (Nat.eqb_spec i (k - 1)) as [->|N1].
    - destruct (Nat.eqb_spec (k - 1) k); [lia|]. unfold contribution. destruct (Nat.leb_spec ((k - 1) * h) (k * h + r)); [|nia].
      rewrite Rplus_0_r. f_equal. nia.
    - destruct (Nat.eqb_spec i k) as [->|N2].
      + unfold contribution. destruct (Nat.leb_spec (k * h) (k * h + r)); [|nia]. rewrite Rplus_0_l. f_equal. lia.
      + rewrite Rplus_0_l. apply contribution_out with (1 := L). assert (i < k - 1 \/ k < i)%nat as [C|C] by lia; [right|left]; nia. }
  rewrite (rsum_ext _ _ _ G), rsum_plus.
  rewrite (rsum_single _ _ (k - 1)%nat); [|lia|intros i _ N; destruct (Nat.eqb_spec i (k - 1)); [contradiction|reflexivity]].
  rewrite (rsum_single _ _ k); [|lia|intros i _ N; destruct (Nat.eqb_spec i k); [contradiction|reflexivity]].
  now rewrite !Nat.eqb_refl.
Qed.
Lemma total_first frames h r : (0 < h)%nat -> Forall (fun f => length f = (2 * h)%nat) frames -> (0 < length frames)%nat -> (r < h)%nat ->
  total frames h 0 r = at_ (nth 0 frames []) r.
Proof.
  intros Hh HF HN Hr. unfold total. rewrite (rsum_single _ _ 0%nat); [cbn [Nat.add Nat.mul]; unfold contribution; cbn [Nat.leb]; f_equal; lia|exact HN|].
  intros i Hi N. assert (L : length (nth i frames []) = (2 * h)%nat) by (rewrite Forall_forall in HF; apply HF, nth_In; exact Hi).
  apply contribution_out with (1 := L). left. nia.
Qed.
Lemma total_last frames h r : (0 < h)%nat -> Forall (fun f => length f = (2 * h)%nat) frames -> (0 < length frames)%nat -> (r < h)%nat ->
  total frames h 0 (length frames * h + r) = at_ (nth (length frames - 1) frames []) (r + h).
Proof.
  intros Hh HF HN Hr. unfold total. rewrite (rsum_single _ _ (length frames - 1)%nat); [|lia|].
  - cbn [Nat.add]. unfold contribution. destruct (Nat.leb_spec ((length frames - 1) * h) (length frames * h + r)); [|nia]. f_equal. nia.
  - intros i Hi N. assert (L : length (nth i frames []) = (2 * h)%nat) by (rewrite Forall_forall in HF; apply HF, nth_In; exact Hi).
    apply contribution_out with (1 := L). right. nia.
Qed.

(** [N] half-overlapping frames of [2h] samples of the signal [x] *)
Definition half_lapped_frames (h N : nat) (x : list R) : list (list R) := map (fun i => firstn (2 * h) (skipn (i * h) x)) (seq 0 N).
Lemma frames_count h N x : length (half_lapped_frames h N x) = N.
Proof. unfold half_lapped_frames. now rewrite map_length, seq_length. Qed.
Lemma frames_at h N x i t : (i < N)%nat -> (t < 2 * h)%nat -> at_ (nth i (half_lapped_frames h N x) []) t = at_ x (i * h + t).
Proof.
  intros Hi Ht. unfold half_lapped_frames. rewrite nth_map_seq by exact Hi. rewrite at_firstn. destruct (Nat.ltb_spec t (2 * h)); [|lia]. apply at_skipn.
Qed.
Lemma frames_width h N x : length x = ((N + 1) * h)%nat -> Forall (fun f => length f = (2 * h)%nat) (half_lapped_frames h N x).
Proof.
  intros E. unfold half_lapped_frames. rewrite Forall_map, Forall_forall. intros i Hi. apply in_seq in Hi. rewrite firstn_length, skipn_length, E. nia.
Qed.
Definition vorbis_frames (h N : nat) (x : list R) : list (list R) := map (apply_window (Some (oggvorbis (2 * h)))) (half_lapped_frames h N x).
Lemma apply_window_at w f t : at_ (apply_window (Some w) f) t = at_ w t * at_ f t.
Proof. apply at_combine_mul. Qed.
Lemma apply_window_length w f n : length w = n -> length f = n -> length (apply_window (Some w) f) = n.
Proof. intros A B. cbn. rewrite map_length, combine_length. lia. Qed.
Lemma apply_window_nil w : apply_window (Some w) [] = [].
Proof. cbn. destruct w; reflexivity. Qed.
Lemma vorbis_frames_width h N x : length x = ((N + 1) * h)%nat -> Forall (fun f => length f = (2 * h)%nat) (vorbis_frames h N x).
Proof.
  intros E. unfold vorbis_frames. rewrite Forall_map. apply Forall_impl with (2 := frames_width h N x E). intros f Hf.
  apply apply_window_length; [apply oggvorbis_length|exact Hf].
Qed.
Lemma vorbis_frames_at h N x i t : (i < N)%nat -> (t < 2 * h)%nat -> at_ (nth i (vorbis_frames h N x) []) t = at_ (oggvorbis (2 * h)) t * at_ x (i * h + t).
Proof. intros Hi Ht. unfold vorbis_frames. rewrite nth_map_nil by apply apply_window_nil. rewrite apply_window_at, frames_at by assumption. reflexivity. Qed.
Definition half_lapped_dim (sp : Z) (h N : nat) : timedim := {| t_freq := Z.of_nat h * sp; t_dur := Z.of_nat (2 * h) * sp; t_size := Some (Z.of_nat N) |}.

(** ** What comes back: first, interior and last samples *)
Lemma synthesize_half_lapped {A} (transform : A -> result (list R)) (g : A -> list R) wfunc sp h N rows :
  (0 < sp)%Z -> (0 < h)%nat -> (0 < N)%nat -> length rows = N ->
  (forall x, In x rows -> transform x = Ok (g x) /\ length (g x) = (2 * h)%nat) -> (forall w, wfunc (2 * h)%nat = Some w -> length w = (2 * h)%nat) ->
  exists out, synthesize transform wfunc (half_lapped_dim sp h N) rows = Ok out /\ length out = ((N + 1) * h)%nat
    /\ forall j, at_ out j = total (map (apply_window (wfunc (2 * h)%nat)) (map g rows)) h 0 j.
Proof.
  intros Hsp Hh HN EN HT Hw. unfold synthesize. rewrite (mapM_ok transform g) by (intros y Hy; apply (HT y Hy)). cbn [bind].
  assert (W : length (hd [] (map g rows)) = (2 * h)%nat).
  { destruct rows as [|y rows]; [cbn in EN; lia|]. apply HT. now left. }
  rewrite W. destruct (overlap_add_spec sp h (2 * h) (wfunc (2 * h)%nat) (map g rows) Hsp) as (out & E & L & T).
  - lia.
  - rewrite map_length. lia.
  - rewrite Forall_map, Forall_forall. intros y Hy. apply (HT y Hy).
  - exact Hw.
  - exists out. unfold half_lapped_dim. unfold Zlen in E. rewrite map_length, EN in E. split; [exact E|]. rewrite map_length, EN in L. split; [rewrite L; nia|exact T].
Qed.
(** windowed twice *)
Lemma twice_windowed h N x w j : length x = ((N + 1) * h)%nat -> (0 < h)%nat -> (0 < N)%nat -> length w = (2 * h)%nat -> (h <= j < N * h)%nat ->
  total (map (apply_window (Some w)) (map (apply_window (Some w)) (half_lapped_frames h N x))) h 0 j
  = (at_ w (j mod h) * at_ w (j mod h) + at_ w (j mod h + h) * at_ w (j mod h + h)) * at_ x j.
Proof.
  intros E Hh HN Ew Hj. pose proof (Nat.div_mod j h ltac:(lia)) as Ej. pose proof (Nat.mod_upper_bound j h ltac:(lia)) as Hr.
  set (k := (j / h)%nat) in *. set (r := (j mod h)%nat) in *. rewrite Nat.mul_comm in Ej.
  assert (Hk : (1 <= k < N)%nat) by (clearbody k r; nia).
  rewrite Ej at 1. rewrite total_interior; [|exact Hh| |lia|rewrite !map_length, frames_count; lia|exact Hr].
  2:{ rewrite map_map, Forall_map. apply Forall_impl with (2 := frames_width h N x E). intros f Hf. apply apply_window_length; [exact Ew|]. now apply apply_window_length. }
  rewrite !nth_map_nil by (rewrite ?apply_window_nil; reflexivity). rewrite !apply_window_at, !frames_at by lia.
  replace ((k - 1) * h + (r + h))%nat with j by (clearbody k r; nia). rewrite <- Ej. ring.
Qed.
(** ** C48: audio, windowed, through the FFT and back *)
Definition stft_resynthesis (sp : Z) (h N : nat) (x : list R) : result (list R) :=
  fft_synthesize (half_lapped_dim sp h N) (map (rfft_ortho 0) (vorbis_frames h N x)).
Lemma mapM_map {A B C} (f : B -> result C) (g : A -> B) l : mapM f (map g l) = mapM (fun x => f (g x)) l.
Proof. induction l as [|a l IH]; [reflexivity|]. cbn. now rewrite IH. Qed.
Lemma synthesize_map {A B} (f : B -> result (list R)) (g : A -> B) wf td l : synthesize f wf td (map g l) = synthesize (fun x => f (g x)) wf td l.
Proof. unfold synthesize. now rewrite mapM_map. Qed.
Lemma stft_reconstruction (sp : Z) (h N : nat) (x : list R) : (0 < sp)%Z -> (0 < h)%nat -> (0 < N)%nat -> length x = ((N + 1) * h)%nat ->
  exists out gain, stft_resynthesis sp h N x = Ok out /\ length out = length x
    /\ 1 < gain <= 1 + 128 / (INR (2 * h)) ^ 4
    /\ (forall j, (h <= j < N * h)%nat -> at_ out j = gain * at_ x j)
    /\ (forall j, (j < h \/ N * h <= j < (N + 1) * h)%nat -> exists w, 0 < w <= 1 /\ at_ out j = w * at_ x j).
Proof.
  intros Hsp Hh HN E. unfold stft_resynthesis, fft_synthesize. rewrite synthesize_map.
  destruct (synthesize_half_lapped (fun f => irfft_ortho (rfft_ortho 0 f)) (fun f => f) (fun n => Some (oggvorbis n)) sp h N (vorbis_frames h N x) Hsp Hh HN) as (out & Eo & L & T).
  - unfold vorbis_frames. now rewrite map_length, frames_count.
  - intros f Hf. pose proof (vorbis_frames_width h N x E) as W. rewrite Forall_forall in W. specialize (W f Hf). split; [now apply (irfft_rfft f h)|exact W].
  - intros w [= <-]. apply oggvorbis_length.
  - rewrite map_id in T. exists out, (vorbis_gain (2 * h)). split; [exact Eo|]. split; [congruence|]. split; [now apply vorbis_gain_bound|]. split.
    + intros j Hj. rewrite T. unfold vorbis_frames. rewrite twice_windowed by (try assumption; apply oggvorbis_length).
      rewrite oggvorbis_power; [reflexivity|]. apply Nat.mod_upper_bound. lia.
    + assert (W2 : Forall (fun f => length f = (2 * h)%nat) (map (apply_window (Some (oggvorbis (2 * h)))) (vorbis_frames h N x))).
      { rewrite Forall_map. apply Forall_impl with (2 := vorbis_frames_width h N x E). intros f Hf. apply apply_window_length; [apply oggvorbis_length|exact Hf]. }
      assert (C2 : length (map (apply_window (Some (oggvorbis (2 * h)))) (vorbis_frames h N x)) = N) by (unfold vorbis_frames; now rewrite !map_length, frames_count).
      assert (Q : forall t, (t < 2 * h)%nat -> 0 < at_ (oggvorbis (2 * h)) t * at_ (oggvorbis (2 * h)) t <= 1).
      { intros t Ht. pose proof (oggvorbis_range (2 * h) t Ht). nra. }
      intros j [Hj|Hj]; rewrite T.
      * exists (at_ (oggvorbis (2 * h)) j * at_ (oggvorbis (2 * h)) j). split; [apply Q; lia|].
        rewrite total_first by (try assumption; lia). rewrite nth_map_nil by apply apply_window_nil. rewrite apply_window_at, vorbis_frames_at by lia. cbn [Nat.mul Nat.add]. ring.
      * exists (at_ (oggvorbis (2 * h)) (j - N * h + h) * at_ (oggvorbis (2 * h)) (j - N * h + h)). split; [apply Q; nia|].
        replace j with (length (map (apply_window (Some (oggvorbis (2 * h)))) (vorbis_frames h N x)) * h + (j - N * h))%nat at 1 by (rewrite C2; lia).
        rewrite total_last by (try assumption; rewrite ?C2; nia). rewrite C2. rewrite nth_map_nil by apply apply_window_nil. rewrite apply_window_at, vorbis_frames_at by nia.
        replace ((N - 1) * h + (j - N * h + h))%nat with j by nia. ring.
Qed.
(** ** C66: the same through the MDCT: the aliases of neighbouring frames cancel *)
Definition mdct_resynthesis (sp : Z) (h N : nat) (x : list R) : result (list R) :=
  mdct_synthesize (half_lapped_dim sp h N) (map mdct (vorbis_frames h N x)).
Lemma mdct_reconstruction (sp : Z) (h N : nat) (x : list R) : (0 < sp)%Z -> (0 < h)%nat -> (0 < N)%nat -> length x = ((N + 1) * h)%nat ->
  exists out gain, mdct_resynthesis sp h N x = Ok out /\ length out = length x
    /\ 1 < gain <= 1 + 128 / (INR (2 * h)) ^ 4
    /\ (forall j, (h <= j < N * h)%nat -> at_ out j = gain * at_ x j).
Proof.
  intros Hsp Hh HN E. unfold mdct_resynthesis, mdct_synthesize. rewrite synthesize_map.
  pose proof (vorbis_frames_width h N x E) as W. rewrite Forall_forall in W.
  assert (C : length (vorbis_frames h N x) = N) by (unfold vorbis_frames; now rewrite map_length, frames_count).
  destruct (synthesize_half_lapped (fun f => Ok (imdct (mdct f))) (fun f => imdct (mdct f)) (fun n => Some (oggvorbis n)) sp h N (vorbis_frames h N x) Hsp Hh HN) as (out & Eo & L & T).
  - exact C.
  - intros f Hf. split; [reflexivity|]. rewrite imdct_length, (mdct_length f h); [reflexivity|]. now apply W.
  - intros w [= <-]. apply oggvorbis_length.
  - exists out, (vorbis_gain (2 * h)). split; [exact Eo|]. split; [congruence|]. split; [now apply vorbis_gain_bound|].
    intros j Hj. rewrite T. pose proof (Nat.div_mod j h ltac:(lia)) as Ej. pose proof (Nat.mod_upper_bound j h ltac:(lia)) as Hr.
    set (k := (j / h)%nat) in *. set (r := (j mod h)%nat) in *. rewrite Nat.mul_comm in Ej. clearbody k r.
    assert (Hk : (1 <= k < N)%nat) by nia.
    rewrite Ej at 1. rewrite total_interior; [|exact Hh| |lia|rewrite !map_length, C; lia|exact Hr].
    2:{ rewrite map_map, Forall_map, Forall_forall. intros f Hf. apply apply_window_length; [apply oggvorbis_length|]. rewrite imdct_length, (mdct_length f h); [reflexivity|]. now apply W. }
    assert (NI : imdct (mdct []) = []) by reflexivity.
    rewrite !nth_map_nil by (rewrite ?apply_window_nil; reflexivity || exact NI).
    rewrite !apply_window_at. rewrite !(mdct_alias _ h) by (try lia; apply W, nth_In; rewrite C; lia).
    destruct (Nat.ltb_spec (r + h) h); [lia|]. destruct (Nat.ltb_spec r h); [|lia]. rewrite !vorbis_frames_at by lia.
    replace ((k - 1) * h + (r + h))%nat with j by nia. rewrite <- Ej.
    replace ((k - 1) * h + (3 * h - 1 - (r + h)))%nat with (k * h + (h - 1 - r))%nat by nia.
    rewrite <- (oggvorbis_power h r) by lia.
    assert (S1 : at_ (oggvorbis (2 * h)) (r + h) = at_ (oggvorbis (2 * h)) (h - 1 - r)).
    { rewrite <- (oggvorbis_symmetric (2 * h) (h - 1 - r)) by lia. f_equal. lia. }
    assert (S2 : at_ (oggvorbis (2 * h)) (3 * h - 1 - (r + h)) = at_ (oggvorbis (2 * h)) r).
    { rewrite <- (oggvorbis_symmetric (2 * h) r) by lia. f_equal. lia. }
    rewrite S1, S2. ring.
Qed.
