(** Specification and proofs for Windowed.v (properties C01, C02). *)
From Verif Require Import PyBase PyFacts Windowed.

(** ** Specification (independent of the model) *)

(** Window number [i]: the [w] samples of [a] starting at position [i*s]. *)
Definition window_at {A} (a : list A) (w s i : nat) : list A :=
  firstn w (skipn (i * s) a).

(** The first [n] windows. *)
Definition windows {A} (a : list A) (w s n : nat) : list (list A) :=
  map (window_at a w s) (seq 0 n).

(** How many windows an unpadded signal of length [l] has. zounds only starts
    emitting windows when the signal is strictly longer than one window. *)
Definition n_windows (l w s : nat) : nat :=
  if l <=? w then 0 else 1 + (l - w) / s.

(** Sample [k] of the signal is visible in one of [n] windows. *)
Definition visible (n w s k : nat) : Prop := exists i, i < n /\ i * s <= k < i * s + w.

(** ** Lemmas *)

Lemma strided_rows_ok {A} (a : list A) (n w s : nat) :
  (n = 0 \/ (n - 1) * s + w <= length a) ->
  strided_rows a n w s = Some (windows a w s n).
Proof.
  intros H. unfold strided_rows, windows. apply sequence_map_some.
  intros i Hi. apply in_seq in Hi. apply map_nth_error_seq.
  destruct H as [H|H]; [lia|].
  assert (i * s <= (n - 1) * s) by (apply Nat.mul_le_mono_r; lia). lia.
Qed.

Lemma windows_prefix {A} (a b : list A) (w s n : nat) :
  (n = 0 \/ (n - 1) * s + w <= length a) ->
  windows (a ++ b) w s n = windows a w s n.
Proof.
  intros H. unfold windows. apply map_ext_in. intros i Hi. apply in_seq in Hi.
  unfold window_at. apply firstn_skipn_app.
  destruct H as [H|H]; [lia|].
  assert (i * s <= (n - 1) * s) by (apply Nat.mul_le_mono_r; lia). lia.
Qed.

Lemma windows_firstn {A} (a : list A) (w s n c : nat) :
  (n = 0 \/ (n - 1) * s + w <= c) -> c <= length a ->
  windows (firstn c a) w s n = windows a w s n.
Proof.
  intros H Hc. transitivity (windows (firstn c a ++ skipn c a) w s n).
  - symmetry. apply windows_prefix. rewrite firstn_length_le by lia. exact H.
  - rewrite firstn_skipn. reflexivity.
Qed.

Lemma windows_length {A} (a : list A) w s n : length (windows a w s n) = n.
Proof. unfold windows. rewrite map_length, seq_length. reflexivity. Qed.

Lemma window_at_full {A} (a : list A) w s i :
  i * s + w <= length a -> length (window_at a w s i) = w.
Proof. intros H. unfold window_at. rewrite firstn_length, skipn_length. lia. Qed.

Lemma n_windows_fit l w s : s >= 1 ->
  n_windows l w s = 0 \/ (n_windows l w s - 1) * s + w <= l.
Proof.
  intros Hs. unfold n_windows. destruct (Nat.leb_spec l w); [left; reflexivity|right].
  replace (1 + (l - w) / s - 1) with ((l - w) / s) by lia.
  assert ((l - w) / s * s <= l - w) by (rewrite Nat.mul_comm; apply Nat.mul_div_le; lia).
  lia.
Qed.

Lemma zdiv_nat (l w s : nat) : w <= l -> s >= 1 ->
  ((Z.of_nat l - Z.of_nat w) / Z.of_nat s)%Z = Z.of_nat ((l - w) / s).
Proof. intros. rewrite Nat2Z.inj_div, Nat2Z.inj_sub by lia. reflexivity. Qed.

Lemma windowed_nopad {A} (zero : A) (a : list A) (w s : nat) :
  2 <= w -> 1 <= s ->
  let n := n_windows (length a) w s in
  windowed zero a (Z.of_nat w) (Some (Z.of_nat s)) false
  = Ok (skipn (n * s) a, if n =? 0 then Flat [] else Rows (windows a w s n)).
Proof.
  intros Hw Hs. cbv zeta. unfold windowed.
  destruct (Z.ltb_spec (Z.of_nat w) 1); [lia|].
  destruct (Z.ltb_spec (Z.of_nat s) 1); [lia|].
  destruct (Z.eqb_spec (Z.of_nat w) 1); [lia|]. cbn [andb].
  unfold wcut, n_windows, Zlen.
  destruct (Nat.leb_spec (length a) w) as [Hl|Hl].
  - destruct (Z.leb_spec (Z.of_nat (length a)) (Z.of_nat w)); [|lia].
    rewrite py_slice_from, py_slice_upto by lia. simpl. reflexivity.
  - destruct (Z.leb_spec (Z.of_nat (length a)) (Z.of_nat w)); [lia|].
    assert (Hc : (if negb ((Z.of_nat (length a) - Z.of_nat w) mod Z.of_nat s =? 0)
       then Z.of_nat w + (Z.of_nat (length a) - Z.of_nat w) / Z.of_nat s * Z.of_nat s
       else Z.of_nat (length a))%Z = Z.of_nat (w + (length a - w) / s * s)).
    { rewrite zdiv_nat by lia.
      pose proof (Nat.div_mod (length a - w) s ltac:(lia)) as Hdm.
      assert (Hm : ((Z.of_nat (length a) - Z.of_nat w) mod Z.of_nat s)%Z
                   = Z.of_nat ((length a - w) mod s)).
      { rewrite Nat2Z.inj_mod, Nat2Z.inj_sub by lia. reflexivity. }
      rewrite Hm. set (q := (length a - w) / s) in *. set (r := (length a - w) mod s) in *.
      destruct (Z.eqb_spec (Z.of_nat r) 0); cbn [negb]; nia. }
    cbv zeta. rewrite Hc.
    set (q := (length a - w) / s) in *.
    assert (Hq : q * s <= length a - w).
    { unfold q. rewrite Nat.mul_comm. apply Nat.mul_div_le. lia. }
    rewrite py_slice_from, py_slice_upto by lia.
    replace (Z.to_nat (Z.of_nat (w + q * s))) with (w + q * s) by lia.
    replace (Z.to_nat (Z.of_nat (w + q * s) - (Z.of_nat w - Z.of_nat s)))
      with ((1 + q) * s) by lia.
    rewrite firstn_length_le by lia.
    destruct (Z.eqb_spec (Z.of_nat (w + q * s)) 0); [lia|].
    replace (Z.of_nat (w + q * s) - Z.of_nat w)%Z with (Z.of_nat q * Z.of_nat s)%Z by lia.
    rewrite Z.div_mul by lia.
    replace (Z.to_nat (1 + Z.of_nat q)) with (1 + q) by lia.
    rewrite !Nat2Z.id.
    rewrite strided_rows_ok by (right; rewrite firstn_length_le by lia; lia).
    rewrite windows_firstn by (try right; lia).
    cbn [Nat.add Nat.eqb]. reflexivity.
Qed.

(** every sample is visible in a window or is part of the leftover *)
Lemma nopad_coverage (l w s k : nat) :
  1 <= s -> s <= w -> k < l ->
  let n := n_windows l w s in
  visible n w s k \/ n * s <= k.
Proof.
  intros Hs Hsw Hk n. destruct (Nat.le_gt_cases (n * s) k) as [H|H]; [right; exact H|left].
  exists (k / s). pose proof (Nat.div_mod k s ltac:(lia)).
  pose proof (Nat.mod_upper_bound k s ltac:(lia)).
  split.
  - apply Nat.div_lt_upper_bound; [lia|]. lia.
  - nia.
Qed.

(** ** padding *)

(** length after padding and number of windows, for 1 <= s <= w *)
Definition padded_count (l w s : nat) : nat :=
  if l <=? w then 1
  else if w =? s then (l + s - 1) / s
  else l / s.

Lemma wpad_cases (l w s : nat) : 1 <= s -> s <= w -> w < l ->
  wpad (Z.of_nat l) (Z.of_nat w) (Z.of_nat s)
  = Z.of_nat (if w =? s then (if l mod s =? 0 then l else l + (s - l mod s))
              else (l / s) * s + (w - s)).
Proof.
  intros Hs Hsw Hl. unfold wpad.
  destruct (Z.leb_spec (Z.of_nat l) (Z.of_nat w)); [lia|].
  rewrite <- Nat2Z.inj_div.
  pose proof (Nat.div_mod l s ltac:(lia)) as Hdm.
  pose proof (Nat.mod_upper_bound l s ltac:(lia)) as Hub.
  destruct (Nat.eqb_spec w s) as [->|Hne].
  - destruct (Z.eqb_spec (Z.of_nat s - Z.of_nat s) 0); [|lia]. cbn [negb].
    cbv zeta.
    set (q := l / s) in *. set (r := l mod s) in *.
    destruct (Z.eqb_spec (Z.of_nat l - Z.of_nat q * Z.of_nat s) 0); cbn [negb];
    destruct (Nat.eqb_spec r 0); nia.
  - destruct (Z.eqb_spec (Z.of_nat w - Z.of_nat s) 0); [lia|]. cbn [negb]. nia.
Qed.

Lemma pad_length_ge {A} (zero : A) a d : (Zlen a <= Zlen (pad zero a d))%Z.
Proof. unfold pad. destruct (_ >=? _)%Z; [lia|]. rewrite Zlen_app. unfold Zlen. lia. Qed.

Lemma pad_nat {A} (zero : A) (a : list A) (d : nat) :
  pad zero a (Z.of_nat d) = a ++ repeat zero (d - length a).
Proof.
  unfold pad, Zlen. destruct (Z.geb_spec (Z.of_nat (length a)) (Z.of_nat d)).
  - replace (d - length a) with 0 by lia. simpl. rewrite app_nil_r. reflexivity.
  - do 2 f_equal. lia.
Qed.

Lemma windowed_pad_gen {A} (zero : A) (a : list A) (w s d : nat) :
  2 <= w -> 1 <= s -> wpad (Zlen a) (Z.of_nat w) (Z.of_nat s) = Z.of_nat d ->
  w <= Nat.max (length a) d ->
  windowed zero a (Z.of_nat w) (Some (Z.of_nat s)) true
  = Ok ([], Rows (windows (a ++ repeat zero (d - length a)) w s
                    (1 + (Nat.max (length a) d - w) / s))).
Proof.
  intros Hw Hs Hd Hm. unfold windowed.
  destruct (Z.ltb_spec (Z.of_nat w) 1); [lia|].
  destruct (Z.ltb_spec (Z.of_nat s) 1); [lia|].
  destruct (Z.eqb_spec (Z.of_nat w) 1); [lia|]. cbn [andb].
  rewrite Hd, pad_nat.
  assert (HL : length (a ++ repeat zero (d - length a)) = Nat.max (length a) d).
  { rewrite app_length, repeat_length. lia. }
  unfold Zlen at 1 2. rewrite HL.
  destruct (Z.eqb_spec (Z.of_nat (Nat.max (length a) d)) 0); [lia|].
  rewrite zdiv_nat by lia.
  replace (Z.to_nat (1 + Z.of_nat ((Nat.max (length a) d - w) / s)))
    with (1 + (Nat.max (length a) d - w) / s) by lia.
  rewrite !Nat2Z.id.
  rewrite strided_rows_ok; [reflexivity|]. right. rewrite HL.
  replace (1 + (Nat.max (length a) d - w) / s - 1) with ((Nat.max (length a) d - w) / s) by lia.
  assert ((Nat.max (length a) d - w) / s * s <= Nat.max (length a) d - w)
    by (rewrite Nat.mul_comm; apply Nat.mul_div_le; lia).
  lia.
Qed.

Lemma windowed_pad {A} (zero : A) (a : list A) (w s : nat) :
  2 <= w -> 1 <= s -> s <= w ->
  exists z,
    windowed zero a (Z.of_nat w) (Some (Z.of_nat s)) true
    = Ok ([], Rows (windows (a ++ repeat zero z) w s (padded_count (length a) w s)))
    /\ (padded_count (length a) w s - 1) * s + w <= length a + z
    /\ z <= w.
Proof.
  intros Hw Hs Hsw. unfold padded_count.
  destruct (Nat.leb_spec (length a) w) as [Hl|Hl].
  - exists (w - length a). split; [|lia].
    rewrite (windowed_pad_gen zero a w s w); try lia.
    + replace (Nat.max (length a) w - w) with 0 by lia. rewrite Nat.div_0_l by lia. reflexivity.
    + unfold wpad, Zlen. destruct (Z.leb_spec (Z.of_nat (length a)) (Z.of_nat w)); lia.
  - pose proof (wpad_cases (length a) w s Hs Hsw Hl) as Hp.
    set (d := if w =? s then _ else _) in Hp.
    pose proof (Nat.div_mod (length a) s ltac:(lia)) as Hdm.
    pose proof (Nat.mod_upper_bound (length a) s ltac:(lia)) as Hub.
    exists (d - length a).
    rewrite (windowed_pad_gen zero a w s d Hw Hs Hp) by lia.
    assert (Hn : 1 + (Nat.max (length a) d - w) / s
            = if w =? s then (length a + s - 1) / s else length a / s).
    { unfold d. set (q := length a / s) in *. set (r := length a mod s) in *.
      destruct (Nat.eqb_spec w s) as [->|Hne].
      - destruct (Nat.eqb_spec r 0) as [Hr|Hr].
        + replace (Nat.max (length a) (length a) - s) with ((q - 1) * s) by nia.
          rewrite Nat.div_mul by lia.
          replace (length a + s - 1) with (s - 1 + q * s) by nia.
          rewrite Nat.div_add by lia. rewrite (Nat.div_small (s - 1)) by lia. nia.
        + replace (Nat.max (length a) (length a + (s - r)) - s) with (q * s) by nia.
          rewrite Nat.div_mul by lia.
          replace (length a + s - 1) with (r - 1 + (1 + q) * s) by nia.
          rewrite Nat.div_add by lia. rewrite (Nat.div_small (r - 1)) by lia. lia.
      - assert (Hq1 : exists q', q = S q') by (destruct q as [|q']; [nia|exists q'; reflexivity]).
        destruct Hq1 as [q' Hq1]. rewrite Hq1 in *. clear Hq1.
        replace (S q' - 1) with q' by lia.
        destruct (Nat.le_gt_cases r (w - s)) as [Hr|Hr].
        + replace (Nat.max (length a) (S q' * s + (w - s)) - w) with (q' * s) by nia.
          rewrite Nat.div_mul by lia. lia.
        + replace (Nat.max (length a) (S q' * s + (w - s)) - w) with (r - (w - s) + q' * s) by nia.
          rewrite Nat.div_add by lia. rewrite (Nat.div_small (r - (w - s))) by lia. lia. }
    rewrite Hn. split; [reflexivity|]. rewrite <- Hn. split.
    + replace (1 + (Nat.max (length a) d - w) / s - 1) with ((Nat.max (length a) d - w) / s) by lia.
      assert ((Nat.max (length a) d - w) / s * s <= Nat.max (length a) d - w)
        by (rewrite Nat.mul_comm; apply Nat.mul_div_le; lia).
      lia.
    + unfold d. destruct (w =? s); [destruct (_ =? 0)|]; nia.
Qed.

(** exactly when padding makes all samples visible *)
Lemma pad_coverage_iff (l w s : nat) : 2 <= w -> 1 <= s -> s <= w -> 1 <= l ->
  (forall k, k < l -> visible (padded_count l w s) w s k)
  <-> (l <= w \/ w = s \/ l mod s <= w - s).
Proof.
  intros Hw Hs Hsw Hl1. unfold padded_count, visible.
  pose proof (Nat.div_mod l s ltac:(lia)) as Hdm.
  pose proof (Nat.mod_upper_bound l s ltac:(lia)) as Hub.
  set (q := l / s) in *. set (r := l mod s) in *.
  destruct (Nat.leb_spec l w) as [Hl|Hl].
  { split; [intros _; left; exact Hl|]. intros _ k Hk. exists 0. lia. }
  destruct (Nat.eqb_spec w s) as [->|Hne].
  { split; [intros _; right; left; reflexivity|]. intros _ k Hk. exists (k / s).
    pose proof (Nat.div_mod k s ltac:(lia)). pose proof (Nat.mod_upper_bound k s ltac:(lia)).
    split; [|nia].
    assert (k / s <= (l - 1) / s) by (apply Nat.div_le_mono; lia).
    replace (l + s - 1) with (l - 1 + 1 * s) by lia. rewrite Nat.div_add by lia. lia. }
  split.
  - intros H. destruct (H (l - 1) ltac:(lia)) as [i [Hi Hik]]. right; right. nia.
  - intros [H|[H|H]] k Hk; [lia|lia|].
    destruct (Nat.le_gt_cases (q * s) k) as [Hk'|Hk'].
    + exists (q - 1). nia.
    + exists (k / s). pose proof (Nat.div_mod k s ltac:(lia)).
      pose proof (Nat.mod_upper_bound k s ltac:(lia)). split; [|nia].
      apply Nat.div_lt_upper_bound; lia.
Qed.

(** what visibility means in terms of row contents *)
Lemma visible_row {A} (a b : list A) (n w s k : nat) :
  (n - 1) * s + w <= length (a ++ b) -> k < length a -> visible n w s k ->
  exists i j row, nth_error (windows (a ++ b) w s n) i = Some row
              /\ i * s + j = k
              /\ nth_error row j = nth_error a k.
Proof.
  intros Hfit Hk [i [Hi Hr]]. exists i, (k - i * s), (window_at (a ++ b) w s i).
  split; [|split; [lia|]].
  - unfold windows. rewrite nth_error_map, nth_error_nth' with (d := 0) by (rewrite seq_length; lia).
    rewrite seq_nth by lia. reflexivity.
  - unfold window_at. rewrite nth_error_firstn.
    destruct (Nat.ltb_spec (k - i * s) w); [|lia].
    rewrite nth_error_skipn. rewrite nth_error_app1 by lia. f_equal. lia.
Qed.

(** ** The statements of the properties *)

Lemma windowed_errors {A} (zero : A) (a : list A) (w : Z) (s : option Z) (p : bool) :
  (w < 1)%Z \/ (exists v, s = Some v /\ (v < 1)%Z) ->
  windowed zero a w s p = Raise ValueError.
Proof.
  intros H. unfold windowed. destruct (Z.ltb_spec w 1); [reflexivity|].
  destruct H as [H|[v [-> H]]]; [lia|]. destruct (Z.ltb_spec v 1); [reflexivity|lia].
Qed.

Lemma windowed_default_step {A} (zero : A) (a : list A) (w : Z) (p : bool) :
  windowed zero a w None p = windowed zero a w (Some w) p.
Proof. reflexivity. Qed.

Lemma windowed_one {A} (zero : A) (a : list A) (p : bool) :
  windowed zero a 1 (Some 1%Z) p = Ok ([], Flat a).
Proof. reflexivity. Qed.

Lemma windowed_nopad_all {A} (zero : A) (a : list A) (w s : nat) :
  2 <= w -> 1 <= s -> s <= w ->
  exists rows leftover,
    windowed zero a (Z.of_nat w) (Some (Z.of_nat s)) false
      = Ok (leftover, if length a <=? w then Flat [] else Rows rows)
    /\ length rows = (if length a <=? w then 0 else 1 + (length a - w) / s)
    /\ leftover = skipn (length rows * s) a
    /\ (forall i row, nth_error rows i = Some row ->
          length row = w /\
          forall j, j < w -> i * s + j < length a /\ nth_error row j = nth_error a (i * s + j))
    /\ (forall k, k < length a ->
          (exists i j row, nth_error rows i = Some row /\ j < w /\ i * s + j = k)
          \/ length rows * s <= k).
Proof.
  intros Hw Hs Hsw.
  pose proof (windowed_nopad zero a w s Hw Hs) as H. cbv zeta in H.
  exists (windows a w s (n_windows (length a) w s)), (skipn (n_windows (length a) w s * s) a).
  rewrite windows_length. split; [|split; [|split; [|split]]].
  - rewrite H. unfold n_windows. destruct (length a <=? w); reflexivity.
  - reflexivity.
  - reflexivity.
  - intros i row Hi.
    assert (Hin : i < n_windows (length a) w s).
    { rewrite <- (windows_length a w s (n_windows (length a) w s)).
      apply nth_error_Some. congruence. }
    unfold windows in Hi. rewrite nth_error_map in Hi.
    rewrite nth_error_nth' with (d := 0) in Hi by (rewrite seq_length; lia).
    rewrite seq_nth in Hi by lia. simpl in Hi. inversion Hi; subst row; clear Hi.
    destruct (n_windows_fit (length a) w s Hs) as [|Hfit]; [lia|].
    assert (i * s <= (n_windows (length a) w s - 1) * s) by (apply Nat.mul_le_mono_r; lia).
    split; [apply window_at_full; lia|].
    intros j Hj. split; [lia|]. unfold window_at. rewrite nth_error_firstn, nth_error_skipn.
    destruct (Nat.ltb_spec j w); [reflexivity|lia].
  - intros k Hk. destruct (nopad_coverage (length a) w s k Hs Hsw Hk) as [[i [Hi Hik]]|Hr];
      [left|right; exact Hr].
    exists i, (k - i * s), (window_at a w s i). split; [|lia].
    unfold windows. rewrite nth_error_map.
    rewrite nth_error_nth' with (d := 0) by (rewrite seq_length; lia).
    rewrite seq_nth by lia. reflexivity.
Qed.

(** rows of the padded call, entry by entry *)
Lemma windowed_pad_rows {A} (zero : A) (a : list A) (w s : nat) :
  2 <= w -> 1 <= s -> s <= w ->
  exists rows,
    windowed zero a (Z.of_nat w) (Some (Z.of_nat s)) true = Ok ([], Rows rows)
    /\ (forall i row, nth_error rows i = Some row ->
          length row = w /\
          forall j, j < w ->
            nth_error row j = Some (nth (i * s + j) a zero))
    /\ (1 <= length a ->
         ((forall k, k < length a -> exists i j row,
             nth_error rows i = Some row /\ j < w /\ i * s + j = k)
          <-> (length a <= w \/ w = s \/ length a mod s <= w - s))).
Proof.
  intros Hw Hs Hsw. destruct (windowed_pad zero a w s Hw Hs Hsw) as [z [H [Hfit Hz]]].
  set (n := padded_count (length a) w s) in *.
  exists (windows (a ++ repeat zero z) w s n). split; [exact H|].
  assert (Hnth : forall i row, nth_error (windows (a ++ repeat zero z) w s n) i = Some row ->
             i < n /\ row = window_at (a ++ repeat zero z) w s i).
  { intros i row Hi.
    assert (Hin : i < n).
    { rewrite <- (windows_length (a ++ repeat zero z) w s n). apply nth_error_Some. congruence. }
    split; [exact Hin|].
    unfold windows in Hi. rewrite nth_error_map in Hi.
    rewrite nth_error_nth' with (d := 0) in Hi by (rewrite seq_length; lia).
    rewrite seq_nth in Hi by lia. simpl in Hi. congruence. }
  split.
  - intros i row Hi. apply Hnth in Hi. destruct Hi as [Hi ->].
    assert (i * s <= (n - 1) * s) by (apply Nat.mul_le_mono_r; lia).
    split; [apply window_at_full; rewrite app_length, repeat_length; lia|].
    intros j Hj. unfold window_at. rewrite nth_error_firstn, nth_error_skipn.
    destruct (Nat.ltb_spec j w); [|lia].
    destruct (Nat.lt_ge_cases (i * s + j) (length a)) as [Hc|Hc].
    + rewrite nth_error_app1 by lia. apply nth_error_nth'. exact Hc.
    + rewrite nth_error_app2, (nth_overflow a) by lia.
      rewrite nth_error_nth' with (d := zero) by (rewrite repeat_length; lia).
      rewrite nth_repeat. reflexivity.
  - intros Hl. rewrite <- (pad_coverage_iff (length a) w s Hw Hs Hsw Hl). fold n. split.
    + intros Hc k Hk. destruct (Hc k Hk) as [i [j [row [Hi [Hj He]]]]].
      apply Hnth in Hi. exists i. lia.
    + intros Hc k Hk. destruct (Hc k Hk) as [i [Hi Hik]].
      exists i, (k - i * s), (window_at (a ++ repeat zero z) w s i). split; [|lia].
      unfold windows. rewrite nth_error_map.
      rewrite nth_error_nth' with (d := 0) by (rewrite seq_length; lia).
      rewrite seq_nth by lia. reflexivity.
Qed.

(** The docstring of [windowed] (npx.py:135-137) says that with dopad=True "the
    input array is padded with zeros so that all samples are used".  Sample 11
    of an 11-sample signal, window 4, step 3, appears in no row. *)
Lemma windowed_pad_loses :
  exists (a : list nat) (w s : Z) rows,
    (2 <= w)%Z /\ (1 <= s <= w)%Z /\
    windowed 0 a w (Some s) true = Ok ([], Rows rows)
    /\ In 11 a /\ forall row, In row rows -> ~ In 11 row.
Proof.
  exists (seq 1 11), 4%Z, 3%Z. eexists. split; [lia|]. split; [lia|].
  split; [vm_compute; reflexivity|]. split; [simpl; tauto|].
  intros row H. simpl in H.
  repeat (destruct H as [<-|H]; [simpl; lia|]). contradiction.
Qed.

(** With a step larger than the window, cutting a stream into chunks loses the
    phase: the leftover forgets how many samples still have to be skipped. *)
Lemma windowed_gap_phase :
  exists (a b : list nat) (w s : Z) l1 r1 l2 r2 l3 r3,
    (2 <= w)%Z /\ (w < s)%Z /\
    windowed 0 a w (Some s) false = Ok (l1, Rows r1) /\
    windowed 0 (l1 ++ b) w (Some s) false = Ok (l2, Rows r2) /\
    windowed 0 (a ++ b) w (Some s) false = Ok (l3, Rows r3) /\
    r1 ++ r2 <> r3.
Proof.
  exists [0;1;2], [3;4;5;6;7;8;9], 2%Z, 4%Z. do 6 eexists.
  split; [lia|]. split; [lia|].
  repeat (split; [vm_compute; reflexivity|]). discriminate.
Qed.

(** Non-vacuity *)
Example windowed_example :
  windowed 0 (seq 0 10) 4 (Some 3%Z) false
  = Ok ([9], Rows [[0;1;2;3];[3;4;5;6];[6;7;8;9]]).
Proof. reflexivity. Qed.
Example windowed_example_equal :
  windowed 0 (seq 0 4) 4 (Some 3%Z) false = Ok ([0;1;2;3], Flat []).
Proof. reflexivity. Qed.
Example windowed_example_pad :
  windowed 0 (seq 1 5) 4 (Some 2%Z) true = Ok ([], Rows [[1;2;3;4];[3;4;5;0]]).
Proof. reflexivity. Qed.

(** windows of one sample: the samples, or every [s]-th of them *)
Lemma stride_aux_nth {A} (k : nat) : 1 <= k -> forall (l : list A) m i, nth_error (stride_aux k m l) i = nth_error l (m + i * k).
Proof.
  intros Hk. induction l as [|x l IH]; intros m i.
  - cbn [stride_aux]. destruct i, (m + _); reflexivity.
  - cbn [stride_aux]. destruct m as [|m].
    + destruct i as [|i]; [reflexivity|]. cbn [nth_error]. rewrite IH. replace (0 + S i * k) with (S (k - 1 + i * k)) by lia. reflexivity.
    + rewrite IH. reflexivity.
Qed.
Lemma windowed_one_all {A} (zero : A) (a : list A) (s : nat) (p : bool) : 1 <= s ->
  exists out, windowed zero a 1 (Some (Z.of_nat s)) p = Ok ([], Flat out) /\
    forall i, nth_error out i = nth_error a (i * s).
Proof.
  intros Hs. unfold windowed. cbn [Z.ltb Z.compare]. destruct (Z.ltb_spec (Z.of_nat s) 1); [lia|]. cbn [Z.eqb Pos.eqb andb].
  destruct (Z.eqb_spec (Z.of_nat s) 1) as [E|E].
  - exists a. split; [reflexivity|]. intros i. replace s with 1 by lia. now rewrite Nat.mul_1_r.
  - replace (Z.of_nat s >? 1)%Z with true by (symmetry; apply Z.gtb_lt; lia). exists (py_stride s a). rewrite Nat2Z.id. split; [reflexivity|].
    intros i. apply (stride_aux_nth s Hs a 0 i).
Qed.
(** any step, also larger than the window (what lies between the windows is skipped) *)
Lemma windowed_any_step {A} (zero : A) (a : list A) (w s : nat) : 2 <= w -> 1 <= s ->
  exists rows,
    windowed zero a (Z.of_nat w) (Some (Z.of_nat s)) false
      = Ok (skipn (length rows * s) a, if length a <=? w then Flat [] else Rows rows)
    /\ length rows = (if length a <=? w then 0 else 1 + (length a - w) / s)
    /\ (forall i row, nth_error rows i = Some row -> row = firstn w (skipn (i * s) a) /\ length row = w).
Proof.
  intros Hw Hs. pose proof (windowed_nopad zero a w s Hw Hs) as H. cbv zeta in H.
  exists (windows a w s (n_windows (length a) w s)). rewrite windows_length. split; [|split].
  - rewrite H. unfold n_windows. destruct (length a <=? w); reflexivity.
  - reflexivity.
  - intros i row Hi.
    assert (Hin : i < n_windows (length a) w s).
    { rewrite <- (windows_length a w s (n_windows (length a) w s)). apply nth_error_Some. congruence. }
    unfold windows in Hi. rewrite nth_error_map, (nth_error_nth' _ 0) in Hi by (rewrite seq_length; lia).
    rewrite seq_nth in Hi by lia. injection Hi as <-. split; [reflexivity|]. cbn [Nat.add]. unfold window_at.
    rewrite firstn_length, skipn_length. destruct (n_windows_fit (length a) w s Hs) as [E|E]; [lia|]. nia.
Qed.
(** the number of frames of the padded signal *)
Lemma windowed_pad_count {A} (zero : A) (a : list A) (w s : nat) : 2 <= w -> 1 <= s -> s <= w ->
  exists rows, windowed zero a (Z.of_nat w) (Some (Z.of_nat s)) true = Ok ([], Rows rows) /\
    length rows = if length a <=? w then 1 else if w =? s then (length a + s - 1) / s else length a / s.
Proof.
  intros Hw Hs Hsw. destruct (windowed_pad zero a w s Hw Hs Hsw) as (z & E & _). eexists. split; [exact E|]. apply windows_length.
Qed.
