(** Property C03: how the SlidingWindow node depends on chunking. *)
From Verif Require Import PyBase PyFacts Windowed WindowedProofs SlidingNode.

Section Proofs.
  Context {A : Type} (zero : A).
  Variable c : config A.
  Variables w s : nat.
  Hypothesis Hw : 2 <= w.
  Hypothesis Hs : 1 <= s.
  Hypothesis Hsw : s <= w.
  Hypothesis Hcw : c_window c = Z.of_nat w.
  Hypothesis Hcs : c_step c = Z.of_nat s.

  Definition f_rows (r : list (list A)) : list (list A) :=
    match c_func c with None => r | Some f => map f r end.

  Lemma f_rows_app r1 r2 : f_rows (r1 ++ r2) = f_rows r1 ++ f_rows r2.
  Proof. unfold f_rows. destruct (c_func c); [apply map_app|reflexivity]. Qed.

  (** the cache is the part of the stream after the [m] windows emitted *)
  Definition Inv (a cache : list A) (m : nat) : Prop :=
    cache = skipn (m * s) a /\
    (m = n_windows (length a) w s \/
     (m + 1 = n_windows (length a) w s /\ length a = w + m * s)).

  Lemma rows_nonempty (a : list A) n :
    0 < n -> (n - 1) * s + w <= length a ->
    forallb (fun x => match x with [] => true | _ => false end) (windows a w s n) = false.
  Proof.
    intros Hn Hfit. destruct n as [|n]; [lia|]. unfold windows. cbn [seq map forallb].
    assert (H : length (window_at a w s 0) = w) by (apply window_at_full; lia).
    destruct (window_at a w s 0); [simpl in H; lia|]. reflexivity.
  Qed.

  Lemma attempt_false (cache : list A) :
    let n := n_windows (length cache) w s in
    attempt zero c false (Some cache)
    = Ok (Some (skipn (n * s) cache),
          if n =? 0 then [] else [Rows (f_rows (windows cache w s n))]).
  Proof.
    intros n. unfold attempt, dequeue, sliding_window_with_leftovers.
    rewrite Hcw, Hcs, windowed_nopad by lia. fold n. cbn zeta.
    destruct (Nat.eqb_spec n 0) as [Hn|Hn].
    - simpl. rewrite Hn. reflexivity.
    - unfold wout_empty.
      destruct (n_windows_fit (length cache) w s Hs) as [H0|Hfit]; [unfold n in Hn; lia|].
      rewrite rows_nonempty by (fold n in Hfit; lia).
      rewrite rows_nonempty by (fold n in Hfit; lia).
      unfold apply_func, f_rows. destruct (c_func c); reflexivity.
  Qed.

  Lemma windows_app_split (a : list A) (m k : nat) :
    windows a w s (m + k) = windows a w s m ++ windows (skipn (m * s) a) w s k.
  Proof.
    unfold windows. rewrite seq_app, map_app. f_equal.
    cbn [Nat.add]. rewrite <- (Nat.add_0_r m) at 1.
    rewrite <- (map_map (fun i => m + i) (window_at a w s)) ||
      (replace (seq (m + 0) k) with (map (fun i => m + i) (seq 0 k))).
    - rewrite map_map. apply map_ext. intros i. unfold window_at.
      rewrite skipn_skipn'. f_equal. f_equal. lia.
    - clear. generalize 0. induction k as [|k IH]; intros o; [reflexivity|].
      cbn [seq map]. f_equal. replace (S (m + o)) with (m + S o) by lia. apply IH.
  Qed.

  Lemma div_sub_mul (x m : nat) : m * s <= x -> (x - m * s) / s = x / s - m.
  Proof.
    intros H. replace x with (x - m * s + m * s) at 2 by lia.
    rewrite Nat.div_add by lia. lia.
  Qed.

  Lemma step_inv (a cache d : list A) (m : nat) :
    Inv a cache m ->
    let k := n_windows (length (cache ++ d)) w s in
    Inv (a ++ d) (skipn (k * s) (cache ++ d)) (m + k)
    /\ windows (a ++ d) w s (m + k) = windows a w s m ++ windows (cache ++ d) w s k.
  Proof.
    intros [Hc Hm] k.
    assert (Hms : m * s <= length a).
    { destruct (n_windows_fit (length a) w s Hs) as [H0|Hf]; nia. }
    assert (Hcd : cache ++ d = skipn (m * s) (a ++ d)).
    { rewrite skipn_app, <- Hc. replace (m * s - length a) with 0 by lia. reflexivity. }
    split; [split|].
    - rewrite Hcd, skipn_skipn'. f_equal. lia.
    - unfold k. rewrite Hcd, skipn_length, app_length.
      set (L := length a + length d).
      assert (HL : length a <= L) by (unfold L; lia).
      unfold n_windows in *.
      destruct (Nat.leb_spec (L - m * s) w) as [H1|H1].
      + (* nothing emitted *)
        destruct (Nat.leb_spec L w) as [H2|H2].
        * left. destruct (Nat.leb_spec (length a) w); nia.
        * destruct (Nat.leb_spec (length a) w) as [H3|H3].
          -- assert (m = 0) by lia. subst m. lia.
          -- (* m >= 1 or the exact case *)
             destruct (Nat.eq_dec (L - m * s) w) as [He|Hne].
             ++ right. split; [|lia].
                replace (L - w) with (m * s) by lia. rewrite Nat.div_mul by lia. lia.
             ++ left.
                assert (Hub : (L - w) / s < m).
                { apply Nat.div_lt_upper_bound; nia. }
                assert (Hlb : (length a - w) / s <= (L - w) / s) by (apply Nat.div_le_mono; lia).
                lia.
      + (* something emitted *)
        left. destruct (Nat.leb_spec L w) as [H2|H2]; [lia|].
        replace (L - m * s - w) with (L - w - m * s) by lia.
        rewrite div_sub_mul by lia.
        assert (m <= (L - w) / s).
        { apply Nat.div_le_lower_bound; lia. }
        lia.
    - rewrite windows_app_split. rewrite <- Hcd. f_equal.
      apply windows_prefix.
      destruct (n_windows_fit (length a) w s Hs) as [H0|Hf]; [left; lia|].
      destruct Hm as [Hm|[Hm _]]; [right; rewrite Hm; exact Hf|].
      destruct m as [|m']; [left; reflexivity|right]. nia.
  Qed.

  Lemma feed_inv (ds : list (list A)) (a cache : list A) (m : nat) :
    Inv a cache m ->
    exists m' cache' outs,
      feed zero c (Some cache) ds = Ok (Some cache', outs)
      /\ Inv (a ++ concat ds) cache' m'
      /\ windows (a ++ concat ds) w s m' = windows a w s m ++
           windows (skipn (m * s) (a ++ concat ds)) w s (m' - m)
      /\ m <= m'
      /\ frames outs = f_rows (windows (skipn (m * s) (a ++ concat ds)) w s (m' - m)).
  Proof.
    revert a cache m; induction ds as [|d ds IH]; intros a cache m HI.
    - exists m, cache, []. cbn [feed concat]. rewrite app_nil_r, Nat.sub_diag.
      unfold windows at 2 4. simpl. rewrite app_nil_r.
      repeat split; try lia; try exact (proj1 HI); try exact (proj2 HI).
      unfold f_rows, frames. destruct (c_func c); reflexivity.
    - cbn [feed]. cbn [enqueue]. rewrite attempt_false. cbn [bind].
      destruct (step_inv a cache d m HI) as [HI' Hwin].
      set (k := n_windows (length (cache ++ d)) w s) in *.
      destruct (IH _ _ _ HI') as [m' [cache' [outs [Hf [HI2 [Hw2 [Hle Hfr]]]]]]].
      rewrite Hf. cbn [bind]. eexists m', cache', _. split; [reflexivity|].
      cbn [concat]. rewrite app_assoc. split; [exact HI2|].
      assert (Hms : m * s <= length a).
      { destruct HI as [_ Hm]. destruct (n_windows_fit (length a) w s Hs) as [H0|Hfit]; nia. }
      assert (Hsplit : windows (skipn (m * s) ((a ++ d) ++ concat ds)) w s (m' - m)
              = windows (cache ++ d) w s k ++
                windows (skipn ((m + k) * s) ((a ++ d) ++ concat ds)) w s (m' - (m + k))).
      { replace (m' - m) with (k + (m' - (m + k))) by lia.
        rewrite windows_app_split, skipn_skipn'.
        replace (m * s + k * s) with ((m + k) * s) by lia. f_equal.
        assert (Hcd : skipn (m * s) ((a ++ d) ++ concat ds) = (cache ++ d) ++ concat ds).
        { destruct HI as [Hc _]. rewrite Hc, <- !app_assoc, (skipn_app (m * s) a).
          replace (m * s - length a) with 0 by lia. reflexivity. }
        rewrite Hcd. apply windows_prefix. apply n_windows_fit. exact Hs. }
      split; [|split; [lia|]].
      + rewrite Hw2, Hwin, Hsplit, <- app_assoc. reflexivity.
      + unfold frames in *. rewrite map_app, concat_app, Hfr, Hsplit, f_rows_app. f_equal.
        destruct (Nat.eqb_spec k 0) as [->|Hk0].
        * unfold f_rows; simpl. destruct (c_func c); reflexivity.
        * simpl. rewrite app_nil_r. reflexivity.
  Qed.

  Lemma attempt_true (cache : list A) :
    length cache <= w ->
    exists st, attempt zero c true (Some cache)
    = Ok (st, [Rows (f_rows [window_at (cache ++ repeat zero w) w s 0])]).
  Proof.
    intros Hl. unfold attempt, dequeue, sliding_window_with_leftovers.
    rewrite Hcw, Hcs.
    destruct (windowed_pad zero cache w s Hw Hs Hsw) as [z [H [Hfit Hz]]].
    rewrite H. unfold padded_count in *.
    destruct (Nat.leb_spec (length cache) w); [|lia].
    assert (Hwz : windows (cache ++ repeat zero z) w s 1
                  = [window_at (cache ++ repeat zero w) w s 0]).
    { unfold windows. simpl. f_equal. unfold window_at. simpl.
      assert (Hrep : repeat zero w = repeat zero z ++ repeat zero (w - z))
        by (rewrite <- repeat_app; f_equal; lia).
      rewrite Hrep, app_assoc, (firstn_app w (cache ++ repeat zero z)), app_length, repeat_length.
      replace (w - (length cache + z)) with 0 by lia. simpl. rewrite app_nil_r. reflexivity. }
    rewrite Hwz. unfold wout_empty. cbn [forallb].
    assert (Hlen : length (window_at (cache ++ repeat zero w) w s 0) = w).
    { apply window_at_full. rewrite app_length, repeat_length. lia. }
    destruct (window_at (cache ++ repeat zero w) w s 0) eqn:E; [simpl in Hlen; lia|].
    cbn [andb]. eexists. unfold apply_func, f_rows. cbn [forallb andb].
    destruct (c_func c); reflexivity.
  Qed.

  Lemma inv_cache_short (a cache : list A) m : Inv a cache m -> length cache <= w.
  Proof.
    intros [-> Hm]. rewrite skipn_length. unfold n_windows in Hm.
    destruct (Nat.leb_spec (length a) w); [destruct Hm; lia|].
    destruct Hm as [Hm|[_ He]]; [|lia].
    pose proof (Nat.div_mod (length a - w) s ltac:(lia)).
    pose proof (Nat.mod_upper_bound (length a - w) s ltac:(lia)). nia.
  Qed.

  Lemma run_frames (d : list A) (ds : list (list A)) :
    let a := repeat zero (c_padwith c) ++ concat (d :: ds) in
    let n := n_windows (length a) w s in
    exists outs k,
      run zero c (d :: ds) = Ok outs
      /\ frames outs = f_rows (windows (a ++ repeat zero w) w s k)
      /\ (k = n + 1 \/ (1 <= n /\ k = n /\ length a = w + (n - 1) * s)).
  Proof.
    intros a n. unfold run. cbn [feed]. cbn [enqueue]. rewrite attempt_false. cbn [bind].
    set (a0 := first_chunk zero c d).
    assert (HI0 : Inv a0 (skipn (n_windows (length a0) w s * s) a0) (n_windows (length a0) w s)).
    { split; [reflexivity|left; reflexivity]. }
    destruct (feed_inv ds _ _ _ HI0) as [m' [cache' [outs [Hf [HI2 [Hw2 [Hle Hfr]]]]]]].
    rewrite Hf. cbn [bind].
    destruct (attempt_true cache' (inv_cache_short _ _ _ HI2)) as [st Hat].
    rewrite Hat. cbn [bind].
    assert (Ha : a0 ++ concat ds = a).
    { unfold a0, a, first_chunk. cbn [concat]. rewrite app_assoc. reflexivity. }
    rewrite Ha in *.
    set (n0 := n_windows (length a0) w s) in *.
    eexists _, (m' + 1). split; [reflexivity|].
    destruct HI2 as [Hc' Hm'].
    assert (Hms : m' * s <= length a).
    { destruct (n_windows_fit (length a) w s Hs) as [H0|Hfit]; nia. }
    split.
    - assert (Hm'fit : m' = 0 \/ (m' - 1) * s + w <= length a).
      { destruct (n_windows_fit (length a) w s Hs) as [H0|Hfit]; [left; lia|].
        destruct Hm' as [Hm'|[Hm' _]]; [right; rewrite Hm'; exact Hfit|].
        destruct m' as [|m'']; [left; reflexivity|right]. nia. }
      transitivity (f_rows (windows a w s m') ++
                    f_rows [window_at (cache' ++ repeat zero w) w s 0]).
      + unfold frames in *. rewrite !map_app, !concat_app, Hfr, Hw2, f_rows_app. f_equal; [f_equal|].
        * destruct (Nat.eqb_spec n0 0) as [->|Hn0].
          -- unfold f_rows; simpl. destruct (c_func c); reflexivity.
          -- simpl. rewrite app_nil_r. f_equal.
        * simpl. rewrite app_nil_r. reflexivity.
      + rewrite <- f_rows_app. f_equal. rewrite windows_app_split. f_equal.
        * symmetry. apply windows_prefix. exact Hm'fit.
        * unfold windows. simpl. f_equal.
          rewrite Hc', skipn_app. replace (m' * s - length a) with 0 by lia. reflexivity.
    - fold n in Hm'. destruct Hm' as [Hm'|[Hm' He]]; [left; lia|right]. split; [lia|].
      split; [lia|]. rewrite He. f_equal. f_equal. lia.
  Qed.
End Proofs.

(** ** Statements *)

(** [zero_extended stream w]: the stream followed by one window of silence. *)

(** Frames of a run do not depend on how the stream is cut, except that the last
    frame, which then repeats only samples already emitted, may be missing when
    the stream length is exactly a whole number of steps beyond one window. *)
Lemma sliding_node_main {A} (zero : A) (c : config A) (w s : nat) (chunks : list (list A)) :
  2 <= w -> 1 <= s -> s <= w -> c_window c = Z.of_nat w -> c_step c = Z.of_nat s ->
  chunks <> [] ->
  let stream := repeat zero (c_padwith c) ++ concat chunks in
  let apply := match c_func c with None => fun r => r | Some f => f end in
  exists outs k,
    run zero c chunks = Ok outs
    /\ frames outs = map (fun i => apply (firstn w (skipn (i * s) (stream ++ repeat zero w)))) (seq 0 k)
    /\ (forall j, j < length stream -> exists i, i < k /\ i * s <= j < i * s + w)
    /\ (length stream <= w -> k = 1)
    /\ (w < length stream -> (length stream - w) mod s <> 0 -> k = 2 + (length stream - w) / s)
    /\ (w < length stream -> (length stream - w) mod s = 0 ->
          k = 2 + (length stream - w) / s \/ k = 1 + (length stream - w) / s).
Proof.
  intros Hw Hs Hsw Hcw Hcs Hne stream apply.
  destruct chunks as [|d ds]; [congruence|].
  destruct (run_frames zero c w s Hw Hs Hsw Hcw Hcs d ds) as [outs [k [Hr [Hf Hk]]]].
  fold stream in Hf, Hk. exists outs, k. split; [exact Hr|]. split.
  { rewrite Hf. unfold f_rows, apply, windows, window_at.
    destruct (c_func c); [rewrite map_map|]; reflexivity. }
  unfold n_windows in Hk.
  destruct (Nat.leb_spec (length stream) w) as [Hl|Hl].
  { assert (Hk1 : k = 1) by lia.
    split; [|repeat split; intros; lia].
    intros j Hj. exists 0. lia. }
  assert (Hk2 : k = 2 + (length stream - w) / s \/
                (k = 1 + (length stream - w) / s /\ (length stream - w) mod s = 0)).
  { destruct Hk as [Hk|[_ [Hk He]]]; [left; lia|right]. split; [lia|].
    rewrite He. replace (w + (1 + (length stream - w) / s - 1) * s - w)
      with (((length stream - w) / s) * s) by nia. apply Nat.mod_mul. lia. }
  split; [|repeat split; intros; lia].
  intros j Hj.
  pose proof (Nat.div_mod (length stream - w) s ltac:(lia)).
  pose proof (Nat.mod_upper_bound (length stream - w) s ltac:(lia)).
  set (q := (length stream - w) / s) in *. set (r := (length stream - w) mod s) in *.
  destruct (Nat.le_gt_cases (q * s + w) j) as [Hj'|Hj'].
  - exists (q + 1). destruct Hk2 as [->|[-> Hr0]]; [|nia]. split; [lia|]. nia.
  - destruct (Nat.le_gt_cases (q * s) j) as [Hj2|Hj2].
    + exists q. lia.
    + exists (j / s). pose proof (Nat.div_mod j s ltac:(lia)).
      pose proof (Nat.mod_upper_bound j s ltac:(lia)). split; [|nia].
      assert (j / s < q) by (apply Nat.div_lt_upper_bound; lia). lia.
Qed.

(** The exact property is false: the same six samples give three frames or two,
    depending on where the chunk border lies. *)
Lemma sliding_node_chunk_dependent :
  exists (c : config nat) (chunks1 chunks2 : list (list nat)) o1 o2,
    c_window c = 4%Z /\ c_step c = 2%Z /\
    concat chunks1 = concat chunks2 /\
    run 0 c chunks1 = Ok o1 /\ run 0 c chunks2 = Ok o2 /\
    frames o1 <> frames o2.
Proof.
  exists {| c_window := 4; c_step := 2; c_padwith := 0; c_func := None |},
    [[1;2;3;4;5;6]], [[1;2;3;4;5];[6]].
  do 2 eexists. do 3 (split; [reflexivity|]).
  split; [vm_compute; reflexivity|]. split; [vm_compute; reflexivity|].
  vm_compute. discriminate.
Qed.

Example sliding_node_example :
  match run 0 {| c_window := 4; c_step := 2; c_padwith := 1; c_func := Some (map (fun x => 2 * x)) |}
    [[1;2;3];[4];[];[5;6;7;8]] with Ok o => frames o | _ => [] end
  = [[0;2;4;6];[4;6;8;10];[8;10;12;14];[12;14;16;0]].
Proof. vm_compute. reflexivity. Qed.
