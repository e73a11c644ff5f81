(** Proofs about DctAxis.v. *)
From Coq Require Import ZArith QArith Reals Lra Lia Bool List Permutation.
From Verif Require Import PyBase PyFacts PyMore FreqDim Spectral TransformProofs Float64 Time64 Fractions FractionsProofs FractionsProofs2 FractionsProofs3 DctAxis.
Import ListNotations.
Local Open Scope nat_scope.

(** the learn package's round trip: everything but the first sample, which is doubled *)
Definition doubled (r : list R) : list R := match r with [] => [] | a :: r => (2 * a)%R :: r end.
Definition rectangular (x : arr2 R) : Prop := Forall (fun r => length r = cols x) (rows x).
Lemma idct_length (x : list R) : length (idct x) = length x.
Proof. unfold idct, base_dct. now rewrite map_length, seq_length. Qed.
Lemma idct_silence n : idct (repeat 0%R n) = repeat 0%R n.
Proof.
  apply nth_ext with 0%R 0%R; [now rewrite idct_length|]. intros t Ht. rewrite idct_length, repeat_length in Ht. rewrite nth_repeat.
  change (at_ (idct (repeat 0%R n)) t = 0%R). unfold idct, base_dct. rewrite repeat_length. rewrite at_map_seq by exact Ht.
  rewrite TransformProofs.rsum_zero; [ring|]. intros i Hi. unfold at_. rewrite nth_repeat. ring.
Qed.
Lemma map_rep {A B} (f : A -> B) a n : map f (repeat a n) = repeat (f a) n.
Proof. induction n as [|n IH]; [reflexivity|]. cbn. now rewrite IH. Qed.
Lemma round_trip r : idct (dct r) = doubled r.
Proof. apply dct_roundtrip_list. Qed.

(** ** one transform *)
Theorem last_axis f axis x : axis = 1%Z \/ axis = (-1)%Z -> 0 < cols x -> transform_along f axis x = Ok (mkArr (cols x) (map f (rows x))).
Proof.
  intros A C. unfold transform_along. assert (E : axis_of axis = Ok 1) by (destruct A as [-> | ->]; reflexivity). rewrite E. cbn [bind size_along Nat.eqb].
  destruct (Nat.eqb_spec (cols x) 0); [lia|]. now rewrite Nat.eqb_refl.
Qed.
(** along the first axis: an error unless there are as many rows as columns, and then every row
    is transformed, not every column *)
Theorem first_axis_refuted f axis x : axis = 0%Z \/ axis = (-2)%Z -> 0 < length (rows x) ->
  (length (rows x) <> cols x -> transform_along f axis x = Raise OtherError) /\
  (length (rows x) = cols x -> transform_along f axis x = Ok (mkArr (cols x) (map f (rows x))) /\ transform_along f axis x = transform_along f (-1) x).
Proof.
  intros A C. assert (E : axis_of axis = Ok 0) by (destruct A as [-> | ->]; reflexivity).
  assert (G : transform_along f axis x = if length (rows x) =? cols x then Ok (mkArr (cols x) (map f (rows x))) else Raise OtherError).
  { unfold transform_along. rewrite E. cbn [bind]. cbv zeta. change (size_along 0 x) with (length (rows x)). destruct (Nat.eqb_spec (length (rows x)) 0); [lia|reflexivity]. }
  split; intros H; rewrite G.
  - destruct (Nat.eqb_spec (length (rows x)) (cols x)); [contradiction|reflexivity].
  - rewrite H, Nat.eqb_refl. split; [reflexivity|]. symmetry. apply last_axis; [now right|lia].
Qed.
Theorem empty_axis f axis x : (axis_of axis = Ok 0 /\ rows x = []) \/ (axis_of axis = Ok 1 /\ cols x = 0) -> transform_along f axis x = Raise ZeroDivisionError.
Proof. intros [[E H]|[E H]]; unfold transform_along, size_along; rewrite E; cbn [bind Nat.eqb]; rewrite H; reflexivity. Qed.
Theorem no_such_axis f axis factor zs x : (axis < -2 \/ 1 < axis)%Z -> transform_along f axis x = Raise IndexError /\ dct_resample_along factor axis zs x = Raise IndexError.
Proof.
  intros H. assert (E : axis_of axis = Raise IndexError).
  { unfold axis_of. destruct (Z.eqb_spec axis 0); [lia|]. destruct (Z.eqb_spec axis (-2)); [lia|]. destruct (Z.eqb_spec axis 1); [lia|]. destruct (Z.eqb_spec axis (-1)); [lia|]. reflexivity. }
  unfold transform_along, dct_resample_along. now rewrite E.
Qed.

(** ** resampling *)
Lemma mapM_const_error {A B} (f : A -> result B) e l : l <> [] -> (forall a, In a l -> f a = Raise e) -> mapM f l = Raise e.
Proof. intros N H. destruct l as [|a l]; [contradiction|]. cbn [mapM]. now rewrite (H a (or_introl eq_refl)). Qed.
Theorem resample_last_axis factor axis zs x : axis = 1%Z \/ axis = (-1)%Z -> rectangular x -> rows x <> [] ->
  dct_resample_along factor axis zs x =
    do r <- mapM (dct_resample64 factor zs) (rows x);
    Ok (mkArr (Z.to_nat (part64 factor (Z.of_nat (cols x)))) r).
Proof.
  intros A W N. unfold dct_resample_along. assert (E : axis_of axis = Ok 1) by (destruct A as [-> | ->]; reflexivity). rewrite E. cbn [bind size_along Nat.eqb].
  unfold rectangular in W. rewrite Forall_forall in W. set (n := part64 factor (Z.of_nat (cols x))).
  destruct (Nat.eq_dec (cols x) 0) as [C|C].
  - rewrite empty_axis by (right; split; [reflexivity|exact C]). cbn [bind]. rewrite (mapM_const_error _ ZeroDivisionError _ N); [reflexivity|].
    intros a Ha. unfold dct_resample64. now rewrite (W a Ha), C.
  - rewrite last_axis by (now (right + lia)). cbn [bind].
    destruct (Z.ltb_spec n 0) as [L|L].
    + rewrite (mapM_const_error _ OtherError _ N); [reflexivity|]. intros a Ha. unfold dct_resample64. rewrite (W a Ha). fold n.
      destruct (Nat.eqb_spec (cols x) 0); [contradiction|]. destruct (Z.ltb_spec n 0); [reflexivity|lia].
    + destruct (Z.eq_dec n 0) as [Z0|Z0].
      * rewrite Z0. change (Z.to_nat 0) with 0. rewrite empty_axis by (right; split; reflexivity).
        rewrite (mapM_const_error _ ZeroDivisionError _ N); [reflexivity|]. intros a Ha. unfold dct_resample64. rewrite (W a Ha). fold n. rewrite Z0.
        destruct (Nat.eqb_spec (cols x) 0); [contradiction|]. reflexivity.
      * rewrite last_axis; [|now right|cbn [cols]; lia]. cbn [cols rows].
        rewrite (mapM_ok _ (fun a => idct (zeroed zs (resized 0%R (Z.to_nat n) (dct a))))).
        -- cbn [bind]. now rewrite !map_map.
        -- intros a Ha. unfold dct_resample64. rewrite (W a Ha). fold n. destruct (Nat.eqb_spec (cols x) 0); [contradiction|].
           destruct (Z.ltb_spec n 0); [lia|]. destruct (Z.eqb_spec n 0); [contradiction|]. reflexivity.
Qed.
Lemma resized_length {A} (z : A) m l : length (resized z m l) = m.
Proof. unfold resized. rewrite app_length, firstn_length, repeat_length. lia. Qed.
Lemma map_resized {A B} (f : A -> B) z m l : map f (resized z m l) = resized (f z) m (map f l).
Proof. unfold resized. rewrite map_app, firstn_map, map_rep, map_length. reflexivity. Qed.
(** along the first axis nothing is resampled: the rows that are kept are the old ones but for
    the doubled first sample, and rows that are added are silent *)
Theorem resample_first_axis_refuted factor axis x : axis = 0%Z \/ axis = (-2)%Z -> 0 < cols x ->
  let n := part64 factor (Z.of_nat (length (rows x))) in
  (0 <= n)%Z -> exists y, dct_resample_along factor axis None x = Ok y /\ cols y = cols x /\ length (rows y) = Z.to_nat n /\
    forall i, i < Z.to_nat n -> nth i (rows y) [] = if i <? length (rows x) then doubled (nth i (rows x) []) else repeat 0%R (cols x).
Proof.
  intros A C n P. assert (E : axis_of axis = Ok 0) by (destruct A as [-> | ->]; reflexivity). unfold dct_resample_along. rewrite E. cbn [bind]. cbv zeta. change (size_along 0 x) with (length (rows x)). fold n. change (0 =? 0) with true. cbv iota.
  rewrite last_axis by (now (right + lia)). cbn [bind]. destruct (Z.ltb_spec n 0); [lia|]. cbn [zeroed_rows cols rows].
  rewrite last_axis; [|now right|exact C]. cbn [cols rows]. eexists. split; [reflexivity|]. cbn [cols rows]. split; [reflexivity|].
  rewrite map_resized, idct_silence, map_map. split; [apply resized_length|].
  intros i Hi. unfold resized. rewrite map_length. destruct (Nat.ltb_spec i (length (rows x))) as [L|L].
  - rewrite app_nth1 by (rewrite firstn_length, map_length; lia). rewrite FractionsProofs3.nth_firstn by exact Hi.
    rewrite (nth_indep _ [] (idct (dct []))) by (now rewrite map_length). rewrite (map_nth (fun r => idct (dct r))). apply round_trip.
  - rewrite app_nth2 by (rewrite firstn_length, map_length; lia). rewrite firstn_length, map_length.
    rewrite (nth_indep _ [] (repeat 0%R (cols x))) by (rewrite repeat_length; lia). apply nth_repeat.
Qed.
(** a column that is 1 throughout becomes 2 and then, where there should be more of it, 0 *)
Example resample_constant : exists y, dct_resample_along 2 0 None (mkArr 1 [[1%R]; [1%R]]) = Ok y /\ rows y = [[2%R]; [2%R]; [0%R]; [0%R]].
Proof.
  destruct (resample_first_axis_refuted 2 0 (mkArr 1 [[1%R]; [1%R]]) (or_introl eq_refl) Nat.lt_0_1) as (y & E & Cy & Ly & V); [vm_compute; discriminate|].
  exists y. split; [exact E|]. change (Z.to_nat _) with 4 in *. destruct (rows y) as [|a [|b [|c [|d [|e r]]]]]; try discriminate Ly.
  pose proof (V 0 ltac:(lia)) as V0. pose proof (V 1 ltac:(lia)) as V1. pose proof (V 2 ltac:(lia)) as V2. pose proof (V 3 ltac:(lia)) as V3.
  cbn in V0, V1, V2, V3. subst. repeat f_equal; ring.
Qed.

(** ** frequency bands along the first axis *)
Lemma band_rows_ok x a b : 0 < cols x -> a <= b <= length (rows x) ->
  band_rows (cols x) (map dct (rows x)) a b = Ok (mkArr (cols x) (repeat (repeat 0%R (cols x)) a ++ map doubled (firstn (b - a) (skipn a (rows x))))).
Proof.
  intros C H. unfold band_rows. replace (length (firstn (b - a) (skipn a (map dct (rows x))))) with (b - a) by (rewrite firstn_length, skipn_length, map_length; lia).
  rewrite Nat.eqb_refl. cbn [bind]. rewrite last_axis; [|now right|exact C]. cbn [cols rows]. rewrite map_app, map_rep, idct_silence, skipn_map, firstn_map, map_map.
  do 3 f_equal. apply map_ext. intros r. apply round_trip.
Qed.
(** the rows of a square array are dealt out to the bands in order: no band has anything to do
    with frequencies along the first axis *)
Theorem rows_dealt_refuted factors x : length (rows x) = cols x -> machine_length (rows x) -> (forall f, In f factors -> (0 <= f <= 1)%Q) ->
  exists sizes out, decomposition_rows factors x = Ok out /\ Permutation (map (fun f => Z.to_nat (part64 f (Z.of_nat (length (rows x))))) factors) sizes /\
    (forall i, S i < length sizes -> nth i sizes 0 <= nth (S i) sizes 0) /\ length out = length factors /\
    forall i, i < length factors ->
      let start := nth i (0 :: sizes) 0 in
      let stop := nth i sizes 0 in
      start <= stop <= length (rows x) /\
      rows (nth i out (mkArr 0 [])) = repeat (repeat 0%R (cols x)) start ++ map doubled (firstn (stop - start) (skipn start (rows x))).
Proof.
  intros Sq [Pos Small] U. set (bs := fun f => Z.to_nat (part64 f (Z.of_nat (length (rows x))))). set (sizes := sort_n (map bs factors)). set (pairs := combine (0 :: sizes) sizes).
  assert (Pm : Permutation (map bs factors) sizes) by apply sort_perm. assert (I : increasing sizes) by apply sort_increasing.
  assert (Ls : length sizes = length factors) by (rewrite <- (Permutation_length Pm); apply map_length).
  assert (S1 : forall i, i < length sizes -> nth i sizes 0 <= length (rows x)).
  { intros i Hi. assert (In (nth i sizes 0) sizes) as J by now apply nth_In. apply (Permutation_in _ (Permutation_sym Pm)) in J. apply in_map_iff in J as (f & <- & J).
    pose proof (part_le f (Z.of_nat (length (rows x))) (U f J) ltac:(lia)). unfold bs. lia. }
  assert (Lp : length pairs = length sizes) by (unfold pairs; rewrite combine_length; cbn [length]; lia).
  assert (V : forall p, In p pairs -> fst p <= snd p <= length (rows x)).
  { intros p J. apply (In_nth _ _ (0, 0)) in J as (i & Hi & <-). rewrite Lp in Hi. unfold pairs. rewrite combine_nth_shift by exact Hi. cbn [fst snd]. pose proof (shifted_le sizes i I Hi). pose proof (S1 i Hi). lia. }
  assert (By : decomposition_rows factors x = mapM (fun p => band_rows (cols x) (map dct (rows x)) (fst p) (snd p)) pairs).
  { unfold decomposition_rows. destruct (first_axis_refuted dct 0 x (or_introl eq_refl) Pos) as [_ G]. destruct (G Sq) as [-> _]. cbn [bind rows]. fold bs.
    unfold pairs, sizes. rewrite <- (sort_map bs factors).
    - assert (Z0 : bs 0%Q = 0) by (unfold bs; now rewrite part_none by lia). rewrite <- Z0 at 1. change (bs 0%Q :: map bs (sort_q factors)) with (map bs (0%Q :: sort_q factors)).
      rewrite combine_map, mapM_map. reflexivity.
    - intros f g Hf _ L. unfold bs. pose proof (part_mono f g (Z.of_nat (length (rows x))) (proj1 (U f Hf)) L ltac:(lia)). lia. }
  exists sizes, (map (fun p => mkArr (cols x) (repeat (repeat 0%R (cols x)) (fst p) ++ map doubled (firstn (snd p - fst p) (skipn (fst p) (rows x))))) pairs).
  split; [|split; [exact Pm|split; [intros i Hi; now apply increasing_nth|split; [rewrite map_length; lia|]]]].
  - rewrite By. apply mapM_ok. intros p J. apply band_rows_ok; [lia|exact (V p J)].
  - intros i Hi start stop. assert (Hs : start <= stop) by (apply shifted_le; [exact I|lia]). assert (S2 := S1 i ltac:(lia)). fold stop in S2. split; [lia|].
    rewrite (nth_indep _ _ ((fun p => mkArr (cols x) (repeat (repeat 0%R (cols x)) (fst p) ++ map doubled (firstn (snd p - fst p) (skipn (fst p) (rows x))))) (0, 0))) by (rewrite map_length; lia).
    rewrite (map_nth (fun p => mkArr (cols x) (repeat (repeat 0%R (cols x)) (fst p) ++ map doubled (firstn (snd p - fst p) (skipn (fst p) (rows x)))))). cbn [rows].
    unfold pairs. rewrite combine_nth_shift by lia. reflexivity.
Qed.
Theorem not_square_refuted factors x : 0 < length (rows x) -> length (rows x) <> cols x -> decomposition_rows factors x = Raise OtherError.
Proof. intros P N. unfold decomposition_rows. destruct (first_axis_refuted dct 0 x (or_introl eq_refl) P) as [G _]. now rewrite (G N). Qed.
Example rows_dealt_case : let x := mkArr 2 [[1%R; 2%R]; [3%R; 4%R]] in length (rows x) = cols x /\ machine_length (rows x) /\ forall f, In f [(1 # 2)%Q; 1%Q] -> (0 <= f <= 1)%Q.
Proof. cbn zeta. split; [reflexivity|]. split; [split; cbn; lia|]. intros f [<-|[<-|[]]]; split; discriminate. Qed.
(** with a zero slice: rows of the result, not coefficients, are silenced *)
Lemma doubled_silence n : doubled (repeat 0%R n) = repeat 0%R n.
Proof. destruct n as [|n]; [reflexivity|]. cbn. f_equal. ring. Qed.
Theorem zeroed_first_axis_refuted factor axis s x y : axis = 0%Z \/ axis = (-2)%Z -> 0 < cols x -> dct_resample_along factor axis None x = Ok y ->
  exists z, dct_resample_along factor axis (Some s) x = Ok z /\ cols z = cols x /\ length (rows z) = length (rows y) /\
    forall i, i < length (rows y) -> nth i (rows z) [] = if existsb (Nat.eqb i) (apply_slice s (seq 0 (length (rows y)))) then repeat 0%R (cols x) else nth i (rows y) [].
Proof.
  intros A C. assert (E : axis_of axis = Ok 0) by (destruct A as [-> | ->]; reflexivity). unfold dct_resample_along. rewrite E. cbn [bind]. cbv zeta. change (size_along 0 x) with (length (rows x)).
  set (n := part64 factor (Z.of_nat (length (rows x)))). change (0 =? 0) with true. cbv iota.
  rewrite last_axis by (now (right + lia)). cbn [bind]. destruct (Z.ltb_spec n 0); [discriminate|]. cbn [zeroed_rows cols rows].
  rewrite !last_axis; [|now right|exact C|now right|exact C]. cbn [cols rows]. intros Y. injection Y as <-. eexists. split; [reflexivity|]. cbn [cols rows]. split; [reflexivity|].
  rewrite !map_length, seq_length. split; [reflexivity|]. intros i Hi. rewrite map_map.
  set (L := resized _ _ _) in *. set (g := fun j => idct (if existsb (Nat.eqb j) _ then _ else _)).
  rewrite (nth_indep _ [] (g 0)) by (now rewrite map_length, seq_length). rewrite map_nth, seq_nth by exact Hi. cbn [Nat.add]. unfold g.
  destruct (existsb _ _); [apply idct_silence|]. rewrite (nth_indep (map idct L) [] (idct [])) by (now rewrite map_length). now rewrite map_nth.
Qed.
Theorem resample_errors factor axis zs x :
  (axis_of axis <> Raise IndexError -> cols x = 0 -> dct_resample_along factor axis zs x = Raise ZeroDivisionError) /\
  (axis_of axis = Ok 0 -> 0 < cols x -> (part64 factor (Z.of_nat (length (rows x))) < 0)%Z -> dct_resample_along factor axis zs x = Raise OtherError) /\
  (axis_of axis = Ok 1 -> 0 < cols x -> (part64 factor (Z.of_nat (cols x)) < 0)%Z -> dct_resample_along factor axis zs x = Raise OtherError).
Proof.
  unfold dct_resample_along. repeat split; intros E C.
  - assert (exists k, axis_of axis = Ok k) as (k & ->). { unfold axis_of in *. destruct (_ || _); [eexists; reflexivity|]. destruct (_ || _); [eexists; reflexivity|]. now destruct E. }
    cbn [bind]. now rewrite empty_axis by (right; split; [reflexivity|exact C]).
  - intros L. rewrite E. cbn [bind]. cbv zeta. rewrite last_axis by (now (right + lia)). cbn [bind]. change (size_along 0 x) with (length (rows x)). now apply Z.ltb_lt in L as ->.
  - intros L. rewrite E. cbn [bind]. cbv zeta. rewrite last_axis by (now (right + lia)). cbn [bind]. change (size_along 1 x) with (cols x). now apply Z.ltb_lt in L as ->.
Qed.
