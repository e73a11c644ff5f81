(** [range(start, stop, step)] and cutting a sequence into consecutive chunks
    with it.  No code of /repo is modelled here. *)
From Verif Require Import PyBase PyFacts.
Local Open Scope Z_scope.

(** [range(start, stop, step)]; a zero step is a ValueError *)
Definition py_range (start stop step : Z) : result (list Z) :=
  if step =? 0 then Raise ValueError
  else Ok (map (fun k => start + step * Z.of_nat k) (seq 0 (Z.to_nat (ceil_div (stop - start) step)))).

(** the pieces of a list: [c] rows each, the last one what remains *)
Fixpoint pieces_fuel {A} (fuel c : nat) (l : list A) : list (list A) :=
  match fuel, l with
  | _, [] => []
  | O, _ => []
  | S f, _ => firstn c l :: pieces_fuel f c (skipn c l)
  end.
Definition pieces {A} (c : nat) (l : list A) : list (list A) := pieces_fuel (length l) c l.

Lemma pieces_fuel_concat {A} c : (0 < c)%nat -> forall f (l : list A), (length l <= f)%nat -> concat (pieces_fuel f c l) = l.
Proof.
  intros Hc. induction f as [|f IH]; intros l H.
  - destruct l; [reflexivity|cbn in H; lia].
  - destruct l as [|x l]; [reflexivity|]. cbn [pieces_fuel concat]. rewrite IH; [apply firstn_skipn|].
    rewrite skipn_length. cbn [length] in *. lia.
Qed.
(** the pieces put together are the list *)
Lemma pieces_concat {A} c (l : list A) : (0 < c)%nat -> concat (pieces c l) = l.
Proof. intros Hc. apply pieces_fuel_concat; [exact Hc|lia]. Qed.
Lemma pieces_fuel_sizes {A} c : (0 < c)%nat -> forall f (l : list A) p, In p (pieces_fuel f c l) -> (0 < length p <= c)%nat.
Proof.
  intros Hc. induction f as [|f IH]; intros l p H.
  - destruct l; destruct H.
  - destruct l as [|x l]; [destruct H|]. cbn [pieces_fuel] in H. destruct H as [<-|H]; [|exact (IH _ _ H)].
    rewrite firstn_length. cbn [length]. lia.
Qed.
Lemma pieces_sizes {A} c (l : list A) p : (0 < c)%nat -> In p (pieces c l) -> (0 < length p <= c)%nat.
Proof. intros Hc. apply pieces_fuel_sizes. exact Hc. Qed.
(** all but the last piece are full *)
Lemma pieces_fuel_full {A} c : (0 < c)%nat -> forall f (l : list A) k p, (length l <= f)%nat ->
  nth_error (pieces_fuel f c l) k = Some p -> (S k < length (pieces_fuel f c l))%nat -> length p = c.
Proof.
  intros Hc. induction f as [|f IH]; intros l k p Hf H Hk.
  - destruct l; destruct k; discriminate.
  - destruct l as [|x l]; [destruct k; discriminate|]. cbn [pieces_fuel] in *. destruct k as [|k].
    + injection H as <-. rewrite firstn_length. destruct (skipn c (x :: l)) as [|y s] eqn:E.
      * cbn [length] in Hk. destruct f; cbn in Hk; lia.
      * assert (L : length (skipn c (x :: l)) = S (length s)) by (rewrite E; reflexivity).
        rewrite skipn_length in L. lia.
    + cbn [nth_error length] in *. apply (IH (skipn c (x :: l)) k p); [rewrite skipn_length; cbn [length]; lia|exact H|lia].
Qed.
Lemma pieces_full {A} c (l : list A) k p : (0 < c)%nat ->
  nth_error (pieces c l) k = Some p -> (S k < length (pieces c l))%nat -> length p = c.
Proof. intros Hc. apply pieces_fuel_full; [exact Hc|lia]. Qed.

Lemma ceil_div_pos n c : 0 < c -> 0 < n -> ceil_div n c = 1 + ceil_div (n - c) c.
Proof. intros Hc Hn. unfold ceil_div. replace (- (n - c)) with (- n + 1 * c) by ring. rewrite Z.div_add by lia. ring. Qed.
Lemma ceil_div_nonpos n c : 0 < c -> n <= 0 -> ceil_div n c <= 0.
Proof. intros Hc Hn. unfold ceil_div. pose proof (Z.div_pos (- n) c ltac:(lia) Hc). lia. Qed.

Lemma range_pieces_gen {A} c (l : list A) : (0 < c)%nat -> forall f b, (length l - b <= f)%nat ->
  map (fun i => py_slice (Some i) (Some (i + Z.of_nat c)) l)
      (map (fun k => Z.of_nat b + Z.of_nat c * Z.of_nat k) (seq 0 (Z.to_nat (ceil_div (Zlen l - Z.of_nat b) (Z.of_nat c)))))
  = pieces_fuel f c (skipn b l).
Proof.
  intros Hc. induction f as [|f IH]; intros b Hf.
  - unfold Zlen. pose proof (ceil_div_nonpos (Z.of_nat (length l) - Z.of_nat b) (Z.of_nat c) ltac:(lia) ltac:(lia)).
    replace (Z.to_nat _) with 0%nat by lia. rewrite skipn_all2 by lia. reflexivity.
  - destruct (skipn b l) as [|y s] eqn:E.
    + assert (Lb : (length l - b = 0)%nat) by (rewrite <- skipn_length, E; reflexivity).
      unfold Zlen. pose proof (ceil_div_nonpos (Z.of_nat (length l) - Z.of_nat b) (Z.of_nat c) ltac:(lia) ltac:(lia)).
      replace (Z.to_nat _) with 0%nat by lia. reflexivity.
    + assert (Lb : (length l - b = S (length s))%nat) by (rewrite <- skipn_length, E; reflexivity).
      rewrite ceil_div_pos by (unfold Zlen; lia).
      assert (Nn : -1 < ceil_div (Zlen l - Z.of_nat b - Z.of_nat c) (Z.of_nat c)).
      { unfold ceil_div, Zlen. assert (- (Z.of_nat (length l) - Z.of_nat b - Z.of_nat c) / Z.of_nat c < 1); [|lia].
        apply Z.div_lt_upper_bound; lia. }
      replace (Z.to_nat (1 + _)) with (S (Z.to_nat (ceil_div (Zlen l - Z.of_nat (b + c)) (Z.of_nat c)))).
      2:{ replace (Zlen l - Z.of_nat (b + c)) with (Zlen l - Z.of_nat b - Z.of_nat c) by lia. lia. }
      cbn [seq map pieces_fuel]. rewrite Z.mul_0_r, Z.add_0_r. f_equal.
      * unfold py_slice. rewrite <- E. unfold norm_index, Zlen.
        destruct (Z.ltb_spec (Z.of_nat b) 0); [lia|]. destruct (Z.ltb_spec (Z.of_nat b + Z.of_nat c) 0); [lia|].
        replace (Z.to_nat (Z.max 0 (Z.min (Z.of_nat (length l)) (Z.of_nat b)))) with b by lia.
        destruct (Nat.le_ge_cases (b + c) (length l)).
        { f_equal. lia. }
        { rewrite !firstn_all2; [reflexivity| |]; rewrite skipn_length; lia. }
      * rewrite <- E, skipn_skipn'. rewrite <- (IH (b + c)%nat) by lia.
        rewrite <- seq_shift, !map_map. apply map_ext. intros k. f_equal; f_equal; lia.
Qed.
(** slicing at every [range(0, len(l), c)] gives the pieces *)
Lemma range_pieces {A} (c : Z) (l : list A) : 0 < c ->
  exists is, py_range 0 (Zlen l) c = Ok is /\
    map (fun i => py_slice (Some i) (Some (i + c)) l) is = pieces (Z.to_nat c) l.
Proof.
  intros Hc. unfold py_range. destruct (Z.eqb_spec c 0); [lia|]. eexists. split; [reflexivity|].
  pose proof (range_pieces_gen (Z.to_nat c) l ltac:(lia) (length l) 0%nat ltac:(lia)) as H.
  cbn [skipn] in H. rewrite Z2Nat.id in H by lia. exact H.
Qed.
Lemma pieces_nil {A} c : pieces c (@nil A) = [].
Proof. reflexivity. Qed.
(** how many pieces there are *)
Lemma range_length c n is : 0 < c -> 0 <= n -> py_range 0 n c = Ok is -> Zlen is = (n + c - 1) / c.
Proof.
  intros Hc Hn. unfold py_range. destruct (Z.eqb_spec c 0); [lia|]. intros H; injection H as <-.
  unfold Zlen. rewrite map_length, seq_length. unfold ceil_div. rewrite Z.sub_0_r.
  assert (E : - ((- n) / c) = (n + c - 1) / c).
  { Z.div_mod_to_equations. nia. }
  rewrite E. rewrite Z2Nat.id; [reflexivity|]. apply Z.div_pos; lia.
Qed.
Example range_ex : py_range 0 7 3 = Ok [0; 3; 6] /\ py_range 0 7 (-3) = Ok [] /\ py_range 5 0 (-2) = Ok [5; 3; 1].
Proof. repeat split; reflexivity. Qed.
