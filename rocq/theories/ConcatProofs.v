(** Proofs about Concat.v. *)
From Coq Require Import ZArith Reals Lia.
From Verif Require Import PyBase PyFacts PyMore Time TimeProofs Freq FreqDim Axis AxisProofs Ops OpsProofs OpsProofs2 OpsProofs3 Concat.
Local Open Scope nat_scope.

(** ** Specification *)
(** position [i] of the whole is position [i'] of array [j] *)
Definition lies_in (k : nat) (xs : list nda) (i j i' : nat) : Prop :=
  exists x, nth_error xs j = Some x /\ i' < nth k (nd_shape x) 0 /\ i = fold_right Nat.add 0 (map (fun y => nth k (nd_shape y) 0) (firstn j xs)) + i'.
(** the same index with another position along axis [k] *)
Definition moved (k : nat) (i : nat) (ix iy : list nat) : Prop := length iy = length ix /\ nth k iy 0 = i /\ forall a, a <> k -> nth a iy 0 = nth a ix 0.
(** same shape apart from axis [k] *)
Definition beside (k : nat) (x y : nda) : Prop := ndim y = ndim x /\ forall a, a <> k -> nth_error (nd_shape y) a = nth_error (nd_shape x) a.

Lemma eqb_nats a b : nat_list_eqb a b = true <-> a = b.
Proof. unfold nat_list_eqb. destruct (list_eq_dec Nat.eq_dec a b); split; congruence. Qed.
Lemma nth_error_skipn' {A} (l : list A) n i : nth_error (skipn n l) i = nth_error l (n + i).
Proof. revert l. induction n as [|n IH]; intros l; [reflexivity|]. destruct l; [now destruct i|]. cbn. apply IH. Qed.
Lemma nth_error_firstn' {A} (l : list A) n i : i < n -> nth_error (firstn n l) i = nth_error l i.
Proof. revert l i. induction n as [|n IH]; intros l i H; [lia|]. destruct l; [now destruct i|]. destruct i; [reflexivity|]. cbn. apply IH. lia. Qed.
Lemma fits_beside_ok k x y : k < ndim x -> fits_beside k (nd_shape x) (nd_shape y) = true <-> beside k x y.
Proof.
  intros Hk. unfold fits_beside, beside, ndim in *. rewrite !Bool.andb_true_iff, !eqb_nats, Nat.eqb_eq. split.
  - intros [[F Sk] L]. split; [lia|]. intros a Na. destruct (Nat.lt_ge_cases a k) as [H|H].
    + rewrite <- (nth_error_firstn' _ k a H), <- F. apply nth_error_firstn'. exact H.
    + replace a with (S k + (a - S k)) by lia. rewrite <- !nth_error_skipn', Sk. reflexivity.
  - intros [L H]. split; [split|congruence].
    + apply nth_error_ext. intros i. destruct (Nat.lt_ge_cases i k) as [Hi|Hi]; [rewrite !nth_error_firstn' by exact Hi; symmetry; apply H; lia|]. rewrite !(proj2 (nth_error_None _ _)) by (rewrite firstn_length; lia). reflexivity.
    + apply nth_error_ext. intros i. rewrite !nth_error_skipn'. symmetry. apply H. lia.
Qed.
Lemma set_nth_moved k i ix : k < length ix -> moved k i ix (set_nth k i ix).
Proof.
  intros H. assert (L : length (set_nth k i ix) = length ix) by (unfold set_nth; rewrite app_length, firstn_length; cbn [length]; rewrite skipn_length; lia).
  assert (G : forall a, nth a (set_nth k i ix) 0 = if a =? k then i else nth a ix 0).
  { intros a. pose proof (nth_error_set_nth k i ix a H) as E. destruct (Nat.eqb_spec a k).
    - apply nth_error_nth. exact E.
    - destruct (nth_error ix a) eqn:Ea; [rewrite (nth_error_nth _ _ _ E), (nth_error_nth _ _ _ Ea); reflexivity|]. apply nth_error_None in E, Ea. rewrite !nth_overflow by assumption. reflexivity. }
  split; [exact L|]. split; [rewrite G, Nat.eqb_refl; reflexivity|]. intros a N. rewrite G. now rewrite (proj2 (Nat.eqb_neq a k) N).
Qed.
Lemma moved_unique k i ix iy : moved k i ix iy -> k < length ix -> iy = set_nth k i ix.
Proof.
  intros (L & E & O) H. destruct (set_nth_moved k i ix H) as (L' & E' & O'). apply nth_ext with (d := 0) (d' := 0); [congruence|]. intros a _. destruct (Nat.eq_dec a k) as [->|N]; [congruence|]. rewrite O, O' by exact N. reflexivity.
Qed.
Lemma cat_at_in k : forall xs i ix, i < cat_size k xs -> exists j i' x, lies_in k xs i j i' /\ nth_error xs j = Some x /\ cat_at k xs i ix = nd_at x (set_nth k i' ix).
Proof.
  unfold cat_size. induction xs as [|x xs IH]; intros i ix H; cbn [map fold_right] in H; [lia|]. cbn [cat_at]. destruct (Nat.ltb_spec i (nth k (nd_shape x) 0)) as [Hi|Hi].
  - exists 0, i, x. split; [|split; reflexivity]. exists x. split; [reflexivity|]. split; [exact Hi|reflexivity].
  - destruct (IH (i - nth k (nd_shape x) 0) ix) as (j & i' & y & (y' & Ey & Ly & Ei) & Ey' & V); [lia|]. exists (S j), i', y. split; [|split; [exact Ey'|exact V]]. exists y'. split; [exact Ey|]. split; [exact Ly|]. cbn [firstn map fold_right]. lia.
Qed.
Lemma lies_unique k : forall xs i j i' j2 i2, lies_in k xs i j i' -> lies_in k xs i j2 i2 -> j = j2 /\ i' = i2.
Proof.
  induction xs as [|x xs IH]; intros i j i' j2 i2 (y & Ey & Ly & Ei) (z & Ez & Lz & Ei2); [destruct j; discriminate|]. destruct j as [|j], j2 as [|j2]; cbn [nth_error firstn map fold_right] in *.
  - lia.
  - injection Ey as <-. lia.
  - injection Ez as <-. lia.
  - destruct (IH (i - nth k (nd_shape x) 0) j i' j2 i2); [exists y; split; [exact Ey|]; split; [exact Ly|lia]|exists z; split; [exact Ez|]; split; [exact Lz|lia]|]. lia.
Qed.
Lemma cat_at_lies k xs i ix j i' x : lies_in k xs i j i' -> nth_error xs j = Some x -> cat_at k xs i ix = nd_at x (set_nth k i' ix).
Proof.
  intros H Ex. assert (B : i < cat_size k xs). { destruct H as (y & Ey & Ly & ->). clear Ex. unfold cat_size. revert j Ey. induction xs as [|z xs IH]; intros [|j] Ey; cbn in Ey; try discriminate; cbn [firstn map fold_right]; [injection Ey as ->; lia|]. specialize (IH j Ey). lia. }
  destruct (cat_at_in k xs i ix B) as (j2 & i2 & y & H2 & Ey & V). destruct (lies_unique k xs i j i' j2 i2 H H2) as [-> ->]. congruence.
Qed.

(** which axis [axis] is *)
Definition names_axis (nd : nat) (axis : Z) (k : nat) : Prop := k < nd /\ (axis = Z.of_nat k \/ axis = Z.of_nat k - Z.of_nat nd)%Z.
Lemma pick_axis nd axis k : names_axis nd axis k -> pick nd axis = Ok k.
Proof.
  intros (H & E). unfold pick. destruct E as [->| ->].
  - rewrite (proj2 (Z.leb_le _ _)), (proj2 (Z.ltb_lt (Z.of_nat k) (Z.of_nat nd))) by lia. cbn [andb]. rewrite (proj2 (Z.ltb_ge (Z.of_nat k) 0)) by lia. now rewrite Nat2Z.id.
  - rewrite (proj2 (Z.leb_le _ _)), (proj2 (Z.ltb_lt _ (Z.of_nat nd))) by lia. cbn [andb]. rewrite (proj2 (Z.ltb_lt _ 0)) by lia. f_equal. lia.
Qed.
Lemma np_concatenate_ok x r axis k : names_axis (ndim x) axis k -> Forall (beside k x) r ->
  exists z, np_concatenate (x :: r) axis = Ok z /\ wf_nda z /\ nd_shape z = set_nth k (cat_size k (x :: r)) (nd_shape x) /\
    forall ix iy j i' y, in_shape (nd_shape z) ix -> lies_in k (x :: r) (nth k ix 0) j i' -> nth_error (x :: r) j = Some y -> moved k i' ix iy -> nd_at z ix = nd_at y iy.
Proof.
  intros Hk F. unfold np_concatenate. destruct (Nat.eqb_spec (ndim x) 0) as [E|_]; [destruct Hk; lia|]. rewrite (pick_axis _ _ _ Hk). cbn [bind].
  rewrite (proj2 (forallb_forall _ _)). 2:{ intros y Hy. apply fits_beside_ok; [exact (proj1 Hk)|]. rewrite Forall_forall in F. now apply F. }
  eexists. split; [reflexivity|]. split; [apply build_wf|]. split; [reflexivity|]. cbn [nd_build nd_shape]. intros ix iy j i' y I Hl Hy Hm. rewrite nd_at_build by exact I. rewrite (cat_at_lies _ _ _ _ _ _ _ Hl Hy). f_equal. symmetry. apply moved_unique; [exact Hm|].
  apply Forall2_len in I. unfold set_nth in I. rewrite app_length, firstn_length in I. cbn [length] in I. rewrite skipn_length in I. unfold ndim in Hk. destruct Hk. lia.
Qed.
Lemma np_concatenate_axis x r axis : (forall k, ~ names_axis (ndim x) axis k) -> ndim x <> 0 -> np_concatenate (x :: r) axis = Raise IndexError.
Proof.
  intros H N. unfold np_concatenate. destruct (Nat.eqb_spec (ndim x) 0); [contradiction|]. unfold pick. destruct ((- Z.of_nat (ndim x) <=? axis) && (axis <? Z.of_nat (ndim x)))%Z eqn:E; [|reflexivity].
  apply andb_prop in E as [E1 E2]. apply Z.leb_le in E1. apply Z.ltb_lt in E2. destruct (Z.ltb_spec axis 0); [elim (H (Z.to_nat (axis + Z.of_nat (ndim x))))|elim (H (Z.to_nat axis))]; (split; [lia|]); [right|left]; lia.
Qed.
Lemma np_concatenate_shapes x r axis k y : names_axis (ndim x) axis k -> In y r -> ~ beside k x y -> np_concatenate (x :: r) axis = Raise ValueError.
Proof.
  intros Hk Hy N. unfold np_concatenate. destruct (Nat.eqb_spec (ndim x) 0) as [E|_]; [destruct Hk; lia|]. rewrite (pick_axis _ _ _ Hk). cbn [bind]. destruct (forallb _ r) eqn:E; [|reflexivity].
  rewrite forallb_forall in E. elim N. apply fits_beside_ok; [exact (proj1 Hk)|]. now apply E.
Qed.
Lemma all_same ds rest : Forall (fun a => dims_eq (dims a) ds = Ok true) rest -> all_dims_eq (X := nda) ds rest = Ok true.
Proof. induction 1 as [|a l H F IH]; [reflexivity|]. cbn [all_dims_eq]. rewrite H. exact IH. Qed.
Lemma set_nth_F2' {A} (R : A -> nat -> Prop) k v ds sh d : Forall2 R ds sh -> nth_error ds k = Some d -> R d v -> Forall2 R ds (set_nth k v sh).
Proof. apply set_nth_F2. Qed.

(** ** any number of arrays, along an axis that is no frequency scale *)
Theorem concat_plain a rest axis k d : well_formed nd_shape a -> names_axis (length (dims a)) axis k -> nth_error (dims a) k = Some d -> (forall s, d <> DFreq s) ->
  Forall (fun b => dims_eq (dims b) (dims a) = Ok true /\ beside k (data a) (data b)) rest ->
  let xs := map data (a :: rest) in
  exists s, concat_many Plain (a :: rest) axis = Ok (PUnits Plain s) /\ well_formed nd_shape s /\ Forall2 same_dim (dims s) (dims a) /\
    (forall i, nth_error (nd_shape (data s)) i = if i =? k then Some (fold_right Nat.add 0 (map (fun x => nth k (nd_shape x) 0) xs)) else nth_error (nd_shape (data a)) i) /\
    forall ix iy j i' y, in_shape (nd_shape (data s)) ix -> lies_in k xs (nth k ix 0) j i' -> nth_error xs j = Some y -> moved k i' ix iy -> nd_at (data s) ix = nd_at y iy.
Proof.
  intros [C N] Hk D Nf F xs. unfold concat_many. rewrite all_same by (eapply Forall_impl; [|exact F]; intros b [H _]; exact H). cbn [bind].
  pose proof (Forall2_len _ _ _ C) as L. assert (Hk' : names_axis (ndim (data a)) axis k) by (unfold ndim; rewrite <- L; exact Hk).
  destruct (np_concatenate_ok (data a) (map data rest) axis k Hk') as (z & Ez & _ & Sz & V). { rewrite Forall_map. eapply Forall_impl; [|exact F]. intros b [_ H]. exact H. }
  cbn [map]. rewrite Ez. cbn [bind from_example].
  assert (Hl : k < length (nd_shape (data a))) by (unfold ndim in Hk'; exact (proj1 Hk')).
  assert (Lz : length (nd_shape z) = length (dims a)). { rewrite Sz. unfold set_nth. rewrite app_length, firstn_length. cbn [length]. rewrite skipn_length. lia. }
  assert (C' : forall i s m, nth_error (dims a) i = Some (DFreq s) -> nth_error (nd_shape z) i = Some m -> scale_len s = m).
  { intros i s m H1 H2. rewrite Sz, nth_error_set_nth in H2 by exact Hl. destruct (Nat.eqb_spec i k) as [->|Ni]; [rewrite D in H1; injection H1 as ->; elim (Nf s eq_refl)|].
    clear - C H1 H2. unfold consistent in C. revert i H1 H2. induction C as [|x p ds sh Hx C1 IH]; intros [|i] H1 H2; cbn in H1, H2; try discriminate H1; [|apply (IH i H1 H2)]. injection H1 as ->. injection H2 as <-. exact Hx. }
  destruct (awu_new_ok nd_shape z (dims a) Lz C') as [s Es]. rewrite Es. cbn [bind]. destruct (awu_new_spec nd_shape z (dims a) s N Es) as (Dz & _ & Ws & Sd).
  exists s. split; [reflexivity|]. split; [exact Ws|]. split; [exact Sd|]. rewrite Dz. split; [|exact V]. intros i. rewrite Sz. apply nth_error_set_nth. exact Hl.
Qed.
(** sounds, along time or along channels *)
Theorem concat_audio x xs rate axis k a rest : In rate standard_rates -> ndim x = 1 \/ ndim x = 2 -> names_axis (ndim x) axis k ->
  Forall (beside k x) xs -> audio_new x rate = Ok a -> Forall2 (fun y b => audio_new y rate = Ok b) xs rest ->
  exists s, concat_many Audio (a :: rest) axis = Ok (PUnits Audio s) /\ samplerate s = Ok rate /\
    (forall i, nth_error (nd_shape (data s)) i = if i =? k then Some (fold_right Nat.add 0 (map (fun x => nth k (nd_shape x) 0) (x :: xs))) else nth_error (nd_shape x) i) /\
    forall ix iy j i' y, in_shape (nd_shape (data s)) ix -> lies_in k (x :: xs) (nth k ix 0) j i' -> nth_error (x :: xs) j = Some y -> moved k i' ix iy -> nd_at (data s) ix = nd_at y iy.
Proof.
  intros Hr Hd Hk F Ha G. destruct (audio_new_spec x rate Hr Hd) as (a' & t & Ea & Da & Ht & Tl & Tf & Td & _ & W & Sa). rewrite Ha in Ea. injection Ea as <-.
  assert (All : Forall (fun b => dims_eq (dims b) (dims a) = Ok true) rest /\ map data rest = xs).
  { clear Hk. induction G as [|y b ys bs Hb G IH]; [split; [constructor|reflexivity]|]. apply Forall_cons_iff in F. destruct F as [[Ny _] F]. destruct (IH F) as [I1 I2].
    assert (Hd' : ndim y = 1 \/ ndim y = 2) by (rewrite Ny; exact Hd). destruct (audio_new_spec y rate Hr Hd') as (b' & u & Eb & Db & Hu & Ul & Uf & Ud & _ & Wb & Sb). rewrite Hb in Eb. injection Eb as <-.
    split; [|cbn [map]; now rewrite I2, Db]. constructor; [|exact I1]. destruct (dims a) as [|d ds]; [discriminate Ht|]. destruct (dims b) as [|e es]; [discriminate Hu|]. cbn in Ht, Hu, Tl, Ul. injection Ht as ->. injection Hu as ->.
    cbn [dims_eq dim_eq bind]. rewrite Tf, Td, Uf, Ud, !Z.eqb_refl. cbn [andb]. rewrite Ny in Ul. rewrite Tl, Ul. destruct (ndim x =? 2); reflexivity. }
  destruct All as [All Dx]. unfold concat_many. rewrite (all_same _ _ All). cbn [bind map]. rewrite Da, Dx. destruct (np_concatenate_ok x xs axis k Hk F) as (z & Ez & _ & Sz & V). rewrite Ez. cbn [bind from_example]. rewrite Sa. cbn [bind].
  assert (Nz : ndim z = ndim x). { unfold ndim in *. rewrite Sz. unfold set_nth. rewrite app_length, firstn_length. cbn [length]. rewrite skipn_length. destruct Hk. lia. }
  destruct (audio_new_spec z rate Hr) as (s & v & Es & Ds & _ & _ & _ & _ & _ & Ws & Ss); [rewrite Nz; exact Hd|]. rewrite Es. cbn [bind]. exists s. split; [reflexivity|]. split; [exact Ss|]. rewrite Ds. split; [|exact V].
  intros i. rewrite Sz. apply nth_error_set_nth. exact (proj1 Hk).
Qed.
(** ** what is refused *)
Theorem concat_nothing c axis : concat_many c [] axis = Raise ValueError.
Proof. reflexivity. Qed.
Lemma all_dims_false ds l b r : Forall (fun a => dims_eq (dims a) ds = Ok true) l -> dims_eq (dims b) ds = Ok false -> all_dims_eq (X := nda) ds (l ++ b :: r) = Ok false.
Proof. induction 1 as [|a l H F IH]; intros E; cbn [app all_dims_eq]; [rewrite E; reflexivity|]. rewrite H. cbn [bind]. apply IH. exact E. Qed.
Theorem concat_different c a l b r axis : Forall (fun x => dims_eq (dims x) (dims a) = Ok true) l -> dims_eq (dims b) (dims a) = Ok false -> concat_many c (a :: l ++ b :: r) axis = Raise ValueError.
Proof. intros F E. unfold concat_many. rewrite (all_dims_false _ _ _ _ F E). reflexivity. Qed.
Theorem concat_no_axis c a rest axis : Forall (fun x => dims_eq (dims x) (dims a) = Ok true) rest -> ndim (data a) <> 0 -> (forall k, ~ names_axis (ndim (data a)) axis k) -> concat_many c (a :: rest) axis = Raise IndexError.
Proof. intros F N H. unfold concat_many. rewrite (all_same _ _ F). cbn [bind map]. rewrite (np_concatenate_axis _ _ _ H N). reflexivity. Qed.
Theorem concat_shapes c a rest axis k b : Forall (fun x => dims_eq (dims x) (dims a) = Ok true) rest -> names_axis (ndim (data a)) axis k -> In b rest -> ~ beside k (data a) (data b) -> concat_many c (a :: rest) axis = Raise ValueError.
Proof. intros F Hk Hb N. unfold concat_many. rewrite (all_same _ _ F). cbn [bind map]. rewrite (np_concatenate_shapes _ _ _ k (data b) Hk); [reflexivity|now apply in_map|exact N]. Qed.
(** along a frequency scale only arrays without columns can be added *)
Theorem concat_frequency_refuted a rest axis k sc : well_formed nd_shape a -> names_axis (length (dims a)) axis k -> nth_error (dims a) k = Some (DFreq sc) ->
  Forall (fun b => dims_eq (dims b) (dims a) = Ok true /\ beside k (data a) (data b)) rest -> Exists (fun b => 0 < nth k (nd_shape (data b)) 0) rest ->
  concat_many Plain (a :: rest) axis = Raise ValueError.
Proof.
  intros [C N] Hk D F Ex. unfold concat_many. rewrite all_same by (eapply Forall_impl; [|exact F]; intros b [H _]; exact H). cbn [bind].
  pose proof (Forall2_len _ _ _ C) as L. assert (Hk' : names_axis (ndim (data a)) axis k) by (unfold ndim; rewrite <- L; exact Hk).
  destruct (np_concatenate_ok (data a) (map data rest) axis k Hk') as (z & Ez & _ & Sz & _). { rewrite Forall_map. eapply Forall_impl; [|exact F]. intros b [_ H]. exact H. }
  cbn [map]. rewrite Ez. cbn [bind from_example]. rewrite (awu_new_freq z (dims a) k sc (cat_size k (data a :: map data rest)) D); [reflexivity|rewrite Sz; rewrite nth_error_set_nth by exact (proj1 Hk'); rewrite Nat.eqb_refl; reflexivity|].
  assert (S1 : scale_len sc = nth k (nd_shape (data a)) 0). { clear - C D. unfold consistent in C. revert k D. induction C as [|x p ds sh Hx C1 IH]; intros [|k] D; cbn in D; try discriminate; [injection D as ->; exact Hx|cbn [nth]; apply IH; exact D]. }
  unfold cat_size. cbn [map fold_right]. rewrite S1. assert (P : 0 < fold_right Nat.add 0 (map (fun x => nth k (nd_shape x) 0) (map data rest))); [|lia]. clear - Ex. induction Ex as [b l H|b l H IH]; cbn [map fold_right]; lia.
Qed.

(** ** cases *)
Example concat_case : exists a b, audio_new (mkNda [2] [1; 2]%R) 16000 = Ok a /\ audio_new (mkNda [1] [3]%R) 16000 = Ok b /\
  exists s, concat_many Audio [a; b; a] (-1) = Ok (PUnits Audio s) /\ nd_shape (data s) = [5] /\ nd_at (data s) [2] = 3%R /\ nd_at (data s) [4] = 2%R.
Proof.
  destruct (audio_new_spec (mkNda [2] [1; 2]%R) 16000 ltac:(cbn; tauto) ltac:(left; reflexivity)) as (a & _ & Ea & _). destruct (audio_new_spec (mkNda [1] [3]%R) 16000 ltac:(cbn; tauto) ltac:(left; reflexivity)) as (b & _ & Eb & _).
  exists a, b. split; [exact Ea|]. split; [exact Eb|].
  assert (Bs : forall n l, beside 0 (mkNda [2] [1; 2]%R) (mkNda [n] l)) by (intros n l; split; [reflexivity|]; intros [|i] H; [lia|reflexivity]).
  destruct (concat_audio (mkNda [2] [1; 2]%R) [mkNda [1] [3]%R; mkNda [2] [1; 2]%R] 16000 (-1) 0 a [b; a]) as (s & E & _ & Sh & V).
  - cbn. tauto.
  - now left.
  - split; [cbn; lia|right; reflexivity].
  - repeat constructor; apply Bs.
  - exact Ea.
  - repeat constructor; assumption.
  - exists s. split; [exact E|]. assert (Es : nd_shape (data s) = [5]). { apply nth_error_ext. intros [|i]; rewrite Sh; [reflexivity|now destruct i]. } split; [exact Es|]. split.
    + rewrite (V [2] [0] 1 0 (mkNda [1] [3]%R)); [reflexivity|rewrite Es; repeat constructor|eexists; split; [reflexivity|split; [cbn; lia|reflexivity]]|reflexivity|]. split; [reflexivity|]. split; [reflexivity|]. intros [|[|i]] H; try reflexivity. lia.
    + rewrite (V [4] [1] 2 1 (mkNda [2] [1; 2]%R)); [reflexivity|rewrite Es; repeat constructor|eexists; split; [reflexivity|split; [cbn; lia|reflexivity]]|reflexivity|]. split; [reflexivity|]. split; [reflexivity|]. intros [|[|i]] H; try reflexivity. lia.
Qed.
