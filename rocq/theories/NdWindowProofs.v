(** Property C04. *)
From Verif Require Import PyBase PyFacts NdWindow.
From Coq Require Import Sorting.Sorted.
Local Open Scope Z_scope.

(** ** Specification *)
(** A multi-index of an array of the given shape. *)
Inductive in_shape : list Z -> list Z -> Prop :=
| in_nil : in_shape [] []
| in_cons : forall x n i sh, 0 <= x < n -> in_shape i sh -> in_shape (x :: i) (n :: sh).

(** start position of window [i] plus position [j] inside it *)
Fixpoint position (i ss j : list Z) : list Z :=
  match i, ss, j with
  | x :: i', s :: ss', y :: j' => (x * s + y) :: position i' ss' j'
  | _, _, _ => []
  end.

(** windows fit and steps are positive, axis by axis *)
Inductive fits : list Z -> list Z -> list Z -> Prop :=
| fits_nil : fits [] [] []
| fits_cons : forall n w s sh ws ss, 1 <= w <= n -> 1 <= s -> fits sh ws ss ->
    fits (n :: sh) (w :: ws) (s :: ss).

(** ** Lemmas *)
Lemma zrange_In n x : In x (zrange n) <-> 0 <= x < n.
Proof.
  unfold zrange. rewrite in_map_iff. split.
  - intros [k [<- H]]. apply in_seq in H. lia.
  - intros H. exists (Z.to_nat x). split; [lia|]. apply in_seq. lia.
Qed.
Lemma zrange_length n : length (zrange n) = Z.to_nat n.
Proof. unfold zrange. rewrite map_length, seq_length. reflexivity. Qed.

Lemma indices_In sh i : In i (indices sh) <-> in_shape i sh.
Proof.
  revert i; induction sh as [|n sh IH]; intros i; simpl.
  - split; [intros [<-|[]]; constructor|]. inversion 1; left; reflexivity.
  - rewrite in_flat_map. split.
    + intros [x [Hx Hi]]. apply in_map_iff in Hi. destruct Hi as [i' [<- Hi']].
      constructor; [apply zrange_In; exact Hx|apply IH; exact Hi'].
    + inversion 1; subst. exists x. split; [apply zrange_In; assumption|].
      apply in_map, IH. assumption.
Qed.

Lemma flat_map_map {A B C} (f : B -> list C) (g : A -> B) l :
  flat_map f (map g l) = flat_map (fun x => f (g x)) l.
Proof. induction l; simpl; [reflexivity|]. rewrite IHl; reflexivity. Qed.
Lemma map_flat_map {A B C} (f : B -> C) (g : A -> list B) l :
  map f (flat_map g l) = flat_map (fun x => map f (g x)) l.
Proof. induction l; simpl; [reflexivity|]. rewrite map_app, IHl; reflexivity. Qed.
Lemma flat_map_flat_map {A B C} (f : B -> list C) (g : A -> list B) l :
  flat_map f (flat_map g l) = flat_map (fun x => flat_map f (g x)) l.
Proof. induction l; simpl; [reflexivity|]. rewrite flat_map_app, IHl; reflexivity. Qed.

Lemma indices_app s1 s2 :
  indices (s1 ++ s2) = flat_map (fun i => map (fun j => i ++ j) (indices s2)) (indices s1).
Proof.
  induction s1 as [|n s1 IH]; simpl.
  - rewrite app_nil_r, map_id. reflexivity.
  - rewrite flat_map_flat_map. apply flat_map_ext. intros x.
    rewrite IH, map_flat_map, flat_map_map. apply flat_map_ext. intros i.
    rewrite map_map. reflexivity.
Qed.

Lemma indices_length sh : Forall (fun n => 0 <= n) sh ->
  length (indices sh) = Z.to_nat (zprod sh).
Proof.
  induction 1 as [|n sh Hn Hsh IH]; [reflexivity|].
  simpl. assert (0 <= zprod sh).
  { clear -Hsh. induction Hsh; simpl; [lia|]. apply Z.mul_nonneg_nonneg; assumption. }
  rewrite Z2Nat.inj_mul by assumption. rewrite <- IH.
  rewrite <- (zrange_length n).
  induction (zrange n) as [|x l IHl]; simpl; [reflexivity|].
  rewrite app_length, map_length, IHl. reflexivity.
Qed.

Lemma rows_of_flat_map {A B} (k : nat) (f : B -> list A) (l : list B) :
  (forall x, In x l -> length (f x) = k) ->
  rows_of (length l) k (flat_map f l) = map f l.
Proof.
  induction l as [|x l IH]; intros H; simpl; [reflexivity|].
  rewrite firstn_app, skipn_app, (H x) by (left; reflexivity).
  rewrite Nat.sub_diag. rewrite firstn_all2 by (rewrite (H x) by (left; reflexivity); lia).
  rewrite (skipn_all2 (n := k)) by (rewrite (H x) by (left; reflexivity); lia).
  simpl. rewrite app_nil_r, IH; [reflexivity|]. intros y Hy; apply H; right; exact Hy.
Qed.

Lemma fits_lengths sh ws ss : fits sh ws ss -> length ws = length sh /\ length ss = length sh.
Proof. induction 1; simpl; lia. Qed.

Definition counts_of sh ws ss := zip_with (fun x y => x / y + 1) (zip_with Z.sub sh ws) ss.

Lemma view_ok a ws ss :
  fits (nd_shape a) ws ss ->
  sliding_window_view a (STuple ws) (Some (STuple ss))
  = Ok {| nd_off := nd_off a;
          nd_shape := counts_of (nd_shape a) ws ss ++ ws;
          nd_strides := zip_with Z.mul (nd_strides a) ss ++ nd_strides a |}.
Proof.
  intros H. unfold sliding_window_view. cbn [norm_shape].
  destruct (fits_lengths _ _ _ H) as [H1 H2]. rewrite H1, H2, Nat.eqb_refl. cbn [andb negb].
  assert (Hex : existsb (fun p : Z * Z => snd p <? fst p) (combine ws (nd_shape a)) = false).
  { clear -H. induction H; simpl; [reflexivity|]. rewrite IHfits.
    destruct (Z.ltb_spec n w); [lia|reflexivity]. }
  rewrite Hex. reflexivity.
Qed.

Lemma counts_length sh ws ss : fits sh ws ss -> length (counts_of sh ws ss) = length sh.
Proof. induction 1; simpl; [reflexivity|]. unfold counts_of in *. simpl. lia. Qed.

Lemma address sh ws ss st i j :
  fits sh ws ss -> length st = length sh ->
  in_shape i (counts_of sh ws ss) -> in_shape j ws ->
  dot (i ++ j) (zip_with Z.mul st ss ++ st) = dot (position i ss j) st
  /\ in_shape (position i ss j) sh.
Proof.
  intros Hf. revert st i j. induction Hf as [|n w s sh ws ss Hw Hs Hf IH]; intros st i j Hst Hi Hj.
  - inversion Hi; subst. inversion Hj; subst. split; [|constructor]. destruct st; reflexivity.
  - destruct st as [|t st]; [discriminate|].
    unfold counts_of in Hi. simpl in Hi. inversion Hi as [|x m i' sh' Hx Hi' E1 E2]; subst.
    inversion Hj as [|y w' j' ws' Hy Hj' E3 E4]; subst.
    destruct (IH st i' j' ltac:(simpl in Hst; lia) Hi' Hj') as [IH1 IH2].
    assert (Hlen : length i' = length (zip_with Z.mul st ss)).
    { clear -Hf Hi' Hst. simpl in Hst.
      assert (H : length i' = length sh).
      { rewrite <- (counts_length _ _ _ Hf). fold (counts_of sh ws ss) in Hi'.
        induction Hi'; simpl; congruence. }
      rewrite H. clear H Hi'. revert st Hst. induction Hf; intros st Hst; destruct st; try discriminate;
        simpl in *; try reflexivity. f_equal. apply IHHf. lia. }
    split.
    + simpl. rewrite (Z.add_comm _ 0) || idtac.
      assert (Hdot : forall a1 b1 a2 b2, length a1 = length b1 ->
                 dot (a1 ++ a2) (b1 ++ b2) = dot a1 b1 + dot a2 b2).
      { clear. induction a1 as [|u a1 IHa]; intros [|v b1] a2 b2 H; try discriminate; simpl; [lia|].
        rewrite IHa by (simpl in H; lia). lia. }
      rewrite Hdot in IH1 by exact Hlen.
      rewrite Hdot by exact Hlen. simpl. rewrite <- IH1. ring.
    + simpl. constructor; [|exact IH2].
      assert (Hd : s * ((n - w) / s) <= n - w) by (apply Z.mul_div_le; lia).
      assert (x * s <= ((n - w) / s) * s) by (apply Z.mul_le_mono_nonneg_r; lia). nia.
Qed.

Lemma in_shape_nonneg i sh : in_shape i sh -> Forall (fun n => 0 <= n) sh.
Proof. induction 1; constructor; [lia|assumption]. Qed.

Lemma fits_ws_nonneg sh ws ss : fits sh ws ss -> Forall (fun n => 0 <= n) ws.
Proof. induction 1; constructor; [lia|assumption]. Qed.
Lemma fits_counts_pos sh ws ss : fits sh ws ss -> Forall (fun n => 0 <= n) (counts_of sh ws ss).
Proof.
  induction 1; unfold counts_of in *; simpl; constructor; [|assumption].
  assert (0 <= (n - w) / s) by (apply Z.div_pos; lia). lia.
Qed.

(** every placement of a window on the step grid that fits is enumerated *)
Inductive placed : list Z -> list Z -> list Z -> list Z -> Prop :=
| placed_nil : placed [] [] [] []
| placed_cons : forall i n w s is sh ws ss,
    0 <= i -> i * s + w <= n -> placed is sh ws ss ->
    placed (i :: is) (n :: sh) (w :: ws) (s :: ss).

Lemma counts_complete sh ws ss i :
  fits sh ws ss -> (in_shape i (counts_of sh ws ss) <-> placed i sh ws ss).
Proof.
  intros Hf. revert i. induction Hf as [|n w s sh ws ss Hw Hs Hf IH]; intros i.
  - split; inversion 1; constructor.
  - unfold counts_of in *. simpl. split.
    + inversion 1; subst. constructor; [lia| |apply IH; assumption].
      assert (s * ((n - w) / s) <= n - w) by (apply Z.mul_div_le; lia). nia.
    + inversion 1; subst. constructor; [|apply IH; assumption]. split; [assumption|].
      assert (i0 <= (n - w) / s); [|lia]. apply Z.div_le_lower_bound; lia.
Qed.

Lemma sliding_window_view_main {A} (mem : Z -> A) (a : nd) ws ss :
  length (nd_strides a) = length (nd_shape a) ->
  fits (nd_shape a) ws ss ->
  exists v counts,
    sliding_window_view a (STuple ws) (Some (STuple ss)) = Ok v
    /\ nd_shape v = counts ++ ws
    /\ (forall i, in_shape i counts <-> placed i (nd_shape a) ws ss)
    /\ (forall i j, in_shape i counts -> in_shape j ws ->
         in_shape (position i ss j) (nd_shape a)
         /\ nd_get mem v (i ++ j) = nd_get mem a (position i ss j)).
Proof.
  intros Hst Hf. eexists _, (counts_of (nd_shape a) ws ss).
  split; [apply view_ok; exact Hf|]. split; [reflexivity|].
  split; [intros; apply counts_complete; exact Hf|].
  intros i j Hi Hj.
  destruct (address _ _ _ (nd_strides a) _ _ Hf Hst Hi Hj) as [H1 H2].
  split; [exact H2|]. unfold nd_get. cbn [nd_off nd_strides]. rewrite H1. reflexivity.
Qed.

(** row-major order: the first place where two indices differ decides *)
Inductive lex_lt : list Z -> list Z -> Prop :=
| lex_here : forall x y i j, x < y -> lex_lt (x :: i) (y :: j)
| lex_later : forall x i j, lex_lt i j -> lex_lt (x :: i) (x :: j).
Lemma StronglySorted_app_lt {A} (R : A -> A -> Prop) l m : StronglySorted R l -> StronglySorted R m ->
  (forall x y, In x l -> In y m -> R x y) -> StronglySorted R (l ++ m).
Proof.
  induction l as [|a l IH]; intros Hl Hm H; [exact Hm|]. inversion Hl; subst. constructor.
  - apply IH; auto. intros x y Hx Hy. apply H; [right|]; assumption.
  - apply Forall_app. split; [assumption|]. apply Forall_forall. intros y Hy. apply H; [now left|exact Hy].
Qed.
Lemma zrange_sorted n : StronglySorted Z.lt (zrange n).
Proof.
  unfold zrange. generalize 0%nat at 1. intros k. revert k. induction (Z.to_nat n) as [|m IH]; intros k; cbn [seq map]; constructor.
  - apply IH.
  - apply Forall_forall. intros x Hx. apply in_map_iff in Hx. destruct Hx as (y & <- & Hy). apply in_seq in Hy. lia.
Qed.
Lemma indices_sorted sh : StronglySorted lex_lt (indices sh).
Proof.
  induction sh as [|n sh IH]; cbn [indices]; [repeat constructor|].
  assert (G : forall l, StronglySorted Z.lt l -> StronglySorted lex_lt (flat_map (fun x => map (cons x) (indices sh)) l)).
  { induction 1 as [|x l Hl IHl Hx]; cbn [flat_map]; [constructor|]. apply StronglySorted_app_lt; [|exact IHl|].
    - clear - IH. induction IH as [|i l Hl IHl Hi]; cbn [map]; constructor; [exact IHl|]. apply Forall_forall. intros y Hy.
      apply in_map_iff in Hy. destruct Hy as (j & <- & Hj). apply lex_later. rewrite Forall_forall in Hi. now apply Hi.
    - intros a b Ha Hb. apply in_map_iff in Ha. destruct Ha as (i & <- & _). apply in_flat_map in Hb. destruct Hb as (y & Hy & Hb).
      apply in_map_iff in Hb. destruct Hb as (j & <- & _). apply lex_here. rewrite Forall_forall in Hx. now apply Hx. }
  apply G, zrange_sorted.
Qed.

Lemma sliding_window_flat_main {A} (mem : Z -> A) (a : nd) ws ss :
  length (nd_strides a) = length (nd_shape a) ->
  fits (nd_shape a) ws ss ->
  exists starts,
    sliding_window_flat mem a (STuple ws) (Some (STuple ss))
    = Ok (map (fun i => map (fun j => nd_get mem a (position i ss j)) (indices ws)) starts)
    /\ starts = indices (zip_with (fun x y => x / y + 1) (zip_with Z.sub (nd_shape a) ws) ss).
Proof.
  intros Hst Hf. eexists. split; [|reflexivity].
  unfold sliding_window_flat. rewrite (view_ok _ _ _ Hf). cbn [nd_shape norm_shape].
  fold (counts_of (nd_shape a) ws ss). set (cs := counts_of (nd_shape a) ws ss).
  rewrite app_length. replace (length cs + length ws - length ws)%nat with (length cs) by lia.
  rewrite firstn_app, skipn_app, firstn_all, skipn_all, Nat.sub_diag. cbn [firstn skipn app].
  rewrite app_nil_r. f_equal.
  rewrite indices_app, map_flat_map.
  rewrite <- (indices_length cs) by (apply fits_counts_pos; exact Hf).
  rewrite <- (indices_length ws) by (eapply fits_ws_nonneg; exact Hf).
  rewrite rows_of_flat_map by (intros; rewrite !map_length; reflexivity).
  apply map_ext_in. intros i Hi. rewrite map_map. apply map_ext_in. intros j Hj.
  apply indices_In in Hi. apply indices_In in Hj.
  destruct (address _ _ _ (nd_strides a) _ _ Hf Hst Hi Hj) as [H1 H2].
  unfold nd_get. cbn [nd_off nd_strides]. rewrite H1. reflexivity.
Qed.

(** the same without the model's helpers: [starts] are the places of the windows and
    [inside] the positions inside a window, both in row-major order *)
Lemma sliding_window_flat_order {A} (mem : Z -> A) (a : nd) ws ss :
  length (nd_strides a) = length (nd_shape a) ->
  fits (nd_shape a) ws ss ->
  exists starts inside,
    sliding_window_flat mem a (STuple ws) (Some (STuple ss))
    = Ok (map (fun i => map (fun j => nd_get mem a (position i ss j)) inside) starts)
    /\ StronglySorted lex_lt starts /\ (forall i, In i starts <-> placed i (nd_shape a) ws ss)
    /\ StronglySorted lex_lt inside /\ (forall j, In j inside <-> in_shape j ws).
Proof.
  intros Hst Hf. destruct (sliding_window_flat_main mem a ws ss Hst Hf) as (starts & E & Es). exists starts, (indices ws).
  split; [exact E|]. split; [rewrite Es; apply indices_sorted|]. split; [|split; [apply indices_sorted|intros j; apply indices_In]].
  intros i. rewrite Es. fold (counts_of (nd_shape a) ws ss). rewrite indices_In. now apply counts_complete.
Qed.
(** the forms of the arguments: an int is a one-dimensional size, and the step is the window
    size when it is not given *)
Lemma sliding_window_arguments {A} (mem : Z -> A) a ws ss n m :
  sliding_window_view a ws None = sliding_window_view a ws (Some ws) /\
  sliding_window_flat mem a ws None = sliding_window_flat mem a ws (Some ws) /\
  sliding_window_view a (SInt n) (Some ss) = sliding_window_view a (STuple [n]) (Some ss) /\
  sliding_window_view a ws (Some (SInt m)) = sliding_window_view a ws (Some (STuple [m])) /\
  sliding_window_flat mem a (SInt n) (Some ss) = sliding_window_flat mem a (STuple [n]) (Some ss) /\
  sliding_window_flat mem a ws (Some (SInt m)) = sliding_window_flat mem a ws (Some (STuple [m])).
Proof. repeat split; reflexivity. Qed.

(** error cases *)
Lemma sliding_window_rank a ws ss :
  length (nd_shape a) <> length ws \/ length (nd_shape a) <> length ss ->
  sliding_window_view a (STuple ws) (Some (STuple ss)) = Raise ValueError.
Proof.
  intros H. unfold sliding_window_view. cbn [norm_shape].
  destruct (Nat.eqb_spec (length (nd_shape a)) (length ws)),
    (Nat.eqb_spec (length (nd_shape a)) (length ss)); try reflexivity. tauto.
Qed.

Lemma sliding_window_too_large a ws ss k n w :
  nth_error (nd_shape a) k = Some n -> nth_error ws k = Some w -> n < w ->
  sliding_window_view a (STuple ws) (Some (STuple ss)) = Raise ValueError.
Proof.
  intros Hn Hw Hlt. unfold sliding_window_view. cbn [norm_shape].
  destruct (negb _); [reflexivity|].
  assert (H : existsb (fun p : Z * Z => snd p <? fst p) (combine ws (nd_shape a)) = true).
  { clear ss. revert Hn. generalize (nd_shape a). revert k Hw.
    induction ws as [|w' ws IH]; intros k Hw sh Hn; [destruct k; discriminate|].
    destruct sh as [|n' sh]; [destruct k; discriminate|].
    destruct k; simpl in *.
    - inversion Hn; inversion Hw; subst. destruct (Z.ltb_spec n w); [reflexivity|lia].
    - rewrite (IH k Hw sh Hn). apply orb_true_r. }
  rewrite H. reflexivity.
Qed.

Example nd_example :
  sliding_window_flat (fun x => x) {| nd_off := 0; nd_shape := [4; 3]; nd_strides := [3; 1] |}
    (STuple [2; 2]) (Some (STuple [2; 1]))
  = Ok [[0;1;3;4]; [1;2;4;5]; [6;7;9;10]; [7;8;10;11]].
Proof. reflexivity. Qed.
Example nd_example_fits : fits [4; 3] [2; 2] [2; 1].
Proof. repeat constructor; lia. Qed.

(** an entry of an array: every axis is a stride *)
Theorem nd_entries {A} (mem : Z -> A) off n sh s st i r :
  nd_get mem {| nd_off := off; nd_shape := []; nd_strides := [] |} [] = mem off /\
  nd_get mem {| nd_off := off; nd_shape := n :: sh; nd_strides := s :: st |} (i :: r) = nd_get mem {| nd_off := off + i * s; nd_shape := sh; nd_strides := st |} r.
Proof. unfold nd_get. cbn [nd_off nd_strides dot]. split; f_equal; lia. Qed.
