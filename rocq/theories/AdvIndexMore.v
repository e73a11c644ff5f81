(** Two lists of which one has one position (numpy repeats it), and the errors of dot on audio. *)
From Verif Require Import PyBase PyFacts PyMore Time Freq FreqDim Axis AxisProofs Ops OpsProofs OpsProofs2 OpsProofs5 Masks MasksProofs MasksProofs3 AdvIndex AdvIndexProofs.
From Coq Require Import Reals Lra.
Local Open Scope nat_scope.

(** numpy repeats a single position for every position of the other list *)
Lemma single_position (x : nda) n0 n1 i l : nd_shape x = [n0; n1] -> i < n0 -> (forall k, In k l -> k < n1) ->
  exists r, np_getitem_adv x [NList [Z.of_nat i]; NList (map Z.of_nat l)] = Ok r /\ nd_shape r = [length l] /\
    forall k, k < length l -> nd_at r [k] = nd_at x [i; nth k l 0].
Proof.
  intros S Hi Hl. unfold np_getitem_adv. change (has_list _) with true. cbv iota. unfold adv_selection.
  cbn [count filter is_nell length Nat.ltb Nat.leb nix_takes]. rewrite S. cbn [asels].
  assert (P0 : mapM (pick n0) (map Z.of_nat [i]) = Ok [i]) by (apply mapM_pick; intros k [<-|[]]; exact Hi).
  cbn [map] in P0. rewrite P0, (mapM_pick _ _ Hl). cbn [bind map].
  assert (P : paired [AList [i]; AList l] = Some (length l)).
  { cbn [paired]. change (length [i] =? 1) with true. cbv iota. destruct (Nat.eqb_spec (length l) 1) as [->|]; reflexivity. }
  rewrite P. change (apart _) with false. cbn [plain_shape take_while advanced negb length firstn skipn app bind fst snd].
  eexists. split; [reflexivity|]. split; [reflexivity|]. intros k K.
  rewrite nd_at_build by (repeat constructor; exact K). cbn [adv_source nth length Nat.eqb]. do 3 f_equal.
  destruct (Nat.eqb_spec (length l) 1); [|reflexivity]. f_equal. lia.
Qed.
Lemma single_position_last (x : nda) n0 n1 j l : nd_shape x = [n0; n1] -> j < n1 -> (forall k, In k l -> k < n0) ->
  exists r, np_getitem_adv x [NList (map Z.of_nat l); NList [Z.of_nat j]] = Ok r /\ nd_shape r = [length l] /\
    forall k, k < length l -> nd_at r [k] = nd_at x [nth k l 0; j].
Proof.
  intros S Hj Hl. unfold np_getitem_adv. change (has_list _) with true. cbv iota. unfold adv_selection.
  cbn [count filter is_nell length Nat.ltb Nat.leb nix_takes]. rewrite S. cbn [asels].
  assert (P0 : mapM (pick n1) (map Z.of_nat [j]) = Ok [j]) by (apply mapM_pick; intros k [<-|[]]; exact Hj).
  cbn [map] in P0. rewrite P0, (mapM_pick _ _ Hl). cbn [bind map].
  assert (P : paired [AList l; AList [j]] = Some (length l)).
  { cbn [paired]. change (length [j] =? 1) with true. cbv iota. destruct (Nat.eqb_spec (length l) 1) as [->|]; reflexivity. }
  rewrite P. change (apart _) with false. cbn [plain_shape take_while advanced negb length firstn skipn app bind fst snd].
  eexists. split; [reflexivity|]. split; [reflexivity|]. intros k K.
  rewrite nd_at_build by (repeat constructor; exact K). cbn [adv_source nth length Nat.eqb]. do 2 f_equal.
  destruct (Nat.eqb_spec (length l) 1); [|reflexivity]. f_equal. lia.
Qed.

(** what dot of AudioSamples raises: audiosamples.py:44-54 takes the dimensions for a sample rate *)
Lemma dot_audio_errors (a : units) (y : nda) n c k p :
  (nd_shape (data a) = [n; c] -> nd_shape y = [c] -> awu_dot Audio a y = Raise TypeError) /\
  (nd_shape (data a) = [n; c] -> nd_shape y = [c; k] -> awu_dot Audio a y = Raise TypeError) /\
  (nd_shape (data a) = [n] -> nd_shape y = [n; k] -> awu_dot Audio a y = Raise TypeError) /\
  (nd_shape (data a) = [n; c] -> nd_shape y = [p; c; k] -> awu_dot Audio a y = Raise ValueError).
Proof.
  unfold awu_dot, np_dot. split; [|split; [|split]]; intros Ha Hy; rewrite Ha, Hy; cbn [rev app]; rewrite Nat.eqb_refl; reflexivity.
Qed.

Example single_position_example : exists (x : nda) r, nd_shape x = [2; 3] /\
  np_getitem_adv x [NList [1%Z]; NList [0%Z; 2%Z]] = Ok r /\ nd_shape r = [2] /\ nd_at r [1] = 12%R.
Proof.
  set (x := nd_build [2; 3] (fun jx => (INR (nth 0 jx 0%nat) * 10 + INR (nth 1 jx 0%nat))%R)). exists x.
  destruct (single_position x 2 3 1 [0; 2] eq_refl ltac:(lia)) as (r & G & Sh & V); [intros k [<-|[<-|[]]]; lia|].
  exists r. split; [reflexivity|]. split; [exact G|]. split; [exact Sh|]. rewrite (V 1) by (cbn; lia). cbn. lra.
Qed.
