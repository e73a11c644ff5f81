(** The frequency-adaptive transform and its inverse, for any invertible band transform (C79). *)
From Verif Require Import PyBase PyFacts PyMore Time Freq FreqProofs FreqScaleProofs FreqDim FreqDimProofs PhaseShift PhaseShiftProofs Spectral FreqAdapt.
From Coq Require Import Reals Lra Lia.
Local Open Scope R_scope.

(** how many of [N] columns a selection has *)
Definition width (N : nat) (p : nat * nat) : nat := (Nat.min (snd p) N - fst p)%nat.

Lemma scale_bands_length s bs : scale_bands s = Ok bs -> length bs = scale_len s.
Proof.
  intros H. destruct s; cbn [scale_bands scale_len] in *; try discriminate.
  - unfold linear_bands in H. assert (L : length (linspace_open (bstart fb) (bstop fb) n) = n) by (unfold linspace_open; now rewrite map_length, seq_length).
    destruct (linspace_open (bstart fb) (bstop fb) n) as [|f0 [|f1 r]]; try discriminate. apply mapM_length in H. congruence.
  - apply mapM_length in H. rewrite H. unfold geomspace. now rewrite map_length, seq_length.
  - injection H as <-. reflexivity.
  - apply mapM_length in H. rewrite H. unfold linspace. now rewrite !map_length, seq_length.
  - apply mapM_length in H. rewrite H. unfold linspace. now rewrite !map_length, seq_length.
Qed.

Section Generic.
  Context {A B : Type} (zero : A) (mul : R -> A -> A) (add : A -> A -> A) (t : along A B) (u : along B A) (post : list A -> list A) (valid : nat -> Prop).
  Context (RT : forall row, valid (length row) -> exists y m, arow t row = Ok y /\ acols t (length row) = Ok m /\ length y = m /\
    arow u y = Ok (post row) /\ acols u m = Ok (length row) /\ length (post row) = length row).
  Context (w : option bwindow) (s : scale) (data : arr2 A) (N : nat).
  Context (Hc : cols data = N) (Hs : shaped data).
  Definition piece (p : nat * nat) (row : list A) : list A := post (window_row zero mul (the_window w) (cut p row)).

  Lemma window_row_length v (row : list A) : length (window_row zero mul v row) = length row.
  Proof. unfold window_row. now rewrite map_length, seq_length. Qed.
  Lemma cut_width p (row : list A) : length row = N -> length (cut p row) = width N p.
  Proof. intros L. rewrite cut_length, L. unfold width. lia. Qed.

  Lemma band_ok q p : select s (Some q) = Ok p -> valid (width N p) ->
    exists y, process_band zero mul t w s data q = Ok y /\ length (rows y) = length (rows data) /\ shaped y /\
      apply_along u y = Ok (mkArr (width N p) (map (piece p) (rows data))).
  Proof.
    intros Es V. unfold process_band. rewrite Es. cbn [bind].
    assert (G : exists m, acols t (width N p) = Ok m /\ acols u m = Ok (width N p)).
    { set (r0 := repeat zero (width N p)). assert (L0 : length r0 = width N p) by apply repeat_length. destruct (RT r0 ltac:(now rewrite L0)) as (y & m & _ & E & _ & _ & E2 & _). rewrite L0 in *. now exists m. }
    destruct G as (m & Em & Eu). unfold col_slice. cbn [cols rows]. rewrite Hc. fold (width N p). fold (@cut A p).
    change (map (fun r => firstn (snd p - fst p) (skipn (fst p) r)) (rows data)) with (map (cut p) (rows data)). rewrite map_map.
    set (g := fun row => match arow t (window_row zero mul (the_window w) (cut p row)) with Ok y => y | Raise _ => [] end).
    assert (G : forall row, In row (rows data) -> arow t (window_row zero mul (the_window w) (cut p row)) = Ok (g row) /\ length (g row) = m /\ arow u (g row) = Ok (piece p row)).
    { intros row Hin. unfold shaped in Hs. rewrite Forall_forall in Hs. pose proof (Hs row Hin) as L. rewrite Hc in L.
      assert (Lw : length (window_row zero mul (the_window w) (cut p row)) = width N p) by (rewrite window_row_length; now apply cut_width).
      destruct (RT (window_row zero mul (the_window w) (cut p row)) ltac:(now rewrite Lw)) as (y & m' & E1 & E2 & E3 & E4 & _). rewrite Lw in E2. unfold g, piece. rewrite E1. split; [reflexivity|]. split; [congruence|exact E4]. }
    exists (mkArr m (map g (rows data))). unfold apply_along. cbn [cols rows]. rewrite Em. cbn [bind]. rewrite (mapM_ok (arow t) (fun r => match arow t r with Ok y => y | Raise _ => [] end)).
    2: { intros x Hx. apply in_map_iff in Hx as (row & <- & Hin). destruct (G row Hin) as (E & _). now rewrite E. }
    rewrite map_map. fold g. cbn [bind]. split; [reflexivity|]. split; [now rewrite map_length|]. split.
    - unfold shaped. cbn [cols rows]. apply Forall_forall. intros x Hx. apply in_map_iff in Hx as (row & <- & Hin). apply (G row Hin).
    - rewrite Eu. cbn [bind]. rewrite (mapM_ok (arow u) (fun r => match arow u r with Ok y => y | Raise _ => [] end)).
      2: { intros x Hx. apply in_map_iff in Hx as (row & <- & Hin). destruct (G row Hin) as (_ & _ & E). now rewrite E. }
      cbn [bind]. do 2 f_equal. rewrite map_map. apply map_ext_in. intros row Hin. destruct (G row Hin) as (_ & _ & E). now rewrite E.
  Qed.

  Definition accumulate (p : nat * nat) (acc : list A) (row : list A) : list A :=
    paste p (map (fun e => add (fst e) (snd e)) (combine (cut p acc) (piece p row))) acc.
  Lemma accumulate_spec p acc row : length acc = N -> length row = N -> valid (width N p) ->
    iadd_row add p (piece p row) acc = Ok (accumulate p acc row) /\ length (accumulate p acc row) = N /\
    forall k, (k < N)%nat -> nth k (accumulate p acc row) zero = if inside p k then add (nth k acc zero) (nth (k - fst p) (piece p row) zero) else nth k acc zero.
  Proof.
    intros La Lr V.
    assert (Lp : length (piece p row) = width N p).
    { unfold piece. assert (Lw : length (window_row zero mul (the_window w) (cut p row)) = width N p) by (rewrite window_row_length; now apply cut_width).
      destruct (RT _ ltac:(rewrite Lw; exact V)) as (y & m' & _ & _ & _ & _ & _ & E). now rewrite E. }
    pose proof (cut_width p acc La) as Lc. split; [unfold iadd_row; now rewrite Lp, Lc, Nat.eqb_refl|].
    unfold accumulate. set (v := map _ _). assert (Lv : length v = width N p) by (unfold v; rewrite map_length, combine_length, Lc, Lp; lia). unfold paste.
    destruct (Nat.le_gt_cases N (fst p)) as [H|H].
    { assert (Ev : v = []) by (apply length_zero_iff_nil; rewrite Lv; unfold width; lia). rewrite Ev. cbn [length app]. rewrite Nat.add_0_r, firstn_skipn. split; [exact La|]. intros k Hk. unfold inside. destruct (Nat.leb_spec (fst p) k); [lia|reflexivity]. }
    split; [rewrite !app_length, firstn_length, skipn_length, Lv, La; unfold width in *; lia|]. intros k Hk. unfold inside.
    destruct (Nat.leb_spec (fst p) k) as [Q|Q]; cbn [andb].
    - rewrite app_nth2; rewrite firstn_length, La; replace (Nat.min (fst p) N) with (fst p) by lia; [|exact Q].
      destruct (Nat.ltb_spec k (snd p)) as [Q2|Q2].
      + assert (W : (k - fst p < width N p)%nat) by (unfold width; lia). rewrite app_nth1 by lia. unfold v. set (f := fun e : A * A => add (fst e) (snd e)).
        rewrite (nth_indep _ zero (f (zero, zero))) by (rewrite map_length, combine_length, Lc, Lp; lia). rewrite (map_nth f). rewrite combine_nth by congruence. unfold f. cbn [fst snd]. rewrite cut_nth by (unfold width in W; lia). replace (fst p + (k - fst p))%nat with k by lia. reflexivity.
      + rewrite app_nth2 by (rewrite Lv; unfold width; lia). rewrite nth_skip. f_equal. rewrite Lv. unfold width. lia.
    - rewrite app_nth1 by (rewrite firstn_length; lia). apply nth_first. exact Q.
  Qed.
  Lemma iadd_rows_ok p (acc : list A -> list A) l : (forall row, In row l -> length (acc row) = N /\ length row = N) -> valid (width N p) ->
    iadd_rows add p (map (piece p) l) (map acc l) = Ok (map (fun row => accumulate p (acc row) row) l).
  Proof.
    induction l as [|row l IH]; intros H V; [reflexivity|]. cbn [map iadd_rows]. destruct (H row (or_introl eq_refl)) as [La Lr]. rewrite (proj1 (accumulate_spec p (acc row) row La Lr V)). cbn [bind].
    rewrite IH by (try exact V; intros; apply H; now right). reflexivity.
  Qed.

  (** the value of a column after the bands [ps] *)
  Definition gathered (ps : list (nat * nat)) (row : list A) (k : nat) (v : A) : A :=
    fold_left (fun v p => if inside p k then add v (nth (k - fst p) (piece p row) zero) else v) ps v.
  Lemma synth_ok fac lin qs ps : forall acc : list A -> list A, (forall row, In row (rows data) -> length (acc row) = N) ->
    Forall2 (fun q p => select lin (Some q) = Ok p /\ valid (width N p) /\ exists x d, fa_get fac q = Ok (x, d) /\ apply_along u x = Ok (mkArr (width N p) (map (piece p) (rows data)))) qs ps ->
    exists out : list A -> list A, synth_bands add u fac lin qs (map acc (rows data)) = Ok (map out (rows data)) /\
      forall row, In row (rows data) -> length (out row) = N /\ forall k, (k < N)%nat -> nth k (out row) zero = gathered ps row k (nth k (acc row) zero).
  Proof.
    intros acc La F. revert acc La. induction F as [|q p qs ps (Es & V & x & d & Eg & Eu) F IH]; intros acc La.
    - exists acc. split; [reflexivity|]. intros row Hin. split; [now apply La|reflexivity].
    - cbn [synth_bands]. rewrite Eg. cbn [bind fst]. rewrite Eu. cbn [bind rows]. rewrite Es. cbn [bind].
      assert (Lr : forall row, In row (rows data) -> length row = N) by (intros row Hin; unfold shaped in Hs; rewrite Forall_forall in Hs; rewrite (Hs row Hin); exact Hc).
      rewrite iadd_rows_ok by first [exact V | intros row Hin; split; [now apply La|now apply Lr]]. cbn [bind].
      destruct (IH (fun row => accumulate p (acc row) row)) as (out & E & H).
      { intros row Hin. apply (accumulate_spec p (acc row) row (La row Hin) (Lr row Hin) V). }
      exists out. split; [exact E|]. intros row Hin. destruct (H row Hin) as [L K]. split; [exact L|]. intros k Hk. rewrite (K k Hk).
      rewrite (proj2 (proj2 (accumulate_spec p (acc row) row (La row Hin) (Lr row Hin) V)) k Hk). reflexivity.
  Qed.

  (** transform and synthesis with the same scale *)
  Theorem adaptive_roundtrip self qs ps : scale_bands self = Ok qs -> Forall proper qs -> qs <> [] -> NoDup qs -> scale_len s = N ->
    Forall2 (fun q p => select s (Some q) = Ok p /\ valid (width N p)) qs ps ->
    exists fa out, adaptive_transform zero mul t w s data self = Ok fa /\
      adaptive_coeffs zero add u self s fa = Ok out /\ length out = length (rows data) /\
      forall i row, nth_error (rows data) i = Some row -> exists o, nth_error out i = Some o /\ length o = N /\
        forall k, (k < N)%nat -> nth k o zero = gathered ps row k zero.
  Proof.
    intros Eb Hp Hq Nd Ln F. pose proof (scale_bands_length self qs Eb) as Lb.
    assert (M : exists arrs, mapM (process_band zero mul t w s data) qs = Ok arrs /\ length arrs = length qs /\ Forall (fun x => length (rows x) = length (rows data) /\ shaped x) arrs /\
      forall k q p, nth_error qs k = Some q -> nth_error ps k = Some p -> exists x, nth_error arrs k = Some x /\ apply_along u x = Ok (mkArr (width N p) (map (piece p) (rows data)))).
    { clear Eb Nd Lb Hp Hq. induction F as [|q p qs ps (Es & V) F IH].
      - exists []. split; [reflexivity|]. split; [reflexivity|]. split; [constructor|]. intros [|k] q p Hq; discriminate.
      - destruct IH as (arrs & E & L & Fa & H). destruct (band_ok q p Es V) as (y & Ey & Ly & Sy & Uy). exists (y :: arrs). cbn [mapM]. rewrite Ey. cbn [bind]. rewrite E. split; [reflexivity|]. split; [cbn; now f_equal|].
        split; [constructor; [now split|exact Fa]|]. intros [|k] q' p' Hq Hp'; cbn in Hq, Hp'; [injection Hp' as <-; exists y; split; [reflexivity|exact Uy]|]. now apply (H k q' p'). }
    destruct M as (arrs & Em & La & Fa & H).
    assert (Hi : fa_input arrs self qs (length (rows data))).
    { unfold fa_input. split; [exact Eb|]. split; [now symmetry|]. split; [exact Nd|]. split; [exact La|]. split; [intros ->; destruct qs; [contradiction|discriminate]|exact Fa]. }
    destruct (fa_new_ok arrs self qs _ Hi) as (wh & Efa & _ & Lw & _). set (fa := (wh, mkEfd qs self (fa_slices (map cols arrs)))) in *.
    destruct (synth_ok fa s qs ps (fun _ => repeat zero N)) as (out & Eo & Ho).
    - intros. apply repeat_length.
    - assert (G : forall k q p, nth_error qs k = Some q -> nth_error ps k = Some p -> exists x d, fa_get fa q = Ok (x, d) /\ apply_along u x = Ok (mkArr (width N p) (map (piece p) (rows data)))).
      { intros k q p Hq1 Hp1. destruct (H k q p Hq1 Hp1) as (x & Hx & Ux). destruct (fa_band arrs self qs _ fa k q x Hi Hp Efa Hq1 Hx) as (d & Ed). now exists x, d. }
      clearbody fa. clear -F G. revert G. induction F as [|q p qs ps (Es & V) F IH]; intros G; constructor.
      + split; [exact Es|]. split; [exact V|]. apply (G 0%nat); reflexivity.
      + apply IH. intros k q' p' Hq Hp. now apply (G (S k)).
    - exists fa, (map out (rows data)). unfold adaptive_transform. rewrite Eb. cbn [bind]. rewrite Em. cbn [bind]. split; [exact Efa|]. unfold adaptive_coeffs. rewrite Eb. cbn [bind]. rewrite Ln. unfold fa at 2. cbn [fst]. rewrite Lw.
      replace (repeat (repeat zero N) (length (rows data))) with (map (fun _ : list A => repeat zero N) (rows data)) by (clear; induction (rows data) as [|a l IH]; [reflexivity|cbn; now rewrite IH]).
      split; [exact Eo|]. split; [apply map_length|]. intros i row Hr. exists (out row). rewrite nth_error_map, Hr. split; [reflexivity|]. destruct (Ho row (nth_error_In _ _ Hr)) as [L K]. split; [exact L|].
      intros k Hk. rewrite (K k Hk). now rewrite nth_repeat.
  Qed.
End Generic.
