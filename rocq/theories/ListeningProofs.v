(** Proofs about a HammingDb used by several threads: what holds of every schedule. *)
From Coq Require Import ZArith NArith Lia Permutation.
From Verif Require Import PyBase PyFacts PyMore HammingDb Listening.

Section ListeningFacts.
  Context {code data : Type} (dist : code -> code -> N) (select : list N -> nat -> result (list nat)) (junk : id * code).
  Notation entry := (entry code data).
  Notation state := (state code data).
  Notation pc := (pc code data).
  Notation label := (label code data).
  Notation step := (step dist select junk).
  Notation run := (run dist select junk).
  Notation advance := (advance dist select junk).
  Notation locked_step := (locked_step dist select junk).
  Notation locked_run := (locked_run dist select junk).
  Notation opened := (opened (data := data) junk).

  (** what a history asked for *)
  Definition appended (l : label) : list entry := match l with Append e => [e] | _ => [] end.
  Definition asked (l : label) : list code := match l with Search q => [q] | _ => [] end.
  Definition alone (tr : list label) : Prop := forall e, ~ In (External e) tr.
  (** every entry there is: on disk, or in the transaction that is not committed yet *)
  Definition all (s : state) : list entry := (disk s ++ match pending s with Some e => [e] | None => [] end)%list.

  Hypothesis select_range : forall sc n idx, select sc n = Ok idx -> forall j, In j idx -> (j < length sc)%nat.

  Definition busy (p : pc) : Prop := match p with Adding _ _ _ _ | Committing => True | _ => False end.
  (** [ok c c']: [c'] may stand in memory for an entry whose code is [c] *)
  Section Inv.
    Context (ok : code -> code -> Prop) (Q : code -> Prop) (ok_refl : forall c, ok c c).
    Definition cell_ok (e : entry) (x : id * code) : Prop := fst x = fst e /\ ok (fst (snd e)) (snd x).
    Definition G (s : state) : Prop :=
      (forall i j, busy (threads s i) -> busy (threads s j) -> i = j) /\
      NoDup (map fst (all s)) /\
      Forall2 cell_ok (firstn (length (cells s)) (all s)) (cells s) /\
      (length (disk s) <= length (cells s) <= length (all s))%nat /\
      incl (map fst (disk s)) (ids s) /\ incl (ids s) (map fst (all s)).
    Definition answer_ok (s : state) (n : nat) (r : result (list data)) : Prop :=
      (exists ds, r = Ok ds /\ incl ds (map (fun e => snd (snd e)) (all s))) \/ r = Raise TypeError \/ (exists sc e, select sc n = Raise e /\ r = Raise e).
    Definition T (s : state) (p : pc) : Prop :=
      match p with
      | Idle => True
      | Adding a k c t =>
          t = ThenCommit /\ (exists d, pending s = Some (k, (c, d))) /\ length (cells s) = (match a with ToMember => S (length (disk s)) | _ => length (disk s) end) /\
          match a with
          | ToId => True
          | ToWrite => fst (row s) = k
          | ToCopy => fst (row s) = k /\ ok c (buf s)
          | ToSlot => fst (row s) = k /\ ok c (snd (row s))
          | ToCount => fst (slot s) = k /\ ok c (snd (slot s))
          | ToMember => True
          end
      | Committing => length (cells s) = S (length (disk s)) /\ incl (map fst (all s)) (ids s)
      | Sizing q n => Q q
      | Comparing q n l => Q q /\ (l <= length (disk s))%nat
      | Catching q n l todo => Q q /\ (l <= length (disk s))%nat /\ incl (map fst todo) (ids s)
      | Querying q n l | Viewing q n l => Q q /\ (l <= length (disk s))%nat
      | Scoring q n l view sc => Q q /\ (l <= length (disk s))%nat /\ (length view + length sc <= length (cells s))%nat
      | Choosing q n l sc => Q q /\ (l <= length (disk s))%nat /\ (length sc <= length (cells s))%nat
      | Fetching q n l ks => Q q /\ (l <= length (disk s))%nat /\ incl ks (map fst (all s))
      | Answered q n l r => Q q /\ (l <= length (disk s))%nat /\ answer_ok s n r
      end.
    Definition Inv (s : state) : Prop := G s /\ forall i, T s (threads s i).

    Lemma setpc_same f i (p : pc) : setpc f i p i = p.
    Proof. unfold setpc. now rewrite Nat.eqb_refl. Qed.
    Lemma setpc_other f i (p : pc) j : j <> i -> setpc f i p j = f j.
    Proof. intros H. unfold setpc. destruct (Nat.eqb_spec j i); [contradiction|reflexivity]. Qed.
    (** a step that leaves the shared data alone *)
    Lemma inv_goto s i p : Inv s -> ~ busy p -> T s p -> Inv (goto s i p).
    Proof.
      intros [(g1 & g) H] Hp Ht. split.
      - split; [|exact g]. intros a b. cbn [goto threads]. destruct (Nat.eqb_spec a i) as [->|Na]; destruct (Nat.eqb_spec b i) as [->|Nb]; rewrite ?setpc_same, ?(setpc_other _ _ _ a), ?(setpc_other _ _ _ b) by assumption; try contradiction; try reflexivity. apply g1.
      - intros j. cbn [goto threads]. destruct (Nat.eqb_spec j i) as [->|Nj]; [rewrite setpc_same|rewrite setpc_other by exact Nj]; [exact Ht|exact (H j)].
    Qed.
    (** what a thread that is not adding knows survives when entries are added *)
    Lemma T_mono s s' p : ~ busy p -> T s p -> (length (disk s) <= length (disk s'))%nat -> (length (cells s) <= length (cells s'))%nat -> incl (ids s) (ids s') -> incl (map fst (all s)) (map fst (all s')) -> incl (all s) (all s') -> T s' p.
    Proof.
      intros Hb Ht Hd Hc Hi Ha Hall. destruct p as [|a k c t| |q n|q n l|q n l todo|q n l|q n l|q n l view sc|q n l sc|q n l ks|q n l r]; cbn [T busy] in *; try (exfalso; exact (Hb Logic.I)).
      - exact Logic.I.
      - exact Ht.
      - destruct Ht. split; [assumption|lia].
      - destruct Ht as (? & ? & Ht). split; [assumption|]. split; [lia|]. intros x Hx. auto.
      - destruct Ht. split; [assumption|lia].
      - destruct Ht. split; [assumption|lia].
      - destruct Ht as (? & ? & Ht). split; [assumption|]. split; lia.
      - destruct Ht as (? & ? & Ht). split; [assumption|]. split; lia.
      - destruct Ht as (? & ? & Ht). split; [assumption|]. split; [lia|]. intros x Hx. auto.
      - destruct Ht as (? & ? & A0). split; [assumption|]. split; [lia|]. destruct A0 as [(ds & -> & I)|[->|B]]; [left; exists ds; split; [reflexivity|]; intros x Hx; apply I in Hx; apply in_map_iff in Hx; destruct Hx as (e & <- & He); apply in_map_iff; exists e; auto|right; left; reflexivity|right; right; exact B].
    Qed.
    (** a step of the adding thread *)
    Lemma inv_add s s1 i p : Inv s -> busy (threads s i) -> threads s1 = threads s -> G (goto s1 i p) -> T s1 p ->
      (length (disk s) <= length (disk s1))%nat -> (length (cells s) <= length (cells s1))%nat -> incl (ids s) (ids s1) -> incl (all s) (all s1) -> Inv (goto s1 i p).
    Proof.
      intros [(g1 & g) H] Hb Es Hg Hp Hd Hc Hi Ha. split; [exact Hg|]. intros j. cbn [goto threads]. destruct (Nat.eqb_spec j i) as [->|Nj]; [rewrite setpc_same; exact Hp|]. rewrite setpc_other by exact Nj. rewrite Es.
      assert (Hn : ~ busy (threads s j)) by (intros B; apply Nj; apply g1; assumption).
      apply (T_mono s (goto s1 i p)); try assumption; [exact (H j)|apply incl_map; exact Ha].
    Qed.
    Lemma excl_keep s s1 i p : (forall a b, busy (threads s a) -> busy (threads s b) -> a = b) -> busy (threads s i) -> threads s1 = threads s ->
      forall a b, busy (threads (goto s1 i p) a) -> busy (threads (goto s1 i p) b) -> a = b.
    Proof.
      intros g1 Hb Es a b. cbn [goto threads]. rewrite Es. destruct (Nat.eqb_spec a i) as [->|Na]; destruct (Nat.eqb_spec b i) as [->|Nb]; rewrite ?setpc_same, ?(setpc_other _ _ _ a), ?(setpc_other _ _ _ b) by assumption; intros H1 H2; auto.
    Qed.
    Lemma all_pending s k c d : pending s = Some (k, (c, d)) -> all s = (disk s ++ [(k, (c, d))])%list.
    Proof. intros H. unfold all. now rewrite H. Qed.
    Lemma lookup_some d k x : lookup_data (code := code) (data := data) d k = Ok x -> exists e, In e d /\ snd (snd e) = x.
    Proof. unfold lookup_data. destruct (find (fun e => N.eqb (fst e) k) d) as [e|] eqn:E; [|discriminate]. intros H. injection H as <-. apply find_some in E. exists e. tauto. Qed.
    Lemma lookups_ok d : forall ks, (exists ds, mapM (lookup_data d) ks = Ok ds /\ incl ds (map (fun e : entry => snd (snd e)) d)) \/ mapM (lookup_data d) ks = Raise TypeError.
    Proof.
      induction ks as [|k ks IH]; cbn [mapM]; [left; exists []; split; [reflexivity|intros x []]|]. destruct (lookup_data d k) as [x|e] eqn:E; cbn [bind].
      - destruct IH as [(ds & -> & I)| ->]; cbn [bind]; [left|right; reflexivity]. exists (x :: ds). split; [reflexivity|]. intros y [<-|Hy]; [|auto]. destruct (lookup_some d k x E) as (e & He & <-). apply in_map_iff. exists e. auto.
      - right. unfold lookup_data in E. destruct (find (fun e => N.eqb (fst e) k) d); [discriminate|]. injection E as <-. reflexivity.
    Qed.
    Lemma inv_advance s i s' : Inv s -> advance s i = Some s' ->
      (forall q n l, threads s i = Querying q n l -> forall j k c t, threads s j = Adding ToCopy k c t -> ok c q) -> Inv s'.
    Proof.
      intros I E Side. pose proof I as [(g1 & g2 & g3 & g4 & g5 & g6) H]. pose proof (H i) as Hi. unfold Listening.advance in E.
      destruct (threads s i) as [|a k c t| |q n|q n l|q n l todo|q n l|q n l|q n l view sc|q n l sc|q n l ks|q n l r] eqn:Ei; try discriminate.
      - assert (Hb : busy (threads s i)) by (rewrite Ei; exact Logic.I). cbn [T] in Hi. destruct Hi as (-> & (d & Hp) & Hl & Ha). pose proof (all_pending s k c d Hp) as Hall.
        destruct a; injection E as <-.
        + apply inv_add with (s := s); try assumption; try reflexivity; try apply incl_refl; [split; [apply (excl_keep s); (assumption || reflexivity)|exact (conj g2 (conj g3 (conj g4 (conj g5 g6))))]|]. cbn. split; [reflexivity|]. split; [exists d; exact Hp|]. split; [exact Hl|reflexivity].
        + apply inv_add with (s := s); try assumption; try reflexivity; try apply incl_refl; [split; [apply (excl_keep s); (assumption || reflexivity)|exact (conj g2 (conj g3 (conj g4 (conj g5 g6))))]|]. cbn. split; [reflexivity|]. split; [exists d; exact Hp|]. split; [exact Hl|]. split; [exact Ha|apply ok_refl].
        + apply inv_add with (s := s); try assumption; try reflexivity; try apply incl_refl; [split; [apply (excl_keep s); (assumption || reflexivity)|exact (conj g2 (conj g3 (conj g4 (conj g5 g6))))]|]. cbn. split; [reflexivity|]. split; [exists d; exact Hp|]. split; [exact Hl|exact Ha].
        + apply inv_add with (s := s); try assumption; try reflexivity; try apply incl_refl; [split; [apply (excl_keep s); (assumption || reflexivity)|exact (conj g2 (conj g3 (conj g4 (conj g5 g6))))]|]. cbn. split; [reflexivity|]. split; [exists d; exact Hp|]. split; [exact Hl|exact Ha].
        + assert (La : length (all s) = S (length (disk s))) by (rewrite Hall, app_length; cbn; lia).
          apply inv_add with (s := s); try assumption; try reflexivity; try apply incl_refl; [split; [apply (excl_keep s); (assumption || reflexivity)|]| |].
          * split; [exact g2|]. cbn [goto cells with_cells disk ids all pending]. rewrite app_length. cbn [length]. change (all (goto (with_cells s (cells s ++ [slot s]) junk) i (Adding ToMember k c ThenCommit))) with (all s).
            split; [|split; [lia|split; assumption]]. rewrite Hl in *. rewrite firstn_all2 by lia. rewrite Hall in *. rewrite firstn_app, firstn_all, Nat.sub_diag in g3. cbn [firstn] in g3. rewrite app_nil_r in g3. apply Forall2_app; [exact g3|]. constructor; [|constructor]. split; cbn [fst snd]; tauto.
          * cbn. split; [reflexivity|]. split; [exists d; exact Hp|]. split; [rewrite app_length; cbn; lia|exact Logic.I].
          * cbn [with_cells cells]. rewrite app_length. lia.
        + apply inv_add with (s := s); try assumption; try reflexivity; try apply incl_refl; [split; [apply (excl_keep s); (assumption || reflexivity)|]| |].
          * split; [exact g2|]. split; [exact g3|]. split; [exact g4|]. cbn [goto with_ids disk ids]. split; [intros x Hx; right; auto|]. intros x [<-|Hx]; [|auto]. change (all (goto (with_ids s (k :: ids s)) i Committing)) with (all s). rewrite Hall, map_app. apply in_or_app. right. left. reflexivity.
          * cbn [T with_ids cells disk ids]. split; [exact Hl|]. change (all (with_ids s (k :: ids s))) with (all s). rewrite Hall, map_app. intros x Hx. apply in_app_or in Hx. destruct Hx as [Hx|[<-|[]]]; [right; auto|left; reflexivity].
          * cbn [with_ids ids]. intros x Hx. right. exact Hx.
      - assert (Hb : busy (threads s i)) by (rewrite Ei; exact Logic.I). cbn [T] in Hi. destruct Hi as (Hl & Hin). destruct (pending s) as [e|] eqn:Hp; [|discriminate]. injection E as <-.
        assert (Hall : all s = (disk s ++ [e])%list) by (unfold all; now rewrite Hp).
        assert (Hall' : forall p, all (goto (with_disk s (disk s ++ [e]) None) i p) = all s) by (intros p; unfold all at 1; cbn; rewrite app_nil_r, Hall; reflexivity).
        apply inv_add with (s := s); try assumption; try reflexivity; try apply incl_refl.
        + split; [apply (excl_keep s); (assumption || reflexivity)|]. rewrite Hall'. split; [exact g2|]. split; [exact g3|]. cbn [goto with_disk disk cells ids]. rewrite app_length. cbn [length]. split; [lia|]. split; [|exact g6]. rewrite <- Hall. exact Hin.
        + cbn [with_disk disk]. rewrite app_length. lia.
        + pose proof (Hall' Idle) as A. unfold goto, with_disk, all in A |- *. cbn in A |- *. rewrite A. apply incl_refl.
      - injection E as <-. apply inv_goto; [exact I|easy|]. cbn [T] in *. split; [exact Hi|apply le_n].
      - injection E as <-. cbn [T] in Hi. destruct Hi as [? ?]. destruct (Nat.eqb l (length (cells s))); (apply inv_goto; [exact I|easy|]); cbn [T]; auto.
      - cbn [T] in Hi. destruct Hi as (Hq & Hl & Ht). destruct todo as [|e todo]; injection E as <-; [apply inv_goto; [exact I|easy|]; cbn [T]; auto|].
        assert (Hm : existsb (N.eqb (fst e)) (ids s) = true) by (apply existsb_exists; exists (fst e); split; [apply Ht; left; reflexivity|apply N.eqb_refl]). rewrite Hm. apply inv_goto; [exact I|easy|]. cbn [T]. split; [exact Hq|]. split; [exact Hl|]. intros x Hx. apply Ht. right. exact Hx.
      - injection E as <-. cbn [T] in Hi. destruct Hi as (Hq & Hl).
        assert (I' : Inv (with_buf s q)).
        { split; [exact (conj g1 (conj g2 (conj g3 (conj g4 (conj g5 g6)))))|]. intros j. pose proof (H j) as Hj. pose proof (Side q n l eq_refl j) as Sj. cbn [with_buf threads]. destruct (threads s j) as [|[] k c t| | | | | | | | | |]; cbn [T] in *; try exact Hj. destruct Hj as (-> & (d & Hp) & Hc & Hr & _). split; [reflexivity|]. split; [exists d; exact Hp|]. split; [exact Hc|]. split; [exact Hr|]. cbn [with_buf buf]. apply (Sj k c ThenCommit). reflexivity. }
        apply inv_goto; [exact I'|easy|]. cbn [T]. split; [exact Hq|exact Hl].
      - injection E as <-. cbn [T] in Hi. destruct Hi as (Hq & Hl). apply inv_goto; [exact I|easy|]. cbn [T length]. rewrite map_length. repeat split; [exact Hq|exact Hl|lia].
      - cbn [T] in Hi. destruct Hi as (Hq & Hl & Hv). destruct view as [|c view]; injection E as <-; (apply inv_goto; [exact I|easy|]); cbn [T]; cbn [length] in Hv; [repeat split; [exact Hq|exact Hl|lia]|]. rewrite app_length. cbn [length]. repeat split; [exact Hq|exact Hl|lia].
      - cbn [T] in Hi. destruct Hi as (Hq & Hl & Hv). destruct (select sc n) as [idx|e] eqn:Es; injection E as <-; (apply inv_goto; [exact I|easy|]); cbn [T]; (split; [exact Hq|]); (split; [exact Hl|]).
        + intros k Hk. apply in_map_iff in Hk. destruct Hk as (j & <- & Hj). pose proof (select_range _ _ _ Es j Hj) as Hlt.
          assert (Hc : In (nth j (cells s) junk) (cells s)) by (apply nth_In; lia).
          assert (F : forall (l1 : list entry) l2, Forall2 cell_ok l1 l2 -> forall x, In x l2 -> In (fst x) (map fst l1)) by (induction 1 as [|e1 x1 l1 l2 [A1 _] F IH]; [intros x []|]; intros x [<-|Hx]; cbn [map]; [left; symmetry; exact A1|right; auto]).
          pose proof (F _ _ g3 _ Hc) as Hin. rewrite <- firstn_map in Hin. rewrite <- (firstn_skipn (length (cells s)) (map fst (all s))). apply in_or_app. left. exact Hin.
        + right. right. exists sc, e. auto.
      - injection E as <-. cbn [T] in Hi. destruct Hi as (Hq & Hl & Hk). apply inv_goto; [exact I|easy|]. cbn [T]. split; [exact Hq|]. split; [exact Hl|]. destruct (lookups_ok (disk s) ks) as [(ds & -> & D)| ->]; [left|right; left; reflexivity]. exists ds. split; [reflexivity|]. unfold all. rewrite map_app. apply incl_appl. exact D.
      - injection E as <-. apply inv_goto; [exact I|easy|exact Logic.I].
    Qed.
    Lemma inv_step s l s' : Inv s -> step s l s' -> (forall e, l <> External e) -> (forall q, In q (asked l) -> Q q) ->
      (l = Other -> forall i q n l', advance s i = Some s' -> threads s i = Querying q n l' -> forall j k c t, threads s j = Adding ToCopy k c t -> ok c q) ->
      Inv s' /\ all s' = (all s ++ appended l)%list.
    Proof.
      intros I St Hx Hq Side. destruct St as [s i k c d Ei Hp [K1 K2]|s i q n Ei|s i s' E|s e Hp K].
      - destruct I as [(g1 & g2 & g3 & g4 & g5 & g6) H]. assert (Hall : all s = disk s) by (unfold all; rewrite Hp; apply app_nil_r).
        set (s1 := with_disk s (disk s) (Some (k, (c, d)))). assert (Hall1 : all s1 = (disk s ++ [(k, (c, d))])%list) by reflexivity.
        assert (Nb : forall j, ~ busy (threads s j)).
        { intros j B. specialize (H j). destruct (threads s j); cbn [busy T] in *; try contradiction; [destruct H as (_ & (? & H) & _); congruence|]. rewrite Hall in *. lia. }
        split; [|cbn [appended]; rewrite Hall; exact Hall1]. split.
        + split; [|change (all (goto s1 i (Adding ToId k c ThenCommit))) with (all s1); rewrite Hall1; cbn [goto s1 with_disk cells disk ids]].
          * intros a b. cbn [goto threads s1 with_disk]. destruct (Nat.eqb_spec a i) as [->|Na]; destruct (Nat.eqb_spec b i) as [->|Nb']; rewrite ?setpc_same, ?(setpc_other _ _ _ a), ?(setpc_other _ _ _ b) by assumption; intros B1 B2; try reflexivity; exfalso; first [exact (Nb _ B1)|exact (Nb _ B2)].
          * rewrite Hall in *. split; [|split; [|split; [|split]]].
            -- rewrite map_app. cbn [map fst]. apply (Permutation_NoDup (Permutation_cons_append _ _)). constructor; assumption.
            -- rewrite firstn_app. replace (length (cells s) - length (disk s))%nat with 0%nat by lia. cbn [firstn]. rewrite app_nil_r. exact g3.
            -- rewrite app_length. cbn [length]. lia.
            -- exact g5.
            -- rewrite map_app. intros x Hx1. apply in_or_app. left. auto.
        + intros j. cbn [goto threads]. destruct (Nat.eqb_spec j i) as [->|Nj]; [rewrite setpc_same|rewrite setpc_other by exact Nj].
          * cbn [T]. split; [reflexivity|]. split; [exists d; reflexivity|]. split; [|exact Logic.I]. cbn [goto s1 with_disk cells disk]. rewrite Hall in g4. lia.
          * apply (T_mono s); [apply Nb|apply H|apply le_n|apply le_n|apply incl_refl| |]; change (all (goto s1 i (Adding ToId k c ThenCommit))) with (all s1); rewrite Hall1, Hall; [rewrite map_app|]; apply incl_appl, incl_refl.
      - cbn [appended]. rewrite app_nil_r. split; [|reflexivity]. apply inv_goto; [exact I|easy|]. cbn [T]. apply Hq. left. reflexivity.
      - cbn [appended]. rewrite app_nil_r. assert (I' : Inv s') by (apply (inv_advance s i); [exact I|exact E|]; intros q n l Eq j k c t; exact (Side eq_refl i q n l E Eq j k c t)). split; [exact I'|].
        destruct I as [_ H]. specialize (H i). unfold Listening.advance in E. destruct (threads s i) as [|[] k c t| |q n|q n l|q n l [|]|q n l|q n l|q n l [|] sc|q n l sc|q n l ks|q n l r]; try discriminate; try (injection E as <-; reflexivity).
        unfold all. destruct (pending s) as [e|]; [|discriminate]. injection E as <-. cbn. apply app_nil_r.
      - exfalso. exact (Hx e eq_refl).
    Qed.
  End Inv.
End ListeningFacts.
