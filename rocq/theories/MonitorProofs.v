(** Proofs about Monitor.v. *)
From Coq Require Import ZArith String Lia.
From Verif Require Import PyBase PyFacts PyMore Ui Monitor.
Local Open Scope string_scope.
Local Open Scope list_scope.

Section Messages.
  Context {J : Type} (int : Z -> J).
  Notation kwarg := (kwarg int).
  Notation message := (message int).
  (** ** What a message says *)
  Definition writable (m : monitor) (r : batch_report J) : Prop := forall k v, In k (m_keys m) -> kwarg r k = Some v -> exists j, v = Plain j.
  Lemma put_keys {X} (l : list (string * X)) k v : NoDup (map fst l) -> NoDup (map fst (put_key l k v)) /\ forall x y, In (x, y) (put_key l k v) <-> (x = k /\ y = v) \/ (x <> k /\ In (x, y) l).
  Proof.
    induction l as [|[k' v'] l IH]; cbn [put_key map fst]; intros N.
    - split; [repeat constructor; intros []|]. intros x y. cbn. split; [intros [[= -> ->]|[]]; auto|intros [[-> ->]|[_ []]]; auto].
    - apply NoDup_cons_iff in N as [N1 N2]. destruct (String.eqb_spec k' k) as [->|Nk].
      + cbn [map fst]. split; [now constructor|]. intros x y. cbn. split.
        * intros [[= -> ->]|H]; [now left|]. right. split; [|now right]. intros ->. apply N1. apply (in_map fst) in H. exact H.
        * intros [[-> ->]|[Nx [[= -> ->]|H]]]; [now left|congruence|now right].
      + destruct (IH N2) as [I1 I2]. cbn [map fst]. split.
        * constructor; [|exact I1]. intros H. apply in_map_iff in H as ([x y] & E & H). cbn in E. subst x. apply I2 in H as [[-> _]|[_ H]]; [congruence|]. apply N1. apply (in_map fst) in H. exact H.
        * intros x y. cbn. rewrite I2. split.
          -- intros [[= -> ->]|[H|[H1 H2]]]; auto.
          -- intros [H|[H1 [H2|H2]]]; auto.
  Qed.
  Definition gathered (r : batch_report J) (ks : list string) (d : list (string * value J)) : Prop :=
    NoDup (map fst d) /\ forall k v, In (k, v) d <-> (k = "epoch" \/ k = "batch" \/ In k ks) /\ kwarg r k = Some v.
  Lemma gather r : forall ks done d, gathered r done d -> gathered r (done ++ ks) (fold_left (fun d k => match kwarg r k with Some v => put_key d k v | None => d end) ks d).
  Proof.
    induction ks as [|k ks IH]; intros done d [N E]; cbn [fold_left]; [rewrite app_nil_r; now split|]. replace (done ++ k :: ks) with ((done ++ [k]) ++ ks) by now rewrite <- app_assoc. apply IH. destruct (kwarg r k) as [v|] eqn:Ek.
    - destruct (put_keys d k v N) as [N' E']. split; [exact N'|]. intros x y. rewrite E', E, in_app_iff. cbn [In]. split.
      + intros [[-> ->]|[H1 [H2 H3]]]; [split; [auto 6|exact Ek]|split; [tauto|exact H3]].
      + intros [H1 H2]. destruct (String.eqb_spec x k) as [->|Nx]; [left; split; congruence|]. right. split; [exact Nx|]. split; [|exact H2]. destruct H1 as [H|[H|[H|[H|[]]]]]; auto. congruence.
    - split; [exact N|]. intros x y. rewrite E, in_app_iff. cbn [In]. split; [intros [H1 H2]; split; [tauto|exact H2]|]. intros [H1 H2]. split; [|exact H2]. destruct H1 as [H|[H|[H|[H|[]]]]]; auto. congruence.
  Qed.
  Lemma gathered_all m r : gathered r (m_keys m) (fold_left (fun d k => match kwarg r k with Some v => put_key d k v | None => d end) (m_keys m) [("epoch", Plain (int (br_epoch r))); ("batch", Plain (int (br_batch r)))]).
  Proof.
    apply (gather r (m_keys m) []). split; [repeat constructor; cbn; intuition discriminate|]. intros k v. cbn [In]. unfold kwarg, Monitor.kwarg. split.
    - intros [[= <- <-]|[[= <- <-]|[]]]; auto.
    - intros [[->|[->|[]]] H]; cbn in H; injection H as <-; auto.
  Qed.
  Lemma dumps_ok (d : list (string * value J)) : (forall k v, In (k, v) d -> exists j, v = Plain j) -> exists t, dumps d = Ok t /\ map fst t = map fst d /\ forall k j, In (k, j) t <-> In (k, Plain j) d.
  Proof.
    induction d as [|[k v] d IH]; intros H; cbn [dumps]; [exists []; repeat split; intros []|]. destruct (H k v (or_introl eq_refl)) as [j ->]. destruct IH as (t & E & F & G); [intros x y Hx; apply (H x y); now right|]. rewrite E. cbn [bind]. exists ((k, j) :: t). split; [reflexivity|]. cbn [map fst]. split; [now rewrite F|]. intros x y. cbn [In]. rewrite G. split; (intros [[= -> ->]|Hx]; auto).
  Qed.
  Theorem message_ok m r : writable m r -> exists t, message m r = Ok t /\ NoDup (map fst t) /\
    forall k j, In (k, j) t <-> (k = "epoch" \/ k = "batch" \/ In k (m_keys m)) /\ kwarg r k = Some (Plain j).
  Proof.
    intros W. destruct (gathered_all m r) as [N E]. destruct (dumps_ok _ (fun k v H => match proj1 (E k v) H with conj (or_introl e) H2 => ltac:(subst k; unfold Monitor.kwarg in H2; cbn in H2; injection H2 as <-; eauto) | conj (or_intror (or_introl e)) H2 => ltac:(subst k; unfold Monitor.kwarg in H2; cbn in H2; injection H2 as <-; eauto) | conj (or_intror (or_intror i)) H2 => W k v i H2 end)) as (t & Et & F & G).
    exists t. split; [exact Et|]. split; [now rewrite F|]. intros k j. rewrite G. apply E.
  Qed.
  (** epoch and batch under their own names, whatever [epoch_key] and [batch_key] say *)
  Theorem message_numbers m r t : message m r = Ok t -> In ("epoch", int (br_epoch r)) t /\ In ("batch", int (br_batch r)) t.
  Proof.
    intros H. destruct (gathered_all m r) as [N E]. unfold Monitor.message in H. revert H. set (d := fold_left _ _ _) in *. clearbody d. intros H.
    assert (P : forall k j, In (k, Plain j) d -> In (k, j) t). { clear N E. revert t H. induction d as [|[k v] d IH]; intros t H k0 j0 Hin; [destruct Hin|]. cbn [dumps] in H. destruct v as [j|]; [|discriminate]. destruct (dumps d) as [t'|] eqn:Ed; [|discriminate]. cbn [bind] in H. injection H as <-. destruct Hin as [[= -> ->]|Hin]; [now left|]. right. now apply (IH t'). }
    split; apply P; apply E; split; auto.
  Qed.
  Theorem message_opaque m r k : In k (m_keys m) -> kwarg r k = Some Opaque -> message m r = Raise TypeError.
  Proof.
    intros Hk Ho. destruct (gathered_all m r) as [N E]. unfold Monitor.message. assert (I : In (k, Opaque) (fold_left (fun d k => match kwarg r k with Some v => put_key d k v | None => d end) (m_keys m) [("epoch", Plain (int (br_epoch r))); ("batch", Plain (int (br_batch r)))])) by (apply E; auto).
    revert I. generalize (fold_left (fun d k => match kwarg r k with Some v => put_key d k v | None => d end) (m_keys m) [("epoch", Plain (int (br_epoch r))); ("batch", Plain (int (br_batch r)))]). clear. intros d. induction d as [|[x v] d IH]; intros I; [destruct I|]; destruct I as [H|H]; cbn [dumps].
    - injection H as -> ->. reflexivity.
    - destruct v; [rewrite IH by exact H|]; reflexivity.
  Qed.
End Messages.
