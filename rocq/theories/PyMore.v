(** More shared vocabulary: exception-propagating maps over lists. *)
From Verif Require Import PyBase PyFacts.

(** A list comprehension whose body may raise: the first exception wins. *)
Fixpoint mapM {A B} (f : A -> result B) (l : list A) : result (list B) :=
  match l with
  | [] => Ok []
  | x :: l' => do y <- f x; do r <- mapM f l'; Ok (y :: r)
  end.

Lemma mapM_ok {A B} (f : A -> result B) (g : A -> B) l :
  (forall x, In x l -> f x = Ok (g x)) -> mapM f l = Ok (map g l).
Proof.
  induction l as [|x l IH]; intros H; simpl; [reflexivity|].
  rewrite (H x) by (left; reflexivity). simpl.
  rewrite IH by (intros y Hy; apply H; right; exact Hy). reflexivity.
Qed.

Lemma mapM_inv {A B} (f : A -> result B) l r :
  mapM f l = Ok r -> Forall2 (fun x y => f x = Ok y) l r.
Proof.
  revert r; induction l as [|x l IH]; simpl; intros r H.
  - inversion H; constructor.
  - destruct (f x) eqn:E; [|discriminate]. simpl in H.
    destruct (mapM f l) eqn:E2; [|discriminate]. simpl in H. inversion H; subst.
    constructor; [exact E|]. apply IH; reflexivity.
Qed.

Lemma mapM_length {A B} (f : A -> result B) l r : mapM f l = Ok r -> length r = length l.
Proof. intros H. apply mapM_inv in H. induction H; simpl; congruence. Qed.

(** [l[i]] with Python's negative indices. *)
Definition py_get {A} (l : list A) (i : Z) : result A :=
  let j := if (i <? 0)%Z then (i + Zlen l)%Z else i in
  if (j <? 0)%Z then Raise IndexError
  else match nth_error l (Z.to_nat j) with Some x => Ok x | None => Raise IndexError end.

(** A Python slice object with step 1: optional bounds. *)
Definition pyslice := (option Z * option Z)%type.
Definition apply_slice {A} (s : pyslice) (l : list A) : list A := py_slice (fst s) (snd s) l.
