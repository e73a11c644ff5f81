(** C104: what the gradient penalty of the GAN trainer charges for. *)
From Verif Require Import PyBase PyMore Spectral Loss Penalty PenaltyProofs.
From Coq Require Import Reals.
Local Open Scope R_scope.
Theorem C104_interpolates :
  forall (n m : nat) (alpha real fake : list R) (i k : nat),
  (i < n)%nat ->
  (k < m)%nat ->
  at_ (interpolates n m alpha real fake) (i * m + k) =
  at_ alpha i * at_ real (i * m + k) + (1 - at_ alpha i) * at_ fake (i * m + k).
Proof. exact (@interpolates_entry). Qed.
Print Assumptions C104_interpolates.
Theorem C104_between :
  forall (n m : nat) (alpha real fake : list R) (i k : nat),
  (i < n)%nat ->
  (k < m)%nat ->
  0 <= at_ alpha i < 1 ->
  Rmin (at_ real (i * m + k)) (at_ fake (i * m + k)) <=
  at_ (interpolates n m alpha real fake) (i * m + k) <=
  Rmax (at_ real (i * m + k)) (at_ fake (i * m + k)).
Proof. exact (@interpolates_between). Qed.
Print Assumptions C104_between.
Theorem C104_value :
  forall (grads : (list R -> R) -> list R -> list R) (critic : list R -> list R) 
    (n c : nat) (ls : list nat) (real fake alpha : list R) (D : nat -> nat -> nat -> R),
  derives (n * (c * prod ls)) grads (total critic) ->
  (0 < n * prod ls)%nat ->
  length real = (n * (c * prod ls))%nat ->
  length fake = (n * (c * prod ls))%nat ->
  let x := interpolates n (c * prod ls) alpha real fake in
  (forall i j k : nat,
   (i < n)%nat ->
   (j < prod ls)%nat ->
   (k < c)%nat -> partial_is (total critic) x ((i * c + k) * prod ls + j) (D i j k)) ->
  gradient_penalty grads critic (n :: c :: ls) real fake alpha =
  Ok
    (Some
       (10 / INR (n * prod ls) *
        rsum n (fun i : nat => rsum (prod ls) (fun j : nat => (column_norm c (D i j) - 1) ^ 2)))).
Proof. exact (@penalty_value). Qed.
Print Assumptions C104_value.
Theorem C104_each_example :
  forall (n m : nat) (critic : list R -> list R) (f : list R -> R) (x : list R) (i k : nat) (d : R),
  itemwise n m critic f ->
  length x = (n * m)%nat ->
  (i < n)%nat ->
  (k < m)%nat -> partial_is f (item m i x) k d -> partial_is (total critic) x (i * m + k) d.
Proof. exact (@itemwise_partial). Qed.
Print Assumptions C104_each_example.
Theorem C104_vectors :
  forall (grads : (list R -> R) -> list R -> list R) (critic : list R -> list R) 
    (f : list R -> R) (n c : nat) (real fake alpha : list R) (D : nat -> nat -> R),
  derives (n * c) grads (total critic) ->
  (0 < n)%nat ->
  length real = (n * c)%nat ->
  length fake = (n * c)%nat ->
  itemwise n c critic f ->
  let x := interpolates n c alpha real fake in
  (forall i : nat, (i < n)%nat -> gradient_is f (item c i x) (D i)) ->
  gradient_penalty grads critic [n; c] real fake alpha =
  Ok (Some (rsum n (fun i : nat => 10 * (norm c (D i) - 1) ^ 2) / INR n)).
Proof. exact (@vectors). Qed.
Print Assumptions C104_vectors.
Theorem C104_vectors_zero :
  forall (grads : (list R -> R) -> list R -> list R) (critic : list R -> list R) 
    (f : list R -> R) (n c : nat) (real fake alpha : list R) (D : nat -> nat -> R),
  derives (n * c) grads (total critic) ->
  (0 < n)%nat ->
  length real = (n * c)%nat ->
  length fake = (n * c)%nat ->
  itemwise n c critic f ->
  let x := interpolates n c alpha real fake in
  (forall i : nat, (i < n)%nat -> gradient_is f (item c i x) (D i)) ->
  gradient_penalty grads critic [n; c] real fake alpha = Ok (Some 0) <->
  (forall i : nat, (i < n)%nat -> norm c (D i) = 1).
Proof. exact (@vectors_zero). Qed.
Print Assumptions C104_vectors_zero.
Theorem C104_vectors_bound :
  forall (grads : (list R -> R) -> list R -> list R) (critic : list R -> list R) 
    (f : list R -> R) (n c : nat) (real fake alpha : list R) (D : nat -> nat -> R) 
    (p : R),
  derives (n * c) grads (total critic) ->
  (0 < n)%nat ->
  length real = (n * c)%nat ->
  length fake = (n * c)%nat ->
  itemwise n c critic f ->
  let x := interpolates n c alpha real fake in
  (forall i : nat, (i < n)%nat -> gradient_is f (item c i x) (D i)) ->
  gradient_penalty grads critic [n; c] real fake alpha = Ok (Some p) ->
  0 <= p /\
  (forall i : nat,
   (i < n)%nat -> 1 - sqrt (INR n * p / 10) <= norm c (D i) <= 1 + sqrt (INR n * p / 10)).
Proof. exact (@vectors_bound). Qed.
Print Assumptions C104_vectors_bound.
Theorem C104_signals :
  forall (grads : (list R -> R) -> list R -> list R) (critic : list R -> list R) 
    (f : list R -> R) (n c l : nat) (real fake alpha : list R) (D : nat -> nat -> R),
  derives (n * (c * l)) grads (total critic) ->
  (0 < n * l)%nat ->
  length real = (n * (c * l))%nat ->
  length fake = (n * (c * l))%nat ->
  itemwise n (c * l) critic f ->
  let x := interpolates n (c * l) alpha real fake in
  (forall i : nat, (i < n)%nat -> gradient_is f (item (c * l) i x) (D i)) ->
  gradient_penalty grads critic [n; c; l] real fake alpha =
  Ok
    (Some
       (10 / INR (n * l) *
        rsum n
          (fun i : nat =>
           rsum l
             (fun j : nat =>
              (sqrt (rsum c (fun k : nat => D i (k * l + j)%nat * D i (k * l + j)%nat)) - 1) ^ 2)))).
Proof. exact (@signals). Qed.
Print Assumptions C104_signals.
Theorem C104_signals_zero :
  forall (grads : (list R -> R) -> list R -> list R) (critic : list R -> list R) 
    (f : list R -> R) (n c l : nat) (real fake alpha : list R) (D : nat -> nat -> R),
  derives (n * (c * l)) grads (total critic) ->
  (0 < n * l)%nat ->
  length real = (n * (c * l))%nat ->
  length fake = (n * (c * l))%nat ->
  itemwise n (c * l) critic f ->
  let x := interpolates n (c * l) alpha real fake in
  (forall i : nat, (i < n)%nat -> gradient_is f (item (c * l) i x) (D i)) ->
  gradient_penalty grads critic [n; c; l] real fake alpha = Ok (Some 0) ->
  forall i : nat, (i < n)%nat -> norm (c * l) (D i) = sqrt (INR l).
Proof. exact (@signals_zero). Qed.
Print Assumptions C104_signals_zero.
Theorem C104_signals_refuted :
  forall (grads : (list R -> R) -> list R -> list R) (critic : list R -> list R) 
    (f : list R -> R) (n c l : nat) (real fake alpha : list R) (D : nat -> nat -> R),
  derives (n * (c * l)) grads (total critic) ->
  (0 < n)%nat ->
  (1 < l)%nat ->
  length real = (n * (c * l))%nat ->
  length fake = (n * (c * l))%nat ->
  itemwise n (c * l) critic f ->
  let x := interpolates n (c * l) alpha real fake in
  (forall i : nat, (i < n)%nat -> gradient_is f (item (c * l) i x) (D i)) ->
  (forall i : nat, (i < n)%nat -> norm (c * l) (D i) = 1) ->
  exists p : R, gradient_penalty grads critic [n; c; l] real fake alpha = Ok (Some p) /\ 0 < p.
Proof. exact (@signals_refuted). Qed.
Print Assumptions C104_signals_refuted.
Theorem C104_flat_critic :
  forall (grads : (list R -> R) -> list R -> list R) (critic : list R -> list R) 
    (n c : nat) (ls : list nat) (real fake alpha : list R) (v : R),
  derives (n * (c * prod ls)) grads (total critic) ->
  (0 < n * prod ls)%nat ->
  length real = (n * (c * prod ls))%nat ->
  length fake = (n * (c * prod ls))%nat ->
  (forall x : list R, total critic x = v) ->
  gradient_penalty grads critic (n :: c :: ls) real fake alpha = Ok (Some 10).
Proof. exact (@flat_critic). Qed.
Print Assumptions C104_flat_critic.
Theorem C104_linear :
  forall (grads : (list R -> R) -> list R -> list R) (n c : nat) (w : list R) 
    (b : R) (real fake alpha : list R),
  derives (n * c) grads (total (linear_critic n c w b)) ->
  (0 < n)%nat ->
  length real = (n * c)%nat ->
  length fake = (n * c)%nat ->
  gradient_penalty grads (linear_critic n c w b) [n; c] real fake alpha =
  Ok (Some (10 * (norm c (at_ w) - 1) ^ 2)).
Proof. exact (@linear_penalty). Qed.
Print Assumptions C104_linear.
Theorem C104_coupled_refuted :
  forall (grads : (list R -> R) -> list R -> list R) (n : nat) (real fake alpha : list R),
  derives n grads (total (centred_critic n)) ->
  (1 < n)%nat ->
  length real = n ->
  length fake = n ->
  (forall (x : list R) (i : nat),
   length x = n -> (i < n)%nat -> partial_is (fun x0 : list R => at_ (centred_critic n x0) i) x i 1) /\
  gradient_penalty grads (centred_critic n) [n; 1%nat] real fake alpha = Ok (Some 10).
Proof. exact (@coupled_refuted). Qed.
Print Assumptions C104_coupled_refuted.
Theorem C104_sizes :
  forall (grads : (list R -> R) -> list R -> list R) (critic : list R -> list R) 
    (shape : list nat) (real fake alpha : list R),
  gradient_penalty grads critic shape real fake alpha =
  (if length real =? prod shape
   then
    match shape with
    | _ :: _ :: _ =>
        gradient_penalty grads critic shape (firstn (prod shape) real) 
          (firstn (prod shape) fake) alpha
    | _ => Raise IndexError
    end
   else Raise RuntimeError).
Proof. exact (@sizes). Qed.
Print Assumptions C104_sizes.
Theorem C104_nothing :
  forall (grads : (list R -> R) -> list R -> list R) (critic : list R -> list R) 
    (c : nat) (ls : list nat) (real fake alpha : list R),
  length real = 0%nat -> gradient_penalty grads critic (0%nat :: c :: ls) real fake alpha = Ok None.
Proof. exact (@no_items). Qed.
Print Assumptions C104_nothing.
Theorem C104_example :
  exists grads : (list R -> R) -> list R -> list R,
    derives 4 grads (total pair_critic) /\
    gradient_penalty grads pair_critic [2%nat; 2%nat] [1; 2; 3; 4] [5; 6; 7; 8] [/ 2; / 4] =
    Ok (Some 0) /\ interpolates 2 2 [/ 2; / 4] [1; 2; 3; 4] [5; 6; 7; 8] = [3; 4; 6; 7].
Proof. exact (@pair_example). Qed.
Print Assumptions C104_example.

