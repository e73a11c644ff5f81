(** Model of the gradient penalty of WassersteinGanTrainer (zounds/learn/wgan.py:61-99) over
    the reals.  Tensors are flat lists in row-major order together with their shape.  torch's
    [grad] is a parameter [grads], told which function to derive: PenaltyProofs.v says what is
    assumed of it (it returns the partial derivatives).  CUDA is left out; it only moves tensors. *)
From Verif Require Import PyBase PyMore Spectral Loss.
From Coq Require Import Reals Lra.
Local Open Scope R_scope.

Definition prod (shape : list nat) : nat := fold_right Nat.mul 1%nat shape.
(** torch: [x.view(shape)] of a contiguous tensor of [length x] numbers *)
Definition view (shape : list nat) (x : list R) : result (list R) :=
  if Nat.eqb (length x) (prod shape) then Ok x else Raise RuntimeError.
(** torch: [x[:n]] of a tensor whose items have [m] numbers *)
Definition first_items (n m : nat) (x : list R) : list R := firstn (n * m) x.
(** wgan.py:76-81: [alpha.view((-1, 1, ..., 1))] has one number for each item, stretched over
    the item's [m] numbers *)
Definition interpolates (n m : nat) (alpha real fake : list R) : list R :=
  map (fun k => at_ alpha (k / m) * at_ real k + (1 - at_ alpha (k / m)) * at_ fake k) (seq 0 (n * m)).
(** torch: [g.norm(2, dim=1)] of [n] items of [c] rows (the axis 1) of [l] numbers *)
Definition norm1 (n c l : nat) (g : list R) : list R :=
  map (fun k => sqrt (rsum c (fun i => at_ g ((k / l * c + i) * l + k mod l) * at_ g ((k / l * c + i) * l + k mod l)))) (seq 0 (n * l)).
(** wgan.py:99; the mean of nothing is not-a-number ([None]) *)
Definition penalty_of (n c l : nat) (g : list R) : option R :=
  if Nat.eqb (n * l) 0 then None
  else Some (mean (map (fun v => (v - 1) * (v - 1)) (norm1 n c l g)) * 10).
(** torch: [grad(outputs, inputs, grad_outputs=ones)] derives the sum of the outputs *)
Definition total (critic : list R -> list R) (x : list R) : R := rsum (length (critic x)) (at_ (critic x)).
(** wgan.py:61-99 [_gradient_penalty]: [shape] is fake_samples.shape, [alpha] what torch.rand
    drew for the items.  [norm] along an axis that is not there raises *)
Definition gradient_penalty (grads : (list R -> R) -> list R -> list R) (critic : list R -> list R)
    (shape : list nat) (real fake alpha : list R) : result (option R) :=
  (** wgan.py:69 *)
  do real <- view shape real;
  match shape with
  | n :: rest =>
      let m := prod rest in
      (** wgan.py:71-74 *)
      let real := first_items n m real in
      let fake := first_items n m fake in
      let x := interpolates n m alpha real fake in
      (** wgan.py:86-98 *)
      let g := grads (total critic) x in
      match rest with
      | c :: ls => Ok (penalty_of n c (prod ls) g)
      | [] => Raise IndexError
      end
  | [] => Raise IndexError
  end.
