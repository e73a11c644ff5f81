(** Shared vocabulary of the models: Python exceptions as values, Python/numpy
    slicing, floor division and rounding, sequence repetition.  No code of
    /repo is modelled here; this file fixes the meaning of the Python language
    constructs that the models of /repo use. *)
From Coq Require Export List Arith ZArith Lia Bool.
From Coq Require Export ZifyBool.
Export ListNotations.

(** [lia] for goals with division and modulo by constants. *)
Ltac zdm := Z.div_mod_to_equations; lia.

(** Python exception classes that the modelled code raises or lets escape. *)
Inductive exn :=
| ValueError | IndexError | TypeError | KeyError | RuntimeError
| AttributeError | NotEnoughData | UnboundLocalError | StopIteration
| NotImplementedError | ZeroDivisionError | OverflowError | LmdbError
| HttpError | Crash | OtherError.

(** Result of a Python call: a value or a raised exception. *)
Inductive result (A : Type) : Type :=
| Ok (a : A)
| Raise (e : exn).
Arguments Ok {A} _.
Arguments Raise {A} _.

Definition bind {A B} (r : result A) (f : A -> result B) : result B :=
  match r with Ok a => f a | Raise e => Raise e end.

Declare Scope py_scope.
Notation "'do' x <- a ; b" := (bind a (fun x => b))
  (at level 200, x pattern, a at level 100, b at level 200) : py_scope.
Open Scope py_scope.

Definition is_ok {A} (r : result A) : bool :=
  match r with Ok _ => true | Raise _ => false end.

(** [len(l)] as a Python int. *)
Definition Zlen {A} (l : list A) : Z := Z.of_nat (length l).

(** One bound of a Python slice against a sequence of length [n]: a negative
    index counts from the end, then the index is clamped to [0, n]. *)
Definition norm_index (n i : Z) : Z :=
  let i := if (i <? 0)%Z then (i + n)%Z else i in
  Z.max 0 (Z.min n i).

(** [l[start:stop]] with step 1 (Python data model, "slice.indices"). *)
Definition py_slice {A} (start stop : option Z) (l : list A) : list A :=
  let n := Zlen l in
  let b := match start with None => 0%Z | Some i => norm_index n i end in
  let e := match stop with None => n | Some i => norm_index n i end in
  firstn (Z.to_nat (e - b)) (skipn (Z.to_nat b) l).

(** [l[::k]] for k >= 1, by fuel = remaining length. *)
Fixpoint stride_aux {A} (k skip : nat) (l : list A) : list A :=
  match l with
  | [] => []
  | x :: l' =>
      match skip with
      | 0 => x :: stride_aux k (k - 1) l'
      | S m => stride_aux k m l'
      end
  end.
Definition py_stride {A} (k : nat) (l : list A) : list A := stride_aux k 0 l.

(** Collect a list of optional values; [None] if one is missing. *)
Fixpoint sequence {A} (l : list (option A)) : option (list A) :=
  match l with
  | [] => Some []
  | Some x :: l' => match sequence l' with Some r => Some (x :: r) | None => None end
  | None :: _ => None
  end.

(** [range(n)] *)
Definition zrange (n : Z) : list Z := map Z.of_nat (seq 0 (Z.to_nat n)).

(** Python 3 [round] of a rational p/q (q > 0) to an integer: half to even. *)
Definition round_half_even (p q : Z) : Z :=
  let f := (p / q)%Z in
  let r := (p - f * q)%Z in
  if (2 * r <? q)%Z then f
  else if (q <? 2 * r)%Z then (f + 1)%Z
  else if Z.even f then f else (f + 1)%Z.

(** [int(p/q)] truncates toward zero. *)
Definition trunc_div (p q : Z) : Z := Z.quot p q.

(** [math.ceil(p/q)] *)
Definition ceil_div (p q : Z) : Z := (- ((- p) / q))%Z.

(** Python's [sorted(key=..)]: stable insertion sort by a boolean "less or
    equal" on keys. *)
Section Sort.
  Context {A : Type} (le : A -> A -> bool).
  Fixpoint insert (x : A) (l : list A) : list A :=
    match l with
    | [] => [x]
    | y :: l' => if le x y then x :: y :: l' else y :: insert x l'
    end.
  Fixpoint isort (l : list A) : list A :=
    match l with
    | [] => []
    | x :: l' => insert x (isort l')
    end.
End Sort.
