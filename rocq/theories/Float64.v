(** Double-precision arithmetic on non-negative rationals: the nearest number with a mantissa
    of 53 bits, ties to even.  Underflow and overflow are not modelled: the numbers that occur
    are durations, rates and quotients of them. *)
From Coq Require Import ZArith QArith Qround Lia Bool.
Local Open Scope Z_scope.

(** n/d to the nearest integer, ties to even *)
Definition rne (n d : Z) : Z :=
  let q := n / d in
  let r := n mod d in
  if 2 * r <? d then q else if d <? 2 * r then q + 1 else if Z.even q then q else q + 1.
(** the exponent that leaves 53 bits of n/d *)
Definition exponent (n d : Z) : Z :=
  let l := Z.log2 n - Z.log2 d in
  (if n * 2 ^ Z.max 0 (- l) <? d * 2 ^ Z.max 0 l then l - 1 else l) - 52.
Definition scaled (n d e : Z) : Z * Z := if 0 <=? e then (n, d * 2 ^ e) else (n * 2 ^ (- e), d).
Definition fl (x : Q) : Q :=
  if Qnum x <=? 0 then 0%Q
  else
    let e := exponent (Qnum x) (QDen x) in
    let p := scaled (Qnum x) (QDen x) e in
    let m := rne (fst p) (snd p) in
    if 0 <=? e then inject_Z (m * 2 ^ e) else m # Z.to_pos (2 ^ (- e)).

