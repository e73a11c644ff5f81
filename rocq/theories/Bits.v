(** Model of the bit counting code (zounds/nputil/countbits.pyx and the hamming
    distances of zounds/nputil/npx.py:369-386). *)
From Verif Require Import PyBase.
From Coq Require Export NArith.
Local Open Scope N_scope.

(** uint64 arithmetic wraps. *)
Definition u64 (x : N) : N := x mod 2 ^ 64.

(** countbits.pyx:31-40, the body of the loop of [count_bits] for one uint64.
    [z - ((z >> 1) & a)] cannot be negative, so truncated [N] subtraction is
    exact (proved in BitsProofs.v). *)
Definition count_bits1 (z : N) : N :=
  let a := 0x5555555555555555 in
  let b := 0x3333333333333333 in
  let c := 0xF0F0F0F0F0F0F0F in
  let d := 0x101010101010101 in
  let z := u64 (z - N.land (N.shiftr z 1) a) in
  let z := u64 (N.land z b + N.land (N.shiftr z 2) b) in
  N.shiftr (u64 (N.land (u64 (z + N.shiftr z 4)) c * d)) 56.

(** countbits.pyx:26-41 [count_bits]. *)
Definition count_bits (n : list N) : list N := map count_bits1 n.

(** gcc's __builtin_popcountl: the number of one bits (documented contract). *)
Fixpoint popcount_pos (p : positive) : N :=
  match p with
  | xH => 1
  | xO p => popcount_pos p
  | xI p => 1 + popcount_pos p
  end.
Definition popcount (n : N) : N := match n with 0 => 0 | Npos p => popcount_pos p end.

(** countbits.pyx:44-60 [count_packed_bits] *)
Definition count_packed_bits (rows : list (list N)) : list N :=
  map (fun row => fold_left (fun z w => u64 (z + popcount w)) row 0) rows.

(** numpy's [a ^ b] with [a] of shape (k,) broadcast against [b] of shape
    (n, k); row by row. *)
Fixpoint xor_row (a b : list N) : list N :=
  match a, b with
  | x :: a', y :: b' => N.lxor x y :: xor_row a' b'
  | _, _ => []
  end.

(** npx.py:369-374 [hamming_distance] *)
Definition hamming_distance (a : N) (b : list N) : list N :=
  count_bits (map (N.lxor a) b).

(** npx.py:377-386 [packed_hamming_distance] *)
Definition packed_hamming_distance (a : list N) (b : list (list N)) : list N :=
  count_packed_bits (map (xor_row a) b).
