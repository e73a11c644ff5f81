(** Sizes that are a fraction of a length, in machine numbers: how many coefficients a band of
    DctTransform.frequency_decomposition has (zounds/learn/dct_transform.py:93-117), how many
    samples dct_resample makes (64), how many examples SupervisedTrainer holds out
    (zounds/learn/supervised.py:56), and how far apart FrequencyAdaptive.square lays its frames
    (zounds/spectral/frequencyadaptive.py:94-145).  Factors are doubles, given as rationals. *)
From Coq Require Import ZArith QArith Reals.
From Verif Require Import PyBase PyFacts PyMore Time Freq FreqDim Spectral Resample Decompose Square Float64 Time64.
Local Open Scope Z_scope.

(** Python: [int(factor * n)] for a double and an int; the int is converted first *)
Definition part64 (x : Q) (n : Z) : Z := trunc (fls (x * fls (inject_Z n))%Q).

(** supervised.py:56, 57-58: rows held out and rows trained on; [p] is holdout_percent *)
Definition holdout64 {A} (p : Q) (data : list A) : list A * list A :=
  let k := part64 p (Z.of_nat (length data)) in
  (py_slice None (Some k) data, py_slice (Some k) None data).

(** dct_transform.py:62-91 along the last axis; a basis of size 0 cannot be made:
    functional.py:384 divides pi by the size.  A negative size is torch's RuntimeError.
    [zero_slice], if any, names coefficients that are set to 0 (85-89). *)
Definition zeroed (zero_slice : option pyslice) (c : list R) : list R :=
  match zero_slice with
  | None => c
  | Some s => let z := apply_slice s (seq 0 (length c)) in map (fun j => if existsb (Nat.eqb j) z then 0%R else at_ c j) (seq 0 (length c))
  end.
Definition dct_resample64 (factor : Q) (zero_slice : option pyslice) (x : list R) : result (list R) :=
  let n := part64 factor (Z.of_nat (length x)) in
  if Nat.eqb (length x) 0 then Raise ZeroDivisionError
  else if n <? 0 then Raise OtherError
  else if n =? 0 then Raise ZeroDivisionError
  else
    let coeffs := dct x in
    let new := firstn (Z.to_nat n) coeffs ++ repeat 0%R (Z.to_nat n - length coeffs) in
    Ok (idct (zeroed zero_slice new)).

(** Python: [sorted] *)
Fixpoint insert_q (x : Q) (l : list Q) : list Q :=
  match l with [] => [x] | y :: r => if Qle_bool x y then x :: l else y :: insert_q x r end.
Definition sort_q (l : list Q) : list Q := fold_right insert_q [] l.
(** dct_transform.py:105-114: one band; [new_coeffs[slce] = coeffs[slce]] needs as many
    coefficients as there are places, or one, which is repeated (else torch's RuntimeError);
    [start <= stop] because the factors are sorted and not negative *)
Definition learn_band (coeffs : list R) (start stop : nat) : result (list R) :=
  let src := firstn (stop - start) (skipn start coeffs) in
  do c <- (if Nat.eqb (length src) (stop - start) then Ok src
           else if Nat.eqb (length src) 1 then Ok (repeat (at_ src 0) (stop - start))
           else Raise OtherError);
  if Nat.eqb stop 0 then Raise ZeroDivisionError else Ok (idct (repeat 0%R start ++ c)).
(** dct_transform.py:93-117, one signal *)
Definition learn_decomposition (factors : list Q) (x : list R) : result (list (list R)) :=
  let size f := Z.to_nat (part64 f (Z.of_nat (length x))) in
  if Nat.eqb (length x) 0 then Raise ZeroDivisionError
  else
    let factors := sort_q factors in
    let coeffs := dct x in
    mapM (fun p => learn_band coeffs (size (fst p)) (size (snd p))) (combine (0%Q :: factors) factors).

(** samplerate.py:84-86: the overlap as a part of the duration *)
Definition overlap_ratio64 (f d : td) : f64 := td_div (td_sub d f) d.
(** frequencyadaptive.py:131: [int(n_coeffs * overlap_ratio)] *)
Definition square_step64 (n : nat) (f d : td) : result Z :=
  to_int (map_num (fun r => fls (fls (inject_Z (Z.of_nat n)) * r)%Q) (overlap_ratio64 f d)).
(** frequencyadaptive.py:133-134 *)
Definition square_length64 (rows n : nat) (f d : td) : result Z :=
  to_int (np_round0 (map_num (fun r => fls (fls (fls (inject_Z (Z.of_nat rows)) * r) + fls (fls (inject_Z (Z.of_nat n)) * r))%Q) (overlap_ratio64 f d))).
(** frequencyadaptive.py:113-114: [Picoseconds(int(np.round(duration / Picoseconds(1) / n_coeffs)))] *)
Definition square_frequency64 (n : nat) (d : td) : result Z :=
  to_int (np_round0 (map_num (fun r => fls (r / fls (inject_Z (Z.of_nat n)))%Q) (td_div d (picoseconds 1)))).
(** frequencyadaptive.py:94-145 square, with the sizes the machine computes; [n > 0] *)
Definition square64 (f d : td) (fa : arr2 R * efd) (n_coeffs : nat) (do_overlap_add : bool) : result squared :=
  do bands <- iter_bands fa;
  do resampled <- mapM (fun b => sq_resample b n_coeffs) bands;
  do stacked <- vstack_T resampled;
  do chunk_frequency <- square_frequency64 n_coeffs d;
  let arr := groups n_coeffs stacked in
  if negb do_overlap_add then Ok (Framed chunk_frequency arr)
  else
    if (match overlap_ratio64 f d with Num r => Qeq_bool r 0 | _ => false end) then Ok (Stacked chunk_frequency stacked)
    else
      do step <- square_step64 n_coeffs f d;
      do first_dim <- square_length64 (length stacked) n_coeffs f d;
      do out <- add_chunks (repeat (repeat 0%R (scale_len (escale (snd fa)))) (Z.to_nat first_dim)) (Z.to_nat step) 0 arr;
      Ok (Stacked chunk_frequency out).
