(** Model of FrequencyAdaptive.square and _resample
    (zounds/spectral/frequencyadaptive.py:80-145).  Values are real numbers; [np.max] and
    scipy's resample act on each row; the overlap ratio is the exact quotient
    (duration - frequency) / duration. *)
From Verif Require Import PyBase PyFacts PyMore Time Freq FreqDim Spectral Resample Decompose.
From Coq Require Import Reals.
Local Open Scope R_scope.

(** frequencyadaptive.py:80, [epsilon=1e-8] *)
Definition sq_eps : R := / 10 ^ 8.
(** frequencyadaptive.py:81-92, one row of [rs] and of [band] *)
Definition sq_normalize (band rs : list R) : list R :=
  let ratio := rmax rs / (rmax band + sq_eps) in
  map (fun v => v / (ratio + sq_eps)) rs.
(** frequencyadaptive.py:80-92 _resample: the rows, one after the other *)
Definition sq_resample (band : arr2 R) (n_coeffs : nat) : result (list R) :=
  do rs <- resample2 n_coeffs band;
  Ok (concat (map (fun p => sq_normalize (fst p) (snd p)) (combine (rows band) (rows rs)))).

(** numpy: [np.vstack(l).T], one row per position, one column per element of [l]; the
    elements have the same length *)
Definition vstack_T (l : list (list R)) : result (list (list R)) :=
  match l with
  | [] => Raise ValueError
  | f :: _ =>
      if forallb (fun g => Nat.eqb (length g) (length f)) l
      then Ok (map (fun i => map (fun g => at_ g i) l) (seq 0 (length f)))
      else Raise ValueError
  end.
(** numpy: [x.reshape(-1, n, _)] of an array of rows: groups of [n] rows, [n > 0] *)
Definition groups {A} (n : nat) (l : list A) : list (list A) :=
  map (fun i => firstn n (skipn (i * n) l)) (seq 0 (length l / n)).

(** the result of [square]: an array of one, two or three dimensions after the batch, and the
    frequency of its new time dimension *)
Inductive squared :=
| Stacked (chunk : Z) (rows_ : list (list R))            (* dimensions td, fdim *)
| Framed (chunk : Z) (frames : list (list (list R))).    (* time_dimension, td, fdim *)

(** numpy: [output[start: stop] += chunk] for an array of rows, [stop = start + len(chunk)];
    a single row is broadcast, even to no rows *)
Definition add_rows (out : list (list R)) (start : nat) (chunk : list (list R)) : result (list (list R)) :=
  let n := length chunk in
  let l := length (firstn n (skipn start out)) in
  if Nat.eqb l n then
    Ok (firstn start out
        ++ map (fun p => map2 Rplus (fst p) (snd p)) (combine (firstn n (skipn start out)) chunk)
        ++ skipn (start + n) out)
  else if Nat.eqb n 1 then Ok out
  else Raise ValueError.
(** frequencyadaptive.py:140-143 *)
Fixpoint add_chunks (out : list (list R)) (step i : nat) (chunks : list (list (list R))) : result (list (list R)) :=
  match chunks with
  | [] => Ok out
  | c :: r => do out <- add_rows out (step * i) c; add_chunks out step (S i) r
  end.

(** frequencyadaptive.py:94-145 square; [f] and [d] are the frequency and the duration of the
    time dimension in picoseconds, [d > 0] *)
Definition square (f d : Z) (fa : arr2 R * efd) (n_coeffs : nat) (do_overlap_add : bool) : result squared :=
  do bands <- iter_bands fa;
  do resampled <- mapM (fun b => sq_resample b n_coeffs) bands;
  do stacked <- vstack_T resampled;
  let chunk_frequency := round_half_even d (Z.of_nat n_coeffs) in
  let arr := groups n_coeffs stacked in
  if negb do_overlap_add then Ok (Framed chunk_frequency arr)
  else if (d - f =? 0)%Z then Ok (Stacked chunk_frequency stacked)
  else
    let step := Z.to_nat (Z.of_nat n_coeffs * (d - f) / d) in
    let first_dim := Z.to_nat (round_half_even (Z.of_nat (length stacked) * (d - f) + Z.of_nat n_coeffs * (d - f)) d) in
    do out <- add_chunks (repeat (repeat 0 (scale_len (escale (snd fa)))) first_dim) step 0 arr;
    Ok (Stacked chunk_frequency out).
