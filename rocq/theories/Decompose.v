(** Model of [frequency_decomposition] (zounds/spectral/functional.py:388-419) and of
    FrequencyDecompositionSynthesizer (zounds/synthesize/synthesize.py:284-301).  Sizes are
    natural numbers; arrays hold real numbers (an integer array would refuse the in-place
    subtraction); of the time dimension of the samples only its frequency [tf] matters. *)
From Verif Require Import PyBase PyFacts PyMore Time Freq FreqDim Spectral Resample.
From Coq Require Import Reals.
Local Open Scope R_scope.

(** [resample(x, num, axis=-1)] of an array of rows *)
Definition resample2 (num : nat) (x : arr2 R) : result (arr2 R) :=
  if Nat.eqb num 0 || Nat.eqb (cols x) 0 then Raise ValueError
  else Ok (mkArr num (map (resample_row num) (rows x))).
(** elementwise [a - b] and [a + b] of arrays of the same shape *)
Definition map2 (f : R -> R -> R) (a b : list R) : list R := map (fun p => f (fst p) (snd p)) (combine a b).
Definition arr_op (f : R -> R -> R) (a b : arr2 R) : arr2 R :=
  mkArr (cols a) (map (fun p => map2 f (fst p) (snd p)) (combine (rows a) (rows b))).

(** functional.py:404-416: the bands and their frequency bands *)
Fixpoint decompose_loop (nyq : Z) (original_size : nat) (sizes : list nat) (data : arr2 R) (start_hz : R)
  : result (list (arr2 R) * list band) :=
  match sizes with
  | [] => Ok ([], [])
  | size :: r =>
      do s <- if Nat.eqb size original_size then Ok data else resample2 size data;
      do back <- resample2 original_size s;
      let data := arr_op Rminus data back in
      let stop_hz := IZR nyq * (INR size / INR original_size) in
      do b <- make_band start_hz stop_hz;
      do rest <- decompose_loop nyq original_size r data stop_hz;
      Ok (s :: fst rest, b :: snd rest)
  end.
(** functional.py:388-419; a one-dimensional x is first made into a row (391-394) *)
Definition frequency_decomposition (tf : Z) (x : arr2 R) (sizes : list nat) : result (arr2 R * efd) :=
  let sizes := isort Nat.leb sizes in
  do rate <- audio_sample_rate (samples_per_second tf);
  let nyq := (rate_sps rate / 2)%Z in
  do r <- decompose_loop nyq (cols x) sizes x 0;
  do s <- make_explicit (snd r);
  fa_new (fst r) s.

(** synthesize.py:295-297: [if bands and i not in bands] *)
Definition band_selected (bands : option (list nat)) (i : nat) : bool :=
  match bands with
  | None => true
  | Some [] => true
  | Some l => existsb (Nat.eqb i) l
  end.
(** synthesize.py:295-298 *)
Fixpoint synth_loop (output_size : nat) (x : arr2 R * efd) (bands : option (list nat)) (i : nat) (scale : list band) (output : arr2 R)
  : result (arr2 R) :=
  match scale with
  | [] => Ok output
  | q :: r =>
      if band_selected bands i then
        do b <- fa_get x q;
        do y <- resample2 output_size (fst b);
        synth_loop output_size x bands (S i) r (arr_op Rplus output y)
      else synth_loop output_size x bands (S i) r output
  end.
(** synthesize.py:290-301, FrequencyDecompositionSynthesizer(_, output_size).synthesize *)
Definition decomposition_synthesize (output_size : nat) (x : arr2 R * efd) (bands : option (list nat)) : result (arr2 R) :=
  let output := mkArr output_size (repeat (repeat 0 output_size) (length (rows (fst x)))) in
  synth_loop output_size x bands 0 (ebands (snd x)) output.
