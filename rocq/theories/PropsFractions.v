(** C106: frequency bands of the learn package and sizes that are a fraction of a length;
    C75: the square form with the numbers of the machine. *)
From Coq Require Import ZArith QArith Reals Permutation.
From Verif Require Import PyBase PyMore Time Freq FreqDim Spectral Resample Decompose Square Float64 Time64 Fractions FractionsProofs FractionsProofs2 FractionsProofs3 FractionsProofs4.
Local Open Scope R_scope.
Theorem C106_size :
  forall (a : Z) (b : positive) (n : Z),
  (0 <= n)%Z ->
  (0 <= a)%Z ->
  (n * a < 2 ^ 51)%Z ->
  (n <= 2 ^ 53)%Z ->
  let e := (n * a / Z.pos b)%Z in
  part64 (fls (a # b)) n = e \/ ((n * a) mod Z.pos b)%Z = 0%Z /\ part64 (fls (a # b)) n = (e - 1)%Z.
Proof. exact (@part_cases). Qed.
Print Assumptions C106_size.
Theorem C106_size_exact :
  forall (a : Z) (b : positive) (n : Z),
  (0 <= n)%Z ->
  (0 <= a)%Z ->
  (n * a < 2 ^ 51)%Z ->
  (n <= 2 ^ 53)%Z -> (a # b <= fls (a # b))%Q -> part64 (fls (a # b)) n = (n * a / Z.pos b)%Z.
Proof. exact (@part_exact). Qed.
Print Assumptions C106_size_exact.
Theorem C106_size_dyadic :
  forall a k n : Z,
  (0 <= n <= 2 ^ 53)%Z ->
  (0 <= a <= 2 ^ 53)%Z ->
  (0 <= k)%Z -> (n * a < 2 ^ 51)%Z -> part64 (fls (a # Z.to_pos (2 ^ k))) n = (n * a / 2 ^ k)%Z.
Proof. exact (@part_dyadic). Qed.
Print Assumptions C106_size_dyadic.
Theorem C106_size_all :
  forall n : Z, (0 <= n <= 2 ^ 53)%Z -> part64 1 n = n.
Proof. exact (@part_all). Qed.
Print Assumptions C106_size_all.
Theorem C106_size_none :
  forall n : Z, (0 <= n <= 2 ^ 53)%Z -> part64 0 n = 0%Z.
Proof. exact (@part_none). Qed.
Print Assumptions C106_size_none.
Theorem C106_size_grows :
  forall (x y : Q) (n : Z),
  (0 <= x)%Q -> (x <= y)%Q -> (0 <= n <= 2 ^ 53)%Z -> (0 <= part64 x n <= part64 y n)%Z.
Proof. exact (@part_mono). Qed.
Print Assumptions C106_size_grows.
Theorem C106_size_within :
  forall (x : Q) (n : Z), (0 <= x <= 1)%Q -> (0 <= n <= 2 ^ 53)%Z -> (0 <= part64 x n <= n)%Z.
Proof. exact (@part_le). Qed.
Print Assumptions C106_size_within.
Theorem C106_size_usual :
  forall n : Z,
  (0 <= n < 2 ^ 44)%Z ->
  part64 (fls 0.1) n = (n / 10)%Z /\
  part64 (fls (1 # 5)) n = (n / 5)%Z /\
  part64 (fls (1 # 4)) n = (n / 4)%Z /\ part64 (fls (1 # 2)) n = (n / 2)%Z.
Proof. exact (@part_usual). Qed.
Print Assumptions C106_size_usual.
Theorem C106_size_refuted :
  part64 (fls 0.29) 100 = 28%Z /\ part64 (fls (1 # 49)) 49 = 0%Z.
Proof. exact (@part_hundredths_refuted). Qed.
Print Assumptions C106_size_refuted.
Theorem C106_bands :
  forall (factors : list Q) (x : list R),
  machine_length x ->
  (forall f : Q, In f factors -> usual_factor x f) ->
  exists (sizes : list nat) (out : list (list R)),
    learn_decomposition factors x = Ok out /\
    Permutation (map (fun f : Q => Z.to_nat (part64 f (Z.of_nat (length x)))) factors) sizes /\
    (forall i : nat, (S i < length sizes)%nat -> (nth i sizes 0 <= nth (S i) sizes 0)%nat) /\
    length out = length factors /\
    (forall i : nat,
     (i < length factors)%nat ->
     let start := nth i (0%nat :: sizes) 0%nat in
     let stop := nth i sizes 0%nat in
     (start <= stop <= length x)%nat /\
     (0 < stop)%nat /\
     length (nth i out []) = stop /\
     (forall t : nat,
      (t < stop)%nat ->
      at_ (nth i out []) t =
      sqrt (2 / INR stop) *
      rsum (stop - start)
        (fun k : nat =>
         at_ (dct x) (start + k) * cos (PI / INR stop * (INR t * (INR (start + k) + / 2))))) /\
     energy (nth i out []) - at_ (nth i out []) 0 * at_ (nth i out []) 0 / 2 =
     rsum (stop - start) (fun k : nat => at_ (dct x) (start + k) * at_ (dct x) (start + k))).
Proof. exact (@bands). Qed.
Print Assumptions C106_bands.
Theorem C106_any_order :
  forall (factors factors' : list Q) (x : list R),
  machine_length x ->
  (forall f : Q, In f factors -> (0 <= f)%Q) ->
  Permutation factors factors' -> learn_decomposition factors x = learn_decomposition factors' x.
Proof. exact (@any_order). Qed.
Print Assumptions C106_any_order.
Theorem C106_shared_energy :
  forall (factors : list Q) (x : list R),
  machine_length x ->
  (forall f : Q, In f factors -> usual_factor x f) ->
  In 1%Q factors ->
  exists out : list (list R),
    learn_decomposition factors x = Ok out /\
    rsum (length out)
      (fun i : nat => energy (nth i out []) - at_ (nth i out []) 0 * at_ (nth i out []) 0 / 2) =
    energy x + at_ x 0 * at_ x 0.
Proof. exact (@shared_energy). Qed.
Print Assumptions C106_shared_energy.
Theorem C106_silent :
  forall (x : list R) (a b : nat),
  (a <= b <= length x)%nat ->
  (0 < b)%nat ->
  exists y : list R,
    learn_band (dct x) a b = Ok y /\
    length y = b /\
    ((forall t : nat, (t < b)%nat -> at_ y t = 0) <->
     (forall k : nat, (a <= k < b)%nat -> at_ (dct x) k = 0)).
Proof. exact (@silent). Qed.
Print Assumptions C106_silent.
Theorem C106_whole_refuted :
  forall (a : R) (r : list R),
  machine_length (a :: r) -> learn_decomposition [1%Q] (a :: r) = Ok [2 * a :: r].
Proof. exact (@whole). Qed.
Print Assumptions C106_whole_refuted.
Theorem C106_energy_refuted :
  forall (a : R) (r : list R),
  a <> 0 ->
  machine_length (a :: r) ->
  exists y : list R,
    learn_decomposition [1%Q] (a :: r) = Ok [y] /\
    energy y = energy (a :: r) + 3 * a * a /\ energy y <> energy (a :: r).
Proof. exact (@energy_refuted). Qed.
Print Assumptions C106_energy_refuted.
Theorem C106_same_size_refuted :
  forall (f g : Q) (x : list R),
  machine_length x ->
  usual_factor x f ->
  usual_factor x g ->
  part64 f (Z.of_nat (length x)) = part64 g (Z.of_nat (length x)) ->
  exists y : list R,
    learn_decomposition [f; g] x = Ok [y; repeat 0 (Z.to_nat (part64 f (Z.of_nat (length x))))].
Proof. exact (@same_size_refuted). Qed.
Print Assumptions C106_same_size_refuted.
Theorem C106_too_small_refuted :
  forall (factors : list Q) (f : Q) (x : list R),
  machine_length x ->
  (forall g : Q, In g factors -> (0 <= g)%Q) ->
  In f factors ->
  part64 f (Z.of_nat (length x)) = 0%Z -> learn_decomposition factors x = Raise ZeroDivisionError.
Proof. exact (@too_small_refuted). Qed.
Print Assumptions C106_too_small_refuted.
Theorem C106_too_large_refuted :
  forall (f : Q) (x : list R),
  machine_length x ->
  (0 <= f)%Q ->
  (Z.of_nat (length x) < part64 f (Z.of_nat (length x)))%Z ->
  (2 <= length x)%nat -> learn_decomposition [f] x = Raise OtherError.
Proof. exact (@too_large_refuted). Qed.
Print Assumptions C106_too_large_refuted.
Theorem C106_no_samples_refuted :
  forall factors : list Q, learn_decomposition factors [] = Raise ZeroDivisionError.
Proof. exact (@no_samples_refuted). Qed.
Print Assumptions C106_no_samples_refuted.
Theorem C106_resample_sizes :
  forall (f : Q) (x : list R),
  machine_length x ->
  (0 <= f)%Q ->
  part64 f (Z.of_nat (length x)) = 0%Z /\ dct_resample64 f None x = Raise ZeroDivisionError \/
  (exists y : list R,
     dct_resample64 f None x = Ok y /\ Z.of_nat (length y) = part64 f (Z.of_nat (length x))).
Proof. exact (@resample_sizes). Qed.
Print Assumptions C106_resample_sizes.
Theorem C106_resample_whole_refuted :
  forall (a : R) (r : list R),
  machine_length (a :: r) -> dct_resample64 1 None (a :: r) = Ok (2 * a :: r).
Proof. exact (@resample_whole). Qed.
Print Assumptions C106_resample_whole_refuted.
Theorem C106_resample_energy :
  forall (f : Q) (x y : list R),
  machine_length x ->
  (1 <= f)%Q ->
  dct_resample64 f None x = Ok y -> energy y - at_ y 0 * at_ y 0 / 2 = energy x + at_ x 0 * at_ x 0.
Proof. exact (@resample_energy). Qed.
Print Assumptions C106_resample_energy.
Theorem C106_resample_zero :
  forall (f : Q) (a b : Z) (x y : list R),
  machine_length x ->
  (0 <= f)%Q ->
  (0 <= a)%Z ->
  (0 <= b)%Z ->
  dct_resample64 f (Some (Some a, Some b)) x = Ok y ->
  forall t : nat,
  (t < length y)%nat ->
  at_ y t =
  sqrt (2 / INR (length y)) *
  rsum (length y)
    (fun j : nat =>
     (if inside a b j then 0 else at_ (dct x) j) *
     cos (PI / INR (length y) * (INR t * (INR j + / 2)))).
Proof. exact (@resample_value). Qed.
Print Assumptions C106_resample_zero.
Theorem C106_resample_silenced :
  forall (f : Q) (x y : list R),
  machine_length x ->
  (0 <= f)%Q -> dct_resample64 f (Some (None, None)) x = Ok y -> y = repeat 0 (length y).
Proof. exact (@resample_silenced). Qed.
Print Assumptions C106_resample_silenced.
Theorem C106_linear :
  forall (factors : list Q) (c : R) (x y : list R),
  machine_length x ->
  length x = length y ->
  (forall f : Q, In f factors -> usual_factor x f) ->
  exists bx by_ : list (list R),
    learn_decomposition factors x = Ok bx /\
    learn_decomposition factors y = Ok by_ /\
    learn_decomposition factors (mix c x y) =
    Ok (map (fun i : nat => mix c (nth i bx []) (nth i by_ [])) (seq 0 (length factors))).
Proof. exact (@linear). Qed.
Print Assumptions C106_linear.
Theorem C106_holdout :
  forall (A : Type) (p : Q) (data : list A),
  (0 <= p <= 1)%Q ->
  (Z.of_nat (length data) <= 2 ^ 53)%Z ->
  fst (holdout64 p data) ++ snd (holdout64 p data) = data /\
  Z.of_nat (length (fst (holdout64 p data))) = part64 p (Z.of_nat (length data)).
Proof. exact (@holdout_split). Qed.
Print Assumptions C106_holdout.
Theorem C106_holdout_none :
  forall (A : Type) (data : list A),
  (Z.of_nat (length data) <= 2 ^ 53)%Z -> holdout64 0 data = ([], data).
Proof. exact (@holdout_none). Qed.
Print Assumptions C106_holdout_none.
Theorem C106_example :
  learn_decomposition [1 # 2] [0; 1] = Ok [[1]].
Proof. exact (@bands_example). Qed.
Print Assumptions C106_example.
Theorem C106_meets :
  machine_length [1; 2; 3; 4] /\
  (forall f : Q, In f [1%Q; 1 # 4; fls 0.9] -> usual_factor [1; 2; 3; 4] f) /\
  map (fun f : Q => part64 f 4) [1%Q; 1 # 4; fls 0.9] = [4%Z; 1%Z; 3%Z].
Proof. exact (@bands_meets). Qed.
Print Assumptions C106_meets.
Theorem C75_machine :
  forall (f d : td) (fa : arr2 R * efd) (n : nat) (overlap_add : bool) 
    (c : Z) (frames : list (list (list R))),
  usual_dimension f d ->
  (0 < n)%nat ->
  ps d = ps f \/ ps d = (2 * ps f)%Z ->
  square (ps f) (ps d) fa n false = Ok (Framed c frames) ->
  (Z.of_nat ((length frames + 2) * n) < 2 ^ 52)%Z ->
  square64 f d fa n overlap_add = square (ps f) (ps d) fa n overlap_add.
Proof. exact (@square_agrees). Qed.
Print Assumptions C75_machine.
Theorem C75_machine_fails :
  forall (f d : td) (fa : arr2 R * efd) (n : nat) (overlap_add : bool) (e : exn),
  usual_dimension f d ->
  (0 < n)%nat ->
  square (ps f) (ps d) fa n false = Raise e -> square64 f d fa n overlap_add = Raise e.
Proof. exact (@square_fails). Qed.
Print Assumptions C75_machine_fails.
Theorem C75_machine_frequency :
  forall (n : nat) (f d : td),
  usual_dimension f d ->
  (0 < n)%nat ->
  (Z.of_nat n <= 2 ^ 53)%Z -> square_frequency64 n d = Ok (round_half_even (ps d) (Z.of_nat n)).
Proof. exact (@frequency_agrees). Qed.
Print Assumptions C75_machine_frequency.
Theorem C75_machine_step :
  forall (n : nat) (f d : td) (a b : Z),
  usual_dimension f d ->
  (0 <= a)%Z ->
  (0 < b)%Z ->
  ((ps d - ps f) * b)%Z = (a * ps d)%Z ->
  (Z.of_nat n * a < 2 ^ 51)%Z ->
  (Z.of_nat n <= 2 ^ 53)%Z ->
  let e := (Z.of_nat n * (ps d - ps f) / ps d)%Z in
  square_step64 n f d = Ok e \/
  ((Z.of_nat n * a) mod b)%Z = 0%Z /\ square_step64 n f d = Ok (e - 1)%Z.
Proof. exact (@step_cases). Qed.
Print Assumptions C75_machine_step.
Theorem C75_machine_step_half :
  forall (n : nat) (f d : td),
  (0 < ps f)%Z ->
  ps d = (2 * ps f)%Z ->
  (ps d < 2 ^ 52)%Z -> (Z.of_nat n < 2 ^ 53)%Z -> square_step64 n f d = Ok (Z.of_nat n / 2)%Z.
Proof. exact (@step_half). Qed.
Print Assumptions C75_machine_step_half.
Theorem C75_machine_step_refuted :
  square_step64 22 (picoseconds (7 * 22675736)) (picoseconds (22 * 22675736)) = Ok 14%Z /\
  (22 * (22 - 7) / 22)%Z = 15%Z /\
  square_step64 49 (picoseconds (48 * 22675736)) (picoseconds (49 * 22675736)) = Ok 0%Z /\
  (49 * (49 - 48) / 49)%Z = 1%Z.
Proof. exact (@step_refuted). Qed.
Print Assumptions C75_machine_step_refuted.
Theorem C75_machine_length :
  forall (rows n : nat) (f d : td) (a b : Z),
  usual_dimension f d ->
  (0 <= a)%Z ->
  (0 < b)%Z ->
  ((ps d - ps f) * b)%Z = (a * ps d)%Z ->
  ((Z.of_nat rows + Z.of_nat n) * a < 2 ^ 48)%Z ->
  (Z.of_nat rows + Z.of_nat n <= 2 ^ 53)%Z ->
  (2 * (((Z.of_nat rows + Z.of_nat n) * a) mod b))%Z <> b ->
  square_length64 rows n f d =
  Ok (round_half_even (Z.of_nat rows * (ps d - ps f) + Z.of_nat n * (ps d - ps f)) (ps d)).
Proof. exact (@length_exact). Qed.
Print Assumptions C75_machine_length.
Theorem C75_machine_length_half :
  forall (rows n : nat) (f d : td),
  (0 < ps f)%Z ->
  ps d = (2 * ps f)%Z ->
  (ps d < 2 ^ 52)%Z ->
  (Z.of_nat rows + Z.of_nat n < 2 ^ 52)%Z ->
  square_length64 rows n f d =
  Ok (round_half_even (Z.of_nat rows * (ps d - ps f) + Z.of_nat n * (ps d - ps f)) (ps d)).
Proof. exact (@length_half). Qed.
Print Assumptions C75_machine_length_half.
Theorem C75_machine_meets :
  usual_dimension (picoseconds (512 * 22675736)) (picoseconds (1024 * 22675736)) /\
  square_step64 22 (picoseconds (512 * 22675736)) (picoseconds (1024 * 22675736)) = Ok 11%Z /\
  square_length64 44 22 (picoseconds (7 * 22675736)) (picoseconds (22 * 22675736)) = Ok 45%Z.
Proof. exact (@square_meets). Qed.
Print Assumptions C75_machine_meets.

