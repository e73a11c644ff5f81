(** Property theorems: filter banks and the auto-correlogram (C89). *)
From Coq Require Import Reals ZArith.
From Verif Require Import PyBase PyFacts PyMore Time Spectral TransformProofs Loss NetUtil NetUtilProofs FilterBank FilterBankProofs FilterBankProofs2.
Import ListNotations.
Local Open Scope R_scope.

(** C89: morlet filters *)
Theorem C89_bank_factors :
  forall (sr : Z) (K : nat) (centers : list R) (f : scaling) (norm : bool),
  morlet_filter_bank sr K centers f norm =
  match f with
  | One s =>
      Ok
        (map (fun c : R => (if norm then unit_row else fun r : list R => r) (band_filter sr K c s))
           centers)
  | PerBand l =>
      if length l =? length centers
      then
       Ok
         (map
            (fun cs : R * R =>
             (if norm then unit_row else fun r : list R => r) (band_filter sr K (fst cs) (snd cs)))
            (combine centers l))
      else Raise ValueError
  end.
Proof. exact (@bank_factors). Qed.
Print Assumptions C89_bank_factors.
Theorem C89_morlet_length :
  forall (M : nat) (w s : R), length (morlet_real M w s) = M.
Proof. exact (@morlet_length). Qed.
Print Assumptions C89_morlet_length.
Theorem C89_morlet_value :
  forall (sr : Z) (K : nat) (c s : R) (n : nat),
  (2 <= K)%nat ->
  (n < K)%nat ->
  s <> 0 ->
  (0 < sr)%Z ->
  let w := c / (s * 2 * IZR sr / INR K) in
  let f := c * (INR K / INR (K - 1)) in
  let t := from_middle K n in
  at_ (band_filter sr K c s) n =
  (cos (2 * PI * f * (t / IZR sr)) - exp (- w ^ 2 / 2)) *
  exp (- (4 * PI * s * t / INR (K - 1)) ^ 2 / 2) * Rpower PI (- / 4).
Proof. exact (@morlet_value). Qed.
Print Assumptions C89_morlet_value.
Theorem C89_carrier_offset :
  forall (c : R) (K : nat), (2 <= K)%nat -> c * (INR K / INR (K - 1)) - c = c / INR (K - 1).
Proof. exact (@carrier_offset). Qed.
Print Assumptions C89_carrier_offset.
Theorem C89_carrier_refuted :
  let K := 3%nat in
  let c := 2000 in
  let sr := 12000%Z in
  from_middle K 2 = 1 /\
  cos (2 * PI * c * (1 / IZR sr)) = / 2 /\
  (exists e : R,
     at_ (band_filter sr K c 1) 2 = (0 - exp (- (/ 4) ^ 2 / 2)) * e /\
     0 < e /\ at_ (band_filter sr K c 1) 2 <> (/ 2 - exp (- (/ 4) ^ 2 / 2)) * e).
Proof. exact (@carrier_refuted). Qed.
Print Assumptions C89_carrier_refuted.
Theorem C89_morlet_symmetric :
  forall (sr : Z) (K : nat) (c s : R) (n : nat),
  (n < K)%nat -> at_ (band_filter sr K c s) (K - 1 - n) = at_ (band_filter sr K c s) n.
Proof. exact (@morlet_symmetric). Qed.
Print Assumptions C89_morlet_symmetric.
Theorem C89_unit_norm :
  forall row : list R,
  length (unit_row row) = length row /\
  euclid (unit_row row) = euclid row / (euclid row + / 10 ^ 8) /\
  euclid (unit_row row) < 1 /\
  (0 < euclid row -> 1 - euclid (unit_row row) < / 10 ^ 8 / euclid row).
Proof. exact (@unit_norm). Qed.
Print Assumptions C89_unit_norm.
Theorem C89_envelope_narrows :
  forall (K : nat) (s s' t : R),
  (2 <= K)%nat ->
  0 < s < s' ->
  t <> 0 ->
  exp (- (4 * PI * s' * t / INR (K - 1)) ^ 2 / 2) < exp (- (4 * PI * s * t / INR (K - 1)) ^ 2 / 2).
Proof. exact (@envelope_narrows). Qed.
Print Assumptions C89_envelope_narrows.
Theorem C89_bank_example :
  exists bank : list (list R),
    morlet_filter_bank 11025 512 [440; 880] (One (1 / 4)) true = Ok bank /\
    length bank = 2%nat /\ Forall (fun f : list R => length f = 512%nat) bank.
Proof. exact (@bank_example). Qed.
Print Assumptions C89_bank_example.

(** C89: FilterBank *)
Theorem C89_convolve :
  forall (bank : list (list R)) (K : nat) (x : list R),
  Forall (fun f : list R => length f = K) bank ->
  (0 < K <= length x + 2 * (K / 2))%nat ->
  exists y : list (list R),
    convolve bank K x = Ok y /\
    length y = length bank /\
    (forall b : nat,
     (b < length bank)%nat ->
     length (nth b y []) = (if Nat.even K then (length x + 1)%nat else length x) /\
     (forall j : nat,
      (j < length (nth b y []))%nat ->
      at_ (nth b y []) j =
      rsum K
        (fun k : nat => at_ (nth b bank []) k * ext x (Z.of_nat j + Z.of_nat k - Z.of_nat (K / 2))))).
Proof. exact (@convolve_spec). Qed.
Print Assumptions C89_convolve.
Theorem C89_convolve_refuses :
  forall (bank : list (list R)) (K : nat) (x : list R),
  (length x + 2 * (K / 2) < K)%nat -> convolve bank K x = Raise RuntimeError.
Proof. exact (@convolve_refuses). Qed.
Print Assumptions C89_convolve_refuses.
Theorem C89_convolve_is_convolution :
  forall (f x : list R) (h j : nat),
  length f = (2 * h + 1)%nat ->
  (forall n : nat, (n < 2 * h + 1)%nat -> at_ f (2 * h - n) = at_ f n) ->
  (j < length x)%nat ->
  at_ (conv1d h f x) j =
  rsum (2 * h + 1) (fun k : nat => at_ f k * ext x (Z.of_nat j - (Z.of_nat k - Z.of_nat h))).
Proof. exact (@convolve_is_convolution). Qed.
Print Assumptions C89_convolve_is_convolution.
Theorem C89_transposed_adjoint :
  forall (bank : list (list R)) (K : nat) (x : list R) (y z : list (list R)),
  Forall (fun f : list R => length f = K) bank ->
  (0 < K)%nat ->
  (0 < length x)%nat ->
  convolve bank K x = Ok z ->
  let m := if Nat.even K then (length x + 1)%nat else length x in
  length (transposed_convolve bank K m y) = length x /\
  rsum (length bank)
    (fun b : nat => rsum m (fun j : nat => at_ (nth b z []) j * at_ (nth b y []) j)) =
  rsum (length x) (fun i : nat => at_ x i * at_ (transposed_convolve bank K m y) i).
Proof. exact (@transposed_adjoint). Qed.
Print Assumptions C89_transposed_adjoint.
Theorem C89_log_magnitude :
  forall v v' : R,
  (v <= 0 -> log_magnitude1 v = 0) /\
  (0 < v -> 0 < log_magnitude1 v) /\
  (0 <= v -> Rpower 10 (log_magnitude1 v / 20) = 1 + v) /\
  (0 <= v < v' -> log_magnitude1 v < log_magnitude1 v').
Proof. exact (@log_magnitude_spec). Qed.
Print Assumptions C89_log_magnitude.
Theorem C89_pool :
  forall (k s : nat) (row : list R),
  (0 < k <= length row + 2 * (k / 2))%nat ->
  (0 < s)%nat ->
  length (pool1 k s row) = ((length row + 2 * (k / 2) - k) / s + 1)%nat /\
  (forall j : nat,
   (j < length (pool1 k s row))%nat ->
   at_ (pool1 k s row) j =
   rsum k (fun m : nat => ext row (Z.of_nat (j * s) - Z.of_nat (k / 2) + Z.of_nat m)) / INR k).
Proof. exact (@pool_spec). Qed.
Print Assumptions C89_pool.
Theorem C89_pool_edge_refuted :
  forall (k s n : nat) (c : R),
  (2 <= k)%nat ->
  (k <= n)%nat ->
  (0 < s)%nat ->
  c <> 0 ->
  at_ (pool1 k s (repeat c n)) 0 = c * (INR (k - k / 2) / INR k) /\
  at_ (pool1 k s (repeat c n)) 0 <> c.
Proof. exact (@pool_edge_refuted). Qed.
Print Assumptions C89_pool_edge_refuted.
Theorem C89_transform :
  forall (bank : list (list R)) (K : nat) (fr : Z) (k s : nat) (x : list R),
  Forall (fun f : list R => length f = K) bank ->
  (0 < K <= length x + 2 * (K / 2))%nat ->
  (2 <= length bank)%nat ->
  (0 < k)%nat ->
  (0 < s)%nat ->
  let m := if Nat.even K then (length x + 1)%nat else length x in
  (k + s <= m + 2 * (k / 2))%nat ->
  exists rows : list (list R),
    transform bank K fr k s x = Ok ((fr * Z.of_nat s)%Z, (fr * Z.of_nat k)%Z, rows) /\
    length rows = ((m + 2 * (k / 2) - k) / s + 1)%nat /\
    (forall t : nat,
     (t < length rows)%nat ->
     length (nth t rows []) = length bank /\
     (forall b : nat,
      (b < length bank)%nat ->
      at_ (nth t rows []) b =
      rsum k
        (fun i : nat =>
         ext (map log_magnitude1 (conv1d (K / 2) (nth b bank []) x))
           (Z.of_nat (t * s) - Z.of_nat (k / 2) + Z.of_nat i)) / INR k)).
Proof. exact (@transform_spec). Qed.
Print Assumptions C89_transform.
Theorem C89_transform_single_refuted :
  forall (K : nat) (fr : Z) (k s : nat) (f x : list R),
  length f = K ->
  (0 < K <= length x + 2 * (K / 2))%nat -> transform [f] K fr k s x = Raise ValueError.
Proof. exact (@transform_single_refuted). Qed.
Print Assumptions C89_transform_single_refuted.
Theorem C89_transform_early_refuted :
  exists rows : list (list R),
    transform [[1]; [1]] 1 1 2 2 [0; 1; 0; 0] = Ok (2%Z, 2%Z, rows) /\
    at_ (nth 0 rows []) 0 = 0 /\ at_ (nth 1 rows []) 0 > 0.
Proof. exact (@transform_early_refuted). Qed.
Print Assumptions C89_transform_early_refuted.
Theorem C89_forward_plain :
  forall (bank : list (list R)) (K : nat) (x : list R) (y : list (list R)),
  convolve bank K x = Ok y ->
  forward bank K x false =
  Ok (Some (map (fun r : list R => firstn (length x) (map log_magnitude1 r)) y)).
Proof. exact (@forward_plain). Qed.
Print Assumptions C89_forward_plain.
Theorem C89_forward_normalized :
  forall (bank : list (list R)) (K : nat) (x : list R) (y : list (list R)),
  convolve bank K x = Ok y ->
  Forall (fun f : list R => length f = K) bank ->
  (0 < K <= length x + 2 * (K / 2))%nat ->
  let m := if Nat.even K then (length x + 1)%nat else length x in
  let all := concat (log_magnitude y) in
  (2 <= length bank * m)%nat ->
  exists (sd : R) (z : list (list R)),
    std all = Some sd /\
    forward bank K x true = Ok (Some z) /\
    length z = length bank /\
    length all = (length bank * m)%nat /\
    (forall b j : nat,
     (b < length bank)%nat ->
     (j < m)%nat -> at_ all (b * m + j) = log_magnitude1 (at_ (nth b y []) j)) /\
    (forall b : nat,
     (b < length bank)%nat ->
     length (nth b z []) = length x /\
     (forall j : nat,
      (j < length x)%nat ->
      at_ (nth b z []) j = (log_magnitude1 (at_ (nth b y []) j) - mean all) / (sd + / 10 ^ 8))).
Proof. exact (@forward_normalized). Qed.
Print Assumptions C89_forward_normalized.
Theorem C89_forward_odd_mean :
  forall (bank : list (list R)) (K : nat) (x : list R) (y z : list (list R)),
  convolve bank K x = Ok y ->
  Forall (fun f : list R => length f = K) bank ->
  (0 < K <= length x + 2 * (K / 2))%nat ->
  Nat.even K = false ->
  (2 <= length bank * length x)%nat ->
  forward bank K x true = Ok (Some z) ->
  rsum (length bank) (fun b : nat => rsum (length x) (fun j : nat => at_ (nth b z []) j)) = 0.
Proof. exact (@forward_odd_mean). Qed.
Print Assumptions C89_forward_odd_mean.
Theorem C89_forward_even_refuted :
  exists z : list (list R),
    forward [[1; 1]] 2 [1; 1] true = Ok (Some z) /\ at_ (nth 0 z []) 0 + at_ (nth 0 z []) 1 > 0.
Proof. exact (@forward_even_refuted). Qed.
Print Assumptions C89_forward_even_refuted.

(** C89: FIR filters *)
Theorem C89_fir_request :
  forall (nyq lo hi : R) (win : list R),
  0 < nyq ->
  lo < nyq ->
  0 < hi ->
  lo < hi ->
  let a := Rmax 0 lo in
  let b := Rmin nyq hi in
  let
  '(freqs, gains) := fir_request nyq lo hi win in
   firwin2_accepts freqs gains = true /\
   length freqs = (length win + 2)%nat /\
   hd 1 gains = 0 /\
   last gains 1 = 0 /\
   (forall k : nat,
    (k < length win)%nat ->
    nth (S k) freqs 0 = (a + INR k * ((b - a) / INR (length win))) / nyq /\
    nth (S k) gains 0 = nth k win 0 /\ 0 <= nth (S k) freqs 0 < b / nyq).
Proof. exact (@fir_request_spec). Qed.
Print Assumptions C89_fir_request.
Theorem C89_fir_above_nyquist :
  forall (nyq lo hi : R) (win : list R),
  0 < nyq ->
  nyq < lo ->
  lo < hi ->
  win <> [] ->
  let '(freqs, gains) := fir_request nyq lo hi win in firwin2_accepts freqs gains = false.
Proof. exact (@fir_above_nyquist). Qed.
Print Assumptions C89_fir_above_nyquist.
Theorem C89_fir_requests :
  forall (nyq : R) (bands : list (R * R)) (w : windows),
  let ws := match w with
            | Shared v => repeat v (length bands)
            | Each l => l
            end in
  length (fir_requests nyq bands w) = Nat.min (length bands) (length ws) /\
  (forall (i : nat) (b : R * R) (v : list R),
   nth_error bands i = Some b ->
   nth_error ws i = Some v ->
   nth_error (fir_requests nyq bands w) i = Some (fir_request nyq (fst b) (snd b) v)).
Proof. exact (@fir_requests_spec). Qed.
Print Assumptions C89_fir_requests.

(** C89: auto_correlogram *)
Theorem C89_correlate :
  forall (W : nat) (s : list R),
  length s = W ->
  (0 < W)%nat ->
  length (correlate W s) = (2 * W)%nat /\
  (forall j : nat,
   (j < 2 * W)%nat ->
   nth j (correlate W s) (0, 0) =
   (autocorrelation s (Z.of_nat j - Z.of_nat W) / sqrt (INR (2 * W)), 0)).
Proof. exact (@correlate_spec). Qed.
Print Assumptions C89_correlate.
Theorem C89_auto_correlogram :
  forall (bank : list (list R)) (K : nat) (fr cw : Z) (x : list R),
  (0 < fr)%Z ->
  (fr <= cw)%Z ->
  (0 < K)%nat ->
  let W := Z.to_nat (cw / fr) in
  (K + W <= length x + 1)%nat ->
  exists out : list (list (list cplx)),
    auto_correlogram bank K fr cw x = Ok out /\
    length out = (length x + 2 - K - W)%nat /\
    (forall t b : nat,
     (t < length out)%nat ->
     (b < length bank)%nat ->
     length (nth b (nth t out []) []) = (2 * W)%nat /\
     (forall j : nat,
      (j < 2 * W)%nat ->
      nth j (nth b (nth t out []) []) (0, 0) =
      (rsum W
         (fun m : nat =>
          let band := fun u : nat => rsum K (fun k : nat => at_ x (u + k) * at_ (nth b bank []) k)
            in
          let u := (Z.of_nat m + (Z.of_nat j - Z.of_nat W))%Z in
          band (t + m)%nat *
          (if (0 <=? u)%Z && (u <? Z.of_nat W)%Z then band (t + Z.to_nat u)%nat else 0)) /
       sqrt (INR (2 * W)), 0))).
Proof. exact (@auto_correlogram_spec). Qed.
Print Assumptions C89_auto_correlogram.
Theorem C89_auto_correlogram_refuses :
  forall (bank : list (list R)) (K : nat) (fr cw : Z) (x : list R),
  (0 < fr)%Z ->
  (0 <= cw)%Z ->
  (0 < K)%nat ->
  (length x + 1 < K + Z.to_nat (cw / fr))%nat \/ (length x < K)%nat ->
  auto_correlogram bank K fr cw x = Raise ValueError.
Proof. exact (@auto_correlogram_refuses). Qed.
Print Assumptions C89_auto_correlogram_refuses.
Theorem C89_autocorrelation_symmetric :
  forall (s : list R) (d : Z), autocorrelation s (- d) = autocorrelation s d.
Proof. exact (@autocorrelation_sym). Qed.
Print Assumptions C89_autocorrelation_symmetric.
Theorem C89_correlogram_example :
  exists out : list (list (list cplx)),
    auto_correlogram [[1; 1]] 2 1 2 [1; 2; 3; 4] = Ok out /\
    length out = 2%nat /\ nth 2 (nth 0 (nth 0 out []) []) (0, 0) = ((3 * 3 + 5 * 5) / 2, 0).
Proof. exact (@correlogram_example). Qed.
Print Assumptions C89_correlogram_example.

