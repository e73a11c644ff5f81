(** C105: what a rainbowgram shows. *)
From Verif Require Import PyBase PyMore Spectral TimeStretch Rainbow RainbowProofs.
From Coq Require Import Reals.
Local Open Scope R_scope.
Theorem C105_picture :
  forall (colormap : option R -> list R) (f : nat) (tf : list (list cplx)),
  (2 <= length tf)%nat ->
  (2 <= f)%nat ->
  exists rows : list (list (list (option R))),
    rainbowgram colormap f tf = Ok rows /\
    length rows = length tf /\
    (forall t k : nat,
     (t < length tf)%nat ->
     (k < f)%nat ->
     length (nth t rows []) = f /\
     length (nth k (nth t rows []) []) =
     Nat.min 3 (length (colormap (entry (hue (length tf) f tf) (t * f + k)))) /\
     (forall c : nat,
      (c < 3)%nat ->
      (c < length (colormap (entry (hue (length tf) f tf) (t * f + k))))%nat ->
      nth c (nth k (nth t rows []) []) None =
      option_map (fun b : R => at_ (colormap (entry (hue (length tf) f tf) (t * f + k))) c * b)
        (entry (brightness (length tf) f tf) (t * f + k)))).
Proof. exact (@picture). Qed.
Print Assumptions C105_picture.
Theorem C105_too_small :
  forall (colormap : option R -> list R) (f : nat) (tf : list (list cplx)),
  (length tf < 2)%nat \/ (f < 2)%nat -> rainbowgram colormap f tf = Raise ValueError.
Proof. exact (@too_small_raises). Qed.
Print Assumptions C105_too_small.
Theorem C105_unwrap_turns :
  forall (p : nat -> R) (t : nat), exists z : Z, unwrapped p t = p t + IZR z * (2 * PI).
Proof. exact (@unwrap_turns). Qed.
Print Assumptions C105_unwrap_turns.
Theorem C105_unwrap_jumps :
  forall (p : nat -> R) (t : nat), Rabs (unwrapped p (S t) - unwrapped p t) <= PI.
Proof. exact (@unwrap_jumps). Qed.
Print Assumptions C105_unwrap_jumps.
Theorem C105_unwrap_recovers :
  forall (p phi : nat -> R) (n : nat),
  (forall t : nat, (t < n)%nat -> exists z : Z, p t = phi t + IZR z * (2 * PI)) ->
  (forall t : nat, (S t < n)%nat -> Rabs (phi (S t) - phi t) < PI) ->
  forall t : nat, (t < n)%nat -> unwrapped p t = phi t + (p 0%nat - phi 0%nat).
Proof. exact (@unwrap_recovers). Qed.
Print Assumptions C105_unwrap_recovers.
Theorem C105_gradient :
  forall (n : nat) (p : nat -> R) (w c : R) (t : nat),
  (t < n)%nat ->
  (2 <= n)%nat -> (forall s : nat, (s < n)%nat -> p s = w * INR s + c) -> gradient n p t = w.
Proof. exact (@gradient_linear). Qed.
Print Assumptions C105_gradient.
Theorem C105_gradient_chirp :
  forall (n : nat) (p : nat -> R) (a b c : R) (t : nat),
  (2 <= n)%nat ->
  (t < n)%nat ->
  (forall s : nat, (s < n)%nat -> p s = a * INR s * INR s + b * INR s + c) ->
  gradient n p t =
  (if t =? 0 then a + b else if t =? n - 1 then a * (2 * INR t - 1) + b else 2 * a * INR t + b).
Proof. exact (@gradient_chirp). Qed.
Print Assumptions C105_gradient_chirp.
Theorem C105_gradient_shift :
  forall (n : nat) (p q : nat -> R) (c : R) (t : nat),
  (t < n)%nat ->
  (2 <= n)%nat -> (forall s : nat, (s < n)%nat -> q s = p s + c) -> gradient n q t = gradient n p t.
Proof. exact (@gradient_shift). Qed.
Print Assumptions C105_gradient_shift.
Theorem C105_unit_scale :
  forall (x : list R) (lo hi : R),
  In lo x ->
  In hi x ->
  (forall v : R, In v x -> lo <= v <= hi) ->
  lo < hi ->
  exists y : list R,
    unit_scale x = Some y /\
    length y = length x /\
    (forall i : nat, (i < length x)%nat -> at_ y i = (at_ x i - lo) / (hi - lo)).
Proof. exact (@unit_scale_value). Qed.
Print Assumptions C105_unit_scale.
Theorem C105_brightness :
  forall (n f : nat) (tf : list (list cplx)) (t1 k1 t2 k2 : nat),
  (t1 < n)%nat ->
  (k1 < f)%nat ->
  (t2 < n)%nat ->
  (k2 < f)%nat ->
  Rabs (fst (coeff tf t1 k1)) <> Rabs (fst (coeff tf t2 k2)) ->
  exists b : list R,
    brightness n f tf = Some b /\
    (forall t k : nat, (t < n)%nat -> (k < f)%nat -> 0 <= at_ b (t * f + k) <= 1) /\
    (forall t k t' k' : nat,
     (t < n)%nat ->
     (k < f)%nat ->
     (t' < n)%nat ->
     (k' < f)%nat ->
     at_ b (t * f + k) <= at_ b (t' * f + k') <->
     Rabs (fst (coeff tf t k)) <= Rabs (fst (coeff tf t' k'))) /\
    (exists t k : nat, (t < n)%nat /\ (k < f)%nat /\ at_ b (t * f + k) = 1) /\
    (exists t k : nat, (t < n)%nat /\ (k < f)%nat /\ at_ b (t * f + k) = 0).
Proof. exact (@brightness_order). Qed.
Print Assumptions C105_brightness.
Theorem C105_brightness_real :
  forall (n f : nat) (tf tf' : list (list cplx)),
  (forall t k : nat,
   (t < n)%nat -> (k < f)%nat -> Rabs (fst (coeff tf t k)) = Rabs (fst (coeff tf' t k))) ->
  brightness n f tf = brightness n f tf'.
Proof. exact (@brightness_real). Qed.
Print Assumptions C105_brightness_real.
Theorem C105_brightness_refuted :
  forall (colormap : option R -> list R) (f : nat) (tf : list (list cplx))
    (rows : list (list (list (option R)))),
  (forall t k : nat,
   (t < length tf)%nat -> (k < f)%nat -> Rabs (fst (coeff tf t k)) = Rabs (fst (coeff tf 0 0))) ->
  rainbowgram colormap f tf = Ok rows ->
  forall (row : list (list (option R))) (px : list (option R)) (c : option R),
  In row rows -> In px row -> In c px -> c = None.
Proof. exact (@brightness_refuted). Qed.
Print Assumptions C105_brightness_refuted.
Theorem C105_hue_advance :
  forall (n f : nat) (tf : list (list cplx)) (r phi : nat -> nat -> R),
  (2 <= n)%nat ->
  polar_form n f tf r phi ->
  hue n f tf = unit_scale (grid n f (fun t k : nat => gradient n (fun s : nat => phi s k) t)).
Proof. exact (@hue_advance). Qed.
Print Assumptions C105_hue_advance.
Theorem C105_hue_steady :
  forall (n f : nat) (tf : list (list cplx)) (r : nat -> nat -> R) (w theta : nat -> R) (lo hi : R),
  (2 <= n)%nat ->
  (forall t k : nat,
   (t < n)%nat ->
   (k < f)%nat ->
   0 < r t k /\
   coeff tf t k = (r t k * cos (w k * INR t + theta k), r t k * sin (w k * INR t + theta k))) ->
  (forall k : nat, (k < f)%nat -> - PI < w k < PI /\ lo <= w k <= hi) ->
  (exists k : nat, (k < f)%nat /\ w k = lo) ->
  (exists k : nat, (k < f)%nat /\ w k = hi) ->
  lo < hi ->
  forall t k : nat,
  (t < n)%nat -> (k < f)%nat -> entry (hue n f tf) (t * f + k) = Some ((w k - lo) / (hi - lo)).
Proof. exact (@hue_steady). Qed.
Print Assumptions C105_hue_steady.
Theorem C105_hue_alike_refuted :
  forall (n f : nat) (tf : list (list cplx)) (r : nat -> nat -> R) (w : R) (theta : nat -> R),
  (2 <= n)%nat ->
  (1 <= f)%nat ->
  (forall t k : nat,
   (t < n)%nat ->
   (k < f)%nat ->
   0 < r t k /\
   coeff tf t k = (r t k * cos (w * INR t + theta k), r t k * sin (w * INR t + theta k))) ->
  - PI < w < PI -> hue n f tf = None.
Proof. exact (@hue_alike_refuted). Qed.
Print Assumptions C105_hue_alike_refuted.
Theorem C105_hue_loudness :
  forall (n f : nat) (tf : list (list cplx)) (c : R),
  0 < c -> hue n f (map (map (cscale c)) tf) = hue n f tf.
Proof. exact (@hue_loudness). Qed.
Print Assumptions C105_hue_loudness.
Theorem C105_example :
  exists rows : list (list (list (option R))),
    rainbowgram
      (fun h : option R => match h with
                           | Some v => [v; 1 - v; 1; 1]
                           | None => [0; 0; 0; 0]
                           end) 2 quarter = Ok rows /\
    entry (hue 3 2 quarter) 2 = Some 0 /\
    entry (hue 3 2 quarter) 3 = Some 1 /\
    entry (brightness 3 2 quarter) 1 = Some 1 /\ entry (brightness 3 2 quarter) 3 = Some 0.
Proof. exact (@quarter_example). Qed.
Print Assumptions C105_example.
Theorem C105_experiment_scale :
  forall x y : list R,
  experiment_scale x = Ok (Some y) ->
  length y = length x /\
  (forall i : nat, (i < length x)%nat -> at_ y i = at_ x i / Rabs (rmax x)) /\
  (0 < rmax x -> rmax y = 1) /\
  ((forall v : R, In v x -> - rmax x <= v) -> forall v : R, In v y -> -1 <= v <= 1).
Proof. exact (@experiment_scale_ok). Qed.
Print Assumptions C105_experiment_scale.
Theorem C105_experiment_scale_refuted :
  forall (x : list R) (i : nat),
  rmax x <> 0 ->
  (i < length x)%nat ->
  at_ x i < - Rabs (rmax x) -> exists y : list R, experiment_scale x = Ok (Some y) /\ at_ y i < -1.
Proof. exact (@experiment_scale_refuted). Qed.
Print Assumptions C105_experiment_scale_refuted.
Theorem C105_experiment_empty :
  experiment_scale [] = Raise ValueError.
Proof. exact (@experiment_scale_empty). Qed.
Print Assumptions C105_experiment_empty.
Theorem C105_experiment_example :
  experiment_scale [/ 2; -1] = Ok (Some [1; -2]).
Proof. exact (@experiment_example). Qed.
Print Assumptions C105_experiment_example.

