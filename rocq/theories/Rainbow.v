(** Model of rainbowgram (zounds/spectral/functional.py:247-269) over the reals: the picture of
    a time-frequency representation of [f] bins, given as its frames.  Units: the dimensions of
    the representation are kept and an IdentityDimension is appended, here the innermost list.
    numpy's angle is TimeStretch.angle. *)
From Verif Require Import PyBase PyMore Spectral TimeStretch.
From Coq Require Import Reals Lra.
Local Open Scope R_scope.

(** ** numpy *)
(** np.mod of reals, for a positive modulus *)
Definition np_mod (x m : R) : R := x - m * IZR (Int_part (x / m)).
(** np.unwrap with its default discont = pi, along one column: what is added from one value to the next *)
Definition unwrap_correct (a b : R) : R :=
  let dd := b - a in
  let ddmod := np_mod (dd + PI) (2 * PI) - PI in
  let ddmod := if Req_EM_T ddmod (- PI) then (if Rlt_dec 0 dd then PI else ddmod) else ddmod in
  if Rlt_dec (Rabs dd) PI then 0 else ddmod - dd.
Definition unwrapped (p : nat -> R) (t : nat) : R := p t + rsum t (fun s => unwrap_correct (p s) (p (S s))).
(** np.gradient with unit spacing along an axis of [n >= 2] values *)
Definition gradient (n : nat) (p : nat -> R) (t : nat) : R :=
  if Nat.eqb t 0 then p 1%nat - p 0%nat
  else if Nat.eqb t (n - 1) then p t - p (t - 1)%nat
  else (p (S t) - p (t - 1)%nat) / 2.

(** ** rainbowgram *)
Definition coeff (tf : list (list cplx)) (t k : nat) : cplx := nth k (nth t tf []) (0, 0).
Definition grid (n f : nat) (v : nat -> nat -> R) : list R := flat_map (fun t => map (v t) (seq 0 f)) (seq 0 n).
(** functional.py:248-252; [None] is not-a-number everywhere *)
Definition brightness (n f : nat) (tf : list (list cplx)) : option (list R) :=
  unit_scale (grid n f (fun t k => log_modulus (Rabs (fst (coeff tf t k)) * 1000))).
(** functional.py:254-257: np.gradient derives along every axis, hence needs two values along each;
    [0] is the derivative along time *)
Definition hue (n f : nat) (tf : list (list cplx)) : option (list R) :=
  unit_scale (grid n f (fun t k => gradient n (unwrapped (fun s => angle (coeff tf s k))) t)).
(** one entry of what [unit_scale] returned *)
Definition entry (v : option (list R)) (i : nat) : option R := option_map (fun l => at_ l i) v.
(** functional.py:247-269 on [n] frames of [f] bins: [colormap] gives red, green, blue (and
    perhaps alpha) of a number, [None] being not-a-number.  Result: for each frame and bin the
    three colours, [None] being not-a-number *)
Definition rainbowgram (colormap : option R -> list R) (f : nat) (tf : list (list cplx)) : result (list (list (list (option R)))) :=
  let n := length tf in
  (** an empty minimum, in unit_scale *)
  if Nat.eqb (n * f) 0 then Raise ValueError
  else if (Nat.ltb n 2 || Nat.ltb f 2)%bool then Raise ValueError
  else Ok (map (fun t => map (fun k =>
    map (fun c => match entry (brightness n f tf) (t * f + k) with Some b => Some (c * b) | None => None end)
      (firstn 3 (colormap (entry (hue n f tf) (t * f + k))))) (seq 0 f)) (seq 0 n)).
(** gan_experiment.py:112, before the picture of a sound is made: [samples / np.abs(samples.max())];
    division by zero gives no number ([None]) *)
Definition experiment_scale (samples : list R) : result (option (list R)) :=
  match samples with
  | [] => Raise ValueError
  | _ => let m := Rabs (rmax samples) in if Req_EM_T m 0 then Ok None else Ok (Some (map (fun v => v / m) samples))
  end.
