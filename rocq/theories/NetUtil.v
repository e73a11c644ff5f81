(** Model of zounds/learn/util.py (normalisations, sizes, chunked application), gated.py,
    multiresolution.py and sinclayer.py over the reals. *)
From Verif Require Import PyBase PyMore Spectral Loss.
From Coq Require Import Reals QArith ZArith Lra.
Local Open Scope R_scope.

(** util.py:112-126 sample_norm, one item of channels x positions: the divisor at a position *)
Definition pixel (x : list (list R)) (j : nat) : R :=
  sqrt (rsum (length x) (fun c => at_ (nth c x []) j * at_ (nth c x []) j) * (1 / INR (length x)) + 1 / 10 ^ 7).
Definition sample_norm (x : list (list R)) : list (list R) :=
  map (fun row => map (fun j => at_ row j / pixel x j) (seq 0 (length row))) x.
(** the same on batch x channels x height x width, which [view(-1, 1, width)] turns into
    (batch * height) x 1 x width: the shapes must broadcast.  The result is the number of
    channels and the values. *)
Definition pixel_2d (channels : nat) (x : nat -> nat -> nat -> nat -> R) (b h w : nat) : R :=
  sqrt (rsum channels (fun c => x b c h w * x b c h w) * (1 / INR channels) + 1 / 10 ^ 7).
Definition sample_norm_2d (batch channels height : nat) (x : nat -> nat -> nat -> nat -> R) : result (nat * (nat -> nat -> nat -> nat -> R)) :=
  let k := (batch * height)%nat in
  if negb (Nat.eqb channels k || Nat.eqb k 1 || Nat.eqb channels 1)%bool then Raise RuntimeError
  else Ok (if Nat.eqb channels 1 then k else channels,
           fun b c h w => let i := if Nat.eqb k 1 then O else c in
                          x b (if Nat.eqb channels 1 then O else c) h w / pixel_2d channels x (i / height) (i mod height) w).

(** util.py:129-135, one item, flattened *)
Definition batchwise_unit_norm (epsilon : R) (x : list R) : list R := map (fun v => v / (euclid x + epsilon)) x.
(** torch: Tensor.std, with n - 1; not-a-number for a single element *)
Definition std (x : list R) : option R :=
  if Nat.leb (length x) 1 then None
  else Some (sqrt (rsum (length x) (fun i => (at_ x i - mean x) * (at_ x i - mean x)) / INR (length x - 1))).
(** util.py:138-144, one item, flattened *)
Definition batchwise_mean_std (epsilon : R) (x : list R) : option (list R) :=
  let y := map (fun v => v - mean x) x in
  match std y with None => None | Some s => Some (map (fun v => v / (s + epsilon)) y) end.

(** util.py:147-148; division in Python 3 is exact here *)
Definition feature_map_size (inp kernel stride padding : Z) : Q := (inject_Z (inp - kernel + 2 * padding) / inject_Z stride + 1)%Q.

(** util.py:92-109; [network] is called on the whole batch or on slices of it.  No chunks is
    np.concatenate's ValueError, a chunk size of 0 range's. *)
Fixpoint starts (fuel i n step : nat) : list nat :=
  match fuel with
  | O => []
  | S m => if Nat.ltb i n then i :: starts m (i + step) n step else []
  end.
Definition apply_network {A B} (network : list A -> result (list B)) (x : list A) (chunksize : option nat) : result (list B) :=
  match chunksize with
  | None => network x
  | Some c =>
      if Nat.eqb c 0 then Raise ValueError
      else do parts <- mapM (fun i => network (firstn c (skipn i x))) (starts (length x) 0 (length x) c);
           match parts with [] => Raise ValueError | _ => Ok (concat parts) end
  end.

(** torch: F.sigmoid *)
Definition sigmoid (x : R) : R := / (1 + exp (- x)).
(** gated.py:11-12, 43-49 with the default functions, one output *)
Definition gated (c g : R) : R := tanh c * sigmoid g.

(** torch: the length of the output of a convolution *)
Definition conv_size (inp kernel stride padding : nat) : nat := ((inp + 2 * padding - kernel) / stride + 1)%nat.
(** multiresolution.py:21-41: the lengths of the results, with the default padding *)
Definition multiresolution_sizes (inp stride : nat) (kernel_sizes : list nat) : list nat :=
  map (fun k => conv_size inp k stride (k / 2)) kernel_sizes.

(** ** sinclayer.py *)
(** sinclayer.py:54-58; division by zero ([None]) is an error for Python's floats and infinity,
    so a filter of not-a-numbers, for numpy's *)
Definition filter_parameters (sr : R) (band : R * R) : option (R * R) :=
  if Req_EM_T (fst band) 0 then None
  else if Req_EM_T (snd band) 0 then None
  else Some (sr / fst band, sr / snd band).
(** sinclayer.py:66-71 *)
Definition start_frequency (p : R * R) : R := Rabs (fst p).
Definition stop_frequency (p : R * R) : R := start_frequency p + Rabs (snd p - start_frequency p).
(** torch: linspace(-pi, pi, taps)[i] *)
Definition grid (taps i : nat) : R := - PI + INR i * (2 * PI / INR (taps - 1)).
(** sinclayer.py:62-64; 0/0 is not-a-number ([None]) *)
Definition sinc (x : R) : option R := if Req_EM_T x 0 then None else Some (sin x / x).
(** torch: hamming_window(taps)[i], periodic *)
Definition hamming (taps i : nat) : R := 54 / 100 - 46 / 100 * cos (2 * PI * INR i / INR taps).
(** sinclayer.py:73-82, one filter *)
Definition sinc_filter (taps : nat) (p : R * R) : list (option R) :=
  map (fun i => match sinc (grid taps i * stop_frequency p), sinc (grid taps i * start_frequency p) with
                | Some a, Some b => Some ((2 * stop_frequency p * a - 2 * start_frequency p * b) * hamming taps i)
                | _, _ => None
                end) (seq 0 taps).
