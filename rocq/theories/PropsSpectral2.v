(** Property theorems: frequency scales applied to spectra, chroma, weighting (C70-C72). *)
From Verif Require Import PyBase PyFacts PyMore Freq FreqProofs FreqScaleProofs FreqDim FreqDimProofs ScaleBasis ScaleBasisProofs ChromaProofs Weighting WeightingProofs.
From Coq Require Import Reals.
Local Open Scope R_scope.

(** C70: [picked q bs row] are the entries of [row] whose band, in [bs], the band [q]
    touches; [window_is w g] says that the window [w] times n ones is [g n]. *)
Theorem C70_apply_slices :
  forall (self other : scale) (w : win) (g : nat -> list R) (x : list (list R)),
  well_formed self ->
  well_formed other ->
  window_is w g ->
  Forall (fun r : list R => length r = scale_len other) x ->
  exists (qs : list band) (out : list (list R)),
    scale_bands self = Ok qs /\
    length qs = scale_len self /\
    scale_apply self other w x = Ok out /\
    length out = length x /\
    (forall (t : nat) (row : list R),
     nth_error x t = Some row ->
     exists orow : list R,
       nth_error out t = Some orow /\
       length orow = scale_len self /\
       (forall (i : nat) (q : band),
        nth_error qs i = Some q ->
        exists sl : pyslice,
          get_slice other (IBand q) = Ok sl /\
          nth_error orow i = Some (dot (g (length (apply_slice sl row))) (apply_slice sl row)))).
Proof. exact (@apply_spec). Qed.
Print Assumptions C70_apply_slices.
Theorem C70_apply :
  forall (self other : scale) (w : win) (g : nat -> list R) (x : list (list R)),
  well_formed self ->
  well_formed other ->
  scale_even other = false ->
  window_is w g ->
  Forall (fun r : list R => length r = scale_len other) x ->
  exists (qs bs : list band) (out : list (list R)),
    scale_bands self = Ok qs /\
    scale_bands other = Ok bs /\
    scale_apply self other w x = Ok out /\
    (forall (t : nat) (row : list R) (i : nat) (q : band),
     nth_error x t = Some row ->
     nth_error qs i = Some q ->
     exists orow : list R,
       nth_error out t = Some orow /\
       nth_error orow i = Some (dot (g (length (picked q bs row))) (picked q bs row))).
Proof. exact (@apply_touched). Qed.
Print Assumptions C70_apply.
Theorem C70_local :
  forall (self other : scale) (w : win) (g : nat -> list R) (x y : list (list R)),
  well_formed self ->
  well_formed other ->
  scale_even other = false ->
  window_is w g ->
  Forall (fun r : list R => length r = scale_len other) x ->
  Forall (fun r : list R => length r = scale_len other) y ->
  exists (qs bs : list band) (ox oy : list (list R)),
    scale_bands self = Ok qs /\
    scale_bands other = Ok bs /\
    scale_apply self other w x = Ok ox /\
    scale_apply self other w y = Ok oy /\
    (forall (t : nat) (rx ry : list R) (i : nat) (q : band),
     nth_error x t = Some rx ->
     nth_error y t = Some ry ->
     nth_error qs i = Some q ->
     (forall (k : nat) (b : band),
      nth_error bs k = Some b -> touched q b = true -> nth_error rx k = nth_error ry k) ->
     exists ax ay : list R,
       nth_error ox t = Some ax /\ nth_error oy t = Some ay /\ nth_error ax i = nth_error ay i).
Proof. exact (@apply_local). Qed.
Print Assumptions C70_local.
Theorem C70_window_scalar :
  forall r : R, window_is (WScalar r) (repeat r).
Proof. exact (@window_scalar). Qed.
Print Assumptions C70_window_scalar.
Theorem C70_window_identity :
  window_is WIdentity (repeat 1).
Proof. exact (@window_identity). Qed.
Print Assumptions C70_window_identity.
Theorem C70_window_function :
  forall (f : nat -> result (list R)) (g : nat -> list R),
  (forall n : nat, f n = Ok (g n) /\ length (g n) = n) -> window_is (WFunc f) g.
Proof. exact (@window_func). Qed.
Print Assumptions C70_window_function.
Theorem C70_window_single :
  forall (f : nat -> result (list R)) (r : R),
  (forall n : nat, f n = Ok [r]) -> window_is (WFunc f) (repeat r).
Proof. exact (@window_single). Qed.
Print Assumptions C70_window_single.
Theorem C70_window_misfit :
  forall (f : nat -> result (list R)) (n : nat) (v : list R),
  f n = Ok v -> length v <> n -> length v <> 1%nat -> win_ones (WFunc f) n = Raise ValueError.
Proof. exact (@window_misfit). Qed.
Print Assumptions C70_window_misfit.
Theorem C70_bark_bands :
  forall (fb : band) (n : nat) (other : scale) (w : win) (g : nat -> list R)
    (x : list (list (R * R))),
  well_formed (BarkS fb n) ->
  well_formed other ->
  scale_even other = false ->
  window_is w g ->
  Forall (fun r : list (R * R) => length r = scale_len other) x ->
  exists (qs bs : list band) (out : list (list R)),
    bark_bands fb n = Ok qs /\
    scale_bands other = Ok bs /\
    bark_bands_node fb n w other x = Ok out /\
    (forall (t : nat) (row : list (R * R)) (i : nat) (q : band),
     nth_error x t = Some row ->
     nth_error qs i = Some q ->
     exists orow : list R,
       nth_error out t = Some orow /\
       (let mags := picked q bs (map (fun z : R * R => sqrt (fst z * fst z + snd z * snd z)) row)
          in
        nth_error orow i = Some (dot (g (length mags)) mags))).
Proof. exact (@bark_bands_spec). Qed.
Print Assumptions C70_bark_bands.
Theorem C70_default_window_refuted :
  forall (self other : scale) (x : list (list (R * R))),
  well_formed self ->
  (1 <= scale_len self)%nat ->
  well_formed other -> apply_scale self other WNone x = Raise TypeError.
Proof. exact (@apply_scale_default_refuted). Qed.
Print Assumptions C70_default_window_refuted.
Theorem C70_real_part_only_refuted :
  forall (self other : scale) (w : win) (g : nat -> list R) (x : list (list (R * R))),
  well_formed self ->
  well_formed other ->
  window_is w g ->
  Forall (fun r : list (R * R) => length r = scale_len other) x ->
  Forall (Forall (fun z : R * R => fst z = 0)) x ->
  apply_scale self other w x = Ok (map (fun _ : list (R * R) => repeat 0 (scale_len self)) x).
Proof. exact (@imaginary_is_silent). Qed.
Print Assumptions C70_real_part_only_refuted.
Theorem C70_real_part :
  forall (self other : scale) (w : win) (x y : list (list (R * R))),
  map (map (fun z : R * R => Rabs (fst z))) x = map (map (fun z : R * R => Rabs (fst z))) y ->
  apply_scale self other w x = apply_scale self other w y.
Proof. exact (@apply_scale_real_part). Qed.
Print Assumptions C70_real_part.
Theorem C70_self_identity_window :
  forall (fb : band) (n : nat) (x : list (list R)),
  proper fb ->
  (2 <= n)%nat ->
  Forall (fun r : list R => length r = n) x ->
  exists out : list (list R),
    scale_apply (Linear fb n false) (Linear fb n false) WIdentity x = Ok out /\
    (forall (t : nat) (row : list R) (i : nat),
     nth_error x t = Some row ->
     (i < n)%nat ->
     exists orow : list R,
       nth_error out t = Some orow /\
       nth_error orow i =
       Some match i with
            | 0%nat => nth 0 row 0
            | S j => nth j row 0 + nth i row 0
            end).
Proof. exact (@self_apply_identity_window). Qed.
Print Assumptions C70_self_identity_window.
Theorem C70_self_hanning :
  forall (fb : band) (n : nat) (x : list (list R)),
  proper fb ->
  (2 <= n)%nat ->
  Forall (fun r : list R => length r = n) x ->
  exists out : list (list R),
    scale_apply (Linear fb n false) (Linear fb n false) (WFunc (fun k : nat => Ok (hanning k))) x =
    Ok out /\
    (forall (t : nat) (row : list R) (i : nat),
     nth_error x t = Some row ->
     (i < n)%nat ->
     exists orow : list R,
       nth_error out t = Some orow /\
       nth_error orow i = Some match i with
                               | 0%nat => nth 0 row 0
                               | S _ => 0
                               end).
Proof. exact (@self_apply_hanning). Qed.
Print Assumptions C70_self_hanning.
Theorem C70_self_refuted :
  exists (fb : band) (n : nat) (row : list R),
    proper fb /\
    (2 <= n)%nat /\
    length row = n /\
    Forall (fun v : R => 0 < v) row /\
    scale_apply (Linear fb n false) (Linear fb n false) (WFunc (fun k : nat => Ok (hanning k)))
      [row] <> Ok [row] /\
    scale_apply (Linear fb n false) (Linear fb n false) WIdentity [row] <> Ok [row].
Proof. exact (@self_apply_refuted). Qed.
Print Assumptions C70_self_refuted.

(** C71: [pitch s] is the frequency s semitones above A 440, [around m] the band one
    semitone to either side of pitch m, [win_at g q bs k] what the window gives bin k *)
Theorem C71_basis :
  forall (fb : band) (other : scale) (w : win) (g : nat -> list R),
  0 < bstart fb ->
  proper fb ->
  well_formed other ->
  scale_even other = false ->
  window_is w g ->
  exists (bs : list band) (basis : list (list R)) (lo hi : Z),
    scale_bands other = Ok bs /\
    nearest_semitone (bstart fb) lo /\
    nearest_semitone (bstop fb) hi /\
    scale_basis (Chroma fb) other w = Ok basis /\
    length basis = 12%nat /\
    Forall (fun r : list R => length r = scale_len other) basis /\
    (forall c k : nat,
     (c < 12)%nat ->
     (k < scale_len other)%nat ->
     nth k (nth c basis []) 0 =
     total
       (map (fun m : Z => win_at g (around m) bs k)
          (filter (fun m : Z => ((m - 1) mod 12 =? Z.of_nat c)%Z)
             (zfrom lo (Z.to_nat (hi - lo - 1)))))).
Proof. exact (@chroma_spec). Qed.
Print Assumptions C71_basis.
Theorem C71_shifted_refuted :
  forall (fb : band) (other : scale) (w : win) (g : nat -> list R),
  0 < bstart fb ->
  proper fb ->
  well_formed other ->
  scale_even other = false ->
  window_is w g ->
  exists (bs : list band) (basis : list (list R)),
    scale_bands other = Ok bs /\
    scale_basis (Chroma fb) other w = Ok basis /\
    (forall (m : Z) (k : nat) (b : band) (c : nat),
     nth_error bs k = Some b ->
     ChromaProofs.between m b ->
     (c < 12)%nat ->
     Z.of_nat c <> ((m - 2) mod 12)%Z ->
     Z.of_nat c <> ((m - 1) mod 12)%Z -> nth k (nth c basis []) 0 = 0).
Proof. exact (@chroma_shifted). Qed.
Print Assumptions C71_shifted_refuted.
Theorem C71_scalar :
  forall (fb : band) (other : scale) (r : R),
  0 < bstart fb ->
  proper fb ->
  well_formed other ->
  scale_even other = false ->
  exists (bs : list band) (basis : list (list R)) (lo hi : Z),
    scale_bands other = Ok bs /\
    nearest_semitone (bstart fb) lo /\
    nearest_semitone (bstop fb) hi /\
    scale_basis (Chroma fb) other (WScalar r) = Ok basis /\
    (forall (m : Z) (k : nat) (b : band),
     nth_error bs k = Some b ->
     ChromaProofs.between m b ->
     ((lo <= m - 1 <= hi - 2)%Z -> nth k (nth (Z.to_nat ((m - 2) mod 12)) basis []) 0 = r) /\
     ((lo <= m <= hi - 2)%Z -> nth k (nth (Z.to_nat ((m - 1) mod 12)) basis []) 0 = r)).
Proof. exact (@chroma_scalar). Qed.
Print Assumptions C71_scalar.
Theorem C71_in_range :
  forall (fb : band) (other : scale) (w : win) (g : nat -> list R),
  0 < bstart fb ->
  proper fb ->
  well_formed other ->
  scale_even other = false ->
  window_is w g ->
  exists (bs : list band) (basis : list (list R)) (lo hi : Z),
    scale_bands other = Ok bs /\
    nearest_semitone (bstart fb) lo /\
    nearest_semitone (bstop fb) hi /\
    scale_basis (Chroma fb) other w = Ok basis /\
    (forall (k : nat) (b : band) (c : nat),
     nth_error bs k = Some b ->
     (c < 12)%nat ->
     bstop b < pitch (lo - 1) \/ pitch (hi - 1) <= bstart b -> nth k (nth c basis []) 0 = 0).
Proof. exact (@chroma_range). Qed.
Print Assumptions C71_in_range.
Theorem C71_no_bands :
  forall (fb : band) (ix : findex) (q : band) (other : scale) (w : win),
  scale_bands (Chroma fb) = Raise NotImplementedError /\
  get_slice (Chroma fb) (IBand q) = Raise NotImplementedError /\
  (forall i : Z, scale_get (Chroma fb) i = Raise NotImplementedError) /\
  scale_slice (Chroma fb) ix = Raise NotImplementedError /\
  scale_len (Chroma fb) = 12%nat /\
  (well_formed other ->
   (1 <= scale_len other)%nat -> scale_basis other (Chroma fb) w = Raise NotImplementedError).
Proof. exact (@chroma_no_bands). Qed.
Print Assumptions C71_no_bands.
Theorem C71_class_refuted :
  exists (fb b : band) (basis : list (list R)),
    0 < bstart fb < bstart b /\
    bstop b < bstop fb /\
    Rabs (bstop b - pitch 0) < Rabs (bstop b - pitch (-1)) /\
    Rabs (bstart b - pitch 0) < Rabs (bstart b - pitch (-1)) /\
    scale_basis (Chroma fb) (Explicit [b]) (WScalar 1) = Ok basis /\
    nth 0 (nth 0 basis []) 0 = 0 /\ nth 0 (nth 11 basis []) 0 = 1 /\ nth 0 (nth 10 basis []) 0 = 1.
Proof. exact (@chroma_class_refuted). Qed.
Print Assumptions C71_class_refuted.
Theorem C71_octave :
  forall s : Z, pitch (s + 12) = 2 * pitch s.
Proof. exact (@pitch_octave). Qed.
Print Assumptions C71_octave.
Theorem C71_pitch_middle :
  forall s : Z, pitch s * pitch s = pitch (s - 1) * pitch (s + 1).
Proof. exact (@pitch_middle). Qed.
Print Assumptions C71_pitch_middle.

(** C72: [a_weight_db f] is the A-weighting in decibels at f Hertz *)
Theorem C72_a_weights :
  forall s : scale,
  well_formed s ->
  off_zero s ->
  (1 <= scale_len s)%nat ->
  exists (bs : list band) (ws : list R),
    scale_bands s = Ok bs /\
    wdata AWeighting s = Ok ws /\
    length ws = scale_len s /\
    Forall (fun x : R => 1 <= x) ws /\
    In 1 ws /\
    (forall (i j : nat) (a b : band) (x y : R),
     nth_error bs i = Some a ->
     nth_error bs j = Some b ->
     nth_error ws i = Some x ->
     nth_error ws j = Some y -> x - y = a_weight_db (center a) - a_weight_db (center b)).
Proof. exact (@a_weights). Qed.
Print Assumptions C72_a_weights.
Theorem C72_multiply :
  forall (w : weighting) (a : nd) (dims : list wdim) (i : nat) (s : scale) (ws : list R),
  has_axis dims i s ->
  wdata w s = Ok ws ->
  nth i (shape a) 0%nat = length ws ->
  exists r : nd,
    weight_ufunc Multiply w false a dims = Ok r /\
    shape r = shape a /\
    weight_ufunc Multiply w true a dims =
    Ok
      {|
        shape := shape a;
        at_index := fun ix : list nat => nth (nth i ix 0%nat) ws 0 * at_index a ix
      |} /\ (forall ix : list nat, at_index r ix = at_index a ix * nth (nth i ix 0%nat) ws 0).
Proof. exact (@multiply_spec). Qed.
Print Assumptions C72_multiply.
Theorem C72_divide_undoes :
  forall (w : weighting) (a : nd) (dims : list wdim) (i : nat) (s : scale) (ws : list R),
  has_axis dims i s ->
  wdata w s = Ok ws ->
  Forall (fun x : R => 1 <= x) ws ->
  nth i (shape a) 0%nat = length ws ->
  exists r b : nd,
    weight_ufunc Multiply w false a dims = Ok r /\
    weight_ufunc Divide w false r dims = Ok b /\
    shape b = shape a /\
    (forall ix : list nat, (nth i ix 0 < nth i (shape a) 0)%nat -> at_index b ix = at_index a ix).
Proof. exact (@divide_undoes). Qed.
Print Assumptions C72_divide_undoes.
Theorem C72_invertible :
  forall (a : nd) (dims : list wdim) (i : nat) (s : scale),
  has_axis dims i s ->
  well_formed s ->
  off_zero s ->
  (1 <= scale_len s)%nat ->
  nth i (shape a) 0%nat = scale_len s ->
  exists r b : nd,
    weight_ufunc Multiply AWeighting false a dims = Ok r /\
    weight_ufunc Divide AWeighting false r dims = Ok b /\
    shape b = shape a /\
    (forall ix : list nat, (nth i ix 0 < nth i (shape a) 0)%nat -> at_index b ix = at_index a ix).
Proof. exact (@a_weighting_invertible). Qed.
Print Assumptions C72_invertible.
Theorem C72_flat :
  forall (a : nd) (dims : list wdim) (i : nat) (s : scale),
  has_axis dims i s ->
  nth i (shape a) 0%nat = scale_len s ->
  exists r : nd,
    weight_ufunc Multiply Flat false a dims = Ok r /\
    shape r = shape a /\
    (forall ix : list nat, (nth i ix 0 < nth i (shape a) 0)%nat -> at_index r ix = at_index a ix).
Proof. exact (@flat_weighting_identity). Qed.
Print Assumptions C72_flat.
Theorem C72_rejects :
  forall (w : weighting) (a : nd) (dims : list wdim) (first : bool),
  (Forall (fun d : wdim => d = WOther) dims ->
   weight_ufunc Multiply w first a dims = Raise ValueError /\
   weight_ufunc Divide w first a dims = Raise ValueError) /\
  weight_ufunc OtherUfunc w first a dims = Raise TypeError.
Proof. exact (@weighting_rejects). Qed.
Print Assumptions C72_rejects.
Theorem C72_misfit :
  forall (w : weighting) (a : nd) (dims : list wdim) (i : nat) (s : scale) 
    (ws : list R) (first : bool) (u : ufunc),
  has_axis dims i s ->
  wdata w s = Ok ws ->
  u <> OtherUfunc ->
  nth i (shape a) 0%nat <> length ws ->
  length ws <> 1%nat -> weight_ufunc u w first a dims = Raise ValueError.
Proof. exact (@weighting_misfit). Qed.
Print Assumptions C72_misfit.
Theorem C72_one_band :
  forall (w : weighting) (a : nd) (dims : list wdim) (i : nat) (s : scale) (v : R),
  has_axis dims i s ->
  wdata w s = Ok [v] ->
  nth i (shape a) 0%nat <> 1%nat ->
  exists r : nd,
    weight_ufunc Multiply w false a dims = Ok r /\
    shape r = shape a /\ (forall ix : list nat, at_index r ix = at_index a ix * v).
Proof. exact (@weighting_one). Qed.
Print Assumptions C72_one_band.
Theorem C72_no_bands :
  forall fb : band,
  (forall s : scale, scale_bands s = Ok [] -> wdata AWeighting s = Raise ValueError) /\
  scale_bands (BarkS fb 0) = Ok [] /\
  scale_bands (MelS fb 0) = Ok [] /\ wdata Flat (BarkS fb 0) = Ok [].
Proof. exact (@weights_of_nothing). Qed.
Print Assumptions C72_no_bands.
Theorem C72_explicit_last_axis :
  forall (w : weighting) (a : nd) (pre : list wdim) (d : efd) (rest : list wdim) (ws f : list R),
  Forall (fun x : wdim => x = WOther) pre ->
  wdata w (escale d) = Ok ws ->
  efd_weights d ws = Ok f ->
  nth (length pre + length rest) (shape a) 0%nat = length f ->
  exists r : nd,
    weight_ufunc Multiply w false a (pre ++ WExplicit d :: rest) = Ok r /\
    shape r = shape a /\
    (forall ix : list nat,
     at_index r ix = at_index a ix * nth (nth (length pre + length rest) ix 0%nat) f 0).
Proof. exact (@explicit_last_axis). Qed.
Print Assumptions C72_explicit_last_axis.
Theorem C72_part :
  forall (bs cs : list band) (ws vs : list R),
  bs <> [] ->
  cs <> [] ->
  incl cs bs ->
  off_zero (Explicit bs) ->
  wdata AWeighting (Explicit bs) = Ok ws ->
  wdata AWeighting (Explicit cs) = Ok vs ->
  exists k : R,
    0 <= k /\
    (forall (i j : nat) (b : band) (x y : R),
     nth_error bs i = Some b ->
     nth_error cs j = Some b -> nth_error ws i = Some x -> nth_error vs j = Some y -> y = x - k) /\
    (k = 0 <->
     (exists b : band,
        In b cs /\ Forall (fun c : band => a_weight_db (center b) <= a_weight_db (center c)) bs)).
Proof. exact (@weights_of_part). Qed.
Print Assumptions C72_part.
Theorem C72_cut_band :
  forall (q : band) (a b : nat) (w : weighting) (m : nat) (x : nd),
  (b - a <= a)%nat ->
  (a < b)%nat ->
  shape x = [m; (b - a)%nat] ->
  exists r : nd,
    weight_ufunc Multiply w false x
      [WOther; WExplicit {| ebands := [q]; escale := Explicit [q]; eslices := [(a, b)] |}] = 
    Ok r /\ (forall ix : list nat, at_index r ix = 0).
Proof. exact (@cut_band_silenced). Qed.
Print Assumptions C72_cut_band.
Theorem C72_cut_band_refuted :
  exists (q1 q2 : band) (fa : arr2 R * efd) (d : efd) (r : nd),
    proper q1 /\
    proper q2 /\
    fa_new [{| cols := 3; rows := [[1; 2; 3]] |}; {| cols := 3; rows := [[4; 5; 6]] |}]
      (Explicit [q1; q2]) = Ok fa /\
    fa_get fa q2 = Ok ({| cols := 3; rows := [[4; 5; 6]] |}, d) /\
    weight_ufunc Multiply AWeighting false
      {|
        shape := [1%nat; 3%nat]; at_index := fun ix : list nat => nth (nth 1 ix 0%nat) [4; 5; 6] 0
      |} [WOther; WExplicit d] = Ok r /\ (forall ix : list nat, at_index r ix = 0).
Proof. exact (@cut_band_refuted). Qed.
Print Assumptions C72_cut_band_refuted.

