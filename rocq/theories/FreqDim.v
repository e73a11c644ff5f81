(** Model of zounds/spectral/tfrepresentation.py (FrequencyDimension,
    ExplicitFrequencyDimension) and of the layout of
    zounds/spectral/frequencyadaptive.py. *)
From Verif Require Import PyBase PyFacts PyMore Freq.
Local Open Scope R_scope.

(** tfrepresentation.py:57-69 FrequencyDimension.validate *)
Definition fdim_validate (s : scale) (size : nat) : result unit :=
  if (size =? scale_len s)%nat then Ok tt else Raise ValueError.
(** tfrepresentation.py:51-52 FrequencyDimension.metaslice *)
Definition fdim_metaslice (s : scale) (ix : findex) : result scale := scale_slice s ix.
(** tfrepresentation.py:54-55 FrequencyDimension.integer_based_slice *)
Definition fdim_integer_slice (s : scale) (ix : findex) : result pyslice := get_slice s ix.

(** tfrepresentation.py:81-105 ExplicitFrequencyDimension: scale, slices and the
    dict from bands to slices, kept as the list of pairs it is built from. *)
Record efd := mkEfd {
  ebands : list band;
  escale : scale;
  eslices : list (nat * nat) }.

(** tfrepresentation.py:97-105 __init__ ([_lookup] iterates over the scale) *)
Definition make_efd (s : scale) (slices : list (nat * nat)) : result efd :=
  if (scale_len s =? length slices)%nat
  then do bs <- scale_bands s; Ok (mkEfd bs s slices)
  else Raise ValueError.

(** [dict(zip(keys, values)).get(q)]: the last pair with an equal key wins *)
Fixpoint assoc_last {V} (keys : list band) (vals : list V) (q : band) : option V :=
  match keys, vals with
  | k :: keys', v :: vals' =>
      match assoc_last keys' vals' q with
      | Some r => Some r
      | None => if band_eqb k q then Some v else None
      end
  | _, _ => None
  end.
Definition efd_lookup (d : efd) (q : band) : option (nat * nat) :=
  assoc_last (ebands d) (eslices d) q.

(** tfrepresentation.py:132-143 integer_based_slice for a FrequencyBand
    (anything else is returned as it is, 133-134) *)
Definition efd_integer_slice (d : efd) (q : band) : result (nat * nat) :=
  match efd_lookup d q with
  | Some sl => Ok sl
  | None =>
      do sl <- get_slice (escale d) (IBand q);
      match apply_slice sl (eslices d) with
      | [] => Raise IndexError
      | first :: rest => Ok (fst first, snd (last (first :: rest) first))
      end
  end.

(** tfrepresentation.py:118-130 metaslice *)
Definition efd_metaslice_band (d : efd) (q : band) : result efd :=
  match efd_lookup d q with
  | Some sl => do s <- make_explicit [q]; make_efd s [sl]
  | None =>
      do sl <- get_slice (escale d) (IBand q);
      do s <- scale_slice (escale d) (ISlice sl);
      make_efd s (apply_slice sl (eslices d))
  end.
(** the branch [slce = index] for a slice of ints (126-130) *)
Definition efd_metaslice_ints (d : efd) (sl : pyslice) : result efd :=
  do s <- scale_slice (escale d) (ISlice sl);
  make_efd s (apply_slice sl (eslices d)).

(** tfrepresentation.py:109-113 weights: [np.zeros(n)] then [w[sl] = weight].
    An assignment through a numpy slice is clamped at the end of [w]. *)
Definition assign_slice {A} (w : list A) (sl : nat * nat) (v : A) : list A :=
  firstn (fst sl) w
  ++ repeat v (length (firstn (snd sl - fst sl) (skipn (fst sl) w)))
  ++ skipn (fst sl + length (firstn (snd sl - fst sl) (skipn (fst sl) w))) w.
Definition efd_weights (d : efd) (ws : list R) : result (list R) :=
  match eslices d with
  | [] => Raise IndexError
  | f :: _ =>
      let n := (snd (last (eslices d) f) - fst f)%nat in
      Ok (fold_left (fun w p => assign_slice w (snd p) (fst p))
            (combine ws (eslices d)) (repeat 0 n))
  end.

(** A two-dimensional array: number of columns and rows. *)
Record arr2 (A : Type) := mkArr { cols : nat; rows : list (list A) }.
Arguments mkArr {A}. Arguments cols {A}. Arguments rows {A}.

(** numpy: [arr[:, a:b]] *)
Definition col_slice {A} (sl : nat * nat) (x : arr2 A) : arr2 A :=
  mkArr (Nat.min (snd sl) (cols x) - fst sl)
        (map (fun r => firstn (snd sl - fst sl) (skipn (fst sl) r)) (rows x)).

(** numpy: [np.concatenate([x, y], axis=1)] for equal row counts *)
Fixpoint hcat {A} (x y : list (list A)) : list (list A) :=
  match x, y with
  | r :: x', s :: y' => (r ++ s) :: hcat x' y'
  | _, _ => []
  end.
(** numpy: np.concatenate(arrs, axis=1); no arrays or different row counts: ValueError *)
Fixpoint hconcat {A} (arrs : list (arr2 A)) : result (arr2 A) :=
  match arrs with
  | [] => Raise ValueError
  | [x] => Ok x
  | x :: rest =>
      do y <- hconcat rest;
      if (length (rows x) =? length (rows y))%nat
      then Ok (mkArr (cols x + cols y)%nat (hcat (rows x) (rows y)))
      else Raise ValueError
  end.

(** numpy: np.cumsum *)
Fixpoint cumsum (acc : nat) (l : list nat) : list nat :=
  match l with
  | [] => []
  | x :: l' => (acc + x)%nat :: cumsum (acc + x) l'
  end.

(** frequencyadaptive.py:49-56 FrequencyAdaptive.__new__ with [scale]: the time
    dimension is left out; [zip([0] + stops, stops)]. *)
Definition fa_slices (widths : list nat) : list (nat * nat) :=
  let stops := cumsum 0 widths in combine (0%nat :: stops) stops.
Definition fa_new {A} (arrs : list (arr2 A)) (s : scale) : result (arr2 A * efd) :=
  do d <- make_efd s (fa_slices (map cols arrs));
  do whole <- hconcat arrs;
  Ok (whole, d).

(** core/axis.py getitem with [(:, band)] on the two dimensions of a
    FrequencyAdaptive: data by integer_based_slice, dimension by metaslice *)
Definition fa_get {A} (fa : arr2 A * efd) (q : band) : result (arr2 A * efd) :=
  do sl <- efd_integer_slice (snd fa) q;
  do d <- efd_metaslice_band (snd fa) q;
  Ok (col_slice sl (fst fa), d).
(** the same with [(:, a:b)] *)
Definition fa_get_ints {A} (fa : arr2 A * efd) (sl : nat * nat) : result (arr2 A * efd) :=
  do d <- efd_metaslice_ints (snd fa) (nat_slice sl);
  Ok (col_slice sl (fst fa), d).

(** frequencyadaptive.py:147-148 iter_bands, data only *)
Definition iter_bands {A} (fa : arr2 A * efd) : result (list (arr2 A)) :=
  mapM (fun q => do r <- fa_get fa q; Ok (fst r)) (ebands (snd fa)).

(** frequencyadaptive.py:156-161 from_array_with_units *)
Definition from_array_with_units {A} (fa : arr2 A * efd) : result (arr2 A * efd) :=
  do arrs <- iter_bands fa; fa_new arrs (escale (snd fa)).
