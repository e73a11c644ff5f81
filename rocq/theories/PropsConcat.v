(** C83, continued: any number of arrays joined along any axis. *)
From Coq Require Import ZArith Reals.
From Verif Require Import PyBase PyFacts PyMore Time TimeProofs Freq FreqDim Axis AxisProofs Ops OpsProofs OpsProofs2 OpsProofs3 Concat ConcatProofs.
Local Open Scope nat_scope.
Theorem C83_concat_many :
  forall (a : awu) (rest : list awu) (axis : Z) (k : nat) (d : dim),
  well_formed nd_shape a ->
  names_axis (length (dims a)) axis k ->
  nth_error (dims a) k = Some d ->
  (forall s : scale, d <> DFreq s) ->
  Forall (fun b : awu => dims_eq (dims b) (dims a) = Ok true /\ beside k (data a) (data b)) rest ->
  let xs := map data (a :: rest) in
  exists s : units,
    concat_many Plain (a :: rest) axis = Ok (PUnits Plain s) /\
    well_formed nd_shape s /\
    Forall2 same_dim (dims s) (dims a) /\
    (forall i : nat,
     nth_error (nd_shape (data s)) i =
     (if i =? k
      then Some (fold_right Nat.add 0 (map (fun x : nda => nth k (nd_shape x) 0) xs))
      else nth_error (nd_shape (data a)) i)) /\
    (forall (ix iy : list nat) (j i' : nat) (y : nda),
     in_shape (nd_shape (data s)) ix ->
     lies_in k xs (nth k ix 0) j i' ->
     nth_error xs j = Some y -> moved k i' ix iy -> nd_at (data s) ix = nd_at y iy).
Proof. exact (@concat_plain). Qed.
Print Assumptions C83_concat_many.
Theorem C83_concat_audio_many :
  forall (x : nda) (xs : list nda) (rate axis : Z) (k : nat) (a : units) (rest : list units),
  In rate standard_rates ->
  ndim x = 1 \/ ndim x = 2 ->
  names_axis (ndim x) axis k ->
  Forall (beside k x) xs ->
  audio_new x rate = Ok a ->
  Forall2 (fun (y : nda) (b : units) => audio_new y rate = Ok b) xs rest ->
  exists s : units,
    concat_many Audio (a :: rest) axis = Ok (PUnits Audio s) /\
    samplerate s = Ok rate /\
    (forall i : nat,
     nth_error (nd_shape (data s)) i =
     (if i =? k
      then Some (fold_right Nat.add 0 (map (fun x0 : nda => nth k (nd_shape x0) 0) (x :: xs)))
      else nth_error (nd_shape x) i)) /\
    (forall (ix iy : list nat) (j i' : nat) (y : nda),
     in_shape (nd_shape (data s)) ix ->
     lies_in k (x :: xs) (nth k ix 0) j i' ->
     nth_error (x :: xs) j = Some y -> moved k i' ix iy -> nd_at (data s) ix = nd_at y iy).
Proof. exact (@concat_audio). Qed.
Print Assumptions C83_concat_audio_many.
Theorem C83_concat_nothing :
  forall (c : cls) (axis : Z), concat_many c [] axis = Raise ValueError.
Proof. exact (@concat_nothing). Qed.
Print Assumptions C83_concat_nothing.
Theorem C83_concat_many_different :
  forall (c : cls) (a : awu) (l : list awu) (b : awu) (r : list awu) (axis : Z),
  Forall (fun x : awu => dims_eq (dims x) (dims a) = Ok true) l ->
  dims_eq (dims b) (dims a) = Ok false -> concat_many c (a :: l ++ b :: r) axis = Raise ValueError.
Proof. exact (@concat_different). Qed.
Print Assumptions C83_concat_many_different.
Theorem C83_concat_no_axis :
  forall (c : cls) (a : awu) (rest : list awu) (axis : Z),
  Forall (fun x : awu => dims_eq (dims x) (dims a) = Ok true) rest ->
  ndim (data a) <> 0 ->
  (forall k : nat, ~ names_axis (ndim (data a)) axis k) ->
  concat_many c (a :: rest) axis = Raise IndexError.
Proof. exact (@concat_no_axis). Qed.
Print Assumptions C83_concat_no_axis.
Theorem C83_concat_shapes :
  forall (c : cls) (a : awu) (rest : list awu) (axis : Z) (k : nat) (b : awu),
  Forall (fun x : awu => dims_eq (dims x) (dims a) = Ok true) rest ->
  names_axis (ndim (data a)) axis k ->
  In b rest -> ~ beside k (data a) (data b) -> concat_many c (a :: rest) axis = Raise ValueError.
Proof. exact (@concat_shapes). Qed.
Print Assumptions C83_concat_shapes.
Theorem C83_concat_many_frequency_refuted :
  forall (a : awu) (rest : list awu) (axis : Z) (k : nat) (sc : scale),
  well_formed nd_shape a ->
  names_axis (length (dims a)) axis k ->
  nth_error (dims a) k = Some (DFreq sc) ->
  Forall (fun b : awu => dims_eq (dims b) (dims a) = Ok true /\ beside k (data a) (data b)) rest ->
  Exists (fun b : awu => 0 < nth k (nd_shape (data b)) 0) rest ->
  concat_many Plain (a :: rest) axis = Raise ValueError.
Proof. exact (@concat_frequency_refuted). Qed.
Print Assumptions C83_concat_many_frequency_refuted.

