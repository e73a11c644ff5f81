(** Property theorems: pipelines and preprocessors (C35-C37, C58), reservoirs and
    samplers (C38, C39, C57), training loops (C40) and apply_network (C55). *)
From Verif Require Import PyBase PyFacts PyMore PyRange Freq Pipeline PipelineProofs Preproc PreprocProofs Reservoir ReservoirProofs Trainer TrainerProofs.
From Coq Require Import Permutation Sorted.

(** C35: [there] and [there_and_back] (PipelineProofs.v) are the specification:
    run the steps forward; run forward, do something, undo in reverse order *)
Theorem C35_transform :
  forall (D K W : Type) (wrap : D -> option W) (ps : list (step D K)) (x : D)
    (f : option (D -> result D)),
  (do r <- transform wrap ps x f; Ok (r_data r)) =
  (do y <- there ps x; match f with
                       | Some g => g y
                       | None => Ok y
                       end).
Proof. exact (@transform_data). Qed.
Print Assumptions C35_transform.
Theorem C35_inverse :
  forall (D K W : Type) (wrap : D -> option W) (rebuild : W -> D -> result D)
    (ps : list (step D K)) (x : D) (f : option (D -> result D)),
  (do r <- transform wrap ps x f; inverse_transform rebuild r) =
  there_and_back wrap rebuild ps match f with
                                 | Some g => g
                                 | None => Ok
                                 end x.
Proof. exact (@inverse_is_reverse). Qed.
Print Assumptions C35_inverse.
Theorem C35_inverts :
  forall (D K W : Type) (wrap : D -> option W) (rebuild : W -> D -> result D)
    (ps : list (step D K)) (x : D),
  inverts_along wrap rebuild ps x ->
  (do r <- transform wrap ps x None; inverse_transform rebuild r) = Ok x.
Proof. exact (@pipeline_inverts). Qed.
Print Assumptions C35_inverts.
Theorem C35_split :
  forall (D K W : Type) (wrap : D -> option W) (a b : list (step D K)) 
    (x : D) (f : option (D -> result D)),
  (do r <- transform wrap (a ++ b) x f; Ok (r_data r)) =
  (do r <- transform wrap a x None; do s <- transform wrap b (r_data r) f; Ok (r_data s)).
Proof. exact (@pipeline_split). Qed.
Print Assumptions C35_split.
Theorem C35_halves :
  forall (D K : Type) (ps : list (step D K)) (k : Z),
  sub_slice ps None (Some k) ++ sub_slice ps (Some k) None = ps.
Proof. exact (@pipeline_halves). Qed.
Print Assumptions C35_halves.
Theorem C35_pick :
  forall (D K : Type) (ps : list (step D K)) (ix : list nat),
  Forall (fun i : nat => i < length ps) ix ->
  exists qs : list (step D K),
    sub_list ps (map Z.of_nat ix) = Ok qs /\ map Some qs = map (nth_error ps) ix.
Proof. exact (@pipeline_pick). Qed.
Print Assumptions C35_pick.

(** C36 *)
Theorem C36_unit_norm_roundtrip :
  forall (junk : nat -> nat -> R) (rows : list (list R)),
  unit_norm_inverse (fst (unit_norm junk rows)) (snd (unit_norm junk rows)) = rows.
Proof. exact (@unit_norm_roundtrip). Qed.
Print Assumptions C36_unit_norm_roundtrip.
Theorem C36_unit_norm_unit :
  forall (junk : nat -> nat -> R) (rows : list (list R)) (i : nat) (r : list R),
  nth_error rows i = Some r ->
  (exists x : R, In x r /\ x <> 0%R) ->
  exists u : list R,
    nth_error (fst (unit_norm junk rows)) i = Some u /\
    norm u = 1%R /\ u = map (fun x : R => (/ norm r * x)%R) r.
Proof. exact (@unit_norm_unit). Qed.
Print Assumptions C36_unit_norm_unit.
Theorem C36_unit_norm_zero_refuted :
  forall row : list R,
  fst (unit_norm (fun _ j : nat => nth j row 0%R) [repeat 0%R (length row)]) = [row].
Proof. exact (@unit_norm_zero_refuted). Qed.
Print Assumptions C36_unit_norm_zero_refuted.
Theorem C36_unit_norm_1d_refuted :
  forall (junk : nat -> nat -> R) (d : list R),
  let out := unit_norm junk (map (fun x : R => [x]) d) in
  let back := unit_norm_inverse_1d (map (fun r : list R => hd 0%R r) (fst out)) (snd out) in
  length back = length d /\
  (forall r : list R, In r back -> length r = length d) /\
  ((forall x : R, In x d -> x <> 0%R) ->
   back = map (fun x : R => map (fun y : R => (y / Rabs y * Rabs x)%R) d) d).
Proof. exact (@unit_norm_1d_refuted). Qed.
Print Assumptions C36_unit_norm_1d_refuted.
Theorem C36_meanstd_roundtrip :
  forall (mean std : list R) (junk : nat -> nat -> R) (rows : list (list R)),
  meanstd_ok mean std rows -> meanstd_inverse mean std (meanstd mean std junk rows) = rows.
Proof. exact (@meanstd_roundtrip). Qed.
Print Assumptions C36_meanstd_roundtrip.
Theorem C36_meanstd_training :
  forall (w : nat) (junk : nat -> nat -> R) (rows : list (list R)),
  (forall r : list R, In r rows -> length r = w) ->
  let ms := fit_meanstd w rows in
  meanstd_inverse (fst ms) (snd ms) (meanstd (fst ms) (snd ms) junk rows) = rows.
Proof. exact (@meanstd_training). Qed.
Print Assumptions C36_meanstd_training.
Theorem C36_meanstd_normalised :
  forall (w : nat) (junk : nat -> nat -> R) (rows : list (list R)) (j : nat),
  rows <> [] ->
  (forall r : list R, In r rows -> length r = w) ->
  j < w ->
  std_of (column j rows) <> 0%R ->
  let ms := fit_meanstd w rows in
  let out := meanstd (fst ms) (snd ms) junk rows in
  mean_of (column j out) = 0%R /\ std_of (column j out) = 1%R.
Proof. exact (@meanstd_normalised). Qed.
Print Assumptions C36_meanstd_normalised.
Theorem C36_meanstd_constant_refuted :
  forall (junk : nat -> nat -> R) (x m : R),
  meanstd_inverse [m] [0%R] (meanstd [m] [0%R] junk [[x]]) = [[m]].
Proof. exact (@meanstd_constant_refuted). Qed.
Print Assumptions C36_meanstd_constant_refuted.
Theorem C36_instance_scaling_roundtrip :
  forall (mv : R) (junk : nat -> nat -> R) (rows : list (list R)),
  mv <> 0%R ->
  instance_scale_inverse mv (fst (instance_scale mv junk rows)) (snd (instance_scale mv junk rows)) =
  rows.
Proof. exact (@instance_scale_roundtrip). Qed.
Print Assumptions C36_instance_scaling_roundtrip.
Theorem C36_instance_scaling_peak :
  forall (mv : R) (junk : nat -> nat -> R) (rows : list (list R)) (i : nat) (r : list R),
  (0 <= mv)%R ->
  nth_error rows i = Some r ->
  (exists x : R, In x r /\ x <> 0%R) ->
  exists u : list R,
    nth_error (fst (instance_scale mv junk rows)) i = Some u /\
    max_abs u = mv /\ length u = length r.
Proof. exact (@instance_scale_peak). Qed.
Print Assumptions C36_instance_scaling_peak.
Theorem C36_multiply_roundtrip :
  forall (f : R) (rows : list (list R)), f <> 0%R -> multiply_inverse f (multiply f rows) = Ok rows.
Proof. exact (@multiply_roundtrip). Qed.
Print Assumptions C36_multiply_roundtrip.
Theorem C36_multiply_zero_refuted :
  forall rows : list (list R), multiply_inverse 0 rows = Raise ZeroDivisionError.
Proof. exact (@multiply_zero). Qed.
Print Assumptions C36_multiply_zero_refuted.
Theorem C36_weighted_roundtrip :
  forall (w : list R) (rows : list (list R)),
  (forall r : list R, In r rows -> length r = length w) ->
  (forall x : R, In x w -> x <> 0%R) -> weighted_inverse w (weighted w rows) = rows.
Proof. exact (@weighted_roundtrip). Qed.
Print Assumptions C36_weighted_roundtrip.
Theorem C36_slicer_roundtrip :
  forall (s : pyslice) (w : nat) (rows : list (list R)),
  (forall r : list R, In r rows -> length r = w) ->
  exists back : list (list R),
    slicer_inverse s w (slicer s rows) = Ok back /\
    length back = length rows /\
    (forall (i : nat) (r : list R),
     nth_error rows i = Some r ->
     exists q : list R,
       nth_error back i = Some q /\
       length q = w /\
       (forall j : nat,
        j < w ->
        nth j q 0%R =
        (if (fst (slice_range s w) <=? j) && (j <? snd (slice_range s w)) then nth j r 0%R else 0%R))).
Proof. exact (@slicer_roundtrip). Qed.
Print Assumptions C36_slicer_roundtrip.
Theorem C36_reshape_roundtrip :
  forall (new : list Z) (a : list Z * list R) (b : ndarr),
  prodZ (fst a) = Zlen (snd a) ->
  (forall n : Z, In n (fst a) -> (0 <= n)%Z) ->
  reshape_op new a = Ok b -> snd b = snd a /\ reshape_inverse (fst a) b = Ok a.
Proof. exact (@reshape_roundtrip). Qed.
Print Assumptions C36_reshape_roundtrip.
Theorem C36_reshape_rows :
  forall (n : Z) (rest new : list Z) (d : list R),
  (0 <= n)%Z ->
  Forall (fun k : Z => (0 <= k)%Z) new ->
  Zlen d = (n * prodZ new)%Z -> reshape_op new (n :: rest, d) = Ok (n :: new, d).
Proof. exact (@reshape_rows). Qed.
Print Assumptions C36_reshape_rows.
Theorem C36_binarize :
  forall (th : R) (rows : list (list R)) (i j : nat) (r : list R) (x : R),
  nth_error rows i = Some r ->
  nth_error r j = Some x ->
  exists (bits : list bool) (b : bool),
    nth_error (binarize th rows) i = Some bits /\
    length bits = length r /\ nth_error bits j = Some b /\ (b = true <-> (th < x)%R).
Proof. exact (@binarize_spec). Qed.
Print Assumptions C36_binarize.
Theorem C36_kmeans_nearest :
  forall codebook rows : list (list R),
  codebook <> [] ->
  exists (codes : list (list nat)) (back : list (list R)),
    kmeans_forward codebook rows = Ok codes /\
    kmeans_inverse codebook codes = Ok back /\
    Forall2
      (fun r q : list R =>
       In q codebook /\ (forall c : list R, In c codebook -> (dist r q <= dist r c)%R)) rows back /\
    Forall2
      (fun (r : list R) (code : list nat) =>
       exists k : nat,
         code = one_hot (length codebook) k /\
         k < length codebook /\
         (forall (i : nat) (c : list R),
          nth_error codebook i = Some c ->
          (dist r (nth k codebook []) <= dist r c)%R /\
          (i < k -> (dist r (nth k codebook []) < dist r c)%R))) rows codes.
Proof. exact (@kmeans_roundtrip). Qed.
Print Assumptions C36_kmeans_nearest.
Theorem C36_kmeans_centroids :
  forall (w : nat) (codebook rows : list (list R)),
  (forall c : list R, In c codebook -> length c = w) ->
  (forall r : list R, In r rows -> In r codebook) ->
  codebook <> [] ->
  exists codes : list (list nat),
    kmeans_forward codebook rows = Ok codes /\ kmeans_inverse codebook codes = Ok rows.
Proof. exact (@kmeans_centroids). Qed.
Print Assumptions C36_kmeans_centroids.

(** C37 *)
Theorem C37_step :
  forall (P : Type) (needs : list nat) (seen : list (nat * P)) (k : nat) (p : P),
  NoDup needs ->
  In k needs ->
  exists o : option (list P),
    arrive needs (state_of needs seen) (k, p) =
    (match o with
     | Some _ => state_of needs []
     | None => state_of needs (seen ++ [(k, p)])
     end, o) /\
    match o with
    | Some ps =>
        all_delivered needs (seen ++ [(k, p)]) /\
        Forall2 (fun (n : nat) (q : P) => latest (seen ++ [(k, p)]) n = Some q) needs ps
    | None => ~ all_delivered needs (seen ++ [(k, p)])
    end.
Proof. exact (@node_step). Qed.
Print Assumptions C37_step.
Theorem C37_one_pipeline :
  forall (P : Type) (needs : list nat) (evs : list (nat * P)) (k : nat) 
    (p : P) (rest : list (nat * P)),
  NoDup needs ->
  (forall e : nat * P, In e (evs ++ [(k, p)]) -> In (fst e) needs) ->
  ~ all_delivered needs evs ->
  all_delivered needs (evs ++ [(k, p)]) ->
  exists ps : list P,
    Forall2 (fun (n : nat) (q : P) => latest (evs ++ [(k, p)]) n = Some q) needs ps /\
    node_run needs (evs ++ (k, p) :: rest) =
    repeat None (length evs) ++ Some ps :: node_run needs rest.
Proof. exact (@one_pipeline). Qed.
Print Assumptions C37_one_pipeline.
Theorem C37_incomplete :
  forall (P : Type) (needs : list nat) (evs : list (nat * P)),
  NoDup needs ->
  (forall e : nat * P, In e evs -> In (fst e) needs) ->
  ~ all_delivered needs evs -> node_run needs evs = repeat None (length evs).
Proof. exact (@no_pipeline). Qed.
Print Assumptions C37_incomplete.
Theorem C37_any_order :
  forall (P : Type) (needs : list nat) (val : nat -> P) (order : list nat),
  needs <> [] ->
  NoDup needs ->
  Permutation order needs ->
  node_run needs (map (fun n : nat => (n, val n)) order) =
  repeat None (length needs - 1) ++ [Some (map val needs)].
Proof. exact (@any_order). Qed.
Print Assumptions C37_any_order.

(** C38 *)
Theorem C38_contents_partial :
  forall (A : Type) (zero : A) (n : Z) (cs : list call) (r0 : reservoir A),
  make_reservoir n = Ok r0 ->
  cs <> [] ->
  (forall c : call, In c cs -> no_negative c) ->
  get (fst (run_calls zero r0 cs)) = Ok (contents (Z.to_nat n) (all_writes n cs)).
Proof. exact (@reservoir_contents). Qed.
Print Assumptions C38_contents_partial.
Theorem C38_refuses :
  forall (A : Type) (zero : A) (n : Z) (cs : list call) (r0 : reservoir A) (c : call),
  make_reservoir n = Ok r0 ->
  (forall d : call, In d (cs ++ [c]) -> no_negative d) ->
  snd (add zero (fst (run_calls zero r0 cs)) (c_rows c) (c_given c) (c_draw c)) =
  (if good_callb n c
   then Ok tt
   else if length (c_indices c) =? length (c_rows c) then Raise IndexError else Raise ValueError).
Proof. exact (@reservoir_refuses). Qed.
Print Assumptions C38_refuses.
Theorem C38_from_added :
  forall (A : Type) (n : Z) (cs : list call) (x : A),
  In x (contents (Z.to_nat n) (all_writes n cs)) ->
  exists c : call, In c cs /\ good_call n c /\ In x (c_rows c).
Proof. exact (@reservoir_from_added). Qed.
Print Assumptions C38_from_added.
Theorem C38_at_most_n :
  forall (A : Type) (n : nat) (ws : list (nat * A)), length (contents n ws) <= n.
Proof. exact (@contents_length). Qed.
Print Assumptions C38_at_most_n.
Theorem C38_kept :
  forall (A : Type) (n : nat) (ws : list (nat * A)) (k : nat) (x : A) (newer : list (nat * A)),
  k < n -> (forall y : A, ~ In (k, y) newer) -> In x (contents n (ws ++ (k, x) :: newer)).
Proof. exact (@reservoir_kept). Qed.
Print Assumptions C38_kept.
Theorem C38_no_collision :
  forall (A : Type) (zero : A) (n : Z) (cs : list call) (r0 : reservoir A),
  make_reservoir n = Ok r0 ->
  cs <> [] ->
  (forall c : call, In c cs -> good_call n c) ->
  NoDup (flat_map c_indices cs) ->
  exists rows : list A,
    get (fst (run_calls zero r0 cs)) = Ok rows /\ Permutation rows (flat_map c_rows cs).
Proof. exact (@reservoir_no_collision). Qed.
Print Assumptions C38_no_collision.
Theorem C38_batch :
  forall (A : Type) (zero : A) (n : Z) (cs : list call) (r0 : reservoir A) 
    (batch : Z) (choice : list nat),
  make_reservoir n = Ok r0 ->
  cs <> [] ->
  (forall c : call, In c cs -> no_negative c) ->
  let r := fst (run_calls zero r0 cs) in
  let held := contents (Z.to_nat n) (all_writes n cs) in
  Zlen choice = batch ->
  (forall k : nat, In k choice -> k < length (slots r)) ->
  res_len r = Zlen held /\
  (if (Zlen held <? batch)%Z
   then get_batch r batch choice = Raise ValueError
   else
    exists rows : list A,
      get_batch r batch choice = Ok rows /\
      Zlen rows = batch /\ (forall x : A, In x rows -> In x held)).
Proof. exact (@reservoir_batch). Qed.
Print Assumptions C38_batch.
Theorem C38_collision_refuted :
  forall (A : Type) (zero x y : A),
  exists r : reservoir A,
    make_reservoir 2 = Ok r /\
    get (fst (run_calls zero r [{| c_rows := [x; y]; c_given := None; c_draw := [0%Z; 0%Z] |}])) =
    Ok [y].
Proof. exact (@reservoir_collision_refuted). Qed.
Print Assumptions C38_collision_refuted.
Theorem C38_negative_index_refuted :
  forall (A : Type) (zero x y : A),
  exists r : reservoir A,
    make_reservoir 2 = Ok r /\
    (let r' :=
       fst (run_calls zero r [{| c_rows := [x; y]; c_given := Some [1%Z; (-1)%Z]; c_draw := [] |}])
       in
     res_len r' = 2%Z /\ get r' = Ok [zero; y]).
Proof. exact (@reservoir_negative_refuted). Qed.
Print Assumptions C38_negative_index_refuted.

(** C39 *)
Theorem C39_aligned_partial :
  forall (K EX A : Type) (keq : K -> K -> bool) (zero : A),
  (forall a b : K, keq a b = true <-> a = b) ->
  forall (field : K -> EX -> A) (n : Z) (c : mcall) (cs : list mcall),
  (0 < n)%Z ->
  (forall d : mcall, In d (c :: cs) -> good_mcall (mc_keys c) n d) ->
  let m0 := {| m_nsamples := n; m_res := None |} in
  exists (m : multi K A) (os : list (result unit)) (held : list EX),
    run_mcalls keq zero field m0 (c :: cs) = (m, os) /\
    (forall o : result unit, In o os -> o = Ok tt) /\
    mget m = Ok (map (fun k : K => (k, map (field k) held)) (mc_keys c)) /\
    held = contents (Z.to_nat n) (writes_of (c :: cs)) /\
    (forall e : EX, In e held -> exists d : mcall, In d (c :: cs) /\ In e (mc_examples d)) /\
    length held <= Z.to_nat n.
Proof. exact (@multi_aligned). Qed.
Print Assumptions C39_aligned_partial.
Theorem C39_wrong_keys :
  forall (K A : Type) (keq : K -> K -> bool) (zero : A),
  (forall a b : K, keq a b = true <-> a = b) ->
  forall (m : multi K A) (rs : list (K * reservoir A)) (samples : list (K * list A))
    (draw : nat -> list Z),
  m_res m = Some rs ->
  (exists k : K, ~ (In k (map fst rs) <-> In k (map fst samples))) ->
  madd keq zero m samples draw = (m, Raise ValueError).
Proof. exact (@multi_wrong_keys). Qed.
Print Assumptions C39_wrong_keys.
Theorem C39_unequal_lengths_refuted :
  let m0 := {| m_nsamples := 1; m_res := None |} in
  let
  '(m1, o1) := madd Nat.eqb 0%Z m0 [(1, [11%Z]); (2, [12%Z])] (fun _ : nat => [0%Z]) in
   let
   '(m2, o2) := madd Nat.eqb 0%Z m1 [(1, [21%Z]); (2, [])] (fun _ : nat => [0%Z]) in
    o1 = Ok tt /\
    o2 = Raise ValueError /\
    mget m1 = Ok [(1, [11%Z]); (2, [12%Z])] /\ mget m2 = Ok [(1, [21%Z]); (2, [12%Z])].
Proof. exact (@multi_unequal_refuted). Qed.
Print Assumptions C39_unequal_lengths_refuted.

(** C40 *)
Theorem C40_supervised_epochs :
  forall (A C ERR : Type) (fails : Z -> Z -> option exn) (err : Z -> Z -> list A -> ERR)
    (terr : Z -> Z -> ERR) (s : settings) (cbs : list (Z * C)) (data : list A) 
    (h : Z) (k : nat),
  (0 < s_batch s)%Z ->
  (0 <= s_checkpoint s)%Z ->
  (0 <= h)%Z ->
  (forall i j : Z, fails i j = None) ->
  calls (fun c : Z => supervised_train fails err terr s cbs data h c) k 0 =
  (epochs_of (supervised_spec err terr s cbs data h)
     (Z.min (Z.of_nat k * s_checkpoint s) (s_epochs s)),
   Z.max 0 (Z.min (Z.of_nat k * s_checkpoint s) (s_epochs s))).
Proof. exact (@supervised_epochs). Qed.
Print Assumptions C40_supervised_epochs.
Theorem C40_supervised_covers :
  forall (A : Type) (b h : Z) (data : list A),
  (0 < b)%Z -> concat (map snd (supervised_batches b h data)) = skipn (Z.to_nat h) data.
Proof. exact (@supervised_covers). Qed.
Print Assumptions C40_supervised_covers.
Theorem C40_wgan_epochs :
  forall (A C ERR : Type) (fails : Z -> Z -> option exn) (s : settings) 
    (cbs : list (Z * C)) (data : list A) (draw : Z -> Z -> list A) (k : nat),
  (0 < s_batch s)%Z ->
  (0 <= s_checkpoint s)%Z ->
  (forall i j : Z, fails i j = None) ->
  calls (fun c : Z => wgan_train (ERR := ERR) fails s cbs data draw c) k 0 =
  (epochs_of (wgan_spec s cbs data draw) (Z.min (Z.of_nat k * s_checkpoint s) (s_epochs s)),
   Z.max 0 (Z.min (Z.of_nat k * s_checkpoint s) (s_epochs s))).
Proof. exact (@wgan_epochs). Qed.
Print Assumptions C40_wgan_epochs.
Theorem C40_interrupted :
  forall (A C ERR : Type) (fails : Z -> Z -> option exn) (err : Z -> Z -> list A -> ERR)
    (terr : Z -> Z -> ERR) (s : settings) (cbs : list (Z * C)) (data : list A) 
    (h current : Z) (evs : list (event A C ERR)) (c : Z) (x : exn),
  (0 < s_batch s)%Z ->
  (0 <= h)%Z ->
  (0 <= current)%Z ->
  supervised_train fails err terr s cbs data h current = (evs, c, Raise x) ->
  (current <= c < s_epochs s)%Z /\
  (exists k : nat,
     k < length (supervised_batches (s_batch s) h data) /\
     epochs_of (supervised_spec err terr s cbs data h) current ++ evs =
     epochs_of (supervised_spec err terr s cbs data h) c ++
     epoch_of cbs (firstn k (supervised_batches (s_batch s) h data))
       (fun (e i : Z) (_ : list A) => if (h =? 0)%Z then None else Some (terr e i))
       (fun (e i : Z) (rows : list A) => Some (err e i rows)) c).
Proof. exact (@supervised_interrupted). Qed.
Print Assumptions C40_interrupted.
Theorem C40_base_epochs_partial :
  forall (A C ERR : Type) (fails : Z -> Z -> option exn) (s : settings) 
    (cbs : list (Z * C)) (data : list A) (k : nat),
  (0 < s_batch s)%Z ->
  (0 <= s_checkpoint s)%Z ->
  (forall i j : Z, fails i j = None) ->
  calls (fun c : Z => base_train (ERR := ERR) fails s cbs data c) k 0 =
  (epochs_of (base_spec s cbs data) (Z.min (Z.of_nat k * s_checkpoint s) (s_epochs s + 1)),
   Z.max 0 (Z.min (Z.of_nat k * s_checkpoint s) (s_epochs s + 1))).
Proof. exact (@base_epochs). Qed.
Print Assumptions C40_base_epochs_partial.
Theorem C40_triplet_epochs_partial :
  forall (A C ERR : Type) (fails : Z -> Z -> option exn) (s : settings) 
    (cbs : list (Z * C)) (data : list A) (draw : Z -> Z -> list A) (k : nat),
  (0 < s_batch s)%Z ->
  (0 <= s_checkpoint s)%Z ->
  (forall i j : Z, fails i j = None) ->
  calls (fun c : Z => triplet_train (ERR := ERR) fails s cbs data draw c) k 0 =
  (epochs_of (triplet_spec s cbs data draw) (Z.min (Z.of_nat k * s_checkpoint s) (s_epochs s + 1)),
   Z.max 0 (Z.min (Z.of_nat k * s_checkpoint s) (s_epochs s + 1))).
Proof. exact (@triplet_epochs). Qed.
Print Assumptions C40_triplet_epochs_partial.
Theorem C40_base_one_too_many_refuted :
  let s := {| s_epochs := 2; s_batch := 10; s_checkpoint := 1 |} in
  calls (base_train (C := unit) (ERR := unit) (fun _ _ : Z => None) s [] [5%Z]) 9 0 =
  ([Step 0 0 [5%Z]; Step 1 0 [5%Z]; Step 2 0 [5%Z]], 3%Z).
Proof. exact (@base_one_too_many_refuted). Qed.
Print Assumptions C40_base_one_too_many_refuted.
Theorem C40_triplet_small_refuted :
  let s := {| s_epochs := 2; s_batch := 10; s_checkpoint := 1 |} in
  calls (triplet_train (C := unit) (ERR := unit) (fun _ _ : Z => None) s [] [5%Z; 6%Z; 7%Z] (fun _ _ : Z => [])) 9 0 =
  ([], 3%Z).
Proof. exact (@triplet_small_refuted). Qed.
Print Assumptions C40_triplet_small_refuted.
Theorem C40_errors_swapped_refuted :
  let s := {| s_epochs := 1; s_batch := 2; s_checkpoint := 1 |} in
  supervised_train (fun _ _ : Z => None) (fun (_ _ : Z) (_ : list Z) => 1) 
    (fun _ _ : Z => 2) s [(7%Z, tt)] [10%Z; 20%Z; 30%Z] 1 0 =
  ([Step 0 0 [20%Z; 30%Z]; Called tt 0 0 (Some 2) (Some 1)], 1%Z, Ok tt).
Proof. exact (@supervised_errors_swapped_refuted). Qed.
Print Assumptions C40_errors_swapped_refuted.
Theorem C40_callbacks_told :
  forall (C : Type) (ops : list (cb_op C)),
  NoDup (map fst (run_ops ops [])) /\
  (forall (id : Z) (c : C), In (id, c) (run_ops ops []) <-> last_word ops id None = Some c).
Proof. exact (@callbacks_told). Qed.
Print Assumptions C40_callbacks_told.
Theorem C40_unregister_bound_method_refuted :
  forall (C : Type) (log : C) (a b : Z),
  a <> b -> run_ops [Register a log; Unregister b] [] = [(a, log)].
Proof. exact (@unregister_bound_method_refuted). Qed.
Print Assumptions C40_unregister_bound_method_refuted.

(** C55 *)
Theorem C55_chunks :
  forall (A B : Type) (net : list A -> list B) (x : list A) (c : Z),
  (0 < c)%Z ->
  x <> [] -> apply_network net x (Some c) = Ok (concat (map net (pieces (Z.to_nat c) x))).
Proof. exact (@apply_chunks). Qed.
Print Assumptions C55_chunks.
Theorem C55_rowwise :
  forall (A B : Type) (net : list A -> list B) (x : list A) (c : Z),
  (0 < c)%Z ->
  x <> [] ->
  (forall a b : list A, net (a ++ b) = net a ++ net b) ->
  apply_network net x (Some c) = apply_network net x None.
Proof. exact (@apply_rowwise). Qed.
Print Assumptions C55_rowwise.
Theorem C55_pieces_cover :
  forall (A : Type) (c : nat) (l : list A), 0 < c -> concat (pieces c l) = l.
Proof. exact (@pieces_concat). Qed.
Print Assumptions C55_pieces_cover.
Theorem C55_pieces_size :
  forall (A : Type) (c : nat) (l p : list A), 0 < c -> In p (pieces c l) -> 0 < length p <= c.
Proof. exact (@pieces_sizes). Qed.
Print Assumptions C55_pieces_size.
Theorem C55_pieces_full :
  forall (A : Type) (c : nat) (l : list A) (k : nat) (p : list A),
  0 < c -> nth_error (pieces c l) k = Some p -> S k < length (pieces c l) -> length p = c.
Proof. exact (@pieces_full). Qed.
Print Assumptions C55_pieces_full.
Theorem C55_bad_chunk :
  forall (A B : Type) (net : list A -> list B) (x : list A) (c : Z),
  (c <= 0)%Z -> apply_network net x (Some c) = Raise ValueError.
Proof. exact (@apply_bad_chunk). Qed.
Print Assumptions C55_bad_chunk.
Theorem C55_empty_refuted :
  forall (A B : Type) (net : list A -> list B) (c : Z),
  (0 < c)%Z ->
  apply_network net [] (Some c) = Raise ValueError /\ apply_network net [] None = Ok (net []).
Proof. exact (@apply_empty_refuted). Qed.
Print Assumptions C55_empty_refuted.
Theorem C55_not_rowwise_refuted :
  let net := fun rows : list Z => map (fun r : Z => (r - fold_right Z.add 0 rows)%Z) rows in
  apply_network net [1%Z; 2%Z; 3%Z] (Some 2%Z) = Ok [(-2)%Z; (-1)%Z; 0%Z] /\
  apply_network net [1%Z; 2%Z; 3%Z] None = Ok [(-5)%Z; (-4)%Z; (-3)%Z].
Proof. exact (@apply_not_rowwise_refuted). Qed.
Print Assumptions C55_not_rowwise_refuted.

(** C57 *)
Theorem C57_output_partial :
  forall (A : Type) (zero : A) (n : nat) (chunks : list (list A * list nat))
    (shuffle : list A -> list A),
  chunks <> [] ->
  (forall l : list A, Permutation (shuffle l) l) ->
  exists out : list A,
    s_dequeue (run_sampler zero (make_sampler n) chunks) shuffle = Ok out /\
    length out = Nat.min (length (stream chunks)) n /\
    (forall x : A, In x out -> In x (stream chunks)) /\
    (length (stream chunks) <= n -> Permutation out (stream chunks)).
Proof. exact (@sampler_output). Qed.
Print Assumptions C57_output_partial.
Theorem C57_prefix_only_refuted :
  forall (A : Type) (zero : A) (s : sampler A) (r d : list A) (dr : list nat),
  s_arr s = Some r ->
  s_n s <= s_index s ->
  exists r' : list A,
    s_arr (s_enqueue zero s d dr) = Some r' /\
    (forall x : A,
     In x r' -> In x r \/ In x (firstn (length (filter (fun i : nat => i <? s_n s) dr)) d)).
Proof. exact (@sampler_prefix_only). Qed.
Print Assumptions C57_prefix_only_refuted.
Theorem C57_wrong_row_refuted :
  forall (A : Type) (zero x y z : A),
  s_arr (run_sampler zero (make_sampler 1) [([x], []); ([y; z], [1; 0])]) = Some [y].
Proof. exact (@sampler_wrong_row_refuted). Qed.
Print Assumptions C57_wrong_row_refuted.
Theorem C57_empty :
  forall (A : Type) (n : nat) (shuffle : list A -> list A),
  s_dequeue (make_sampler n) shuffle = Raise TypeError.
Proof. exact (@sampler_empty). Qed.
Print Assumptions C57_empty.

(** C58 *)
Theorem C58_bits :
  forall (planes rows : list (list R)) (i j : nat) (r p : list R),
  nth_error rows i = Some r ->
  nth_error planes j = Some p ->
  exists (code : list bool) (b : bool),
    nth_error (simhash planes rows) i = Some code /\
    nth_error code j = Some b /\
    (b = true <-> (0 < sumR (map (fun xy : R * R => fst xy * snd xy) (combine p r)))%R).
Proof. exact (@simhash_bits). Qed.
Print Assumptions C58_bits.
Theorem C58_direction :
  forall (planes rows : list (list R)) (c : R),
  (0 < c)%R -> simhash planes (map (map (fun x : R => (c * x)%R)) rows) = simhash planes rows.
Proof. exact (@simhash_direction). Qed.
Print Assumptions C58_direction.
Theorem C58_opposite :
  forall (planes : list (list R)) (r : list R),
  (forall p : list R, In p planes -> dot p r <> 0%R) ->
  simhash planes [map (fun x : R => (-1 * x)%R) r] = map (map negb) (simhash planes [r]).
Proof. exact (@simhash_opposite). Qed.
Print Assumptions C58_opposite.
Theorem C58_shape :
  forall planes rows : list (list R),
  length (simhash planes rows) = length rows /\
  (forall r : list bool, In r (simhash planes rows) -> length r = length planes).
Proof. exact (@simhash_shape). Qed.
Print Assumptions C58_shape.
Theorem C58_rowwise :
  forall planes a b : list (list R), simhash planes (a ++ b) = simhash planes a ++ simhash planes b.
Proof. exact (@simhash_rowwise). Qed.
Print Assumptions C58_rowwise.
Theorem C58_zero :
  forall (planes : list (list R)) (n : nat),
  simhash planes [repeat 0%R n] = [repeat false (length planes)].
Proof. exact (@simhash_zero). Qed.
Print Assumptions C58_zero.

