(** Property theorems: InfiniteSampler (C87) and the gradients and optimizers of the trainers (C88). *)
From Coq Require Import QArith Reals.
From Verif Require Import PyBase PyFacts PyMore PyRange Float64 Reservoir ReservoirProofs Sampler SamplerProofs SamplerProofs2 Optim OptimProofs OptimProofs2.
Import ListNotations.
Local Open Scope Z_scope.

(** C87: what a document contributes *)
Theorem C87_contribution_bounds :
  forall n f total : Z,
  0 < n <= 2 ^ 53 -> 0 < f <= total -> exists k : Z, contribution n f total = Ok k /\ 1 <= k <= n.
Proof. exact (@contribution_bounds). Qed.
Print Assumptions C87_contribution_bounds.
Theorem C87_contribution_monotone :
  forall n f g total k l : Z,
  0 < n ->
  0 < f <= g ->
  0 < total -> contribution n f total = Ok k -> contribution n g total = Ok l -> k <= l.
Proof. exact (@contribution_monotone). Qed.
Print Assumptions C87_contribution_monotone.
Theorem C87_contribution_share :
  forall n f total k : Z,
  0 < n <= 2 ^ 50 ->
  0 < f <= total ->
  contribution n f total = Ok k ->
  (share n f total - 3 / 2 < IZR k < share n f total + 3 / 2)%R /\
  (1 < k -> (IZR k <= share n f total + 1 / 2)%R).
Proof. exact (@contribution_share). Qed.
Print Assumptions C87_contribution_share.
Theorem C87_contributions_total :
  forall (n : Z) (sizes ks : list Z),
  0 < n <= 2 ^ 50 ->
  (forall f : Z, In f sizes -> 0 < f) ->
  sizes <> [] ->
  let total := fold_right Z.add 0 sizes in
  Forall2 (fun f k : Z => contribution n f total = Ok k) sizes ks ->
  n - Zlen sizes <= fold_right Z.add 0 ks <= n + Zlen sizes.
Proof. exact (@contributions_total). Qed.
Print Assumptions C87_contributions_total.
Theorem C87_exact_share_refuted :
  share 98 1 49 = 2%R /\ contribution 98 1 49 = Ok 1.
Proof. exact (@exact_share_refuted). Qed.
Print Assumptions C87_exact_share_refuted.
Theorem C87_contribution_fails :
  forall n f : Z,
  contribution n f 0 = Raise ZeroDivisionError /\
  (forall total : Z, total <> 0 -> contribution n 0 total = Raise ValueError).
Proof. exact (@contribution_fails). Qed.
Print Assumptions C87_contribution_fails.
Theorem C87_contribution_example :
  contribution 1000 30 100 = Ok 300 /\
  contribution 1000 1 5000 = Ok 1 /\ contribution 10 7 7 = Ok 10.
Proof. exact (@contribution_example). Qed.
Print Assumptions C87_contribution_example.

(** C87: rounds and threads *)
Theorem C87_sampler_contents :
  forall (A : Type) (zero : A) (n : Z) (docs : list (list A)) (rounds : list (list draw)),
  0 < n ->
  docs <> [] ->
  Forall (Forall2 (valid_draw n (total_samples docs)) docs) rounds ->
  sampler_process zero n docs rounds =
  Ok
    (map
       (fun k : nat => Ok (contents (Z.to_nat n) (rounds_writes zero docs (firstn (S k) rounds))))
       (seq 0 (length rounds))).
Proof. exact (@sampler_contents). Qed.
Print Assumptions C87_sampler_contents.
Theorem C87_yield_rows :
  forall (A : Type) (zero : A) (n total : Z) (docs : list (list A)) (rounds : list (list draw))
    (x : A),
  (forall ds : list draw, In ds rounds -> Forall2 (valid_draw n total) docs ds) ->
  In x (contents (Z.to_nat n) (rounds_writes zero docs rounds)) ->
  exists doc : list A, In doc docs /\ In x doc.
Proof. exact (@yield_rows). Qed.
Print Assumptions C87_yield_rows.
Theorem C87_yield_size :
  forall (A : Type) (zero : A) (n total : Z) (docs : list (list A)) (ds : list draw)
    (rounds : list (list draw)),
  0 < n ->
  docs <> [] ->
  Forall2 (valid_draw n total) docs ds ->
  In ds rounds ->
  (1 <= length (contents (Z.to_nat n) (rounds_writes zero docs rounds)) <= Z.to_nat n)%nat.
Proof. exact (@yield_size). Qed.
Print Assumptions C87_yield_size.
Theorem C87_empty_document :
  forall (A : Type) (zero : A) (n : Z) (pre post : list (list A)) (rounds : list (list draw))
    (ds : list draw),
  0 < n ->
  total_samples (pre ++ [] :: post) <> 0 ->
  forall (dpre : list draw) (d : draw) (dpost : list draw),
  ds = dpre ++ d :: dpost ->
  Forall2 (valid_draw n (total_samples (pre ++ [] :: post))) pre dpre ->
  sampler_process zero n (pre ++ [] :: post) (ds :: rounds) = Ok [Raise ValueError].
Proof. exact (@empty_document). Qed.
Print Assumptions C87_empty_document.
Theorem C87_nothing_to_sample :
  forall (A : Type) (zero : A) (n : Z),
  0 < n ->
  (forall (doc : list A) (docs : list (list A)) (d : draw) (ds : list draw)
     (rounds : list (list draw)),
   Forall (eq []) (doc :: docs) ->
   sampler_process zero n (doc :: docs) ((d :: ds) :: rounds) = Ok [Raise ZeroDivisionError]) /\
  (forall (ds : list draw) (rounds : list (list draw)),
   sampler_process zero n [] (ds :: rounds) = Ok [Raise TypeError]) /\
  (forall (docs : list (list A)) (rounds : list (list draw)) (m : Z),
   m <= 0 -> sampler_process zero m docs rounds = Raise ValueError).
Proof. exact (@nothing_to_sample). Qed.
Print Assumptions C87_nothing_to_sample.
Theorem C87_threads_keep_rows :
  forall (A : Type) (zero : A) (n a : nat) (ws : list (worker A)) (s : shared A) (sched : list nat),
  Forall (good_worker n) ws ->
  current s = Some a ->
  (a < length (memory s))%nat ->
  length (nth a (memory s) []) = n ->
  (forall i : nat, In i (recorded s) -> (i < n)%nat) ->
  let
  '(pcs, s') := run_threads zero n ws sched (start_pcs ws) s in
   (forall i : nat,
    In i (recorded s') ->
    exists x : A,
      slot_value s' i = Some x /\
      (In i (recorded s) /\ slot_value s i = Some x \/ (exists w : worker A, In w ws /\ puts w i x))) /\
   (forall (t : nat) (w : worker A),
    nth_error ws t = Some w ->
    nth_error pcs t = Some PDone -> forall i : nat, In i (w_slots w) -> In i (recorded s')) /\
   ~ In PFailed pcs.
Proof. exact (@threads_keep_rows). Qed.
Print Assumptions C87_threads_keep_rows.
Theorem C87_threads_finish :
  forall (A : Type) (zero : A) (n a : nat) (ws : list (worker A)) (s : shared A) 
    (sched : list nat) (t : nat) (w : worker A),
  Forall (good_worker n) ws ->
  current s = Some a ->
  (a < length (memory s))%nat ->
  length (nth a (memory s) []) = n ->
  (forall i : nat, In i (recorded s) -> (i < n)%nat) ->
  nth_error ws t = Some w ->
  (4 <= count_occ Nat.eq_dec sched t)%nat ->
  nth_error (fst (run_threads zero n ws sched (start_pcs ws) s)) t = Some PDone.
Proof. exact (@threads_finish). Qed.
Print Assumptions C87_threads_finish.
Theorem C87_first_round_alone :
  forall (A : Type) (zero : A) (n : nat) (ws : list (worker A)) (t : nat) 
    (w : worker A) (sched : list nat),
  Forall (good_worker n) ws ->
  nth_error ws t = Some w ->
  let
  '(pcs, s') := run_threads zero n ws (t :: t :: sched) (start_pcs ws) fresh in
   (forall i : nat,
    In i (recorded s') ->
    exists x : A, slot_value s' i = Some x /\ (exists v : worker A, In v ws /\ puts v i x)) /\
   (forall (u : nat) (v : worker A),
    nth_error ws u = Some v ->
    nth_error pcs u = Some PDone -> forall i : nat, In i (w_slots v) -> In i (recorded s')) /\
   ~ In PFailed pcs.
Proof. exact (@first_round_alone). Qed.
Print Assumptions C87_first_round_alone.
Theorem C87_first_round_race_refuted :
  forall (A : Type) (zero x y : A),
  let ws :=
    [{| w_rows := [x]; w_slots := [0%nat]; w_dims := false |};
     {| w_rows := [y]; w_slots := [1%nat]; w_dims := false |}] in
  let
  '(pcs, s') :=
   run_threads zero 2 ws [0%nat; 1%nat; 0%nat; 0%nat; 0%nat; 0%nat; 1%nat; 1%nat; 1%nat; 1%nat]
     (start_pcs ws) fresh in
   pcs = [PDone; PDone] /\
   recorded s' = [0%nat; 1%nat] /\ slot_value s' 0 = Some zero /\ slot_value s' 1 = Some y.
Proof. exact (@first_round_race_refuted). Qed.
Print Assumptions C87_first_round_race_refuted.
Theorem C87_sampler_example :
  let docs := [[10; 20; 30]; [40]] in
  let rounds :=
    [[{| d_rows := [0; 2; 2]; d_slots := [0; 1; 3] |}; {| d_rows := [0]; d_slots := [1] |}];
     [{| d_rows := [1; 1; 0]; d_slots := [2; 2; 0] |}; {| d_rows := [0]; d_slots := [3] |}]] in
  Forall (Forall2 (valid_draw 4 (total_samples docs)) docs) rounds /\
  sampler_process 0 4 docs rounds = Ok [Ok [10; 40; 30]; Ok [10; 40; 20; 40]].
Proof. exact (@SamplerProofs2.sampler_example). Qed.
Print Assumptions C87_sampler_example.
Theorem C87_threads_example :
  let ws :=
    [{| w_rows := [11; 12]; w_slots := [0%nat; 2%nat]; w_dims := true |};
     {| w_rows := [13]; w_slots := [2%nat]; w_dims := true |}] in
  Forall (good_worker 3) ws /\
  run_threads 0 3 ws [0%nat; 0%nat; 1%nat; 0%nat; 1%nat; 0%nat; 0%nat; 1%nat; 0%nat; 1%nat; 0%nat]
    (start_pcs ws) fresh =
  ([PDone; PDone],
   {| memory := [[11; 0; 12]]; current := Some 0%nat; recorded := [2%nat; 0%nat; 2%nat] |}).
Proof. exact (@threads_example). Qed.
Print Assumptions C87_threads_example.

(** C88: the adversarial trainer *)
Theorem C88_gan_reference :
  forall (V S : Type) (vzero : V -> V) (vadd : V -> V -> V) (adam : S -> V -> V -> V * S) 
    (s0 : S) (to_none : bool),
  (forall h g : V, vadd (vzero h) g = g) ->
  forall (A N K L : Type) (kwargs_of : Z -> K)
    (d_loss : K -> list V -> list V -> list A -> N -> L * L * list V)
    (g_loss : K -> list V -> list V -> N -> L * list V * list V)
    (rows_drawn : Z -> Z -> nat -> list Z) (noise_drawn : Z -> Z -> nat -> N)
    (gen_noise : Z -> Z -> N) (rows : Z -> Z -> nat -> list A) (data : list A)
    (n_critic batch epochs checkpoint : Z) (st : gan V S) (r : ref),
  d_shaped d_loss ->
  g_shaped g_loss ->
  drawn rows_drawn rows data ->
  0 < n_critic ->
  0 < batch ->
  start_ref s0 st r ->
  exists is : list Z,
    py_range 0 (Zlen data) batch = Ok is /\
    (let m := Nat.min (Z.to_nat checkpoint) (Z.to_nat (epochs - g_epoch st)) in
     let pairs := epoch_pairs is (g_epoch st) m in
     exists st' : gan V S,
       gan_train vzero vadd adam s0 to_none kwargs_of d_loss g_loss rows_drawn noise_drawn
         gen_noise n_critic batch epochs checkpoint data st =
       (st',
        ref_reports adam kwargs_of d_loss g_loss noise_drawn gen_noise rows 
          (Z.to_nat n_critic) r pairs, Ok tt) /\
       start_ref s0 st'
         (ref_train adam kwargs_of d_loss g_loss noise_drawn gen_noise rows 
            (Z.to_nat n_critic) r pairs) /\
       g_epoch st' = g_epoch st + Z.of_nat m /\ (is <> [] -> (0 < m)%nat -> after_batch vzero st')).
Proof. exact (@gan_reference). Qed.
Print Assumptions C88_gan_reference.
Theorem C88_gan_checkpoints :
  forall (V S : Type) (vzero : V -> V) (vadd : V -> V -> V) (adam : S -> V -> V -> V * S) 
    (s0 : S) (to_none : bool),
  (forall h g : V, vadd (vzero h) g = g) ->
  forall (A N K L : Type) (kwargs_of : Z -> K)
    (d_loss : K -> list V -> list V -> list A -> N -> L * L * list V)
    (g_loss : K -> list V -> list V -> N -> L * list V * list V)
    (rows_drawn : Z -> Z -> nat -> list Z) (noise_drawn : Z -> Z -> nat -> N)
    (gen_noise : Z -> Z -> N) (rows : Z -> Z -> nat -> list A) (data : list A)
    (n_critic batch epochs checkpoint : Z) (k : nat) (st : gan V S) (r : ref),
  d_shaped d_loss ->
  g_shaped g_loss ->
  drawn rows_drawn rows data ->
  0 < n_critic ->
  0 < batch ->
  start_ref s0 st r ->
  g_epoch st = 0 ->
  exists is : list Z,
    py_range 0 (Zlen data) batch = Ok is /\
    (let m := Nat.min (k * Z.to_nat checkpoint) (Z.to_nat epochs) in
     exists st' : gan V S,
       gan_calls vzero vadd adam s0 to_none kwargs_of d_loss g_loss rows_drawn noise_drawn
         gen_noise n_critic batch epochs checkpoint data k st =
       (st',
        ref_reports adam kwargs_of d_loss g_loss noise_drawn gen_noise rows 
          (Z.to_nat n_critic) r (epoch_pairs is 0 m), Ok tt) /\
       start_ref s0 st'
         (ref_train adam kwargs_of d_loss g_loss noise_drawn gen_noise rows 
            (Z.to_nat n_critic) r (epoch_pairs is 0 m)) /\ g_epoch st' = Z.of_nat m).
Proof. exact (@gan_checkpoints). Qed.
Print Assumptions C88_gan_checkpoints.
Theorem C88_no_critic_refuted :
  forall (V S : Type) (vzero : V -> V) (vadd : V -> V -> V) (adam : S -> V -> V -> V * S) 
    (s0 : S) (to_none : bool),
  (forall h g : V, vadd (vzero h) g = g) ->
  forall (A N K L : Type) (kwargs_of : Z -> K)
    (d_loss : K -> list V -> list V -> list A -> N -> L * L * list V)
    (g_loss : K -> list V -> list V -> N -> L * list V * list V)
    (rows_drawn : Z -> Z -> nat -> list Z) (noise_drawn : Z -> Z -> nat -> N)
    (gen_noise : Z -> Z -> N) (rows : Z -> Z -> nat -> list A) (data : list A)
    (n_critic batch epochs checkpoint : Z) (st : gan V S) (r : ref),
  d_shaped d_loss ->
  g_shaped g_loss ->
  drawn rows_drawn rows data ->
  n_critic <= 0 ->
  0 < batch ->
  start_ref s0 st r ->
  data <> [] ->
  g_epoch st < epochs ->
  0 < checkpoint ->
  exists st' : gan V S,
    gan_train vzero vadd adam s0 to_none kwargs_of d_loss g_loss rows_drawn noise_drawn gen_noise
      n_critic batch epochs checkpoint data st = (st', [], Raise UnboundLocalError) /\
    agrees (ref_gen adam kwargs_of g_loss gen_noise (g_epoch st) 0 r) st'.
Proof. exact (@no_critic). Qed.
Print Assumptions C88_no_critic_refuted.
Theorem C88_gan_unfreezes_refuted :
  let st :=
    {|
      g_gen := [{| p_val := 10; p_grad := None; p_req := false |}];
      g_crit := [{| p_val := 20; p_grad := Some 99; p_req := false |}];
      g_gopt := None;
      g_copt := None;
      g_epoch := 0
    |} in
  toy_gan 2 1 5 1 [4] st =
  ({|
     g_gen := [{| p_val := -1; p_grad := Some 11; p_req := true |}];
     g_crit := [{| p_val := -28; p_grad := None; p_req := false |}];
     g_gopt := Some [Some 11];
     g_copt := Some [Some 24];
     g_epoch := 1
   |}, [{| r_epoch := 0; r_batch := 0; r_gen := 2; r_real := 7; r_critic := 3 |}], 
   Ok tt).
Proof. exact (@gan_unfreezes_refuted). Qed.
Print Assumptions C88_gan_unfreezes_refuted.
Theorem C88_gan_hypotheses :
  d_shaped
    (fun (_ : Z) (_ c xs : list Z) (z : Z) =>
     (z, 7, map (fun v : Z => v + fold_right Z.add 0 xs) c)) /\
  g_shaped (fun (_ : Z) (g c : list Z) (z : Z) => (z, map (fun v : Z => v + 1) g, c)) /\
  drawn (fun (_ _ : Z) (_ : nat) => [0]) (fun (_ _ : Z) (_ : nat) => [4]) [4] /\
  start_ref 0
    {|
      g_gen := [{| p_val := 10; p_grad := None; p_req := false |}];
      g_crit := [{| p_val := 20; p_grad := Some 99; p_req := false |}];
      g_gopt := None;
      g_copt := None;
      g_epoch := 0
    |} {| f_gen := [10]; f_gs := [0]; f_crit := [20]; f_cs := [0] |}.
Proof. exact (@gan_hypotheses). Qed.
Print Assumptions C88_gan_hypotheses.
Theorem C88_minibatch_rows :
  forall (A : Type) (data : list A) (ix : list Z),
  (forall i : Z, In i ix -> 0 <= i < Zlen data) ->
  exists rows : list A,
    mapM (py_get data) ix = Ok rows /\
    length rows = length ix /\
    Forall2 (fun (i : Z) (x : A) => nth_error data (Z.to_nat i) = Some x) ix rows.
Proof. exact (@minibatch_rows). Qed.
Print Assumptions C88_minibatch_rows.

(** C88: triplets and supervised training *)
Theorem C88_triplet_reference :
  forall (V S : Type) (vzero : V -> V) (vadd : V -> V -> V) (adam : S -> V -> V -> V * S) 
    (s0 : S) (to_none : bool),
  (forall h g : V, vadd (vzero h) g = g) ->
  forall (A L : Type) (t_loss : list V -> list A -> list A -> list A -> L * list V) 
    (cut : A -> A) (anchors negatives : Z -> Z -> list Z) (pick : Z -> Z -> nat)
    (wide neg : Z -> Z -> list A) (deform : Z -> Z -> list A -> list A -> list A)
    (fs : list (list A -> list A -> list A)) (batch epochs checkpoint : Z) 
    (data : list A) (st : single V S),
  (forall (v : list V) (a p n : list A), length (snd (t_loss v a p n)) = length v) ->
  (forall e b : Z,
   mapM (py_get data) (anchors e b) = Ok (wide e b) /\
   mapM (py_get data) (negatives e b) = Ok (neg e b) /\ nth_error fs (pick e b) = Some (deform e b)) ->
  0 < batch ->
  existsb p_req (n_params st) = true ->
  let m := Nat.min (Z.to_nat checkpoint) (Z.to_nat (epochs + 1 - n_epoch st)) in
  let pairs := epoch_pairs (zrange (Zlen data / batch)) (n_epoch st) m in
  let q := (fresh_opt s0 (map p_req (n_params st)), vals (n_params st)) in
  exists st' : single V S,
    triplet_fit vzero vadd adam s0 to_none t_loss cut anchors negatives pick 
      (Some fs) batch epochs checkpoint data st =
    (st',
     reps (triplet_next adam t_loss cut wide neg deform) (triplet_rep t_loss cut wide neg deform) q
       pairs, Ok tt) /\
    vals (n_params st') = snd (fold_left (triplet_next adam t_loss cut wide neg deform) pairs q) /\
    n_opt st' = Some (fst (fold_left (triplet_next adam t_loss cut wide neg deform) pairs q)) /\
    map p_req (n_params st') = map p_req (n_params st) /\ n_epoch st' = n_epoch st + Z.of_nat m.
Proof. exact (@triplet_reference). Qed.
Print Assumptions C88_triplet_reference.
Theorem C88_triplet_frozen :
  forall (V S : Type) (vzero : V -> V) (vadd : V -> V -> V) (adam : S -> V -> V -> V * S) 
    (s0 : S) (to_none : bool),
  (forall h g : V, vadd (vzero h) g = g) ->
  forall (A L : Type) (t_loss : list V -> list A -> list A -> list A -> L * list V) 
    (cut : A -> A) (anchors negatives : Z -> Z -> list Z) (pick : Z -> Z -> nat)
    (wide neg : Z -> Z -> list A) (deform : Z -> Z -> list A -> list A -> list A)
    (fs : list (list A -> list A -> list A)) (batch epochs checkpoint : Z) 
    (data : list A) (st : single V S) (j : nat) (v : V),
  (forall (v0 : list V) (a p n : list A), length (snd (t_loss v0 a p n)) = length v0) ->
  (forall e b : Z,
   mapM (py_get data) (anchors e b) = Ok (wide e b) /\
   mapM (py_get data) (negatives e b) = Ok (neg e b) /\ nth_error fs (pick e b) = Some (deform e b)) ->
  0 < batch ->
  existsb p_req (n_params st) = true ->
  nth_error (map p_req (n_params st)) j = Some false ->
  nth_error (vals (n_params st)) j = Some v ->
  nth_error
    (vals
       (n_params
          (fst
             (fst
                (triplet_fit vzero vadd adam s0 to_none t_loss cut anchors negatives pick 
                   (Some fs) batch epochs checkpoint data st))))) j = Some v.
Proof. exact (@triplet_frozen). Qed.
Print Assumptions C88_triplet_frozen.
Theorem C88_triplet_no_deformation :
  forall (V S : Type) (vzero : V -> V) (vadd : V -> V -> V) (adam : S -> V -> V -> V * S)
    (to_none : bool) (A L : Type) (t_loss : list V -> list A -> list A -> list A -> L * list V)
    (cut : A -> A) (anchors negatives : Z -> Z -> list Z) (pick : Z -> Z -> nat)
    (fs : option (list (list A -> list A -> list A))) (e b : Z) (data : list A) 
    (st : single V S),
  anchors e b = [] ->
  negatives e b = [] ->
  snd (triplet_step vzero vadd adam to_none t_loss cut anchors negatives pick fs data e b st) =
  match fs with
  | Some [] => Raise IndexError
  | Some ((_ :: _) as l) =>
      snd
        (triplet_step vzero vadd adam to_none t_loss cut anchors negatives pick 
           (Some l) data e b st)
  | None => Raise TypeError
  end.
Proof. exact (@triplet_no_deformation). Qed.
Print Assumptions C88_triplet_no_deformation.
Theorem C88_triplet_checkpoint_refuted :
  let fit :=
    triplet_fit (fun _ : Z => 0) Z.add momentum 0 true
      (fun v _ _ _ : list Z => (0, map (fun _ : Z => 1) v)) (fun x : Z => x) 
      (fun _ _ : Z => [0]) (fun _ _ : Z => [0]) (fun _ _ : Z => 0%nat)
      (Some [fun a _ : list Z => a]) in
  let st :=
    {|
      n_params := [{| p_val := 0; p_grad := None; p_req := true |}]; n_opt := None; n_epoch := 0
    |} in
  let once := fst (fst (fit 1 10 2 [5] st)) in
  let twice := fst (fst (fit 1 10 1 [5] (fst (fst (fit 1 10 1 [5] st))))) in
  n_epoch once = 2 /\
  n_epoch twice = 2 /\ vals (n_params once) = [-3] /\ vals (n_params twice) = [-2].
Proof. exact (@triplet_checkpoint_refuted). Qed.
Print Assumptions C88_triplet_checkpoint_refuted.
Theorem C88_supervised_reference :
  forall (V S : Type) (vzero : V -> V) (vadd : V -> V -> V) (adam : S -> V -> V -> V * S)
    (to_none : bool),
  (forall h g : V, vadd (vzero h) g = g) ->
  forall (A L : Type) (s_loss : list V -> list A -> L * list V) (crashes : Z -> Z -> option bool)
    (python2 : bool) (batch epochs checkpoint : Z) (train : list A) (req : list bool)
    (q : opt S * list V) (st : single V S),
  (forall (v : list V) (xs : list A), length (snd (s_loss v xs)) = length v) ->
  (forall e i : Z, crashes e i = None \/ python2 = true /\ crashes e i = Some true) ->
  0 < batch ->
  state_is req q st ->
  exists is : list Z,
    py_range 0 (Zlen train) batch = Ok is /\
    (let m := Nat.min (Z.to_nat checkpoint) (Z.to_nat (epochs - n_epoch st)) in
     let pairs := epoch_pairs is (n_epoch st) m in
     exists st' : single V S,
       supervised_fit vzero vadd adam to_none s_loss crashes python2 batch epochs checkpoint train
         st =
       (st',
        reps (supervised_next adam s_loss crashes batch train)
          (supervised_rep s_loss crashes batch train) q pairs, Ok tt) /\
       state_is req (fold_left (supervised_next adam s_loss crashes batch train) pairs q) st' /\
       n_epoch st' = n_epoch st + Z.of_nat m).
Proof. exact (@supervised_reference). Qed.
Print Assumptions C88_supervised_reference.
Theorem C88_supervised_checkpoints :
  forall (V S : Type) (vzero : V -> V) (vadd : V -> V -> V) (adam : S -> V -> V -> V * S)
    (to_none : bool),
  (forall h g : V, vadd (vzero h) g = g) ->
  forall (A L : Type) (s_loss : list V -> list A -> L * list V) (crashes : Z -> Z -> option bool)
    (python2 : bool) (batch epochs checkpoint : Z) (train : list A) (req : list bool)
    (q : opt S * list V) (st : single V S) (k : nat),
  (forall (v : list V) (xs : list A), length (snd (s_loss v xs)) = length v) ->
  (forall e i : Z, crashes e i = None \/ python2 = true /\ crashes e i = Some true) ->
  0 < batch ->
  state_is req q st ->
  n_epoch st = 0 ->
  exists is : list Z,
    py_range 0 (Zlen train) batch = Ok is /\
    (let m := Nat.min (k * Z.to_nat checkpoint) (Z.to_nat epochs) in
     exists st' : single V S,
       supervised_calls vzero vadd adam to_none s_loss crashes python2 batch epochs checkpoint
         train k st =
       (st',
        reps (supervised_next adam s_loss crashes batch train)
          (supervised_rep s_loss crashes batch train) q (epoch_pairs is 0 m), 
        Ok tt) /\
       state_is req
         (fold_left (supervised_next adam s_loss crashes batch train) (epoch_pairs is 0 m) q) st' /\
       n_epoch st' = Z.of_nat m).
Proof. exact (@supervised_checkpoints). Qed.
Print Assumptions C88_supervised_checkpoints.
Theorem C88_supervised_crash_python2 :
  forall (V S : Type) (vzero : V -> V) (vadd : V -> V -> V) (adam : S -> V -> V -> V * S)
    (to_none : bool) (A L : Type) (s_loss : list V -> list A -> L * list V)
    (crashes : Z -> Z -> option bool) (python2 : bool) (batch : Z) (train : list A) 
    (e i : Z) (st : single V S) (a : bool),
  crashes e i = Some a ->
  python2 = true ->
  snd (supervised_step vzero vadd adam to_none s_loss crashes python2 batch train e i st) =
  (if a then Ok None else Raise RuntimeError) /\
  vals
    (n_params
       (fst (supervised_step vzero vadd adam to_none s_loss crashes python2 batch train e i st))) =
  vals (n_params st) /\
  n_opt (fst (supervised_step vzero vadd adam to_none s_loss crashes python2 batch train e i st)) =
  n_opt st.
Proof. exact (@supervised_crash_python2). Qed.
Print Assumptions C88_supervised_crash_python2.
Theorem C88_supervised_crash_refuted :
  forall (V S : Type) (vzero : V -> V) (vadd : V -> V -> V) (adam : S -> V -> V -> V * S)
    (to_none : bool) (A L : Type) (s_loss : list V -> list A -> L * list V)
    (crashes : Z -> Z -> option bool) (python2 : bool) (batch : Z) (train : list A) 
    (e i : Z) (st : single V S) (a : bool),
  crashes e i = Some a ->
  python2 = false ->
  snd (supervised_step vzero vadd adam to_none s_loss crashes python2 batch train e i st) =
  Raise AttributeError /\
  vals
    (n_params
       (fst (supervised_step vzero vadd adam to_none s_loss crashes python2 batch train e i st))) =
  vals (n_params st).
Proof. exact (@supervised_crash_refuted). Qed.
Print Assumptions C88_supervised_crash_refuted.
Theorem C88_single_hypotheses :
  state_is [true; false] ([Some 3; None], [5; 6])
    {|
      n_params :=
        [{| p_val := 5; p_grad := Some 1; p_req := true |};
         {| p_val := 6; p_grad := None; p_req := false |}];
      n_opt := Some [Some 3; None];
      n_epoch := 0
    |} /\
  fold_left
    (supervised_next momentum
       (fun v xs : list Z => (0, map (fun x : Z => x + fold_right Z.add 0 xs) v))
       (fun _ _ : Z => None) 2 [1; 2; 3]) (epoch_pairs [0; 2] 0 1) ([Some 3; None], [5; 6]) =
  ([Some 8; None], [-14; 6]).
Proof. exact (@single_hypotheses). Qed.
Print Assumptions C88_single_hypotheses.

