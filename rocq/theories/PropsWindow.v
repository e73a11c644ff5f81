(** Property theorems C01-C03.  Only statements; proofs are in
    WindowedProofs.v and SlidingNodeProofs.v. *)
From Verif Require Import PyBase Windowed WindowedProofs SlidingNode SlidingNodeProofs.

(** C01: rows, leftover and coverage of windowed() without padding. *)
Theorem C01_windowed_partition :
  forall (A : Type) (zero : A) (a : list A) (w s : nat),
  2 <= w -> 1 <= s -> s <= w ->
  exists rows leftover,
    windowed zero a (Z.of_nat w) (Some (Z.of_nat s)) false
      = Ok (leftover, if length a <=? w then Flat [] else Rows rows)
    /\ length rows = (if length a <=? w then 0 else 1 + (length a - w) / s)
    /\ leftover = skipn (length rows * s) a
    /\ (forall i row, nth_error rows i = Some row ->
          length row = w /\
          forall j, j < w -> i * s + j < length a /\ nth_error row j = nth_error a (i * s + j))
    /\ (forall k, k < length a ->
          (exists i j row, nth_error rows i = Some row /\ j < w /\ i * s + j = k)
          \/ length rows * s <= k).
Proof. exact (fun A => windowed_nopad_all). Qed.
Print Assumptions C01_windowed_partition.

(** C01: window or step sizes below one are rejected; the default step is the
    window size. *)
Theorem C01_windowed_errors :
  forall (A : Type) (zero : A) (a : list A) (w : Z) (s : option Z) (p : bool),
  (w < 1)%Z \/ (exists v, s = Some v /\ (v < 1)%Z) ->
  windowed zero a w s p = Raise ValueError.
Proof. exact (fun A => windowed_errors). Qed.
Print Assumptions C01_windowed_errors.

Theorem C01_windowed_default_step :
  forall (A : Type) (zero : A) (a : list A) (w : Z) (p : bool),
  windowed zero a w None p = windowed zero a w (Some w) p.
Proof. exact (fun A => windowed_default_step). Qed.
Print Assumptions C01_windowed_default_step.

(** C01 for any step, also beyond the window size *)
Theorem C01_windowed_any_step :
  forall (A : Type) (zero : A) (a : list A) (w s : nat), 2 <= w -> 1 <= s ->
  exists rows,
    windowed zero a (Z.of_nat w) (Some (Z.of_nat s)) false
      = Ok (skipn (length rows * s) a, if length a <=? w then Flat [] else Rows rows)
    /\ length rows = (if length a <=? w then 0 else 1 + (length a - w) / s)
    /\ (forall i row, nth_error rows i = Some row -> row = firstn w (skipn (i * s) a) /\ length row = w).
Proof. exact (fun A => windowed_any_step). Qed.
Print Assumptions C01_windowed_any_step.

(** C01: a window of one sample is the samples themselves, every [s]-th of them *)
Theorem C01_windowed_one_sample :
  forall (A : Type) (zero : A) (a : list A) (s : nat) (p : bool), 1 <= s ->
  exists out, windowed zero a 1 (Some (Z.of_nat s)) p = Ok ([], Flat out) /\
    forall i, nth_error out i = nth_error a (i * s).
Proof. exact (fun A => windowed_one_all). Qed.
Print Assumptions C01_windowed_one_sample.

(** C02: the number of frames of a padded signal. *)
Theorem C02_windowed_padded_count :
  forall (A : Type) (zero : A) (a : list A) (w s : nat), 2 <= w -> 1 <= s -> s <= w ->
  exists rows, windowed zero a (Z.of_nat w) (Some (Z.of_nat s)) true = Ok ([], Rows rows) /\
    length rows = if length a <=? w then 1 else if w =? s then (length a + s - 1) / s else length a / s.
Proof. exact (fun A => windowed_pad_count). Qed.
Print Assumptions C02_windowed_padded_count.

(** C02: what dopad=True does, entry by entry, and exactly when it uses every
    sample. *)
Theorem C02_windowed_padded_exact :
  forall (A : Type) (zero : A) (a : list A) (w s : nat),
  2 <= w -> 1 <= s -> s <= w ->
  exists rows,
    windowed zero a (Z.of_nat w) (Some (Z.of_nat s)) true = Ok ([], Rows rows)
    /\ (forall i row, nth_error rows i = Some row ->
          length row = w /\
          forall j, j < w ->
            nth_error row j = Some (nth (i * s + j) a zero))
    /\ (1 <= length a ->
         ((forall k, k < length a -> exists i j row,
             nth_error rows i = Some row /\ j < w /\ i * s + j = k)
          <-> (length a <= w \/ w = s \/ length a mod s <= w - s))).
Proof. exact (fun A => windowed_pad_rows). Qed.
Print Assumptions C02_windowed_padded_exact.

(** C02 as documented is false of the code. *)
Theorem C02_windowed_padded_uses_all_refuted :
  exists (a : list nat) (w s : Z) rows,
    (2 <= w)%Z /\ (1 <= s <= w)%Z /\
    windowed 0 a w (Some s) true = Ok ([], Rows rows)
    /\ In 11 a /\ forall row, In row rows -> ~ In 11 row.
Proof. exact windowed_pad_loses. Qed.
Print Assumptions C02_windowed_padded_uses_all_refuted.

(** A step larger than the window loses its phase across chunks. *)
Theorem C03_gapped_windows_refuted :
  exists (a b : list nat) (w s : Z) l1 r1 l2 r2 l3 r3,
    (2 <= w)%Z /\ (w < s)%Z /\
    windowed 0 a w (Some s) false = Ok (l1, Rows r1) /\
    windowed 0 (l1 ++ b) w (Some s) false = Ok (l2, Rows r2) /\
    windowed 0 (a ++ b) w (Some s) false = Ok (l3, Rows r3) /\
    r1 ++ r2 <> r3.
Proof. exact windowed_gap_phase. Qed.
Print Assumptions C03_gapped_windows_refuted.

(** C03: the frames are always the successive windows of the stream extended by
    silence, covering every sample; their number is determined by the stream
    alone unless the stream length is a whole number of steps beyond one window, in
    which case at most the last frame (already covered) depends on the chunking. *)
Theorem C03_sliding_window_chunking_partial :
  forall (A : Type) (zero : A) (c : config A) (w s : nat) (chunks : list (list A)),
  2 <= w -> 1 <= s -> s <= w -> c_window c = Z.of_nat w -> c_step c = Z.of_nat s ->
  chunks <> [] ->
  let stream := repeat zero (c_padwith c) ++ concat chunks in
  let apply := match c_func c with None => fun r => r | Some f => f end in
  exists outs k,
    run zero c chunks = Ok outs
    /\ frames outs = map (fun i => apply (firstn w (skipn (i * s) (stream ++ repeat zero w)))) (seq 0 k)
    /\ (forall j, j < length stream -> exists i, i < k /\ i * s <= j < i * s + w)
    /\ (length stream <= w -> k = 1)
    /\ (w < length stream -> (length stream - w) mod s <> 0 -> k = 2 + (length stream - w) / s)
    /\ (w < length stream -> (length stream - w) mod s = 0 ->
          k = 2 + (length stream - w) / s \/ k = 1 + (length stream - w) / s).
Proof. exact (fun A => sliding_node_main). Qed.
Print Assumptions C03_sliding_window_chunking_partial.

Theorem C03_sliding_window_chunking_refuted :
  exists (c : config nat) (chunks1 chunks2 : list (list nat)) o1 o2,
    c_window c = 4%Z /\ c_step c = 2%Z /\
    concat chunks1 = concat chunks2 /\
    run 0 c chunks1 = Ok o1 /\ run 0 c chunks2 = Ok o2 /\
    frames o1 <> frames o2.
Proof. exact sliding_node_chunk_dependent. Qed.
Print Assumptions C03_sliding_window_chunking_refuted.
