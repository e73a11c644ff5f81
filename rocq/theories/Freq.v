(** Model of zounds/spectral/frequencyscale.py (FrequencyBand, FrequencyScale
    and its subclasses).  Frequencies are real numbers: float64 rounding is not
    modelled.  Units (Hertz, Bark, Mel wrappers) are erased to their value in
    hertz, except where a bound is tested for being a Hertz instance. *)
From Verif Require Import PyBase PyFacts PyMore.
From Coq Require Export Reals Lra.
Local Open Scope R_scope.

Definition Rltb (x y : R) : bool := if Rlt_dec x y then true else false.
Definition Rleb (x y : R) : bool := if Rle_dec x y then true else false.
Definition Reqb (x y : R) : bool := if Req_EM_T x y then true else false.

(** frequencyscale.py:31-53 FrequencyBand fields; instances are only built by
    [make_band] (the constructor). *)
Record band := mkBand { bstart : R; bstop : R }.

(** frequencyscale.py:48-53 FrequencyBand.__init__ *)
Definition make_band (start stop : R) : result band :=
  if Rleb stop start then Raise ValueError else Ok (mkBand start stop).

(** frequencyscale.py:55-61 FrequencyBand.__eq__ *)
Definition band_eqb (a b : band) : bool :=
  Reqb (bstart a) (bstart b) && Reqb (bstop a) (bstop b).

(** frequencyscale.py:66-82 FrequencyBand.intersect *)
Definition intersect (a b : band) : result band :=
  make_band (Rmax (bstart a) (bstart b)) (Rmin (bstop a) (bstop b)).

(** frequencyscale.py:115-120 bandwidth *)
Definition bandwidth (b : band) : R := bstop b - bstart b.
(** frequencyscale.py:122-124 center_frequency *)
Definition center (b : band) : R := bstart b + bandwidth b / 2.
(** frequencyscale.py:89-90 bandwidth_ratio *)
Definition bandwidth_ratio (a b : band) : R := bandwidth b / bandwidth a.
(** frequencyscale.py:92-94 intersection_ratio *)
Definition intersection_ratio (a b : band) : result R :=
  do i <- intersect a b; Ok (bandwidth_ratio a i).
(** frequencyscale.py:96-107 from_start *)
Definition from_start (start bw : R) : result band := make_band start (start + bw).
(** frequencyscale.py:109-113 from_center *)
Definition from_center (c bw : R) : result band :=
  make_band (c - bw / 2) (c + bw / 2).

(** numpy: np.linspace(start, stop, n, endpoint=False)[i] *)
Definition linspace_open (start stop : R) (n : nat) : list R :=
  map (fun i => start + INR i * ((stop - start) / INR n)) (seq 0 n).
(** numpy: np.linspace(start, stop, n); with n = 1 it is [start] *)
Definition linspace (start stop : R) (n : nat) : list R :=
  map (fun i => start + INR i * ((stop - start) / INR (n - 1))) (seq 0 n).
(** numpy: np.geomspace(start, stop, n) for positive limits *)
Definition geomspace (start stop : R) (n : nat) : list R :=
  map (fun i => start * Rpower (stop / start) (INR i / INR (n - 1))) (seq 0 n).

(** frequencyscale.py:520-526 Bark.to_hz, Bark.to_bark.  The power [np.e ** x] is
    [exp x]. *)
Definition bark_to_hz (b : R) : R := 300 * (exp (b / 6) - exp (- b / 6)).
Definition hz_to_bark (h : R) : R := 6 * ln (h / 600 + sqrt ((h / 600) ^ 2 + 1)).
(** frequencyscale.py:529-530 equivalent_rectangular_bandwidth *)
Definition erb (h : R) : R := 0.108 * h + 24.7.
(** frequencyscale.py:553-559 Mel.to_hz, Mel.to_mel *)
Definition mel_to_hz (m : R) : R := 700 * (exp (m / 1127) - 1).
Definition hz_to_mel (h : R) : R := 1127 * ln (1 + h / 700).

(** The scale classes.  [Linear], [Bark], [Mel] carry their constructor
    arguments; [Explicit] its bands; [Chroma] has no bands of its own. *)
Inductive scale :=
| Linear (fb : band) (n : nat) (always_even : bool)
| Geometric (start_center stop_center ratio : R) (n : nat) (always_even : bool)
| Explicit (bs : list band)
| BarkS (fb : band) (n : nat)
| MelS (fb : band) (n : nat)
| Chroma (fb : band).

(** frequencyscale.py:400-405 LinearScale._compute_bands: [freqs[1] - freqs[0]]
    is an IndexError for fewer than two bands. *)
Definition linear_bands (fb : band) (n : nat) : result (list band) :=
  let freqs := linspace_open (bstart fb) (bstop fb) n in
  match freqs with
  | f0 :: f1 :: _ => mapM (fun f => make_band f (f + (f1 - f0))) freqs
  | _ => Raise IndexError
  end.

(** frequencyscale.py:461-464 GeometricScale bands *)
Definition geometric_bands (sc ec ratio : R) (n : nat) : result (list band) :=
  mapM (fun cf => from_center cf (cf * ratio)) (geomspace sc ec n).

(** frequencyscale.py:537-545 BarkScale._compute_bands *)
Definition bark_bands (fb : band) (n : nat) : result (list band) :=
  let cs := map bark_to_hz (linspace (hz_to_bark (bstart fb)) (hz_to_bark (bstop fb)) n) in
  mapM (fun c => from_center c (erb c)) cs.

(** frequencyscale.py:566-574 MelScale._compute_bands *)
Definition mel_bands (fb : band) (n : nat) : result (list band) :=
  let cs := map mel_to_hz (linspace (hz_to_mel (bstart fb)) (hz_to_mel (bstop fb)) n) in
  mapM (fun c => from_center c (erb c)) cs.

(** frequencyscale.py:166-173 FrequencyScale.bands, dispatching to each class *)
Definition scale_bands (s : scale) : result (list band) :=
  match s with
  | Linear fb n _ => linear_bands fb n
  | Geometric sc ec r n _ => geometric_bands sc ec r n
  | Explicit bs => Ok bs
  | BarkS fb n => bark_bands fb n
  | MelS fb n => mel_bands fb n
  | Chroma _ => Raise NotImplementedError
  end.

(** frequencyscale.py:190-191 __len__ (n_bands); Chroma has 12 (581) *)
Definition scale_len (s : scale) : nat :=
  match s with
  | Linear _ n _ | Geometric _ _ _ n _ | BarkS _ n | MelS _ n => n
  | Explicit bs => length bs
  | Chroma _ => 12
  end.

(** frequencyscale.py:465, 500: the span of a list of bands,
    [FrequencyBand(bands[0].start_hz, bands[-1].stop_hz)] *)
Definition span_band (bs : list band) : result band :=
  match bs with
  | [] => Raise IndexError
  | b :: _ => make_band (bstart b) (bstop (last bs b))
  end.

(** frequencyscale.py:249-261: the frequency band of the scale *)
Definition scale_band (s : scale) : result band :=
  match s with
  | Linear fb _ _ | BarkS fb _ | MelS fb _ | Chroma fb => Ok fb
  | Geometric sc ec r n _ => do bs <- geometric_bands sc ec r n; span_band bs
  | Explicit bs => span_band bs
  end.

(** frequencyscale.py:454-470, 498-503: constructors that may raise *)
Definition make_geometric (sc ec r : R) (n : nat) (ae : bool) : result scale :=
  do bs <- geometric_bands sc ec r n; do _ <- span_band bs; Ok (Geometric sc ec r n ae).
Definition make_explicit (bs : list band) : result scale :=
  do _ <- span_band bs; Ok (Explicit bs).

(** frequencyscale.py:159 always_even; Explicit, Bark, Mel pass False. *)
Definition scale_even (s : scale) : bool :=
  match s with
  | Linear _ _ ae | Geometric _ _ _ _ ae => ae
  | _ => false
  end.

(** frequencyscale.py:285-287, 472-473, 505-506 _construct_scale_from_slice.
    [self.__class__(freq_band, n)] for Linear, Bark, Mel; ExplicitScale for
    Geometric and Explicit.  [always_even] falls back to False. *)
Definition construct_from_slice (s : scale) (bs : list band) : result scale :=
  match s with
  | Linear _ _ _ => do fb <- span_band bs; Ok (Linear fb (length bs) false)
  | BarkS _ _ => do fb <- span_band bs; Ok (BarkS fb (length bs))
  | MelS _ _ => do fb <- span_band bs; Ok (MelS fb (length bs))
  | Geometric _ _ _ _ _ | Explicit _ => make_explicit bs
  | Chroma _ => Raise TypeError
  end.

(** CPython's bisect.bisect_left: binary search with lo, hi; each turn shrinks
    [hi - lo], so [length a] turns suffice. *)
Fixpoint bisect_loop (fuel : nat) (a : list R) (x : R) (lo hi : nat) : nat :=
  match fuel with
  | O => lo
  | S f =>
      if (lo <? hi)%nat then
        let mid := ((lo + hi) / 2)%nat in
        if Rltb (nth mid a 0) x then bisect_loop f a x (mid + 1) hi
        else bisect_loop f a x lo mid
      else lo
  end.
Definition bisect_left (a : list R) (x : R) : nat :=
  bisect_loop (length a) a x 0 (length a).

(** frequencyscale.py:315-329, the second half of get_slice: a band *)
Definition get_slice_band (s : scale) (q : band) : result (nat * nat) :=
  do bs <- scale_bands s;
  let i := bisect_left (map bstop bs) (bstart q) in
  let j := bisect_left (map bstart bs) (bstop q) in
  (* Python's [%] on a possibly negative difference: odd iff nonzero mod 2 *)
  let odd := negb (Z.even (Z.of_nat j - Z.of_nat i)) in
  Ok (i, if scale_even s && odd then S j else j).

(** What a user may put between the brackets. *)
Inductive findex :=
| IBand (q : band)                       (* a FrequencyBand *)
| IHertz (start stop : option R)         (* slice, some bound a Hertz *)
| ISlice (sl : pyslice)                  (* slice of ints *)
| IInt (i : Z).                          (* an int *)

(** frequencyscale.py:297-313: the band denoted by a slice of Hertz; a
    ValueError of FrequencyBand is swallowed, and the slice object then has no
    [start_hz] (AttributeError). *)
Definition hertz_band (s : scale) (start stop : option R) : result band :=
  do fb <- scale_band s;
  let st := match start with None => 0 | Some x => x end in
  let st := if Rltb st 0 then bstop fb + st else st in
  let en := match stop with None => bstop fb | Some x => x end in
  let en := if Rltb en 0 then bstop fb + en else en in
  match make_band st en with
  | Ok b => Ok b
  | Raise _ => Raise AttributeError
  end.

Definition nat_slice (p : nat * nat) : pyslice :=
  (Some (Z.of_nat (fst p)), Some (Z.of_nat (snd p))).

(** frequencyscale.py:289-329 get_slice.  An int has no [start_hz]. *)
Definition get_slice (s : scale) (ix : findex) : result pyslice :=
  match ix with
  | IBand q => do p <- get_slice_band s q; Ok (nat_slice p)
  | IHertz a b => do q <- hertz_band s a b; do p <- get_slice_band s q; Ok (nat_slice p)
  | ISlice sl => Ok sl
  | IInt _ => Raise AttributeError
  end.

(** frequencyscale.py:331-343 __getitem__, for everything but an int (which
    gives a band: [scale_get]) *)
Definition scale_slice (s : scale) (ix : findex) : result scale :=
  do bs <- scale_bands s;
  do sl <- get_slice s ix;
  construct_from_slice s (apply_slice sl bs).
Definition scale_get (s : scale) (i : Z) : result band :=
  do bs <- scale_bands s; py_get bs i.

(** frequencyscale.py:207-238 ensure_overlap_ratio: [Raise OtherError] is the
    AssertionError. *)
Definition pair_ratio (b1 b2 : band) : R :=
  match intersection_ratio b1 b2 with Ok r => r | Raise _ => 0 end.
Fixpoint check_pairs (required : R) (bs : list band) : result unit :=
  match bs with
  | b1 :: ((b2 :: _) as rest) =>
      if Rltb (pair_ratio b1 b2) required then Raise OtherError
      else check_pairs required rest
  | _ => Ok tt
  end.
Definition ensure_overlap_ratio (s : scale) (required : R) : result unit :=
  do bs <- scale_bands s; check_pairs required bs.

(** frequencyscale.py:240-247 Q *)
Definition scale_Q (s : scale) : result (list R) :=
  do bs <- scale_bands s; Ok (map (fun b => center b / bandwidth b) bs).

(** frequencyscale.py:276-280 (base), 475-480 (Geometric), 511-512 (Explicit:
    zip stops at the shorter) __eq__.  Python asks the left operand only, as
    none of these methods returns NotImplemented. *)
Definition same_class (a b : scale) : bool :=
  match a, b with
  | Linear _ _ _, Linear _ _ _ | Geometric _ _ _ _ _, Geometric _ _ _ _ _
  | Explicit _, Explicit _ | BarkS _ _, BarkS _ _ | MelS _ _, MelS _ _
  | Chroma _, Chroma _ => true
  | _, _ => false
  end.
Definition base_eq (a b : scale) : result bool :=
  if same_class a b then
    do fa <- scale_band a; do fb <- scale_band b;
    Ok (band_eqb fa fb && (scale_len a =? scale_len b)%nat)
  else Ok false.
Definition scale_eq (a b : scale) : result bool :=
  match a with
  | Explicit bs =>
      do cs <- scale_bands b;
      Ok (forallb (fun p => band_eqb (fst p) (snd p)) (combine bs cs))
  | Geometric sc ec r _ _ =>
      do e <- base_eq a b;
      match b with
      | Geometric sc' ec' r' _ _ => Ok (e && Reqb sc sc' && Reqb ec ec' && Reqb r r')
      | _ => Ok false
      end
  | _ => base_eq a b
  end.
