(** Model of zounds/persistence: durations, time slices, dimensions, scales and
    stored arrays.  JSON text is a value of type [json] (json.dumps and
    json.loads enter as an inverse pair); numbers in it are integers or reals. *)
From Verif Require Import PyBase PyFacts PyMore Time Freq FreqDim Axis.
From Coq Require Import String Ascii.
Local Open Scope Z_scope.

(** ** Bytes and base64 (Python standard library) *)
(** little-endian bytes of an unsigned integer, numpy's tostring()/frombuffer *)
Fixpoint le_bytes (n : nat) (v : Z) : list Z :=
  match n with O => [] | S m => v mod 256 :: le_bytes m (v / 256) end.
Fixpoint le_value (bs : list Z) : Z :=
  match bs with [] => 0 | b :: r => b + 256 * le_value r end.

Definition b64_alphabet : string :=
  "ABCDEFGHIJKLMNOPQRSTUVWXYZabcdefghijklmnopqrstuvwxyz0123456789+/"%string.
Definition b64_char (v : Z) : ascii :=
  match String.get (Z.to_nat v) b64_alphabet with Some c => c | None => "="%char end.
Fixpoint str_index (c : ascii) (s : string) : option Z :=
  match s with
  | EmptyString => None
  | String d s' => if Ascii.eqb c d then Some 0 else option_map Z.succ (str_index c s')
  end.
Definition b64_val (c : ascii) : option Z := str_index c b64_alphabet.

Fixpoint b64encode (bs : list Z) : string :=
  match bs with
  | [] => EmptyString
  | [a] => String (b64_char (a / 4)) (String (b64_char (a mod 4 * 16)) "==")
  | [a; b] => String (b64_char (a / 4)) (String (b64_char (a mod 4 * 16 + b / 16))
                (String (b64_char (b mod 16 * 4)) "="))
  | a :: b :: c :: r =>
      String (b64_char (a / 4)) (String (b64_char (a mod 4 * 16 + b / 16))
        (String (b64_char (b mod 16 * 4 + c / 64)) (String (b64_char (c mod 64)) (b64encode r))))
  end.
Fixpoint b64decode (s : string) : result (list Z) :=
  match s with
  | EmptyString => Ok []
  | String c1 (String c2 (String c3 (String c4 r))) =>
      match b64_val c1, b64_val c2, b64_val c3, b64_val c4 with
      | Some v1, Some v2, Some v3, Some v4 =>
          do t <- b64decode r;
          Ok (v1 * 4 + v2 / 16 :: v2 mod 16 * 16 + v3 / 4 :: v3 mod 4 * 64 + v4 :: t)
      | Some v1, Some v2, Some v3, None => Ok [v1 * 4 + v2 / 16; v2 mod 16 * 16 + v3 / 4]
      | Some v1, Some v2, None, None => Ok [v1 * 4 + v2 / 16]
      | _, _, _, _ => Raise ValueError
      end
  | _ => Raise ValueError
  end.

(** ** JSON values *)
Inductive json :=
| JNull | JBool (b : bool) | JInt (z : Z) | JNum (r : R) | JStr (s : string)
| JArr (l : list json) | JObj (o : list (string * json)).

(** [d[key]] on a decoded object *)
Definition jget (d : json) (key : string) : result json :=
  match d with
  | JObj o => match find (fun p => String.eqb (fst p) key) o with
              | Some p => Ok (snd p) | None => Raise KeyError end
  | _ => Raise TypeError
  end.

(** ** Durations, persistence/util.py *)
Definition unit_name (u : tunit) : string :=
  match u with Ps => "ps" | Ns => "ns" | Us => "us" | Ms => "ms" | Sec => "s" | Min => "m" | Hr => "h" end%string.
Definition unit_of_name (s : string) : option tunit :=
  find (fun u => String.eqb (unit_name u) s) [Ps; Ns; Us; Ms; Sec; Min; Hr].

(** util.py:9-13 encode_timedelta: [td.astype(np.uint64)] wraps negative counts;
    a Python tuple becomes a JSON list *)
Definition encode_timedelta (t : td) : json :=
  JArr [JStr (b64encode (le_bytes 8 (td_count t mod 2 ^ 64))); JStr (unit_name (td_unit t))].
(** util.py:16-22 decode_timedelta: np.timedelta64(int(v), s) takes a signed 64
    bit integer; an empty buffer makes the function return its argument, which
    the callers' constructors reject (ValueError) *)
Definition decode_timedelta (j : json) : result td :=
  match j with
  | JArr [JStr s; JStr u] =>
      do bs <- b64decode s;
      if negb ((List.length bs mod 8 =? 0)%nat) then Raise ValueError
      else match bs with
      | [] => Raise ValueError
      | _ =>
          let v := le_value (firstn 8 bs) in
          match unit_of_name u with
          | None => Raise TypeError
          | Some un => if v <? 2 ^ 63 then Ok {| td_count := v; td_unit := un |} else Raise OverflowError
          end
      end
  | _ => Raise TypeError
  end.

(** timeslice.py:8-11, 18-21: None has no dtype *)
Definition encode_timeslice (t : timeslice) : result json :=
  match ts_duration t with
  | None => Raise AttributeError
  | Some d => Ok (JObj [("start", encode_timedelta (ts_start t)); ("duration", encode_timedelta d)]%string)
  end.
Definition decode_timeslice (j : json) : result timeslice :=
  do s <- jget j "start"; do s <- decode_timedelta s;
  do d <- jget j "duration"; do d <- decode_timedelta d;
  Ok (mk_timeslice (Some d) (Some s)).

(** ** Dimensions *)
(** A dimension with its durations as numpy holds them (with a unit). *)
Record ptime := { p_freq : td; p_dur : td; p_size : option Z }.
(** timeseries.py:158-170 TimeDimension.__init__ *)
Definition mk_ptime (f d : td) (size : option Z) : ptime :=
  {| p_freq := f; p_dur := if td_count d =? 0 then f else d; p_size := size |}.
Inductive pdim :=
| PIdent
| PTime (t : ptime)
| PFreq (s : scale)
| PExp (e : efd).

(** the same dimension as Axis.v sees it, durations in picoseconds *)
Definition to_dim (d : pdim) : dim :=
  match d with
  | PIdent => DIdent
  | PTime t => DTime {| t_freq := ps (p_freq t); t_dur := ps (p_dur t); t_size := p_size t |}
  | PFreq s => DFreq s
  | PExp e => DExp e
  end.

Definition jsize (n : option Z) : json := match n with None => JNull | Some z => JInt z end.
Definition size_of_json (j : json) : result (option Z) :=
  match j with JNull => Ok None | JInt z => Ok (Some z) | _ => Raise TypeError end.

(** timedimension.py:11-15 and 22-26 *)
Definition encode_time (t : ptime) : json :=
  JObj [("frequency", encode_timedelta (p_freq t)); ("duration", encode_timedelta (p_dur t));
        ("size", jsize (p_size t))]%string.
Definition decode_time (j : json) : result ptime :=
  do f <- jget j "frequency"; do f <- decode_timedelta f;
  do d <- jget j "duration"; do d <- decode_timedelta d;
  do n <- jget j "size"; do n <- size_of_json n;
  Ok (mk_ptime f d n).

(** frequencydimension.py:35-40 (Bark, Mel, Chroma), 80-86 (Linear), 103-110
    (Geometric), 131-133 (Explicit); the encoder is found by the class of the
    scale (165-166), no scale class being a subclass of another *)
Definition band_pair (b : band) : json := JArr [JNum (bstart b); JNum (bstop b)].
Definition encode_scale (s : scale) : list (string * json) :=
  match s with
  | Linear fb n ae =>
      [("start_hz", JNum (bstart fb)); ("stop_hz", JNum (bstop fb)); ("n_bands", JInt (Z.of_nat n));
       ("name", JStr "LinearScale"); ("always_even", JBool ae)]
  | Geometric sc ec r n ae =>
      [("start_center_hz", JNum sc); ("stop_center_hz", JNum ec); ("bandwidth_ratio", JNum r);
       ("n_bands", JInt (Z.of_nat n)); ("name", JStr "GeometricScale"); ("always_even", JBool ae)]
  | Explicit bs => [("bands", JArr (map band_pair bs)); ("name", JStr "ExplicitScale")]
  | BarkS fb n => 
      [("start_hz", JNum (bstart fb)); ("stop_hz", JNum (bstop fb)); ("n_bands", JInt (Z.of_nat n));
       ("name", JStr "BarkScale")]
  | MelS fb n =>
      [("start_hz", JNum (bstart fb)); ("stop_hz", JNum (bstop fb)); ("n_bands", JInt (Z.of_nat n));
       ("name", JStr "MelScale")]
  | Chroma fb =>
      [("start_hz", JNum (bstart fb)); ("stop_hz", JNum (bstop fb)); ("n_bands", JInt 12);
       ("name", JStr "ChromaScale")]
  end%string.

Definition as_num (j : json) : result R := match j with JNum r => Ok r | JInt z => Ok (IZR z) | _ => Raise TypeError end.
Definition as_nat (j : json) : result nat := match j with JInt z => Ok (Z.to_nat z) | _ => Raise TypeError end.
Definition as_bool (j : json) : result bool := match j with JBool b => Ok b | _ => Raise TypeError end.
Definition num_at (d : json) (k : string) : result R := do j <- jget d k; as_num j.
Definition nat_at (d : json) (k : string) : result nat := do j <- jget d k; as_nat j.
(** frequencydimension.py:42-43, 89 *)
Definition band_at (d : json) : result band :=
  do a <- num_at d "start_hz"; do b <- num_at d "stop_hz"; make_band a b.
Definition decode_band (j : json) : result band :=
  match j with
  | JArr [a; b] => do x <- as_num a; do y <- as_num b; make_band x y
  | _ => Raise TypeError
  end.
(** frequencydimension.py:45-49, 66-67, 88-90, 112-118, 135-137 and 159-169: the
    first strategy whose class name is [d['name']] *)
Definition decode_scale (d : json) : result scale :=
  do nm <- jget d "name";
  match nm with
  | JStr s =>
      if String.eqb s "LinearScale" then
        do fb <- band_at d; do n <- nat_at d "n_bands"; do ae <- jget d "always_even"; do ae <- as_bool ae;
        Ok (Linear fb n ae)
      else if String.eqb s "GeometricScale" then
        do a <- num_at d "start_center_hz"; do b <- num_at d "stop_center_hz";
        do r <- num_at d "bandwidth_ratio"; do n <- nat_at d "n_bands";
        do ae <- jget d "always_even"; do ae <- as_bool ae; make_geometric a b r n ae
      else if String.eqb s "ExplicitScale" then
        do l <- jget d "bands";
        match l with
        | JArr l => do bs <- mapM decode_band l; make_explicit bs
        | _ => Raise TypeError
        end
      else if String.eqb s "BarkScale" then
        do fb <- band_at d; do n <- nat_at d "n_bands"; Ok (BarkS fb n)
      else if String.eqb s "MelScale" then
        do fb <- band_at d; do n <- nat_at d "n_bands"; Ok (MelS fb n)
      else if String.eqb s "ChromaScale" then do fb <- band_at d; Ok (Chroma fb)
      else Raise NotImplementedError
  | _ => Raise NotImplementedError
  end.

(** frequencydimension.py:196-200 and 209-212 *)
Definition slice_pair (p : nat * nat) : json := JArr [JInt (Z.of_nat (fst p)); JInt (Z.of_nat (snd p))].
Definition decode_slice (j : json) : result (nat * nat) :=
  match j with
  | JArr [a; b] => do x <- as_nat a; do y <- as_nat b; Ok (x, y)
  | _ => Raise TypeError
  end.

(** basedimension.py:7-14, dimension.py:19-27: type tag and data *)
Definition tagged (name : string) (d : json) : json := JObj [("type", JStr name); ("data", d)]%string.
Definition encode_dim (d : pdim) : json :=
  match d with
  | PIdent => tagged "IdentityDimension" (JObj [])
  | PTime t => tagged "TimeDimension" (encode_time t)
  | PFreq s => tagged "FrequencyDimension" (JObj (encode_scale s))
  | PExp e => tagged "ExplicitFrequencyDimension"
                (JObj (encode_scale (escale e) ++ [("slices", JArr (map slice_pair (eslices e)))]%string))
  end.
(** basedimension.py:22-33, dimension.py:41-49: the first decoder whose class
    name is the tag *)
Definition decode_dim (j : json) : result pdim :=
  do ty <- jget j "type";
  match ty with
  | JStr s =>
      if String.eqb s "IdentityDimension" then do _ <- jget j "data"; Ok PIdent
      else if String.eqb s "TimeDimension" then do d <- jget j "data"; do t <- decode_time d; Ok (PTime t)
      else if String.eqb s "FrequencyDimension" then do d <- jget j "data"; do sc <- decode_scale d; Ok (PFreq sc)
      else if String.eqb s "ExplicitFrequencyDimension" then
        do d <- jget j "data"; do sc <- decode_scale d; do sl <- jget d "slices";
        match sl with
        | JArr l => do ps <- mapM decode_slice l; do e <- make_efd sc ps; Ok (PExp e)
        | _ => Raise TypeError
        end
      else Raise NotImplementedError
  | _ => Raise NotImplementedError
  end.
Definition encode_dims (ds : list pdim) : json := JArr (map encode_dim ds).
Definition decode_dims (j : json) : result (list pdim) :=
  match j with JArr l => mapM decode_dim l | _ => Raise TypeError end.

(** ** Stored arrays, persistence/arraywithunits.py *)
Section Stored.
  (** [dtype] with its item size; JSON text; featureflow's NumpyMetaData header
      (a dtype and the shape of one row), both as byte strings *)
  Context {dtype : Type} (itemsize : dtype -> nat).
  Context (dumps : json -> list Z) (loads : list Z -> result json).
  Context (pack_meta : dtype * list nat -> list Z)
          (unpack_meta : list Z -> result ((dtype * list nat) * list Z)).

  (** raw data: dtype, shape of a row, rows as bytes *)
  Record raw := mkRaw { r_dtype : dtype; r_rowshape : list nat; r_rows : list (list Z) }.
  Definition raw_shape (x : raw) : list nat := List.length (r_rows x) :: r_rowshape x.
  (** one chunk arriving at the encoder *)
  Record chunk := mkChunk { c_raw : raw; c_dims : list pdim }.

  (** arraywithunits.py:27-38 _process, with the node's state: whether a chunk
      has been seen.  struct.pack('I', n) fails for n >= 2^32. *)
  Definition header (c : chunk) : result (list Z) :=
    let text := dumps (encode_dims (c_dims c)) in
    if Zlen text <? 2 ^ 32
    then Ok (le_bytes 4 (Zlen text) ++ text ++ pack_meta (r_dtype (c_raw c), r_rowshape (c_raw c)))
    else Raise OtherError.
  Fixpoint encode_chunks (first : bool) (cs : list chunk) : result (list Z) :=
    match cs with
    | [] => Ok []
    | c :: rest =>
        do h <- (if first then header c else Ok []);
        do r <- encode_chunks false rest;
        Ok (h ++ List.concat (r_rows (c_raw c)) ++ r)
    end.

  (** bytes of one row: metadata.totalsize *)
  Definition row_bytes (m : dtype * list nat) : nat := (itemsize (fst m) * np_size (snd m))%nat.
  Fixpoint split_rows (n k : nat) (l : list Z) : list (list Z) :=
    match n with O => [] | S m => firstn k l :: split_rows m k (skipn k l) end.

  (** arraywithunits.py:9-15 and 71-85 *)
  Definition decode_array (bytes : list Z) : result (@awu raw) :=
    if (List.length bytes <? 4)%nat then Raise OtherError
    else
    let n := Z.to_nat (le_value (firstn 4 bytes)) in
    let rest := skipn 4 bytes in
    do j <- loads (firstn n rest);
    do ds <- decode_dims j;
    do p <- unpack_meta (skipn n rest);
    let meta := fst p in let body := snd p in
    let k := row_bytes meta in
    if (k =? 0)%nat then Raise ZeroDivisionError
    else if (List.length body mod k =? 0)%nat
    then awu_new raw_shape (mkRaw (fst meta) (snd meta) (split_rows (List.length body / k) k body)) (map to_dim ds)
    else Raise ValueError.

  (** persistence/audiosamples.py:11-14: the audio sample rate read back *)
  Definition decoded_rate (a : @awu raw) : result Z :=
    match dims a with
    | DTime t :: _ => audio_sample_rate (samples_per_second (t_freq t))
    | _ => Raise AttributeError
    end.
End Stored.
