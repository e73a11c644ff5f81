(** Round trips of persisted values (Persist.v). *)
From Verif Require Import PyBase PyFacts PyMore Time TimeProofs Freq FreqDim Axis AxisProofs Persist.
From Coq Require Import String Ascii.
Local Open Scope Z_scope.

(** ** Specification: values a program can construct *)
(** durations that are not negative (numpy counts are signed 64-bit) *)
Definition nonneg_td (t : td) : Prop := 0 <= td_count t < 2 ^ 63.

Inductive built_scale : scale -> Prop :=
| built_linear a b fb n ae : make_band a b = Ok fb -> built_scale (Linear fb n ae)
| built_geometric sc ec r n ae s : make_geometric sc ec r n ae = Ok s -> built_scale s
| built_explicit bs s : Forall (fun fb => exists a b, make_band a b = Ok fb) bs ->
    make_explicit bs = Ok s -> built_scale s
| built_bark a b fb n : make_band a b = Ok fb -> built_scale (BarkS fb n)
| built_mel a b fb n : make_band a b = Ok fb -> built_scale (MelS fb n)
| built_chroma a b fb : make_band a b = Ok fb -> built_scale (Chroma fb).

Inductive built_dim : pdim -> Prop :=
| built_ident : built_dim PIdent
| built_time f d n : nonneg_td f -> nonneg_td d -> built_dim (PTime (mk_ptime f d n))
| built_freq s : built_scale s -> built_dim (PFreq s)
| built_exp s sl e : built_scale s -> make_efd s sl = Ok e -> built_dim (PExp e).

(** ** base64 *)
Definition byte (b : Z) : Prop := 0 <= b < 256.

Lemma b64_val_char v : 0 <= v < 64 -> b64_val (b64_char v) = Some v.
Proof.
  intros H.
  assert (F : forallb (fun n => match b64_val (b64_char (Z.of_nat n)) with Some w => w =? Z.of_nat n | None => false end)
                (seq 0 64) = true) by (vm_compute; reflexivity).
  rewrite forallb_forall in F. specialize (F (Z.to_nat v)).
  rewrite Z2Nat.id in F by lia. specialize (F ltac:(apply in_seq; lia)).
  destruct (b64_val (b64_char v)); [|discriminate]. apply Z.eqb_eq in F. congruence.
Qed.
Lemma b64_val_pad : b64_val "="%char = None.
Proof. reflexivity. Qed.

Lemma b64_roundtrip bs : Forall byte bs -> b64decode (b64encode bs) = Ok bs.
Proof.
  remember (List.length bs) as n eqn:E. revert bs E.
  induction n as [n IH] using lt_wf_ind. intros bs E F.
  assert (R : forall x, Forall byte x -> (List.length x < n)%nat -> b64decode (b64encode x) = Ok x)
    by (intros x Fx L; apply (IH (List.length x) L x eq_refl Fx)).
  destruct bs as [|a [|b [|c r]]]; cbn [b64encode b64decode].
  - reflexivity.
  - inversion F as [|? ? Ha _]; subst. unfold byte in *.
    rewrite !b64_val_char, b64_val_pad by zdm. do 2 f_equal. zdm.
  - inversion F as [|? ? Ha F']; subst. inversion F' as [|? ? Hb _]; subst. unfold byte in *.
    rewrite !b64_val_char, b64_val_pad by zdm. repeat f_equal; zdm.
  - inversion F as [|? ? Ha F']; subst. inversion F' as [|? ? Hb F'']; subst.
    inversion F'' as [|? ? Hc Fr]; subst. unfold byte in *.
    rewrite !b64_val_char by zdm. rewrite R; [|exact Fr|cbn; lia]. cbn [bind]. repeat f_equal; zdm.
Qed.

Lemma le_bytes_byte n : forall v, Forall byte (le_bytes n v).
Proof. induction n as [|n IH]; intros v; cbn [le_bytes]; constructor; [unfold byte; zdm|apply IH]. Qed.
Lemma le_bytes_length n : forall v, List.length (le_bytes n v) = n.
Proof. induction n as [|n IH]; intros v; cbn [le_bytes List.length]; [reflexivity|rewrite IH; reflexivity]. Qed.
Lemma le_value_bytes n : forall v, 0 <= v < 256 ^ Z.of_nat n -> le_value (le_bytes n v) = v.
Proof.
  induction n as [|n IH]; intros v H; cbn [le_bytes le_value].
  - cbn in H. lia.
  - rewrite Nat2Z.inj_succ, Z.pow_succ_r in H by lia. rewrite IH by zdm. zdm.
Qed.

(** ** durations *)
Lemma unit_name_roundtrip u : unit_of_name (unit_name u) = Some u.
Proof. destruct u; reflexivity. Qed.

Lemma decode_timedelta_count t : -2 ^ 63 <= td_count t < 2 ^ 63 ->
  decode_timedelta (encode_timedelta t) = if 0 <=? td_count t then Ok t else Raise OverflowError.
Proof.
  intros H. unfold decode_timedelta, encode_timedelta.
  rewrite b64_roundtrip by apply le_bytes_byte. cbn [bind]. rewrite le_bytes_length. cbn [Nat.modulo Nat.divmod Nat.eqb negb fst].
  destruct (le_bytes 8 (td_count t mod 2 ^ 64)) as [|b r] eqn:E.
  { pose proof (le_bytes_length 8 (td_count t mod 2 ^ 64)) as L. rewrite E in L. discriminate L. }
  rewrite <- E. rewrite firstn_all2 by (rewrite le_bytes_length; lia).
  rewrite le_value_bytes by (change (256 ^ Z.of_nat 8) with (2 ^ 64); zdm).
  rewrite unit_name_roundtrip.
  destruct (Z.leb_spec 0 (td_count t)).
  - rewrite Z.mod_small by lia. destruct (Z.ltb_spec (td_count t) (2 ^ 63)); [|lia].
    destruct t; reflexivity.
  - destruct (Z.ltb_spec (td_count t mod 2 ^ 64) (2 ^ 63)) as [L|]; [|reflexivity].
    exfalso. replace (td_count t mod 2 ^ 64) with (td_count t + 2 ^ 64) in L; [lia|].
    apply (Zmod_unique _ _ (-1)); lia.
Qed.

Theorem timedelta_roundtrip t : nonneg_td t -> decode_timedelta (encode_timedelta t) = Ok t.
Proof.
  intros H. unfold nonneg_td in H. rewrite decode_timedelta_count by lia.
  destruct (Z.leb_spec 0 (td_count t)); [reflexivity|lia].
Qed.
Theorem timedelta_negative t : -2 ^ 63 <= td_count t < 0 ->
  decode_timedelta (encode_timedelta t) = Raise OverflowError.
Proof.
  intros H. rewrite decode_timedelta_count by lia. destruct (Z.leb_spec 0 (td_count t)); [lia|reflexivity].
Qed.

Theorem timeslice_roundtrip duration start :
  nonneg_td duration -> (forall s, start = Some s -> nonneg_td s) ->
  let t := mk_timeslice (Some duration) start in
  exists j, encode_timeslice t = Ok j /\ decode_timeslice j = Ok t.
Proof.
  intros Hd Hs t. eexists. split; [reflexivity|]. unfold decode_timeslice.
  cbn [jget find fst snd String.eqb Ascii.eqb Bool.eqb bind].
  rewrite timedelta_roundtrip.
  2:{ unfold t, mk_timeslice; cbn [ts_start]. destruct start as [s|]; [|unfold nonneg_td; cbn; lia].
      destruct (td_count s =? 0); [unfold nonneg_td; cbn; lia|apply Hs; reflexivity]. }
  cbn [bind]. rewrite timedelta_roundtrip by exact Hd. cbn [bind]. f_equal.
  unfold t, mk_timeslice. cbn [ts_start ts_duration]. f_equal.
  destruct start as [s|]; [|reflexivity]. destruct (td_count s =? 0) eqn:E; [reflexivity|]. rewrite E. reflexivity.
Qed.
Theorem timeslice_no_duration start : encode_timeslice (mk_timeslice None start) = Raise AttributeError.
Proof. reflexivity. Qed.
Theorem timeslice_negative_start duration s : nonneg_td duration -> -2 ^ 63 <= td_count s < 0 ->
  exists j, encode_timeslice (mk_timeslice (Some duration) (Some s)) = Ok j /\
    decode_timeslice j = Raise OverflowError.
Proof.
  intros Hd Hs. eexists. split; [reflexivity|]. unfold decode_timeslice.
  cbn [jget find fst snd String.eqb Ascii.eqb Bool.eqb bind mk_timeslice ts_start].
  destruct (Z.eqb_spec (td_count s) 0); [lia|]. rewrite timedelta_negative by exact Hs. reflexivity.
Qed.

(** ** dimensions *)
Lemma time_roundtrip f d n : nonneg_td f -> nonneg_td d ->
  decode_time (encode_time (mk_ptime f d n)) = Ok (mk_ptime f d n).
Proof.
  intros Hf Hd. unfold decode_time, encode_time.
  cbn [jget find fst snd String.eqb Ascii.eqb Bool.eqb bind mk_ptime p_freq p_dur p_size].
  rewrite timedelta_roundtrip by exact Hf. cbn [bind].
  rewrite timedelta_roundtrip by (destruct (td_count d =? 0); assumption). cbn [bind].
  replace (size_of_json (jsize n)) with (@Ok (option Z) n) by (destruct n; reflexivity). cbn [bind].
  unfold mk_ptime. do 2 f_equal. destruct (td_count d =? 0) eqn:E.
  - destruct (td_count f =? 0); reflexivity.
  - rewrite E. reflexivity.
Qed.

Lemma make_band_same a b fb : make_band a b = Ok fb -> make_band (bstart fb) (bstop fb) = Ok fb.
Proof.
  unfold make_band. destruct (Rleb b a) eqn:E; [discriminate|]. intros H. injection H as <-.
  cbn. rewrite E. reflexivity.
Qed.
Lemma decode_bands bs : Forall (fun fb => exists a b, make_band a b = Ok fb) bs ->
  mapM decode_band (map band_pair bs) = Ok bs.
Proof.
  induction 1 as [|fb bs (a & b & H) F IH]; [reflexivity|]. cbn [map mapM band_pair decode_band as_num bind].
  rewrite (make_band_same _ _ _ H). cbn [bind]. rewrite IH. reflexivity.
Qed.

Ltac look := cbn [app jget find fst snd String.eqb Ascii.eqb Bool.eqb bind band_at num_at nat_at as_num as_nat as_bool].

Lemma scale_roundtrip s more : built_scale s -> decode_scale (JObj (encode_scale s ++ more)) = Ok s.
Proof.
  intros H. destruct H as [a b fb n ae H|sc ec r n ae s H|bs s F H|a b fb n H|a b fb n H|a b fb H].
  - unfold decode_scale. cbn [encode_scale]. look. unfold band_at, num_at, nat_at. look. rewrite (make_band_same _ _ _ H).
    look. rewrite Nat2Z.id. reflexivity.
  - assert (E : s = Geometric sc ec r n ae).
    { unfold make_geometric in H. destruct (geometric_bands sc ec r n) as [g|]; [|discriminate].
      cbn [bind] in H. destruct (span_band g); [|discriminate]. injection H as <-. reflexivity. }
    subst s. unfold decode_scale. cbn [encode_scale]. look. unfold band_at, num_at, nat_at. look. rewrite Nat2Z.id. exact H.
  - assert (E : s = Explicit bs).
    { unfold make_explicit in H. destruct (span_band bs); [|discriminate]. injection H as <-. reflexivity. }
    subst s. unfold decode_scale. cbn [encode_scale]. look. rewrite decode_bands by exact F. cbn [bind]. exact H.
  - unfold decode_scale. cbn [encode_scale]. look. unfold band_at, num_at, nat_at. look. rewrite (make_band_same _ _ _ H). look. rewrite Nat2Z.id. reflexivity.
  - unfold decode_scale. cbn [encode_scale]. look. unfold band_at, num_at, nat_at. look. rewrite (make_band_same _ _ _ H). look. rewrite Nat2Z.id. reflexivity.
  - unfold decode_scale. cbn [encode_scale]. look. unfold band_at, num_at, nat_at. look. rewrite (make_band_same _ _ _ H). reflexivity.
Qed.

Lemma decode_slices l : mapM decode_slice (map slice_pair l) = Ok l.
Proof.
  induction l as [|[a b] l IH]; [reflexivity|]. cbn [map mapM slice_pair decode_slice as_nat bind fst snd].
  rewrite !Nat2Z.id. rewrite IH. reflexivity.
Qed.

Theorem dim_roundtrip d : built_dim d -> decode_dim (encode_dim d) = Ok d.
Proof.
  intros H. destruct H as [|f d n Hf Hd|s Hs|s sl e Hs He]; unfold decode_dim; cbn [encode_dim]; unfold tagged; look.
  - reflexivity.
  - rewrite time_roundtrip by assumption. reflexivity.
  - rewrite <- (app_nil_r (encode_scale s)). rewrite scale_roundtrip by exact Hs. reflexivity.
  - assert (E : escale e = s /\ eslices e = sl).
    { unfold make_efd in He. destruct (_ =? _)%nat; [|discriminate].
      destruct (scale_bands s); [|discriminate]. injection He as <-. split; reflexivity. }
    destruct E as [-> ->]. rewrite scale_roundtrip by exact Hs.
    assert (L : jget (JObj (encode_scale s ++ [("slices", JArr (map slice_pair sl))]))%string "slices"
                = Ok (JArr (map slice_pair sl))) by (destruct s; reflexivity).
    unfold jget in L. unfold bind at 1. unfold bind at 1. unfold jget.
    rewrite L. cbn [bind]. rewrite decode_slices. cbn [bind]. rewrite He. reflexivity.
Qed.
Theorem dims_roundtrip ds : Forall built_dim ds -> decode_dims (encode_dims ds) = Ok ds.
Proof.
  intros F. unfold decode_dims, encode_dims. induction F as [|d ds H F IH]; [reflexivity|].
  cbn [map mapM]. rewrite dim_roundtrip by exact H. cbn [bind]. rewrite IH. reflexivity.
Qed.

Example built_example :
  built_dim (PTime (mk_ptime {| td_count := 512; td_unit := Us |} {| td_count := 1; td_unit := Ms |} (Some 10))) /\
  built_dim (PFreq (Linear (mkBand 20 4000) 64 false)) /\
  built_dim (PExp (mkEfd [mkBand 0 10; mkBand 5 20] (Explicit [mkBand 0 10; mkBand 5 20]) [(0, 3); (3, 7)]%nat)).
Proof.
  assert (M : forall a b, (a < b)%R -> make_band a b = Ok (mkBand a b)).
  { intros a b L. unfold make_band, Rleb. destruct (Rle_dec b a); [lra|reflexivity]. }
  assert (B1 : make_band 0 10 = Ok (mkBand 0 10)) by (apply M; lra).
  assert (B2 : make_band 5 20 = Ok (mkBand 5 20)) by (apply M; lra).
  split; [|split].
  - apply built_time; unfold nonneg_td; cbn; lia.
  - apply built_freq. eapply built_linear. apply (M 20%R 4000%R). lra.
  - eapply (built_exp (Explicit [mkBand 0 10; mkBand 5 20]) [(0, 3); (3, 7)]%nat).
    + apply (built_explicit [mkBand 0 10; mkBand 5 20]).
      * repeat constructor; [exists 0%R, 10%R; exact B1|exists 5%R, 20%R; exact B2].
      * unfold make_explicit, span_band. cbn [last bstart bstop]. rewrite M by lra. reflexivity.
    + reflexivity.
Qed.

(** ** stored arrays *)
Section StoredProofs.
  Context {dtype : Type} (itemsize : dtype -> nat).
  Context (dumps : json -> list Z) (loads : list Z -> result json).
  Context (pack_meta : dtype * list nat -> list Z)
          (unpack_meta : list Z -> result ((dtype * list nat) * list Z)).
  (** featureflow's header inverts itself; so does json on the text at hand
      ([json_ok]: decimal text of a double reads back as that double, so this
      holds of every description made of doubles) *)
  Definition json_ok (j : json) : Prop := loads (dumps j) = Ok j /\ Zlen (dumps j) < 2 ^ 32.
  Hypothesis meta_contract : forall m r, unpack_meta (pack_meta m ++ r) = Ok (m, r).

  Notation encode := (encode_chunks dumps pack_meta true).
  Notation decode := (decode_array itemsize loads unpack_meta).

  (** chunks of one array: the same dtype and row shape, rows of that many bytes *)
  Definition same_array (dt : dtype) (sh : list nat) (cs : list (@chunk dtype)) : Prop :=
    Forall (fun c => r_dtype (c_raw c) = dt /\ r_rowshape (c_raw c) = sh /\
      Forall (fun r => List.length r = (itemsize dt * fold_right Nat.mul 1 sh)%nat) (r_rows (c_raw c))) cs.
  Definition all_rows (cs : list (@chunk dtype)) : list (list Z) := flat_map (fun c => r_rows (c_raw c)) cs.

  Lemma encode_rest cs : encode_chunks dumps pack_meta false cs = Ok (List.concat (all_rows cs)).
  Proof.
    induction cs as [|c cs IH]; [reflexivity|]. cbn [encode_chunks bind]. rewrite IH. cbn [bind].
    unfold all_rows. cbn [flat_map]. rewrite concat_app. reflexivity.
  Qed.
  Lemma split_concat k rows : Forall (fun r : list Z => List.length r = k) rows ->
    split_rows (List.length rows) k (List.concat rows) = rows.
  Proof.
    induction 1 as [|r rows H F IH]; [reflexivity|]. cbn [List.length split_rows List.concat].
    rewrite firstn_app, skipn_app. rewrite H, Nat.sub_diag. cbn [firstn skipn].
    rewrite app_nil_r, firstn_all2, skipn_all2 by lia. cbn [app]. rewrite IH. reflexivity.
  Qed.
  Lemma concat_length k (rows : list (list Z)) : Forall (fun r : list Z => List.length r = k) rows ->
    List.length (List.concat rows) = (List.length rows * k)%nat.
  Proof. induction 1 as [|r rows H F IH]; [reflexivity|]. cbn. rewrite app_length, IH, H. lia. Qed.
  Lemma all_rows_width dt sh cs : same_array dt sh cs ->
    Forall (fun r => List.length r = (itemsize dt * fold_right Nat.mul 1 sh)%nat) (all_rows cs).
  Proof.
    induction 1 as [|c cs (_ & _ & H) F IH]; [constructor|]. unfold all_rows; cbn [flat_map].
    apply Forall_app. split; assumption.
  Qed.

  Lemma decode_header text dt sh body (j : json) ds :
    Zlen text < 2 ^ 32 -> loads text = Ok j -> decode_dims j = Ok ds ->
    decode (le_bytes 4 (Zlen text) ++ text ++ pack_meta (dt, sh) ++ body)
    = let k := (itemsize dt * fold_right Nat.mul 1 sh)%nat in
      if (k =? 0)%nat then Raise ZeroDivisionError
      else if (List.length body mod k =? 0)%nat
      then awu_new raw_shape (mkRaw dt sh (split_rows (List.length body / k) k body)) (map to_dim ds)
      else Raise ValueError.
  Proof.
    intros L J D. unfold decode_array. rewrite app_length, le_bytes_length.
    destruct (Nat.ltb_spec (4 + List.length (text ++ pack_meta (dt, sh) ++ body)) 4); [lia|].
    assert (F4 : firstn 4 (le_bytes 4 (Zlen text) ++ text ++ pack_meta (dt, sh) ++ body) = le_bytes 4 (Zlen text))
      by (apply (firstn_app_2 0 (le_bytes 4 (Zlen text))) || reflexivity).
    assert (S4 : skipn 4 (le_bytes 4 (Zlen text) ++ text ++ pack_meta (dt, sh) ++ body) = text ++ pack_meta (dt, sh) ++ body)
      by reflexivity.
    rewrite F4, S4. rewrite le_value_bytes by (change (256 ^ Z.of_nat 4) with (2 ^ 32); unfold Zlen in *; lia).
    unfold Zlen. rewrite Nat2Z.id.
    rewrite firstn_app, skipn_app, Nat.sub_diag. cbn [firstn skipn].
    rewrite firstn_all2, skipn_all2 by lia. rewrite app_nil_r, J. cbn [bind app]. rewrite D. cbn [bind].
    rewrite meta_contract. cbn [bind fst snd]. reflexivity.
  Qed.

  (** reading back gives the constructor applied to all rows, in order, with the
      dimensions of the first chunk *)
  Theorem array_roundtrip c cs dt sh :
    same_array dt sh (c :: cs) -> (0 < itemsize dt * fold_right Nat.mul 1 sh)%nat ->
    Forall built_dim (c_dims c) -> json_ok (encode_dims (c_dims c)) ->
    exists bytes, encode (c :: cs) = Ok bytes /\
      decode bytes = awu_new raw_shape (mkRaw dt sh (all_rows (c :: cs))) (map to_dim (c_dims c)).
  Proof.
    intros S K B [J L]. pose proof S as S0. inversion S as [|? ? (D & H & _) _]; subst.
    eexists. split.
    - cbn [encode_chunks]. unfold header. destruct (Z.ltb_spec (Zlen (dumps (encode_dims (c_dims c)))) (2 ^ 32)); [|lia].
      cbn [bind]. rewrite encode_rest. cbn [bind]. rewrite <- !app_assoc. reflexivity.
    - rewrite (decode_header _ _ _ _ _ _ L J (dims_roundtrip _ B)). cbn zeta.
      set (k := (itemsize (r_dtype (c_raw c)) * fold_right Nat.mul 1 (r_rowshape (c_raw c)))%nat) in *.
      destruct (Nat.eqb_spec k 0); [lia|].
      pose proof (all_rows_width _ _ _ S0) as W. fold k in W.
      change (List.concat (r_rows (c_raw c)) ++ List.concat (all_rows cs))
        with (List.concat (r_rows (c_raw c)) ++ List.concat (all_rows cs)).
      replace (List.concat (r_rows (c_raw c)) ++ List.concat (all_rows cs)) with (List.concat (all_rows (c :: cs)))
        by (unfold all_rows; cbn [flat_map]; rewrite concat_app; reflexivity).
      rewrite (concat_length k) by exact W. rewrite Nat.mod_mul, Nat.div_mul by assumption. cbn [Nat.eqb].
      rewrite split_concat by exact W. reflexivity.
  Qed.

  Lemma freq_dims_fit sh : forall pds, consistent sh (map to_dim pds) ->
    forall i s n, nth_error (map to_dim pds) i = Some (DFreq s) -> nth_error sh i = Some n -> scale_len s = n.
  Proof.
    intros pds. generalize (map to_dim pds) as ds. intros ds C. unfold consistent in C.
    induction C as [|d m ds sh H C IH]; intros [|i] s n E1 E2; try discriminate E1.
    - injection E1 as ->. injection E2 as <-. cbn in H. congruence.
    - exact (IH i s n E1 E2).
  Qed.

  (** when every chunk is a well-formed array whose first axis is not tied to a
      frequency scale, reading succeeds: shape, data and dimensions as written *)
  Theorem array_roundtrip_ok c cs dt sh d0 :
    same_array dt sh (c :: cs) -> (0 < itemsize dt * fold_right Nat.mul 1 sh)%nat ->
    Forall built_dim (c_dims c) -> json_ok (encode_dims (c_dims c)) ->
    consistent (raw_shape (c_raw c)) (map to_dim (c_dims c)) ->
    nth_error (c_dims c) 0 = Some d0 -> (forall s, d0 <> PFreq s) ->
    exists bytes a, encode (c :: cs) = Ok bytes /\ decode bytes = Ok a /\
      data a = mkRaw dt sh (all_rows (c :: cs)) /\
      List.length (dims a) = List.length (c_dims c) /\
      forall i d, nth_error (map to_dim (c_dims c)) i = Some d ->
        exists d', nth_error (dims a) i = Some d' /\ same_dim d' d.
  Proof.
    intros S K B L C E0 N0.
    destruct (array_roundtrip c cs dt sh S K B L) as (bytes & E & D).
    assert (Hs : r_rowshape (c_raw c) = sh) by (inversion S as [|? ? (? & ? & ?) ?]; assumption).
    set (x := mkRaw dt sh (all_rows (c :: cs))) in *.
    destruct (awu_new_ok raw_shape x (map to_dim (c_dims c))) as [a A].
    - unfold raw_shape in *. cbn [r_rows r_rowshape x] in *.
      rewrite Hs in C. pose proof (Forall2_len _ _ _ C) as Len. cbn [List.length] in *. lia.
    - intros i s n E1 E2. destruct i as [|i].
      + exfalso. destruct (c_dims c) as [|d ds]; [discriminate E0|]. injection E0 as ->.
        cbn [map nth_error] in E1. destruct d0; try discriminate E1. injection E1 as ->. exact (N0 s eq_refl).
      + apply (freq_dims_fit (raw_shape (c_raw c)) _ C (Datatypes.S i) s n E1).
        unfold raw_shape in *. cbn [nth_error] in *. rewrite Hs. exact E2.
    - exists bytes, a. rewrite A in D. split; [exact E|]. split; [exact D|].
      assert (Nm : Forall norm_dim (map to_dim (c_dims c))).
      { apply Forall_map. eapply Forall_impl; [|exact B]. intros d Hd.
        destruct Hd as [|f d n Hf Hd|s Hs'|s sl e Hs' He]; cbn; try exact I.
        unfold ps, unit_ps. destruct (Z.eqb_spec (td_count d) 0).
        - destruct (Z.eq_dec (td_count f * unit_ps (td_unit f)) 0) as [Z0|Z0]; [right|left]; exact Z0.
        - left. destruct (td_unit d); cbn; lia. }
      destruct (awu_new_spec _ _ _ _ Nm A) as (Da & Le & _ & Sd).
      split; [exact Da|]. pose proof (Forall2_len _ _ _ Sd) as Ld. rewrite map_length in Ld.
      split; [congruence|]. clear - Sd. induction Sd as [|y d ys ds H Sd IH]; intros [|i] e He; try discriminate He.
      + injection He as <-. exists y. split; [reflexivity|exact H].
      + cbn [nth_error] in *. apply IH; exact He.
  Qed.

  (** rows without bytes (a zero-length axis) cannot be read back *)
  Theorem array_zero_rows c cs dt sh :
    same_array dt sh (c :: cs) -> (itemsize dt * fold_right Nat.mul 1 sh)%nat = 0%nat ->
    Forall built_dim (c_dims c) -> json_ok (encode_dims (c_dims c)) ->
    exists bytes, encode (c :: cs) = Ok bytes /\ decode bytes = Raise ZeroDivisionError.
  Proof.
    intros S K B [J L]. inversion S as [|? ? (D & H & _) _]; subst. eexists. split.
    - cbn [encode_chunks]. unfold header. destruct (Z.ltb_spec (Zlen (dumps (encode_dims (c_dims c)))) (2 ^ 32)); [|lia].
      cbn [bind]. rewrite encode_rest. cbn [bind]. rewrite <- !app_assoc. reflexivity.
    - rewrite (decode_header _ _ _ _ _ _ L J (dims_roundtrip _ B)). cbn zeta.
      rewrite K. reflexivity.
  Qed.
  (** two chunks of an array whose first axis is a frequency scale *)
  Theorem array_freq_first c c2 cs dt sh s :
    same_array dt sh (c :: c2 :: cs) -> (0 < itemsize dt * fold_right Nat.mul 1 sh)%nat ->
    Forall built_dim (c_dims c) -> json_ok (encode_dims (c_dims c)) ->
    nth_error (c_dims c) 0 = Some (PFreq s) -> scale_len s = List.length (r_rows (c_raw c)) ->
    all_rows (c2 :: cs) <> [] ->
    exists bytes, encode (c :: c2 :: cs) = Ok bytes /\ decode bytes = Raise ValueError.
  Proof.
    intros S K B L E0 Ls Hne. destruct (array_roundtrip c (c2 :: cs) dt sh S K B L) as (bytes & E & D).
    exists bytes. split; [exact E|]. rewrite D. unfold awu_new.
    destruct (c_dims c) as [|d ds]; [discriminate E0|]. injection E0 as ->.
    destruct (_ =? _)%nat; [|reflexivity]. cbn [map to_dim fit_dims raw_shape fit_dim].
    unfold fdim_validate. cbn [r_rows]. rewrite Ls.
    change (all_rows (c :: c2 :: cs)) with (r_rows (c_raw c) ++ all_rows (c2 :: cs)).
    rewrite app_length. destruct (Nat.eqb_spec (List.length (r_rows (c_raw c)) + List.length (all_rows (c2 :: cs))) (List.length (r_rows (c_raw c)))) as [Q|Q]; [|reflexivity].
    exfalso. apply Hne. destruct (all_rows (c2 :: cs)); [reflexivity|]. cbn [List.length] in Q. lia.
  Qed.

  (** the audio decoder: samples written at [n] per second read back at that
      rate exactly when [n] is one of the standard rates *)
  Theorem audio_decoded_rate (a : @awu (@raw dtype)) n sr t rest :
    1 <= n <= 10 ^ 6 -> audio_rate n = Ok sr -> dims a = DTime t :: rest -> t_freq t = sr_freq sr ->
    decoded_rate a = if existsb (Z.eqb n) standard_rates then Ok n else Raise ValueError.
  Proof.
    intros Hn A D F. unfold decoded_rate. rewrite D, F.
    destruct (audio_rate_usual n Hn) as (s & A' & E). rewrite A in A'. injection A' as <-. rewrite E.
    apply audio_sample_rate_spec.
  Qed.
End StoredProofs.

(** ** an instance of the contracts, and a whole round trip *)
Definition toy_pack (m : bool * list nat) : list Z :=
  (if fst m then 1 else 0) :: Zlen (snd m) :: map Z.of_nat (snd m).
Definition toy_unpack (l : list Z) : result ((bool * list nat) * list Z) :=
  match l with
  | b :: n :: r => Ok ((b =? 1, map Z.to_nat (firstn (Z.to_nat n) r)), skipn (Z.to_nat n) r)
  | _ => Raise OtherError
  end.
Lemma toy_meta m r : toy_unpack (toy_pack m ++ r) = Ok (m, r).
Proof.
  destruct m as [b sh]. unfold toy_pack, toy_unpack, Zlen. cbn [fst snd app]. rewrite Nat2Z.id.
  rewrite firstn_app, skipn_app, !map_length, Nat.sub_diag. cbn [firstn skipn].
  rewrite firstn_all2, skipn_all2 by (rewrite map_length; lia). rewrite app_nil_r. cbn [app].
  rewrite map_map, (map_ext (fun x => Z.to_nat (Z.of_nat x)) (fun x => x)) by (intros x; apply Nat2Z.id). rewrite map_id.
  destruct b; reflexivity.
Qed.
Example stored_example :
  let d := [PTime (mk_ptime {| td_count := 512; td_unit := Us |} {| td_count := 1; td_unit := Ms |} (Some 1)); PIdent] in
  let c1 := mkChunk (mkRaw true [2]%nat [[1; 2]]) d in
  let c2 := mkChunk (mkRaw true [2]%nat [[3; 4]; [5; 6]]) d in
  same_array (fun _ => 1%nat) true [2]%nat [c1; c2] /\
  Forall built_dim (c_dims c1) /\
  json_ok (fun _ => []) (fun _ => Ok (encode_dims d)) (encode_dims (c_dims c1)) /\
  consistent (raw_shape (c_raw c1)) (map to_dim (c_dims c1)) /\
  exists bytes a, encode_chunks (fun _ => []) toy_pack true [c1; c2] = Ok bytes /\
    decode_array (fun _ => 1%nat) (fun _ => Ok (encode_dims d)) toy_unpack bytes = Ok a /\
    r_rows (data a) = [[1; 2]; [3; 4]; [5; 6]] /\
    map (fun d => match d with DTime t => t_size t | _ => None end) (dims a) = [Some 3; None].
Proof.
  split; [repeat constructor|]. split.
  { repeat constructor; unfold nonneg_td; cbn; lia. }
  split; [split; [reflexivity|vm_compute; reflexivity]|].
  split; [repeat constructor|].
  eexists _, _. split; [vm_compute; reflexivity|]. split; [vm_compute; reflexivity|]. split; reflexivity.
Qed.
