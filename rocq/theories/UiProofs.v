(** Facts about the web application (C45, C46, C63, C64, C65). *)
From Verif Require Import PyBase PyFacts PyMore Time Audio Midi MidiProofs Ui.
From Coq Require Import String Ascii QArith Qround DecimalString DecimalZ Decimal.
Local Open Scope string_scope.
Local Open Scope Z_scope.

(** ** Strings *)
Fixpoint no_char (c : ascii) (s : string) : Prop :=
  match s with EmptyString => True | String a r => a <> c /\ no_char c r end.

Lemma cut_app c s t : no_char c s -> cut c (s ++ String c t) = Some (s, t).
Proof.
  induction s as [|a s IH]; cbn.
  - intros _. now rewrite Ascii.eqb_refl.
  - intros [Ha Hs]. destruct (Ascii.eqb_spec a c); [contradiction|]. now rewrite (IH Hs).
Qed.
Lemma cut_none c s : no_char c s -> cut c s = None.
Proof.
  induction s as [|a s IH]; cbn; [reflexivity|]. intros [Ha Hs]. destruct (Ascii.eqb_spec a c); [contradiction|].
  now rewrite (IH Hs).
Qed.
Lemma string_app_assoc (a b c : string) : (a ++ b) ++ c = a ++ b ++ c.
Proof. induction a as [|x a IH]; cbn; [reflexivity|now rewrite IH]. Qed.

Lemma digits_no_dash d : no_char "-" (NilEmpty.string_of_uint d).
Proof. induction d; cbn; (split; [discriminate|assumption]) || exact I. Qed.
Lemma py_str_no_dash n : 0 <= n -> no_char "-" (py_str n).
Proof.
  intros Hn. unfold py_str, NilZero.string_of_int. destruct n as [|p|p]; [cbn; split; [discriminate|exact I]| |lia].
  cbn [Z.to_int]. unfold NilZero.string_of_uint. destruct (Pos.to_uint p) eqn:E; try (rewrite <- E; apply digits_no_dash).
  cbn. split; [discriminate|exact I].
Qed.
Lemma py_str_nonempty n : is_empty (py_str n) = false.
Proof. destruct (py_str_head n) as [c [r [-> _]]]. reflexivity. Qed.

(** ** C45: byte ranges *)
Definition bytes_header (a : Z) (rest : string) : string := "bytes=" ++ py_str a ++ "-" ++ rest.

Lemma range_match_bytes a rest : 0 <= a -> range_match (bytes_header a rest) = Some ("bytes", py_str a, rest).
Proof.
  intros Ha. unfold range_match, bytes_header.
  change ("bytes=" ++ py_str a ++ "-" ++ rest) with ("bytes" ++ String "=" (py_str a ++ String "-" rest)).
  rewrite cut_app by (cbn; repeat split; discriminate). cbn [is_empty].
  rewrite cut_app by (apply py_str_no_dash; exact Ha). rewrite py_str_nonempty. reflexivity.
Qed.
Lemma range_bytes pf a rest : 0 <= a ->
  range pf (Some (bytes_header a rest)) = Ok (Bytes (Some a) (match py_int rest with Ok b => Some b | Raise _ => None end)).
Proof. intros Ha. unfold range. rewrite (range_match_bytes a rest Ha). cbn. unfold byte_slice. now rewrite py_int_str. Qed.

Section Ranges.
  Context {A : Type} (pf : string -> option Q).
  Context (timed : feature -> timeslice -> list A -> result (list A * bool * string)).

  (** the features that are served as the bytes that are stored *)
  Definition stored_bytes (f : feature) : Prop :=
    (f_content_type f = "application/json" \/ f_content_type f = "audio/ogg").

  Lemma find_bytes f a b : stored_bytes f -> exists ct, find_serializer f (Bytes a b) = Ok (SDefault ct).
  Proof.
    intros H. unfold find_serializer, serializers. destruct f as [c ct]. cbn [find serializer_matches f_class f_content_type].
    unfold stored_bytes in H. cbn [f_content_type] in H.
    destruct H as [-> | ->]; destruct c; cbn; eexists; reflexivity.
  Qed.
  Lemma read_at (content : list A) a : 0 <= a ->
    match Some a with Some a0 => if a0 =? 0 then Ok {| b_data := content; b_pos := 0 |} else bio_seek {| b_data := content; b_pos := 0 |} a0 0 | None => Ok {| b_data := content; b_pos := 0 |} end
    = Ok {| b_data := content; b_pos := a |}.
  Proof.
    intros Ha. cbv iota beta. destruct (Z.eqb_spec a 0) as [->|Hn]; [reflexivity|]. unfold bio_seek. cbn [Z.eqb b_data].
    destruct (Z.ltb_spec a 0); [lia|reflexivity].
  Qed.
  Lemma get_bytes f content a rest : stored_bytes f -> 0 <= a ->
    feature_get pf timed f content (Some (bytes_header a rest)) =
    let stop := match py_int rest with Ok b => Some b | Raise _ => None end in
    Ok {| r_status := 206;
          r_body := match stop with
                    | Some b => if (b =? 0) || (b <? a) then skipn (Z.to_nat a) content
                                else firstn (Z.to_nat (b - a)) (skipn (Z.to_nat a) content)
                    | None => skipn (Z.to_nat a) content
                    end;
          r_content_range := Some (content_range_bytes (Some a) stop (Zlen content)) |}.
  Proof.
    intros Hf Ha. unfold feature_get. rewrite (range_bytes pf a rest Ha). cbn [bind].
    destruct (find_bytes f (Some a) (match py_int rest with Ok b => Some b | Raise _ => None end) Hf) as [ct ->].
    cbn [bind]. unfold default_serialize. rewrite (read_at content a Ha). cbn [bind].
    destruct (py_int rest) as [b|e]; cbn [bind].
    2:{ reflexivity. }
    destruct (Z.eqb_spec b 0) as [->|Hb].
    { reflexivity. }
    assert (E : forall (X : Type) (x y : X), match b with 0 => x | Z.pos _ => y | Z.neg _ => y end = y) by (intros; destruct b; [lia|reflexivity|reflexivity]).
    destruct b as [|p|p]; [lia| |]; cbn [orb bind]; unfold bio_read; cbn [b_pos b_data snd].
    - destruct (Z.ltb_spec (Z.pos p) a) as [Hl|Hl].
      + destruct (Z.ltb_spec (Z.pos p - a) 0); [reflexivity|lia].
      + destruct (Z.ltb_spec (Z.pos p - a) 0); [lia|reflexivity].
    - destruct (Z.ltb_spec (Z.neg p) a) as [Hl|Hl]; [|lia].
      destruct (Z.ltb_spec (Z.neg p - a) 0); [reflexivity|lia].
  Qed.

  (** an open-ended range is everything from its first byte *)
  Lemma open_range f content a : stored_bytes f -> 0 <= a ->
    exists r, feature_get pf timed f content (Some (bytes_header a "")) = Ok r /\
      r_status r = 206 /\ r_body r = skipn (Z.to_nat a) content /\
      r_content_range r = Some ("bytes " ++ py_str a ++ "-" ++ py_str (Zlen content) ++ "/" ++ py_str (Zlen content)).
  Proof.
    intros Hf Ha. rewrite (get_bytes f content a "" Hf Ha). eexists. split; [reflexivity|]. cbn. auto.
  Qed.
  (** a closed range [a-b] gives the bytes a..b-1 (RFC 7233 includes b) *)
  Lemma closed_range f content a b : stored_bytes f -> 0 <= a <= b -> 0 < b ->
    exists r, feature_get pf timed f content (Some (bytes_header a (py_str b))) = Ok r /\
      r_status r = 206 /\
      (forall i, nth_error (r_body r) i = if (a + Z.of_nat i <? b) then nth_error content (Z.to_nat a + i) else None) /\
      r_content_range r = Some ("bytes " ++ py_str a ++ "-" ++ py_str b ++ "/" ++ py_str (Zlen content)).
  Proof.
    intros Hf Ha Hb. rewrite (get_bytes f content a _ Hf ltac:(lia)), py_int_str. eexists. split; [reflexivity|].
    cbn zeta iota. cbn [r_status r_body r_content_range]. destruct (Z.eqb_spec b 0); [lia|]. destruct (Z.ltb_spec b a); [lia|]. cbn [orb].
    split; [reflexivity|]. split.
    - intros i. rewrite nth_error_firstn, nth_error_skipn.
      destruct (Nat.ltb_spec i (Z.to_nat (b - a))); destruct (Z.ltb_spec (a + Z.of_nat i) b); try lia; reflexivity.
    - unfold content_range_bytes. destruct b as [|p|p]; [lia|reflexivity|lia].
  Qed.

  (** no Range header, or one that is not understood: everything, 200 *)
  Lemma no_range f content : stored_bytes f ->
    exists r, feature_get pf timed f content None = Ok r /\ r_status r = 200 /\ r_body r = content /\
      r_content_range r = Some ("bytes None-" ++ py_str (Zlen content) ++ "/" ++ py_str (Zlen content)).
  Proof.
    intros Hf. unfold feature_get. cbn [range bind]. destruct (find_bytes f None None Hf) as [ct ->]. cbn [bind default_serialize].
    eexists. split; [reflexivity|]. cbn. auto.
  Qed.
  Lemma suffix_range_refuted f content rest : stored_bytes f ->
    feature_get pf timed f content (Some ("bytes=-" ++ rest)) = feature_get pf timed f content None /\
    exists r, feature_get pf timed f content (Some ("bytes=-" ++ rest)) = Ok r /\ r_status r = 200 /\ r_body r = content.
  Proof.
    intros Hf. assert (E : feature_get pf timed f content (Some ("bytes=-" ++ rest)) = feature_get pf timed f content None) by reflexivity.
    split; [exact E|]. rewrite E. destruct (no_range f content Hf) as [r [H1 [H2 [H3 _]]]]. exists r. auto.
  Qed.
  (** the last byte that was asked for is never there *)
  Lemma closed_range_refuted f content a b r : stored_bytes f -> 0 <= a <= b -> 0 < b < Zlen content ->
    feature_get pf timed f content (Some (bytes_header a (py_str b))) = Ok r ->
    Zlen (r_body r) = b - a.
  Proof.
    intros Hf Ha Hb. rewrite (get_bytes f content a _ Hf ltac:(lia)), py_int_str. cbn zeta iota.
    destruct (Z.eqb_spec b 0); [lia|]. destruct (Z.ltb_spec b a); [lia|]. cbn [orb]. intros [= <-]. cbn [r_body].
    unfold Zlen in *. rewrite firstn_length, skipn_length. lia.
  Qed.
  (** [bytes=0-0] asks for one byte and gets the whole resource *)
  Lemma first_byte_refuted f content : stored_bytes f ->
    exists r, feature_get pf timed f content (Some "bytes=0-0") = Ok r /\ r_status r = 206 /\ r_body r = content.
  Proof.
    intros Hf. pose proof (get_bytes f content 0 "0" Hf ltac:(lia)) as E. change (bytes_header 0 "0") with "bytes=0-0" in E.
    rewrite E. eexists. split; [reflexivity|]. split; reflexivity.
  Qed.
  (** a range beyond the end is an empty 206, not a 416 *)
  Lemma beyond_end_refuted f content a : stored_bytes f -> Zlen content <= a ->
    exists r, feature_get pf timed f content (Some (bytes_header a "")) = Ok r /\ r_status r = 206 /\ r_body r = [].
  Proof.
    intros Hf Ha. pose proof (Zlen_nonneg content). destruct (open_range f content a Hf ltac:(lia)) as [r [H1 [H2 [H3 _]]]].
    exists r. split; [exact H1|]. split; [exact H2|]. rewrite H3. apply skipn_all2. unfold Zlen in Ha. lia.
  Qed.
  (** no request is ever answered 416 *)
  Lemma never_416 f content header :
    r_status (answer (feature_get pf timed f content header)) = 200 \/
    r_status (answer (feature_get pf timed f content header)) = 206 \/
    r_status (answer (feature_get pf timed f content header)) = 500.
  Proof.
    destruct (feature_get pf timed f content header) as [r|e] eqn:E; [|cbn; auto].
    cbn [answer]. unfold feature_get in E. destruct (range pf header) as [sl|]; [|discriminate]. cbn [bind] in E.
    destruct (find_serializer f sl) as [s|]; [|discriminate]. cbn [bind] in E.
    match type of E with bind ?x _ = _ => destruct x as [[[v p] cr]|]; [|discriminate] end.
    cbn [bind] in E. injection E as <-. cbn [r_status]. destruct p; auto.
  Qed.
  (** a reversed range gives everything from its start *)
  Lemma reversed_range_refuted f content a b : stored_bytes f -> 0 <= b < a ->
    exists r, feature_get pf timed f content (Some (bytes_header a (py_str b))) = Ok r /\ r_status r = 206 /\
      r_body r = skipn (Z.to_nat a) content.
  Proof.
    intros Hf Hb. rewrite (get_bytes f content a _ Hf ltac:(lia)), py_int_str. eexists. split; [reflexivity|]. split; [reflexivity|].
    cbn zeta iota. cbn [r_body]. destruct (Z.ltb_spec b a); [|lia]. now rewrite orb_true_r.
  Qed.
  (** two ranges at once: everything from the start of the first *)
  Lemma two_ranges_refuted f content : stored_bytes f ->
    exists r, feature_get pf timed f content (Some "bytes=2-4,7-8") = Ok r /\ r_status r = 206 /\ r_body r = skipn 2 content.
  Proof.
    intros Hf. pose proof (get_bytes f content 2 "4,7-8" Hf ltac:(lia)) as E. change (bytes_header 2 "4,7-8") with "bytes=2-4,7-8" in E.
    rewrite E. eexists. split; [reflexivity|]. split; reflexivity.
  Qed.
  (** a start that is not a number, or another unit: the server fails *)
  Lemma malformed_range_refuted f content : 
    r_status (answer (feature_get pf timed f content (Some "bytes=x-"))) = 500 /\
    r_status (answer (feature_get pf timed f content (Some "items=0-5"))) = 500.
  Proof. split; reflexivity. Qed.

  (** features that are not stored as JSON or vorbis need a time range *)
  Lemma no_serializer f content header sl : ~ stored_bytes f ->
    range pf header = Ok sl -> (forall t, sl <> Seconds t) ->
    r_status (answer (feature_get pf timed f content header)) = 500.
  Proof.
    intros Hf Hr Hs. unfold feature_get. rewrite Hr. cbn [bind]. destruct sl as [a b|t]; [|exfalso; eapply Hs; reflexivity].
    unfold find_serializer, serializers, stored_bytes in *. cbn [find serializer_matches].
    destruct (String.eqb_spec (f_content_type f) "application/json"); [exfalso; auto|].
    destruct (String.eqb_spec (f_content_type f) "audio/ogg"); [exfalso; auto|].
    destruct (f_class f); reflexivity.
  Qed.
  Lemma onsets_refuted f content header : ~ stored_bytes f -> f_class f = TimeSliceFeature ->
    r_status (answer (feature_get pf timed f content header)) = 500.
  Proof.
    intros Hf Hc. unfold feature_get. destruct (range pf header) as [sl|]; [|reflexivity]. cbn [bind].
    unfold find_serializer, serializers, stored_bytes in *. cbn [find serializer_matches].
    destruct (String.eqb_spec (f_content_type f) "application/json"); [exfalso; auto|].
    destruct (String.eqb_spec (f_content_type f) "audio/ogg"); [exfalso; auto|].
    rewrite Hc. reflexivity.
  Qed.
End Ranges.

Example range_example : exists r,
  feature_get (fun _ => None) (fun _ _ _ => Raise OtherError) {| f_class := OtherFeature; f_content_type := "application/json" |}
    [10; 11; 12; 13; 14; 15]%Z (Some "bytes=2-4") = Ok r /\ r_body r = [12; 13]%Z /\ r_status r = 206 /\
    r_content_range r = Some "bytes 2-4/6".
Proof. eexists. split; [reflexivity|]. split; [reflexivity|split; reflexivity]. Qed.

(** ** time ranges *)
Lemma to_ps_spec q : (0 <= q)%Q -> (inject_Z (to_ps q) <= inject_Z (10 ^ 12) * q)%Q /\
  (inject_Z (10 ^ 12) * q < inject_Z (to_ps q + 1))%Q.
Proof.
  intros Hq. unfold to_ps, q_trunc. assert (H : (0 <= inject_Z (10 ^ 12) * q)%Q).
  { setoid_replace 0%Q with (inject_Z (10 ^ 12) * 0)%Q by reflexivity. apply Qmult_le_l; [reflexivity|exact Hq]. }
  destruct (Qle_bool 0 _) eqn:E; [|apply Qle_bool_iff in H; congruence].
  split; [apply Qfloor_le|apply Qlt_floor].
Qed.

(** a time range starts and ends where it should, to within two picoseconds *)
Lemma seconds_range pf start stop a b : no_char "-" start -> start <> "" -> pf start = Some a -> pf stop = Some b ->
  (0 <= a)%Q -> (a <= b)%Q ->
  exists t e, range pf (Some ("seconds=" ++ start ++ "-" ++ stop)) = Ok (Seconds t) /\ ts_end t = Ok e /\
    (inject_Z (ps (ts_start t)) <= inject_Z (10 ^ 12) * a < inject_Z (ps (ts_start t) + 1))%Q /\
    (inject_Z e <= inject_Z (10 ^ 12) * b < inject_Z (e + 2))%Q.
Proof.
  intros Hd Hn Ha Hb Hpa Hab.
  assert (E : range_match ("seconds=" ++ start ++ "-" ++ stop) = Some ("seconds", start, stop)).
  { unfold range_match. change ("seconds=" ++ start ++ "-" ++ stop) with ("seconds" ++ String "=" (start ++ String "-" stop)).
    rewrite cut_app by (cbn; repeat split; discriminate). cbn [is_empty]. rewrite cut_app by exact Hd.
    destruct start; [contradiction|reflexivity]. }
  unfold range. rewrite E. cbn [String.eqb Ascii.eqb Bool.eqb]. unfold time_slice. rewrite Ha, Hb.
  assert (Hba : (0 <= b - a)%Q) by (apply Qle_minus_iff in Hab; exact Hab).
  destruct (to_ps_spec a Hpa) as [A1 A2]. destruct (to_ps_spec (b - a) Hba) as [B1 B2].
  set (p := to_ps a) in *. set (d := to_ps (b - a)) in *. clearbody p d.
  assert (Ep : ps (ts_start (mk_timeslice (Some (picoseconds d)) (Some (picoseconds p)))) = p).
  { unfold mk_timeslice, ps, picoseconds. cbn [ts_start td_count td_unit unit_ps]. destruct (Z.eqb_spec p 0) as [->|]; cbn; lia. }
  exists (mk_timeslice (Some (picoseconds d)) (Some (picoseconds p))), (p + d). split; [reflexivity|].
  split. { unfold ts_end. rewrite Ep. unfold mk_timeslice. cbn [ts_duration]. unfold ps, picoseconds. cbn [td_count td_unit unit_ps]. f_equal. lia. }
  rewrite Ep. split; [split; assumption|].
  assert (S1 : (inject_Z (10 ^ 12) * b == inject_Z (10 ^ 12) * a + inject_Z (10 ^ 12) * (b - a))%Q) by ring.
  rewrite S1. split.
  - rewrite inject_Z_plus. apply Qplus_le_compat; assumption.
  - replace (p + d + 2) with ((p + 1) + (d + 1)) by ring. rewrite inject_Z_plus. apply Qplus_lt_le_compat; [assumption|apply Qlt_le_weak; assumption].
Qed.
(** with its end before its start, it ends there to within one picosecond *)
Lemma seconds_range_back pf start stop a b : no_char "-" start -> start <> "" -> pf start = Some a -> pf stop = Some b ->
  (0 <= a)%Q -> (b < a)%Q ->
  exists t e, range pf (Some ("seconds=" ++ start ++ "-" ++ stop)) = Ok (Seconds t) /\ ts_end t = Ok e /\
    (inject_Z (e - 1) < inject_Z (10 ^ 12) * b < inject_Z (e + 1))%Q.
Proof.
  intros Hd Hn Ha Hb Hpa Hab.
  assert (E : range_match ("seconds=" ++ start ++ "-" ++ stop) = Some ("seconds", start, stop)).
  { unfold range_match. change ("seconds=" ++ start ++ "-" ++ stop) with ("seconds" ++ String "=" (start ++ String "-" stop)).
    rewrite cut_app by (cbn; repeat split; discriminate). cbn [is_empty]. rewrite cut_app by exact Hd.
    destruct start; [contradiction|reflexivity]. }
  unfold range. rewrite E. cbn [String.eqb Ascii.eqb Bool.eqb]. unfold time_slice. rewrite Ha, Hb.
  destruct (to_ps_spec a Hpa) as [A1 A2].
  assert (B : (inject_Z (to_ps (b - a) - 1) < inject_Z (10 ^ 12) * (b - a) <= inject_Z (to_ps (b - a)))%Q).
  { unfold to_ps, q_trunc. assert (N : (inject_Z (10 ^ 12) * (b - a) < 0)%Q).
    { setoid_replace 0%Q with (inject_Z (10 ^ 12) * 0)%Q by reflexivity. apply Qmult_lt_l; [reflexivity|]. apply Qlt_minus_iff in Hab.
      apply Qlt_minus_iff. setoid_replace (0 + - (b - a))%Q with (a + - b)%Q by ring. exact Hab. }
    destruct (Qle_bool 0 _) eqn:F; [apply Qle_bool_iff in F; exfalso; exact (Qlt_not_le _ _ N F)|].
    split; [|apply Qle_ceiling]. apply Qceiling_lt. }
  destruct B as [B1 B2].
  set (p := to_ps a) in *. set (d := to_ps (b - a)) in *. clearbody p d.
  assert (Ep : ps (ts_start (mk_timeslice (Some (picoseconds d)) (Some (picoseconds p)))) = p).
  { unfold mk_timeslice, ps, picoseconds. cbn [ts_start td_count td_unit unit_ps]. destruct (Z.eqb_spec p 0) as [->|]; cbn; lia. }
  exists (mk_timeslice (Some (picoseconds d)) (Some (picoseconds p))), (p + d). split; [reflexivity|].
  split. { unfold ts_end. rewrite Ep. unfold mk_timeslice. cbn [ts_duration]. unfold ps, picoseconds. cbn [td_count td_unit unit_ps]. f_equal. lia. }
  assert (S1 : (inject_Z (10 ^ 12) * b == inject_Z (10 ^ 12) * a + inject_Z (10 ^ 12) * (b - a))%Q) by ring.
  rewrite S1. split.
  - replace (p + d - 1) with ((d - 1) + p) by ring. rewrite inject_Z_plus, (Qplus_comm (_ * a)). apply Qplus_lt_le_compat; assumption.
  - replace (p + d + 1) with ((p + 1) + d) by ring. rewrite inject_Z_plus. apply Qplus_lt_le_compat; assumption.
Qed.
(** a start written with a negative exponent is cut at its sign *)
Lemma seconds_exponent_refuted pf stop : pf "1e" = None ->
  range pf (Some ("seconds=1e-3-" ++ stop)) = Raise ValueError.
Proof. intros H. unfold range. cbn. unfold time_slice. now rewrite H. Qed.
