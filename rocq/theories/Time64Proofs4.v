(** Proofs about Time64.v: the code with machine numbers does what the code with exact numbers does. *)
From Coq Require Import ZArith QArith Qround Lia Bool.
From Verif Require Import PyBase PyFacts Time TimeProofs Float64 Time64 Time64Proofs Time64Proofs2 Time64Proofs3.
Local Open Scope Z_scope.

Definition within (t : td) : Prop := - 2 ^ 53 < ps t < 2 ^ 53.
Lemma within_small t : within t -> small t.
Proof. unfold within, small. lia. Qed.
Lemma add_within a b : within a -> within b -> ps (td_add a b) = ps a + ps b.
Proof. intros Ha Hb. unfold within in *. apply td_add_ok; unfold small; lia. Qed.
Lemma sub_within a b : within a -> within b -> ps (td_sub a b) = ps a - ps b.
Proof. intros Ha Hb. unfold within in *. apply td_sub_ok; unfold small; lia. Qed.
Lemma start_value s d : ps (ts_start (mk_timeslice d (Some s))) = ps s.
Proof. cbn [mk_timeslice ts_start]. destruct (Z.eqb_spec (td_count s) 0) as [E|E]; [|reflexivity]. unfold ps. rewrite E. reflexivity. Qed.
Lemma end_ok t n : usual t -> d_size t = Some n -> exists e, end64 t = Ok e /\ ps e = n * ps (d_freq t) + (ps (d_dur t) - ps (d_freq t)) /\ t_span (exact t) = Ok (ps e).
Proof.
  intros (Hf & Hd & Hn) S. destruct (Hn n S) as [Hn0 Hn1]. unfold end64, t_span. cbn [exact t_size t_freq t_dur]. rewrite S.
  assert (M : ps (td_mul n (d_freq t)) = n * ps (d_freq t)) by (apply td_mul_ok; [apply within_small; unfold within; lia|nia]).
  assert (D : ps (td_sub (d_dur t) (d_freq t)) = ps (d_dur t) - ps (d_freq t)) by (apply sub_within; unfold within; lia).
  assert (A : ps (td_add (td_mul n (d_freq t)) (td_sub (d_dur t) (d_freq t))) = n * ps (d_freq t) + (ps (d_dur t) - ps (d_freq t))) by (rewrite <- M, <- D; apply td_add_ok; [apply within_small; unfold within; rewrite M; nia|apply within_small; unfold within; rewrite D; lia|rewrite M, D; nia]).
  eexists. split; [reflexivity|]. assert (E : ps (td_add (picoseconds 0) (td_add (td_mul n (d_freq t)) (td_sub (d_dur t) (d_freq t)))) = n * ps (d_freq t) + (ps (d_dur t) - ps (d_freq t))).
  { rewrite <- A. change (ps ?x = ps (td_add (td_mul n (d_freq t)) (td_sub (d_dur t) (d_freq t)))) with (ps x = 0 + ps (td_add (td_mul n (d_freq t)) (td_sub (d_dur t) (d_freq t)))). apply add_within; unfold within; [change (ps (picoseconds 0)) with 0; lia|rewrite A; nia]. }
  rewrite E. auto.
Qed.
(** a first sample and an end, given in picoseconds *)
Lemma bounds_ok t s e : usual t -> within s -> within (td_sub s (td_sub (d_dur t) (d_freq t))) -> 0 <= ps e < 2 ^ 53 -> clear (ps e) (ps (d_freq t)) ->
  to_int (max0 (np_floor (td_div (td_sub s (td_sub (d_dur t) (d_freq t))) (d_freq t)))) = Ok (Z.max 0 ((ps s - (t_dur (exact t) - t_freq (exact t))) / t_freq (exact t))) /\
  to_int (np_ceil (np_round2 (td_div e (d_freq t)))) = Ok (ceil_div (round2 (ps e) (t_freq (exact t))) 100).
Proof.
  intros (Hf & Hd & _) Hs Hw He Hc. assert (D : ps (td_sub (d_dur t) (d_freq t)) = ps (d_dur t) - ps (d_freq t)) by (apply sub_within; unfold within; lia). assert (Wd : within (td_sub (d_dur t) (d_freq t))) by (unfold within; rewrite D; lia).
  split.
  - rewrite first_index by (try exact Hw; lia). rewrite (sub_within s _ Hs Wd), D. reflexivity.
  - rewrite last_index by (try assumption; lia). f_equal. cbn [exact t_freq]. rewrite ceil_round2 by lia. destruct (Z.leb_spec (200 * (ps e mod ps (d_freq t))) (ps (d_freq t))); lia.
Qed.
Theorem slice_agrees t s d : usual t -> within s -> within d -> within (td_sub s (td_sub (d_dur t) (d_freq t))) -> 0 <= ps s + ps d < 2 ^ 53 -> clear (ps s + ps d) (ps (d_freq t)) ->
  slice64 t (TSlice s (Some d)) = integer_based_slice (exact t) (ITime (ps s) (Some (ps d))).
Proof.
  intros U Hs Hd Hw He Hc. unfold slice64, integer_based_slice. cbn [as_timeslice bind]. set (s' := ts_start (mk_timeslice (Some d) (Some s))). pose proof (start_value s (Some d)) as Es. fold s' in Es.
  assert (Ws : within s') by (unfold within; rewrite Es; exact Hs). destruct U as (Hf & Hdu & Hn) eqn:EU. assert (D : ps (td_sub (d_dur t) (d_freq t)) = ps (d_dur t) - ps (d_freq t)) by (apply sub_within; unfold within; lia). assert (Wd : within (td_sub (d_dur t) (d_freq t))) by (unfold within; rewrite D; lia).
  assert (Hw' : within (td_sub s' (td_sub (d_dur t) (d_freq t)))). { unfold within. rewrite sub_within by assumption. rewrite Es. unfold within in Hw. rewrite sub_within in Hw by assumption. exact Hw. }
  assert (Ee : ps (td_add s' d) = ps s + ps d) by (rewrite add_within by assumption; now rewrite Es).
  destruct (bounds_ok t s' (td_add s' d) U Ws Hw' ltac:(rewrite Ee; exact He) ltac:(rewrite Ee; exact Hc)) as [B1 B2]. rewrite B1, B2. cbn [bind]. rewrite Es, Ee. reflexivity.
Qed.
(** without a duration: up to the end *)
Theorem open_agrees t s n : usual t -> d_size t = Some n -> within s -> within (td_sub s (td_sub (d_dur t) (d_freq t))) -> 0 <= n * ps (d_freq t) + (ps (d_dur t) - ps (d_freq t)) -> clear (n * ps (d_freq t) + (ps (d_dur t) - ps (d_freq t))) (ps (d_freq t)) ->
  slice64 t (TSlice s None) = integer_based_slice (exact t) (ITime (ps s) None).
Proof.
  intros U S Hs Hw He Hc. destruct (end_ok t n U S) as (e & E1 & E2 & E3). unfold slice64, integer_based_slice. cbn [as_timeslice bind]. rewrite E1, E3. cbn [bind]. set (s' := ts_start (mk_timeslice None (Some s))). pose proof (start_value s None) as Es. fold s' in Es.
  assert (Ws : within s') by (unfold within; rewrite Es; exact Hs). destruct U as (Hf & Hdu & Hn) eqn:EU. assert (D : ps (td_sub (d_dur t) (d_freq t)) = ps (d_dur t) - ps (d_freq t)) by (apply sub_within; unfold within; lia). assert (Wd : within (td_sub (d_dur t) (d_freq t))) by (unfold within; rewrite D; lia).
  assert (Hw' : within (td_sub s' (td_sub (d_dur t) (d_freq t)))). { unfold within. rewrite sub_within by assumption. rewrite Es. unfold within in Hw. rewrite sub_within in Hw by assumption. exact Hw. }
  destruct (Hn n S) as [_ Hn1]. destruct (bounds_ok t s' e U Ws Hw' ltac:(rewrite E2; lia) ltac:(rewrite E2; exact Hc)) as [B1 B2]. rewrite B1, B2. cbn [bind]. rewrite Es. reflexivity.
Qed.
(** slices of durations that count from the beginning *)
Theorem python_agrees t n start stop : usual t -> d_size t = Some n -> ps (d_freq t) <= ps (d_dur t) ->
  (forall s, start = Some s -> 0 <= n * ps (d_freq t) + (ps (d_dur t) - ps (d_freq t)) + ps s /\ within s) -> (forall s, stop = Some s -> 0 <= n * ps (d_freq t) + (ps (d_dur t) - ps (d_freq t)) + ps s /\ within s) ->
  (let e := n * ps (d_freq t) + (ps (d_dur t) - ps (d_freq t)) in forall s, stop = Some s -> clear (if ps s <? 0 then e + ps s else ps s) (ps (d_freq t))) ->
  clear (n * ps (d_freq t) + (ps (d_dur t) - ps (d_freq t))) (ps (d_freq t)) ->
  slice64 t (DSlice start stop) = integer_based_slice (exact t) (Time.ISlice (option_map ps start) (option_map ps stop)).
Proof.
  intros U S Hl Hs Hp Hc Hce. destruct (end_ok t n U S) as (e & E1 & E2 & E3). destruct U as (Hf & Hdu & Hn) eqn:EU. destruct (Hn n S) as [Hn0 Hn1]. set (E := n * ps (d_freq t) + (ps (d_dur t) - ps (d_freq t))) in *. cbv zeta in Hc.
  assert (BE : 0 <= E < 2 ^ 53) by (unfold E; nia). assert (We : within e) by (unfold within; lia).
  set (zero := {| td_count := 0; td_unit := Sec |}). assert (Wz : within zero) by (unfold within, zero, ps; cbn [td_count td_unit]; lia). assert (Z0 : ps zero = 0) by reflexivity.
  unfold slice64, integer_based_slice. cbn [as_timeslice]. fold zero. rewrite E1, E3. cbn [bind].
  (* the start *)
  assert (A1 : exists s1, (if td_lt (match start with None => zero | Some s => s end) zero then Ok (td_add e (match start with None => zero | Some s => s end)) else Ok (match start with None => zero | Some s => s end)) = Ok s1 /\ 0 <= ps s1 < 2 ^ 53 /\
    match option_map ps start with None => Ok 0 | Some x => if x <? 0 then Ok (ps e + x) else Ok x end = Ok (ps s1)).
  { destruct start as [s|]; cbn [option_map].
    - destruct (Hs s eq_refl) as [L W]. rewrite td_lt_ok by (apply within_small; assumption). rewrite Z0. unfold within in W. destruct (Z.ltb_spec (ps s) 0); eexists; (split; [reflexivity|]); [|split; [lia|reflexivity]]. assert (X : ps (td_add e s) = ps e + ps s) by (apply add_within; assumption). rewrite X. split; [lia|reflexivity].
    - rewrite td_lt_ok by (apply within_small; assumption). rewrite Z.ltb_irrefl. exists zero. split; [reflexivity|]. rewrite Z0. split; [lia|reflexivity]. }
  destruct A1 as (s1 & A1 & R1 & X1). rewrite A1. cbn [bind]. rewrite X1. cbn [bind]. clear A1 X1.
  (* the stop *)
  assert (A2 : exists s2 s0, (match stop with None => Ok e | Some s => Ok s end) = Ok s0 /\ (if td_lt s0 zero then Ok (td_add e s0) else Ok s0) = Ok s2 /\ 0 <= ps s2 < 2 ^ 53 /\ clear (ps s2) (ps (d_freq t)) /\
    match option_map ps stop with None => Ok (ps e) | Some x => Ok x end = Ok (ps s0) /\ (if ps s0 <? 0 then Ok (ps e + ps s0) else Ok (ps s0)) = Ok (ps s2)).
  { destruct stop as [s|]; cbn [option_map].
    - destruct (Hp s eq_refl) as [L W]. specialize (Hc s eq_refl). exists (if ps s <? 0 then td_add e s else s), s. split; [reflexivity|]. rewrite td_lt_ok by (apply within_small; assumption). rewrite Z0. unfold within in W. destruct (Z.ltb_spec (ps s) 0); (split; [reflexivity|]); [|split; [lia|]; split; [exact Hc|]; split; reflexivity]. assert (X : ps (td_add e s) = ps e + ps s) by (apply add_within; assumption). rewrite X. split; [lia|]. split; [rewrite E2; exact Hc|]. split; reflexivity.
    - exists e, e. split; [reflexivity|]. rewrite td_lt_ok by (apply within_small; assumption). rewrite Z0. destruct (Z.ltb_spec (ps e) 0); [lia|]. split; [reflexivity|]. split; [lia|]. split; [rewrite E2; exact Hce|]. split; reflexivity. }
  destruct A2 as (s2 & s0 & A0 & A2 & R2 & C2 & X0 & X2). rewrite A0. cbn [bind]. rewrite A2. cbn [bind]. rewrite X0. cbn [bind]. rewrite X2. cbn [bind]. clear A0 A2 X0 X2.
  set (d := td_sub s2 s1). assert (Ed : ps d = ps s2 - ps s1) by (apply sub_within; unfold within; lia). assert (Wd : within d) by (unfold within; lia). assert (W1 : within s1) by (unfold within; lia).
  set (s' := ts_start (mk_timeslice (Some d) (Some s1))). pose proof (start_value s1 (Some d)) as Es. fold s' in Es. assert (Ws : within s') by (unfold within; lia).
  assert (Dd : ps (td_sub (d_dur t) (d_freq t)) = ps (d_dur t) - ps (d_freq t)) by (apply sub_within; unfold within; lia). assert (Wdd : within (td_sub (d_dur t) (d_freq t))) by (unfold within; rewrite Dd; lia).
  assert (Hw' : within (td_sub s' (td_sub (d_dur t) (d_freq t)))) by (unfold within; rewrite sub_within by assumption; rewrite Dd, Es; lia).
  assert (Ee : ps (td_add s' d) = ps s2) by (rewrite add_within by assumption; lia).
  destruct (bounds_ok t s' (td_add s' d) U Ws Hw' ltac:(rewrite Ee; exact R2) ltac:(rewrite Ee; exact C2)) as [B1 B2]. rewrite B1, B2. cbn [bind]. rewrite Es, Ee. replace (ps s1 + (ps s2 - ps s1)) with (ps s2) by ring. reflexivity.
Qed.
(** ** What the agreement means: slices on sample boundaries *)
Lemma clear_boundary k f : 1024 <= f -> 0 <= k * f < 2 ^ 53 -> clear (k * f) f.
Proof. intros Hf H. left. rewrite Z.mod_mul by lia. assert (k <= 2 ^ 43) by nia. assert (k * f <= 2 ^ 43 * f) by (apply Z.mul_le_mono_nonneg_r; lia). lia. Qed.
Theorem boundaries t a b : usual t -> ps (d_dur t) = ps (d_freq t) -> 0 <= a <= b -> b * ps (d_freq t) < 2 ^ 53 ->
  slice64 t (TSlice (td_mul a (d_freq t)) (Some (td_mul (b - a) (d_freq t)))) = Ok (a, b).
Proof.
  intros U E H B. destruct U as (Hf & Hd & Hn) eqn:EU. assert (Ma : ps (td_mul a (d_freq t)) = a * ps (d_freq t)) by (apply td_mul_ok; [apply within_small; unfold within; lia|nia]). assert (Mb : ps (td_mul (b - a) (d_freq t)) = (b - a) * ps (d_freq t)) by (apply td_mul_ok; [apply within_small; unfold within; lia|nia]).
  assert (D : ps (td_sub (d_dur t) (d_freq t)) = 0) by (rewrite sub_within by (unfold within; lia); lia).
  rewrite slice_agrees; try exact U; unfold within; rewrite ?Ma, ?Mb; try nia.
  - replace ((b - a) * ps (d_freq t)) with (b * ps (d_freq t) - a * ps (d_freq t)) by ring. apply (slice_on_boundaries (exact t)); cbn [exact t_freq t_dur]; lia.
  - rewrite sub_within; [rewrite Ma, D; nia|unfold within; rewrite Ma; nia|unfold within; rewrite D; lia].
  - replace (a * ps (d_freq t) + (b - a) * ps (d_freq t)) with (b * ps (d_freq t)) by ring. apply clear_boundary; nia.
Qed.
(** a slice on boundaries beyond two and a half hours of 48 kHz: one sample too many *)
Definition rate48 : dim64 := {| d_freq := picoseconds 20833333; d_dur := picoseconds 20833333; d_size := Some 500000000 |}.
Theorem beyond_refuted : slice64 rate48 (TSlice (td_mul 432345573 (d_freq rate48)) (Some (td_mul 1 (d_freq rate48)))) = Ok (432345572, 432345574).
Proof. vm_compute. reflexivity. Qed.
(** the tolerance itself depends on where: at 16 kHz an end 1/200 beyond sample 8 is one sample more, beyond sample 9 not *)
Definition rate16 : dim64 := {| d_freq := picoseconds 62500000; d_dur := picoseconds 62500000; d_size := None |}.
Theorem tolerance_refuted : slice64 rate16 (TSlice (picoseconds 0) (Some (picoseconds (8 * 62500000 + 312500)))) = Ok (0, 9) /\ slice64 rate16 (TSlice (picoseconds 0) (Some (picoseconds (11 * 62500000 + 312500)))) = Ok (0, 11) /\
  forall k, integer_based_slice (exact rate16) (ITime 0 (Some (k * 62500000 + 312500))) = Ok (0, k).
Proof.
  split; [vm_compute; reflexivity|]. split; [vm_compute; reflexivity|]. intros k. unfold integer_based_slice. cbn [bind exact t_freq t_dur rate16 d_freq d_dur]. change (ps (picoseconds 62500000)) with 62500000. cbn [bind]. rewrite ceil_round2 by lia. rewrite !Z.add_0_l. rewrite (Z.add_comm (k * 62500000)), Z.mod_add, Z.div_add by lia. change (312500 mod 62500000) with 312500. change (312500 / 62500000) with 0. change (200 * 312500 <=? 62500000) with true. change ((0 - (62500000 - 62500000)) / 62500000) with 0. cbn [Z.max Z.compare]. do 2 f_equal. lia.
Qed.
(** more than 106 days: the end is before the beginning, and nothing is selected *)
Theorem long_signal_refuted : exists n e, end64 {| d_freq := picoseconds 22675736; d_dur := picoseconds 22675736; d_size := Some n |} = Ok e /\ 0 < n /\ ps e < 0 /\
  exists b, slice64 {| d_freq := picoseconds 22675736; d_dur := picoseconds 22675736; d_size := Some n |} (TSlice (picoseconds 0) None) = Ok (0, b) /\ b < 0.
Proof. exists 410000000000. eexists. split; [reflexivity|]. split; [lia|]. split; [vm_compute; reflexivity|]. eexists. split; [vm_compute; reflexivity|]. vm_compute. reflexivity. Qed.
