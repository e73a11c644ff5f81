(** Facts about MIDI notes (C44). *)
From Verif Require Import PyBase PyFacts PyMore Midi.
From Coq Require Import String Ascii DecimalString DecimalZ Decimal.
Local Open Scope Z_scope.
Local Open Scope string_scope.

Lemma to_int_not_nil z : Z.to_int z <> Pos Nil /\ Z.to_int z <> Neg Nil.
Proof.
  split; intros E; pose proof (DecimalZ.of_to z) as H; rewrite E in H; cbn in H; subst z; discriminate E.
Qed.
Lemma py_str_head n : exists c r, py_str n = String c r /\ Ascii.eqb c "#" = false /\ Ascii.eqb c "+" = false.
Proof.
  unfold py_str, NilZero.string_of_int. destruct (Z.to_int n) as [d|d].
  - destruct d; cbn; eexists; eexists; (split; [reflexivity|split; reflexivity]).
  - eexists; eexists; (split; [reflexivity|split; reflexivity]).
Qed.
Lemma py_int_str n : py_int (py_str n) = Ok n.
Proof.
  destruct (to_int_not_nil n) as [H1 H2]. pose proof (NilZero.isi _ H1 H2) as H.
  fold (py_str n) in H. destruct (py_str_head n) as [c [r [E [_ Hp]]]]. rewrite E in *.
  unfold py_int. rewrite H, DecimalZ.of_to.
  destruct c as [[] [] [] [] [] [] [] []]; try reflexivity; discriminate Hp.
Qed.

Lemma note_name_cases i name : nth_error NOTES i = Some name ->
  index_of name NOTES 0 = Ok (Z.of_nat i) /\
  ((exists c, name = String c "") \/ (exists c, name = String c "#")).
Proof.
  intros H. do 12 (destruct i as [|i]; [injection H as <-; split; [reflexivity|];
    (left; eexists; reflexivity) || (right; eexists; reflexivity)|cbn [nth_error NOTES] in H]).
  destruct i; discriminate.
Qed.

(** a note name followed by an octave is twelve semitones per octave above the C of
    octave zero, whatever the sign of the octave *)
Lemma note_pitch i name o : nth_error NOTES i = Some name ->
  note_to_midi (name ++ py_str o) = Ok (12 * o + Z.of_nat i).
Proof.
  intros H. destruct (note_name_cases i name H) as [Hi Hc]. destruct (py_str_head o) as [c [r [E [Hs _]]]].
  unfold note_to_midi. change (Zlen NOTES) with 12. destruct Hc as [[a ->]|[a ->]].
  - cbn [append]. rewrite E, Hs. rewrite <- E, py_int_str. cbn [bind]. rewrite Hi. cbn [bind]. f_equal. ring.
  - cbn [append]. change (Ascii.eqb "#" "#") with true. cbn [fst]. rewrite py_int_str. cbn [bind]. rewrite Hi. cbn [bind]. f_equal. ring.
Qed.
Lemma midi_name n : exists i name, Z.of_nat i = n mod 12 /\ nth_error NOTES i = Some name /\
  midi_to_note n = Ok (name ++ py_str (n / 12)).
Proof.
  pose proof (Z.mod_pos_bound n 12 ltac:(lia)) as B. exists (Z.to_nat (n mod 12)).
  destruct (nth_error NOTES (Z.to_nat (n mod 12))) as [name|] eqn:E.
  - exists name. split; [lia|]. split; [reflexivity|]. unfold midi_to_note, py_get. change (Zlen NOTES) with 12.
    destruct (Z.ltb_spec (n mod 12) 0); [lia|]. destruct (Z.ltb_spec (n mod 12) 0); [lia|]. rewrite E. reflexivity.
  - exfalso. apply nth_error_None in E. cbn [List.length NOTES] in E. lia.
Qed.
(** number -> name -> number, for every integer *)
Lemma midi_roundtrip n : exists note, midi_to_note n = Ok note /\ note_to_midi note = Ok n.
Proof.
  destruct (midi_name n) as [i [name [Hi [Hn E]]]]. eexists. split; [exact E|]. rewrite (note_pitch i name _ Hn). f_equal.
  rewrite Hi. pose proof (Z.div_mod n 12 ltac:(lia)). lia.
Qed.
(** name -> number -> name *)
Lemma note_roundtrip i name o : nth_error NOTES i = Some name ->
  exists n, note_to_midi (name ++ py_str o) = Ok n /\ midi_to_note n = Ok (name ++ py_str o).
Proof.
  intros H. eexists. split; [exact (note_pitch i name o H)|].
  assert (Hi : (i < 12)%nat) by (change 12%nat with (List.length NOTES); apply nth_error_Some; congruence).
  destruct (midi_name (12 * o + Z.of_nat i)) as [j [name' [Hj [Hn E]]]].
  assert (Em : (12 * o + Z.of_nat i) mod 12 = Z.of_nat i).
  { rewrite Z.add_comm, Z.mul_comm, Z.mod_add by lia. apply Z.mod_small. lia. }
  assert (Ed : (12 * o + Z.of_nat i) / 12 = o).
  { rewrite Z.add_comm, Z.mul_comm, Z.div_add by lia. rewrite Z.div_small by lia. ring. }
  rewrite E, Ed. rewrite Em in Hj. replace j with i in Hn by lia. congruence.
Qed.
(** nothing else is accepted *)
Lemma index_of_sound s l k n : index_of s l k = Ok n -> exists i, nth_error l i = Some s /\ n = k + Z.of_nat i.
Proof.
  revert k; induction l as [|x l IH]; intros k H; [discriminate|]. cbn [index_of] in H.
  destruct (String.eqb_spec s x) as [->|_].
  - injection H as <-. exists 0%nat. split; [reflexivity|cbn; lia].
  - destruct (IH _ H) as [i [Hi Hn]]. exists (S i). split; [exact Hi|lia].
Qed.
Lemma note_accepts note n : note_to_midi note = Ok n ->
  exists i name octave o, note = name ++ octave /\ nth_error NOTES i = Some name /\ py_int octave = Ok o /\ n = 12 * o + Z.of_nat i.
Proof.
  unfold note_to_midi. change (Zlen NOTES) with 12.
  destruct note as [|c0 [|c1 rest]]; try discriminate.
  destruct (Ascii.eqb_spec c1 "#") as [->|_]; intros H.
  - destruct (py_int rest) as [o|e] eqn:Eo; [|discriminate]. cbn [bind] in H.
    destruct (index_of (String c0 "#") NOTES 0) as [k|e] eqn:Ei; [|discriminate]. cbn [bind] in H. injection H as <-.
    apply index_of_sound in Ei. destruct Ei as [i [Hi ->]]. exists i, (String c0 "#"), rest, o.
    split; [reflexivity|]. split; [exact Hi|]. split; [exact Eo|ring].
  - destruct (py_int (String c1 rest)) as [o|e] eqn:Eo; [|discriminate]. cbn [bind] in H.
    destruct (index_of (String c0 "") NOTES 0) as [k|e] eqn:Ei; [|discriminate]. cbn [bind] in H. injection H as <-.
    apply index_of_sound in Ei. destruct Ei as [i [Hi ->]]. exists i, (String c0 ""), (String c1 rest), o.
    split; [reflexivity|]. split; [exact Hi|]. split; [exact Eo|ring].
Qed.
(** flats are not notes, and a lone letter is an IndexError *)
Lemma flats_refuted : note_to_midi "Db4" = Raise ValueError /\ note_to_midi "C" = Raise IndexError.
Proof. split; reflexivity. Qed.
Example midi_ex : midi_to_note 60 = Ok "C5" /\ midi_to_note (-1) = Ok "B-1" /\ note_to_midi "F#10" = Ok 126 /\ note_to_midi "C-2" = Ok (-24).
Proof. repeat split; reflexivity. Qed.

(** the names of the twelve semitones of an octave, in order *)
Lemma note_names o :
  map (fun name : string => note_to_midi (name ++ py_str o)) ["C"; "C#"; "D"; "D#"; "E"; "F"; "F#"; "G"; "G#"; "A"; "A#"; "B"]
  = map (fun k : nat => Ok (12 * o + Z.of_nat k)) (seq 0 12).
Proof. cbn [map seq]. repeat (apply f_equal2; [apply note_pitch; reflexivity|]). reflexivity. Qed.

(** which error a text that names no note is *)
Lemma index_of_missing s l k : ~ In s l -> index_of s l k = Raise KeyError.
Proof.
  revert k. induction l as [|x l IH]; intros k H; [reflexivity|]. cbn [index_of]. destruct (String.eqb_spec s x) as [->|_]; [exfalso; apply H; now left|]. apply IH. intros J. apply H. now right.
Qed.
Lemma note_errors c0 c1 rest :
  let name := if Ascii.eqb c1 "#" then String c0 (String c1 "") else String c0 "" in
  let octave := if Ascii.eqb c1 "#" then rest else String c1 rest in
  (forall e, py_int octave = Raise e -> note_to_midi (String c0 (String c1 rest)) = Raise e) /\
  (forall o, py_int octave = Ok o -> ~ In name NOTES -> note_to_midi (String c0 (String c1 rest)) = Raise KeyError) /\
  note_to_midi "" = Raise IndexError /\ note_to_midi (String c0 "") = Raise IndexError.
Proof.
  cbv zeta. unfold note_to_midi. destruct (Ascii.eqb c1 "#"); (split; [intros e E; now rewrite E|split; [intros o E N; rewrite E; cbn [bind]; now rewrite (index_of_missing _ _ _ N)|split; reflexivity]]).
Qed.
