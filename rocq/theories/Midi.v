(** Model of zounds/util/midi.py (notes). *)
From Verif Require Import PyBase PyFacts PyMore.
From Coq Require Import String Ascii DecimalString DecimalZ Decimal.
Local Open Scope Z_scope.
Local Open Scope string_scope.

(** midi.py:1 *)
Definition NOTES : list string := ["C"; "C#"; "D"; "D#"; "E"; "F"; "F#"; "G"; "G#"; "A"; "A#"; "B"].

(** [str(n)] and [int(s)] of Python for decimal integers.  [int] also accepts
    surrounding blanks and underscores between digits, which is not modelled. *)
Definition py_str (n : Z) : string := NilZero.string_of_int (Z.to_int n).
Definition py_int (s : string) : result Z :=
  match s with
  | String "+" r => match NilZero.uint_of_string r with Some u => Ok (Z.of_uint u) | None => Raise ValueError end
  | _ => match NilZero.int_of_string s with Some i => Ok (Z.of_int i) | None => Raise ValueError end
  end.

(** midi.py:2 [NOTE_INDICES[name]] *)
Fixpoint index_of (s : string) (l : list string) (i : Z) : result Z :=
  match l with
  | [] => Raise KeyError
  | x :: l' => if String.eqb s x then Ok i else index_of s l' (i + 1)
  end.

(** midi.py:5-8 *)
Definition midi_to_note (n : Z) : result string :=
  let octave := n / Zlen NOTES in
  do name <- py_get NOTES (n mod Zlen NOTES);
  Ok (name ++ py_str octave).

(** midi.py:11-18 *)
Definition note_to_midi (note : string) : result Z :=
  match note with
  | String c0 (String c1 rest) =>
      let '(name, octave) := if Ascii.eqb c1 "#" then (String c0 (String c1 ""), rest) else (String c0 "", String c1 rest) in
      do o <- py_int octave;
      do i <- index_of name NOTES 0;
      Ok (o * Zlen NOTES + i)
  | _ => Raise IndexError
  end.
