(** JSON text as ujson writes and reads it (index.py:1, [import ujson as json]):
    compact separators, ASCII output, forward slashes escaped.  Python strings are
    sequences of the characters 0..255 here; numbers that are not integers are
    outside the model ([textual]). *)
From Verif Require Import PyBase Time Freq FreqDim Axis Persist Midi.
From Coq Require Import NArith String Ascii.
Import ListNotations.
Local Open Scope N_scope.

Definition text (s : string) : list N := map N_of_ascii (list_ascii_of_string s).

(** hexadecimal digits, as in [\u00e9] *)
Definition hex (n : N) : N := if n <? 10 then 48 + n else 87 + n.
Definition unhex (c : N) : option N :=
  if (48 <=? c) && (c <=? 57) then Some (c - 48)
  else if (97 <=? c) && (c <=? 102) then Some (c - 87)
  else if (65 <=? c) && (c <=? 70) then Some (c - 55) else None.

(** ujson's Buffer_EscapeStringValidated with ensure_ascii and
    escape_forward_slashes, both the default (index.py:140 [json.dumps]) *)
Definition escape (a : ascii) : list N :=
  let c := N_of_ascii a in
  if c =? 34 then [92; 34] else if c =? 92 then [92; 92] else if c =? 47 then [92; 47]
  else if c =? 8 then [92; 98] else if c =? 12 then [92; 102] else if c =? 10 then [92; 110]
  else if c =? 13 then [92; 114] else if c =? 9 then [92; 116]
  else if (c <? 32) || (128 <=? c) then [92; 117; 48; 48; hex (c / 16); hex (c mod 16)]
  else [c].
Fixpoint escaped (s : string) : list N :=
  match s with EmptyString => [] | String a s => escape a ++ escaped s end.
Definition quoted (s : string) : list N := 34 :: escaped s ++ [34].

Fixpoint separated (l : list (list N)) : list N :=
  match l with [] => [] | [x] => x | x :: r => x ++ 44 :: separated r end.

(** index.py:140 [json.dumps(encoded_ts)] *)
Fixpoint dumps (j : json) : list N :=
  match j with
  | JNull => text "null"
  | JBool b => if b then text "true" else text "false"
  | JInt z => text (py_str z)
  | JNum _ => []
  | JStr s => quoted s
  | JArr l => 91 :: separated (map dumps l) ++ [93]
  | JObj o => 123 :: separated (map (fun p => quoted (fst p) ++ 58 :: dumps (snd p)) o) ++ [125]
  end.

(** What ujson writes as text that it reads back: no floats, 64 bit integers. *)
Fixpoint textual (j : json) : bool :=
  match j with
  | JNum _ => false
  | JInt z => ((- 2 ^ 63 <=? z) && (z <? 2 ^ 63))%Z
  | JArr l => forallb textual l
  | JObj o => forallb (fun p => textual (snd p)) o
  | _ => true
  end.

(** ujson's decode_string *)
Definition unescape (e : N) : option ascii :=
  if e =? 34 then Some (ascii_of_N 34) else if e =? 92 then Some (ascii_of_N 92)
  else if e =? 47 then Some (ascii_of_N 47) else if e =? 98 then Some (ascii_of_N 8)
  else if e =? 102 then Some (ascii_of_N 12) else if e =? 110 then Some (ascii_of_N 10)
  else if e =? 114 then Some (ascii_of_N 13) else if e =? 116 then Some (ascii_of_N 9) else None.
Definition cons_char (a : ascii) (r : option (string * list N)) : option (string * list N) :=
  match r with Some (s, t) => Some (String a s, t) | None => None end.
Fixpoint unquote (t : list N) : option (string * list N) :=
  match t with
  | [] => None
  | c :: r =>
      if c =? 34 then Some (EmptyString, r)
      else if c =? 92 then
        match r with
        | [] => None
        | e :: r =>
            if e =? 117 then
              match r with
              | h1 :: h2 :: h3 :: h4 :: r =>
                  match unhex h1, unhex h2, unhex h3, unhex h4 with
                  | Some a, Some b, Some c, Some d =>
                      if (a =? 0) && (b =? 0) then cons_char (ascii_of_N (16 * c + d)) (unquote r) else None
                  | _, _, _, _ => None
                  end
              | _ => None
              end
            else match unescape e with Some a => cons_char a (unquote r) | None => None end
        end
      else if (c <? 32) || (128 <=? c) then None
      else cons_char (ascii_of_N c) (unquote r)
  end.

(** the characters of an integer *)
Definition num_char (c : N) : bool := ((48 <=? c) && (c <=? 57)) || (c =? 45).
Fixpoint span_num (t : list N) : string * list N :=
  match t with
  | c :: r => if num_char c then let '(s, r) := span_num r in (String (ascii_of_N c) s, r) else (EmptyString, t)
  | [] => (EmptyString, [])
  end.
Fixpoint eat (w t : list N) : option (list N) :=
  match w, t with
  | [], _ => Some t
  | a :: w, c :: t => if a =? c then eat w t else None
  | _ :: _, [] => None
  end.

(** ujson's decode_any, decode_array and decode_object; [fuel] bounds the nesting
    and the number of items (never reached: [loads] gives it the length of the
    text).  White space between tokens, which [dumps] does not write, is not
    skipped. *)
Fixpoint parse (fuel : nat) (t : list N) : result (json * list N) :=
  match fuel with
  | O => Raise ValueError
  | S f =>
      match t with
      | [] => Raise ValueError
      | c :: r =>
          if c =? 110 then match eat (text "ull") r with Some r => Ok (JNull, r) | None => Raise ValueError end
          else if c =? 116 then match eat (text "rue") r with Some r => Ok (JBool true, r) | None => Raise ValueError end
          else if c =? 102 then match eat (text "alse") r with Some r => Ok (JBool false, r) | None => Raise ValueError end
          else if c =? 34 then match unquote r with Some (s, r) => Ok (JStr s, r) | None => Raise ValueError end
          else if c =? 91 then
            match eat [93] r with
            | Some r => Ok (JArr [], r)
            | None => do (l, r) <- items f r; Ok (JArr l, r)
            end
          else if c =? 123 then
            match eat [125] r with
            | Some r => Ok (JObj [], r)
            | None => do (o, r) <- fields f r; Ok (JObj o, r)
            end
          else let '(s, r) := span_num t in do z <- py_int s; Ok (JInt z, r)
      end
  end
with items (fuel : nat) (t : list N) : result (list json * list N) :=
  match fuel with
  | O => Raise ValueError
  | S f =>
      do (j, r) <- parse f t;
      match r with
      | c :: r => if c =? 44 then do (l, r) <- items f r; Ok (j :: l, r)
                  else if c =? 93 then Ok ([j], r) else Raise ValueError
      | [] => Raise ValueError
      end
  end
with fields (fuel : nat) (t : list N) : result (list (string * json) * list N) :=
  match fuel with
  | O => Raise ValueError
  | S f =>
      match eat [34] t with
      | None => Raise ValueError
      | Some r =>
          match unquote r with
          | None => Raise ValueError
          | Some (k, r) =>
              match eat [58] r with
              | None => Raise ValueError
              | Some r =>
                  do (j, r) <- parse f r;
                  match r with
                  | c :: r => if c =? 44 then do (l, r) <- fields f r; Ok ((k, j) :: l, r)
                              else if c =? 125 then Ok ([(k, j)], r) else Raise ValueError
                  | [] => Raise ValueError
                  end
              end
          end
      end
  end.

(** index.py:171 [json.loads(result)]: the whole text must be one value *)
Definition loads (t : list N) : result json :=
  match parse (S (List.length t)) t with
  | Ok (j, []) => Ok j
  | Ok _ => Raise ValueError
  | Raise e => Raise e
  end.
