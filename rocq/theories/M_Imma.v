(** Model of the IMMA reader and writer (IMMA1.py).  No proofs here.

    Simplifications: text is a string of bytes; Python's integers and floats are Z and Q (float rounding of the
    scaled values is not modelled); raising with a tuple, which cannot happen (an unknown attachment raises
    KeyError before), is left out. *)
Require Import String Ascii ZArith QArith List Bool.
Require Import Verif.M_Base Verif.M_Report.
Import ListNotations.
Open Scope string_scope.

Open Scope Z_scope.

(** A field value: None, an int, a float or a text. *)
Inductive value := VNone | VInt (z : Z) | VFloat (q : Q) | VStr (s : string).
(** A row of the definitions: length in bytes, units scale, encoding. *)
Record def := mkdef { d_len : option nat; d_scale : option Q; d_enc : Z }.

(** Python's white space: blank, tab, newline, vertical tab, form feed, carriage return. *)
Definition is_space (c : ascii) : bool :=
  let n := nat_of_ascii c in (n =? 32)%nat || ((9 <=? n)%nat && (n <=? 13)%nat).
Fixpoint all_space (s : string) : bool := match s with EmptyString => true | String c s' => is_space c && all_space s' end.
(** s.isspace(): not empty and only white space. *)
Definition isspace (s : string) : bool := match s with EmptyString => false | _ => all_space s end.
(** s.rstrip(chars) and s.lstrip(). *)
Fixpoint rstrip_by (f : ascii -> bool) (s : string) : string :=
  match s with
  | EmptyString => EmptyString
  | String c s' => match rstrip_by f s' with EmptyString => if f c then EmptyString else String c EmptyString | r => String c r end
  end.
Definition rstrip := rstrip_by is_space.
Definition newline : ascii := "010"%char.
Definition rstrip_newline := rstrip_by (Ascii.eqb newline).
Fixpoint lstrip (s : string) : string :=
  match s with EmptyString => EmptyString | String c s' => if is_space c then lstrip s' else s end.

Fixpoint blanks (n : nat) : string := match n with O => EmptyString | S n' => String " " (blanks n') end.
(** "%5s" % s and "%-5s" % s. *)
Definition pad_left (n : nat) (s : string) : string := blanks (n - String.length s) ++ s.
Definition pad_right (n : nat) (s : string) : string := s ++ blanks (n - String.length s).

(** str of an int: the digits of a natural number, last first; then the sign. *)
Definition digit_char (d : Z) : ascii := ascii_of_nat (48 + Z.to_nat d).
Fixpoint digits (fuel : nat) (n : Z) : string :=
  match fuel with
  | O => EmptyString
  | S fuel' => if n <? 10 then String (digit_char n) EmptyString else digits fuel' (n / 10) ++ String (digit_char (n mod 10)) EmptyString
  end.
Definition str_of_nat (n : Z) : string := digits (S (Z.to_nat (Z.log2 n))) n.
Definition str_of_int (z : Z) : string := if z <? 0 then String "-" (str_of_nat (- z)) else str_of_nat z.
(** int of a text: white space around, an optional sign, at least one digit; else ValueError. *)
Definition is_digit (c : ascii) : bool := let n := nat_of_ascii c in (48 <=? n)%nat && (n <=? 57)%nat.
Fixpoint digits_from (acc : Z) (s : string) : res Z :=
  match s with
  | EmptyString => Ok acc
  | String c s' => if is_digit c then digits_from (10 * acc + Z.of_nat (nat_of_ascii c - 48)) s' else Err ValueError
  end.
Definition digits_value (s : string) : res Z := match s with EmptyString => Err ValueError | _ => digits_from 0 s end.
Definition int_of_str (s : string) : res Z :=
  match rstrip (lstrip s) with
  | String "-" d => let! z := digits_value d in Ok (- z)
  | String "+" d => digits_value d
  | d => digits_value d
  end.

Definition base36_digits : string := "0123456789ABCDEFGHIJKLMNOPQRSTUVWXYZ".
(** s.find(t): the position of the first occurrence, -1 if none. *)
Definition find_in (s t : string) : Z := match String.index 0 t s with Some i => Z.of_nat i | None => -1 end.
(** IMMA1.py:201-202 decode_base36. *)
Definition decode_base36 (t : string) : Z := find_in base36_digits t.
(** s[a:b] of a text, negative positions from the end. *)
Definition slice (s : string) (a b : Z) : string :=
  let n := Z.of_nat (String.length s) in
  let clip x := Z.max 0 (Z.min n (if x <? 0 then x + n else x)) in
  let a := clip a in let b := clip b in
  substring (Z.to_nat a) (Z.to_nat (b - a)) s.
(** IMMA1.py:205-206 encode_base36. *)
Definition encode_base36 (t : Z) : string := slice base36_digits t (t + 1).

(** The record: parameter values and the list of its attachments. *)
Record imma := { im_data : list (string * value); im_att : list Z }.
Definition new_imma : imma := {| im_data := []; im_att := [] |}.

(** IMMA1.py:111-124: a field's text to its value. *)
Definition field_value (d : def) (s : string) : res value :=
  if isspace s then Ok VNone
  else
    let! v := if d_enc d =? 2 then Ok (VInt (decode_base36 s))
              else if d_enc d =? 1 then let! z := int_of_str s in Ok (VInt z)
              else Ok (VStr s) in
    match d_scale d with
    | Some sc =>
        if Qeqb sc 1 then Ok v
        else let! z := match v with VInt z => Ok z | VStr s => int_of_str s | _ => Err TypeError end in
             Ok (VFloat (inject_Z z * sc))
    | None => Ok v
    end.
(** IMMA1.py:93-124 decode, from a position on. *)
Fixpoint decode_from (pos : nat) (table : list (string * def)) (s : string) (data : list (string * value)) : res (list (string * value)) :=
  match table with
  | [] => Ok data
  | (p, d) :: table' =>
      let f := match d_len d with
               | Some n => substring pos n s
               | None => rstrip_newline (substring pos (String.length s - pos) s)
               end in
      let pos' := match d_len d with Some n => (pos + n)%nat | None => String.length s end in
      let! v := field_value d f in
      decode_from pos' table' s ((p, v) :: data)
  end.
Definition decode (table : list (string * def)) (s : string) (data : list (string * value)) := decode_from 0 table s data.

(** IMMA1.py:136-172: a value to its field's text.  Scaling a text raises TypeError, so does printing a text as a
    number; printing a float into a character field is not modelled (TypeError). *)
Definition field_text (d : def) (v : value) : res string :=
  match v with
  | VNone => Ok match d_len d with Some n => pad_left n " " | None => " " end
  | _ =>
      let! v := match d_scale d with
                | Some sc =>
                    let! q := match v with VInt z => Ok (inject_Z z) | VFloat q => Ok q | _ => Err TypeError end in
                    let! q := (if Qeqb sc 0 then Err ZeroDivisionError else Ok (q / sc)%Q) in
                    Ok (VInt (py_int (q + (1 # 2))))
                | None => Ok v
                end in
      let! v := if d_enc d =? 2 then match v with VInt z => Ok (VStr (encode_base36 z)) | _ => Err TypeError end else Ok v in
      if d_enc d =? 1 then
        let! z := match v with VInt z => Ok z | VFloat q => Ok (py_int q) | _ => Err TypeError end in
        Ok match d_len d with Some n => pad_left n (str_of_int z) | None => str_of_int z end
      else
        let! s := match v with VStr s => Ok s | VInt z => Ok (str_of_int z) | _ => Err TypeError end in
        Ok match d_len d with Some n => pad_right n s | None => s end
  end.
(** IMMA1.py:128-174; a parameter the record does not have raises KeyError. *)
Fixpoint encode_fields (table : list (string * def)) (data : list (string * value)) : res string :=
  match table with
  | [] => Ok EmptyString
  | (p, d) :: table' =>
      let! v := match assoc p data with Some v => Ok v | None => Err KeyError end in
      let! f := field_text d v in
      let! rest := encode_fields table' data in
      Ok (f ++ rest)
  end.
(** IMMA1.py:176-183: identifier and length in front. *)
Definition encode (att : Z) (table : list (string * def)) (data : list (string * value)) : res string :=
  let! r := encode_fields table data in
  Ok (if att =? 0 then r
      else if att =? 99 then pad_left 2 (str_of_int att) ++ " 0" ++ r
      else pad_left 2 (str_of_int att) ++ pad_left 2 (str_of_int (Z.of_nat (String.length r) + 4)) ++ r).

Fixpoint zassoc {A} (k : Z) (l : list (Z * A)) : option A :=
  match l with [] => None | (i, x) :: l' => if k =? i then Some x else zassoc k l' end.
(** IMMA1.py:193-198 getAttachment, getParameters, getDefinitions (KeyError for an unknown attachment). *)
Definition get_table (tables : list (Z * (string * list (string * def)))) (att : Z) : res (list (string * def)) :=
  match zassoc att tables with Some (_, t) => Ok t | None => Err KeyError end.

(** IMMA1.py:79-90 write. *)
Fixpoint encode_all (tables : list (Z * (string * list (string * def)))) (atts : list Z) (data : list (string * value)) : res string :=
  match atts with
  | [] => Ok EmptyString
  | a :: atts' =>
      let! t := get_table tables a in
      let! e := encode a t data in
      let! rest := encode_all tables atts' data in
      Ok (e ++ rest)
  end.
Definition write (tables : list (Z * (string * list (string * def)))) (r : imma) : res string :=
  let! s := encode_all tables (im_att r) (im_data r) in
  Ok (rstrip s ++ String newline EmptyString).

Definition drop (n : nat) (s : string) : string := substring n (String.length s - n) s.
(** line[Length:len(line)], Length possibly negative. *)
Definition drop_z (n : Z) (s : string) : string := slice s n (Z.of_nat (String.length s)).

(** IMMA1.py:42-74: the loop over the attachments.  Every round but the last drops the four bytes of a header,
    so the fuel never runs out (theorem C42_ends). *)
Fixpoint read_loop (fuel : nat) (tables : list (Z * (string * list (string * def)))) (line : string) (att : Z) (len : option Z) (r : imma) : option (res imma) :=
  match line with
  | EmptyString => Some (Ok r)
  | _ =>
      match fuel with
      | O => None
      | S fuel' =>
          let line := match len with
                      | Some n => if (0 <? n) && (Z.of_nat (String.length line) <? n) then line ++ pad_left (Z.to_nat (n - Z.of_nat (String.length line))) " " else line
                      | None => line
                      end in
          match get_table tables att with
          | Err e => Some (Err e)
          | Ok t =>
          match decode t line (im_data r) with
          | Err e => Some (Err e)
          | Ok data =>
          let r := {| im_data := data; im_att := (im_att r ++ [att])%list |} in
          match len with
          | None => Some (Ok r)
          | Some n =>
          if n =? 0 then Some (Ok r)
          else
            let line := drop_z n line in
            match line with
            | EmptyString => Some (Ok r)
            | _ =>
                match int_of_str (substring 0 2 line) with
                | Err e => Some (Err e)
                | Ok att =>
                let l := if att =? 8 then "102" else substring 2 2 line in
                if isspace l then
                  match get_table tables att with Err e => Some (Err e) | Ok _ => read_loop fuel' tables line att None r end
                else
                  match int_of_str l with
                  | Err e => Some (Err e)
                  | Ok n =>
                  let (n, line) := if n =? 0 then (n, line) else (n - 4, drop 4 line) in
                  match get_table tables att with Err e => Some (Err e) | Ok _ => read_loop fuel' tables line att (Some n) r end
                  end
                end
            end
          end end end
      end
  end.
(** IMMA1.py:27-76 readstr: None at the end of the file, the record otherwise. *)
Definition readstr (tables : list (Z * (string * list (string * def)))) (line : string) (r : imma) : option (res imma) :=
  let line := rstrip_newline line in
  read_loop (S (String.length line)) tables line 0 (Some 108) r.
