(** Specification of IMMA fields: what a text means, and which values a field can hold. *)
Require Import String Ascii ZArith QArith List.
Require Import Verif.M_Base Verif.M_Report Verif.M_Imma.
Import ListNotations.
Open Scope string_scope.
Open Scope Z_scope.

Fixpoint chars (P : ascii -> Prop) (s : string) : Prop := match s with EmptyString => True | String c s' => P c /\ chars P s' end.
Definition white (c : ascii) : Prop := In c [" "; "009"; "010"; "011"; "012"; "013"]%char.
Definition blank (s : string) : Prop := s <> EmptyString /\ chars white s.

(** Decimal notation: a digit, or a decimal number followed by a digit. *)
Definition digit (c : ascii) (d : Z) : Prop := 0 <= d <= 9 /\ Z.of_nat (nat_of_ascii c) = 48 + d.
Inductive decimal : string -> Z -> Prop :=
| dec_one : forall c d, digit c d -> decimal (String c EmptyString) d
| dec_more : forall s z c d, decimal s z -> digit c d -> decimal (s ++ String c EmptyString) (10 * z + d).
(** The text of an integer: white space, a sign or none, decimal digits, white space. *)
Definition integer_text (s : string) (z : Z) : Prop :=
  exists a sign ds b n, s = a ++ sign ++ ds ++ b /\ chars white a /\ chars white b /\ decimal ds n /\
    ((sign = "" \/ sign = "+") /\ z = n \/ sign = "-" /\ z = - n).

(** Value of a base 36 digit. *)
Definition base36 (c : ascii) (d : Z) : Prop :=
  digit c d \/ (10 <= d <= 35 /\ Z.of_nat (nat_of_ascii c) = 65 + (d - 10)).

(** What the text of a field means (encoding 1 is an integer, 2 a base 36 digit, 3 a text); -1 stands for a
    character that is no base 36 digit. *)
Definition means (d : def) (s : string) (v : value) : Prop :=
  (blank s /\ v = VNone) \/
  (~ blank s /\
   match d_enc d, d_scale d with
   | 1, None => exists z, integer_text s z /\ v = VInt z
   | 1, Some sc => exists z, integer_text s z /\ (((sc == 1)%Q /\ v = VInt z) \/ (~ (sc == 1)%Q /\ v = VFloat (inject_Z z * sc)))
   | 2, _ => exists c, s = String c EmptyString /\
       ((exists z, base36 c z /\ v = VInt z) \/ ((forall z, ~ base36 c z) /\ v = VInt (-1)))
   | _, _ => v = VStr s
   end).

(** The values a field of [n] bytes can hold: nothing; a natural number of at most [n] digits, times the unit;
    a base 36 digit; a text of [n] bytes, not blank, without tabs and line ends. *)
Definition holds (d : def) (v : value) : Prop :=
  exists n, d_len d = Some n /\ (0 < n)%nat /\
  (v = VNone \/
   match d_enc d, d_scale d with
   | 1, Some sc => exists z, 0 <= z < 10 ^ Z.of_nat n /\ ~ (sc == 0)%Q /\ v = if Qeqb sc 1 then VInt z else VFloat (inject_Z z * sc)
   | 2, Some sc => (sc == 1)%Q /\ n = 1%nat /\ exists z, 0 <= z <= 35 /\ v = VInt z
   | 3, None => exists s, v = VStr s /\ String.length s = n /\ chars (fun c => white c -> c = " "%char) s /\ ~ blank s
   | _, _ => False
   end).

(** Where a field starts: after the fields before it. *)
Fixpoint width (table : list (string * def)) : nat :=
  match table with [] => O | (_, d) :: t => (match d_len d with Some n => n | None => 0 end + width t)%nat end.
Definition fixed (table : list (string * def)) : Prop := Forall (fun e => exists n, d_len (snd e) = Some n /\ (0 < n)%nat) table.
Definition names (table : list (string * def)) : list string := map fst table.
(** A record has a value, which the field can hold, for every parameter of an attachment. *)
Definition fills (table : list (string * def)) (data : list (string * value)) : Prop :=
  Forall (fun e => exists v, assoc (fst e) data = Some v /\ holds (snd e) v) table.
(** Some parameter of the attachment is not missing. *)
Definition some_value (table : list (string * def)) (data : list (string * value)) : Prop :=
  exists p d, In (p, d) table /\ assoc p data <> Some VNone.
