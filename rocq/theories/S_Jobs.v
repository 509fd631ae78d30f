(** Specification of the jobs of the tracking wrapper. *)
Require Import String Ascii ZArith List.
Require Import Verif.S_Imma Verif.S_Files Verif.S_Print Verif.S_Calendar.
Import ListNotations.
Open Scope string_scope.
Open Scope Z_scope.

(** Letters, digits and a few other characters that mean nothing to the shell. *)
Definition plain_char (c : ascii) : Prop :=
  let n := Z.of_nat (nat_of_ascii c) in
  48 <= n <= 57 \/ 65 <= n <= 90 \/ 97 <= n <= 122 \/ In c ["-"; "_"; "."; "/"; ":"; ","; "+"; "="; "%"; "@"]%char.
(** A word of such characters that is no option. *)
Definition plain_word (s : string) : Prop := chars plain_char s /\ exists c t, s = String c t /\ c <> "-"%char.
(** An identifier of nine characters: a word without commas, then blanks. *)
Definition buoy_name (id core : string) : Prop :=
  plain_word core /\ chars (fun c => c <> ","%char) core /\ (exists b, id = core ++ b /\ chars (fun c => c = " "%char) b) /\ String.length id = 9%nat.
(** The name of the interval of a run, such as 198501-201412. *)
Definition month_range (first last : Z * Z) (rm : string) : Prop :=
  exists y m y' m', int_text (fst first) y /\ padded 2 (snd first) m /\ int_text (fst last) y' /\ padded 2 (snd last) m' /\ rm = y ++ m ++ "-" ++ y' ++ m'.
