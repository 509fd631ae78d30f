(** Specification of templates, paths and identifier files. *)
Require Import String Ascii ZArith List.
Require Import Verif.S_Imma.
Import ListNotations.
Open Scope string_scope.
Open Scope Z_scope.

(** [s] is the number [z] in at least [n] digits, with zeros in front only to reach [n]. *)
Definition padded (n : nat) (z : Z) (s : string) : Prop :=
  decimal s z /\ (n <= String.length s)%nat /\ ((n < String.length s)%nat -> 10 ^ Z.of_nat (String.length s - 1) <= z).

(** A text begins with another. *)
Definition begins (p s : string) : Prop := exists t, s = p ++ t.
Definition occurs (p s : string) : Prop := exists a b, s = a ++ p ++ b.

(** A template and the text it is filled to, from left to right, for the texts [y], [m], [d] of year, month, day. *)
Inductive filled (y m d : string) : string -> string -> Prop :=
| F_end : filled y m d "" ""
| F_year : forall t o, filled y m d t o -> filled y m d ("YYYY" ++ t) (y ++ o)
| F_month : forall t o, filled y m d t o -> filled y m d ("MMMM" ++ t) (m ++ o)
| F_day : forall t o, filled y m d t o -> filled y m d ("DDDD" ++ t) (d ++ o)
| F_char : forall c t o, filled y m d t o ->
    ~ begins "YYYY" (String c t) -> ~ begins "MMMM" (String c t) -> ~ begins "DDDD" (String c t) ->
    filled y m d (String c t) (String c o).

(** The path of [b] seen from directory [a]. *)
Definition joined (a b p : string) : Prop :=
  (begins "/" b /\ p = b) \/
  (~ begins "/" b /\ (a = "" \/ exists a', a = a' ++ "/") /\ p = a ++ b) \/
  (~ begins "/" b /\ a <> "" /\ (~ exists a', a = a' ++ "/") /\ p = a ++ "/" ++ b).

(** The file a directory template and a file template name for a date. *)
Definition names_file (year month day : Z) (dirstub stub path : string) : Prop :=
  exists y m d dir file, padded 4 year y /\ padded 2 month m /\ padded 2 day d /\
    filled y m d dirstub dir /\ filled y m d stub file /\ joined dir file path.

(** The directories met going down from [a] through [subs]. *)
Inductive descends : string -> list string -> list string -> Prop :=
| D_nil : forall a, descends a [] []
| D_cons : forall a b subs p l, joined a b p -> descends p subs l -> descends a (b :: subs) (p :: l).

(** The line of an identifier file and its identifier: what is left without the white space at the end, then blanks up
    to nine characters. *)
Definition bad_id (line id : string) : Prop :=
  exists stem w b, line = stem ++ w /\ chars white w /\ (forall s c, stem = s ++ String c "" -> ~ white c) /\
    id = stem ++ b /\ chars (fun c => c = " "%char) b /\
    String.length id = Nat.max 9 (String.length stem).
Inductive ids_of : list string -> list string -> Prop :=
| I_nil : ids_of [] []
| I_blank : forall line lines l, chars white line -> ids_of lines l -> ids_of (line :: lines) l
| I_line : forall line id lines l, ~ chars white line -> bad_id line id -> ids_of lines l -> ids_of (line :: lines) (id :: l).

(** Character by character: a slash or a star became an underscore, the rest is the same. *)
Inductive made_safe : string -> string -> Prop :=
| A_nil : made_safe "" ""
| A_bad : forall c s t, c = "/"%char \/ c = "*"%char -> made_safe s t -> made_safe (String c s) (String "_" t)
| A_char : forall c s t, c <> "/"%char -> c <> "*"%char -> made_safe s t -> made_safe (String c s) (String c t).

(** The file [size] gives a size for is there and not empty. *)
Definition full (size : string -> option Z) (f : string) : Prop := exists n, size f = Some n /\ n <> 0.
(** The [i]th pair of templates names [orig], and the second alone names [new] in the directory [scratch]. *)
Definition candidate (year month day : Z) (scratch : string) (dirstubs filestubs : list string) (i : nat) (orig new : string) : Prop :=
  exists ds fs, nth_error dirstubs i = Some ds /\ nth_error filestubs i = Some fs /\
    names_file year month day ds fs orig /\ names_file year month day scratch fs new.
