(** Specification: csv files as the standard library reads them. *)
Require Import String Ascii List.
Require Import Verif.S_Imma Verif.S_Print.
Import ListNotations.
Open Scope string_scope.
Open Scope list_scope.

Definition lf : string := String "010"%char "".
Definition crlf : string := String "013"%char lf.
Definition mark : ascii := """"%char.
(** Every quotation mark twice. *)
Inductive doubled : string -> string -> Prop :=
| db_end : doubled "" ""
| db_mark : forall s t, doubled s t -> doubled (String mark s) (String mark (String mark t))
| db_other : forall c s t, c <> mark -> doubled s t -> doubled (String c s) (String c t).
(** The text of a cell: the value itself, if it has no comma and no line end and does not begin with a quotation mark, or any value at
    all between quotation marks, its own quotation marks doubled. *)
Inductive cell : string -> string -> Prop :=
| cell_bare : forall val, chars (fun c => c <> ","%char /\ c <> "010"%char /\ c <> "013"%char) val -> (forall s, val <> String mark s) -> cell val val
| cell_quoted : forall val t, doubled val t -> cell (String mark "" ++ t ++ String mark "")%string val.
(** The text of a row: its cells with commas between them.  A line without text is a row without cells. *)
Inductive row_text : string -> list string -> Prop :=
| rt_blank : row_text "" []
| rt_cells : forall raws vals, Forall2 cell raws vals -> between raws <> "" -> row_text (between raws) vals.
(** The text of a table: rows with either line end; the last one may lack it. *)
Inductive table_text : string -> list (list string) -> Prop :=
| tt_end : table_text "" []
| tt_last : forall t row, row_text t row -> t <> "" -> table_text t [row]
| tt_row : forall t row e rest rows, row_text t row -> e = lf \/ e = crlf -> table_text rest rows -> table_text (t ++ e ++ rest) (row :: rows).
(** The lines of a text; the last one may lack its line end. *)
Inductive lines_of : string -> list string -> Prop :=
| lo_end : lines_of "" []
| lo_last : forall l, chars (fun c => c <> "010"%char) l -> l <> "" -> lines_of l [l]
| lo_more : forall l rest ls, chars (fun c => c <> "010"%char) l -> lines_of rest ls -> lines_of (l ++ lf ++ rest) (l :: ls).
(** The rows that are not blank lines. *)
Inductive not_blank {A} : list (list A) -> list (list A) -> Prop :=
| nb_nil : not_blank [] []
| nb_drop : forall l l', not_blank l l' -> not_blank ([] :: l) l'
| nb_keep : forall x row l l', not_blank l l' -> not_blank ((x :: row) :: l) ((x :: row) :: l').
