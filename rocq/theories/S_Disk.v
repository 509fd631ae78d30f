(** Specification of runs that are interrupted, repeated and shared out. *)
Require Import String ZArith List.
Require Import Verif.S_Calendar Verif.S_Files Verif.S_Print.
Import ListNotations.
Open Scope string_scope.
Open Scope Z_scope.

Definition same_files (d d' : string -> option string) : Prop := forall path, d path = d' path.
(** What is on the disk d if a run that was to write the files is stopped, at any point and with any part of what was still to be
    put on the disk lost: each file is as it was before, or holds the beginning of something the run was to write to it. *)
Definition stopped (files : list (string * string)) (d d' : string -> option string) : Prop :=
  forall path, d' path = d path \/ exists content t, In (path, content) files /\ begins t content /\ d' path = Some t.
(** Any number of stopped runs, one after the other. *)
Inductive stopped_often (files : list (string * string)) (d : string -> option string) : (string -> option string) -> Prop :=
| SO_none : stopped_often files d d
| SO_again : forall d' d'', stopped_often files d d' -> stopped files d' d'' -> stopped_often files d d''.
(** l is made of all the lists, each in its own order, in any way one between the other. *)
Inductive interleaved {A : Type} : list (list A) -> list A -> Prop :=
| IL_done : forall parts, Forall (fun p => p = []) parts -> interleaved parts []
| IL_next : forall before x p after l, interleaved (before ++ p :: after)%list l -> interleaved (before ++ (x :: p) :: after)%list (x :: l).
(** The directory of a month below some directory. *)
Definition month_dir (base : string) (year month : Z) (dir : string) : Prop :=
  exists y m, int_text year y /\ padded 2 month m /\ dir = base ++ y ++ "/" ++ m.
(** The months from one to another. *)
Definition months_between (ym1 ym2 : Z * Z) (months : list (Z * Z)) : Prop :=
  NoDup months /\ forall ym, In ym months <-> ym_ok ym /\ month_number ym1 <= month_number ym <= month_number ym2.
