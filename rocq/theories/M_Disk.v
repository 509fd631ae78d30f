(** Model of the disk the main program writes to.  No proofs here.

    Simplification: a directory is not modelled (C43) and opening a file never fails. *)
Require Import String List.
Require Import Verif.M_Base Verif.M_Print.
Import ListNotations.

(** The files there are, by their paths, with their contents. *)
Definition disk : Type := string -> option string.
(** open(path, 'w'), the lines, close (Extended_IMMA.py:2447-2457, 2479-2509, 2524-2546, 3149-3158, 3174-3200, 3218-3241,
    marine_qc.py:343-351): what the file held before is lost. *)
Definition write_file (d : disk) (f : file) : disk := fun path => if String.eqb path (fst f) then Some (snd f) else d path.
(** One file after the other (marine_qc.py:129-353). *)
Definition store (files : list file) (d : disk) : disk := fold_left write_file files d.
