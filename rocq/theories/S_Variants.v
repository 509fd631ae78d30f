(** Specification of the high resolution program and of the tracking-only program. *)
Require Import String Ascii ZArith QArith List.
Require Import Verif.M_Base Verif.M_Report Verif.S_Report Verif.M_Imma Verif.S_Imma Verif.S_Files Verif.S_Print Verif.S_Main.
Import ListNotations.
Open Scope string_scope.
Open Scope Z_scope.

(** A report made from a record and nothing added to its variables; the hour may have been repaired. *)
Definition made_plain (im : imma) (r : report) : Prop :=
  text_field im "ID" (r_id r) /\ text_field im "UID" (r_uid r) /\
  (forall n, In n VARLIST -> n <> "HR" -> number_field im n (getvar r n)) /\
  (number_field im "HR" (getvar r "HR") \/ number_field im "HR" None /\ hour_repaired r).
(** A report without normals but that of sea temperature, which has no standard deviation. *)
Definition only_sst_normal (r : report) : Prop := (forall n, n <> "SST" -> getnorm r n = None) /\ (forall n, getnorm_stdev r n = None).
(** The flags of sea temperature that are written. *)
Definition documented_sst_flags : list string := ["bud"; "clim"; "nonorm"; "freez"; "noval"; "nbud"; "bbud"; "rep"; "spike"; "hardlimit"].
(** The file of flags of a deck or of a drifter. *)
Definition sst_flag_file (dir : string) (year month : Z) (name : string) (l : list report) (f : string * string) : Prop :=
  exists y m, int_text year y /\ padded 2 month m /\ fst f = (dir ++ "/SST_qc_" ++ y ++ m ++ "_" ++ name ++ ".csv")%string /\ flag_file "SST" documented_sst_flags l (snd f).
