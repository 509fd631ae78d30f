(** Specification of the lines the other readers read. *)
Require Import String Ascii ZArith QArith List.
Require Import Verif.M_Base Verif.S_Imma Verif.M_Readers.
Import ListNotations.
Open Scope string_scope.
Open Scope Z_scope.

(** What an entry says about the text of a field. *)
Inductive kind := Integer | Scaled (k : Q) | Text.
Definition entry_means (float_of : string -> option xnum) (k : kind) (s : string) (e : entry) : Prop :=
  match k with
  | Integer => (exists z, integer_text s z /\ e = EInt z) \/ ((forall z, ~ integer_text s z) /\ e = ENone)
  | Scaled u => match float_of s with
                | Some (Fin q) => exists v, e = EFloat (Fin v) /\ (v == q * u)%Q
                | Some x => e = EFloat x
                | None => e = ENone
                end
  | Text => e = EStr s
  end.
(** The fields of a simple line, one behind the other: name, width, kind. *)
Definition simple_fields : list (string * nat * kind) :=
  [("YR", 4, Integer); ("MO", 2, Integer); ("DY", 2, Integer); ("HR", 4, Scaled (1 # 100)); ("LAT", 5, Scaled (1 # 100)); ("LON", 6, Scaled (1 # 100));
   ("DS", 1, Integer); ("VS", 1, Integer); ("ID", 9, Text); ("AT", 4, Scaled (1 # 10)); ("SST", 4, Scaled (1 # 10)); ("DPT", 4, Scaled (1 # 10));
   ("DCK", 3, Integer); ("SID", 3, Integer); ("PT", 2, Integer); ("UID", 6, Text)]%nat.
(** A line cut into cells of given widths; where the line is too short the last cells are. *)
Inductive laid : list nat -> string -> list string -> Prop :=
| laid_end : forall rest, laid [] rest []
| laid_full : forall n ws c rest cells, String.length c = n -> laid ws rest cells -> laid (n :: ws) (c ++ rest) (c :: cells)
| laid_short : forall n ws c cells, (String.length c < n)%nat -> laid ws "" cells -> laid (n :: ws) c (c :: cells).
Definition newlines (s : string) : Prop := chars (fun c => c = "010"%char) s.
