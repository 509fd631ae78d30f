(** Specification of the layout of the IMMA attachments: for each attachment its fields in their order, with the number of bytes and how the
    bytes are to be read. Made from the documentation of the format as given in the tables of IMMA1.py, independently of the model's tables. *)
Require Import String ZArith QArith List.
Require Import Verif.M_Imma.
Import ListNotations.
Open Scope string_scope.

(** How a field is to be read: a whole number; a number of tenths, hundredths or thousandths; a base 36 digit; a text. A [Bare] field is a
    whole number that is not scaled at all. An [Odd] one is a text with a unit, which cannot be written (finding C42_nu_refuted). *)
Inductive kind := Whole | Tenths | Hundredths | Thousandths | Base36 | Text | Bare | Odd.
Definition has_kind (k : kind) (d : def) : Prop :=
  match k with
  | Whole => d_scale d = Some (1 # 1)%Q /\ d_enc d = 1%Z
  | Tenths => d_scale d = Some (1 # 10)%Q /\ d_enc d = 1%Z
  | Hundredths => d_scale d = Some (1 # 100)%Q /\ d_enc d = 1%Z
  | Thousandths => d_scale d = Some (1 # 1000)%Q /\ d_enc d = 1%Z
  | Base36 => d_scale d = Some (1 # 1)%Q /\ d_enc d = 2%Z
  | Text => d_scale d = None /\ d_enc d = 3%Z
  | Bare => d_scale d = None /\ d_enc d = 1%Z
  | Odd => d_scale d = Some (1 # 1)%Q /\ d_enc d = 3%Z
  end.
(** A field: name, bytes (0: as many as are left or as the other fields say), reading. *)
Definition entry : Type := string * nat * kind.
Definition matches (e : string * def) (l : entry) : Prop :=
  let '(name, bytes, k) := l in fst e = name /\ d_len (snd e) = (match bytes with O => None | _ => Some bytes end) /\ has_kind k (snd e).

Definition layout_00 : list entry := [
  ("YR", 4, Whole); ("MO", 2, Whole); ("DY", 2, Whole); ("HR", 4, Hundredths); ("LAT", 5, Hundredths); ("LON", 6, Hundredths); ("IM", 2, Whole);
  ("ATTC", 1, Base36); ("TI", 1, Whole); ("LI", 1, Whole); ("DS", 1, Whole); ("VS", 1, Whole); ("NID", 2, Whole); ("II", 2, Whole); ("ID", 9, Text);
  ("C1", 2, Text); ("DI", 1, Whole); ("D", 3, Whole); ("WI", 1, Whole); ("W", 3, Tenths); ("VI", 1, Whole); ("VV", 2, Whole); ("WW", 2, Whole);
  ("W1", 1, Whole); ("SLP", 5, Tenths); ("A", 1, Whole); ("PPP", 3, Tenths); ("IT", 1, Whole); ("AT", 4, Tenths); ("WBTI", 1, Whole);
  ("WBT", 4, Tenths); ("DPTI", 1, Whole); ("DPT", 4, Tenths); ("SI", 2, Whole); ("SST", 4, Tenths); ("N", 1, Whole); ("NH", 1, Whole);
  ("CL", 1, Base36); ("HI", 1, Whole); ("H", 1, Base36); ("CM", 1, Base36); ("CH", 1, Base36); ("WD", 2, Whole); ("WP", 2, Whole); ("WH", 2, Whole);
  ("SD", 2, Whole); ("SP", 2, Whole); ("SH", 2, Whole)]%nat.
Definition layout_01 : list entry := [
  ("BSI", 1, Whole); ("B10", 3, Whole); ("B1", 2, Whole); ("DCK", 3, Whole); ("SID", 3, Whole); ("PT", 2, Whole); ("DUPS", 2, Whole);
  ("DUPC", 1, Whole); ("TC", 1, Whole); ("PB", 1, Whole); ("WX", 1, Whole); ("SX", 1, Whole); ("C2", 2, Whole); ("SQZ", 1, Base36);
  ("SQA", 1, Base36); ("AQZ", 1, Base36); ("AQA", 1, Base36); ("UQZ", 1, Base36); ("UQA", 1, Base36); ("VQZ", 1, Base36); ("VQA", 1, Base36);
  ("PQZ", 1, Base36); ("PQA", 1, Base36); ("DQZ", 1, Base36); ("DQA", 1, Base36); ("ND", 1, Whole); ("SF", 1, Base36); ("AF", 1, Base36);
  ("UF", 1, Base36); ("VF", 1, Base36); ("PF", 1, Base36); ("RF", 1, Base36); ("ZNC", 1, Base36); ("WNC", 1, Base36); ("BNC", 1, Base36);
  ("XNC", 1, Base36); ("YNC", 1, Base36); ("PNC", 1, Base36); ("ANC", 1, Base36); ("GNC", 1, Base36); ("DNC", 1, Base36); ("SNC", 1, Base36);
  ("CNC", 1, Base36); ("ENC", 1, Base36); ("FNC", 1, Base36); ("TNC", 1, Base36); ("QCE", 2, Whole); ("LZ", 1, Whole); ("QCZ", 2, Whole)]%nat.
Definition layout_02 : list entry := [
  ("OS", 1, Whole); ("OP", 1, Whole); ("FM", 2, Whole); ("IX", 1, Whole); ("W2", 1, Whole); ("SGN", 1, Whole); ("SGT", 1, Base36); ("SGH", 2, Whole);
  ("WMI", 1, Whole); ("SD2", 2, Whole); ("SP2", 2, Whole); ("SH2", 2, Whole); ("IS", 1, Whole); ("ES", 2, Whole); ("RS", 1, Whole);
  ("IC1", 1, Base36); ("IC2", 1, Base36); ("IC3", 1, Base36); ("IC4", 1, Base36); ("IC5", 1, Base36); ("IR", 1, Whole); ("RRR", 3, Whole);
  ("TR", 1, Whole); ("QCI", 1, Whole); ("QI1", 1, Whole); ("QI2", 1, Whole); ("QI3", 1, Whole); ("QI4", 1, Whole); ("QI5", 1, Whole);
  ("QI6", 1, Whole); ("QI7", 1, Whole); ("QI8", 1, Whole); ("QI9", 1, Whole); ("QI10", 1, Whole); ("QI11", 1, Whole); ("QI12", 1, Whole);
  ("QI13", 1, Whole); ("QI14", 1, Whole); ("QI15", 1, Whole); ("QI16", 1, Whole); ("QI17", 1, Whole); ("QI18", 1, Whole); ("QI19", 1, Whole);
  ("QI20", 1, Whole); ("QI21", 1, Whole); ("HDG", 3, Whole); ("COG", 3, Whole); ("SOG", 2, Whole); ("SLL", 2, Whole); ("SLHH", 3, Whole);
  ("RWD", 3, Whole); ("RWS", 3, Tenths)]%nat.
Definition layout_03 : list entry := [
  ("CCCC", 4, Text); ("BUID", 6, Text); ("BMP", 5, Tenths); ("BSWU", 4, Tenths); ("SWU", 4, Tenths); ("BSWV", 4, Tenths); ("SWV", 4, Tenths);
  ("BSAT", 4, Tenths); ("BSRH", 3, Whole); ("SRH", 3, Whole); ("SIX", 1, Whole); ("BSST", 4, Tenths); ("MST", 1, Whole); ("MSH", 3, Whole);
  ("BY", 4, Whole); ("BM", 2, Whole); ("BD", 2, Whole); ("BH", 2, Whole); ("BFL", 2, Whole)]%nat.
Definition layout_04 : list entry := [
  ("C1M", 2, Text); ("OPM", 2, Whole); ("KOV", 2, Text); ("COR", 2, Text); ("TOB", 3, Text); ("TOT", 3, Text); ("EOT", 2, Text); ("LOT", 2, Text);
  ("TOH", 1, Text); ("EOH", 2, Text); ("SIM", 3, Text); ("LOV", 3, Whole); ("DOS", 2, Whole); ("HOP", 3, Whole); ("HOT", 3, Whole);
  ("HOB", 3, Whole); ("HOA", 3, Whole); ("SMF", 5, Whole); ("SME", 5, Whole); ("SMV", 2, Whole)]%nat.
Definition layout_05 : list entry := [
  ("OS", 1, Whole); ("OP", 1, Whole); ("FM", 1, Base36); ("IMMV", 1, Base36); ("IX", 1, Whole); ("W2", 1, Whole); ("WMI", 1, Whole);
  ("SD2", 2, Whole); ("SP2", 2, Whole); ("SH2", 2, Whole); ("IS", 1, Whole); ("ES", 2, Whole); ("RS", 1, Whole); ("IC1", 1, Base36);
  ("IC2", 1, Base36); ("IC3", 1, Base36); ("IC4", 1, Base36); ("IC5", 1, Base36); ("IR", 1, Whole); ("RRR", 3, Whole); ("TR", 1, Whole);
  ("NU", 1, Odd); ("QCI", 1, Whole); ("QI1", 1, Whole); ("QI2", 1, Whole); ("QI3", 1, Whole); ("QI4", 1, Whole); ("QI5", 1, Whole);
  ("QI6", 1, Whole); ("QI7", 1, Whole); ("QI8", 1, Whole); ("QI9", 1, Whole); ("QI10", 1, Whole); ("QI11", 1, Whole); ("QI12", 1, Whole);
  ("QI13", 1, Whole); ("QI14", 1, Whole); ("QI15", 1, Whole); ("QI16", 1, Whole); ("QI17", 1, Whole); ("QI18", 1, Whole); ("QI19", 1, Whole);
  ("QI20", 1, Whole); ("QI21", 1, Whole); ("HDG", 3, Whole); ("COG", 3, Whole); ("SOG", 2, Whole); ("SLL", 2, Whole); ("SLHH", 3, Whole);
  ("RWD", 3, Whole); ("RWS", 3, Tenths); ("QI22", 1, Whole); ("QI23", 1, Whole); ("QI24", 1, Whole); ("QI25", 1, Whole); ("QI26", 1, Whole);
  ("QI27", 1, Whole); ("QI28", 1, Whole); ("QI29", 1, Whole); ("RH", 4, Tenths); ("RHI", 1, Whole); ("AWSI", 1, Whole); ("IMONO", 7, Whole)]%nat.
Definition layout_06 : list entry := [
  ("CCCC", 4, Text); ("BUID", 6, Text); ("FBSRC", 1, Whole); ("BMP", 5, Tenths); ("BSWU", 4, Tenths); ("SWU", 4, Tenths); ("BSWV", 4, Tenths);
  ("SWV", 4, Tenths); ("BSAT", 4, Tenths); ("BSRH", 3, Whole); ("SRH", 3, Whole); ("BSST", 5, Tenths); ("MST", 1, Whole); ("MSH", 4, Whole);
  ("BY", 4, Whole); ("BM", 2, Whole); ("BD", 2, Whole); ("BH", 2, Whole); ("BFL", 2, Whole)]%nat.
Definition layout_07 : list entry := [
  ("MDS", 1, Whole); ("C1M", 2, Text); ("OPM", 2, Whole); ("KOV", 2, Text); ("COR", 2, Text); ("TOB", 3, Text); ("TOT", 3, Text); ("EOT", 2, Text);
  ("LOT", 2, Text); ("TOH", 1, Text); ("EOH", 2, Text); ("SIM", 3, Text); ("LOV", 3, Whole); ("DOS", 2, Whole); ("HOP", 3, Whole); ("HOT", 3, Whole);
  ("HOB", 3, Whole); ("HOA", 3, Whole); ("SMF", 5, Whole); ("SME", 5, Whole); ("SMV", 2, Whole)]%nat.
Definition layout_08 : list entry := [
  ("OTV", 5, Thousandths); ("OTZ", 4, Hundredths); ("OSV", 5, Hundredths); ("OSZ", 4, Hundredths); ("OOV", 4, Hundredths); ("OOZ", 4, Hundredths);
  ("OPV", 4, Hundredths); ("OPZ", 4, Hundredths); ("OSIV", 5, Hundredths); ("OSIZ", 4, Hundredths); ("ONV", 5, Hundredths); ("ONZ", 4, Hundredths);
  ("OPHV", 3, Hundredths); ("OPHZ", 4, Hundredths); ("OCV", 4, Hundredths); ("OCZ", 4, Hundredths); ("OAV", 3, Hundredths); ("OAZ", 4, Hundredths);
  ("OPCV", 4, Tenths); ("OPCZ", 4, Hundredths); ("ODV", 2, Tenths); ("ODZ", 4, Hundredths); ("PUID", 10, Text)]%nat.
Definition layout_09 : list entry := [
  ("CCe", 1, Base36); ("WWe", 2, Whole); ("Ne", 1, Whole); ("NHe", 1, Whole); ("He", 1, Whole); ("CLe", 2, Whole); ("CMe", 2, Whole);
  ("CHe", 1, Whole); ("AM", 3, Hundredths); ("AH", 3, Hundredths); ("UM", 1, Whole); ("UH", 1, Whole); ("SBI", 1, Whole); ("SA", 4, Tenths);
  ("RI", 4, Hundredths)]%nat.
Definition layout_95 : list entry := [
  ("ICNR", 2, Whole); ("FNR", 2, Whole); ("DPRO", 2, Whole); ("DPRP", 2, Whole); ("UFR", 1, Whole); ("MFGR", 7, Whole); ("MFGSR", 7, Whole);
  ("MAR", 7, Whole); ("MASR", 7, Whole); ("BCR", 7, Whole); ("ARCR", 4, Text); ("CDR", 8, Whole); ("ASIR", 1, Whole)]%nat.
Definition layout_96 : list entry := [
  ("ICNI", 2, Whole); ("FNI", 2, Whole); ("JVAD", 1, Base36); ("VAD", 6, Whole); ("IVAU1", 1, Base36); ("JVAU1", 1, Base36); ("VAU1", 6, Whole);
  ("IVAU2", 1, Base36); ("JVAU2", 1, Base36); ("VAU2", 6, Whole); ("IVAU3", 1, Base36); ("JVAU3", 1, Base36); ("VAU3", 6, Whole); ("VQC", 1, Whole);
  ("ARCI", 4, Text); ("CDR", 8, Whole); ("ASII", 1, Whole)]%nat.
Definition layout_97 : list entry := [
  ("ICNE", 2, Whole); ("FNE", 2, Whole); ("CEF", 1, Whole); ("ERRD", 0, Bare); ("ARCE", 4, Text); ("CDE", 8, Whole); ("ASIE", 1, Whole)]%nat.
Definition layout_98 : list entry := [
  ("UID", 6, Text); ("RN1", 1, Base36); ("RN2", 1, Base36); ("RN3", 1, Base36); ("RSA", 1, Whole); ("IRF", 1, Whole)]%nat.
Definition layout_99 : list entry := [
  ("ATTE", 1, Bare); ("SUPD", 0, Text)]%nat.
Definition layout : list (Z * (string * list entry)) := [
  (0, ("core", layout_00));
  (1, ("icoads", layout_01));
  (2, ("immt2", layout_02));
  (3, ("mqc", layout_03));
  (4, ("metadata", layout_04));
  (5, ("IMMT-5/FM 13", layout_05));
  (6, ("Model quality control", layout_06));
  (7, ("Ship metadata", layout_07));
  (8, ("NOCN", layout_08));
  (9, ("Ecr", layout_09));
  (95, ("Rean-qc", layout_95));
  (96, ("IVAD", layout_96));
  (97, ("Error", layout_97));
  (98, ("Uida", layout_98));
  (99, ("supplemental", layout_99))]%Z.
