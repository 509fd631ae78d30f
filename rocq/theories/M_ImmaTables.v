(** The tables of the IMMA attachments (IMMA1.py:213-828), transcribed: for each attachment its name and, in the
    order they are in on disc, its parameters with length in bytes, units scale and encoding (1 integer,
    2 base 36, 3 character).  The minimum and maximum values in the tables are not used by the code and left out.
    The two dictionaries parameters and definitions become one list; every parameter has a definition. *)
Require Import String ZArith QArith List.
Require Import Verif.M_Imma.
Import ListNotations.
Open Scope string_scope.
Open Scope list_scope.
Open Scope Z_scope.

(** IMMA1.py:220-288. *)
Definition table_00 : list (string * def) := [
  ("YR", mkdef (Some 4%nat) (Some (1 # 1)) 1);
  ("MO", mkdef (Some 2%nat) (Some (1 # 1)) 1);
  ("DY", mkdef (Some 2%nat) (Some (1 # 1)) 1);
  ("HR", mkdef (Some 4%nat) (Some (1 # 100)) 1);
  ("LAT", mkdef (Some 5%nat) (Some (1 # 100)) 1);
  ("LON", mkdef (Some 6%nat) (Some (1 # 100)) 1);
  ("IM", mkdef (Some 2%nat) (Some (1 # 1)) 1);
  ("ATTC", mkdef (Some 1%nat) (Some (1 # 1)) 2);
  ("TI", mkdef (Some 1%nat) (Some (1 # 1)) 1);
  ("LI", mkdef (Some 1%nat) (Some (1 # 1)) 1);
  ("DS", mkdef (Some 1%nat) (Some (1 # 1)) 1);
  ("VS", mkdef (Some 1%nat) (Some (1 # 1)) 1);
  ("NID", mkdef (Some 2%nat) (Some (1 # 1)) 1);
  ("II", mkdef (Some 2%nat) (Some (1 # 1)) 1);
  ("ID", mkdef (Some 9%nat) None 3);
  ("C1", mkdef (Some 2%nat) None 3);
  ("DI", mkdef (Some 1%nat) (Some (1 # 1)) 1);
  ("D", mkdef (Some 3%nat) (Some (1 # 1)) 1);
  ("WI", mkdef (Some 1%nat) (Some (1 # 1)) 1);
  ("W", mkdef (Some 3%nat) (Some (1 # 10)) 1);
  ("VI", mkdef (Some 1%nat) (Some (1 # 1)) 1);
  ("VV", mkdef (Some 2%nat) (Some (1 # 1)) 1);
  ("WW", mkdef (Some 2%nat) (Some (1 # 1)) 1);
  ("W1", mkdef (Some 1%nat) (Some (1 # 1)) 1);
  ("SLP", mkdef (Some 5%nat) (Some (1 # 10)) 1);
  ("A", mkdef (Some 1%nat) (Some (1 # 1)) 1);
  ("PPP", mkdef (Some 3%nat) (Some (1 # 10)) 1);
  ("IT", mkdef (Some 1%nat) (Some (1 # 1)) 1);
  ("AT", mkdef (Some 4%nat) (Some (1 # 10)) 1);
  ("WBTI", mkdef (Some 1%nat) (Some (1 # 1)) 1);
  ("WBT", mkdef (Some 4%nat) (Some (1 # 10)) 1);
  ("DPTI", mkdef (Some 1%nat) (Some (1 # 1)) 1);
  ("DPT", mkdef (Some 4%nat) (Some (1 # 10)) 1);
  ("SI", mkdef (Some 2%nat) (Some (1 # 1)) 1);
  ("SST", mkdef (Some 4%nat) (Some (1 # 10)) 1);
  ("N", mkdef (Some 1%nat) (Some (1 # 1)) 1);
  ("NH", mkdef (Some 1%nat) (Some (1 # 1)) 1);
  ("CL", mkdef (Some 1%nat) (Some (1 # 1)) 2);
  ("HI", mkdef (Some 1%nat) (Some (1 # 1)) 1);
  ("H", mkdef (Some 1%nat) (Some (1 # 1)) 2);
  ("CM", mkdef (Some 1%nat) (Some (1 # 1)) 2);
  ("CH", mkdef (Some 1%nat) (Some (1 # 1)) 2);
  ("WD", mkdef (Some 2%nat) (Some (1 # 1)) 1);
  ("WP", mkdef (Some 2%nat) (Some (1 # 1)) 1);
  ("WH", mkdef (Some 2%nat) (Some (1 # 1)) 1);
  ("SD", mkdef (Some 2%nat) (Some (1 # 1)) 1);
  ("SP", mkdef (Some 2%nat) (Some (1 # 1)) 1);
  ("SH", mkdef (Some 2%nat) (Some (1 # 1)) 1)].

(** IMMA1.py:294-363. *)
Definition table_01 : list (string * def) := [
  ("BSI", mkdef (Some 1%nat) (Some (1 # 1)) 1);
  ("B10", mkdef (Some 3%nat) (Some (1 # 1)) 1);
  ("B1", mkdef (Some 2%nat) (Some (1 # 1)) 1);
  ("DCK", mkdef (Some 3%nat) (Some (1 # 1)) 1);
  ("SID", mkdef (Some 3%nat) (Some (1 # 1)) 1);
  ("PT", mkdef (Some 2%nat) (Some (1 # 1)) 1);
  ("DUPS", mkdef (Some 2%nat) (Some (1 # 1)) 1);
  ("DUPC", mkdef (Some 1%nat) (Some (1 # 1)) 1);
  ("TC", mkdef (Some 1%nat) (Some (1 # 1)) 1);
  ("PB", mkdef (Some 1%nat) (Some (1 # 1)) 1);
  ("WX", mkdef (Some 1%nat) (Some (1 # 1)) 1);
  ("SX", mkdef (Some 1%nat) (Some (1 # 1)) 1);
  ("C2", mkdef (Some 2%nat) (Some (1 # 1)) 1);
  ("SQZ", mkdef (Some 1%nat) (Some (1 # 1)) 2);
  ("SQA", mkdef (Some 1%nat) (Some (1 # 1)) 2);
  ("AQZ", mkdef (Some 1%nat) (Some (1 # 1)) 2);
  ("AQA", mkdef (Some 1%nat) (Some (1 # 1)) 2);
  ("UQZ", mkdef (Some 1%nat) (Some (1 # 1)) 2);
  ("UQA", mkdef (Some 1%nat) (Some (1 # 1)) 2);
  ("VQZ", mkdef (Some 1%nat) (Some (1 # 1)) 2);
  ("VQA", mkdef (Some 1%nat) (Some (1 # 1)) 2);
  ("PQZ", mkdef (Some 1%nat) (Some (1 # 1)) 2);
  ("PQA", mkdef (Some 1%nat) (Some (1 # 1)) 2);
  ("DQZ", mkdef (Some 1%nat) (Some (1 # 1)) 2);
  ("DQA", mkdef (Some 1%nat) (Some (1 # 1)) 2);
  ("ND", mkdef (Some 1%nat) (Some (1 # 1)) 1);
  ("SF", mkdef (Some 1%nat) (Some (1 # 1)) 2);
  ("AF", mkdef (Some 1%nat) (Some (1 # 1)) 2);
  ("UF", mkdef (Some 1%nat) (Some (1 # 1)) 2);
  ("VF", mkdef (Some 1%nat) (Some (1 # 1)) 2);
  ("PF", mkdef (Some 1%nat) (Some (1 # 1)) 2);
  ("RF", mkdef (Some 1%nat) (Some (1 # 1)) 2);
  ("ZNC", mkdef (Some 1%nat) (Some (1 # 1)) 2);
  ("WNC", mkdef (Some 1%nat) (Some (1 # 1)) 2);
  ("BNC", mkdef (Some 1%nat) (Some (1 # 1)) 2);
  ("XNC", mkdef (Some 1%nat) (Some (1 # 1)) 2);
  ("YNC", mkdef (Some 1%nat) (Some (1 # 1)) 2);
  ("PNC", mkdef (Some 1%nat) (Some (1 # 1)) 2);
  ("ANC", mkdef (Some 1%nat) (Some (1 # 1)) 2);
  ("GNC", mkdef (Some 1%nat) (Some (1 # 1)) 2);
  ("DNC", mkdef (Some 1%nat) (Some (1 # 1)) 2);
  ("SNC", mkdef (Some 1%nat) (Some (1 # 1)) 2);
  ("CNC", mkdef (Some 1%nat) (Some (1 # 1)) 2);
  ("ENC", mkdef (Some 1%nat) (Some (1 # 1)) 2);
  ("FNC", mkdef (Some 1%nat) (Some (1 # 1)) 2);
  ("TNC", mkdef (Some 1%nat) (Some (1 # 1)) 2);
  ("QCE", mkdef (Some 2%nat) (Some (1 # 1)) 1);
  ("LZ", mkdef (Some 1%nat) (Some (1 # 1)) 1);
  ("QCZ", mkdef (Some 2%nat) (Some (1 # 1)) 1)].

(** IMMA1.py:369-442. *)
Definition table_02 : list (string * def) := [
  ("OS", mkdef (Some 1%nat) (Some (1 # 1)) 1);
  ("OP", mkdef (Some 1%nat) (Some (1 # 1)) 1);
  ("FM", mkdef (Some 2%nat) (Some (1 # 1)) 1);
  ("IX", mkdef (Some 1%nat) (Some (1 # 1)) 1);
  ("W2", mkdef (Some 1%nat) (Some (1 # 1)) 1);
  ("SGN", mkdef (Some 1%nat) (Some (1 # 1)) 1);
  ("SGT", mkdef (Some 1%nat) (Some (1 # 1)) 2);
  ("SGH", mkdef (Some 2%nat) (Some (1 # 1)) 1);
  ("WMI", mkdef (Some 1%nat) (Some (1 # 1)) 1);
  ("SD2", mkdef (Some 2%nat) (Some (1 # 1)) 1);
  ("SP2", mkdef (Some 2%nat) (Some (1 # 1)) 1);
  ("SH2", mkdef (Some 2%nat) (Some (1 # 1)) 1);
  ("IS", mkdef (Some 1%nat) (Some (1 # 1)) 1);
  ("ES", mkdef (Some 2%nat) (Some (1 # 1)) 1);
  ("RS", mkdef (Some 1%nat) (Some (1 # 1)) 1);
  ("IC1", mkdef (Some 1%nat) (Some (1 # 1)) 2);
  ("IC2", mkdef (Some 1%nat) (Some (1 # 1)) 2);
  ("IC3", mkdef (Some 1%nat) (Some (1 # 1)) 2);
  ("IC4", mkdef (Some 1%nat) (Some (1 # 1)) 2);
  ("IC5", mkdef (Some 1%nat) (Some (1 # 1)) 2);
  ("IR", mkdef (Some 1%nat) (Some (1 # 1)) 1);
  ("RRR", mkdef (Some 3%nat) (Some (1 # 1)) 1);
  ("TR", mkdef (Some 1%nat) (Some (1 # 1)) 1);
  ("QCI", mkdef (Some 1%nat) (Some (1 # 1)) 1);
  ("QI1", mkdef (Some 1%nat) (Some (1 # 1)) 1);
  ("QI2", mkdef (Some 1%nat) (Some (1 # 1)) 1);
  ("QI3", mkdef (Some 1%nat) (Some (1 # 1)) 1);
  ("QI4", mkdef (Some 1%nat) (Some (1 # 1)) 1);
  ("QI5", mkdef (Some 1%nat) (Some (1 # 1)) 1);
  ("QI6", mkdef (Some 1%nat) (Some (1 # 1)) 1);
  ("QI7", mkdef (Some 1%nat) (Some (1 # 1)) 1);
  ("QI8", mkdef (Some 1%nat) (Some (1 # 1)) 1);
  ("QI9", mkdef (Some 1%nat) (Some (1 # 1)) 1);
  ("QI10", mkdef (Some 1%nat) (Some (1 # 1)) 1);
  ("QI11", mkdef (Some 1%nat) (Some (1 # 1)) 1);
  ("QI12", mkdef (Some 1%nat) (Some (1 # 1)) 1);
  ("QI13", mkdef (Some 1%nat) (Some (1 # 1)) 1);
  ("QI14", mkdef (Some 1%nat) (Some (1 # 1)) 1);
  ("QI15", mkdef (Some 1%nat) (Some (1 # 1)) 1);
  ("QI16", mkdef (Some 1%nat) (Some (1 # 1)) 1);
  ("QI17", mkdef (Some 1%nat) (Some (1 # 1)) 1);
  ("QI18", mkdef (Some 1%nat) (Some (1 # 1)) 1);
  ("QI19", mkdef (Some 1%nat) (Some (1 # 1)) 1);
  ("QI20", mkdef (Some 1%nat) (Some (1 # 1)) 1);
  ("QI21", mkdef (Some 1%nat) (Some (1 # 1)) 1);
  ("HDG", mkdef (Some 3%nat) (Some (1 # 1)) 1);
  ("COG", mkdef (Some 3%nat) (Some (1 # 1)) 1);
  ("SOG", mkdef (Some 2%nat) (Some (1 # 1)) 1);
  ("SLL", mkdef (Some 2%nat) (Some (1 # 1)) 1);
  ("SLHH", mkdef (Some 3%nat) (Some (1 # 1)) 1);
  ("RWD", mkdef (Some 3%nat) (Some (1 # 1)) 1);
  ("RWS", mkdef (Some 3%nat) (Some (1 # 10)) 1)].

(** IMMA1.py:448-484. *)
Definition table_03 : list (string * def) := [
  ("CCCC", mkdef (Some 4%nat) None 3);
  ("BUID", mkdef (Some 6%nat) None 3);
  ("BMP", mkdef (Some 5%nat) (Some (1 # 10)) 1);
  ("BSWU", mkdef (Some 4%nat) (Some (1 # 10)) 1);
  ("SWU", mkdef (Some 4%nat) (Some (1 # 10)) 1);
  ("BSWV", mkdef (Some 4%nat) (Some (1 # 10)) 1);
  ("SWV", mkdef (Some 4%nat) (Some (1 # 10)) 1);
  ("BSAT", mkdef (Some 4%nat) (Some (1 # 10)) 1);
  ("BSRH", mkdef (Some 3%nat) (Some (1 # 1)) 1);
  ("SRH", mkdef (Some 3%nat) (Some (1 # 1)) 1);
  ("SIX", mkdef (Some 1%nat) (Some (1 # 1)) 1);
  ("BSST", mkdef (Some 4%nat) (Some (1 # 10)) 1);
  ("MST", mkdef (Some 1%nat) (Some (1 # 1)) 1);
  ("MSH", mkdef (Some 3%nat) (Some (1 # 1)) 1);
  ("BY", mkdef (Some 4%nat) (Some (1 # 1)) 1);
  ("BM", mkdef (Some 2%nat) (Some (1 # 1)) 1);
  ("BD", mkdef (Some 2%nat) (Some (1 # 1)) 1);
  ("BH", mkdef (Some 2%nat) (Some (1 # 1)) 1);
  ("BFL", mkdef (Some 2%nat) (Some (1 # 1)) 1)].

(** IMMA1.py:490-526. *)
Definition table_04 : list (string * def) := [
  ("C1M", mkdef (Some 2%nat) None 3);
  ("OPM", mkdef (Some 2%nat) (Some (1 # 1)) 1);
  ("KOV", mkdef (Some 2%nat) None 3);
  ("COR", mkdef (Some 2%nat) None 3);
  ("TOB", mkdef (Some 3%nat) None 3);
  ("TOT", mkdef (Some 3%nat) None 3);
  ("EOT", mkdef (Some 2%nat) None 3);
  ("LOT", mkdef (Some 2%nat) None 3);
  ("TOH", mkdef (Some 1%nat) None 3);
  ("EOH", mkdef (Some 2%nat) None 3);
  ("SIM", mkdef (Some 3%nat) None 3);
  ("LOV", mkdef (Some 3%nat) (Some (1 # 1)) 1);
  ("DOS", mkdef (Some 2%nat) (Some (1 # 1)) 1);
  ("HOP", mkdef (Some 3%nat) (Some (1 # 1)) 1);
  ("HOT", mkdef (Some 3%nat) (Some (1 # 1)) 1);
  ("HOB", mkdef (Some 3%nat) (Some (1 # 1)) 1);
  ("HOA", mkdef (Some 3%nat) (Some (1 # 1)) 1);
  ("SMF", mkdef (Some 5%nat) (Some (1 # 1)) 1);
  ("SME", mkdef (Some 5%nat) (Some (1 # 1)) 1);
  ("SMV", mkdef (Some 2%nat) (Some (1 # 1)) 1)].

(** IMMA1.py:530-604. *)
Definition table_05 : list (string * def) := [
  ("OS", mkdef (Some 1%nat) (Some (1 # 1)) 1);
  ("OP", mkdef (Some 1%nat) (Some (1 # 1)) 1);
  ("FM", mkdef (Some 1%nat) (Some (1 # 1)) 2);
  ("IMMV", mkdef (Some 1%nat) (Some (1 # 1)) 2);
  ("IX", mkdef (Some 1%nat) (Some (1 # 1)) 1);
  ("W2", mkdef (Some 1%nat) (Some (1 # 1)) 1);
  ("WMI", mkdef (Some 1%nat) (Some (1 # 1)) 1);
  ("SD2", mkdef (Some 2%nat) (Some (1 # 1)) 1);
  ("SP2", mkdef (Some 2%nat) (Some (1 # 1)) 1);
  ("SH2", mkdef (Some 2%nat) (Some (1 # 1)) 1);
  ("IS", mkdef (Some 1%nat) (Some (1 # 1)) 1);
  ("ES", mkdef (Some 2%nat) (Some (1 # 1)) 1);
  ("RS", mkdef (Some 1%nat) (Some (1 # 1)) 1);
  ("IC1", mkdef (Some 1%nat) (Some (1 # 1)) 2);
  ("IC2", mkdef (Some 1%nat) (Some (1 # 1)) 2);
  ("IC3", mkdef (Some 1%nat) (Some (1 # 1)) 2);
  ("IC4", mkdef (Some 1%nat) (Some (1 # 1)) 2);
  ("IC5", mkdef (Some 1%nat) (Some (1 # 1)) 2);
  ("IR", mkdef (Some 1%nat) (Some (1 # 1)) 1);
  ("RRR", mkdef (Some 3%nat) (Some (1 # 1)) 1);
  ("TR", mkdef (Some 1%nat) (Some (1 # 1)) 1);
  ("NU", mkdef (Some 1%nat) (Some (1 # 1)) 3);
  ("QCI", mkdef (Some 1%nat) (Some (1 # 1)) 1);
  ("QI1", mkdef (Some 1%nat) (Some (1 # 1)) 1);
  ("QI2", mkdef (Some 1%nat) (Some (1 # 1)) 1);
  ("QI3", mkdef (Some 1%nat) (Some (1 # 1)) 1);
  ("QI4", mkdef (Some 1%nat) (Some (1 # 1)) 1);
  ("QI5", mkdef (Some 1%nat) (Some (1 # 1)) 1);
  ("QI6", mkdef (Some 1%nat) (Some (1 # 1)) 1);
  ("QI7", mkdef (Some 1%nat) (Some (1 # 1)) 1);
  ("QI8", mkdef (Some 1%nat) (Some (1 # 1)) 1);
  ("QI9", mkdef (Some 1%nat) (Some (1 # 1)) 1);
  ("QI10", mkdef (Some 1%nat) (Some (1 # 1)) 1);
  ("QI11", mkdef (Some 1%nat) (Some (1 # 1)) 1);
  ("QI12", mkdef (Some 1%nat) (Some (1 # 1)) 1);
  ("QI13", mkdef (Some 1%nat) (Some (1 # 1)) 1);
  ("QI14", mkdef (Some 1%nat) (Some (1 # 1)) 1);
  ("QI15", mkdef (Some 1%nat) (Some (1 # 1)) 1);
  ("QI16", mkdef (Some 1%nat) (Some (1 # 1)) 1);
  ("QI17", mkdef (Some 1%nat) (Some (1 # 1)) 1);
  ("QI18", mkdef (Some 1%nat) (Some (1 # 1)) 1);
  ("QI19", mkdef (Some 1%nat) (Some (1 # 1)) 1);
  ("QI20", mkdef (Some 1%nat) (Some (1 # 1)) 1);
  ("QI21", mkdef (Some 1%nat) (Some (1 # 1)) 1);
  ("HDG", mkdef (Some 3%nat) (Some (1 # 1)) 1);
  ("COG", mkdef (Some 3%nat) (Some (1 # 1)) 1);
  ("SOG", mkdef (Some 2%nat) (Some (1 # 1)) 1);
  ("SLL", mkdef (Some 2%nat) (Some (1 # 1)) 1);
  ("SLHH", mkdef (Some 3%nat) (Some (1 # 1)) 1);
  ("RWD", mkdef (Some 3%nat) (Some (1 # 1)) 1);
  ("RWS", mkdef (Some 3%nat) (Some (1 # 10)) 1);
  ("QI22", mkdef (Some 1%nat) (Some (1 # 1)) 1);
  ("QI23", mkdef (Some 1%nat) (Some (1 # 1)) 1);
  ("QI24", mkdef (Some 1%nat) (Some (1 # 1)) 1);
  ("QI25", mkdef (Some 1%nat) (Some (1 # 1)) 1);
  ("QI26", mkdef (Some 1%nat) (Some (1 # 1)) 1);
  ("QI27", mkdef (Some 1%nat) (Some (1 # 1)) 1);
  ("QI28", mkdef (Some 1%nat) (Some (1 # 1)) 1);
  ("QI29", mkdef (Some 1%nat) (Some (1 # 1)) 1);
  ("RH", mkdef (Some 4%nat) (Some (1 # 10)) 1);
  ("RHI", mkdef (Some 1%nat) (Some (1 # 1)) 1);
  ("AWSI", mkdef (Some 1%nat) (Some (1 # 1)) 1);
  ("IMONO", mkdef (Some 7%nat) (Some (1 # 1)) 1)].

(** IMMA1.py:607-633. *)
Definition table_06 : list (string * def) := [
  ("CCCC", mkdef (Some 4%nat) None 3);
  ("BUID", mkdef (Some 6%nat) None 3);
  ("FBSRC", mkdef (Some 1%nat) (Some (1 # 1)) 1);
  ("BMP", mkdef (Some 5%nat) (Some (1 # 10)) 1);
  ("BSWU", mkdef (Some 4%nat) (Some (1 # 10)) 1);
  ("SWU", mkdef (Some 4%nat) (Some (1 # 10)) 1);
  ("BSWV", mkdef (Some 4%nat) (Some (1 # 10)) 1);
  ("SWV", mkdef (Some 4%nat) (Some (1 # 10)) 1);
  ("BSAT", mkdef (Some 4%nat) (Some (1 # 10)) 1);
  ("BSRH", mkdef (Some 3%nat) (Some (1 # 1)) 1);
  ("SRH", mkdef (Some 3%nat) (Some (1 # 1)) 1);
  ("BSST", mkdef (Some 5%nat) (Some (1 # 10)) 1);
  ("MST", mkdef (Some 1%nat) (Some (1 # 1)) 1);
  ("MSH", mkdef (Some 4%nat) (Some (1 # 1)) 1);
  ("BY", mkdef (Some 4%nat) (Some (1 # 1)) 1);
  ("BM", mkdef (Some 2%nat) (Some (1 # 1)) 1);
  ("BD", mkdef (Some 2%nat) (Some (1 # 1)) 1);
  ("BH", mkdef (Some 2%nat) (Some (1 # 1)) 1);
  ("BFL", mkdef (Some 2%nat) (Some (1 # 1)) 1)].

(** IMMA1.py:636-664. *)
Definition table_07 : list (string * def) := [
  ("MDS", mkdef (Some 1%nat) (Some (1 # 1)) 1);
  ("C1M", mkdef (Some 2%nat) None 3);
  ("OPM", mkdef (Some 2%nat) (Some (1 # 1)) 1);
  ("KOV", mkdef (Some 2%nat) None 3);
  ("COR", mkdef (Some 2%nat) None 3);
  ("TOB", mkdef (Some 3%nat) None 3);
  ("TOT", mkdef (Some 3%nat) None 3);
  ("EOT", mkdef (Some 2%nat) None 3);
  ("LOT", mkdef (Some 2%nat) None 3);
  ("TOH", mkdef (Some 1%nat) None 3);
  ("EOH", mkdef (Some 2%nat) None 3);
  ("SIM", mkdef (Some 3%nat) None 3);
  ("LOV", mkdef (Some 3%nat) (Some (1 # 1)) 1);
  ("DOS", mkdef (Some 2%nat) (Some (1 # 1)) 1);
  ("HOP", mkdef (Some 3%nat) (Some (1 # 1)) 1);
  ("HOT", mkdef (Some 3%nat) (Some (1 # 1)) 1);
  ("HOB", mkdef (Some 3%nat) (Some (1 # 1)) 1);
  ("HOA", mkdef (Some 3%nat) (Some (1 # 1)) 1);
  ("SMF", mkdef (Some 5%nat) (Some (1 # 1)) 1);
  ("SME", mkdef (Some 5%nat) (Some (1 # 1)) 1);
  ("SMV", mkdef (Some 2%nat) (Some (1 # 1)) 1)].

(** IMMA1.py:667-697. *)
Definition table_08 : list (string * def) := [
  ("OTV", mkdef (Some 5%nat) (Some (1 # 1000)) 1);
  ("OTZ", mkdef (Some 4%nat) (Some (1 # 100)) 1);
  ("OSV", mkdef (Some 5%nat) (Some (1 # 100)) 1);
  ("OSZ", mkdef (Some 4%nat) (Some (1 # 100)) 1);
  ("OOV", mkdef (Some 4%nat) (Some (1 # 100)) 1);
  ("OOZ", mkdef (Some 4%nat) (Some (1 # 100)) 1);
  ("OPV", mkdef (Some 4%nat) (Some (1 # 100)) 1);
  ("OPZ", mkdef (Some 4%nat) (Some (1 # 100)) 1);
  ("OSIV", mkdef (Some 5%nat) (Some (1 # 100)) 1);
  ("OSIZ", mkdef (Some 4%nat) (Some (1 # 100)) 1);
  ("ONV", mkdef (Some 5%nat) (Some (1 # 100)) 1);
  ("ONZ", mkdef (Some 4%nat) (Some (1 # 100)) 1);
  ("OPHV", mkdef (Some 3%nat) (Some (1 # 100)) 1);
  ("OPHZ", mkdef (Some 4%nat) (Some (1 # 100)) 1);
  ("OCV", mkdef (Some 4%nat) (Some (1 # 100)) 1);
  ("OCZ", mkdef (Some 4%nat) (Some (1 # 100)) 1);
  ("OAV", mkdef (Some 3%nat) (Some (1 # 100)) 1);
  ("OAZ", mkdef (Some 4%nat) (Some (1 # 100)) 1);
  ("OPCV", mkdef (Some 4%nat) (Some (1 # 10)) 1);
  ("OPCZ", mkdef (Some 4%nat) (Some (1 # 100)) 1);
  ("ODV", mkdef (Some 2%nat) (Some (1 # 10)) 1);
  ("ODZ", mkdef (Some 4%nat) (Some (1 # 100)) 1);
  ("PUID", mkdef (Some 10%nat) None 3)].

(** IMMA1.py:700-721. *)
Definition table_09 : list (string * def) := [
  ("CCe", mkdef (Some 1%nat) (Some (1 # 1)) 2);
  ("WWe", mkdef (Some 2%nat) (Some (1 # 1)) 1);
  ("Ne", mkdef (Some 1%nat) (Some (1 # 1)) 1);
  ("NHe", mkdef (Some 1%nat) (Some (1 # 1)) 1);
  ("He", mkdef (Some 1%nat) (Some (1 # 1)) 1);
  ("CLe", mkdef (Some 2%nat) (Some (1 # 1)) 1);
  ("CMe", mkdef (Some 2%nat) (Some (1 # 1)) 1);
  ("CHe", mkdef (Some 1%nat) (Some (1 # 1)) 1);
  ("AM", mkdef (Some 3%nat) (Some (1 # 100)) 1);
  ("AH", mkdef (Some 3%nat) (Some (1 # 100)) 1);
  ("UM", mkdef (Some 1%nat) (Some (1 # 1)) 1);
  ("UH", mkdef (Some 1%nat) (Some (1 # 1)) 1);
  ("SBI", mkdef (Some 1%nat) (Some (1 # 1)) 1);
  ("SA", mkdef (Some 4%nat) (Some (1 # 10)) 1);
  ("RI", mkdef (Some 4%nat) (Some (1 # 100)) 1)].

(** IMMA1.py:724-744. *)
Definition table_95 : list (string * def) := [
  ("ICNR", mkdef (Some 2%nat) (Some (1 # 1)) 1);
  ("FNR", mkdef (Some 2%nat) (Some (1 # 1)) 1);
  ("DPRO", mkdef (Some 2%nat) (Some (1 # 1)) 1);
  ("DPRP", mkdef (Some 2%nat) (Some (1 # 1)) 1);
  ("UFR", mkdef (Some 1%nat) (Some (1 # 1)) 1);
  ("MFGR", mkdef (Some 7%nat) (Some (1 # 1)) 1);
  ("MFGSR", mkdef (Some 7%nat) (Some (1 # 1)) 1);
  ("MAR", mkdef (Some 7%nat) (Some (1 # 1)) 1);
  ("MASR", mkdef (Some 7%nat) (Some (1 # 1)) 1);
  ("BCR", mkdef (Some 7%nat) (Some (1 # 1)) 1);
  ("ARCR", mkdef (Some 4%nat) None 3);
  ("CDR", mkdef (Some 8%nat) (Some (1 # 1)) 1);
  ("ASIR", mkdef (Some 1%nat) (Some (1 # 1)) 1)].

(** IMMA1.py:747-774. *)
Definition table_96 : list (string * def) := [
  ("ICNI", mkdef (Some 2%nat) (Some (1 # 1)) 1);
  ("FNI", mkdef (Some 2%nat) (Some (1 # 1)) 1);
  ("JVAD", mkdef (Some 1%nat) (Some (1 # 1)) 2);
  ("VAD", mkdef (Some 6%nat) (Some (1 # 1)) 1);
  ("IVAU1", mkdef (Some 1%nat) (Some (1 # 1)) 2);
  ("JVAU1", mkdef (Some 1%nat) (Some (1 # 1)) 2);
  ("VAU1", mkdef (Some 6%nat) (Some (1 # 1)) 1);
  ("IVAU2", mkdef (Some 1%nat) (Some (1 # 1)) 2);
  ("JVAU2", mkdef (Some 1%nat) (Some (1 # 1)) 2);
  ("VAU2", mkdef (Some 6%nat) (Some (1 # 1)) 1);
  ("IVAU3", mkdef (Some 1%nat) (Some (1 # 1)) 2);
  ("JVAU3", mkdef (Some 1%nat) (Some (1 # 1)) 2);
  ("VAU3", mkdef (Some 6%nat) (Some (1 # 1)) 1);
  ("VQC", mkdef (Some 1%nat) (Some (1 # 1)) 1);
  ("ARCI", mkdef (Some 4%nat) None 3);
  ("CDR", mkdef (Some 8%nat) (Some (1 # 1)) 1);
  ("ASII", mkdef (Some 1%nat) (Some (1 # 1)) 1)].

(** IMMA1.py:777-790. *)
Definition table_97 : list (string * def) := [
  ("ICNE", mkdef (Some 2%nat) (Some (1 # 1)) 1);
  ("FNE", mkdef (Some 2%nat) (Some (1 # 1)) 1);
  ("CEF", mkdef (Some 1%nat) (Some (1 # 1)) 1);
  ("ERRD", mkdef None None 1);
  ("ARCE", mkdef (Some 4%nat) None 3);
  ("CDE", mkdef (Some 8%nat) (Some (1 # 1)) 1);
  ("ASIE", mkdef (Some 1%nat) (Some (1 # 1)) 1)].

(** IMMA1.py:793-805. *)
Definition table_98 : list (string * def) := [
  ("UID", mkdef (Some 6%nat) None 3);
  ("RN1", mkdef (Some 1%nat) (Some (1 # 1)) 2);
  ("RN2", mkdef (Some 1%nat) (Some (1 # 1)) 2);
  ("RN3", mkdef (Some 1%nat) (Some (1 # 1)) 2);
  ("RSA", mkdef (Some 1%nat) (Some (1 # 1)) 1);
  ("IRF", mkdef (Some 1%nat) (Some (1 # 1)) 1)].

(** IMMA1.py:811-828. *)
Definition table_99 : list (string * def) := [
  ("ATTE", mkdef (Some 1%nat) None 1);
  ("SUPD", mkdef None None 3)].

(** getAttachment, getParameters, getDefinitions. *)
Definition imma_tables : list (Z * (string * list (string * def))) := [
  (0, ("core", table_00));
  (1, ("icoads", table_01));
  (2, ("immt2", table_02));
  (3, ("mqc", table_03));
  (4, ("metadata", table_04));
  (5, ("IMMT-5/FM 13", table_05));
  (6, ("Model quality control", table_06));
  (7, ("Ship metadata", table_07));
  (8, ("NOCN", table_08));
  (9, ("Ecr", table_09));
  (95, ("Rean-qc", table_95));
  (96, ("IVAD", table_96));
  (97, ("Error", table_97));
  (98, ("Uida", table_98));
  (99, ("supplemental", table_99))].
