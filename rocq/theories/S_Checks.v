(** Independent specification data for the report checks (does not refer to the model). *)
Require Import String ZArith QArith List Bool.
Import ListNotations.
Open Scope Z_scope.

(** Regions (west, south, east, north) blacklisted for Deck 732, each with the years in which
    it is excluded: qc.py:568-604, transposed. *)
Definition deck732_regions : list ((Q * Q * Q * Q) * list Z) :=
  [
   ((-175, 40, -170, 55)%Q, [1958; 1959; 1960; 1961; 1962; 1963; 1964; 1965; 1966; 1967; 1968; 1969; 1970; 1971]);
   ((-165, 40, -160, 60)%Q, [1958; 1959; 1960; 1961; 1962; 1963; 1964; 1965; 1966; 1967; 1968; 1969; 1970; 1971]);
   ((-145, 40, -140, 50)%Q, [1958; 1959; 1960; 1961; 1962; 1963; 1964; 1968; 1969; 1970; 1971]);
   ((-140, 30, -135, 40)%Q, [1958; 1959; 1969; 1970; 1971; 1972; 1973; 1974]);
   ((-140, 50, -130, 55)%Q, [1958; 1959; 1960; 1961; 1962; 1963; 1964; 1967; 1968; 1969; 1970; 1971]);
   ((-70, 35, -60, 40)%Q, [1958; 1959; 1960; 1961; 1963; 1964; 1965; 1966; 1967; 1968; 1969; 1970; 1971]);
   ((-50, 45, -40, 50)%Q, [1969; 1971; 1972; 1973; 1974]);
   ((5, 70, 10, 80)%Q, [1969; 1970; 1971; 1972; 1973; 1974]);
   ((0, -10, 10, 0)%Q, [1960; 1966; 1967; 1968; 1969; 1970; 1971; 1972]);
   ((-30, -25, -25, -20)%Q, [1965; 1969; 1972; 1973; 1974]);
   ((-60, -50, -55, -45)%Q, [1972; 1973; 1974]);
   ((75, -20, 80, -15)%Q, [1962; 1963; 1964; 1965]);
   ((50, -30, 60, -20)%Q, [1962; 1963; 1964; 1965; 1969; 1971; 1972; 1973]);
   ((30, -40, 40, -30)%Q, [1958; 1959; 1960; 1961; 1962; 1963; 1964; 1965; 1966; 1967; 1968; 1969; 1970; 1971]);
   ((20, 60, 25, 65)%Q, [1958; 1959; 1960; 1961; 1962; 1963; 1965; 1966; 1967; 1968; 1969; 1970]);
   ((0, -40, 10, -30)%Q, [1961; 1962; 1963; 1964; 1965; 1966; 1969; 1971; 1972; 1973; 1974]);
   ((-135, 30, -130, 40)%Q, [1972; 1973; 1974])
  ].

(** Position (longitude first) inside a closed box. *)
Definition in_box (b : Q * Q * Q * Q) (lon lat : Q) : Prop :=
  let '(w, s, e, n) := b in (w <= lon /\ lon <= e /\ s <= lat /\ lat <= n)%Q.

Definition deck732_excluded (year : Z) (lon lat : Q) : Prop :=
  exists b ys, In (b, ys) deck732_regions /\ In year ys /\ in_box b lon lat.

(** Drifting buoy numbers blacklisted in November 2005 - January 2006 (padded to 9 characters). *)
Definition bad_buoys : list string :=
  (map (fun s => s ++ "    ") ["53521"; "53522"; "53566"; "53567"; "53568"; "53571"; "53578"; "53580"; "53582"; "53591"; "53592"; "53593"; "53594"; "53595"; "53596"; "53599"; "53600"; "53601"; "53602"; "53603"; "53604"; "53605"; "53606"; "53607"; "53608"; "53609"; "53901"; "53902"])%string.
Definition bad_buoy_month (year month : Z) : Prop :=
  (year = 2005 /\ (month = 11 \/ month = 12)) \/ (year = 2006 /\ month = 1).

(** The rules of the position blacklist (qc.py:528-629); [lon] is in -180..180. *)
Definition blacklisted (id : option string) (deck : option Z) (year month : Z) (lat lon : Q) (pt : option Z) : Prop :=
  (lat == 0 /\ lon == 0)%Q \/ pt = Some 13 \/ id = Some "SUPERIGORINA"%string \/
  (deck = Some 732 /\ deck732_excluded year lon lat) \/ deck = Some 874 \/
  (bad_buoy_month year month /\ exists s, id = Some s /\ In s bad_buoys).

(** Identifiers that are generic in every year, and those that are generic in certain years
    (first year, last year, identifier): qc.py:1588-1636. *)
Definition always_generic : list string :=
  ["1        "; "58       "; "RIGG     "; "     RIGG"; "SHIP     "; "ship     ";
   "     SHIP"; "PLAT     "; "     PLAT"; "         "; "0120     "; "0204     ";
   "0205     "; "0206     "; "0207     "; "0208     "; "0209     "; "MASKST   ";
   "MASKSTID "; "MASK     "; "XXXX     "; "/////    "]%string.
Definition generic_in_years : list (Z * Z * string) :=
  [(1921, 1941, "2        "); (1921, 1941, "00002    "); (1930, 1937, "3        ");
   (1934, 1954, "7        "); (1934, 1954, "00007    ")]%string.
Definition generic (id : option string) (year : Z) : Prop :=
  match id with
  | None => True
  | Some s => In s always_generic \/
      exists y1 y2, In (y1, y2, s) generic_in_years /\ y1 <= year <= y2
  end.
