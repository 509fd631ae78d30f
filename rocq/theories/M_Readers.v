(** Model of the other readers of reports: NRT.py, SimpleIMMA.py, TestIMMA.py.  No proofs here.
    [float_of] is Python's float of a text (None: ValueError) and [parse_date] is dateutil.parser.parse (year, month, day, hour,
    minute; None: it raises); float rounding is not modelled. *)
Require Import String Ascii ZArith QArith List Bool.
Require Import Verif.M_Base Verif.M_Report Verif.M_Imma Verif.M_Tracking.
Import ListNotations.
Open Scope string_scope.
Open Scope Z_scope.

Inductive entry := ENone | EInt (z : Z) | EFloat (x : xnum) | EStr (s : string).
Definition record := list (string * entry).

Section Readers.
Variable float_of : string -> option xnum.
Variable parse_date : string -> option (Z * Z * Z * Z * Z).

(** NRT.py:19-63 readstr; an empty line leaves the record as it is. *)
Definition nrt_read (line : string) (data : record) : res record :=
  match line with
  | "" => Ok data
  | _ =>
      match split_comma (rstrip_newline line) "" with
      | [id; dud; isodate; lat; lon; sst] =>
          match parse_date isodate with
          | None => Err ValueError
          | Some (y, mo, d, h, mi) =>
          match float_of lat with
          | None => Err ValueError
          | Some lat =>
          let lat := if x_ltb (Fin 200) lat then Fin 200 else lat in
          match float_of lon with
          | None => Err ValueError
          | Some lon =>
          let lon := if x_ltb (Fin 400) lon then Fin 400 else lon in
          let! sst := if String.eqb sst "nan" then Ok ENone else match float_of sst with Some x => Ok (EFloat x) | None => Err ValueError end in
          Ok [("UID", EStr ("NRT" ++ id ++ isodate)); ("ID", EStr id); ("YR", EInt y); ("MO", EInt mo); ("DY", EInt d);
              ("HR", EFloat (Fin (inject_Z h + inject_Z mi / 60))); ("LAT", EFloat lat); ("LON", EFloat lon); ("SST", sst); ("AT", ENone);
              ("DCK", EInt 9999); ("PT", EInt 7); ("SIM", ENone); ("DS", ENone); ("VS", ENone); ("DPT", ENone); ("SID", EInt 9999);
              ("C1", ENone); ("SI", ENone)]
          end end end
      | _ => Err ValueError
      end
  end.

(** SimpleIMMA.py:1-28 trint, trfloat. *)
Definition trint (s : string) : entry := match int_of_str s with Ok z => EInt z | Err _ => ENone end.
Definition x_scale (x : xnum) (k : Q) : xnum := match x with Fin q => Fin (q * k) | PInf => PInf | NInf => NInf | NaN => NaN end.
Definition trfloat (s : string) (k : Q) : entry := match float_of s with Some x => EFloat (x_scale x k) | None => ENone end.
(** line[a:b]. *)
Definition cut (line : string) (a b : nat) : string := substring a (b - a) line.
(** SimpleIMMA.py:36-59 readstr. *)
Definition simple_read (line : string) : record :=
  let line := rstrip_newline line in
  [("YR", trint (cut line 0 4)); ("MO", trint (cut line 4 6)); ("DY", trint (cut line 6 8)); ("HR", trfloat (cut line 8 12) (1 # 100));
   ("LAT", trfloat (cut line 12 17) (1 # 100)); ("LON", trfloat (cut line 17 23) (1 # 100)); ("DS", trint (cut line 23 24)); ("VS", trint (cut line 24 25));
   ("ID", EStr (cut line 25 34)); ("AT", trfloat (cut line 34 38) (1 # 10)); ("SST", trfloat (cut line 38 42) (1 # 10)); ("DPT", trfloat (cut line 42 46) (1 # 10));
   ("DCK", trint (cut line 46 49)); ("SID", trint (cut line 49 52)); ("PT", trint (cut line 52 54)); ("UID", EStr (cut line 54 60))].

(** TestIMMA.py:22-38 readstr, of the cells of a row; int(float) raises for what is not finite (OtherError: OverflowError). *)
Definition cell_at (row : list string) (i : nat) : res string := match nth_error row i with Some s => Ok s | None => Err IndexError end.
Definition to_float (s : string) : res xnum := match float_of s with Some x => Ok x | None => Err ValueError end.
Definition to_int (x : xnum) : res entry := match x with Fin q => Ok (EInt (py_int q)) | NaN => Err ValueError | _ => Err OtherError end.
Definition not_missing (x : xnum) : entry := match x with Fin q => if Qeqb q (inject_Z (-32768)) then ENone else EFloat x | _ => EFloat x end.
Definition test_read (row : list string) : res record :=
  let! id := cell_at row 0 in
  let! uid := cell_at row 1 in
  let! lat := cell_at row 2 in let! lat := to_float lat in
  let! lon := cell_at row 3 in let! lon := to_float lon in
  let! yr := cell_at row 4 in let! yr := to_float yr in let! yr := to_int yr in
  let! mo := cell_at row 5 in let! mo := to_float mo in let! mo := to_int mo in
  let! dy := cell_at row 6 in let! dy := to_float dy in let! dy := to_int dy in
  let! hr := cell_at row 7 in let! hr := to_float hr in
  let! sst := cell_at row 11 in let! sst := to_float sst in
  Ok [("ID", EStr id); ("UID", EStr uid); ("LAT", EFloat lat); ("LON", EFloat lon); ("YR", yr); ("MO", mo); ("DY", dy);
      ("HR", not_missing hr); ("SST", not_missing sst); ("DCK", EFloat (Fin 999))].
End Readers.
