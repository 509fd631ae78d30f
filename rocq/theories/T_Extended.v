(** The unit tests of test_Extended_IMMA.py, run on the model (generated from the test file; these are tests, not proofs).
    Left out (a pair in the model): TestClimVariable.test_that_basic_initialisation_works, TestClimVariable.test_that_initialisation_with_clim_and_stdev_works, TestClimVariable.test_setting_variables.
    Left out (no check): TestNpSuperOb.test_creation. *)
Require Import String ZArith QArith List Bool.
Require Import Verif.M_Base Verif.M_Report Verif.M_Files Verif.M_Stats Verif.M_Grid Verif.M_Voyage Verif.M_Track Verif.M_Buddy Verif.M_Print Verif.T_Num Verif.T_Check.
Import ListNotations.
Open Scope string_scope.
Open Scope Z_scope.

(** str of a float with at most one decimal. *)
Definition str_f (_ : string) (q : Q) : string :=
  let t := M_Base.py_int (q * 10) in (M_Imma.str_of_int (Z.quot t 10) ++ "." ++ M_Imma.str_of_int (Z.abs (Z.rem t 10)))%string.
(** int(xspan / cos(...)) of the neighbour search. *)
Definition n_xspan (sx y : Z) : Z := Z.quot (quo (sx * one) (cosine (radians ((179 # 2) - inject_Z y)))) one.
Definition TestSafenames_test_simplecase : bool := Eval vm_compute in (all [same (VStr "D_BU"%string) (VStr (safe_filename "D/BU"%string));
  same (VStr "G_NY"%string) (VStr (safe_filename "G*NY"%string))]).
Example TestSafenames_test_simplecase_is : TestSafenames_test_simplecase = true.
Proof. reflexivity. Qed.
Definition TestOldBuddy_test_eight_near_neighbours : bool := Eval vm_compute in (all [same (rs (fun p => ofQ (fst p)) (on (on (on (on (on (on (on (on (on (on (on (on (Ok []) (fun g => let! r := (on (new_report (Some "AAAAAAAAA"%string) None [("YR"%string, (Some 2003%Q)); ("MO"%string, (Some 1%Q)); ("DY"%string, (Some 1%Q)); ("HR"%string, (Some 2%Q)); ("LAT"%string, (Some (1 # 2)%Q)); ("LON"%string, (Some (41 # 2)%Q)); ("SST"%string, (Some 5%Q))]) (fun r => Ok (add_climate_variable r "SST"%string (Some (1 # 2)%Q) None))) in add_rep (lat r) (lon r) (getint r "MO") (getint r "DY") (getanom r "SST"%string) g)) (fun g => let! r := (on (new_report (Some "BBBBBBBBB"%string) None [("YR"%string, (Some 2002%Q)); ("MO"%string, (Some 12%Q)); ("DY"%string, (Some 31%Q)); ("HR"%string, (Some 2%Q)); ("LAT"%string, (Some (3 # 2)%Q)); ("LON"%string, (Some (41 # 2)%Q)); ("SST"%string, (Some 2%Q))]) (fun r => Ok (add_climate_variable r "SST"%string (Some (1 # 2)%Q) None))) in add_rep (lat r) (lon r) (getint r "MO") (getint r "DY") (getanom r "SST"%string) g)) (fun g => let! r := (on (new_report (Some "BBBBBBBBB"%string) None [("YR"%string, (Some 2002%Q)); ("MO"%string, (Some 12%Q)); ("DY"%string, (Some 30%Q)); ("HR"%string, (Some 2%Q)); ("LAT"%string, (Some (3 # 2)%Q)); ("LON"%string, (Some (43 # 2)%Q)); ("SST"%string, (Some 2%Q))]) (fun r => Ok (add_climate_variable r "SST"%string (Some (1 # 2)%Q) None))) in add_rep (lat r) (lon r) (getint r "MO") (getint r "DY") (getanom r "SST"%string) g)) (fun g => let! r := (on (new_report (Some "BBBBBBBBB"%string) None [("YR"%string, (Some 2002%Q)); ("MO"%string, (Some 12%Q)); ("DY"%string, (Some 29%Q)); ("HR"%string, (Some 2%Q)); ("LAT"%string, (Some (3 # 2)%Q)); ("LON"%string, (Some (39 # 2)%Q)); ("SST"%string, (Some 2%Q))]) (fun r => Ok (add_climate_variable r "SST"%string (Some (1 # 2)%Q) None))) in add_rep (lat r) (lon r) (getint r "MO") (getint r "DY") (getanom r "SST"%string) g)) (fun g => let! r := (on (new_report (Some "BBBBBBBBB"%string) None [("YR"%string, (Some 2002%Q)); ("MO"%string, (Some 12%Q)); ("DY"%string, (Some 28%Q)); ("HR"%string, (Some 2%Q)); ("LAT"%string, (Some (1 # 2)%Q)); ("LON"%string, (Some (39 # 2)%Q)); ("SST"%string, (Some 2%Q))]) (fun r => Ok (add_climate_variable r "SST"%string (Some (1 # 2)%Q) None))) in add_rep (lat r) (lon r) (getint r "MO") (getint r "DY") (getanom r "SST"%string) g)) (fun g => let! r := (on (new_report (Some "BBBBBBBBB"%string) None [("YR"%string, (Some 2003%Q)); ("MO"%string, (Some 1%Q)); ("DY"%string, (Some 6%Q)); ("HR"%string, (Some 2%Q)); ("LAT"%string, (Some (1 # 2)%Q)); ("LON"%string, (Some (43 # 2)%Q)); ("SST"%string, (Some 2%Q))]) (fun r => Ok (add_climate_variable r "SST"%string (Some (1 # 2)%Q) None))) in add_rep (lat r) (lon r) (getint r "MO") (getint r "DY") (getanom r "SST"%string) g)) (fun g => let! r := (on (new_report (Some "BBBBBBBBB"%string) None [("YR"%string, (Some 2003%Q)); ("MO"%string, (Some 1%Q)); ("DY"%string, (Some 7%Q)); ("HR"%string, (Some 2%Q)); ("LAT"%string, (Some (-1 # 2)%Q)); ("LON"%string, (Some (41 # 2)%Q)); ("SST"%string, (Some 2%Q))]) (fun r => Ok (add_climate_variable r "SST"%string (Some (1 # 2)%Q) None))) in add_rep (lat r) (lon r) (getint r "MO") (getint r "DY") (getanom r "SST"%string) g)) (fun g => let! r := (on (new_report (Some "BBBBBBBBB"%string) None [("YR"%string, (Some 2003%Q)); ("MO"%string, (Some 1%Q)); ("DY"%string, (Some 8%Q)); ("HR"%string, (Some 2%Q)); ("LAT"%string, (Some (-1 # 2)%Q)); ("LON"%string, (Some (43 # 2)%Q)); ("SST"%string, (Some 2%Q))]) (fun r => Ok (add_climate_variable r "SST"%string (Some (1 # 2)%Q) None))) in add_rep (lat r) (lon r) (getint r "MO") (getint r "DY") (getanom r "SST"%string) g)) (fun g => let! r := (on (new_report (Some "BBBBBBBBB"%string) None [("YR"%string, (Some 2003%Q)); ("MO"%string, (Some 1%Q)); ("DY"%string, (Some 9%Q)); ("HR"%string, (Some 2%Q)); ("LAT"%string, (Some (-1 # 2)%Q)); ("LON"%string, (Some (39 # 2)%Q)); ("SST"%string, (Some 2%Q))]) (fun r => Ok (add_climate_variable r "SST"%string (Some (1 # 2)%Q) None))) in add_rep (lat r) (lon r) (getint r "MO") (getint r "DY") (getanom r "SST"%string) g)) (fun g => Ok (take_average g))) (get_buddy_limits_with_parameters n_xspan {| cn := 73; cny := 180; cnx := 360; cval := fun _ _ _ => (Some (3 # 2)%Q) |} [(1, 1, 2); (2, 2, 2); (1, 1, 4); (2, 2, 4)] [[0; 5; 15; 100]; [0]; [0; 5; 15; 100]; [0]] [[4; (7 # 2); 3; (5 # 2)]%Q; [4]%Q; [4; (7 # 2); 3; (5 # 2)]%Q; [4]%Q])) (fun b => get_buddy b (Some (1 # 2)%Q) (Some (41 # 2)%Q) (Some 1) (Some 1)))) (VNum (3 # 2));
  same (rs (fun p => ofQ (snd p)) (on (on (on (on (on (on (on (on (on (on (on (on (Ok []) (fun g => let! r := (on (new_report (Some "AAAAAAAAA"%string) None [("YR"%string, (Some 2003%Q)); ("MO"%string, (Some 1%Q)); ("DY"%string, (Some 1%Q)); ("HR"%string, (Some 2%Q)); ("LAT"%string, (Some (1 # 2)%Q)); ("LON"%string, (Some (41 # 2)%Q)); ("SST"%string, (Some 5%Q))]) (fun r => Ok (add_climate_variable r "SST"%string (Some (1 # 2)%Q) None))) in add_rep (lat r) (lon r) (getint r "MO") (getint r "DY") (getanom r "SST"%string) g)) (fun g => let! r := (on (new_report (Some "BBBBBBBBB"%string) None [("YR"%string, (Some 2002%Q)); ("MO"%string, (Some 12%Q)); ("DY"%string, (Some 31%Q)); ("HR"%string, (Some 2%Q)); ("LAT"%string, (Some (3 # 2)%Q)); ("LON"%string, (Some (41 # 2)%Q)); ("SST"%string, (Some 2%Q))]) (fun r => Ok (add_climate_variable r "SST"%string (Some (1 # 2)%Q) None))) in add_rep (lat r) (lon r) (getint r "MO") (getint r "DY") (getanom r "SST"%string) g)) (fun g => let! r := (on (new_report (Some "BBBBBBBBB"%string) None [("YR"%string, (Some 2002%Q)); ("MO"%string, (Some 12%Q)); ("DY"%string, (Some 30%Q)); ("HR"%string, (Some 2%Q)); ("LAT"%string, (Some (3 # 2)%Q)); ("LON"%string, (Some (43 # 2)%Q)); ("SST"%string, (Some 2%Q))]) (fun r => Ok (add_climate_variable r "SST"%string (Some (1 # 2)%Q) None))) in add_rep (lat r) (lon r) (getint r "MO") (getint r "DY") (getanom r "SST"%string) g)) (fun g => let! r := (on (new_report (Some "BBBBBBBBB"%string) None [("YR"%string, (Some 2002%Q)); ("MO"%string, (Some 12%Q)); ("DY"%string, (Some 29%Q)); ("HR"%string, (Some 2%Q)); ("LAT"%string, (Some (3 # 2)%Q)); ("LON"%string, (Some (39 # 2)%Q)); ("SST"%string, (Some 2%Q))]) (fun r => Ok (add_climate_variable r "SST"%string (Some (1 # 2)%Q) None))) in add_rep (lat r) (lon r) (getint r "MO") (getint r "DY") (getanom r "SST"%string) g)) (fun g => let! r := (on (new_report (Some "BBBBBBBBB"%string) None [("YR"%string, (Some 2002%Q)); ("MO"%string, (Some 12%Q)); ("DY"%string, (Some 28%Q)); ("HR"%string, (Some 2%Q)); ("LAT"%string, (Some (1 # 2)%Q)); ("LON"%string, (Some (39 # 2)%Q)); ("SST"%string, (Some 2%Q))]) (fun r => Ok (add_climate_variable r "SST"%string (Some (1 # 2)%Q) None))) in add_rep (lat r) (lon r) (getint r "MO") (getint r "DY") (getanom r "SST"%string) g)) (fun g => let! r := (on (new_report (Some "BBBBBBBBB"%string) None [("YR"%string, (Some 2003%Q)); ("MO"%string, (Some 1%Q)); ("DY"%string, (Some 6%Q)); ("HR"%string, (Some 2%Q)); ("LAT"%string, (Some (1 # 2)%Q)); ("LON"%string, (Some (43 # 2)%Q)); ("SST"%string, (Some 2%Q))]) (fun r => Ok (add_climate_variable r "SST"%string (Some (1 # 2)%Q) None))) in add_rep (lat r) (lon r) (getint r "MO") (getint r "DY") (getanom r "SST"%string) g)) (fun g => let! r := (on (new_report (Some "BBBBBBBBB"%string) None [("YR"%string, (Some 2003%Q)); ("MO"%string, (Some 1%Q)); ("DY"%string, (Some 7%Q)); ("HR"%string, (Some 2%Q)); ("LAT"%string, (Some (-1 # 2)%Q)); ("LON"%string, (Some (41 # 2)%Q)); ("SST"%string, (Some 2%Q))]) (fun r => Ok (add_climate_variable r "SST"%string (Some (1 # 2)%Q) None))) in add_rep (lat r) (lon r) (getint r "MO") (getint r "DY") (getanom r "SST"%string) g)) (fun g => let! r := (on (new_report (Some "BBBBBBBBB"%string) None [("YR"%string, (Some 2003%Q)); ("MO"%string, (Some 1%Q)); ("DY"%string, (Some 8%Q)); ("HR"%string, (Some 2%Q)); ("LAT"%string, (Some (-1 # 2)%Q)); ("LON"%string, (Some (43 # 2)%Q)); ("SST"%string, (Some 2%Q))]) (fun r => Ok (add_climate_variable r "SST"%string (Some (1 # 2)%Q) None))) in add_rep (lat r) (lon r) (getint r "MO") (getint r "DY") (getanom r "SST"%string) g)) (fun g => let! r := (on (new_report (Some "BBBBBBBBB"%string) None [("YR"%string, (Some 2003%Q)); ("MO"%string, (Some 1%Q)); ("DY"%string, (Some 9%Q)); ("HR"%string, (Some 2%Q)); ("LAT"%string, (Some (-1 # 2)%Q)); ("LON"%string, (Some (39 # 2)%Q)); ("SST"%string, (Some 2%Q))]) (fun r => Ok (add_climate_variable r "SST"%string (Some (1 # 2)%Q) None))) in add_rep (lat r) (lon r) (getint r "MO") (getint r "DY") (getanom r "SST"%string) g)) (fun g => Ok (take_average g))) (get_buddy_limits_with_parameters n_xspan {| cn := 73; cny := 180; cnx := 360; cval := fun _ _ _ => (Some (3 # 2)%Q) |} [(1, 1, 2); (2, 2, 2); (1, 1, 4); (2, 2, 4)] [[0; 5; 15; 100]; [0]; [0; 5; 15; 100]; [0]] [[4; (7 # 2); 3; (5 # 2)]%Q; [4]%Q; [4; (7 # 2); 3; (5 # 2)]%Q; [4]%Q])) (fun b => get_buddy b (Some (1 # 2)%Q) (Some (41 # 2)%Q) (Some 1) (Some 1)))) (VNum (21 # 4))]).
Example TestOldBuddy_test_eight_near_neighbours_is : TestOldBuddy_test_eight_near_neighbours = true.
Proof. reflexivity. Qed.
Definition TestOldBuddy_test_eight_distant_near_neighbours : bool := Eval vm_compute in (all [same (rs (fun p => ofQ (fst p)) (on (on (on (on (on (on (on (on (on (on (on (on (Ok []) (fun g => let! r := (on (new_report (Some "AAAAAAAAA"%string) None [("YR"%string, (Some 2003%Q)); ("MO"%string, (Some 1%Q)); ("DY"%string, (Some 1%Q)); ("HR"%string, (Some 2%Q)); ("LAT"%string, (Some (1 # 2)%Q)); ("LON"%string, (Some (41 # 2)%Q)); ("SST"%string, (Some 5%Q))]) (fun r => Ok (add_climate_variable r "SST"%string (Some (1 # 2)%Q) None))) in add_rep (lat r) (lon r) (getint r "MO") (getint r "DY") (getanom r "SST"%string) g)) (fun g => let! r := (on (new_report (Some "BBBBBBBBB"%string) None [("YR"%string, (Some 2002%Q)); ("MO"%string, (Some 12%Q)); ("DY"%string, (Some 21%Q)); ("HR"%string, (Some 2%Q)); ("LAT"%string, (Some (3 # 2)%Q)); ("LON"%string, (Some (41 # 2)%Q)); ("SST"%string, (Some 2%Q))]) (fun r => Ok (add_climate_variable r "SST"%string (Some (1 # 2)%Q) None))) in add_rep (lat r) (lon r) (getint r "MO") (getint r "DY") (getanom r "SST"%string) g)) (fun g => let! r := (on (new_report (Some "BBBBBBBBB"%string) None [("YR"%string, (Some 2002%Q)); ("MO"%string, (Some 12%Q)); ("DY"%string, (Some 20%Q)); ("HR"%string, (Some 2%Q)); ("LAT"%string, (Some (3 # 2)%Q)); ("LON"%string, (Some (43 # 2)%Q)); ("SST"%string, (Some 2%Q))]) (fun r => Ok (add_climate_variable r "SST"%string (Some (1 # 2)%Q) None))) in add_rep (lat r) (lon r) (getint r "MO") (getint r "DY") (getanom r "SST"%string) g)) (fun g => let! r := (on (new_report (Some "BBBBBBBBB"%string) None [("YR"%string, (Some 2002%Q)); ("MO"%string, (Some 12%Q)); ("DY"%string, (Some 19%Q)); ("HR"%string, (Some 2%Q)); ("LAT"%string, (Some (3 # 2)%Q)); ("LON"%string, (Some (39 # 2)%Q)); ("SST"%string, (Some 2%Q))]) (fun r => Ok (add_climate_variable r "SST"%string (Some (1 # 2)%Q) None))) in add_rep (lat r) (lon r) (getint r "MO") (getint r "DY") (getanom r "SST"%string) g)) (fun g => let! r := (on (new_report (Some "BBBBBBBBB"%string) None [("YR"%string, (Some 2002%Q)); ("MO"%string, (Some 12%Q)); ("DY"%string, (Some 18%Q)); ("HR"%string, (Some 2%Q)); ("LAT"%string, (Some (1 # 2)%Q)); ("LON"%string, (Some (39 # 2)%Q)); ("SST"%string, (Some 2%Q))]) (fun r => Ok (add_climate_variable r "SST"%string (Some (1 # 2)%Q) None))) in add_rep (lat r) (lon r) (getint r "MO") (getint r "DY") (getanom r "SST"%string) g)) (fun g => let! r := (on (new_report (Some "BBBBBBBBB"%string) None [("YR"%string, (Some 2003%Q)); ("MO"%string, (Some 1%Q)); ("DY"%string, (Some 16%Q)); ("HR"%string, (Some 2%Q)); ("LAT"%string, (Some (1 # 2)%Q)); ("LON"%string, (Some (43 # 2)%Q)); ("SST"%string, (Some 2%Q))]) (fun r => Ok (add_climate_variable r "SST"%string (Some (1 # 2)%Q) None))) in add_rep (lat r) (lon r) (getint r "MO") (getint r "DY") (getanom r "SST"%string) g)) (fun g => let! r := (on (new_report (Some "BBBBBBBBB"%string) None [("YR"%string, (Some 2003%Q)); ("MO"%string, (Some 1%Q)); ("DY"%string, (Some 17%Q)); ("HR"%string, (Some 2%Q)); ("LAT"%string, (Some (-1 # 2)%Q)); ("LON"%string, (Some (41 # 2)%Q)); ("SST"%string, (Some 2%Q))]) (fun r => Ok (add_climate_variable r "SST"%string (Some (1 # 2)%Q) None))) in add_rep (lat r) (lon r) (getint r "MO") (getint r "DY") (getanom r "SST"%string) g)) (fun g => let! r := (on (new_report (Some "BBBBBBBBB"%string) None [("YR"%string, (Some 2003%Q)); ("MO"%string, (Some 1%Q)); ("DY"%string, (Some 18%Q)); ("HR"%string, (Some 2%Q)); ("LAT"%string, (Some (-1 # 2)%Q)); ("LON"%string, (Some (43 # 2)%Q)); ("SST"%string, (Some 2%Q))]) (fun r => Ok (add_climate_variable r "SST"%string (Some (1 # 2)%Q) None))) in add_rep (lat r) (lon r) (getint r "MO") (getint r "DY") (getanom r "SST"%string) g)) (fun g => let! r := (on (new_report (Some "BBBBBBBBB"%string) None [("YR"%string, (Some 2003%Q)); ("MO"%string, (Some 1%Q)); ("DY"%string, (Some 19%Q)); ("HR"%string, (Some 2%Q)); ("LAT"%string, (Some (-1 # 2)%Q)); ("LON"%string, (Some (39 # 2)%Q)); ("SST"%string, (Some 2%Q))]) (fun r => Ok (add_climate_variable r "SST"%string (Some (1 # 2)%Q) None))) in add_rep (lat r) (lon r) (getint r "MO") (getint r "DY") (getanom r "SST"%string) g)) (fun g => Ok (take_average g))) (get_buddy_limits_with_parameters n_xspan {| cn := 73; cny := 180; cnx := 360; cval := fun _ _ _ => (Some (3 # 2)%Q) |} [(1, 1, 2); (2, 2, 2); (1, 1, 4); (2, 2, 4)] [[0; 5; 15; 100]; [0]; [0; 5; 15; 100]; [0]] [[4; (7 # 2); 3; (5 # 2)]%Q; [4]%Q; [4; (7 # 2); 3; (5 # 2)]%Q; [4]%Q])) (fun b => get_buddy b (Some (1 # 2)%Q) (Some (41 # 2)%Q) (Some 1) (Some 1)))) (VNum (3 # 2));
  same (rs (fun p => ofQ (snd p)) (on (on (on (on (on (on (on (on (on (on (on (on (Ok []) (fun g => let! r := (on (new_report (Some "AAAAAAAAA"%string) None [("YR"%string, (Some 2003%Q)); ("MO"%string, (Some 1%Q)); ("DY"%string, (Some 1%Q)); ("HR"%string, (Some 2%Q)); ("LAT"%string, (Some (1 # 2)%Q)); ("LON"%string, (Some (41 # 2)%Q)); ("SST"%string, (Some 5%Q))]) (fun r => Ok (add_climate_variable r "SST"%string (Some (1 # 2)%Q) None))) in add_rep (lat r) (lon r) (getint r "MO") (getint r "DY") (getanom r "SST"%string) g)) (fun g => let! r := (on (new_report (Some "BBBBBBBBB"%string) None [("YR"%string, (Some 2002%Q)); ("MO"%string, (Some 12%Q)); ("DY"%string, (Some 21%Q)); ("HR"%string, (Some 2%Q)); ("LAT"%string, (Some (3 # 2)%Q)); ("LON"%string, (Some (41 # 2)%Q)); ("SST"%string, (Some 2%Q))]) (fun r => Ok (add_climate_variable r "SST"%string (Some (1 # 2)%Q) None))) in add_rep (lat r) (lon r) (getint r "MO") (getint r "DY") (getanom r "SST"%string) g)) (fun g => let! r := (on (new_report (Some "BBBBBBBBB"%string) None [("YR"%string, (Some 2002%Q)); ("MO"%string, (Some 12%Q)); ("DY"%string, (Some 20%Q)); ("HR"%string, (Some 2%Q)); ("LAT"%string, (Some (3 # 2)%Q)); ("LON"%string, (Some (43 # 2)%Q)); ("SST"%string, (Some 2%Q))]) (fun r => Ok (add_climate_variable r "SST"%string (Some (1 # 2)%Q) None))) in add_rep (lat r) (lon r) (getint r "MO") (getint r "DY") (getanom r "SST"%string) g)) (fun g => let! r := (on (new_report (Some "BBBBBBBBB"%string) None [("YR"%string, (Some 2002%Q)); ("MO"%string, (Some 12%Q)); ("DY"%string, (Some 19%Q)); ("HR"%string, (Some 2%Q)); ("LAT"%string, (Some (3 # 2)%Q)); ("LON"%string, (Some (39 # 2)%Q)); ("SST"%string, (Some 2%Q))]) (fun r => Ok (add_climate_variable r "SST"%string (Some (1 # 2)%Q) None))) in add_rep (lat r) (lon r) (getint r "MO") (getint r "DY") (getanom r "SST"%string) g)) (fun g => let! r := (on (new_report (Some "BBBBBBBBB"%string) None [("YR"%string, (Some 2002%Q)); ("MO"%string, (Some 12%Q)); ("DY"%string, (Some 18%Q)); ("HR"%string, (Some 2%Q)); ("LAT"%string, (Some (1 # 2)%Q)); ("LON"%string, (Some (39 # 2)%Q)); ("SST"%string, (Some 2%Q))]) (fun r => Ok (add_climate_variable r "SST"%string (Some (1 # 2)%Q) None))) in add_rep (lat r) (lon r) (getint r "MO") (getint r "DY") (getanom r "SST"%string) g)) (fun g => let! r := (on (new_report (Some "BBBBBBBBB"%string) None [("YR"%string, (Some 2003%Q)); ("MO"%string, (Some 1%Q)); ("DY"%string, (Some 16%Q)); ("HR"%string, (Some 2%Q)); ("LAT"%string, (Some (1 # 2)%Q)); ("LON"%string, (Some (43 # 2)%Q)); ("SST"%string, (Some 2%Q))]) (fun r => Ok (add_climate_variable r "SST"%string (Some (1 # 2)%Q) None))) in add_rep (lat r) (lon r) (getint r "MO") (getint r "DY") (getanom r "SST"%string) g)) (fun g => let! r := (on (new_report (Some "BBBBBBBBB"%string) None [("YR"%string, (Some 2003%Q)); ("MO"%string, (Some 1%Q)); ("DY"%string, (Some 17%Q)); ("HR"%string, (Some 2%Q)); ("LAT"%string, (Some (-1 # 2)%Q)); ("LON"%string, (Some (41 # 2)%Q)); ("SST"%string, (Some 2%Q))]) (fun r => Ok (add_climate_variable r "SST"%string (Some (1 # 2)%Q) None))) in add_rep (lat r) (lon r) (getint r "MO") (getint r "DY") (getanom r "SST"%string) g)) (fun g => let! r := (on (new_report (Some "BBBBBBBBB"%string) None [("YR"%string, (Some 2003%Q)); ("MO"%string, (Some 1%Q)); ("DY"%string, (Some 18%Q)); ("HR"%string, (Some 2%Q)); ("LAT"%string, (Some (-1 # 2)%Q)); ("LON"%string, (Some (43 # 2)%Q)); ("SST"%string, (Some 2%Q))]) (fun r => Ok (add_climate_variable r "SST"%string (Some (1 # 2)%Q) None))) in add_rep (lat r) (lon r) (getint r "MO") (getint r "DY") (getanom r "SST"%string) g)) (fun g => let! r := (on (new_report (Some "BBBBBBBBB"%string) None [("YR"%string, (Some 2003%Q)); ("MO"%string, (Some 1%Q)); ("DY"%string, (Some 19%Q)); ("HR"%string, (Some 2%Q)); ("LAT"%string, (Some (-1 # 2)%Q)); ("LON"%string, (Some (39 # 2)%Q)); ("SST"%string, (Some 2%Q))]) (fun r => Ok (add_climate_variable r "SST"%string (Some (1 # 2)%Q) None))) in add_rep (lat r) (lon r) (getint r "MO") (getint r "DY") (getanom r "SST"%string) g)) (fun g => Ok (take_average g))) (get_buddy_limits_with_parameters n_xspan {| cn := 73; cny := 180; cnx := 360; cval := fun _ _ _ => (Some (3 # 2)%Q) |} [(1, 1, 2); (2, 2, 2); (1, 1, 4); (2, 2, 4)] [[0; 5; 15; 100]; [0]; [0; 5; 15; 100]; [0]] [[4; (7 # 2); 3; (5 # 2)]%Q; [4]%Q; [4; (7 # 2); 3; (5 # 2)]%Q; [4]%Q])) (fun b => get_buddy b (Some (1 # 2)%Q) (Some (41 # 2)%Q) (Some 1) (Some 1)))) (VNum (21 # 4))]).
Example TestOldBuddy_test_eight_distant_near_neighbours_is : TestOldBuddy_test_eight_distant_near_neighbours = true.
Proof. reflexivity. Qed.
Definition TestOldBuddy_test_eight_even_more_distant_near_neighbours : bool := Eval vm_compute in (all [same (rs (fun p => ofQ (fst p)) (on (on (on (on (on (on (on (on (on (on (on (on (Ok []) (fun g => let! r := (on (new_report (Some "AAAAAAAAA"%string) None [("YR"%string, (Some 2003%Q)); ("MO"%string, (Some 1%Q)); ("DY"%string, (Some 1%Q)); ("HR"%string, (Some 2%Q)); ("LAT"%string, (Some (1 # 2)%Q)); ("LON"%string, (Some (41 # 2)%Q)); ("SST"%string, (Some 5%Q))]) (fun r => Ok (add_climate_variable r "SST"%string (Some (1 # 2)%Q) None))) in add_rep (lat r) (lon r) (getint r "MO") (getint r "DY") (getanom r "SST"%string) g)) (fun g => let! r := (on (new_report (Some "BBBBBBBBB"%string) None [("YR"%string, (Some 2002%Q)); ("MO"%string, (Some 12%Q)); ("DY"%string, (Some 21%Q)); ("HR"%string, (Some 2%Q)); ("LAT"%string, (Some (5 # 2)%Q)); ("LON"%string, (Some (41 # 2)%Q)); ("SST"%string, (Some 2%Q))]) (fun r => Ok (add_climate_variable r "SST"%string (Some (1 # 2)%Q) None))) in add_rep (lat r) (lon r) (getint r "MO") (getint r "DY") (getanom r "SST"%string) g)) (fun g => let! r := (on (new_report (Some "BBBBBBBBB"%string) None [("YR"%string, (Some 2002%Q)); ("MO"%string, (Some 12%Q)); ("DY"%string, (Some 20%Q)); ("HR"%string, (Some 2%Q)); ("LAT"%string, (Some (5 # 2)%Q)); ("LON"%string, (Some (45 # 2)%Q)); ("SST"%string, (Some 2%Q))]) (fun r => Ok (add_climate_variable r "SST"%string (Some (1 # 2)%Q) None))) in add_rep (lat r) (lon r) (getint r "MO") (getint r "DY") (getanom r "SST"%string) g)) (fun g => let! r := (on (new_report (Some "BBBBBBBBB"%string) None [("YR"%string, (Some 2002%Q)); ("MO"%string, (Some 12%Q)); ("DY"%string, (Some 19%Q)); ("HR"%string, (Some 2%Q)); ("LAT"%string, (Some (5 # 2)%Q)); ("LON"%string, (Some (37 # 2)%Q)); ("SST"%string, (Some 2%Q))]) (fun r => Ok (add_climate_variable r "SST"%string (Some (1 # 2)%Q) None))) in add_rep (lat r) (lon r) (getint r "MO") (getint r "DY") (getanom r "SST"%string) g)) (fun g => let! r := (on (new_report (Some "BBBBBBBBB"%string) None [("YR"%string, (Some 2002%Q)); ("MO"%string, (Some 12%Q)); ("DY"%string, (Some 18%Q)); ("HR"%string, (Some 2%Q)); ("LAT"%string, (Some (1 # 2)%Q)); ("LON"%string, (Some (37 # 2)%Q)); ("SST"%string, (Some 2%Q))]) (fun r => Ok (add_climate_variable r "SST"%string (Some (1 # 2)%Q) None))) in add_rep (lat r) (lon r) (getint r "MO") (getint r "DY") (getanom r "SST"%string) g)) (fun g => let! r := (on (new_report (Some "BBBBBBBBB"%string) None [("YR"%string, (Some 2003%Q)); ("MO"%string, (Some 1%Q)); ("DY"%string, (Some 16%Q)); ("HR"%string, (Some 2%Q)); ("LAT"%string, (Some (1 # 2)%Q)); ("LON"%string, (Some (45 # 2)%Q)); ("SST"%string, (Some 2%Q))]) (fun r => Ok (add_climate_variable r "SST"%string (Some (1 # 2)%Q) None))) in add_rep (lat r) (lon r) (getint r "MO") (getint r "DY") (getanom r "SST"%string) g)) (fun g => let! r := (on (new_report (Some "BBBBBBBBB"%string) None [("YR"%string, (Some 2003%Q)); ("MO"%string, (Some 1%Q)); ("DY"%string, (Some 17%Q)); ("HR"%string, (Some 2%Q)); ("LAT"%string, (Some (-3 # 2)%Q)); ("LON"%string, (Some (41 # 2)%Q)); ("SST"%string, (Some 2%Q))]) (fun r => Ok (add_climate_variable r "SST"%string (Some (1 # 2)%Q) None))) in add_rep (lat r) (lon r) (getint r "MO") (getint r "DY") (getanom r "SST"%string) g)) (fun g => let! r := (on (new_report (Some "BBBBBBBBB"%string) None [("YR"%string, (Some 2003%Q)); ("MO"%string, (Some 1%Q)); ("DY"%string, (Some 18%Q)); ("HR"%string, (Some 2%Q)); ("LAT"%string, (Some (-3 # 2)%Q)); ("LON"%string, (Some (45 # 2)%Q)); ("SST"%string, (Some 2%Q))]) (fun r => Ok (add_climate_variable r "SST"%string (Some (1 # 2)%Q) None))) in add_rep (lat r) (lon r) (getint r "MO") (getint r "DY") (getanom r "SST"%string) g)) (fun g => let! r := (on (new_report (Some "BBBBBBBBB"%string) None [("YR"%string, (Some 2003%Q)); ("MO"%string, (Some 1%Q)); ("DY"%string, (Some 19%Q)); ("HR"%string, (Some 2%Q)); ("LAT"%string, (Some (-3 # 2)%Q)); ("LON"%string, (Some (37 # 2)%Q)); ("SST"%string, (Some 2%Q))]) (fun r => Ok (add_climate_variable r "SST"%string (Some (1 # 2)%Q) None))) in add_rep (lat r) (lon r) (getint r "MO") (getint r "DY") (getanom r "SST"%string) g)) (fun g => Ok (take_average g))) (get_buddy_limits_with_parameters n_xspan {| cn := 73; cny := 180; cnx := 360; cval := fun _ _ _ => (Some (3 # 2)%Q) |} [(1, 1, 2); (2, 2, 2); (1, 1, 4); (2, 2, 4)] [[0; 5; 15; 100]; [0]; [0; 5; 15; 100]; [0]] [[4; (7 # 2); 3; (5 # 2)]%Q; [4]%Q; [4; (7 # 2); 3; (5 # 2)]%Q; [4]%Q])) (fun b => get_buddy b (Some (1 # 2)%Q) (Some (41 # 2)%Q) (Some 1) (Some 1)))) (VNum (3 # 2));
  same (rs (fun p => ofQ (snd p)) (on (on (on (on (on (on (on (on (on (on (on (on (Ok []) (fun g => let! r := (on (new_report (Some "AAAAAAAAA"%string) None [("YR"%string, (Some 2003%Q)); ("MO"%string, (Some 1%Q)); ("DY"%string, (Some 1%Q)); ("HR"%string, (Some 2%Q)); ("LAT"%string, (Some (1 # 2)%Q)); ("LON"%string, (Some (41 # 2)%Q)); ("SST"%string, (Some 5%Q))]) (fun r => Ok (add_climate_variable r "SST"%string (Some (1 # 2)%Q) None))) in add_rep (lat r) (lon r) (getint r "MO") (getint r "DY") (getanom r "SST"%string) g)) (fun g => let! r := (on (new_report (Some "BBBBBBBBB"%string) None [("YR"%string, (Some 2002%Q)); ("MO"%string, (Some 12%Q)); ("DY"%string, (Some 21%Q)); ("HR"%string, (Some 2%Q)); ("LAT"%string, (Some (5 # 2)%Q)); ("LON"%string, (Some (41 # 2)%Q)); ("SST"%string, (Some 2%Q))]) (fun r => Ok (add_climate_variable r "SST"%string (Some (1 # 2)%Q) None))) in add_rep (lat r) (lon r) (getint r "MO") (getint r "DY") (getanom r "SST"%string) g)) (fun g => let! r := (on (new_report (Some "BBBBBBBBB"%string) None [("YR"%string, (Some 2002%Q)); ("MO"%string, (Some 12%Q)); ("DY"%string, (Some 20%Q)); ("HR"%string, (Some 2%Q)); ("LAT"%string, (Some (5 # 2)%Q)); ("LON"%string, (Some (45 # 2)%Q)); ("SST"%string, (Some 2%Q))]) (fun r => Ok (add_climate_variable r "SST"%string (Some (1 # 2)%Q) None))) in add_rep (lat r) (lon r) (getint r "MO") (getint r "DY") (getanom r "SST"%string) g)) (fun g => let! r := (on (new_report (Some "BBBBBBBBB"%string) None [("YR"%string, (Some 2002%Q)); ("MO"%string, (Some 12%Q)); ("DY"%string, (Some 19%Q)); ("HR"%string, (Some 2%Q)); ("LAT"%string, (Some (5 # 2)%Q)); ("LON"%string, (Some (37 # 2)%Q)); ("SST"%string, (Some 2%Q))]) (fun r => Ok (add_climate_variable r "SST"%string (Some (1 # 2)%Q) None))) in add_rep (lat r) (lon r) (getint r "MO") (getint r "DY") (getanom r "SST"%string) g)) (fun g => let! r := (on (new_report (Some "BBBBBBBBB"%string) None [("YR"%string, (Some 2002%Q)); ("MO"%string, (Some 12%Q)); ("DY"%string, (Some 18%Q)); ("HR"%string, (Some 2%Q)); ("LAT"%string, (Some (1 # 2)%Q)); ("LON"%string, (Some (37 # 2)%Q)); ("SST"%string, (Some 2%Q))]) (fun r => Ok (add_climate_variable r "SST"%string (Some (1 # 2)%Q) None))) in add_rep (lat r) (lon r) (getint r "MO") (getint r "DY") (getanom r "SST"%string) g)) (fun g => let! r := (on (new_report (Some "BBBBBBBBB"%string) None [("YR"%string, (Some 2003%Q)); ("MO"%string, (Some 1%Q)); ("DY"%string, (Some 16%Q)); ("HR"%string, (Some 2%Q)); ("LAT"%string, (Some (1 # 2)%Q)); ("LON"%string, (Some (45 # 2)%Q)); ("SST"%string, (Some 2%Q))]) (fun r => Ok (add_climate_variable r "SST"%string (Some (1 # 2)%Q) None))) in add_rep (lat r) (lon r) (getint r "MO") (getint r "DY") (getanom r "SST"%string) g)) (fun g => let! r := (on (new_report (Some "BBBBBBBBB"%string) None [("YR"%string, (Some 2003%Q)); ("MO"%string, (Some 1%Q)); ("DY"%string, (Some 17%Q)); ("HR"%string, (Some 2%Q)); ("LAT"%string, (Some (-3 # 2)%Q)); ("LON"%string, (Some (41 # 2)%Q)); ("SST"%string, (Some 2%Q))]) (fun r => Ok (add_climate_variable r "SST"%string (Some (1 # 2)%Q) None))) in add_rep (lat r) (lon r) (getint r "MO") (getint r "DY") (getanom r "SST"%string) g)) (fun g => let! r := (on (new_report (Some "BBBBBBBBB"%string) None [("YR"%string, (Some 2003%Q)); ("MO"%string, (Some 1%Q)); ("DY"%string, (Some 18%Q)); ("HR"%string, (Some 2%Q)); ("LAT"%string, (Some (-3 # 2)%Q)); ("LON"%string, (Some (45 # 2)%Q)); ("SST"%string, (Some 2%Q))]) (fun r => Ok (add_climate_variable r "SST"%string (Some (1 # 2)%Q) None))) in add_rep (lat r) (lon r) (getint r "MO") (getint r "DY") (getanom r "SST"%string) g)) (fun g => let! r := (on (new_report (Some "BBBBBBBBB"%string) None [("YR"%string, (Some 2003%Q)); ("MO"%string, (Some 1%Q)); ("DY"%string, (Some 19%Q)); ("HR"%string, (Some 2%Q)); ("LAT"%string, (Some (-3 # 2)%Q)); ("LON"%string, (Some (37 # 2)%Q)); ("SST"%string, (Some 2%Q))]) (fun r => Ok (add_climate_variable r "SST"%string (Some (1 # 2)%Q) None))) in add_rep (lat r) (lon r) (getint r "MO") (getint r "DY") (getanom r "SST"%string) g)) (fun g => Ok (take_average g))) (get_buddy_limits_with_parameters n_xspan {| cn := 73; cny := 180; cnx := 360; cval := fun _ _ _ => (Some (3 # 2)%Q) |} [(1, 1, 2); (2, 2, 2); (1, 1, 4); (2, 2, 4)] [[0; 5; 15; 100]; [0]; [0; 5; 15; 100]; [0]] [[4; (7 # 2); 3; (5 # 2)]%Q; [4]%Q; [4; (7 # 2); 3; (5 # 2)]%Q; [4]%Q])) (fun b => get_buddy b (Some (1 # 2)%Q) (Some (41 # 2)%Q) (Some 1) (Some 1)))) (VNum 6)]).
Example TestOldBuddy_test_eight_even_more_distant_near_neighbours_is : TestOldBuddy_test_eight_even_more_distant_near_neighbours = true.
Proof. reflexivity. Qed.
Definition TestOldBuddy_test_eight_too_distant_neighbours : bool := Eval vm_compute in (all [same (rs (fun p => ofQ (fst p)) (on (on (on (on (on (on (on (on (on (on (on (on (Ok []) (fun g => let! r := (on (new_report (Some "AAAAAAAAA"%string) None [("YR"%string, (Some 2003%Q)); ("MO"%string, (Some 1%Q)); ("DY"%string, (Some 1%Q)); ("HR"%string, (Some 2%Q)); ("LAT"%string, (Some (1 # 2)%Q)); ("LON"%string, (Some (41 # 2)%Q)); ("SST"%string, (Some 5%Q))]) (fun r => Ok (add_climate_variable r "SST"%string (Some (1 # 2)%Q) None))) in add_rep (lat r) (lon r) (getint r "MO") (getint r "DY") (getanom r "SST"%string) g)) (fun g => let! r := (on (new_report (Some "BBBBBBBBB"%string) None [("YR"%string, (Some 2002%Q)); ("MO"%string, (Some 12%Q)); ("DY"%string, (Some 21%Q)); ("HR"%string, (Some 2%Q)); ("LAT"%string, (Some (7 # 2)%Q)); ("LON"%string, (Some (41 # 2)%Q)); ("SST"%string, (Some (19 # 10)%Q))]) (fun r => Ok (add_climate_variable r "SST"%string (Some (1 # 2)%Q) None))) in add_rep (lat r) (lon r) (getint r "MO") (getint r "DY") (getanom r "SST"%string) g)) (fun g => let! r := (on (new_report (Some "BBBBBBBBB"%string) None [("YR"%string, (Some 2002%Q)); ("MO"%string, (Some 12%Q)); ("DY"%string, (Some 20%Q)); ("HR"%string, (Some 2%Q)); ("LAT"%string, (Some (7 # 2)%Q)); ("LON"%string, (Some (47 # 2)%Q)); ("SST"%string, (Some (17 # 10)%Q))]) (fun r => Ok (add_climate_variable r "SST"%string (Some (1 # 2)%Q) None))) in add_rep (lat r) (lon r) (getint r "MO") (getint r "DY") (getanom r "SST"%string) g)) (fun g => let! r := (on (new_report (Some "BBBBBBBBB"%string) None [("YR"%string, (Some 2002%Q)); ("MO"%string, (Some 12%Q)); ("DY"%string, (Some 19%Q)); ("HR"%string, (Some 2%Q)); ("LAT"%string, (Some (7 # 2)%Q)); ("LON"%string, (Some (35 # 2)%Q)); ("SST"%string, (Some 2%Q))]) (fun r => Ok (add_climate_variable r "SST"%string (Some (1 # 2)%Q) None))) in add_rep (lat r) (lon r) (getint r "MO") (getint r "DY") (getanom r "SST"%string) g)) (fun g => let! r := (on (new_report (Some "BBBBBBBBB"%string) None [("YR"%string, (Some 2002%Q)); ("MO"%string, (Some 12%Q)); ("DY"%string, (Some 18%Q)); ("HR"%string, (Some 2%Q)); ("LAT"%string, (Some (1 # 2)%Q)); ("LON"%string, (Some (35 # 2)%Q)); ("SST"%string, (Some 2%Q))]) (fun r => Ok (add_climate_variable r "SST"%string (Some (1 # 2)%Q) None))) in add_rep (lat r) (lon r) (getint r "MO") (getint r "DY") (getanom r "SST"%string) g)) (fun g => let! r := (on (new_report (Some "BBBBBBBBB"%string) None [("YR"%string, (Some 2003%Q)); ("MO"%string, (Some 1%Q)); ("DY"%string, (Some 16%Q)); ("HR"%string, (Some 2%Q)); ("LAT"%string, (Some (1 # 2)%Q)); ("LON"%string, (Some (47 # 2)%Q)); ("SST"%string, (Some 2%Q))]) (fun r => Ok (add_climate_variable r "SST"%string (Some (1 # 2)%Q) None))) in add_rep (lat r) (lon r) (getint r "MO") (getint r "DY") (getanom r "SST"%string) g)) (fun g => let! r := (on (new_report (Some "BBBBBBBBB"%string) None [("YR"%string, (Some 2003%Q)); ("MO"%string, (Some 1%Q)); ("DY"%string, (Some 17%Q)); ("HR"%string, (Some 2%Q)); ("LAT"%string, (Some (-5 # 2)%Q)); ("LON"%string, (Some (41 # 2)%Q)); ("SST"%string, (Some 2%Q))]) (fun r => Ok (add_climate_variable r "SST"%string (Some (1 # 2)%Q) None))) in add_rep (lat r) (lon r) (getint r "MO") (getint r "DY") (getanom r "SST"%string) g)) (fun g => let! r := (on (new_report (Some "BBBBBBBBB"%string) None [("YR"%string, (Some 2003%Q)); ("MO"%string, (Some 1%Q)); ("DY"%string, (Some 18%Q)); ("HR"%string, (Some 2%Q)); ("LAT"%string, (Some (-5 # 2)%Q)); ("LON"%string, (Some (47 # 2)%Q)); ("SST"%string, (Some (23 # 10)%Q))]) (fun r => Ok (add_climate_variable r "SST"%string (Some (1 # 2)%Q) None))) in add_rep (lat r) (lon r) (getint r "MO") (getint r "DY") (getanom r "SST"%string) g)) (fun g => let! r := (on (new_report (Some "BBBBBBBBB"%string) None [("YR"%string, (Some 2003%Q)); ("MO"%string, (Some 1%Q)); ("DY"%string, (Some 19%Q)); ("HR"%string, (Some 2%Q)); ("LAT"%string, (Some (-5 # 2)%Q)); ("LON"%string, (Some (35 # 2)%Q)); ("SST"%string, (Some (21 # 10)%Q))]) (fun r => Ok (add_climate_variable r "SST"%string (Some (1 # 2)%Q) None))) in add_rep (lat r) (lon r) (getint r "MO") (getint r "DY") (getanom r "SST"%string) g)) (fun g => Ok (take_average g))) (get_buddy_limits_with_parameters n_xspan {| cn := 73; cny := 180; cnx := 360; cval := fun _ _ _ => (Some (3 # 2)%Q) |} [(1, 1, 2); (2, 2, 2); (1, 1, 4); (2, 2, 4)] [[0; 5; 15; 100]; [0]; [0; 5; 15; 100]; [0]] [[4; (7 # 2); 3; (5 # 2)]%Q; [4]%Q; [4; (7 # 2); 3; (5 # 2)]%Q; [4]%Q])) (fun b => get_buddy b (Some (1 # 2)%Q) (Some (41 # 2)%Q) (Some 1) (Some 1)))) (VNum 0);
  same (rs (fun p => ofQ (snd p)) (on (on (on (on (on (on (on (on (on (on (on (on (Ok []) (fun g => let! r := (on (new_report (Some "AAAAAAAAA"%string) None [("YR"%string, (Some 2003%Q)); ("MO"%string, (Some 1%Q)); ("DY"%string, (Some 1%Q)); ("HR"%string, (Some 2%Q)); ("LAT"%string, (Some (1 # 2)%Q)); ("LON"%string, (Some (41 # 2)%Q)); ("SST"%string, (Some 5%Q))]) (fun r => Ok (add_climate_variable r "SST"%string (Some (1 # 2)%Q) None))) in add_rep (lat r) (lon r) (getint r "MO") (getint r "DY") (getanom r "SST"%string) g)) (fun g => let! r := (on (new_report (Some "BBBBBBBBB"%string) None [("YR"%string, (Some 2002%Q)); ("MO"%string, (Some 12%Q)); ("DY"%string, (Some 21%Q)); ("HR"%string, (Some 2%Q)); ("LAT"%string, (Some (7 # 2)%Q)); ("LON"%string, (Some (41 # 2)%Q)); ("SST"%string, (Some (19 # 10)%Q))]) (fun r => Ok (add_climate_variable r "SST"%string (Some (1 # 2)%Q) None))) in add_rep (lat r) (lon r) (getint r "MO") (getint r "DY") (getanom r "SST"%string) g)) (fun g => let! r := (on (new_report (Some "BBBBBBBBB"%string) None [("YR"%string, (Some 2002%Q)); ("MO"%string, (Some 12%Q)); ("DY"%string, (Some 20%Q)); ("HR"%string, (Some 2%Q)); ("LAT"%string, (Some (7 # 2)%Q)); ("LON"%string, (Some (47 # 2)%Q)); ("SST"%string, (Some (17 # 10)%Q))]) (fun r => Ok (add_climate_variable r "SST"%string (Some (1 # 2)%Q) None))) in add_rep (lat r) (lon r) (getint r "MO") (getint r "DY") (getanom r "SST"%string) g)) (fun g => let! r := (on (new_report (Some "BBBBBBBBB"%string) None [("YR"%string, (Some 2002%Q)); ("MO"%string, (Some 12%Q)); ("DY"%string, (Some 19%Q)); ("HR"%string, (Some 2%Q)); ("LAT"%string, (Some (7 # 2)%Q)); ("LON"%string, (Some (35 # 2)%Q)); ("SST"%string, (Some 2%Q))]) (fun r => Ok (add_climate_variable r "SST"%string (Some (1 # 2)%Q) None))) in add_rep (lat r) (lon r) (getint r "MO") (getint r "DY") (getanom r "SST"%string) g)) (fun g => let! r := (on (new_report (Some "BBBBBBBBB"%string) None [("YR"%string, (Some 2002%Q)); ("MO"%string, (Some 12%Q)); ("DY"%string, (Some 18%Q)); ("HR"%string, (Some 2%Q)); ("LAT"%string, (Some (1 # 2)%Q)); ("LON"%string, (Some (35 # 2)%Q)); ("SST"%string, (Some 2%Q))]) (fun r => Ok (add_climate_variable r "SST"%string (Some (1 # 2)%Q) None))) in add_rep (lat r) (lon r) (getint r "MO") (getint r "DY") (getanom r "SST"%string) g)) (fun g => let! r := (on (new_report (Some "BBBBBBBBB"%string) None [("YR"%string, (Some 2003%Q)); ("MO"%string, (Some 1%Q)); ("DY"%string, (Some 16%Q)); ("HR"%string, (Some 2%Q)); ("LAT"%string, (Some (1 # 2)%Q)); ("LON"%string, (Some (47 # 2)%Q)); ("SST"%string, (Some 2%Q))]) (fun r => Ok (add_climate_variable r "SST"%string (Some (1 # 2)%Q) None))) in add_rep (lat r) (lon r) (getint r "MO") (getint r "DY") (getanom r "SST"%string) g)) (fun g => let! r := (on (new_report (Some "BBBBBBBBB"%string) None [("YR"%string, (Some 2003%Q)); ("MO"%string, (Some 1%Q)); ("DY"%string, (Some 17%Q)); ("HR"%string, (Some 2%Q)); ("LAT"%string, (Some (-5 # 2)%Q)); ("LON"%string, (Some (41 # 2)%Q)); ("SST"%string, (Some 2%Q))]) (fun r => Ok (add_climate_variable r "SST"%string (Some (1 # 2)%Q) None))) in add_rep (lat r) (lon r) (getint r "MO") (getint r "DY") (getanom r "SST"%string) g)) (fun g => let! r := (on (new_report (Some "BBBBBBBBB"%string) None [("YR"%string, (Some 2003%Q)); ("MO"%string, (Some 1%Q)); ("DY"%string, (Some 18%Q)); ("HR"%string, (Some 2%Q)); ("LAT"%string, (Some (-5 # 2)%Q)); ("LON"%string, (Some (47 # 2)%Q)); ("SST"%string, (Some (23 # 10)%Q))]) (fun r => Ok (add_climate_variable r "SST"%string (Some (1 # 2)%Q) None))) in add_rep (lat r) (lon r) (getint r "MO") (getint r "DY") (getanom r "SST"%string) g)) (fun g => let! r := (on (new_report (Some "BBBBBBBBB"%string) None [("YR"%string, (Some 2003%Q)); ("MO"%string, (Some 1%Q)); ("DY"%string, (Some 19%Q)); ("HR"%string, (Some 2%Q)); ("LAT"%string, (Some (-5 # 2)%Q)); ("LON"%string, (Some (35 # 2)%Q)); ("SST"%string, (Some (21 # 10)%Q))]) (fun r => Ok (add_climate_variable r "SST"%string (Some (1 # 2)%Q) None))) in add_rep (lat r) (lon r) (getint r "MO") (getint r "DY") (getanom r "SST"%string) g)) (fun g => Ok (take_average g))) (get_buddy_limits_with_parameters n_xspan {| cn := 73; cny := 180; cnx := 360; cval := fun _ _ _ => (Some (3 # 2)%Q) |} [(1, 1, 2); (2, 2, 2); (1, 1, 4); (2, 2, 4)] [[0; 5; 15; 100]; [0]; [0; 5; 15; 100]; [0]] [[4; (7 # 2); 3; (5 # 2)]%Q; [4]%Q; [4; (7 # 2); 3; (5 # 2)]%Q; [4]%Q])) (fun b => get_buddy b (Some (1 # 2)%Q) (Some (41 # 2)%Q) (Some 1) (Some 1)))) (VNum 500)]).
Example TestOldBuddy_test_eight_too_distant_neighbours_is : TestOldBuddy_test_eight_too_distant_neighbours = true.
Proof. reflexivity. Qed.
Definition TestGetThresholdMultiplier_test_nobs_limits_not_ascending : bool := Eval vm_compute in (all [asserts (rs ofQ (get_threshold_multiplier 0 [10; 5; 0] [4; 3; 2]%Q))]).
Example TestGetThresholdMultiplier_test_nobs_limits_not_ascending_is : TestGetThresholdMultiplier_test_nobs_limits_not_ascending = true.
Proof. reflexivity. Qed.
Definition TestGetThresholdMultiplier_test_lowest_nobs_limit_not_zero : bool := Eval vm_compute in (all [asserts (rs ofQ (get_threshold_multiplier 1 [1; 5; 10] [4; 3; 2]%Q))]).
Example TestGetThresholdMultiplier_test_lowest_nobs_limit_not_zero_is : TestGetThresholdMultiplier_test_lowest_nobs_limit_not_zero = true.
Proof. reflexivity. Qed.
Definition TestGetThresholdMultiplier_test_simple : bool := Eval vm_compute in (all [same (rs ofQ (get_threshold_multiplier 1 [0; 5; 10] [4; 3; 2]%Q)) (VNum 4);
  same (rs ofQ (get_threshold_multiplier 2 [0; 5; 10] [4; 3; 2]%Q)) (VNum 4);
  same (rs ofQ (get_threshold_multiplier 3 [0; 5; 10] [4; 3; 2]%Q)) (VNum 4);
  same (rs ofQ (get_threshold_multiplier 4 [0; 5; 10] [4; 3; 2]%Q)) (VNum 4);
  same (rs ofQ (get_threshold_multiplier 5 [0; 5; 10] [4; 3; 2]%Q)) (VNum 4);
  same (rs ofQ (get_threshold_multiplier 6 [0; 5; 10] [4; 3; 2]%Q)) (VNum 3);
  same (rs ofQ (get_threshold_multiplier 7 [0; 5; 10] [4; 3; 2]%Q)) (VNum 3);
  same (rs ofQ (get_threshold_multiplier 8 [0; 5; 10] [4; 3; 2]%Q)) (VNum 3);
  same (rs ofQ (get_threshold_multiplier 9 [0; 5; 10] [4; 3; 2]%Q)) (VNum 3);
  same (rs ofQ (get_threshold_multiplier 10 [0; 5; 10] [4; 3; 2]%Q)) (VNum 3);
  same (rs ofQ (get_threshold_multiplier 11 [0; 5; 10] [4; 3; 2]%Q)) (VNum 2);
  same (rs ofQ (get_threshold_multiplier 12 [0; 5; 10] [4; 3; 2]%Q)) (VNum 2);
  same (rs ofQ (get_threshold_multiplier 13 [0; 5; 10] [4; 3; 2]%Q)) (VNum 2);
  same (rs ofQ (get_threshold_multiplier 14 [0; 5; 10] [4; 3; 2]%Q)) (VNum 2);
  same (rs ofQ (get_threshold_multiplier 15 [0; 5; 10] [4; 3; 2]%Q)) (VNum 2);
  same (rs ofQ (get_threshold_multiplier 16 [0; 5; 10] [4; 3; 2]%Q)) (VNum 2);
  same (rs ofQ (get_threshold_multiplier 17 [0; 5; 10] [4; 3; 2]%Q)) (VNum 2);
  same (rs ofQ (get_threshold_multiplier 18 [0; 5; 10] [4; 3; 2]%Q)) (VNum 2);
  same (rs ofQ (get_threshold_multiplier 19 [0; 5; 10] [4; 3; 2]%Q)) (VNum 2)]).
Example TestGetThresholdMultiplier_test_simple_is : TestGetThresholdMultiplier_test_simple = true.
Proof. reflexivity. Qed.
Definition TestNpSuperOb_test_neighbours : bool := Eval vm_compute in (all [same (ofN (length (map fst (match (on (on (on (on (on (on (Ok []) (fun g => let! r := (on (new_report (Some "AAAAAAAAA"%string) None [("YR"%string, (Some 2003%Q)); ("MO"%string, (Some 1%Q)); ("DY"%string, (Some 1%Q)); ("HR"%string, (Some 0%Q)); ("LAT"%string, (Some (1 # 2)%Q)); ("LON"%string, (Some (1 # 2)%Q)); ("SST"%string, (Some 5%Q))]) (fun r => Ok (add_climate_variable r "SST"%string (Some (1 # 2)%Q) None))) in add_rep (lat r) (lon r) (getint r "MO") (getint r "DY") (getanom r "SST"%string) g)) (fun g => let! r := (on (new_report (Some "BBBBBBBBB"%string) None [("YR"%string, (Some 2003%Q)); ("MO"%string, (Some 1%Q)); ("DY"%string, (Some 1%Q)); ("HR"%string, (Some 0%Q)); ("LAT"%string, (Some (1 # 2)%Q)); ("LON"%string, (Some (1 # 2)%Q)); ("SST"%string, (Some 5%Q))]) (fun r => Ok (add_climate_variable r "SST"%string (Some (1 # 2)%Q) None))) in add_rep (lat r) (lon r) (getint r "MO") (getint r "DY") (getanom r "SST"%string) g)) (fun g => let! r := (on (new_report (Some "BBBBBBBBB"%string) None [("YR"%string, (Some 2003%Q)); ("MO"%string, (Some 1%Q)); ("DY"%string, (Some 1%Q)); ("HR"%string, (Some 10%Q)); ("LAT"%string, (Some (1 # 2)%Q)); ("LON"%string, (Some (1 # 2)%Q)); ("SST"%string, (Some 5%Q))]) (fun r => Ok (add_climate_variable r "SST"%string (Some (1 # 2)%Q) None))) in add_rep (lat r) (lon r) (getint r "MO") (getint r "DY") (getanom r "SST"%string) g)) (fun g => let! r := (on (new_report (Some "BBBBBBBBB"%string) None [("YR"%string, (Some 2002%Q)); ("MO"%string, (Some 12%Q)); ("DY"%string, (Some 31%Q)); ("HR"%string, (Some 10%Q)); ("LAT"%string, (Some (1 # 2)%Q)); ("LON"%string, (Some (1 # 2)%Q)); ("SST"%string, (Some 2%Q))]) (fun r => Ok (add_climate_variable r "SST"%string (Some (1 # 2)%Q) None))) in add_rep (lat r) (lon r) (getint r "MO") (getint r "DY") (getanom r "SST"%string) g)) (fun g => let! r := (on (new_report (Some "BBBBBBBBB"%string) None [("YR"%string, (Some 2003%Q)); ("MO"%string, (Some 1%Q)); ("DY"%string, (Some 1%Q)); ("HR"%string, (Some 10%Q)); ("LAT"%string, (Some (3 # 2)%Q)); ("LON"%string, (Some (1 # 2)%Q)); ("SST"%string, (Some 5%Q))]) (fun r => Ok (add_climate_variable r "SST"%string (Some (1 # 2)%Q) None))) in add_rep (lat r) (lon r) (getint r "MO") (getint r "DY") (getanom r "SST"%string) g)) (fun g => Ok (take_average g))) with Ok g => get_neighbour_anomalies n_xspan g (2, 2, 2) (180, 89, 0) | Err _ => [] end)))) (VNum 2);
  same (ofN (length (map snd (match (on (on (on (on (on (on (Ok []) (fun g => let! r := (on (new_report (Some "AAAAAAAAA"%string) None [("YR"%string, (Some 2003%Q)); ("MO"%string, (Some 1%Q)); ("DY"%string, (Some 1%Q)); ("HR"%string, (Some 0%Q)); ("LAT"%string, (Some (1 # 2)%Q)); ("LON"%string, (Some (1 # 2)%Q)); ("SST"%string, (Some 5%Q))]) (fun r => Ok (add_climate_variable r "SST"%string (Some (1 # 2)%Q) None))) in add_rep (lat r) (lon r) (getint r "MO") (getint r "DY") (getanom r "SST"%string) g)) (fun g => let! r := (on (new_report (Some "BBBBBBBBB"%string) None [("YR"%string, (Some 2003%Q)); ("MO"%string, (Some 1%Q)); ("DY"%string, (Some 1%Q)); ("HR"%string, (Some 0%Q)); ("LAT"%string, (Some (1 # 2)%Q)); ("LON"%string, (Some (1 # 2)%Q)); ("SST"%string, (Some 5%Q))]) (fun r => Ok (add_climate_variable r "SST"%string (Some (1 # 2)%Q) None))) in add_rep (lat r) (lon r) (getint r "MO") (getint r "DY") (getanom r "SST"%string) g)) (fun g => let! r := (on (new_report (Some "BBBBBBBBB"%string) None [("YR"%string, (Some 2003%Q)); ("MO"%string, (Some 1%Q)); ("DY"%string, (Some 1%Q)); ("HR"%string, (Some 10%Q)); ("LAT"%string, (Some (1 # 2)%Q)); ("LON"%string, (Some (1 # 2)%Q)); ("SST"%string, (Some 5%Q))]) (fun r => Ok (add_climate_variable r "SST"%string (Some (1 # 2)%Q) None))) in add_rep (lat r) (lon r) (getint r "MO") (getint r "DY") (getanom r "SST"%string) g)) (fun g => let! r := (on (new_report (Some "BBBBBBBBB"%string) None [("YR"%string, (Some 2002%Q)); ("MO"%string, (Some 12%Q)); ("DY"%string, (Some 31%Q)); ("HR"%string, (Some 10%Q)); ("LAT"%string, (Some (1 # 2)%Q)); ("LON"%string, (Some (1 # 2)%Q)); ("SST"%string, (Some 2%Q))]) (fun r => Ok (add_climate_variable r "SST"%string (Some (1 # 2)%Q) None))) in add_rep (lat r) (lon r) (getint r "MO") (getint r "DY") (getanom r "SST"%string) g)) (fun g => let! r := (on (new_report (Some "BBBBBBBBB"%string) None [("YR"%string, (Some 2003%Q)); ("MO"%string, (Some 1%Q)); ("DY"%string, (Some 1%Q)); ("HR"%string, (Some 10%Q)); ("LAT"%string, (Some (3 # 2)%Q)); ("LON"%string, (Some (1 # 2)%Q)); ("SST"%string, (Some 5%Q))]) (fun r => Ok (add_climate_variable r "SST"%string (Some (1 # 2)%Q) None))) in add_rep (lat r) (lon r) (getint r "MO") (getint r "DY") (getanom r "SST"%string) g)) (fun g => Ok (take_average g))) with Ok g => get_neighbour_anomalies n_xspan g (2, 2, 2) (180, 89, 0) | Err _ => [] end)))) (VNum 2);
  existsb (fun x => same (ofQ x) (VNum (9 # 2))) (map fst (match (on (on (on (on (on (on (Ok []) (fun g => let! r := (on (new_report (Some "AAAAAAAAA"%string) None [("YR"%string, (Some 2003%Q)); ("MO"%string, (Some 1%Q)); ("DY"%string, (Some 1%Q)); ("HR"%string, (Some 0%Q)); ("LAT"%string, (Some (1 # 2)%Q)); ("LON"%string, (Some (1 # 2)%Q)); ("SST"%string, (Some 5%Q))]) (fun r => Ok (add_climate_variable r "SST"%string (Some (1 # 2)%Q) None))) in add_rep (lat r) (lon r) (getint r "MO") (getint r "DY") (getanom r "SST"%string) g)) (fun g => let! r := (on (new_report (Some "BBBBBBBBB"%string) None [("YR"%string, (Some 2003%Q)); ("MO"%string, (Some 1%Q)); ("DY"%string, (Some 1%Q)); ("HR"%string, (Some 0%Q)); ("LAT"%string, (Some (1 # 2)%Q)); ("LON"%string, (Some (1 # 2)%Q)); ("SST"%string, (Some 5%Q))]) (fun r => Ok (add_climate_variable r "SST"%string (Some (1 # 2)%Q) None))) in add_rep (lat r) (lon r) (getint r "MO") (getint r "DY") (getanom r "SST"%string) g)) (fun g => let! r := (on (new_report (Some "BBBBBBBBB"%string) None [("YR"%string, (Some 2003%Q)); ("MO"%string, (Some 1%Q)); ("DY"%string, (Some 1%Q)); ("HR"%string, (Some 10%Q)); ("LAT"%string, (Some (1 # 2)%Q)); ("LON"%string, (Some (1 # 2)%Q)); ("SST"%string, (Some 5%Q))]) (fun r => Ok (add_climate_variable r "SST"%string (Some (1 # 2)%Q) None))) in add_rep (lat r) (lon r) (getint r "MO") (getint r "DY") (getanom r "SST"%string) g)) (fun g => let! r := (on (new_report (Some "BBBBBBBBB"%string) None [("YR"%string, (Some 2002%Q)); ("MO"%string, (Some 12%Q)); ("DY"%string, (Some 31%Q)); ("HR"%string, (Some 10%Q)); ("LAT"%string, (Some (1 # 2)%Q)); ("LON"%string, (Some (1 # 2)%Q)); ("SST"%string, (Some 2%Q))]) (fun r => Ok (add_climate_variable r "SST"%string (Some (1 # 2)%Q) None))) in add_rep (lat r) (lon r) (getint r "MO") (getint r "DY") (getanom r "SST"%string) g)) (fun g => let! r := (on (new_report (Some "BBBBBBBBB"%string) None [("YR"%string, (Some 2003%Q)); ("MO"%string, (Some 1%Q)); ("DY"%string, (Some 1%Q)); ("HR"%string, (Some 10%Q)); ("LAT"%string, (Some (3 # 2)%Q)); ("LON"%string, (Some (1 # 2)%Q)); ("SST"%string, (Some 5%Q))]) (fun r => Ok (add_climate_variable r "SST"%string (Some (1 # 2)%Q) None))) in add_rep (lat r) (lon r) (getint r "MO") (getint r "DY") (getanom r "SST"%string) g)) (fun g => Ok (take_average g))) with Ok g => get_neighbour_anomalies n_xspan g (2, 2, 2) (180, 89, 0) | Err _ => [] end));
  existsb (fun x => same (ofQ x) (VNum (3 # 2))) (map fst (match (on (on (on (on (on (on (Ok []) (fun g => let! r := (on (new_report (Some "AAAAAAAAA"%string) None [("YR"%string, (Some 2003%Q)); ("MO"%string, (Some 1%Q)); ("DY"%string, (Some 1%Q)); ("HR"%string, (Some 0%Q)); ("LAT"%string, (Some (1 # 2)%Q)); ("LON"%string, (Some (1 # 2)%Q)); ("SST"%string, (Some 5%Q))]) (fun r => Ok (add_climate_variable r "SST"%string (Some (1 # 2)%Q) None))) in add_rep (lat r) (lon r) (getint r "MO") (getint r "DY") (getanom r "SST"%string) g)) (fun g => let! r := (on (new_report (Some "BBBBBBBBB"%string) None [("YR"%string, (Some 2003%Q)); ("MO"%string, (Some 1%Q)); ("DY"%string, (Some 1%Q)); ("HR"%string, (Some 0%Q)); ("LAT"%string, (Some (1 # 2)%Q)); ("LON"%string, (Some (1 # 2)%Q)); ("SST"%string, (Some 5%Q))]) (fun r => Ok (add_climate_variable r "SST"%string (Some (1 # 2)%Q) None))) in add_rep (lat r) (lon r) (getint r "MO") (getint r "DY") (getanom r "SST"%string) g)) (fun g => let! r := (on (new_report (Some "BBBBBBBBB"%string) None [("YR"%string, (Some 2003%Q)); ("MO"%string, (Some 1%Q)); ("DY"%string, (Some 1%Q)); ("HR"%string, (Some 10%Q)); ("LAT"%string, (Some (1 # 2)%Q)); ("LON"%string, (Some (1 # 2)%Q)); ("SST"%string, (Some 5%Q))]) (fun r => Ok (add_climate_variable r "SST"%string (Some (1 # 2)%Q) None))) in add_rep (lat r) (lon r) (getint r "MO") (getint r "DY") (getanom r "SST"%string) g)) (fun g => let! r := (on (new_report (Some "BBBBBBBBB"%string) None [("YR"%string, (Some 2002%Q)); ("MO"%string, (Some 12%Q)); ("DY"%string, (Some 31%Q)); ("HR"%string, (Some 10%Q)); ("LAT"%string, (Some (1 # 2)%Q)); ("LON"%string, (Some (1 # 2)%Q)); ("SST"%string, (Some 2%Q))]) (fun r => Ok (add_climate_variable r "SST"%string (Some (1 # 2)%Q) None))) in add_rep (lat r) (lon r) (getint r "MO") (getint r "DY") (getanom r "SST"%string) g)) (fun g => let! r := (on (new_report (Some "BBBBBBBBB"%string) None [("YR"%string, (Some 2003%Q)); ("MO"%string, (Some 1%Q)); ("DY"%string, (Some 1%Q)); ("HR"%string, (Some 10%Q)); ("LAT"%string, (Some (3 # 2)%Q)); ("LON"%string, (Some (1 # 2)%Q)); ("SST"%string, (Some 5%Q))]) (fun r => Ok (add_climate_variable r "SST"%string (Some (1 # 2)%Q) None))) in add_rep (lat r) (lon r) (getint r "MO") (getint r "DY") (getanom r "SST"%string) g)) (fun g => Ok (take_average g))) with Ok g => get_neighbour_anomalies n_xspan g (2, 2, 2) (180, 89, 0) | Err _ => [] end));
  same (rs ofZ (at_ (map snd (match (on (on (on (on (on (on (Ok []) (fun g => let! r := (on (new_report (Some "AAAAAAAAA"%string) None [("YR"%string, (Some 2003%Q)); ("MO"%string, (Some 1%Q)); ("DY"%string, (Some 1%Q)); ("HR"%string, (Some 0%Q)); ("LAT"%string, (Some (1 # 2)%Q)); ("LON"%string, (Some (1 # 2)%Q)); ("SST"%string, (Some 5%Q))]) (fun r => Ok (add_climate_variable r "SST"%string (Some (1 # 2)%Q) None))) in add_rep (lat r) (lon r) (getint r "MO") (getint r "DY") (getanom r "SST"%string) g)) (fun g => let! r := (on (new_report (Some "BBBBBBBBB"%string) None [("YR"%string, (Some 2003%Q)); ("MO"%string, (Some 1%Q)); ("DY"%string, (Some 1%Q)); ("HR"%string, (Some 0%Q)); ("LAT"%string, (Some (1 # 2)%Q)); ("LON"%string, (Some (1 # 2)%Q)); ("SST"%string, (Some 5%Q))]) (fun r => Ok (add_climate_variable r "SST"%string (Some (1 # 2)%Q) None))) in add_rep (lat r) (lon r) (getint r "MO") (getint r "DY") (getanom r "SST"%string) g)) (fun g => let! r := (on (new_report (Some "BBBBBBBBB"%string) None [("YR"%string, (Some 2003%Q)); ("MO"%string, (Some 1%Q)); ("DY"%string, (Some 1%Q)); ("HR"%string, (Some 10%Q)); ("LAT"%string, (Some (1 # 2)%Q)); ("LON"%string, (Some (1 # 2)%Q)); ("SST"%string, (Some 5%Q))]) (fun r => Ok (add_climate_variable r "SST"%string (Some (1 # 2)%Q) None))) in add_rep (lat r) (lon r) (getint r "MO") (getint r "DY") (getanom r "SST"%string) g)) (fun g => let! r := (on (new_report (Some "BBBBBBBBB"%string) None [("YR"%string, (Some 2002%Q)); ("MO"%string, (Some 12%Q)); ("DY"%string, (Some 31%Q)); ("HR"%string, (Some 10%Q)); ("LAT"%string, (Some (1 # 2)%Q)); ("LON"%string, (Some (1 # 2)%Q)); ("SST"%string, (Some 2%Q))]) (fun r => Ok (add_climate_variable r "SST"%string (Some (1 # 2)%Q) None))) in add_rep (lat r) (lon r) (getint r "MO") (getint r "DY") (getanom r "SST"%string) g)) (fun g => let! r := (on (new_report (Some "BBBBBBBBB"%string) None [("YR"%string, (Some 2003%Q)); ("MO"%string, (Some 1%Q)); ("DY"%string, (Some 1%Q)); ("HR"%string, (Some 10%Q)); ("LAT"%string, (Some (3 # 2)%Q)); ("LON"%string, (Some (1 # 2)%Q)); ("SST"%string, (Some 5%Q))]) (fun r => Ok (add_climate_variable r "SST"%string (Some (1 # 2)%Q) None))) in add_rep (lat r) (lon r) (getint r "MO") (getint r "DY") (getanom r "SST"%string) g)) (fun g => Ok (take_average g))) with Ok g => get_neighbour_anomalies n_xspan g (2, 2, 2) (180, 89, 0) | Err _ => [] end)) 0)) (VNum 1);
  same (rs ofZ (at_ (map snd (match (on (on (on (on (on (on (Ok []) (fun g => let! r := (on (new_report (Some "AAAAAAAAA"%string) None [("YR"%string, (Some 2003%Q)); ("MO"%string, (Some 1%Q)); ("DY"%string, (Some 1%Q)); ("HR"%string, (Some 0%Q)); ("LAT"%string, (Some (1 # 2)%Q)); ("LON"%string, (Some (1 # 2)%Q)); ("SST"%string, (Some 5%Q))]) (fun r => Ok (add_climate_variable r "SST"%string (Some (1 # 2)%Q) None))) in add_rep (lat r) (lon r) (getint r "MO") (getint r "DY") (getanom r "SST"%string) g)) (fun g => let! r := (on (new_report (Some "BBBBBBBBB"%string) None [("YR"%string, (Some 2003%Q)); ("MO"%string, (Some 1%Q)); ("DY"%string, (Some 1%Q)); ("HR"%string, (Some 0%Q)); ("LAT"%string, (Some (1 # 2)%Q)); ("LON"%string, (Some (1 # 2)%Q)); ("SST"%string, (Some 5%Q))]) (fun r => Ok (add_climate_variable r "SST"%string (Some (1 # 2)%Q) None))) in add_rep (lat r) (lon r) (getint r "MO") (getint r "DY") (getanom r "SST"%string) g)) (fun g => let! r := (on (new_report (Some "BBBBBBBBB"%string) None [("YR"%string, (Some 2003%Q)); ("MO"%string, (Some 1%Q)); ("DY"%string, (Some 1%Q)); ("HR"%string, (Some 10%Q)); ("LAT"%string, (Some (1 # 2)%Q)); ("LON"%string, (Some (1 # 2)%Q)); ("SST"%string, (Some 5%Q))]) (fun r => Ok (add_climate_variable r "SST"%string (Some (1 # 2)%Q) None))) in add_rep (lat r) (lon r) (getint r "MO") (getint r "DY") (getanom r "SST"%string) g)) (fun g => let! r := (on (new_report (Some "BBBBBBBBB"%string) None [("YR"%string, (Some 2002%Q)); ("MO"%string, (Some 12%Q)); ("DY"%string, (Some 31%Q)); ("HR"%string, (Some 10%Q)); ("LAT"%string, (Some (1 # 2)%Q)); ("LON"%string, (Some (1 # 2)%Q)); ("SST"%string, (Some 2%Q))]) (fun r => Ok (add_climate_variable r "SST"%string (Some (1 # 2)%Q) None))) in add_rep (lat r) (lon r) (getint r "MO") (getint r "DY") (getanom r "SST"%string) g)) (fun g => let! r := (on (new_report (Some "BBBBBBBBB"%string) None [("YR"%string, (Some 2003%Q)); ("MO"%string, (Some 1%Q)); ("DY"%string, (Some 1%Q)); ("HR"%string, (Some 10%Q)); ("LAT"%string, (Some (3 # 2)%Q)); ("LON"%string, (Some (1 # 2)%Q)); ("SST"%string, (Some 5%Q))]) (fun r => Ok (add_climate_variable r "SST"%string (Some (1 # 2)%Q) None))) in add_rep (lat r) (lon r) (getint r "MO") (getint r "DY") (getanom r "SST"%string) g)) (fun g => Ok (take_average g))) with Ok g => get_neighbour_anomalies n_xspan g (2, 2, 2) (180, 89, 0) | Err _ => [] end)) 1)) (VNum 1)]).
Example TestNpSuperOb_test_neighbours_is : TestNpSuperOb_test_neighbours = true.
Proof. reflexivity. Qed.
Definition TestNpSuperOb_test_add_one_maxes_limits : bool := Eval vm_compute in (all [near (1 # 10000) (rs (fun p => ofQ (snd p)) (on (on (on (on (Ok []) (fun g => let! r := (on (new_report (Some "AAAAAAAAA"%string) None [("YR"%string, (Some 2003%Q)); ("MO"%string, (Some 12%Q)); ("DY"%string, (Some 1%Q)); ("HR"%string, (Some 0%Q)); ("LAT"%string, (Some (1 # 2)%Q)); ("LON"%string, (Some (1 # 2)%Q)); ("SST"%string, (Some 5%Q))]) (fun r => Ok (add_climate_variable r "SST"%string (Some (1 # 2)%Q) None))) in add_rep (lat r) (lon r) (getint r "MO") (getint r "DY") (getanom r "SST"%string) g)) (fun g => Ok (take_average g))) (get_new_buddy_limits n_xspan n_sqrt {| cn := 73; cny := 180; cnx := 360; cval := fun _ _ _ => (Some 1%Q) |} {| cn := 73; cny := 180; cnx := 360; cval := fun _ _ _ => (Some 1%Q) |} {| cn := 73; cny := 180; cnx := 360; cval := fun _ _ _ => (Some 1%Q) |} (2, 2, 4) 1 3)) (fun b => let! r := (on (new_report (Some "AAAAAAAAA"%string) None [("YR"%string, (Some 2003%Q)); ("MO"%string, (Some 12%Q)); ("DY"%string, (Some 1%Q)); ("HR"%string, (Some 0%Q)); ("LAT"%string, (Some (1 # 2)%Q)); ("LON"%string, (Some (1 # 2)%Q)); ("SST"%string, (Some 5%Q))]) (fun r => Ok (add_climate_variable r "SST"%string (Some (1 # 2)%Q) None))) in get_buddy b (getvar r "LAT"%string) (getvar r "LON"%string) (getint r "MO") (getint r "DY")))) (VNum 500);
  same (rs (fun p => ofQ (fst p)) (on (on (on (on (Ok []) (fun g => let! r := (on (new_report (Some "AAAAAAAAA"%string) None [("YR"%string, (Some 2003%Q)); ("MO"%string, (Some 12%Q)); ("DY"%string, (Some 1%Q)); ("HR"%string, (Some 0%Q)); ("LAT"%string, (Some (1 # 2)%Q)); ("LON"%string, (Some (1 # 2)%Q)); ("SST"%string, (Some 5%Q))]) (fun r => Ok (add_climate_variable r "SST"%string (Some (1 # 2)%Q) None))) in add_rep (lat r) (lon r) (getint r "MO") (getint r "DY") (getanom r "SST"%string) g)) (fun g => Ok (take_average g))) (get_new_buddy_limits n_xspan n_sqrt {| cn := 73; cny := 180; cnx := 360; cval := fun _ _ _ => (Some 1%Q) |} {| cn := 73; cny := 180; cnx := 360; cval := fun _ _ _ => (Some 1%Q) |} {| cn := 73; cny := 180; cnx := 360; cval := fun _ _ _ => (Some 1%Q) |} (2, 2, 4) 1 3)) (fun b => let! r := (on (new_report (Some "AAAAAAAAA"%string) None [("YR"%string, (Some 2003%Q)); ("MO"%string, (Some 12%Q)); ("DY"%string, (Some 1%Q)); ("HR"%string, (Some 0%Q)); ("LAT"%string, (Some (1 # 2)%Q)); ("LON"%string, (Some (1 # 2)%Q)); ("SST"%string, (Some 5%Q))]) (fun r => Ok (add_climate_variable r "SST"%string (Some (1 # 2)%Q) None))) in get_buddy b (getvar r "LAT"%string) (getvar r "LON"%string) (getint r "MO") (getint r "DY")))) (VNum 0)]).
Example TestNpSuperOb_test_add_one_maxes_limits_is : TestNpSuperOb_test_add_one_maxes_limits = true.
Proof. reflexivity. Qed.
Definition TestNpSuperOb_test_add_multiple : bool := Eval vm_compute in (all [near (1 # 10000) (rs (fun p => ofQ (snd p)) (on (on (on (on (on (on (on (Ok []) (fun g => let! r := (on (new_report (Some "AAAAAAAAA"%string) None [("YR"%string, (Some 2003%Q)); ("MO"%string, (Some 12%Q)); ("DY"%string, (Some 1%Q)); ("HR"%string, (Some 0%Q)); ("LAT"%string, (Some (1 # 2)%Q)); ("LON"%string, (Some (1 # 2)%Q)); ("SST"%string, (Some 5%Q))]) (fun r => Ok (add_climate_variable r "SST"%string (Some (1 # 2)%Q) None))) in add_rep (getvar r "LAT"%string) (getvar r "LON"%string) (getint r "MO") (getint r "DY") (getanom r "SST"%string) g)) (fun g => let! r := (on (new_report (Some "BBBBBBBBB"%string) None [("YR"%string, (Some 2003%Q)); ("MO"%string, (Some 12%Q)); ("DY"%string, (Some 1%Q)); ("HR"%string, (Some 0%Q)); ("LAT"%string, (Some (1 # 2)%Q)); ("LON"%string, (Some (1 # 2)%Q)); ("SST"%string, (Some 5%Q))]) (fun r => Ok (add_climate_variable r "SST"%string (Some (1 # 2)%Q) None))) in add_rep (getvar r "LAT"%string) (getvar r "LON"%string) (getint r "MO") (getint r "DY") (getanom r "SST"%string) g)) (fun g => let! r := (on (new_report (Some "BBBBBBBBB"%string) None [("YR"%string, (Some 2003%Q)); ("MO"%string, (Some 12%Q)); ("DY"%string, (Some 1%Q)); ("HR"%string, (Some 10%Q)); ("LAT"%string, (Some (1 # 2)%Q)); ("LON"%string, (Some (1 # 2)%Q)); ("SST"%string, (Some 5%Q))]) (fun r => Ok (add_climate_variable r "SST"%string (Some (1 # 2)%Q) None))) in add_rep (getvar r "LAT"%string) (getvar r "LON"%string) (getint r "MO") (getint r "DY") (getanom r "SST"%string) g)) (fun g => let! r := (on (new_report (Some "BBBBBBBBB"%string) None [("YR"%string, (Some 2003%Q)); ("MO"%string, (Some 12%Q)); ("DY"%string, (Some 1%Q)); ("HR"%string, (Some 10%Q)); ("LAT"%string, (Some (3 # 2)%Q)); ("LON"%string, (Some (1 # 2)%Q)); ("SST"%string, (Some 5%Q))]) (fun r => Ok (add_climate_variable r "SST"%string (Some (1 # 2)%Q) None))) in add_rep (getvar r "LAT"%string) (getvar r "LON"%string) (getint r "MO") (getint r "DY") (getanom r "SST"%string) g)) (fun g => Ok (take_average g))) (get_new_buddy_limits n_xspan n_sqrt {| cn := 73; cny := 180; cnx := 360; cval := fun _ _ _ => (Some 1%Q) |} {| cn := 73; cny := 180; cnx := 360; cval := fun _ _ _ => (Some 1%Q) |} {| cn := 73; cny := 180; cnx := 360; cval := fun _ _ _ => (Some 1%Q) |} (2, 2, 4) 1 3)) (fun b => let! r := (on (new_report (Some "AAAAAAAAA"%string) None [("YR"%string, (Some 2003%Q)); ("MO"%string, (Some 12%Q)); ("DY"%string, (Some 1%Q)); ("HR"%string, (Some 0%Q)); ("LAT"%string, (Some (1 # 2)%Q)); ("LON"%string, (Some (1 # 2)%Q)); ("SST"%string, (Some 5%Q))]) (fun r => Ok (add_climate_variable r "SST"%string (Some (1 # 2)%Q) None))) in get_buddy b (getvar r "LAT"%string) (getvar r "LON"%string) (getint r "MO") (getint r "DY")))) (VNum (6324555320336759 # 2000000000000000));
  same (rs (fun p => ofQ (fst p)) (on (on (on (on (on (on (on (Ok []) (fun g => let! r := (on (new_report (Some "AAAAAAAAA"%string) None [("YR"%string, (Some 2003%Q)); ("MO"%string, (Some 12%Q)); ("DY"%string, (Some 1%Q)); ("HR"%string, (Some 0%Q)); ("LAT"%string, (Some (1 # 2)%Q)); ("LON"%string, (Some (1 # 2)%Q)); ("SST"%string, (Some 5%Q))]) (fun r => Ok (add_climate_variable r "SST"%string (Some (1 # 2)%Q) None))) in add_rep (getvar r "LAT"%string) (getvar r "LON"%string) (getint r "MO") (getint r "DY") (getanom r "SST"%string) g)) (fun g => let! r := (on (new_report (Some "BBBBBBBBB"%string) None [("YR"%string, (Some 2003%Q)); ("MO"%string, (Some 12%Q)); ("DY"%string, (Some 1%Q)); ("HR"%string, (Some 0%Q)); ("LAT"%string, (Some (1 # 2)%Q)); ("LON"%string, (Some (1 # 2)%Q)); ("SST"%string, (Some 5%Q))]) (fun r => Ok (add_climate_variable r "SST"%string (Some (1 # 2)%Q) None))) in add_rep (getvar r "LAT"%string) (getvar r "LON"%string) (getint r "MO") (getint r "DY") (getanom r "SST"%string) g)) (fun g => let! r := (on (new_report (Some "BBBBBBBBB"%string) None [("YR"%string, (Some 2003%Q)); ("MO"%string, (Some 12%Q)); ("DY"%string, (Some 1%Q)); ("HR"%string, (Some 10%Q)); ("LAT"%string, (Some (1 # 2)%Q)); ("LON"%string, (Some (1 # 2)%Q)); ("SST"%string, (Some 5%Q))]) (fun r => Ok (add_climate_variable r "SST"%string (Some (1 # 2)%Q) None))) in add_rep (getvar r "LAT"%string) (getvar r "LON"%string) (getint r "MO") (getint r "DY") (getanom r "SST"%string) g)) (fun g => let! r := (on (new_report (Some "BBBBBBBBB"%string) None [("YR"%string, (Some 2003%Q)); ("MO"%string, (Some 12%Q)); ("DY"%string, (Some 1%Q)); ("HR"%string, (Some 10%Q)); ("LAT"%string, (Some (3 # 2)%Q)); ("LON"%string, (Some (1 # 2)%Q)); ("SST"%string, (Some 5%Q))]) (fun r => Ok (add_climate_variable r "SST"%string (Some (1 # 2)%Q) None))) in add_rep (getvar r "LAT"%string) (getvar r "LON"%string) (getint r "MO") (getint r "DY") (getanom r "SST"%string) g)) (fun g => Ok (take_average g))) (get_new_buddy_limits n_xspan n_sqrt {| cn := 73; cny := 180; cnx := 360; cval := fun _ _ _ => (Some 1%Q) |} {| cn := 73; cny := 180; cnx := 360; cval := fun _ _ _ => (Some 1%Q) |} {| cn := 73; cny := 180; cnx := 360; cval := fun _ _ _ => (Some 1%Q) |} (2, 2, 4) 1 3)) (fun b => let! r := (on (new_report (Some "AAAAAAAAA"%string) None [("YR"%string, (Some 2003%Q)); ("MO"%string, (Some 12%Q)); ("DY"%string, (Some 1%Q)); ("HR"%string, (Some 0%Q)); ("LAT"%string, (Some (1 # 2)%Q)); ("LON"%string, (Some (1 # 2)%Q)); ("SST"%string, (Some 5%Q))]) (fun r => Ok (add_climate_variable r "SST"%string (Some (1 # 2)%Q) None))) in get_buddy b (getvar r "LAT"%string) (getvar r "LON"%string) (getint r "MO") (getint r "DY")))) (VNum (9 # 2))]).
Example TestNpSuperOb_test_add_multiple_is : TestNpSuperOb_test_add_multiple = true.
Proof. reflexivity. Qed.
Definition TestVoyage_test_spike_check_all_good : bool := Eval vm_compute in (let x1 := (on (voyage_of [] [(new_report (Some "AAAAAAAAA"%string) None [("YR"%string, (Some 2003%Q)); ("MO"%string, (Some 12%Q)); ("DY"%string, (Some 1%Q)); ("HR"%string, (Some 0%Q)); ("LAT"%string, (Some 0%Q)); ("LON"%string, (Some 0%Q)); ("SST"%string, (Some 5%Q))]); (new_report (Some "AAAAAAAAA"%string) None [("YR"%string, (Some 2003%Q)); ("MO"%string, (Some 12%Q)); ("DY"%string, (Some 1%Q)); ("HR"%string, (Some 1%Q)); ("LAT"%string, (Some (1 # 10)%Q)); ("LON"%string, (Some 0%Q)); ("SST"%string, (Some 5%Q))]); (new_report (Some "AAAAAAAAA"%string) None [("YR"%string, (Some 2003%Q)); ("MO"%string, (Some 12%Q)); ("DY"%string, (Some 1%Q)); ("HR"%string, (Some 2%Q)); ("LAT"%string, (Some (1 # 5)%Q)); ("LON"%string, (Some 0%Q)); ("SST"%string, (Some 5%Q))]); (new_report (Some "AAAAAAAAA"%string) None [("YR"%string, (Some 2003%Q)); ("MO"%string, (Some 12%Q)); ("DY"%string, (Some 1%Q)); ("HR"%string, (Some 3%Q)); ("LAT"%string, (Some (3 # 10)%Q)); ("LON"%string, (Some 0%Q)); ("SST"%string, (Some 5%Q))]); (new_report (Some "AAAAAAAAA"%string) None [("YR"%string, (Some 2003%Q)); ("MO"%string, (Some 12%Q)); ("DY"%string, (Some 1%Q)); ("HR"%string, (Some 4%Q)); ("LAT"%string, (Some (2 # 5)%Q)); ("LON"%string, (Some 0%Q)); ("SST"%string, (Some 5%Q))]); (new_report (Some "AAAAAAAAA"%string) None [("YR"%string, (Some 2003%Q)); ("MO"%string, (Some 12%Q)); ("DY"%string, (Some 1%Q)); ("HR"%string, (Some 5%Q)); ("LAT"%string, (Some (1 # 2)%Q)); ("LON"%string, (Some 0%Q)); ("SST"%string, (Some 5%Q))]); (new_report (Some "AAAAAAAAA"%string) None [("YR"%string, (Some 2003%Q)); ("MO"%string, (Some 12%Q)); ("DY"%string, (Some 1%Q)); ("HR"%string, (Some 6%Q)); ("LAT"%string, (Some (3 # 5)%Q)); ("LON"%string, (Some 0%Q)); ("SST"%string, (Some 5%Q))])]) (spike_check earth {| sk_space := (1 # 2); sk_time := 1; sk_ship := 2; sk_buoy := 1; sk_n := 5 |} "SST")) in
  all [flags x1 "SST"%string "spike"%string [0; 0; 0; 0; 0; 0; 0]]).
Example TestVoyage_test_spike_check_all_good_is : TestVoyage_test_spike_check_all_good = true.
Proof. reflexivity. Qed.
Definition TestVoyage_test_spike_check_one_bad : bool := Eval vm_compute in (let x1 := (on (on (voyage_of [] [(new_report (Some "AAAAAAAAA"%string) None [("YR"%string, (Some 2003%Q)); ("MO"%string, (Some 12%Q)); ("DY"%string, (Some 1%Q)); ("HR"%string, (Some 0%Q)); ("LAT"%string, (Some 0%Q)); ("LON"%string, (Some 0%Q)); ("SST"%string, (Some 5%Q))]); (new_report (Some "AAAAAAAAA"%string) None [("YR"%string, (Some 2003%Q)); ("MO"%string, (Some 12%Q)); ("DY"%string, (Some 1%Q)); ("HR"%string, (Some 1%Q)); ("LAT"%string, (Some (1 # 10)%Q)); ("LON"%string, (Some 0%Q)); ("SST"%string, (Some 5%Q))]); (new_report (Some "AAAAAAAAA"%string) None [("YR"%string, (Some 2003%Q)); ("MO"%string, (Some 12%Q)); ("DY"%string, (Some 1%Q)); ("HR"%string, (Some 2%Q)); ("LAT"%string, (Some (1 # 5)%Q)); ("LON"%string, (Some 0%Q)); ("SST"%string, (Some 5%Q))]); (new_report (Some "AAAAAAAAA"%string) None [("YR"%string, (Some 2003%Q)); ("MO"%string, (Some 12%Q)); ("DY"%string, (Some 1%Q)); ("HR"%string, (Some 3%Q)); ("LAT"%string, (Some (3 # 10)%Q)); ("LON"%string, (Some 0%Q)); ("SST"%string, (Some 5%Q))]); (new_report (Some "AAAAAAAAA"%string) None [("YR"%string, (Some 2003%Q)); ("MO"%string, (Some 12%Q)); ("DY"%string, (Some 1%Q)); ("HR"%string, (Some 4%Q)); ("LAT"%string, (Some (2 # 5)%Q)); ("LON"%string, (Some 0%Q)); ("SST"%string, (Some 5%Q))]); (new_report (Some "AAAAAAAAA"%string) None [("YR"%string, (Some 2003%Q)); ("MO"%string, (Some 12%Q)); ("DY"%string, (Some 1%Q)); ("HR"%string, (Some 5%Q)); ("LAT"%string, (Some (1 # 2)%Q)); ("LON"%string, (Some 0%Q)); ("SST"%string, (Some 5%Q))]); (new_report (Some "AAAAAAAAA"%string) None [("YR"%string, (Some 2003%Q)); ("MO"%string, (Some 12%Q)); ("DY"%string, (Some 1%Q)); ("HR"%string, (Some 6%Q)); ("LAT"%string, (Some (3 # 5)%Q)); ("LON"%string, (Some 0%Q)); ("SST"%string, (Some 5%Q))])]) (fun v => setvar_at v 3 "SST"%string (Some 16%Q))) (spike_check earth {| sk_space := (1 # 2); sk_time := 1; sk_ship := 2; sk_buoy := 1; sk_n := 5 |} "SST")) in
  all [flags x1 "SST"%string "spike"%string [0; 0; 0; 1; 0; 0; 0]]).
Example TestVoyage_test_spike_check_one_bad_is : TestVoyage_test_spike_check_one_bad = true.
Proof. reflexivity. Qed.
Definition TestVoyage_test_iquam_track_check_all_good : bool := Eval vm_compute in (let x1 := (on (voyage_of [] [(new_report (Some "AAAAAAAAA"%string) None [("YR"%string, (Some 2003%Q)); ("MO"%string, (Some 12%Q)); ("DY"%string, (Some 1%Q)); ("HR"%string, (Some 0%Q)); ("LAT"%string, (Some 0%Q)); ("LON"%string, (Some 0%Q)); ("SST"%string, (Some 5%Q))]); (new_report (Some "AAAAAAAAA"%string) None [("YR"%string, (Some 2003%Q)); ("MO"%string, (Some 12%Q)); ("DY"%string, (Some 1%Q)); ("HR"%string, (Some 1%Q)); ("LAT"%string, (Some (1 # 10)%Q)); ("LON"%string, (Some 0%Q)); ("SST"%string, (Some 5%Q))]); (new_report (Some "AAAAAAAAA"%string) None [("YR"%string, (Some 2003%Q)); ("MO"%string, (Some 12%Q)); ("DY"%string, (Some 1%Q)); ("HR"%string, (Some 2%Q)); ("LAT"%string, (Some (1 # 5)%Q)); ("LON"%string, (Some 0%Q)); ("SST"%string, (Some 5%Q))]); (new_report (Some "AAAAAAAAA"%string) None [("YR"%string, (Some 2003%Q)); ("MO"%string, (Some 12%Q)); ("DY"%string, (Some 1%Q)); ("HR"%string, (Some 3%Q)); ("LAT"%string, (Some (3 # 10)%Q)); ("LON"%string, (Some 0%Q)); ("SST"%string, (Some 5%Q))]); (new_report (Some "AAAAAAAAA"%string) None [("YR"%string, (Some 2003%Q)); ("MO"%string, (Some 12%Q)); ("DY"%string, (Some 1%Q)); ("HR"%string, (Some 4%Q)); ("LAT"%string, (Some (2 # 5)%Q)); ("LON"%string, (Some 0%Q)); ("SST"%string, (Some 5%Q))]); (new_report (Some "AAAAAAAAA"%string) None [("YR"%string, (Some 2003%Q)); ("MO"%string, (Some 12%Q)); ("DY"%string, (Some 1%Q)); ("HR"%string, (Some 5%Q)); ("LAT"%string, (Some (1 # 2)%Q)); ("LON"%string, (Some 0%Q)); ("SST"%string, (Some 5%Q))]); (new_report (Some "AAAAAAAAA"%string) None [("YR"%string, (Some 2003%Q)); ("MO"%string, (Some 12%Q)); ("DY"%string, (Some 1%Q)); ("HR"%string, (Some 6%Q)); ("LAT"%string, (Some (3 # 5)%Q)); ("LON"%string, (Some 0%Q)); ("SST"%string, (Some 5%Q))])]) (iquam_track_check earth {| iq_buoy := 15; iq_ship := 60; iq_d := (111 # 100); iq_t := (1 # 100); iq_n := 5 |})) in
  all [flags x1 "POS"%string "iquam_track"%string [0; 0; 0; 0; 0; 0; 0]]).
Example TestVoyage_test_iquam_track_check_all_good_is : TestVoyage_test_iquam_track_check_all_good = true.
Proof. reflexivity. Qed.
Definition TestVoyage_test_iquam_track_check_one_bad : bool := Eval vm_compute in (let x1 := (on (voyage_of [] [(new_report (Some "AAAAAAAAA"%string) None [("YR"%string, (Some 2003%Q)); ("MO"%string, (Some 12%Q)); ("DY"%string, (Some 1%Q)); ("HR"%string, (Some 0%Q)); ("LAT"%string, (Some 0%Q)); ("LON"%string, (Some 0%Q)); ("SST"%string, (Some 5%Q))]); (new_report (Some "AAAAAAAAA"%string) None [("YR"%string, (Some 2003%Q)); ("MO"%string, (Some 12%Q)); ("DY"%string, (Some 1%Q)); ("HR"%string, (Some 1%Q)); ("LAT"%string, (Some (1 # 10)%Q)); ("LON"%string, (Some 0%Q)); ("SST"%string, (Some 5%Q))]); (new_report (Some "AAAAAAAAA"%string) None [("YR"%string, (Some 2003%Q)); ("MO"%string, (Some 12%Q)); ("DY"%string, (Some 1%Q)); ("HR"%string, (Some 2%Q)); ("LAT"%string, (Some (1 # 5)%Q)); ("LON"%string, (Some 0%Q)); ("SST"%string, (Some 5%Q))]); (new_report (Some "AAAAAAAAA"%string) None [("YR"%string, (Some 2003%Q)); ("MO"%string, (Some 12%Q)); ("DY"%string, (Some 1%Q)); ("HR"%string, (Some 3%Q)); ("LAT"%string, (Some (3 # 10)%Q)); ("LON"%string, (Some 10%Q)); ("SST"%string, (Some 5%Q))]); (new_report (Some "AAAAAAAAA"%string) None [("YR"%string, (Some 2003%Q)); ("MO"%string, (Some 12%Q)); ("DY"%string, (Some 1%Q)); ("HR"%string, (Some 4%Q)); ("LAT"%string, (Some (2 # 5)%Q)); ("LON"%string, (Some 0%Q)); ("SST"%string, (Some 5%Q))]); (new_report (Some "AAAAAAAAA"%string) None [("YR"%string, (Some 2003%Q)); ("MO"%string, (Some 12%Q)); ("DY"%string, (Some 1%Q)); ("HR"%string, (Some 5%Q)); ("LAT"%string, (Some (1 # 2)%Q)); ("LON"%string, (Some 0%Q)); ("SST"%string, (Some 5%Q))]); (new_report (Some "AAAAAAAAA"%string) None [("YR"%string, (Some 2003%Q)); ("MO"%string, (Some 12%Q)); ("DY"%string, (Some 1%Q)); ("HR"%string, (Some 6%Q)); ("LAT"%string, (Some (3 # 5)%Q)); ("LON"%string, (Some 0%Q)); ("SST"%string, (Some 5%Q))])]) (iquam_track_check earth {| iq_buoy := 15; iq_ship := 60; iq_d := (111 # 100); iq_t := (1 # 100); iq_n := 5 |})) in
  all [flags x1 "POS"%string "iquam_track"%string [0; 0; 0; 1; 0; 0; 0]]).
Example TestVoyage_test_iquam_track_check_one_bad_is : TestVoyage_test_iquam_track_check_one_bad = true.
Proof. reflexivity. Qed.
Definition TestVoyage_test_track_check_all_good : bool := Eval vm_compute in (let x1 := (on (voyage_of [] [(new_report (Some "AAAAAAAAA"%string) None [("YR"%string, (Some 2003%Q)); ("MO"%string, (Some 12%Q)); ("DY"%string, (Some 1%Q)); ("HR"%string, (Some 0%Q)); ("LAT"%string, (Some 0%Q)); ("LON"%string, (Some 0%Q)); ("SST"%string, (Some 5%Q))]); (new_report (Some "AAAAAAAAA"%string) None [("YR"%string, (Some 2003%Q)); ("MO"%string, (Some 12%Q)); ("DY"%string, (Some 1%Q)); ("HR"%string, (Some 1%Q)); ("LAT"%string, (Some (1 # 10)%Q)); ("LON"%string, (Some 0%Q)); ("SST"%string, (Some 5%Q))]); (new_report (Some "AAAAAAAAA"%string) None [("YR"%string, (Some 2003%Q)); ("MO"%string, (Some 12%Q)); ("DY"%string, (Some 1%Q)); ("HR"%string, (Some 2%Q)); ("LAT"%string, (Some (1 # 5)%Q)); ("LON"%string, (Some 0%Q)); ("SST"%string, (Some 5%Q))]); (new_report (Some "AAAAAAAAA"%string) None [("YR"%string, (Some 2003%Q)); ("MO"%string, (Some 12%Q)); ("DY"%string, (Some 1%Q)); ("HR"%string, (Some 3%Q)); ("LAT"%string, (Some (3 # 10)%Q)); ("LON"%string, (Some 0%Q)); ("SST"%string, (Some 5%Q))]); (new_report (Some "AAAAAAAAA"%string) None [("YR"%string, (Some 2003%Q)); ("MO"%string, (Some 12%Q)); ("DY"%string, (Some 1%Q)); ("HR"%string, (Some 4%Q)); ("LAT"%string, (Some (2 # 5)%Q)); ("LON"%string, (Some 0%Q)); ("SST"%string, (Some 5%Q))]); (new_report (Some "AAAAAAAAA"%string) None [("YR"%string, (Some 2003%Q)); ("MO"%string, (Some 12%Q)); ("DY"%string, (Some 1%Q)); ("HR"%string, (Some 5%Q)); ("LAT"%string, (Some (1 # 2)%Q)); ("LON"%string, (Some 0%Q)); ("SST"%string, (Some 5%Q))]); (new_report (Some "AAAAAAAAA"%string) None [("YR"%string, (Some 2003%Q)); ("MO"%string, (Some 12%Q)); ("DY"%string, (Some 1%Q)); ("HR"%string, (Some 6%Q)); ("LAT"%string, (Some (3 # 5)%Q)); ("LON"%string, (Some 0%Q)); ("SST"%string, (Some 5%Q))])]) (track_check earth {| tk_dir := 60; tk_speed := 10; tk_abs := 40; tk_mid := 150 |})) in
  all [flags x1 "POS"%string "trk"%string [0; 0; 0; 0; 0; 0; 0]]).
Example TestVoyage_test_track_check_all_good_is : TestVoyage_test_track_check_all_good = true.
Proof. reflexivity. Qed.
Definition TestVoyage_test_track_check_one_bad : bool := Eval vm_compute in (let x1 := (on (voyage_of [] [(new_report (Some "AAAAAAAAA"%string) None [("YR"%string, (Some 2003%Q)); ("MO"%string, (Some 12%Q)); ("DY"%string, (Some 1%Q)); ("HR"%string, (Some 0%Q)); ("LAT"%string, (Some 0%Q)); ("LON"%string, (Some 0%Q)); ("SST"%string, (Some 5%Q))]); (new_report (Some "AAAAAAAAA"%string) None [("YR"%string, (Some 2003%Q)); ("MO"%string, (Some 12%Q)); ("DY"%string, (Some 1%Q)); ("HR"%string, (Some 1%Q)); ("LAT"%string, (Some (1 # 10)%Q)); ("LON"%string, (Some 0%Q)); ("SST"%string, (Some 5%Q))]); (new_report (Some "AAAAAAAAA"%string) None [("YR"%string, (Some 2003%Q)); ("MO"%string, (Some 12%Q)); ("DY"%string, (Some 1%Q)); ("HR"%string, (Some 2%Q)); ("LAT"%string, (Some (1 # 5)%Q)); ("LON"%string, (Some 0%Q)); ("SST"%string, (Some 5%Q))]); (new_report (Some "AAAAAAAAA"%string) None [("YR"%string, (Some 2003%Q)); ("MO"%string, (Some 12%Q)); ("DY"%string, (Some 1%Q)); ("HR"%string, (Some 3%Q)); ("LAT"%string, (Some (3 # 10)%Q)); ("LON"%string, (Some 10%Q)); ("SST"%string, (Some 5%Q))]); (new_report (Some "AAAAAAAAA"%string) None [("YR"%string, (Some 2003%Q)); ("MO"%string, (Some 12%Q)); ("DY"%string, (Some 1%Q)); ("HR"%string, (Some 4%Q)); ("LAT"%string, (Some (2 # 5)%Q)); ("LON"%string, (Some 0%Q)); ("SST"%string, (Some 5%Q))]); (new_report (Some "AAAAAAAAA"%string) None [("YR"%string, (Some 2003%Q)); ("MO"%string, (Some 12%Q)); ("DY"%string, (Some 1%Q)); ("HR"%string, (Some 5%Q)); ("LAT"%string, (Some (1 # 2)%Q)); ("LON"%string, (Some 0%Q)); ("SST"%string, (Some 5%Q))]); (new_report (Some "AAAAAAAAA"%string) None [("YR"%string, (Some 2003%Q)); ("MO"%string, (Some 12%Q)); ("DY"%string, (Some 1%Q)); ("HR"%string, (Some 6%Q)); ("LAT"%string, (Some (3 # 5)%Q)); ("LON"%string, (Some 0%Q)); ("SST"%string, (Some 5%Q))])]) (track_check earth {| tk_dir := 60; tk_speed := 10; tk_abs := 40; tk_mid := 150 |})) in
  all [flags x1 "POS"%string "trk"%string [0; 0; 0; 1; 0; 0; 0]]).
Example TestVoyage_test_track_check_one_bad_is : TestVoyage_test_track_check_one_bad = true.
Proof. reflexivity. Qed.
Definition TestVoyage_test_repeated_saturated_values : bool := Eval vm_compute in (let x1 := (on (voyage_of [] [(new_report (Some "AAAAAAAAA"%string) None [("YR"%string, (Some 2003%Q)); ("MO"%string, (Some 12%Q)); ("DY"%string, (Some 1%Q)); ("HR"%string, (Some 0%Q)); ("LAT"%string, (Some 0%Q)); ("LON"%string, (Some 0%Q)); ("SST"%string, (Some 5%Q)); ("DPT"%string, (Some 13%Q)); ("AT"%string, (Some (76 # 5)%Q))]); (new_report (Some "AAAAAAAAA"%string) None [("YR"%string, (Some 2003%Q)); ("MO"%string, (Some 12%Q)); ("DY"%string, (Some 1%Q)); ("HR"%string, (Some 1%Q)); ("LAT"%string, (Some 0%Q)); ("LON"%string, (Some 0%Q)); ("SST"%string, (Some 5%Q)); ("DPT"%string, (Some (76 # 5)%Q)); ("AT"%string, (Some (76 # 5)%Q))]); (new_report (Some "AAAAAAAAA"%string) None [("YR"%string, (Some 2003%Q)); ("MO"%string, (Some 12%Q)); ("DY"%string, (Some 1%Q)); ("HR"%string, (Some 2%Q)); ("LAT"%string, (Some 0%Q)); ("LON"%string, (Some 0%Q)); ("SST"%string, (Some 5%Q)); ("DPT"%string, (Some (76 # 5)%Q)); ("AT"%string, (Some (76 # 5)%Q))]); (new_report (Some "AAAAAAAAA"%string) None [("YR"%string, (Some 2003%Q)); ("MO"%string, (Some 12%Q)); ("DY"%string, (Some 1%Q)); ("HR"%string, (Some 3%Q)); ("LAT"%string, (Some 0%Q)); ("LON"%string, (Some 0%Q)); ("SST"%string, (Some 5%Q)); ("DPT"%string, (Some (76 # 5)%Q)); ("AT"%string, (Some (76 # 5)%Q))]); (new_report (Some "AAAAAAAAA"%string) None [("YR"%string, (Some 2003%Q)); ("MO"%string, (Some 12%Q)); ("DY"%string, (Some 1%Q)); ("HR"%string, (Some 4%Q)); ("LAT"%string, (Some 0%Q)); ("LON"%string, (Some 0%Q)); ("SST"%string, (Some 5%Q)); ("DPT"%string, (Some (76 # 5)%Q)); ("AT"%string, (Some (76 # 5)%Q))]); (new_report (Some "AAAAAAAAA"%string) None [("YR"%string, (Some 2003%Q)); ("MO"%string, (Some 12%Q)); ("DY"%string, (Some 1%Q)); ("HR"%string, (Some 5%Q)); ("LAT"%string, (Some 0%Q)); ("LON"%string, (Some 0%Q)); ("SST"%string, (Some 5%Q)); ("DPT"%string, (Some (76 # 5)%Q)); ("AT"%string, (Some (76 # 5)%Q))]); (new_report (Some "AAAAAAAAA"%string) None [("YR"%string, (Some 2003%Q)); ("MO"%string, (Some 12%Q)); ("DY"%string, (Some 1%Q)); ("HR"%string, (Some 6%Q)); ("LAT"%string, (Some 0%Q)); ("LON"%string, (Some 0%Q)); ("SST"%string, (Some 5%Q)); ("DPT"%string, (Some (76 # 5)%Q)); ("AT"%string, (Some (76 # 5)%Q))]); (new_report (Some "AAAAAAAAA"%string) None [("YR"%string, (Some 2003%Q)); ("MO"%string, (Some 12%Q)); ("DY"%string, (Some 1%Q)); ("HR"%string, (Some 7%Q)); ("LAT"%string, (Some 0%Q)); ("LON"%string, (Some 0%Q)); ("SST"%string, (Some 5%Q)); ("DPT"%string, (Some (76 # 5)%Q)); ("AT"%string, (Some (76 # 5)%Q))]); (new_report (Some "AAAAAAAAA"%string) None [("YR"%string, (Some 2003%Q)); ("MO"%string, (Some 12%Q)); ("DY"%string, (Some 1%Q)); ("HR"%string, (Some 8%Q)); ("LAT"%string, (Some 0%Q)); ("LON"%string, (Some 0%Q)); ("SST"%string, (Some 5%Q)); ("DPT"%string, (Some (76 # 5)%Q)); ("AT"%string, (Some (76 # 5)%Q))]); (new_report (Some "AAAAAAAAA"%string) None [("YR"%string, (Some 2003%Q)); ("MO"%string, (Some 12%Q)); ("DY"%string, (Some 1%Q)); ("HR"%string, (Some 9%Q)); ("LAT"%string, (Some 0%Q)); ("LON"%string, (Some 0%Q)); ("SST"%string, (Some 5%Q)); ("DPT"%string, (Some (76 # 5)%Q)); ("AT"%string, (Some (76 # 5)%Q))]); (new_report (Some "AAAAAAAAA"%string) None [("YR"%string, (Some 2003%Q)); ("MO"%string, (Some 12%Q)); ("DY"%string, (Some 1%Q)); ("HR"%string, (Some 10%Q)); ("LAT"%string, (Some 0%Q)); ("LON"%string, (Some 0%Q)); ("SST"%string, (Some 5%Q)); ("DPT"%string, (Some (76 # 5)%Q)); ("AT"%string, (Some (76 # 5)%Q))]); (new_report (Some "AAAAAAAAA"%string) None [("YR"%string, (Some 2003%Q)); ("MO"%string, (Some 12%Q)); ("DY"%string, (Some 1%Q)); ("HR"%string, (Some 11%Q)); ("LAT"%string, (Some 0%Q)); ("LON"%string, (Some 0%Q)); ("SST"%string, (Some 5%Q)); ("DPT"%string, (Some (76 # 5)%Q)); ("AT"%string, (Some (76 # 5)%Q))]); (new_report (Some "AAAAAAAAA"%string) None [("YR"%string, (Some 2003%Q)); ("MO"%string, (Some 12%Q)); ("DY"%string, (Some 1%Q)); ("HR"%string, (Some 12%Q)); ("LAT"%string, (Some 0%Q)); ("LON"%string, (Some 0%Q)); ("SST"%string, (Some 5%Q)); ("DPT"%string, (Some (76 # 5)%Q)); ("AT"%string, (Some (76 # 5)%Q))]); (new_report (Some "AAAAAAAAA"%string) None [("YR"%string, (Some 2003%Q)); ("MO"%string, (Some 12%Q)); ("DY"%string, (Some 1%Q)); ("HR"%string, (Some 13%Q)); ("LAT"%string, (Some 0%Q)); ("LON"%string, (Some 0%Q)); ("SST"%string, (Some 5%Q)); ("DPT"%string, (Some (76 # 5)%Q)); ("AT"%string, (Some (76 # 5)%Q))]); (new_report (Some "AAAAAAAAA"%string) None [("YR"%string, (Some 2003%Q)); ("MO"%string, (Some 12%Q)); ("DY"%string, (Some 1%Q)); ("HR"%string, (Some 14%Q)); ("LAT"%string, (Some 0%Q)); ("LON"%string, (Some 0%Q)); ("SST"%string, (Some 5%Q)); ("DPT"%string, (Some (76 # 5)%Q)); ("AT"%string, (Some (76 # 5)%Q))]); (new_report (Some "AAAAAAAAA"%string) None [("YR"%string, (Some 2003%Q)); ("MO"%string, (Some 12%Q)); ("DY"%string, (Some 1%Q)); ("HR"%string, (Some 15%Q)); ("LAT"%string, (Some 0%Q)); ("LON"%string, (Some 0%Q)); ("SST"%string, (Some 5%Q)); ("DPT"%string, (Some (76 # 5)%Q)); ("AT"%string, (Some (76 # 5)%Q))]); (new_report (Some "AAAAAAAAA"%string) None [("YR"%string, (Some 2003%Q)); ("MO"%string, (Some 12%Q)); ("DY"%string, (Some 1%Q)); ("HR"%string, (Some 16%Q)); ("LAT"%string, (Some 0%Q)); ("LON"%string, (Some 0%Q)); ("SST"%string, (Some 5%Q)); ("DPT"%string, (Some (76 # 5)%Q)); ("AT"%string, (Some (76 # 5)%Q))]); (new_report (Some "AAAAAAAAA"%string) None [("YR"%string, (Some 2003%Q)); ("MO"%string, (Some 12%Q)); ("DY"%string, (Some 1%Q)); ("HR"%string, (Some 17%Q)); ("LAT"%string, (Some 0%Q)); ("LON"%string, (Some 0%Q)); ("SST"%string, (Some 5%Q)); ("DPT"%string, (Some (76 # 5)%Q)); ("AT"%string, (Some (76 # 5)%Q))]); (new_report (Some "AAAAAAAAA"%string) None [("YR"%string, (Some 2003%Q)); ("MO"%string, (Some 12%Q)); ("DY"%string, (Some 1%Q)); ("HR"%string, (Some 18%Q)); ("LAT"%string, (Some 0%Q)); ("LON"%string, (Some 0%Q)); ("SST"%string, (Some 5%Q)); ("DPT"%string, (Some (76 # 5)%Q)); ("AT"%string, (Some (76 # 5)%Q))]); (new_report (Some "AAAAAAAAA"%string) None [("YR"%string, (Some 2003%Q)); ("MO"%string, (Some 12%Q)); ("DY"%string, (Some 1%Q)); ("HR"%string, (Some 19%Q)); ("LAT"%string, (Some 0%Q)); ("LON"%string, (Some 0%Q)); ("SST"%string, (Some 5%Q)); ("DPT"%string, (Some 13%Q)); ("AT"%string, (Some (76 # 5)%Q))]); (new_report (Some "AAAAAAAAA"%string) None [("YR"%string, (Some 2003%Q)); ("MO"%string, (Some 12%Q)); ("DY"%string, (Some 1%Q)); ("HR"%string, (Some 20%Q)); ("LAT"%string, (Some 0%Q)); ("LON"%string, (Some 0%Q)); ("SST"%string, (Some 5%Q)); ("DPT"%string, (Some (76 # 5)%Q)); ("AT"%string, (Some (76 # 5)%Q))]); (new_report (Some "AAAAAAAAA"%string) None [("YR"%string, (Some 2003%Q)); ("MO"%string, (Some 12%Q)); ("DY"%string, (Some 1%Q)); ("HR"%string, (Some 21%Q)); ("LAT"%string, (Some 0%Q)); ("LON"%string, (Some 0%Q)); ("SST"%string, (Some 5%Q)); ("DPT"%string, (Some (76 # 5)%Q)); ("AT"%string, (Some (76 # 5)%Q))]); (new_report (Some "AAAAAAAAA"%string) None [("YR"%string, (Some 2003%Q)); ("MO"%string, (Some 12%Q)); ("DY"%string, (Some 1%Q)); ("HR"%string, (Some 22%Q)); ("LAT"%string, (Some 0%Q)); ("LON"%string, (Some 0%Q)); ("SST"%string, (Some 5%Q)); ("DPT"%string, (Some (76 # 5)%Q)); ("AT"%string, (Some (76 # 5)%Q))]); (new_report (Some "AAAAAAAAA"%string) None [("YR"%string, (Some 2003%Q)); ("MO"%string, (Some 12%Q)); ("DY"%string, (Some 1%Q)); ("HR"%string, (Some 23%Q)); ("LAT"%string, (Some 0%Q)); ("LON"%string, (Some 0%Q)); ("SST"%string, (Some 5%Q)); ("DPT"%string, (Some (76 # 5)%Q)); ("AT"%string, (Some (76 # 5)%Q))]); (new_report (Some "AAAAAAAAA"%string) None [("YR"%string, (Some 2003%Q)); ("MO"%string, (Some 12%Q)); ("DY"%string, (Some 2%Q)); ("HR"%string, (Some 0%Q)); ("LAT"%string, (Some 0%Q)); ("LON"%string, (Some 0%Q)); ("SST"%string, (Some 5%Q)); ("DPT"%string, (Some (76 # 5)%Q)); ("AT"%string, (Some (76 # 5)%Q))]); (new_report (Some "AAAAAAAAA"%string) None [("YR"%string, (Some 2003%Q)); ("MO"%string, (Some 12%Q)); ("DY"%string, (Some 2%Q)); ("HR"%string, (Some 1%Q)); ("LAT"%string, (Some 0%Q)); ("LON"%string, (Some 0%Q)); ("SST"%string, (Some 5%Q)); ("DPT"%string, (Some (76 # 5)%Q)); ("AT"%string, (Some (76 # 5)%Q))]); (new_report (Some "AAAAAAAAA"%string) None [("YR"%string, (Some 2003%Q)); ("MO"%string, (Some 12%Q)); ("DY"%string, (Some 2%Q)); ("HR"%string, (Some 2%Q)); ("LAT"%string, (Some 0%Q)); ("LON"%string, (Some 0%Q)); ("SST"%string, (Some 5%Q)); ("DPT"%string, (Some (76 # 5)%Q)); ("AT"%string, (Some (76 # 5)%Q))]); (new_report (Some "AAAAAAAAA"%string) None [("YR"%string, (Some 2003%Q)); ("MO"%string, (Some 12%Q)); ("DY"%string, (Some 2%Q)); ("HR"%string, (Some 3%Q)); ("LAT"%string, (Some 0%Q)); ("LON"%string, (Some 0%Q)); ("SST"%string, (Some 5%Q)); ("DPT"%string, (Some (76 # 5)%Q)); ("AT"%string, (Some (76 # 5)%Q))]); (new_report (Some "AAAAAAAAA"%string) None [("YR"%string, (Some 2003%Q)); ("MO"%string, (Some 12%Q)); ("DY"%string, (Some 2%Q)); ("HR"%string, (Some 4%Q)); ("LAT"%string, (Some 0%Q)); ("LON"%string, (Some 0%Q)); ("SST"%string, (Some 5%Q)); ("DPT"%string, (Some (76 # 5)%Q)); ("AT"%string, (Some (76 # 5)%Q))]); (new_report (Some "AAAAAAAAA"%string) None [("YR"%string, (Some 2003%Q)); ("MO"%string, (Some 12%Q)); ("DY"%string, (Some 2%Q)); ("HR"%string, (Some 5%Q)); ("LAT"%string, (Some 0%Q)); ("LON"%string, (Some 0%Q)); ("SST"%string, (Some 5%Q)); ("DPT"%string, (Some (76 # 5)%Q)); ("AT"%string, (Some (76 # 5)%Q))]); (new_report (Some "AAAAAAAAA"%string) None [("YR"%string, (Some 2003%Q)); ("MO"%string, (Some 12%Q)); ("DY"%string, (Some 2%Q)); ("HR"%string, (Some 6%Q)); ("LAT"%string, (Some 0%Q)); ("LON"%string, (Some 0%Q)); ("SST"%string, (Some 5%Q)); ("DPT"%string, (Some (76 # 5)%Q)); ("AT"%string, (Some (76 # 5)%Q))]); (new_report (Some "AAAAAAAAA"%string) None [("YR"%string, (Some 2003%Q)); ("MO"%string, (Some 12%Q)); ("DY"%string, (Some 2%Q)); ("HR"%string, (Some 7%Q)); ("LAT"%string, (Some 0%Q)); ("LON"%string, (Some 0%Q)); ("SST"%string, (Some 5%Q)); ("DPT"%string, (Some (76 # 5)%Q)); ("AT"%string, (Some (76 # 5)%Q))]); (new_report (Some "AAAAAAAAA"%string) None [("YR"%string, (Some 2003%Q)); ("MO"%string, (Some 12%Q)); ("DY"%string, (Some 2%Q)); ("HR"%string, (Some 8%Q)); ("LAT"%string, (Some 0%Q)); ("LON"%string, (Some 0%Q)); ("SST"%string, (Some 5%Q)); ("DPT"%string, (Some (76 # 5)%Q)); ("AT"%string, (Some (76 # 5)%Q))]); (new_report (Some "AAAAAAAAA"%string) None [("YR"%string, (Some 2003%Q)); ("MO"%string, (Some 12%Q)); ("DY"%string, (Some 2%Q)); ("HR"%string, (Some 9%Q)); ("LAT"%string, (Some 0%Q)); ("LON"%string, (Some 0%Q)); ("SST"%string, (Some 5%Q)); ("DPT"%string, (Some (76 # 5)%Q)); ("AT"%string, (Some (76 # 5)%Q))]); (new_report (Some "AAAAAAAAA"%string) None [("YR"%string, (Some 2003%Q)); ("MO"%string, (Some 12%Q)); ("DY"%string, (Some 2%Q)); ("HR"%string, (Some 10%Q)); ("LAT"%string, (Some 0%Q)); ("LON"%string, (Some 0%Q)); ("SST"%string, (Some 5%Q)); ("DPT"%string, (Some (76 # 5)%Q)); ("AT"%string, (Some (76 # 5)%Q))]); (new_report (Some "AAAAAAAAA"%string) None [("YR"%string, (Some 2003%Q)); ("MO"%string, (Some 12%Q)); ("DY"%string, (Some 2%Q)); ("HR"%string, (Some 11%Q)); ("LAT"%string, (Some 0%Q)); ("LON"%string, (Some 0%Q)); ("SST"%string, (Some 5%Q)); ("DPT"%string, (Some (76 # 5)%Q)); ("AT"%string, (Some (76 # 5)%Q))]); (new_report (Some "AAAAAAAAA"%string) None [("YR"%string, (Some 2003%Q)); ("MO"%string, (Some 12%Q)); ("DY"%string, (Some 2%Q)); ("HR"%string, (Some 12%Q)); ("LAT"%string, (Some 0%Q)); ("LON"%string, (Some 0%Q)); ("SST"%string, (Some 5%Q)); ("DPT"%string, (Some (76 # 5)%Q)); ("AT"%string, (Some (76 # 5)%Q))]); (new_report (Some "AAAAAAAAA"%string) None [("YR"%string, (Some 2003%Q)); ("MO"%string, (Some 12%Q)); ("DY"%string, (Some 2%Q)); ("HR"%string, (Some 13%Q)); ("LAT"%string, (Some 0%Q)); ("LON"%string, (Some 0%Q)); ("SST"%string, (Some 5%Q)); ("DPT"%string, (Some (76 # 5)%Q)); ("AT"%string, (Some (76 # 5)%Q))]); (new_report (Some "AAAAAAAAA"%string) None [("YR"%string, (Some 2003%Q)); ("MO"%string, (Some 12%Q)); ("DY"%string, (Some 2%Q)); ("HR"%string, (Some 14%Q)); ("LAT"%string, (Some 0%Q)); ("LON"%string, (Some 0%Q)); ("SST"%string, (Some 5%Q)); ("DPT"%string, (Some 13%Q)); ("AT"%string, (Some (76 # 5)%Q))]); (new_report (Some "AAAAAAAAA"%string) None [("YR"%string, (Some 2003%Q)); ("MO"%string, (Some 12%Q)); ("DY"%string, (Some 2%Q)); ("HR"%string, (Some 15%Q)); ("LAT"%string, (Some 0%Q)); ("LON"%string, (Some 0%Q)); ("SST"%string, (Some 5%Q)); ("DPT"%string, (Some (76 # 5)%Q)); ("AT"%string, (Some (76 # 5)%Q))]); (new_report (Some "AAAAAAAAA"%string) None [("YR"%string, (Some 2003%Q)); ("MO"%string, (Some 12%Q)); ("DY"%string, (Some 2%Q)); ("HR"%string, (Some 16%Q)); ("LAT"%string, (Some 0%Q)); ("LON"%string, (Some 0%Q)); ("SST"%string, (Some 5%Q)); ("DPT"%string, (Some (76 # 5)%Q)); ("AT"%string, (Some (76 # 5)%Q))]); (new_report (Some "AAAAAAAAA"%string) None [("YR"%string, (Some 2003%Q)); ("MO"%string, (Some 12%Q)); ("DY"%string, (Some 2%Q)); ("HR"%string, (Some 17%Q)); ("LAT"%string, (Some 0%Q)); ("LON"%string, (Some 0%Q)); ("SST"%string, (Some 5%Q)); ("DPT"%string, (Some (76 # 5)%Q)); ("AT"%string, (Some (76 # 5)%Q))]); (new_report (Some "AAAAAAAAA"%string) None [("YR"%string, (Some 2003%Q)); ("MO"%string, (Some 12%Q)); ("DY"%string, (Some 2%Q)); ("HR"%string, (Some 18%Q)); ("LAT"%string, (Some 0%Q)); ("LON"%string, (Some 0%Q)); ("SST"%string, (Some 5%Q)); ("DPT"%string, (Some (76 # 5)%Q)); ("AT"%string, (Some (76 # 5)%Q))]); (new_report (Some "AAAAAAAAA"%string) None [("YR"%string, (Some 2003%Q)); ("MO"%string, (Some 12%Q)); ("DY"%string, (Some 2%Q)); ("HR"%string, (Some 19%Q)); ("LAT"%string, (Some 0%Q)); ("LON"%string, (Some 0%Q)); ("SST"%string, (Some 5%Q)); ("DPT"%string, (Some (76 # 5)%Q)); ("AT"%string, (Some (76 # 5)%Q))]); (new_report (Some "AAAAAAAAA"%string) None [("YR"%string, (Some 2003%Q)); ("MO"%string, (Some 12%Q)); ("DY"%string, (Some 2%Q)); ("HR"%string, (Some 20%Q)); ("LAT"%string, (Some 0%Q)); ("LON"%string, (Some 0%Q)); ("SST"%string, (Some 5%Q)); ("DPT"%string, (Some (76 # 5)%Q)); ("AT"%string, (Some (76 # 5)%Q))]); (new_report (Some "AAAAAAAAA"%string) None [("YR"%string, (Some 2003%Q)); ("MO"%string, (Some 12%Q)); ("DY"%string, (Some 2%Q)); ("HR"%string, (Some 21%Q)); ("LAT"%string, (Some 0%Q)); ("LON"%string, (Some 0%Q)); ("SST"%string, (Some 5%Q)); ("DPT"%string, (Some (76 # 5)%Q)); ("AT"%string, (Some (76 # 5)%Q))]); (new_report (Some "AAAAAAAAA"%string) None [("YR"%string, (Some 2003%Q)); ("MO"%string, (Some 12%Q)); ("DY"%string, (Some 2%Q)); ("HR"%string, (Some 22%Q)); ("LAT"%string, (Some 0%Q)); ("LON"%string, (Some 0%Q)); ("SST"%string, (Some 5%Q)); ("DPT"%string, (Some (76 # 5)%Q)); ("AT"%string, (Some (76 # 5)%Q))]); (new_report (Some "AAAAAAAAA"%string) None [("YR"%string, (Some 2003%Q)); ("MO"%string, (Some 12%Q)); ("DY"%string, (Some 2%Q)); ("HR"%string, (Some 23%Q)); ("LAT"%string, (Some 0%Q)); ("LON"%string, (Some 0%Q)); ("SST"%string, (Some 5%Q)); ("DPT"%string, (Some (76 # 5)%Q)); ("AT"%string, (Some (76 # 5)%Q))]); (new_report (Some "AAAAAAAAA"%string) None [("YR"%string, (Some 2003%Q)); ("MO"%string, (Some 12%Q)); ("DY"%string, (Some 3%Q)); ("HR"%string, (Some 0%Q)); ("LAT"%string, (Some 0%Q)); ("LON"%string, (Some 0%Q)); ("SST"%string, (Some 5%Q)); ("DPT"%string, (Some (76 # 5)%Q)); ("AT"%string, (Some (76 # 5)%Q))]); (new_report (Some "AAAAAAAAA"%string) None [("YR"%string, (Some 2003%Q)); ("MO"%string, (Some 12%Q)); ("DY"%string, (Some 3%Q)); ("HR"%string, (Some 1%Q)); ("LAT"%string, (Some 0%Q)); ("LON"%string, (Some 0%Q)); ("SST"%string, (Some 5%Q)); ("DPT"%string, (Some (76 # 5)%Q)); ("AT"%string, (Some (76 # 5)%Q))])]) (find_saturated_runs earth 48 20)) in
  let x2 := (on (voyage_of [] [(new_report (Some "AAAAAAAAA"%string) None [("YR"%string, (Some 2003%Q)); ("MO"%string, (Some 12%Q)); ("DY"%string, (Some 1%Q)); ("HR"%string, (Some 0%Q)); ("LAT"%string, (Some 0%Q)); ("LON"%string, (Some 0%Q)); ("SST"%string, (Some 5%Q)); ("DPT"%string, (Some 13%Q)); ("AT"%string, (Some (76 # 5)%Q))]); (new_report (Some "AAAAAAAAA"%string) None [("YR"%string, (Some 2003%Q)); ("MO"%string, (Some 12%Q)); ("DY"%string, (Some 1%Q)); ("HR"%string, (Some (1 # 5)%Q)); ("LAT"%string, (Some 0%Q)); ("LON"%string, (Some 0%Q)); ("SST"%string, (Some 5%Q)); ("DPT"%string, (Some (76 # 5)%Q)); ("AT"%string, (Some (76 # 5)%Q))]); (new_report (Some "AAAAAAAAA"%string) None [("YR"%string, (Some 2003%Q)); ("MO"%string, (Some 12%Q)); ("DY"%string, (Some 1%Q)); ("HR"%string, (Some (2 # 5)%Q)); ("LAT"%string, (Some 0%Q)); ("LON"%string, (Some 0%Q)); ("SST"%string, (Some 5%Q)); ("DPT"%string, (Some (76 # 5)%Q)); ("AT"%string, (Some (76 # 5)%Q))]); (new_report (Some "AAAAAAAAA"%string) None [("YR"%string, (Some 2003%Q)); ("MO"%string, (Some 12%Q)); ("DY"%string, (Some 1%Q)); ("HR"%string, (Some (3 # 5)%Q)); ("LAT"%string, (Some 0%Q)); ("LON"%string, (Some 0%Q)); ("SST"%string, (Some 5%Q)); ("DPT"%string, (Some (76 # 5)%Q)); ("AT"%string, (Some (76 # 5)%Q))]); (new_report (Some "AAAAAAAAA"%string) None [("YR"%string, (Some 2003%Q)); ("MO"%string, (Some 12%Q)); ("DY"%string, (Some 1%Q)); ("HR"%string, (Some (4 # 5)%Q)); ("LAT"%string, (Some 0%Q)); ("LON"%string, (Some 0%Q)); ("SST"%string, (Some 5%Q)); ("DPT"%string, (Some (76 # 5)%Q)); ("AT"%string, (Some (76 # 5)%Q))]); (new_report (Some "AAAAAAAAA"%string) None [("YR"%string, (Some 2003%Q)); ("MO"%string, (Some 12%Q)); ("DY"%string, (Some 1%Q)); ("HR"%string, (Some 1%Q)); ("LAT"%string, (Some 0%Q)); ("LON"%string, (Some 0%Q)); ("SST"%string, (Some 5%Q)); ("DPT"%string, (Some (76 # 5)%Q)); ("AT"%string, (Some (76 # 5)%Q))]); (new_report (Some "AAAAAAAAA"%string) None [("YR"%string, (Some 2003%Q)); ("MO"%string, (Some 12%Q)); ("DY"%string, (Some 1%Q)); ("HR"%string, (Some (6 # 5)%Q)); ("LAT"%string, (Some 0%Q)); ("LON"%string, (Some 0%Q)); ("SST"%string, (Some 5%Q)); ("DPT"%string, (Some (76 # 5)%Q)); ("AT"%string, (Some (76 # 5)%Q))]); (new_report (Some "AAAAAAAAA"%string) None [("YR"%string, (Some 2003%Q)); ("MO"%string, (Some 12%Q)); ("DY"%string, (Some 1%Q)); ("HR"%string, (Some (7 # 5)%Q)); ("LAT"%string, (Some 0%Q)); ("LON"%string, (Some 0%Q)); ("SST"%string, (Some 5%Q)); ("DPT"%string, (Some (76 # 5)%Q)); ("AT"%string, (Some (76 # 5)%Q))]); (new_report (Some "AAAAAAAAA"%string) None [("YR"%string, (Some 2003%Q)); ("MO"%string, (Some 12%Q)); ("DY"%string, (Some 1%Q)); ("HR"%string, (Some (8 # 5)%Q)); ("LAT"%string, (Some 0%Q)); ("LON"%string, (Some 0%Q)); ("SST"%string, (Some 5%Q)); ("DPT"%string, (Some (76 # 5)%Q)); ("AT"%string, (Some (76 # 5)%Q))]); (new_report (Some "AAAAAAAAA"%string) None [("YR"%string, (Some 2003%Q)); ("MO"%string, (Some 12%Q)); ("DY"%string, (Some 1%Q)); ("HR"%string, (Some (9 # 5)%Q)); ("LAT"%string, (Some 0%Q)); ("LON"%string, (Some 0%Q)); ("SST"%string, (Some 5%Q)); ("DPT"%string, (Some (76 # 5)%Q)); ("AT"%string, (Some (76 # 5)%Q))]); (new_report (Some "AAAAAAAAA"%string) None [("YR"%string, (Some 2003%Q)); ("MO"%string, (Some 12%Q)); ("DY"%string, (Some 1%Q)); ("HR"%string, (Some 2%Q)); ("LAT"%string, (Some 0%Q)); ("LON"%string, (Some 0%Q)); ("SST"%string, (Some 5%Q)); ("DPT"%string, (Some (76 # 5)%Q)); ("AT"%string, (Some (76 # 5)%Q))]); (new_report (Some "AAAAAAAAA"%string) None [("YR"%string, (Some 2003%Q)); ("MO"%string, (Some 12%Q)); ("DY"%string, (Some 1%Q)); ("HR"%string, (Some (11 # 5)%Q)); ("LAT"%string, (Some 0%Q)); ("LON"%string, (Some 0%Q)); ("SST"%string, (Some 5%Q)); ("DPT"%string, (Some (76 # 5)%Q)); ("AT"%string, (Some (76 # 5)%Q))]); (new_report (Some "AAAAAAAAA"%string) None [("YR"%string, (Some 2003%Q)); ("MO"%string, (Some 12%Q)); ("DY"%string, (Some 1%Q)); ("HR"%string, (Some (12 # 5)%Q)); ("LAT"%string, (Some 0%Q)); ("LON"%string, (Some 0%Q)); ("SST"%string, (Some 5%Q)); ("DPT"%string, (Some (76 # 5)%Q)); ("AT"%string, (Some (76 # 5)%Q))]); (new_report (Some "AAAAAAAAA"%string) None [("YR"%string, (Some 2003%Q)); ("MO"%string, (Some 12%Q)); ("DY"%string, (Some 1%Q)); ("HR"%string, (Some (13 # 5)%Q)); ("LAT"%string, (Some 0%Q)); ("LON"%string, (Some 0%Q)); ("SST"%string, (Some 5%Q)); ("DPT"%string, (Some (76 # 5)%Q)); ("AT"%string, (Some (76 # 5)%Q))]); (new_report (Some "AAAAAAAAA"%string) None [("YR"%string, (Some 2003%Q)); ("MO"%string, (Some 12%Q)); ("DY"%string, (Some 1%Q)); ("HR"%string, (Some (14 # 5)%Q)); ("LAT"%string, (Some 0%Q)); ("LON"%string, (Some 0%Q)); ("SST"%string, (Some 5%Q)); ("DPT"%string, (Some (76 # 5)%Q)); ("AT"%string, (Some (76 # 5)%Q))]); (new_report (Some "AAAAAAAAA"%string) None [("YR"%string, (Some 2003%Q)); ("MO"%string, (Some 12%Q)); ("DY"%string, (Some 1%Q)); ("HR"%string, (Some 3%Q)); ("LAT"%string, (Some 0%Q)); ("LON"%string, (Some 0%Q)); ("SST"%string, (Some 5%Q)); ("DPT"%string, (Some (76 # 5)%Q)); ("AT"%string, (Some (76 # 5)%Q))]); (new_report (Some "AAAAAAAAA"%string) None [("YR"%string, (Some 2003%Q)); ("MO"%string, (Some 12%Q)); ("DY"%string, (Some 1%Q)); ("HR"%string, (Some (16 # 5)%Q)); ("LAT"%string, (Some 0%Q)); ("LON"%string, (Some 0%Q)); ("SST"%string, (Some 5%Q)); ("DPT"%string, (Some (76 # 5)%Q)); ("AT"%string, (Some (76 # 5)%Q))]); (new_report (Some "AAAAAAAAA"%string) None [("YR"%string, (Some 2003%Q)); ("MO"%string, (Some 12%Q)); ("DY"%string, (Some 1%Q)); ("HR"%string, (Some (17 # 5)%Q)); ("LAT"%string, (Some 0%Q)); ("LON"%string, (Some 0%Q)); ("SST"%string, (Some 5%Q)); ("DPT"%string, (Some (76 # 5)%Q)); ("AT"%string, (Some (76 # 5)%Q))]); (new_report (Some "AAAAAAAAA"%string) None [("YR"%string, (Some 2003%Q)); ("MO"%string, (Some 12%Q)); ("DY"%string, (Some 1%Q)); ("HR"%string, (Some (18 # 5)%Q)); ("LAT"%string, (Some 0%Q)); ("LON"%string, (Some 0%Q)); ("SST"%string, (Some 5%Q)); ("DPT"%string, (Some (76 # 5)%Q)); ("AT"%string, (Some (76 # 5)%Q))]); (new_report (Some "AAAAAAAAA"%string) None [("YR"%string, (Some 2003%Q)); ("MO"%string, (Some 12%Q)); ("DY"%string, (Some 1%Q)); ("HR"%string, (Some (19 # 5)%Q)); ("LAT"%string, (Some 0%Q)); ("LON"%string, (Some 0%Q)); ("SST"%string, (Some 5%Q)); ("DPT"%string, (Some 13%Q)); ("AT"%string, (Some (76 # 5)%Q))]); (new_report (Some "AAAAAAAAA"%string) None [("YR"%string, (Some 2003%Q)); ("MO"%string, (Some 12%Q)); ("DY"%string, (Some 1%Q)); ("HR"%string, (Some 4%Q)); ("LAT"%string, (Some 0%Q)); ("LON"%string, (Some 0%Q)); ("SST"%string, (Some 5%Q)); ("DPT"%string, (Some (76 # 5)%Q)); ("AT"%string, (Some (76 # 5)%Q))]); (new_report (Some "AAAAAAAAA"%string) None [("YR"%string, (Some 2003%Q)); ("MO"%string, (Some 12%Q)); ("DY"%string, (Some 1%Q)); ("HR"%string, (Some (21 # 5)%Q)); ("LAT"%string, (Some 0%Q)); ("LON"%string, (Some 0%Q)); ("SST"%string, (Some 5%Q)); ("DPT"%string, (Some (76 # 5)%Q)); ("AT"%string, (Some (76 # 5)%Q))]); (new_report (Some "AAAAAAAAA"%string) None [("YR"%string, (Some 2003%Q)); ("MO"%string, (Some 12%Q)); ("DY"%string, (Some 1%Q)); ("HR"%string, (Some (22 # 5)%Q)); ("LAT"%string, (Some 0%Q)); ("LON"%string, (Some 0%Q)); ("SST"%string, (Some 5%Q)); ("DPT"%string, (Some (76 # 5)%Q)); ("AT"%string, (Some (76 # 5)%Q))]); (new_report (Some "AAAAAAAAA"%string) None [("YR"%string, (Some 2003%Q)); ("MO"%string, (Some 12%Q)); ("DY"%string, (Some 1%Q)); ("HR"%string, (Some (23 # 5)%Q)); ("LAT"%string, (Some 0%Q)); ("LON"%string, (Some 0%Q)); ("SST"%string, (Some 5%Q)); ("DPT"%string, (Some (76 # 5)%Q)); ("AT"%string, (Some (76 # 5)%Q))]); (new_report (Some "AAAAAAAAA"%string) None [("YR"%string, (Some 2003%Q)); ("MO"%string, (Some 12%Q)); ("DY"%string, (Some 2%Q)); ("HR"%string, (Some (24 # 5)%Q)); ("LAT"%string, (Some 0%Q)); ("LON"%string, (Some 0%Q)); ("SST"%string, (Some 5%Q)); ("DPT"%string, (Some (76 # 5)%Q)); ("AT"%string, (Some (76 # 5)%Q))]); (new_report (Some "AAAAAAAAA"%string) None [("YR"%string, (Some 2003%Q)); ("MO"%string, (Some 12%Q)); ("DY"%string, (Some 2%Q)); ("HR"%string, (Some 5%Q)); ("LAT"%string, (Some 0%Q)); ("LON"%string, (Some 0%Q)); ("SST"%string, (Some 5%Q)); ("DPT"%string, (Some (76 # 5)%Q)); ("AT"%string, (Some (76 # 5)%Q))]); (new_report (Some "AAAAAAAAA"%string) None [("YR"%string, (Some 2003%Q)); ("MO"%string, (Some 12%Q)); ("DY"%string, (Some 2%Q)); ("HR"%string, (Some (26 # 5)%Q)); ("LAT"%string, (Some 0%Q)); ("LON"%string, (Some 0%Q)); ("SST"%string, (Some 5%Q)); ("DPT"%string, (Some (76 # 5)%Q)); ("AT"%string, (Some (76 # 5)%Q))]); (new_report (Some "AAAAAAAAA"%string) None [("YR"%string, (Some 2003%Q)); ("MO"%string, (Some 12%Q)); ("DY"%string, (Some 2%Q)); ("HR"%string, (Some (27 # 5)%Q)); ("LAT"%string, (Some 0%Q)); ("LON"%string, (Some 0%Q)); ("SST"%string, (Some 5%Q)); ("DPT"%string, (Some (76 # 5)%Q)); ("AT"%string, (Some (76 # 5)%Q))]); (new_report (Some "AAAAAAAAA"%string) None [("YR"%string, (Some 2003%Q)); ("MO"%string, (Some 12%Q)); ("DY"%string, (Some 2%Q)); ("HR"%string, (Some (28 # 5)%Q)); ("LAT"%string, (Some 0%Q)); ("LON"%string, (Some 0%Q)); ("SST"%string, (Some 5%Q)); ("DPT"%string, (Some (76 # 5)%Q)); ("AT"%string, (Some (76 # 5)%Q))]); (new_report (Some "AAAAAAAAA"%string) None [("YR"%string, (Some 2003%Q)); ("MO"%string, (Some 12%Q)); ("DY"%string, (Some 2%Q)); ("HR"%string, (Some (29 # 5)%Q)); ("LAT"%string, (Some 0%Q)); ("LON"%string, (Some 0%Q)); ("SST"%string, (Some 5%Q)); ("DPT"%string, (Some (76 # 5)%Q)); ("AT"%string, (Some (76 # 5)%Q))]); (new_report (Some "AAAAAAAAA"%string) None [("YR"%string, (Some 2003%Q)); ("MO"%string, (Some 12%Q)); ("DY"%string, (Some 2%Q)); ("HR"%string, (Some 6%Q)); ("LAT"%string, (Some 0%Q)); ("LON"%string, (Some 0%Q)); ("SST"%string, (Some 5%Q)); ("DPT"%string, (Some (76 # 5)%Q)); ("AT"%string, (Some (76 # 5)%Q))]); (new_report (Some "AAAAAAAAA"%string) None [("YR"%string, (Some 2003%Q)); ("MO"%string, (Some 12%Q)); ("DY"%string, (Some 2%Q)); ("HR"%string, (Some (31 # 5)%Q)); ("LAT"%string, (Some 0%Q)); ("LON"%string, (Some 0%Q)); ("SST"%string, (Some 5%Q)); ("DPT"%string, (Some (76 # 5)%Q)); ("AT"%string, (Some (76 # 5)%Q))]); (new_report (Some "AAAAAAAAA"%string) None [("YR"%string, (Some 2003%Q)); ("MO"%string, (Some 12%Q)); ("DY"%string, (Some 2%Q)); ("HR"%string, (Some (32 # 5)%Q)); ("LAT"%string, (Some 0%Q)); ("LON"%string, (Some 0%Q)); ("SST"%string, (Some 5%Q)); ("DPT"%string, (Some (76 # 5)%Q)); ("AT"%string, (Some (76 # 5)%Q))]); (new_report (Some "AAAAAAAAA"%string) None [("YR"%string, (Some 2003%Q)); ("MO"%string, (Some 12%Q)); ("DY"%string, (Some 2%Q)); ("HR"%string, (Some (33 # 5)%Q)); ("LAT"%string, (Some 0%Q)); ("LON"%string, (Some 0%Q)); ("SST"%string, (Some 5%Q)); ("DPT"%string, (Some (76 # 5)%Q)); ("AT"%string, (Some (76 # 5)%Q))]); (new_report (Some "AAAAAAAAA"%string) None [("YR"%string, (Some 2003%Q)); ("MO"%string, (Some 12%Q)); ("DY"%string, (Some 2%Q)); ("HR"%string, (Some (34 # 5)%Q)); ("LAT"%string, (Some 0%Q)); ("LON"%string, (Some 0%Q)); ("SST"%string, (Some 5%Q)); ("DPT"%string, (Some (76 # 5)%Q)); ("AT"%string, (Some (76 # 5)%Q))]); (new_report (Some "AAAAAAAAA"%string) None [("YR"%string, (Some 2003%Q)); ("MO"%string, (Some 12%Q)); ("DY"%string, (Some 2%Q)); ("HR"%string, (Some 7%Q)); ("LAT"%string, (Some 0%Q)); ("LON"%string, (Some 0%Q)); ("SST"%string, (Some 5%Q)); ("DPT"%string, (Some (76 # 5)%Q)); ("AT"%string, (Some (76 # 5)%Q))]); (new_report (Some "AAAAAAAAA"%string) None [("YR"%string, (Some 2003%Q)); ("MO"%string, (Some 12%Q)); ("DY"%string, (Some 2%Q)); ("HR"%string, (Some (36 # 5)%Q)); ("LAT"%string, (Some 0%Q)); ("LON"%string, (Some 0%Q)); ("SST"%string, (Some 5%Q)); ("DPT"%string, (Some (76 # 5)%Q)); ("AT"%string, (Some (76 # 5)%Q))]); (new_report (Some "AAAAAAAAA"%string) None [("YR"%string, (Some 2003%Q)); ("MO"%string, (Some 12%Q)); ("DY"%string, (Some 2%Q)); ("HR"%string, (Some (37 # 5)%Q)); ("LAT"%string, (Some 0%Q)); ("LON"%string, (Some 0%Q)); ("SST"%string, (Some 5%Q)); ("DPT"%string, (Some (76 # 5)%Q)); ("AT"%string, (Some (76 # 5)%Q))]); (new_report (Some "AAAAAAAAA"%string) None [("YR"%string, (Some 2003%Q)); ("MO"%string, (Some 12%Q)); ("DY"%string, (Some 2%Q)); ("HR"%string, (Some (38 # 5)%Q)); ("LAT"%string, (Some 0%Q)); ("LON"%string, (Some 0%Q)); ("SST"%string, (Some 5%Q)); ("DPT"%string, (Some 13%Q)); ("AT"%string, (Some (76 # 5)%Q))]); (new_report (Some "AAAAAAAAA"%string) None [("YR"%string, (Some 2003%Q)); ("MO"%string, (Some 12%Q)); ("DY"%string, (Some 2%Q)); ("HR"%string, (Some (39 # 5)%Q)); ("LAT"%string, (Some 0%Q)); ("LON"%string, (Some 0%Q)); ("SST"%string, (Some 5%Q)); ("DPT"%string, (Some (76 # 5)%Q)); ("AT"%string, (Some (76 # 5)%Q))]); (new_report (Some "AAAAAAAAA"%string) None [("YR"%string, (Some 2003%Q)); ("MO"%string, (Some 12%Q)); ("DY"%string, (Some 2%Q)); ("HR"%string, (Some 8%Q)); ("LAT"%string, (Some 0%Q)); ("LON"%string, (Some 0%Q)); ("SST"%string, (Some 5%Q)); ("DPT"%string, (Some (76 # 5)%Q)); ("AT"%string, (Some (76 # 5)%Q))]); (new_report (Some "AAAAAAAAA"%string) None [("YR"%string, (Some 2003%Q)); ("MO"%string, (Some 12%Q)); ("DY"%string, (Some 2%Q)); ("HR"%string, (Some (41 # 5)%Q)); ("LAT"%string, (Some 0%Q)); ("LON"%string, (Some 0%Q)); ("SST"%string, (Some 5%Q)); ("DPT"%string, (Some (76 # 5)%Q)); ("AT"%string, (Some (76 # 5)%Q))]); (new_report (Some "AAAAAAAAA"%string) None [("YR"%string, (Some 2003%Q)); ("MO"%string, (Some 12%Q)); ("DY"%string, (Some 2%Q)); ("HR"%string, (Some (42 # 5)%Q)); ("LAT"%string, (Some 0%Q)); ("LON"%string, (Some 0%Q)); ("SST"%string, (Some 5%Q)); ("DPT"%string, (Some (76 # 5)%Q)); ("AT"%string, (Some (76 # 5)%Q))]); (new_report (Some "AAAAAAAAA"%string) None [("YR"%string, (Some 2003%Q)); ("MO"%string, (Some 12%Q)); ("DY"%string, (Some 2%Q)); ("HR"%string, (Some (43 # 5)%Q)); ("LAT"%string, (Some 0%Q)); ("LON"%string, (Some 0%Q)); ("SST"%string, (Some 5%Q)); ("DPT"%string, (Some (76 # 5)%Q)); ("AT"%string, (Some (76 # 5)%Q))]); (new_report (Some "AAAAAAAAA"%string) None [("YR"%string, (Some 2003%Q)); ("MO"%string, (Some 12%Q)); ("DY"%string, (Some 2%Q)); ("HR"%string, (Some (44 # 5)%Q)); ("LAT"%string, (Some 0%Q)); ("LON"%string, (Some 0%Q)); ("SST"%string, (Some 5%Q)); ("DPT"%string, (Some (76 # 5)%Q)); ("AT"%string, (Some (76 # 5)%Q))]); (new_report (Some "AAAAAAAAA"%string) None [("YR"%string, (Some 2003%Q)); ("MO"%string, (Some 12%Q)); ("DY"%string, (Some 2%Q)); ("HR"%string, (Some 9%Q)); ("LAT"%string, (Some 0%Q)); ("LON"%string, (Some 0%Q)); ("SST"%string, (Some 5%Q)); ("DPT"%string, (Some (76 # 5)%Q)); ("AT"%string, (Some (76 # 5)%Q))]); (new_report (Some "AAAAAAAAA"%string) None [("YR"%string, (Some 2003%Q)); ("MO"%string, (Some 12%Q)); ("DY"%string, (Some 2%Q)); ("HR"%string, (Some (46 # 5)%Q)); ("LAT"%string, (Some 0%Q)); ("LON"%string, (Some 0%Q)); ("SST"%string, (Some 5%Q)); ("DPT"%string, (Some (76 # 5)%Q)); ("AT"%string, (Some (76 # 5)%Q))]); (new_report (Some "AAAAAAAAA"%string) None [("YR"%string, (Some 2003%Q)); ("MO"%string, (Some 12%Q)); ("DY"%string, (Some 2%Q)); ("HR"%string, (Some (47 # 5)%Q)); ("LAT"%string, (Some 0%Q)); ("LON"%string, (Some 0%Q)); ("SST"%string, (Some 5%Q)); ("DPT"%string, (Some (76 # 5)%Q)); ("AT"%string, (Some (76 # 5)%Q))]); (new_report (Some "AAAAAAAAA"%string) None [("YR"%string, (Some 2003%Q)); ("MO"%string, (Some 12%Q)); ("DY"%string, (Some 3%Q)); ("HR"%string, (Some (48 # 5)%Q)); ("LAT"%string, (Some 0%Q)); ("LON"%string, (Some 0%Q)); ("SST"%string, (Some 5%Q)); ("DPT"%string, (Some (76 # 5)%Q)); ("AT"%string, (Some (76 # 5)%Q))]); (new_report (Some "AAAAAAAAA"%string) None [("YR"%string, (Some 2003%Q)); ("MO"%string, (Some 12%Q)); ("DY"%string, (Some 3%Q)); ("HR"%string, (Some (49 # 5)%Q)); ("LAT"%string, (Some 0%Q)); ("LON"%string, (Some 0%Q)); ("SST"%string, (Some 5%Q)); ("DPT"%string, (Some (76 # 5)%Q)); ("AT"%string, (Some (76 # 5)%Q))])]) (find_saturated_runs earth 48 20)) in
  let x3 := (on (voyage_of [] [(new_report (Some "AAAAAAAAA"%string) None [("YR"%string, (Some 2003%Q)); ("MO"%string, (Some 12%Q)); ("DY"%string, (Some 1%Q)); ("HR"%string, (Some 0%Q)); ("LAT"%string, (Some 0%Q)); ("LON"%string, (Some 0%Q)); ("SST"%string, (Some 5%Q)); ("DPT"%string, (Some (76 # 5)%Q)); ("AT"%string, (Some (76 # 5)%Q))]); (new_report (Some "AAAAAAAAA"%string) None [("YR"%string, (Some 2003%Q)); ("MO"%string, (Some 12%Q)); ("DY"%string, (Some 1%Q)); ("HR"%string, (Some 1%Q)); ("LAT"%string, (Some 0%Q)); ("LON"%string, (Some 0%Q)); ("SST"%string, (Some 5%Q)); ("DPT"%string, (Some (76 # 5)%Q)); ("AT"%string, (Some (76 # 5)%Q))]); (new_report (Some "AAAAAAAAA"%string) None [("YR"%string, (Some 2003%Q)); ("MO"%string, (Some 12%Q)); ("DY"%string, (Some 1%Q)); ("HR"%string, (Some 2%Q)); ("LAT"%string, (Some 0%Q)); ("LON"%string, (Some 0%Q)); ("SST"%string, (Some 5%Q)); ("DPT"%string, (Some (76 # 5)%Q)); ("AT"%string, (Some (76 # 5)%Q))]); (new_report (Some "AAAAAAAAA"%string) None [("YR"%string, (Some 2003%Q)); ("MO"%string, (Some 12%Q)); ("DY"%string, (Some 1%Q)); ("HR"%string, (Some 3%Q)); ("LAT"%string, (Some 0%Q)); ("LON"%string, (Some 0%Q)); ("SST"%string, (Some 5%Q)); ("DPT"%string, (Some (76 # 5)%Q)); ("AT"%string, (Some (76 # 5)%Q))]); (new_report (Some "AAAAAAAAA"%string) None [("YR"%string, (Some 2003%Q)); ("MO"%string, (Some 12%Q)); ("DY"%string, (Some 1%Q)); ("HR"%string, (Some 4%Q)); ("LAT"%string, (Some 0%Q)); ("LON"%string, (Some 0%Q)); ("SST"%string, (Some 5%Q)); ("DPT"%string, (Some (76 # 5)%Q)); ("AT"%string, (Some (76 # 5)%Q))]); (new_report (Some "AAAAAAAAA"%string) None [("YR"%string, (Some 2003%Q)); ("MO"%string, (Some 12%Q)); ("DY"%string, (Some 1%Q)); ("HR"%string, (Some 5%Q)); ("LAT"%string, (Some 0%Q)); ("LON"%string, (Some 0%Q)); ("SST"%string, (Some 5%Q)); ("DPT"%string, (Some (76 # 5)%Q)); ("AT"%string, (Some (76 # 5)%Q))]); (new_report (Some "AAAAAAAAA"%string) None [("YR"%string, (Some 2003%Q)); ("MO"%string, (Some 12%Q)); ("DY"%string, (Some 1%Q)); ("HR"%string, (Some 6%Q)); ("LAT"%string, (Some 0%Q)); ("LON"%string, (Some 0%Q)); ("SST"%string, (Some 5%Q)); ("DPT"%string, (Some (76 # 5)%Q)); ("AT"%string, (Some (76 # 5)%Q))]); (new_report (Some "AAAAAAAAA"%string) None [("YR"%string, (Some 2003%Q)); ("MO"%string, (Some 12%Q)); ("DY"%string, (Some 1%Q)); ("HR"%string, (Some 7%Q)); ("LAT"%string, (Some 0%Q)); ("LON"%string, (Some 0%Q)); ("SST"%string, (Some 5%Q)); ("DPT"%string, (Some (76 # 5)%Q)); ("AT"%string, (Some (76 # 5)%Q))]); (new_report (Some "AAAAAAAAA"%string) None [("YR"%string, (Some 2003%Q)); ("MO"%string, (Some 12%Q)); ("DY"%string, (Some 1%Q)); ("HR"%string, (Some 8%Q)); ("LAT"%string, (Some 0%Q)); ("LON"%string, (Some 0%Q)); ("SST"%string, (Some 5%Q)); ("DPT"%string, (Some (76 # 5)%Q)); ("AT"%string, (Some (76 # 5)%Q))]); (new_report (Some "AAAAAAAAA"%string) None [("YR"%string, (Some 2003%Q)); ("MO"%string, (Some 12%Q)); ("DY"%string, (Some 1%Q)); ("HR"%string, (Some 9%Q)); ("LAT"%string, (Some 0%Q)); ("LON"%string, (Some 0%Q)); ("SST"%string, (Some 5%Q)); ("DPT"%string, (Some (76 # 5)%Q)); ("AT"%string, (Some (76 # 5)%Q))]); (new_report (Some "AAAAAAAAA"%string) None [("YR"%string, (Some 2003%Q)); ("MO"%string, (Some 12%Q)); ("DY"%string, (Some 1%Q)); ("HR"%string, (Some 10%Q)); ("LAT"%string, (Some 0%Q)); ("LON"%string, (Some 0%Q)); ("SST"%string, (Some 5%Q)); ("DPT"%string, (Some (76 # 5)%Q)); ("AT"%string, (Some (76 # 5)%Q))]); (new_report (Some "AAAAAAAAA"%string) None [("YR"%string, (Some 2003%Q)); ("MO"%string, (Some 12%Q)); ("DY"%string, (Some 1%Q)); ("HR"%string, (Some 11%Q)); ("LAT"%string, (Some 0%Q)); ("LON"%string, (Some 0%Q)); ("SST"%string, (Some 5%Q)); ("DPT"%string, (Some (76 # 5)%Q)); ("AT"%string, (Some (76 # 5)%Q))]); (new_report (Some "AAAAAAAAA"%string) None [("YR"%string, (Some 2003%Q)); ("MO"%string, (Some 12%Q)); ("DY"%string, (Some 1%Q)); ("HR"%string, (Some 12%Q)); ("LAT"%string, (Some 0%Q)); ("LON"%string, (Some 0%Q)); ("SST"%string, (Some 5%Q)); ("DPT"%string, (Some (76 # 5)%Q)); ("AT"%string, (Some (76 # 5)%Q))]); (new_report (Some "AAAAAAAAA"%string) None [("YR"%string, (Some 2003%Q)); ("MO"%string, (Some 12%Q)); ("DY"%string, (Some 1%Q)); ("HR"%string, (Some 13%Q)); ("LAT"%string, (Some 0%Q)); ("LON"%string, (Some 0%Q)); ("SST"%string, (Some 5%Q)); ("DPT"%string, (Some (76 # 5)%Q)); ("AT"%string, (Some (76 # 5)%Q))]); (new_report (Some "AAAAAAAAA"%string) None [("YR"%string, (Some 2003%Q)); ("MO"%string, (Some 12%Q)); ("DY"%string, (Some 1%Q)); ("HR"%string, (Some 14%Q)); ("LAT"%string, (Some 0%Q)); ("LON"%string, (Some 0%Q)); ("SST"%string, (Some 5%Q)); ("DPT"%string, (Some (76 # 5)%Q)); ("AT"%string, (Some (76 # 5)%Q))]); (new_report (Some "AAAAAAAAA"%string) None [("YR"%string, (Some 2003%Q)); ("MO"%string, (Some 12%Q)); ("DY"%string, (Some 1%Q)); ("HR"%string, (Some 15%Q)); ("LAT"%string, (Some 0%Q)); ("LON"%string, (Some 0%Q)); ("SST"%string, (Some 5%Q)); ("DPT"%string, (Some (76 # 5)%Q)); ("AT"%string, (Some (76 # 5)%Q))]); (new_report (Some "AAAAAAAAA"%string) None [("YR"%string, (Some 2003%Q)); ("MO"%string, (Some 12%Q)); ("DY"%string, (Some 1%Q)); ("HR"%string, (Some 16%Q)); ("LAT"%string, (Some 0%Q)); ("LON"%string, (Some 0%Q)); ("SST"%string, (Some 5%Q)); ("DPT"%string, (Some (76 # 5)%Q)); ("AT"%string, (Some (76 # 5)%Q))]); (new_report (Some "AAAAAAAAA"%string) None [("YR"%string, (Some 2003%Q)); ("MO"%string, (Some 12%Q)); ("DY"%string, (Some 1%Q)); ("HR"%string, (Some 17%Q)); ("LAT"%string, (Some 0%Q)); ("LON"%string, (Some 0%Q)); ("SST"%string, (Some 5%Q)); ("DPT"%string, (Some (76 # 5)%Q)); ("AT"%string, (Some (76 # 5)%Q))]); (new_report (Some "AAAAAAAAA"%string) None [("YR"%string, (Some 2003%Q)); ("MO"%string, (Some 12%Q)); ("DY"%string, (Some 1%Q)); ("HR"%string, (Some 18%Q)); ("LAT"%string, (Some 0%Q)); ("LON"%string, (Some 0%Q)); ("SST"%string, (Some 5%Q)); ("DPT"%string, (Some (76 # 5)%Q)); ("AT"%string, (Some (76 # 5)%Q))]); (new_report (Some "AAAAAAAAA"%string) None [("YR"%string, (Some 2003%Q)); ("MO"%string, (Some 12%Q)); ("DY"%string, (Some 1%Q)); ("HR"%string, (Some 19%Q)); ("LAT"%string, (Some 0%Q)); ("LON"%string, (Some 0%Q)); ("SST"%string, (Some 5%Q)); ("DPT"%string, (Some (76 # 5)%Q)); ("AT"%string, (Some (76 # 5)%Q))]); (new_report (Some "AAAAAAAAA"%string) None [("YR"%string, (Some 2003%Q)); ("MO"%string, (Some 12%Q)); ("DY"%string, (Some 1%Q)); ("HR"%string, (Some 20%Q)); ("LAT"%string, (Some 0%Q)); ("LON"%string, (Some 0%Q)); ("SST"%string, (Some 5%Q)); ("DPT"%string, (Some (76 # 5)%Q)); ("AT"%string, (Some (76 # 5)%Q))]); (new_report (Some "AAAAAAAAA"%string) None [("YR"%string, (Some 2003%Q)); ("MO"%string, (Some 12%Q)); ("DY"%string, (Some 1%Q)); ("HR"%string, (Some 21%Q)); ("LAT"%string, (Some 0%Q)); ("LON"%string, (Some 0%Q)); ("SST"%string, (Some 5%Q)); ("DPT"%string, (Some (76 # 5)%Q)); ("AT"%string, (Some (76 # 5)%Q))]); (new_report (Some "AAAAAAAAA"%string) None [("YR"%string, (Some 2003%Q)); ("MO"%string, (Some 12%Q)); ("DY"%string, (Some 1%Q)); ("HR"%string, (Some 22%Q)); ("LAT"%string, (Some 0%Q)); ("LON"%string, (Some 0%Q)); ("SST"%string, (Some 5%Q)); ("DPT"%string, (Some (76 # 5)%Q)); ("AT"%string, (Some (76 # 5)%Q))]); (new_report (Some "AAAAAAAAA"%string) None [("YR"%string, (Some 2003%Q)); ("MO"%string, (Some 12%Q)); ("DY"%string, (Some 1%Q)); ("HR"%string, (Some 23%Q)); ("LAT"%string, (Some 0%Q)); ("LON"%string, (Some 0%Q)); ("SST"%string, (Some 5%Q)); ("DPT"%string, (Some (76 # 5)%Q)); ("AT"%string, (Some (76 # 5)%Q))]); (new_report (Some "AAAAAAAAA"%string) None [("YR"%string, (Some 2003%Q)); ("MO"%string, (Some 12%Q)); ("DY"%string, (Some 2%Q)); ("HR"%string, (Some 0%Q)); ("LAT"%string, (Some 0%Q)); ("LON"%string, (Some 0%Q)); ("SST"%string, (Some 5%Q)); ("DPT"%string, (Some (76 # 5)%Q)); ("AT"%string, (Some (76 # 5)%Q))]); (new_report (Some "AAAAAAAAA"%string) None [("YR"%string, (Some 2003%Q)); ("MO"%string, (Some 12%Q)); ("DY"%string, (Some 2%Q)); ("HR"%string, (Some 1%Q)); ("LAT"%string, (Some 0%Q)); ("LON"%string, (Some 0%Q)); ("SST"%string, (Some 5%Q)); ("DPT"%string, (Some (76 # 5)%Q)); ("AT"%string, (Some (76 # 5)%Q))]); (new_report (Some "AAAAAAAAA"%string) None [("YR"%string, (Some 2003%Q)); ("MO"%string, (Some 12%Q)); ("DY"%string, (Some 2%Q)); ("HR"%string, (Some 2%Q)); ("LAT"%string, (Some 0%Q)); ("LON"%string, (Some 0%Q)); ("SST"%string, (Some 5%Q)); ("DPT"%string, (Some (76 # 5)%Q)); ("AT"%string, (Some (76 # 5)%Q))]); (new_report (Some "AAAAAAAAA"%string) None [("YR"%string, (Some 2003%Q)); ("MO"%string, (Some 12%Q)); ("DY"%string, (Some 2%Q)); ("HR"%string, (Some 3%Q)); ("LAT"%string, (Some 0%Q)); ("LON"%string, (Some 0%Q)); ("SST"%string, (Some 5%Q)); ("DPT"%string, (Some (76 # 5)%Q)); ("AT"%string, (Some (76 # 5)%Q))]); (new_report (Some "AAAAAAAAA"%string) None [("YR"%string, (Some 2003%Q)); ("MO"%string, (Some 12%Q)); ("DY"%string, (Some 2%Q)); ("HR"%string, (Some 4%Q)); ("LAT"%string, (Some 0%Q)); ("LON"%string, (Some 0%Q)); ("SST"%string, (Some 5%Q)); ("DPT"%string, (Some (76 # 5)%Q)); ("AT"%string, (Some (76 # 5)%Q))]); (new_report (Some "AAAAAAAAA"%string) None [("YR"%string, (Some 2003%Q)); ("MO"%string, (Some 12%Q)); ("DY"%string, (Some 2%Q)); ("HR"%string, (Some 5%Q)); ("LAT"%string, (Some 0%Q)); ("LON"%string, (Some 0%Q)); ("SST"%string, (Some 5%Q)); ("DPT"%string, (Some (76 # 5)%Q)); ("AT"%string, (Some (76 # 5)%Q))]); (new_report (Some "AAAAAAAAA"%string) None [("YR"%string, (Some 2003%Q)); ("MO"%string, (Some 12%Q)); ("DY"%string, (Some 2%Q)); ("HR"%string, (Some 6%Q)); ("LAT"%string, (Some 0%Q)); ("LON"%string, (Some 0%Q)); ("SST"%string, (Some 5%Q)); ("DPT"%string, (Some (76 # 5)%Q)); ("AT"%string, (Some (76 # 5)%Q))]); (new_report (Some "AAAAAAAAA"%string) None [("YR"%string, (Some 2003%Q)); ("MO"%string, (Some 12%Q)); ("DY"%string, (Some 2%Q)); ("HR"%string, (Some 7%Q)); ("LAT"%string, (Some 0%Q)); ("LON"%string, (Some 0%Q)); ("SST"%string, (Some 5%Q)); ("DPT"%string, (Some (76 # 5)%Q)); ("AT"%string, (Some (76 # 5)%Q))]); (new_report (Some "AAAAAAAAA"%string) None [("YR"%string, (Some 2003%Q)); ("MO"%string, (Some 12%Q)); ("DY"%string, (Some 2%Q)); ("HR"%string, (Some 8%Q)); ("LAT"%string, (Some 0%Q)); ("LON"%string, (Some 0%Q)); ("SST"%string, (Some 5%Q)); ("DPT"%string, (Some (76 # 5)%Q)); ("AT"%string, (Some (76 # 5)%Q))]); (new_report (Some "AAAAAAAAA"%string) None [("YR"%string, (Some 2003%Q)); ("MO"%string, (Some 12%Q)); ("DY"%string, (Some 2%Q)); ("HR"%string, (Some 9%Q)); ("LAT"%string, (Some 0%Q)); ("LON"%string, (Some 0%Q)); ("SST"%string, (Some 5%Q)); ("DPT"%string, (Some (76 # 5)%Q)); ("AT"%string, (Some (76 # 5)%Q))]); (new_report (Some "AAAAAAAAA"%string) None [("YR"%string, (Some 2003%Q)); ("MO"%string, (Some 12%Q)); ("DY"%string, (Some 2%Q)); ("HR"%string, (Some 10%Q)); ("LAT"%string, (Some 0%Q)); ("LON"%string, (Some 0%Q)); ("SST"%string, (Some 5%Q)); ("DPT"%string, (Some (76 # 5)%Q)); ("AT"%string, (Some (76 # 5)%Q))]); (new_report (Some "AAAAAAAAA"%string) None [("YR"%string, (Some 2003%Q)); ("MO"%string, (Some 12%Q)); ("DY"%string, (Some 2%Q)); ("HR"%string, (Some 11%Q)); ("LAT"%string, (Some 0%Q)); ("LON"%string, (Some 0%Q)); ("SST"%string, (Some 5%Q)); ("DPT"%string, (Some (76 # 5)%Q)); ("AT"%string, (Some (76 # 5)%Q))]); (new_report (Some "AAAAAAAAA"%string) None [("YR"%string, (Some 2003%Q)); ("MO"%string, (Some 12%Q)); ("DY"%string, (Some 2%Q)); ("HR"%string, (Some 12%Q)); ("LAT"%string, (Some 0%Q)); ("LON"%string, (Some 0%Q)); ("SST"%string, (Some 5%Q)); ("DPT"%string, (Some (76 # 5)%Q)); ("AT"%string, (Some (76 # 5)%Q))]); (new_report (Some "AAAAAAAAA"%string) None [("YR"%string, (Some 2003%Q)); ("MO"%string, (Some 12%Q)); ("DY"%string, (Some 2%Q)); ("HR"%string, (Some 13%Q)); ("LAT"%string, (Some 0%Q)); ("LON"%string, (Some 0%Q)); ("SST"%string, (Some 5%Q)); ("DPT"%string, (Some (76 # 5)%Q)); ("AT"%string, (Some (76 # 5)%Q))]); (new_report (Some "AAAAAAAAA"%string) None [("YR"%string, (Some 2003%Q)); ("MO"%string, (Some 12%Q)); ("DY"%string, (Some 2%Q)); ("HR"%string, (Some 14%Q)); ("LAT"%string, (Some 0%Q)); ("LON"%string, (Some 0%Q)); ("SST"%string, (Some 5%Q)); ("DPT"%string, (Some (76 # 5)%Q)); ("AT"%string, (Some (76 # 5)%Q))]); (new_report (Some "AAAAAAAAA"%string) None [("YR"%string, (Some 2003%Q)); ("MO"%string, (Some 12%Q)); ("DY"%string, (Some 2%Q)); ("HR"%string, (Some 15%Q)); ("LAT"%string, (Some 0%Q)); ("LON"%string, (Some 0%Q)); ("SST"%string, (Some 5%Q)); ("DPT"%string, (Some (76 # 5)%Q)); ("AT"%string, (Some (76 # 5)%Q))]); (new_report (Some "AAAAAAAAA"%string) None [("YR"%string, (Some 2003%Q)); ("MO"%string, (Some 12%Q)); ("DY"%string, (Some 2%Q)); ("HR"%string, (Some 16%Q)); ("LAT"%string, (Some 0%Q)); ("LON"%string, (Some 0%Q)); ("SST"%string, (Some 5%Q)); ("DPT"%string, (Some (76 # 5)%Q)); ("AT"%string, (Some (76 # 5)%Q))]); (new_report (Some "AAAAAAAAA"%string) None [("YR"%string, (Some 2003%Q)); ("MO"%string, (Some 12%Q)); ("DY"%string, (Some 2%Q)); ("HR"%string, (Some 17%Q)); ("LAT"%string, (Some 0%Q)); ("LON"%string, (Some 0%Q)); ("SST"%string, (Some 5%Q)); ("DPT"%string, (Some (76 # 5)%Q)); ("AT"%string, (Some (76 # 5)%Q))]); (new_report (Some "AAAAAAAAA"%string) None [("YR"%string, (Some 2003%Q)); ("MO"%string, (Some 12%Q)); ("DY"%string, (Some 2%Q)); ("HR"%string, (Some 18%Q)); ("LAT"%string, (Some 0%Q)); ("LON"%string, (Some 0%Q)); ("SST"%string, (Some 5%Q)); ("DPT"%string, (Some (76 # 5)%Q)); ("AT"%string, (Some (76 # 5)%Q))]); (new_report (Some "AAAAAAAAA"%string) None [("YR"%string, (Some 2003%Q)); ("MO"%string, (Some 12%Q)); ("DY"%string, (Some 2%Q)); ("HR"%string, (Some 19%Q)); ("LAT"%string, (Some 0%Q)); ("LON"%string, (Some 0%Q)); ("SST"%string, (Some 5%Q)); ("DPT"%string, (Some (76 # 5)%Q)); ("AT"%string, (Some (76 # 5)%Q))]); (new_report (Some "AAAAAAAAA"%string) None [("YR"%string, (Some 2003%Q)); ("MO"%string, (Some 12%Q)); ("DY"%string, (Some 2%Q)); ("HR"%string, (Some 20%Q)); ("LAT"%string, (Some 0%Q)); ("LON"%string, (Some 0%Q)); ("SST"%string, (Some 5%Q)); ("DPT"%string, (Some (76 # 5)%Q)); ("AT"%string, (Some (76 # 5)%Q))]); (new_report (Some "AAAAAAAAA"%string) None [("YR"%string, (Some 2003%Q)); ("MO"%string, (Some 12%Q)); ("DY"%string, (Some 2%Q)); ("HR"%string, (Some 21%Q)); ("LAT"%string, (Some 0%Q)); ("LON"%string, (Some 0%Q)); ("SST"%string, (Some 5%Q)); ("DPT"%string, (Some (76 # 5)%Q)); ("AT"%string, (Some (76 # 5)%Q))]); (new_report (Some "AAAAAAAAA"%string) None [("YR"%string, (Some 2003%Q)); ("MO"%string, (Some 12%Q)); ("DY"%string, (Some 2%Q)); ("HR"%string, (Some 22%Q)); ("LAT"%string, (Some 0%Q)); ("LON"%string, (Some 0%Q)); ("SST"%string, (Some 5%Q)); ("DPT"%string, (Some (76 # 5)%Q)); ("AT"%string, (Some (76 # 5)%Q))]); (new_report (Some "AAAAAAAAA"%string) None [("YR"%string, (Some 2003%Q)); ("MO"%string, (Some 12%Q)); ("DY"%string, (Some 2%Q)); ("HR"%string, (Some 23%Q)); ("LAT"%string, (Some 0%Q)); ("LON"%string, (Some 0%Q)); ("SST"%string, (Some 5%Q)); ("DPT"%string, (Some (76 # 5)%Q)); ("AT"%string, (Some (76 # 5)%Q))]); (new_report (Some "AAAAAAAAA"%string) None [("YR"%string, (Some 2003%Q)); ("MO"%string, (Some 12%Q)); ("DY"%string, (Some 3%Q)); ("HR"%string, (Some 0%Q)); ("LAT"%string, (Some 0%Q)); ("LON"%string, (Some 0%Q)); ("SST"%string, (Some 5%Q)); ("DPT"%string, (Some (76 # 5)%Q)); ("AT"%string, (Some (76 # 5)%Q))]); (new_report (Some "AAAAAAAAA"%string) None [("YR"%string, (Some 2003%Q)); ("MO"%string, (Some 12%Q)); ("DY"%string, (Some 3%Q)); ("HR"%string, (Some 1%Q)); ("LAT"%string, (Some 0%Q)); ("LON"%string, (Some 0%Q)); ("SST"%string, (Some 5%Q)); ("DPT"%string, (Some (76 # 5)%Q)); ("AT"%string, (Some (76 # 5)%Q))])]) (find_saturated_runs earth 48 20)) in
  all [flags x1 "DPT"%string "repsat"%string [0; 0; 0; 0; 0; 0; 0; 0; 0; 0; 0; 0; 0; 0; 0; 0; 0; 0; 0; 0; 0; 0; 0; 0; 0; 0; 0; 0; 0; 0; 0; 0; 0; 0; 0; 0; 0; 0; 0; 0; 0; 0; 0; 0; 0; 0; 0; 0; 0; 0];
  flags x2 "DPT"%string "repsat"%string [0; 0; 0; 0; 0; 0; 0; 0; 0; 0; 0; 0; 0; 0; 0; 0; 0; 0; 0; 0; 0; 0; 0; 0; 0; 0; 0; 0; 0; 0; 0; 0; 0; 0; 0; 0; 0; 0; 0; 0; 0; 0; 0; 0; 0; 0; 0; 0; 0; 0];
  flags x3 "DPT"%string "repsat"%string [1; 1; 1; 1; 1; 1; 1; 1; 1; 1; 1; 1; 1; 1; 1; 1; 1; 1; 1; 1; 1; 1; 1; 1; 1; 1; 1; 1; 1; 1; 1; 1; 1; 1; 1; 1; 1; 1; 1; 1; 1; 1; 1; 1; 1; 1; 1; 1; 1; 1]]).
Example TestVoyage_test_repeated_saturated_values_is : TestVoyage_test_repeated_saturated_values = true.
Proof. reflexivity. Qed.
Definition TestMarineReport_test_saturated : bool := Eval vm_compute in (all [same (rs (fun r => ofB (saturated r)) (on (new_report (Some "AAAAAAAAA"%string) (Some "A642D2"%string) [("YR"%string, (Some 2003%Q)); ("MO"%string, (Some 12%Q)); ("DY"%string, (Some 1%Q)); ("HR"%string, (Some 0%Q)); ("LAT"%string, (Some 0%Q)); ("LON"%string, (Some 0%Q)); ("SST"%string, (Some 5%Q)); ("AT"%string, (Some 10%Q)); ("DPT"%string, (Some 11%Q)); ("SLP"%string, (Some 1023%Q))]) (fun r => set_qc r "POS"%string "pos"%string 0))) (VNum 0);
  same (rs (fun r => ofB (saturated r)) (on (new_report (Some "AAAAAAAAA"%string) None [("YR"%string, (Some 2003%Q)); ("MO"%string, (Some 12%Q)); ("DY"%string, (Some 1%Q)); ("HR"%string, (Some 0%Q)); ("LAT"%string, (Some 0%Q)); ("LON"%string, (Some 0%Q)); ("SST"%string, (Some 5%Q)); ("AT"%string, (Some 10%Q)); ("DPT"%string, (Some 10%Q))]) (fun r => set_qc r "POS"%string "pos"%string 1))) (VNum 1);
  same (rs (fun r => ofB (saturated r)) (on (new_report (Some "BBBBBBBBB"%string) None [("YR"%string, (Some 2003%Q)); ("MO"%string, (Some 12%Q)); ("DY"%string, (Some 1%Q)); ("HR"%string, (Some 0%Q)); ("LAT"%string, (Some 0%Q)); ("LON"%string, (Some 0%Q)); ("SST"%string, (Some 5%Q)); ("AT"%string, (Some 10%Q)); ("DPT"%string, (Some 9%Q))]) (fun r => set_qc r "POS"%string "pos"%string 0))) (VNum 0)]).
Example TestMarineReport_test_saturated_is : TestMarineReport_test_saturated = true.
Proof. reflexivity. Qed.
Definition TestMarineReport_test_sort_same_ID_different_time : bool := Eval vm_compute in (all [same (rs (fun l => rs (fun r => opt ofQ (getvar r "HR")) (at_ (sort_reports l) 0)) (reports_of [(new_report (Some "BBBBBBBBB") None [("YR", Some 2003); ("MO", Some 12); ("DY", Some 1); ("HR", Some 0); ("LAT", Some 0); ("LON", Some 0); ("SST", Some 5)])%Q; (new_report (Some "BBBBBBBBB") None [("YR", Some 2003); ("MO", Some 12); ("DY", Some 1); ("HR", Some 10); ("LAT", Some 0); ("LON", Some 0); ("SST", Some 5)])%Q])) (VNum 0);
  same (rs (fun l => rs (fun r => opt ofQ (getvar r "HR")) (at_ (sort_reports l) 0)) (reports_of [(new_report (Some "BBBBBBBBB") None [("YR", Some 2003); ("MO", Some 12); ("DY", Some 1); ("HR", Some 10); ("LAT", Some 0); ("LON", Some 0); ("SST", Some 5)])%Q; (new_report (Some "BBBBBBBBB") None [("YR", Some 2003); ("MO", Some 12); ("DY", Some 1); ("HR", Some 0); ("LAT", Some 0); ("LON", Some 0); ("SST", Some 5)])%Q])) (VNum 0)]).
Example TestMarineReport_test_sort_same_ID_different_time_is : TestMarineReport_test_sort_same_ID_different_time = true.
Proof. reflexivity. Qed.
Definition TestMarineReport_test_sort_same_time_different_ID : bool := Eval vm_compute in (all [same (rs (fun l => rs (fun r => opt VStr (r_id r)) (at_ (sort_reports l) 0)) (reports_of [(new_report (Some "AAAAAAAAA") None [("YR", Some 2003); ("MO", Some 12); ("DY", Some 1); ("HR", Some 0); ("LAT", Some 0); ("LON", Some 0); ("SST", Some 5)])%Q; (new_report (Some "BBBBBBBBB") None [("YR", Some 2003); ("MO", Some 12); ("DY", Some 1); ("HR", Some 0); ("LAT", Some 0); ("LON", Some 0); ("SST", Some 5)])%Q])) (VStr "AAAAAAAAA");
  same (rs (fun l => rs (fun r => opt VStr (r_id r)) (at_ (sort_reports l) 0)) (reports_of [(new_report (Some "BBBBBBBBB") None [("YR", Some 2003); ("MO", Some 12); ("DY", Some 1); ("HR", Some 0); ("LAT", Some 0); ("LON", Some 0); ("SST", Some 5)])%Q; (new_report (Some "AAAAAAAAA") None [("YR", Some 2003); ("MO", Some 12); ("DY", Some 1); ("HR", Some 0); ("LAT", Some 0); ("LON", Some 0); ("SST", Some 5)])%Q])) (VStr "AAAAAAAAA")]).
Example TestMarineReport_test_sort_same_time_different_ID_is : TestMarineReport_test_sort_same_time_different_ID = true.
Proof. reflexivity. Qed.
Definition TestMarineReport_test_subtract : bool := Eval vm_compute in (all [same (rs (fun t => let '(s, d, c, t) := t in ofQ d) (let! a := (on (new_report (Some "BBBBBBBBB"%string) None [("YR"%string, (Some 2003%Q)); ("MO"%string, (Some 12%Q)); ("DY"%string, (Some 1%Q)); ("HR"%string, (Some 10%Q)); ("LAT"%string, (Some 0%Q)); ("LON"%string, (Some 0%Q)); ("SST"%string, (Some 5%Q))]) (fun r => set_qc r "POS"%string "pos"%string 0)) in let! b := (on (new_report (Some "BBBBBBBBB"%string) None [("YR"%string, (Some 2003%Q)); ("MO"%string, (Some 12%Q)); ("DY"%string, (Some 1%Q)); ("HR"%string, (Some 0%Q)); ("LAT"%string, (Some 0%Q)); ("LON"%string, (Some 0%Q)); ("SST"%string, (Some 5%Q)); ("AT"%string, (Some 10%Q)); ("DPT"%string, (Some 9%Q))]) (fun r => set_qc r "POS"%string "pos"%string 0)) in rep_sub earth a b)) (VNum 0);
  same (rs (fun t => let '(s, d, c, t) := t in ofQ c) (let! a := (on (new_report (Some "BBBBBBBBB"%string) None [("YR"%string, (Some 2003%Q)); ("MO"%string, (Some 12%Q)); ("DY"%string, (Some 1%Q)); ("HR"%string, (Some 10%Q)); ("LAT"%string, (Some 0%Q)); ("LON"%string, (Some 0%Q)); ("SST"%string, (Some 5%Q))]) (fun r => set_qc r "POS"%string "pos"%string 0)) in let! b := (on (new_report (Some "BBBBBBBBB"%string) None [("YR"%string, (Some 2003%Q)); ("MO"%string, (Some 12%Q)); ("DY"%string, (Some 1%Q)); ("HR"%string, (Some 0%Q)); ("LAT"%string, (Some 0%Q)); ("LON"%string, (Some 0%Q)); ("SST"%string, (Some 5%Q)); ("AT"%string, (Some 10%Q)); ("DPT"%string, (Some 9%Q))]) (fun r => set_qc r "POS"%string "pos"%string 0)) in rep_sub earth a b)) (VNum 0);
  near (1 # 1000000) (rs (fun t => let '(s, d, c, t) := t in ofQ t) (let! a := (on (new_report (Some "BBBBBBBBB"%string) None [("YR"%string, (Some 2003%Q)); ("MO"%string, (Some 12%Q)); ("DY"%string, (Some 1%Q)); ("HR"%string, (Some 10%Q)); ("LAT"%string, (Some 0%Q)); ("LON"%string, (Some 0%Q)); ("SST"%string, (Some 5%Q))]) (fun r => set_qc r "POS"%string "pos"%string 0)) in let! b := (on (new_report (Some "BBBBBBBBB"%string) None [("YR"%string, (Some 2003%Q)); ("MO"%string, (Some 12%Q)); ("DY"%string, (Some 1%Q)); ("HR"%string, (Some 0%Q)); ("LAT"%string, (Some 0%Q)); ("LON"%string, (Some 0%Q)); ("SST"%string, (Some 5%Q)); ("AT"%string, (Some 10%Q)); ("DPT"%string, (Some 9%Q))]) (fun r => set_qc r "POS"%string "pos"%string 0)) in rep_sub earth a b)) (VNum 10);
  same (rs (fun t => let '(s, d, c, t) := t in ofQ s) (let! a := (on (new_report (Some "BBBBBBBBB"%string) None [("YR"%string, (Some 2003%Q)); ("MO"%string, (Some 12%Q)); ("DY"%string, (Some 1%Q)); ("HR"%string, (Some 10%Q)); ("LAT"%string, (Some 0%Q)); ("LON"%string, (Some 0%Q)); ("SST"%string, (Some 5%Q))]) (fun r => set_qc r "POS"%string "pos"%string 0)) in let! b := (on (new_report (Some "BBBBBBBBB"%string) None [("YR"%string, (Some 2003%Q)); ("MO"%string, (Some 12%Q)); ("DY"%string, (Some 1%Q)); ("HR"%string, (Some 0%Q)); ("LAT"%string, (Some 0%Q)); ("LON"%string, (Some 0%Q)); ("SST"%string, (Some 5%Q)); ("AT"%string, (Some 10%Q)); ("DPT"%string, (Some 9%Q))]) (fun r => set_qc r "POS"%string "pos"%string 0)) in rep_sub earth a b)) (VNum 0);
  near (1 # 100000) (rs (fun t => let '(s, d, c, t) := t in ofQ d) (let! a := (new_report (Some "BBBBBBBBB"%string) None [("YR"%string, (Some 2003%Q)); ("MO"%string, (Some 12%Q)); ("DY"%string, (Some 1%Q)); ("HR"%string, (Some 10%Q)); ("LAT"%string, (Some 1%Q)); ("LON"%string, (Some 0%Q)); ("SST"%string, (Some 5%Q))]) in let! b := (on (new_report (Some "BBBBBBBBB"%string) None [("YR"%string, (Some 2003%Q)); ("MO"%string, (Some 12%Q)); ("DY"%string, (Some 1%Q)); ("HR"%string, (Some 0%Q)); ("LAT"%string, (Some 0%Q)); ("LON"%string, (Some 0%Q)); ("SST"%string, (Some 5%Q)); ("AT"%string, (Some 10%Q)); ("DPT"%string, (Some 9%Q))]) (fun r => set_qc r "POS"%string "pos"%string 0)) in rep_sub earth a b)) (VNum (1111950802335329 # 10000000000000));
  (same (rs (fun t => let '(s, d, c, t) := t in ofQ c) (let! a := (new_report (Some "BBBBBBBBB"%string) None [("YR"%string, (Some 2003%Q)); ("MO"%string, (Some 12%Q)); ("DY"%string, (Some 1%Q)); ("HR"%string, (Some 10%Q)); ("LAT"%string, (Some 1%Q)); ("LON"%string, (Some 0%Q)); ("SST"%string, (Some 5%Q))]) in let! b := (on (new_report (Some "BBBBBBBBB"%string) None [("YR"%string, (Some 2003%Q)); ("MO"%string, (Some 12%Q)); ("DY"%string, (Some 1%Q)); ("HR"%string, (Some 0%Q)); ("LAT"%string, (Some 0%Q)); ("LON"%string, (Some 0%Q)); ("SST"%string, (Some 5%Q)); ("AT"%string, (Some 10%Q)); ("DPT"%string, (Some 9%Q))]) (fun r => set_qc r "POS"%string "pos"%string 0)) in rep_sub earth a b)) (VNum 0) || same (rs (fun t => let '(s, d, c, t) := t in ofQ c) (let! a := (new_report (Some "BBBBBBBBB"%string) None [("YR"%string, (Some 2003%Q)); ("MO"%string, (Some 12%Q)); ("DY"%string, (Some 1%Q)); ("HR"%string, (Some 10%Q)); ("LAT"%string, (Some 1%Q)); ("LON"%string, (Some 0%Q)); ("SST"%string, (Some 5%Q))]) in let! b := (on (new_report (Some "BBBBBBBBB"%string) None [("YR"%string, (Some 2003%Q)); ("MO"%string, (Some 12%Q)); ("DY"%string, (Some 1%Q)); ("HR"%string, (Some 0%Q)); ("LAT"%string, (Some 0%Q)); ("LON"%string, (Some 0%Q)); ("SST"%string, (Some 5%Q)); ("AT"%string, (Some 10%Q)); ("DPT"%string, (Some 9%Q))]) (fun r => set_qc r "POS"%string "pos"%string 0)) in rep_sub earth a b)) (VNum 360));
  near (1 # 1000000) (rs (fun t => let '(s, d, c, t) := t in ofQ t) (let! a := (new_report (Some "BBBBBBBBB"%string) None [("YR"%string, (Some 2003%Q)); ("MO"%string, (Some 12%Q)); ("DY"%string, (Some 1%Q)); ("HR"%string, (Some 10%Q)); ("LAT"%string, (Some 1%Q)); ("LON"%string, (Some 0%Q)); ("SST"%string, (Some 5%Q))]) in let! b := (on (new_report (Some "BBBBBBBBB"%string) None [("YR"%string, (Some 2003%Q)); ("MO"%string, (Some 12%Q)); ("DY"%string, (Some 1%Q)); ("HR"%string, (Some 0%Q)); ("LAT"%string, (Some 0%Q)); ("LON"%string, (Some 0%Q)); ("SST"%string, (Some 5%Q)); ("AT"%string, (Some 10%Q)); ("DPT"%string, (Some 9%Q))]) (fun r => set_qc r "POS"%string "pos"%string 0)) in rep_sub earth a b)) (VNum 10);
  near (1 # 1000000) (rs (fun t => let '(s, d, c, t) := t in ofQ s) (let! a := (new_report (Some "BBBBBBBBB"%string) None [("YR"%string, (Some 2003%Q)); ("MO"%string, (Some 12%Q)); ("DY"%string, (Some 1%Q)); ("HR"%string, (Some 10%Q)); ("LAT"%string, (Some 1%Q)); ("LON"%string, (Some 0%Q)); ("SST"%string, (Some 5%Q))]) in let! b := (on (new_report (Some "BBBBBBBBB"%string) None [("YR"%string, (Some 2003%Q)); ("MO"%string, (Some 12%Q)); ("DY"%string, (Some 1%Q)); ("HR"%string, (Some 0%Q)); ("LAT"%string, (Some 0%Q)); ("LON"%string, (Some 0%Q)); ("SST"%string, (Some 5%Q)); ("AT"%string, (Some 10%Q)); ("DPT"%string, (Some 9%Q))]) (fun r => set_qc r "POS"%string "pos"%string 0)) in rep_sub earth a b)) (VNum (1111950802335329 # 100000000000000))]).
Example TestMarineReport_test_subtract_is : TestMarineReport_test_subtract = true.
Proof. reflexivity. Qed.
Definition TestMarineReport_test_climate_variables : bool := Eval vm_compute in (all [same (rs (fun r => opt ofQ (getnorm r "SST"%string)) (on (on (new_report (Some "AAAAAAAAA"%string) (Some "A642D2"%string) [("YR"%string, (Some 2003%Q)); ("MO"%string, (Some 12%Q)); ("DY"%string, (Some 1%Q)); ("HR"%string, (Some 0%Q)); ("LAT"%string, (Some 0%Q)); ("LON"%string, (Some 0%Q)); ("SST"%string, (Some 5%Q)); ("AT"%string, (Some 10%Q)); ("DPT"%string, (Some 11%Q)); ("SLP"%string, (Some 1023%Q))]) (fun r => set_qc r "POS"%string "pos"%string 0)) (fun r => Ok (add_climate_variable r "SST"%string (Some (1 # 2)%Q) None)))) (VNum (1 # 2));
  same (rs (fun r => opt ofQ (getanom r "SST"%string)) (on (on (new_report (Some "AAAAAAAAA"%string) (Some "A642D2"%string) [("YR"%string, (Some 2003%Q)); ("MO"%string, (Some 12%Q)); ("DY"%string, (Some 1%Q)); ("HR"%string, (Some 0%Q)); ("LAT"%string, (Some 0%Q)); ("LON"%string, (Some 0%Q)); ("SST"%string, (Some 5%Q)); ("AT"%string, (Some 10%Q)); ("DPT"%string, (Some 11%Q)); ("SLP"%string, (Some 1023%Q))]) (fun r => set_qc r "POS"%string "pos"%string 0)) (fun r => Ok (add_climate_variable r "SST"%string (Some (1 # 2)%Q) None)))) (VNum (9 # 2))]).
Example TestMarineReport_test_climate_variables_is : TestMarineReport_test_climate_variables = true.
Proof. reflexivity. Qed.
Definition TestMarineReport_test_climate_variables_stdev : bool := Eval vm_compute in (all [same (rs (fun r => opt ofQ (getnorm r "SST"%string)) (on (on (new_report (Some "AAAAAAAAA"%string) (Some "A642D2"%string) [("YR"%string, (Some 2003%Q)); ("MO"%string, (Some 12%Q)); ("DY"%string, (Some 1%Q)); ("HR"%string, (Some 0%Q)); ("LAT"%string, (Some 0%Q)); ("LON"%string, (Some 0%Q)); ("SST"%string, (Some 5%Q)); ("AT"%string, (Some 10%Q)); ("DPT"%string, (Some 11%Q)); ("SLP"%string, (Some 1023%Q))]) (fun r => set_qc r "POS"%string "pos"%string 0)) (fun r => Ok (add_climate_variable r "SST"%string (Some (1 # 2)%Q) (Some (3 # 2)%Q))))) (VNum (1 # 2));
  same (rs (fun r => opt ofQ (getnorm_stdev r "SST"%string)) (on (on (new_report (Some "AAAAAAAAA"%string) (Some "A642D2"%string) [("YR"%string, (Some 2003%Q)); ("MO"%string, (Some 12%Q)); ("DY"%string, (Some 1%Q)); ("HR"%string, (Some 0%Q)); ("LAT"%string, (Some 0%Q)); ("LON"%string, (Some 0%Q)); ("SST"%string, (Some 5%Q)); ("AT"%string, (Some 10%Q)); ("DPT"%string, (Some 11%Q)); ("SLP"%string, (Some 1023%Q))]) (fun r => set_qc r "POS"%string "pos"%string 0)) (fun r => Ok (add_climate_variable r "SST"%string (Some (1 # 2)%Q) (Some (3 # 2)%Q))))) (VNum (3 # 2));
  same (rs (fun r => opt ofQ (getanom r "SST"%string)) (on (on (new_report (Some "AAAAAAAAA"%string) (Some "A642D2"%string) [("YR"%string, (Some 2003%Q)); ("MO"%string, (Some 12%Q)); ("DY"%string, (Some 1%Q)); ("HR"%string, (Some 0%Q)); ("LAT"%string, (Some 0%Q)); ("LON"%string, (Some 0%Q)); ("SST"%string, (Some 5%Q)); ("AT"%string, (Some 10%Q)); ("DPT"%string, (Some 11%Q)); ("SLP"%string, (Some 1023%Q))]) (fun r => set_qc r "POS"%string "pos"%string 0)) (fun r => Ok (add_climate_variable r "SST"%string (Some (1 # 2)%Q) (Some (3 # 2)%Q))))) (VNum (9 # 2));
  same (rs (fun r => rs (opt ofQ) (get_normalised_anom r "SST"%string)) (on (on (new_report (Some "AAAAAAAAA"%string) (Some "A642D2"%string) [("YR"%string, (Some 2003%Q)); ("MO"%string, (Some 12%Q)); ("DY"%string, (Some 1%Q)); ("HR"%string, (Some 0%Q)); ("LAT"%string, (Some 0%Q)); ("LON"%string, (Some 0%Q)); ("SST"%string, (Some 5%Q)); ("AT"%string, (Some 10%Q)); ("DPT"%string, (Some 11%Q)); ("SLP"%string, (Some 1023%Q))]) (fun r => set_qc r "POS"%string "pos"%string 0)) (fun r => Ok (add_climate_variable r "SST"%string (Some (1 # 2)%Q) (Some (3 # 2)%Q))))) (VNum 3)]).
Example TestMarineReport_test_climate_variables_stdev_is : TestMarineReport_test_climate_variables_stdev = true.
Proof. reflexivity. Qed.
Definition TestMarineReport_test_get_nonexistent_variable : bool := Eval vm_compute in (all [same (rs (fun r => opt ofQ (getvar r "SQUIDINK"%string)) (on (new_report (Some "AAAAAAAAA"%string) (Some "A642D2"%string) [("YR"%string, (Some 2003%Q)); ("MO"%string, (Some 12%Q)); ("DY"%string, (Some 1%Q)); ("HR"%string, (Some 0%Q)); ("LAT"%string, (Some 0%Q)); ("LON"%string, (Some 0%Q)); ("SST"%string, (Some 5%Q)); ("AT"%string, (Some 10%Q)); ("DPT"%string, (Some 11%Q)); ("SLP"%string, (Some 1023%Q))]) (fun r => set_qc r "POS"%string "pos"%string 0))) VNone]).
Example TestMarineReport_test_get_nonexistent_variable_is : TestMarineReport_test_get_nonexistent_variable = true.
Proof. reflexivity. Qed.
Definition TestMarineReport_test_getvar_finds_variable_in_ext : bool := Eval vm_compute in (all [same (rs (fun r => opt ofQ (getvar r "ODDVARNAME"%string)) (with_exts (on (new_report (Some "AAAAAAAAA"%string) (Some "A642D2"%string) [("YR"%string, (Some 2003%Q)); ("MO"%string, (Some 12%Q)); ("DY"%string, (Some 1%Q)); ("HR"%string, (Some 0%Q)); ("LAT"%string, (Some 0%Q)); ("LON"%string, (Some 0%Q)); ("SST"%string, (Some 5%Q)); ("AT"%string, (Some 10%Q)); ("DPT"%string, (Some 11%Q)); ("SLP"%string, (Some 1023%Q))]) (fun r => set_qc r "POS"%string "pos"%string 0)) [("ODDVARNAME"%string, (Some (-9999 # 100)%Q))])) (VNum (-9999 # 100))]).
Example TestMarineReport_test_getvar_finds_variable_in_ext_is : TestMarineReport_test_getvar_finds_variable_in_ext = true.
Proof. reflexivity. Qed.
Definition TestMarineReport_test_simple_set_and_get : bool := Eval vm_compute in (all [same (rs (fun r => ofZ (get_qc r "POS"%string "date"%string)) (on (on (new_report (Some "AAAAAAAAA"%string) (Some "A642D2"%string) [("YR"%string, (Some 2003%Q)); ("MO"%string, (Some 12%Q)); ("DY"%string, (Some 1%Q)); ("HR"%string, (Some 0%Q)); ("LAT"%string, (Some 0%Q)); ("LON"%string, (Some 0%Q)); ("SST"%string, (Some 5%Q)); ("AT"%string, (Some 10%Q)); ("DPT"%string, (Some 11%Q)); ("SLP"%string, (Some 1023%Q))]) (fun r => set_qc r "POS"%string "pos"%string 0)) (fun r => set_qc r "POS"%string "date"%string 0))) (VNum 0)]).
Example TestMarineReport_test_simple_set_and_get_is : TestMarineReport_test_simple_set_and_get = true.
Proof. reflexivity. Qed.
Definition TestMarineReport_test_set_invalid_value_causes_error : bool := Eval vm_compute in (all [asserts (rs (fun _ => VNone) (on (on (new_report (Some "AAAAAAAAA"%string) (Some "A642D2"%string) [("YR"%string, (Some 2003%Q)); ("MO"%string, (Some 12%Q)); ("DY"%string, (Some 1%Q)); ("HR"%string, (Some 0%Q)); ("LAT"%string, (Some 0%Q)); ("LON"%string, (Some 0%Q)); ("SST"%string, (Some 5%Q)); ("AT"%string, (Some 10%Q)); ("DPT"%string, (Some 11%Q)); ("SLP"%string, (Some 1023%Q))]) (fun r => set_qc r "POS"%string "pos"%string 0)) (fun r => set_qc r "POS"%string "date"%string 11)))]).
Example TestMarineReport_test_set_invalid_value_causes_error_is : TestMarineReport_test_set_invalid_value_causes_error = true.
Proof. reflexivity. Qed.
Definition TestMarineReport_test_uninitialised_value_returns_9 : bool := Eval vm_compute in (all [same (rs (fun r => ofZ (get_qc r "POS"%string "date"%string)) (on (new_report (Some "AAAAAAAAA"%string) (Some "A642D2"%string) [("YR"%string, (Some 2003%Q)); ("MO"%string, (Some 12%Q)); ("DY"%string, (Some 1%Q)); ("HR"%string, (Some 0%Q)); ("LAT"%string, (Some 0%Q)); ("LON"%string, (Some 0%Q)); ("SST"%string, (Some 5%Q)); ("AT"%string, (Some 10%Q)); ("DPT"%string, (Some 11%Q)); ("SLP"%string, (Some 1023%Q))]) (fun r => set_qc r "POS"%string "pos"%string 0))) (VNum 9)]).
Example TestMarineReport_test_uninitialised_value_returns_9_is : TestMarineReport_test_uninitialised_value_returns_9 = true.
Proof. reflexivity. Qed.
Definition TestMarineReport_test_print_variable_block : bool := Eval vm_compute in (all [same (rs (fun r => rs VStr (print_variable_block str_f r [["ID"%string]; ["YR"%string]; ["MO"%string]; ["DY"%string]; ["HR"%string]; ["LAT"%string]; ["LON"%string]; ["AT"%string]; ["AT"%string; "anom"%string]; ["SST"%string]; ["SST"%string; "anom"%string]; ["DPT"%string]; ["DPT"%string; "anom"%string]; ["SLP"%string]; ["SLP"%string; "anom"%string]] false true)) (on (new_report (Some "AAAAAAAAA"%string) (Some "A642D2"%string) [("YR"%string, (Some 2003%Q)); ("MO"%string, (Some 12%Q)); ("DY"%string, (Some 1%Q)); ("HR"%string, (Some 0%Q)); ("LAT"%string, (Some 0%Q)); ("LON"%string, (Some 0%Q)); ("SST"%string, (Some 5%Q)); ("AT"%string, (Some 10%Q)); ("DPT"%string, (Some 11%Q)); ("SLP"%string, (Some 1023%Q))]) (fun r => set_qc r "POS"%string "pos"%string 0))) (VStr ("A642D2,2003-12-01,67,""AAAAAAAAA"",2003,12,1,0.0,0.0,0.0,10.0,\N,5.0,\N,11.0,\N,1023.0,\N" ++ newline_s)%string);
  same (rs (fun r => rs VStr (print_variable_block str_f r [["ID"%string]; ["YR"%string]; ["MO"%string]; ["DY"%string]; ["HR"%string]; ["LAT"%string]; ["LON"%string]; ["AT"%string]; ["AT"%string; "anom"%string]; ["SST"%string]; ["SST"%string; "anom"%string]; ["DPT"%string]; ["DPT"%string; "anom"%string]; ["SLP"%string]; ["SLP"%string; "anom"%string]] true true)) (on (new_report (Some "AAAAAAAAA"%string) (Some "A642D2"%string) [("YR"%string, (Some 2003%Q)); ("MO"%string, (Some 12%Q)); ("DY"%string, (Some 1%Q)); ("HR"%string, (Some 0%Q)); ("LAT"%string, (Some 0%Q)); ("LON"%string, (Some 0%Q)); ("SST"%string, (Some 5%Q)); ("AT"%string, (Some 10%Q)); ("DPT"%string, (Some 11%Q)); ("SLP"%string, (Some 1023%Q))]) (fun r => set_qc r "POS"%string "pos"%string 0))) (VStr ("UID,DATE,PENTAD,ID,YR,MO,DY,HR,LAT,LON,AT,AT_anom,SST,SST_anom,DPT,DPT_anom,SLP,SLP_anom" ++ newline_s)%string)]).
Example TestMarineReport_test_print_variable_block_is : TestMarineReport_test_print_variable_block = true.
Proof. reflexivity. Qed.
Definition TestMarineReport_test_print_qc_block : bool := Eval vm_compute in (all [same (rs (fun r => rs VStr (print_qc_block r "SST"%string ["bud"%string; "clim"%string; "nonorm"%string; "freez"%string; "noval"%string; "nbud"%string; "bbud"%string; "rep"%string; "spike"%string; "hardlimit"%string] false true)) (on (new_report (Some "AAAAAAAAA"%string) (Some "A642D2"%string) [("YR"%string, (Some 2003%Q)); ("MO"%string, (Some 12%Q)); ("DY"%string, (Some 1%Q)); ("HR"%string, (Some 0%Q)); ("LAT"%string, (Some 0%Q)); ("LON"%string, (Some 0%Q)); ("SST"%string, (Some 5%Q)); ("AT"%string, (Some 10%Q)); ("DPT"%string, (Some 11%Q)); ("SLP"%string, (Some 1023%Q))]) (fun r => set_qc r "POS"%string "pos"%string 0))) (VStr ("A642D2,9,9,9,9,9,9,9,9,9,9" ++ newline_s)%string);
  same (rs (fun r => rs VStr (print_qc_block r "SST"%string ["bud"%string; "clim"%string; "nonorm"%string; "freez"%string; "noval"%string; "nbud"%string; "bbud"%string; "rep"%string; "spike"%string; "hardlimit"%string] true true)) (on (new_report (Some "AAAAAAAAA"%string) (Some "A642D2"%string) [("YR"%string, (Some 2003%Q)); ("MO"%string, (Some 12%Q)); ("DY"%string, (Some 1%Q)); ("HR"%string, (Some 0%Q)); ("LAT"%string, (Some 0%Q)); ("LON"%string, (Some 0%Q)); ("SST"%string, (Some 5%Q)); ("AT"%string, (Some 10%Q)); ("DPT"%string, (Some 11%Q)); ("SLP"%string, (Some 1023%Q))]) (fun r => set_qc r "POS"%string "pos"%string 0))) (VStr ("UID,bud,clim,nonorm,freez,noval,nbud,bbud,rep,spike,hardlimit" ++ newline_s)%string)]).
Example TestMarineReport_test_print_qc_block_is : TestMarineReport_test_print_qc_block = true.
Proof. reflexivity. Qed.
Definition TestQCFilter_test_creation : bool := Eval vm_compute in (all [same (rs (fun r => ofZ (test_report [] r)) (on (new_report None None [("YR"%string, (Some 2003%Q)); ("MO"%string, (Some 12%Q)); ("DY"%string, (Some 1%Q)); ("HR"%string, (Some 0%Q)); ("LAT"%string, (Some 0%Q)); ("LON"%string, (Some 0%Q))]) (fun r => set_qc r "POS"%string "pos"%string 0))) (VNum 0)]).
Example TestQCFilter_test_creation_is : TestQCFilter_test_creation = true.
Proof. reflexivity. Qed.
Definition TestQCFilter_test_split : bool := Eval vm_compute in (all [same (rs (fun t => let '(p, f, d) := t in ofN (length (d_reps p))) (on (reports_of [(on (new_report None None [("YR"%string, (Some 2003%Q)); ("MO"%string, (Some 12%Q)); ("DY"%string, (Some 1%Q)); ("HR"%string, (Some 0%Q)); ("LAT"%string, (Some 0%Q)); ("LON"%string, (Some 0%Q))]) (fun r => set_qc r "POS"%string "pos"%string 0)); (on (new_report None None [("YR"%string, (Some 2003%Q)); ("MO"%string, (Some 12%Q)); ("DY"%string, (Some 1%Q)); ("HR"%string, (Some 0%Q)); ("LAT"%string, (Some 0%Q)); ("LON"%string, (Some 0%Q))]) (fun r => set_qc r "POS"%string "pos"%string 1))]) (fun l => split_reports [("POS"%string, "pos"%string, 0)] (fold_left deck_append l new_deck)))) (VNum 1);
  same (rs (fun t => let '(p, f, d) := t in ofN (length (d_reps f))) (on (reports_of [(on (new_report None None [("YR"%string, (Some 2003%Q)); ("MO"%string, (Some 12%Q)); ("DY"%string, (Some 1%Q)); ("HR"%string, (Some 0%Q)); ("LAT"%string, (Some 0%Q)); ("LON"%string, (Some 0%Q))]) (fun r => set_qc r "POS"%string "pos"%string 0)); (on (new_report None None [("YR"%string, (Some 2003%Q)); ("MO"%string, (Some 12%Q)); ("DY"%string, (Some 1%Q)); ("HR"%string, (Some 0%Q)); ("LAT"%string, (Some 0%Q)); ("LON"%string, (Some 0%Q))]) (fun r => set_qc r "POS"%string "pos"%string 1))]) (fun l => split_reports [("POS"%string, "pos"%string, 0)] (fold_left deck_append l new_deck)))) (VNum 1)]).
Example TestQCFilter_test_split_is : TestQCFilter_test_split = true.
Proof. reflexivity. Qed.
Definition TestQCFilter_test_fail : bool := Eval vm_compute in (all [same (rs (fun r => ofZ (test_report [("POS"%string, "pos"%string, 0)] r)) (on (new_report None None [("YR"%string, (Some 2003%Q)); ("MO"%string, (Some 12%Q)); ("DY"%string, (Some 1%Q)); ("HR"%string, (Some 0%Q)); ("LAT"%string, (Some 0%Q)); ("LON"%string, (Some 0%Q))]) (fun r => set_qc r "POS"%string "pos"%string 1))) (VNum 1)]).
Example TestQCFilter_test_fail_is : TestQCFilter_test_fail = true.
Proof. reflexivity. Qed.
Definition TestQCFilter_test_pass : bool := Eval vm_compute in (all [same (rs (fun r => ofZ (test_report [("POS"%string, "pos"%string, 0)] r)) (on (new_report None None [("YR"%string, (Some 2003%Q)); ("MO"%string, (Some 12%Q)); ("DY"%string, (Some 1%Q)); ("HR"%string, (Some 0%Q)); ("LAT"%string, (Some 0%Q)); ("LON"%string, (Some 0%Q))]) (fun r => set_qc r "POS"%string "pos"%string 0))) (VNum 0)]).
Example TestQCFilter_test_pass_is : TestQCFilter_test_pass = true.
Proof. reflexivity. Qed.
