(** Model of the single-report checks of qc.py.  Numbers are [xnum] (finite, infinite or
    NaN; IEEE comparisons, exact arithmetic), missing values are [None]. No proofs here. *)
Require Import String ZArith QArith Qround List Bool.
Require Import Verif.M_Base.
Import ListNotations.
Open Scope Z_scope.

(** qc.py:697-723 climatology_check (the final assert on the result is unreachable
    because result is the literal 0 or 1). *)
Definition climatology_check (inval inclimav limit : option xnum) : Z :=
  match inval, inclimav, limit with
  | Some v, Some c, Some l => if x_ltb l (x_abs (x_sub v c)) then 1 else 0
  | _, _, _ => 1
  end.

(** qc.py:632-655 climatology_plus_stdev_with_lowbar.  The second conjunct is evaluated only
    when the first holds, but has no effect besides its value. *)
Definition climatology_plus_stdev_with_lowbar
    (inval inclimav instdev : option xnum) (limit lowbar : xnum) : res Z :=
  assert! (x_ltb (Fin 0) limit);
  match inval, inclimav, instdev with
  | Some v, Some c, Some s =>
      let! r := x_div (x_abs (x_sub v c)) s in
      if x_ltb limit r && x_ltb lowbar (x_abs (x_sub v c)) then Ok 1 else Ok 0
  | _, _, _ => Ok 1
  end.

(** qc.py:658-694 climatology_plus_stdev_check. *)
Definition climatology_plus_stdev_check
    (inval inclimav instdev : option xnum) (stdev_limits : xnum * xnum) (limit : xnum) : res Z :=
  assert! (x_ltb (fst stdev_limits) (snd stdev_limits));
  assert! (x_ltb (Fin 0) limit);
  match inval, inclimav, instdev with
  | Some v, Some c, Some s =>
      let stdev := s in
      let stdev := if x_ltb stdev (fst stdev_limits) then fst stdev_limits else stdev in
      let stdev := if x_ltb (snd stdev_limits) stdev then snd stdev_limits else stdev in
      let! r := x_div (x_abs (x_sub v c)) stdev in
      if x_ltb limit r then Ok 1 else Ok 0
  | _, _, _ => Ok 1
  end.

(** qc.py:726-738 value_check. *)
Definition value_check {A} (inval : option A) : Z :=
  match inval with None => 1 | Some _ => 0 end.

(** qc.py:741-753 no_normal_check. *)
Definition no_normal_check {A} (inclimav : option A) : Z :=
  match inclimav with None => 1 | Some _ => 0 end.

(** qc.py:756-774 hard_limit. *)
Definition hard_limit (val : option xnum) (limits : xnum * xnum) : res Z :=
  assert! (x_ltb (fst limits) (snd limits));
  match val with
  | None => Ok 1
  | Some v => if x_leb (fst limits) v && x_leb v (snd limits) then Ok 0 else Ok 1
  end.

(** qc.py:777-797 supersat_check. *)
Definition supersat_check (invaltd invalt : option xnum) : Z :=
  match invaltd, invalt with
  | Some td, Some t => if x_ltb t td then 1 else 0
  | _, _ => 1
  end.

(** qc.py:800-833 sst_freeze_check. *)
Definition sst_freeze_check (insst : option xnum)
    (sst_uncertainty freezing_point : option xnum) (n_sigma : xnum) : res Z :=
  match sst_uncertainty, freezing_point with
  | Some u, Some f =>
      match insst with
      | Some s => if x_ltb s (x_sub f (x_mul n_sigma u)) then Ok 1 else Ok 0
      | None => Ok 0
      end
  | _, _ => Err AssertionError
  end.

(** qc.py:836-857 position_check. *)
Definition position_check (inlat inlon : option xnum) : res Z :=
  match inlat with
  | None => Err AssertionError
  | Some lat =>
    assert! (negb (x_isnan lat));
    match inlon with
    | None => Err AssertionError
    | Some lon =>
      assert! (negb (x_isnan lon));
      let result := 0 in
      let result := if x_ltb lat (Fin (-90)) || x_ltb (Fin 90) lat then 1 else result in
      let result := if x_ltb lon (Fin (-180)) || x_ltb (Fin 360) lon then 1 else result in
      Ok result
    end
  end.

(** qc.py:860-878 time_check. *)
Definition time_check (inhour : option xnum) : Z :=
  match inhour with
  | Some h => if x_leb (Fin 24) h || x_ltb h (Fin 0) then 1 else 0
  | None => 1
  end.

(** qc.py:917-940 wind_consistency.  [None != 0] is true and [None > x] is false in Python 2. *)
Definition wind_consistency (windspeed winddirection : option xnum) (variablelimit : xnum) : Z :=
  let dir_is z := match winddirection with Some d => x_eqb d (Fin z) | None => false end in
  let speed_ne0 := match windspeed with Some w => negb (x_eqb w (Fin 0)) | None => true end in
  let speed_gt := match windspeed with Some w => x_ltb variablelimit w | None => false end in
  let result := 0 in
  let result := if dir_is 361%Q && speed_ne0 then 1 else result in
  let result := if dir_is 362%Q && speed_gt then 1 else result in
  result.

(** qc.py:569-585, the regions of the Deck 732 blacklist: [lon0, lat0, lon1, lat1]. *)
Definition bl_region (regid : Z) : res (Q * Q * Q * Q) :=
  match regid with
  | 1 => Ok (-175, 40, -170, 55)%Q
  | 2 => Ok (-165, 40, -160, 60)%Q
  | 3 => Ok (-145, 40, -140, 50)%Q
  | 4 => Ok (-140, 30, -135, 40)%Q
  | 5 => Ok (-140, 50, -130, 55)%Q
  | 6 => Ok (-70, 35, -60, 40)%Q
  | 7 => Ok (-50, 45, -40, 50)%Q
  | 8 => Ok (5, 70, 10, 80)%Q
  | 9 => Ok (0, -10, 10, 0)%Q
  | 10 => Ok (-30, -25, -25, -20)%Q
  | 11 => Ok (-60, -50, -55, -45)%Q
  | 12 => Ok (75, -20, 80, -15)%Q
  | 13 => Ok (50, -30, 60, -20)%Q
  | 14 => Ok (30, -40, 40, -30)%Q
  | 15 => Ok (20, 60, 25, 65)%Q
  | 16 => Ok (0, -40, 10, -30)%Q
  | 17 => Ok (-135, 30, -130, 40)%Q
  | _ => Err KeyError
  end.

(** qc.py:588-604, regions to exclude for each year. *)
Definition bl_year_to_regions (year : Z) : option (list Z) :=
  match year with
  | 1958 => Some [1; 2; 3; 4; 5; 6; 14; 15]
  | 1959 => Some [1; 2; 3; 4; 5; 6; 14; 15]
  | 1960 => Some [1; 2; 3; 5; 6; 9; 14; 15]
  | 1961 => Some [1; 2; 3; 5; 6; 14; 15; 16]
  | 1962 => Some [1; 2; 3; 5; 12; 13; 14; 15; 16]
  | 1963 => Some [1; 2; 3; 5; 6; 12; 13; 14; 15; 16]
  | 1964 => Some [1; 2; 3; 5; 6; 12; 13; 14; 16]
  | 1965 => Some [1; 2; 6; 10; 12; 13; 14; 15; 16]
  | 1966 => Some [1; 2; 6; 9; 14; 15; 16]
  | 1967 => Some [1; 2; 5; 6; 9; 14; 15]
  | 1968 => Some [1; 2; 3; 5; 6; 9; 14; 15]
  | 1969 => Some [1; 2; 3; 4; 5; 6; 7; 8; 9; 10; 13; 14; 15; 16]
  | 1970 => Some [1; 2; 3; 4; 5; 6; 8; 9; 14; 15]
  | 1971 => Some [1; 2; 3; 4; 5; 6; 7; 8; 9; 13; 14; 16]
  | 1972 => Some [4; 7; 8; 9; 10; 11; 13; 16; 17]
  | 1973 => Some [4; 7; 8; 10; 11; 13; 16; 17]
  | 1974 => Some [4; 7; 8; 10; 11; 16; 17]
  | _ => None
  end.

(** qc.py:609-612, the loop over regions. *)
Fixpoint bl_regions_loop (regs : list Z) (inlat inlon : Q) (result : Z) : res Z :=
  match regs with
  | [] => Ok result
  | regid :: rest =>
      let! r := bl_region regid in
      let '(x0, y0, x1, y1) := r in
      let result := if (Qleb x0 inlon && Qleb inlon x1) && (Qleb y0 inlat && Qleb inlat y1)
                    then 1 else result in
      bl_regions_loop rest inlat inlon result
  end.

(** qc.py:620-626. *)
Definition bl_ids : list string :=
  ["53521    "; "53522    "; "53566    "; "53567    ";
   "53568    "; "53571    "; "53578    "; "53580    ";
   "53582    "; "53591    "; "53592    "; "53593    ";
   "53594    "; "53595    "; "53596    "; "53599    ";
   "53600    "; "53601    "; "53602    "; "53603    ";
   "53604    "; "53605    "; "53606    "; "53607    ";
   "53608    "; "53609    "; "53901    "; "53902    "]%string.

Definition mem_string (s : string) (l : list string) : bool := existsb (String.eqb s) l.

(** qc.py:528-629 blacklist.  Positions are finite numbers; deck, year, month and platform
    type are ints, with None possible for id, deck and platform type. *)
Definition blacklist (inid : option string) (indeck : option Z) (inyear inmonth : Z)
                     (inlat inlon : Q) (inpt : option Z) : res Z :=
  let id_is s := match inid with Some i => String.eqb i s | None => false end in
  let deck_is z := match indeck with Some d => d =? z | None => false end in
  let inlon := if Qltb 180 inlon then (inlon - 360)%Q else inlon in
  let result := 0 in
  let result := if Qeqb inlat 0 && Qeqb inlon 0 then 1 else result in
  let result := match inpt with Some p => if p =? 13 then 1 else result | None => result end in
  let result := if id_is "SUPERIGORINA"%string then 1 else result in
  let! result :=
    (if deck_is 732 then
       match bl_year_to_regions inyear with
       | Some regs => bl_regions_loop regs inlat inlon result
       | None => Ok result
       end
     else Ok result) in
  let result := if deck_is 874 then 1 else result in
  let result :=
    if ((inyear =? 2005) && (inmonth =? 11)) || ((inyear =? 2005) && (inmonth =? 12))
       || ((inyear =? 2006) && (inmonth =? 1))
    then (match inid with Some i => if mem_string i bl_ids then 1 else result | None => result end)
    else result in
  Ok result.

(** qc.py:1603-1636, the list of generic identifiers for a year (None is generic too). *)
Definition generic_ids (inyear : Z) : list string :=
  (["1        "; "58       "; "RIGG     "; "     RIGG"; "SHIP     "; "ship     ";
    "     SHIP"; "PLAT     "; "     PLAT"; "         "; "0120     "; "0204     ";
    "0205     "; "0206     "; "0207     "; "0208     "; "0209     "; "MASKST   ";
    "MASKSTID "; "MASK     "; "XXXX     "; "/////    "]%string)
  ++ (if (1921 <=? inyear) && (inyear <=? 1941) then ["2        "; "00002    "]%string else [])
  ++ (if (1930 <=? inyear) && (inyear <=? 1937) then ["3        "]%string else [])
  ++ (if (1934 <=? inyear) && (inyear <=? 1954) then ["7        "; "00007    "]%string else []).

(** qc.py:1588-1641 id_is_generic. *)
Definition id_is_generic (inid : option string) (inyear : Z) : bool :=
  match inid with
  | None => true
  | Some i => mem_string i (generic_ids inyear)
  end.

(** Extended_IMMA.py:380-387 MarineReport.lon: longitudes above 180 are shifted by 360. *)
Definition report_lon (lon : Q) : Q := if Qltb 180 lon then (lon - 360)%Q else lon.
