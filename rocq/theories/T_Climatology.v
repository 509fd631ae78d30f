(** The unit tests of test_Climatology.py, run on the model (generated from the test file; these are tests, not proofs).
    Left out (field read from a file): TestInit.test_get_val_freezin_at_poles, TestBGVar.test_southpole_is_odd_value, TestBGVar.test_northpole_is_another_odd_value, TestBGVar.test_near_equator, TestOstia.test_frozen_north_pole, TestOstia.test_southpole_missing, TestOstia.test_zerozero, TestOstia.test_various_points. *)
Require Import String ZArith QArith List Bool.
Require Import Verif.M_Base Verif.M_Grid Verif.T_Num Verif.T_Check.
Import ListNotations.
Open Scope string_scope.
Open Scope Z_scope.

(** A constant field of a given shape (for the fields that the tests read from files: only the shape matters here). *)
Definition constant (n ny nx : Z) : clim := {| cn := n; cny := ny; cnx := nx; cval := fun _ _ _ => Some 1%Q |}.
Definition TestInit_test_tindex : bool := Eval vm_compute in (all [same (rs ofZ (get_tindex (constant 1 360 720) 1 1)) (VNum 0);
  same (rs ofZ (get_tindex (constant 1 360 720) 12 31)) (VNum 0);
  same (rs ofZ (get_tindex (constant 365 180 360) 1 1)) (VNum 0);
  same (rs ofZ (get_tindex (constant 365 180 360) 12 31)) (VNum 364);
  same (rs ofZ (get_tindex (constant 73 180 360) 1 1)) (VNum 0);
  same (rs ofZ (get_tindex (constant 73 180 360) 12 31)) (VNum 72)]).
Example TestInit_test_tindex_is : TestInit_test_tindex = true.
Proof. reflexivity. Qed.
Definition TestInit_test_basics_work : bool := Eval vm_compute in (all [same (ofZ (cn (constant 73 180 360))) (VNum 73);
  same (ofQ (clim_res (constant 73 180 360))) (VNum 1);
  same (rs ofZ (get_tindex (constant 73 180 360) 12 31)) (VNum 72);
  same (ofZ (cn (constant 1 360 720))) (VNum 1);
  same (ofQ (clim_res (constant 1 360 720))) (VNum (1 # 2));
  same (rs ofZ (get_tindex (constant 1 360 720) 12 31)) (VNum 0)]).
Example TestInit_test_basics_work_is : TestInit_test_basics_work = true.
Proof. reflexivity. Qed.
Definition TestInit_test_daily : bool := Eval vm_compute in (all [same (ofZ (cn (constant 365 180 360))) (VNum 365);
  same (ofQ (clim_res (constant 365 180 360))) (VNum 1);
  same (rs ofZ (get_tindex (constant 365 180 360) 12 31)) (VNum 364)]).
Example TestInit_test_daily_is : TestInit_test_daily = true.
Proof. reflexivity. Qed.
Definition TestInit_test_known_values : bool := Eval vm_compute in (all [same (rs (opt ofQ) (get_value (constant 1 360 720) 12 (145 # 2) 3 7)) (VNum 1)]).
Example TestInit_test_known_values_is : TestInit_test_known_values = true.
Proof. reflexivity. Qed.
