(** The unit tests of test_YMCounter.py, run on the model (generated from the test file; these are tests, not proofs). *)
Require Import String ZArith QArith List Bool.
Require Import Verif.M_Base Verif.M_Chunks Verif.T_Num Verif.T_Check.
Import ListNotations.
Open Scope string_scope.
Open Scope Z_scope.

Definition Test_chunks_test_simples : bool := Eval vm_compute in (all [same (rs ofZ (at_ (fst (get_chunks 3 [1; 0; 1; 0; 1; 0; 1; 0; 1; 0; 1; 0])) 0)) (VNum 0);
  same (rs ofZ (at_ (snd (get_chunks 3 [1; 0; 1; 0; 1; 0; 1; 0; 1; 0; 1; 0])) 0)) (VNum 10);
  same (ofN (length (fst (get_chunks 3 [1; 0; 1; 0; 1; 0; 1; 0; 1; 0; 1; 0])))) (VNum 1);
  same (ofN (length (snd (get_chunks 3 [1; 0; 1; 0; 1; 0; 1; 0; 1; 0; 1; 0])))) (VNum 1)]).
Example Test_chunks_test_simples_is : Test_chunks_test_simples = true.
Proof. reflexivity. Qed.
Definition Test_chunks_test_simples2 : bool := Eval vm_compute in (all [same (rs ofZ (at_ (fst (get_chunks 3 [0; 1; 0; 1; 0; 1; 0; 1; 0; 1; 0; 1])) 0)) (VNum 1);
  same (rs ofZ (at_ (snd (get_chunks 3 [0; 1; 0; 1; 0; 1; 0; 1; 0; 1; 0; 1])) 0)) (VNum 11);
  same (ofN (length (fst (get_chunks 3 [0; 1; 0; 1; 0; 1; 0; 1; 0; 1; 0; 1])))) (VNum 1);
  same (ofN (length (snd (get_chunks 3 [0; 1; 0; 1; 0; 1; 0; 1; 0; 1; 0; 1])))) (VNum 1)]).
Example Test_chunks_test_simples2_is : Test_chunks_test_simples2 = true.
Proof. reflexivity. Qed.
Definition Test_chunks_test_all_present : bool := Eval vm_compute in (all [same (rs ofZ (at_ (fst (get_chunks 3 [1; 1; 1; 1; 1; 1; 1; 1; 1; 1; 1; 1])) 0)) (VNum 0);
  same (rs ofZ (at_ (snd (get_chunks 3 [1; 1; 1; 1; 1; 1; 1; 1; 1; 1; 1; 1])) 0)) (VNum 11);
  same (ofN (length (fst (get_chunks 3 [1; 1; 1; 1; 1; 1; 1; 1; 1; 1; 1; 1])))) (VNum 1);
  same (ofN (length (snd (get_chunks 3 [1; 1; 1; 1; 1; 1; 1; 1; 1; 1; 1; 1])))) (VNum 1)]).
Example Test_chunks_test_all_present_is : Test_chunks_test_all_present = true.
Proof. reflexivity. Qed.
Definition Test_chunks_test_none : bool := Eval vm_compute in (all [same (ofN (length (fst (get_chunks 3 [0; 0; 0; 0; 0; 0; 0; 0; 0; 0; 0; 0])))) (VNum 0);
  same (ofN (length (snd (get_chunks 3 [0; 0; 0; 0; 0; 0; 0; 0; 0; 0; 0; 0])))) (VNum 0)]).
Example Test_chunks_test_none_is : Test_chunks_test_none = true.
Proof. reflexivity. Qed.
Definition Test_chunks_test_onegap : bool := Eval vm_compute in (all [same (rs ofZ (at_ (fst (get_chunks 3 [1; 1; 1; 0; 0; 0; 1; 1; 1; 1; 1; 1])) 0)) (VNum 0);
  same (rs ofZ (at_ (snd (get_chunks 3 [1; 1; 1; 0; 0; 0; 1; 1; 1; 1; 1; 1])) 0)) (VNum 2);
  same (rs ofZ (at_ (fst (get_chunks 3 [1; 1; 1; 0; 0; 0; 1; 1; 1; 1; 1; 1])) 1)) (VNum 6);
  same (rs ofZ (at_ (snd (get_chunks 3 [1; 1; 1; 0; 0; 0; 1; 1; 1; 1; 1; 1])) 1)) (VNum 11)]).
Example Test_chunks_test_onegap_is : Test_chunks_test_onegap = true.
Proof. reflexivity. Qed.
Definition Test_yield_test_endcase : bool := Eval vm_compute in (all [same (rs (fun t => let '(y1, m1, y2, m2, cl) := t in ofZ y1) (on (yield_start_and_end_dates {| yc_n := 12; yc_months := map (fun m => (1985, m)) [1; 2; 3; 4; 5; 6; 7; 8; 9; 10; 11; 12]; yc_counter := [1; 1; 1; 1; 1; 1; 0; 0; 0; 0; 0; 0] |} 3) (fun l => at_ (rev l) 0))) (VNum 1985);
  same (rs (fun t => let '(y1, m1, y2, m2, cl) := t in ofZ y2) (on (yield_start_and_end_dates {| yc_n := 12; yc_months := map (fun m => (1985, m)) [1; 2; 3; 4; 5; 6; 7; 8; 9; 10; 11; 12]; yc_counter := [1; 1; 1; 1; 1; 1; 0; 0; 0; 0; 0; 0] |} 3) (fun l => at_ (rev l) 0))) (VNum 1985);
  same (rs (fun t => let '(y1, m1, y2, m2, cl) := t in ofZ m1) (on (yield_start_and_end_dates {| yc_n := 12; yc_months := map (fun m => (1985, m)) [1; 2; 3; 4; 5; 6; 7; 8; 9; 10; 11; 12]; yc_counter := [1; 1; 1; 1; 1; 1; 0; 0; 0; 0; 0; 0] |} 3) (fun l => at_ (rev l) 0))) (VNum 1);
  same (rs (fun t => let '(y1, m1, y2, m2, cl) := t in ofZ m2) (on (yield_start_and_end_dates {| yc_n := 12; yc_months := map (fun m => (1985, m)) [1; 2; 3; 4; 5; 6; 7; 8; 9; 10; 11; 12]; yc_counter := [1; 1; 1; 1; 1; 1; 0; 0; 0; 0; 0; 0] |} 3) (fun l => at_ (rev l) 0))) (VNum 6);
  same (rs (fun t => let '(y1, m1, y2, m2, cl) := t in rs VStr (at_ cl 0)) (on (yield_start_and_end_dates {| yc_n := 12; yc_months := map (fun m => (1985, m)) [1; 2; 3; 4; 5; 6; 7; 8; 9; 10; 11; 12]; yc_counter := [1; 1; 1; 1; 1; 1; 0; 0; 0; 0; 0; 0] |} 3) (fun l => at_ (rev l) 0))) (VStr "start_edge_case"%string)]).
Example Test_yield_test_endcase_is : Test_yield_test_endcase = true.
Proof. reflexivity. Qed.
Definition Test_yield_test_regular : bool := Eval vm_compute in (all [same (rs (fun t => let '(y1, m1, y2, m2, cl) := t in ofZ y1) (on (yield_start_and_end_dates {| yc_n := 12; yc_months := map (fun m => (1985, m)) [1; 2; 3; 4; 5; 6; 7; 8; 9; 10; 11; 12]; yc_counter := [0; 0; 0; 1; 1; 1; 1; 0; 0; 0; 0; 0] |} 3) (fun l => at_ (rev l) 0))) (VNum 1985);
  same (rs (fun t => let '(y1, m1, y2, m2, cl) := t in ofZ y2) (on (yield_start_and_end_dates {| yc_n := 12; yc_months := map (fun m => (1985, m)) [1; 2; 3; 4; 5; 6; 7; 8; 9; 10; 11; 12]; yc_counter := [0; 0; 0; 1; 1; 1; 1; 0; 0; 0; 0; 0] |} 3) (fun l => at_ (rev l) 0))) (VNum 1985);
  same (rs (fun t => let '(y1, m1, y2, m2, cl) := t in ofZ m1) (on (yield_start_and_end_dates {| yc_n := 12; yc_months := map (fun m => (1985, m)) [1; 2; 3; 4; 5; 6; 7; 8; 9; 10; 11; 12]; yc_counter := [0; 0; 0; 1; 1; 1; 1; 0; 0; 0; 0; 0] |} 3) (fun l => at_ (rev l) 0))) (VNum 4);
  same (rs (fun t => let '(y1, m1, y2, m2, cl) := t in ofZ m2) (on (yield_start_and_end_dates {| yc_n := 12; yc_months := map (fun m => (1985, m)) [1; 2; 3; 4; 5; 6; 7; 8; 9; 10; 11; 12]; yc_counter := [0; 0; 0; 1; 1; 1; 1; 0; 0; 0; 0; 0] |} 3) (fun l => at_ (rev l) 0))) (VNum 7);
  same (rs (fun t => let '(y1, m1, y2, m2, cl) := t in rs VStr (at_ cl 0)) (on (yield_start_and_end_dates {| yc_n := 12; yc_months := map (fun m => (1985, m)) [1; 2; 3; 4; 5; 6; 7; 8; 9; 10; 11; 12]; yc_counter := [0; 0; 0; 1; 1; 1; 1; 0; 0; 0; 0; 0] |} 3) (fun l => at_ (rev l) 0))) (VStr "regular"%string)]).
Example Test_yield_test_regular_is : Test_yield_test_regular = true.
Proof. reflexivity. Qed.
Definition Test_yield_test_new : bool := Eval vm_compute in (all [same (rs (fun t => let '(y1, m1, y2, m2, cl) := t in ofZ y1) (on (yield_start_and_end_dates {| yc_n := 12; yc_months := map (fun m => (1985, m)) [1; 2; 3; 4; 5; 6; 7; 8; 9; 10; 11; 12]; yc_counter := [0; 0; 0; 1; 1; 1; 1; 1; 1; 0; 0; 0] |} 3) (fun l => at_ (rev l) 0))) (VNum 1985);
  same (rs (fun t => let '(y1, m1, y2, m2, cl) := t in ofZ y2) (on (yield_start_and_end_dates {| yc_n := 12; yc_months := map (fun m => (1985, m)) [1; 2; 3; 4; 5; 6; 7; 8; 9; 10; 11; 12]; yc_counter := [0; 0; 0; 1; 1; 1; 1; 1; 1; 0; 0; 0] |} 3) (fun l => at_ (rev l) 0))) (VNum 1985);
  same (rs (fun t => let '(y1, m1, y2, m2, cl) := t in ofZ m1) (on (yield_start_and_end_dates {| yc_n := 12; yc_months := map (fun m => (1985, m)) [1; 2; 3; 4; 5; 6; 7; 8; 9; 10; 11; 12]; yc_counter := [0; 0; 0; 1; 1; 1; 1; 1; 1; 0; 0; 0] |} 3) (fun l => at_ (rev l) 0))) (VNum 4);
  same (rs (fun t => let '(y1, m1, y2, m2, cl) := t in ofZ m2) (on (yield_start_and_end_dates {| yc_n := 12; yc_months := map (fun m => (1985, m)) [1; 2; 3; 4; 5; 6; 7; 8; 9; 10; 11; 12]; yc_counter := [0; 0; 0; 1; 1; 1; 1; 1; 1; 0; 0; 0] |} 3) (fun l => at_ (rev l) 0))) (VNum 9);
  same (rs (fun t => let '(y1, m1, y2, m2, cl) := t in ofB (existsb (String.eqb "regular"%string) cl)) (on (yield_start_and_end_dates {| yc_n := 12; yc_months := map (fun m => (1985, m)) [1; 2; 3; 4; 5; 6; 7; 8; 9; 10; 11; 12]; yc_counter := [0; 0; 0; 1; 1; 1; 1; 1; 1; 0; 0; 0] |} 3) (fun l => at_ (rev l) 0))) (VNum 1);
  same (rs (fun t => let '(y1, m1, y2, m2, cl) := t in ofB (existsb (String.eqb "new"%string) cl)) (on (yield_start_and_end_dates {| yc_n := 12; yc_months := map (fun m => (1985, m)) [1; 2; 3; 4; 5; 6; 7; 8; 9; 10; 11; 12]; yc_counter := [0; 0; 0; 1; 1; 1; 1; 1; 1; 0; 0; 0] |} 3) (fun l => at_ (rev l) 0))) (VNum 1)]).
Example Test_yield_test_new_is : Test_yield_test_new = true.
Proof. reflexivity. Qed.
