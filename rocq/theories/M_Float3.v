(** The modal speed and the speed limits of the track check in double precision. No proofs here. *)
Require Import ZArith QArith List Bool.
Require Import Verif.M_Base Verif.M_Report Verif.M_Track Verif.M_Float.
Import ListNotations.
Open Scope Z_scope.

(** track_check.py:42 and 93: km_to_nm = 0.539957. *)
Definition fkm : fl := fq (539957 # 1000000).
(** track_check.py:56-60: the bin of a speed. *)
Definition fspeed_bin (s : fl) : res nat :=
  let! index := ffloor (fdiv (fmul fkm s) (fz 3)) in
  Ok (Z.to_nat (if index <? 0 then 0 else if 11 <? index then 11 else index)).
(** track_check.py:54-61: the histogram; a missing speed is a TypeError.  The counts are floats in the code: whole numbers, which are exact
    up to 2^53, so integers here. *)
Fixpoint fhistogram (l : list (option fl)) (freq : list Z) : res (list Z) :=
  match l with
  | [] => Ok freq
  | None :: _ => Err TypeError
  | Some s :: l' => let! b := fspeed_bin s in fhistogram l' (update_nth b (nth b freq 0 + 1) freq)
  end.
(** track_check.py:17-79 modesp; the first bin with the highest count is the top_bin of M_Track, which has no floats in it. *)
Definition fmodesp (awork : list (option fl)) : res (option fl) :=
  match awork with
  | _ :: s :: l =>
      let! freq := fhistogram (s :: l) (repeat 0 12) in
      let atmode := fsub (fmul (fz (Z.of_nat (top_bin freq 0 0 (-32768)) + 1)) (fz 3)) (fq (3 # 2)) in
      let amode := fdiv atmode (fz 1) in
      let amode := if fle amode (fq (17 # 2)) then fq (17 # 2) else amode in
      Ok (Some (fdiv amode fkm))
  | _ => Ok None
  end.
(** track_check.py:82-107 set_speed_limits: (amax, amaxx, amin). *)
Definition fset_speed_limits (amode : option fl) : fl * fl * fl :=
  let slow := (fdiv (fz 15) fkm, fdiv (fz 20) fkm, fdiv (fz 0) fkm) in
  match amode with
  | Some a => if fle a (fdiv (fq (851 # 100)) fkm) then slow else (fmul a (fq (5 # 4)), fdiv (fz 30) fkm, fmul a (fq (3 # 4)))
  | None => slow
  end.
