(** Fixed-point numbers with twenty decimals, to run the model on the project's unit tests: the sphere of
    spherical_geometry.py, the square root and the solar elevation of qc.py, as computable functions.  Nothing is proved
    about them and no theorem uses them; they only take the place of the oracles of the model in the T_ files. *)
Require Import ZArith QArith Qround List Bool.
Require Import Verif.M_Base Verif.M_Voyage.
Open Scope Z_scope.

Definition one : Z := 10 ^ 20.
Definition of_q (q : Q) : Z := Qfloor (q * inject_Z one).
Definition to_q (z : Z) : Q := Qred (z # Z.to_pos one).
Definition mul (a b : Z) : Z := a * b / one.
Definition quo (a b : Z) : Z := a * one / b.
Definition pi : Z := 314159265358979323846.
Definition root (a : Z) : Z := Z.sqrt (a * one).

Fixpoint sine_terms (n : nat) (k term x2 acc : Z) : Z :=
  match n with
  | O => acc
  | S n => let term := - mul term x2 / (k * (k + 1)) in sine_terms n (k + 2) term x2 (acc + term)
  end.
Definition sine (x : Z) : Z := let x := (x + pi) mod (2 * pi) - pi in sine_terms 17 2 x (mul x x) x.
Definition cosine (x : Z) : Z := sine (x + pi / 2).
Fixpoint atan_terms (n : nat) (k power x2 acc : Z) : Z :=
  match n with
  | O => acc
  | S n => let power := - mul power x2 in atan_terms n (k + 2) power x2 (acc + power / k)
  end.
Definition half (x : Z) : Z := quo x (one + root (one + mul x x)).
Definition atan_small (x : Z) : Z := let y := half (half x) in 4 * atan_terms 15 3 y (mul y y) y.
Definition arctan (x : Z) : Z :=
  if one <? x then pi / 2 - atan_small (quo one x) else if x <? - one then - (pi / 2) + atan_small (quo one (- x)) else atan_small x.
(** What is below 10^-16 is a rounding error of 0. *)
Definition snap (z : Z) : Z := if Z.abs z <? 10 ^ 4 then 0 else z.
Definition arctan2 (y x : Z) : Z :=
  let y := snap y in let x := snap x in
  if 0 <? x then arctan (quo y x)
  else if x <? 0 then (if y <? 0 then arctan (quo y x) - pi else arctan (quo y x) + pi)
  else if 0 <? y then pi / 2 else if y <? 0 then - (pi / 2) else 0.
Definition arcsin (x : Z) : Z := arctan2 x (root (Z.max 0 (one - mul x x))).
Definition arccos (x : Z) : Z := arctan2 (root (Z.max 0 (one - mul x x))) x.
Definition radians (q : Q) : Z := mul (of_q q) pi / 180.
Definition degrees (z : Z) : Q := to_q (quo (z * 180) pi).

(** spherical_geometry.py:35-80. *)
Definition angular (lat1 lon1 lat2 lon2 : Q) : Z :=
  let a := radians lat1 in let b := radians lat2 in let d := Z.abs (radians lon1 - radians lon2) in
  let bit1 := mul (cosine b) (sine d) in
  let bit2 := mul (cosine a) (sine b) - mul (mul (sine a) (cosine b)) (cosine d) in
  arctan2 (root (mul bit1 bit1 + mul bit2 bit2)) (mul (sine a) (sine b) + mul (mul (cosine a) (cosine b)) (cosine d)).
Definition radius : Z := of_q (63710088 # 10000).
Definition n_distance (lat1 lon1 lat2 lon2 : Q) : Q := to_q (mul (angular lat1 lon1 lat2 lon2) radius).
(** 83-115. *)
Definition n_move (lat1 lon1 tc d : Q) : Q * Q :=
  let a := radians lat1 in let t := radians tc in let dr := quo (of_q d) radius in
  let la := arcsin (mul (sine a) (cosine dr) + mul (mul (cosine a) (sine dr)) (cosine t)) in
  let dlon := arctan2 (mul (mul (sine t) (sine dr)) (cosine a)) (cosine dr - mul (sine a) (sine la)) in
  (degrees la, degrees (Z.rem (radians lon1 + dlon + pi) (2 * pi) - pi)).
(** 118-172. *)
Definition n_course (lat1 lon1 lat2 lon2 : Q) : Q :=
  let d := angular lat1 lon1 lat2 lon2 in
  if d =? 0 then 0%Q
  else
    let a := radians lat1 in let b := radians lat2 in let l1 := radians lon1 in let l2 := radians lon2 in
    degrees
      (if cosine a <? of_q (1 # 10000000) then (if 0 <? a then pi else 2 * pi)
       else
         let c := quo (sine b - mul (sine a) (cosine d)) (mul (sine d) (cosine a)) in
         if (c <=? one) && (- one <=? c) then (if 0 <? sine (l2 - l1) then arccos c else 2 * pi - arccos c)
         else Z.rem (arctan2 (mul (sine (l1 - l2)) (cosine b)) (mul (cosine a) (sine b) - mul (mul (sine a) (cosine b)) (cosine (l1 - l2)))) (2 * pi)).
(** 175-216. *)
Definition n_mid (lat1 lon1 lat2 lon2 f : Q) : Q * Q :=
  let d := angular lat1 lon1 lat2 lon2 in
  if d =? 0 then (lat1, lon1)
  else
    let p1 := radians lat1 in let p2 := radians lat2 in let l1 := radians lon1 in let l2 := radians lon2 in let f := of_q f in
    let a := quo (sine (mul (one - f) d)) (sine d) in
    let b := quo (sine (mul f d)) (sine d) in
    let x := mul (mul a (cosine p1)) (cosine l1) + mul (mul b (cosine p2)) (cosine l2) in
    let y := mul (mul a (cosine p1)) (sine l1) + mul (mul b (cosine p2)) (sine l2) in
    let z := mul a (sine p1) + mul b (sine p2) in
    (degrees (arctan2 z (root (mul x x + mul y y))), degrees (arctan2 y x)).
Definition earth : sphere := {| sp_dist := n_distance; sp_course := n_course; sp_move := n_move; sp_mid := n_mid |}.
Definition n_sqrt (q : Q) : Q := to_q (root (of_q q)).

(** qc.py:1101-1184, 1210. *)
Definition n_elevation (year day : Z) (hour minute lat lon : Q) : Q :=
  let dely := year - 1980 in
  let leap := dely / 4 in
  let hours := of_q (hour + minute / 60) in
  let t := (dely * 365 + leap + day - 1) * one + hours / 24 in
  let t := if dely =? leap * 4 then t - one else t in
  let t := if dely <? 0 then (if dely =? leap * 4 then t else t - one) else t in
  let theta := radians (360 * to_q t / (36525 # 100)) in
  let g := - of_q (31271 # 1000000) - mul (of_q (45396 # 100000000000)) t + theta in
  let long := of_q (4900968 # 1000000) + mul (of_q (36747 # 100000000000)) t
    + mul (of_q (33434 # 1000000) - mul (of_q (23 # 10000000000)) t) (sine g) + mul (of_q (349 # 1000000)) (sine (2 * g)) + theta in
  let eps := of_q (409140 # 1000000) - mul (of_q (62149 # 10000000000000)) t in
  let ra := arctan2 (mul (sine long) (cosine eps)) (cosine long) in
  let ra := if ra <? 0 then ra + 2 * pi else ra in
  let dec := arcsin (mul (sine long) (sine eps)) in
  let sid := of_q (1759335 # 1000000) + mul (2 * pi) (of_q (to_q t / (36525 # 100)) - dely * one) + mul (of_q (3694 # 10000000000)) t in
  let h := sid + mul (15 * hours) pi / 180 + radians lon - ra in
  let phi := radians lat in
  degrees (arcsin (mul (sine phi) (sine dec) + mul (mul (cosine phi) (cosine dec)) (cosine h))).
