(** C78 and C79: interpolation between grid points, and the points around a reported position, in double precision. *)
Require Import ZArith QArith Reals Lra Lia Bool List.
From Flocq Require Import Core.Core IEEE754.BinarySingleNaN.
Require Import Verif.M_Base Verif.M_Float Verif.S_Float Verif.L_Float Verif.L_Float5 Verif.L_Float6 Verif.M_Float6 Verif.S_Float3 Verif.L_Float10 Verif.L_Float11 Verif.L_Float12.
Import ListNotations.
Open Scope R_scope.

(** The doubles are finite corner values of at most M and a position in a cell whose sides are from a millionth of a degree to 2000 degrees long. *)
Record in_cell (M : R) (fx1 fx2 fy1 fy2 fx fy f11 f12 f21 f22 : fl) (x1 x2 y1 y2 x y q11 q12 q21 q22 : R) : Prop := {
  ic_edges : is_double fx1 x1 /\ is_double fx2 x2 /\ is_double fy1 y1 /\ is_double fy2 y2;
  ic_position : is_double fx x /\ is_double fy y /\ x1 <= x <= x2 /\ y1 <= y <= y2;
  ic_values : is_double f11 q11 /\ is_double f12 q12 /\ is_double f21 q21 /\ is_double f22 q22;
  ic_bound : Rabs q11 <= M /\ Rabs q12 <= M /\ Rabs q21 <= M /\ Rabs q22 <= M;
  ic_sides : 1 / 10 ^ 6 <= x2 - x1 <= 2000 /\ 1 / 10 ^ 6 <= y2 - y1 <= 2000 }.

(** No assertion fires, and the interpolated value is the bilinear one, to 3e-15 of the bound on the corner values. *)
Theorem C78_close : forall M fx1 fx2 fy1 fy2 fx fy f11 f12 f21 f22 x1 x2 y1 y2 x y q11 q12 q21 q22, 1 <= M <= 10 ^ 9 ->
  in_cell M fx1 fx2 fy1 fy2 fx fy f11 f12 f21 f22 x1 x2 y1 y2 x y q11 q12 q21 q22 ->
  exists val v, fbilinear_interp fx1 fx2 fy1 fy2 fx fy f11 f12 f21 f22 = Ok val /\ is_double val v /\ Rabs (v - bilinear x1 x2 y1 y2 x y q11 q12 q21 q22) <= 3 / 10 ^ 15 * M.
Proof.
  intros M fx1 fx2 fy1 fy2 fx fy f11 f12 f21 f22 x1 x2 y1 y2 x y q11 q12 q21 q22 HM [E P V B S].
  destruct E as [? [? [? ?]]], P as [? [? [[? ?] [? ?]]]], V as [? [? [? ?]]], B as [? [? [? ?]]], S as [? ?]. apply bil_ok; assumption.
Qed.
Print Assumptions C78_close.
(** It lies between any bounds on the four corner values, to the same error. *)
Theorem C78_between : forall M fx1 fx2 fy1 fy2 fx fy f11 f12 f21 f22 x1 x2 y1 y2 x y q11 q12 q21 q22 lo hi, 1 <= M <= 10 ^ 9 ->
  in_cell M fx1 fx2 fy1 fy2 fx fy f11 f12 f21 f22 x1 x2 y1 y2 x y q11 q12 q21 q22 -> (forall q, In q [q11; q12; q21; q22] -> lo <= q <= hi) ->
  exists val v, fbilinear_interp fx1 fx2 fy1 fy2 fx fy f11 f12 f21 f22 = Ok val /\ is_double val v /\ lo - 3 / 10 ^ 15 * M <= v <= hi + 3 / 10 ^ 15 * M.
Proof.
  intros M fx1 fx2 fy1 fy2 fx fy f11 f12 f21 f22 x1 x2 y1 y2 x y q11 q12 q21 q22 lo hi HM H Q. destruct (C78_close _ _ _ _ _ _ _ _ _ _ _ _ _ _ _ _ _ _ _ _ _ HM H) as [val [v [E [V D]]]].
  exists val, v. split; [exact E|]. split; [exact V|]. destruct H as [_ P _ _ S]. destruct P as [_ [_ [X Y]]], S as [SX SY].
  pose proof (bil_range x1 x2 y1 y2 x y q11 q12 q21 q22 lo hi X Y ltac:(lra) ltac:(lra) ltac:(apply Q; cbn; auto) ltac:(apply Q; cbn; auto) ltac:(apply Q; cbn; auto) ltac:(apply Q; cbn; auto)) as R. apply Rabs_le_inv in D. lra.
Qed.
Print Assumptions C78_between.
(** At the corners of a cell of one degree it is the corner value, without an error: (x1, y1) has q11, (x2, y1) has q21, (x1, y2) has q12, (x2, y2) has q22. *)
Theorem C78_corner : forall M fx1 fx2 fy1 fy2 f11 f12 f21 f22 x1 y1 q11 q12 q21 q22, 1 <= M <= 10 ^ 9 ->
  is_double fx1 x1 -> is_double fx2 (x1 + 1) -> is_double fy1 y1 -> is_double fy2 (y1 + 1) ->
  is_double f11 q11 -> is_double f12 q12 -> is_double f21 q21 -> is_double f22 q22 -> Rabs q11 <= M -> Rabs q12 <= M -> Rabs q21 <= M -> Rabs q22 <= M ->
  (exists val, fbilinear_interp fx1 fx2 fy1 fy2 fx1 fy1 f11 f12 f21 f22 = Ok val /\ is_double val q11) /\
  (exists val, fbilinear_interp fx1 fx2 fy1 fy2 fx2 fy1 f11 f12 f21 f22 = Ok val /\ is_double val q21) /\
  (exists val, fbilinear_interp fx1 fx2 fy1 fy2 fx1 fy2 f11 f12 f21 f22 = Ok val /\ is_double val q12) /\
  (exists val, fbilinear_interp fx1 fx2 fy1 fy2 fx2 fy2 f11 f12 f21 f22 = Ok val /\ is_double val q22).
Proof.
  intros M fx1 fx2 fy1 fy2 f11 f12 f21 f22 x1 y1 q11 q12 q21 q22 HM I1 I2 J1 J2 K11 K12 K21 K22 B11 B12 B21 B22.
  pose proof (bil_corner M fx1 fx2 fy1 fy2 f11 f12 f21 f22 x1 y1 q11 q12 q21 q22 HM I1 I2 J1 J2 K11 K12 K21 K22 B11 B12 B21 B22) as C.
  exact (conj (C false false) (conj (C true false) (conj (C false true) (C true true)))).
Qed.
Print Assumptions C78_corner.
(** A position outside the cell, or a cell with no area, raises. *)
Theorem C78_raises : forall fx1 fx2 fy1 fy2 fx fy f11 f12 f21 f22 x1 x2 y1 y2 x y,
  is_double fx1 x1 -> is_double fx2 x2 -> is_double fy1 y1 -> is_double fy2 y2 -> is_double fx x -> is_double fy y ->
  x < x1 \/ x2 < x \/ y < y1 \/ y2 < y \/ x2 <= x1 \/ y2 <= y1 -> fbilinear_interp fx1 fx2 fy1 fy2 fx fy f11 f12 f21 f22 = Err AssertionError.
Proof.
  intros fx1 fx2 fy1 fy2 fx fy f11 f12 f21 f22 x1 x2 y1 y2 x y I1 I2 J1 J2 I J H. unfold fbilinear_interp.
  rewrite (fle_is _ _ _ _ I1 I), (fle_is _ _ _ _ I I2), (fle_is _ _ _ _ J1 J), (fle_is _ _ _ _ J J2), (flt_is _ _ _ _ I1 I2), (flt_is _ _ _ _ J1 J2).
  destruct (Rle_bool_spec x1 x); [|reflexivity]. destruct (Rle_bool_spec x x2); [|reflexivity]. cbn [andb]. destruct (Rle_bool_spec y1 y); [|reflexivity]. destruct (Rle_bool_spec y y2); [|reflexivity]. cbn [andb].
  destruct (Rlt_bool_spec x1 x2); [|reflexivity]. destruct (Rlt_bool_spec y1 y2); [|reflexivity]. exfalso. lra.
Qed.
Print Assumptions C78_raises.
(** Inside a cell the error is real: between four corners that are all 0.1 the value exceeds 0.1. *)
Theorem C78_constant_refuted : exists fx fy val, fle fhalf fx && fle fx (fadd fhalf (fz 1)) && fle fhalf fy && fle fy (fadd fhalf (fz 1)) = true /\
  fbilinear_interp fhalf (fadd fhalf (fz 1)) fhalf (fadd fhalf (fz 1)) fx fy (fq (1 # 10)) (fq (1 # 10)) (fq (1 # 10)) (fq (1 # 10)) = Ok val /\ flt (fq (1 # 10)) val = true.
Proof.
  exists (fadd fhalf (fq (2 # 10))), (fadd fhalf (fq (1 # 10))).
  set (r := fbilinear_interp _ _ _ _ _ _ _ _ _ _). assert (T : match r with Ok val => flt (fq (1 # 10)) val = true | Err _ => False end) by (vm_compute; reflexivity).
  destruct r as [val|]; [|contradiction]. exists val. split; [vm_compute; reflexivity|]. split; [reflexivity|exact T].
Qed.
Print Assumptions C78_constant_refuted.

(** The latitude and longitude, in degrees, of a report that gives them in hundredths: n and m; longitudes beyond 180 degrees are counted west. *)
Definition reported_lat (n : Z) : R := IZR n / 100.
Definition reported_lon (m : Z) : R := IZR (if (18000 <? m)%Z then m - 36000 else m) / 100.
(** The doubles that the report has for them. *)
Definition read_lat (n : Z) : fl := fdecode (fq (1 # 100)) n.
Definition read_lon (m : Z) : fl := flon (fdecode (fq (1 # 100)) m).

(** The four points around a reported position are exactly the half degree lines on either side of it; a position on a line counts as the western edge and
    as the northern edge; without max90 = 0 the lines stop at 89.5 degrees. *)
Theorem C79_points : forall n m max90, (-9000 <= n <= 9000)%Z -> n <> (-8950)%Z -> (-18000 <= m <= 36000)%Z ->
  exists x1 x2 y1 y2 k j, fget_four_surrounding_points (read_lat n) (read_lon m) max90 = Ok (x1, x2, y1, y2) /\
    IZR k - 1 / 2 <= reported_lon m < IZR k + 1 / 2 /\ IZR j - 1 / 2 < reported_lat n <= IZR j + 1 / 2 /\
    is_double x1 (IZR k - 1 / 2) /\ is_double x2 (IZR k + 1 / 2) /\
    (max90 = 0%Z -> is_double y1 (IZR j - 1 / 2) /\ is_double y2 (IZR j + 1 / 2)) /\
    (max90 <> 0%Z -> is_double y1 (Rmax (IZR j - 1 / 2) (- 89 - 1 / 2)) /\ is_double y2 (Rmin (IZR j + 1 / 2) (89 + 1 / 2))).
Proof.
  intros n m max90 N N' Mb. pose proof (hund_decode n ltac:(lia)) as [a [I [E A]]]. pose proof (hund_lon m Mb) as HO. set (m' := (if (18000 <? m)%Z then m - 36000 else m)%Z) in *.
  assert (HA : hund (read_lat n) n (2 / 10 ^ 10)) by (exists a; split; [exact I|split; [lra|exact A]]).
  assert (M' : (-18000 <= m' <= 18000)%Z) by (unfold m'; destruct (18000 <? m)%Z eqn:L; [apply Z.ltb_lt in L|apply Z.ltb_ge in L]; lia).
  destruct (points_hund _ _ _ _ _ HA HO ltac:(lra) N M' max90) as [x1 [x2 [y1 [y2 [P [X1 [X2 [Y2 Y1]]]]]]]].
  set (k := ((m' + 50) / 100)%Z) in *. set (j := (89 - (8950 - n) / 100)%Z) in *. rewrite (proj2 (Z.eqb_neq _ _) N') in Y1.
  assert (KD : (100 * k <= m' + 50 < 100 * k + 100)%Z) by (unfold k; pose proof (Z.div_mod (m' + 50) 100 ltac:(lia)); pose proof (Z.mod_pos_bound (m' + 50) 100 ltac:(lia)); lia).
  assert (JD : (100 * (89 - j) <= 8950 - n < 100 * (89 - j) + 100)%Z) by (unfold j; pose proof (Z.div_mod (8950 - n) 100 ltac:(lia)); pose proof (Z.mod_pos_bound (8950 - n) 100 ltac:(lia)); lia).
  exists x1, x2, y1, y2, k, j. split; [exact P|]. unfold reported_lat, reported_lon. fold m'. repeat split.
  - destruct KD as [KD _]. apply IZR_le in KD. rewrite mult_IZR, plus_IZR in KD. lra.
  - destruct KD as [_ KD]. apply IZR_lt in KD. rewrite !plus_IZR, mult_IZR in KD. lra.
  - destruct JD as [_ JD]. apply IZR_lt in JD. rewrite plus_IZR, mult_IZR, !minus_IZR in JD. lra.
  - destruct JD as [JD _]. apply IZR_le in JD. rewrite mult_IZR, !minus_IZR in JD. lra.
  - apply X1.
  - apply X1.
  - apply X2.
  - apply X2.
  - rewrite H in Y1. apply Y1.
  - rewrite H in Y1. apply Y1.
  - rewrite H in Y2. apply Y2.
  - rewrite H in Y2. apply Y2.
  - rewrite (proj2 (Z.eqb_neq _ _) H) in Y1. apply Y1.
  - rewrite (proj2 (Z.eqb_neq _ _) H) in Y1. destruct Y1 as [_ ->]. destruct (Z.max_spec j (-89)) as [[L ->]|[L ->]]; [apply IZR_lt in L; rewrite Rmax_right|apply IZR_le in L; rewrite Rmax_left]; lra.
  - rewrite (proj2 (Z.eqb_neq _ _) H) in Y2. apply Y2.
  - rewrite (proj2 (Z.eqb_neq _ _) H) in Y2. destruct Y2 as [_ ->]. destruct (Z.min_spec j 89) as [[L ->]|[L ->]]; [apply IZR_lt in L; rewrite Rmin_left|apply IZR_le in L; rewrite Rmin_right]; lra.
Qed.
Print Assumptions C79_points.

(** So interpolating at a reported position between the values at the four points around it never raises, and gives the bilinear value
    at the position as reported, to a billionth of the bound on the values. *)
Theorem C79_interpolated : forall M n m f11 f12 f21 f22 q11 q12 q21 q22, 1 <= M <= 10 ^ 9 -> (-9000 <= n <= 9000)%Z -> n <> (-8950)%Z -> (-18000 <= m <= 36000)%Z ->
  is_double f11 q11 -> is_double f12 q12 -> is_double f21 q21 -> is_double f22 q22 -> Rabs q11 <= M -> Rabs q12 <= M -> Rabs q21 <= M -> Rabs q22 <= M ->
  exists fx1 fx2 fy1 fy2 x1 x2 y1 y2 val v, fget_four_surrounding_points (read_lat n) (read_lon m) 0 = Ok (fx1, fx2, fy1, fy2) /\
    is_double fx1 x1 /\ is_double fx2 x2 /\ is_double fy1 y1 /\ is_double fy2 y2 /\
    fbilinear_interp fx1 fx2 fy1 fy2 (read_lon m) (read_lat n) f11 f12 f21 f22 = Ok val /\ is_double val v /\
    Rabs (v - bilinear x1 x2 y1 y2 (reported_lon m) (reported_lat n) q11 q12 q21 q22) <= M / 10 ^ 9.
Proof.
  intros M n m f11 f12 f21 f22 q11 q12 q21 q22 HM N N' Mb K11 K12 K21 K22 B11 B12 B21 B22.
  destruct (C79_points n m 0 N N' Mb) as [x1 [x2 [y1 [y2 [k [j [P [KX [JY [X1 [X2 [Y _]]]]]]]]]]]]. destruct (Y eq_refl) as [Y1 Y2].
  pose proof (hund_decode n ltac:(lia)) as HA. pose proof (hund_lon m Mb) as HO. fold (read_lat n) in HA. fold (read_lon m) in HO. unfold reported_lon, reported_lat in *. set (m' := (if (18000 <? m)%Z then m - 36000 else m)%Z) in *.
  assert (M' : (-18000 <= m' <= 18000)%Z) by (unfold m'; destruct (18000 <? m)%Z eqn:L; [apply Z.ltb_lt in L|apply Z.ltb_ge in L]; lia).
  assert (KZ : (100 * k - 50 <= m' < 100 * k + 50)%Z) by (split; [apply le_IZR|apply lt_IZR]; rewrite ?minus_IZR, ?plus_IZR, ?mult_IZR; lra).
  assert (JZ : (100 * j - 50 < n <= 100 * j + 50)%Z) by (split; [apply lt_IZR|apply le_IZR]; rewrite ?minus_IZR, ?plus_IZR, ?mult_IZR; lra).
  assert (HH : forall f z c, is f c -> c = IZR z / 2 -> hund f (50 * z) 0) by (intros f z c I ->; apply hund_half; exact I).
  assert (HX1 : hund x1 (50 * (2 * k - 1)) 0) by (apply (HH _ _ _ X1); rewrite minus_IZR, mult_IZR; field). assert (HX2 : hund x2 (50 * (2 * k + 1)) 0) by (apply (HH _ _ _ X2); rewrite plus_IZR, mult_IZR; field).
  assert (HY1 : hund y1 (50 * (2 * j - 1)) 0) by (apply (HH _ _ _ Y1); rewrite minus_IZR, mult_IZR; field). assert (HY2 : hund y2 (50 * (2 * j + 1)) 0) by (apply (HH _ _ _ Y2); rewrite plus_IZR, mult_IZR; field).
  assert (D : forall z, (50 | 50 * z)%Z) by (intro z; exists z; ring).
  pose proof (proj2 (hund_cmp _ _ _ _ _ _ HX1 HO (or_introl (D _)) ltac:(lra))) as C1. pose proof (proj2 (hund_cmp _ _ _ _ _ _ HO HX2 (or_intror (D _)) ltac:(lra))) as C2.
  pose proof (proj2 (hund_cmp _ _ _ _ _ _ HY1 HA (or_introl (D _)) ltac:(lra))) as C3. pose proof (proj2 (hund_cmp _ _ _ _ _ _ HA HY2 (or_intror (D _)) ltac:(lra))) as C4.
  rewrite (proj2 (Z.leb_le _ _)) in C1 by lia. rewrite (proj2 (Z.leb_le _ _)) in C2 by lia. rewrite (proj2 (Z.leb_le _ _)) in C3 by lia. rewrite (proj2 (Z.leb_le _ _)) in C4 by lia. destruct HA as [a [IA [EA _]]], HO as [b [IB [EB _]]].
  rewrite (fle_is _ _ _ _ X1 IB) in C1. rewrite (fle_is _ _ _ _ IB X2) in C2. rewrite (fle_is _ _ _ _ Y1 IA) in C3. rewrite (fle_is _ _ _ _ IA Y2) in C4.
  assert (LE : forall p q, Rle_bool p q = true -> p <= q) by (intros p q H; destruct (Rle_bool_spec p q); [assumption|discriminate]). apply LE in C1, C2, C3, C4.
  destruct (bil_ok M x1 x2 y1 y2 (read_lon m) (read_lat n) f11 f12 f21 f22 (IZR k - 1 / 2) (IZR k + 1 / 2) (IZR j - 1 / 2) (IZR j + 1 / 2) b a q11 q12 q21 q22) as [val [v [E [V ER]]]]; try assumption; try lra.
  exists x1, x2, y1, y2, (IZR k - 1 / 2), (IZR k + 1 / 2), (IZR j - 1 / 2), (IZR j + 1 / 2), val, v. do 7 (split; [assumption|]).
  pose proof (bil_move M (IZR k - 1 / 2) (IZR j - 1 / 2) (IZR m' / 100) (IZR n / 100) b a q11 q12 q21 q22 (2 / 10 ^ 10) B11 B12 B21 B22 ltac:(lra) ltac:(lra) ltac:(lra) ltac:(lra) EB ltac:(lra)) as MV.
  replace (IZR k - 1 / 2 + 1) with (IZR k + 1 / 2) in MV by field. replace (IZR j - 1 / 2 + 1) with (IZR j + 1 / 2) in MV by field.
  apply Rabs_le_inv in MV, ER. apply Rabs_le. lra.
Qed.
Print Assumptions C79_interpolated.
(** The latitude left out: at 89.5 degrees south the two latitudes coincide, and the interpolation raises. *)
Theorem C79_south_refuted : forall m, (-18000 <= m <= 36000)%Z -> exists x1 x2 y1 y2, fget_four_surrounding_points (read_lat (-8950)) (read_lon m) 0 = Ok (x1, x2, y1, y2) /\
  is_double y1 (- 89 - 1 / 2) /\ is_double y2 (- 89 - 1 / 2) /\
  forall f11 f12 f21 f22, fbilinear_interp x1 x2 y1 y2 (read_lon m) (read_lat (-8950)) f11 f12 f21 f22 = Err AssertionError.
Proof.
  intros m Mb. pose proof (hund_decode (-8950) ltac:(lia)) as [a [I [E A]]]. pose proof (hund_lon m Mb) as HO. set (m' := (if (18000 <? m)%Z then m - 36000 else m)%Z) in *.
  assert (HA : hund (read_lat (-8950)) (-8950) (2 / 10 ^ 10)) by (exists a; split; [exact I|split; [lra|exact A]]).
  assert (M' : (-18000 <= m' <= 18000)%Z) by (unfold m'; destruct (18000 <? m)%Z eqn:L; [apply Z.ltb_lt in L|apply Z.ltb_ge in L]; lia).
  destruct (points_hund _ _ _ _ _ HA HO ltac:(lra) ltac:(lia) M' 0%Z) as [x1 [x2 [y1 [y2 [P [X1 [X2 [Y2 Y1]]]]]]]]. cbn [Z.eqb] in Y1, Y2.
  assert (W : is y2 (- 89 - 1 / 2)). { destruct Y2 as [F V]. split; [exact F|]. rewrite V. replace (89 - (8950 - -8950) / 100)%Z with (-90)%Z by reflexivity. field. }
  exists x1, x2, y1, y2. split; [exact P|]. split; [exact Y1|]. split; [exact W|]. destruct HO as [b [IB _]]. intros. refine (C78_raises _ _ _ _ _ _ _ _ _ _ _ _ _ _ _ _ X1 X2 Y1 W IB I _). do 5 right. lra.
Qed.
Print Assumptions C79_south_refuted.
(** Other doubles than those of a report in hundredths may get the wrong points: for the largest double below a half the points are 359.5 W and 1.5 E. *)
Theorem C79_west_refuted : exists x1 x2 y1 y2, let lon := fsub fhalf (fdiv (fz 1) (fz (2 ^ 54))) in flt lon fhalf = true /\
  fget_four_surrounding_points (fz 0) lon 0 = Ok (x1, x2, y1, y2) /\ feq x1 (fopp (fq (3595 # 10))) = true /\ feq x2 (fq (3 # 2)) = true.
Proof.
  set (lon := fsub fhalf (fdiv (fz 1) (fz (2 ^ 54)))).
  assert (T : match fget_four_surrounding_points (fz 0) lon 0 with Ok (x1, x2, y1, y2) => flt lon fhalf && feq x1 (fopp (fq (3595 # 10))) && feq x2 (fq (3 # 2)) = true | Err _ => False end) by (vm_compute; reflexivity).
  destruct (fget_four_surrounding_points (fz 0) lon 0) as [[[[x1 x2] y1] y2]|] eqn:G; [|contradiction]. apply andb_prop in T. destruct T as [T C]. apply andb_prop in T. destruct T as [A B].
  exists x1, x2, y1, y2. cbv zeta. exact (conj A (conj G (conj B C))).
Qed.
Print Assumptions C79_west_refuted.
(** And for the smallest double above a half the northern line lies below the latitude, so that the interpolation raises. *)
Theorem C79_north_refuted : exists x1 x2 y1 y2, let lat := fadd fhalf (fdiv (fz 1) (fz (2 ^ 53))) in flt fhalf lat = true /\
  fget_four_surrounding_points lat (fz 0) 0 = Ok (x1, x2, y1, y2) /\ feq y2 fhalf = true /\
  forall f11 f12 f21 f22, fbilinear_interp x1 x2 y1 y2 (fz 0) lat f11 f12 f21 f22 = Err AssertionError.
Proof.
  set (lat := fadd fhalf (fdiv (fz 1) (fz (2 ^ 53)))).
  assert (T : match fget_four_surrounding_points lat (fz 0) 0 with Ok (x1, x2, y1, y2) => flt fhalf lat && feq y2 fhalf && negb (fle y1 lat && fle lat y2) = true | Err _ => False end) by (vm_compute; reflexivity).
  destruct (fget_four_surrounding_points lat (fz 0) 0) as [[[[x1 x2] y1] y2]|] eqn:G; [|contradiction]. apply andb_prop in T. destruct T as [T C]. apply andb_prop in T. destruct T as [A B]. apply negb_true_iff in C.
  exists x1, x2, y1, y2. cbv zeta. split; [exact A|]. split; [exact G|]. split; [exact B|]. intros. unfold fbilinear_interp. rewrite C. destruct (fle x1 (fz 0) && fle (fz 0) x2); reflexivity.
Qed.
Print Assumptions C79_north_refuted.

(* ---- a case: the values 1, 2, 3 and 5 at the corners of the cell from 0.5 to 1.5 degrees ---- *)
Example C78_ex : let one := fadd fhalf (fz 1) in in_cell 5 fhalf one fhalf one (fz 1) one (fz 1) (fz 2) (fz 3) (fz 5) (1 / 2) (3 / 2) (1 / 2) (3 / 2) 1 (3 / 2) 1 2 3 5 /\
  bilinear (1 / 2) (3 / 2) (1 / 2) (3 / 2) 1 (3 / 2) 1 2 3 5 = 7 / 2 /\
  match fbilinear_interp fhalf one fhalf one (fz 1) one (fz 1) (fz 2) (fz 3) (fz 5) with Ok v => feq v (fq (7 # 2)) | Err _ => false end = true.
Proof.
  cbv zeta. assert (O : forall k, (1 <= k <= 5)%Z -> is_double (fz k) (IZR k)) by (intros; apply is_fz; lia). pose proof is_half as H.
  assert (O3 : is_double (fadd fhalf (fz 1)) (3 / 2)). { pose proof (is_add _ _ _ _ H (O 1%Z ltac:(lia))) as I. replace (1 / 2 + 1) with (3 / 2) in I by field. rewrite rnd_id in I by (apply (dbl_half 3); lia). apply I. apply small_big. rewrite Rabs_pos_eq; lra. }
  assert (A : forall k, (1 <= k <= 5)%Z -> Rabs (IZR k) <= 5) by (intros; rewrite Rabs_pos_eq; apply IZR_le; lia).
  split; [|split; [unfold bilinear; field|vm_compute; reflexivity]]. split.
  - auto.
  - split; [apply (O 1%Z); lia|]. split; [exact O3|]. lra.
  - split; [apply (O 1%Z); lia|]. split; [apply (O 2%Z); lia|]. split; [apply (O 3%Z); lia|apply (O 5%Z); lia].
  - split; [apply (A 1%Z); lia|]. split; [apply (A 2%Z); lia|]. split; [apply (A 3%Z); lia|apply (A 5%Z); lia].
  - lra.
Qed.
(* ---- a case: 12.34 N, 200.05 E, that is 159.95 W ---- *)
Example C79_ex : (-9000 <= 1234 <= 9000)%Z /\ (1234 <> -8950)%Z /\ (-18000 <= 20005 <= 36000)%Z /\ reported_lon 20005 = - (15995 / 100) /\
  match fget_four_surrounding_points (read_lat 1234) (read_lon 20005) 0 with
  | Ok (x1, x2, y1, y2) => feq x1 (fopp (fq (3210 # 20))) && feq x2 (fopp (fq (3190 # 20))) && feq y1 (fq (23 # 2)) && feq y2 (fq (25 # 2)) | Err _ => false end = true.
Proof. split; [lia|]. split; [lia|]. split; [lia|]. split; [unfold reported_lon; cbn; field|vm_compute; reflexivity]. Qed.
