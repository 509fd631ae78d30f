(** C69: the grid cell of a position in double precision. *)
Require Import ZArith QArith Reals Lra Lia Bool.
From Flocq Require Import Core.Core IEEE754.BinarySingleNaN.
Require Import Verif.M_Base Verif.M_Grid Verif.M_Float Verif.S_Float Verif.L_Float Verif.L_Float2 Verif.L_Float3.
Open Scope R_scope.

(** The MDS functions on one-degree cells: the cell they give contains the position, without any error. *)
Theorem C69_mds_row : forall x lat, is_double x lat -> -90 <= lat <= 90 -> exists k, fmds_lat_to_yindex x (fz 1) = Ok k /\ (0 <= k <= 179)%Z /\ in_row 1 k lat 0.
Proof. apply (mds_row (fz 1) 1 1 0 90); [apply is_one|lia|lra|lra|lra|unfold Rminus; rewrite Rplus_opp_r, Rabs_R0; apply bpow_ge_0|apply err_one|intros l D L; now rewrite rnd_one|apply d90_1]. Qed.
Print Assumptions C69_mds_row.
Theorem C69_mds_column : forall x lon, is_double x lon -> -180 <= lon <= 180 -> exists k, fmds_lon_to_xindex x (fz 1) = Ok k /\ (0 <= k <= 359)%Z /\ in_column 1 k lon 0.
Proof. apply (mds_column (fz 1) 1 1 0 180); [apply is_one|lia|lra|lra|lra|unfold Rminus; rewrite Rplus_opp_r, Rabs_R0; apply bpow_ge_0|apply err_one|intros l D L; now rewrite rnd_one|apply d180_1]. Qed.
Print Assumptions C69_mds_column.
(** And they agree with the same functions on exact numbers, at cell borders too. *)
Theorem C69_mds_exact : forall x q, is_double x (Q2R q) ->
  (-90 <= Q2R q <= 90 -> fmds_lat_to_yindex x (fz 1) = Ok (mds_lat_to_yindex q 1)) /\ (-180 <= Q2R q <= 180 -> fmds_lon_to_xindex x (fz 1) = Ok (mds_lon_to_xindex q 1)).
Proof. intros x q I. split; [now apply mds_row_agrees|now apply mds_column_agrees]. Qed.
Print Assumptions C69_mds_exact.
(** The MDS functions on cells of 0.05 degrees, for the background fields: no index out of range, and the cell contains the position
    up to 6e-14 degrees. *)
Theorem C69_fine_row : forall x lat, is_double x lat -> -90 <= lat <= 90 -> exists k, fmds_lat_to_yindex x (fq (1 # 20)) = Ok k /\ (0 <= k <= 3599)%Z /\ in_row (1 / 20) k lat (6 / 100000000000000).
Proof.
  intros x lat I B. pose proof twentieth_near as T. destruct (mds_row (fq (1 # 20)) twentieth (1 / 20) (bpow radix2 (-44)) 1800) with (x := x) (a := lat) as [k [K [KB R]]]; try assumption; try lia; try lra.
  - apply is_twentieth.
  - apply bpow_ge_0.
  - apply Rabs_le. cbn in *. split; lra.
  - apply err_twentieth.
  - intros l D L. apply (strict_twentieth l 90 1800 (-46)); auto.
  - rewrite <- r90. apply is_div; [apply is_fz; lia|apply is_twentieth|lra|]. apply small_big. apply Rabs_le. pose proof (quot_bound 90 twentieth). lra.
  - exists k. split; [exact K|]. split; [lia|]. destruct R as [R1 R2]. cbn in R1, R2. split; lra.
Qed.
Print Assumptions C69_fine_row.
Theorem C69_fine_column : forall x lon, is_double x lon -> -180 <= lon <= 180 -> exists k, fmds_lon_to_xindex x (fq (1 # 20)) = Ok k /\ (0 <= k <= 7199)%Z /\ in_column (1 / 20) k lon (6 / 100000000000000).
Proof.
  intros x lon I B. pose proof twentieth_near as T. destruct (mds_column (fq (1 # 20)) twentieth (1 / 20) (bpow radix2 (-44)) 3600) with (x := x) (a := lon) as [k [K [KB R]]]; try assumption; try lia; try lra.
  - apply is_twentieth.
  - apply bpow_ge_0.
  - apply Rabs_le. cbn in *. split; lra.
  - apply err_twentieth.
  - intros l D L. apply (strict_twentieth l 180 3600 (-45)); auto.
  - rewrite <- r180. apply is_div; [apply is_fz; lia|apply is_twentieth|lra|]. apply small_big. apply Rabs_le. pose proof (quot_bound 180 twentieth). lra.
  - exists k. split; [exact K|]. split; [lia|]. destruct R as [R1 R2]. cbn in R1, R2. split; lra.
Qed.
Print Assumptions C69_fine_column.
(** The other functions on one-degree cells. *)
Theorem C69_row : forall x lat, is_double x lat -> -90 <= lat <= 90 -> exists k, flat_to_yindex1 x = Ok k /\ (0 <= k <= 179)%Z /\ in_row 1 k lat (2 / 100000000000000).
Proof. intros x lat I B. destruct (row1_ok x lat I B) as [k [K [KB [R1 R2]]]]. exists k. split; [exact K|]. split; [exact KB|]. cbn in R1, R2. split; lra. Qed.
Print Assumptions C69_row.
Theorem C69_column : forall x lon, is_double x lon -> -540 <= lon <= 540 -> exists k, flon_to_xindex1 x = Ok k /\ (0 <= k <= 359)%Z /\ round_the_globe 1 k lon (12 / 100000000000000).
Proof. intros x lon I B. destruct (column1_ok x lon I B) as [k [K [KB [n [R1 R2]]]]]. exists k. split; [exact K|]. split; [exact KB|]. exists n. cbn in R1, R2. split; lra. Qed.
Print Assumptions C69_column.
(** A climatology with ny rows, whose cell size is worked out as 180. / ny: rows and columns are in range and contain the position up to
    an error, if dividing 180 by the cell size gives the number of rows back. *)
Theorem C69_climatology : forall ny, (1 <= ny <= 10000)%Z -> faithful ny -> let size := fdiv (fz 180) (fz ny) in exists height, is_double size height /\ Rabs (height - 180 / IZR ny) <= 2 / 100000000000000 /\
  (forall x lat, is_double x lat -> -90 <= lat <= 90 -> exists k, flat_to_yindex x size = Ok k /\ (0 <= k <= ny - 1)%Z /\ in_row height k lat (6 / 100000000000000)) /\
  (forall x lon, is_double x lon -> -540 <= lon <= 540 -> exists k, flon_to_xindex x size = Ok k /\ (0 <= k <= 2 * ny - 1)%Z /\ round_the_globe height k lon (3 / 10000000000000)).
Proof.
  intros ny NB F size. destruct (res_ok ny NB F) as [r [R [RB [RE [D1 D2]]]]]. exists r. split; [exact R|]. split; [eapply Rle_trans; [exact RE|cbn; lra]|]. split.
  - intros x lat I B. destruct (row_ok size r ny R RB ltac:(lia) D1 x lat I B) as [k [K [KB [R1 R2]]]]. exists k. split; [exact K|]. split; [exact KB|]. cbn in R1, R2. split; lra.
  - intros x lon I B. destruct (column_ok size r (2 * ny) R ltac:(lra) ltac:(lia) D2 x lon I B) as [k [K [KB [n [R1 R2]]]]]. exists k. split; [exact K|]. split; [exact KB|]. exists n. cbn in R1, R2. split; lra.
Qed.
Print Assumptions C69_climatology.
(** So it is for the grids in use. *)
Example C69_ex : faithful 36 /\ faithful 72 /\ faithful 90 /\ faithful 180 /\ faithful 360 /\ faithful 720 /\ faithful 3600.
Proof. repeat split; vm_compute; reflexivity. Qed.
Example C69_positions : is_double (fq (123 # 10)) (B2R (fq (123 # 10))) /\ fmds_lat_to_yindex (fq (123 # 10)) (fz 1) = Ok 77%Z /\ flat_to_yindex1 (fq (123 # 10)) = Ok 77%Z /\ flon_to_xindex1 (fq (2003 # 10)) = Ok 20%Z.
Proof. repeat split; vm_compute; reflexivity. Qed.

(** Findings. A climatology of 350 rows (and one of 161, 175, 227 and so on): the South Pole gets the index 350, which the array does not
    have. On exact numbers there is no such case (C15). *)
Theorem C69_rows_refuted : is_double (fz (-90)) (-90) /\ flat_to_yindex (fz (-90)) (fdiv (fz 180) (fz 350)) = Ok 350%Z /\ ~ faithful 350.
Proof. split; [exact (is_fz (-90) ltac:(lia))|]. split; [vm_compute; reflexivity|]. intros H. assert (X : feq (fdiv (fz 180) (fdiv (fz 180) (fz 350))) (fz 350) = false) by (vm_compute; reflexivity). unfold faithful in H. congruence. Qed.
Print Assumptions C69_rows_refuted.
(** The cell of lat_to_yindex need not contain the position exactly: a position just north of the equator is put into the row south of it. *)
Theorem C69_row_refuted : exists x lat, is_double x lat /\ 0 < lat <= 90 /\ flat_to_yindex1 x = Ok 90%Z /\ ~ in_row 1 90 lat 0.
Proof.
  assert (S1 : B2SF (fdiv (fz 1) (fz (2 ^ 50))) = SpecFloat.S754_finite false (2 ^ 52) (-102)) by (vm_compute; reflexivity).
  exists (fdiv (fz 1) (fz (2 ^ 50))), (bpow radix2 (-50)). split; [|split; [|split]].
  - split; [rewrite <- is_finite_SF_B2SF, S1; reflexivity|]. rewrite <- SF2R_B2SF, S1. cbn. unfold F2R. cbn. lra.
  - cbn. lra.
  - vm_compute. reflexivity.
  - intros [_ H]. cbn in H. lra.
Qed.
Print Assumptions C69_row_refuted.
(** The documented rule for borders (a latitude of the northern hemisphere on a border goes to the cell north of it) is not kept on cells
    of 0.05 degrees: 0.15 degrees north, read from a record with 15 hundredths, goes to the cell south of it. *)
Theorem C69_border_refuted : fmds_lat_to_yindex (fdecode (fq (1 # 100)) 15) (fq (1 # 20)) = Ok 1797%Z /\ mds_lat_to_yindex (15 # 100) (1 # 20) = 1796%Z.
Proof. split; vm_compute; reflexivity. Qed.
Print Assumptions C69_border_refuted.
