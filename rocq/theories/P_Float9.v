(** C80: the checks of position, time and limits on the readings of a report, in double precision. *)
Require Import String ZArith QArith Reals Lra Lia Bool List.
From Flocq Require Import Core.Core IEEE754.BinarySingleNaN.
Require Import Verif.M_Base Verif.M_Float Verif.S_Float Verif.L_Float Verif.M_Checks Verif.S_Checks Verif.L_Checks Verif.M_BaseQC Verif.M_Float6 Verif.L_Float11 Verif.L_Float12 Verif.M_Float7 Verif.L_Float13.
Import ListNotations.
Open Scope Z_scope.

(** The doubles that a report has for n tenths and for n hundredths. *)
Definition tenths (n : Z) : fl := fdecode (fq (1 # 10)) n.
Definition hundredths (n : Z) : fl := fdecode (fq (1 # 100)) n.

(** The position check: flagged exactly if the latitude is not from -90.00 to 90.00 or the longitude not from -180.00 to 360.00. *)
Theorem C80_position : forall n m, Z.abs n <= 10 ^ 6 -> Z.abs m <= 10 ^ 6 ->
  fposition_check (hundredths n) (hundredths m) = 0 /\ -9000 <= n <= 9000 /\ -18000 <= m <= 36000 \/
  fposition_check (hundredths n) (hundredths m) = 1 /\ ~ (-9000 <= n <= 9000 /\ -18000 <= m <= 36000).
Proof.
  intros n m N M. unfold fposition_check. pose proof (hund_wide n N) as HN. pose proof (hund_wide m M) as HM. fold (hundredths n) in HN. fold (hundredths m) in HM.
  destruct (hund_whole _ _ _ 90 HN ltac:(lra) ltac:(lia)) as [_ [_ [A _]]]. destruct (hund_whole _ _ _ (-90) HN ltac:(lra) ltac:(lia)) as [B _].
  destruct (hund_whole _ _ _ 360 HM ltac:(lra) ltac:(lia)) as [_ [_ [C _]]]. destruct (hund_whole _ _ _ (-180) HM ltac:(lra) ltac:(lia)) as [D _]. rewrite A, B, C, D.
  destruct (Z.ltb_spec n (100 * -90)), (Z.ltb_spec (100 * 90) n), (Z.ltb_spec m (100 * -180)), (Z.ltb_spec (100 * 360) m); cbn [orb]; try lia; ((left; split; [reflexivity|]; lia) || (right; split; [reflexivity|]; lia)).
Qed.
Print Assumptions C80_position.
(** The time check: flagged exactly if the hour is not from 0.00 to 23.99. *)
Theorem C80_time : forall n, Z.abs n <= 10 ^ 6 -> ftime_check (hundredths n) = if (0 <=? n) && (n <=? 2399) then 0 else 1.
Proof.
  intros n N. unfold ftime_check. pose proof (hund_wide n N) as HN. fold (hundredths n) in HN. destruct (hund_whole _ _ _ 24 HN ltac:(lra) ltac:(lia)) as [_ [_ [_ A]]]. destruct (hund_whole _ _ _ 0 HN ltac:(lra) ltac:(lia)) as [B _]. rewrite A, B.
  destruct (Z.leb_spec (100 * 24) n), (Z.ltb_spec n (100 * 0)), (Z.leb_spec 0 n), (Z.leb_spec n 2399); cbn [orb andb]; try reflexivity; lia.
Qed.
Print Assumptions C80_time.
(** The blacklist: the answer is 1 exactly if one of its rules applies to the position in hundredths of a degree, whether the longitude is
    given as it was read or as the report has it. *)
Theorem C80_blacklist : forall id deck year month n m pt lon, -9000 <= n <= 9000 -> -18000 <= m <= 36000 ->
  lon = hundredths m \/ lon = flon (hundredths m) ->
  exists r, fblacklist id deck year month (hundredths n) lon pt = Ok r /\ (r = 0 \/ r = 1) /\
    (r = 1 <-> blacklisted id deck year month (n # 100) ((if 18000 <? m then m - 36000 else m) # 100) pt).
Proof.
  intros id deck year month n m pt lon N M L. pose proof (hund_decode n ltac:(lia)) as HA. pose proof (hund_lon m M) as HO. set (m' := if 18000 <? m then m - 36000 else m) in *.
  assert (M' : m' <= 18000) by (unfold m'; destruct (18000 <? m) eqn:LT; [apply Z.ltb_lt in LT|apply Z.ltb_ge in LT]; lia).
  assert (R : fblacklist id deck year month (hundredths n) lon pt = fblacklist id deck year month (hundredths n) (flon (hundredths m)) pt).
  { destruct L as [-> | ->]; [|reflexivity]. unfold fblacklist. fold (flon (hundredths m)). fold (flon (flon (hundredths m))).
    replace (flon (flon (hundredths m))) with (flon (hundredths m)); [reflexivity|]. change (fdecode (fq (1 # 100)) m) with (hundredths m) in HO. set (x := flon (hundredths m)) in *. unfold flon.
    destruct (hund_whole _ _ _ 180 HO ltac:(lra) ltac:(lia)) as [_ [_ [-> _]]]. destruct (Z.ltb_spec (100 * 180) m') as [?|_]; [lia|reflexivity]. }
  rewrite R. unfold hundredths. rewrite (blacklist_ok id deck year month _ _ n m' _ _ pt HA HO ltac:(lra) ltac:(lra) M').
  apply blacklist_spec'; intro H; [reflexivity|]. exfalso. unfold Qlt in H. cbn [Qnum Qden] in H. lia.
Qed.
Print Assumptions C80_blacklist.
(** The regions in which marine air temperatures are suspect: the comparison of the doubles is that of the decimals. *)
Theorem C80_regions : forall n m, -9000 <= n <= 9000 -> -18000 <= m <= 36000 ->
  let lon := if 18000 <? m then m - 36000 else m in
  fmat_region (flon (hundredths m)) (hundredths n) = true <->
    -8000 <= lon <= 0 /\ 4000 <= n <= 5500 \/ -1000 <= lon <= 3000 /\ 3500 <= n <= 4500 \/ 1500 <= lon <= 4500 /\ -1000 <= n <= 4000 \/
    1500 <= lon <= 9500 /\ -1000 <= n <= 1500 \/ 9500 <= lon <= 10500 /\ -1000 <= n <= 500.
Proof.
  intros n m N M lon. pose proof (hund_decode n ltac:(lia)) as HA. pose proof (hund_lon m M) as HO. fold lon in HO. unfold hundredths. rewrite (mat_region_ok _ _ n lon _ _ HA HO ltac:(lra) ltac:(lra)). unfold mat_region.
  rewrite ?(proj1 (Qle_hund _ _)), ?(proj2 (Qle_hund _ _)). rewrite !orb_true_iff, !andb_true_iff. unfold Qleb, Qle_bool. cbn [Qnum Qden]. rewrite !Z.leb_le. lia.
Qed.
Print Assumptions C80_regions.
(** Hard limits that are whole numbers: a reading in tenths passes exactly if it is within them, the limits included. *)
Theorem C80_limits : forall n lo hi, Z.abs n <= 10 ^ 6 -> Z.abs lo <= 10 ^ 6 -> Z.abs hi <= 10 ^ 6 -> lo < hi ->
  fhard_limit (tenths n) (fz lo) (fz hi) = Ok (if (10 * lo <=? n) && (n <=? 10 * hi) then 0 else 1).
Proof.
  intros n lo hi N L H LH. unfold fhard_limit, tenths. rewrite (flt_is _ _ _ _ (is_fz lo ltac:(lia)) (is_fz hi ltac:(lia))), Rlt_bool_true by (apply IZR_lt; exact LH).
  destruct (ten_whole n lo N L) as [-> _]. destruct (ten_whole n hi N H) as [_ [-> _]]. now destruct (_ && _).
Qed.
Print Assumptions C80_limits.
(** Other limits: a reading equal to a limit in tenths may fail. *)
Theorem C80_limits_refuted : exists n lo hi, 10 * Qnum lo <= n * Zpos (Qden lo) /\ n * Zpos (Qden hi) = 10 * Qnum hi /\ fhard_limit (tenths n) (fq lo) (fq hi) = Ok 1.
Proof. exists 3, (-3 # 10)%Q, (3 # 10)%Q. split; [cbn; lia|]. split; [reflexivity|vm_compute; reflexivity]. Qed.
Print Assumptions C80_limits_refuted.
(** Sea surface temperatures against the freezing point of -1.8, without uncertainty: flagged exactly below -1.8. *)
Theorem C80_freezing : forall n n_sigma s, Z.abs n <= 10 ^ 6 -> is_double n_sigma s -> (Rabs s <= 1000)%R ->
  fsst_freeze_check (tenths n) (fz 0) (fq (-18 # 10)) n_sigma = if n <? -18 then 1 else 0.
Proof. exact freeze_ok. Qed.
Print Assumptions C80_freezing.
(** Supersaturation: flagged exactly if the dew point reading is above the temperature reading. *)
Theorem C80_supersaturation : forall td t, Z.abs td <= 10 ^ 6 -> Z.abs t <= 10 ^ 6 -> fsupersat_check (tenths td) (tenths t) = if t <? td then 1 else 0.
Proof. intros td t A B. unfold fsupersat_check, tenths. now rewrite (ten_order t td B A). Qed.
Print Assumptions C80_supersaturation.
(** Wind: calm (361) with any speed but 0, or variable (362) with a speed above a whole number. *)
Theorem C80_wind : forall w d limit, Z.abs w <= 10 ^ 6 -> Z.abs d <= 10 ^ 6 -> Z.abs limit <= 10 ^ 6 ->
  fwind_consistency (tenths w) (fz d) (fz limit) = if ((d =? 361) && negb (w =? 0)) || ((d =? 362) && (10 * limit <? w)) then 1 else 0.
Proof.
  intros w d limit W D L. unfold fwind_consistency, tenths. rewrite (ten_zero w W). destruct (ten_whole w limit W L) as [_ [_ ->]].
  assert (E : forall z, Z.abs z <= 1000 -> feq (fz d) (fz z) = (d =? z)). { intros z Z. rewrite (feq_is _ _ _ _ (is_fz d ltac:(lia)) (is_fz z ltac:(lia))). destruct (Z.eqb_spec d z) as [->|N]; [apply Req_bool_true; reflexivity|apply Req_bool_false; intro H; apply N, eq_IZR; exact H]. }
  rewrite !E by lia. destruct (d =? 361), (d =? 362), (w =? 0), (10 * limit <? w); reflexivity.
Qed.
Print Assumptions C80_wind.

(* ---- cases: readings at and beside the limits ---- *)
Example C80_ex : fposition_check (hundredths 9000) (hundredths 36000) = 0 /\ fposition_check (hundredths 9001) (hundredths 0) = 1 /\ ftime_check (hundredths 2400) = 1 /\ ftime_check (hundredths 2399) = 0 /\
  fblacklist None (Some 732) 1974 3 (hundredths (-4700)) (flon (hundredths 30250)) None = Ok 1 /\ fblacklist None (Some 732) 1974 3 (hundredths (-4501)) (flon (hundredths 30501)) None = Ok 0 /\
  fmat_region (flon (hundredths 36000)) (hundredths 5500) = true /\ fhard_limit (tenths 450) (fz (-5)) (fz 45) = Ok 0 /\ fhard_limit (tenths 451) (fz (-5)) (fz 45) = Ok 1 /\
  fsst_freeze_check (tenths (-18)) (fz 0) (fq (-18 # 10)) (fz 2) = 0 /\ fsst_freeze_check (tenths (-19)) (fz 0) (fq (-18 # 10)) (fz 2) = 1 /\ fsupersat_check (tenths 181) (tenths 180) = 1 /\
  fwind_consistency (tenths 1) (fz 361) (fz 3) = 1.
Proof. repeat split; vm_compute; reflexivity. Qed.
