(** Lemmas about the time variable of the solar elevation. *)
Require Import ZArith List Reals Lra Lia.
Require Import Verif.S_Calendar Verif.L_Calendar Verif.S_Sun Verif.M_SunR.
Open Scope R_scope.
Lemma newyears : forall y, (1901 <= y <= 2099)%Z -> (jd y 1 1 - jd 1980 1 1 = 365 * (y - 1980) + (y - 1980 + 3) / 4)%Z.
Proof.
  assert (K : forallb (fun k => let y := (1901 + Z.of_nat k)%Z in (jd y 1 1 - jd 1980 1 1 =? 365 * (y - 1980) + (y - 1980 + 3) / 4)%Z) (seq 0 199) = true) by (vm_compute; reflexivity).
  intros y Y. rewrite forallb_forall in K. specialize (K (Z.to_nat (y - 1901))). cbv zeta in K. rewrite Z2Nat.id in K by lia. replace (1901 + (y - 1901))%Z with y in K by lia.
  apply Z.eqb_eq, K. apply in_seq. lia.
Qed.
Lemma sun_time_days : forall d k hour minute, valid d -> (1901 <= yr d <= 2099)%Z -> day_number d k ->
  sun_time (yr d) k hour minute = IZR (jdd d - jd 1980 1 1) - 1 + (hour + minute / 60) / 24 - (if Z_lt_dec (yr d) 1980 then if Z.eq_dec (yr d mod 4) 0 then 0 else 1 else 0).
Proof.
  intros d k hour minute V Y [K D]. apply days_later_jdd in D. rewrite Z2Nat.id in D by lia. unfold jdd at 2 in D. cbn [yr mo dy] in D.
  pose proof (newyears (yr d) Y) as N. assert (J : (jdd d - jd 1980 1 1 = 365 * (yr d - 1980) + (yr d - 1980 + 3) / 4 + (k - 1))%Z) by lia.
  rewrite J. unfold sun_time, time_in_hours, delyear. clear - Y. set (x := (yr d - 1980)%Z).
  replace (yr d) with (x + 1980)%Z in * by (subst x; lia). clearbody x.
  assert (M : ((x + 1980) mod 4 = x mod 4)%Z) by (replace (x + 1980)%Z with (x + 495 * 4)%Z by lia; apply Z.mod_add; lia). rewrite M.
  pose proof (Z.div_mod x 4 ltac:(lia)) as E. pose proof (Z.mod_pos_bound x 4 ltac:(lia)) as B. pose proof (Z.div_mod (x + 3) 4 ltac:(lia)) as E3. pose proof (Z.mod_pos_bound (x + 3) 4 ltac:(lia)) as B3.
  destruct (Z.eq_dec (x mod 4) 0) as [M0|M0].
  - destruct (Z.eq_dec x (x / 4 * 4)) as [_|C]; [|lia]. assert (X : ((x + 3) / 4 = x / 4)%Z) by lia. rewrite X, !plus_IZR, mult_IZR, minus_IZR.
    destruct (Z_lt_dec x 0), (Z_lt_dec (x + 1980) 1980); try lia; lra.
  - destruct (Z.eq_dec x (x / 4 * 4)) as [C|_]; [lia|]. assert (X : ((x + 3) / 4 = x / 4 + 1)%Z) by lia. rewrite X, !plus_IZR, mult_IZR, minus_IZR.
    destruct (Z_lt_dec x 0), (Z_lt_dec (x + 1980) 1980); try lia; lra.
Qed.
