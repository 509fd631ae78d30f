(** The points around a position in hundredths of a degree. *)
Require Import ZArith QArith Reals Lra Lia Bool List.
From Flocq Require Import Core.Core IEEE754.BinarySingleNaN.
Require Import Verif.M_Base Verif.M_Float Verif.S_Float Verif.L_Float Verif.L_Float5 Verif.L_Float6 Verif.M_Float6 Verif.S_Float3 Verif.L_Float10.
Import ListNotations.
Open Scope R_scope.

(** A double slightly above a double rounds to it. *)
Lemma rnd_above : forall f v, dbl f -> 0 <= f -> f <= v -> v - f <= f * bpow radix2 (-55) -> rnd v = f.
Proof.
  intros f v D P L H. apply Rle_antisym; [|now apply rnd_ge]. destruct (Rle_or_lt (rnd v) f) as [K|K]; [exact K|exfalso].
  pose proof (succ_le_lt radix2 (FLT_exp (-1074) 53) f (rnd v) D (rnd_dbl v) K) as S. rewrite succ_eq_pos in S by exact P.
  pose proof (@ulp_FLT_gt radix2 (-1074) 53 p53 f) as G. rewrite (Rabs_pos_eq f) in G by exact P.
  destruct (round_N_pt radix2 (FLT_exp (-1074) 53) (fun x => negb (Z.even x)) v) as [_ N]. specialize (N f D). fold (rnd v) in N. change (round radix2 (FLT_exp (-1074) 53) (Znearest (fun x => negb (Z.even x))) v) with (rnd v) in N.
  rewrite (Rabs_left1 (f - v)) in N by lra. assert (rnd v <= v + (v - f)). { apply Rabs_le_inv in N. lra. }
  change (- (53))%Z with (-53)%Z in G. assert (bpow radix2 (-53) = 4 * bpow radix2 (-55)) by (cbn; lra). assert (0 <= f * bpow radix2 (-55)) by (apply Rmult_le_pos; [exact P|apply bpow_ge_0]). nra.
Qed.
Lemma dbl_half : forall k, (Z.abs k <= 2 ^ 50)%Z -> dbl (IZR k / 2).
Proof. intros k H. replace (IZR k / 2) with (IZR k * bpow radix2 (-1)) by (cbn; lra). apply dbl_scaled; lia. Qed.
Lemma hundredth : exists r, is (fq (1 # 100)) r /\ r = (1 + 12 / IZR (2 ^ 59)) / 100.
Proof.
  exists (B2R (fq (1 # 100))). assert (S1 : B2SF (fq (1 # 100)) = SpecFloat.S754_finite false 5764607523034235 (-59)) by (vm_compute; reflexivity).
  split; [split; [rewrite <- is_finite_SF_B2SF, S1; reflexivity|reflexivity]|]. rewrite <- SF2R_B2SF, S1. cbn. unfold F2R. cbn. lra.
Qed.
(** Half degrees are read exactly. *)
Lemma decode_half : forall k, (Z.abs k <= 10 ^ 6)%Z -> is (fdecode (fq (1 # 100)) (50 * k)) (IZR k / 2).
Proof.
  intros k H. destruct hundredth as [r [R E]]. unfold fdecode. assert (KB : -1000000 <= IZR k <= 1000000) by (split; apply IZR_le; lia).
  assert (RB : 0 < r <= 1) by (rewrite E; cbn; lra).
  assert (I : is (fmul (fz (50 * k)) (fq (1 # 100))) (rnd (IZR (50 * k) * r))).
  { apply is_mul; [apply is_fz; lia|exact R|]. apply small_big. rewrite Rabs_mult, (Rabs_pos_eq r) by lra. apply Rle_trans with (100000000 * 1); [|lra]. apply Rmult_le_compat; try lra; [apply Rabs_pos|]. rewrite mult_IZR. apply Rabs_le. lra. }
  assert (V : forall j, (0 <= j <= 10 ^ 6)%Z -> rnd (IZR (50 * j) * r) = IZR j / 2).
  { intros j J. assert (JB : 0 <= IZR j <= 1000000) by (split; apply IZR_le; lia). apply rnd_above; [apply dbl_half; lia|lra| |]; rewrite mult_IZR, E; [assert (0 <= IZR j * / IZR (2 ^ 59)) by (apply Rmult_le_pos; [lra|cbn; lra]); lra|].
    replace (50 * IZR j * ((1 + 12 / IZR (2 ^ 59)) / 100) - IZR j / 2) with (IZR j / 2 * (12 / IZR (2 ^ 59))) by (field; apply IZR_neq; lia). apply Rmult_le_compat_l; [lra|cbn; lra]. }
  destruct (Z_le_gt_dec 0 k) as [P|P].
  - now rewrite V in I by lia.
  - replace (IZR (50 * k) * r) with (- (IZR (50 * - k) * r)) in I by (rewrite !mult_IZR, opp_IZR; ring). rewrite rnd_opp, V, opp_IZR in I by lia. replace (- (- IZR k / 2)) with (IZR k / 2) in I by field. exact I.
Qed.

(** x is the double for m hundredths, up to e, and exact at half degrees. *)
Definition hund (x : fl) (m : Z) (e : R) : Prop := exists a, is x a /\ Rabs (a - IZR m / 100) <= e /\ ((50 | m)%Z -> a = IZR m / 100).
Lemma hund_decode : forall m, (Z.abs m <= 36000)%Z -> hund (fdecode (fq (1 # 100)) m) m (1 / 10 ^ 10).
Proof.
  intros m H. assert (MB : -36000 <= IZR m <= 36000) by (split; apply IZR_le; lia).
  assert (QE : Q2R (1 # 100) = / 100) by (unfold Q2R; cbn; lra).
  destruct (decode_near (1 # 100) m) as [v [r [_ [_ [I E]]]]]; try (cbn; lia); [rewrite QE; lra|]. rewrite QE in E.
  exists v. split; [exact I|]. split.
  - eapply Rle_trans; [exact E|]. assert (Rabs (IZR m * / 100) <= 360) by (apply Rabs_le; lra). lra.
  - intros [k ->]. pose proof (decode_half k ltac:(lia)) as [F G]. rewrite (Z.mul_comm k 50) in *. destruct I as [_ <-]. rewrite G, mult_IZR. field.
Qed.
Lemma hund_half : forall x k, is x (IZR k / 2) -> hund x (50 * k) 0.
Proof. intros x k I. exists (IZR k / 2). split; [exact I|]. rewrite mult_IZR. split; [|intros _; field]. replace (IZR k / 2 - 50 * IZR k / 100) with 0 by field. rewrite Rabs_R0. lra. Qed.
Lemma hund_z : forall n, (Z.abs n <= 10 ^ 6)%Z -> hund (fz n) (100 * n) 0.
Proof. intros n H. replace (100 * n)%Z with (50 * (2 * n))%Z by ring. apply hund_half. rewrite mult_IZR. replace (2 * IZR n / 2) with (IZR n) by field. apply is_fz. lia. Qed.
Lemma hund_zz : forall n k, k = (100 * n)%Z -> (Z.abs n <= 10 ^ 6)%Z -> hund (fz n) k 0.
Proof. intros n k -> H. now apply hund_z. Qed.
Lemma is_half : is fhalf (1 / 2).
Proof. pose proof (is_fq (1 # 2) ltac:(cbn; lia) ltac:(cbn; lia)) as I. cbn [Qnum Qden] in I. rewrite rnd_id in I; [exact I|]. apply (dbl_half 1). lia. Qed.
Lemma hund_half1 : hund fhalf 50 0.
Proof. exact (hund_half _ 1 is_half). Qed.
Lemma hund_add : forall x y m k e f, hund x m e -> hund y k f -> (50 | m)%Z \/ (50 | k)%Z -> (Z.abs m <= 10 ^ 6)%Z -> (Z.abs k <= 10 ^ 6)%Z -> e + f <= 1 -> hund (fadd x y) (m + k) (e + f + 1 / 10 ^ 11).
Proof.
  intros x y m k e f [a [I [E A]]] [b [J [F B]]] D HM HK EF. assert (MB : -1000000 <= IZR m <= 1000000) by (split; apply IZR_le; lia). assert (KB : -1000000 <= IZR k <= 1000000) by (split; apply IZR_le; lia).
  assert (S : Rabs (a + b - IZR (m + k) / 100) <= e + f). { rewrite plus_IZR. replace (a + b - (IZR m + IZR k) / 100) with ((a - IZR m / 100) + (b - IZR k / 100)) by field. eapply Rle_trans; [apply Rabs_triang|]. lra. }
  assert (SB : Rabs (a + b) <= 20001). { rewrite plus_IZR in S. apply Rabs_le_inv in S. apply Rabs_le. lra. }
  exists (rnd (a + b)). split; [apply is_add; [exact I|exact J|apply small_big; lra]|]. split.
  - pose proof (err_le _ _ SB ltac:(lra)) as K. pose proof u_pos. replace (rnd (a + b) - IZR (m + k) / 100) with ((rnd (a + b) - (a + b)) + (a + b - IZR (m + k) / 100)) by ring. eapply Rle_trans; [apply Rabs_triang|]. lra.
  - intro Q. assert (QM : (50 | m)%Z /\ (50 | k)%Z).
    { destruct D as [D|D]; split; try exact D; [replace k with (m + k - m)%Z by ring|replace m with (m + k - k)%Z by ring]; now apply Z.divide_sub_r. }
    destruct QM as [QM QK]. rewrite (A QM), (B QK), plus_IZR. replace (IZR m / 100 + IZR k / 100) with ((IZR m + IZR k) / 100) by field. apply rnd_id. destruct Q as [j Q]. rewrite <- plus_IZR, Q, mult_IZR. replace (IZR j * 50 / 100) with (IZR j / 2) by field. apply dbl_half. lia.
Qed.
Lemma hund_opp : forall x m e, hund x m e -> hund (fopp x) (- m) e.
Proof. intros x m e [a [I [E A]]]. exists (- a). split; [now apply is_fopp|]. rewrite opp_IZR. split; [replace (- a - - IZR m / 100) with (- (a - IZR m / 100)) by field; now rewrite Rabs_Ropp|]. intro Q. rewrite A; [field|]. exact (proj1 (Z.divide_opp_r 50 m) Q). Qed.
Lemma hund_sub : forall x y m k e f, hund x m e -> hund y k f -> (50 | m)%Z \/ (50 | k)%Z -> (Z.abs m <= 10 ^ 6)%Z -> (Z.abs k <= 10 ^ 6)%Z -> e + f <= 1 -> hund (fsub x y) (m - k) (e + f + 1 / 10 ^ 11).
Proof.
  intros x y m k e f H K D HM HK EF. pose proof (hund_opp _ _ _ K) as K'. destruct (hund_add x (fopp y) m (- k) e f H K') as [a [I [E A]]]; [destruct D as [D|D]; [now left|right; exact (proj2 (Z.divide_opp_r 50 k) D)]|exact HM|lia|exact EF|].
  destruct H as [a0 [I0 [E0 _]]], K as [b0 [J0 [F0 _]]]. exists a. split; [|split; [exact E|exact A]].
  assert (MB : -1000000 <= IZR m <= 1000000) by (split; apply IZR_le; lia). assert (KB : -1000000 <= IZR k <= 1000000) by (split; apply IZR_le; lia).
  assert (SB : Rabs (a0 - b0) <= 20001) by (apply Rabs_le_inv in E0, F0; apply Rabs_le; lra).
  pose proof (is_sub _ _ _ _ I0 J0 ltac:(apply small_big; lra)) as S. pose proof (is_add _ _ _ _ I0 (is_fopp _ _ J0) ltac:(apply small_big; exact SB || (replace (a0 + - b0) with (a0 - b0) by ring; lra))) as T.
  assert (a = rnd (a0 - b0)) by (destruct I as [_ <-]; destruct T as [_ T]; exact T). subst a. exact S.
Qed.
(** Comparisons with half degrees, and integer parts, are those of the hundredths. *)
Lemma hund_cmp : forall x y m k e f, hund x m e -> hund y k f -> (50 | m)%Z \/ (50 | k)%Z -> e + f <= 1 / 1000 -> flt x y = (m <? k)%Z /\ fle x y = (m <=? k)%Z.
Proof.
  intros x y m k e f [a [I [E A]]] [b [J [F B]]] D EF. rewrite (flt_is _ _ _ _ I J), (fle_is _ _ _ _ I J). apply Rabs_le_inv in E, F.
  assert (T : forall p q, (p < q)%Z -> IZR p / 100 + 1 / 100 <= IZR q / 100). { intros p q H. assert (IZR p + 1 <= IZR q) by (rewrite <- plus_IZR; apply IZR_le; lia). lra. }
  destruct (Z.lt_trichotomy m k) as [H|[H|H]].
  - specialize (T _ _ H). rewrite Rlt_bool_true, Rle_bool_true by lra. split; symmetry; [apply Z.ltb_lt|apply Z.leb_le]; lia.
  - subst k. assert (Q : (50 | m)%Z) by (destruct D; assumption). rewrite (A Q), (B Q). rewrite Rlt_bool_false, Rle_bool_true by lra. split; symmetry; [apply Z.ltb_ge|apply Z.leb_le]; lia.
  - specialize (T _ _ H). rewrite Rlt_bool_false, Rle_bool_false by lra. split; symmetry; [apply Z.ltb_ge|apply Z.leb_gt]; lia.
Qed.
Lemma hund_int : forall x m e, hund x m e -> (0 <= m)%Z -> e <= 1 / 1000 -> fint x = Ok (m / 100)%Z.
Proof.
  intros x m e [a [I [E A]]] P L. rewrite (fint_is _ _ I). f_equal. apply Rabs_le_inv in E. set (q := (m / 100)%Z). assert (DM : m = (100 * q + m mod 100)%Z) by (apply Z.div_mod; lia). pose proof (Z.mod_pos_bound m 100 ltac:(lia)) as MP.
  assert (Q0 : (0 <= q)%Z) by (apply Z.div_pos; lia). assert (QR : 0 <= IZR q) by (apply IZR_le; exact Q0).
  destruct (Z.eq_dec (m mod 100) 0) as [Z0|Z0].
  - rewrite A by (exists (2 * q)%Z; lia). replace (IZR m / 100) with (IZR q). { apply Ztrunc_IZR. } rewrite DM, Z0, Z.add_0_r, mult_IZR. field.
  - assert (B : IZR q + 1 / 100 <= IZR m / 100 <= IZR q + 99 / 100).
    { assert (100 * IZR q + 1 <= IZR m <= 100 * IZR q + 99) by (rewrite <- mult_IZR, <- !plus_IZR; split; apply IZR_le; lia). lra. }
    rewrite Ztrunc_floor by lra. apply Zfloor_imp. rewrite plus_IZR. lra.
Qed.
Ltac div50 := first [left; match goal with |- (50 | ?n)%Z => exists (n / 50)%Z; reflexivity end | right; match goal with |- (50 | ?n)%Z => exists (n / 50)%Z; reflexivity end].
Lemma column_hund : forall x m e, hund x m e -> e <= 1 / 10 ^ 6 -> (-18050 <= m <= 18050)%Z -> flon_to_xindex1 x = Ok (((m + 18000) / 100) mod 360)%Z.
Proof.
  intros x m e H E B. assert (E0 : 0 <= e) by (destruct H as [a [_ [K _]]]; eapply Rle_trans; [apply Rabs_pos|exact K]).
  unfold flon_to_xindex1, finlon.
  pose proof (hund_zz 180 18000 eq_refl ltac:(lia)) as H180. pose proof (hund_zz (-180) (-18000) eq_refl ltac:(lia)) as HM180. pose proof (hund_zz 360 36000 eq_refl ltac:(lia)) as H360.
  rewrite (proj2 (hund_cmp _ _ _ _ _ _ H180 H ltac:(div50) ltac:(lra))).
  assert (G : exists y k f, hund y k f /\ f <= 1 / 10 ^ 5 /\ (-18000 <= k < 18000)%Z /\ ((k + 18000) / 100 = ((m + 18000) / 100) mod 360)%Z /\
     (if flt (if (18000 <=? m)%Z then fadd (fz (-180)) (fsub x (fz 180)) else x) (fz (-180)) then fadd (if (18000 <=? m)%Z then fadd (fz (-180)) (fsub x (fz 180)) else x) (fz 360) else (if (18000 <=? m)%Z then fadd (fz (-180)) (fsub x (fz 180)) else x)) = y).
  { destruct (Z.leb_spec 18000 m) as [L|L].
    - pose proof (hund_sub _ _ _ _ _ _ H H180 ltac:(div50) ltac:(lia) ltac:(lia) ltac:(lra)) as H1. pose proof (hund_add _ _ _ _ _ _ HM180 H1 ltac:(div50) ltac:(lia) ltac:(lia) ltac:(lra)) as H2.
      replace (-18000 + (m - 18000))%Z with (m - 36000)%Z in H2 by ring. rewrite (proj1 (hund_cmp _ _ _ _ _ _ H2 HM180 ltac:(div50) ltac:(lra))). rewrite (proj2 (Z.ltb_ge _ _)) by lia.
      eexists _, _, _. split; [exact H2|]. split; [lra|]. split; [lia|]. split; [|reflexivity]. replace (m - 36000 + 18000)%Z with (m + 18000 + (-360) * 100)%Z by ring. rewrite Z.div_add by lia.
      assert (360 <= (m + 18000) / 100 < 361)%Z by (split; [apply Z.div_le_lower_bound; lia|apply Z.div_lt_upper_bound; lia]). replace ((m + 18000) / 100)%Z with 360%Z by lia. reflexivity.
    - rewrite (proj1 (hund_cmp _ _ _ _ _ _ H HM180 ltac:(div50) ltac:(lra))). destruct (Z.ltb_spec m (-18000)) as [K|K].
      + pose proof (hund_add _ _ _ _ _ _ H H360 ltac:(div50) ltac:(lia) ltac:(lia) ltac:(lra)) as H1. eexists _, _, _. split; [exact H1|]. split; [lra|]. split; [lia|]. split; [|reflexivity].
        replace (m + 36000 + 18000)%Z with (m + 18000 + 360 * 100)%Z by ring. rewrite Z.div_add by lia. assert (-1 <= (m + 18000) / 100 < 0)%Z by (split; [apply Z.div_le_lower_bound; lia|apply Z.div_lt_upper_bound; lia]). replace ((m + 18000) / 100)%Z with (-1)%Z by lia. reflexivity.
      + exists x, m, e. split; [exact H|]. split; [lra|]. split; [lia|]. split; [|reflexivity]. rewrite Z.mod_small; [reflexivity|]. split; [apply Z.div_pos; lia|apply Z.div_lt_upper_bound; lia]. }
  destruct G as [y [k [f [HY [F [KB [KE ->]]]]]]].
  assert (F0 : 0 <= f) by (destruct HY as [a [_ [K _]]]; eapply Rle_trans; [apply Rabs_pos|exact K]).
  pose proof (hund_add _ _ _ _ _ _ HY H180 ltac:(div50) ltac:(lia) ltac:(lia) ltac:(lra)) as H3. rewrite (hund_int _ _ _ H3 ltac:(lia) ltac:(lra)). cbn [bind]. rewrite KE.
  assert (MB : (0 <= ((m + 18000) / 100) mod 360 < 360)%Z) by (apply Z.mod_pos_bound; lia). set (z := (((m + 18000) / 100) mod 360)%Z) in *.
  destruct (Z.to_nat z); cbn [fwrap1]; rewrite (proj2 (Z.leb_gt _ _)) by lia; reflexivity.
Qed.
Lemma row_hund : forall x n e, hund x n e -> e <= 1 / 10 ^ 6 -> (-9000 <= n <= 9000)%Z -> flat_to_yindex1 x = Ok (Z.min 179 ((9000 - n) / 100)).
Proof.
  intros x n e H E B. assert (E0 : 0 <= e) by (destruct H as [a [_ [K _]]]; eapply Rle_trans; [apply Rabs_pos|exact K]).
  unfold flat_to_yindex1. pose proof (hund_zz 90 9000 eq_refl ltac:(lia)) as H90. pose proof (hund_sub _ _ _ _ _ _ H90 H ltac:(div50) ltac:(lia) ltac:(lia) ltac:(lra)) as H1.
  rewrite (hund_int _ _ _ H1 ltac:(lia) ltac:(lra)). cbn [bind]. assert (P : (0 <= (9000 - n) / 100)%Z) by (apply Z.div_pos; lia). f_equal.
  destruct (Z.leb_spec 180 ((9000 - n) / 100)) as [L|L]; [rewrite (proj2 (Z.ltb_ge _ _)) by lia; lia|]. rewrite (proj2 (Z.ltb_ge _ _)) by lia. lia.
Qed.
Lemma is_12 : is (fdiv (fz 1) (fz 2)) (1 / 2).
Proof. exact is_half. Qed.
Lemma lon_centre : forall k, (0 <= k < 360)%Z -> exists x, fxindex_to_lon1 k = Ok x /\ is x (IZR k - 180 + 1 / 2).
Proof.
  intros k B. unfold fxindex_to_lon1. rewrite (proj2 (Z.leb_le _ _)), (proj2 (Z.ltb_lt _ _)) by lia. eexists. split; [reflexivity|].
  assert (KB : 0 <= IZR k <= 360) by (split; apply IZR_le; lia).
  pose proof (is_sub _ _ _ _ (is_fz k ltac:(lia)) (is_fz 180 ltac:(lia)) ltac:(apply small_big, Rabs_le; lra)) as S. rewrite rnd_id in S by (rewrite <- minus_IZR; apply dbl_Z; lia).
  pose proof (is_add _ _ _ _ S is_12 ltac:(apply small_big, Rabs_le; lra)) as A. rewrite rnd_id in A; [exact A|].
  replace (IZR k - 180 + 1 / 2) with (IZR (2 * k - 359) / 2) by (rewrite minus_IZR, mult_IZR; field). apply dbl_half. lia.
Qed.
Lemma lat_centre : forall k, (0 <= k < 180)%Z -> exists x, fyindex_to_lat1 k = Ok x /\ is x (90 - IZR k - 1 / 2).
Proof.
  intros k B. unfold fyindex_to_lat1. rewrite (proj2 (Z.leb_le _ _)), (proj2 (Z.ltb_lt _ _)) by lia. eexists. split; [reflexivity|].
  assert (KB : 0 <= IZR k <= 180) by (split; apply IZR_le; lia).
  pose proof (is_sub _ _ _ _ (is_fz 90 ltac:(lia)) (is_fz k ltac:(lia)) ltac:(apply small_big, Rabs_le; lra)) as S. rewrite rnd_id in S by (rewrite <- minus_IZR; apply dbl_Z; lia).
  pose proof (is_sub _ _ _ _ S is_12 ltac:(apply small_big, Rabs_le; lra)) as A. rewrite rnd_id in A; [exact A|].
  replace (90 - IZR k - 1 / 2) with (IZR (179 - 2 * k) / 2) by (rewrite minus_IZR, mult_IZR; field). apply dbl_half. lia.
Qed.
Lemma add_half : forall x k j, is x (IZR k / 2) -> (Z.abs k <= 10 ^ 6)%Z -> (Z.abs j <= 10 ^ 6)%Z -> is (fadd x (fz j)) (IZR (k + 2 * j) / 2) /\ is (fsub x (fz j)) (IZR (k - 2 * j) / 2).
Proof.
  intros x k j I K J. assert (KB : -1000000 <= IZR k <= 1000000) by (split; apply IZR_le; lia). assert (JB : -1000000 <= IZR j <= 1000000) by (split; apply IZR_le; lia). split.
  - pose proof (is_add _ _ _ _ I (is_fz j ltac:(lia)) ltac:(apply small_big, Rabs_le; lra)) as A. replace (IZR k / 2 + IZR j) with (IZR (k + 2 * j) / 2) in A by (rewrite plus_IZR, mult_IZR; field). rewrite rnd_id in A by (apply dbl_half; lia). exact A.
  - pose proof (is_sub _ _ _ _ I (is_fz j ltac:(lia)) ltac:(apply small_big, Rabs_le; lra)) as A. replace (IZR k / 2 - IZR j) with (IZR (k - 2 * j) / 2) in A by (rewrite minus_IZR, mult_IZR; field). rewrite rnd_id in A by (apply dbl_half; lia). exact A.
Qed.
Lemma is_dec : forall n k, (k = 5 * n)%Z -> (Z.abs n <= 1000)%Z -> is (fq (k # 10)) (IZR n / 2).
Proof.
  intros n k -> H. pose proof (is_fq ((5 * n) # 10) ltac:(cbn [Qnum]; lia) ltac:(cbn; lia)) as I. cbn [Qnum Qden] in I. replace (IZR (5 * n) / 10) with (IZR n / 2) in I by (rewrite mult_IZR; field). rewrite rnd_id in I; [exact I|]. apply dbl_half. lia.
Qed.
(** The points on doubles; K and J as in the specification. *)
Lemma points_hund : forall fla flo n m e, hund fla n e -> hund flo m e -> e <= 1 / 10 ^ 7 -> (-9000 <= n <= 9000)%Z -> (-18000 <= m <= 18000)%Z ->
  let K := ((m + 50) / 100)%Z in let J := (89 - (8950 - n) / 100)%Z in
  forall max90, exists x1 x2 y1 y2, fget_four_surrounding_points fla flo max90 = Ok (x1, x2, y1, y2) /\ is x1 (IZR K - 1 / 2) /\ is x2 (IZR K + 1 / 2) /\
    is y2 (if (max90 =? 0)%Z then IZR J + 1 / 2 else IZR (Z.min J 89) + 1 / 2) /\
    is y1 (if (n =? -8950)%Z then -89 - 1 / 2 else if (max90 =? 0)%Z then IZR J - 1 / 2 else IZR (Z.max J (-89)) - 1 / 2).
Proof.
  intros fla flo n m e HA HO E NB MB K J max90. assert (E0 : 0 <= e) by (destruct HA as [a [_ [X _]]]; eapply Rle_trans; [apply Rabs_pos|exact X]).
  pose proof hund_half1 as HH.
  pose proof (hund_add _ _ _ _ _ _ HO HH ltac:(div50) ltac:(lia) ltac:(lia) ltac:(lra)) as OP. pose proof (hund_sub _ _ _ _ _ _ HO HH ltac:(div50) ltac:(lia) ltac:(lia) ltac:(lra)) as OM.
  pose proof (hund_add _ _ _ _ _ _ HA HH ltac:(div50) ltac:(lia) ltac:(lia) ltac:(lra)) as AP. pose proof (hund_sub _ _ _ _ _ _ HA HH ltac:(div50) ltac:(lia) ltac:(lia) ltac:(lra)) as AM.
  pose proof (hund_zz 90 9000 eq_refl ltac:(lia)) as H90. pose proof (hund_zz (-90) (-9000) eq_refl ltac:(lia)) as HM90. pose proof (hund_zz 180 18000 eq_refl ltac:(lia)) as H180. pose proof (hund_zz (-180) (-18000) eq_refl ltac:(lia)) as HM180.
  unfold fget_four_surrounding_points.
  rewrite (proj2 (hund_cmp _ _ _ _ _ _ HM90 HA ltac:(div50) ltac:(lra))), (proj2 (hund_cmp _ _ _ _ _ _ HA H90 ltac:(div50) ltac:(lra))).
  rewrite (proj2 (hund_cmp _ _ _ _ _ _ HM180 HO ltac:(div50) ltac:(lra))), (proj2 (hund_cmp _ _ _ _ _ _ HO H180 ltac:(div50) ltac:(lra))).
  rewrite !(proj2 (Z.leb_le _ _)) by lia. cbn [andb].
  rewrite (column_hund _ _ _ OP ltac:(lra) ltac:(lia)), (column_hund _ _ _ OM ltac:(lra) ltac:(lia)). cbn [bind].
  (* columns *)
  assert (DM : (m + 50 = 100 * K + (m + 50) mod 100)%Z) by (apply Z.div_mod; lia). pose proof (Z.mod_pos_bound (m + 50) 100 ltac:(lia)) as MP. assert (KB : (-180 <= K <= 180)%Z) by lia.
  assert (C2 : ((m + 50 + 18000) / 100 = K + 180)%Z) by (replace (m + 50 + 18000)%Z with (m + 50 + 180 * 100)%Z by ring; now rewrite Z.div_add by lia).
  assert (C1 : ((m - 50 + 18000) / 100 = K + 179)%Z) by (replace (m - 50 + 18000)%Z with (m + 50 + 179 * 100)%Z by ring; now rewrite Z.div_add by lia).
  rewrite C1, C2.
  destruct (lon_centre ((K + 180) mod 360) (Z.mod_pos_bound _ 360 ltac:(lia))) as [c2 [L2 I2]]. destruct (lon_centre ((K + 179) mod 360) (Z.mod_pos_bound _ 360 ltac:(lia))) as [c1 [L1 I1]]. rewrite L1, L2. cbn [bind].
  assert (X2 : is (if flt c2 flo then fadd c2 (fz 360) else c2) (IZR K + 1 / 2)).
  { set (z := ((K + 180) mod 360)%Z) in *. assert (I2' : is c2 (IZR (2 * z - 359) / 2)) by (replace (IZR (2 * z - 359) / 2) with (IZR z - 180 + 1 / 2) by (rewrite minus_IZR, mult_IZR; field); exact I2).
    pose proof (hund_half _ _ I2') as HC. rewrite (proj1 (hund_cmp _ _ _ _ _ _ HC HO ltac:(left; exists (2 * z - 359)%Z; ring) ltac:(lra))).
    destruct (Z.eq_dec K 180) as [Q|Q].
    - assert (Z0 : z = 0%Z) by (unfold z; rewrite Q; reflexivity). rewrite (proj2 (Z.ltb_lt _ _)) by lia. destruct (add_half c2 (2 * z - 359) 360 I2' ltac:(lia) ltac:(lia)) as [A _]. replace (IZR K + 1 / 2) with (IZR (2 * z - 359 + 2 * 360) / 2); [exact A|]. rewrite Z0, Q. cbn. lra.
    - assert (Z0 : z = (K + 180)%Z) by (apply Z.mod_small; lia). rewrite (proj2 (Z.ltb_ge _ _)) by lia. replace (IZR K + 1 / 2) with (IZR z - 180 + 1 / 2); [exact I2|]. rewrite Z0, plus_IZR. ring. }
  assert (X1 : is (if flt flo c1 then fsub c1 (fz 360) else c1) (IZR K - 1 / 2)).
  { set (z := ((K + 179) mod 360)%Z) in *. assert (I1' : is c1 (IZR (2 * z - 359) / 2)) by (replace (IZR (2 * z - 359) / 2) with (IZR z - 180 + 1 / 2) by (rewrite minus_IZR, mult_IZR; field); exact I1).
    pose proof (hund_half _ _ I1') as HC. rewrite (proj1 (hund_cmp _ _ _ _ _ _ HO HC ltac:(right; exists (2 * z - 359)%Z; ring) ltac:(lra))).
    destruct (Z.eq_dec K (-180)) as [Q|Q].
    - assert (Z0 : z = 359%Z) by (unfold z; rewrite Q; reflexivity). rewrite (proj2 (Z.ltb_lt _ _)) by lia. destruct (add_half c1 (2 * z - 359) 360 I1' ltac:(lia) ltac:(lia)) as [_ A]. replace (IZR K - 1 / 2) with (IZR (2 * z - 359 - 2 * 360) / 2); [exact A|]. rewrite Z0, Q. cbn. lra.
    - assert (Z0 : z = (K + 179)%Z) by (apply Z.mod_small; lia). rewrite (proj2 (Z.ltb_ge _ _)) by lia. replace (IZR K - 1 / 2) with (IZR z - 180 + 1 / 2); [exact I1|]. rewrite Z0, plus_IZR. field. }
  (* rows *)
  rewrite (proj2 (hund_cmp _ _ _ _ _ _ AP H90 ltac:(div50) ltac:(lra))), (proj2 (hund_cmp _ _ _ _ _ _ HM90 AM ltac:(div50) ltac:(lra))).
  assert (DN : (8950 - n = 100 * (89 - J) + (8950 - n) mod 100)%Z) by (unfold J; replace (89 - (89 - (8950 - n) / 100))%Z with ((8950 - n) / 100)%Z by ring; apply Z.div_mod; lia). pose proof (Z.mod_pos_bound (8950 - n) 100 ltac:(lia)) as NP.
  assert (Y2 : exists y2, (if (n + 50 <=? 9000)%Z then let! k := flat_to_yindex1 (fadd fla fhalf) in fyindex_to_lat1 k else Ok (if (max90 =? 0)%Z then fq (905 # 10) else fq (895 # 10))) = Ok y2 /\ is y2 (if (max90 =? 0)%Z then IZR J + 1 / 2 else IZR (Z.min J 89) + 1 / 2)).
  { destruct (Z.leb_spec (n + 50) 9000) as [L|L].
    - rewrite (row_hund _ _ _ AP ltac:(lra) ltac:(lia)). cbn [bind]. replace ((9000 - (n + 50)) / 100)%Z with (89 - J)%Z by (unfold J; replace (9000 - (n + 50))%Z with (8950 - n)%Z by ring; ring).
      rewrite Z.min_r by lia. destruct (lat_centre (89 - J) ltac:(lia)) as [y [-> Y]]. exists y. split; [reflexivity|]. rewrite Z.min_l by lia. replace (if (max90 =? 0)%Z then IZR J + 1 / 2 else IZR J + 1 / 2) with (90 - IZR (89 - J) - 1 / 2); [exact Y|]. rewrite minus_IZR. destruct (max90 =? 0)%Z; field.
    - assert (JJ : J = 90%Z) by lia. eexists. split; [reflexivity|]. rewrite JJ. destruct (max90 =? 0)%Z; [pose proof (is_dec 181 905 eq_refl ltac:(lia)) as D|pose proof (is_dec 179 895 eq_refl ltac:(lia)) as D]; cbn [Z.min Z.compare Pos.compare Pos.compare_cont]; [replace (90 + 1 / 2) with (181 / 2) by field|replace (89 + 1 / 2) with (179 / 2) by field]; exact D. }
  assert (Y1 : exists y1, (if (-9000 <=? n - 50)%Z then let! k := flat_to_yindex1 (fsub fla fhalf) in fyindex_to_lat1 k else Ok (if (max90 =? 0)%Z then fopp (fq (905 # 10)) else fopp (fq (895 # 10)))) = Ok y1 /\
     is y1 (if (n =? -8950)%Z then -89 - 1 / 2 else if (max90 =? 0)%Z then IZR J - 1 / 2 else IZR (Z.max J (-89)) - 1 / 2)).
  { destruct (Z.leb_spec (-9000) (n - 50)) as [L|L].
    - rewrite (row_hund _ _ _ AM ltac:(lra) ltac:(lia)). cbn [bind]. replace ((9000 - (n - 50)) / 100)%Z with (90 - J)%Z by (unfold J; replace (9000 - (n - 50))%Z with (8950 - n + 1 * 100)%Z by ring; rewrite Z.div_add by lia; ring).
      destruct (Z.eqb_spec n (-8950)) as [Q|Q].
      + rewrite Z.min_l by lia. destruct (lat_centre 179 ltac:(lia)) as [y [-> Y]]. exists y. split; [reflexivity|]. replace (-89 - 1 / 2) with (90 - 179 - 1 / 2) by field. exact Y.
      + rewrite Z.min_r by lia. destruct (lat_centre (90 - J) ltac:(lia)) as [y [-> Y]]. exists y. split; [reflexivity|]. rewrite Z.max_l by lia. replace (if (max90 =? 0)%Z then IZR J - 1 / 2 else IZR J - 1 / 2) with (90 - IZR (90 - J) - 1 / 2); [exact Y|]. rewrite minus_IZR. destruct (max90 =? 0)%Z; field.
    - assert (JJ : J = (-90)%Z) by lia. eexists. split; [reflexivity|]. rewrite (proj2 (Z.eqb_neq n (-8950))) by lia. rewrite JJ. destruct (max90 =? 0)%Z; [pose proof (is_fopp _ _ (is_dec 181 905 eq_refl ltac:(lia))) as D|pose proof (is_fopp _ _ (is_dec 179 895 eq_refl ltac:(lia))) as D]; [replace (-90 - 1 / 2) with (- (181 / 2)) by field|replace (IZR (Z.max (-90) (-89)) - 1 / 2) with (- (179 / 2)) by (cbn; field)]; exact D. }
  destruct Y2 as [y2 [-> Y2]]. destruct Y1 as [y1 [-> Y1]]. cbn [bind]. do 4 eexists. split; [reflexivity|]. auto.
Qed.
