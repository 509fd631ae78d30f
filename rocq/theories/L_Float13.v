(** The checks of position, time and limits in double precision. *)
Require Import String ZArith QArith Reals Lra Lia Bool List.
From Flocq Require Import Core.Core IEEE754.BinarySingleNaN.
Require Import Verif.M_Base Verif.M_Float Verif.S_Float Verif.L_Float Verif.L_Float5 Verif.L_Float6 Verif.M_Checks Verif.M_BaseQC Verif.M_Float6 Verif.S_Float3 Verif.L_Float10 Verif.L_Float11 Verif.L_Float12 Verif.M_Float7.
Import ListNotations.
Open Scope R_scope.

Lemma hund_wide : forall m, (Z.abs m <= 10 ^ 6)%Z -> hund (fdecode (fq (1 # 100)) m) m (1 / 10 ^ 8).
Proof.
  intros m H. assert (MB : -1000000 <= IZR m <= 1000000) by (split; apply IZR_le; lia).
  assert (QE : Q2R (1 # 100) = / 100) by (unfold Q2R; cbn; lra).
  destruct (decode_near (1 # 100) m) as [v [r [_ [_ [I E]]]]]; try (cbn; lia); [rewrite QE; lra|]. rewrite QE in E.
  exists v. split; [exact I|]. split.
  - eapply Rle_trans; [exact E|]. assert (Rabs (IZR m * / 100) <= 10000) by (apply Rabs_le; lra). lra.
  - intros [k ->]. pose proof (decode_half k ltac:(lia)) as [F G]. rewrite (Z.mul_comm k 50) in *. destruct I as [_ <-]. rewrite G, mult_IZR. field.
Qed.
(** Comparison with a whole number of degrees or hours. *)
Lemma hund_whole : forall x m e z, hund x m e -> e <= 1 / 1000 -> (Z.abs z <= 1000)%Z ->
  flt x (fz z) = (m <? 100 * z)%Z /\ fle x (fz z) = (m <=? 100 * z)%Z /\ flt (fz z) x = (100 * z <? m)%Z /\ fle (fz z) x = (100 * z <=? m)%Z.
Proof.
  intros x m e z H E Z. pose proof (hund_z z ltac:(lia)) as HZ. assert (D : (50 | 100 * z)%Z) by (exists (2 * z)%Z; lia).
  pose proof (hund_cmp _ _ _ _ _ _ H HZ (or_intror D) ltac:(lra)) as [A B]. pose proof (hund_cmp _ _ _ _ _ _ HZ H (or_introl D) ltac:(lra)) as [C F]. auto.
Qed.
Lemma fq_fz : forall z, (Z.abs z <= 1000)%Z -> forall x m e, hund x m e -> e <= 1 / 1000 -> fle (fq (z # 1)) x = (100 * z <=? m)%Z /\ fle x (fq (z # 1)) = (m <=? 100 * z)%Z.
Proof.
  intros z Z x m e H E. assert (I : is (fq (z # 1)) (IZR z)). { pose proof (is_fq (z # 1) ltac:(cbn; lia) ltac:(cbn; lia)) as I. cbn [Qnum Qden] in I. replace (IZR z / 1) with (IZR z) in I by field. rewrite rnd_id in I; [exact I|]. apply dbl_Z. lia. }
  assert (HZ : hund (fq (z # 1)) (100 * z) 0). { replace (100 * z)%Z with (50 * (2 * z))%Z by ring. apply hund_half. rewrite mult_IZR. replace (2 * IZR z / 2) with (IZR z) by field. exact I. }
  assert (D : (50 | 100 * z)%Z) by (exists (2 * z)%Z; lia).
  pose proof (hund_cmp _ _ _ _ _ _ H HZ (or_intror D) ltac:(lra)) as [A B]. pose proof (hund_cmp _ _ _ _ _ _ HZ H (or_introl D) ltac:(lra)) as [C F]. auto.
Qed.
Lemma hund_zero : forall x m e, hund x m e -> e <= 1 / 1000 -> feq x (fz 0) = (m =? 0)%Z.
Proof.
  intros x m e [a [I [E A]]] L. rewrite (feq_is _ _ _ _ I (is_fz 0 ltac:(lia))). apply Rabs_le_inv in E.
  assert (T : forall p q, (p < q)%Z -> IZR p / 100 + 1 / 100 <= IZR q / 100). { intros p q H. assert (IZR p + 1 <= IZR q) by (rewrite <- plus_IZR; apply IZR_le; lia). lra. }
  destruct (Z.lt_trichotomy m 0) as [H|[H|H]].
  - specialize (T _ _ H). rewrite Req_bool_false by lra. symmetry. apply Z.eqb_neq. lia.
  - subst m. rewrite A by (exists 0%Z; reflexivity). rewrite Req_bool_true by lra. reflexivity.
  - specialize (T _ _ H). rewrite Req_bool_false by lra. symmetry. apply Z.eqb_neq. lia.
Qed.
Lemma Qle_hund : forall z m, Qleb (z # 1) (m # 100) = (100 * z <=? m)%Z /\ Qleb (m # 100) (z # 1) = (m <=? 100 * z)%Z.
Proof. intros z m. unfold Qleb, Qle_bool. cbn [Qnum Qden]. split; f_equal; lia. Qed.
Definition whole_box (r : res (Q * Q * Q * Q)) : Prop := match r with Ok (a, b, c, d) => Forall (fun q => exists z, q = z # 1 /\ (Z.abs z <= 1000)%Z) [a; b; c; d] | Err _ => True end.
Lemma regions_whole : forall r, whole_box (bl_region r).
Proof.
  intro r. assert (W : forall a b c d, (Z.abs a <= 1000)%Z -> (Z.abs b <= 1000)%Z -> (Z.abs c <= 1000)%Z -> (Z.abs d <= 1000)%Z -> whole_box (Ok (a # 1, b # 1, c # 1, d # 1))).
  { intros a b c d A B C D. repeat (apply Forall_cons; [eexists; split; [reflexivity|assumption]|]). constructor. }
  unfold bl_region. repeat match goal with |- whole_box (match ?x with _ => _ end) => destruct x end; first [exact Logic.I | apply W; lia].
Qed.
Lemma loop_ok : forall regs fla flo n m e f result, hund fla n e -> hund flo m f -> e <= 1 / 1000 -> f <= 1 / 1000 -> fbl_regions_loop regs fla flo result = bl_regions_loop regs (n # 100) (m # 100) result.
Proof.
  intros regs fla flo n m e f result HA HO E F. revert result. induction regs as [|r regs IH]; intro result; [reflexivity|]. cbn [fbl_regions_loop bl_regions_loop]. pose proof (regions_whole r) as W. destruct (bl_region r) as [[[[a b] c] d]|]; [|reflexivity]. cbn [bind]. cbn [whole_box] in W.
  inversion W as [|? ? [za [-> Za]] W2]; subst. inversion W2 as [|? ? [zb [-> Zb]] W3]; subst. inversion W3 as [|? ? [zc [-> Zc]] W4]; subst. inversion W4 as [|? ? [zd [-> Zd]] _]; subst.
  rewrite (proj1 (fq_fz za Za _ _ _ HO F)), (proj2 (fq_fz zc Zc _ _ _ HO F)), (proj1 (fq_fz zb Zb _ _ _ HA E)), (proj2 (fq_fz zd Zd _ _ _ HA E)).
  rewrite (proj1 (Qle_hund za m)), (proj2 (Qle_hund zc m)), (proj1 (Qle_hund zb n)), (proj2 (Qle_hund zd n)). apply IH.
Qed.
Lemma blacklist_ok : forall id deck y mo fla flo n m e f pt, hund fla n e -> hund flo m f -> e <= 1 / 1000 -> f <= 1 / 1000 -> (m <= 18000)%Z -> fblacklist id deck y mo fla flo pt = blacklist id deck y mo (n # 100) (m # 100) pt.
Proof.
  intros id deck y mo fla flo n m e f pt HA HO E F M. unfold fblacklist, blacklist.
  assert (L1 : flt (fz 180) flo = false). { destruct (hund_whole _ _ _ 180 HO F ltac:(lia)) as [_ [_ [-> _]]]. apply Z.ltb_ge. lia. }
  assert (L2 : Qltb 180 (m # 100) = false). { unfold Qltb, Qle_bool. cbn [Qnum Qden]. apply negb_false_iff, Z.leb_le. lia. }
  rewrite L1, L2, (hund_zero _ _ _ HA E), (hund_zero _ _ _ HO F).
  assert (Z0 : forall k, Qeqb (k # 100) 0 = (k =? 0)%Z) by (intro k; unfold Qeqb, Qeq_bool, Zeq_bool; cbn [Qnum Qden]; destruct (Z.eqb_spec k 0) as [->|N]; [reflexivity|]; destruct (Z.compare_spec (k * 1) (0 * 100)); lia || reflexivity).
  rewrite !Z0. destruct (bl_year_to_regions y) as [regs|]; [|reflexivity]. now rewrite (loop_ok regs fla flo n m e f _ HA HO E F).
Qed.
Lemma mat_region_ok : forall fla flo n m e f, hund fla n e -> hund flo m f -> e <= 1 / 1000 -> f <= 1 / 1000 -> fmat_region flo fla = mat_region (Some (m # 100)) (Some (n # 100)).
Proof.
  intros fla flo n m e f HA HO E F. unfold fmat_region, mat_region.
  assert (A : forall z, (Z.abs z <= 1000)%Z -> fle (fz z) fla = Qleb (z # 1) (n # 100) /\ fle fla (fz z) = Qleb (n # 100) (z # 1)) by (intros z Z; destruct (hund_whole _ _ _ z HA E Z) as [_ [-> [_ ->]]]; destruct (Qle_hund z n) as [-> ->]; split; reflexivity).
  assert (O : forall z, (Z.abs z <= 1000)%Z -> fle (fz z) flo = Qleb (z # 1) (m # 100) /\ fle flo (fz z) = Qleb (m # 100) (z # 1)) by (intros z Z; destruct (hund_whole _ _ _ z HO F Z) as [_ [-> [_ ->]]]; destruct (Qle_hund z m) as [-> ->]; split; reflexivity).
  rewrite !(fun z Z => proj1 (A z Z)), !(fun z Z => proj2 (A z Z)), !(fun z Z => proj1 (O z Z)), !(fun z Z => proj2 (O z Z)) by lia. reflexivity.
Qed.

(* ---- tenths ---- *)
Lemma rnd_just_above : forall f v, dbl f -> 0 < f -> f <= v -> v - f <= f * bpow radix2 (-54) -> rnd v = f.
Proof.
  intros f v D P L H. apply Rle_antisym; [|now apply rnd_ge]. destruct (Rle_or_lt (rnd v) f) as [K|K]; [exact K|exfalso].
  pose proof (succ_le_lt radix2 (FLT_exp (-1074) 53) f (rnd v) D (rnd_dbl v) K) as S. rewrite succ_eq_pos in S by lra.
  pose proof (@ulp_FLT_gt radix2 (-1074) 53 p53 f) as G. rewrite (Rabs_pos_eq f) in G by lra.
  destruct (round_N_pt radix2 (FLT_exp (-1074) 53) (fun x => negb (Z.even x)) v) as [_ N]. specialize (N f D). change (round radix2 (FLT_exp (-1074) 53) (Znearest (fun x => negb (Z.even x))) v) with (rnd v) in N.
  rewrite (Rabs_left1 (f - v)) in N by lra. assert (rnd v <= v + (v - f)). { apply Rabs_le_inv in N. lra. }
  change (- (53))%Z with (-53)%Z in G. assert (E : bpow radix2 (-53) = 2 * bpow radix2 (-54)) by (cbn; lra). rewrite E in G. lra.
Qed.
Lemma tenth : exists r, is (fq (1 # 10)) r /\ r = (1 + 1 / IZR (2 ^ 54)) / 10.
Proof.
  exists (B2R (fq (1 # 10))). assert (S1 : B2SF (fq (1 # 10)) = SpecFloat.S754_finite false 7205759403792794 (-56)) by (vm_compute; reflexivity).
  split; [split; [rewrite <- is_finite_SF_B2SF, S1; reflexivity|reflexivity]|]. rewrite <- SF2R_B2SF, S1. cbn. unfold F2R. cbn. lra.
Qed.
(** Whole numbers are read exactly. *)
Lemma decode_whole : forall k, (Z.abs k <= 10 ^ 6)%Z -> is (fdecode (fq (1 # 10)) (10 * k)) (IZR k).
Proof.
  intros k H. destruct tenth as [r [R E]]. unfold fdecode. assert (KB : -1000000 <= IZR k <= 1000000) by (split; apply IZR_le; lia).
  assert (RB : 0 < r <= 1) by (rewrite E; cbn; lra).
  assert (I : is (fmul (fz (10 * k)) (fq (1 # 10))) (rnd (IZR (10 * k) * r))).
  { apply is_mul; [apply is_fz; lia|exact R|]. apply small_big. rewrite Rabs_mult, (Rabs_pos_eq r) by lra. apply Rle_trans with (100000000 * 1); [|lra]. apply Rmult_le_compat; try lra; [apply Rabs_pos|]. rewrite mult_IZR. apply Rabs_le. lra. }
  assert (V : forall j, (0 < j <= 10 ^ 6)%Z -> rnd (IZR (10 * j) * r) = IZR j).
  { intros j J. assert (JB : 1 <= IZR j <= 1000000) by (split; apply IZR_le; lia). apply rnd_just_above; [apply dbl_Z; lia|lra| |]; rewrite mult_IZR, E; [assert (0 <= IZR j * / IZR (2 ^ 54)) by (apply Rmult_le_pos; [lra|cbn; lra]); lra|].
    replace (10 * IZR j * ((1 + 1 / IZR (2 ^ 54)) / 10) - IZR j) with (IZR j * (1 / IZR (2 ^ 54))) by (field; apply IZR_neq; lia). apply Rmult_le_compat_l; [lra|cbn; lra]. }
  destruct (Z.lt_trichotomy k 0) as [P|[P|P]].
  - replace (IZR (10 * k) * r) with (- (IZR (10 * - k) * r)) in I by (rewrite !mult_IZR, opp_IZR; ring). rewrite rnd_opp, V, opp_IZR in I by lia. replace (- - IZR k) with (IZR k) in I by ring. exact I.
  - subst k. replace (IZR (10 * 0) * r) with 0 in I by (cbn; ring). rewrite rnd0 in I. exact I.
  - now rewrite V in I by lia.
Qed.
(** A reading in tenths against a whole number, and against another reading. *)
Lemma ten_near : forall n, (Z.abs n <= 10 ^ 6)%Z -> exists a, is (fdecode (fq (1 # 10)) n) a /\ Rabs (a - IZR n / 10) <= 1 / 10 ^ 8 /\ ((10 | n)%Z -> a = IZR n / 10).
Proof.
  intros n H. assert (NB : -1000000 <= IZR n <= 1000000) by (split; apply IZR_le; lia). assert (QE : Q2R (1 # 10) = / 10) by (unfold Q2R; cbn; lra).
  destruct (decode_near (1 # 10) n) as [v [r [_ [_ [I E]]]]]; try (cbn; lia); [rewrite QE; lra|]. rewrite QE in E. exists v. split; [exact I|]. split.
  - eapply Rle_trans; [exact E|]. assert (Rabs (IZR n * / 10) <= 100000) by (apply Rabs_le; lra). lra.
  - intros [k ->]. pose proof (decode_whole k ltac:(lia)) as [F G]. rewrite (Z.mul_comm k 10) in *. destruct I as [_ <-]. rewrite G, mult_IZR. field.
Qed.
Lemma ten_gap : forall p q, (p < q)%Z -> IZR p / 10 + 1 / 10 <= IZR q / 10.
Proof. intros p q H. assert (IZR p + 1 <= IZR q) by (rewrite <- plus_IZR; apply IZR_le; lia). lra. Qed.
Lemma ten_whole : forall n z, (Z.abs n <= 10 ^ 6)%Z -> (Z.abs z <= 10 ^ 6)%Z -> fle (fz z) (fdecode (fq (1 # 10)) n) = (10 * z <=? n)%Z /\ fle (fdecode (fq (1 # 10)) n) (fz z) = (n <=? 10 * z)%Z /\ flt (fz z) (fdecode (fq (1 # 10)) n) = (10 * z <? n)%Z.
Proof.
  intros n z N Z. destruct (ten_near n N) as [a [I [E A]]]. pose proof (is_fz z ltac:(lia)) as J. rewrite (fle_is _ _ _ _ J I), (fle_is _ _ _ _ I J), (flt_is _ _ _ _ J I). apply Rabs_le_inv in E.
  assert (Q : IZR (10 * z) / 10 = IZR z) by (rewrite mult_IZR; field).
  destruct (Z.lt_trichotomy (10 * z) n) as [H|[H|H]].
  - pose proof (ten_gap _ _ H). rewrite Rle_bool_true, Rle_bool_false, Rlt_bool_true by lra. repeat split; symmetry; [apply Z.leb_le|apply Z.leb_gt|apply Z.ltb_lt]; lia.
  - subst n. rewrite A by (exists z; ring). rewrite Q, !Rle_bool_true, Rlt_bool_false by lra. repeat split; symmetry; [apply Z.leb_le|apply Z.leb_le|apply Z.ltb_ge]; lia.
  - pose proof (ten_gap _ _ H). rewrite Rle_bool_false, Rle_bool_true, Rlt_bool_false by lra. repeat split; symmetry; [apply Z.leb_gt|apply Z.leb_le|apply Z.ltb_ge]; lia.
Qed.
Lemma ten_order : forall n m, (Z.abs n <= 10 ^ 6)%Z -> (Z.abs m <= 10 ^ 6)%Z -> flt (fdecode (fq (1 # 10)) n) (fdecode (fq (1 # 10)) m) = (n <? m)%Z.
Proof.
  intros n m N M. destruct (ten_near n N) as [a [I [E _]]], (ten_near m M) as [b [J [F _]]]. rewrite (flt_is _ _ _ _ I J). apply Rabs_le_inv in E, F. destruct (Z.lt_trichotomy n m) as [H|[H|H]].
  - pose proof (ten_gap _ _ H). rewrite Rlt_bool_true by lra. symmetry. apply Z.ltb_lt. lia.
  - subst m. destruct I as [_ <-], J as [_ <-]. rewrite Rlt_bool_false by lra. symmetry. apply Z.ltb_ge. lia.
  - pose proof (ten_gap _ _ H). rewrite Rlt_bool_false by lra. symmetry. apply Z.ltb_ge. lia.
Qed.
Lemma ten_zero : forall n, (Z.abs n <= 10 ^ 6)%Z -> feq (fdecode (fq (1 # 10)) n) (fz 0) = (n =? 0)%Z.
Proof.
  intros n N. destruct (ten_near n N) as [a [I [E A]]]. rewrite (feq_is _ _ _ _ I (is_fz 0 ltac:(lia))). apply Rabs_le_inv in E. destruct (Z.lt_trichotomy n 0) as [H|[H|H]].
  - pose proof (ten_gap _ _ H). rewrite Req_bool_false by lra. symmetry. apply Z.eqb_neq. lia.
  - subst n. rewrite A by (exists 0%Z; reflexivity). rewrite Req_bool_true by lra. reflexivity.
  - pose proof (ten_gap _ _ H). rewrite Req_bool_false by lra. symmetry. apply Z.eqb_neq. lia.
Qed.
(** The freezing point of -1.8. *)
Lemma freeze_ok : forall n ns s, (Z.abs n <= 10 ^ 6)%Z -> is ns s -> Rabs s <= 1000 -> fsst_freeze_check (fdecode (fq (1 # 10)) n) (fz 0) (fq (-18 # 10)) ns = if (n <? -18)%Z then 1%Z else 0%Z.
Proof.
  intros n ns s N S B. unfold fsst_freeze_check. pose proof (is_fq (-18 # 10) ltac:(cbn; lia) ltac:(cbn; lia)) as F. cbn [Qnum Qden] in F. set (c := rnd (-18 / 10)) in *.
  destruct (is_zero_mul _ _ _ S (is_fz 0 ltac:(lia))) as [Z _]. pose proof (is_sub _ _ _ _ F Z) as D. rewrite Rminus_0_r, (rnd_id c) in D by (eapply is_dbl; exact F).
  pose proof (err_le (-18 / 10) 2 ltac:(rewrite Rabs_left; lra) ltac:(lra)) as CE. fold c in CE. pose proof u_pos as U. apply Rabs_le_inv in CE. specialize (D ltac:(apply small_big; apply Rabs_le; lra)).
  destruct (ten_near n N) as [a [I [E _]]]. rewrite (flt_is _ _ _ _ I D). apply Rabs_le_inv in E. destruct (Z.lt_trichotomy n (-18)) as [H|[H|H]].
  - pose proof (ten_gap _ _ H). rewrite Rlt_bool_true by lra. rewrite (proj2 (Z.ltb_lt _ _)) by lia. reflexivity.
  - subst n. assert (Q : feq (fdecode (fq (1 # 10)) (-18)) (fq (-18 # 10)) = true) by (vm_compute; reflexivity). rewrite (feq_is _ _ _ _ I F) in Q. assert (a = c) by (revert Q; apply (fun H => H); destruct (Req_bool_spec a c); [auto|discriminate]). subst a. rewrite Rlt_bool_false by lra. reflexivity.
  - pose proof (ten_gap _ _ H). rewrite Rlt_bool_false by lra. rewrite (proj2 (Z.ltb_ge _ _)) by lia. reflexivity.
Qed.
