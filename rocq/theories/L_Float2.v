(** Lemmas: grid indices in double precision. *)
Require Import ZArith QArith Reals Lra Lia Bool Psatz.
From Flocq Require Import Core.Core IEEE754.BinarySingleNaN Relative.
Require Import Verif.M_Base Verif.M_Float Verif.S_Float Verif.L_Float.
Open Scope R_scope.

Lemma dbl_below : forall l k n, dbl l -> (-1000 <= k)%Z -> bpow radix2 (k - 1) <= l -> l < IZR n * bpow radix2 (k - 53) -> l <= IZR (n - 1) * bpow radix2 (k - 53).
Proof.
  intros l k n D K A B. destruct (Rle_or_lt (bpow radix2 k) l) as [C|C].
  - (* above the binade: a multiple of a larger unit *)
    assert (MG : (k + 1 <= mag radix2 l)%Z).
    { apply mag_ge_bpow. replace (k + 1 - 1)%Z with k by ring. rewrite Rabs_pos_eq; [exact C|]. pose proof (bpow_ge_0 radix2 k). lra. }
    unfold dbl, generic_format, scaled_mantissa, F2R in D. cbn [Fnum Fexp] in D. set (m := Ztrunc _) in D. unfold cexp, FLT_exp in D. rewrite Z.max_l in D by lia.
    set (j := (mag radix2 l - 53 - (k - 53))%Z) in *. assert (J : (0 <= j)%Z) by (unfold j; lia).
    replace (mag radix2 l - 53)%Z with (j + (k - 53))%Z in D by (unfold j; ring). rewrite bpow_plus, <- Rmult_assoc, <- IZR_Zpower, <- mult_IZR in D by exact J.
    pose proof (bpow_gt_0 radix2 (k - 53)). rewrite D in B |- *. apply Rmult_lt_reg_r in B; [|assumption]. apply lt_IZR in B. apply Rmult_le_compat_r; [lra|]. apply IZR_le. lia.
  - assert (MG : mag radix2 l = k :> Z).
    { apply mag_unique_pos. split; assumption. }
    unfold dbl, generic_format, scaled_mantissa, F2R in D. cbn [Fnum Fexp] in D. set (m := Ztrunc _) in D. unfold cexp, FLT_exp in D. rewrite MG, Z.max_l in D by lia.
    pose proof (bpow_gt_0 radix2 (k - 53)). rewrite D in B |- *. apply Rmult_lt_reg_r in B; [|assumption]. apply lt_IZR in B. apply Rmult_le_compat_r; [lra|]. apply IZR_le. lia.
Qed.
Lemma below90 : forall l, dbl l -> l < 90 -> l <= 90 - bpow radix2 (-46).
Proof.
  intros l D H. destruct (Rlt_or_le l 64) as [A|A]; [cbn; lra|].
  pose proof (dbl_below l 7 (90 * 2 ^ 46) D ltac:(lia)) as K. change (7 - 53)%Z with (-46)%Z in K. cbn [Z.sub] in K.
  assert (E : IZR (90 * 2 ^ 46) * bpow radix2 (-46) = 90) by (cbn; lra). rewrite E in K. specialize (K ltac:(cbn; lra) H). eapply Rle_trans; [exact K|]. rewrite minus_IZR. cbn. lra.
Qed.
Lemma below180 : forall l, dbl l -> l < 180 -> l <= 180 - bpow radix2 (-45).
Proof.
  intros l D H. destruct (Rlt_or_le l 128) as [A|A]; [cbn; lra|].
  pose proof (dbl_below l 8 (180 * 2 ^ 45) D ltac:(lia)) as K. change (8 - 53)%Z with (-45)%Z in K.
  assert (E : IZR (180 * 2 ^ 45) * bpow radix2 (-45) = 180) by (cbn; lra). rewrite E in K. specialize (K ltac:(cbn; lra) H). eapply Rle_trans; [exact K|]. rewrite minus_IZR. cbn. lra.
Qed.

Definition milli : R := rnd (1 / 1000).
Lemma milli_near : Rabs (milli - 1 / 1000) <= bpow radix2 (-60).
Proof. apply (rnd_abs (1 / 1000) (-6)); [lia|]. rewrite Rabs_pos_eq by lra. cbn. lra. Qed.
Lemma is_milli : is (fq (1 # 1000)) milli.
Proof. exact (is_fq (1 # 1000) ltac:(cbn; lia) ltac:(cbn; lia)). Qed.

Definition nudge (m : Z) (x : fl) : fl :=
  let y := if feq x (fz (- m)) then fadd x (fq (1 # 1000)) else x in
  if feq y (fz m) then fsub y (fq (1 # 1000)) else y.
Lemma nudge_ok : forall m x a, (90 <= m <= 180)%Z -> is x a -> - IZR m <= a <= IZR m -> exists l, is (nudge m x) l /\
  ((- IZR m < a < IZR m /\ l = a) \/ (a = - IZR m /\ - IZR m + 9 / 10000 <= l <= - IZR m + 11 / 10000) \/ (a = IZR m /\ IZR m - 11 / 10000 <= l <= IZR m - 9 / 10000)).
Proof.
  intros m x a M I B. unfold nudge. pose proof (is_fz m ltac:(lia)) as F. pose proof (is_fz (- m) ltac:(lia)) as G. rewrite opp_IZR in G.
  assert (P : 90 <= IZR m <= 180) by (split; apply IZR_le; lia). pose proof milli_near as N. apply Rabs_le_inv in N. cbn in N.
  rewrite (feq_is _ _ _ _ I G). case Req_bool_spec; intros E.
  - assert (J : is (fadd x (fq (1 # 1000))) (rnd (a + milli))) by (apply is_add; [exact I|exact is_milli|inbig]).
    pose proof (rnd_abs (a + milli) 8 ltac:(lia)) as K. assert (K' : Rabs (rnd (a + milli) - (a + milli)) <= bpow radix2 (8 - 54)) by (apply K, Rabs_le; cbn; split; lra). apply Rabs_le_inv in K'. cbn in K'.
    rewrite (feq_is _ _ _ _ J F), Req_bool_false by lra. exists (rnd (a + milli)). split; [exact J|]. right. left. split; [exact E|]. lra.
  - rewrite (feq_is _ _ _ _ I F). case Req_bool_spec; intros E2.
    + assert (J : is (fsub x (fq (1 # 1000))) (rnd (a - milli))) by (apply is_sub; [exact I|exact is_milli|inbig]).
      pose proof (rnd_abs (a - milli) 8 ltac:(lia)) as K. assert (K' : Rabs (rnd (a - milli) - (a - milli)) <= bpow radix2 (8 - 54)) by (apply K, Rabs_le; cbn; split; lra). apply Rabs_le_inv in K'. cbn in K'.
      exists (rnd (a - milli)). split; [exact J|]. right. right. split; [exact E2|]. lra.
    + exists a. split; [exact I|]. left. split; [lra|reflexivity].
Qed.

Section Mds.
Variables (m : Z) (r h err : R) (N : Z).
Hypothesis M : (90 <= m <= 180)%Z.
Hypothesis NP : (1 <= N <= 10000)%Z.
Hypothesis H : IZR N * h = IZR m.
Hypothesis HP : 1 / 100 <= h.
Hypothesis E0 : 0 <= err.
Hypothesis RH : Rabs (r - h) <= bpow radix2 (-57).
Hypothesis ERR : forall a, dbl a -> Rabs a <= 180 -> Rabs (rnd (a / r) * r - a) + 10000 * Rabs (r - h) <= err.
Hypothesis STRICT : forall l, dbl l -> l < IZR m -> rnd (l / r) < IZR N.

Lemma r_pos : 1 / 101 <= r.
Proof. apply Rabs_le_inv in RH. cbn in RH. lra. Qed.
Lemma index_pos : forall l a, dbl l -> 0 <= l -> (l = a /\ a < IZR m) \/ (a = IZR m /\ IZR m - 11 / 10000 <= l <= IZR m - 9 / 10000) ->
  let k := Ztrunc (rnd (l / r)) in (0 <= k <= N - 1)%Z /\ IZR k * h - err <= a <= IZR (k + 1) * h + err.
Proof.
  intros l a D P C k. pose proof r_pos as RP. assert (MM : 90 <= IZR m <= 180) by (split; apply IZR_le; lia). assert (L : l < IZR m) by (destruct C as [[-> ?]|[-> ?]]; lra).
  assert (Q0 : 0 <= rnd (l / r)) by (apply rnd_ge; [apply (dbl_Z 0); lia|]; apply Rmult_le_pos; [lra|apply Rlt_le, Rinv_0_lt_compat; lra]).
  destruct (trunc_pos _ Q0) as [T K0]. fold k in T, K0. assert (KN : (k <= N - 1)%Z) by (pose proof (STRICT l D L); enough (k < N)%Z by lia; apply lt_IZR; lra). split; [lia|].
  assert (KR : 0 <= IZR k <= 10000) by (split; apply IZR_le; lia). apply Rabs_le_inv in RH.
  pose proof (ERR l D ltac:(apply Rabs_le; lra)) as ER. set (d := rnd (l / r)) in *. rewrite plus_IZR.
  assert (S1 : Rabs (IZR k * (r - h)) <= 10000 * Rabs (r - h)) by (rewrite Rabs_mult, (Rabs_pos_eq (IZR k)) by lra; apply Rmult_le_compat_r; [apply Rabs_pos|lra]).
  assert (S2 : Rabs ((IZR k + 1) * (r - h)) <= 10000 * Rabs (r - h)).
  { rewrite Rabs_mult, (Rabs_pos_eq (IZR k + 1)) by lra. apply Rmult_le_compat_r; [apply Rabs_pos|]. rewrite <- plus_IZR. apply IZR_le. lia. }
  assert (W1 : IZR k * r <= d * r) by (apply Rmult_le_compat_r; lra). assert (W2 : d * r <= (IZR k + 1) * r) by (apply Rmult_le_compat_r; lra).
  pose proof (Rle_abs (IZR k * (r - h))) as U1. pose proof (Rle_abs (- (IZR k * (r - h)))) as U2. pose proof (Rle_abs ((IZR k + 1) * (r - h))) as U3. pose proof (Rle_abs (d * r - l)) as U5. pose proof (Rle_abs (- (d * r - l))) as U6.
  rewrite Rabs_Ropp in U2, U6. pose proof (Rabs_pos (d * r - l)). 
  destruct C as [[-> LT]|[-> LL]].
  - split; lra.
  - (* at the pole *)
    assert (KK : k = (N - 1)%Z).
    { assert (IZR (N - 1) <= d).
      { apply rnd_ge; [apply dbl_Z; lia|]. apply Rmult_le_reg_r with r; [lra|]. unfold Rdiv. rewrite Rmult_assoc, Rinv_l, Rmult_1_r by lra.
        rewrite minus_IZR. assert (IZR N <= 10000) by (apply IZR_le; lia). assert (1 <= IZR N) by (apply IZR_le; lia). assert (HB : IZR N * (r - h) <= 10000 * bpow radix2 (-57)) by (apply Rle_trans with (IZR N * bpow radix2 (-57)); [apply Rmult_le_compat_l; lra|apply Rmult_le_compat_r; [apply bpow_ge_0|lra]]).
        cbn in HB. lra. }
      assert (N - 1 < k + 1)%Z by (apply lt_IZR; rewrite plus_IZR; lra). lia. }
    rewrite KK, minus_IZR. split; lra.
Qed.
Lemma index_any : forall x a rs, is x a -> - IZR m <= a <= IZR m -> is rs r -> exists l k, is (nudge m x) l /\ fint (fdiv (nudge m x) rs) = Ok k /\ (0 < l <-> 0 < a) /\
  ((0 < a /\ (0 <= k <= N - 1)%Z /\ IZR k * h - err <= a <= IZR (k + 1) * h + err) \/ (a <= 0 /\ (- (N - 1) <= k <= 0)%Z /\ IZR (k - 1) * h - err <= a <= IZR k * h + err)).
Proof.
  intros x a rs I B IR. destruct (nudge_ok m x a M I B) as [l [J C]]. pose proof r_pos as RP. assert (MM : 90 <= IZR m <= 180) by (split; apply IZR_le; lia).
  assert (LB : - IZR m <= l <= IZR m) by (destruct C as [[? ->]|[[-> ?]|[-> ?]]]; lra).
  assert (F : is (fdiv (nudge m x) rs) (rnd (l / r))).
  { apply is_div; [exact J|exact IR|lra|]. apply small_big. unfold Rdiv. rewrite Rabs_mult, (Rabs_pos_eq (/ r)) by (apply Rlt_le, Rinv_0_lt_compat; lra).
    assert (/ r <= 101) by (replace 101 with (/ (1 / 101)) by field; apply Rinv_le; lra). assert (0 < / r) by (apply Rinv_0_lt_compat; lra). assert (Rabs l <= 180) by (apply Rabs_le; lra). pose proof (Rabs_pos l). nra. }
  exists l, (Ztrunc (rnd (l / r))). split; [exact J|]. split; [now apply fint_is|]. split; [destruct C as [[? ->]|[[-> ?]|[-> ?]]]; split; lra|].
  destruct (Rlt_or_le 0 a) as [P|P]; [left|right]; (split; [exact P|]).
  - apply index_pos; [exact (is_dbl _ _ J)|destruct C as [[? ->]|[[-> ?]|[-> ?]]]; lra|]. destruct C as [[? ->]|[[-> ?]|[-> ?]]]; [left; split; [reflexivity|lra]|lra|right; split; [reflexivity|lra]].
  - destruct (index_pos (- l) (- a)) as [K1 K2].
    + apply dbl_opp. exact (is_dbl _ _ J).
    + destruct C as [[? ->]|[[-> ?]|[-> ?]]]; lra.
    + destruct C as [[? ->]|[[-> ?]|[-> ?]]]; [left; split; lra|right; split; lra|lra].
    + replace (- l / r) with (- (l / r)) in K1, K2 by (field; lra). rewrite rnd_opp, Ztrunc_opp in K1, K2. split; [lia|]. rewrite plus_IZR, opp_IZR in K2. rewrite minus_IZR. lra.
Qed.
End Mds.

(** With res = 1. *)
Lemma rnd_one : forall a, dbl a -> rnd (a / 1) = a.
Proof. intros a D. replace (a / 1) with a by field. now apply rnd_id. Qed.
Lemma is_one : is (fz 1) 1.
Proof. exact (is_fz 1 ltac:(lia)). Qed.
Lemma err_one : forall a, dbl a -> Rabs a <= 180 -> Rabs (rnd (a / 1) * 1 - a) + 10000 * Rabs (1 - 1) <= 0.
Proof. intros a D _. rewrite (rnd_one a D). rewrite Rmult_1_r. unfold Rminus. rewrite !Rplus_opp_r, Rabs_R0. lra. Qed.
(** With res = 0.05. *)
Definition twentieth : R := IZR 7205759403792794 * bpow radix2 (-57).
Lemma is_twentieth : is (fq (1 # 20)) twentieth.
Proof.
  assert (S1 : B2SF (fq (1 # 20)) = SpecFloat.S754_finite false 7205759403792794 (-57)) by (vm_compute; reflexivity).
  split; [rewrite <- is_finite_SF_B2SF, S1; reflexivity|]. rewrite <- SF2R_B2SF, S1. reflexivity.
Qed.
Lemma twentieth_near : 0 <= twentieth - 1 / 20 <= bpow radix2 (-58).
Proof. unfold twentieth. cbn. lra. Qed.
Lemma err_twentieth : forall a, dbl a -> Rabs a <= 180 -> Rabs (rnd (a / twentieth) * twentieth - a) + 10000 * Rabs (twentieth - 1 / 20) <= bpow radix2 (-44).
Proof.
  intros a _ B. pose proof twentieth_near as T. pose proof (rnd_div a twentieth ltac:(lra)) as K. rewrite (Rabs_pos_eq (twentieth - _)) by lra.
  assert (bpow radix2 (-1075) <= bpow radix2 (-60)) by (apply bpow_le; lia). set (u := bpow radix2 (-1075)) in *. assert (0 <= u) by apply bpow_ge_0. set (e := Rabs (rnd _ * _ - _)) in *. cbn in *. nra.
Qed.
Lemma strict_twentieth : forall l m N e, dbl l -> (m = 90 /\ N = 1800 /\ e = -46)%Z \/ (m = 180 /\ N = 3600 /\ e = -45)%Z -> l < IZR m -> rnd (l / twentieth) < IZR N.
Proof.
  intros l m N e D C L. pose proof twentieth_near as T.
  assert (LE : l <= IZR m - bpow radix2 e) by (destruct C as [[-> [-> ->]]|[-> [-> ->]]]; [now apply below90|now apply below180]).
  assert (X : dbl (IZR N - bpow radix2 (e + 4))).
  { destruct C as [[-> [-> ->]]|[-> [-> ->]]].
    - replace (1800 - bpow radix2 (-46 + 4)) with (IZR (1800 * 2 ^ 42 - 1) * bpow radix2 (-42)) by (cbn; lra). apply dbl_scaled; lia.
    - replace (3600 - bpow radix2 (-45 + 4)) with (IZR (3600 * 2 ^ 41 - 1) * bpow radix2 (-41)) by (cbn; lra). apply dbl_scaled; lia. }
  apply Rle_lt_trans with (IZR N - bpow radix2 (e + 4)); [|pose proof (bpow_gt_0 radix2 (e + 4)); lra]. apply rnd_le'; [exact X|].
  apply Rmult_le_reg_r with twentieth; [lra|]. unfold Rdiv. rewrite Rmult_assoc, Rinv_l, Rmult_1_r by lra. eapply Rle_trans; [exact LE|].
  destruct C as [[-> [-> ->]]|[-> [-> ->]]]; cbn in *; nra.
Qed.
Lemma r90 : rnd (90 / twentieth) = 1800.
Proof.
  pose proof is_twentieth as T. pose proof twentieth_near as TN. destruct (is_div (fz 90) (fq (1 # 20)) 90 twentieth (is_fz 90 ltac:(lia)) T ltac:(lra)) as [_ K].
  - apply small_big. rewrite Rabs_pos_eq; [apply Rmult_le_reg_r with twentieth; [lra|]; unfold Rdiv; rewrite Rmult_assoc, Rinv_l by lra; lra|]. apply Rmult_le_pos; [lra|apply Rlt_le, Rinv_0_lt_compat; lra].
  - rewrite <- K, <- SF2R_B2SF. assert (S1 : B2SF (fdiv (fz 90) (fq (1 # 20))) = SpecFloat.S754_finite false (1800 * 2 ^ 42) (-42)) by (vm_compute; reflexivity). rewrite S1. cbn. unfold F2R. cbn. lra.
Qed.
Lemma r180 : rnd (180 / twentieth) = 3600.
Proof.
  pose proof is_twentieth as T. pose proof twentieth_near as TN. destruct (is_div (fz 180) (fq (1 # 20)) 180 twentieth (is_fz 180 ltac:(lia)) T ltac:(lra)) as [_ K].
  - apply small_big. rewrite Rabs_pos_eq; [apply Rmult_le_reg_r with twentieth; [lra|]; unfold Rdiv; rewrite Rmult_assoc, Rinv_l by lra; lra|]. apply Rmult_le_pos; [lra|apply Rlt_le, Rinv_0_lt_compat; lra].
  - rewrite <- K, <- SF2R_B2SF. assert (S1 : B2SF (fdiv (fz 180) (fq (1 # 20))) = SpecFloat.S754_finite false (3600 * 2 ^ 41) (-41)) by (vm_compute; reflexivity). rewrite S1. cbn. unfold F2R. cbn. lra.
Qed.

(** The two MDS index functions. *)
Lemma is_minus : forall x y a b, is x (IZR a) -> is y (IZR b) -> (Z.abs (a - b) <= 2 ^ 53)%Z -> is (fsub x y) (IZR (a - b)).
Proof.
  intros x y a b A B C. rewrite minus_IZR, <- (rnd_id (IZR a - IZR b)) by (rewrite <- minus_IZR; now apply dbl_Z). apply is_sub; [exact A|exact B|]. rewrite <- minus_IZR, <- abs_IZR. apply Rle_trans with (IZR (2 ^ 53)); [now apply IZR_le|]. cbn. lra.
Qed.
Lemma is_plus : forall x y a b, is x (IZR a) -> is y (IZR b) -> (Z.abs (a + b) <= 2 ^ 53)%Z -> is (fadd x y) (IZR (a + b)).
Proof.
  intros x y a b A B C. rewrite plus_IZR, <- (rnd_id (IZR a + IZR b)) by (rewrite <- plus_IZR; now apply dbl_Z). apply is_add; [exact A|exact B|]. rewrite <- plus_IZR, <- abs_IZR. apply Rle_trans with (IZR (2 ^ 53)); [now apply IZR_le|]. cbn. lra.
Qed.
Lemma fint_Z : forall x n, is x (IZR n) -> fint x = Ok n.
Proof. intros x n I. rewrite (fint_is x _ I). now rewrite Ztrunc_IZR. Qed.
Lemma mds_row : forall rs r h err N, is rs r -> (1 <= N <= 10000)%Z -> IZR N * h = 90 -> 1 / 100 <= h -> 0 <= err -> Rabs (r - h) <= bpow radix2 (-57) ->
  (forall a, dbl a -> Rabs a <= 180 -> Rabs (rnd (a / r) * r - a) + 10000 * Rabs (r - h) <= err) -> (forall l, dbl l -> l < 90 -> rnd (l / r) < IZR N) -> is (fdiv (fz 90) rs) (IZR N) ->
  forall x a, is x a -> -90 <= a <= 90 -> exists k, fmds_lat_to_yindex x rs = Ok k /\ (0 <= k <= 2 * N - 1)%Z /\ in_row h k a err.
Proof.
  intros rs r h err N IR NP H HP E0 RH ERR STRICT DN x a I B.
  destruct (index_any 90 r h err N ltac:(lia) NP H HP E0 RH ERR STRICT x a rs I ltac:(lra) IR) as [l [k [J [K [_ C]]]]].
  change (fmds_lat_to_yindex x rs) with (let! k := fint (fdiv (nudge 90 x) rs) in if flt (fz 0) x then fint (fsub (fsub (fdiv (fz 90) rs) (fz 1)) (fz k)) else fint (fsub (fdiv (fz 90) rs) (fz k))).
  rewrite K. cbn [bind]. rewrite (flt_is _ _ _ _ (is_fz 0 ltac:(lia)) I).
  destruct C as [[P [KK CL]]|[P [KK CL]]].
  - rewrite Rlt_bool_true by exact P. assert (F : is (fsub (fsub (fdiv (fz 90) rs) (fz 1)) (fz k)) (IZR (N - 1 - k))) by (apply is_minus; [apply is_minus; [exact DN|apply is_one|lia]|apply is_fz; lia|lia]).
    exists (N - 1 - k)%Z. split; [now apply fint_Z|]. split; [lia|]. unfold in_row. replace (N - 1 - k + 1)%Z with (N - k)%Z by ring. rewrite !minus_IZR. rewrite plus_IZR in CL. split; lra.
  - rewrite Rlt_bool_false by exact P. assert (F : is (fsub (fdiv (fz 90) rs) (fz k)) (IZR (N - k))) by (apply is_minus; [exact DN|apply is_fz; lia|lia]).
    exists (N - k)%Z. split; [now apply fint_Z|]. split; [lia|]. unfold in_row. rewrite plus_IZR, !minus_IZR. rewrite minus_IZR in CL. split; lra.
Qed.
Lemma mds_column : forall rs r h err N, is rs r -> (1 <= N <= 10000)%Z -> IZR N * h = 180 -> 1 / 100 <= h -> 0 <= err -> Rabs (r - h) <= bpow radix2 (-57) ->
  (forall a, dbl a -> Rabs a <= 180 -> Rabs (rnd (a / r) * r - a) + 10000 * Rabs (r - h) <= err) -> (forall l, dbl l -> l < 180 -> rnd (l / r) < IZR N) -> is (fdiv (fz 180) rs) (IZR N) ->
  forall x a, is x a -> -180 <= a <= 180 -> exists k, fmds_lon_to_xindex x rs = Ok k /\ (0 <= k <= 2 * N - 1)%Z /\ in_column h k a err.
Proof.
  intros rs r h err N IR NP H HP E0 RH ERR STRICT DN x a I B.
  destruct (index_any 180 r h err N ltac:(lia) NP H HP E0 RH ERR STRICT x a rs I ltac:(lra) IR) as [l [k [J [K [SG C]]]]].
  change (fmds_lon_to_xindex x rs) with (let! k := fint (fdiv (nudge 180 x) rs) in if flt (fz 0) (nudge 180 x) then fint (fadd (fz k) (fdiv (fz 180) rs)) else fint (fsub (fadd (fz k) (fdiv (fz 180) rs)) (fz 1))).
  rewrite K. cbn [bind]. rewrite (flt_is _ _ _ _ (is_fz 0 ltac:(lia)) J).
  destruct C as [[P [KK CL]]|[P [KK CL]]].
  - rewrite Rlt_bool_true by (now apply SG). assert (F : is (fadd (fz k) (fdiv (fz 180) rs)) (IZR (k + N))) by (apply is_plus; [apply is_fz; lia|exact DN|lia]).
    exists (k + N)%Z. split; [now apply fint_Z|]. split; [lia|]. unfold in_column. rewrite !plus_IZR. rewrite plus_IZR in CL. split; lra.
  - rewrite Rlt_bool_false by (apply Rnot_lt_le; intros Y; apply SG in Y; lra). assert (F : is (fsub (fadd (fz k) (fdiv (fz 180) rs)) (fz 1)) (IZR (k + N - 1))) by (apply is_minus; [apply is_plus; [apply is_fz; lia|exact DN|lia]|apply is_one|lia]).
    exists (k + N - 1)%Z. split; [now apply fint_Z|]. split; [lia|]. unfold in_column. rewrite !plus_IZR, !minus_IZR, !plus_IZR. rewrite minus_IZR in CL. split; lra.
Qed.
Lemma d90_1 : is (fdiv (fz 90) (fz 1)) (IZR 90).
Proof. rewrite <- (rnd_one (IZR 90)) by (apply dbl_Z; lia). apply is_div; [apply is_fz; lia|apply is_one|lra|inbig]. Qed.
Lemma d180_1 : is (fdiv (fz 180) (fz 1)) (IZR 180).
Proof. rewrite <- (rnd_one (IZR 180)) by (apply dbl_Z; lia). apply is_div; [apply is_fz; lia|apply is_one|lra|inbig]. Qed.
