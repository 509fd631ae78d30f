(** Lemmas: the winsorised mean in double precision. *)
Require Import ZArith QArith Reals Lra Lia Bool Psatz List Permutation Qreals.
From Flocq Require Import Core.Core IEEE754.BinarySingleNaN Relative.
Require Import Verif.M_Base Verif.M_Stats Verif.L_Stats Verif.M_Float Verif.M_Float2 Verif.S_Float Verif.L_Float Verif.L_Float2 Verif.L_Float3.
Import ListNotations.
Open Scope R_scope.

Definition rel (xs : list fl) (qs : list Q) : Prop := Forall2 (fun x q => is x (Q2R q)) xs qs.
Lemma Qleb_R : forall p q, Qleb p q = Rle_bool (Q2R p) (Q2R q).
Proof.
  intros p q. destruct (Rle_bool_spec (Q2R p) (Q2R q)) as [L|L].
  - apply Qle_bool_iff. now apply Qreals.Rle_Qle.
  - destruct (Qleb p q) eqn:E; [|reflexivity]. apply Qle_bool_iff in E. apply Qreals.Qle_Rle in E. lra.
Qed.
Lemma insert_rel : forall xs qs x q, rel xs qs -> is x (Q2R q) -> rel (finsert x xs) (qinsert q qs).
Proof.
  intros xs qs x q R I. induction R as [|y p ys ps J R IH]; cbn; [apply Forall2_cons; [exact I|apply Forall2_nil]|]. rewrite (fle_is _ _ _ _ I J), <- Qleb_R. destruct (Qleb q p); [apply Forall2_cons; [exact I|apply Forall2_cons; [exact J|exact R]]|apply Forall2_cons; [exact J|exact IH]].
Qed.
Lemma sort_rel : forall xs qs, rel xs qs -> rel (fsort xs) (qsort qs).
Proof. intros xs qs R. induction R; cbn; [constructor|now apply insert_rel]. Qed.
Lemma rel_length : forall xs qs, rel xs qs -> length xs = length qs.
Proof. intros xs qs R. induction R; cbn; congruence. Qed.
Lemma nth_rel : forall xs qs i, rel xs qs -> match py_nth qs i with Ok q => exists x, py_nth xs i = Ok x /\ is x (Q2R q) /\ In q qs | Err e => py_nth xs i = Err e end.
Proof.
  intros xs qs i R. unfold py_nth. rewrite (rel_length _ _ R). destruct ((_ <? 0)%Z || _); [reflexivity|]. set (k := Z.to_nat _). clearbody k. revert k. induction R as [|y p ys ps J R IH]; intros [|k]; cbn; try reflexivity.
  - exists y. split; [reflexivity|]. split; [exact J|now left].
  - specialize (IH k). destruct (nth_error ps k) as [q|]; [|exact IH]. destruct IH as [x [A [B C]]]. exists x. split; [exact A|]. split; [exact B|now right].
Qed.
(** The same computation on real numbers that are rounded after each step. *)
Fixpoint rsum (s : list R) (j : Z) (k : nat) (total : R) : res R :=
  match k with O => Ok total | S k' => let! v := py_nth s j in rsum s (j + 1) k' (rnd (total + v)) end.
Definition rwins (s : list R) : res R :=
  let length := Z.of_nat (length s) in
  let! (lower, upper, total) :=
    (if (4 <=? length)%Z then
       let lower := (length / 4)%Z in
       let upper := (length - 1 - lower)%Z in
       let! a := py_nth s lower in
       let! b := py_nth s upper in
       Ok (lower, upper, rnd (rnd (a + b) * IZR lower))
     else Ok (0%Z, (length - 1)%Z, 0)) in
  let! total := rsum s lower (Z.to_nat (upper + 1 - lower)) total in
  Ok (rnd (total / IZR length)).
Lemma nth_map : forall (f : Q -> R) l i, py_nth (map f l) i = match py_nth l i with Ok q => Ok (f q) | Err e => Err e end.
Proof. intros f l i. unfold py_nth. rewrite map_length. destruct (_ || _); [reflexivity|]. rewrite nth_error_map. now destruct (nth_error l _). Qed.
Definition u : R := bpow radix2 (-53).
Lemma err_le : forall a B, Rabs a <= B -> 1 <= B -> Rabs (rnd a - a) <= (1 + 1 / 1000) * B * u.
Proof.
  intros a B A P. destruct (rnd_err a) as [e [d [E [D ->]]]]. replace (a * (1 + e) + d - a) with (a * e + d) by ring. eapply Rle_trans; [apply Rabs_triang|]. rewrite Rabs_mult.
  assert (Rabs a * Rabs e <= B * u) by (apply Rmult_le_compat; try apply Rabs_pos; assumption). assert (Rabs d <= u * (1 / 1000)). { eapply Rle_trans; [exact D|]. apply Rle_trans with (bpow radix2 (-53) * bpow radix2 (-10)); [rewrite <- bpow_plus; apply bpow_le; lia|]. apply Rmult_le_compat_l; [apply bpow_ge_0|cbn; lra]. }
  assert (0 < u) by apply bpow_gt_0. nra.
Qed.
Lemma u_pos : 0 < u <= 12 / 100000000000000000.
Proof. unfold u. cbn. lra. Qed.
Lemma sum_rel : forall B M, 1 <= B <= 100000000000 -> 0 <= M -> forall xs qs, rel xs qs -> (forall q, In q qs -> Rabs (Q2R q) <= M) -> forall k j t a T C, is t a -> Rabs (a - Q2R T) <= C -> C + INR k * (3 * B * u) <= B / 2 -> Rabs (Q2R T) + INR k * M <= B ->
  match sum_from qs j k T with Ok T' => exists t' a', fsum_from xs j k t = Ok t' /\ is t' a' /\ Rabs (a' - Q2R T') <= C + INR k * (3 * B * u) /\ Rabs (Q2R T') <= B /\ rsum (map Q2R qs) j k a = Ok a' | Err e => fsum_from xs j k t = Err e end.
Proof.
  intros B M HB HM xs qs R Q k. pose proof u_pos as U. induction k as [|k IH]; intros j t a T C I E C1 S.
  - cbn in *. exists t, a. split; [reflexivity|]. split; [exact I|]. split; [lra|]. split; [lra|reflexivity].
  - cbn [sum_from fsum_from]. pose proof (nth_rel xs qs j R) as N. destruct (py_nth qs j) as [q|e] eqn:PQ; cbn [bind]; [|rewrite N; reflexivity]. destruct N as [x [X [J IN]]]. rewrite X. cbn [bind]. specialize (Q q IN).
    rewrite S_INR in *. pose proof (pos_INR k) as K. assert (0 <= INR k * (3 * B * u)) by (apply Rmult_le_pos; [exact K|nra]). assert (0 <= INR k * M) by (now apply Rmult_le_pos). assert (0 <= 3 * B * u) by nra.
    apply Rabs_le_inv in E. assert (AQ : Rabs (a + Q2R q) <= 2 * B).
    { replace (a + Q2R q) with ((a - Q2R T) + (Q2R T + Q2R q)) by ring. eapply Rle_trans; [apply Rabs_triang|]. assert (Rabs (a - Q2R T) <= C) by (apply Rabs_le; lra). pose proof (Rabs_triang (Q2R T) (Q2R q)). lra. }
    pose proof (err_le _ _ AQ ltac:(lra)) as ER. assert (I' : is (fadd t x) (rnd (a + Q2R q))) by (apply is_add; [exact I|exact J|apply small_big; lra]).
    specialize (IH (j + 1)%Z (fadd t x) _ (T + q)%Q (C + 3 * B * u) I'). rewrite Q2R_plus in IH. 
    assert (P1 : Rabs (rnd (a + Q2R q) - (Q2R T + Q2R q)) <= C + 3 * B * u) by (apply Rabs_le_inv in ER; apply Rabs_le; split; nra).
    assert (P2 : Rabs (Q2R T + Q2R q) + INR k * M <= B) by (pose proof (Rabs_triang (Q2R T) (Q2R q)); lra).
    specialize (IH P1 ltac:(lra) P2). destruct (sum_from qs (j + 1) k (T + q)) as [T'|e]; [|exact IH]. destruct IH as [t' [a' [F [G [G1 [G2 G3]]]]]]. exists t', a'. split; [exact F|]. split; [exact G|]. split; [lra|]. split; [exact G2|]. cbn [rsum]. rewrite nth_map, PQ. cbn [bind]. exact G3.
Qed.
Lemma wins_rel : forall M xs qs, 1 <= M <= 100000 -> rel xs qs -> (1 <= Z.of_nat (length qs) <= 1000000)%Z -> (forall q, In q qs -> Rabs (Q2R q) <= M) ->
  match winsorised_mean qs with Ok v => exists x a, fwinsorised_mean xs = Ok x /\ is x a /\ Rabs (a - Q2R v) <= (INR (length qs) + 3) * (3 * M * u) /\ rwins (map Q2R (qsort qs)) = Ok a | Err e => fwinsorised_mean xs = Err e end.
Proof.
  intros M xs qs HM R HN Q. pose proof u_pos as U. set (n := length qs) in *. set (B := INR n * M). assert (N1 : 1 <= INR n <= 1000000). { rewrite INR_IZR_INZ. split; apply IZR_le; lia. }
  assert (NM : 0 <= INR n * M) by nra. assert (HB : 1 <= B <= 100000000000) by (unfold B; split; nra).
  assert (Q' : forall q, In q (qsort qs) -> Rabs (Q2R q) <= M). { intros q I. apply Q. apply (Permutation_in _ (qsort_perm qs) I). }
  pose proof (sort_rel _ _ R) as RS. unfold winsorised_mean, fwinsorised_mean, rwins. cbv zeta. rewrite (rel_length _ _ R), map_length, qsort_length. fold n. set (l := Z.of_nat n).
  assert (LN : IZR l = INR n) by (unfold l; now rewrite <- INR_IZR_INZ). assert (Ll : (1 <= l <= 1000000)%Z) by lia.
  assert (EB : 3 * B * u = INR n * (3 * M * u)) by (unfold B; ring). assert (MU : 0 <= 3 * M * u <= 1 / 10000000000) by (split; nra).
  (* the end of the computation *)
  assert (FIN : forall j k t a0 T, is t a0 -> Rabs (a0 - Q2R T) <= 2 * (3 * B * u) -> (k <= n)%nat -> Rabs (Q2R T) + INR k * M <= B ->
    match (let! total := sum_from (qsort qs) j k T in if (l =? 0)%Z then Err ZeroDivisionError else Ok (total / inject_Z l)%Q) with
    | Ok v => exists x a, (let! total := fsum_from (fsort xs) j k t in if (l =? 0)%Z then Err ZeroDivisionError else Ok (fdiv total (fz l))) = Ok x /\ is x a /\ Rabs (a - Q2R v) <= (INR n + 3) * (3 * M * u) /\ (let! total := rsum (map Q2R (qsort qs)) j k a0 in Ok (rnd (total / IZR l))) = Ok a
    | Err e => (let! total := fsum_from (fsort xs) j k t in if (l =? 0)%Z then Err ZeroDivisionError else Ok (fdiv total (fz l))) = Err e end).
  { intros j k t a T I E KN S. assert (KR : INR k <= INR n) by now apply le_INR. assert (K0 := pos_INR k).
    assert (CB : 2 * (3 * B * u) + INR k * (3 * B * u) <= B / 2). { assert (W : 0 <= 3 * B * u) by nra. rewrite <- Rmult_plus_distr_r. apply Rle_trans with (1000002 * (3 * B * u)); [apply Rmult_le_compat_r; [exact W|lra]|]. replace (1000002 * (3 * B * u)) with (B * (3000006 * u)) by ring. replace (B / 2) with (B * (1 / 2)) by lra. apply Rmult_le_compat_l; lra. }
    pose proof (sum_rel B M HB ltac:(lra) _ _ RS Q' k j t a T _ I E CB S) as SR. destruct (sum_from (qsort qs) j k T) as [T'|e]; cbn [bind].
    - destruct SR as [t' [a' [F [G [H1 [H2 H3]]]]]]. rewrite F. cbn [bind]. destruct (Z.eqb_spec l 0) as [Z|_]; [lia|]. exists (fdiv t' (fz l)), (rnd (a' / IZR l)).
      assert (AQ : Rabs (a' / IZR l) <= 2 * M). { unfold Rdiv. rewrite Rabs_mult, (Rabs_pos_eq (/ IZR l)) by (rewrite LN; left; apply Rinv_0_lt_compat; lra). rewrite LN. apply Rmult_le_reg_r with (INR n); [lra|]. rewrite Rmult_assoc, Rinv_l by lra. rewrite Rmult_1_r.
        replace a' with ((a' - Q2R T') + Q2R T') by ring. eapply Rle_trans; [apply Rabs_triang|]. unfold B in *. lra. }
      split; [reflexivity|]. split; [apply is_div; [exact G|apply is_fz; lia|rewrite LN; lra|apply small_big; lra]|]. split; [|rewrite H3; reflexivity].
      pose proof (err_le _ _ AQ ltac:(lra)) as ER. assert (V : Q2R (T' / inject_Z l) = Q2R T' / INR n). { rewrite Q2R_div by (unfold Qeq; cbn; lia). rewrite Q2R_Z, LN. reflexivity. } rewrite V, LN in *.
      replace (rnd (a' / INR n) - Q2R T' / INR n) with ((rnd (a' / INR n) - a' / INR n) + (a' - Q2R T') / INR n) by (field; lra). eapply Rle_trans; [apply Rabs_triang|].
      assert (Rabs ((a' - Q2R T') / INR n) <= (INR n + 2) * (3 * M * u)).
      { unfold Rdiv. rewrite Rabs_mult, (Rabs_pos_eq (/ INR n)) by (left; apply Rinv_0_lt_compat; lra). apply Rmult_le_reg_r with (INR n); [lra|]. rewrite Rmult_assoc, Rinv_l, Rmult_1_r by lra. eapply Rle_trans; [exact H1|]. rewrite EB. assert (0 <= INR n * (3 * M * u)) by nra. nra. }
      nra.
    - rewrite SR. reflexivity. }
  destruct (Z.leb_spec 4 l) as [F|F].
  - set (L := (l / 4)%Z) in *. assert (LB : (1 <= L /\ 4 * L <= l)%Z) by (unfold L; pose proof (Z.div_mod l 4 ltac:(lia)); pose proof (Z.mod_pos_bound l 4 ltac:(lia)); lia).
    assert (LR : 1 <= IZR L /\ 4 * IZR L <= INR n) by (rewrite <- LN, <- mult_IZR; split; apply IZR_le; lia).
    pose proof (nth_rel _ _ L RS) as A1. rewrite !nth_map. destruct (py_nth (qsort qs) L) as [p|e]; cbn [bind]; [|rewrite A1; reflexivity]. destruct A1 as [x [X [I1 IN1]]]. rewrite X. cbn [bind].
    pose proof (nth_rel _ _ (l - 1 - L) RS) as A2. destruct (py_nth (qsort qs) (l - 1 - L)) as [q|e]; cbn [bind]; [|rewrite A2; reflexivity]. destruct A2 as [y [Y [I2 IN2]]]. rewrite Y. cbn [bind].
    pose proof (Q' _ IN1) as M1. pose proof (Q' _ IN2) as M2. set (b := Q2R p) in *. set (c := Q2R q) in *.
    assert (S0 : Rabs (b + c) <= 2 * M) by (pose proof (Rabs_triang b c); lra). pose proof (err_le _ _ S0 ltac:(lra)) as E1. assert (J1 : is (fadd x y) (rnd (b + c))) by (apply is_add; [exact I1|exact I2|apply small_big; lra]). set (r1 := rnd (b + c)) in *.
    assert (S1 : Rabs (r1 * IZR L) <= B). { rewrite Rabs_mult, (Rabs_pos_eq (IZR L)) by lra. assert (Rabs r1 <= 3 * M) by (replace r1 with ((r1 - (b + c)) + (b + c)) by ring; eapply Rle_trans; [apply Rabs_triang|]; nra). unfold B. nra. }
    pose proof (err_le _ _ S1 ltac:(lra)) as E2. assert (J2 : is (fmul (fadd x y) (fz L)) (rnd (r1 * IZR L))) by (apply is_mul; [exact J1|apply is_fz; lia|apply small_big; lra]). set (r2 := rnd (r1 * IZR L)) in *.
    assert (R2 : Rabs r2 <= 2 * B) by (replace r2 with ((r2 - r1 * IZR L) + r1 * IZR L) by ring; eapply Rle_trans; [apply Rabs_triang|]; nra).
    assert (J3 : is (fadd (fz 0) (fmul (fadd x y) (fz L))) r2). { rewrite <- (rnd_id r2) by exact (is_dbl _ _ J2). replace r2 with (0 + r2) by ring. apply is_add; [apply is_fz; lia|exact J2|rewrite Rplus_0_l; apply small_big; lra]. }
    assert (T0 : Q2R (0 + (p + q) * inject_Z L) = (b + c) * IZR L) by (rewrite Q2R_plus, Q2R_mult, Q2R_plus, Q2R_Z; unfold b, c; unfold Q2R at 1; cbn; lra).
    assert (KZ : INR (Z.to_nat (l - 1 - L + 1 - L)) = INR n - 2 * IZR L). { rewrite INR_IZR_INZ, Z2Nat.id by lia. rewrite <- LN. rewrite minus_IZR, plus_IZR, !minus_IZR. lra. }
    specialize (FIN L (Z.to_nat (l - 1 - L + 1 - L)) _ r2 (0 + (p + q) * inject_Z L)%Q J3).
    match type of FIN with ?A -> ?B' -> ?C' -> _ => assert (F1 : A); [|assert (F2 : B'); [lia|assert (F3 : C'); [|specialize (FIN F1 F2 F3)]]] end.
    + rewrite T0. replace (r2 - (b + c) * IZR L) with ((r2 - r1 * IZR L) + (r1 - (b + c)) * IZR L) by ring. eapply Rle_trans; [apply Rabs_triang|]. rewrite (Rabs_mult (r1 - (b + c))), (Rabs_pos_eq (IZR L)) by lra.
      assert (Rabs (r1 - (b + c)) * IZR L <= (1 + 1 / 1000) * (2 * M) * u * IZR L) by (apply Rmult_le_compat_r; lra). assert ((2 * M) * u * IZR L <= B * u) by (unfold B; assert (0 <= M * u) by nra; nra). assert (0 <= B * u) by nra. lra.
    + rewrite T0, KZ, Rabs_mult, (Rabs_pos_eq (IZR L)) by lra. unfold B. assert (Rabs (b + c) * IZR L <= 2 * M * IZR L) by (apply Rmult_le_compat_r; lra). lra.
    + exact FIN.
  - assert (J0 : is (fz 0) (Q2R 0)) by (unfold Q2R; cbn; rewrite Rmult_0_l; apply (is_fz 0); lia). replace (Z.to_nat (l - 1 + 1 - 0)) with n by lia. cbn [bind].
    replace (Z.to_nat (l - 1 + 1 - 0)) with n by lia.
    specialize (FIN 0%Z n _ _ 0%Q J0).
    match type of FIN with ?A -> ?B' -> ?C' -> _ => assert (F1 : A); [rewrite Rminus_diag_eq, Rabs_R0 by reflexivity; nra|assert (F2 : B'); [lia|assert (F3 : C'); [|specialize (FIN F1 F2 F3)]]] end.
    + unfold Q2R. cbn. rewrite Rmult_0_l, Rabs_R0. unfold B. lra.
    + assert (Q0 : Q2R 0 = 0) by (unfold Q2R; cbn; ring). rewrite Q0 in FIN. exact FIN.
Qed.
Lemma rel_perm : forall xs ys, Permutation xs ys -> forall qs, rel xs qs -> exists qs', rel ys qs' /\ Permutation qs qs'.
Proof.
  intros xs ys P. induction P as [|x xs ys P IH|x y xs|xs ys zs P IH P' IH']; intros qs R.
  - inversion R. subst. exists []. split; [constructor|constructor].
  - inversion R as [|x' q xs' qs' I R']. subst. destruct (IH _ R') as [qs2 [R2 P2]]. exists (q :: qs2). split; [apply Forall2_cons; [exact I|exact R2]|now constructor].
  - inversion R as [|x' q xs' qs' I R']. subst. inversion R' as [|x' q' xs' qs2 I' R2]. subst. exists (q' :: q :: qs2). split; [apply Forall2_cons; [exact I'|apply Forall2_cons; [exact I|exact R2]]|apply perm_swap].
  - destruct (IH _ R) as [qs1 [R1 P1]]. destruct (IH' _ R1) as [qs2 [R2 P2]]. exists qs2. split; [exact R2|]. now transitivity qs1.
Qed.
Lemma same_values : forall s s', Forall2 Qeq s s' -> map Q2R s = map Q2R s'.
Proof. intros s s' F. induction F as [|p q s s' E F IH]; cbn; [reflexivity|]. f_equal; [now apply Qeq_eqR|exact IH]. Qed.
