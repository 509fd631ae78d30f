(** Lemmas: the trimmed mean and standard deviation in double precision. *)
Require Import ZArith QArith Reals Lra Lia Bool Psatz List Permutation Qreals.
From Flocq Require Import Core.Core IEEE754.BinarySingleNaN.
Require Import Verif.M_Base Verif.M_Stats Verif.S_Stats Verif.L_Stats Verif.L_Stats2 Verif.M_Float Verif.M_Float2 Verif.S_Float Verif.L_Float Verif.L_Float3 Verif.L_Float6 Verif.M_Float5 Verif.S_Float2 Verif.L_Float9 Verif.M_Float8 Verif.S_Trim.
Import ListNotations.
Open Scope R_scope.

Lemma is_fsqrt : forall x a, is x a -> 0 <= a -> is (fsqrt x) (rnd (sqrt a)).
Proof.
  intros x a [F E] P. destruct (Bsqrt_correct 53 1024 p53 p1024 mode_NE x) as [A [B _]]. unfold fsqrt. split.
  - rewrite B. destruct x as [s|s| |s m e H]; try discriminate F; try reflexivity. destruct s; [|reflexivity].
    exfalso. assert (N : B2R (B754_finite true m e H) < 0) by (apply F2R_lt_0; reflexivity). cbv beta in *. lra.
  - rewrite A, E. reflexivity.
Qed.
Lemma abs_in : forall a b, Rabs a <= b -> - b <= a <= b.
Proof. intros a b H. unfold Rabs in H. destruct (Rcase_abs a); lra. Qed.
Lemma is_fun : forall x a b, is x a -> is x b -> a = b.
Proof. intros x a b [_ A] [_ B]. congruence. Qed.
Lemma forall2_firstn : forall (A B : Type) (P : A -> B -> Prop) n a b, Forall2 P a b -> Forall2 P (firstn n a) (firstn n b).
Proof. induction n as [|n IH]; intros a b F; [constructor|]. destruct F; [constructor|]. cbn. constructor; auto. Qed.
Lemma forall2_skipn : forall (A B : Type) (P : A -> B -> Prop) n a b, Forall2 P a b -> Forall2 P (skipn n a) (skipn n b).
Proof. induction n as [|n IH]; intros a b F; [exact F|]. destruct F; [constructor|]. cbn. auto. Qed.
Lemma trim_rel : forall xs qs trim, rel xs qs -> rel (ftrim_values xs trim) (trim_values qs trim).
Proof.
  intros xs qs trim R. unfold ftrim_values, trim_values. destruct (trim =? 0)%Z; [exact R|]. cbv zeta. unfold py_slice. rewrite (rel_length _ _ R), (rel_length _ _ (sort_rel _ _ R)).
  apply forall2_firstn, forall2_skipn, sort_rel, R.
Qed.
Lemma rel_are : forall xs qs, rel xs qs -> are xs (map Q2R qs).
Proof. intros xs qs R. induction R; cbn; constructor; assumption. Qed.
Lemma total_Q : forall l, total (map Q2R l) = Q2R (sumQ l).
Proof. induction l as [|q l IH]; cbn; [unfold Q2R; cbn; lra|]. change (fold_right Qplus 0%Q l) with (sumQ l). rewrite Q2R_plus, IH. reflexivity. Qed.
Lemma mean_Q : forall l, l <> [] -> mean (map Q2R l) = Q2R (meanQ l).
Proof.
  intros l N. unfold mean, meanQ. rewrite total_Q, map_length, Q2R_div, Q2R_Z, INR_IZR_INZ; [reflexivity|]. destruct l; [easy|]. unfold Qeq. cbn. lia.
Qed.
Lemma var_Q : forall l, l <> [] -> mean (map (fun a => (a - mean (map Q2R l)) * (a - mean (map Q2R l))) (map Q2R l)) = Q2R (varQ l).
Proof.
  intros l N. unfold varQ. rewrite (mean_Q l) by exact N. rewrite <- (mean_Q (map _ l)) by (destruct l; [easy|discriminate]). f_equal. rewrite !map_map. apply map_ext. intros q. rewrite Q2R_mult, Q2R_minus. reflexivity.
Qed.
Lemma mean_perm : forall a b, Permutation a b -> mean a = mean b.
Proof. intros a b P. unfold mean. rewrite (total_perm _ _ P), (Permutation_length P). reflexivity. Qed.

(** The mean in any bracketing. *)
Lemma bmean_ok : forall M bracket xs c, adds_all bracket -> 1 <= M <= 10000 -> are xs c -> c <> [] -> (Z.of_nat (length c) <= 1000000)%Z -> (forall a, In a c -> Rabs a <= M) ->
  exists s, is (fmean (bracket xs)) s /\ Rabs (s - mean c) <= (INR (length c) + 1) * (3 * M * u).
Proof.
  intros M bracket xs c AA HM F NE L Q. destruct (are_perm _ _ (AA xs) _ F) as [d [D P]]. pose proof (Permutation_length P) as PL.
  destruct (fmean_ok M (bracket xs) d (length (terms (bracket xs))) HM D (are_length _ _ D)) as [s [I E]].
  - intros ->. apply Permutation_nil in P. easy.
  - rewrite (are_length _ _ D), PL. exact L.
  - intros a A. apply Q. apply (Permutation_in _ P A).
  - exists s. split; [exact I|]. rewrite (mean_perm _ _ P), PL in E. exact E.
Qed.

(** A sum of numbers that are not negative is not negative. *)
Lemma fsum_pos : forall N M, 1 <= M -> (1 <= N)%nat -> INR N * M <= 10000000000 -> INR N <= 1000000 -> forall t c, are (terms t) c -> (forall a, In a c -> 0 <= a <= M) -> (length c <= N)%nat ->
  exists s, is (fsum t) s /\ 0 <= s.
Proof.
  intros N M HM HN HB HI. assert (ABS : forall c : list R, (forall a, In a c -> 0 <= a <= M) -> forall a, In a c -> Rabs a <= M) by (intros c Q a A; rewrite Rabs_pos_eq; apply Q; exact A).
  assert (SB : forall t c s, are (terms t) c -> (forall a, In a c -> 0 <= a <= M) -> (length c <= N)%nat -> is (fsum t) s -> Rabs s <= 2 * 10000000000).
  { intros t c s F Q L I. destruct (fsum_ok N M HM HN HB HI t c F (ABS _ Q) L) as [s' [I' [_ E]]]. rewrite (is_fun _ _ _ I I'). pose proof u_pos as U. pose proof (total_bound M c (ABS _ Q)) as T.
    assert (K : INR (length c) <= INR N) by (apply le_INR; exact L). assert (K2 : INR (Nat.pred (length c)) <= 1000000) by (eapply Rle_trans; [apply le_INR; apply Nat.le_pred_l|lra]).
    pose proof (pos_INR (length c)). pose proof (pos_INR (Nat.pred (length c))).
    assert (T2 : Rabs (total c) <= 10000000000) by (eapply Rle_trans; [exact T|]; apply Rle_trans with (INR N * M); [apply Rmult_le_compat_r; lra|exact HB]).
    assert (E2 : INR (Nat.pred (length c)) * (3 * (INR N * M) * u) <= 1000000 * (3 * 10000000000 * (12 / 100000000000000000))).
    { assert (0 <= INR N * M) by (apply Rmult_le_pos; [apply pos_INR|lra]). apply Rmult_le_compat; try lra; [|apply Rmult_le_compat; lra]. apply Rmult_le_pos; lra. }
    replace s' with ((s' - total c) + total c) by ring. eapply Rle_trans; [apply Rabs_triang|]. lra. }
  induction t as [|x|a IHa b IHb]; intros c F Q L; cbn [fsum terms] in *.
  - exists 0. split; [|lra]. apply (is_fz 0). lia.
  - inversion F as [|? y ? ? I F']. subst. exists y. split; [exact I|]. apply Q. now left.
  - destruct (are_app_inv _ _ _ F) as [c1 [c2 [-> [F1 F2]]]]. rewrite app_length in L.
    assert (Q1 : forall a, In a c1 -> 0 <= a <= M) by (intros; apply Q, in_or_app; now left). assert (Q2 : forall a, In a c2 -> 0 <= a <= M) by (intros; apply Q, in_or_app; now right).
    destruct (IHa _ F1 Q1 ltac:(lia)) as [s1 [I1 P1]]. destruct (IHb _ F2 Q2 ltac:(lia)) as [s2 [I2 P2]].
    pose proof (SB _ _ _ F1 Q1 ltac:(lia) I1) as B1. pose proof (SB _ _ _ F2 Q2 ltac:(lia) I2) as B2.
    exists (rnd (s1 + s2)). split.
    + apply is_add; [exact I1|exact I2|]. apply small_big. eapply Rle_trans; [apply Rabs_triang|]. lra.
    + apply rnd_ge; [|lra]. apply (is_dbl (fz 0)). apply (is_fz 0). lia.
Qed.

Lemma squares_ok : forall M n xs c mh m E0, 1 <= M <= 40 -> 1 <= n <= 1000001 -> are xs c -> (forall a, In a c -> Rabs a <= M) -> Rabs m <= M -> is mh E0 -> Rabs (E0 - m) <= n * (3 * M * u) ->
  exists d, are (fsquares xs mh) d /\ length d = length c /\ (forall a, In a d -> 0 <= a <= 5 * (M * M)) /\ Forall2 (fun x y => Rabs (x - y) <= (n + 2) * (13 * (M * M) * u)) d (map (fun a => (a - m) * (a - m)) c).
Proof.
  intros M n xs c mh m E0 HM Hn F Q Bm I E. pose proof u_pos as U.
  assert (MU : 0 < M * u <= M / 1000000000000) by nra. assert (NE : n * (3 * M * u) <= M / 1000) by nra.
  induction F as [|x a xs c J F IH].
  - exists []. split; [constructor|]. split; [reflexivity|]. split; [intros a []|constructor].
  - destruct IH as [d [A [L [B C]]]]; [intros; apply Q; now right|]. pose proof (Q a (or_introl eq_refl)) as Ba.
    assert (B1 : Rabs (a - E0) <= 21 / 10 * M) by (apply Rabs_le; apply abs_in in Ba; apply abs_in in Bm; apply abs_in in E; lra).
    pose proof (is_sub _ _ _ _ J I ltac:(apply small_big; lra)) as I1. pose proof (err_le _ _ B1 ltac:(lra)) as E1. set (dh := rnd (a - E0)) in *.
    assert (E1' : Rabs (dh - (a - E0)) <= 3 * M * u) by (eapply Rle_trans; [exact E1|]; nra).
    assert (D : Rabs (dh - (a - m)) <= (n + 1) * (3 * M * u)).
    { replace (dh - (a - m)) with ((dh - (a - E0)) + - (E0 - m)) by ring. eapply Rle_trans; [apply Rabs_triang|]. rewrite Rabs_Ropp. lra. }
    assert (D' : Rabs (dh - (a - m)) <= M / 500) by (eapply Rle_trans; [exact D|]; nra).
    assert (Bd : Rabs dh <= 22 / 10 * M) by (apply Rabs_le; apply abs_in in B1; apply abs_in in E1'; nra).
    assert (Bq : 0 <= dh * dh <= 484 / 100 * (M * M)) by (apply abs_in in Bd; nra).
    assert (MM : 1 <= M * M <= 1600) by nra.
    pose proof (is_mul _ _ _ _ I1 I1 ltac:(apply small_big; rewrite Rabs_pos_eq; lra)) as I2.
    pose proof (err_le (dh * dh) (484 / 100 * (M * M)) ltac:(rewrite Rabs_pos_eq; lra) ltac:(lra)) as E2. set (qh := rnd (dh * dh)) in *.
    assert (MMU : 0 < M * M * u <= M * M / 1000000) by nra.
    assert (E2' : Rabs (qh - dh * dh) <= 5 * (M * M * u)) by (eapply Rle_trans; [exact E2|]; nra).
    exists (qh :: d). split; [constructor; [exact I2|exact A]|]. split; [cbn; congruence|]. split.
    + intros z [<-|Z]; [|apply B; exact Z]. split; [apply rnd_ge; [apply (is_dbl (fz 0)), (is_fz 0); lia|lra]|]. apply abs_in in E2'. lra.
    + cbn [map]. constructor; [|exact C]. replace (qh - (a - m) * (a - m)) with ((qh - dh * dh) + (dh - (a - m)) * (dh + (a - m))) by ring.
      eapply Rle_trans; [apply Rabs_triang|]. rewrite Rabs_mult.
      assert (G : Rabs (dh + (a - m)) <= 42 / 10 * M) by (apply Rabs_le; apply abs_in in Bd; apply abs_in in Ba; apply abs_in in Bm; split; lra).
      assert (H : Rabs (dh - (a - m)) * Rabs (dh + (a - m)) <= (n + 1) * (3 * M * u) * (42 / 10 * M)) by (apply Rmult_le_compat; try apply Rabs_pos; assumption).
      set (k := M * M * u) in *. replace ((n + 1) * (3 * M * u) * (42 / 10 * M)) with ((n + 1) * (126 / 10) * k) in H by (unfold k; field). replace ((n + 2) * (13 * (M * M) * u)) with ((n + 2) * 13 * k) by (unfold k; ring). nra.
Qed.

Lemma map_nonempty : forall (f : R -> R) c, c <> [] -> map f c <> [].
Proof. intros f c N. destruct c; [easy|discriminate]. Qed.
Lemma mean_close : forall e a b, Forall2 (fun x y => Rabs (x - y) <= e) a b -> a <> [] -> Rabs (mean a - mean b) <= e.
Proof.
  intros e a b F N. pose proof (total_close _ _ _ F) as T. assert (L : length b = length a) by (clear T N; induction F; cbn; congruence). unfold mean. rewrite L.
  assert (P : 0 < INR (length a)) by (apply (lt_INR 0); destruct a; [easy|cbn; lia]).
  replace (total a / INR (length a) - total b / INR (length a)) with ((total a - total b) * / INR (length a)) by (field; lra). rewrite Rabs_mult, (Rabs_pos_eq (/ _)) by (apply Rlt_le, Rinv_0_lt_compat; exact P).
  apply Rmult_le_reg_r with (INR (length a)); [exact P|]. rewrite Rmult_assoc, Rinv_l by lra. lra.
Qed.
Lemma fmean_pos : forall M bracket xs c, adds_all bracket -> 1 <= M <= 10000 -> are xs c -> c <> [] -> (Z.of_nat (length c) <= 1000000)%Z -> (forall a, In a c -> 0 <= a <= M) ->
  forall s, is (fmean (bracket xs)) s -> 0 <= s.
Proof.
  intros M bracket xs c AA HM F NE L Q s I. destruct (are_perm _ _ (AA xs) _ F) as [d [D P]]. pose proof (Permutation_length P) as PL.
  assert (P1 : (1 <= length c)%nat) by (destruct c; [easy|cbn; lia]). assert (I1 : INR (length c) <= 1000000) by (rewrite INR_IZR_INZ; apply IZR_le; exact L).
  assert (I2 : 1 <= INR (length c)) by (apply (le_INR 1); exact P1).
  assert (BIG : INR (length c) * M <= 10000000000) by (apply Rle_trans with (1000000 * 10000); [apply Rmult_le_compat; lra|lra]).
  assert (Qd : forall a, In a d -> 0 <= a <= M) by (intros a A; apply Q; apply (Permutation_in _ P A)).
  destruct (fsum_pos (length c) M ltac:(lra) P1 BIG I1 (bracket xs) d D Qd ltac:(lia)) as [t [T T0]].
  assert (B : Rabs t <= 20000000000).
  { assert (QA : forall a, In a d -> Rabs a <= M) by (intros a A; rewrite Rabs_pos_eq; apply Qd; exact A).
    destruct (fsum_ok (length c) M ltac:(lra) P1 BIG I1 (bracket xs) d D QA ltac:(lia)) as [t' [T' [_ E]]]. rewrite (is_fun _ _ _ T T'). pose proof u_pos as U.
    pose proof (total_bound M d QA) as TB. rewrite PL in *. assert (K2 : 0 <= INR (Nat.pred (length c)) <= 1000000) by (split; [apply pos_INR|]; eapply Rle_trans; [apply le_INR; apply Nat.le_pred_l|lra]).
    assert (E2 : INR (Nat.pred (length c)) * (3 * (INR (length c) * M) * u) <= 1000000 * (3 * 10000000000 * (12 / 100000000000000000))).
    { assert (0 <= INR (length c) * M) by (apply Rmult_le_pos; lra). apply Rmult_le_compat; try lra; [|apply Rmult_le_compat; lra]. apply Rmult_le_pos; lra. }
    replace t' with ((t' - total d) + total d) by ring. eapply Rle_trans; [apply Rabs_triang|]. lra. }
  assert (NP : INR (length c) = IZR (Z.of_nat (length (terms (bracket xs))))) by (rewrite (are_length _ _ D), PL; apply INR_IZR_INZ).
  assert (DV : Rabs (t / IZR (Z.of_nat (length (terms (bracket xs))))) <= 20000000000).
  { rewrite <- NP. unfold Rdiv. rewrite Rabs_mult, (Rabs_pos_eq (/ _)) by (apply Rlt_le, Rinv_0_lt_compat; lra). apply Rmult_le_reg_r with (INR (length c)); [lra|]. rewrite Rmult_assoc, Rinv_l by lra. nra. }
  assert (J : is (fmean (bracket xs)) (rnd (t / IZR (Z.of_nat (length (terms (bracket xs))))))).
  { unfold fmean. apply is_div; [exact T|apply is_fz; rewrite (are_length _ _ D), PL; lia|rewrite <- NP; lra|]. apply small_big. lra. }
  rewrite (is_fun _ _ _ I J). apply rnd_ge; [apply (is_dbl (fz 0)), (is_fz 0); lia|]. rewrite <- NP. apply Rmult_le_pos; [exact T0|]. apply Rlt_le, Rinv_0_lt_compat. lra.
Qed.

(** The root of the mean square deviation. *)
Lemma bstd_ok : forall M bracket xs c, adds_all bracket -> 1 <= M <= 40 -> are xs c -> c <> [] -> (Z.of_nat (length c) <= 1000000)%Z -> (forall a, In a c -> Rabs a <= M) ->
  exists s, is (fsqrt (fmean (bracket (fsquares xs (fmean (bracket xs)))))) s /\ 0 <= s /\ Rabs (s * s - mean (map (fun a => (a - mean c) * (a - mean c)) c)) <= (INR (length c) + 4) * (30 * (M * M) * u).
Proof.
  intros M bracket xs c AA HM F NE L Q. pose proof u_pos as U. destruct (bmean_ok M bracket xs c AA ltac:(lra) F NE L Q) as [m0 [I0 E0]].
  assert (P1 : (1 <= length c)%nat) by (destruct c; [easy|cbn; lia]). assert (N2 : INR (length c) <= 1000000) by (rewrite INR_IZR_INZ; apply IZR_le; exact L). assert (N1 : 1 <= INR (length c)) by (apply (le_INR 1); exact P1).
  destruct (squares_ok M (INR (length c) + 1) xs c _ (mean c) m0 HM ltac:(lra) F Q (mean_bound M c NE Q) I0 E0) as [d [A [LD [B C]]]].
  assert (MM : 1 <= M * M <= 1600) by nra. assert (ND : d <> []) by (intros ->; cbn in LD; lia).
  assert (BA : forall a, In a d -> Rabs a <= 5 * (M * M)) by (intros a Ha; rewrite Rabs_pos_eq; apply B; exact Ha).
  assert (LL : (Z.of_nat (length d) <= 1000000)%Z) by (rewrite LD; exact L).
  destruct (bmean_ok (5 * (M * M)) bracket _ d AA ltac:(lra) A ND LL BA) as [v [IV EV]].
  pose proof (fmean_pos (5 * (M * M)) bracket _ d AA ltac:(lra) A ND LL B v IV) as PV. pose proof (mean_close _ _ _ C ND) as CL. rewrite LD in EV.
  set (V := mean (map (fun a => (a - mean c) * (a - mean c)) c)) in *. set (k := M * M * u). assert (K0 : 0 < k <= M * M / 1000000000000000) by (unfold k; nra).
  assert (EV2 : Rabs (v - V) <= (INR (length c) + 3) * (28 * k)).
  { replace (v - V) with ((v - mean d) + (mean d - V)) by ring. eapply Rle_trans; [apply Rabs_triang|]. replace (3 * (5 * (M * M)) * u) with (15 * k) in EV by (unfold k; ring). replace (13 * (M * M) * u) with (13 * k) in CL by (unfold k; ring). nra. }
  pose proof (mean_bound _ _ ND BA) as MD. assert (V6 : v <= 9 * (M * M)).
  { apply abs_in in MD. apply abs_in in EV. replace (3 * (5 * (M * M)) * u) with (15 * k) in EV by (unfold k; ring). nra. }
  assert (R0 : 0 <= sqrt v) by apply sqrt_pos. assert (R2 : sqrt v * sqrt v = v) by (apply sqrt_sqrt; exact PV). assert (R1 : sqrt v <= 3 * M) by nra.
  exists (rnd (sqrt v)). split; [apply is_fsqrt; assumption|].
  assert (P : 0 <= rnd (sqrt v)) by (apply rnd_ge; [apply (is_dbl (fz 0)), (is_fz 0); lia|exact R0]). split; [exact P|].
  pose proof (err_le (sqrt v) (3 * M) ltac:(rewrite Rabs_pos_eq; lra) ltac:(lra)) as ES. set (s := rnd (sqrt v)) in *.
  assert (MU : 0 < M * u <= M / 1000000) by nra. assert (ES' : Rabs (s - sqrt v) <= 4 * (M * u)) by (eapply Rle_trans; [exact ES|]; nra).
  assert (S2 : Rabs (s * s - v) <= 28 * k).
  { rewrite <- R2 at 1. replace (s * s - sqrt v * sqrt v) with ((s - sqrt v) * (s + sqrt v)) by ring. rewrite Rabs_mult. apply Rle_trans with (4 * (M * u) * (7 * M)); [|unfold k; nra].
    apply Rmult_le_compat; try apply Rabs_pos; [exact ES'|]. rewrite Rabs_pos_eq by lra. apply abs_in in ES'. lra. }
  replace (s * s - V) with ((s * s - v) + (v - V)) by ring. eapply Rle_trans; [apply Rabs_triang|]. replace (30 * (M * M) * u) with (30 * k) by (unfold k; ring). nra.
Qed.

(** The values kept by the program stand for those of the specification. *)
Lemma kept_ok : forall M xs qs trim m, readings M xs qs -> kept trim qs m ->
  exists c, are (ftrim_values xs trim) c /\ c = map Q2R (trim_values qs trim) /\ c <> [] /\ (length c <= length qs)%nat /\ (forall a, In a c -> Rabs a <= M) /\
    mean c = Q2R (meanQ m) /\ mean (map (fun a => (a - mean c) * (a - mean c)) c) = Q2R (varQ m).
Proof.
  intros M xs qs trim m [R [N Q]] K. assert (NQ : qs <> []) by (intros ->; cbn in N; lia). exists (map Q2R (trim_values qs trim)). split; [apply rel_are, trim_rel, R|]. split; [reflexivity|].
  assert (IN : forall q, In q (trim_values qs trim) -> In q qs).
  { intros q. unfold trim_values. destruct (trim =? 0)%Z; [easy|]. cbv zeta. unfold py_slice. intros I. apply (Permutation_in _ (proj1 (qsort_sorts qs))). rewrite <- (firstn_skipn (Z.to_nat (slice_clip (Z.of_nat (length (qsort qs))) (Z.of_nat (length qs) / trim))) (qsort qs)). apply in_or_app. right.
    set (w := skipn _ _) in *. match type of I with In _ (firstn ?n _) => rewrite <- (firstn_skipn n w) end. apply in_or_app. left. exact I. }
  assert (G : trim_values qs trim <> [] /\ (length (trim_values qs trim) <= length qs)%nat /\ Forall2 Qeq (trim_values qs trim) m).
  { destruct K as [[-> ->]|[T [s [S ->]]]].
    - unfold trim_values. cbn [Z.eqb]. split; [exact NQ|]. split; [lia|]. clear. induction qs; constructor; [reflexivity|assumption].
    - rewrite trim_values_spec by lia. pose proof (trim_nonempty qs trim T NQ) as P. rewrite <- (qsort_length qs) in P at 2. split; [exact (middle_nonempty _ _ P)|].
      split; [rewrite middle_length, qsort_length; lia|]. apply Forall2_middle. apply (sorts_eq _ _ qs); [apply qsort_sorts|exact S]. }
  destruct G as [G1 [G2 G3]]. split; [destruct (trim_values qs trim); [easy|discriminate]|]. split; [rewrite map_length; exact G2|]. split; [intros a A; apply in_map_iff in A; destruct A as [q [<- A]]; apply Q, IN, A|].
  split; [rewrite mean_Q by exact G1; apply Qeq_eqR, meanQ_eq, G3|rewrite var_Q by exact G1; apply Qeq_eqR, varQ_eq, G3].
Qed.
