(** C85: the trimmed mean and standard deviation in double precision. *)
Require Import ZArith QArith Reals Lra Lia Bool Psatz List Permutation Qreals.
From Flocq Require Import Core.Core IEEE754.BinarySingleNaN.
Require Import Verif.M_Base Verif.S_Stats Verif.L_Stats Verif.M_Float Verif.S_Float Verif.L_Float Verif.L_Float3 Verif.L_Float6 Verif.M_Float5 Verif.M_Float8 Verif.S_Trim Verif.L_Float14 Verif.L_Float15 Verif.L_Float11.
Import ListNotations.
Open Scope R_scope.

(** The mean is off by at most (n + 1) * M * 4e-16, whatever the order and the bracketing of the additions. *)
Theorem C85_mean : forall bracket M xs qs trim m, adds_all bracket -> 1 <= M <= 10000 -> readings M xs qs -> kept trim qs m ->
  exists a, is_double (ftrim_mean bracket xs trim) a /\ Rabs (a - Q2R (meanQ m)) <= (INR (length qs) + 1) * M * (4 / 10000000000000000).
Proof.
  intros bracket M xs qs trim m AA HM R K. destruct (kept_ok _ _ _ _ _ R K) as [c [A [_ [N [L [Q [E _]]]]]]]. destruct R as [_ [B _]]. pose proof u_pos as U.
  destruct (bmean_ok M bracket _ c AA HM A N ltac:(lia) Q) as [s [I F]]. exists s. split; [exact I|]. rewrite <- E. eapply Rle_trans; [exact F|].
  apply le_INR in L. pose proof (pos_INR (length c)). rewrite (Rmult_assoc (INR (length qs) + 1) M). apply Rmult_le_compat; [lra|apply Rmult_le_pos; lra|lra|]. rewrite (Rmult_comm 3 M), (Rmult_assoc M 3). apply Rmult_le_compat_l; lra.
Qed.
Print Assumptions C85_mean.

(** The standard deviation is a finite double that is not negative, and its square is off by at most (n + 4) * M^2 * 4e-15. *)
Theorem C85_std : forall bracket M xs qs trim m, adds_all bracket -> 1 <= M <= 40 -> readings M xs qs -> kept trim qs m ->
  exists a, is_double (ftrim_std bracket xs trim) a /\ 0 <= a /\ Rabs (a * a - Q2R (varQ m)) <= (INR (length qs) + 4) * (M * M) * (4 / 1000000000000000).
Proof.
  intros bracket M xs qs trim m AA HM R K. destruct (kept_ok _ _ _ _ _ R K) as [c [A [_ [N [L [Q [_ E]]]]]]]. destruct R as [_ [B _]]. pose proof u_pos as U.
  destruct (bstd_ok M bracket _ c AA HM A N ltac:(lia) Q) as [s [I [P F]]]. exists s. split; [exact I|]. split; [exact P|]. rewrite <- E. eapply Rle_trans; [exact F|].
  apply le_INR in L. pose proof (pos_INR (length c)). assert (MM : 1 <= M * M) by nra. rewrite (Rmult_assoc (INR (length qs) + 4) (M * M)). apply Rmult_le_compat; [lra|apply Rmult_le_pos; lra|lra|]. rewrite (Rmult_comm 30 (M * M)), (Rmult_assoc (M * M) 30). apply Rmult_le_compat_l; lra.
Qed.
Print Assumptions C85_std.

(** So the root itself is off by at most the root of that. *)
Theorem C85_std_root : forall bracket M xs qs trim m, adds_all bracket -> 1 <= M <= 40 -> readings M xs qs -> kept trim qs m ->
  exists a, is_double (ftrim_std bracket xs trim) a /\ Rabs (a - sqrt (Q2R (varQ m))) <= sqrt ((INR (length qs) + 4) * (M * M) * (4 / 1000000000000000)).
Proof.
  intros bracket M xs qs trim m AA HM R K. destruct (C85_std bracket M xs qs trim m AA HM R K) as [a [I [P E]]]. exists a. split; [exact I|].
  set (e := (INR (length qs) + 4) * (M * M) * (4 / 1000000000000000)) in *. assert (E0 : 0 <= e) by (eapply Rle_trans; [apply Rabs_pos|exact E]).
  destruct (kept_ok _ _ _ _ _ R K) as [c [_ [_ [N [_ [_ [_ V]]]]]]]. assert (V0 : 0 <= Q2R (varQ m)).
  { rewrite <- V. unfold S_Float2.mean. apply Rmult_le_pos; [|destruct c; [easy|]; apply Rlt_le, Rinv_0_lt_compat; apply (lt_INR 0); cbn; lia]. generalize (S_Float2.total c / INR (length c)) as m0. intros m0. clear. induction c as [|x c IH]; cbn; [lra|]. pose proof (Rle_0_sqr (x - m0)). unfold Rsqr in *. lra. }
  pose proof (sqrt_pos (Q2R (varQ m))) as S0. pose proof (sqrt_sqrt _ V0) as S2. set (b := sqrt (Q2R (varQ m))) in *. rewrite <- S2 in E.
  rewrite <- (sqrt_Rsqr_abs (a - b)). apply sqrt_le_1_alt. unfold Rsqr. eapply Rle_trans; [|exact E]. replace (a * a - b * b) with ((a - b) * (a + b)) by ring. rewrite Rabs_mult, (Rabs_pos_eq (a + b)) by lra.
  apply Rle_trans with (Rabs (a - b) * Rabs (a - b)); [rewrite <- Rabs_mult; apply Rle_abs|]. apply Rmult_le_compat_l; [apply Rabs_pos|]. unfold Rabs. destruct (Rcase_abs (a - b)); lra.
Qed.
Print Assumptions C85_std_root.

(** A comparison of the mean with a limit, as in the tail check, comes out as on exact numbers unless the mean is within that error of the limit. *)
Theorem C85_over : forall bracket M xs qs trim m limit b, adds_all bracket -> 1 <= M <= 10000 -> readings M xs qs -> kept trim qs m -> is_double limit b ->
  let error := (INR (length qs) + 1) * M * (4 / 10000000000000000) in
  (b + error < Rabs (Q2R (meanQ m)) -> flt limit (fabs (ftrim_mean bracket xs trim)) = true) /\ (Rabs (Q2R (meanQ m)) + error <= b -> flt limit (fabs (ftrim_mean bracket xs trim)) = false).
Proof.
  intros bracket M xs qs trim m limit b AA HM R K LB error. destruct (C85_mean bracket M xs qs trim m AA HM R K) as [a [I E]]. fold error in E. clearbody error.
  rewrite (flt_is _ _ _ _ LB (is_abs _ _ I)). assert (T1 : Rabs a <= Rabs (Q2R (meanQ m)) + error). { replace a with ((a - Q2R (meanQ m)) + Q2R (meanQ m)) by ring. eapply Rle_trans; [apply Rabs_triang|]. lra. }
  assert (T2 : Rabs (Q2R (meanQ m)) <= Rabs a + error). { replace (Q2R (meanQ m)) with (- (a - Q2R (meanQ m)) + a) at 1 by ring. eapply Rle_trans; [apply Rabs_triang|]. rewrite Rabs_Ropp. lra. }
  split; intros H; [apply Rlt_bool_true|apply Rlt_bool_false]; lra.
Qed.
Print Assumptions C85_over.

(** The long window of the tail check, for background errors and parameters from 0 to 10 degrees.  Biased: the mean of the values kept is beyond
    n combined errors.  Noisy: their variance is beyond the combined variance.  The window fails in double precision if it is clearly biased or
    clearly noisy, and passes if it is clearly neither; "clearly" is a difference of (length + 10) * 3e-11 squared degrees. *)
Theorem C85_window : forall bracket M nf n interf inter intraf intra xs qs m es c, adds_all bracket -> 1 <= M <= 40 -> readings M xs qs -> kept 100 qs m ->
  errors es c -> length c = length qs -> parameter nf n -> parameter interf inter -> parameter intraf intra ->
  let margin := (INR (length qs) + 10) * (3 / 100000000000) in
  let avg2 := Q2R (meanQ m) * Q2R (meanQ m) in
  let limit2 := n * n * (inter * inter + S_Float2.mean c * S_Float2.mean c) in
  let var := Q2R (varQ m) in
  let limit := intra * intra + S_Float2.mean (map (fun e => e * e) c) in
  (limit2 + margin < avg2 \/ limit + margin < var -> flong_fails bracket nf interf intraf xs es = true) /\
  (avg2 + margin <= limit2 /\ var + margin <= limit -> flong_fails bracket nf interf intraf xs es = false).
Proof.
  intros bracket M nf n interf inter intraf intra xs qs m es c AA HM R K ER LC PN P1 P2 margin avg2 limit2 var limit. pose proof u_pos as U. assert (R' := R). destruct R' as [_ [LB _]].
  assert (NE : c <> []) by (intros ->; cbn in LC; rewrite <- LC in LB; cbn in LB; lia).
  destruct (first_limit (length qs) bracket nf n interf inter es c AA PN P1 ER NE LC ltac:(lia)) as [t [IT [PT ET]]]. fold limit2 in ET.
  destruct (second_limit (length qs) bracket intraf intra es c AA P2 ER NE LC ltac:(lia)) as [w [IW [PW EW]]]. fold limit in EW.
  destruct (kept_ok _ _ _ _ _ R K) as [d [A [_ [N [L [Q [E EV]]]]]]]. destruct (bmean_ok M bracket _ d AA ltac:(lra) A N ltac:(lia) Q) as [a [IA EA]]. destruct (bstd_ok M bracket _ d AA HM A N ltac:(lia) Q) as [s [IS [PS ES]]].
  rewrite EV in ES. fold var in ES. rewrite E in EA. pose proof (S_Float2.mean d) as _. pose proof (L_Float9.mean_bound M d N Q) as BM. rewrite E in BM.
  apply le_INR in L. pose proof (pos_INR (length d)) as D0. assert (N2 : 1 <= INR (length qs) <= 1000000). { split; [apply (le_INR 1); lia|rewrite INR_IZR_INZ; apply IZR_le; lia]. }
  set (nn := INR (length qs)) in *. set (k := nn * u). assert (K0 : 0 < k <= 12 / 100000000000) by (unfold k; nra).
  assert (EA' : Rabs (a - Q2R (meanQ m)) <= 120 * k + 120 * u) by (eapply Rle_trans; [exact EA|]; unfold k; apply Rle_trans with ((nn + 1) * (3 * 40 * u)); [apply Rmult_le_compat; nra|lra]).
  assert (A2 : Rabs (Rabs a * Rabs a - avg2) <= 10000 * k + 10000 * u).
  { rewrite <- Rabs_mult, (Rabs_pos_eq (a * a)) by nra. unfold avg2. replace (a * a - Q2R (meanQ m) * Q2R (meanQ m)) with ((a - Q2R (meanQ m)) * (a + Q2R (meanQ m))) by ring. rewrite Rabs_mult.
    apply Rle_trans with ((120 * k + 120 * u) * 81); [|lra]. apply Rmult_le_compat; try apply Rabs_pos; [exact EA'|]. apply Rabs_le. apply abs_in in EA'. apply abs_in in BM. lra. }
  assert (S2 : Rabs (s * s - var) <= 48000 * k + 192000 * u). { eapply Rle_trans; [exact ES|]. unfold k. assert (MM : 1 <= M * M <= 1600) by nra. apply Rle_trans with ((nn + 4) * (30 * 1600 * u)); [apply Rmult_le_compat; [lra|apply Rmult_le_pos; lra|lra|apply Rmult_le_compat_r; lra]|lra]. }
  replace ((nn + 10) * (150000 * u)) with (150000 * k + 1500000 * u) in ET by (unfold k; ring). replace ((nn + 10) * (1000 * u)) with (1000 * k + 10000 * u) in EW by (unfold k; ring).
  assert (MG : 200000 * k + 2000000 * u <= margin). { unfold margin, k. assert (nn * u <= nn * (12 / 100000000000000000)) by (apply Rmult_le_compat_l; lra). lra. }
  unfold flong_fails, ftrim_mean, ftrim_std. rewrite (flt_is _ _ _ _ IT (is_abs _ _ IA)), (flt_is _ _ _ _ IW IS).
  apply abs_in in A2. apply abs_in in S2. apply abs_in in ET. apply abs_in in EW. split.
  - intros [H|H]; apply orb_true_iff; [left|right]; apply Rlt_bool_true; apply lt_squares; try assumption; try apply Rabs_pos; lra.
  - intros [H1 H2]. apply orb_false_iff. split; apply Rlt_bool_false; apply Rnot_lt_le; intros H; apply lt_squares in H; try assumption; try apply Rabs_pos; lra.
Qed.
Print Assumptions C85_window.

(** Adding from left to right is one way; pairwise summation as in numpy another. *)
Example C85_ex : adds_all (as_they_come nothing) /\ readings 9 [fz 3; fz 9; fz 1; fz 4; fz 7] (map inject_Z [3; 9; 1; 4; 7]%Z) /\ kept 5 (map inject_Z [3; 9; 1; 4; 7]%Z) (map inject_Z [3; 4; 7]%Z) /\
  feq (ftrim_mean (as_they_come nothing) [fz 3; fz 9; fz 1; fz 4; fz 7] 5) (fdiv (fz 14) (fz 3)) = true /\ flt (fz 1) (ftrim_std (as_they_come nothing) [fz 3; fz 9; fz 1; fz 4; fz 7] 5) = true.
Proof.
  split. { intros l. rewrite L_Float9.as_they_come_terms. apply Permutation_refl. }
  split. { split; [|split; [cbn; lia|]].
    - cbn [map]. repeat (apply Forall2_cons; [rewrite Q2R_Z; apply is_fz; lia|]). apply Forall2_nil.
    - intros q I. cbn [map In] in I. destruct I as [<-|[<-|[<-|[<-|[<-|[]]]]]]; rewrite Q2R_Z, <- abs_IZR; apply IZR_le; lia. }
  split. { right. split; [lia|]. exists (map inject_Z [1; 3; 4; 7; 9]%Z). split; [|reflexivity]. exact (qsort_sorts (map inject_Z [3; 9; 1; 4; 7]%Z)). }
  split; vm_compute; reflexivity.
Qed.

(** Finding: equal readings need not have a standard deviation of zero, nor a mean equal to them: three readings of 0.1. *)
Theorem C85_constant_refuted : flt (fz 0) (ftrim_std (as_they_come nothing) (repeat (fq (1 # 10)) 3) 100) = true /\ flt (fq (1 # 10)) (ftrim_mean (as_they_come nothing) (repeat (fq (1 # 10)) 3) 100) = true.
Proof. split; vm_compute; reflexivity. Qed.
Print Assumptions C85_constant_refuted.

(** Three compared observations in the long window, with background errors of half a degree: four degrees off is clearly biased, half a
    degree is clearly not. *)
Example C85_window_ex : forall x q bad, In (x, q, bad) [(fz 4, 4%Q, true); (fdiv (fz 1) (fz 2), (1 # 2)%Q, false)] ->
  readings 4 (repeat x 3) (repeat q 3) /\ kept 100 (repeat q 3) (repeat q 3) /\ errors (repeat (fdiv (fz 1) (fz 2)) 3) (repeat (1 / 2) 3) /\ parameter (fz 3) 3 /\ parameter (fdiv (fz 1) (fz 2)) (1 / 2) /\
  flong_fails (as_they_come nothing) (fz 3) (fdiv (fz 1) (fz 2)) (fdiv (fz 1) (fz 2)) (repeat x 3) (repeat (fdiv (fz 1) (fz 2)) 3) = bad.
Proof.
  pose proof is_12 as H. intros x q bad I.
  assert (V : is x (Q2R q) /\ Rabs (Q2R q) <= 4).
  { destruct I as [E|[E|[]]]; injection E as <- <- <-.
    - replace (Q2R 4) with 4 by (unfold Q2R; cbn; lra). split; [apply (is_fz 4); lia|rewrite Rabs_pos_eq; lra].
    - replace (Q2R (1 # 2)) with (1 / 2) by (unfold Q2R; cbn; lra). split; [exact H|rewrite Rabs_pos_eq; lra]. }
  destruct V as [V B].
  split. { split; [cbn [repeat]; repeat (apply Forall2_cons; [exact V|]); apply Forall2_nil|]. split; [cbn; lia|]. intros p P. apply repeat_spec in P. subst p. exact B. }
  split. { right. split; [lia|]. exists (repeat q 3). split; [|reflexivity]. destruct I as [E|[E|[]]]; injection E as <- <- <-; [exact (qsort_sorts (repeat 4%Q 3))|exact (qsort_sorts (repeat (1 # 2)%Q 3))]. }
  split. { split; [cbn [repeat]; repeat (apply Forall2_cons; [exact H|]); apply Forall2_nil|]. intros e P. apply repeat_spec in P. subst e. lra. }
  split; [split; [apply (is_fz 3); lia|lra]|]. split; [split; [exact H|lra]|]. destruct I as [E|[E|[]]]; injection E as <- <- <-; vm_compute; reflexivity.
Qed.
