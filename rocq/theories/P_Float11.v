(** C86: verdicts on a drifter's differences and on its whole record in double precision. *)
Require Import ZArith QArith Reals Lra Lia Bool Psatz List Permutation Qreals.
From Flocq Require Import Core.Core IEEE754.BinarySingleNaN.
Require Import Verif.M_Base Verif.S_Stats Verif.M_Float Verif.S_Float Verif.L_Float Verif.L_Float6 Verif.L_Float11 Verif.M_Float5 Verif.M_Float8 Verif.M_Float9 Verif.S_Trim Verif.S_Exceed
  Verif.L_Float14 Verif.L_Float15 Verif.L_Float16 Verif.P_Float10.
Import ListNotations.
Open Scope R_scope.

Definition slack : R := 4 / 100000000000.

(** A difference beyond n combined errors is found so, and one within them is not, unless the squares are within 4e-11. *)
Theorem C86_difference : forall nf n interf inter intraf intra x r, parameter nf n -> parameter interf inter -> parameter intraf intra -> observed x r ->
  (limit_squared n inter intra (snd r) + slack < fst r * fst r -> fexceeds nf interf intraf (fst x) (snd x) = true) /\
  (fst r * fst r + slack <= limit_squared n inter intra (snd r) -> fexceeds nf interf intraf (fst x) (snd x) = false).
Proof.
  intros nf n interf inter intraf intra x r PN PI PJ O. destruct (exceeds_ok _ _ _ _ _ _ _ _ PN PI PJ O) as [A B]. split; intros H; [apply A; apply Rlt_bool_true|apply B; apply Rle_bool_true]; exact H.
Qed.
Print Assumptions C86_difference.

(** So a window or a short record fails if n_bad differences are clearly beyond the limit, and passes if fewer than n_bad are not clearly within it. *)
Theorem C86_many : forall nf n interf inter intraf intra n_bad xs rs, parameter nf n -> parameter interf inter -> parameter intraf intra -> Forall2 observed xs rs ->
  ((n_bad <= Z.of_nat (length (filter (clearly_beyond slack n inter intra) rs)))%Z -> fmany_exceed nf interf intraf n_bad xs = true) /\
  ((Z.of_nat (length (filter (fun r => negb (clearly_within slack n inter intra r)) rs)) < n_bad)%Z -> fmany_exceed nf interf intraf n_bad xs = false).
Proof.
  intros nf n interf inter intraf intra n_bad xs rs PN PI PJ F. unfold fmany_exceed.
  assert (G : (length (filter (clearly_beyond slack n inter intra) rs) <= length (filter (fun x => fexceeds nf interf intraf (fst x) (snd x)) xs) <= length (filter (fun r => negb (clearly_within slack n inter intra r)) rs))%nat).
  { induction F as [|x r xs rs O F IH]; [cbn; lia|]. destruct (exceeds_ok _ _ _ _ _ _ _ _ PN PI PJ O) as [A B]. fold slack in A, B. cbn [filter].
    destruct (clearly_beyond slack n inter intra r) eqn:C1; destruct (clearly_within slack n inter intra r) eqn:C2; destruct (fexceeds nf interf intraf (fst x) (snd x)) eqn:C3; cbn [negb length];
      try (specialize (A eq_refl); discriminate A); try (specialize (B eq_refl); discriminate B); lia. }
  split; intros H; [apply Z.leb_le|apply Z.leb_gt]; lia.
Qed.
Print Assumptions C86_many.

(** A long record is found biased if the mean of its differences is beyond the limit, unless they are within the rounding error. *)
Theorem C86_biased : forall bracket M xs qs limit b, adds_all bracket -> 1 <= M <= 10000 -> readings M xs qs -> is_double limit b ->
  let error := (INR (length qs) + 1) * M * (4 / 10000000000000000) in
  (b + error < Rabs (Q2R (meanQ qs)) -> frecord_biased bracket limit xs = true) /\ (Rabs (Q2R (meanQ qs)) + error <= b -> frecord_biased bracket limit xs = false).
Proof. intros bracket M xs qs limit b AA HM R LB. apply (C85_over bracket M xs qs 0 qs limit b AA HM R); [left; split; reflexivity|exact LB]. Qed.
Print Assumptions C86_biased.

(** It is found noisy if the variance of its differences is beyond the combined variance, unless they are within (length + 10) * 1e-11. *)
Theorem C86_noisy : forall bracket M intraf intra xs qs es c, adds_all bracket -> 1 <= M <= 40 -> readings M xs qs -> errors es c -> length c = length qs -> parameter intraf intra ->
  let margin := (INR (length qs) + 10) * (1 / 100000000000) in
  let limit := intra * intra + S_Float2.mean (map (fun e => e * e) c) in
  (limit + margin < Q2R (varQ qs) -> frecord_noisy bracket intraf xs es = true) /\ (Q2R (varQ qs) + margin <= limit -> frecord_noisy bracket intraf xs es = false).
Proof.
  intros bracket M intraf intra xs qs es c AA HM R ER LC P margin limit. pose proof u_pos as U. assert (R' := R). destruct R' as [_ [LB _]].
  assert (NE : c <> []) by (intros ->; cbn in LC; rewrite <- LC in LB; cbn in LB; lia).
  destruct (second_limit (length qs) bracket intraf intra es c AA P ER NE LC ltac:(lia)) as [w [IW [PW EW]]]. fold limit in EW.
  destruct (C85_std bracket M xs qs 0 qs AA HM R (or_introl (conj eq_refl eq_refl))) as [s [IS [PS ES]]].
  assert (N2 : 1 <= INR (length qs)) by (apply (le_INR 1); lia). set (nn := INR (length qs)) in *.
  assert (ES' : Rabs (s * s - Q2R (varQ qs)) <= (nn + 10) * (7 / 1000000000000)).
  { eapply Rle_trans; [exact ES|]. assert (MM : 1 <= M * M <= 1600) by nra. rewrite Rmult_assoc. apply Rmult_le_compat; lra. }
  assert (EW' : Rabs (w * w - limit) <= (nn + 10) * (1 / 1000000000000)) by (eapply Rle_trans; [exact EW|]; apply Rmult_le_compat; lra).
  unfold frecord_noisy. rewrite (flt_is _ _ _ _ IW IS). apply abs_in in ES'. apply abs_in in EW'. unfold margin. split; intros H.
  - apply Rlt_bool_true. apply lt_squares; try assumption. lra.
  - apply Rlt_bool_false. apply Rnot_lt_le. intros K. apply lt_squares in K; try assumption. lra.
Qed.
Print Assumptions C86_noisy.

(** Two differences of four degrees and one of half a degree, background errors of half a degree, three combined errors allowed. *)
Example C86_ex : let h := fdiv (fz 1) (fz 2) in let xs := [(fz 4, h); (h, h); (fz (-4), h)] in let rs := [(4, 1 / 2); (1 / 2, 1 / 2); (-4, 1 / 2)] in
  Forall2 observed xs rs /\ parameter (fz 3) 3 /\ parameter h (1 / 2) /\ length (filter (clearly_beyond slack 3 (1 / 2) (1 / 2)) rs) = 2%nat /\ length (filter (fun r => negb (clearly_within slack 3 (1 / 2) (1 / 2) r)) rs) = 2%nat /\
  fmany_exceed (fz 3) h h 2 xs = true /\ fmany_exceed (fz 3) h h 3 xs = false /\ frecord_biased (as_they_come nothing) h (map fst xs) = false /\ frecord_noisy (as_they_come nothing) h (map fst xs) (map snd xs) = true.
Proof.
  intros h xs rs. pose proof is_12 as H. fold h in H.
  split. { unfold xs, rs. repeat apply Forall2_cons; try apply Forall2_nil; (split; [|split; [exact H|cbn; lra]]); cbn [fst]; [apply (is_fz 4); lia|exact H|apply (is_fz (-4)); lia]. }
  split; [split; [apply (is_fz 3); lia|lra]|]. split; [split; [exact H|lra]|].
  split. { unfold rs, clearly_beyond, limit_squared, slack. cbn [filter fst snd]. rewrite (Rlt_bool_true _ (4 * 4)) by lra. rewrite (Rlt_bool_true _ (-4 * -4)) by lra. rewrite Rlt_bool_false by lra. reflexivity. }
  split. { unfold rs, clearly_within, limit_squared, slack. cbn [filter fst snd]. rewrite (Rle_bool_false (4 * 4 + _)) by lra. rewrite (Rle_bool_false (-4 * -4 + _)) by lra. rewrite Rle_bool_true by lra. reflexivity. }
  repeat split; vm_compute; reflexivity.
Qed.

(** Finding: right at the limit the verdict can be wrong: a difference of 2.35 degrees is not beyond the root of 1.41^2 + 1.88^2, which is 2.35, but
    is found to be. *)
Theorem C86_at_the_limit_refuted : limit_squared 1 (188 / 100) 0 (141 / 100) = 235 / 100 * (235 / 100) /\
  fexceeds (fz 1) (fq (188 # 100)) (fz 0) (fq (235 # 100)) (fq (141 # 100)) = true.
Proof. split; [unfold limit_squared; lra|vm_compute; reflexivity]. Qed.
Print Assumptions C86_at_the_limit_refuted.
