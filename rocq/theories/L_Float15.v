(** Lemmas: the long window of the tail check in double precision. *)
Require Import ZArith QArith Reals Lra Lia Bool Psatz List Permutation Qreals.
From Flocq Require Import Core.Core IEEE754.BinarySingleNaN.
Require Import Verif.M_Base Verif.M_Float Verif.S_Float Verif.L_Float Verif.L_Float6 Verif.M_Float5 Verif.S_Float2 Verif.L_Float9 Verif.M_Float8 Verif.S_Trim Verif.L_Float14.
Import ListNotations.
Open Scope R_scope.

Lemma dbl0 : dbl 0.
Proof. apply (is_dbl (fz 0)), (is_fz 0). lia. Qed.
Lemma sq_ok : forall x a, is x a -> 0 <= a <= 11 -> exists s, is (fmul x x) s /\ 0 <= s <= 122 /\ Rabs (s - a * a) <= 122 * u.
Proof.
  intros x a I B. pose proof u_pos as U. assert (Q : 0 <= a * a <= 121) by nra. exists (rnd (a * a)). split; [apply is_mul; [exact I|exact I|apply small_big; rewrite Rabs_pos_eq; lra]|].
  pose proof (err_le (a * a) 121 ltac:(rewrite Rabs_pos_eq; lra) ltac:(lra)) as E. assert (E' : Rabs (rnd (a * a) - a * a) <= 122 * u) by lra. split; [|exact E'].
  split; [apply rnd_ge; [apply dbl0|lra]|]. apply abs_in in E'. lra.
Qed.
Lemma root_ok : forall x q, is x q -> 0 <= q <= 250 -> exists r, is (fsqrt x) r /\ 0 <= r <= 17 /\ Rabs (r * r - q) <= 700 * u.
Proof.
  intros x q I B. pose proof u_pos as U. pose proof (sqrt_pos q) as S0. pose proof (sqrt_sqrt q ltac:(lra)) as S2. assert (S1 : sqrt q <= 16) by nra.
  exists (rnd (sqrt q)). split; [apply is_fsqrt; [exact I|lra]|]. pose proof (err_le (sqrt q) 16 ltac:(rewrite Rabs_pos_eq; lra) ltac:(lra)) as E. assert (E' : Rabs (rnd (sqrt q) - sqrt q) <= 20 * u) by lra.
  assert (P : 0 <= rnd (sqrt q)) by (apply rnd_ge; [apply dbl0|exact S0]). set (r := rnd (sqrt q)) in *. assert (R17 : r <= 17) by (apply abs_in in E'; lra). split; [lra|].
  rewrite <- S2 at 1. replace (r * r - sqrt q * sqrt q) with ((r - sqrt q) * (r + sqrt q)) by ring. rewrite Rabs_mult, (Rabs_pos_eq (r + _)) by lra. apply Rle_trans with (20 * u * 33); [|lra]. apply Rmult_le_compat; try lra. apply Rabs_pos.
Qed.
Lemma hyp_ok : forall x a y b, is x a -> is y b -> 0 <= a <= 11 -> 0 <= b <= 11 -> exists r, is (fhypot2 x y) r /\ 0 <= r <= 17 /\ Rabs (r * r - (a * a + b * b)) <= 1300 * u.
Proof.
  intros x a y b I J A B. pose proof u_pos as U. destruct (sq_ok x a I A) as [s [IS [BS ES]]]. destruct (sq_ok y b J B) as [t [IT [BT ET]]].
  pose proof (is_add _ _ _ _ IS IT ltac:(apply small_big; rewrite Rabs_pos_eq; lra)) as IA. pose proof (err_le (s + t) 244 ltac:(rewrite Rabs_pos_eq; lra) ltac:(lra)) as E.
  assert (E' : Rabs (rnd (s + t) - (s + t)) <= 250 * u) by lra. assert (P : 0 <= rnd (s + t)) by (apply rnd_ge; [apply dbl0|lra]). set (q := rnd (s + t)) in *.
  destruct (root_ok _ q IA) as [r [IR [BR ER]]]; [apply abs_in in E'; lra|]. exists r. split; [exact IR|]. split; [exact BR|].
  apply Rabs_le. apply abs_in in E'. apply abs_in in ER. apply abs_in in ES. apply abs_in in ET. lra.
Qed.

(** The first limit. *)
Lemma first_limit : forall N bracket nf n xf i es c, adds_all bracket -> parameter nf n -> parameter xf i -> errors es c -> c <> [] -> length c = N -> (Z.of_nat N <= 1000000)%Z ->
  exists t, is (fmul nf (fhypot2 xf (fmean (bracket es)))) t /\ 0 <= t /\ Rabs (t * t - n * n * (i * i + mean c * mean c)) <= (INR N + 10) * (150000 * u).
Proof.
  intros N bracket nf n xf i es c AA [In_ Bn] [Ii Bi] [F Q] NE LN L. pose proof u_pos as U. subst N.
  assert (QA : forall a, In a c -> Rabs a <= 10) by (intros a A; rewrite Rabs_pos_eq; apply Q; exact A).
  destruct (bmean_ok 10 bracket es c AA ltac:(lra) F NE L QA) as [b [IB EB]]. pose proof (fmean_pos 10 bracket es c AA ltac:(lra) F NE L Q b IB) as PB.
  assert (N1 : 1 <= INR (length c) <= 1000000). { split; [apply (le_INR 1); destruct c; [easy|cbn; lia]|rewrite INR_IZR_INZ; apply IZR_le; exact L]. }
  set (nn := INR (length c)) in *. pose proof (mean_bound 10 c NE QA) as MB. assert (NU : 0 < nn * u <= 12 / 100000000000) by nra.
  assert (B11 : b <= 11) by (apply abs_in in EB; apply abs_in in MB; nra).
  destruct (hyp_ok xf i (fmean (bracket es)) b Ii IB ltac:(lra) ltac:(lra)) as [r [IR [BR ER]]].
  assert (NR : 0 <= n * r <= 170) by nra. pose proof (is_mul _ _ _ _ In_ IR ltac:(apply small_big; rewrite Rabs_pos_eq; lra)) as IT.
  pose proof (err_le (n * r) 170 ltac:(rewrite Rabs_pos_eq; lra) ltac:(lra)) as ET. assert (ET' : Rabs (rnd (n * r) - n * r) <= 180 * u) by lra.
  assert (PT : 0 <= rnd (n * r)) by (apply rnd_ge; [apply dbl0|lra]). set (t := rnd (n * r)) in *. exists t. split; [exact IT|]. split; [exact PT|].
  assert (T1 : Rabs (t * t - n * r * (n * r)) <= 65000 * u).
  { replace (t * t - n * r * (n * r)) with ((t - n * r) * (t + n * r)) by ring. rewrite Rabs_mult, (Rabs_pos_eq (t + _)) by lra. apply Rle_trans with (180 * u * 342); [|lra]. apply Rmult_le_compat; try lra; [apply Rabs_pos|]. apply abs_in in ET'. lra. }
  assert (T2 : Rabs (n * r * (n * r) - n * n * (i * i + b * b)) <= 130000 * u).
  { replace (n * r * (n * r) - n * n * (i * i + b * b)) with (n * n * (r * r - (i * i + b * b))) by ring. rewrite Rabs_mult, (Rabs_pos_eq (n * n)) by nra. apply Rle_trans with (100 * (1300 * u)); [|lra]. apply Rmult_le_compat; [nra|apply Rabs_pos|nra|exact ER]. }
  assert (T3 : Rabs (n * n * (i * i + b * b) - n * n * (i * i + mean c * mean c)) <= 100 * ((nn + 1) * (3 * 10 * u) * 21)).
  { replace (n * n * (i * i + b * b) - n * n * (i * i + mean c * mean c)) with (n * n * ((b - mean c) * (b + mean c))) by ring. rewrite Rabs_mult, (Rabs_pos_eq (n * n)) by nra. rewrite Rabs_mult.
    apply Rmult_le_compat; [nra|apply Rmult_le_pos; apply Rabs_pos|nra|]. apply Rmult_le_compat; try apply Rabs_pos; [exact EB|]. apply Rabs_le. apply abs_in in MB. lra. }
  replace (t * t - n * n * (i * i + mean c * mean c)) with ((t * t - n * r * (n * r)) + (n * r * (n * r) - n * n * (i * i + b * b)) + (n * n * (i * i + b * b) - n * n * (i * i + mean c * mean c))) by ring.
  eapply Rle_trans; [apply Rabs_triang|]. eapply Rle_trans; [apply Rplus_le_compat_r, Rabs_triang|]. set (k := nn * u) in *.
  replace (100 * ((nn + 1) * (3 * 10 * u) * 21)) with (63000 * k + 63000 * u) in T3 by (unfold k; ring). replace ((nn + 10) * (150000 * u)) with (150000 * k + 1500000 * u) by (unfold k; ring). lra.
Qed.

Lemma map_sq : forall es c, errors es c -> exists d, are (map (fun e => fmul e e) es) d /\ length d = length c /\ (forall a, In a d -> 0 <= a <= 122) /\ Forall2 (fun x y => Rabs (x - y) <= 122 * u) d (map (fun a => a * a) c).
Proof.
  intros es c [F Q]. induction F as [|x a es c J F IH].
  - exists []. split; [constructor|]. split; [reflexivity|]. split; [intros a []|constructor].
  - destruct IH as [d [A [L [B C]]]]; [intros; apply Q; now right|]. destruct (sq_ok x a J) as [s [IS [BS ES]]]; [pose proof (Q a (or_introl eq_refl)); lra|].
    exists (s :: d). split; [constructor; [exact IS|exact A]|]. split; [cbn; congruence|]. split; [intros z [<-|Z]; [exact BS|apply B, Z]|]. cbn [map]. constructor; [exact ES|exact C].
Qed.
(** The second limit. *)
Lemma second_limit : forall N bracket xf i es c, adds_all bracket -> parameter xf i -> errors es c -> c <> [] -> length c = N -> (Z.of_nat N <= 1000000)%Z ->
  exists t, is (fhypot2 xf (fsqrt (fmean (bracket (map (fun e => fmul e e) es))))) t /\ 0 <= t /\ Rabs (t * t - (i * i + mean (map (fun a => a * a) c))) <= (INR N + 10) * (1000 * u).
Proof.
  intros N bracket xf i es c AA [Ii Bi] ER NE LN L. pose proof u_pos as U. subst N. destruct (map_sq _ _ ER) as [d [A [LD [B C]]]].
  assert (ND : d <> []) by (intros ->; destruct c; [easy|discriminate]). assert (QA : forall a, In a d -> Rabs a <= 122) by (intros a Ha; rewrite Rabs_pos_eq; apply B; exact Ha).
  destruct (bmean_ok 122 bracket _ d AA ltac:(lra) A ND ltac:(lia) QA) as [b [IB EB]]. pose proof (fmean_pos 122 bracket _ d AA ltac:(lra) A ND ltac:(lia) B b IB) as PB. pose proof (mean_close _ _ _ C ND) as CL.
  rewrite LD in EB. assert (N1 : 1 <= INR (length c) <= 1000000). { split; [apply (le_INR 1); destruct c; [easy|cbn; lia]|rewrite INR_IZR_INZ; apply IZR_le; exact L]. }
  set (nn := INR (length c)) in *. assert (NU : 0 < nn * u <= 12 / 100000000000) by nra. set (V := mean (map (fun a => a * a) c)) in *. set (k := nn * u) in *.
  replace ((nn + 1) * (3 * 122 * u)) with (366 * k + 366 * u) in EB by (unfold k; ring).
  assert (BV : V <= 100). { assert (H : Rabs V <= 100); [|apply abs_in in H; lra]. apply mean_bound; [apply map_nonempty, NE|]. intros z Z. apply in_map_iff in Z. destruct Z as [y [<- Y]]. pose proof (proj2 ER y Y). rewrite Rabs_pos_eq; nra. }
  destruct (root_ok _ b IB) as [w [IW [BW EW]]]. { apply abs_in in EB. apply abs_in in CL. lra. }
  assert (W11 : w <= 11). { apply abs_in in EW. apply abs_in in EB. apply abs_in in CL. nra. }
  destruct (hyp_ok xf i _ w Ii IW ltac:(lra) ltac:(lra)) as [t [IT [BT ET]]]. exists t. split; [exact IT|]. split; [lra|].
  replace ((nn + 10) * (1000 * u)) with (1000 * k + 10000 * u) by (unfold k; ring). apply Rabs_le. apply abs_in in EW. apply abs_in in EB. apply abs_in in CL. apply abs_in in ET. lra.
Qed.
Lemma lt_squares : forall a b, 0 <= a -> 0 <= b -> (a < b <-> a * a < b * b).
Proof. intros a b A B. split; intros H; nra. Qed.
