(** Lemmas about the base quality control of a report. *)
Require Import String ZArith QArith Qround Qabs List Bool Lia Lqa.
Require Import Verif.M_Base Verif.L_Base Verif.S_Calendar Verif.M_Calendar Verif.L_Calendar Verif.L_Calendar2 Verif.L_Grid Verif.S_Checks Verif.M_Checks Verif.L_Checks
  Verif.M_Report Verif.S_Report Verif.L_Report Verif.L_Report3 Verif.M_Sun Verif.S_Sun Verif.L_Sun Verif.M_BaseQC Verif.S_BaseQC.
Import ListNotations.
Open Scope string_scope.
Open Scope list_scope.
Open Scope Z_scope.

Definition seen_of (r : report) : seen := {| s_id := r_id r; s_var := getvar r; s_norm := getnorm r; s_sd := getnorm_stdev r |}.

(* ---- single values ---- *)

Definition bit (z : Z) : Prop := z = 0 \/ z = 1.
Lemma decides_bit : forall z P, decides z P -> bit z.
Proof. intros z P [[-> _]|[-> _]]; [now right|now left]. Qed.
Lemma decides_bool : forall b (P : Prop), (b = true <-> P) -> decides (if b then 1 else 0) P.
Proof. intros [] P H; [left|right]; (split; [reflexivity|]); [now apply H|]. intro K. apply H in K. discriminate. Qed.
Lemma decides_not : forall b (P : Prop), (b = true <-> P) -> decides (if b then 0 else 1) (~ P).
Proof. intros [] P H; [right|left]; (split; [reflexivity|]). - intro K. apply K. now apply H. - intro K. apply H in K. discriminate. Qed.
Lemma decides_iff : forall z (P Q : Prop), decides z P -> (P <-> Q) -> decides z Q.
Proof. intros z P Q [[-> H]|[-> H]] E; [left|right]; (split; [reflexivity|]); tauto. Qed.

Lemma qle_dec : forall a b : Q, (a <= b)%Q \/ ~ (a <= b)%Q.
Proof. intros a b. destruct (Qlt_le_dec b a); [right; lra|now left]. Qed.

Lemma value_decides : forall v : option Q, decides (value_check v) (missing v).
Proof. intros [q|]; [right|left]; (split; [reflexivity|]); unfold missing; [discriminate|reflexivity]. Qed.
Lemma normal_decides : forall v : option Q, decides (no_normal_check v) (missing v).
Proof. exact value_decides. Qed.

Lemma hard_decides : forall v l, ordered l -> exists z, hard_limit (ox v) (lims l) = Ok z /\ decides z (~ inside l v).
Proof.
  intros v [lo hi] O. unfold ordered in O. cbn [fst snd] in O. unfold lims, inside. cbn [fst snd].
  destruct v as [q|]; cbn [ox].
  - unfold hard_limit. cbn [fst snd x_ltb]. rewrite (proj2 (Qltb_true _ _) O). cbn [py_assert bind]. rewrite !x_leb_fin.
    destruct (Qleb lo q && Qleb q hi) eqn:E; eexists; (split; [reflexivity|]).
    + right. split; [reflexivity|]. intro K. apply K. exists q. split; [reflexivity|]. apply andb_true_iff in E. destruct E. qprop. auto.
    + left. split; [reflexivity|]. intros [x [X [A B]]]. injection X as <-. apply andb_false_iff in E. destruct E; qprop; lra.
  - destruct (hard_limit_missing_or_nan lo hi O) as [H _]. rewrite H. eexists. split; [reflexivity|]. left. split; [reflexivity|]. intros [x [X _]]. discriminate.
Qed.

Lemma clim_decides : forall v c l, decides (climatology_check (ox v) (ox c) (Some (Fin l))) (anomalous v c l).
Proof.
  intros [v|] [c|] l; try (left; split; [reflexivity|]; unfold anomalous; tauto).
  cbn [ox]. destruct (climatology_check_fin v c l) as [A B]. destruct (climatology_check_bool (Some (Fin v)) (Some (Fin c)) (Some (Fin l))) as [E|E]; rewrite E.
  - right. split; [reflexivity|]. intros [K|[K|[x [y [X [Y F]]]]]]; try discriminate. injection X as <-. injection Y as <-. apply B in E. unfold far in F. lra.
  - left. split; [reflexivity|]. right. right. exists v, c. unfold far. tauto.
Qed.

Lemma freeze_decides : forall v f n, exists z, sst_freeze_check (ox v) (Some (Fin 0)) (Some (Fin f)) (Fin n) = Ok z /\ decides z (below v f).
Proof.
  intros [v|] f n; cbn [ox].
  - destruct (freeze_spec v 0 f n) as [A B]. destruct (Qlt_le_dec v f) as [L|L].
    + exists 1. split; [apply A; lra|]. left. split; [reflexivity|]. exists v. auto.
    + exists 0. split; [apply B; lra|]. right. split; [reflexivity|]. intros [x [X Y]]. injection X as <-. lra.
  - exists 0. split; [reflexivity|]. right. split; [reflexivity|]. intros [x [X _]]. discriminate.
Qed.

Lemma ssat_decides : forall a b, decides (supersat_check (ox a) (ox b)) (supersaturated a b).
Proof.
  intros [a|] [b|]; try (left; split; [reflexivity|]; unfold supersaturated; tauto).
  cbn [ox]. destruct (supersat_spec a b) as [A B]. destruct (Qlt_le_dec b a) as [L|L].
  - left. split; [now apply A|]. right. right. exists a, b. auto.
  - right. split; [now apply B|]. intros [K|[K|[x [y [X [Y F]]]]]]; try discriminate. injection X as <-. injection Y as <-. lra.
Qed.

Lemma wind_decides : forall w d l, decides (wind_consistency (ox w) (ox d) (Fin l)) (wind_mismatch w d l).
Proof.
  intros w [d|] l; cbn [ox].
  2: { destruct (wind_consistency_missing (ox w) 0 (Fin l)) as [-> _]. right. split; [reflexivity|]. intros [x [X _]]. discriminate. }
  destruct w as [w|]; cbn [ox].
  - pose proof (wind_consistency_fin w d l) as A. destruct (wind_consistency_bool (Some (Fin w)) (Some (Fin d)) (Fin l)) as [E|E]; rewrite E.
    + right. split; [reflexivity|]. intros [x [X H]]. injection X as <-. assert (wind_consistency (Some (Fin w)) (Some (Fin d)) (Fin l) = 1) as F; [|rewrite E in F; discriminate].
      apply A. destruct H as [[H K]|[H [x [X K]]]]; [left|right; injection X as <-; auto]. split; [exact H|]. intro Z. apply K. exists w. auto.
    + left. split; [reflexivity|]. exists d. split; [reflexivity|]. apply A in E. destruct E as [[E F]|[E F]]; [left|right; eauto].
      split; [exact E|]. intros [x [X Y]]. injection X as <-. auto.
  - destruct (wind_consistency_missing None d (Fin l)) as [_ A]. destruct (wind_consistency_bool None (Some (Fin d)) (Fin l)) as [E|E]; rewrite E.
    + right. split; [reflexivity|]. intros [x [X H]]. injection X as <-. destruct H as [[H K]|[H [x [X K]]]]; [|discriminate]. apply A in H. rewrite E in H. discriminate.
    + left. split; [reflexivity|]. exists d. split; [reflexivity|]. apply A in E. left. split; [exact E|]. intros [x [X Y]]. discriminate.
Qed.

Lemma quot_above : forall a s k, (0 <= a)%Q -> (0 <= s)%Q -> (0 < k)%Q -> (x_ltb (Fin k) (np_quot a s) = true <-> (k * s < a)%Q).
Proof.
  intros a s k A S K. unfold np_quot. destruct (Qeqb s 0) eqn:E.
  - apply Qeq_bool_iff in E. destruct (Qeqb a 0) eqn:F.
    + apply Qeq_bool_iff in F. cbn. split; [discriminate|]. intro H. rewrite E in H. lra.
    + apply Qeq_bool_neq in F. assert (Qltb 0 a = true) as -> by (apply Qltb_true; destruct (Qlt_le_dec 0 a); [auto|]; exfalso; apply F; lra).
      cbn. split; [intros _|reflexivity]. rewrite E. destruct (Qlt_le_dec 0 a); [lra|]. exfalso. apply F. lra.
  - apply Qeq_bool_neq in E. cbn [x_ltb]. rewrite Qltb_true. assert (0 < s)%Q as P by (destruct (Qlt_le_dec 0 s); [auto|]; exfalso; apply E; lra).
    split; intro H.
    + apply (Qmult_lt_r _ _ s P) in H. replace (k * s)%Q with (k * s)%Q by reflexivity. assert (a / s * s == a)%Q as X by (field; lra). rewrite X in H. exact H.
    + apply Qlt_shift_div_l; auto.
Qed.

Lemma abs_far : forall v c l, (l < Qabs' (v - c))%Q <-> far v c l \/ (l < 0)%Q.
Proof. intros v c l. unfold far. destruct (Qabs'_cases (v - c)) as [[A ->]|[A ->]]; split; intro H; lra. Qed.
Lemma abs_far' : forall v c l, (l < Qabs' (v - c))%Q <-> far v c l.
Proof.
  intros v c l. unfold far. destruct (Qabs'_cases (v - c)) as [[A ->]|[A ->]]; split; intro H; try lra.
  all: destruct (Qlt_le_dec l 0); lra.
Qed.

Lemma bar_decides : forall v c s k b, (0 < k)%Q -> (forall z, s = Some z -> (0 <= z)%Q) ->
  exists z, stdev_with_lowbar_np v c s k b = Ok z /\ decides z (anomalous_bar v c s k b).
Proof.
  intros v c s k b K S. unfold stdev_with_lowbar_np. rewrite (proj2 (Qltb_true 0 k) K). cbn [py_assert bind].
  destruct v as [v|]; [|exists 1; split; [reflexivity|left; split; [reflexivity|unfold anomalous_bar; tauto]]].
  destruct c as [c|]; [|exists 1; split; [reflexivity|left; split; [reflexivity|unfold anomalous_bar; tauto]]].
  destruct s as [s|]; [|exists 1; split; [reflexivity|left; split; [reflexivity|unfold anomalous_bar; tauto]]].
  specialize (S s eq_refl). pose proof (quot_above _ s k (Qabs'_nonneg (v - c)) S K) as A. rewrite abs_far' in A.
  destruct (x_ltb (Fin k) (np_quot (Qabs' (v - c)) s) && Qltb b (Qabs' (v - c))) eqn:E; eexists; (split; [reflexivity|]).
  - apply andb_true_iff in E. destruct E as [E F]. apply A in E. apply Qltb_true in F. apply abs_far' in F. left. split; [reflexivity|].
    right. right. right. exists v, c, s. auto.
  - right. split; [reflexivity|]. intros [X|[X|[X|[x [y [z [X [Y [Z [F G]]]]]]]]]]; try discriminate. injection X as <-. injection Y as <-. injection Z as <-.
    apply A in F. apply abs_far' in G. apply Qltb_true in G. rewrite F, G in E. discriminate.
Qed.

Lemma sd_decides : forall v c s l k, ordered l -> (0 < fst l)%Q -> (0 < k)%Q ->
  exists z, plus_stdev_np v c s l k = Ok z /\ decides z (anomalous_sd v c s l k).
Proof.
  intros v c s [lo hi] k O L K. unfold ordered in O. cbn [fst snd] in *. unfold plus_stdev_np. cbn [fst snd].
  rewrite (proj2 (Qltb_true lo hi) O), (proj2 (Qltb_true 0 k) K). cbn [py_assert bind].
  destruct v as [v|]; [|exists 1; split; [reflexivity|left; split; [reflexivity|unfold anomalous_sd; tauto]]].
  destruct c as [c|]; [|exists 1; split; [reflexivity|left; split; [reflexivity|unfold anomalous_sd; tauto]]].
  destruct s as [s|]; [|exists 1; split; [reflexivity|left; split; [reflexivity|unfold anomalous_sd; tauto]]].
  set (s1 := if Qltb s lo then lo else s). set (s2 := if Qltb hi s1 then hi else s1).
  assert (C : clamped (lo, hi) s s2 /\ (0 < s2)%Q).
  { unfold s2, s1, clamped. cbn [fst snd]. destruct (Qltb s lo) eqn:A; qprop.
    - assert (Qltb hi lo = false) as -> by (apply Qltb_false; lra). split; [left; split; [exact A|reflexivity]|exact L].
    - destruct (Qltb hi s) eqn:B; qprop; (split; [|lra]); right; [right|left]; repeat split; auto; reflexivity. }
  destruct C as [C P]. pose proof (quot_above _ s2 k (Qabs'_nonneg (v - c)) (Qlt_le_weak _ _ P) K) as A. rewrite abs_far' in A.
  destruct (x_ltb (Fin k) (np_quot (Qabs' (v - c)) s2)) eqn:E; eexists; (split; [reflexivity|]).
  - left. split; [reflexivity|]. right. right. right. exists v, c, s, s2. repeat (split; [reflexivity|]). split; [exact C|]. now apply A.
  - right. split; [reflexivity|]. intros [X|[X|[X|[x [y [z [z' [X [Y [Z [D F]]]]]]]]]]]; try discriminate. injection X as <-. injection Y as <-. injection Z as <-.
    assert (false = true); [|discriminate]. apply A. assert (s2 == z')%Q as W by (unfold clamped in C, D; cbn [fst snd] in C, D; lra).
    unfold far in *. rewrite W. exact F.
Qed.

(* ---- integers, places ---- *)

Lemma int_number : forall r n z, In n INTVARS -> (getint r n = Some z <-> number (seen_of r) n z).
Proof.
  intros r n z I. assert (M : mem n INTVARS = true) by now apply mem_In.
  assert (K : index_of n VARLIST <> Err ValueError -> forall q, getvar r n = Some q -> exists k, q = inject_Z k).
  { intros _ q G. unfold getvar in G. destruct (index_of n VARLIST) eqn:E.
    - destruct (nth a (r_data r) None); [|discriminate]. rewrite M in G. injection G as <-. eauto.
    - exfalso. assert (In n VARLIST) as V by (repeat (destruct I as [<-|I]; [cbn; tauto|]); destruct I). destruct (index_of_In _ _ V) as [i [X _]]. congruence. }
  assert (N : index_of n VARLIST <> Err ValueError).
  { intro E. assert (In n VARLIST) as V by (repeat (destruct I as [<-|I]; [cbn; tauto|]); destruct I). destruct (index_of_In _ _ V) as [i [X _]]. congruence. }
  specialize (K N). unfold number, seen_of. cbn [s_var]. unfold getint. split.
  - destruct (getvar r n) as [q|]; [|discriminate]. intro H. injection H as <-. destruct (K q eq_refl) as [k ->]. exists (inject_Z k). split; [reflexivity|].
    rewrite py_int_inject. reflexivity.
  - intros [q [G E]]. rewrite G. destruct (K q G) as [k ->]. rewrite py_int_inject. f_equal. exact (proj1 (inject_Z_injective k z) E).
Qed.
Lemma int_missing : forall r n, getint r n = None <-> getvar r n = None.
Proof. intros r n. unfold getint. destruct (getvar r n); split; congruence. Qed.
Lemma number_fun : forall o n a b, number o n a -> number o n b -> a = b.
Proof. intros o n a b [q [A B]] [q' [C D]]. rewrite A in C. injection C as <-. apply (proj1 (inject_Z_injective a b)). rewrite <- B. exact D. Qed.

Lemma int_in_one : forall r n l, In n INTVARS -> (int_in (getint r n) l = true <-> one_of (seen_of r) n l).
Proof.
  intros r n l I. unfold int_in, one_of. split.
  - destruct (getint r n) as [z|] eqn:E; [|discriminate]. intro H. apply existsb_exists in H. destruct H as [x [X Y]]. apply Z.eqb_eq in Y. subst.
    exists x. split; [exact X|]. now apply int_number.
  - intros [z [L N]]. apply int_number in N; [|exact I]. rewrite N. apply existsb_exists. exists z. split; [exact L|apply Z.eqb_refl].
Qed.
Lemma int_is_number : forall r n z, In n INTVARS -> (int_is (getint r n) z = true <-> number (seen_of r) n z).
Proof.
  intros r n z I. unfold int_is. rewrite int_in_one by exact I. unfold one_of. split.
  - intros [x [[<-|[]] H]]. exact H.
  - intro H. exists z. split; [now left|exact H].
Qed.

Lemma place_of : forall r la lo, lat r = Some la -> lon r = Some lo -> place (seen_of r) la lo.
Proof.
  intros r la lo A B. unfold place, seen_of. cbn [s_var]. split; [exact A|]. unfold lon in B. destruct (getvar r "LON") as [l|]; [|discriminate].
  exists l. split; [reflexivity|]. injection B as <-. unfold west. destruct (Qltb 180 l) eqn:E; qprop; [right|left]; (split; [exact E|reflexivity]).
Qed.
Lemma place_inv : forall r la lo, place (seen_of r) la lo -> lat r = Some la /\ exists l, lon r = Some l /\ (l == lo)%Q.
Proof.
  intros r la lo [A [l [B C]]]. cbn [seen_of s_var] in *. split; [exact A|]. unfold lon. rewrite B. eexists. split; [reflexivity|].
  unfold west in C. destruct (Qltb 180 l) eqn:E; qprop; lra.
Qed.
Lemma west_fun : forall a b c, west a b -> west a c -> (b == c)%Q.
Proof. intros a b c. unfold west. lra. Qed.
Lemma west_ext : forall a b c, (a == b)%Q -> west a c -> west b c.
Proof. intros a b c. unfold west. lra. Qed.
Lemma aside_ext : forall a b c, (a == b)%Q -> aside a c -> aside b c.
Proof. intros a b c E [[A B]|[A B]]; [left|right]; (split; [rewrite <- E; auto|]); [rewrite <- E; exact B|exact B]. Qed.

Lemma in_box_ext : forall b lo lo' la, (lo == lo')%Q -> in_box b lo la -> in_box b lo' la.
Proof. intros [[[w s] e] n] lo lo' la E. unfold in_box. lra. Qed.
Lemma blacklisted_ext : forall id dk y m la lo lo' pt, (lo == lo')%Q -> blacklisted id dk y m la lo pt -> blacklisted id dk y m la lo' pt.
Proof.
  intros id dk y m la lo lo' pt E [[A B]|[H|[H|[[H [b [ys [I [J K]]]]]|H]]]].
  - left. rewrite <- E. auto.
  - right. left. exact H.
  - right. right. left. exact H.
  - right. right. right. left. split; [exact H|]. exists b, ys. repeat split; auto. eapply in_box_ext; eauto.
  - right. right. right. right. exact H.
Qed.

Lemma opt_number : forall r n, In n INTVARS -> (getint r n = None /\ s_var (seen_of r) n = None) \/ (exists z, getint r n = Some z /\ number (seen_of r) n z).
Proof.
  intros r n I. destruct (getint r n) as [z|] eqn:E; [right; exists z; split; [reflexivity|now apply int_number]|left].
  split; [reflexivity|]. cbn [seen_of s_var]. now apply int_missing.
Qed.
Lemma opt_number_inv : forall r n d, In n INTVARS -> (d = None /\ s_var (seen_of r) n = None) \/ (exists z, d = Some z /\ number (seen_of r) n z) -> getint r n = d.
Proof.
  intros r n d I [[-> H]|[z [-> H]]]; [now apply int_missing|now apply int_number].
Qed.
