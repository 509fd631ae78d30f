(** C35 bad ends of a drifter's temperature record, C36 biased, noisy and short records. *)
Require Import String ZArith QArith Qround List Bool Lia Lqa.
Require Import Verif.M_Base Verif.L_Base Verif.S_Calendar Verif.L_Calendar Verif.S_Stats Verif.M_Sun Verif.S_Sun Verif.M_Report Verif.S_Report Verif.M_Voyage Verif.S_Voyage Verif.L_Voyage6 Verif.S_Track Verif.L_Track5
  Verif.M_Drifter Verif.S_Drifter Verif.S_Tail Verif.S_Tail2 Verif.L_Tail Verif.L_Tail2 Verif.L_Tail3 Verif.L_Tail4 Verif.L_Drifter Verif.P_Voyage Verif.P_Track Verif.P_Sun Verif.P_Drifter.
Import ListNotations.
Open Scope string_scope.
Open Scope list_scope.
Open Scope Z_scope.

(** Report at midnight of day d of January 2000 with temperature s; the background is 5 degrees with error
    variance 1/100. *)
Definition night (d : Z) (s : Q) : report :=
  {| r_id := Some "12345"; r_uid := None;
     r_data := [Some 2000; Some 1; Some (inject_Z d); Some 0; Some 10; Some 0; None; None; None; None; None; Some s; None; Some 7; None; None;
                None; None; None; None; None; None; None; None; None; None]%Q;
     r_dt := Some [2000; 1; d; 0; 0]; r_qc := []; r_ext := [("OSTIA", Some 5); ("ICE", None); ("BGVAR", Some (1 # 100)); ("time_diff", Some 24)]%Q; r_clim := [] |}.
Fixpoint nights (d : Z) (ss : list Q) : list report :=
  match ss with [] => [] | s :: ss' => night d s :: nights (d + 1) ss' end.
Lemma night_loc : forall d s, 1 <= d <= 31 -> located (night d s) 10 0 (mkdate 2000 1 d) 0.
Proof.
  intros d s H. constructor; try reflexivity.
  - change (getint (night d s) "DY") with (Some (py_int (inject_Z (py_int (inject_Z d))))). rewrite !py_int_whole. reflexivity.
  - exists 31. split; [exact jan_has|exact H].
  - split; [discriminate|reflexivity].
Qed.
Lemma nights_nth : forall ss d i r, nth_error (nights d ss) i = Some r -> exists s, r = night (d + Z.of_nat i) s /\ (i < length ss)%nat.
Proof.
  induction ss as [|s ss IH]; intros d i r H; [destruct i; discriminate|]. destruct i as [|i].
  - injection H as <-. exists s. rewrite Z.add_0_r. cbn [length]. split; [reflexivity|lia].
  - cbn [nights nth_error] in H. destruct (IH _ _ _ H) as [l' [E L]]. exists l'. cbn [length]. split; [|lia]. rewrite E. f_equal. lia.
Qed.
Lemma nights_assessable : forall ss d, assessable (nights d ss).
Proof.
  intros ss d r H. apply In_nth_error in H. destruct H as [i Hi]. destruct (nights_nth _ _ _ _ Hi) as [s [-> L]].
  exists (Some 5%Q), None, (Some (1 # 100)%Q). constructor; try reflexivity.
  - discriminate.
  - intros b E. injection E as <-. split; [split; discriminate|]. exists (1 # 100)%Q. split; [reflexivity|]. split; discriminate.
  - exists s. reflexivity.
  - exists 10%Q, 0%Q. split; [split; reflexivity|]. split; discriminate.
Qed.
Lemma nights_ok : forall ss d, 1 <= d -> d + Z.of_nat (length ss) <= 32 -> Forall is_located (nights d ss) /\ in_time_order (nights d ss).
Proof.
  intros ss d D1 D2. split.
  - apply Forall_forall. intros r Hr. apply In_nth_error in Hr. destruct Hr as [i Hi]. destruct (nights_nth _ _ _ _ Hi) as [s [-> L]].
    exists 10%Q, 0%Q, (mkdate 2000 1 (d + Z.of_nat i)), 0%Q. apply night_loc. lia.
  - intros i a b t A B H. destruct (nights_nth _ _ _ _ A) as [la [-> L1]]. destruct (nights_nth _ _ _ _ B) as [lb [-> L2]].
    rewrite (hours_jdd _ _ _ _ _ _ _ _ _ _ _ (night_loc (d + Z.of_nat i) la ltac:(lia)) (night_loc (d + Z.of_nat (S i)) lb ltac:(lia)) H).
    unfold jdd. cbn [yr mo dy]. rewrite (jd_day 2000 1 (d + Z.of_nat i)), (jd_day 2000 1 (d + Z.of_nat (S i))).
    replace (_ - _) with 1 by lia. change (inject_Z 1) with 1%Q. lra.
Qed.

(* ------------------------------------------------------------------ C35 *)

(** sq is any square root, elev any elevation of the sun.  The reports of v compared with the background are
    obs (position in v, difference, error variance of the background).  The check ends, and flags exactly the
    reports in the start tail and exactly those in the end tail; nothing else in the record changes. *)
Theorem C35_tail_check : forall elev sq p half v, elevation_like elev -> (forall a b, a == b -> sq a == sq b)%Q ->
  timed v -> assessable v -> tail_params_ok p half ->
  exists obs v', comparisons elev (fun _ => True) v obs /\ sst_tail_check elev sq p v = Ok v' /\
    flags_are "SST" [("drf_tail1", start_tail sq p half obs); ("drf_tail2", end_tail sq p half obs)] v v'.
Proof. intros elev sq p half v He Hs T A P. exact (tail_flags_ok elev He sq Hs p half v T A P). Qed.
Print Assumptions C35_tail_check.

(** The compared observations are determined by the record, the tails by the compared observations. *)
Theorem C35_comparisons_unique : forall elev ok v obs obs', comparisons elev ok v obs -> comparisons elev ok v obs' -> obs = obs'.
Proof. exact comparisons_fun. Qed.
Print Assumptions C35_comparisons_unique.
Theorem C35_tails_unique : forall n half sw L S a b a' b', tails n half sw L S a b -> tails n half sw L S a' b' -> a = a' /\ b = b'.
Proof. exact tails_fun. Qed.
Print Assumptions C35_tails_unique.

(** The two tails leave at least one compared observation between them. *)
Lemma cuts_room : forall F m half a b, cuts F m half a b -> (a + b < m + 2 * half)%nat.
Proof.
  intros F m half a b [p [q [[P1 [P2 P3]] [[Q1 [Q2 Q3]] [L [-> ->]]]]]].
  assert (p + q < m)%nat.
  { destruct (Nat.lt_ge_cases (p + q) m) as [H|H]; [exact H|]. exfalso. apply (P3 L). apply Q2. lia. }
  destruct (p =? 0)%nat eqn:A, (q =? 0)%nat eqn:B; try apply Nat.eqb_eq in A; try apply Nat.eqb_eq in B; lia.
Qed.
Theorem C35_room : forall n half sw L S a b, (0 < n)%nat -> (0 < sw)%nat -> tails n half sw L S a b -> (a + b < n)%nat.
Proof.
  intros n half sw L S a b N W [a0 [b0 [H1 H2]]].
  assert (a0 + b0 < n)%nat by (destruct H1 as [[_ [-> ->]]|[G C]]; [lia|apply cuts_room in C; lia]).
  destruct H2 as [[_ [-> ->]]|[G [a1 [b1 [C [-> ->]]]]]]; [assumption|]. apply cuts_room in C. lia.
Qed.
Print Assumptions C35_room.

(** The start tail is a prefix of the record, the end tail a suffix, and no report is in both. *)
Theorem C35_start_prefix : forall sq p half obs i j, start_tail sq p half obs i -> (j <= i)%nat -> start_tail sq p half obs j.
Proof. intros sq p half obs i j [a [b [T [A [x [X L]]]]]] H. exists a, b. split; [exact T|]. split; [exact A|]. exists x. split; [exact X|lia]. Qed.
Print Assumptions C35_start_prefix.
Theorem C35_end_suffix : forall sq p half obs i j, end_tail sq p half obs i -> (i <= j)%nat -> end_tail sq p half obs j.
Proof. intros sq p half obs i j [a [b [T [A [x [X L]]]]]] H. exists a, b. split; [exact T|]. split; [exact A|]. exists x. split; [exact X|lia]. Qed.
Print Assumptions C35_end_suffix.
Theorem C35_disjoint : forall elev sq p half ok v obs i j, tail_params_ok p half -> comparisons elev ok v obs ->
  start_tail sq p half obs i -> end_tail sq p half obs j -> (i < j)%nat.
Proof.
  intros elev sq p half ok v obs i j [_ [P _]] [C _] [a [b [T [A [x [X L]]]]]] [a' [b' [T' [B [y [Y M]]]]]].
  destruct (tails_fun _ _ _ _ _ _ _ _ _ T T') as [<- <-].
  assert (N : (0 < length obs)%nat) by (destruct obs; [destruct (a - 1)%nat; discriminate X|cbn; lia]).
  assert (W : (0 < Z.to_nat (tl_short p))%nat) by lia. pose proof (C35_room _ _ _ _ _ _ _ N W T) as R.
  assert (fst x < fst y)%nat by (apply (C (a - 1)%nat (length obs - b)%nat); [lia|exact X|exact Y]). lia.
Qed.
Print Assumptions C35_disjoint.

(** When every long window fails, nothing is flagged (the whole record is left to the bias and noise check). *)
Theorem C35_all_bad : forall sq p half obs i, (2 * half + 1 <= length obs)%nat ->
  (forall k, (k + (2 * half + 1) <= length obs)%nat -> long_bad sq p half (map snd obs) k) -> ~ start_tail sq p half obs i /\ ~ end_tail sq p half obs i.
Proof.
  intros sq p half obs i N H. assert (G : forall a b, ~ tails (length obs) half (Z.to_nat (tl_short p)) (long_bad sq p half (map snd obs)) (short_bad sq p (map snd obs)) a b).
  { intros a b [a0 [b0 [[[K _]|[_ [q [r [[A1 [A2 A3]] [_ [A4 _]]]]]]] _]]]; [lia|]. apply (A3 A4), H. lia. }
  split; intros [a [b [T _]]]; exact (G _ _ T).
Qed.
Print Assumptions C35_all_bad.

Lemma in_firstn_skipn_aux : forall A (y : A) k w l, In y (firstn w (skipn k l)) -> In y l.
Proof.
  intros A y k w l H. rewrite <- (firstn_skipn k l). apply in_or_app. right. rewrite <- (firstn_skipn w (skipn k l)). apply in_or_app. now left.
Qed.
(** When the background error of every compared observation is beyond the limit, nothing is flagged. *)
Theorem C35_unreliable : forall sq p half obs i, tail_params_ok p half -> (forall x, In x obs -> sq (tl_lim p) < sq (snd (snd x)))%Q ->
  ~ start_tail sq p half obs i /\ ~ end_tail sq p half obs i.
Proof.
  intros sq p half obs i [_ [P _]] U.
  assert (NR : forall k w, (0 < w)%nat -> (k + w <= length obs)%nat -> ~ reliable sq (tl_lim p) (from_to k w (map snd obs))).
  { intros k w W K R. assert (L : length (from_to k w (map snd obs)) = w) by (apply from_to_length; rewrite map_length; exact K).
    destruct (from_to k w (map snd obs)) as [|y ys] eqn:E; [cbn in L; lia|].
    assert (I : In y (map snd obs)). { apply (in_firstn_skipn_aux _ y k w). fold (from_to k w (map snd obs)). rewrite E. now left. }
    apply in_map_iff in I. destruct I as [x [<- I]]. specialize (U x I). specialize (R (sq (snd (snd x))) (or_introl eq_refl)). lra. }
  assert (Z0 : forall F m half' a b, (forall k, (k < m)%nat -> ~ F k) -> cuts F m half' a b -> a = O /\ b = O).
  { intros F m h a b N [q [r [[A1 [A2 A3]] [[B1 [B2 B3]] [L [-> ->]]]]]].
    destruct q as [|q]; [|exfalso; apply (N O); [lia|apply A2; lia]]. destruct r as [|r]; [|exfalso; apply (N (m - 1)%nat); [lia|apply B2; lia]]. auto. }
  assert (G : forall a b, tails (length obs) half (Z.to_nat (tl_short p)) (long_bad sq p half (map snd obs)) (short_bad sq p (map snd obs)) a b -> a = O /\ b = O).
  { intros a b [a0 [b0 [H1 H2]]].
    assert (a0 = O /\ b0 = O) as [-> ->].
    { destruct H1 as [[_ H]|[K C]]; [exact H|]. apply (Z0 _ _ _ _ _) in C; [exact C|]. intros k Hk [R _]. apply (NR k (2 * half + 1)%nat); [lia|lia|exact R]. }
    destruct H2 as [[_ H]|[K [a1 [b1 [C [-> ->]]]]]]; [exact H|]. apply (Z0 _ _ _ _ _) in C; [lia|]. intros k Hk [R _]. apply (NR (0 + k)%nat (Z.to_nat (tl_short p))); [lia|lia|exact R]. }
  split; intros [a [b [T [K _]]]]; destruct (G _ _ T); lia.
Qed.
Print Assumptions C35_unreliable.

(** Parameters out of range are rejected. *)
Theorem C35_rejects : forall elev sq p v, tl_long p < 1 \/ Z.even (tl_long p) = true \/ tl_short p < 1 \/ tl_bad p < 1 \/ (tl_long_n p < 0)%Q \/ (tl_short_n p < 0)%Q \/ (tl_inter p < 0)%Q \/ (tl_intra p < 0)%Q \/ (tl_lim p < 0)%Q ->
  sst_tail_check elev sq p v = Err AssertionError.
Proof.
  intros elev sq p v H. unfold sst_tail_check.
  destruct (1 <=? tl_long p) eqn:A1; [|reflexivity]. destruct (negb (tl_long p mod 2 =? 0)) eqn:A2; [|reflexivity]. destruct (Qleb 0 (tl_long_n p)) eqn:A3; [|reflexivity].
  destruct (1 <=? tl_short p) eqn:A4; [|reflexivity]. destruct (Qleb 0 (tl_short_n p)) eqn:A5; [|reflexivity]. destruct (1 <=? tl_bad p) eqn:A6; [|reflexivity].
  destruct (Qleb 0 (tl_inter p)) eqn:A7; [|reflexivity]. destruct (Qleb 0 (tl_intra p)) eqn:A8; [|reflexivity]. destruct (Qleb 0 (tl_lim p)) eqn:A9; [|reflexivity]. exfalso.
  assert (Z.even (tl_long p) = false) by (rewrite Zeven_mod; unfold Zeq_bool; destruct (tl_long p mod 2) eqn:Q; [discriminate|reflexivity|reflexivity]). qprop.
  destruct H as [H|[H|[H|[H|[H|[H|[H|[H|H]]]]]]]]; try lia; try lra; congruence.
Qed.
Print Assumptions C35_rejects.

(** Three warm reports at the start and a cold one at the end; the windows of three that touch them fail, and
    the tails reach to the middle of the last failing window. *)
Definition toy_tail : tail_params := {| tl_long := 3; tl_long_n := 3; tl_short := 1; tl_short_n := 3; tl_bad := 1; tl_inter := 1 # 10; tl_intra := 1 # 10; tl_lim := 1 |}.
Definition rough : list report := nights 1 [9; 9; 9; 5; 5; 5; 5; 5; 5; 1]%Q.
Ltac assess := intros r H; vm_compute in H; repeat (destruct H as [H|H]; [subst r; exists (Some 5%Q), None, (Some (1 # 100)%Q); constructor;
   [reflexivity|reflexivity|reflexivity|discriminate|intros b E; injection E as <-; split; [split; discriminate|]; exists (1 # 100)%Q; split; [reflexivity|split; discriminate]
   |eexists; reflexivity|exists 10%Q, 0%Q; split; [split; reflexivity|split; discriminate]]|]); destruct H.
Example C35_ex : tail_params_ok toy_tail 1 /\ (exists v, add_reports plane [] rough = Ok v /\ timed v /\ assessable v) /\
  match add_reports plane [] rough with
  | Ok v => match sst_tail_check toy_sun (fun x => x) toy_tail v with
            | Ok v' => map (fun r => (get_qc r "SST" "drf_tail1", get_qc r "SST" "drf_tail2")) v' = [(1,0); (1,0); (1,0); (1,0); (0,0); (0,0); (0,0); (0,0); (0,1); (0,1)]
            | Err _ => False end
  | Err _ => False end.
Proof.
  split; [repeat split; discriminate|]. split; [|vm_compute; reflexivity].
  destruct (nights_ok [9; 9; 9; 5; 5; 5; 5; 5; 5; 1]%Q 1) as [A B]; [lia|cbn [length]; lia|].
  destruct (built_timed plane _ A B) as [v [E [_ T]]]. exists v. split; [exact E|]. split; [exact T|]. vm_compute in E. injection E as <-. assess.
Qed.

(* ------------------------------------------------------------------ C36 *)

(** All reports of the record get the same flags.  Only reports with a background variance within the limit
    are compared.  A record with at least bs_eval of them is flagged biased when the mean difference is beyond
    the limit, noisy when the differences scatter more than expected; a shorter one is flagged when it has
    enough suspicious observations, unless the background was unreliable at one of its reports. *)
Theorem C36_bias_noise_check : forall elev sq p v, elevation_like elev -> (forall a b, a == b -> sq a == sq b)%Q -> timed v -> assessable v -> bias_params_ok p ->
  exists obs v', comparisons elev (fun b => b <= bs_bg p)%Q v obs /\ sst_biased_noisy_check elev sq p v = Ok v' /\
    flags_are "SST" [("drf_bias", fun _ => record_biased p obs); ("drf_noise", fun _ => record_noisy sq p obs); ("drf_short", fun _ => record_short sq p v obs)] v v'.
Proof. intros elev sq p v He Hs T A P. exact (bias_flags_ok elev He sq Hs p v T A P). Qed.
Print Assumptions C36_bias_noise_check.

Theorem C36_uniform : forall elev sq p v v', elevation_like elev -> (forall a b, a == b -> sq a == sq b)%Q -> timed v -> assessable v -> bias_params_ok p ->
  sst_biased_noisy_check elev sq p v = Ok v' ->
  forall r r' f, In r v' -> In r' v' -> In f ["drf_bias"; "drf_noise"; "drf_short"] -> get_qc r "SST" f = get_qc r' "SST" f.
Proof.
  intros elev sq p v v' He Hs T A P E r r' f I I' J. destruct (C36_bias_noise_check elev sq p v He Hs T A P) as [obs [w [_ [E' [_ F]]]]].
  rewrite E in E'. injection E' as <-. apply In_nth_error in I. apply In_nth_error in I'. destruct I as [i I], I' as [i' I'].
  destruct J as [<-|[<-|[<-|[]]]].
  - pose proof (F "drf_bias" _ (or_introl eq_refl) i r I) as K. pose proof (F "drf_bias" _ (or_introl eq_refl) i' r' I') as K'. cbv beta in K, K'. destruct K as [[K U]|[K U]], K' as [[K' U']|[K' U']]; try congruence; contradiction.
  - pose proof (F "drf_noise" _ (or_intror (or_introl eq_refl)) i r I) as K. pose proof (F "drf_noise" _ (or_intror (or_introl eq_refl)) i' r' I') as K'. cbv beta in K, K'. destruct K as [[K U]|[K U]], K' as [[K' U']|[K' U']]; try congruence; contradiction.
  - pose proof (F "drf_short" _ (or_intror (or_intror (or_introl eq_refl))) i r I) as K. pose proof (F "drf_short" _ (or_intror (or_intror (or_introl eq_refl))) i' r' I') as K'. cbv beta in K, K'. destruct K as [[K U]|[K U]], K' as [[K' U']|[K' U']]; try congruence; contradiction.
Qed.
Print Assumptions C36_uniform.

(** Long records never get the short-record flag, short ones neither of the other two; without any compared
    observation nothing is flagged. *)
Theorem C36_exclusive : forall sq p v obs, record_short sq p v obs -> ~ record_biased p obs /\ ~ record_noisy sq p obs.
Proof. intros sq p v obs [A _]. split; intros [B _]; lia. Qed.
Print Assumptions C36_exclusive.
Theorem C36_nothing_compared : forall sq p v, bias_params_ok p -> ~ record_biased p [] /\ ~ record_noisy sq p [] /\ ~ record_short sq p v [].
Proof. intros sq p v [A [B _]]. split; [intros [C _]; cbn in C; lia|]. split; [intros [C _]; cbn in C; lia|]. intros [_ [_ C]]. unfold many_suspicious in C. cbn in C. lia. Qed.
Print Assumptions C36_nothing_compared.

Lemma sum_const : forall c l, (forall x, In x l -> x == c)%Q -> (sumQ l == inject_Z (Z.of_nat (length l)) * c)%Q.
Proof.
  intros c. induction l as [|x l IH]; intro H; [cbn; ring|]. cbn [sumQ fold_right length]. fold (sumQ l). rewrite (IH (fun y I => H y (or_intror I))), (H x (or_introl eq_refl)).
  rewrite Nat2Z.inj_succ, <- Z.add_1_r, inject_Z_plus. change (inject_Z 1) with 1%Q. ring.
Qed.
Lemma mean_const : forall c l, l <> [] -> (forall x, In x l -> x == c)%Q -> (meanQ l == c)%Q.
Proof.
  intros c l N H. unfold meanQ. rewrite (sum_const c l H). field. intro E. destruct l; [now apply N|]. cbn [length] in E. unfold Qeq in E. cbn [Qnum Qden inject_Z] in E. lia.
Qed.
(** A record whose differences are all equal and within the limit is neither biased nor noisy, for a square
    root that grows. *)
Theorem C36_steady : forall sq p obs c, (forall a b, a == b -> sq a == sq b)%Q -> (forall a b, (a <= b)%Q -> (sq a <= sq b)%Q) -> obs <> [] -> (forall x, In x obs -> fst (snd x) == c)%Q ->
  (Qabs' c <= bs_lim p)%Q -> ~ record_biased p obs /\ ~ record_noisy sq p obs.
Proof.
  intros sq p obs c Hs Hm N H L. assert (M : (meanQ (map fst (map snd obs)) == c)%Q).
  { apply mean_const; [intro E; apply N; destruct obs; [reflexivity|discriminate]|]. intros x I. rewrite map_map in I. apply in_map_iff in I. destruct I as [y [<- I]]. now apply H. }
  split.
  - intros [_ K]. rewrite (abs_compat _ _ M) in K. lra.
  - intros [_ K]. cbv zeta in K. revert K. apply Qle_not_lt.
    assert (V : (varQ (map fst (map snd obs)) == 0)%Q).
    { unfold varQ. apply mean_const; [intro E; apply N; destruct obs; [reflexivity|discriminate]|]. intros x I. apply in_map_iff in I. destruct I as [y [<- I]]. rewrite M.
      rewrite map_map in I. apply in_map_iff in I. destruct I as [z [<- I]]. rewrite (H z I). ring. }
    rewrite (Hs _ _ V). apply Hm. set (e := sq (meanQ (map (fun e => e * e)%Q (errs sq (map snd obs))))). nra.
Qed.
Print Assumptions C36_steady.

Theorem C36_rejects : forall elev sq p v, bs_eval p <= 0 \/ bs_bad p < 1 \/ (bs_lim p < 0)%Q \/ (bs_intra p < 0)%Q \/ (bs_inter p < 0)%Q \/ (bs_n p < 0)%Q \/ (bs_bg p < 0)%Q ->
  sst_biased_noisy_check elev sq p v = Err AssertionError.
Proof.
  intros elev sq p v H. unfold sst_biased_noisy_check.
  destruct (0 <? bs_eval p) eqn:A1; [|reflexivity]. destruct (Qleb 0 (bs_lim p)) eqn:A2; [|reflexivity]. destruct (Qleb 0 (bs_intra p)) eqn:A3; [|reflexivity].
  destruct (Qleb 0 (bs_inter p)) eqn:A4; [|reflexivity]. destruct (Qleb 0 (bs_n p)) eqn:A5; [|reflexivity]. destruct (1 <=? bs_bad p) eqn:A6; [|reflexivity].
  destruct (Qleb 0 (bs_bg p)) eqn:A7; [|reflexivity]. exfalso. qprop. destruct H as [H|[H|[H|[H|[H|[H|H]]]]]]; try lia; lra.
Qed.
Print Assumptions C36_rejects.

(** A record three degrees too warm, one that scatters, and short ones. *)
Definition toy_bias (n : Z) : bias_params := {| bs_eval := n; bs_lim := 1; bs_intra := 1 # 10; bs_inter := 1 # 10; bs_n := 3; bs_bad := 2; bs_bg := 1 # 2 |}.
Definition bias_of (n : Z) (ss : list Q) : list (Z * Z * Z) :=
  match add_reports plane [] (nights 1 ss) with
  | Ok v => match sst_biased_noisy_check toy_sun (fun x => x) (toy_bias n) v with
            | Ok v' => map (fun r => (get_qc r "SST" "drf_bias", get_qc r "SST" "drf_noise", get_qc r "SST" "drf_short")) v'
            | Err _ => [] end
  | Err _ => [] end.
Example C36_ex : bias_params_ok (toy_bias 3) /\ (exists v, add_reports plane [] (nights 1 [9; 9; 1]%Q) = Ok v /\ timed v /\ assessable v) /\
  bias_of 3 [8; 8; 8]%Q = [(1, 0, 0); (1, 0, 0); (1, 0, 0)] /\ bias_of 3 [2; 8; 5]%Q = [(0, 1, 0); (0, 1, 0); (0, 1, 0)] /\
  bias_of 4 [8; 8; 5]%Q = [(0, 0, 1); (0, 0, 1); (0, 0, 1)] /\ bias_of 4 [8; 5; 5]%Q = [(0, 0, 0); (0, 0, 0); (0, 0, 0)].
Proof.
  split; [repeat split; discriminate|]. split; [|vm_compute; repeat split; reflexivity].
  destruct (nights_ok [9; 9; 1]%Q 1) as [A B]; [lia|cbn [length]; lia|].
  destruct (built_timed plane _ A B) as [v [E [_ T]]]. exists v. split; [exact E|]. split; [exact T|]. vm_compute in E. injection E as <-. assess.
Qed.
