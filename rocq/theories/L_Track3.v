(** Track check: the verdict on one report. *)
Require Import String ZArith QArith Qround List Bool Lia Lqa.
Require Import Verif.M_Base Verif.L_Base Verif.S_Calendar Verif.M_Report Verif.S_Report Verif.L_Report Verif.L_Report3 Verif.M_Voyage Verif.S_Voyage Verif.L_Voyage Verif.L_Voyage2 Verif.L_Voyage4 Verif.L_Voyage6 Verif.M_Track Verif.S_Track Verif.L_Track Verif.L_Track2.
Import ListNotations.
Open Scope string_scope.
Open Scope list_scope.
Open Scope Z_scope.

Lemma gt_opt_spec : forall x L, gt_opt x L = true <-> exists q, x = Some q /\ (L < q)%Q.
Proof.
  intros [q|] L; simpl; split; try discriminate.
  - intro H. qprop. eauto.
  - intros [q' [E H]]. injection E as <-. qprop. exact H.
  - intros [q' [E _]]. discriminate.
Qed.

Lemma located_pos : forall r, is_located r -> exists la lo, at_pos r la lo.
Proof.
  intros r [la [lo [d [h [A1 A2 _ _ _ _ _ _]]]]]. unfold lat, lon in *. destruct (getvar r "LON") as [x|] eqn:E; [|discriminate].
  exists la, x. split; assumption.
Qed.
Lemma at_pos_fun : forall r la lo la' lo', at_pos r la lo -> at_pos r la' lo' -> la = la' /\ lo = lo'.
Proof. intros r la lo la' lo' [A B] [C D]. split; congruence. Qed.

Lemma moved_facts : forall sp a b, moved (sp_dist sp) (sp_course sp) a b ->
  exists t s c, getvar b "time_diff" = Some t /\ hours_between a b t /\ getvar b "speed" = Some s /\ speed_from (sp_dist sp) a b s /\
    getvar b "course" = Some c /\ course_from (sp_course sp) a b c.
Proof.
  intros sp a b [la [lo [d [h [la' [lo' [d' [h' [t [s [A [B [E [T [D [C [S0 K]]]]]]]]]]]]]]]]].
  exists t, s, (sp_course sp la lo la' lo'). split; [exact T|]. split; [exists la, lo, d, h, la', lo', d', h'; auto|]. split; [exact S0|].
  split; [exists la, lo, d, h, la', lo', d', h', t; auto|]. split; [exact C|]. exists la, lo, d, h, la', lo', d', h'. auto.
Qed.
Lemma course_fun : forall course a b c c', course_from course a b c -> course_from course a b c' -> c = c'.
Proof.
  intros course a b c c' [la [lo [d [h [la' [lo' [d' [h' [A [B E]]]]]]]]]] [ma [mo [e [k [ma' [mo' [e' [k' [A' [B' E']]]]]]]]]].
  destruct (located_inj _ _ _ _ _ _ _ _ _ A A') as [-> [-> [-> ->]]], (located_inj _ _ _ _ _ _ _ _ _ B B') as [-> [-> [-> ->]]]. congruence.
Qed.

Lemma heading_known_ok : forall r, heading_known r -> heading_ok (getvar r "dsi") = true.
Proof.
  intros r H. unfold heading_ok. destruct (getvar r "dsi") as [q|] eqn:E; [|reflexivity]. destruct (H q E) as [k [R K]].
  apply existsb_exists. exists (inject_Z (45 * k)). split; [|apply Qeqb_true; now symmetry].
  assert (C : k = 0 \/ k = 1 \/ k = 2 \/ k = 3 \/ k = 4 \/ k = 5 \/ k = 6 \/ k = 7 \/ k = 8) by lia.
  repeat (destruct C as [->|C]; [simpl; tauto|]). subst. simpl. tauto.
Qed.

Section Entries.
Variable sp : sphere.
Hypothesis WD : well_defined sp.

Lemma half_leg_compat : forall la lo v d t t', (t == t')%Q ->
  (fst (half_leg sp la lo v d t) == fst (half_leg sp la lo v d t'))%Q /\ (snd (half_leg sp la lo v d t) == snd (half_leg sp la lo v d t'))%Q.
Proof.
  intros la lo v d t t' E. unfold half_leg. destruct WD as [_ [M _]].
  assert (K : (nm v * t / 2 == nm v * t' / 2)%Q) by now rewrite E.
  destruct (M la lo d _ _ K) as [A B]. destruct (sp_move sp la lo d (nm v * t / 2)), (sp_move sp la lo d (nm v * t' / 2)). simpl in *.
  now rewrite A, B.
Qed.
Lemma increment_half : forall la lo v d t, increment_position sp la lo (v / km_to_nm) d t = half_leg sp la lo v d t.
Proof. reflexivity. Qed.

Lemma reckoned_compat : forall a b t t' x x', (t == t')%Q -> reckoned sp a b t x -> reckoned sp a b t' x' -> (x == x')%Q.
Proof.
  intros a b t t' x x' E [la [lo [va [da [lb [ob [vb [db [A [Sa [B [Sb X]]]]]]]]]]]] [la' [lo' [va' [da' [lb' [ob' [vb' [db' [A' [Sa' [B' [Sb' X']]]]]]]]]]]].
  destruct (at_pos_fun _ _ _ _ _ A A') as [<- <-], (at_pos_fun _ _ _ _ _ B B') as [<- <-].
  destruct Sa as [S1 S2], Sa' as [S1' S2'], Sb as [S3 S4], Sb' as [S3' S4']. assert (va = va') by congruence. assert (da = da') by congruence.
  assert (vb = vb') by congruence. assert (db = db') by congruence. subst. cbv zeta in *. rewrite X, X'.
  destruct (half_leg_compat la lo va' da' t t' E) as [P1 P2], (half_leg_compat lb ob vb' db' t t' E) as [Q1 Q2].
  apply (proj1 WD); try reflexivity; [now rewrite P1, Q1|now rewrite P2, Q2].
Qed.
Lemma reckoned_back_compat : forall a b t t' x x', (t == t')%Q -> reckoned_back sp a b t x -> reckoned_back sp a b t' x' -> (x == x')%Q.
Proof.
  intros a b t t' x x' E [la [lo [va [da [lb [ob [vb [db [A [Sa [B [Sb X]]]]]]]]]]]] [la' [lo' [va' [da' [lb' [ob' [vb' [db' [A' [Sa' [B' [Sb' X']]]]]]]]]]]].
  destruct (at_pos_fun _ _ _ _ _ A A') as [<- <-], (at_pos_fun _ _ _ _ _ B B') as [<- <-].
  destruct Sa as [S1 S2], Sa' as [S1' S2'], Sb as [S3 S4], Sb' as [S3' S4']. assert (va = va') by congruence. assert (da = da') by congruence.
  assert (vb = vb') by congruence. assert (db = db') by congruence. subst. cbv zeta in *. rewrite X, X'.
  destruct (half_leg_compat la lo va' (da' - 180) t t' E) as [P1 P2], (half_leg_compat lb ob vb' (db' - 180) t t' E) as [Q1 Q2].
  apply (proj1 WD); try reflexivity; [now rewrite P1, Q1|now rewrite P2, Q2].
Qed.

Lemma fwd_spec : forall a b t, is_located a -> is_located b -> getvar b "time_diff" = Some t -> hours_between a b t ->
  exists f, forward_entry sp a b = Ok f /\ forall L, gt_opt f L = true <-> exists t' x, hours_between a b t' /\ reckoned sp a b t' x /\ (L < x)%Q.
Proof.
  intros a b t La Lb T HB. destruct (located_pos a La) as [la [lo [A1 A2]]], (located_pos b Lb) as [lb [ob [B1 B2]]].
  unfold forward_entry, fix_of. rewrite T, A1, A2, B1, B2.
  destruct (getvar b "vsi") as [vb|] eqn:E1; [destruct (getvar a "vsi") as [va|] eqn:E2; [destruct (getvar b "dsi") as [db|] eqn:E3; [destruct (getvar a "dsi") as [da|] eqn:E4|]|]|].
  2-5: exists None; (split; [reflexivity|]); intro L; (split; [discriminate|]); intros [t' [x [_ [[? [? [? [? [? [? [? [? [_ [[U1 U2] [_ [[U3 U4] _]]]]]]]]]]]] _]]]]; congruence.
  cbn [bind]. rewrite !increment_half.
  destruct (half_leg sp la lo va da t) as [p1 p2] eqn:P. destruct (half_leg sp lb ob vb db t) as [q1 q2] eqn:Q0.
  eexists. split; [reflexivity|].
  assert (R : reckoned sp a b t (sp_dist sp lb ob (la + p1 + q1) (lo + p2 + q2))).
  { exists la, lo, va, da, lb, ob, vb, db. split; [split; assumption|]. split; [split; assumption|]. split; [split; assumption|]. split; [split; assumption|].
    cbv zeta. rewrite P, Q0. reflexivity. }
  intro L. rewrite gt_opt_spec. split.
  - intros [q [E H]]. injection E as <-. exists t. eexists. split; [exact HB|]. split; [exact R|exact H].
  - intros [t' [x [HB' [R' H]]]]. eexists. split; [reflexivity|]. rewrite (reckoned_compat a b t t' _ x (hours_between_fun _ _ _ _ HB HB') R R'). exact H.
Qed.

Lemma rev_spec : forall b c t, is_located b -> is_located c -> getvar c "time_diff" = Some t -> hours_between b c t ->
  exists f, reverse_entry sp b c = Ok f /\ forall L, gt_opt f L = true <-> exists t' x, hours_between b c t' /\ reckoned_back sp b c t' x /\ (L < x)%Q.
Proof.
  intros b c t Lb Lc T HB. destruct (located_pos b Lb) as [lb [ob [B1 B2]]], (located_pos c Lc) as [lc [oc [C1 C2]]].
  unfold reverse_entry, fix_of. rewrite T, B1, B2, C1, C2.
  destruct (getvar c "vsi") as [vc|] eqn:E1; [destruct (getvar b "vsi") as [vb|] eqn:E2; [destruct (getvar c "dsi") as [dc|] eqn:E3; [destruct (getvar b "dsi") as [db|] eqn:E4|]|]|].
  2-5: exists None; (split; [reflexivity|]); intro L; (split; [discriminate|]); intros [t' [x [_ [[? [? [? [? [? [? [? [? [_ [[U1 U2] [_ [[U3 U4] _]]]]]]]]]]]] _]]]]; congruence.
  cbn [bind]. rewrite !increment_half.
  destruct (half_leg sp lc oc vc (dc - 180) t) as [p1 p2] eqn:P. destruct (half_leg sp lb ob vb (db - 180) t) as [q1 q2] eqn:Q0.
  eexists. split; [reflexivity|].
  assert (R : reckoned_back sp b c t (sp_dist sp lb ob (lc + p1 + q1) (oc + p2 + q2))).
  { exists lb, ob, vb, db, lc, oc, vc, dc. split; [split; assumption|]. split; [split; assumption|]. split; [split; assumption|]. split; [split; assumption|].
    cbv zeta. rewrite P, Q0. reflexivity. }
  intro L. rewrite gt_opt_spec. split.
  - intros [q [E H]]. injection E as <-. exists t. eexists. split; [exact HB|]. split; [exact R|exact H].
  - intros [t' [x [HB' [R' H]]]]. eexists. split; [reflexivity|]. rewrite (reckoned_back_compat b c t t' _ x (hours_between_fun _ _ _ _ HB HB') R R'). exact H.
Qed.

Lemma frac_le : forall t0 t1, (0 <= t0)%Q -> (0 <= t1)%Q -> (~ t0 + t1 == 0)%Q -> (t0 / (t0 + t1) <= 1)%Q.
Proof.
  intros t0 t1 A B N. apply Qle_shift_div_r; [|lra]. destruct (Qlt_le_dec 0 (t0 + t1)) as [H|H]; [exact H|]. exfalso. apply N. lra.
Qed.

Lemma mid_spec : forall a b c t0 t1, is_located a -> is_located b -> is_located c ->
  getvar b "time_diff" = Some t0 -> hours_between a b t0 -> getvar c "time_diff" = Some t1 -> hours_between b c t1 -> (0 <= t0)%Q -> (0 <= t1)%Q ->
  exists m, midpt_entry sp a b c = Ok m /\ forall L, gt_opt m L = true <-> strays sp L a b c.
Proof.
  intros a b c t0 t1 La Lb Lc T0 H0 T1 H1 P0 P1.
  destruct (located_pos a La) as [la [lo [A1 A2]]], (located_pos b Lb) as [lb [ob [B1 B2]]], (located_pos c Lc) as [lc [oc [C1 C2]]].
  unfold midpt_entry. rewrite T0, T1, A1, A2, B1, B2, C1, C2.
  set (f := (if Qeqb (t0 + t1) 0 then 0 else t0 / (t0 + t1))%Q).
  assert (F : ((t0 + t1 == 0 /\ f == 0) \/ (~ t0 + t1 == 0 /\ f == t0 / (t0 + t1)))%Q).
  { unfold f. destruct (Qeqb (t0 + t1) 0) eqn:E; qprop; [left|right]; (split; [exact E|reflexivity]). }
  assert (F1 : (f <= 1)%Q).
  { destruct F as [[_ F]|[N F]]; rewrite F; [lra|now apply frac_le]. }
  cbv zeta. rewrite py_assert_true by (now apply Qleb_true). cbn [bind].
  destruct (sp_mid sp la lo lc oc f) as [x y] eqn:M. eexists. split; [reflexivity|]. intro L. rewrite gt_opt_spec. split.
  - intros [q [E H]]. injection E as <-. exists la, lo, lb, ob, lc, oc, t0, t1, f. split; [split; assumption|]. split; [split; assumption|]. split; [split; assumption|].
    split; [exact H0|]. split; [exact H1|]. split; [exact F|]. rewrite M. exact H.
  - intros [la' [lo' [lb' [ob' [lc' [oc' [t0' [t1' [f' [A [B [C [H0' [H1' [F' H]]]]]]]]]]]]]]].
    destruct (at_pos_fun _ _ _ _ _ A (conj A1 A2)) as [-> ->], (at_pos_fun _ _ _ _ _ B (conj B1 B2)) as [-> ->], (at_pos_fun _ _ _ _ _ C (conj C1 C2)) as [-> ->].
    pose proof (hours_between_fun _ _ _ _ H0 H0') as E0. pose proof (hours_between_fun _ _ _ _ H1 H1') as E1.
    assert (FF : (f == f')%Q).
    { destruct F as [[X Y]|[X Y]], F' as [[X' Y']|[X' Y']].
      - now rewrite Y, Y'.
      - exfalso. apply X'. now rewrite <- E0, <- E1.
      - exfalso. apply X. now rewrite E0, E1.
      - now rewrite Y, Y', E0, E1. }
    eexists. split; [reflexivity|]. destruct WD as [D [_ MM]]. destruct (MM la lo lc oc f f' FF) as [X Y]. rewrite M in X, Y. simpl in X, Y.
    rewrite (D lb lb ob ob x _ y _ (Qeq_refl _) (Qeq_refl _) X Y). exact H.
Qed.

Lemma distance_check_spec : forall a b c t f r, getvar b "time_diff" = Some t -> hours_between a b t ->
  (forall L, gt_opt f L = true <-> exists t' x, hours_between a b t' /\ reckoned sp a b t' x /\ (L < x)%Q) ->
  (forall L, gt_opt r L = true <-> exists t' x, hours_between b c t' /\ reckoned_back sp b c t' x /\ (L < x)%Q) ->
  (check_distance_from_estimate (getvar b "vsi") (getvar a "vsi") (getvar b "time_diff") f r = true <-> off_reckoning sp a b c).
Proof.
  intros a b c t f r T HB F R. unfold check_distance_from_estimate. rewrite T. split.
  - destruct (getvar b "vsi") as [vb|] eqn:E1; [|discriminate]. destruct (getvar a "vsi") as [va|] eqn:E2; [|discriminate].
    destruct (Qltb 0 vb) eqn:B1; [|discriminate]. destruct (Qltb 0 va) eqn:B2; [|discriminate]. destruct (Qltb 0 t) eqn:B3; [|discriminate].
    cbn [andb]. intro H. apply andb_true_iff in H. destruct H as [H1 H2]. apply F in H1. apply R in H2. qprop.
    destruct H1 as [t1 [x [X1 [X2 X3]]]], H2 as [t2 [y [Y1 [Y2 Y3]]]].
    assert (D1 : exists da, getvar a "dsi" = Some da) by (destruct X2 as [? [? [? [? [? [? [? [? [_ [[_ U] _]]]]]]]]]]; eauto).
    assert (D2 : exists db, getvar b "dsi" = Some db) by (destruct X2 as [? [? [? [? [? [? [? [? [_ [_ [_ [[_ U] _]]]]]]]]]]]]; eauto).
    destruct D1 as [da D1], D2 as [db D2].
    pose proof (hours_between_fun _ _ _ _ X1 HB) as TT.
    exists va, da, vb, db, t1, t2, x, y. split; [split; assumption|]. split; [split; assumption|]. split; [exact X1|]. split; [exact Y1|].
    split; [repeat split; try assumption; rewrite TT; assumption|]. split; [exact X2|]. split; [exact Y2|].
    assert (N : (nm (t1 * ((va + vb) / 2)) == t * ((vb + va) / 2) / km_to_nm)%Q) by (unfold nm, km_to_nm; rewrite TT; field).
    rewrite N. split; assumption.
  - intros [va [da [vb [db [t1 [t2 [x [y [[S1 S2] [[S3 S4] [X1 [Y1 [[P1 [P2 P3]] [X2 [Y2 [X3 Y3]]]]]]]]]]]]]]]].
    rewrite S1, S3. pose proof (hours_between_fun _ _ _ _ X1 HB) as TT.
    assert (N : (nm (t1 * ((va + vb) / 2)) == t * ((vb + va) / 2) / km_to_nm)%Q) by (unfold nm, km_to_nm; rewrite TT; field).
    rewrite (proj2 (Qltb_true 0 vb) P2), (proj2 (Qltb_true 0 va) P1), (proj2 (Qltb_true 0 t)) by (rewrite <- TT; exact P3). cbn [andb].
    apply andb_true_iff. split; [apply F|apply R]; [exists t1, x|exists t2, y]; rewrite <- N; auto.
Qed.

Lemma direction_spec : forall a b c limit, heading_known a -> heading_known b -> getvar b "course" = Some c -> course_from (sp_course sp) a b c ->
  exists r, direction_continuity (getvar b "dsi") (getvar a "dsi") (getvar b "course") limit = Ok r /\ (r = true <-> off_heading sp limit a b).
Proof.
  intros a b c limit Ka Kb C CF. unfold direction_continuity. rewrite !py_assert_true by (now apply heading_known_ok). cbn [bind]. rewrite C.
  destruct (getvar b "dsi") as [db|] eqn:E1; [destruct (getvar a "dsi") as [da|] eqn:E2|].
  - cbv zeta. eexists. split; [reflexivity|]. rewrite orb_true_iff, !andb_true_iff, !Qltb_true. split.
    + intro H. exists da, db, c. auto.
    + intros [da' [db' [c' [A [B [CF' H]]]]]]. rewrite (course_fun _ _ _ _ _ CF CF'). assert (da = da') by congruence. assert (db = db') by congruence. subst. exact H.
  - exists false. split; [reflexivity|]. split; [discriminate|]. intros [da' [db' [c' [A [B _]]]]]. congruence.
  - exists false. split; [reflexivity|]. split; [discriminate|]. intros [da' [db' [c' [A [B _]]]]]. congruence.
Qed.

Lemma speed_spec : forall a b s limit, getvar b "speed" = Some s -> speed_from (sp_dist sp) a b s ->
  (speed_continuity (getvar b "vsi") (getvar a "vsi") (getvar b "speed") limit = true <-> off_speed sp limit a b).
Proof.
  intros a b s limit E SF. unfold speed_continuity. rewrite E. split.
  - destruct (getvar b "vsi") as [vb|] eqn:E1; [|discriminate]. destruct (getvar a "vsi") as [va|] eqn:E2; [|discriminate].
    rewrite andb_true_iff, !Qltb_true. intro H. exists va, vb, s. auto.
  - intros [va [vb [s' [A [B [SF' H]]]]]]. rewrite A, B. rewrite andb_true_iff, !Qltb_true.
    pose proof (speed_fun _ _ _ _ _ SF SF') as Q0. change (vb / km_to_nm)%Q with (nm vb). change (va / km_to_nm)%Q with (nm va). change (limit / km_to_nm)%Q with (nm limit).
    rewrite (Qabs'_compat (nm vb - s) (nm vb - s')), (Qabs'_compat (nm va - s) (nm va - s')) by (now rewrite Q0). exact H.
Qed.
End Entries.
