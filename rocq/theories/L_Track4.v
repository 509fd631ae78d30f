(** Track check: the whole voyage. *)
Require Import String ZArith QArith Qround List Bool Lia Lqa.
Require Import Verif.M_Base Verif.L_Base Verif.S_Calendar Verif.M_Report Verif.S_Report Verif.L_Report Verif.L_Report3 Verif.M_Voyage Verif.S_Voyage Verif.L_Voyage Verif.L_Voyage2 Verif.L_Voyage4 Verif.L_Voyage6 Verif.M_Track Verif.S_Track Verif.L_Track Verif.L_Track2 Verif.L_Track3.
Import ListNotations.
Open Scope string_scope.
Open Scope list_scope.
Open Scope Z_scope.

Lemma getext_getvar : forall r x, getext r "speed" = Ok x -> getvar r "speed" = x.
Proof. intros r x H. unfold getext in H. unfold getvar. simpl. destruct (assoc "speed" (r_ext r)); congruence. Qed.

Lemma all_some : forall (l : list (option Q)), (forall i x, nth_error l i = Some x -> x <> None) -> exists l', l = map Some l'.
Proof.
  induction l as [|x l IH]; intro H.
  - exists []. reflexivity.
  - destruct IH as [l' E]; [intros i y Hi; apply (H (S i)); exact Hi|]. destruct x as [q|]; [|exfalso; apply (H O None); reflexivity].
    exists (q :: l'). simpl. now rewrite E.
Qed.

Section Core.
Variables (sp : sphere) (p : track_params) (v0 : list report).
Hypothesis WD : well_defined sp.
Hypothesis Hloc : Forall is_located v0.
Hypothesis Hlink : linked sp v0.
Hypothesis Hspd : Forall (fun r => exists x, getext r "speed" = Ok x) v0.
Hypothesis Hord : in_time_order v0.
Hypothesis Hhead : Forall heading_known v0.
Let n := length v0.
Hypothesis Hn : (2 <= n)%nat.

Lemma at0 : forall i, (i < n)%nat -> exists r, nth_error v0 i = Some r.
Proof. intros i H. destruct (nth_error v0 i) eqn:E; eauto. apply nth_error_None in E. unfold n in *. lia. Qed.
Lemma loc0 : forall i r, nth_error v0 i = Some r -> is_located r.
Proof. intros i r H. exact (proj1 (Forall_forall _ _) Hloc r (nth_error_In _ _ H)). Qed.
Lemma leg : forall i a b, nth_error v0 i = Some a -> nth_error v0 (S i) = Some b ->
  exists t s c, getvar b "time_diff" = Some t /\ hours_between a b t /\ getvar b "speed" = Some s /\ speed_from (sp_dist sp) a b s /\
    getvar b "course" = Some c /\ course_from (sp_course sp) a b c /\ (0 <= t)%Q.
Proof.
  intros i a b A B. destruct (moved_facts sp a b (Hlink i a b A B)) as [t [s [c [T [HB [S0 [SF [C CF]]]]]]]].
  exists t, s, c. do 6 (split; [assumption|]). exact (Hord i a b t A B HB).
Qed.

Variable v1 : list report.
Hypothesis St : alt_state sp v0 (n - 1) v1.

Lemma len1 : length v1 = n.
Proof. exact (proj1 St). Qed.
Lemma at1 : forall i r0, nth_error v0 i = Some r0 -> exists r, nth_error v1 i = Some r /\ ext_same alt_names r0 r.
Proof. intros i r0 H. destruct (proj2 St i r0 H) as [r [A [B _]]]. eauto. Qed.

Ltac noalt := unfold alt_names; simpl; intuition discriminate.

Lemma fwd_same : forall a a' b b', ext_same alt_names a a' -> ext_same alt_names b b' -> forward_entry sp a' b' = forward_entry sp a b.
Proof.
  intros a a' b b' A B. unfold forward_entry, fix_of.
  rewrite !(ext_same_getvar alt_names a a' _ A), !(ext_same_getvar alt_names b b' _ B) by noalt. reflexivity.
Qed.
Lemma rev_same : forall a a' b b', ext_same alt_names a a' -> ext_same alt_names b b' -> reverse_entry sp a' b' = reverse_entry sp a b.
Proof.
  intros a a' b b' A B. unfold reverse_entry, fix_of.
  rewrite !(ext_same_getvar alt_names a a' _ A), !(ext_same_getvar alt_names b b' _ B) by noalt. reflexivity.
Qed.
Lemma mid_same : forall a a' b b' c c', ext_same alt_names a a' -> ext_same alt_names b b' -> ext_same alt_names c c' -> midpt_entry sp a' b' c' = midpt_entry sp a b c.
Proof.
  intros a a' b b' c c' A B C. unfold midpt_entry.
  rewrite !(ext_same_getvar alt_names a a' _ A), !(ext_same_getvar alt_names b b' _ B), !(ext_same_getvar alt_names c c' _ C) by noalt. reflexivity.
Qed.

Definition fwd_ok (fwd : list (option Q)) : Prop := length fwd = n /\ forall i a b, nth_error v0 i = Some a -> nth_error v0 (S i) = Some b ->
  exists x, nth_error fwd (S i) = Some x /\ forall L, gt_opt x L = true <-> exists t' y, hours_between a b t' /\ reckoned sp a b t' y /\ (L < y)%Q.
Definition rev_ok (rv : list (option Q)) : Prop := length rv = n /\ forall i b c, nth_error v0 i = Some b -> nth_error v0 (S i) = Some c ->
  exists x, nth_error rv i = Some x /\ forall L, gt_opt x L = true <-> exists t' y, hours_between b c t' /\ reckoned_back sp b c t' y /\ (L < y)%Q.
Definition mid_ok (mid : list (option Q)) : Prop := length mid = n /\ forall i a b c, nth_error v0 i = Some a -> nth_error v0 (S i) = Some b -> nth_error v0 (S (S i)) = Some c ->
  exists x, nth_error mid (S i) = Some x /\ forall L, gt_opt x L = true <-> strays sp L a b c.

Lemma distr1_ok : exists fwd, distr1 sp v1 = Ok fwd /\ fwd_ok fwd.
Proof.
  assert (E : forall i a b, nth_error v0 i = Some a -> nth_error v0 (S i) = Some b -> exists x, entry_at (forward_entry sp) v1 (S i) = Ok x /\
    forall L, gt_opt x L = true <-> exists t' y, hours_between a b t' /\ reckoned sp a b t' y /\ (L < y)%Q).
  { intros i a b A B. destruct (at1 i a A) as [a' [A1 A2]], (at1 (S i) b B) as [b' [B1 B2]].
    destruct (leg i a b A B) as [t [s [c [T [HB _]]]]].
    destruct (fwd_spec sp WD a b t (loc0 _ _ A) (loc0 _ _ B) T HB) as [f [F1 F2]]. exists f. split; [|exact F2].
    unfold entry_at. replace (S i - 1)%nat with i by lia. rewrite (vget_nth _ _ _ A1), (vget_nth _ _ _ B1). cbn [bind]. now rewrite (fwd_same _ _ _ _ A2 B2). }
  unfold distr1. rewrite len1. destruct (mapM_ok _ _ (entry_at (forward_entry sp) v1) (seq 1 (n - 1))) as [ys [EQ [LN N]]].
  - intros x Hx. apply in_seq in Hx. destruct x as [|i]; [lia|]. destruct (at0 i) as [a A]; [lia|]. destruct (at0 (S i)) as [b B]; [lia|].
    destruct (E i a b A B) as [f [F _]]. eauto.
  - rewrite EQ. cbn [bind]. eexists. split; [reflexivity|]. rewrite seq_length in LN. split; [simpl; lia|]. intros i a b A B.
    assert (I : (S i < n)%nat) by (apply nth_error_Some; congruence).
    destruct (N i (S i)) as [y [Y1 Y2]]; [rewrite nth_error_seq by lia; f_equal; lia|]. exists y. split; [exact Y1|].
    destruct (E i a b A B) as [f [F G]]. rewrite Y2 in F. injection F as <-. exact G.
Qed.

Lemma distr2_ok : exists rv, distr2 sp v1 = Ok rv /\ rev_ok rv.
Proof.
  assert (E : forall i a b, nth_error v0 i = Some a -> nth_error v0 (S i) = Some b -> exists x, entry_at (reverse_entry sp) v1 (S i) = Ok x /\
    forall L, gt_opt x L = true <-> exists t' y, hours_between a b t' /\ reckoned_back sp a b t' y /\ (L < y)%Q).
  { intros i a b A B. destruct (at1 i a A) as [a' [A1 A2]], (at1 (S i) b B) as [b' [B1 B2]].
    destruct (leg i a b A B) as [t [s [c [T [HB _]]]]].
    destruct (rev_spec sp WD a b t (loc0 _ _ A) (loc0 _ _ B) T HB) as [f [F1 F2]]. exists f. split; [|exact F2].
    unfold entry_at. replace (S i - 1)%nat with i by lia. rewrite (vget_nth _ _ _ A1), (vget_nth _ _ _ B1). cbn [bind]. now rewrite (rev_same _ _ _ _ A2 B2). }
  unfold distr2. rewrite len1. destruct (mapM_ok _ _ (entry_at (reverse_entry sp) v1) (seq 1 (n - 1))) as [ys [EQ [LN N]]].
  - intros x Hx. apply in_seq in Hx. destruct x as [|i]; [lia|]. destruct (at0 i) as [a A]; [lia|]. destruct (at0 (S i)) as [b B]; [lia|].
    destruct (E i a b A B) as [f [F _]]. eauto.
  - rewrite (mapM_rev _ _ _ _ _ EQ). cbn [bind]. eexists. split; [reflexivity|]. rewrite seq_length in LN. cbn [rev]. rewrite rev_involutive.
    split; [rewrite app_length; simpl; lia|]. intros i a b A B.
    assert (I : (S i < n)%nat) by (apply nth_error_Some; congruence).
    destruct (N i (S i)) as [y [Y1 Y2]]; [rewrite nth_error_seq by lia; f_equal; lia|]. exists y. split; [rewrite nth_error_app1 by lia; exact Y1|].
    destruct (E i a b A B) as [f [F G]]. rewrite Y2 in F. injection F as <-. exact G.
Qed.

Lemma midpt_ok : exists mid, midpt sp v1 = Ok mid /\ mid_ok mid.
Proof.
  set (fn := fun i => let! a := vget v1 (i - 1) in let! b := vget v1 i in let! c := vget v1 (i + 1) in midpt_entry sp a b c).
  assert (E : forall i a b c, nth_error v0 i = Some a -> nth_error v0 (S i) = Some b -> nth_error v0 (S (S i)) = Some c -> exists x, fn (S i) = Ok x /\
    forall L, gt_opt x L = true <-> strays sp L a b c).
  { intros i a b c A B C. destruct (at1 i a A) as [a' [A1 A2]], (at1 (S i) b B) as [b' [B1 B2]], (at1 (S (S i)) c C) as [c' [C1 C2]].
    destruct (leg i a b A B) as [t0 [s0 [co0 [T0 [H0 [_ [_ [_ [_ P0]]]]]]]]]. destruct (leg (S i) b c B C) as [t1 [s1 [co1 [T1 [H1 [_ [_ [_ [_ P1]]]]]]]]].
    destruct (mid_spec sp WD a b c t0 t1 (loc0 _ _ A) (loc0 _ _ B) (loc0 _ _ C) T0 H0 T1 H1 P0 P1) as [f [F1 F2]]. exists f. split; [|exact F2].
    unfold fn. replace (S i - 1)%nat with i by lia. replace (S i + 1)%nat with (S (S i)) by lia.
    rewrite (vget_nth _ _ _ A1), (vget_nth _ _ _ B1), (vget_nth _ _ _ C1). cbn [bind]. now rewrite (mid_same _ _ _ _ _ _ A2 B2 C2). }
  unfold midpt. fold fn. rewrite len1. destruct (mapM_ok _ _ fn (seq 1 (n - 2))) as [ys [EQ [LN N]]].
  - intros x Hx. apply in_seq in Hx. destruct x as [|i]; [lia|]. destruct (at0 i) as [a A]; [lia|]. destruct (at0 (S i)) as [b B]; [lia|]. destruct (at0 (S (S i))) as [c C]; [lia|].
    destruct (E i a b c A B C) as [f [F _]]. eauto.
  - fold fn in EQ. rewrite EQ. cbn [bind]. eexists. split; [reflexivity|]. rewrite seq_length in LN. split; [simpl; rewrite app_length; simpl; lia|]. intros i a b c A B C.
    assert (I : (S (S i) < n)%nat) by (apply nth_error_Some; congruence).
    destruct (N i (S i)) as [y [Y1 Y2]]; [rewrite nth_error_seq by lia; f_equal; lia|]. exists y. split; [cbn [nth_error]; rewrite nth_error_app1 by lia; exact Y1|].
    destruct (E i a b c A B C) as [f [F G]]. rewrite Y2 in F. injection F as <-. exact G.
Qed.

Lemma get_speed_ok : exists y0 l, get_speed v1 = Ok (y0 :: map Some l) /\ leg_speeds (sp_dist sp) v0 l.
Proof.
  assert (G : forall i r0, nth_error v0 i = Some r0 -> exists r, nth_error v1 i = Some r /\ exists x, getext r "speed" = Ok x /\ getvar r0 "speed" = x).
  { intros i r0 H. destruct (at1 i r0 H) as [r [A B]]. exists r. split; auto.
    pose proof (proj1 (Forall_forall _ _) Hspd r0 (nth_error_In _ _ H)) as [x X]. exists x. split; [|now apply getext_getvar].
    rewrite (ext_same_getext alt_names r0 r "speed" B) by noalt. exact X. }
  unfold get_speed. destruct (mapM_ok _ _ (fun r => getext r "speed") v1) as [ys [EQ [LN N]]].
  - intros r Hr. apply In_nth_error in Hr. destruct Hr as [i Hi]. destruct (at0 i) as [r0 R0].
    { rewrite <- len1. apply nth_error_Some. congruence. }
    destruct (G i r0 R0) as [r' [A [x [X _]]]]. rewrite Hi in A. injection A as <-. eauto.
  - rewrite EQ. rewrite len1 in LN. destruct ys as [|y0 ys]; [simpl in LN; unfold n in *; lia|].
    assert (SP : forall i a b, nth_error v0 i = Some a -> nth_error v0 (S i) = Some b -> exists s, nth_error ys i = Some (Some s) /\ speed_from (sp_dist sp) a b s).
    { intros i a b A B. destruct (leg i a b A B) as [t [s [c [_ [_ [S0 [SF _]]]]]]]. destruct (G (S i) b B) as [r [R [x [X1 X2]]]].
      destruct (N (S i) r R) as [y [Y1 Y2]]. cbn [nth_error] in Y1. exists s. split; [|exact SF]. rewrite Y1. congruence. }
    destruct (all_some ys) as [l E].
    { intros i x Hx. assert (I : (i < length ys)%nat) by (apply nth_error_Some; congruence). simpl in LN. destruct (at0 i) as [a A]; [lia|]. destruct (at0 (S i)) as [b B]; [lia|].
      destruct (SP i a b A B) as [s [S1 _]]. congruence. }
    subst ys. exists y0, l. split; [reflexivity|]. split; [simpl in LN; rewrite map_length in LN; exact LN|].
    intros i a b s A B S0. destruct (SP i a b A B) as [s' [S1 S2]]. rewrite nth_error_map, S0 in S1. simpl in S1. injection S1 as <-. exact S2.
Qed.

Lemma meansp_ok : meansp v1 = Ok tt.
Proof.
  destruct get_speed_ok as [y0 [l [E _]]]. unfold meansp. rewrite E. cbn [bind tl].
  assert (B : existsb (fun s : option Q => match s with Some _ => false | None => true end) (map Some l) = false) by (clear; induction l; simpl; auto).
  now rewrite B.
Qed.

Lemma limit_ok : exists spd modal amax amaxx amin, get_speed v1 = Ok spd /\ modesp spd = Ok modal /\ set_speed_limits modal = (amax, amaxx, amin) /\ voyage_limit (sp_dist sp) v0 amax.
Proof.
  destruct get_speed_ok as [y0 [l [E LS]]].
  destruct (modesp_ok y0 l) as [a [m [M1 [M2 M3]]]].
  { destruct LS as [L _]. intro. subst l. simpl in L. unfold n in *. lia. }
  destruct (limits_ok a m M3) as [amax [amaxx [amin [S1 S2]]]]; [now apply modal_range in M2|].
  exists (y0 :: map Some l), (Some a), amax, amaxx, amin. do 3 (split; [assumption|]). exists l, m. split; [exact LS|]. split; [exact M2|].
  destruct S2 as [[A [B _]]|[A [B _]]]; [left|right]; auto.
Qed.

Lemma same2_ext_getvar : forall trk few r0 r1 r nm, ext_same alt_names r0 r1 -> same2 trk few r1 r -> ~ In nm alt_names -> getvar r nm = getvar r0 nm.
Proof. intros trk few r0 r1 r nm A B C. rewrite (same2_getvar _ _ _ _ _ B). now apply (ext_same_getvar alt_names). Qed.

Definition bad_at (amax : Q) (i : nat) : Prop := off_track sp (tk_dir p) (tk_speed p) (tk_abs p) (tk_mid p) v0 amax i.

Lemma verdict_ok : forall trk few g h v fwd rv mid amax i, writes2 trk few g h v1 v -> fwd_ok fwd -> rev_ok rv -> mid_ok mid -> (S (S i) < n)%nat ->
  exists bad, track_verdict p amax fwd rv mid v (S i) = Ok bad /\ (bad = true <-> bad_at amax (S i)).
Proof.
  intros trk few g h v fwd rv mid amax i [LV W] [_ FO] [_ RO] [_ MO] Hi.
  destruct (at0 i) as [a A]; [lia|]. destruct (at0 (S i)) as [b B]; [lia|]. destruct (at0 (S (S i))) as [c C]; [lia|].
  destruct (proj2 St _ _ A) as [a1 [A1 [AE [AA1 AA2]]]], (proj2 St _ _ B) as [b1 [B1 [BE _]]], (proj2 St _ _ C) as [c1 [C1 [CE [CA1 CA2]]]].
  destruct (W _ _ A1) as [a2 [A2 [AS _]]], (W _ _ B1) as [b2 [B2 [BS _]]], (W _ _ C1) as [c2 [C2 [CS _]]].
  assert (GA : forall x, ~ In x alt_names -> getvar a2 x = getvar a x) by (intros; eapply same2_ext_getvar; eauto).
  assert (GB : forall x, ~ In x alt_names -> getvar b2 x = getvar b x) by (intros; eapply same2_ext_getvar; eauto).
  assert (GC : forall x, ~ In x alt_names -> getvar c2 x = getvar c x) by (intros; eapply same2_ext_getvar; eauto).
  destruct (leg i a b A B) as [t0 [s0 [co0 [T0 [H0 [S0 [SF0 [CO0 [CF0 P0]]]]]]]]]. destruct (leg (S i) b c B C) as [t1 [s1 [co1 [T1 [H1 [S1 [SF1 _]]]]]]].
  destruct (FO i a b A B) as [f [F1 F2]], (RO (S i) b c B C) as [r [R1 R2]], (MO i a b c A B C) as [m [M1 M2]].
  unfold track_verdict. replace (S i - 1)%nat with i by lia. replace (S i + 1)%nat with (S (S i)) by lia.
  rewrite (vget_nth _ _ _ A2), (vget_nth _ _ _ B2), (vget_nth _ _ _ C2). cbn [bind].
  rewrite (py_nth_error _ _ _ _ F1), (py_nth_error _ _ _ _ R1), (py_nth_error _ _ _ _ M1). cbn [bind].
  rewrite (same2_getvar _ _ _ _ "alt_speed" AS), (same2_getvar _ _ _ _ "alt_speed" CS).
  rewrite !GA, !GB, !GC by noalt.
  pose proof (proj1 (Forall_forall _ _) Hhead a (nth_error_In _ _ A)) as KA. pose proof (proj1 (Forall_forall _ _) Hhead b (nth_error_In _ _ B)) as KB.
  destruct (direction_spec sp a b co0 (tk_dir p) KA KB CO0 CF0) as [dr [D1 D2]]. rewrite D1. cbn [bind].
  eexists. split; [reflexivity|]. rewrite !andb_true_iff, !orb_true_iff, !andb_true_iff.
  rewrite (distance_check_spec sp a b c t0 f r T0 H0 F2 R2), D2, (speed_spec sp a b s0 (tk_speed p) S0 SF0), M2. rewrite S0, S1. cbn [gt_opt].
  rewrite !Qltb_true. change (tk_abs p / km_to_nm)%Q with (nm (tk_abs p)). change (tk_mid p / km_to_nm)%Q with (nm (tk_mid p)).
  rewrite !(speed_faster _ _ _ _ _ SF0), !(speed_faster _ _ _ _ _ SF1).
  assert (Q1 : gt_opt (getvar a1 "alt_speed") amax = true <-> exists j z, S i = S (S j) /\ nth_error v0 j = Some z /\ faster (sp_dist sp) z b amax).
  { destruct i as [|i].
    - rewrite AA2 by lia. cbn [gt_opt]. split; [discriminate|]. intros [j [z [E _]]]. lia.
    - destruct AA1 as [z [b' [s [Z1 [Z2 [Z3 Z4]]]]]]; [lia|]. replace (S i - 1)%nat with i in Z1 by lia. replace (S i + 1)%nat with (S (S i)) in Z2 by lia.
      rewrite B in Z2. injection Z2 as <-. rewrite Z3. cbn [gt_opt]. rewrite Qltb_true, (speed_faster _ _ _ _ _ Z4). split.
      + intro Q0. exists i, z. auto.
      + intros [j [z' [E [Z' Q0]]]]. injection E as <-. rewrite Z1 in Z'. injection Z' as <-. exact Q0. }
  assert (Q2 : gt_opt (getvar c1 "alt_speed") amax = true <-> exists d, nth_error v0 (S (S (S i))) = Some d /\ faster (sp_dist sp) b d amax).
  { destruct (Nat.eq_dec (S (S (S i))) n) as [X|X].
    - rewrite CA2 by lia. cbn [gt_opt]. split; [discriminate|]. intros [d [E _]]. assert (S (S (S i)) < n)%nat by (apply nth_error_Some; congruence). lia.
    - destruct CA1 as [b' [d [s [Z1 [Z2 [Z3 Z4]]]]]]; [lia|]. replace (S (S i) - 1)%nat with (S i) in Z1 by lia. replace (S (S i) + 1)%nat with (S (S (S i))) in Z2 by lia.
      rewrite B in Z1. injection Z1 as <-. rewrite Z3. cbn [gt_opt]. rewrite Qltb_true, (speed_faster _ _ _ _ _ Z4). split.
      + intro Q0. exists d. auto.
      + intros [d' [E Q0]]. rewrite Z2 in E. injection E as <-. exact Q0. }
  rewrite Q1, Q2. unfold bad_at, off_track, rushes. split.
  - intros [[X Y] U]. exists i, a, b, c. split; [reflexivity|]. do 3 (split; [assumption|]). split; [exact X|]. split; tauto.
  - intros [i' [a' [b' [c' [E [A' [B' [C' [X [Y U]]]]]]]]]]. injection E as <-. rewrite A in A'. injection A' as <-. rewrite B in B'. injection B' as <-.
    rewrite C in C'. injection C' as <-. split; [split; [exact X|tauto]|tauto].
Qed.

(** Flags that are right: 1 on the positions in [bad], 0 on all others. *)
Definition right_flag (bad : nat -> Prop) (i : nat) (q : Z) : Prop := (q = 1 /\ bad i) \/ (q = 0 /\ ~ bad i).

Section Loop.
Variables (trk few : string).
Hypothesis NK : ~ same_key "POS" trk "POS" few.
Variables (fwd rv mid : list (option Q)) (amax : Q).
Hypothesis FO : fwd_ok fwd.
Hypothesis RO : rev_ok rv.
Hypothesis MO : mid_ok mid.

Lemma track_loop_ok : forall m k g h v, (k + m + 1 = n)%nat -> (1 <= k)%nat -> writes2 trk few g h v1 v ->
  exists qcs v' g' h', track_loop p amax fwd rv mid trk few (seq k m) v = Ok (qcs, v') /\ writes2 trk few g' h' v1 v' /\ length qcs = m /\
    (forall j, (k <= j < k + m)%nat -> exists q, nth_error qcs (j - k) = Some q /\ g' j = Some q /\ h' j = Some 0 /\ right_flag (bad_at amax) j q) /\
    (forall j, ~ (k <= j < k + m)%nat -> g' j = g j /\ h' j = h j).
Proof.
  induction m as [|m IH]; intros k g h v Hk K1 W; cbn [seq track_loop].
  - exists [], v, g, h. split; auto. split; auto. split; auto. split; [intros; lia|auto].
  - destruct k as [|k]; [lia|]. destruct (verdict_ok trk few g h v fwd rv mid amax k W FO RO MO) as [bad [E B]]; [lia|]. rewrite E. cbn [bind].
    set (q := if bad then 1 else 0). assert (Hq : 0 <= q <= 9) by (unfold q; destruct bad; lia).
    destruct (vset_trk trk few g h v1 v (S k) q NK W) as [v2 [E2 W2]]; [rewrite len1; lia|exact Hq|]. rewrite E2. cbn [bind].
    destruct (vset_few trk few _ h v1 v2 (S k) 0 NK W2) as [v3 [E3 W3]]; [rewrite len1; lia|lia|]. rewrite E3. cbn [bind].
    destruct (IH (S (S k)) _ _ v3 ltac:(lia) ltac:(lia) W3) as [qcs [v' [g' [h' [E' [W' [L' [R' O']]]]]]]]. rewrite E'. cbn [bind].
    exists (q :: qcs), v', g', h'. split; [reflexivity|]. split; [exact W'|]. split; [simpl; lia|]. split.
    + intros j Hj. destruct (Nat.eq_dec j (S k)) as [->|D].
      * exists q. rewrite Nat.sub_diag. split; [reflexivity|]. destruct (O' (S k)) as [X Y]; [lia|]. rewrite X, Y. unfold upd. rewrite Nat.eqb_refl.
        split; auto. split; auto. unfold right_flag, q. destruct bad; [left|right]; split; auto; [now apply B|]. intro K. apply B in K. discriminate.
      * destruct (R' j ltac:(lia)) as [q' [Q1 Q2]]. exists q'. split; [|exact Q2]. replace (j - S k)%nat with (S (j - S (S k))) by lia. exact Q1.
    + intros j Hj. destruct (O' j) as [X Y]; [lia|]. rewrite X, Y. unfold upd. destruct (Nat.eqb_spec j (S k)); [lia|]. auto.
Qed.
End Loop.
End Core.

Section Final.
Variables (sp : sphere) (p : track_params) (v0 : list report).
Hypothesis WD : well_defined sp.
Hypothesis Hloc : Forall is_located v0.
Hypothesis Hlink : linked sp v0.
Hypothesis Hspd : Forall (fun r => exists x, getext r "speed" = Ok x) v0.
Hypothesis Hord : in_time_order v0.
Hypothesis Hhead : Forall heading_known v0.

(** What the check does to the voyage. *)
Definition track_result (trk few : string) (bad : nat -> Prop) (fewval : Z) (v' : list report) : Prop :=
  length v' = length v0 /\ forall i r0, nth_error v0 i = Some r0 -> exists r, nth_error v' i = Some r /\ track_same alt_names trk few r0 r /\
    right_flag bad i (get_qc r "POS" trk) /\ get_qc r "POS" few = fewval.

Lemma track_same_intro : forall trk few a b c, ext_same alt_names a b -> same2 trk few b c -> track_same alt_names trk few a c.
Proof.
  intros trk few a b c A B. unfold track_same. pose proof A as [A1 [A2 [A3 [A4 [A5 [A6 A7]]]]]]. pose proof B as [B1 [B2 [B3 [B4 [B5 [B6 B7]]]]]].
  do 5 (split; [congruence|]). split.
  - intros n H. rewrite (same2_getvar _ _ _ _ _ B). now apply (ext_same_getvar alt_names).
  - intros t f H1 H2. rewrite B7 by assumption. unfold get_qc. now rewrite A6.
Qed.

Lemma track_core_ok : forall trk few, ~ same_key "POS" trk "POS" few -> (2 <= length v0)%nat ->
  exists qcs v' amax, track_core sp p trk few v0 = Ok (qcs, v') /\ voyage_limit (sp_dist sp) v0 amax /\
    let bad := off_track sp (tk_dir p) (tk_speed p) (tk_abs p) (tk_mid p) v0 amax in
    track_result trk few bad 0 v' /\ length qcs = length v0 /\ (forall i q, nth_error qcs i = Some q -> right_flag bad i q).
Proof.
  intros trk few NK Hn. unfold track_core.
  destruct (calc_alt_ok sp v0 Hloc Hn) as [v1 [E1 St]]. rewrite E1. cbn [bind].
  rewrite (meansp_ok sp v0 Hlink Hspd Hord Hn v1 St). cbn [bind].
  destruct (limit_ok sp v0 Hlink Hspd Hord Hn v1 St) as [spd [modal [amax [amaxx [amin [G1 [G2 [G3 G4]]]]]]]].
  rewrite G1. cbn [bind]. rewrite G2. cbn [bind]. rewrite G3.
  destruct (distr1_ok sp v0 WD Hloc Hlink Hord Hn v1 St) as [fwd [F1 FO]]. rewrite F1. cbn [bind].
  destruct (distr2_ok sp v0 WD Hloc Hlink Hord Hn v1 St) as [rv [R1 RO]]. rewrite R1. cbn [bind].
  destruct (midpt_ok sp v0 WD Hloc Hlink Hord Hn v1 St) as [mid [M1 MO]]. rewrite M1. cbn [bind].
  pose proof (len1 sp v0 v1 St) as L1.
  destruct (vset_trk trk few _ _ v1 v1 0 0 NK (writes2_refl trk few v1)) as [v2 [E2 W2]]; [lia|lia|]. rewrite E2. cbn [bind].
  destruct (vset_few trk few _ _ v1 v2 0 0 NK W2) as [v3 [E3 W3]]; [lia|lia|]. rewrite E3. cbn [bind].
  assert (L3 : length v3 = length v0) by (rewrite <- L1; apply W3). rewrite L3.
  destruct (track_loop_ok sp p v0 Hlink Hord Hhead Hn v1 St trk few NK fwd rv mid amax FO RO MO (length v0 - 2) 1 _ _ v3 ltac:(lia) ltac:(lia) W3)
    as [qcs [v4 [g [h [E4 [W4 [LQ [R4 O4]]]]]]]]. rewrite E4. cbn [bind].
  assert (L4 : length v4 = length v0) by (rewrite <- L1; apply W4). rewrite L4.
  destruct (vset_trk trk few _ _ v1 v4 (length v0 - 1) 0 NK W4) as [v5 [E5 W5]]; [lia|lia|]. rewrite E5. cbn [bind].
  assert (L5 : length v5 = length v0) by (rewrite <- L1; apply W5). rewrite L5.
  destruct (vset_few trk few _ _ v1 v5 (length v0 - 1) 0 NK W5) as [v6 [E6 W6]]; [lia|lia|]. rewrite E6. cbn [bind].
  exists (0 :: qcs ++ [0]), v6, amax. split; [reflexivity|]. split; [exact G4|]. cbv zeta.
  set (bad := off_track sp (tk_dir p) (tk_speed p) (tk_abs p) (tk_mid p) v0 amax) in *.
  assert (B0 : ~ bad O) by (intros [i' [a [b [c [E _]]]]]; discriminate).
  assert (BL : ~ bad (length v0 - 1)%nat).
  { intros [i' [a [b [c [_ [_ [_ [C _]]]]]]]]. assert (S (length v0 - 1) < length v0)%nat by (apply nth_error_Some; congruence). lia. }
  split; [|split].
  - destruct W6 as [L6 W6]. split; [lia|]. intros i r0 Hi. assert (I : (i < length v0)%nat) by (apply nth_error_Some; congruence).
    destruct (proj2 St i r0 Hi) as [r1 [A [B _]]]. destruct (W6 i r1 A) as [r [C [D [F G]]]]. exists r. split; [exact C|]. split; [eapply track_same_intro; eauto|].
    rewrite F, G. unfold upd. destruct (Nat.eqb_spec i (length v0 - 1)) as [->|N1].
    + split; [right; auto|reflexivity].
    + destruct i as [|i].
      * destruct (O4 O) as [X Y]; [lia|]. rewrite X, Y. unfold upd. simpl. split; [right; auto|reflexivity].
      * destruct (R4 (S i)) as [q [_ [X [Y Z]]]]; [lia|]. rewrite X, Y. split; [exact Z|reflexivity].
  - simpl. rewrite app_length, LQ. simpl. lia.
  - intros i q Hq. destruct i as [|i]; cbn [nth_error] in Hq.
    + injection Hq as <-. right. auto.
    + destruct (Nat.lt_ge_cases i (length qcs)) as [C|C].
      * rewrite nth_error_app1 in Hq by lia. destruct (R4 (S i)) as [q' [X [_ [_ Z]]]]; [lia|]. replace (S i - 1)%nat with i in X by lia.
        rewrite Hq in X. injection X as <-. exact Z.
      * rewrite nth_error_app2 in Hq by lia. destruct (i - length qcs)%nat eqn:D; [|simpl in Hq; destruct n; discriminate]. simpl in Hq. injection Hq as <-.
        right. split; auto. replace (S i) with (length v0 - 1)%nat by lia. exact BL.
Qed.

Lemma set_both_result : forall trk few x, ~ same_key "POS" trk "POS" few -> 0 <= x <= 9 ->
  exists v', set_both trk few 0 x (seq 0 (length v0)) v0 = Ok v' /\ track_result trk few (fun _ => False) x v'.
Proof.
  intros trk few x NK Hx. destruct (set_both_ok trk few 0 x NK ltac:(lia) Hx (seq 0 (length v0)) _ _ v0 v0 (writes2_refl _ _ _)) as [v' [E [L W]]].
  - intros i Hi. apply in_seq in Hi. lia.
  - exists v'. split; [exact E|]. split; [exact L|]. intros i r0 Hi. destruct (W i r0 Hi) as [r [A [B [C D]]]]. exists r. split; [exact A|].
    split; [eapply track_same_intro; [apply ext_same_refl|exact B]|].
    assert (I : (i < length v0)%nat) by (apply nth_error_Some; congruence).
    rewrite (proj2 (memn_seq i 0 (length v0))) in C, D by lia. rewrite C, D. split; [right; auto|reflexivity].
Qed.
End Final.
