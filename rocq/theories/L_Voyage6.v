(** Motion fields of voyages. *)
Require Import String ZArith QArith Qround List Bool Lia Lqa Permutation Sorting.Sorted.
Require Import Verif.M_Base Verif.L_Base Verif.S_Calendar Verif.M_Report Verif.S_Report Verif.L_Report Verif.L_Report3 Verif.M_Voyage Verif.S_Voyage Verif.L_Voyage.
Import ListNotations.
Open Scope string_scope.
Open Scope list_scope.
Open Scope Z_scope.

Lemma setext_same : forall r n v, ~ In n VARLIST -> getvar (setext r n v) n = v.
Proof. intros r n v H. unfold getvar. rewrite (index_of_notin n VARLIST H). simpl. now rewrite String.eqb_refl. Qed.
Lemma setext_other : forall r n v m, m <> n -> getvar (setext r n v) m = getvar r m.
Proof.
  intros r n v m H. unfold getvar. destruct (index_of m VARLIST) eqn:E; [reflexivity|]. simpl.
  destruct (String.eqb_spec m n); [contradiction|reflexivity].
Qed.

Lemma notvar : forall n, In n ["speed"; "course"; "distance"; "time_diff"; "alt_speed"; "alt_course"; "alt_distance"; "alt_time_diff"] -> ~ In n VARLIST.
Proof. intros n H K. assert (B : forallb (fun x => negb (mem x VARLIST)) ["speed"; "course"; "distance"; "time_diff"; "alt_speed"; "alt_course"; "alt_distance"; "alt_time_diff"] = true) by reflexivity.
  rewrite forallb_forall in B. specialize (B n H). apply mem_In in K. rewrite K in B. discriminate. Qed.

Lemma set_motion_fields : forall r s di c t, let r' := set_motion r (Some (s, di, c, t)) in
  getvar r' "speed" = Some s /\ getvar r' "distance" = Some di /\ getvar r' "course" = Some c /\ getvar r' "time_diff" = Some t.
Proof.
  intros r s di c t r'. unfold r', set_motion.
  repeat split; repeat (rewrite setext_other by discriminate); apply setext_same; apply notvar; simpl; tauto.
Qed.
Lemma set_motion_none : forall r, let r' := set_motion r None in
  getvar r' "speed" = None /\ getvar r' "distance" = None /\ getvar r' "course" = None /\ getvar r' "time_diff" = None.
Proof.
  intros r r'. unfold r', set_motion.
  repeat split; repeat (rewrite setext_other by discriminate); apply setext_same; apply notvar; simpl; tauto.
Qed.
Lemma set_motion_same : forall r m, same_report r (set_motion r m).
Proof.
  intros r m. unfold same_report. destruct m as [[[[s di] c] t]|]; unfold set_motion; (do 6 (split; [reflexivity|])); intros n H; simpl in H;
    repeat (rewrite setext_other by (intro; subst; tauto)); reflexivity.
Qed.
Lemma same_refl : forall r, same_report r r.
Proof. intro r. unfold same_report. intuition. Qed.
Lemma same_trans : forall a b c, same_report a b -> same_report b c -> same_report a c.
Proof.
  intros a b c [A1 [A2 [A3 [A4 [A5 [A6 A7]]]]]] [B1 [B2 [B3 [B4 [B5 [B6 B7]]]]]].
  unfold same_report. do 6 (split; [congruence|]). intros n H. rewrite B7, A7; auto.
Qed.

Lemma same_getvar : forall r r' n, same_report r r' -> In n VARLIST -> getvar r' n = getvar r n.
Proof.
  intros r r' n [_ [_ [D _]]] H. unfold getvar. destruct (index_of_In n VARLIST H) as [i [E _]]. rewrite E, D. reflexivity.
Qed.
Lemma located_same : forall r r' la lo d h, same_report r r' -> located r la lo d h -> located r' la lo d h.
Proof.
  intros r r' la lo d h K [A1 A2 A3 A4 A5 A6 A7 A8].
  assert (G : forall n, In n VARLIST -> getvar r' n = getvar r n) by (intros; now apply same_getvar).
  constructor; auto; unfold lat, lon, getint in *; rewrite G by (simpl; tauto); assumption.
Qed.

Lemma located_back : forall r r' la lo d h, same_report r r' -> located r' la lo d h -> located r la lo d h.
Proof.
  intros r r' la lo d h K [A1 A2 A3 A4 A5 A6 A7 A8].
  assert (G : forall n, In n VARLIST -> getvar r' n = getvar r n) by (intros; now apply same_getvar).
  constructor; auto; unfold lat, lon, getint in *; [rewrite <- (G "LAT")|rewrite <- (G "LON")|rewrite <- (G "YR")|rewrite <- (G "MO")|rewrite <- (G "DY")|rewrite <- (G "HR")]; auto; simpl; tauto.
Qed.

Lemma moved_intro : forall sp p r, is_located p -> is_located r ->
  exists m, rep_sub sp r p = Ok m /\ moved (sp_dist sp) (sp_course sp) p (set_motion r (Some m)).
Proof.
  intros sp p r [la [lo [d [h A]]]] [la' [lo' [d' [h' B]]]].
  destruct (rep_sub_located sp p r la lo d h la' lo' d' h' A B) as [t [c [speed [E [El [C K]]]]]].
  exists (speed, sp_dist sp la' lo' la lo, c, t). split; [exact E|].
  destruct (set_motion_fields r speed (sp_dist sp la' lo' la lo) c t) as [F1 [F2 [F3 F4]]].
  exists la, lo, d, h, la', lo', d', h', t, speed. split; [exact A|]. split; [eapply located_same; [apply set_motion_same|exact B]|].
  split; [exact El|]. split; [exact F4|]. split; [exact F2|]. split; [rewrite F3; now f_equal|]. split; [exact F1|].
  destruct K as [[K1 K2]|[K1 K2]]; [left|right]; (split; [exact K1|]); rewrite K2; reflexivity.
Qed.

Lemma moved_same : forall sp p p' r, same_report p p' -> moved (sp_dist sp) (sp_course sp) p r -> moved (sp_dist sp) (sp_course sp) p' r.
Proof.
  intros sp p p' r K [la [lo [d [h [la' [lo' [d' [h' [t [s [A B]]]]]]]]]]].
  exists la, lo, d, h, la', lo', d', h', t, s. split; [eapply located_same; eauto|exact B].
Qed.

Lemma is_located_same : forall r r', same_report r r' -> is_located r -> is_located r'.
Proof. intros r r' K [la [lo [d [h A]]]]. exists la, lo, d, h. eapply located_same; eauto. Qed.

(** Consecutive reports of v are linked by their motion fields. *)
Definition linked (sp : sphere) (v : list report) : Prop :=
  forall i p r, nth_error v i = Some p -> nth_error v (S i) = Some r -> moved (sp_dist sp) (sp_course sp) p r.

Lemma add_reports_ok : forall sp l l0 v, Forall is_located l -> Forall is_located l0 -> Forall2 same_report l0 v -> linked sp v -> v <> [] ->
  exists v', add_reports sp v l = Ok v' /\ Forall2 same_report (l0 ++ l) v' /\ linked sp v' /\ hd_error v' = hd_error v.
Proof.
  intros sp. induction l as [|r l IH]; intros l0 v Hl H0 F L Nv; simpl.
  - exists v. rewrite app_nil_r. auto.
  - inversion Hl as [|? ? H1 H2]; subst. destruct (exists_last Nv) as [w [p E]]. subst v. unfold add_report. rewrite rev_unit.
    assert (Hp : is_located p).
    { apply Forall2_app_inv_r in F. destruct F as [a [b [F1 [F2 Ea]]]]. inversion F2 as [|x y l1 l2 SR FN]; subst. inversion FN; subst.
      apply Forall_app in H0. destruct H0 as [_ H0]. inversion H0; subst. eapply is_located_same; [exact SR|assumption]. }
    destruct (moved_intro sp p r Hp H1) as [m [E M]]. rewrite E. cbn [bind].
    destruct (IH (l0 ++ [r]) ((w ++ [p]) ++ [set_motion r (Some m)])) as [v' [E' [F' [L' HD]]]]; auto.
    + apply Forall_app. auto.
    + apply Forall2_app; auto using set_motion_same.
    + intros i a b Ha Hb. rewrite <- app_assoc in Ha, Hb. cbn [app] in Ha, Hb.
      assert (I : (S i < length (w ++ [p; set_motion r (Some m)]))%nat) by (apply nth_error_Some; congruence).
      rewrite app_length in I. simpl in I.
      destruct (Nat.eq_dec i (length w)) as [->|D].
      * rewrite nth_error_app2, Nat.sub_diag in Ha by lia. simpl in Ha. injection Ha as <-.
        rewrite nth_error_app2 in Hb by lia. replace (S (length w) - length w)%nat with 1%nat in Hb by lia. simpl in Hb. injection Hb as <-. exact M.
      * apply (L i a b).
        -- rewrite nth_error_app1 in Ha by lia. rewrite nth_error_app1 by lia. exact Ha.
        -- destruct (Nat.eq_dec (S i) (length w)) as [X|X].
           ++ rewrite X in Hb |- *. rewrite nth_error_app2, Nat.sub_diag in Hb |- * by lia. exact Hb.
           ++ rewrite nth_error_app1 in Hb |- * by lia. exact Hb.
    + destruct (w ++ [p]); discriminate.
    + exists v'. split; [exact E'|]. rewrite <- app_assoc in F'. split; [exact F'|]. split; [exact L'|]. rewrite HD. destruct w; reflexivity.
Qed.

Lemma build_voyage_ok : forall sp l, Forall is_located l -> exists v, add_reports sp [] l = Ok v /\ Forall2 same_report l v /\ linked sp v /\
  (forall r, hd_error v = Some r -> getvar r "speed" = None /\ getvar r "distance" = None /\ getvar r "course" = None /\ getvar r "time_diff" = None).
Proof.
  intros sp [|r l] H; simpl.
  - exists []. split; auto. split; auto. split; [intros i p q A; destruct i; discriminate|]. intros r A. discriminate.
  - inversion H; subst. destruct (add_reports_ok sp l [r] [set_motion r None]) as [v [E [F [L HD]]]]; auto.
    + constructor; auto using set_motion_same.
    + intros i p q A B. destruct i; [discriminate|destruct i; discriminate].
    + discriminate.
    + exists v. split; auto. split; auto. split; auto. intros x Hx. rewrite HD in Hx. injection Hx as <-. apply set_motion_none.
Qed.

Lemma remotion_ok : forall sp l p, is_located p -> Forall is_located l ->
  exists l', remotion sp p l = Ok l' /\ Forall2 same_report l l' /\ linked sp (p :: l').
Proof.
  intros sp. induction l as [|r l IH]; intros p Hp Hl; cbn [remotion].
  - exists []. split; auto. split; auto. intros i a b A B. destruct i; [discriminate|destruct i; discriminate].
  - inversion Hl as [|? ? H1 H2]; subst. destruct (moved_intro sp p r Hp H1) as [m [E M]]. rewrite E. cbn [bind].
    destruct (IH (set_motion r (Some m))) as [l' [E' [F' L']]]; auto.
    { eapply is_located_same; [apply set_motion_same|exact H1]. }
    rewrite E'. cbn [bind]. eexists. split; [reflexivity|]. split; [constructor; auto using set_motion_same|].
    intros i a b A B. destruct i; cbn [nth_error] in A.
    + injection A as <-. cbn [nth_error] in B. injection B as <-. exact M.
    + apply (L' i a b A B).
Qed.

Lemma voyage_sort_ok : forall sp v, Forall is_located v -> exists v', voyage_sort sp v = Ok v' /\ Forall2 same_report (sort_reports v) v' /\ linked sp v'.
Proof.
  intros sp v H. unfold voyage_sort. assert (Hs : Forall is_located (sort_reports v)).
  { rewrite Forall_forall in *. intros x Hx. apply H. eapply Permutation_in; [apply sort_perm|exact Hx]. }
  destruct (sort_reports v) as [|r l].
  - exists []. split; auto. split; auto. intros i a b A. destruct i; discriminate.
  - inversion Hs as [|? ? H2 H3]; subst. destruct (remotion_ok sp l r H2 H3) as [l' [E [F L]]]. rewrite E. cbn [bind].
    exists (r :: l'). split; auto. split; auto. constructor; auto using same_refl.
Qed.
