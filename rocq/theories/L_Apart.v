(** Lemmas: what one ship's reports owe to the other lines. *)
Require Import String Ascii ZArith QArith List Bool Lia.
Require Import Verif.M_Base Verif.L_Base Verif.M_Imma Verif.M_Report Verif.M_Voyage Verif.M_Track Verif.M_Buddy Verif.M_Main Verif.S_Main Verif.S_Print Verif.S_Apart Verif.L_Main Verif.L_Main2 Verif.L_Main3 Verif.L_Main4 Verif.L_Main5 Verif.S_Report Verif.L_Report Verif.L_Report2.
Import ListNotations.
Open Scope string_scope.
Open Scope list_scope.
Open Scope Z_scope.

(* ---- lists ---- *)
Definition is_id (id : option string) (r : report) : bool := match r_id r, id with Some a, Some b => String.eqb a b | None, None => true | _, _ => false end.
Lemma is_id_iff : forall id r, is_id id r = true <-> r_id r = id.
Proof. intros id r. unfold is_id. destruct (r_id r) as [a|], id as [b|]; split; intro H; try discriminate; try reflexivity; [apply String.eqb_eq in H; now subst|injection H as ->; apply String.eqb_refl]. Qed.
Lemma picked_filter : forall id l, picked (fun r => r_id r = id) l (filter (is_id id) l).
Proof. intros id. induction l as [|r l IH]; [constructor|]. cbn [filter]. destruct (is_id id r) eqn:I; [apply pick_yes|apply pick_no]; auto; [now apply is_id_iff|]. intro H. apply is_id_iff in H. congruence. Qed.
Lemma Forall2_filter : forall id (R : report -> report -> Prop) l l', (forall r r', R r r' -> r_id r' = r_id r) -> Forall2 R l l' -> Forall2 R (filter (is_id id) l) (filter (is_id id) l').
Proof.
  intros id R l l' I F. induction F as [|r r' l l' H F IH]; [constructor|]. cbn [filter]. assert (X : is_id id r' = is_id id r) by (unfold is_id; now rewrite (I _ _ H)). rewrite X. destruct (is_id id r); [now constructor|exact IH].
Qed.
(** From the reports placed in a list to those placed among the reports of one ship. *)
Lemma placed_filter : forall id f l l' s s', Forall2 (fun r r' => r_id r' = r_id r) l l' -> placed (fun r => r_id r = id /\ test_report f r = 0) l l' s s' ->
  placed (fun r => test_report f r = 0) (filter (is_id id) l) (filter (is_id id) l') s s'.
Proof.
  intros id f l l' s s' F P. revert F. induction P as [|r r' l l' s s' [A B] P IH|r r' l l' s s' N P IH]; intro F; [constructor| |]; inversion F; subst; cbn [filter].
  - assert (X : is_id (r_id r) r = true) by now apply is_id_iff. assert (X' : is_id (r_id r) r' = true) by now apply is_id_iff. rewrite X, X'. constructor; auto.
  - assert (X : is_id id r' = is_id id r) by (unfold is_id; match goal with G : r_id r' = r_id r |- _ => now rewrite G end). rewrite X. destruct (is_id id r) eqn:I; [|auto]. apply is_id_iff in I. apply placed_no; auto.
Qed.
Lemma placed_same : forall P l t s s', placed P l t s s' -> forall t', placed P l t' s s' -> Forall2 (fun r r' => ~ P r -> r' = r) l t -> Forall2 (fun r r' => ~ P r -> r' = r) l t' -> t = t'.
Proof.
  intros P l t s s' H. induction H as [|r r' l t s s' A H IH|r r' l t s s' N H IH]; intros t' H' F F'; inversion H'; subst; inversion F; subst; inversion F'; subst; try contradiction; [reflexivity| |]; f_equal; auto.
  match goal with A : ~ P r -> r' = r, B : ~ P r -> _ = r |- _ => rewrite (A N), (B N); reflexivity end.
Qed.
Lemma placed_subs : forall P l t s s', placed P l t s s' -> forall t' u u', placed P l t' u u' -> s = u.
Proof. intros P l t s s' H. induction H as [|r r' l t s s' A H IH|r r' l t s s' N H IH]; intros t' u u' H'; inversion H'; subst; try contradiction; [reflexivity|f_equal; eauto|eauto]. Qed.
Lemma placed_none : forall P l t s s', placed P l t s s' -> length l = length t.
Proof. intros P l t s s' H. induction H; cbn; auto. Qed.

(* ---- reading ---- *)
Section Env.
Variable E : setup.
Hypothesis OFF : e_tracking E = false.
(** Without tracking a report owes nothing to the lines before it. *)
Definition prepared (year month y m : Z) (im : imma) (r : report) : Prop := prepare E year month y m (-99, None) None im = Ok ((-99, None), r).
Lemma background_off : forall y m st bg r, background E y m st bg r = Ok (st, r).
Proof. intros y m st bg r. unfold background. rewrite OFF. cbn [andb]. destruct (getint r "DY"); reflexivity. Qed.
Lemma prepare_alone : forall year month y m st bg im st' r, prepare E year month y m st bg im = Ok (st', r) -> st' = st /\ prepared year month y m im r.
Proof.
  intros year month y m st bg im st' r H. unfold prepared, prepare in *. step H. cbn [bind]. step H. cbn [bind]. rewrite background_off in *. cbn [bind] in *.
  do 6 (step H; cbn [bind]). injection H as <- <-. auto.
Qed.
Lemma prepared_id : forall year month y m im r, humidity_only (e_hum E) -> (exists line, usable (e_tables E) (e_excluded E) y m line im) -> prepared year month y m im r -> text_field im "ID" (r_id r).
Proof. intros year month y m im r HUM [line U] P. pose proof (prepare_ready E HUM _ _ _ _ _ _ _ _ _ _ U P) as R. destruct (rd_made _ _ _ _ _ _ _ R) as [A _]. exact A. Qed.
Lemma text_field_fun : forall im n a b, text_field im n a -> text_field im n b -> a = b.
Proof. intros im n a b [[s [A ->]]|[A ->]] [[t [B ->]]|[B ->]]; try congruence; exfalso; eauto. Qed.
Lemma usable_fun : forall y m line im im', usable (e_tables E) (e_excluded E) y m line im -> usable (e_tables E) (e_excluded E) y m line im' -> im = im'.
Proof. intros y m line im im' [A _] [B _]. congruence. Qed.
Lemma read_lines_apart : forall year month y m bg id lines st d st' d', humidity_only (e_hum E) -> read_lines E year month y m bg lines st d = Ok (st', d') ->
  exists reps, d' = fold_left deck_append reps d /\ forall ims, read_off (of_ship E id y m) lines ims -> Forall2 (prepared year month y m) ims (filter (is_id id) reps).
Proof.
  intros year month y m bg id lines st d st' d' HUM. revert st d st' d'. induction lines as [|line lines IH]; intros st d st' d' H; cbn [read_lines] in H.
  - injection H as <- <-. exists []. split; [reflexivity|]. intros ims R. inversion R; subst. constructor.
  - step H. pose proof (accept_spec E _ _ _ _ X) as A. destruct y0 as [im|].
    + step H. destruct y0 as [st1 r]. destruct (prepare_alone _ _ _ _ _ _ _ _ _ X0) as [-> P]. destruct (IH _ _ _ _ H) as [reps [D F]]. exists (r :: reps). split; [exact D|].
      pose proof (prepared_id _ _ _ _ _ _ HUM (ex_intro _ line A) P) as T. intros ims R. cbn [filter]. inversion R; subst.
      * destruct H2 as [U V]. pose proof (usable_fun _ _ _ _ _ A U). subst im0. rewrite (proj2 (is_id_iff id r) (text_field_fun _ _ _ _ T V)). constructor; auto.
      * destruct (is_id id r) eqn:I; [|auto]. apply is_id_iff in I. exfalso. apply (H2 im). split; [exact A|]. rewrite <- I. exact T.
    + destruct (IH _ _ _ _ H) as [reps [D F]]. exists reps. split; [exact D|]. intros ims R. inversion R; subst; [|auto]. destruct H2 as [U _]. exfalso. exact (A _ U).
Qed.
Lemma read_window_apart : forall year month id window st d st' d', humidity_only (e_hum E) -> read_window E year month window st d = Ok (st', d') ->
  exists parts, d' = fold_left deck_append (concat parts) d /\
    Forall2 (fun ym reps => forall ims, records (of_ship E id (fst ym) (snd ym)) (e_lines E (fst ym) (snd ym)) ims -> Forall2 (prepared year month (fst ym) (snd ym)) ims (filter (is_id id) reps)) window parts.
Proof.
  intros year month id window st d st' d' HUM. revert st d st' d'. induction window as [|[y m] window IH]; intros st d st' d' H; cbn [read_window] in H.
  - injection H as <- <-. exists []. split; [reflexivity|constructor].
  - step H. destruct (e_lines E y m) as [lines|] eqn:L.
    + step H. destruct y1 as [st1 d1]. destruct (read_lines_apart _ _ _ _ _ id _ _ _ _ _ HUM X0) as [reps [D F]]. destruct (IH _ _ _ _ H) as [parts [D' F']].
      exists (reps :: parts). split; [cbn [concat]; now rewrite fold_left_app, <- D|]. constructor; [|exact F']. cbn [fst snd]. rewrite L. exact F.
    + destruct (IH _ _ _ _ H) as [parts [D' F']]. exists ([] :: parts). split; [exact D'|]. constructor; [|exact F']. cbn [fst snd]. rewrite L. cbn [records]. intros ims ->. constructor.
Qed.
Lemma prepared_fun : forall year month y m ims a b, Forall2 (prepared year month y m) ims a -> Forall2 (prepared year month y m) ims b -> a = b.
Proof.
  intros year month y m ims a b A. revert b. induction A as [|im r ims a P A IH]; intros b B; inversion B; subst; [reflexivity|]. f_equal; [|auto]. unfold prepared in *. congruence.
Qed.
End Env.

(* ---- neighbours ---- *)
Lemma same_but_refl : forall K r, same_but K r r.
Proof. intros K r. unfold same_but. auto 10. Qed.
Lemma same_but_trans : forall K a b c, same_but K a b -> same_but K b c -> same_but K a c.
Proof. intros K a b c [A1 [A2 [A3 [A4 [A5 [A6 A7]]]]]] [B1 [B2 [B3 [B4 [B5 [B6 B7]]]]]]. unfold same_but. repeat (split; [congruence|]). intros t f N. now rewrite B7, A7. Qed.
Lemma same_but_sym : forall K a b, same_but K a b -> same_but K b a.
Proof. intros K a b [A1 [A2 [A3 [A4 [A5 [A6 A7]]]]]]. unfold same_but. repeat (split; [congruence|]). intros t f N. now rewrite A7. Qed.
Lemma same_but_incl : forall K K' a b, incl K K' -> same_but K a b -> same_but K' a b.
Proof. intros K K' a b I [A1 [A2 [A3 [A4 [A5 [A6 A7]]]]]]. unfold same_but. repeat (split; [assumption|]). intros t f N. apply A7. auto. Qed.
Lemma all_trans : forall K a b c, Forall2 (same_but K) a b -> Forall2 (same_but K) b c -> Forall2 (same_but K) a c.
Proof. intros K a b c A. revert c. induction A as [|x y a b P A IH]; intros c B; inversion B; subst; constructor; eauto using same_but_trans. Qed.
Lemma all_sym : forall K a b, Forall2 (same_but K) a b -> Forall2 (same_but K) b a.
Proof. intros K a b A. induction A; constructor; auto using same_but_sym. Qed.
Lemma all_incl : forall K K' a b, incl K K' -> Forall2 (same_but K) a b -> Forall2 (same_but K') a b.
Proof. intros K K' a b I A. induction A; constructor; eauto using same_but_incl. Qed.
Lemma set_qc_same : forall r t f x r', set_qc r t f x = Ok r' -> same_but [(t ++ f)%string] r r'.
Proof.
  intros r t f x r' H. pose proof (set_qc_frame _ _ _ _ _ H) as [A1 [A2 [A3 [A4 [A5 [_ A7]]]]]]. unfold set_qc, py_assert in H. destruct ((0 <=? x) && (x <=? 9))%bool; [|discriminate]. destruct (mem t special_qc_types || mem t VARLIST)%bool; [|discriminate].
  injection H as <-. unfold same_but. repeat (split; [reflexivity|]). exact A7.
Qed.
Lemma flag_reports_same : forall f t g verdict b l l', flag_reports f t g verdict b l = Ok l' -> Forall2 (same_but [(t ++ g)%string]) l l'.
Proof.
  intros f t g verdict b. induction l as [|r l IH]; intros l' H; cbn [flag_reports] in H; [injection H as <-; constructor|].
  step H. step H. injection H as <-. constructor; [|apply IH; reflexivity]. step X; [step X; step X; step X|]; eapply set_qc_same, X.
Qed.
Lemma mds_same : forall E name sd par f l l', mds E name sd par f l = Ok l' -> Forall2 (same_but [(name ++ "bud")%string]) l l'.
Proof. intros E name sd par f l l' H. unfold mds, mds_buddy_check in H. step H. step H. step H. eapply flag_reports_same, H. Qed.
Lemma bayes_same : forall E name lim f l l', bayes E name lim f l = Ok l' -> Forall2 (same_but [(name ++ "bbud")%string]) l l'.
Proof. intros E name lim f l l' H. unfold bayes, bayesian_buddy_check in H. step H. step H. step H. eapply flag_reports_same, H. Qed.
Lemma buddy_same : forall E l l', buddy_checks E l = Ok l' -> Forall2 (same_but buddy_keys) l l'.
Proof.
  intros E l l' H. unfold buddy_checks in H. do 7 step H.
  eapply all_trans; [eapply all_incl; [|eapply bayes_same, X]; unfold incl, buddy_keys; cbn [In append]; tauto|].
  eapply all_trans; [eapply all_incl; [|eapply mds_same, X0]; unfold incl, buddy_keys; cbn [In append]; tauto|].
  eapply all_trans; [eapply all_incl; [|eapply bayes_same, X1]; unfold incl, buddy_keys; cbn [In append]; tauto|].
  eapply all_trans; [eapply all_incl; [|eapply mds_same, X2]; unfold incl, buddy_keys; cbn [In append]; tauto|].
  eapply all_trans; [eapply all_incl; [|eapply mds_same, X4]; unfold incl, buddy_keys; cbn [In append]; tauto|].
  eapply all_incl; [|eapply mds_same, H]. unfold incl, buddy_keys. cbn [In append]. tauto.
Qed.

(* ---- the whole ---- *)
Lemma filter_parts : forall id parts, filter (is_id id) (concat parts) = concat (map (filter (is_id id)) parts).
Proof. intros id. induction parts as [|p parts IH]; [reflexivity|]. cbn [concat map]. now rewrite filter_app, IH. Qed.
(** The ship's reports after the ship checks follow from its reports before. *)
Lemma ships_apart : forall E f reps ids reps' E' reps2 ids2 reps2' id, (forall v, ship_checks E' v = ship_checks E v) -> e_sphere E' = e_sphere E ->
  index_ok reps ids -> all_ships E f ids reps = Ok reps' -> index_ok reps2 ids2 -> all_ships E' f ids2 reps2 = Ok reps2' ->
  filter (is_id id) reps = filter (is_id id) reps2 -> filter (is_id id) reps' = filter (is_id id) reps2'.
Proof.
  intros E f reps ids reps' E' reps2 ids2 reps2' id SC SP I H I2 H2 Q.
  assert (FR : forall E0 r i r', index_ok r i -> all_ships E0 f i r = Ok r' -> Forall2 (fun a b => r_id b = r_id a) r r').
  { intros E0 r i r' IX X. assert (F : frames ship_keys r r'). { eapply all_ships_frame, X. destruct IX as [_ [IX _]]. apply Forall_forall. intros [j l] J. cbn [snd]. rewrite (IX _ _ J). unfold positions. apply NoDup_filter, seq_NoDup. }
    clear - F. induction F as [|a b l l' [A _] F IH]; constructor; auto. }
  pose proof (FR _ _ _ _ I H) as F1. pose proof (FR _ _ _ _ I2 H2) as F2. destruct (ships_placed E f _ _ _ I H) as [S1 K1]. destruct (ships_placed E' f _ _ _ I2 H2) as [S2 K2].
  destruct (filter (is_id id) reps) as [|r0 rest] eqn:FE.
  - assert (Z : forall a b, Forall2 (fun x y : report => r_id y = r_id x) a b -> filter (is_id id) a = [] -> filter (is_id id) b = []).
    { intros a b F N. pose proof (Forall2_filter id _ _ _ (fun x y (G : r_id y = r_id x) => G) F) as G. rewrite N in G. now inversion G. }
    rewrite (Z _ _ F1 FE), (Z _ _ F2 (eq_sym Q)). reflexivity.
  - assert (J1 : In r0 reps /\ r_id r0 = id). { assert (J : In r0 (filter (is_id id) reps)) by (rewrite FE; now left). apply filter_In in J. destruct J as [J G]. apply is_id_iff in G. auto. }
    assert (J2 : In r0 reps2). { assert (J : In r0 (filter (is_id id) reps2)) by (rewrite <- Q; now left). apply filter_In in J. tauto. }
    destruct J1 as [J1 RI]. destruct (S1 r0 J1) as [sub [v [v' [P [A C]]]]]. destruct (S2 r0 J2) as [sub2 [v2 [v2' [P2 [A2 C2]]]]]. rewrite RI in P, P2.
    apply placed_filter in P; [|exact F1]. apply placed_filter in P2; [|exact F2]. rewrite FE in P. rewrite <- Q in P2.
    pose proof (placed_subs _ _ _ _ _ P _ _ _ P2). subst sub2. rewrite SP, A in A2. injection A2 as <-. rewrite SC, C in C2. injection C2 as <-.
    assert (W : forall a b, Forall2 (fun x y : report => r_id y = r_id x) a b -> Forall2 (fun x y => test_report f x <> 0 -> y = x) a b -> Forall2 (fun x y => ~ test_report f x = 0 -> y = x) (filter (is_id id) a) (filter (is_id id) b)).
    { intros a b F K. assert (B : Forall2 (fun x y => r_id y = r_id x /\ (test_report f x <> 0 -> y = x)) a b) by (clear - F K; induction F; inversion K; subst; constructor; auto).
      pose proof (Forall2_filter id _ _ _ (fun x y (G : r_id y = r_id x /\ _) => proj1 G) B) as G. clear - G. induction G as [|x y l l' [_ G] F IH]; constructor; auto. }
    pose proof (W _ _ F1 K1) as W1. pose proof (W _ _ F2 K2) as W2. rewrite FE in W1. rewrite <- Q in W2. exact (placed_same _ _ _ _ _ P _ P2 W1 W2).
Qed.
