(** Order of the ships, background fields, what stops the program. *)
Require Import String Ascii ZArith QArith Qround List Bool Lia Sorted Permutation.
Require Import Verif.M_Base Verif.L_Base Verif.M_Calendar Verif.S_Calendar Verif.L_Calendar Verif.P_Calendar Verif.M_Checks Verif.M_Report Verif.S_Report Verif.L_Report Verif.L_Report2 Verif.L_Report3
  Verif.M_Imma Verif.M_Grid Verif.M_Voyage Verif.M_Track Verif.M_Buddy Verif.M_BaseQC Verif.S_BaseQC Verif.P_BaseQC Verif.M_Print Verif.S_Print Verif.L_Print Verif.P_Print Verif.M_Main Verif.S_Hum Verif.S_Main
  Verif.L_Main Verif.L_Main2 Verif.L_Main3 Verif.L_Main4 Verif.L_Main5.
Import ListNotations.
Open Scope string_scope.
Open Scope list_scope.
Open Scope Z_scope.

(* ---- the order of the ships does not matter ---- *)

Lemma update_comm : forall (v : list report) i j a b, i <> j -> update_nth i a (update_nth j b v) = update_nth j b (update_nth i a v).
Proof. induction v as [|x v IH]; intros [|i] [|j] a b N; cbn; try reflexivity; try congruence. f_equal. apply IH. congruence. Qed.
Lemma put_back_update : forall l v reps i a, ~ In i l -> put_back l v (update_nth i a reps) = update_nth i a (put_back l v reps).
Proof.
  induction l as [|j l IH]; intros [|r v] reps i a N; cbn [put_back]; try reflexivity. rewrite update_comm by (intros ->; apply N; now left). apply IH. intro J. apply N. now right.
Qed.
Lemma put_back_comm : forall l v l2 v2 reps, (forall i, In i l -> ~ In i l2) -> put_back l v (put_back l2 v2 reps) = put_back l2 v2 (put_back l v reps).
Proof.
  induction l as [|i l IH]; intros [|r v] l2 v2 reps D; cbn [put_back]; try reflexivity.
  rewrite <- put_back_update by (apply D; now left). apply IH. intros k K. apply D. now right.
Qed.
Lemma concat_disjoint : forall (a b : list nat) l, NoDup (a ++ b ++ l) -> NoDup (b ++ a ++ l) /\ (forall i, In i a -> ~ In i b).
Proof.
  intros a b l N. split.
  - apply (Permutation_NoDup (l := a ++ b ++ l)); [|exact N]. rewrite !app_assoc. apply Permutation_app_tail, Permutation_app_comm.
  - intros i A B. clear - N A B. induction a as [|x a IH]; [destruct A|]. cbn in N. inversion N as [|? ? N1 N2]; subst. destruct A as [->|A]; [apply N1; rewrite !in_app_iff; auto|]. now apply IH.
Qed.
Lemma concat_skip : forall (a l : list nat), NoDup (a ++ l) -> NoDup l.
Proof. induction a as [|x a IH]; intros l N; [exact N|]. inversion N; subst. now apply IH. Qed.
Lemma voyage_put : forall E f reps l sel v l2 v2, voyage_of E f reps l = Ok (sel, v) -> (forall i, In i l -> ~ In i l2) -> voyage_of E f (put_back l2 v2 reps) l = Ok (sel, v).
Proof.
  intros E f reps l sel v l2 v2 H D. unfold voyage_of in *.
  assert (EQ : forall i, In i l -> nth_error (put_back l2 v2 reps) i = nth_error reps i) by (intros i I; apply put_back_other, D, I).
  rewrite (pick_ext f l reps _ EQ). step H. destruct (picked_sub _ _ _ _ X) as [P _]. cbn [bind]. rewrite (tpick_ext y reps) by (intros i I; apply EQ, P, I). exact H.
Qed.
Lemma voyage_put' : forall E f reps l x l2 v2, voyage_of E f (put_back l2 v2 reps) l = Ok x -> (forall i, In i l -> ~ In i l2) -> voyage_of E f reps l = Ok x.
Proof.
  intros E f reps l x l2 v2 H D. unfold voyage_of in *.
  assert (EQ : forall i, In i l -> nth_error (put_back l2 v2 reps) i = nth_error reps i) by (intros i I; apply put_back_other, D, I).
  rewrite (pick_ext f l reps _ EQ) in H. step H. destruct (picked_sub _ _ _ _ X) as [P _]. cbn [bind]. rewrite (tpick_ext y reps) in H by (intros i I; apply EQ, P, I). exact H.
Qed.
Lemma ships_perm : forall E f ids ids', Permutation ids ids' -> NoDup (concat (map snd ids)) -> forall reps reps', all_ships E f ids reps = Ok reps' -> all_ships E f ids' reps = Ok reps'.
Proof.
  intros E f ids ids' P. induction P as [|[id l] ids ids' P IH|[i1 l1] [i2 l2] ids|ids1 ids2 ids3 P1 IH1 P2 IH2]; intros N reps reps' H.
  - exact H.
  - cbn [all_ships] in *. cbn [map concat snd] in N. step H. destruct y as [sel v]. step H. cbn [bind]. rewrite X0. cbn [bind]. apply IH; [exact (concat_skip _ _ N)|exact H].
  - cbn [all_ships] in *. cbn [map concat snd] in N. destruct (concat_disjoint _ _ _ N) as [_ D].
    step H. destruct y as [sel1 v1]. step H. rename y into w1. step H. destruct y as [sel2 v2]. step H. rename y into w2.
    assert (S1 : incl sel1 l2) by (unfold voyage_of in X; do 3 step X; apply ok_inj in X; injection X as <- <-; exact (proj1 (picked_sub _ _ _ _ X3))).
    assert (D' : forall i, In i l1 -> ~ In i sel1) by (intros i I J; apply (D i (S1 i J)), I).
    pose proof (voyage_put' _ _ _ _ _ _ _ X1 D') as V2. rewrite V2. cbn [bind]. rewrite X2. cbn [bind].
    assert (S2 : incl sel2 l1) by (unfold voyage_of in V2; do 3 step V2; apply ok_inj in V2; injection V2 as <- <-; exact (proj1 (picked_sub _ _ _ _ X3))).
    rewrite (voyage_put _ _ _ _ _ _ sel2 w2 X) by (intros i I J; apply (D i I), S2, J). cbn [bind]. rewrite X0. cbn [bind].
    rewrite put_back_comm in H by (intros i I J; exact (D i (S1 i J) (S2 i I))). exact H.
  - apply IH2; [|now apply IH1]. apply (Permutation_NoDup (l := concat (map snd ids1))); [|exact N]. clear - P1. induction P1; cbn [map concat]; auto.
    + now apply Permutation_app_head.
    + rewrite !app_assoc. apply Permutation_app_tail, Permutation_app_comm.
    + eapply Permutation_trans; eassumption.
Qed.

(* ---- background fields ---- *)

Definition celsius (o : option Q) : option Q := match o with Some q => Some (q - (27315 # 100))%Q | None => None end.
(** The background of a report: the fields of the day before it, the variance of its month. *)
Definition right_background (E : setup) (y m : Z) (bg : option clim) (r : report) : Prop :=
  forall day, getint r "DY" = Some day ->
  exists sst ice v la lo o, e_ostia E (yesterday y m day) = Ok (sst, ice) /\ bg = Some v /\ lat r = Some la /\ lon r = Some lo /\
    get_value_ostia sst la lo = Ok o /\ getvar r "OSTIA" = celsius o /\ get_value_ostia ice la lo = Ok (getvar r "ICE") /\
    normal_at get_value_mds_style v r (getvar r "BGVAR").
(** The loaded fields, if any, are those of the day before the day noted, in this month. *)
Definition current (E : setup) (y m : Z) (st : loaded) : Prop :=
  match snd st with Some f => e_ostia E (yesterday y m (fst st)) = Ok f | None => True end.
Lemma background_ok : forall E y m st bg r st' r', e_tracking E = true -> 1985 <= y -> current E y m st -> (exists mo, getint r "MO" = Some mo) ->
  background E y m st bg r = Ok (st', r') -> current E y m st' /\ right_background E y m bg r' /\ same_where r r' /\ r_data r' = r_data r.
Proof.
  intros E y m st bg r st' r' T Y C [mo MO] H. unfold background in H. destruct (getint r "DY") as [day|] eqn:D.
  2: { apply ok_inj in H. injection H as <- <-. split; [exact C|]. split; [|split; [repeat split|reflexivity]]. intros day K. congruence. }
  rewrite T, (proj2 (Z.leb_le _ _) Y) in H. cbn [andb] in H. step H. rename y0 into st1.
  assert (S1 : current E y m st1 /\ fst st1 = day).
  { destruct (Z.eqb_spec day (fst st)) as [->|N]; [apply ok_inj in X; subst st1; auto|]. step X. apply ok_inj in X. subst st1. cbn. split; [|reflexivity]. unfold current. cbn [snd fst]. exact X0. }
  destruct S1 as [S1 F1]. destruct (snd st1) as [[sst ice]|] eqn:S; [|discriminate]. destruct bg as [v|]; [|discriminate].
  step H. rename y0 into x, X0 into EX. step H. rename y0 into ic, X0 into EI. step H. rename y0 into z, X0 into EZ. apply ok_inj in H. injection H as <- <-.
  split; [exact S1|]. split; [|split; [repeat split|reflexivity]].
  intros day' K. change (getint r "DY" = Some day') in K. assert (day' = day) by congruence. subst day'. unfold current in S1. rewrite S, F1 in S1.
  unfold ostia_at in EX, EI. destruct (lat r) as [la|] eqn:LA; [|discriminate]. destruct (lon r) as [lo|] eqn:LO; [|discriminate].
  exists sst, ice, v, la, lo, x. split; [exact S1|]. split; [reflexivity|]. split; [exact LA|]. split; [exact LO|]. split; [exact EX|]. split; [reflexivity|]. split.
  - change (match lat r, lon r with Some la0, Some lo0 => get_value_ostia ice la0 lo0 | _, _ => Err TypeError end = Ok ic) in EI. rewrite LA, LO in EI. exact EI.
  - left. exists la, lo, mo, day. split; [exact LA|]. split; [exact LO|]. split; [exact MO|]. split; [exact K|].
    change (match getint r "MO", getint r "DY" with Some m0, Some d0 => match lat r, lon r with Some la0, Some lo0 => get_value_mds_style v la0 lo0 m0 d0 | _, _ => if clim_date_ok m0 d0 then Err TypeError else Ok None end | _, _ => Ok None end = Ok z) in EZ.
    rewrite MO, D, LA, LO in EZ. exact EZ.
Qed.
Lemma right_keep : forall E y m bg r r', right_background E y m bg r -> same_where r r' -> (forall n, ~ In n motion -> assoc n (r_ext r') = assoc n (r_ext r)) -> right_background E y m bg r'.
Proof.
  intros E y m bg r r' R W X day D. destruct W as [A [B [M K]]]. assert (M' : getint r' "MO" = getint r "MO") by (unfold getint; now rewrite M). assert (K' : getint r' "DY" = getint r "DY") by (unfold getint; now rewrite K). clear M K. rename M' into M, K' into K. assert (LA : lat r' = lat r) by exact A. assert (LO : lon r' = lon r) by (unfold lon; now rewrite B).
  assert (G : forall n, mem n motion = false -> index_of n VARLIST = Err ValueError -> getvar r' n = getvar r n).
  { intros n N I. unfold getvar. rewrite I. now rewrite X by (now apply not_motion). }
  rewrite K in D. destruct (R day D) as [sst [ice [v [la [lo [o [R1 [R2 [R3 [R4 [R5 [R6 [R7 R8]]]]]]]]]]]]]. exists sst, ice, v, la, lo, o. rewrite !G, LA, LO by reflexivity. repeat (split; [assumption|]).
  destruct R8 as [[a [b [c [d [N1 [N2 [N3 [N4 N5]]]]]]]]|[N1 N2]]; [left; exists a, b, c, d; rewrite LA, LO, M, K; auto|right; rewrite K; auto].
Qed.

Section Back.
Variable E : setup.
Hypothesis HUM : humidity_only (e_hum E).
Lemma prepare_back : forall year month y m st bg line im st' r, e_tracking E = true -> 1985 <= y -> current E y m st -> usable (e_tables E) (e_excluded E) y m line im ->
  prepare E year month y m st bg im = Ok (st', r) -> current E y m st' /\ right_background E y m bg r.
Proof.
  intros year month y m st bg line im st' r T Y C U H. pose proof (prepare_ready E HUM _ _ _ _ _ _ _ _ _ _ U H) as R. unfold prepare in H.
  step H. rename y0 into r1, X into E1. step H. rename y0 into r2, X into E2. step H. destruct y0 as [st1 r3]. rename X into E3.
  step H. rename y0 into r4, X into E4. step H. rename y0 into r5, X into E5. step H. rename y0 into r6, X into E6.
  step H. rename y0 into r7, X into E7. step H. rename y0 into r8, X into E8. step H. rename y0 into r9, X into E9. apply ok_inj in H. injection H as <- <-.
  destruct (background_shape _ _ _ _ _ _ _ _ E3) as [ex [E3' _]].
  destruct (climate_chain _ _ _ _ _ E4 E5 E6) as [_ [cl E6']].
  destruct (HUM _ _ E7) as [[A1 [A2 [A3 [A4 [A5 [A6 A7]]]]]] A8].
  destruct (base_frame _ _ _ _ E8) as [rf [F1 F2]].
  assert (W67 : same_where r6 r7) by (repeat split; unfold getint; try (apply A7; cbn; intuition discriminate); rewrite A7; try reflexivity; cbn; intuition discriminate).
  assert (W7f : same_where r7 rf).
  { destruct (fix_shape _ _ F1) as [->|[_ [_ [_ [r' [d [S ->]]]]]]]; [repeat split|]. apply holds_setvar in S. change (same_where r7 r'). apply (holds_where _ _ _ S); cbn; intuition discriminate. }
  pose proof (frame_where _ _ _ F2) as Wf8. pose proof (frame_where _ _ _ (set_qc_frame _ _ _ _ _ E9)) as W89.
  assert (W39 : same_where r3 r9).
  { eapply same_where_trans; [|eapply same_where_trans; [exact W67|eapply same_where_trans; [exact W7f|eapply same_where_trans; [exact Wf8|exact W89]]]]. subst r6. repeat split. }
  assert (W29 : same_where r2 r9) by (eapply same_where_trans; [|exact W39]; subst r3; repeat split).
  assert (MO : getint r2 "MO" = Some m) by (destruct W29 as [_ [_ [M _]]]; unfold getint; rewrite <- M; apply (rd_month _ _ _ _ _ _ _ R)).
  destruct (background_ok E y m st bg r2 st1 r3 T Y C (ex_intro _ m MO) E3) as [C1 [B1 _]]. split; [exact C1|]. eapply right_keep; [exact B1|exact W39|].
  intros n N. destruct (set_qc_frame _ _ _ _ _ E9) as [_ [_ [_ [_ [_ [X9 _]]]]]]. rewrite X9 by exact N. destruct F2 as [_ [_ [_ [_ [_ [X8 _]]]]]]. rewrite X8 by exact N.
  assert (XF : r_ext rf = r_ext r7).
  { destruct (fix_shape _ _ F1) as [->|[_ [_ [_ [r' [d [S ->]]]]]]]; [reflexivity|]. apply setvar_shape in S. apply S. }
  rewrite XF, A4. subst r6. reflexivity.
Qed.
Lemma read_back : forall year month y m bg lines st d st' d', e_tracking E = true -> 1985 <= y -> current E y m st -> read_lines E year month y m bg lines st d = Ok (st', d') ->
  current E y m st' /\ exists ims reps, read_off (usable (e_tables E) (e_excluded E) y m) lines ims /\
    Forall2 (fun im r => made_from im r /\ right_background E y m bg r) ims reps /\ d_reps d' = d_reps d ++ reps.
Proof.
  intros year month y m bg lines st d st' d' T Y. revert st d st' d'. induction lines as [|line lines IH]; intros st d st' d' C H; cbn [read_lines] in H.
  - injection H as <- <-. split; [exact C|]. exists [], []. rewrite app_nil_r. repeat split; constructor.
  - step H. pose proof (accept_spec _ _ _ _ _ X) as A. destruct y0 as [im|].
    + step H. destruct y0 as [st1 r]. destruct (prepare_back _ _ _ _ _ _ _ _ _ _ T Y C A X0) as [C1 B]. destruct (IH _ _ _ _ C1 H) as [C2 [ims [reps [P [Q R]]]]]. split; [exact C2|].
      exists (im :: ims), (r :: reps). split; [now constructor|]. split; [|rewrite R; cbn [deck_append d_reps]; now rewrite <- app_assoc].
      constructor; [|exact Q]. split; [|exact B]. eapply rd_made, prepare_ready; eassumption.
    + destruct (IH _ _ _ _ C H) as [C2 [ims [reps [P [Q R]]]]]. split; [exact C2|]. exists ims, reps. split; [now constructor|]. auto.
Qed.

(* ---- what stops the program ---- *)

Lemma read_lines_accepts : forall year month y m bg lines st d st' d', read_lines E year month y m bg lines st d = Ok (st', d') ->
  forall line, In line lines -> exists o, accept E y m line = Ok o.
Proof.
  intros year month y m bg. induction lines as [|l lines IH]; intros st d st' d' H line I; [destruct I|]. cbn [read_lines] in H. step H. destruct I as [<-|I]; [eauto|].
  destruct y0 as [im|]; [step H; destruct y0 as [st1 r]|]; eapply IH; eassumption.
Qed.
Lemma read_window_accepts : forall year month window st d st' d', read_window E year month window st d = Ok (st', d') ->
  forall y m lines line, In (y, m) window -> e_lines E y m = Some lines -> In line lines -> exists o, accept E y m line = Ok o.
Proof.
  intros year month. induction window as [|[y0 m0] window IH]; intros st d st' d' H y m lines line I L J; [destruct I|]. cbn [read_window] in H. step H. rename y1 into bg. destruct I as [I|I].
  - injection I as -> ->. rewrite L in H. step H. destruct y0 as [st1 d1]. eapply read_lines_accepts; eassumption.
  - destruct (e_lines E y0 m0) as [l0|]; [step H; destruct y1 as [st1 d1]|]; eapply IH; eassumption.
Qed.
Lemma run_accepts : forall y m files, 1 <= m <= 12 -> run_month E y m = Ok files ->
  forall ym lines line, In ym [last_month_was y m; (y, m); next_month_is y m] -> e_lines E (fst ym) (snd ym) = Some lines -> In line lines -> exists o, accept E (fst ym) (snd ym) line = Ok o.
Proof.
  intros y m files M H [y' m'] lines line I L J. unfold run_month in H. step H. clear H. unfold checked_deck in X. rewrite (window_spec y m M) in X. cbn [bind] in X. step X. destruct y1 as [st d].
  eapply read_window_accepts; eassumption.
Qed.
Lemma read_off_in : forall y m lines ims line im, read_off (usable (e_tables E) (e_excluded E) y m) lines ims -> In line lines -> usable (e_tables E) (e_excluded E) y m line im -> In im ims.
Proof.
  intros y m lines ims line im H. induction H as [|l i lines ims U H IH|l lines ims U H IH]; intros I V; [destruct I| |].
  - destruct I as [->|I]; [|right; auto]. left. destruct U as [U _], V as [V _]. congruence.
  - destruct I as [->|I]; [destruct (U _ V)|auto].
Qed.
Lemma forall2_in_l : forall A B (P : A -> B -> Prop) l l' x, Forall2 P l l' -> In x l -> exists y, In y l' /\ P x y.
Proof. intros A B P l l' x H. induction H as [|a b l l' H F IH]; intros I; [destruct I|]. destruct I as [->|I]; [exists b; cbn; auto|]. destruct (IH I) as [y [J K]]. exists y. cbn. auto. Qed.
Lemma run_places : forall y m files, 1 <= m <= 12 -> run_month E y m = Ok files ->
  forall ym lines line im n, In ym [last_month_was y m; (y, m); next_month_is y m] -> e_lines E (fst ym) (snd ym) = Some lines -> In line lines ->
  usable (e_tables E) (e_excluded E) (fst ym) (snd ym) line im -> n = "LAT" \/ n = "LON" -> ~ number_field im n None.
Proof.
  intros y m files M H ym lines line im n I L J U NN F. unfold run_month in H. step H. clear H. destruct (deck_spec E HUM y m _ M X) as [a [b [c [after [PA [PB [PC _]]]]]]].
  assert (P : exists reps, part E y m ym reps) by (destruct I as [<-|[<-|[<-|[]]]]; eauto). destruct P as [reps [ims [R Q]]]. unfold records in R. rewrite L in R.
  pose proof (read_off_in _ _ _ _ _ _ R J U) as K. destruct (forall2_in_l _ _ _ _ _ _ Q K) as [r [_ RD]]. destruct (rd_place _ _ _ _ _ _ _ RD) as [la [lo [LA LO]]].
  destruct (rd_made _ _ _ _ _ _ _ RD) as [_ [_ [V _]]].
  assert (NF : number_field im n (getvar r n)) by (apply V; [apply mem_In; destruct NN as [-> | ->]; reflexivity|destruct NN as [-> | ->]; cbn; intuition discriminate]).
  pose proof (field_fun _ _ _ _ F NF) as Z. destruct NN as [-> | ->]; congruence.
Qed.
Lemma run_some : forall y m files, 1 <= m <= 12 -> run_month E y m = Ok files ->
  exists ym lines line im, In ym [last_month_was y m; (y, m); next_month_is y m] /\ e_lines E (fst ym) (snd ym) = Some lines /\ In line lines /\ usable (e_tables E) (e_excluded E) (fst ym) (snd ym) line im.
Proof.
  intros y m files M H. unfold run_month in H. step H. rename y0 into d. destruct (deck_done E HUM y m d M X) as [a [b [c [R [A [B C]]]]]].
  assert (N : exists ym r reps, In ym [last_month_was y m; (y, m); next_month_is y m] /\ done E y m ym (r :: reps)).
  { destruct a as [|r a]; [|exists (last_month_was y m), r, a; cbn; auto]. destruct b as [|r b]; [|exists (y, m), r, b; cbn; auto]. destruct c as [|r c]; [|exists (next_month_is y m), r, c; cbn; auto].
    rewrite R in H. cbn in H. discriminate. }
  destruct N as [ym [r [reps [I [ims [RE F]]]]]]. inversion F as [|im ? ims' ? F1 F2]; subst. clear F. unfold records in RE. destruct (e_lines E (fst ym) (snd ym)) as [lines|] eqn:L; [|discriminate].
  assert (G : forall lines ims, read_off (usable (e_tables E) (e_excluded E) (fst ym) (snd ym)) lines ims -> In im ims -> exists line, In line lines /\ usable (e_tables E) (e_excluded E) (fst ym) (snd ym) line im).
  { clear. intros lines ims H. induction H as [|l i lines ims U H IH|l lines ims U H IH]; intro I; [destruct I| |].
    - destruct I as [->|I]; [exists l; cbn; auto|]. destruct (IH I) as [x [J K]]. exists x. cbn. auto.
    - destruct (IH I) as [x [J K]]. exists x. cbn. auto. }
  destruct (G _ _ RE) as [line [J U]]; [now left|]. exists ym, lines, line, im. auto.
Qed.
End Back.
