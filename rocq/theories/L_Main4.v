(** Lemmas about the main program: reading the window of a month, one ship after the other. *)
Require Import String Ascii ZArith QArith Qround List Bool Lia Sorted Permutation.
Require Import Verif.M_Base Verif.L_Base Verif.M_Calendar Verif.S_Calendar Verif.L_Calendar Verif.P_Calendar Verif.M_Checks Verif.M_Report Verif.S_Report Verif.L_Report Verif.L_Report2 Verif.L_Report3
  Verif.M_Imma Verif.M_Grid Verif.M_Voyage Verif.M_Track Verif.M_Buddy Verif.M_BaseQC Verif.S_BaseQC Verif.P_BaseQC Verif.M_Print Verif.S_Print Verif.L_Print Verif.P_Print Verif.M_Main Verif.S_Hum Verif.S_Main
  Verif.L_Main Verif.L_Main2 Verif.L_Main3.
Import ListNotations.
Open Scope string_scope.
Open Scope list_scope.
Open Scope Z_scope.

Lemma window_spec : forall y m, 1 <= m <= 12 -> window_of y m = Ok [last_month_was y m; (y, m); next_month_is y m].
Proof.
  intros y m M. unfold window_of. destruct (C04_last_month y m M) as [A B]. destruct (C04_next_month y m M) as [C D].
  destruct (last_month_was y m) as [ly lm] eqn:EL. destruct (next_month_is y m) as [ny nm] eqn:EN. unfold ym_ok, month_number in *. cbn [fst snd] in *.
  destruct (C05_year_month_gen ly lm ny nm 2 A C) as [l [G [L [I S]]]]; [unfold month_number; cbn [fst snd]; lia|lia|].
  rewrite G. cbn [bind]. f_equal. unfold month_number in *. cbn [fst snd] in *.
  destruct l as [|[a1 a2] [|[b1 b2] [|[c1 c2] [|? ?]]]]; cbn [length] in L; try lia.
  assert (IA := proj1 (I (a1, a2)) ltac:(cbn; tauto)). assert (IB := proj1 (I (b1, b2)) ltac:(cbn; tauto)). assert (IC := proj1 (I (c1, c2)) ltac:(cbn; tauto)).
  unfold ym_ok in IA, IB, IC. cbn [fst snd] in *. inversion S as [|? ? S1 F1]. inversion S1 as [|? ? S2 F2]. subst. inversion F1 as [|? ? F11 F12]. inversion F2 as [|? ? F21 F22]. subst. cbn [fst snd] in *.
  repeat f_equal; lia.
Qed.

Section Reading.
Variable E : setup.
Hypothesis HUM : humidity_only (e_hum E).

Lemma read_lines_spec : forall year month y m bg lines st d st' d', read_lines E year month y m bg lines st d = Ok (st', d') ->
  exists ims reps, read_off (usable (e_tables E) (e_excluded E) y m) lines ims /\ Forall2 (ready E year month y m) ims reps /\ d' = fold_left deck_append reps d.
Proof.
  intros year month y m bg. induction lines as [|line lines IH]; intros st d st' d' H; cbn [read_lines] in H.
  - injection H as <- <-. exists [], []. repeat split; constructor.
  - step H. pose proof (accept_spec _ _ _ _ _ X) as A. destruct y0 as [im|].
    + step H. destruct y0 as [st1 r]. destruct (IH _ _ _ _ H) as [ims [reps [P [Q R]]]]. exists (im :: ims), (r :: reps). split; [now constructor|]. split; [|exact R].
      constructor; [|exact Q]. eapply prepare_ready; eassumption.
    + destruct (IH _ _ _ _ H) as [ims [reps [P [Q R]]]]. exists ims, reps. split; [now constructor|]. auto.
Qed.
Lemma read_window_spec : forall year month window st d st' d', read_window E year month window st d = Ok (st', d') ->
  exists parts, Forall2 (fun ym reps => exists ims, records (usable (e_tables E) (e_excluded E) (fst ym) (snd ym)) (e_lines E (fst ym) (snd ym)) ims /\
    Forall2 (ready E year month (fst ym) (snd ym)) ims reps) window parts /\ d' = fold_left deck_append (concat parts) d.
Proof.
  intros year month. induction window as [|[y m] window IH]; intros st d st' d' H; cbn [read_window] in H.
  - injection H as <- <-. exists []. split; [constructor|reflexivity].
  - step H. destruct (e_lines E y m) as [lines|] eqn:L.
    + step H. destruct y1 as [st1 d1]. destruct (read_lines_spec _ _ _ _ _ _ _ _ _ _ X0) as [ims [reps [A [B C]]]]. destruct (IH _ _ _ _ H) as [parts [P Q]].
      exists (reps :: parts). split; [constructor; [|exact P]; exists ims; cbn [fst snd]; rewrite L; split; assumption|]. cbn [concat]. now rewrite fold_left_app, <- C.
    + destruct (IH _ _ _ _ H) as [parts [P Q]]. exists ([] :: parts). split; [|exact Q]. constructor; [|exact P]. exists []. cbn [fst snd]. rewrite L. split; [reflexivity|constructor].
Qed.

(* ---- one ship after the other ---- *)

Lemma nth_update_err : forall (v : list report) i x, (i < length v)%nat -> nth_error (update_nth i x v) i = Some x.
Proof. induction v as [|y v IH]; intros [|i] x L; cbn in *; try lia; [reflexivity|]. apply IH. lia. Qed.
Lemma put_back_other : forall l v reps i, ~ In i l -> nth_error (put_back l v reps) i = nth_error reps i.
Proof.
  induction l as [|j l IH]; intros [|r v] reps i N; cbn [put_back]; try reflexivity. rewrite IH by (intro; apply N; now right). apply update_nth_other. intros ->. apply N. now left.
Qed.
Lemma put_back_same : forall l v reps, NoDup l -> length v = length l -> (forall i, In i l -> (i < length reps)%nat) ->
  Forall2 (fun i r => nth_error (put_back l v reps) i = Some r) l v.
Proof.
  induction l as [|j l IH]; intros [|r v] reps N L B; cbn in L; try discriminate; constructor.
  - cbn [put_back]. inversion N; subst. rewrite put_back_other by assumption. apply nth_update_err, B. now left.
  - cbn [put_back]. inversion N; subst. apply IH; [assumption|lia|]. intros i I. rewrite update_length. apply B. now right.
Qed.
Lemma put_back_length : forall l v reps, length (put_back l v reps) = length reps.
Proof. induction l as [|j l IH]; intros [|r v] reps; cbn [put_back]; try reflexivity. now rewrite IH, update_length. Qed.
Lemma pick_ext : forall f l reps reps', (forall i, In i l -> nth_error reps' i = nth_error reps i) -> M_Report.pick f reps' l = M_Report.pick f reps l.
Proof.
  intros f. induction l as [|i l IH]; intros reps reps' H; [reflexivity|]. cbn [M_Report.pick]. rewrite (H i) by now left. rewrite (IH reps reps') by (intros j J; apply H; now right). reflexivity.
Qed.
Lemma tpick_ext : forall l reps reps', (forall i, In i l -> nth_error reps' i = nth_error reps i) -> M_Track.pick reps' l = M_Track.pick reps l.
Proof.
  induction l as [|i l IH]; intros reps reps' H; [reflexivity|]. unfold M_Track.pick in *. cbn [mapM]. assert (EV : vget reps' i = vget reps i) by (unfold vget; now rewrite (H i) by now left). rewrite EV, (IH reps reps') by (intros j J; apply H; now right). reflexivity.
Qed.
Definition ship_done (f : qc_filter) (reps reps' : list report) (l : list nat) : Prop :=
  exists sel sub v v', M_Report.pick f reps l = Ok sel /\ M_Track.pick reps sel = Ok sub /\ add_reports (e_sphere E) [] sub = Ok v /\ ship_checks E v = Ok v' /\
    Forall2 (fun i r => nth_error reps' i = Some r) sel v' /\ (forall i, In i l -> ~ In i sel -> nth_error reps' i = nth_error reps i).
Lemma forall2_nth_len : forall (reps : list report) l sub, Forall2 (fun i r => nth_error reps i = Some r) l sub -> length sub = length l /\ (forall i, In i l -> (i < length reps)%nat).
Proof.
  intros reps l sub H. induction H as [|i r l sub N H [A B]]; [split; [reflexivity|intros i []]|]. split; [cbn; congruence|].
  intros j [<-|J]; [|now apply B]. apply nth_error_Some. congruence.
Qed.
Lemma all_ships_spec : forall f ids reps reps', all_ships E f ids reps = Ok reps' -> NoDup (concat (map snd ids)) ->
  length reps' = length reps /\
  (forall i, ~ In i (concat (map snd ids)) -> nth_error reps' i = nth_error reps i) /\
  (forall id l, In (id, l) ids -> ship_done f reps reps' l).
Proof.
  intros f. induction ids as [|[id l] ids IH]; intros reps reps' H N; cbn [all_ships] in H.
  - apply ok_inj in H. subst. repeat split. intros id l [].
  - cbn [map snd concat] in N. assert (ND : NoDup l /\ NoDup (concat (map snd ids)) /\ (forall i, In i l -> ~ In i (concat (map snd ids)))).
    { clear - N. induction l as [|x l IH]; cbn in N; [repeat split; auto; constructor|]. inversion N; subst. destruct (IH H2) as [A [B C]]. rewrite in_app_iff in H1.
      repeat split; auto; [constructor; tauto|]. intros i [<-|I]; [tauto|now apply C]. }
    destruct ND as [N1 [N2 N3]]. step H. destruct y as [sel v]. step H. rename y into v'. destruct (IH _ _ H N2) as [L [O S]].
    unfold voyage_of in X. do 3 step X. apply ok_inj in X. injection X as -> ->.
    destruct (picked_sub _ _ _ _ X1) as [P1 P2]. specialize (P2 N1). pose proof (pick_nth _ _ _ X2) as F. destruct (forall2_nth_len _ _ _ F) as [FL FB].
    assert (LV : length v' = length sel).
    { rewrite (frames_length _ _ _ (ship_checks_frame E _ _ X0)). rewrite (frames_length [] _ _ (add_reports_frame _ _ _ _ X3 [] [] (Forall2_nil _))). exact FL. }
    split; [now rewrite L, put_back_length|]. split; [|intros id' l' [I|I]].
    + intros i I. cbn [map snd concat] in I. rewrite in_app_iff in I. rewrite O by tauto. apply put_back_other. intro J. apply I. left. now apply P1.
    + injection I as <- <-. exists sel, y0, v, v'. repeat split; auto.
      * pose proof (put_back_same sel v' reps P2 LV FB) as Q. clear - Q O N3 P1. assert (K : forall i, In i sel -> nth_error reps' i = nth_error (put_back sel v' reps) i) by (intros i I; apply O, N3, P1, I).
        revert Q K. generalize (put_back sel v' reps). intros w. clear. intros Q K. induction Q as [|i r s v A Q IH]; [constructor|]. constructor; [rewrite K by (now left); exact A|]. apply IH. intros j J. apply K. now right.
      * intros i I J. rewrite O by (now apply N3). now apply put_back_other.
    + assert (D : forall i, In i l' -> ~ In i l) by (intros i I' J; apply (N3 i J), in_concat; exists l'; split; [apply in_map_iff; now exists (id', l')|exact I']).
      assert (EQ : forall i, In i l' -> nth_error (put_back sel v' reps) i = nth_error reps i) by (intros i I'; apply put_back_other; intro J; exact (D i I' (P1 i J))).
      destruct (S id' l' I) as [sel' [sub' [w [w' [A [B [C [D' [G K]]]]]]]]]. exists sel', sub', w, w'. rewrite (pick_ext f l' reps _ EQ) in A. destruct (picked_sub _ _ _ _ A) as [Q1 _].
      rewrite (tpick_ext sel' reps) in B by (intros i I'; apply EQ, Q1, I'). repeat split; auto. intros i I' J. rewrite K by assumption. now apply EQ.
Qed.

(* positions and sublists *)
Lemma placed_index : forall (P : report -> Prop) (b : report -> bool), (forall r, b r = true <-> P r) ->
  forall l l' pre pre', length pre = length pre' -> length l' = length l -> forall sel sub sub',
  sel = filter (fun i => match nth_error (pre ++ l) i with Some r => b r | None => false end) (seq (length pre) (length l)) ->
  Forall2 (fun i r => nth_error (pre ++ l) i = Some r) sel sub -> Forall2 (fun i r => nth_error (pre' ++ l') i = Some r) sel sub' ->
  placed P l l' sub sub'.
Proof.
  intros P b B. induction l as [|r l IH]; intros [|r' l'] pre pre' LP LL sel sub sub' SE F F'; cbn in LL; try discriminate.
  - cbn in SE. subst sel. inversion F; inversion F'; subst. constructor.
  - cbn [length seq filter] in SE. assert (N : nth_error (pre ++ r :: l) (length pre) = Some r) by (rewrite nth_error_app2, Nat.sub_diag by lia; reflexivity).
    assert (N' : nth_error (pre' ++ r' :: l') (length pre) = Some r') by (rewrite LP, nth_error_app2, Nat.sub_diag by lia; reflexivity).
    rewrite N in SE. replace (pre ++ r :: l) with ((pre ++ [r]) ++ l) in * by (rewrite <- app_assoc; reflexivity). replace (pre' ++ r' :: l') with ((pre' ++ [r']) ++ l') in * by (rewrite <- app_assoc; reflexivity).
    replace (S (length pre)) with (length (pre ++ [r])) in SE by (rewrite app_length; cbn; lia). destruct (b r) eqn:BR.
    + subst sel. inversion F; subst. inversion F'; subst. assert (y = r) by congruence. assert (y0 = r') by congruence. subst. apply placed_yes; [now apply B|].
      eapply (IH l' (pre ++ [r]) (pre' ++ [r'])); [rewrite !app_length; cbn; lia|lia|reflexivity|assumption|assumption].
    + apply placed_no; [intro C; apply B in C; congruence|]. eapply (IH l' (pre ++ [r]) (pre' ++ [r'])); [rewrite !app_length; cbn; lia|lia|exact SE|exact F|exact F'].
Qed.

Lemma groups_disjoint : forall reps ids, index_ok reps ids -> NoDup (concat (map snd ids)).
Proof.
  intros reps ids [N [P _]]. induction ids as [|[id l] ids IH]; [constructor|]. cbn [map snd fst concat] in *. inversion N; subst. apply NoDup_app_disj.
  - rewrite (P id l (or_introl eq_refl)). apply NoDup_filter, seq_NoDup.
  - apply IH; [assumption|]. intros id' l' I. apply P. now right.
  - intros i I J. apply in_concat in J. destruct J as [l' [J K]]. apply in_map_iff in J. destruct J as [[id' l''] [Z J]]. cbn in Z. subst l''.
    rewrite (P id l (or_introl eq_refl)) in I. rewrite (P id' l' (or_intror J)) in K. apply In_positions in I. apply In_positions in K.
    destruct I as [r [A B]], K as [r' [A' B']]. assert (r = r') by congruence. subst r'. apply H1. apply in_map_iff. exists (id', l'). split; [cbn; congruence|exact J].
Qed.
Lemma filter_filter : forall A (f g : A -> bool) l, filter f (filter g l) = filter (fun x => g x && f x) l.
Proof. induction l as [|x l IH]; [reflexivity|]. cbn. destruct (g x); cbn; [destruct (f x)|]; now rewrite IH. Qed.
Lemma ships_placed : forall f reps ids reps', index_ok reps ids -> all_ships E f ids reps = Ok reps' ->
  (forall r, In r reps -> exists sub v v', placed (fun r' => r_id r' = r_id r /\ test_report f r' = 0) reps reps' sub v' /\ add_reports (e_sphere E) [] sub = Ok v /\ ship_checks E v = Ok v') /\
  Forall2 (fun r r' => test_report f r <> 0 -> r' = r) reps reps'.
Proof.
  intros f reps ids reps' IX H. destruct (all_ships_spec _ _ _ _ H (groups_disjoint _ _ IX)) as [L [O S]]. pose proof IX as [N [P M]].
  assert (LIM : forall id l, In (id, l) ids -> forall i, In i l -> (i < length reps)%nat).
  { intros id l I i J. rewrite (P id l I) in J. apply In_positions in J. destruct J as [r [J _]]. apply nth_error_Some. congruence. }
  split.
  - intros r I. specialize (M r I). apply in_map_iff in M. destruct M as [[id l] [Z J]]. cbn in Z. subst id. destruct (S _ _ J) as [sel [sub [v [v' [A [B [C [D [F K]]]]]]]]].
    exists sub, v, v'. split; [|auto]. rewrite (pick_spec f reps l (LIM _ _ J)) in A. apply ok_inj in A. rewrite (P _ _ J) in A. unfold positions in A. rewrite filter_filter in A.
    assert (BP : forall r', id_eqb (r_id r') (r_id r) && (test_report f r' =? 0) = true <-> r_id r' = r_id r /\ test_report f r' = 0) by (intro r'; rewrite andb_true_iff, id_eqb_eq, Z.eqb_eq; tauto).
    eapply (placed_index (fun r' => r_id r' = r_id r /\ test_report f r' = 0) (fun r' => id_eqb (r_id r') (r_id r) && (test_report f r' =? 0)) BP reps reps' [] [] eq_refl L sel); [|exact (pick_nth _ _ _ B)|exact F].
    rewrite <- A. apply filter_ext. intro i. unfold has_id, passes. cbn [app]. destruct (nth_error reps i); reflexivity.
  - assert (Q : forall i r r', nth_error reps i = Some r -> nth_error reps' i = Some r' -> test_report f r <> 0 -> r' = r).
    { intros i r r' A B T. specialize (M r (nth_error_In _ _ A)). apply in_map_iff in M. destruct M as [[id l] [Z J]]. cbn in Z. subst id. destruct (S _ _ J) as [sel [sub [v [v' [A' [_ [_ [_ [_ K]]]]]]]]].
      assert (X : nth_error reps' i = nth_error reps i); [|congruence]. apply K.
      - rewrite (P _ _ J). apply In_positions. eauto.
      - rewrite (pick_spec f reps l (LIM _ _ J)) in A'. apply ok_inj in A'. rewrite <- A'. rewrite filter_In. intros [_ Y]. unfold passes in Y. rewrite A in Y. apply Z.eqb_eq in Y. contradiction. }
    clear - Q L. revert reps' Q L. induction reps as [|r reps IH]; intros [|r' reps'] Q L; cbn in L; try discriminate; constructor; [intro; apply (Q 0%nat r r'); auto|].
    apply IH; [|lia]. intros i. apply (Q (S i)).
Qed.
End Reading.

(* ---- what the output shows ---- *)

Lemma frame_getvar : forall K r r' n, frame K r r' -> ~ In n motion -> getvar r' n = getvar r n.
Proof. intros K r r' n [_ [_ [D [_ [_ [X _]]]]]] N. unfold getvar. now rewrite D, (X n N). Qed.
Lemma frame_made : forall K im r r', frame K r r' -> made_from im r -> made_from im r'.
Proof.
  intros K im r r' F [A [B [C [D G]]]]. assert (V : forall n, In n VARLIST -> getvar r' n = getvar r n) by (intros n I; apply (frame_getvar K); [exact F|]; intro J; cbn in J; repeat (destruct J as [<-|J]; [apply mem_In in I; discriminate|]); contradiction).
  assert (L : forall n, mem n VARLIST = true -> getvar r' n = getvar r n) by (intros n I; apply V, mem_In, I). destruct F as [F1 [F2 _]]. unfold made_from, hour_repaired. rewrite F1, F2.
  rewrite !L by reflexivity. repeat split; auto. intros n I J. rewrite V by exact I. now apply C.
Qed.
Lemma last_month_other : forall y m, 1 <= m <= 12 -> last_month_was y m <> (y, m).
Proof. intros y m M H. destruct (C04_last_month y m M) as [_ K]. rewrite H in K. lia. Qed.
Lemma next_month_other : forall y m, 1 <= m <= 12 -> next_month_is y m <> (y, m).
Proof. intros y m M H. destruct (C04_next_month y m M) as [_ K]. rewrite H in K. lia. Qed.
Lemma picked_all : forall P l, Forall P l -> picked P l l.
Proof. intros P l H. induction H; constructor; assumption. Qed.
Lemma picked_none : forall P l, Forall (fun r => ~ P r) l -> picked P l [].
Proof. intros P l H. induction H; [constructor|]. now apply pick_no. Qed.
Lemma picked_app : forall P a b a' b', picked P a a' -> picked P b b' -> picked P (a ++ b) (a' ++ b').
Proof. intros P a b a' b' A B. induction A; cbn [app]; try constructor; auto. Qed.
