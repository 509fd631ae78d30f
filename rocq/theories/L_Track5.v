(** Track check: theorems on voyages; repeated passes. *)
Require Import String ZArith QArith Qround List Bool Lia Lqa.
Require Import Verif.M_Base Verif.L_Base Verif.S_Calendar Verif.M_Calendar Verif.L_Calendar Verif.M_Report Verif.S_Report Verif.L_Report Verif.L_Report3 Verif.M_Voyage Verif.S_Voyage Verif.L_Voyage Verif.L_Voyage2 Verif.L_Voyage3 Verif.L_Voyage4 Verif.L_Voyage6 Verif.M_Track Verif.S_Track Verif.L_Track Verif.L_Track2 Verif.L_Track3 Verif.L_Track4.
Import ListNotations.
Open Scope string_scope.
Open Scope list_scope.
Open Scope Z_scope.

(* ---- what depends on the data only ---- *)

(** Same data, same reported speed and heading. *)
Definition data_same (r r' : report) : Prop :=
  r_id r' = r_id r /\ r_data r' = r_data r /\ getvar r' "vsi" = getvar r "vsi" /\ getvar r' "dsi" = getvar r "dsi".
Lemma data_same_sym : forall a b, data_same a b -> data_same b a.
Proof. unfold data_same. intuition. Qed.
Lemma data_same_trans : forall a b c, data_same a b -> data_same b c -> data_same a c.
Proof. intros a b c [A1 [A2 [A3 A4]]] [B1 [B2 [B3 B4]]]. unfold data_same. repeat split; congruence. Qed.
Lemma data_same_var : forall r r' n, data_same r r' -> In n VARLIST -> getvar r' n = getvar r n.
Proof. intros r r' n [_ [D _]] H. unfold getvar. destruct (index_of_In n VARLIST H) as [i [E _]]. now rewrite E, D. Qed.
Lemma data_located : forall r r' la lo d h, data_same r r' -> located r la lo d h -> located r' la lo d h.
Proof.
  intros r r' la lo d h K [A1 A2 A3 A4 A5 A6 A7 A8].
  assert (G : forall n, In n VARLIST -> getvar r' n = getvar r n) by (intros; now apply data_same_var).
  constructor; auto; unfold lat, lon, getint in *; rewrite G by (simpl; tauto); assumption.
Qed.
Lemma data_at_pos : forall r r' la lo, data_same r r' -> at_pos r la lo -> at_pos r' la lo.
Proof. intros r r' la lo K [A B]. split; rewrite (data_same_var r r') by (auto; simpl; tauto); assumption. Qed.
Lemma data_sailing : forall r r' v d, data_same r r' -> sailing r v d -> sailing r' v d.
Proof. intros r r' v d [_ [_ [K1 K2]]] [A B]. split; congruence. Qed.
Lemma data_speed : forall dist a a' b b' s, data_same a a' -> data_same b b' -> speed_from dist a b s -> speed_from dist a' b' s.
Proof.
  intros dist a a' b b' s Ka Kb [la [lo [d [h [la' [lo' [d' [h' [t [A [B [E K]]]]]]]]]]]].
  exists la, lo, d, h, la', lo', d', h', t. split; [eapply data_located; eauto|]. split; [eapply data_located; eauto|auto].
Qed.
Lemma data_faster : forall dist a a' b b' L, data_same a a' -> data_same b b' -> faster dist a b L -> faster dist a' b' L.
Proof. intros dist a a' b b' L Ka Kb [s [A B]]. exists s. split; [eapply data_speed; eauto|exact B]. Qed.
Lemma data_hours : forall a a' b b' t, data_same a a' -> data_same b b' -> hours_between a b t -> hours_between a' b' t.
Proof.
  intros a a' b b' t Ka Kb [la [lo [d [h [la' [lo' [d' [h' [A [B E]]]]]]]]]].
  exists la, lo, d, h, la', lo', d', h'. split; [eapply data_located; eauto|]. split; [eapply data_located; eauto|auto].
Qed.
Lemma Forall2_nth : forall A B (R : A -> B -> Prop) l l', Forall2 R l l' -> forall i x, nth_error l i = Some x -> exists y, nth_error l' i = Some y /\ R x y.
Proof.
  intros A B R l l' F. induction F; intros i z H1; destruct i; cbn [nth_error] in *; try discriminate.
  - injection H1 as <-. eauto.
  - eauto.
Qed.
Lemma Forall2_nth_back : forall A B (R : A -> B -> Prop) l l', Forall2 R l l' -> forall i y, nth_error l' i = Some y -> exists x, nth_error l i = Some x /\ R x y.
Proof.
  intros A B R l l' F. induction F; intros i z H1; destruct i; cbn [nth_error] in *; try discriminate.
  - injection H1 as <-. eauto.
  - eauto.
Qed.
Lemma Forall2_length : forall A B (R : A -> B -> Prop) l l', Forall2 R l l' -> length l = length l'.
Proof. intros A B R l l' F. induction F; simpl; congruence. Qed.
Lemma Forall2_of_nth : forall A B (R : A -> B -> Prop) l l', length l' = length l ->
  (forall i x, nth_error l i = Some x -> exists y, nth_error l' i = Some y /\ R x y) -> Forall2 R l l'.
Proof.
  intros A B R. induction l as [|x l IH]; intros l' L H; destruct l' as [|y l']; simpl in L; try lia; constructor.
  - destruct (H O x eq_refl) as [z [E K]]. simpl in E. now injection E as <-.
  - apply IH; [lia|]. intros i a Hi. apply (H (S i) a Hi).
Qed.
Lemma Forall2_flip' : forall A B (R : A -> B -> Prop) l l', Forall2 R l l' -> Forall2 (fun y x => R x y) l' l.
Proof. intros A B R l l' F. induction F; constructor; auto. Qed.
Lemma Forall2_impl' : forall A B (R R' : A -> B -> Prop) l l', (forall x y, R x y -> R' x y) -> Forall2 R l l' -> Forall2 R' l l'.
Proof. intros A B R R' l l' H F. induction F; constructor; auto. Qed.

Lemma data_off : forall sp dir speed absolute mid v v' amax i, Forall2 data_same v v' ->
  off_track sp dir speed absolute mid v amax i -> off_track sp dir speed absolute mid v' amax i.
Proof.
  intros sp dir speed absolute mid v v' amax i F [i' [a [b [c [Ei [A [B [C [X [Y Z]]]]]]]]]].
  assert (N : forall j r, nth_error v j = Some r -> exists r', nth_error v' j = Some r' /\ data_same r r') by (intros; eapply Forall2_nth; eauto).
  destruct (N _ _ A) as [a' [A' Ka]], (N _ _ B) as [b' [B' Kb]], (N _ _ C) as [c' [C' Kc]].
  exists i', a', b', c'. split; [exact Ei|]. do 3 (split; [assumption|]). split; [|split].
  - destruct X as [la [lo [lb [ob [lc [oc [t0 [t1 [f [X1 [X2 [X3 [X4 [X5 X6]]]]]]]]]]]]]].
    exists la, lo, lb, ob, lc, oc, t0, t1, f. split; [eapply data_at_pos; eauto|]. split; [eapply data_at_pos; eauto|]. split; [eapply data_at_pos; eauto|].
    split; [eapply data_hours; [| |exact X4]; assumption|]. split; [eapply data_hours; [| |exact X5]; assumption|exact X6].
  - destruct Y as [[Y1 [j [z [Y2 [Y3 Y4]]]]]|[[Y1 [d [Y2 Y3]]]|[Y1 Y2]]].
    + left. split; [eapply data_faster; [| |exact Y1]; assumption|]. destruct (N _ _ Y3) as [z' [Z' Kz]]. exists j, z'. split; auto. split; auto.
      eapply data_faster; [| |exact Y4]; assumption.
    + right. left. split; [eapply data_faster; [| |exact Y1]; assumption|]. destruct (N _ _ Y2) as [d' [D' Kd]]. exists d'. split; auto.
      eapply data_faster; [| |exact Y3]; assumption.
    + right. right. split; [eapply data_faster; [| |exact Y1]; assumption|eapply data_faster; [| |exact Y2]; assumption].
  - destruct Z as [Z|[Z|[Z|Z]]].
    + left. destruct Z as [va [da [vb [db [t [t' [x [y [Z1 [Z2 [Z3 [Z4 [Z5 [Z6 [Z7 Z8]]]]]]]]]]]]]]].
      exists va, da, vb, db, t, t', x, y. split; [eapply data_sailing; eauto|]. split; [eapply data_sailing; eauto|].
      split; [eapply data_hours; [| |exact Z3]; assumption|]. split; [eapply data_hours; [| |exact Z4]; assumption|]. split; [exact Z5|].
      split; [|split; [|exact Z8]].
      * destruct Z6 as [q1 [q2 [q3 [q4 [q5 [q6 [q7 [q8 [U1 [U2 [U3 [U4 U5]]]]]]]]]]]]. exists q1, q2, q3, q4, q5, q6, q7, q8.
        split; [eapply data_at_pos; eauto|]. split; [eapply data_sailing; eauto|]. split; [eapply data_at_pos; eauto|]. split; [eapply data_sailing; eauto|exact U5].
      * destruct Z7 as [q1 [q2 [q3 [q4 [q5 [q6 [q7 [q8 [U1 [U2 [U3 [U4 U5]]]]]]]]]]]]. exists q1, q2, q3, q4, q5, q6, q7, q8.
        split; [eapply data_at_pos; eauto|]. split; [eapply data_sailing; eauto|]. split; [eapply data_at_pos; eauto|]. split; [eapply data_sailing; eauto|exact U5].
    + right. left. destruct Z as [da [db [co [Z1 [Z2 [Z3 Z4]]]]]]. exists da, db, co.
      split; [destruct Ka as [_ [_ [_ K]]]; congruence|]. split; [destruct Kb as [_ [_ [_ K]]]; congruence|]. split; [|exact Z4].
      destruct Z3 as [la [lo [d [h [la' [lo' [d' [h' [W1 [W2 W3]]]]]]]]]]. exists la, lo, d, h, la', lo', d', h'.
      split; [eapply data_located; [|exact W1]; assumption|]. split; [eapply data_located; [|exact W2]; assumption|exact W3].
    + right. right. left. destruct Z as [va [vb [s [Z1 [Z2 [Z3 Z4]]]]]]. exists va, vb, s.
      split; [destruct Ka as [_ [_ [K _]]]; congruence|]. split; [destruct Kb as [_ [_ [K _]]]; congruence|].
      split; [eapply data_speed; [| |exact Z3]; assumption|exact Z4].
    + right. right. right. eapply data_faster; [| |exact Z]; assumption.
Qed.

Lemma data_limit : forall dist v v' amax, Forall2 data_same v v' -> voyage_limit dist v amax -> voyage_limit dist v' amax.
Proof.
  intros dist v v' amax F [l [m [[L K] M]]]. exists l, m. split; [|exact M]. split; [rewrite L; eapply Forall2_length; eauto|].
  intros i a b s A B S0. destruct (Forall2_nth_back _ _ _ _ _ F _ _ A) as [a' [A' Ka]], (Forall2_nth_back _ _ _ _ _ F _ _ B) as [b' [B' Kb]].
  eapply data_speed; [exact Ka|exact Kb|]. eapply K; eauto.
Qed.
Lemma Forall2_data_sym : forall v v', Forall2 data_same v v' -> Forall2 data_same v' v.
Proof. intros v v' F. eapply Forall2_impl'; [|apply Forall2_flip'; exact F]. intros x y H. now apply data_same_sym. Qed.

Lemma data_pass : forall sp v v' G, Forall2 data_same v v' -> pass sp v G -> pass sp v' G.
Proof.
  intros sp v v' G F [[A B]|[amax [A [N L]]]].
  - left. split; [|exact B]. now rewrite <- (Forall2_length _ _ _ _ _ F).
  - right. exists amax. split; [eapply data_limit; eauto|]. split; [exact N|]. intro i. rewrite L. split; intro H.
    + eapply data_off; eauto.
    + eapply data_off; [|exact H]. now apply Forall2_data_sym.
Qed.

(* ---- a voyage ready for the check ---- *)

Record ready (sp : sphere) (v : list report) : Prop := {
  rd_loc : Forall is_located v; rd_link : linked sp v; rd_spd : Forall (fun r => exists x, getext r "speed" = Ok x) v;
  rd_ord : in_time_order v; rd_head : Forall heading_known v }.

Lemma add_reports_spd : forall sp l v v', Forall (fun r => exists x, getext r "speed" = Ok x) v -> add_reports sp v l = Ok v' ->
  Forall (fun r => exists x, getext r "speed" = Ok x) v'.
Proof.
  assert (M : forall r m, exists x, getext (set_motion r m) "speed" = Ok x).
  { intros r [[[[s d] c] t]|]; unfold set_motion, getext; simpl; eauto. }
  intros sp. induction l as [|r l IH]; intros v v' H E; cbn [add_reports] in E.
  - now injection E as <-.
  - apply bind_Ok in E. destruct E as [v1 [E1 E2]]. eapply IH; [|exact E2]. unfold add_report in E1. destruct (rev v).
    + injection E1 as <-. constructor; [exact (M r None)|constructor].
    + apply bind_Ok in E1. destruct E1 as [m [_ E1]]. injection E1 as <-. apply Forall_app. split; [exact H|]. constructor; [exact (M r (Some m))|constructor].
Qed.

Lemma same_data : forall r r', same_report r r' -> data_same r r'.
Proof.
  intros r r' [A1 [A2 [A3 [A4 [A5 [A6 A7]]]]]]. split; auto. split; auto. split; apply A7; simpl; intuition discriminate.
Qed.
Lemma data_located' : forall r r', data_same r r' -> is_located r -> is_located r'.
Proof. intros r r' K [la [lo [d [h A]]]]. exists la, lo, d, h. eapply data_located; eauto. Qed.
Lemma data_heading : forall r r', data_same r r' -> heading_known r -> heading_known r'.
Proof. intros r r' [_ [_ [_ K]]] H d E. rewrite K in E. auto. Qed.
Lemma data_order : forall v v', Forall2 data_same v v' -> in_time_order v -> in_time_order v'.
Proof.
  intros v v' F H i a b t A B E. destruct (Forall2_nth_back _ _ _ _ _ F _ _ A) as [a' [A' Ka]], (Forall2_nth_back _ _ _ _ _ F _ _ B) as [b' [B' Kb]].
  apply (H i a' b' t A' B'). eapply data_hours; [| |exact E]; now apply data_same_sym.
Qed.
Lemma Forall_Forall2 : forall (P : report -> Prop) (R : report -> report -> Prop) v v', (forall a b, R a b -> P a -> P b) -> Forall2 R v v' -> Forall P v -> Forall P v'.
Proof. intros P R v v' H F. induction F; intro K; constructor; inversion K; subst; eauto. Qed.

Lemma built_ready : forall sp l v, Forall is_located l -> in_time_order l -> Forall heading_known l -> add_reports sp [] l = Ok v ->
  ready sp v /\ Forall2 same_report l v.
Proof.
  intros sp l v A B C E. destruct (build_voyage_ok sp l A) as [v' [E' [F [L _]]]]. rewrite E in E'. injection E' as <-. split; [|exact F].
  assert (FD : Forall2 data_same l v) by (eapply Forall2_impl'; [|exact F]; apply same_data).
  constructor.
  - eapply Forall_Forall2; [apply data_located'|exact FD|exact A].
  - exact L.
  - eapply add_reports_spd; [constructor|exact E].
  - eapply data_order; eauto.
  - eapply Forall_Forall2; [apply data_heading|exact FD|exact C].
Qed.

Lemma nk_trk : ~ same_key "POS" "trk" "POS" "few".
Proof. intro H. discriminate H. Qed.
Lemma nk_mds : ~ same_key "POS" "bad_track" "POS" "fewsome_check".
Proof. intro H. discriminate H. Qed.

(* ---- Voyage.track_check ---- *)

Lemma track_check_pass : forall sp p v r0 rest, v = r0 :: rest -> generic_report r0 = true \/ pt_buoy r0 = true ->
  exists v', track_check sp p v = Ok v' /\ track_result v "trk" "few" (fun _ => False) 0 v'.
Proof.
  intros sp p v r0 rest -> H. cbn [track_check]. assert (G : generic_report r0 || pt_buoy r0 = true) by (apply orb_true_iff; exact H). rewrite G.
  apply set_both_result; [exact nk_trk|lia].
Qed.
Lemma track_check_few : forall sp p v r0 rest, v = r0 :: rest -> generic_report r0 = false -> pt_buoy r0 = false -> (length v < 3)%nat ->
  exists v', track_check sp p v = Ok v' /\ track_result v "trk" "few" (fun _ => False) (if early_deck_720 r0 then 0 else 1) v'.
Proof.
  intros sp p v r0 rest -> G B L. cbn [track_check]. rewrite G, B. cbn [orb].
  rewrite (proj2 (Nat.ltb_lt _ _) L). destruct (early_deck_720 r0); apply set_both_result; try exact nk_trk; lia.
Qed.
Lemma track_check_full : forall sp p v r0 rest, well_defined sp -> ready sp v -> v = r0 :: rest -> generic_report r0 = false -> pt_buoy r0 = false -> (3 <= length v)%nat ->
  exists v' amax, track_check sp p v = Ok v' /\ voyage_limit (sp_dist sp) v amax /\
    track_result v "trk" "few" (off_track sp (tk_dir p) (tk_speed p) (tk_abs p) (tk_mid p) v amax) 0 v'.
Proof.
  intros sp p v r0 rest WD [R1 R2 R3 R4 R5] Ev G B L. 
  destruct (track_core_ok sp p v WD R1 R2 R3 R4 R5 "trk" "few" nk_trk ltac:(lia)) as [qcs [v' [amax [E [V [T _]]]]]].
  exists v', amax. split; [|split; [exact V|exact T]]. assert (NL : (length v <? 3)%nat = false) by (apply Nat.ltb_ge; exact L).
  rewrite Ev in E, NL |- *. cbn [track_check]. rewrite G, B. cbn [orb]. rewrite NL, E. reflexivity.
Qed.

(* ---- mds_track_check ---- *)

Definition mds_frame (r r' : report) : Prop := track_same (motion_names ++ alt_names) "bad_track" "fewsome_check" r r'.

Lemma frame_data : forall r r', mds_frame r r' -> data_same r r'.
Proof.
  intros r r' [A1 [A2 [A3 [A4 [A5 [A6 A7]]]]]]. split; auto. split; auto. split; apply A6; unfold motion_names, alt_names; simpl; intuition discriminate.
Qed.
Lemma frame_refl : forall r, mds_frame r r.
Proof. intro r. unfold mds_frame, track_same. intuition. Qed.
Lemma frame_trans : forall a b c, mds_frame a b -> mds_frame b c -> mds_frame a c.
Proof.
  intros a b c [A1 [A2 [A3 [A4 [A5 [A6 A7]]]]]] [B1 [B2 [B3 [B4 [B5 [B6 B7]]]]]]. unfold mds_frame, track_same.
  do 5 (split; [congruence|]). split; [intros; rewrite B6, A6; auto|intros; rewrite B7, A7; auto].
Qed.
Lemma frame_same : forall r r', same_report r r' -> mds_frame r r'.
Proof.
  intros r r' [A1 [A2 [A3 [A4 [A5 [A6 A7]]]]]]. unfold mds_frame, track_same. do 5 (split; [assumption|]). split.
  - intros n H. apply A7. intro K. apply H. apply in_or_app. left. exact K.
  - intros t f _ _. unfold get_qc. now rewrite A5.
Qed.
Lemma frame_track : forall r r', track_same alt_names "bad_track" "fewsome_check" r r' -> mds_frame r r'.
Proof.
  intros r r' [A1 [A2 [A3 [A4 [A5 [A6 A7]]]]]]. unfold mds_frame, track_same. do 5 (split; [assumption|]). split; [|exact A7].
  intros n H. apply A6. intro K. apply H. apply in_or_app. now right.
Qed.
Lemma frame_unch : forall f r r', f = "bad_track" \/ f = "fewsome_check" -> unchanged_but "POS" f r r' -> mds_frame r r'.
Proof.
  intros f r r' Hf U. pose proof U as [A1 [A2 [A3 [A4 [A5 [A6 A7]]]]]]. unfold mds_frame, track_same. do 5 (split; [assumption|]). split.
  - intros n _. eapply unch_getvar; eauto.
  - intros t g H1 H2. apply A7. destruct Hf; subst; assumption.
Qed.

Lemma right_lists : forall n (bad : nat -> Prop) qcs, length qcs = n -> (forall i q, nth_error qcs i = Some q -> right_flag bad i q) -> (forall i, bad i -> (i < n)%nat) ->
  exists G, lists bad G /\ forall i q, nth_error qcs i = Some q -> right_flag (fun i => In i G) i q.
Proof.
  intros n bad qcs L R B. set (G := filter (fun i => nth i qcs 0 =? 1) (seq 0 n)).
  assert (K : forall i, In i G <-> bad i).
  { intro i. unfold G. rewrite filter_In, in_seq. split.
    - intros [I E]. destruct (nth_error qcs i) as [q|] eqn:N; [|apply nth_error_None in N; lia].
      rewrite (nth_error_nth _ _ 0 N) in E. apply Z.eqb_eq in E. destruct (R i q N) as [[_ X]|[X _]]; [exact X|lia].
    - intro H. pose proof (B i H) as I. split; [lia|]. destruct (nth_error qcs i) as [q|] eqn:N; [|apply nth_error_None in N; lia].
      rewrite (nth_error_nth _ _ 0 N). apply Z.eqb_eq. destruct (R i q N) as [[X _]|[_ X]]; [exact X|contradiction]. }
  exists G. split; [split; [apply NoDup_filter, seq_NoDup|exact K]|]. intros i q N. destruct (R i q N) as [[X Y]|[X Y]]; [left|right]; (split; [exact X|]); now rewrite K.
Qed.
Lemma off_track_range : forall sp d s ab m v amax i, off_track sp d s ab m v amax i -> (1 <= i)%nat /\ (S i < length v)%nat.
Proof.
  intros sp d s ab m v amax i [i' [a [b [c [E [_ [_ [C _]]]]]]]]. split; [lia|]. apply nth_error_Some. congruence.
Qed.

Lemma mds_ok : forall sp v r0 rest, well_defined sp -> ready sp v -> v = r0 :: rest -> generic_report r0 = false -> (2 <= length v)%nat ->
  exists qcs v' G, mds_track_check sp v = Ok (qcs, v') /\ length qcs = length v /\ pass sp v G /\
    (forall i, In i G -> (1 <= i)%nat /\ (S i < length v)%nat) /\ NoDup G /\
    (forall i q, nth_error qcs i = Some q -> right_flag (fun i => In i G) i q) /\ Forall2 mds_frame v v'.
Proof.
  intros sp v r0 rest WD [R1 R2 R3 R4 R5] Ev G0 L.
  assert (Em : mds_track_check sp v = if (length v <? 3)%nat && negb (early_deck_720 r0) then
        (let! v := vset_list v (seq 0 (length v)) "POS" "fewsome_check" 1 in Ok (repeat 0 (length v), v))
      else track_core sp mds_params "bad_track" "fewsome_check" v) by (rewrite Ev; cbn [mds_track_check]; rewrite G0; reflexivity).
  rewrite Em. clear Em. destruct ((length v <? 3)%nat && negb (early_deck_720 r0)) eqn:Br.
  - apply andb_true_iff in Br. destruct Br as [Br _]. apply Nat.ltb_lt in Br.
    destruct (vset_list_writes "POS" "fewsome_check" v 1 (seq 0 (length v)) _ _ (writes_refl _ _ _)) as [v' [E [LV W]]].
    + intros i Hi. apply in_seq in Hi. lia.
    + split; [unfold att_value; simpl; lia|now left].
    + rewrite E. cbn [bind]. rewrite LV. exists (repeat 0 (length v)), v', []. split; [reflexivity|]. split; [apply repeat_length|]. split; [left; auto|].
      split; [intros i []|]. split; [constructor|]. split.
      * intros i q H. apply nth_error_In in H. apply repeat_spec in H. subst. right. split; auto.
      * apply Forall2_of_nth; [exact LV|]. intros i r H. destruct (W i r H) as [r' [A [B _]]]. exists r'. split; [exact A|]. eapply frame_unch; [right; reflexivity|exact B].
  - destruct (track_core_ok sp mds_params v WD R1 R2 R3 R4 R5 "bad_track" "fewsome_check" nk_mds L) as [qcs [v' [amax [E [V [T [LQ RQ]]]]]]].
    destruct (right_lists (length v) _ qcs LQ RQ) as [G [GL GR]]; [intros i H; apply off_track_range in H; lia|].
    rewrite E. exists qcs, v', G. split; [reflexivity|]. split; [exact LQ|]. split; [right; exists amax; split; [exact V|exact GL]|].
    split; [intros i H; apply (proj2 GL) in H; apply off_track_range in H; exact H|]. split; [apply GL|]. split; [exact GR|].
    destruct T as [LT T]. apply Forall2_of_nth; [exact LT|]. intros i r H. destruct (T i r H) as [r' [A [B _]]]. exists r'. split; [exact A|]. now apply frame_track.
Qed.

(* ---- order of time in sub-voyages ---- *)

Lemma hours_jdd : forall a b t la lo d h la' lo' d' h', located a la lo d h -> located b la' lo' d' h' -> hours_between a b t ->
  (t == 24 * inject_Z (jdd d' - jdd d) + (h' - h))%Q.
Proof.
  intros a b t la lo d h la' lo' d' h' A B [ma [mo [e [k [ma' [mo' [e' [k' [A' [B' E]]]]]]]]]].
  destruct (located_inj _ _ _ _ _ _ _ _ _ A A') as [-> [-> [-> ->]]], (located_inj _ _ _ _ _ _ _ _ _ B B') as [-> [-> [-> ->]]].
  destruct E as [[n [D K]]|[n [D K]]]; rewrite K; apply days_later_jdd in D; rewrite D.
  - replace (jdd e + Z.of_nat n - jdd e) with (Z.of_nat n) by lia. reflexivity.
  - replace (jdd e' - (jdd e' + Z.of_nat n)) with (- Z.of_nat n) by lia. rewrite inject_Z_opp. ring.
Qed.
Lemma hours_exist : forall a b, is_located a -> is_located b -> exists t, hours_between a b t.
Proof.
  intros a b [la [lo [d [h A]]]] [la' [lo' [d' [h' B]]]].
  destruct (rep_sub_located {| sp_dist := fun _ _ _ _ => 0%Q; sp_course := fun _ _ _ _ => 0%Q; sp_move := fun a b _ _ => (a, b); sp_mid := fun a b _ _ _ => (a, b) |} a b la lo d h la' lo' d' h' A B) as [t [_ [_ [_ [E _]]]]].
  exists t, la, lo, d, h, la', lo', d', h'. auto.
Qed.
Lemma order_far : forall v, Forall is_located v -> in_time_order v -> forall k i a b t, nth_error v i = Some a -> nth_error v (i + k) = Some b -> hours_between a b t -> (0 <= t)%Q.
Proof.
  intros v Hl Ho. induction k; intros i a b t A B T.
  - rewrite Nat.add_0_r, A in B. injection B as <-. destruct T as [la [lo [d [h [la' [lo' [d' [h' [X [Y E]]]]]]]]]].
    destruct (located_inj _ _ _ _ _ _ _ _ _ X Y) as [-> [-> [-> ->]]]. rewrite (elapsed_self _ _ _ E). lra.
  - destruct (nth_error v (i + k)) as [c|] eqn:C; [|apply nth_error_None in C; assert ((i + S k) < length v)%nat by (apply nth_error_Some; congruence); lia].
    assert (LA : is_located a) by exact (proj1 (Forall_forall _ _) Hl a (nth_error_In _ _ A)).
    assert (LB : is_located b) by exact (proj1 (Forall_forall _ _) Hl b (nth_error_In _ _ B)).
    assert (LC : is_located c) by exact (proj1 (Forall_forall _ _) Hl c (nth_error_In _ _ C)).
    destruct (hours_exist a c LA LC) as [t1 T1], (hours_exist c b LC LB) as [t2 T2].
    pose proof (IHk i a c t1 A C T1). replace (i + S k)%nat with (S (i + k)) in B by lia. pose proof (Ho (i + k)%nat c b t2 C B T2).
    destruct LA as [la [lo [d [h LA]]]], LB as [lb [ob [db [hb LB]]]], LC as [lc [oc [dc [hc LC]]]].
    pose proof (hours_jdd _ _ _ _ _ _ _ _ _ _ _ LA LB T) as E. pose proof (hours_jdd _ _ _ _ _ _ _ _ _ _ _ LA LC T1) as E1. pose proof (hours_jdd _ _ _ _ _ _ _ _ _ _ _ LC LB T2) as E2.
    rewrite inject_Z_minus in E, E1, E2. lra.
Qed.

(** Strictly increasing positions. *)
Lemma picks_order : forall v keep w, Forall is_located v -> in_time_order v -> picks v keep w ->
  (forall i a b, nth_error keep i = Some a -> nth_error keep (S i) = Some b -> (a < b)%nat) -> in_time_order w.
Proof.
  intros v keep w Hl Ho P Inc i a b t A B T.
  destruct (Forall2_nth_back _ _ _ _ _ P _ _ A) as [ia [IA NA]], (Forall2_nth_back _ _ _ _ _ P _ _ B) as [ib [IB NB]].
  pose proof (Inc i ia ib IA IB). apply (order_far v Hl Ho (ib - ia) ia a b t NA); [|exact T]. now replace (ia + (ib - ia))%nat with ib by lia.
Qed.
