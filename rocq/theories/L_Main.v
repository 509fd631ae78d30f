(** Lemmas about the main program: what the checks leave alone. *)
Require Import String Ascii ZArith QArith Qround List Bool Lia.
Require Import Verif.M_Base Verif.L_Base Verif.M_Calendar Verif.M_Checks Verif.M_Report Verif.L_Report Verif.M_Imma Verif.M_Grid Verif.M_Voyage Verif.M_Track Verif.M_Buddy
  Verif.M_BaseQC Verif.M_Print Verif.M_Main Verif.S_Main.
Import ListNotations.
Open Scope string_scope.
Open Scope list_scope.
Open Scope Z_scope.

Lemma ok_inj : forall A (a b : A), Ok a = Ok b -> a = b. Proof. intros A a b H. now injection H. Qed.


Lemma frame_refl : forall K r, frame K r r. Proof. repeat split. Qed.
Lemma frame_trans : forall K a b c, frame K a b -> frame K b c -> frame K a c.
Proof.
  intros K a b c [A1 [A2 [A3 [A4 [A5 [A6 A7]]]]]] [B1 [B2 [B3 [B4 [B5 [B6 B7]]]]]]. repeat split; try congruence; intros.
  - now rewrite B6, A6. - now rewrite B7, A7.
Qed.
Lemma frame_incl : forall K K' a b, incl K K' -> frame K a b -> frame K' a b.
Proof. intros K K' a b I [A1 [A2 [A3 [A4 [A5 [A6 A7]]]]]]. repeat split; auto. Qed.
Lemma frames_refl : forall K v, frames K v v.
Proof. intros K v. induction v; constructor; auto using frame_refl. Qed.
Lemma frames_trans : forall K a b c, frames K a b -> frames K b c -> frames K a c.
Proof.
  intros K a b c H. revert c. induction H as [|x y a b X H IH]; intros c H'; inversion H'; subst; constructor; [|now apply IH].
  eapply frame_trans; eassumption.
Qed.
Lemma frames_incl : forall K K' a b, incl K K' -> frames K a b -> frames K' a b.
Proof. intros K K' a b I H. induction H; constructor; auto. eapply frame_incl; eassumption. Qed.
Lemma frames_length : forall K a b, frames K a b -> length b = length a.
Proof. intros K a b H. induction H; cbn; congruence. Qed.

Lemma set_qc_frame : forall r t f x r', set_qc r t f x = Ok r' -> frame [(t ++ f)%string] r r'.
Proof.
  intros r t f x r' H. unfold set_qc, py_assert in H. destruct ((0 <=? x) && (x <=? 9))%bool; [|discriminate]. destruct (mem t special_qc_types || mem t VARLIST)%bool; [|discriminate].
  injection H as <-. repeat split. intros t' f' N. unfold get_qc. cbn [with_qc r_qc assoc]. destruct (String.eqb_spec (t' ++ f') (t ++ f)); [|reflexivity].
  exfalso. apply N. left. now symmetry.
Qed.
Lemma update_frame : forall K v i r r', nth_error v i = Some r -> frame K r r' -> frames K v (update_nth i r' v).
Proof.
  induction v as [|x v IH]; intros [|i] r r' N F; cbn in *; try discriminate.
  - injection N as ->. constructor; [exact F|apply frames_refl].
  - constructor; [apply frame_refl|]. eapply IH; eassumption.
Qed.
Lemma vset_frame : forall v i t f x v', vset v i t f x = Ok v' -> frames [(t ++ f)%string] v v'.
Proof.
  intros v i t f x v' H. unfold vset in H. destruct (nth_error v i) as [r|] eqn:N; [|discriminate]. destruct (set_qc r t f x) as [r'|] eqn:S; [|discriminate].
  injection H as <-. eapply update_frame; [exact N|]. eapply set_qc_frame, S.
Qed.
Lemma vset_list_frame : forall l v t f x v', vset_list v l t f x = Ok v' -> frames [(t ++ f)%string] v v'.
Proof.
  induction l as [|i l IH]; intros v t f x v' H; cbn in H; [injection H as <-; apply frames_refl|].
  destruct (vset v i t f x) as [v1|] eqn:S; [|discriminate]. eapply frames_trans; [eapply vset_frame, S|]. eapply IH, H.
Qed.
Lemma set_qc_all_frame : forall v t f x v', set_qc_all v t f x = Ok v' -> frames [(t ++ f)%string] v v'.
Proof.
  induction v as [|r v IH]; intros t f x v' H; cbn in H; [injection H as <-; constructor|].
  destruct (set_qc r t f x) as [r'|] eqn:S; [|discriminate]. cbn [bind] in H. destruct (set_qc_all v t f x) as [v1|] eqn:T; [|discriminate].
  injection H as <-. constructor; [eapply set_qc_frame, S|]. eapply IH, T.
Qed.
Lemma setext_frame : forall K r n x, In n motion -> frame K r (setext r n x).
Proof.
  intros K r n x I. repeat split. intros m N. cbn [setext with_ext r_ext assoc]. destruct (String.eqb_spec m n) as [->|]; [contradiction|reflexivity].
Qed.
Lemma set_motion_frame : forall K r m, frame K r (set_motion r m).
Proof.
  intros K r m. unfold set_motion. destruct m as [[[[a b] c] d]|]; repeat (eapply frame_trans; [|apply setext_frame; cbn; tauto]); apply frame_refl.
Qed.
Lemma set_alt_frame : forall K r m, frame K r (set_alt r m).
Proof.
  intros K r m. unfold set_alt. destruct m as [[[[a b] c] d]|]; repeat (eapply frame_trans; [|apply setext_frame; cbn; tauto]); apply frame_refl.
Qed.
Lemma vget_nth_error : forall v i r, vget v i = Ok r -> nth_error v i = Some r.
Proof. intros v i r H. unfold vget in H. destruct (nth_error v i); [injection H as ->; reflexivity|discriminate]. Qed.

(** Step through a computation that ended well. *)
Ltac step H := match type of H with
  | bind ?x _ = Ok _ => let y := fresh "y" in let X := fresh "X" in destruct x as [y|] eqn:X; [cbn [bind] in H|discriminate]
  | py_assert ?b _ = Ok _ => destruct b; [cbn [py_assert] in H|discriminate]
  | (let '(_, _) := ?p in _) = Ok _ => destruct p
  | (let (_, _) := ?p in _) = Ok _ => destruct p
  | (if ?b then _ else _) = Ok _ => let B := fresh "B" in destruct b eqn:B
  | (match ?x with _ => _ end) = Ok _ => let B := fresh "B" in destruct x eqn:B; try discriminate
  end.

Lemma add_reports_frame : forall sp l v v', add_reports sp v l = Ok v' -> forall K v0, frames K v0 v -> frames K (v0 ++ l) v'.
Proof.
  intros sp. induction l as [|r l IH]; intros v v' H K v0 F; cbn [add_reports] in H; [injection H as <-; now rewrite app_nil_r|].
  destruct (add_report sp v r) as [v1|] eqn:A; [|discriminate]. cbn [bind] in H. change (r :: l) with ([r] ++ l). rewrite app_assoc. apply (IH v1 v' H).
  unfold add_report in A. destruct (rev v) as [|p w] eqn:R.
  - apply ok_inj in A. subst v1. assert (v = []) as -> by (rewrite <- (rev_involutive v), R; reflexivity). inversion F; subst. cbn [app]. constructor; [apply set_motion_frame|constructor].
  - destruct (rep_sub sp r p) as [m|]; [|discriminate]. apply ok_inj in A. subst v1. apply Forall2_app; [exact F|]. constructor; [apply set_motion_frame|constructor].
Qed.

(* ---- the checks of ships ---- *)

Lemma sat_flush_frame : forall sp mt v run v', sat_flush sp mt v run = Ok v' -> frames ["DPTrepsat"] v v'.
Proof.
  intros sp mt v run v' H. unfold sat_flush in H. destruct run as [|a run]; [discriminate|]. repeat step H.
  - exact (vset_list_frame _ _ "DPT" "repsat" _ _ H).
  - injection H as <-. apply frames_refl.
Qed.
Lemma sat_loop_frame : forall sp mt sh todo v run v' run', sat_loop sp mt sh todo v run = Ok (v', run') -> frames ["DPTrepsat"] v v'.
Proof.
  intros sp mt sh. induction todo as [|i todo IH]; intros v run v' run' H; cbn [sat_loop] in H; [injection H as <- <-; apply frames_refl|].
  step H. pose proof (vset_frame _ _ "DPT" "repsat" _ _ X) as F. step H. step H; [eapply frames_trans; [exact F|]; eapply IH, H|].
  step H; [step H; eapply frames_trans; [exact F|]; eapply frames_trans; [eapply sat_flush_frame, X1|]; eapply IH, H|].
  eapply frames_trans; [exact F|]. eapply IH, H.
Qed.
Lemma saturated_frame : forall sp mt sh v v', find_saturated_runs sp mt sh v = Ok v' -> frames ["DPTrepsat"] v v'.
Proof.
  intros sp mt sh v v' H. unfold find_saturated_runs in H. step H. destruct y as [v1 run]. pose proof (sat_loop_frame _ _ _ _ _ _ _ _ X) as F.
  step H; [eapply frames_trans; [exact F|]; eapply sat_flush_frame, H|]. injection H as <-. exact F.
Qed.
Lemma rounded_frame : forall prt mc th name v v', find_multiple_rounded_values prt mc th name v = Ok v' -> frames [(name ++ "round")%string] v v'.
Proof.
  intros prt mc th name v v' H. unfold find_multiple_rounded_values in H. step H. step H. step H. pose proof (set_qc_all_frame _ _ _ _ _ X1) as F.
  destruct (tally prt name 0 y1 [] 0) as [d n]. step H; [|injection H as <-; exact F]. step H; [discriminate|]. step H; [|injection H as <-; exact F].
  eapply frames_trans; [exact F|]. eapply vset_list_frame, H.
Qed.
Lemma rep_loop_frame : forall th n name d v v', rep_loop th n name d v = Ok v' -> frames [(name ++ "rep")%string] v v'.
Proof.
  intros th n name. induction d as [|[k l] d IH]; intros v v' H; cbn [rep_loop] in H; [injection H as <-; apply frames_refl|].
  step H. eapply frames_trans; [eapply vset_list_frame, X|]. eapply IH, H.
Qed.
Lemma repeated_frame : forall prt mc th name v v', find_repeated_values prt mc th name v = Ok v' -> frames [(name ++ "rep")%string] v v'.
Proof.
  intros prt mc th name v v' H. unfold find_repeated_values in H. step H. step H. step H. pose proof (set_qc_all_frame _ _ _ _ _ X1) as F.
  destruct (tally prt name 0 y1 [] 0) as [d n]. step H; [|injection H as <-; exact F]. eapply frames_trans; [exact F|]. eapply rep_loop_frame, H.
Qed.
Lemma table_frame : forall test t f n todo v l v', violation_table test t f n todo v = Ok (l, v') -> frames [(t ++ f)%string] v v'.
Proof.
  intros test t f n. induction todo as [|i todo IH]; intros v l v' H; cbn [violation_table] in H; [injection H as <- <-; apply frames_refl|].
  step H. step H. step H. destruct y1 as [rest v2]. injection H as <- <-. eapply frames_trans; [eapply vset_frame, X|]. eapply IH, X1.
Qed.
Lemma removal_loop_frame : forall t f fuel viol count v v', removal_loop t f fuel viol count v = Ok v' -> frames [(t ++ f)%string] v v'.
Proof.
  intros t f. induction fuel as [|fuel IH]; intros viol count v v' H; cbn [removal_loop] in H; (step H; [|injection H as <-; apply frames_refl]); [discriminate|].
  step H. step H. step H. step H. destruct y1 as [viol2 count2]. eapply frames_trans; [eapply vset_frame, X0|]. eapply IH, H.
Qed.
Lemma removal_frame : forall test t f n v v', removal test t f n v = Ok v' -> frames [(t ++ f)%string] v v'.
Proof.
  intros test t f n v v' H. unfold removal in H. step H. destruct y as [viol v1]. eapply frames_trans; [eapply table_frame, X|]. eapply removal_loop_frame, H.
Qed.
Lemma iquam_frame : forall sp p v v', iquam_track_check sp p v = Ok v' -> frames ["POSiquam_track"] v v'.
Proof.
  intros sp p v v' H. unfold iquam_track_check in H. destruct v as [|r0 v]; [injection H as <-; constructor|]. step H.
  - exact (vset_list_frame _ _ "POS" "iquam_track" _ _ H).
  - exact (removal_frame _ "POS" "iquam_track" _ _ _ H).
Qed.
Lemma spike_frame : forall sp p name v v', spike_check sp p name v = Ok v' -> frames [(name ++ "spike")%string] v v'.
Proof.
  intros sp p name v v' H. unfold spike_check in H. destruct v as [|r0 v]; [injection H as <-; constructor|]. eapply removal_frame, H.
Qed.
Lemma set_both_frame : forall trk few x y todo v v', set_both trk few x y todo v = Ok v' -> frames [("POS" ++ trk)%string; ("POS" ++ few)%string] v v'.
Proof.
  intros trk few x y. induction todo as [|i todo IH]; intros v v' H; cbn [set_both] in H; [injection H as <-; apply frames_refl|].
  step H. step H. eapply frames_trans; [eapply frames_incl; [|eapply vset_frame, X]; intros k [<-|[]]; left; reflexivity|].
  eapply frames_trans; [eapply frames_incl; [|eapply vset_frame, X0]; intros k [<-|[]]; right; left; reflexivity|]. eapply IH, H.
Qed.
Lemma alt_loop_frame : forall sp K todo v v', alt_loop sp todo v = Ok v' -> frames K v v'.
Proof.
  intros sp K. induction todo as [|i todo IH]; intros v v' H; cbn [alt_loop] in H; [injection H as <-; apply frames_refl|].
  do 4 step H. eapply frames_trans; [|eapply IH, H]. eapply update_frame; [eapply vget_nth_error, X2|apply set_alt_frame].
Qed.
Lemma alternate_frame : forall sp K v v', calc_alternate_speeds sp v = Ok v' -> frames K v v'.
Proof.
  intros sp K v v' H. unfold calc_alternate_speeds in H. eapply frames_trans; [|eapply alt_loop_frame, H].
  clear. induction v; constructor; [apply set_alt_frame|exact IHv].
Qed.
Lemma track_loop_frame : forall p amax fwd rev mid trk few todo v qcs v', track_loop p amax fwd rev mid trk few todo v = Ok (qcs, v') ->
  frames [("POS" ++ trk)%string; ("POS" ++ few)%string] v v'.
Proof.
  intros p amax fwd rev mid trk few. induction todo as [|i todo IH]; intros v qcs v' H; cbn [track_loop] in H; [injection H as <- <-; apply frames_refl|].
  do 4 step H. destruct y2 as [q2 v2]. injection H as <- <-. eapply frames_trans; [eapply frames_incl; [|eapply vset_frame, X0]; intros k [<-|[]]; left; reflexivity|].
  eapply frames_trans; [eapply frames_incl; [|eapply vset_frame, X1]; intros k [<-|[]]; right; left; reflexivity|]. eapply IH, X2.
Qed.
Lemma track_core_frame : forall sp p trk few v qcs v', track_core sp p trk few v = Ok (qcs, v') -> frames [("POS" ++ trk)%string; ("POS" ++ few)%string] v v'.
Proof.
  intros sp p trk few v qcs v' H. unfold track_core in H. do 4 step H. destruct (set_speed_limits y2) as [[amax amaxx] amin]. do 6 step H. destruct y8 as [q8 v8]. do 2 step H. injection H as <- <-.
  eapply frames_trans; [eapply alternate_frame, X|].
  assert (T : forall a b x i, vset a i "POS" trk x = Ok b -> frames [("POS" ++ trk)%string; ("POS" ++ few)%string] a b)
    by (intros a b x i V; eapply frames_incl; [|eapply vset_frame, V]; intros k [<-|[]]; left; reflexivity).
  assert (G : forall a b x i, vset a i "POS" few x = Ok b -> frames [("POS" ++ trk)%string; ("POS" ++ few)%string] a b)
    by (intros a b x i V; eapply frames_incl; [|eapply vset_frame, V]; intros k [<-|[]]; right; left; reflexivity).
  eapply frames_trans; [eapply T, X6|]. eapply frames_trans; [eapply G, X7|]. eapply frames_trans; [eapply track_loop_frame, X8|].
  eapply frames_trans; [eapply T, X9|]. eapply G, X10.
Qed.
Lemma track_frame : forall sp p v v', track_check sp p v = Ok v' -> frames ["POStrk"; "POSfew"] v v'.
Proof.
  intros sp p v v' H. unfold track_check in H. destruct v as [|r0 v]; [injection H as <-; constructor|].
  step H; [exact (set_both_frame "trk" "few" _ _ _ _ _ H)|]. step H; [step H; exact (set_both_frame "trk" "few" _ _ _ _ _ H)|].
  step H. destruct y as [qcs v1]. injection H as <-. exact (track_core_frame _ _ "trk" "few" _ _ _ X).
Qed.

(* ---- ships of the deck and buddy checks ---- *)

Definition ship_keys : list string :=
  ["POStrk"; "POSfew"; "POSiquam_track"; "SSTspike"; "DPTrepsat"; "DPTround"; "SSTrep"; "ATrep"; "AT2rep"; "DPTrep"; "SLPrep"].
Definition buddy_keys : list string := ["SSTbbud"; "SSTbud"; "ATbbud"; "ATbud"; "DPTbud"; "SLPbud"].

Section Env.
Variable E : setup.
Lemma all_repeated_frame : forall names v v', all_repeated E names v = Ok v' -> frames (map (fun n => n ++ "rep")%string names) v v'.
Proof.
  induction names as [|n names IH]; intros v v' H; cbn [all_repeated] in H; [injection H as <-; apply frames_refl|].
  step H. cbn [map]. eapply frames_trans; [eapply frames_incl; [|eapply repeated_frame, X]; intros k [<-|[]]; left; reflexivity|].
  eapply frames_incl; [|eapply IH, H]. intros k I. right. exact I.
Qed.
Lemma ship_checks_frame : forall v v', ship_checks E v = Ok v' -> frames ship_keys v v'.
Proof.
  intros v v' H. unfold ship_checks in H. do 5 step H.
  eapply frames_trans; [eapply frames_incl; [|eapply track_frame, X]; unfold incl, ship_keys; cbn [In]; tauto|].
  eapply frames_trans; [eapply frames_incl; [|eapply iquam_frame, X0]; unfold incl, ship_keys; cbn [In]; tauto|].
  eapply frames_trans; [eapply frames_incl; [|eapply spike_frame, X1]; unfold incl, ship_keys; cbn [In append]; tauto|].
  eapply frames_trans; [eapply frames_incl; [|eapply saturated_frame, X2]; unfold incl, ship_keys; cbn [In]; tauto|].
  eapply frames_trans; [eapply frames_incl; [|eapply rounded_frame, X3]; unfold incl, ship_keys; cbn [In append]; tauto|].
  eapply frames_incl; [|eapply all_repeated_frame, H]. unfold incl, ship_keys. cbn [In append map]. tauto.
Qed.
Lemma pick_nth : forall reps l sub, M_Track.pick reps l = Ok sub -> Forall2 (fun i r => nth_error reps i = Some r) l sub.
Proof.
  intros reps. unfold M_Track.pick. induction l as [|i l IH]; intros sub H; cbn [mapM] in H; [injection H as <-; constructor|].
  step H. step H. injection H as <-. constructor; [eapply vget_nth_error, X|]. apply IH. reflexivity.
Qed.
Lemma update_nth_other : forall (v : list report) i j x, i <> j -> nth_error (update_nth i x v) j = nth_error v j.
Proof. induction v as [|y v IH]; intros [|i] [|j] x N; cbn; auto; congruence || (apply IH; lia). Qed.
Lemma put_back_frame : forall K l sub v reps reps0, Forall2 (fun i r => nth_error reps0 i = Some r) l sub -> frames K sub v -> NoDup l ->
  frames K reps0 reps -> (forall i, In i l -> nth_error reps i = nth_error reps0 i) -> frames K reps0 (put_back l v reps).
Proof.
  intros K. induction l as [|i l IH]; intros sub v reps reps0 S F N R A; inversion S; subst; inversion F; subst; [exact R|]. inversion N; subst. cbn [put_back].
  eapply IH; [eassumption|eassumption|assumption| |].
  - eapply frames_trans; [exact R|]. eapply update_frame; [|eassumption]. rewrite A by (left; reflexivity). assumption.
  - intros j J. rewrite <- (A j) by (right; exact J). assert (NE : j <> i) by (intros ->; contradiction). apply update_nth_other. congruence.
Qed.
Lemma voyage_frame : forall K f reps l sel v, voyage_of E f reps l = Ok (sel, v) -> exists sub, Forall2 (fun i r => nth_error reps i = Some r) sel sub /\ frames K sub v /\ M_Report.pick f reps l = Ok sel.
Proof.
  intros K f reps l sel v H. unfold voyage_of in H. do 3 step H. injection H as <- <-. exists y0. split; [apply pick_nth, X0|]. split; [|reflexivity].
  exact (add_reports_frame _ _ _ _ X1 K [] (Forall2_nil _)).
Qed.
Lemma picked_sub : forall f reps l sel, M_Report.pick f reps l = Ok sel -> incl sel l /\ (NoDup l -> NoDup sel).
Proof.
  intros f reps. induction l as [|i l IH]; intros sel H; cbn [M_Report.pick] in H; [injection H as <-; split; [intros x []|constructor]|].
  destruct (nth_error reps i) as [r|]; [|discriminate]. step H. injection H as <-. destruct (IH y eq_refl) as [A B]. destruct (test_report f r =? 0).
  - split; [intros x [->|I]; [left; reflexivity|right; apply A, I]|]. intro N. inversion N; subst. constructor; [|apply B; assumption]. intro I. apply A in I. contradiction.
  - split; [intros x I; right; apply A, I|]. intro N. inversion N; subst. apply B. assumption.
Qed.
Lemma all_ships_frame : forall f ids reps reps', Forall (fun p => NoDup (snd p)) ids -> all_ships E f ids reps = Ok reps' -> frames ship_keys reps reps'.
Proof.
  intros f. induction ids as [|[id l] ids IH]; intros reps reps' N H; cbn [all_ships] in H; [injection H as <-; apply frames_refl|].
  step H. destruct y as [sel v]. step H. inversion N; subst. cbn [snd] in *. destruct (voyage_frame ship_keys _ _ _ _ _ X) as [sub [A [B C]]].
  eapply frames_trans; [|eapply IH; [eassumption|exact H]]. destruct (picked_sub _ _ _ _ C) as [_ D].
  eapply put_back_frame; [exact A|eapply frames_trans; [exact B|eapply ship_checks_frame, X0]|auto|apply frames_refl|auto].
Qed.
Lemma flag_reports_frame : forall f t g verdict b l l', flag_reports f t g verdict b l = Ok l' -> frames [(t ++ g)%string] l l'.
Proof.
  intros f t g verdict b. induction l as [|r l IH]; intros l' H; cbn [flag_reports] in H; [injection H as <-; constructor|].
  step H. step H. injection H as <-. constructor; [|apply IH; reflexivity]. step X.
  - step X. step X. step X. eapply set_qc_frame, X.
  - eapply set_qc_frame, X.
Qed.
Lemma mds_frame : forall name sd par f l l', mds E name sd par f l = Ok l' -> frames [(name ++ "bud")%string] l l'.
Proof. intros name sd par f l l' H. unfold mds, mds_buddy_check in H. step H. step H. step H. eapply flag_reports_frame, H. Qed.
Lemma bayes_frame : forall name lim f l l', bayes E name lim f l = Ok l' -> frames [(name ++ "bbud")%string] l l'.
Proof. intros name lim f l l' H. unfold bayes, bayesian_buddy_check in H. step H. step H. step H. eapply flag_reports_frame, H. Qed.
Lemma buddy_frame : forall l l', buddy_checks E l = Ok l' -> frames buddy_keys l l'.
Proof.
  intros l l' H. unfold buddy_checks in H. do 7 step H.
  eapply frames_trans; [eapply frames_incl; [|eapply bayes_frame, X]; unfold incl, buddy_keys; cbn [In append]; tauto|].
  eapply frames_trans; [eapply frames_incl; [|eapply mds_frame, X0]; unfold incl, buddy_keys; cbn [In append]; tauto|].
  eapply frames_trans; [eapply frames_incl; [|eapply bayes_frame, X1]; unfold incl, buddy_keys; cbn [In append]; tauto|].
  eapply frames_trans; [eapply frames_incl; [|eapply mds_frame, X2]; unfold incl, buddy_keys; cbn [In append]; tauto|].
  eapply frames_trans; [eapply frames_incl; [|eapply mds_frame, X4]; unfold incl, buddy_keys; cbn [In append]; tauto|].
  eapply frames_incl; [|eapply mds_frame, H]. unfold incl, buddy_keys. cbn [In append]. tauto.
Qed.
End Env.
