(** The checks and the drifters of the main program. *)
Require Import String Ascii ZArith QArith Qround List Bool Lia Sorted Permutation.
Require Import Verif.M_Base Verif.L_Base Verif.M_Calendar Verif.S_Calendar Verif.L_Calendar Verif.P_Calendar Verif.M_Checks Verif.M_Report Verif.S_Report Verif.L_Report Verif.L_Report2 Verif.L_Report3
  Verif.M_Imma Verif.S_Imma Verif.L_Imma Verif.M_Grid Verif.M_Voyage Verif.M_Track Verif.M_Buddy Verif.M_BaseQC Verif.S_BaseQC Verif.P_BaseQC Verif.M_Files Verif.S_Files Verif.L_Files Verif.M_Print Verif.S_Print Verif.L_Print Verif.P_Print Verif.M_Main Verif.S_Hum Verif.S_Main Verif.S_Main2
  Verif.L_Main Verif.L_Main2 Verif.L_Main3 Verif.L_Main4 Verif.L_Main5 Verif.L_Main6.
Import ListNotations.
Open Scope string_scope.
Open Scope list_scope.
Open Scope Z_scope.

Ltac filter_is := let r := fresh "r" in let H := fresh "H" in intro r; rewrite (proj1 (test_report_spec _ r)); unfold fit_sst, fit_at, fit_dpt, fit_slp, on_course, well_placed, near_normal, zero_flags; split; intro H;
  [repeat split; try (let f := fresh "f" in let I := fresh "I" in intros f I; cbn in I; repeat (destruct I as [<-|I]); try contradiction); apply H; cbn; tauto
  |repeat match goal with K : _ /\ _ |- _ => destruct K end; let I := fresh "I" in intros ? ? ? I; cbn in I; repeat (destruct I as [I|I]); try contradiction; injection I as <- <- <-; auto;
   match goal with K : forall f, In f ?l -> get_qc ?r ?t f = 0 |- get_qc ?r ?t ?f = 0 => apply K; cbn; tauto end].
Lemma position_lets : lets_through position_filter well_placed. Proof. filter_is. Qed.
Lemma sst_lets : lets_through sst_filter fit_sst. Proof. filter_is. Qed.
Lemma at_lets : lets_through at_filter fit_at. Proof. filter_is. Qed.
Lemma dpt_lets : lets_through dpt_filter fit_dpt. Proof. filter_is. Qed.
Lemma slp_lets : lets_through slp_filter fit_slp. Proof. filter_is. Qed.
Lemma drifter_lets : forall r, test_report drifter_filter r = 0 <-> get_qc r "POS" "month_match" = 1 /\ get_qc r "POS" "isdrifter" = 1.
Proof.
  intro r. rewrite (proj1 (test_report_spec _ r)). split; intro H.
  - split; apply H; cbn; tauto.
  - intros t f v I. cbn in I. destruct I as [I|[I|[]]]; injection I as <- <- <-; tauto.
Qed.

Section Drifters.
Variable E : setup.
(** What one identifier contributes. *)
Definition contributes (y m : Z) (reps : list report) (l : list nat) (part : list string * list file) : Prop :=
  exists sel v, voyage_of E drifter_filter reps l = Ok (sel, v) /\
    match v with
    | [] => part = ([], [])
    | r0 :: _ => match r_id r0 with
                 | None => part = ([], [])
                 | Some id => exists fs, voyage_write_output (e_str_of E) v (e_runid E) (e_dir E y m) y m = Ok fs /\ part = ([(id ++ "," ++ safe_filename id ++ newline_s)%string], fs)
                 end
    end.
Lemma drifter_parts : forall y m ids reps names files, drifter_output E y m ids reps = Ok (names, files) -> NoDup (concat (map snd ids)) ->
  exists parts, Forall2 (fun il part => contributes y m reps (snd il) part) ids parts /\ names = concat (map fst parts) /\ files = concat (map snd parts).
Proof.
  intros y m. induction ids as [|[id l] ids IH]; intros reps names files H N; cbn [drifter_output] in H; [apply ok_inj in H; injection H as <- <-; exists []; repeat split; constructor|].
  cbn [map snd concat] in N. pose proof (concat_skip _ _ N) as N2. step H. destruct y0 as [sel v]. step H. destruct y0 as [ns fs]. step H. destruct y0 as [ns' fs']. apply ok_inj in H. injection H as <- <-.
  destruct (IH _ _ _ X1 N2) as [parts [F [E1 E2]]]. exists ((ns, fs) :: parts). cbn [map fst snd concat]. split; [|split; congruence]. constructor.
  - exists sel, v. split; [exact X|]. destruct v as [|r0 v]; [apply ok_inj in X0; congruence|]. destruct (r_id r0) as [i|]; [|apply ok_inj in X0; congruence]. step X0. apply ok_inj in X0. injection X0 as <- <-. exists y0. auto.
  - assert (SEL : incl sel l). { unfold voyage_of in X. do 3 step X. apply ok_inj in X. injection X as <- <-. exact (proj1 (picked_sub _ _ _ _ X2)). }
    assert (D : forall l', In l' (map snd ids) -> forall i, In i l' -> ~ In i sel).
    { intros l' I i J K. clear - N I J K SEL. apply SEL in K. assert (Q : In i (concat (map snd ids))) by (apply in_concat; eauto). revert K Q. clear - N. induction l as [|x l IHl]; [intros []|]. inversion N; subst. intros [->|K] Q; [apply H1; apply in_app_iff; auto|]. now apply IHl. }
    clear - F D. induction F as [|[id' l'] part ids parts C F IH]; constructor.
    + destruct C as [sel' [v' [V C]]]. exists sel', v'. split; [|exact C]. cbn [snd] in *. apply (voyage_put' E _ reps l' _ sel v V). intros i I. apply (D l'); [now left|exact I].
    + apply IH. intros l'' I. apply D. now right.
Qed.
Lemma picked_placed : forall (P : report -> Prop) l l' s s', placed P l l' s s' -> picked P l s.
Proof. intros P l l' s s' H. induction H; constructor; auto. Qed.
Lemma voyage_picked : forall f reps id l sel v, l = positions reps id -> voyage_of E f reps l = Ok (sel, v) -> exists sub, picked (fun r => r_id r = id /\ test_report f r = 0) reps sub /\ frames [] sub v.
Proof.
  intros f reps id l sel v L H. destruct (voyage_frame E [] f reps l sel v H) as [sub [F [FR A]]]. exists sub. split; [|exact FR].
  assert (LIM : forall i, In i l -> (i < length reps)%nat) by (intros i I; rewrite L in I; apply In_positions in I; destruct I as [r [J _]]; apply nth_error_Some; congruence).
  rewrite (pick_spec f reps l LIM) in A. apply ok_inj in A. rewrite L in A. unfold positions in A. rewrite filter_filter in A.
  assert (BP : forall r', id_eqb (r_id r') id && (test_report f r' =? 0) = true <-> r_id r' = id /\ test_report f r' = 0) by (intro r'; rewrite andb_true_iff, id_eqb_eq, Z.eqb_eq; tauto).
  apply (picked_placed _ reps reps sub sub). eapply (placed_index _ (fun r' => id_eqb (r_id r') id && (test_report f r' =? 0)) BP reps reps [] [] eq_refl eq_refl sel); [|exact F|exact F].
  rewrite <- A. apply filter_ext. intro i. unfold has_id, passes. cbn [app]. destruct (nth_error reps i); reflexivity.
Qed.
End Drifters.
Lemma index_frames : forall K reps reps' ids, frames K reps reps' -> index_ok reps ids -> index_ok reps' ids.
Proof.
  intros K reps reps' ids F [A [B C]]. split; [exact A|].
  assert (N : forall i, match nth_error reps i, nth_error reps' i with Some r, Some r' => r_id r' = r_id r | None, None => True | _, _ => False end).
  { clear - F. induction F as [|r r' l l' [H _] F IH]; intros [|i]; cbn; auto. apply IH. }
  split.
  - intros id l I. rewrite (B id l I). unfold positions. rewrite (frames_length _ _ _ F). apply filter_ext. intro i. unfold has_id. specialize (N i). destruct (nth_error reps i), (nth_error reps' i); try contradiction; [now rewrite N|reflexivity].
  - intros r' I. destruct (In_nth_error _ _ I) as [i J]. specialize (N i). rewrite J in N. destruct (nth_error reps i) as [r|] eqn:Q; [|contradiction]. rewrite N. apply C. exact (nth_error_In _ _ Q).
Qed.
