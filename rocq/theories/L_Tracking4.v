(** Lemmas for the tracking quality control: the output. *)
Require Import String ZArith QArith Qround List Bool Lia Lqa.
Require Import Verif.M_Base Verif.L_Base Verif.S_Calendar Verif.M_Report Verif.S_Report Verif.L_Report Verif.M_Voyage Verif.S_Voyage Verif.L_Voyage6 Verif.L_Track5 Verif.M_Imma Verif.M_Files Verif.S_Files Verif.L_Files Verif.M_Print Verif.S_Print Verif.L_Print Verif.P_Print Verif.M_Tracking Verif.S_Tracking Verif.L_Tracking Verif.L_Tracking2.
Import ListNotations.
Open Scope string_scope.
Open Scope list_scope.
Open Scope Z_scope.

Lemma sort_refs_snd : forall l, map snd (sort_refs l) = sort_reports (map snd l).
Proof.
  assert (I : forall x l, map snd (ins_ref x l) = ins_report (snd x) (map snd l)).
  { intros x l. induction l as [|y l IH]; [reflexivity|]. cbn [ins_ref map ins_report]. destruct (rep_gt (snd x) (snd y)); [|reflexivity]. cbn [map]. now rewrite IH. }
  induction l as [|x l IH]; [reflexivity|]. cbn [sort_refs fold_right map sort_reports]. change (fold_right ins_ref [] l) with (sort_refs l). rewrite I, IH. reflexivity.
Qed.
Lemma map_snd_combine : forall (A B : Type) (l : list A) (l' : list B), length l = length l' -> map snd (combine l l') = l'.
Proof. intros A B. induction l as [|x l IH]; intros [|y l'] H; cbn in *; try discriminate; [reflexivity|]. rewrite IH; [reflexivity|lia]. Qed.
Lemma filter_all : forall A (l : list A), filter (fun _ => true) l = l.
Proof. intros A l. induction l as [|x l IH]; [reflexivity|]. cbn. now rewrite IH. Qed.
Lemma whole_of_record : forall sp reps idx v, record_of sp (fun _ => true) reps = Ok (idx, v) -> whole_record sp reps = Ok v.
Proof.
  intros sp reps idx v H. unfold record_of in H. rewrite filter_all in H. unfold whole_record. destruct (add_reports sp [] reps) as [w|e] eqn:E; [|discriminate]. cbn [bind] in *.
  pose proof (add_reports_kept sp _ [] [] w (Forall2_nil _) E) as K. cbn [app] in K. pose proof (Forall2_length _ _ _ _ _ K) as LW.
  assert (LP : length (positions (fun _ => true) reps) = length w).
  { rewrite <- LW. unfold positions. rewrite filter_all, map_length, combine_length, seq_length. apply Nat.min_id. }
  unfold voyage_sort. rewrite <- (map_snd_combine _ _ _ _ LP), <- sort_refs_snd.
  destruct (sort_refs (combine (positions (fun _ => true) reps) w)) as [|[i r] l]; cbn [map] in *.
  - now injection H as _ <-.
  - cbn [snd] in *. destruct (remotion sp r (map snd l)) as [l'|e]; [|discriminate]. cbn [bind] in *. now injection H as _ <-.
Qed.
Definition same_cells (r r' : report) : Prop := r_id r = r_id r' /\ r_clim r = r_clim r' /\ forall v, ~ In v motion -> getvar r v = getvar r' v.
Lemma cell_same : forall str_of r r' l s, same_cells r r' -> (forall v, In v l -> ~ In v motion) -> cell str_of r l s -> cell str_of r' l s.
Proof.
  intros str_of r r' l s [A [B C]] N H.
  assert (D : forall v, ~ In v motion -> getanom r v = getanom r' v) by (intros v Hv; unfold getanom; now rewrite B, (C v Hv)).
  destruct H as [l E|l i E|v w l X E|v w l q X E|v X Y E|v z s X E I|v q X Y U E].
  - apply cell_no_id. congruence.
  - apply cell_id. congruence.
  - apply cell_no_anom; [exact X|]. rewrite <- D; [exact E|]. apply N. now left.
  - apply cell_anom; [exact X|]. rewrite <- D; [exact E|]. apply N. now left.
  - apply cell_none; auto. rewrite <- C; [exact E|]. apply N. now left.
  - apply (cell_int _ _ _ z); auto. rewrite <- C; [exact E|]. apply N. now left.
  - apply cell_float; auto. rewrite <- C; [exact E|]. apply N. now left.
Qed.
Lemma kept_cells : forall r r', kept r r' -> same_cells r' r.
Proof. intros r r' [[A1 [A2 [A3 [A4 [A5 [A6 A7]]]]]] B]. split; [exact A1|]. split; [exact A6|exact A7]. Qed.
Lemma ints_same : forall r r' v, same_cells r r' -> In v VARLIST -> getint r v = getint r' v.
Proof. intros r r' v [_ [_ C]] I. unfold getint. rewrite (C v); [reflexivity|]. intro J. cbn in J. repeat destruct J as [<-|J]; try contradiction; cbn in I; intuition discriminate. Qed.
Lemma row_same : forall str_of r r' row, kept r r' -> track_row str_of r' row -> track_row str_of r row.
Proof.
  intros str_of r r' row K [u [d [p [c1 [fl [c2 [A [B [C [D [E [F G]]]]]]]]]]]]. pose proof (kept_cells _ _ K) as S0.
  assert (EY : getint r "YR" = getint r' "YR") by (symmetry; apply ints_same; [exact S0|cbn; tauto]). assert (EM : getint r "MO" = getint r' "MO") by (symmetry; apply ints_same; [exact S0|cbn; tauto]).
  assert (ED : getint r "DY" = getint r' "DY") by (symmetry; apply ints_same; [exact S0|cbn; tauto]).
  exists u, d, p, c1, fl, c2. split; [|split; [|split; [|split; [|split; [|split; [|exact G]]]]]].
  - destruct K as [[_ [U _]] _]. congruence.
  - unfold date_text in *. rewrite EY, EM, ED. exact B.
  - unfold pentad_text in *. rewrite EM, ED. exact C.
  - clear - D S0. unfold track_cols in *. repeat (match goal with H : Forall2 _ (_ :: _) _ |- _ => inversion H; clear H; subst end). match goal with H : Forall2 _ [] _ |- _ => inversion H; clear H; subst end.
    repeat (constructor; [eapply cell_same; [exact S0| |eassumption]; intros v I J; cbn in I, J; intuition congruence|]). constructor.
  - eapply Forall2_impl'; [|exact E]. intros tn s H. rewrite <- (kept_qc r r' (fst tn) (snd tn) K). exact H.
  - clear - F S0. unfold track_cols2 in *. repeat (match goal with H : Forall2 _ (_ :: _) _ |- _ => inversion H; clear H; subst end). match goal with H : Forall2 _ [] _ |- _ => inversion H; clear H; subst end.
    repeat (constructor; [eapply cell_same; [exact S0| |eassumption]; intros v I J; cbn in I, J; intuition congruence|]). constructor.
Qed.

Lemma tracking_dir_ok : forall out year month, 0 <= month -> track_dir out year month (tracking_dir out year month).
Proof.
  intros out year month M. unfold tracking_dir. cbn [build_completions last]. eexists _, _, _, _. split; [apply str_of_int_int_text|]. split; [apply zero_pad_padded; lia|].
  split; [apply path_join_joined; reflexivity|]. split; [apply path_join_joined; reflexivity|]. apply path_join_joined. reflexivity.
Qed.
Lemma edge_dir_ok : forall out year month edge run, 0 <= month -> track_edge_dir out year month edge run (edge_dir out year month edge run).
Proof. intros out year month edge run M. eexists. split; [now apply tracking_dir_ok|]. apply path_join_joined. reflexivity. Qed.

Section Out.
Variable sp : sphere.
Variable str_of : string -> Q -> string.
Hypothesis STR : forall n q, float_text (str_of n q).
Variable reps : list report.
Variable id : string.
Hypothesis ne : reps <> [].
Hypothesis ids : forall r, In r reps -> r_id r = Some id.
Hypothesis pr : Forall printable reps.
Hypothesis st : forall r, In r reps -> stamped r.
Hypothesis mi : forall i j a b t, (i < j)%nat -> nth_error reps i = Some a -> nth_error reps j = Some b -> r_dt a = r_dt b -> hours_between a b t -> (0 <= t)%Q.

Lemma whole_ok : exists idx v0 v, whole_record sp reps = Ok v /\ in_record (fun _ => True) reps idx v0 /\ Forall2 kept v0 v /\ v <> [].
Proof.
  destruct (record_ok sp (fun _ => true) (fun _ => True) (fun r => conj (fun _ => I) (fun _ => eq_refl)) reps (Some id) ids (fun r H _ => st r H)) as [idx [v0 [v [E [IR [K _]]]]]].
  { intros i j a b t L N N' _ _. now apply (mi i j). }
  exists idx, v0, v. split; [eapply whole_of_record; eauto|]. split; [exact IR|]. split; [exact K|].
  destruct reps as [|r l] eqn:R; [congruence|]. destruct IR as [A [[_ B] _]]. destruct (B 0%nat) as [_ B0]. assert (IN : In 0%nat idx) by (apply B0; exists r; split; [reflexivity|exact I]).
  intros ->. inversion K; subst. inversion A; subst. destruct IN.
Qed.
Lemma file_ok : forall idx v0 v runid dir year month, in_record (fun _ => True) reps idx v0 -> Forall2 kept v0 v -> v <> [] -> 0 <= month ->
  exists f, write_tracking_output str_of v runid dir year month = Ok f /\ track_file str_of reps id runid dir year month f.
Proof.
  intros idx v0 v runid dir year month IR K NE M. destruct v as [|r0 v]; [congruence|].
  assert (FROM : forall r', In r' (r0 :: v) -> exists r, In r reps /\ kept r r').
  { intros r' J. apply In_nth_error in J. destruct J as [j J]. destruct (Forall2_nth_back _ _ _ _ _ K _ _ J) as [r [N KK]]. destruct IR as [A _]. destruct (Forall2_nth_back _ _ _ _ _ A _ _ N) as [i [_ N']].
    exists r. split; [eapply nth_error_In; eauto|exact KK]. }
  destruct (C49_tracking_output str_of STR r0 v runid dir year month id M) as [y [m [safe [content [rows [Y [MM [SF [E [CF [TR _]]]]]]]]]]].
  - apply Forall_forall. intros r' J. destruct (FROM r' J) as [r [I [[A1 [A2 _]] _]]]. rewrite Forall_forall in pr. destruct (pr r I) as [P1 P2]. unfold printable. rewrite A1, A2. auto.
  - destruct (FROM r0 (or_introl eq_refl)) as [r [I [[A1 _] _]]]. rewrite A1. now apply ids.
  - eexists. split; [exact E|]. exists y, m, safe, idx, v0, rows. split; [exact Y|]. split; [exact MM|]. split; [exact SF|]. cbn [fst snd]. split; [reflexivity|]. split; [exact IR|]. split; [|exact CF].
    clear - TR K. revert v0 K. induction TR as [|r' row w rows' H TR IH]; intros v0 K; inversion K; subst; constructor; [eapply row_same; eauto|now apply IH].
Qed.
Lemma output_ok : forall p out edge run year month, 0 <= month -> exists voy a b c,
  whole_record sp reps = Ok voy /\ track_output str_of p out edge run year month voy = Ok (a ++ b ++ c) /\
  (if mem "new" edge || mem "regular" edge then exists f dir, a = [f] /\ track_dir out year month dir /\ track_file str_of reps id (tp_runid p) dir year month f else a = []) /\
  (if mem "start_edge_case" edge then exists f dir, b = [f] /\ track_edge_dir out year month "start_edge_case" run dir /\ track_file str_of reps id (tp_runid p) dir year month f else b = []) /\
  (if mem "end_edge_case" edge then exists f dir, c = [f] /\ track_edge_dir out year month "end_edge_case" run dir /\ track_file str_of reps id (tp_runid p) dir year month f else c = []).
Proof.
  intros p out edge run year month M. destruct whole_ok as [idx [v0 [v [W [IR [K NE]]]]]].
  destruct (file_ok idx v0 v (tp_runid p) (tracking_dir out year month) year month IR K NE M) as [f1 [E1 F1]].
  destruct (file_ok idx v0 v (tp_runid p) (edge_dir out year month "start_edge_case" run) year month IR K NE M) as [f2 [E2 F2]].
  destruct (file_ok idx v0 v (tp_runid p) (edge_dir out year month "end_edge_case" run) year month IR K NE M) as [f3 [E3 F3]].
  exists v, (if mem "new" edge || mem "regular" edge then [f1] else []), (if mem "start_edge_case" edge then [f2] else []), (if mem "end_edge_case" edge then [f3] else []).
  split; [exact W|]. split.
  - unfold track_output. rewrite E1, E2, E3. destruct (mem "new" edge || mem "regular" edge), (mem "start_edge_case" edge), (mem "end_edge_case" edge); reflexivity.
  - split; [|split].
    + destruct (mem "new" edge || mem "regular" edge); [|reflexivity]. eexists _, _. split; [reflexivity|]. split; [now apply tracking_dir_ok|exact F1].
    + destruct (mem "start_edge_case" edge); [|reflexivity]. eexists _, _. split; [reflexivity|]. split; [now apply edge_dir_ok|exact F2].
    + destruct (mem "end_edge_case" edge); [|reflexivity]. eexists _, _. split; [reflexivity|]. split; [now apply edge_dir_ok|exact F3].
Qed.
End Out.
