(** C58 the tracking control reads back what the main program wrote. *)
Require Import String Ascii ZArith QArith Qround List Bool Lia Lqa Sorted.
Require Import Verif.M_Base Verif.L_Base Verif.S_Calendar Verif.M_Calendar Verif.L_Calendar Verif.S_Sun Verif.M_Report Verif.S_Report Verif.L_Report Verif.M_Imma Verif.S_Imma Verif.L_Imma Verif.M_Voyage Verif.S_Voyage Verif.M_Files Verif.S_Files Verif.L_Files Verif.M_Print Verif.S_Print Verif.L_Print Verif.P_Print
  Verif.M_Track Verif.S_Track Verif.L_Track5 Verif.M_Drifter Verif.S_Drifter Verif.S_Tail Verif.S_Tail2 Verif.P_Calendar Verif.P_Track Verif.P_Drifter Verif.P_Tail Verif.P_Sun Verif.M_Tracking Verif.S_Tracking Verif.L_Tracking4 Verif.P_Tracking Verif.L_Main Verif.S_Reading Verif.L_Reading Verif.L_Reading2 Verif.L_Reading3.
Import ListNotations.
Open Scope string_scope.
Open Scope list_scope.
Open Scope Z_scope.

(** str_of prints a number, float_of reads one, rnd is what is left of a number printed and read.  The months are read one
    after the other: of each report the main program wrote come back its identifiers, its date, its values as printed and its flags,
    in the order of the files.  A month without files has no reports. *)
Theorem C58_read_back : forall str_of float_of rnd files out id runid months ls, numbers_read str_of float_of rnd ->
  Forall ym_ok months -> Forall2 (month_left str_of files out id runid) months ls -> Forall (readable rnd) (concat ls) ->
  exists reps, read_months float_of files out id runid months = Ok reps /\ Forall2 (read_back rnd) (concat ls) reps.
Proof.
  intros str_of float_of rnd files out id runid months ls NR M. apply months_back; [exact NR|]. eapply Forall_impl; [|exact M]. intros ym H. unfold ym_ok in H. lia.
Qed.
Print Assumptions C58_read_back.

(** The files the main program writes for the voyage of a drifter are such files, if the file name needs no cleaning. *)
Theorem C58_written : forall str_of, (forall n q, float_text (str_of n q)) -> forall r0 reps l runid out year month id y m, ym_ok (year, month) ->
  int_text year y -> padded 2 month m -> picked (of_month year month) (r0 :: reps) l -> Forall printable l -> r_id r0 = Some id -> made_safe id id ->
  exists fs, voyage_write_output str_of (r0 :: reps) runid (out ++ "/" ++ y ++ "/" ++ m) year month = Ok fs /\
    forall files, (forall path content, In (path, content) fs -> files path = Some content) -> month_left str_of files out id runid (year, month) l.
Proof.
  intros str_of STR r0 reps l runid out year month id y m [M _] Y MM P PR I SF. cbn [snd] in M.
  destruct (C49_voyage_output str_of STR r0 reps l runid (out ++ "/" ++ y ++ "/" ++ m)%string year month id ltac:(lia) P PR I) as [y' [m' [content [fs [safe [Y' [M' [SF' [E [VF FF]]]]]]]]]].
  assert (y' = y) by exact (int_text_inj _ _ _ Y' Y). assert (m' = m) by exact (padded_inj _ _ _ _ M' MM). subst y' m'.
  assert (safe = id). { clear - SF SF'. assert (X : forall a b, made_safe a b -> forall c, made_safe a c -> b = c). { induction 1; intros x H'; inversion H'; subst; try reflexivity; try (f_equal; auto); exfalso; intuition congruence. } exact (X _ _ SF' _ SF). } subst safe.
  eexists. split; [exact E|]. intros files H. right.
  inversion FF as [|tn1 f1 t1 fs1 [N1 F1] FF']; subst. inversion FF' as [|tn2 f2 t2 fs2 [N2 F2] FF'']; subst. inversion FF''; subst.
  exists content, (snd f1), (snd f2). split; [|split; [|split; [|split; [exact VF|split; [exact F1|exact F2]]]]].
  - eexists. split; [exists y, m; split; [exact Y|split; [exact MM|reflexivity]]|]. apply H. left. f_equal. rewrite !app_str_assoc. reflexivity.
  - eexists. split; [exists y, m; split; [exact Y|split; [exact MM|reflexivity]]|]. apply H. right. left. rewrite (surjective_pairing f1). f_equal. rewrite N1. cbn [fst]. rewrite !app_str_assoc. reflexivity.
  - eexists. split; [exists y, m; split; [exact Y|split; [exact MM|reflexivity]]|]. apply H. right. right. left. rewrite (surjective_pairing f2). f_equal. rewrite N2. cbn [fst]. rewrite !app_str_assoc. reflexivity.
Qed.
Print Assumptions C58_written.

(** If some of the three files of a month are there and some are not, the control stops. *)
Theorem C58_incomplete : forall float_of files out id runid ym k1 k2 c, ym_ok ym -> In k1 month_kinds -> In k2 month_kinds ->
  month_holds files out id runid ym k1 c -> month_lacks files out id runid ym k2 -> read_month float_of files out id runid (fst ym) (snd ym) = Err OtherError.
Proof.
  intros float_of files out id runid [y m] k1 k2 c [M _] I1 I2 H L. cbn [fst snd] in *. apply (holds_eq files out id runid y m k1 c ltac:(lia)) in H. apply (lacks_eq files out id runid y m k2 ltac:(lia)) in L.
  unfold read_month. cbn in I1, I2. repeat (destruct I1 as [<-|I1]); try contradiction; repeat (destruct I2 as [<-|I2]); try contradiction; rewrite ?H, ?L in *; try discriminate;
  repeat match goal with |- context [match files ?f with _ => _ end] => destruct (files f) end; reflexivity.
Qed.
Print Assumptions C58_incomplete.

(** If they do not have the same number of lines, it stops. *)
Theorem C58_lengths : forall float_of files out id runid ym v p s rv rp rs, ym_ok ym ->
  month_holds files out id runid ym "Variables" v -> month_holds files out id runid ym "POS_qc" p -> month_holds files out id runid ym "SST_qc" s ->
  csv_file rv v -> csv_file rp p -> csv_file rs s -> (rv = [] \/ length rp <> length rv \/ length rs <> length rv) ->
  read_month float_of files out id runid (fst ym) (snd ym) = Err OtherError.
Proof.
  intros float_of files out id runid [y m] v p s rv rp rs [M _] V P S CV CP CS N. cbn [fst snd] in *. unfold read_month.
  rewrite (holds_eq files out id runid y m _ _ ltac:(lia) V), (holds_eq files out id runid y m _ _ ltac:(lia) P), (holds_eq files out id runid y m _ _ ltac:(lia) S).
  rewrite (count_rows _ _ CV), (count_rows _ _ CP), (count_rows _ _ CS). destruct N as [->|[N|N]].
  - reflexivity.
  - replace (Z.of_nat (length rp) =? Z.of_nat (length rv)) with false by lia. cbn [negb]. rewrite orb_true_r. reflexivity.
  - replace (Z.of_nat (length rs) =? Z.of_nat (length rv)) with false by lia. cbn [negb]. rewrite !orb_true_r. reflexivity.
Qed.
Print Assumptions C58_lengths.

(** Flags are never given to another report: if the rows of the flags of the position and those of the variables do not belong to the
    same reports, it stops.  The same for the flags of the sea surface temperature. *)
Definition solid_uids (l : list report) : Prop := Forall (fun r => forall u, r_uid r = Some u -> chars (fun c => ~ white c) u) l.
Theorem C58_other_reports : forall str_of float_of rnd files out id runid ym v p s l lp ls, numbers_read str_of float_of rnd -> ym_ok ym ->
  month_holds files out id runid ym "Variables" v -> month_holds files out id runid ym "POS_qc" p -> month_holds files out id runid ym "SST_qc" s ->
  variable_file str_of documented_voyage_vars l v -> flag_file "POS" (nth 0 (map snd documented_voyage_flags) []) lp p -> flag_file "SST" (nth 1 (map snd documented_voyage_flags) []) ls s ->
  Forall (readable rnd) (l ++ lp ++ ls) -> solid_uids (l ++ lp ++ ls) ->
  map r_uid lp <> map r_uid l \/ map r_uid ls <> map r_uid l ->
  read_month float_of files out id runid (fst ym) (snd ym) = Err OtherError.
Proof.
  intros str_of float_of rnd files out id runid [y m] v p s l lp ls NR [M M2] V P S FV FP FS A U N. cbn [fst snd] in *.
  destruct FV as [rv [CV GV]] eqn:K1, FP as [rp [CP GP]] eqn:K2, FS as [rs [CS GS]] eqn:K3.
  assert (B : {length lp = length l /\ length ls = length l} + {~ (length lp = length l /\ length ls = length l)}) by (destruct (Nat.eq_dec (length lp) (length l)), (Nat.eq_dec (length ls) (length l)); [left; auto|right..]; tauto).
  destruct B as [[B1 B2]|B].
  2:{ apply (C58_lengths float_of files out id runid (y, m) v p s _ _ _ (conj M M2) V P S CV CP CS). right. cbn [length]. rewrite <- (Forall2_length _ _ _ _ _ GV), <- (Forall2_length _ _ _ _ _ GP), <- (Forall2_length _ _ _ _ _ GS). lia. }
  unfold read_month. rewrite (holds_eq files out id runid y m _ _ ltac:(lia) V), (holds_eq files out id runid y m _ _ ltac:(lia) P), (holds_eq files out id runid y m _ _ ltac:(lia) S).
  rewrite (count_rows _ _ CV), (count_rows _ _ CP), (count_rows _ _ CS). cbn [length]. rewrite <- (Forall2_length _ _ _ _ _ GV), <- (Forall2_length _ _ _ _ _ GP), <- (Forall2_length _ _ _ _ _ GS).
  rewrite B1, B2, !Z.eqb_refl. replace (Z.of_nat (Datatypes.S (length l)) =? 0) with false by lia. cbn [negb orb].
  apply Forall_app in A. destruct A as [A1 A2]. apply Forall_app in A2. destruct A2 as [A2 A3]. apply Forall_app in U. destruct U as [U1 U2]. apply Forall_app in U2. destruct U2 as [U2 U3].
  destruct (variables_back str_of float_of rnd NR l v FV) as [l1 [E1 F1]]; [eapply Forall_impl; [|exact A1]; intros r [H1 [H2 _]]; auto|]. rewrite E1. cbn [bind].
  assert (L1 : length l1 = length l) by (symmetry; exact (Forall2_length _ _ _ _ _ F1)).
  assert (UID1 : map r_uid l1 = map r_uid l) by (clear - F1; induction F1 as [|r r' l l' [[_ [H _]] _] F IH]; [reflexivity|]; cbn; congruence).
  assert (X : forall lx ly, length lx = length ly -> Forall (readable rnd) lx -> solid_uids lx -> Forall (readable rnd) l -> solid_uids l -> map r_uid ly = map r_uid l ->
    Forall2 (fun r r1 => exists u u1, r_uid r = Some u /\ r_uid r1 = Some u1 /\ (u = u1 \/ strip u <> strip u1)) lx ly).
  { clear. intros lx ly L AX SX AL SL E. revert l AL SL E lx L AX SX. induction ly as [|b ly IH]; intros l AL SL E [|a lx] L AX SX; try discriminate; [constructor|]. destruct l as [|c l]; [discriminate|]. cbn [map] in E. injection E as E0 E.
    inversion AX as [|? ? [[[[u [EU _]] _] _] _] AX']; subst. inversion AL as [|? ? [[[[u1 [EU1 _]] _] _] _] AL']; subst. inversion SX as [|? ? SX1 SX']; subst. inversion SL as [|? ? SL1 SL']; subst. constructor; [|apply (IH l); auto].
    exists u, u1. split; [exact EU|]. split; [congruence|]. rewrite !strip_solid by auto. destruct (string_dec u u1); auto. }
  assert (W : forall lx ly, length lx = length ly -> map r_uid lx <> map r_uid ly -> exists i r r1, nth_error lx i = Some r /\ nth_error ly i = Some r1 /\ r_uid r <> r_uid r1).
  { clear. induction lx as [|a lx IH]; intros [|b ly] L K; try discriminate; [congruence|]. destruct (r_uid a) as [ua|] eqn:EA, (r_uid b) as [ub|] eqn:EB; try (exists 0%nat, a, b; cbn; split; [reflexivity|split; [reflexivity|congruence]]).
    - destruct (string_dec ua ub) as [<-|NE]; [|exists 0%nat, a, b; cbn; split; [reflexivity|split; [reflexivity|congruence]]]. destruct (IH ly) as [i [r [r1 H]]]; [auto|cbn in K; congruence|]. exists (Datatypes.S i), r, r1. exact H.
    - destruct (IH ly) as [i [r [r1 H]]]; [auto|cbn in K; congruence|]. exists (Datatypes.S i), r, r1. exact H. }
  assert (KP : Forall (fun r => legible r /\ flags_ok "POS" pos_names r) lp) by (eapply Forall_impl; [|exact A2]; intros r [H1 [_ H2]]; split; [exact H1|]; intros f J; apply H2; now apply kept_pos).
  assert (KS : Forall (fun r => legible r /\ flags_ok "SST" sst_names r) ls) by (eapply Forall_impl; [|exact A3]; intros r [H1 [_ H2]]; split; [exact H1|]; intros f J; apply H2; now apply kept_sst).
  assert (DEC : {map r_uid lp = map r_uid l} + {map r_uid lp <> map r_uid l}) by (apply list_eq_dec; decide equality; apply string_dec).
  destruct DEC as [EQ|NEQ].
  2:{ rewrite (flags_other "POS" pos_names eq_refl pos_nodup lp l1 p ltac:(discriminate) FP KP); [reflexivity| |].
      - apply X; auto; congruence.
      - apply W; congruence. }
  assert (UP : Forall2 (fun r r1 => r_uid r1 = r_uid r) lp l1). { assert (EQ' : map r_uid lp = map r_uid l1) by congruence. clear - EQ'. revert l1 EQ'. induction lp as [|a lp IH]; intros [|b l1] E; try discriminate; constructor; cbn in E; injection E as E1 E2; auto. }
  destruct (flags_back "POS" pos_names eq_refl pos_nodup lp l1 p ltac:(discriminate) FP KP UP) as [l2 [E2 [F2 L2]]]. rewrite E2. cbn [bind].
  assert (UID2 : map r_uid l2 = map r_uid l1).
  { clear - F2 L2 UP. revert l2 F2 L2. induction UP as [|a b lp l1 H UP IH]; intros [|c l2] F2 L2; try discriminate; [reflexivity|]. cbn [combine] in F2. inversion F2 as [|? ? ? ? [_ [K _]] F2']; subst. cbn [map]. cbn [fst snd] in K. f_equal; [exact K|]. apply IH; auto. }
  destruct N as [N|N]; [congruence|].
  apply (flags_other "SST" sst_names eq_refl sst_nodup ls l2 s ltac:(discriminate) FS KS).
  - apply X; auto; congruence.
  - apply W; congruence.
Qed.
Print Assumptions C58_other_reports.

Lemma sorted_unique : forall l l', StronglySorted (fun a b => month_number a < month_number b) l -> StronglySorted (fun a b => month_number a < month_number b) l' -> (forall ym, In ym l <-> In ym l') -> l' = l.
Proof.
  induction l as [|a l IH]; intros [|b l'] S1 S2 H; [reflexivity|exfalso; apply (proj2 (H b)); now left|exfalso; apply (proj1 (H a)); now left|].
  inversion S1 as [|? ? S1' F1]; inversion S2 as [|? ? S2' F2]; subst. rewrite Forall_forall in F1, F2.
  assert (a = b). { destruct (proj1 (H a) (or_introl eq_refl)) as [E|I]; [now symmetry|]. destruct (proj2 (H b) (or_introl eq_refl)) as [E|J]; [exact E|]. specialize (F1 _ J). specialize (F2 _ I). lia. } subst b.
  f_equal. apply IH; auto. intro ym. split; intro I.
  - destruct (proj1 (H ym) (or_intror I)) as [<-|J]; [|exact J]. specialize (F1 _ I). lia.
  - destruct (proj2 (H ym) (or_intror I)) as [<-|J]; [|exact J]. specialize (F2 _ I). lia.
Qed.
(** From the files of the main program to those of the tracking control, for all months from the first to the last. *)
Theorem C58_tracking : forall sp elev sq str_of float_of rnd files p half half' out track_out id target fuel y1 m1 y2 m2 edge run months ls,
  well_defined sp -> distance_like (sp_dist sp) -> elevation_like elev -> (forall a b, a == b -> sq a == sq b)%Q -> track_params_ok p half half' -> numbers_read str_of float_of rnd ->
  ym_ok (y1, m1) -> ym_ok (y2, m2) -> month_number (y1, m1) <= month_number (y2, m2) -> (Z.to_nat (12 * (y2 - y1) + m2 - m1) <= fuel)%nat ->
  (forall ym, In ym months <-> ym_ok ym /\ month_number (y1, m1) <= month_number ym <= month_number (y2, m2)) -> StronglySorted (fun a b => month_number a < month_number b) months ->
  target_of id target -> Forall2 (month_left str_of files out target (tp_runid p)) months ls -> Forall (readable rnd) (concat ls) -> concat ls <> [] -> Forall (fun r => r_id r = Some target) (concat ls) ->
  exists reps, Forall2 (read_back rnd) (concat ls) reps /\
    (Forall stamped reps -> sst_matched reps ->
     (forall i j a b t, (i < j)%nat -> nth_error reps i = Some a -> nth_error reps j = Some b -> r_dt a = r_dt b -> hours_between a b t -> (0 <= t)%Q) ->
     let iq := tp_iquam p in
     let good reps' dir_ok f := exists dir, dir_ok dir /\ track_file str_of reps' target (tp_runid p) dir y2 m2 f in
     exists reps' a b c, tracking_qc sp elev sq str_of float_of files p out track_out id fuel y1 m1 y2 m2 edge run = Ok (Some (a ++ b ++ c)) /\
       Forall2 only_tracked reps reps' /\
       flagged_in "POS" ["drf_agr"] on_track (runs_aground (sp_dist sp) half (tp_aground p)) reps reps' /\
       flagged_in "POS" ["drf_spd"] on_track (picked_up (sp_dist sp) (iq_ship iq) (iq_d iq) (iq_t iq) (iq_n iq) (tp_speed p) (tp_speed_win p)) reps reps' /\
       flagged_in "SST" ["drf_tail1"; "drf_tail2"] fit_for_tails (has_tails elev sq (tp_tail p) half') reps reps' /\
       flagged_in "SST" ["drf_bias"; "drf_noise"; "drf_short"] fit_for_bias (off_background elev sq (tp_bias p)) reps reps' /\
       one_if (In "new" edge \/ In "regular" edge) (good reps' (track_dir track_out y2 m2)) a /\
       one_if (In "start_edge_case" edge) (good reps' (track_edge_dir track_out y2 m2 "start_edge_case" run)) b /\
       one_if (In "end_edge_case" edge) (good reps' (track_edge_dir track_out y2 m2 "end_edge_case" run)) c).
Proof.
  intros sp elev sq str_of float_of rnd files p half half' out track_out id target fuel y1 m1 y2 m2 edge run months ls W D E S PK NR Y1 Y2 LE FU IN SO TG F RD NE IDS.
  assert (MO : Forall ym_ok months) by (apply Forall_forall; intros ym I; apply IN in I; tauto).
  destruct (C58_read_back str_of float_of rnd files out target (tp_runid p) months ls NR MO F RD) as [reps [RM RB]]. exists reps. split; [exact RB|]. intros ST SM MIN iq good.
  assert (T : pad_right 9 id = target).
  { destruct TG as [b [-> [B L]]]. unfold pad_right. f_equal. rewrite length_app_s in L. assert (LB : String.length b = (9 - String.length id)%nat) by lia. rewrite <- LB. clear - B. induction b as [|c b IH]; [reflexivity|]. destruct B as [-> B]. cbn. f_equal. now apply IH. }
  assert (GEN : year_month_gen fuel y1 m1 y2 m2 = Ok (Some months)).
  { destruct (C05_year_month_gen y1 m1 y2 m2 fuel Y1 Y2 LE FU) as [l [G [_ [I' S']]]]. rewrite G. do 2 f_equal. apply (sorted_unique months l); auto. intro ym. rewrite IN, I'. reflexivity. }
  assert (ID' : Forall (fun r => r_id r = Some target /\ printable r /\ getint r "PT" = Some 7) reps).
  { clear - RB RD IDS. induction RB as [|r r' l l' [B1 [B2 [_ [_ [_ [B6 _]]]]]] RB IH]; [constructor|]. inversion RD as [|? ? [[[[u [EU PU]] PI] _] _] RD']; subst. inversion IDS; subst. constructor; [|apply IH; auto].
    split; [congruence|]. split; [|exact B6]. split; [exists u; split; [congruence|exact PU]|]. intros i H. apply PI. congruence. }
  rewrite Forall_forall in ID', ST.
  assert (A : one_drifter reps) by (exists (Some target); apply Forall_forall; intros r I; destruct (ID' r I) as [H1 [_ H2]]; auto).
  assert (B : trackable reps) by (intros r I _; now apply ST).
  assert (C : minutes_in_order reps) by (intros i j a b t L N1 N2 _ _; now apply (MIN i j)).
  destruct (C57_track_checks sp elev sq p half half' reps W D E S PK A B C SM) as [reps' [TC [OT [G1 [G2 [G3 G4]]]]]]. exists reps'.
  assert (NE' : reps' <> []) by (intros ->; inversion OT; subst; inversion RB; congruence).
  assert (DATA : forall r r', only_tracked r r' -> forall la lo d h, located r' la lo d h -> located r la lo d h).
  { intros r r' [_ [_ [K _]]] la lo d h [L1 L2 L3 L4 L5 L6 L7 L8]. assert (GV : forall x, In x VARLIST -> getvar r x = getvar r' x) by (intros x I; unfold getvar; destruct (L_Report3.index_of_In x VARLIST I) as [i [J _]]; rewrite J, K; reflexivity).
    constructor; auto; try (unfold lat, lon, getint in *; rewrite GV by (cbn; tauto); assumption). }
  assert (DATA' : forall r r', only_tracked r r' -> forall la lo d h, located r la lo d h -> located r' la lo d h).
  { intros r r' [_ [_ [K _]]] la lo d h [L1 L2 L3 L4 L5 L6 L7 L8]. assert (GV : forall x, In x VARLIST -> getvar r' x = getvar r x) by (intros x I; unfold getvar; destruct (L_Report3.index_of_In x VARLIST I) as [i [J _]]; rewrite J, K; reflexivity).
    constructor; auto; try (unfold lat, lon, getint in *; rewrite GV by (cbn; tauto); assumption). }
  assert (P' : Forall (fun r => r_id r = Some target /\ printable r /\ stamped r) reps').
  { apply Forall_forall. intros r' I. destruct (In_nth_error _ _ I) as [i N]. destruct (Forall2_nth_back _ _ _ _ _ OT _ _ N) as [r [N' O]]. apply nth_error_In in N'. destruct (ID' r N') as [H1 [[H2 H3] _]].
    pose proof (ST r N') as [la [lo [d [h [mi [LC [H4 [H5 [H6 H7]]]]]]]]]. pose proof (DATA' r r' O) as DT. destruct O as [O1 [O2 [_ [O4 _]]]]. split; [congruence|]. split; [split; [destruct H2 as [u [H2 H2']]; exists u; split; [congruence|exact H2']|intros x K; apply H3; congruence]|].
    exists la, lo, d, h, mi. split; [now apply DT|]. rewrite O4. tauto. }
  assert (MIN' : forall i j a b t, (i < j)%nat -> nth_error reps' i = Some a -> nth_error reps' j = Some b -> r_dt a = r_dt b -> hours_between a b t -> (0 <= t)%Q).
  { intros i j a' b' t L Na Nb DT [la [lo [d [h [la' [lo' [d' [h' [LA [LB EL]]]]]]]]]]. destruct (Forall2_nth_back _ _ _ _ _ OT _ _ Na) as [a [Na' OA]]. destruct (Forall2_nth_back _ _ _ _ _ OT _ _ Nb) as [b [Nb' OB]].
    apply (MIN i j a b t L Na' Nb'); [destruct OA as [_ [_ [_ [OA _]]]], OB as [_ [_ [_ [OB _]]]]; congruence|]. exists la, lo, d, h, la', lo', d', h'. eauto. }
  destruct (C57_output sp str_of reps' target p track_out edge run y2 m2) as [voy [a [b [c [WR [TO [O1 [O2 O3]]]]]]]].
  { intros n q. exact (proj1 (proj1 NR n q)). } { exact NE'. } { unfold ym_ok in Y2. cbn in Y2. lia. } { exact P'. } { exact MIN'. }
  exists a, b, c. split; [|tauto].
  unfold tracking_qc. rewrite T, GEN. cbn [bind]. rewrite RM. cbn [bind]. destruct reps as [|r0 reps0]; [inversion RB; congruence|]. rewrite TC. cbn [bind]. rewrite WR. cbn [bind]. rewrite TO. reflexivity.
Qed.
Print Assumptions C58_tracking.

(* ---- numbers printed in hundredths ---- *)

Definition hundredths (q : Q) : Z := Qfloor (100 * q).
Definition toy_str (v : string) (q : Q) : string := (str_of_int (hundredths q) ++ "e-2")%string.
Fixpoint before_e (s : string) : option string :=
  match s with EmptyString => None | String c s' => if Ascii.eqb c "e" then Some EmptyString else option_map (String c) (before_e s') end.
Definition toy_float (s : string) : res Q :=
  match before_e s with
  | Some a => let! z := int_of_str a in Ok (inject_Z z / 100)%Q
  | None => let! z := int_of_str s in Ok (inject_Z z)
  end.
Definition toy_rnd (v : string) (q : Q) : Q := (inject_Z (hundredths q) / 100)%Q.
Lemma int_text_chars : forall z s, int_text z s -> chars (fun c => (48 <= Z.of_nat (nat_of_ascii c) <= 57) \/ c = "-"%char) s.
Proof.
  assert (D : forall s z, decimal s z -> chars (fun c => (48 <= Z.of_nat (nat_of_ascii c) <= 57) \/ c = "-"%char) s).
  { intros s z H. induction H as [c d [H1 H2]|s c z d H IH [H1 H2]]; [|apply chars_app; split; [exact IH|]]; (split; [left; lia|exact I]). }
  intros z s [[_ [H _]]|[_ [s' [-> [H _]]]]]; [exact (D _ _ H)|]. split; [now right|exact (D _ _ H)].
Qed.
Lemma before_e_none : forall s, chars (fun c => c <> "e"%char) s -> before_e s = None.
Proof. induction s as [|c s IH]; [reflexivity|]. intros [H K]. cbn [before_e]. destruct (Ascii.eqb_spec c "e"); [contradiction|]. now rewrite IH. Qed.
Lemma before_e_some : forall s t, chars (fun c => c <> "e"%char) s -> before_e (s ++ String "e" t)%string = Some s.
Proof. induction s as [|c s IH]; intro t; [reflexivity|]. intros [H K]. cbn [before_e append]. destruct (Ascii.eqb_spec c "e"); [contradiction|]. now rewrite IH. Qed.
Lemma number_char : forall c, (48 <= Z.of_nat (nat_of_ascii c) <= 57) \/ c = "-"%char -> c <> "e"%char /\ ~ white c /\ c <> ","%char /\ c <> """"%char /\ c <> "013"%char.
Proof.
  intros c H. repeat split; intro K; try (subst c; destruct H as [H|H]; [vm_compute in H; intuition lia|discriminate]).
  cbn in K. repeat destruct K as [<-|K]; try contradiction; destruct H as [H|H]; try discriminate; vm_compute in H; intuition lia.
Qed.
Lemma toy_numbers : numbers_read toy_str toy_float toy_rnd.
Proof.
  split.
  - intros v q. unfold toy_str. pose proof (str_of_int_int_text (hundredths q)) as T. pose proof (int_text_chars _ _ T) as C. set (s := str_of_int (hundredths q)) in *.
    assert (X : forall P : ascii -> Prop, (forall c, (48 <= Z.of_nat (nat_of_ascii c) <= 57) \/ c = "-"%char -> P c) -> chars P s) by (intros P H; eapply chars_impl; [|exact C]; exact H).
    split; [split|split].
    + destruct s; discriminate.
    + apply chars_app. split; [apply X; intros c H; destruct (number_char c H) as [_ [A [B _]]]; auto|]. cbn. repeat split; try discriminate; intro W; apply is_space_white in W; discriminate.
    + split; [apply chars_app; split; [apply X; intros c H; destruct (number_char c H) as [_ [_ [_ [A B]]]]; auto|cbn; repeat split; discriminate]|].
      intro E. apply (f_equal before_e) in E. cbn [append] in E. change ("e-2")%string with (String "e" "-2") in E. rewrite before_e_some in E by (apply X; intros c H; apply (number_char c H)). discriminate.
    + unfold toy_float. change ("e-2")%string with (String "e" "-2"). rewrite before_e_some by (apply X; intros c H; apply (number_char c H)). rewrite (int_of_str_complete _ _ (int_text_integer _ _ T)). reflexivity.
  - intros z s T. unfold toy_float. rewrite before_e_none by (eapply chars_impl; [|exact (int_text_chars _ _ T)]; intros c H; apply (number_char c H)). rewrite (int_of_str_complete _ _ (int_text_integer _ _ T)). reflexivity.
Qed.
Definition lookup (fs : list (string * string)) (path : string) : option string := assoc path fs.
Definition written_month (reps : list report) : list (string * string) :=
  match voyage_write_output toy_str reps "run" "out/2000/01" 2000 1 with Ok fs => fs | Err _ => [] end.

(** Two months, nothing in the first; the twelve reports of the second are written, read and checked. *)
Example C58_ex : let files := lookup (written_month ten_days) in
  numbers_read toy_str toy_float toy_rnd /\ target_of "12345" "12345    " /\ Forall2 (month_left toy_str files "out" "12345    " "run") [(1999, 12); (2000, 1)] [[]; ten_days] /\
  Forall (readable toy_rnd) (concat [[]; ten_days]) /\ Forall (fun r => r_id r = Some "12345    ") (concat [[]; ten_days]) /\
  (exists reps, Forall2 (read_back toy_rnd) (concat [[]; ten_days]) reps /\ read_months toy_float files "out" "12345    " "run" [(1999, 12); (2000, 1)] = Ok reps) /\
  match tracking_qc plane toy_sun (fun x => x) toy_str toy_float files toy_track "out" "track" "12345" 5 1999 12 2000 1 ["regular"] "r" with
  | Ok (Some [(name, content)]) => name = "track/TrackingQC/2000/01/Tracking_200001_12345    _run.csv" /\ count_lines content true = 13
  | _ => False
  end.
Proof.
  assert (RD : Forall (readable toy_rnd) ten_days).
  { assert (X : Forall a_buoy ten_days) by exact ten_days_buoys. eapply Forall_impl; [|exact (Forall_and X (proj2 (Forall_forall (fun r => In r ten_days) ten_days) (fun r I => I)))]. intros r [[d [la [s [b [D [_ ->]]]]]] I].
    split; [|split].
    - split; [split; [exists "U1"; split; [reflexivity|cbn; repeat split; discriminate]|intros i E; injection E as <-; cbn; repeat split; discriminate]|].
      split; [intros u E; injection E as <-|intros u E; injection E as <-]; (split; [cbn; repeat split; discriminate|discriminate]).
    - intros y m d' h Y M _ H. cbn in Y, M, H. injection Y as <-. injection M as <-. injection H as <-. split; [vm_compute; split; discriminate|]. intros _. split; [vm_compute; split; discriminate|split; [discriminate|reflexivity]].
    - intros t f K. assert (B : b = 0 \/ b = 1). { clear - I. unfold ten_days in I. repeat destruct I as [I|I]; try contradiction; injection I as _ _ _ <-; auto. }
      clear I. cbn in K. repeat (destruct K as [K|K]; [injection K as <- <-; destruct B as [-> | ->]; vm_compute; split; discriminate|]). destruct K. }
  assert (IDS : Forall (fun r => r_id r = Some "12345    ") ten_days) by (repeat constructor).
  assert (PK : picked (of_month 2000 1) ten_days ten_days) by (repeat (constructor; [split; reflexivity|]); constructor).
  assert (PR : Forall printable ten_days) by (eapply Forall_impl; [|exact RD]; intros r [[H _] _]; exact H).
  assert (ML : Forall2 (month_left toy_str (lookup (written_month ten_days)) "out" "12345    " "run") [(1999, 12); (2000, 1)] [[]; ten_days]).
  { constructor; [left; split; [reflexivity|]; intros kind K; eexists; split; [eexists _, _; split; [apply str_of_int_int_text|split; [apply zero_pad_padded; cbn; lia|reflexivity]]|]; cbn in K; repeat destruct K as [<-|K]; try contradiction; vm_compute; reflexivity|].
    constructor; [|constructor].
    destruct (C58_written toy_str (fun n q => proj1 (proj1 toy_numbers n q)) (hd nowhere ten_days) (tl ten_days) ten_days "run" "out" 2000 1 "12345    " (str_of_int 2000) (zero_pad 2 1) ltac:(unfold ym_ok; cbn; lia) (str_of_int_int_text _) (zero_pad_padded 2 1 ltac:(lia) ltac:(lia)) PK PR eq_refl) as [fs [E H]].
    { repeat (apply A_char; [discriminate|discriminate|]). apply A_nil. }
    apply H. assert (E' : written_month ten_days = fs). { unfold written_month. change (voyage_write_output toy_str ten_days "run" "out/2000/01" 2000 1) with (voyage_write_output toy_str (hd nowhere ten_days :: tl ten_days) "run" ("out" ++ "/" ++ str_of_int 2000 ++ "/" ++ zero_pad 2 1)%string 2000 1). rewrite E. reflexivity. }
    rewrite <- E'. clear. intros path content I. vm_compute in I. repeat destruct I as [I|I]; try contradiction; injection I as <- <-; vm_compute; reflexivity. }
  cbv zeta. split; [exact toy_numbers|]. split; [exists "    "; split; [reflexivity|split; [cbn; repeat split|reflexivity]]|]. split; [exact ML|]. split; [exact RD|]. split; [exact IDS|]. split.
  - destruct (C58_read_back toy_str toy_float toy_rnd _ "out" "12345    " "run" [(1999, 12); (2000, 1)] _ toy_numbers ltac:(repeat constructor; unfold ym_ok; cbn; lia) ML RD) as [reps [A B]]. exists reps. auto.
  - vm_compute. split; reflexivity.
Qed.

(** Findings. *)
(** The main program replaces stars and slashes in the name of the file of variables, the tracking control does not: for such a
    platform it stops. *)
Definition named (i : string) : report :=
  {| r_id := Some i; r_uid := Some "U1"; r_data := r_data (buoy 1 5 5 0); r_dt := r_dt (buoy 1 5 5 0); r_qc := clean 0; r_ext := r_ext (buoy 1 5 5 0); r_clim := [] |}.
Theorem C58_unsafe_id_refuted : exists r id fs, readable toy_rnd r /\ r_id r = Some id /\ of_month 2000 1 r /\
  voyage_write_output toy_str [r] "run" "out/2000/01" 2000 1 = Ok fs /\ read_month toy_float (lookup fs) "out" id "run" 2000 1 = Err OtherError.
Proof.
  exists (named "12*45    "), "12*45    ". destruct (voyage_write_output toy_str [named "12*45    "] "run" "out/2000/01" 2000 1) as [fs|e] eqn:E; [|vm_compute in E; discriminate]. exists fs.
  split; [|split; [reflexivity|split; [split; reflexivity|split; [reflexivity|]]]].
  - split; [|split].
    + split; [split; [exists "U1"; split; [reflexivity|cbn; repeat split; discriminate]|intros i E'; injection E' as <-; cbn; repeat split; discriminate]|].
      split; intros u E'; injection E' as <-; (split; [cbn; repeat split; discriminate|discriminate]).
    + intros y m d' h Y M _ H. cbn in Y, M, H. injection Y as <-. injection M as <-. injection H as <-. split; [vm_compute; split; discriminate|]. intros _. split; [vm_compute; split; discriminate|split; [discriminate|reflexivity]].
    + intros t f K. cbn in K. repeat (destruct K as [K|K]; [injection K as <- <-; vm_compute; split; discriminate|]). destruct K.
  - vm_compute in E. apply ok_inj in E. subst fs. vm_compute. reflexivity.
Qed.
Print Assumptions C58_unsafe_id_refuted.
(** An identifier with a quotation mark is read back as another one. *)
Theorem C58_quote_refuted : exists r id fs r', printable r /\ r_id r = Some id /\ made_safe id id /\ of_month 2000 1 r /\
  voyage_write_output toy_str [r] "run" "out/2000/01" 2000 1 = Ok fs /\ read_month toy_float (lookup fs) "out" id "run" 2000 1 = Ok [r'] /\ r_id r' <> r_id r.
Proof.
  exists (named "12""45    "), "12""45    ". destruct (voyage_write_output toy_str [named "12""45    "] "run" "out/2000/01" 2000 1) as [fs|e] eqn:E; [|vm_compute in E; discriminate]. exists fs.
  vm_compute in E. apply ok_inj in E. subst fs. eexists. split; [split; [exists "U1"; split; [reflexivity|cbn; repeat split; discriminate]|intros i E'; injection E' as <-; cbn; repeat split; discriminate]|].
  split; [reflexivity|]. split; [repeat (apply A_char; [discriminate|discriminate|]); apply A_nil|]. split; [split; reflexivity|]. split; [reflexivity|]. split; [vm_compute; reflexivity|]. discriminate.
Qed.
Print Assumptions C58_quote_refuted.
