(** C81 runs that are interrupted, repeated, shared out. *)
Require Import String Ascii ZArith QArith Qround List Bool Lia Sorted Permutation.
Require Import Verif.M_Base Verif.L_Base Verif.S_Calendar Verif.M_Calendar Verif.M_Report Verif.S_Report Verif.M_Imma Verif.S_Imma Verif.L_Imma Verif.M_Files Verif.S_Files Verif.L_Files Verif.M_Print Verif.S_Print Verif.L_Print Verif.L_Track5
  Verif.M_Voyage Verif.M_Track Verif.M_Grid Verif.M_Buddy Verif.M_ImmaTables Verif.M_BaseQC Verif.P_Voyage Verif.P_Buddy Verif.P_BaseQC Verif.M_Tracking Verif.M_Main Verif.S_Main Verif.P_Calendar Verif.P_Main Verif.P_Tracking Verif.S_Reading Verif.L_Reading Verif.L_Reading2 Verif.L_Reading3 Verif.P_Reading
  Verif.M_Disk Verif.S_Disk Verif.L_Disk Verif.L_Cut.
Import ListNotations.
Open Scope string_scope.
Open Scope list_scope.
Open Scope Z_scope.

(** After a run every file it writes is there, complete, whatever was there before; all other files are as before. *)
Theorem C81_written : forall E fuel y1 m1 y2 m2 files d path, run E fuel y1 m1 y2 m2 = Ok (Some files) ->
  (In path (map fst files) -> exists content, In (path, content) files /\ store files d path = Some content) /\
  (~ In path (map fst files) -> store files d path = d path).
Proof.
  intros E fuel y1 m1 y2 m2 files d path _. split.
  - intro I. destruct (store_some files path I) as [c [A B]]. eauto.
  - apply store_none.
Qed.
Print Assumptions C81_written.

(** A run stopped at any point, any number of times, then repeated to its end, leaves the same files as a run that was never stopped. *)
Theorem C81_repeat : forall E fuel y1 m1 y2 m2 files d d', run E fuel y1 m1 y2 m2 = Ok (Some files) -> stopped_often files d d' ->
  same_files (store files d') (store files d).
Proof.
  intros E fuel y1 m1 y2 m2 files d d' _ S path. destruct (in_dec string_dec path (map fst files)) as [I|N].
  - destruct (store_some files path I) as [c [_ B]]. now rewrite !B.
  - rewrite !store_none by exact N. exact (stopped_paths _ _ _ S path N).
Qed.
Print Assumptions C81_repeat.

(** A run over many months is a run over the first of them followed by a run over the others: the same files in the same order, and
    one succeeds if the other does. *)
Theorem C81_divided : forall E y1 m1 y m y2 m2 fuel fuel1 fuel2 out, 1 <= m1 <= 12 -> 1 <= m <= 12 -> 1 <= m2 <= 12 ->
  month_number (y1, m1) <= month_number (y, m) -> month_number (y, m) < month_number (y2, m2) ->
  (Z.to_nat (12 * (y2 - y1) + m2 - m1) <= fuel)%nat -> (Z.to_nat (12 * (y - y1) + m - m1) <= fuel1)%nat -> (Z.to_nat (12 * (y2 - y) + m2 - m) <= fuel2)%nat ->
  (run E fuel y1 m1 y2 m2 = Ok (Some out) <->
   exists a b, run E fuel1 y1 m1 y m = Ok (Some a) /\ run E fuel2 (fst (month_after y m)) (snd (month_after y m)) y2 m2 = Ok (Some b) /\ out = a ++ b).
Proof.
  intros E y1 m1 y m y2 m2 fuel fuel1 fuel2 out M1 M M2 L1 L2 F F1 F2. unfold month_number in L1, L2. cbn [fst snd] in L1, L2.
  destruct (month_after y m) as [y' m'] eqn:MA. cbn [fst snd]. assert (NX : 1 <= m' <= 12 /\ 12 * y' + (m' - 1) = 12 * y + (m - 1) + 1) by (unfold month_after in MA; destruct (Z.eqb_spec m 12); injection MA as <- <-; lia).
  destruct NX as [M' NX].
  destruct (C05_year_month_gen y1 m1 y2 m2 fuel M1 M2 ltac:(unfold month_number; cbn [fst snd]; lia) F) as [l [G [_ [I S]]]].
  destruct (C05_year_month_gen y1 m1 y m fuel1 M1 M ltac:(unfold month_number; cbn [fst snd]; lia) F1) as [la [Ga [_ [Ia Sa]]]].
  destruct (C05_year_month_gen y' m' y2 m2 fuel2 M' M2 ltac:(unfold month_number; cbn [fst snd]; lia) ltac:(lia)) as [lb [Gb [_ [Ib Sb]]]].
  assert (EL : l = la ++ lb).
  { apply sorted_same; [exact S|apply sorted_app; [exact Sa|exact Sb|]|].
    - intros a b A B. apply Ia in A. apply Ib in B. unfold month_number in *. cbn [fst snd] in *. lia.
    - intro ym. rewrite in_app_iff, I, Ia, Ib. unfold month_number. cbn [fst snd]. split; [intros [O R]|intros [[O R]|[O R]]].
      + assert (12 * fst ym + (snd ym - 1) <= 12 * y + (m - 1) \/ 12 * y' + (m' - 1) <= 12 * fst ym + (snd ym - 1)) by lia. intuition lia.
      + split; [exact O|lia].
      + split; [exact O|lia]. }
  unfold run. rewrite G, Ga, Gb. cbn [bind]. rewrite EL, run_months_app. destruct (run_months E la) as [a|e]; cbn [bind].
  - destruct (run_months E lb) as [b|e]; cbn [bind].
    + split; [intro H; exists a, b; injection H as <-; auto|]. intros [a' [b' [A [B ->]]]]. injection A as <-. injection B as <-. reflexivity.
    + split; [discriminate|]. intros [a' [b' [_ [B _]]]]. discriminate.
  - split; [discriminate|]. intros [a' [b' [A _]]]. discriminate.
Qed.
Print Assumptions C81_divided.

(** The months can be shared out among programs running at the same time, in any order, one writing between the files of the
    other: with a directory for each month, the files left are those of one run. *)
Theorem C81_any_order : forall E base y1 m1 y2 m2 fuel out months parts files d, (forall y m, ym_ok (y, m) -> month_dir base y m (e_dir E y m)) ->
  1 <= m1 <= 12 -> 1 <= m2 <= 12 -> month_number (y1, m1) <= month_number (y2, m2) -> (Z.to_nat (12 * (y2 - y1) + m2 - m1) <= fuel)%nat ->
  run E fuel y1 m1 y2 m2 = Ok (Some out) ->
  months_between (y1, m1) (y2, m2) months -> Forall2 (fun ym part => run_month E (fst ym) (snd ym) = Ok part) months parts ->
  interleaved parts files -> same_files (store files d) (store out d).
Proof.
  intros E base y1 m1 y2 m2 fuel out months parts files d D M1 M2 L F H [ND B] P IL path.
  destruct (C44_run E y1 m1 y2 m2 fuel _ M1 M2 L F H) as [months0 [parts0 [I [S [P0 EO]]]]]. injection EO as ->.
  assert (PE : Permutation months months0) by (apply NoDup_Permutation; [exact ND|now apply sorted_nodup|]; intro ym; rewrite B, I; reflexivity).
  destruct (parts_perm E months months0 parts PE P) as [parts1 [PP P1]]. rewrite (parts_unique E months0 parts1 parts0 P1 P0) in PP.
  pose proof (parts_apart E base months parts D ND (proj2 (Forall_forall _ _) (fun ym I => proj1 (proj1 (B ym) I))) P) as A. pose proof (parts_apart E base months0 parts0 D (sorted_nodup _ S) (proj2 (Forall_forall _ _) (fun ym J => proj1 (proj1 (I ym) J))) P0) as A0.
  rewrite (interleaved_store parts files d IL A). now apply apart_perm_store.
Qed.
Print Assumptions C81_any_order.

(** Files of an earlier run are never removed: if a new run writes none of the three files of a platform and a month, the tracking
    control goes on reading the old ones. *)
Theorem C81_stale_refuted : forall E fuel y1 m1 y2 m2 files d float_of out id runid ym, run E fuel y1 m1 y2 m2 = Ok (Some files) -> ym_ok ym ->
  (forall kind path, In kind month_kinds -> month_path kind out id runid ym path -> ~ In path (map fst files)) ->
  read_month float_of (store files d) out id runid (fst ym) (snd ym) = read_month float_of d out id runid (fst ym) (snd ym).
Proof.
  intros E fuel y1 m1 y2 m2 files d float_of out id runid [y m] _ M H. unfold ym_ok in M. cbn [fst snd] in *.
  assert (X : forall kind, In kind month_kinds -> store files d (month_file kind out id runid y m) = d (month_file kind out id runid y m)).
  { intros kind I. apply store_none. apply (H kind _ I). exists (str_of_int y), (zero_pad 2 m). cbn [fst snd]. split; [apply str_of_int_int_text|]. split; [apply zero_pad_padded; lia|reflexivity]. }
  unfold read_month. rewrite !X by (cbn; tauto). reflexivity.
Qed.
Print Assumptions C81_stale_refuted.

(** Flag files that were cut short do no harm: the tracking control stops, or has read the flags of every report. *)
Lemma add_flags_length : forall type names lines reps reps', add_flags type names lines reps = Ok reps' -> length reps' = length reps.
Proof.
  intros type names. induction lines as [|[line longer] lines IH]; intros reps reps' H; cbn [add_flags] in H; [now injection H as <-|].
  destruct reps as [|r reps]; [discriminate|]. destruct (row_flags type line names r) as [r'|e]; [|discriminate]. cbn [bind] in H. destruct longer; [discriminate|].
  destruct (add_flags type names lines reps) as [l|e] eqn:K; [|discriminate]. cbn [bind] in H. injection H as <-. cbn. now rewrite (IH _ _ K).
Qed.
Lemma read_flags_length : forall type text reps reps', read_flags type text reps = Ok reps' -> length reps' = length reps.
Proof.
  intros type text reps reps' H. unfold read_flags in H. destruct (cut_line text) as [h rest]. destruct (csv_read rest) as [rows|e]; [|discriminate]. cbn [bind] in H. exact (add_flags_length _ _ _ _ _ H).
Qed.
Theorem C81_cut_flags : forall str_of float_of rnd d out id runid ym l v p s p' s', numbers_read str_of float_of rnd -> ym_ok ym ->
  variable_file str_of documented_voyage_vars l v -> flag_file "POS" (nth 0 (map snd documented_voyage_flags) []) l p -> flag_file "SST" (nth 1 (map snd documented_voyage_flags) []) l s ->
  Forall (readable rnd) l -> begins p' p -> begins s' s ->
  month_holds d out id runid ym "Variables" v -> month_holds d out id runid ym "POS_qc" p' -> month_holds d out id runid ym "SST_qc" s' ->
  (exists e, read_month float_of d out id runid (fst ym) (snd ym) = Err e) \/
  (exists reps, read_month float_of d out id runid (fst ym) (snd ym) = Ok reps /\ Forall2 (read_back rnd) l reps).
Proof.
  intros str_of float_of rnd d out id runid [y m] l v p s p' s' NR [M M2] FV FP FS A [xp BP] [xs BS] V P S. cbn [fst snd] in *.
  unfold read_month. rewrite (holds_eq d out id runid y m _ _ ltac:(lia) V), (holds_eq d out id runid y m _ _ ltac:(lia) P), (holds_eq d out id runid y m _ _ ltac:(lia) S).
  assert (CV : count_lines v true = Z.of_nat (Datatypes.S (length l))) by (destruct FV as [rv [C G]]; rewrite (count_rows _ _ C); cbn [length]; now rewrite <- (Forall2_length _ _ _ _ _ G)).
  rewrite CV. destruct (count_lines p' true =? Z.of_nat (Datatypes.S (length l))) eqn:EP; [|rewrite orb_true_r; left; eexists; reflexivity].
  destruct (count_lines s' true =? Z.of_nat (Datatypes.S (length l))) eqn:ES; [|rewrite !orb_true_r; left; eexists; reflexivity].
  replace (Z.of_nat (Datatypes.S (length l)) =? 0) with false by lia. cbn [negb orb]. apply Z.eqb_eq in EP, ES.
  destruct (contents_back str_of float_of rnd NR l v p s FV FP FS A) as [reps [R B]].
  destruct (variables_back str_of float_of rnd NR l v FV) as [l1 [E1 F1]]; [eapply Forall_impl; [|exact A]; intros r [H1 [H2 _]]; auto|]. rewrite E1 in *. cbn [bind] in *.
  assert (L1 : length l1 = length l) by (symmetry; exact (Forall2_length _ _ _ _ _ F1)).
  destruct (flags_cut "POS" pos_names pos_nodup ltac:(discriminate) l l1 p p' xp FP ltac:(now symmetry) EP) as [[e E]|E]; [|exact L1|rewrite E; left; eexists; reflexivity|].
  { eapply Forall_impl; [|exact A]. intros r [H1 [_ H2]]. split; [exact H1|]. intros f I. apply H2. now apply kept_pos. }
  rewrite E. destruct (read_flags "POS" p l1) as [l2|e] eqn:E2; [|left; eexists; reflexivity]. cbn [bind] in *.
  destruct (flags_cut "SST" sst_names sst_nodup ltac:(discriminate) l l2 s s' xs FS ltac:(now symmetry) ES) as [[e E']|E']; [|rewrite (read_flags_length _ _ _ _ E2); exact L1|left; exists e; exact E'|].
  { eapply Forall_impl; [|exact A]. intros r [H1 [_ H2]]. split; [exact H1|]. intros f I. apply H2. now apply kept_sst. }
  right. exists reps. rewrite E'. auto.
Qed.
Print Assumptions C81_cut_flags.

(** But the file of variables cut short in its last line is read as if it were whole.  Here a run is repeated and stopped while it
    writes the file of variables of a platform, over the files of the run before: the control reads the last value of the last
    report, 0.01, as 1. *)
Definition shorter (n : nat) (s : string) : string := substring 0 (String.length s - n) s.
Definition torn_disk (files : list file) (path : string) (n : nat) (d : disk) : disk :=
  fun q => if String.eqb q path then option_map (shorter n) (lookup files path) else d q.
Lemma shorter_begins : forall n s, begins (shorter n s) s.
Proof.
  intros n s. unfold shorter. generalize (String.length s - n)%nat. intro k. revert k. induction s as [|c s IH]; intros [|k]; cbn; try (eexists; reflexivity). destruct (IH k) as [t E]. exists t. cbn. now rewrite <- E.
Qed.
Theorem C81_cut_variables_refuted : exists str_of float_of rnd files d d' out id runid ym l reps, numbers_read str_of float_of rnd /\ ym_ok ym /\
  d = lookup files /\ month_left str_of d out id runid ym l /\ Forall (readable rnd) l /\ stopped files d d' /\ same_files (store files d') d /\
  read_month float_of d' out id runid (fst ym) (snd ym) = Ok reps /\ ~ Forall2 (read_back rnd) l reps /\
  (exists r r', nth_error l 11 = Some r /\ nth_error reps 11 = Some r' /\ getvar r "BGVAR" = Some (1 # 100)%Q /\ getext r' "BGVAR" = Ok (Some 1%Q)).
Proof.
  pose (files := written_month ten_days). pose (vp := "out/2000/01/Variables_200001_12345    _run.csv"). pose (d := lookup files). pose (d' := torn_disk files vp 4 d).
  destruct C58_ex as [NR [_ [ML [RD _]]]]. cbn [concat app] in RD. inversion ML as [|? ? ? ? _ ML']; subst. inversion ML' as [|? ? ? ? ML1 _]; subst.
  assert (R : exists reps, read_month toy_float d' "out" "12345    " "run" 2000 1 = Ok reps /\ exists r', nth_error reps 11 = Some r' /\ getext r' "BGVAR" = Ok (Some 1%Q)).
  { destruct (read_month toy_float d' "out" "12345    " "run" 2000 1) as [reps|e] eqn:E; [|exfalso; vm_compute in E; discriminate E]. exists reps. split; [reflexivity|]. vm_compute in E. injection E as <-. eexists. split; reflexivity. }
  destruct R as [reps [E [r' [N G]]]].
  exists toy_str, toy_float, toy_rnd, files, d, d', "out", "12345    ", "run", (2000, 1), ten_days, reps. split; [exact NR|]. split; [unfold ym_ok; cbn; lia|]. split; [reflexivity|]. split; [exact ML1|].
  split; [rewrite app_nil_r in RD; exact RD|].
  assert (ST : stopped files d d').
  { intro path. unfold d', torn_disk. destruct (String.eqb_spec path vp) as [->|_]; [right|now left]. unfold lookup.
    destruct (assoc vp files) as [c|] eqn:A; [|vm_compute in A; discriminate A]. exists c, (shorter 4 c). split; [|split; [apply shorter_begins|reflexivity]].
    clear - A. induction files as [|[k v] l IH]; [discriminate|]. cbn [assoc] in A. destruct (String.eqb_spec vp k) as [->|_]; [injection A as ->; now left|right; auto]. }
  split; [exact ST|]. split.
  { intro path. unfold d', torn_disk, d, lookup. assert (L : exists a b c, files = [(vp, a); ("out/2000/01/POS_qc_200001_12345    _run.csv", b); ("out/2000/01/SST_qc_200001_12345    _run.csv", c)]) by (eexists _, _, _; vm_compute; reflexivity).
    destruct L as [a [b [c L]]]. rewrite L. unfold store. cbn [fold_left write_file fst snd assoc]. unfold write_file. cbn [fst snd].
    destruct (String.eqb_spec path "out/2000/01/SST_qc_200001_12345    _run.csv") as [->|N1]; [reflexivity|]. destruct (String.eqb_spec path "out/2000/01/POS_qc_200001_12345    _run.csv") as [->|N2]; [reflexivity|].
    destruct (String.eqb_spec path vp); reflexivity. }
  split; [exact E|].
  assert (NT : exists r, nth_error ten_days 11 = Some r /\ getvar r "BGVAR" = Some (1 # 100)%Q) by (eexists; split; reflexivity). destruct NT as [r [N0 G0]]. split.
  - intro F. assert (B : read_back toy_rnd r r').
    { clear - F N N0. set (i := 11%nat) in *. clearbody i. revert i N N0. induction F as [|a b l l' H F IH]; intros [|i] N N0; try discriminate; cbn in N, N0; [injection N as <-; injection N0 as <-; exact H|eauto]. }
    destruct B as [_ [_ [_ [_ [_ [_ [_ [B _]]]]]]]]. specialize (B "BGVAR" ltac:(cbn; tauto)). rewrite G, G0 in B. injection B as B. vm_compute in B. discriminate B.
  - exists r, r'. auto.
Qed.
Print Assumptions C81_cut_variables_refuted.

(** Two months written by two programs, the files of one between those of the other. *)
Definition small_dirs : setup :=
  {| e_tables := imma_tables; e_excluded := ["SHIP9    "]; e_lines := small_files; e_lib := fun _ _ => Some (grid 73 180 360 10); e_bgvar := fun _ => Ok (grid 73 180 360 1); e_ostia := day_field;
     e_hum := fun r => Ok r; e_elev := sun0; e_base := ex_p; e_sphere := flat; e_prt := fun q => q;
     e_track := {| tk_dir := 60; tk_speed := 10; tk_abs := 40; tk_mid := 150 |}; e_iquam := {| iq_buoy := 15; iq_ship := 60; iq_d := 10; iq_t := 1; iq_n := 5 |};
     e_spike := {| sk_space := 1 # 2; sk_time := 1 # 1; sk_ship := 1; sk_buoy := 1; sk_n := 5 |}; e_sat := (48%Q, 4); e_round := (20, 1 # 2); e_rep := (20, 7 # 10);
     e_xspan := near; e_sqrt := fun q => q; e_gross := fun _ _ _ _ => Some 0%Q; e_sd_old := grid 73 180 360 1; e_sd1 := grid 73 180 360 1; e_sd2 := grid 73 180 360 1; e_sd3 := grid 73 180 360 1;
     e_radius := (1, 1, 2); e_sigma_m := 1; e_noise := 1; e_buddy := (old_limits, old_thresholds, old_multipliers); e_slp_buddy := (old_limits, old_thresholds, old_multipliers);
     e_str_of := fun _ _ => "1.0"; e_runid := "RUN"; e_dir := fun y m => ("OUT/" ++ str_of_int y ++ "/" ++ zero_pad 2 m)%string; e_tracking := false |}.
Example C81_ex : let E := small_dirs in (forall y m, ym_ok (y, m) -> month_dir "OUT/" y m (e_dir E y m)) /\
  exists out p2 p3, run E 5 1987 2 1987 3 = Ok (Some out) /\ months_between (1987, 2) (1987, 3) [(1987, 3); (1987, 2)] /\
  Forall2 (fun ym part => run_month E (fst ym) (snd ym) = Ok part) [(1987, 3); (1987, 2)] [p3; p2] /\ length p3 = 7%nat /\ length p2 = 7%nat /\
  (exists files, interleaved [p3; p2] files /\ files <> p3 ++ p2 /\ files <> p2 ++ p3) /\ stopped_often out (fun _ => None) (store p2 (fun _ => None)).
Proof.
  cbv zeta. split; [intros y m M; exists (str_of_int y), (zero_pad 2 m); split; [apply str_of_int_int_text|]; split; [apply zero_pad_padded; unfold ym_ok in M; cbn in M; lia|reflexivity]|].
  assert (L3 : exists p3, run_month small_dirs 1987 3 = Ok p3 /\ exists a a' l, p3 = a :: a' :: l /\ length l = 5%nat /\ fst a = "OUT/1987/03/Variables_198703_RUN.csv")
    by (eexists; split; [vm_compute; reflexivity|]; eexists _, _, _; split; [reflexivity|split; reflexivity]).
  assert (L2 : exists p2, run_month small_dirs 1987 2 = Ok p2 /\ exists a a' l, p2 = a :: a' :: l /\ length l = 5%nat /\ fst a = "OUT/1987/02/Variables_198702_RUN.csv" /\ fst a' <> "OUT/1987/03/Variables_198703_RUN.csv")
    by (eexists; split; [vm_compute; reflexivity|]; eexists _, _, _; split; [reflexivity|split; [reflexivity|split; [reflexivity|discriminate]]]).
  destruct L2 as [p2 [R2 L2]]. destruct L3 as [p3 [R3 L3]]. set (out := p2 ++ p3). assert (EO : out = p2 ++ p3) by reflexivity. clearbody out.
  assert (R : run small_dirs 5 1987 2 1987 3 = Ok (Some out)).
  { unfold run. assert (G : year_month_gen 5 1987 2 1987 3 = Ok (Some [(1987, 2); (1987, 3)])) by (vm_compute; reflexivity). rewrite G. cbn [bind run_months]. rewrite R2, R3. cbn [bind]. rewrite app_nil_r, EO. reflexivity. }
  exists out, p2, p3. split; [exact R|]. split.
  { split; [repeat constructor; cbn; intuition congruence|]. intros [y m]. unfold ym_ok, month_number. cbn [fst snd In]. split; [intros [H|[H|[]]]; injection H as <- <-; lia|].
    intros [M H]. assert (y = 1987) by lia. subst y. assert (m = 2 \/ m = 3) as [-> | ->] by lia; auto. }
  destruct L2 as [a [a' [l [-> [LL [A A']]]]]]. destruct L3 as [b [b' [k [-> [LK B]]]]].
  split; [constructor; [exact R3|constructor; [exact R2|constructor]]|]. split; [cbn; now rewrite LK|]. split; [cbn; now rewrite LL|]. split.
  - exists (a :: b :: (b' :: k) ++ (a' :: l)). split.
    + apply (IL_next [b :: b' :: k] a (a' :: l) []). cbn [app]. apply (IL_next [] b (b' :: k) [a' :: l]). cbn [app].
      assert (Q : forall (x y : list file), interleaved [x; y] (x ++ y)).
      { induction x as [|c x IH]; intro y; cbn [app].
        - induction y as [|c y IH]; [constructor; repeat constructor|]. exact (IL_next [[]] c y [] y IH).
        - exact (IL_next [] c x [y] (x ++ y) (IH y)). }
      apply (Q (b' :: k) (a' :: l)).
    + split; intro Z; cbn [app] in Z; injection Z as Z1 Z2.
      * rewrite Z1 in A. rewrite A in B. discriminate B.
      * rewrite <- Z1 in A'. contradiction.
  - apply SO_again with (fun _ => None); [constructor|]. intro path. subst out.
    destruct (in_dec string_dec path (map fst (a :: a' :: l))) as [I|N].
    + right. destruct (store_some _ path I) as [c [C1 C2]]. exists c, c. split; [apply in_or_app; now left|]. split; [exists ""; now rewrite app_str_nil|apply C2].
    + left. now rewrite store_none.
Qed.
