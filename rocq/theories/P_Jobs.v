(** C59: the jobs of the tracking wrapper run the tracking control on the buoys and months they were made for. *)
Require Import String Ascii ZArith QArith List Bool Lia Permutation.
Require Import Verif.M_Base Verif.L_Base Verif.M_Calendar Verif.S_Calendar Verif.L_Calendar Verif.M_Chunks Verif.S_Chunks Verif.L_Chunks Verif.L_Chunks2 Verif.L_Chunks3 Verif.L_Chunks4 Verif.M_Imma Verif.S_Imma Verif.L_Imma Verif.M_Files Verif.S_Files Verif.L_Files
  Verif.M_Print Verif.S_Print Verif.L_Print Verif.M_Report Verif.M_Tracking Verif.S_Main2 Verif.M_Jobs Verif.S_Jobs Verif.L_Jobs Verif.L_Jobs2 Verif.L_Jobs3.
Import ListNotations.
Open Scope string_scope.
Open Scope Z_scope.

(** C59.  The identifiers the wrapper reads from a file of identifiers are those the main program wrote to it, in order, if they
    contain no comma and no newline. *)
Theorem C59_identifiers : forall ids lines, Forall (fun id => chars (fun c => c <> ","%char /\ c <> "010"%char) id) ids -> Forall2 id_line ids lines ->
  id_column (String.concat "" lines) = ids.
Proof. exact ids_read. Qed.
Print Assumptions C59_identifiers.
(** It looks for them in the directory of the month. *)
Theorem C59_file_name : forall out y m, 0 <= m -> exists ys ms, int_text y ys /\ padded 2 m ms /\ id_file_name out y m = out ++ "/" ++ ys ++ "/" ++ ms ++ "//ID_file.txt".
Proof.
  intros out y m M. exists (str_of_int y), (zero_pad 2 m). split; [apply str_of_int_int_text|]. split; [apply zero_pad_padded; lia|]. unfold id_file_name, safe_dir. rewrite !app_assoc_s. reflexivity.
Qed.
Print Assumptions C59_file_name.

(** C59.  Whatever the order of the options, the job starts the tracking control with the identifier without its blanks at the end, the
    months and the classes it was written for. *)
Theorem C59_arguments : forall order config core blanks y1 m1 y2 m2 edge rm out runid,
  (forall l, Permutation l (order l)) -> plain_word config -> plain_word core -> chars (fun c => c = " "%char) blanks -> 0 <= y1 -> 0 <= m1 -> 0 <= y2 -> 0 <= m2 ->
  edge <> [] -> Forall plain_word edge -> plain_word rm -> chars plain_char out -> chars plain_char runid ->
  job_args (snd (write_submission order config (core ++ blanks) y1 m1 y2 m2 edge rm out runid)) =
  Ok {| a_config := config; a_id := Some core; a_yr1 := Some y1; a_mn1 := Some m1; a_yr2 := Some y2; a_mn2 := Some m2; a_edge := Some edge; a_runmonthid := rm |}.
Proof. intros. cbn [write_submission snd]. eapply job_args_ok; try eassumption. reflexivity. Qed.
Print Assumptions C59_arguments.
(** The tracking control puts the blanks back. *)
Theorem C59_identifier : forall sp elev sq str_of float_of files p out_dir track_out_dir fuel id core config y1 m1 y2 m2 edge rm, buoy_name id core ->
  tracking_job sp elev sq str_of float_of files p out_dir track_out_dir fuel {| a_config := config; a_id := Some core; a_yr1 := Some y1; a_mn1 := Some m1; a_yr2 := Some y2; a_mn2 := Some m2; a_edge := Some edge; a_runmonthid := rm |} =
  tracking_qc sp elev sq str_of float_of files p out_dir track_out_dir id fuel y1 m1 y2 m2 edge rm.
Proof.
  intros sp elev sq str_of float_of files p out_dir track_out_dir fuel id core config y1 m1 y2 m2 edge rm [_ [_ [[b [E B]] L]]]. unfold tracking_job. cbn [a_id a_yr1 a_mn1 a_yr2 a_mn2 a_edge a_runmonthid].
  assert (P : pad_right 9 core = pad_right 9 id).
  { unfold pad_right. rewrite L, Nat.sub_diag. cbn [blanks]. rewrite app_nil_r_s, E. f_equal. rewrite (blanks_only b B). f_equal. rewrite E, length_app_s in L. lia. }
  unfold tracking_qc. now rewrite P.
Qed.
Print Assumptions C59_identifier.

(** C59.  Different jobs of a run have different files: the name tells the months and the identifier but for its blanks. *)
Theorem C59_job_names : forall id id' core core' y1 m1 y2 m2 y1' m1' y2' m2' order config edge edge' rm out runid,
  buoy_name id core -> buoy_name id' core' -> 0 <= y1 -> 1 <= m1 <= 12 -> 0 <= y2 -> 1 <= m2 <= 12 -> 0 <= y1' -> 1 <= m1' <= 12 -> 0 <= y2' -> 1 <= m2' <= 12 ->
  fst (write_submission order config id y1 m1 y2 m2 edge rm out runid) = fst (write_submission order config id' y1' m1' y2' m2' edge' rm out runid) ->
  id = id' /\ (y1, m1, y2, m2) = (y1', m1', y2', m2').
Proof.
  intros id id' core core' y1 m1 y2 m2 y1' m1' y2' m2' order config edge edge' rm out runid N N' A B C D A' B' C' D' H. unfold write_submission in H. cbn [fst] in H. do 3 apply app_inj_l in H.
  apply job_name_inj in H; [|lia..]. destruct H as [H [-> [-> [-> ->]]]]. split; [|reflexivity].
  destruct N as [[P _] [_ [[b [E BL]] L]]]. destruct N' as [[P' _] [_ [[b' [E' BL']] L']]]. rewrite E, E' in H. rewrite !no_spaces_plain in H by assumption. subst core'.
  rewrite E, E'. f_equal. rewrite (blanks_only b BL), (blanks_only b' BL'). f_equal. rewrite E, length_app_s in L. rewrite E', length_app_s in L'. lia.
Qed.
Print Assumptions C59_job_names.

(** Months of a run hold no underscore. *)
Lemma last_part : forall p p' d d', chars (fun c => c <> "_"%char) d -> chars (fun c => c <> "_"%char) d' -> p ++ String "_" d = p' ++ String "_" d' -> p = p' /\ d = d'.
Proof.
  assert (N : forall p d s, chars (fun c => c <> "_"%char) d -> d <> p ++ String "_" s).
  { induction p as [|c p IH]; intros d s D E; subst d; [destruct D as [D _]; now apply D|]. destruct D as [_ D]. exact (IH _ s D eq_refl). }
  induction p as [|c p IH]; intros p' d d' D D' H; destruct p' as [|c' p']; cbn [append] in H.
  - injection H as <-. auto.
  - injection H as <- H. destruct (N p' d d' D H).
  - injection H as -> H. destruct (N p d' d D'). now symmetry.
  - injection H as <- H. destruct (IH p' d d' D D' H) as [-> ->]. auto.
Qed.
Lemma runmonth_part : forall y1 m1 y2 m2, 0 <= y1 -> 0 <= m1 -> 0 <= y2 -> 0 <= m2 -> chars (fun c => c <> "_"%char) (runmonth y1 m1 y2 m2).
Proof.
  intros y1 m1 y2 m2 A B C D. assert (K : forall s, chars (fun c => is_digit c = true) s -> chars (fun c => c <> "_"%char) s) by (intros s; apply chars_impl; intros c H ->; discriminate H).
  unfold runmonth. rewrite <- app_assoc_s. apply chars_app. split; [now apply K, date_digits|]. cbn [append]. split; [discriminate|now apply K, date_digits].
Qed.
Lemma runmonth_inj : forall y1 m1 y2 m2 y1' m1' y2' m2', 0 <= y1 -> 0 <= m1 < 100 -> 0 <= y2 -> 0 <= m2 < 100 -> 0 <= y1' -> 0 <= m1' < 100 -> 0 <= y2' -> 0 <= m2' < 100 ->
  runmonth y1 m1 y2 m2 = runmonth y1' m1' y2' m2' -> (y1, m1, y2, m2) = (y1', m1', y2', m2').
Proof.
  intros y1 m1 y2 m2 y1' m1' y2' m2' A B C D A' B' C' D' H. unfold runmonth in H. rewrite <- !(app_assoc_s (str_of_int _) (zero_pad _ _)) in H.
  assert (G : forall a b x y, chars (fun c => is_digit c = true) a -> chars (fun c => is_digit c = true) b -> a ++ "-" ++ x = b ++ "-" ++ y -> a = b /\ x = y).
  { clear. induction a as [|c a IH]; intros [|c' b] x y D D' H; cbn [append] in H.
    - injection H as ->. auto.
    - injection H as <- _. destruct D' as [D' _]. discriminate D'.
    - injection H as -> _. destruct D as [D _]. discriminate D.
    - injection H as <- H. destruct (IH b x y (proj2 D) (proj2 D') H) as [-> ->]. auto. }
  apply G in H; [|apply date_digits; lia..]. destruct H as [H1 H2]. apply date_inj in H1; [|lia..]. apply date_inj in H2; [|lia..]. destruct H1 as [-> ->], H2 as [-> ->]. reflexivity.
Qed.
(** C59.  Nor do two runs over different months share a job file. *)
Theorem C59_runs_apart : forall id id' core core' y1 m1 y2 m2 y1' m1' y2' m2' a1 b1 a2 b2 a1' b1' a2' b2' order config edge edge' out runid,
  buoy_name id core -> buoy_name id' core' -> 0 <= y1 -> 1 <= m1 <= 12 -> 0 <= y2 -> 1 <= m2 <= 12 -> 0 <= y1' -> 1 <= m1' <= 12 -> 0 <= y2' -> 1 <= m2' <= 12 ->
  0 <= a1 -> 1 <= b1 <= 12 -> 0 <= a2 -> 1 <= b2 <= 12 -> 0 <= a1' -> 1 <= b1' <= 12 -> 0 <= a2' -> 1 <= b2' <= 12 ->
  fst (write_submission order config id y1 m1 y2 m2 edge (runmonth a1 b1 a2 b2) out runid) = fst (write_submission order config id' y1' m1' y2' m2' edge' (runmonth a1' b1' a2' b2') out runid) ->
  id = id' /\ (y1, m1, y2, m2) = (y1', m1', y2', m2') /\ (a1, b1, a2, b2) = (a1', b1', a2', b2').
Proof.
  intros id id' core core' y1 m1 y2 m2 y1' m1' y2' m2' a1 b1 a2 b2 a1' b1' a2' b2' order config edge edge' out runid N N' A B C D A' B' C' D' E F G J E' F' G' J' H.
  assert (R : runmonth a1 b1 a2 b2 = runmonth a1' b1' a2' b2').
  { unfold write_submission in H. cbn [fst] in H. do 3 apply app_inj_l in H. unfold job_name in H. apply app_inj_l in H.
    assert (SP : forall i a b c d r t, i ++ "_" ++ a ++ b ++ "_" ++ c ++ d ++ "_" ++ r ++ "_" ++ t = ((((i ++ "_" ++ a ++ b) ++ "_" ++ c ++ d) ++ String "_" r)) ++ ("_" ++ t)) by (intros; repeat (rewrite ?app_assoc_s; cbn [append]); reflexivity).
    rewrite !SP in H. apply app_inj_r in H. apply last_part in H; [exact (proj2 H)|apply runmonth_part; lia..]. }
  assert (K := R). apply runmonth_inj in R; [|lia..]. rewrite <- K in H. destruct (C59_job_names _ _ _ _ _ _ _ _ _ _ _ _ _ _ _ _ _ _ _ N N' A B C D A' B' C' D' H) as [-> M]. auto.
Qed.
Print Assumptions C59_runs_apart.
(** Two yearly runs do give the same chunk two files. *)
Example C59_runs_apart_case : fst (write_submission (fun l => l) "c.txt" "51514    " 2004 5 2004 9 ["regular"] (runmonth 1985 1 2004 12) "/o" "r") <> fst (write_submission (fun l => l) "c.txt" "51514    " 2004 5 2004 9 ["regular"] (runmonth 1985 1 2005 12) "/o" "r").
Proof. vm_compute. discriminate. Qed.

(** C59.  The log files of two jobs are different too, unless they are of the same buoy and end in the same month. *)
Theorem C59_logs : forall kind id id' core core' y2 m2 y2' m2' out runid,
  buoy_name id core -> buoy_name id' core' -> 1000 <= y2 <= 9999 -> 1 <= m2 <= 12 -> 1000 <= y2' <= 9999 -> 1 <= m2' <= 12 ->
  job_log kind out id y2 m2 runid = job_log kind out id' y2' m2' runid -> id = id' /\ (y2, m2) = (y2', m2').
Proof.
  intros kind id id' core core' y2 m2 y2' m2' out runid N N' A B A' B' H. unfold job_log in H. do 4 apply app_inj_l in H.
  assert (SP : forall a b i t, a ++ b ++ i ++ "_" ++ t = ((a ++ b) ++ i) ++ "_" ++ t) by (intros; repeat (rewrite ?app_assoc_s; cbn [append]); reflexivity). rewrite !SP in H. apply app_inj_r in H.
  assert (L4 : forall y, 1000 <= y <= 9999 -> String.length (str_of_int y) = 4%nat) 
    by (intros y Y; pose proof (str_of_int_length y 4 ltac:(change (10 ^ Z.of_nat 4) with 10000; lia) ltac:(lia)); pose proof (decimal_bound _ _ (str_of_int_nat y ltac:(lia)));
        destruct (Nat.le_gt_cases 4 (String.length (str_of_int y))); [lia|]; assert (10 ^ Z.of_nat (String.length (str_of_int y)) <= 10 ^ 3) by (apply Z.pow_le_mono_r; lia); change (10 ^ 3) with 1000 in *; lia).
  pose proof (padded_width 2 m2 _ (zero_pad_padded 2 m2 ltac:(lia) ltac:(lia)) ltac:(lia) ltac:(cbn; lia)) as W. pose proof (padded_width 2 m2' _ (zero_pad_padded 2 m2' ltac:(lia) ltac:(lia)) ltac:(lia) ltac:(cbn; lia)) as W'.
  apply app_inj_len in H; [|rewrite !length_app_s, W, W', !L4 by assumption; reflexivity]. destruct H as [H1 H2]. apply date_inj in H1; [|lia..]. destruct H1 as [-> ->]. split; [|reflexivity].
  destruct N as [[P _] [_ [[b [E BL]] L]]]. destruct N' as [[P' _] [_ [[b' [E' BL']] L']]]. rewrite E, E' in H2. rewrite !no_spaces_plain in H2 by assumption. subst core'.
  rewrite E, E'. f_equal. rewrite (blanks_only b BL), (blanks_only b' BL'). f_equal. rewrite E, length_app_s in L. rewrite E', length_app_s in L'. lia.
Qed.
Print Assumptions C59_logs.

Lemma range_plain : forall y1 m1 y2 m2, 0 <= y1 -> 0 <= m1 -> 0 <= y2 -> 0 <= m2 -> plain_word (runmonth y1 m1 y2 m2).
Proof.
  intros y1 m1 y2 m2 A B C D. unfold runmonth. destruct (number_plain y1 A) as [P [c [t [E N]]]]. pose proof (proj1 (number_plain y2 C)). pose proof (padded_plain 2 m1 ltac:(lia) B). pose proof (padded_plain 2 m2 ltac:(lia) D). split.
  - repeat (apply chars_app; split); try assumption. split; [|exact I]. right. right. right. now left.
  - rewrite E. cbn [append]. eauto.
Qed.
(** C59.  A whole run, with files of identifiers as the main program writes them: it succeeds, no job file is written twice, and the jobs
    start the tracking control exactly on the chunks of each buoy that are to be done, with their months and classes. *)
Lemma run_jobs : forall fuel order files config out_dir track_dir runid mode gap first last ids lines,
  run_ok fuel gap first last -> 0 <= fst first -> In mode ["standard"; "all"; "new"; "noend"] -> (forall l, Permutation l (order l)) ->
  plain_word config -> chars plain_char track_dir -> chars plain_char runid ->
  (forall y m, ym_ok (y, m) -> month_number first <= month_number (y, m) <= month_number last ->
     files (id_file_name out_dir y m) = Some (String.concat "" (lines (y, m))) /\ Forall2 id_line (ids (y, m)) (lines (y, m)) /\ Forall (fun id => exists core, buoy_name id core) (ids (y, m))) ->
  exists jobs rm, wrapper_run fuel order files config out_dir track_dir runid mode gap (fst first) (snd first) (fst last) (snd last) = Ok (Some jobs) /\ month_range first last rm /\ NoDup (map fst jobs) /\
  forall id s e, submitted fuel ids mode gap first last id s e <->
    exists name text core y1 m1 y2 m2 cl, In (name, text) jobs /\ buoy_name id core /\
      job_args text = Ok {| a_config := config; a_id := Some core; a_yr1 := Some y1; a_mn1 := Some m1; a_yr2 := Some y2; a_mn2 := Some m2; a_edge := Some cl; a_runmonthid := rm |} /\
      ym_ok (y1, m1) /\ ym_ok (y2, m2) /\ month_number (y1, m1) = s /\ month_number (y2, m2) = e /\ class_ok gap first last (y1, m1, y2, m2, cl).
Proof.
  intros fuel order files config out_dir track_dir runid mode gap [fy fm] [ly lm] ids lines [R1 [R2 [R3 [R4 R5]]]] FY MODE ORD CF TD RI FILES. unfold ym_ok in R1, R2. cbn [fst snd] in *.
  assert (FU : (Z.to_nat (12 * (ly - fy) + lm - fm) <= fuel)%nat) by (unfold month_number in R4; cbn [fst snd] in R4; lia).
  destruct (ymc_init_ok fy fm ly lm fuel R1 R2 R3 FU) as [months [G [MO _]]].
  assert (LY : 0 <= ly) by (unfold month_number in R3; cbn [fst snd] in R3; lia).
  assert (IN : forall y m, In (y, m) months -> ym_ok (y, m) /\ month_number (fy, fm) <= month_number (y, m) <= month_number (ly, lm)) by (intros y m I; apply (months_of_In _ _ _ _ (y, m) MO) in I; destruct I; split; [assumption|lia]).
  assert (NM : forall y m id, In (y, m) months -> In id (ids (y, m)) -> exists core, buoy_name id core) by (intros y m id I J; destruct (IN y m I) as [I1 I2]; destruct (FILES y m I1 I2) as [_ [_ F]]; rewrite Forall_forall in F; auto).
  assert (NC : forall id core, buoy_name id core -> chars (fun c => c <> ","%char /\ c <> "010"%char) id).
  { intros id core [[P _] [C [[b [-> B]] _]]]. apply chars_app. split.
    - pose proof (plain_no "010"%char eq_refl core P) as Q. clear - C Q. induction core as [|c t IH]; [exact I|]. destruct C, Q. split; [auto|]. now apply IH.
    - eapply chars_impl; [|exact B]. intros c ->. split; discriminate. }
  assert (RF : read_id_files files out_dir months = Ok (map (fun ym => (ym, ids ym)) months)).
  { apply id_files_read. intros y m I. destruct (IN y m I) as [I1 I2]. destruct (FILES y m I1 I2) as [F1 [F2 F3]]. exists (String.concat "" (lines (y, m))). split; [exact F1|]. apply C59_identifiers; [|exact F2].
    eapply Forall_impl; [|exact F3]. intros id [core N]. exact (NC id core N). }
  destruct (wrapper_spec fy fm ly lm fuel ids mode gap R1 R2 R3 FU MODE R5) as [jobs [W [W1 [W2 W3]]]].
  pose proof (wrapper_words _ _ _ _ _ _ _ _ _ W) as WW. rewrite Forall_forall in WW.
  (* what is known of a job *)
  assert (JB : forall id y1 m1 y2 m2 cl, In (id, (y1, m1, y2, m2, cl)) jobs -> (exists core, buoy_name id core) /\ 0 <= y1 /\ 1 <= m1 <= 12 /\ 0 <= y2 /\ 1 <= m2 <= 12 /\ cl <> [] /\ Forall plain_word cl /\ class_ok gap (fy, fm) (ly, lm) (y1, m1, y2, m2, cl)).
  { intros id y1 m1 y2 m2 cl I. destruct (W1 _ I) as [O1 [O2 O3]]. destruct (WW _ I) as [O4 O5]. cbn [snd] in *. unfold item_start, item_end, ym_ok in O1, O2. cbn [fst snd] in O1, O2.
    destruct (proj1 (W2 id (month_number (y1, m1)) (month_number (y2, m2))) (ex_intro _ _ (conj I (conj eq_refl eq_refl)))) as [[P1 [P2 _]] _].
    destruct P1 as [B1 [[y m] [K1 [K2 K3]]]]. destruct P2 as [B2 _]. unfold month_number in B1, B2. cbn [fst snd] in B1, B2.
    split; [apply (NM y m id); [apply (months_of_In _ _ _ _ (y, m) MO); split; [exact K1|rewrite K2; unfold month_number; cbn [fst snd]; lia]|exact K3]|]. split; [nia|]. split; [exact O1|]. split; [nia|]. split; [exact O2|]. split; [exact O4|]. split; [exact O5|exact O3]. }
  set (rm := runmonth fy fm ly lm). set (sub := fun '(id, (yy1, mm1, yy2, mm2, cl)) => write_submission order config id yy1 mm1 yy2 mm2 cl rm track_dir runid).
  assert (RP : plain_word rm) by (apply range_plain; lia).
  assert (AR : forall id y1 m1 y2 m2 cl core, In (id, (y1, m1, y2, m2, cl)) jobs -> buoy_name id core ->
    job_args (snd (sub (id, (y1, m1, y2, m2, cl)))) = Ok {| a_config := config; a_id := Some core; a_yr1 := Some y1; a_mn1 := Some m1; a_yr2 := Some y2; a_mn2 := Some m2; a_edge := Some cl; a_runmonthid := rm |}).
  { intros id y1 m1 y2 m2 cl core I N. destruct (JB _ _ _ _ _ _ I) as [_ [A1 [A2 [A3 [A4 [A5 [A6 _]]]]]]]. destruct N as [N1 [N2 [[b [-> B]] N3]]]. unfold sub. apply C59_arguments; try assumption; lia. }
  exists (map sub jobs), rm. split; [|split; [|split]].
  - unfold wrapper_run. apply has_In in MODE. rewrite MODE. cbn [negb]. rewrite G. cbn [bind]. rewrite RF. cbn [bind].
    rewrite (wrapper_ext fuel _ ids mode gap fy fm ly lm months G (ids_in_map ids months)), W. reflexivity.
  - exists (str_of_int fy), (zero_pad 2 fm), (str_of_int ly), (zero_pad 2 lm). cbn [fst snd]. repeat split; try apply str_of_int_int_text; apply zero_pad_padded; lia.
  - rewrite map_map. clear - W3 JB. assert (INJ : forall a b, In a jobs -> In b jobs -> fst (sub a) = fst (sub b) -> (fst a, first_of (snd a), last_of (snd a)) = (fst b, first_of (snd b), last_of (snd b))).
    { intros [id [[[[y1 m1] y2] m2] cl]] [id' [[[[y1' m1'] y2'] m2'] cl']] I I' H. destruct (JB _ _ _ _ _ _ I) as [[core N] [A1 [A2 [A3 [A4 _]]]]]. destruct (JB _ _ _ _ _ _ I') as [[core' N'] [A1' [A2' [A3' [A4' _]]]]].
      unfold sub in H. apply (C59_job_names id id' core core') in H; [|assumption..]. destruct H as [-> H]. injection H as -> -> -> ->. reflexivity. }
    clear JB. revert INJ. induction jobs as [|j jobs IH]; intros INJ; [constructor|]. cbn [map] in *. inversion W3 as [|? ? N1 N2]; subst. constructor.
    + intro K. apply in_map_iff in K. destruct K as [j' [K1 K2]]. apply N1. apply in_map_iff. exists j'. split; [|exact K2]. apply INJ; [now right|now left|exact K1].
    + apply IH; [exact N2|]. intros a b I I'. apply INJ; now right.
  - intros id s e. unfold submitted. cbn [fst snd]. split.
    + intros [jobs' [it [W' [I [S E]]]]]. rewrite W in W'. injection W' as <-. destruct it as [[[[y1 m1] y2] m2] cl]. destruct (JB _ _ _ _ _ _ I) as [[core N] [A1 [A2 [A3 [A4 [A5 [A6 A7]]]]]]].
      destruct (sub (id, (y1, m1, y2, m2, cl))) as [name text] eqn:SB. exists name, text, core, y1, m1, y2, m2, cl. split; [rewrite <- SB; now apply in_map|]. split; [exact N|]. split; [pose proof (AR _ _ _ _ _ _ core I N) as K; rewrite SB in K; exact K|].
      split; [exact A2|]. split; [exact A4|]. split; [exact S|]. split; [exact E|exact A7].
    + intros [name [text [core [y1 [m1 [y2 [m2 [cl [I [N [J [O1 [O2 [S [E CL]]]]]]]]]]]]]]]. apply in_map_iff in I. destruct I as [[id' [[[[y1' m1'] y2'] m2'] cl']] [SB I]].
      destruct (JB _ _ _ _ _ _ I) as [[core' N'] _]. pose proof (AR _ _ _ _ _ _ core' I N') as K. rewrite SB in K. cbn [snd] in K. rewrite J in K. apply ok_same in K. injection K as K1 K2 K3 K4 K5 K6. subst.
      assert (id' = id).
      { destruct N as [_ [_ [[b [E1 B]] L]]]. destruct N' as [_ [_ [[b' [E2 B']] L']]]. rewrite E1, E2. f_equal. rewrite (blanks_only b B), (blanks_only b' B'). f_equal. rewrite E1, length_app_s in L. rewrite E2, length_app_s in L'. lia. }
      subst id'. exists jobs, (y1', m1', y2', m2', cl'). split; [exact W|]. split; [exact I|]. split; reflexivity.
Qed.
Theorem C59_run : forall fuel order files config out_dir track_dir runid mode gap first last ids lines,
  run_ok fuel gap first last -> 0 <= fst first -> In mode ["standard"; "all"; "new"] -> (forall l, Permutation l (order l)) ->
  plain_word config -> chars plain_char track_dir -> chars plain_char runid ->
  (forall y m, ym_ok (y, m) -> month_number first <= month_number (y, m) <= month_number last ->
     files (id_file_name out_dir y m) = Some (String.concat "" (lines (y, m))) /\ Forall2 id_line (ids (y, m)) (lines (y, m)) /\ Forall (fun id => exists core, buoy_name id core) (ids (y, m))) ->
  exists jobs rm, wrapper_run fuel order files config out_dir track_dir runid mode gap (fst first) (snd first) (fst last) (snd last) = Ok (Some jobs) /\ month_range first last rm /\ NoDup (map fst jobs) /\
  forall id s e, chunk_of gap (present first last ids id) s e /\ wanted mode gap (month_number first) (month_number last) s e <->
    exists name text core y1 m1 y2 m2 cl, In (name, text) jobs /\ buoy_name id core /\
      job_args text = Ok {| a_config := config; a_id := Some core; a_yr1 := Some y1; a_mn1 := Some m1; a_yr2 := Some y2; a_mn2 := Some m2; a_edge := Some cl; a_runmonthid := rm |} /\
      ym_ok (y1, m1) /\ ym_ok (y2, m2) /\ month_number (y1, m1) = s /\ month_number (y2, m2) = e /\ class_ok gap first last (y1, m1, y2, m2, cl).
Proof.
  intros fuel order files config out_dir track_dir runid mode gap first last ids lines R F M ORD CF TD RI FILES.
  destruct (run_jobs fuel order files config out_dir track_dir runid mode gap first last ids lines R F ltac:(cbn in *; tauto) ORD CF TD RI FILES) as [jobs [rm [A [B [C D]]]]].
  exists jobs, rm. split; [exact A|]. split; [exact B|]. split; [exact C|]. intros id s e. rewrite <- (submitted_wanted fuel ids mode gap first last id s e R M). apply D.
Qed.
Print Assumptions C59_run.

(** C59.  A month without its file of identifiers stops the wrapper before any job. *)
Theorem C59_missing_file : forall fuel order files config out_dir track_dir runid mode gap first last y m,
  run_ok fuel gap first last -> In mode ["standard"; "all"; "new"; "noend"] -> ym_ok (y, m) -> month_number first <= month_number (y, m) <= month_number last -> files (id_file_name out_dir y m) = None ->
  exists e, wrapper_run fuel order files config out_dir track_dir runid mode gap (fst first) (snd first) (fst last) (snd last) = Err e.
Proof.
  intros fuel order files config out_dir track_dir runid mode gap [fy fm] [ly lm] y m [R1 [R2 [R3 [R4 R5]]]] MODE O1 O2 F. unfold ym_ok in R1, R2. cbn [fst snd] in *.
  assert (FU : (Z.to_nat (12 * (ly - fy) + lm - fm) <= fuel)%nat) by (unfold month_number in R4; cbn [fst snd] in R4; lia).
  destruct (ymc_init_ok fy fm ly lm fuel R1 R2 R3 FU) as [months [G [MO _]]]. unfold wrapper_run. apply has_In in MODE. rewrite MODE. cbn [negb]. rewrite G. cbn [bind].
  assert (I : In (y, m) months) by (apply (months_of_In _ _ _ _ (y, m) MO); split; [exact O1|lia]).
  assert (E : exists e, read_id_files files out_dir months = Err e).
  { clear G MO. induction months as [|[y' m'] l IH]; [destruct I|]. cbn [read_id_files]. destruct I as [I|I].
    - injection I as -> ->. rewrite F. eauto.
    - destruct (files (id_file_name out_dir y' m')) as [text|]; [|eauto]. destruct (IH I) as [e ->]. cbn [bind]. eauto. }
  destruct E as [e ->]. cbn [bind]. eauto.
Qed.
Print Assumptions C59_missing_file.

(** C59, findings.  An identifier with a blank inside is passed to the tracking control as two words, which it does not accept. *)
Theorem C59_blank_inside_refuted : exists id e, String.length id = 9%nat /\
  job_args (snd (write_submission (fun l => l) "configuration.txt" id 1985 1 1985 3 ["regular"] "198501-201412" "/out" "new")) = Err e.
Proof. exists "AB C     ". eexists. split; [reflexivity|vm_compute; reflexivity]. Qed.
Print Assumptions C59_blank_inside_refuted.
(** An identifier with a comma loses what follows it. *)
Theorem C59_comma_refuted : exists id line, id_line id line /\ id_column line <> [id].
Proof.
  exists "AB,C     ", ("AB,C     " ++ "," ++ safe_filename "AB,C     " ++ String "010"%char "")%string. split; [eexists; split; [now apply safe_made|reflexivity]|]. vm_compute. discriminate.
Qed.
Print Assumptions C59_comma_refuted.
(** Two identifiers that differ in a blank have the same job file: the second job replaces the first. *)
Theorem C59_same_file_refuted : exists id id', id <> id' /\ String.length id = 9%nat /\ String.length id' = 9%nat /\ forall order config y1 m1 y2 m2 edge rm out runid,
  fst (write_submission order config id y1 m1 y2 m2 edge rm out runid) = fst (write_submission order config id' y1 m1 y2 m2 edge rm out runid).
Proof. exists "AB C     ", "ABC      ". split; [discriminate|]. split; [reflexivity|]. split; reflexivity. Qed.
Print Assumptions C59_same_file_refuted.

(** The hypotheses are met: a buoy reporting in every month of 1985. *)
Lemma plain_ex : forall s, all_chars harmless s = true -> chars plain_char s.
Proof. intros s H. apply (proj1 (all_chars_spec harmless s)) in H. eapply chars_impl; [|exact H]. intros c K. now apply harmless_plain. Qed.
Example C59_buoy_ex : buoy_name "44123    " "44123".
Proof.
  split; [split; [apply plain_ex; reflexivity|exists "4"%char, "4123"; split; [reflexivity|discriminate]]|]. split; [cbn; repeat split; discriminate|]. split; [|reflexivity].
  exists "    ". split; [reflexivity|cbn; tauto].
Qed.
Example C59_run_ex : exists jobs rm,
  wrapper_run 20 (fun l => rev l) (fun _ => Some ("44123    " ++ "," ++ safe_filename "44123    " ++ String "010"%char "")) "configuration.txt" "/out" "/track" "new" "all" 2 1985 1 1985 12 = Ok (Some jobs) /\
  exists name text cl, In (name, text) jobs /\ class_ok 2 (1985, 1) (1985, 12) (1985, 1, 1985, 12, cl) /\
  job_args text = Ok {| a_config := "configuration.txt"; a_id := Some "44123"; a_yr1 := Some 1985; a_mn1 := Some 1; a_yr2 := Some 1985; a_mn2 := Some 12; a_edge := Some cl; a_runmonthid := rm |}.
Proof.
  assert (W : forall s, all_chars harmless s = true -> (exists c t, s = String c t /\ c <> "-"%char) -> plain_word s) by (intros s A B; split; [now apply plain_ex|exact B]).
  destruct (C59_run 20 (fun l => rev l) (fun _ => Some ("44123    " ++ "," ++ safe_filename "44123    " ++ String "010"%char "")) "configuration.txt" "/out" "/track" "new" "all" 2 (1985, 1) (1985, 12)
    (fun _ => ["44123    "]) (fun _ => ["44123    " ++ "," ++ safe_filename "44123    " ++ String "010"%char ""])) as [jobs [rm [A [B [C D]]]]].
  - unfold run_ok, ym_ok, month_number. cbn. lia.
  - cbn. lia.
  - cbn. tauto.
  - intro l. apply Permutation_rev.
  - apply W; [reflexivity|]. exists "c"%char, "onfiguration.txt". split; [reflexivity|discriminate].
  - now apply plain_ex.
  - now apply plain_ex.
  - intros y m _ _. split; [reflexivity|]. split.
    + constructor; [|constructor]. eexists. split; [now apply safe_made|reflexivity].
    + constructor; [|constructor]. exists "44123". exact C59_buoy_ex.
  - exists jobs, rm. split; [exact A|].
    assert (P : forall k, present (1985, 1) (1985, 12) (fun _ => ["44123    "]) "44123    " k <-> month_number (1985, 1) <= k <= month_number (1985, 12)).
    { intro k. unfold present. split; [tauto|]. intro K. split; [exact K|]. exists (1985, k - month_number (1985, 1) + 1). unfold ym_ok, month_number in *. cbn [fst snd] in *. split; [lia|]. split; [lia|]. now left. }
    destruct (proj1 (D "44123    " (month_number (1985, 1)) (month_number (1985, 12)))) as [name [text [core [y1 [m1 [y2 [m2 [cl [I [N [J [O1 [O2 [S1 [S2 CL]]]]]]]]]]]]]]].
    + split.
      * unfold chunk_of. unfold month_number in *. cbn [fst snd] in *. split; [apply P; lia|]. split; [apply P; lia|]. split; [lia|]. split; [|split].
        -- intros i I1 I2. exists (i + 1). split; [lia|]. split; [lia|]. apply P. lia.
        -- intros i I1 I2. apply P in I2. lia.
        -- intros i I1 I2. apply P in I2. lia.
      * now left.
    + exists name, text, cl. split; [exact I|].
      assert (core = "44123").
      { destruct N as [[N1 _] [N2 [[b [N3 N4]] _]]]. assert (H : no_spaces (core ++ b) = core) by (now apply no_spaces_plain). rewrite <- N3 in H. symmetry. exact H. }
      assert (Y : (y1, m1) = (1985, 1) /\ (y2, m2) = (1985, 12)) by (unfold month_number, ym_ok in *; cbn [fst snd] in *; split; f_equal; lia).
      destruct Y as [Y1 Y2]. injection Y1 as -> ->. injection Y2 as -> ->. subst core. split; [exact CL|exact J].
Qed.
