(** C58, continued: the csv reader and files the main program did not write. *)
Require Import String Ascii ZArith QArith List Bool Lia Sorted.
Require Import Verif.M_Base Verif.S_Calendar Verif.M_Report Verif.S_Imma Verif.S_Print Verif.M_Tracking Verif.S_Reading Verif.S_Csv Verif.L_Reading Verif.L_Reading3 Verif.L_Csv.
Require Import Verif.M_Imma Verif.M_Drifter Verif.M_Calendar Verif.L_Imma Verif.P_Calendar Verif.P_Reading.
Import ListNotations.
Open Scope string_scope.
Open Scope list_scope.
Open Scope Z_scope.

(** A table reads back as its rows, whatever is in its cells. *)
Theorem C58_csv : forall text rows, table_text text rows -> csv_read text = Ok rows.
Proof. exact csv_read_table. Qed.
Print Assumptions C58_csv.
Example C58_csv_ex : let text := ("a,""b"",""c """"d"""", e""" ++ crlf ++ lf ++ """two" ++ lf ++ "lines"",x""y," ++ lf ++ "last,")%string in
  table_text text [["a"; "b"; "c ""d"", e"]; []; [("two" ++ lf ++ "lines")%string; "x""y"; ""]; ["last"; ""]].
Proof.
  assert (B : forall s, chars (fun c => c <> ","%char /\ c <> "010"%char /\ c <> "013"%char) s -> match s with String c _ => c <> mark | "" => True end -> cell s s).
  { intros s C N. apply cell_bare; [exact C|]. intros s' ->. now apply N. }
  assert (R : forall raws vals rest rows e, Forall2 cell raws vals -> between raws <> "" -> (e = lf \/ e = crlf) -> table_text rest rows -> table_text (between raws ++ e ++ rest) (vals :: rows)) by (intros; apply tt_row; auto; now apply rt_cells).
  assert (D : forall s t, doubled s t -> cell (String mark "" ++ t ++ String mark "")%string s) by (intros; now apply cell_quoted).
  cbv zeta.
  apply (R ["a"; """b"""; """c """"d"""", e"""] _ (lf ++ """two" ++ lf ++ "lines"",x""y," ++ lf ++ "last,")%string _ crlf); [|discriminate|now right|].
  { constructor; [apply B; cbn; repeat split; discriminate|]. constructor; [apply (D "b" "b"); repeat (constructor; [discriminate|]); constructor|]. constructor; [|constructor].
    apply (D "c ""d"", e" "c """"d"""", e"). repeat (apply db_mark || (apply db_other; [discriminate|])). constructor. }
  change (lf ++ """two" ++ lf ++ "lines"",x""y," ++ lf ++ "last,")%string with ("" ++ lf ++ ("""two" ++ lf ++ "lines"",x""y," ++ lf ++ "last,"))%string. apply tt_row; [constructor|now left|].
  change ("""two" ++ lf ++ "lines"",x""y," ++ lf ++ "last,")%string with (between [("""two" ++ lf ++ "lines""")%string; "x""y"; ""] ++ lf ++ "last,")%string. apply R; [|discriminate|now left|].
  { constructor; [apply (D ("two" ++ lf ++ "lines")%string ("two" ++ lf ++ "lines")%string); repeat (apply db_mark || (apply db_other; [discriminate|])); constructor|]. repeat (constructor; [apply B; cbn; repeat split; discriminate|]). constructor. }
  apply tt_last; [|discriminate]. apply (rt_cells ["last"; ""]); [|discriminate]. repeat (constructor; [apply B; cbn; repeat split; discriminate|]). constructor.
Qed.

(** If the three files of a month do not have the same number of lines, or have none, the control stops.  A last line counts
    without its line end. *)
Theorem C58_lines : forall float_of files out id runid ym v p s lv lp ls, ym_ok ym ->
  month_holds files out id runid ym "Variables" v -> month_holds files out id runid ym "POS_qc" p -> month_holds files out id runid ym "SST_qc" s ->
  lines_of v lv -> lines_of p lp -> lines_of s ls -> (lv = [] \/ length lp <> length lv \/ length ls <> length lv) ->
  read_month float_of files out id runid (fst ym) (snd ym) = Err OtherError.
Proof.
  intros float_of files out id runid [y m] v p s rv rp rs [M _] V P S CV CP CS N. cbn [fst snd] in *. unfold read_month.
  rewrite (holds_eq files out id runid y m _ _ ltac:(lia) V), (holds_eq files out id runid y m _ _ ltac:(lia) P), (holds_eq files out id runid y m _ _ ltac:(lia) S).
  rewrite (count_any _ _ CV), (count_any _ _ CP), (count_any _ _ CS). destruct N as [->|[N|N]].
  - reflexivity.
  - replace (Z.of_nat (length rp) =? Z.of_nat (length rv)) with false by lia. cbn [negb]. rewrite orb_true_r. reflexivity.
  - replace (Z.of_nat (length rs) =? Z.of_nat (length rv)) with false by lia. cbn [negb]. rewrite !orb_true_r. reflexivity.
Qed.
Print Assumptions C58_lines.
(** Every text has its lines. *)
Theorem C58_lines_exist : forall text, exists ls, lines_of text ls /\ forall ls', lines_of text ls' -> length ls' = length ls.
Proof.
  intro text. assert (X : exists ls, lines_of text ls).
  { induction text as [|c text [ls L]]; [exists []; constructor|]. destruct (ascii_dec c "010") as [->|N]; [exists ("" :: ls); apply (lo_more "" text ls); [exact I|exact L]|].
    inversion L as [|l C NE|l rest ls0 C L0]; subst.
    - exists [String c ""]. apply lo_last; [now split|discriminate].
    - exists [String c text]. apply lo_last; [now split|discriminate].
    - exists (String c l :: ls0). apply (lo_more (String c l) rest ls0); [now split|exact L0]. }
  destruct X as [ls L]. exists ls. split; [exact L|]. intros ls' L'. apply count_any in L, L'. lia.
Qed.
Print Assumptions C58_lines_exist.
(** A row of flags with more cells than the header has names stops it. *)
Theorem C58_longer : forall float_of files out id runid ym kind names t rows row, ym_ok ym -> kind = "POS_qc" \/ kind = "SST_qc" ->
  month_holds files out id runid ym kind (between names ++ lf ++ t) -> Forall plain names -> names <> [] -> table_text t rows -> In row rows -> (length names < length row)%nat ->
  exists e, read_month float_of files out id runid (fst ym) (snd ym) = Err e.
Proof.
  intros float_of files out id runid [y m] kind names t rows row [M _] K H P N T I L. cbn [fst snd] in *. apply (holds_eq files out id runid y m _ _ ltac:(lia)) in H.
  destruct (read_month float_of files out id runid y m) as [reps|e] eqn:R; [|eauto]. exfalso.
  assert (G : forall type reps reps', read_flags type (between names ++ lf ++ t) reps = Ok reps' -> False).
  { intros type x x' F. unfold read_flags in F. destruct (header_cut names t P N) as [H1 H2]. rewrite H1, H2, (csv_read_table t rows T) in F. cbn [bind] in F. pose proof (flags_not_longer _ _ _ _ _ F row I). lia. }
  unfold read_month in R. destruct (files (month_file "Variables" out id runid y m)) as [v|], (files (month_file "POS_qc" out id runid y m)) as [p|] eqn:FP, (files (month_file "SST_qc" out id runid y m)) as [s|] eqn:FS; try discriminate.
  2: { destruct K as [-> | ->]; congruence. }
  destruct (_ || _ || _)%bool; [discriminate|]. destruct (read_variables float_of v) as [r0|]; [cbn [bind] in R|discriminate]. destruct (read_flags "POS" p r0) as [r1|] eqn:R1; [cbn [bind] in R|discriminate].
  destruct K as [-> | ->]; [rewrite FP in H|rewrite FS in H]; injection H as ->; eauto.
Qed.
Print Assumptions C58_longer.
Example C58_longer_ex : Forall plain ["UID"; "date"] /\ table_text ("A1,0,0" ++ lf) [["A1"; "0"; "0"]] /\ lines_of ("UID,date" ++ lf ++ "A1,0") ["UID,date"; "A1,0"].
Proof.
  split; [repeat (constructor; [cbn; repeat split; discriminate|]); constructor|]. split.
  - apply (tt_row "A1,0,0" ["A1"; "0"; "0"] lf "" []); [|now left|constructor]. apply (rt_cells ["A1"; "0"; "0"]); [|discriminate]. repeat (constructor; [apply cell_bare; [cbn; repeat split; discriminate|discriminate]|]). constructor.
  - apply (lo_more "UID,date" "A1,0" ["A1,0"]); [cbn; repeat split; discriminate|]. apply lo_last; [cbn; repeat split; discriminate|discriminate].
Qed.
(** Blank lines are passed over: files that differ in blank lines only give the same reports. *)
Theorem C58_blank : forall float_of files files' out id runid ym hv hp hs tv tp ts tv' tp' ts' rv rp rs rv' rp' rs' kv kp ks lv lp ls lv' lp' ls', ym_ok ym ->
  Forall plain hv -> Forall plain hp -> Forall plain hs -> hv <> [] -> hp <> [] -> hs <> [] ->
  month_holds files out id runid ym "Variables" (between hv ++ lf ++ tv) -> month_holds files out id runid ym "POS_qc" (between hp ++ lf ++ tp) -> month_holds files out id runid ym "SST_qc" (between hs ++ lf ++ ts) ->
  month_holds files' out id runid ym "Variables" (between hv ++ lf ++ tv') -> month_holds files' out id runid ym "POS_qc" (between hp ++ lf ++ tp') -> month_holds files' out id runid ym "SST_qc" (between hs ++ lf ++ ts') ->
  table_text tv rv -> table_text tp rp -> table_text ts rs -> table_text tv' rv' -> table_text tp' rp' -> table_text ts' rs' ->
  not_blank rv kv -> not_blank rp kp -> not_blank rs ks -> not_blank rv' kv -> not_blank rp' kp -> not_blank rs' ks ->
  lines_of tv lv -> lines_of tp lp -> lines_of ts ls -> length lp = length lv -> length ls = length lv ->
  lines_of tv' lv' -> lines_of tp' lp' -> lines_of ts' ls' -> length lp' = length lv' -> length ls' = length lv' ->
  read_month float_of files out id runid (fst ym) (snd ym) = read_month float_of files' out id runid (fst ym) (snd ym).
Proof.
  intros float_of files files' out id runid [y m] hv hp hs tv tp ts tv' tp' ts' rv rp rs rv' rp' rs' kv kp ks lv lp ls lv' lp' ls' [M _] Pv Pp Ps Nv Np Ns V P S V' P' S' Tv Tp Ts Tv' Tp' Ts' Kv Kp Ks Kv' Kp' Ks' Lv Lp Ls E1 E2 Lv' Lp' Ls' E1' E2'. cbn [fst snd] in *.
  assert (HC : forall h t l, Forall plain h -> lines_of t l -> count_lines (between h ++ lf ++ t) true = 1 + Z.of_nat (length l)).
  { intros h t l F L. rewrite (count_any (between h ++ lf ++ t) (between h :: l)); [cbn [length]; lia|]. apply lo_more; [now apply no_lf_plain|exact L]. }
  unfold read_month.
  rewrite (holds_eq files out id runid y m _ _ ltac:(lia) V), (holds_eq files out id runid y m _ _ ltac:(lia) P), (holds_eq files out id runid y m _ _ ltac:(lia) S).
  rewrite (holds_eq files' out id runid y m _ _ ltac:(lia) V'), (holds_eq files' out id runid y m _ _ ltac:(lia) P'), (holds_eq files' out id runid y m _ _ ltac:(lia) S').
  rewrite (HC hv tv lv Pv Lv), (HC hp tp lp Pp Lp), (HC hs ts ls Ps Ls), (HC hv tv' lv' Pv Lv'), (HC hp tp' lp' Pp Lp'), (HC hs ts' ls' Ps Ls'), E1, E2, E1', E2', !Z.eqb_refl.
  replace (1 + Z.of_nat (length lv) =? 0) with false by lia. replace (1 + Z.of_nat (length lv') =? 0) with false by lia. cbn [negb orb].
  unfold read_variables. destruct (header_cut hv tv Pv Nv) as [A1 A2], (header_cut hv tv' Pv Nv) as [A3 _]. rewrite A1, A3, A2, (csv_read_table _ _ Tv), (csv_read_table _ _ Tv'). cbn [bind].
  rewrite (dict_blank _ rv rv' kv Kv Kv').
  destruct (if (11 <? length hv)%nat then _ else _) as [r0|]; [cbn [bind]|reflexivity].
  assert (G : forall type h t t' r r' k reps, Forall plain h -> h <> [] -> table_text t r -> table_text t' r' -> not_blank r k -> not_blank r' k -> read_flags type (between h ++ lf ++ t) reps = read_flags type (between h ++ lf ++ t') reps).
  { intros type h t t' r r' k reps F N T T' K K'. unfold read_flags. destruct (header_cut h t F N) as [B1 B2], (header_cut h t' F N) as [B3 _]. rewrite B1, B3, B2, (csv_read_table _ _ T), (csv_read_table _ _ T'). cbn [bind]. now rewrite (dict_blank _ r r' k K K'). }
  rewrite (G "POS" hp tp tp' rp rp' kp r0 Pp Np Tp Tp' Kp Kp'). destruct (read_flags "POS" _ r0) as [r1|]; [cbn [bind]|reflexivity]. exact (G "SST" hs ts ts' rs rs' ks r1 Ps Ns Ts Ts' Ks Ks').
Qed.
Print Assumptions C58_blank.
Example C58_blank_ex : let t := ("A1,0" ++ lf)%string in let t' := (lf ++ "A1,0" ++ crlf ++ lf)%string in
  table_text t [["A1"; "0"]] /\ table_text t' [[]; ["A1"; "0"]; []] /\ not_blank [["A1"; "0"]] [["A1"; "0"]] /\ not_blank [[]; ["A1"; "0"]; []] [["A1"; "0"]] /\
  lines_of t ["A1,0"] /\ lines_of t' [""; ("A1,0" ++ String "013" "")%string; ""].
Proof.
  assert (R : row_text "A1,0" ["A1"; "0"]) by (apply (rt_cells ["A1"; "0"]); [repeat (constructor; [apply cell_bare; [cbn; repeat split; discriminate|discriminate]|]); constructor|discriminate]).
  cbv zeta. split; [apply (tt_row "A1,0" ["A1"; "0"] lf "" []); [exact R|now left|constructor]|]. split.
  { change (lf ++ "A1,0" ++ crlf ++ lf)%string with ("" ++ lf ++ ("A1,0" ++ crlf ++ ("" ++ lf ++ "")))%string. apply tt_row; [constructor|now left|]. apply tt_row; [exact R|now right|]. apply tt_row; [constructor|now left|constructor]. }
  split; [repeat constructor|]. split; [repeat constructor|]. split.
  - apply (lo_more "A1,0" "" []); [cbn; repeat split; discriminate|constructor].
  - apply (lo_more "" ("A1,0" ++ crlf ++ lf) [("A1,0" ++ String "013" "")%string; ""]); [exact I|]. apply (lo_more ("A1,0" ++ String "013" "") lf [""]); [cbn; repeat split; discriminate|]. apply (lo_more "" "" []); [exact I|constructor].
Qed.

(** If the main program left no reports in any of the months, the control stops. *)
Theorem C58_nothing : forall sp elev sq str_of float_of rnd files p out track_out id target fuel y1 m1 y2 m2 edge run months ls, numbers_read str_of float_of rnd ->
  ym_ok (y1, m1) -> ym_ok (y2, m2) -> month_number (y1, m1) <= month_number (y2, m2) -> (Z.to_nat (12 * (y2 - y1) + m2 - m1) <= fuel)%nat ->
  (forall ym, In ym months <-> ym_ok ym /\ month_number (y1, m1) <= month_number ym <= month_number (y2, m2)) -> StronglySorted (fun a b => month_number a < month_number b) months ->
  target_of id target -> Forall2 (month_left str_of files out target (tp_runid p)) months ls -> concat ls = [] ->
  tracking_qc sp elev sq str_of float_of files p out track_out id fuel y1 m1 y2 m2 edge run = Err OtherError.
Proof.
  intros sp elev sq str_of float_of rnd files p out track_out id target fuel y1 m1 y2 m2 edge run months ls NR Y1 Y2 LE FU IN SO TG F NE.
  assert (MO : Forall ym_ok months) by (apply Forall_forall; intros ym I; apply IN in I; tauto).
  destruct (C58_read_back str_of float_of rnd files out target (tp_runid p) months ls NR MO F) as [reps [RM RB]]; [rewrite NE; constructor|].
  rewrite NE in RB. inversion RB; subst reps.
  assert (T : pad_right 9 id = target).
  { destruct TG as [b [-> [B L]]]. unfold pad_right. f_equal. rewrite length_app_s in L. assert (LB : String.length b = (9 - String.length id)%nat) by lia. rewrite <- LB. clear - B. induction b as [|c b IH]; [reflexivity|]. destruct B as [-> B]. cbn. f_equal. now apply IH. }
  assert (GEN : year_month_gen fuel y1 m1 y2 m2 = Ok (Some months)).
  { destruct (C05_year_month_gen y1 m1 y2 m2 fuel Y1 Y2 LE FU) as [l [G [_ [I' S']]]]. rewrite G. do 2 f_equal. apply (sorted_unique months l); auto. intro ym. rewrite IN, I'. reflexivity. }
  unfold tracking_qc. rewrite T, GEN. cbn [bind]. rewrite RM. reflexivity.
Qed.
Print Assumptions C58_nothing.
Example C58_nothing_ex : month_left (fun _ _ => "1.0") (fun _ => None) "out" "SHIP1    " "run" (2000, 1) [] /\ target_of "SHIP1" "SHIP1    " /\ ym_ok (2000, 1).
Proof.
  split; [left; split; [reflexivity|]|split].
  - intros kind _. exists ("out/2000/01/" ++ kind ++ "_200001_SHIP1    _run.csv")%string. split; [|reflexivity]. exists "2000", "01". split; [exact (Verif.L_Print.str_of_int_int_text 2000)|]. split; [exact (Verif.L_Files.zero_pad_padded 2 1 ltac:(lia) ltac:(lia))|reflexivity].
  - exists "    ". split; [reflexivity|]. split; [cbn; repeat split|reflexivity].
  - unfold ym_ok. cbn. lia.
Qed.
