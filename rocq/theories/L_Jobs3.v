(** Lemmas about the jobs of the tracking wrapper: the names of the job files, a whole run. *)
Require Import String Ascii ZArith QArith List Bool Lia Permutation.
Require Import Verif.M_Base Verif.L_Base Verif.M_Calendar Verif.S_Calendar Verif.L_Calendar Verif.M_Chunks Verif.S_Chunks Verif.L_Chunks Verif.L_Chunks3 Verif.M_Imma Verif.S_Imma Verif.L_Imma Verif.M_Files Verif.S_Files Verif.L_Files
  Verif.M_Print Verif.S_Print Verif.L_Print Verif.M_Report Verif.M_Tracking Verif.S_Main2 Verif.M_Jobs Verif.S_Jobs Verif.L_Jobs Verif.L_Jobs2.
Import ListNotations.
Open Scope string_scope.
Open Scope Z_scope.

Lemma app_inj_r : forall a b x, a ++ x = b ++ x -> a = b.
Proof.
  intros a b x H. assert (L : String.length a = String.length b) by (apply (f_equal String.length) in H; rewrite !length_app_s in H; lia). now destruct (app_inj_len a b x x L H).
Qed.
(** A text of digits after the last underscore is determined. *)
Lemma last_digits : forall p p' d d', chars (fun c => is_digit c = true) d -> chars (fun c => is_digit c = true) d' -> p ++ String "_" d = p' ++ String "_" d' -> p = p' /\ d = d'.
Proof.
  assert (N : forall p d s, chars (fun c => is_digit c = true) d -> d <> p ++ String "_" s).
  { induction p as [|c p IH]; intros d s D E; subst d; [destruct D as [D _]; discriminate D|]. destruct D as [_ D]. exact (IH _ s D eq_refl). }
  induction p as [|c p IH]; intros p' d d' D D' H; destruct p' as [|c' p']; cbn [append] in H.
  - injection H as <-. auto.
  - injection H as <- H. destruct (N p' d d' D H).
  - injection H as -> H. destruct (N p d' d D'). now symmetry.
  - injection H as <- H. destruct (IH p' d d' D D' H) as [-> ->]. auto.
Qed.
Lemma date_digits : forall y m, 0 <= y -> 0 <= m -> chars (fun c => is_digit c = true) (str_of_int y ++ zero_pad 2 m).
Proof. intros y m Y M. apply chars_app. split; [exact (decimal_digits _ _ (str_of_int_nat y Y))|exact (decimal_digits _ _ (proj1 (zero_pad_padded 2 m ltac:(lia) M)))]. Qed.
Lemma date_inj : forall y m y' m', 0 <= y -> 0 <= m < 100 -> 0 <= y' -> 0 <= m' < 100 -> str_of_int y ++ zero_pad 2 m = str_of_int y' ++ zero_pad 2 m' -> y = y' /\ m = m'.
Proof.
  intros y m y' m' Y M Y' M' H. pose proof (zero_pad_padded 2 m ltac:(lia) ltac:(lia)) as P. pose proof (zero_pad_padded 2 m' ltac:(lia) ltac:(lia)) as P'.
  pose proof (padded_width 2 m _ P ltac:(lia) ltac:(cbn; lia)) as W. pose proof (padded_width 2 m' _ P' ltac:(lia) ltac:(cbn; lia)) as W'.
  assert (L : String.length (str_of_int y) = String.length (str_of_int y')) by (apply (f_equal String.length) in H; rewrite !length_app_s, W, W' in H; lia).
  destruct (app_inj_len _ _ _ _ L H) as [A B]. split.
  - eapply decimal_fun; [exact (str_of_int_nat y Y)|]. rewrite A. exact (str_of_int_nat y' Y').
  - eapply decimal_fun; [exact (proj1 P)|]. rewrite B. exact (proj1 P').
Qed.
Lemma job_name_inj : forall id id' y1 m1 y2 m2 y1' m1' y2' m2' rm runid, 0 <= y1 -> 0 <= m1 < 100 -> 0 <= y2 -> 0 <= m2 < 100 -> 0 <= y1' -> 0 <= m1' < 100 -> 0 <= y2' -> 0 <= m2' < 100 ->
  job_name id y1 m1 y2 m2 rm runid = job_name id' y1' m1' y2' m2' rm runid -> no_spaces id = no_spaces id' /\ y1 = y1' /\ m1 = m1' /\ y2 = y2' /\ m2 = m2'.
Proof.
  intros id id' y1 m1 y2 m2 y1' m1' y2' m2' rm runid A B C D A' B' C' D' H. unfold job_name in H. apply app_inj_l in H.
  assert (E : forall i a b c d r, i ++ "_" ++ a ++ b ++ "_" ++ c ++ d ++ "_" ++ r = ((i ++ String "_" (a ++ b)) ++ String "_" (c ++ d)) ++ ("_" ++ r)).
  { intros. rewrite !app_assoc_s. cbn [append]. rewrite !app_assoc_s. cbn [append]. rewrite ?app_assoc_s. reflexivity. }
  rewrite (E (no_spaces id)), (E (no_spaces id')) in H. apply app_inj_r in H. apply last_digits in H; [|apply date_digits; lia|apply date_digits; lia]. destruct H as [H H2]. apply last_digits in H; [|apply date_digits; lia|apply date_digits; lia]. destruct H as [H H1].
  apply date_inj in H1; [|lia..]. apply date_inj in H2; [|lia..]. tauto.
Qed.

(** The classes of a chunk are some of the four words. *)
Definition class_words : list string := ["start_edge_case"; "end_edge_case"; "new"; "regular"].
Lemma classify_words : forall g gap y1 m1 y2 m2 cl, classify g gap y1 m1 y2 m2 = Ok cl -> cl <> [] /\ Forall (fun w => In w class_words) cl.
Proof.
  intros g gap y1 m1 y2 m2 cl H. unfold classify in H. destruct (np_truth _) as [a|]; [|discriminate]. cbn [bind] in H. destruct (np_truth _) as [b|]; [|discriminate]. cbn [bind] in H. destruct (np_truth _) as [c|]; [|discriminate]. cbn [bind] in H.
  apply ok_same in H. subst cl. destruct a, b, c; (split; [discriminate|]); apply Forall_forall; intros w I; unfold class_words; cbn [app negb orb In] in *; tauto.
Qed.
Lemma yield_words : forall g gap starts i ends items, yield_loop g gap i starts ends = Ok items -> Forall (fun it => snd it <> [] /\ Forall (fun w => In w class_words) (snd it)) items.
Proof.
  intros g gap. induction starts as [|v starts IH]; intros i ends items H; cbn [yield_loop] in H; [apply ok_same in H; subst items; constructor|].
  destruct (py_nth (yc_months g) v) as [[y1 m1]|]; [|discriminate]. cbn [bind] in H. destruct (py_nth ends i) as [e|]; [|discriminate]. cbn [bind] in H. destruct (py_nth (yc_months g) e) as [[y2 m2]|]; [|discriminate]. cbn [bind] in H.
  destruct (classify g gap y1 m1 y2 m2) as [cl|] eqn:C; [|discriminate]. cbn [bind] in H. destruct (yield_loop g gap (i + 1) starts ends) as [rest|] eqn:R; [|discriminate]. cbn [bind] in H. apply ok_same in H. subst items.
  constructor; [cbn [snd]; eapply classify_words, C|]. eapply IH, R.
Qed.
Lemma submit_words : forall edge gap d jobs, submit_all edge gap d = Ok jobs -> Forall (fun j => snd (snd j) <> [] /\ Forall (fun w => In w class_words) (snd (snd j))) jobs.
Proof.
  intros edge gap. induction d as [|[id g] d IH]; intros jobs H; cbn [submit_all] in H; [apply ok_same in H; subst jobs; constructor|].
  destruct (yield_start_and_end_dates g gap) as [items|] eqn:Y; [|discriminate]. cbn [bind] in H. destruct (submit_all edge gap d) as [rest|]; [|discriminate]. cbn [bind] in H. apply ok_same in H. subst jobs.
  unfold yield_start_and_end_dates in Y. destruct (get_chunks gap (yc_counter g)) as [starts ends]. apply yield_words in Y. apply Forall_app. split; [|now apply IH].
  apply Forall_map. rewrite Forall_forall in Y |- *. intros it I. apply filter_In in I. exact (Y it (proj1 I)).
Qed.
Lemma wrapper_words : forall fuel ids mode gap y1 m1 y2 m2 jobs, wrapper fuel ids mode gap y1 m1 y2 m2 = Ok (Some jobs) -> Forall (fun j => snd (snd j) <> [] /\ Forall plain_word (snd (snd j))) jobs.
Proof.
  intros fuel ids mode gap y1 m1 y2 m2 jobs H. unfold wrapper in H. destruct (negb _); [discriminate|]. destruct (year_month_gen fuel y1 m1 y2 m2) as [[months|]|]; try discriminate. cbn [bind] in H.
  destruct (ymc_init fuel y1 m1 y2 m2) as [[g|]|]; try discriminate. cbn [bind] in H. destruct (submit_all mode gap _) as [js|] eqn:S; [|discriminate]. cbn [bind] in H. apply ok_same in H. injection H as ->.
  apply submit_words in S. eapply Forall_impl; [|exact S]. intros j [A B]. split; [exact A|]. eapply Forall_impl; [|exact B].
  assert (L : forall s, all_chars harmless s = true -> chars plain_char s) by (intros s H1; apply all_chars_spec in H1; eapply chars_impl; [|exact H1]; intros c; apply harmless_plain).
  intros w I. unfold class_words in I. repeat (destruct I as [<-|I]; [split; [apply L; reflexivity|eexists _, _; split; [reflexivity|discriminate]]|]). destruct I.
Qed.

(** Only the identifiers of the months of the run matter. *)
Lemma read_ids_ext : forall ids ids' fresh months, (forall ym, In ym months -> ids ym = ids' ym) -> read_ids ids fresh months = read_ids ids' fresh months.
Proof.
  intros ids ids' fresh months. unfold read_ids. generalize (@nil (string * ymcounter)). induction months as [|ym months IH]; intros d H; [reflexivity|]. cbn [fold_left]. rewrite (H ym (or_introl eq_refl)). apply IH. intros z I. apply H. now right.
Qed.
Lemma wrapper_ext : forall fuel ids ids' mode gap y1 m1 y2 m2 months, year_month_gen fuel y1 m1 y2 m2 = Ok (Some months) -> (forall ym, In ym months -> ids ym = ids' ym) ->
  wrapper fuel ids mode gap y1 m1 y2 m2 = wrapper fuel ids' mode gap y1 m1 y2 m2.
Proof.
  intros fuel ids ids' mode gap y1 m1 y2 m2 months G H. unfold wrapper. rewrite G. cbn [bind]. destruct (ymc_init fuel y1 m1 y2 m2) as [[g|]|]; try reflexivity. cbn [bind]. now rewrite (read_ids_ext ids ids' g months H).
Qed.
(** The files of identifiers of the months, read. *)
Lemma id_files_read : forall files out ids months, (forall y m, In (y, m) months -> exists text, files (id_file_name out y m) = Some text /\ id_column text = ids (y, m)) ->
  read_id_files files out months = Ok (map (fun ym => (ym, ids ym)) months).
Proof.
  intros files out ids. induction months as [|[y m] months IH]; intros H; [reflexivity|]. cbn [read_id_files map]. destruct (H y m (or_introl eq_refl)) as [text [F E]]. rewrite F, IH by (intros; apply H; now right). cbn [bind]. now rewrite E.
Qed.
Lemma ids_in_map : forall ids months ym, In ym months -> ids_in (map (fun ym => (ym, ids ym)) months) ym = ids ym.
Proof.
  intros ids months ym. unfold ids_in. induction months as [|z months IH]; intros I; [destruct I|]. cbn [map find fst]. destruct (ym_eqb z ym) eqn:E.
  - unfold ym_eqb in E. apply andb_true_iff in E. rewrite !Z.eqb_eq in E. destruct z, ym. cbn [fst snd] in *. destruct E as [-> ->]. reflexivity.
  - destruct I as [->|I]; [|now apply IH]. unfold ym_eqb in E. rewrite !Z.eqb_refl in E. discriminate.
Qed.
