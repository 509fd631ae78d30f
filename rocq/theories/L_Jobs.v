(** Lemmas about the jobs of the tracking wrapper. *)
Require Import String Ascii ZArith QArith List Bool Lia Permutation.
Require Import Verif.M_Base Verif.L_Base Verif.M_Calendar Verif.S_Calendar Verif.M_Chunks Verif.S_Chunks Verif.M_Imma Verif.S_Imma Verif.L_Imma Verif.M_Files Verif.S_Files Verif.L_Files
  Verif.M_Print Verif.S_Print Verif.L_Print Verif.M_Report Verif.M_Tracking Verif.S_Main2 Verif.M_Jobs Verif.S_Jobs.
Import ListNotations.
Open Scope string_scope.
Open Scope Z_scope.

(* ---- characters ---- *)

Lemma harmless_plain : forall c, harmless c = true <-> plain_char c.
Proof.
  intro c. unfold harmless, plain_char. cbv zeta. rewrite !orb_true_iff, !andb_true_iff, !Z.leb_le, existsb_exists.
  split; (intros [[[H|H]|H]|H] || intros [H|[H|[H|H]]]); try tauto.
  - right. right. right. destruct H as [x [I E]]. apply Ascii.eqb_eq in E. now subst x.
  - right. exists c. split; [exact H|apply Ascii.eqb_refl].
Qed.
Lemma all_chars_spec : forall p s, all_chars p s = true <-> chars (fun c => p c = true) s.
Proof. intros p. induction s as [|c s IH]; cbn; [tauto|]. rewrite andb_true_iff, IH. reflexivity. Qed.
Lemma all_harmless : forall s, chars plain_char s -> all_chars harmless s = true.
Proof. intros s H. apply all_chars_spec. eapply chars_impl; [|exact H]. intros c. apply harmless_plain. Qed.
Lemma plain_no : forall x, harmless x = false -> forall s, chars plain_char s -> chars (fun c => c <> x) s.
Proof. intros x X s H. eapply chars_impl; [|exact H]. intros c C ->. apply harmless_plain in C. congruence. Qed.
Lemma digits_plain : forall s, chars (fun c => is_digit c = true) s -> chars plain_char s.
Proof.
  intros s H. eapply chars_impl; [|exact H]. intros c C. left. unfold is_digit in C. cbv zeta in C. apply andb_true_iff in C. rewrite !Nat.leb_le in C. lia.
Qed.

(* ---- words ---- *)

Lemma words_app : forall a b w, words (a ++ " " ++ b) w = (words a w ++ words b "")%list.
Proof.
  induction a as [|c a IH]; intros b w.
  - cbn [append words]. rewrite Ascii.eqb_refl. reflexivity.
  - change (String c a ++ " " ++ b) with (String c (a ++ " " ++ b)). cbn [words]. destruct (Ascii.eqb c " "); [rewrite IH; now rewrite app_assoc|apply IH].
Qed.
Lemma words_word : forall a w, chars (fun c => c <> " "%char) a -> words a w = match (w ++ a)%string with EmptyString => [] | s => [s] end.
Proof.
  induction a as [|c a IH]; intros w H; [cbn [words]; rewrite app_nil_r_s; now destruct w|]. destruct H as [C H]. cbn [words]. apply Ascii.eqb_neq in C. rewrite C, (IH _ H), app_assoc_s. reflexivity.
Qed.
Lemma words_plain : forall a, plain_word a -> words a "" = [a].
Proof. intros a [H [c [t [-> _]]]]. rewrite words_word by (apply (plain_no " "%char); [reflexivity|exact H]). reflexivity. Qed.
Lemma words_blanks : forall b, chars (fun c => c = " "%char) b -> words b "" = [].
Proof. induction b as [|c b IH]; intro H; [reflexivity|]. destruct H as [-> H]. cbn [words]. rewrite Ascii.eqb_refl. exact (IH H). Qed.
Lemma words_padded : forall a b, plain_word a -> chars (fun c => c = " "%char) b -> words (a ++ b) "" = [a].
Proof.
  intros a [|c b] P H; [rewrite app_nil_r_s; now apply words_plain|]. destruct H as [-> H]. change (String " " b) with (" " ++ b)%string. rewrite words_app, words_plain, words_blanks by assumption. reflexivity.
Qed.
Lemma words_concat : forall l, Forall plain_word l -> words (String.concat " " l) "" = l.
Proof.
  induction l as [|a l IH]; intro H; [reflexivity|]. inversion_clear H as [|? ? A B]. destruct l as [|b l]; [now apply words_plain|].
  change (String.concat " " (a :: b :: l)) with (a ++ " " ++ String.concat " " (b :: l)). rewrite words_app, (words_plain a A), (IH B). reflexivity.
Qed.
Lemma command_words : forall l c, words (fold_left (fun c o => (c ++ " -" ++ fst o ++ " " ++ snd o)%string) l c) "" = (words c "" ++ flat_map (fun o => words ("-" ++ fst o) "" ++ words (snd o) "") l)%list.
Proof.
  induction l as [|[n v] l IH]; intro c; cbn [fold_left flat_map fst snd]; [now rewrite app_nil_r|]. rewrite IH.
  replace (c ++ " -" ++ n ++ " " ++ v) with (c ++ " " ++ (("-" ++ n) ++ " " ++ v)) by (rewrite !app_assoc_s; reflexivity). rewrite words_app, words_app. now rewrite <- !app_assoc.
Qed.

(* ---- lines ---- *)

Lemma lines_line : forall a rest w, chars (fun c => c <> "010"%char) a -> file_lines (a ++ String "010" rest) w = (w ++ a) :: file_lines rest "".
Proof.
  induction a as [|c a IH]; intros rest w H; [cbn [append file_lines]; rewrite Ascii.eqb_refl; now rewrite app_nil_r_s|]. destruct H as [C H]. cbn [append file_lines]. apply Ascii.eqb_neq in C. rewrite C, IH by exact H. now rewrite app_assoc_s.
Qed.
Lemma split_first : forall a rest f, chars (fun c => c <> ","%char) a -> exists l, split_comma (a ++ String "," rest) f = (f ++ a) :: l.
Proof.
  induction a as [|c a IH]; intros rest f H; [cbn [append split_comma]; rewrite Ascii.eqb_refl, app_nil_r_s; eauto|]. destruct H as [C H]. cbn [append split_comma]. apply Ascii.eqb_neq in C. rewrite C. destruct (IH rest (f ++ String c "") H) as [l E]. exists l. rewrite E, app_assoc_s. reflexivity.
Qed.
(** Reading a file of identifiers gives those that were written. *)
Lemma ids_read : forall ids lines, Forall (fun id => chars (fun c => c <> ","%char /\ c <> "010"%char) id) ids -> Forall2 id_line ids lines -> id_column (String.concat "" lines) = ids.
Proof.
  intros ids lines P F. unfold id_column. induction F as [|id line ids lines [safe [SF ->]] F IH]; [reflexivity|]. inversion_clear P as [|? ? P1 P2].
  assert (E : String.concat "" ((id ++ "," ++ safe ++ String "010" "") :: lines) = (id ++ String "," safe) ++ String "010" (String.concat "" lines)).
  { destruct lines as [|l lines]; cbn [String.concat]; rewrite !app_assoc_s; cbn [append]; rewrite ?app_assoc_s; reflexivity. }
  rewrite E. assert (N : chars (fun c => c <> "010"%char) safe).
  { apply safe_made in SF. subst safe. unfold safe_filename. assert (R : forall x n s, n <> "010"%char -> chars (fun c => c <> "010"%char) s -> chars (fun c => c <> "010"%char) (replace (String x "") (String n "") s)).
    { intros x n s NN H. rewrite replace_one. induction s as [|c s IHs]; [exact I|]. destruct H as [C H]. cbn [list_ascii_of_string map string_of_list_ascii chars]. split; [destruct (Ascii.eqb x c); assumption|exact (IHs H)]. }
    apply R; [discriminate|]. apply R; [discriminate|]. eapply chars_impl; [|exact P1]. intros c [_ C]. exact C. }
  rewrite lines_line by (apply chars_app; split; [eapply chars_impl; [|exact P1]; intros c [_ C]; exact C|split; [discriminate|exact N]]). cbn [map append].
  rewrite (IH P2). f_equal. unfold first_column. destruct (split_first id safe "") as [l SL]; [eapply chars_impl; [|exact P1]; intros c [C _]; exact C|]. rewrite SL. reflexivity.
Qed.
