(** Lemmas for reading back the files of the main program: the csv reader, headers, rows as dictionaries. *)
Require Import String Ascii ZArith QArith Qround List Bool Lia.
Require Import Verif.M_Base Verif.L_Base Verif.M_Report Verif.S_Report Verif.L_Report Verif.M_Imma Verif.S_Imma Verif.L_Imma Verif.M_Files Verif.S_Files Verif.L_Files Verif.S_Print Verif.L_Print Verif.M_Tracking Verif.S_Reading.
Import ListNotations.
Open Scope string_scope.
Open Scope list_scope.
Open Scope Z_scope.

Definition quote : ascii := """"%char.
(** A character that stands for itself in a csv file. *)
Definition lit (c : ascii) : Prop := c <> ","%char /\ c <> "010"%char /\ c <> quote /\ c <> "013"%char.
Definition lits (s : string) : Prop := chars lit s.
(** The text of a field and its value. *)
Definition field (raw val : string) : Prop := lits val /\ (raw = val \/ raw = (String quote "" ++ val ++ String quote "")%string).

Lemma app_str_assoc : forall a b c : string, ((a ++ b) ++ c = a ++ (b ++ c))%string.
Proof. induction a as [|x a IH]; intros; cbn; [reflexivity|]. now rewrite IH. Qed.
Lemma app_str_nil : forall a : string, (a ++ "" = a)%string.
Proof. induction a as [|x a IH]; cbn; [reflexivity|]. now rewrite IH. Qed.
Lemma eqb_no : forall c d, c <> d -> Ascii.eqb c d = false.
Proof. intros c d N. now apply Ascii.eqb_neq. Qed.
Lemma lit_eol : forall c, lit c -> is_eol c = false.
Proof. intros c [_ [A [_ B]]]. unfold is_eol. now rewrite (eqb_no _ _ A), (eqb_no _ _ B). Qed.
Lemma lit_not : forall c, lit c -> Ascii.eqb c "," = false /\ Ascii.eqb c "010" = false /\ Ascii.eqb c """" = false.
Proof. intros c [A [B [C _]]]. repeat split; now apply eqb_no. Qed.

Lemma fresh_any : forall c t s f r b, csv_rows (String c t) s f r b = csv_rows (String c t) s f r false.
Proof. reflexivity. Qed.
Lemma in_field : forall val e rest f row b, lits val -> csv_rows (val ++ String e rest) InField f row b = csv_rows (String e rest) InField (f ++ val) row false.
Proof.
  induction val as [|c val IH]; intros e rest f row b L; [cbn [append]; rewrite app_str_nil; apply fresh_any|]. destruct L as [Lc L]. cbn [append].
  cbn [csv_rows csv_step]. destruct (lit_not c Lc) as [A [B C]]. rewrite (lit_eol c Lc), A, B. cbn [bind]. rewrite IH by exact L. f_equal. rewrite app_str_assoc. reflexivity.
Qed.
Lemma in_quotes : forall val e rest f row b, lits val -> csv_rows (val ++ String e rest) InQuotes f row b = csv_rows (String e rest) InQuotes (f ++ val) row false.
Proof.
  induction val as [|c val IH]; intros e rest f row b L; [cbn [append]; rewrite app_str_nil; apply fresh_any|]. destruct L as [Lc L]. cbn [append].
  cbn [csv_rows csv_step]. destruct (lit_not c Lc) as [A [B C]]. rewrite C, B. cbn [bind]. rewrite IH by exact L. f_equal. rewrite app_str_assoc. reflexivity.
Qed.
(** At the start of a field. *)
Definition starts (s : cstate) : Prop := s = StartRow \/ s = StartField.
Lemma field_comma : forall raw val rest s row b, field raw val -> starts s ->
  csv_rows (raw ++ String "," rest) s "" row b = csv_rows rest StartField "" (row ++ [val]) false.
Proof.
  intros raw val rest s row b [L [->| ->]] ST.
  - destruct val as [|c val]; [destruct ST as [-> | ->]; reflexivity|]. destruct L as [Lc L]. cbn [append].
    assert (E : csv_rows (String c (val ++ String "," rest)) s "" row b = csv_rows (val ++ String "," rest) InField (String c "") row false).
    { destruct (lit_not c Lc) as [A [B C]]. cbn [csv_rows]. destruct ST as [-> | ->]; cbn [csv_step]; rewrite (lit_eol c Lc), C, A; cbn [bind]; rewrite B; reflexivity. }
    rewrite E, in_field by exact L. reflexivity.
  - rewrite !app_str_assoc. cbn [append]. assert (E : csv_rows (String quote (val ++ String quote (String "," rest))) s "" row b = csv_rows (val ++ String quote (String "," rest)) InQuotes "" row false).
    { destruct ST as [-> | ->]; reflexivity. }
    rewrite E, in_quotes by exact L. reflexivity.
Qed.
Definition line_done (row : list string) (rest : string) : res (list (list string)) := let! rows := csv_rows rest StartRow "" [] true in Ok (row :: rows).
Lemma field_line : forall raw val rest row b, field raw val ->
  csv_rows (raw ++ String "010" rest) StartField "" row b = line_done (row ++ [val]) rest.
Proof.
  intros raw val rest row b [L [->| ->]].
  - destruct val as [|c val]; [reflexivity|]. destruct L as [Lc L]. cbn [append].
    assert (E : csv_rows (String c (val ++ String "010" rest)) StartField "" row b = csv_rows (val ++ String "010" rest) InField (String c "") row false).
    { destruct (lit_not c Lc) as [A [B C]]. cbn [csv_rows csv_step]. rewrite (lit_eol c Lc), C, A. cbn [bind]. rewrite B. reflexivity. }
    rewrite E, in_field by exact L. reflexivity.
  - rewrite !app_str_assoc. cbn [append]. assert (E : csv_rows (String quote (val ++ String quote (String "010" rest))) StartField "" row b = csv_rows (val ++ String quote (String "010" rest)) InQuotes "" row false) by reflexivity.
    rewrite E, in_quotes by exact L. reflexivity.
Qed.
Lemma fields_line : forall raws vals rest row b, Forall2 field raws vals -> raws <> [] ->
  csv_rows (between raws ++ String "010" rest) StartField "" row b = line_done (row ++ vals) rest.
Proof.
  intros raws vals rest row b F. revert row b. induction F as [|raw val raws vals H F IH]; intros row b N; [congruence|]. destruct raws as [|raw' raws].
  - inversion F; subst. cbn [between]. now apply field_line.
  - change (between (raw :: raw' :: raws)) with (raw ++ "," ++ between (raw' :: raws))%string. rewrite !app_str_assoc. cbn [append].
    rewrite (field_comma raw val) by (auto; now right). rewrite IH by discriminate. rewrite <- app_assoc. reflexivity.
Qed.
Lemma row_line : forall raw raw' raws vals rest b, Forall2 field (raw :: raw' :: raws) vals ->
  csv_rows (between (raw :: raw' :: raws) ++ String "010" rest) StartRow "" [] b = line_done vals rest.
Proof.
  intros raw raw' raws vals rest b F. inversion F as [|? val ? vals' H F']; subst.
  change (between (raw :: raw' :: raws)) with (raw ++ "," ++ between (raw' :: raws))%string. rewrite !app_str_assoc. cbn [append].
  rewrite (field_comma raw val) by (auto; now left). now rewrite (fields_line _ vals') by (auto; discriminate).
Qed.
(** Rows of two or more fields. *)
Lemma csv_read_rows : forall rows text vals, csv_file rows text -> Forall2 (fun row val => Forall2 field row val /\ (2 <= length row)%nat) rows vals -> csv_read text = Ok vals.
Proof.
  unfold csv_read. intros rows text vals C. revert vals. induction C as [|fs l s t [N [P E]] C IH]; intros vals F; inversion F as [|? val ? vals' [H L] F']; subst; [reflexivity|].
  destruct fs as [|raw [|raw' raws]]; cbn in L; try lia. rewrite app_str_assoc. cbn [append]. rewrite (row_line raw raw' raws val) by exact H. unfold line_done. rewrite (IH vals' F'). reflexivity.
Qed.

(* ---- header and number of lines ---- *)

Lemma no_lf_plain : forall fs, Forall plain fs -> chars (fun c => c <> "010"%char) (between fs).
Proof.
  intros fs F. induction F as [|f fs H F IH]; [exact I|]. assert (Hf : chars (fun c => c <> "010"%char) f) by (eapply chars_impl; [|exact H]; intros c [_ K]; exact K).
  destruct fs as [|f' fs]; [exact Hf|]. change (between (f :: f' :: fs)) with (f ++ "," ++ between (f' :: fs))%string. apply chars_app. split; [exact Hf|]. cbn. split; [discriminate|exact IH].
Qed.
Lemma cut_ok : forall a rest, chars (fun c => c <> "010"%char) a -> cut_line (a ++ String "010" rest) = ((a ++ String "010" "")%string, rest).
Proof. induction a as [|c a IH]; intros rest H; [reflexivity|]. destruct H as [Hc H]. cbn [append cut_line]. rewrite (eqb_no _ _ Hc), IH by exact H. reflexivity. Qed.
Lemma count_ok : forall a rest b, chars (fun c => c <> "010"%char) a -> count_lines (a ++ String "010" rest) b = 1 + count_lines rest true.
Proof. induction a as [|c a IH]; intros rest b H; [reflexivity|]. destruct H as [Hc H]. cbn [append count_lines]. rewrite (eqb_no _ _ Hc). now apply IH. Qed.
Lemma count_rows : forall rows text, csv_file rows text -> count_lines text true = Z.of_nat (length rows).
Proof.
  intros rows text C. induction C as [|fs l s t [N [P E]] C IH]; [reflexivity|]. subst s. rewrite app_str_assoc. cbn [append]. rewrite count_ok by (now apply no_lf_plain). rewrite IH. cbn [length]. lia.
Qed.
Lemma substring_all : forall (s : string) x, substring 0 (String.length s) (s ++ x) = s.
Proof. induction s as [|c s IH]; intro x; cbn; [destruct x; reflexivity|]. now rewrite IH. Qed.
Lemma drop_ok : forall s c, drop_last (s ++ String c "") = s.
Proof.
  intros s c. unfold drop_last. replace (String.length (s ++ String c "") - 1)%nat with (String.length s); [apply substring_all|].
  assert (L : forall a b : string, String.length (a ++ b) = (String.length a + String.length b)%nat) by (induction a; intros; cbn; auto). rewrite L. cbn. lia.
Qed.
Lemma split_field : forall f rest acc, plain f -> split_comma (f ++ String "," rest) acc = ((acc ++ f)%string :: split_comma rest "").
Proof.
  induction f as [|c f IH]; intros rest acc H; [cbn; now rewrite app_str_nil|]. destruct H as [[Hc _] H]. cbn [append split_comma]. rewrite (eqb_no _ _ Hc), IH by exact H. rewrite app_str_assoc. reflexivity.
Qed.
Lemma split_last : forall f acc, plain f -> split_comma f acc = [(acc ++ f)%string].
Proof.
  induction f as [|c f IH]; intros acc H; [cbn; now rewrite app_str_nil|]. destruct H as [[Hc _] H]. cbn [split_comma]. rewrite (eqb_no _ _ Hc), IH by exact H. rewrite app_str_assoc. reflexivity.
Qed.
Lemma split_between : forall fs, Forall plain fs -> fs <> [] -> split_comma (between fs) "" = fs.
Proof.
  intros fs F. induction F as [|f fs H F IH]; intro N; [congruence|]. destruct fs as [|f' fs].
  - cbn [between]. rewrite split_last by exact H. reflexivity.
  - change (between (f :: f' :: fs)) with (f ++ String "," (between (f' :: fs)))%string. rewrite split_field by exact H. rewrite IH by discriminate. reflexivity.
Qed.
Lemma header_ok : forall header rows text, csv_file (header :: rows) text -> exists rest, csv_file rows rest /\ exists h, cut_line text = (h, rest) /\ column_names h = header.
Proof.
  intros header rows text C. inversion C as [|fs l s t [N [P E]] C']; subst. exists t. split; [exact C'|]. exists (between header ++ String "010" "")%string. split.
  - rewrite app_str_assoc. cbn [append]. apply cut_ok. now apply no_lf_plain.
  - unfold column_names. rewrite drop_ok. now apply split_between.
Qed.

(* ---- rows as dictionaries ---- *)

Lemma assoc_app : forall A k (l l' : list (string * A)), assoc k (l ++ l') = match assoc k l with Some v => Some v | None => assoc k l' end.
Proof. induction l as [|[k' v] l IH]; intro l'; cbn; [reflexivity|]. destruct (String.eqb k k'); [reflexivity|apply IH]. Qed.
Lemma assoc_absent : forall A k (l : list (string * A)), ~ In k (map fst l) -> assoc k l = None.
Proof.
  intros A k l. induction l as [|[k' v] l IH]; intro N; cbn; [reflexivity|]. destruct (String.eqb_spec k k') as [->|H]; [exfalso; apply N; now left|]. apply IH. intro I. apply N. now right.
Qed.
Lemma assoc_rev : forall A k (l : list (string * A)), NoDup (map fst l) -> assoc k (rev l) = assoc k l.
Proof.
  intros A k l. induction l as [|[k' v] l IH]; intro N; [reflexivity|]. cbn [map fst] in N. inversion N as [|? ? N1 N2]; subst. cbn [rev]. rewrite assoc_app, (IH N2). cbn [assoc]. destruct (String.eqb_spec k k') as [->|H].
  - now rewrite assoc_absent.
  - destruct (assoc k l); reflexivity.
Qed.
Lemma row_dict_ok : forall names row, length row = length names -> NoDup names -> forall k, assoc k (fst (row_dict names row)) = assoc k (combine names (map Some row)) /\ snd (row_dict names row) = false.
Proof.
  intros names row L N k. unfold row_dict. cbn [fst snd]. rewrite L, Nat.sub_diag. cbn [repeat]. rewrite app_nil_r. split; [|apply Nat.ltb_irrefl]. apply assoc_rev.
  assert (E : forall (A B : Type) (l : list A) (l' : list B), length l' = length l -> map fst (combine l l') = l).
  { intros A B. induction l as [|x l IH]; intros [|y l'] H; cbn in *; try discriminate; [reflexivity|]. rewrite IH; [reflexivity|lia]. }
  rewrite E; [exact N|]. now rewrite map_length.
Qed.
Lemma dict_rows_ok : forall names rows, Forall (fun row => row <> []) rows -> dict_rows names rows = map (row_dict names) rows.
Proof.
  intros names rows F. unfold dict_rows. f_equal. induction F as [|row rows H F IH]; [reflexivity|]. cbn [filter]. destruct row; [congruence|]. now rewrite IH.
Qed.
