(** The csv reader. *)
Require Import String Ascii ZArith QArith List Bool Lia.
Require Import Verif.M_Base Verif.L_Base Verif.M_Report Verif.S_Imma Verif.L_Imma Verif.S_Print Verif.M_Tracking Verif.S_Csv Verif.L_Reading.
Import ListNotations.
Open Scope string_scope.
Open Scope list_scope.
Open Scope Z_scope.

Definition basic (c : ascii) : Prop := c <> ","%char /\ c <> "010"%char /\ c <> "013"%char.
Lemma basic_not : forall c, basic c -> is_eol c = false /\ Ascii.eqb c "," = false /\ Ascii.eqb c "010" = false.
Proof. intros c [A [B C]]. unfold is_eol. rewrite !eqb_no by assumption. auto. Qed.
Lemma bare_run : forall val rest f row b, chars basic val -> val <> "" -> csv_rows (val ++ rest) InField f row b = csv_rows rest InField (f ++ val) row false.
Proof.
  induction val as [|c val IH]; intros rest f row b L N; [congruence|]. destruct L as [Lc L]. destruct (basic_not c Lc) as [A [B C]]. cbn [append csv_rows csv_step]. rewrite A, B, C. cbn [bind].
  destruct val as [|c' val]; [reflexivity|]. rewrite IH by (exact L || discriminate). f_equal. rewrite app_str_assoc. reflexivity.
Qed.
Lemma quoted_run : forall val t rest f row b, doubled val t -> csv_rows (t ++ String mark rest) InQuotes f row b = csv_rows rest QuoteInQuotes (f ++ val) row false.
Proof.
  intros val t rest f row b D. revert f b. induction D as [|s t D IH|c s t N D IH]; intros f b.
  - rewrite app_str_nil. reflexivity.
  - change (csv_rows (String mark (String mark t) ++ String mark rest) InQuotes f row b) with (csv_rows (t ++ String mark rest) InQuotes (f ++ String mark "") row false). rewrite IH, app_str_assoc. reflexivity.
  - assert (K : csv_rows (String c t ++ String mark rest) InQuotes f row b = csv_rows (t ++ String mark rest) InQuotes (f ++ String c "") row (Ascii.eqb c "010")).
    { cbn [append csv_rows csv_step]. rewrite (eqb_no c """" N). cbn [bind]. destruct (Ascii.eqb c "010"); reflexivity. }
    rewrite K, IH, app_str_assoc. reflexivity.
Qed.
(** After the text of a cell. *)
Definition after (s0 s : cstate) (val : string) : Prop := s = InField \/ s = QuoteInQuotes \/ s = s0 /\ val = "".
Lemma cell_run : forall raw val rest s row b, cell raw val -> starts s -> exists s' b', after s s' val /\ (raw = "" -> s' = s) /\ (raw <> "" \/ b = false -> b' = false) /\ (s' = s -> raw = "") /\
  csv_rows (raw ++ rest) s "" row b = csv_rows rest s' val row b'.
Proof.
  intros raw val rest s row b C ST. destruct C as [val L N|val t D].
  - destruct val as [|c val]; [exists s, b; split; [right; right; auto|]; split; [auto|]; split; [intros [K|K]; [congruence|exact K]|]; split; reflexivity|].
    exists InField, false. split; [now left|]. split; [discriminate|]. split; [reflexivity|]. split; [intro K; destruct ST as [E|E]; rewrite E in K; discriminate|].
    destruct L as [Lc L]. destruct (basic_not c Lc) as [A [B C]]. assert (Q : Ascii.eqb c """" = false) by (apply eqb_no; intro K; subst c; now destruct (N val)).
    assert (E : csv_rows (String c val ++ rest) s "" row b = csv_rows (val ++ rest) InField (String c "") row false).
    { cbn [append csv_rows]. destruct ST as [-> | ->]; cbn [csv_step]; rewrite A, Q, B; cbn [bind]; rewrite C; reflexivity. }
    rewrite E. destruct val as [|c' val]; [reflexivity|]. rewrite bare_run by (exact L || discriminate). reflexivity.
  - exists QuoteInQuotes, false. split; [right; now left|]. split; [discriminate|]. split; [reflexivity|]. split; [intro K; destruct ST as [E|E]; rewrite E in K; discriminate|].
    assert (E : csv_rows ((String mark "" ++ t ++ String mark "") ++ rest) s "" row b = csv_rows (t ++ String mark rest) InQuotes "" row false).
    { rewrite !app_str_assoc. cbn [append]. destruct ST as [-> | ->]; reflexivity. }
    rewrite E, (quoted_run val t) by exact D. reflexivity.
Qed.
Lemma cell_comma : forall raw val rest s row b, cell raw val -> starts s -> csv_rows (raw ++ String "," rest) s "" row b = csv_rows rest StartField "" (row ++ [val]) false.
Proof.
  intros raw val rest s row b C ST. destruct (cell_run raw val (String "," rest) s row b C ST) as [s' [b' [A [_ [_ [_ ->]]]]]].
  destruct A as [->|[->|[-> ->]]]; [reflexivity|reflexivity|]. destruct ST as [-> | ->]; reflexivity.
Qed.
(** What ends a row. *)
Lemma cell_end : forall raw val e rest row b s, cell raw val -> starts s -> (s = StartRow -> raw <> "") -> e = lf \/ e = crlf -> csv_rows (raw ++ e ++ rest) s "" row b = line_done (row ++ [val]) rest.
Proof.
  intros raw val e rest row b s C ST NE E. destruct (cell_run raw val (e ++ rest) s row b C ST) as [s' [b' [A [_ [_ [Z ->]]]]]].
  destruct A as [->|[->|[-> ->]]]; [destruct E as [-> | ->]; reflexivity|destruct E as [-> | ->]; reflexivity|]. destruct ST as [-> | ->]; [destruct (NE eq_refl); auto|destruct E as [-> | ->]; reflexivity].
Qed.
Lemma cell_stop : forall raw val row b s, cell raw val -> starts s -> (s = StartRow -> raw <> "") -> (raw <> "" \/ b = false) -> csv_rows raw s "" row b = Ok [row ++ [val]].
Proof.
  intros raw val row b s C ST NE F. rewrite <- (app_str_nil raw). destruct (cell_run raw val "" s row b C ST) as [s' [b' [A [_ [Y [Z ->]]]]]]. rewrite (Y F).
  destruct A as [->|[->|[-> ->]]]; [reflexivity|reflexivity|]. destruct ST as [-> | ->]; [destruct (NE eq_refl); auto|reflexivity].
Qed.
Lemma cells_end : forall raws vals e rest row s b, Forall2 cell raws vals -> raws <> [] -> starts s -> (s = StartRow -> between raws <> "") -> e = lf \/ e = crlf ->
  csv_rows (between raws ++ e ++ rest) s "" row b = line_done (row ++ vals) rest.
Proof.
  intros raws vals e rest row s b F. revert row s b. induction F as [|raw val raws vals H F IH]; intros row s b N ST NE E; [congruence|]. destruct raws as [|raw' raws].
  - inversion F; subst. cbn [between] in *. now apply cell_end.
  - change (between (raw :: raw' :: raws)) with (raw ++ "," ++ between (raw' :: raws))%string. rewrite !app_str_assoc. cbn [append].
    rewrite (cell_comma raw val) by auto. rewrite IH; [rewrite <- app_assoc; reflexivity|discriminate|now right|discriminate|exact E].
Qed.
Lemma cells_stop : forall raws vals row s b, Forall2 cell raws vals -> raws <> [] -> starts s -> (s = StartRow -> between raws <> "") -> (between raws <> "" \/ b = false) ->
  csv_rows (between raws) s "" row b = Ok [row ++ vals].
Proof.
  intros raws vals row s b F. revert row s b. induction F as [|raw val raws vals H F IH]; intros row s b N ST NE B; [congruence|]. destruct raws as [|raw' raws].
  - inversion F; subst. cbn [between] in *. now apply cell_stop.
  - change (between (raw :: raw' :: raws)) with (raw ++ "," ++ between (raw' :: raws))%string. cbn [append].
    rewrite (cell_comma raw val) by auto. rewrite IH; [rewrite <- app_assoc; reflexivity|discriminate|now right|discriminate|now right].
Qed.
Theorem csv_read_table : forall text rows, table_text text rows -> csv_read text = Ok rows.
Proof.
  unfold csv_read. intros text rows T. induction T as [|t row R N|t row e rest rows R E T IH].
  - reflexivity.
  - destruct R as [|raws vals F NE]; [congruence|]. rewrite (cells_stop raws vals) by (auto; try (now left); intro; subst; now apply NE). reflexivity.
  - destruct R as [|raws vals F NE].
    + assert (K : csv_rows ("" ++ e ++ rest) StartRow "" [] true = line_done [] rest) by (destruct E as [-> | ->]; reflexivity). rewrite K. unfold line_done. rewrite IH. reflexivity.
    + rewrite (cells_end raws vals) by (auto; try (now left); intro; subst; now apply NE). unfold line_done. rewrite IH. reflexivity.
Qed.
Lemma count_any : forall text ls, lines_of text ls -> count_lines text true = Z.of_nat (length ls).
Proof.
  intros text ls L. induction L as [|l C N|l rest ls C L IH]; [reflexivity| |].
  - cbn [length]. assert (G : forall s b, chars (fun c => c <> "010"%char) s -> (s <> "" \/ b = false) -> count_lines s b = 1).
    { induction s as [|c s IHs]; intros b H K; [destruct K as [K|K]; [congruence|subst b; reflexivity]|]. destruct H as [Hc H]. cbn [count_lines]. rewrite (eqb_no _ _ Hc). apply IHs; auto. }
    rewrite G by auto. reflexivity.
  - change (l ++ lf ++ rest)%string with (l ++ String "010" rest)%string. rewrite count_ok by exact C. rewrite IH. cbn [length]. lia.
Qed.
Lemma header_cut : forall names t, Forall plain names -> names <> [] -> cut_line (between names ++ lf ++ t) = ((between names ++ lf)%string, t) /\ column_names (between names ++ lf) = names.
Proof.
  intros names t P N. split.
  - change (between names ++ lf ++ t)%string with (between names ++ String "010" t)%string. rewrite cut_ok by (now apply no_lf_plain). reflexivity.
  - unfold column_names. change (between names ++ lf)%string with (between names ++ String "010" "")%string. rewrite drop_ok. now apply split_between.
Qed.
Lemma flags_not_longer : forall type names rows reps reps', add_flags type names (dict_rows names rows) reps = Ok reps' -> forall row, In row rows -> (length row <= length names)%nat.
Proof.
  intros type names. induction rows as [|r rows IH]; intros reps reps' H row I; [destruct I|]. unfold dict_rows in H. cbn [filter] in H. destruct r as [|c r].
  - destruct I as [<-|I]; [cbn; lia|]. exact (IH _ _ H row I).
  - cbn [map] in H. unfold row_dict at 1 in H. cbn [add_flags] in H. destruct reps as [|x reps]; [discriminate|]. destruct (row_flags type _ names x) as [x'|]; [cbn [bind] in H|discriminate].
    destruct (Nat.ltb_spec (length names) (length (c :: r))) as [L|L]; [discriminate|]. destruct (add_flags type names _ reps) as [reps1|] eqn:A; [|discriminate]. destruct I as [<-|I]; [exact L|]. exact (IH _ _ A row I).
Qed.
Lemma not_blank_filter : forall (rows kept : list (list string)), not_blank rows kept -> filter (fun row => match row with [] => false | _ => true end) rows = kept.
Proof. intros rows kept H. induction H as [|l l' H IH|x row l l' H IH]; cbn [filter]; [reflexivity|exact IH|now rewrite IH]. Qed.
Lemma dict_blank : forall names rows rows' kept, not_blank rows kept -> not_blank rows' kept -> dict_rows names rows = dict_rows names rows'.
Proof. intros names rows rows' kept H H'. unfold dict_rows. now rewrite (not_blank_filter _ _ H), (not_blank_filter _ _ H'). Qed.
