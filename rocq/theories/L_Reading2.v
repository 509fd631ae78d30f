(** Lemmas for reading back the files of the main program: reports and flags. *)
Require Import String Ascii ZArith QArith Qround List Bool Lia Lqa.
Require Import Verif.M_Base Verif.L_Base Verif.S_Calendar Verif.M_Calendar Verif.L_Calendar Verif.L_Calendar2 Verif.M_Report Verif.S_Report Verif.L_Report Verif.L_Report3 Verif.M_Imma Verif.S_Imma Verif.L_Imma Verif.M_Files Verif.S_Files Verif.L_Files Verif.S_Print Verif.L_Print Verif.M_Track Verif.L_Track5 Verif.M_Tracking Verif.S_Reading Verif.L_Reading Verif.L_Main3 Verif.P_Drifter.
Import ListNotations.
Open Scope string_scope.
Open Scope list_scope.
Open Scope Z_scope.

Lemma unquoted_lits : forall s, plain s -> unquoted s -> lits s.
Proof.
  intros s P [U _]. unfold lits. revert P U. induction s as [|c s IH]; [intros; exact I|]. intros [[A B] P] [[C D] U]. split; [repeat split; assumption|now apply IH].
Qed.
Lemma plain_field : forall s, plain s -> unquoted s -> field s s.
Proof. intros s P U. split; [now apply unquoted_lits|now left]. Qed.
Lemma digit_lit : forall c d, digit c d -> lit c.
Proof.
  intros c d [A B]. assert (K : forall x n, Z.of_nat (nat_of_ascii x) = n -> n < 48 -> c <> x) by (intros x n E L ->; lia).
  split; [apply (K _ 44); [reflexivity|lia]|]. split; [apply (K _ 10); [reflexivity|lia]|]. split; [apply (K _ 34)|apply (K _ 13)]; try reflexivity; lia.
Qed.
Lemma int_text_lits : forall z s, int_text z s -> lits s.
Proof.
  assert (K : forall n z s, padded n z s -> lits s).
  { intros n z s [D _]. unfold lits. induction D as [c d D|s z c d D IH E]; [split; [exact (digit_lit _ _ D)|exact I]|]. apply chars_app. split; [exact IH|]. split; [exact (digit_lit _ _ E)|exact I]. }
  intros z s [[_ P]|[_ [s' [-> P]]]]; [exact (K _ _ _ P)|]. cbn. split; [repeat split; discriminate|exact (K _ _ _ P)].
Qed.
Lemma int_text_integer : forall z s, int_text z s -> integer_text s z.
Proof.
  intros z s [[A [D _]]|[A [s' [-> [D _]]]]].
  - exists "", "", s, "", z. cbn. rewrite app_str_nil. repeat split; auto.
  - exists "", "-", s', "", (- z). cbn. rewrite app_str_nil. repeat split; auto. right. split; [reflexivity|lia].
Qed.
Lemma digits_not_N : forall z s, int_text z s -> s <> "\N".
Proof.
  intros z s H ->. destruct (int_text_integer _ _ H) as [a [sg [ds [b [n [E _]]]]]]. apply int_text_integer, int_of_str_complete in H. vm_compute in H. discriminate.
Qed.

Section Row.
Variable str_of : string -> Q -> string.
Variable float_of : string -> res Q.
Variable rnd : string -> Q -> Q.
Hypothesis NR : numbers_read str_of float_of rnd.

(** The value of a cell of the file. *)
Definition cell_value (s : string) : string := match s with String c s' => if Ascii.eqb c quote then drop_last s' else s | _ => s end.
Lemma lits_value : forall s, lits s -> cell_value s = s.
Proof. intros [|c s] L; [reflexivity|]. destruct L as [Lc _]. destruct (lit_not c Lc) as [_ [_ C]]. cbn. unfold quote. now rewrite C. Qed.
Lemma quoted_value : forall s, cell_value (String quote "" ++ s ++ String quote "")%string = s.
Proof. intro s. cbn [append cell_value]. replace (Ascii.eqb quote quote) with true by reflexivity. apply drop_ok. Qed.
Lemma cell_lits : forall r l s, (forall i, r_id r = Some i -> plain i /\ unquoted i) -> cell str_of r l s -> field s (cell_value s).
Proof.
  intros r l s ID H. assert (NN : field "\N" (cell_value "\N")) by (split; [repeat split; discriminate|now left]).
  assert (FL : forall v q, field (str_of v q) (cell_value (str_of v q))).
  { intros v q. destruct NR as [A _]. destruct (A v q) as [B [C _]]. pose proof (unquoted_lits _ (float_plain _ B) C) as L. rewrite (lits_value _ L). split; [exact L|now left]. }
  destruct H as [l E|l i E|v w l X E|v w l q X E|v X Y E|v z s X E J|v q X Y U E]; auto.
  - destruct (ID i E) as [P U]. pose proof (unquoted_lits _ P U) as L. rewrite quoted_value. split; [exact L|now right].
  - pose proof (int_text_lits _ _ J) as L. rewrite (lits_value _ L). split; [exact L|now left].
Qed.
(** The number in a cell: missing, an integer, or as printed. *)
Definition noN (s : string) : option string := if String.eqb s "\N" then None else Some s.
Lemma cell_number : forall r v s, v <> "ID" -> v <> "UID" -> cell str_of r [v] s ->
  float_opt float_of (noN (cell_value s)) = Ok (if mem v INTVARS then getvar r v else option_map (rnd v) (getvar r v)).
Proof.
  intros r v s N N' H. inversion H as [l E|l i E| | |v0 X Y E|v0 z s0 X E J|v0 q X Y U E]; subst; try congruence.
  - rewrite E. destruct (mem v INTVARS); reflexivity.
  - assert (M : mem v INTVARS = true) by (now apply mem_In). rewrite M, E. rewrite (lits_value _ (int_text_lits _ _ J)). unfold noN. destruct (String.eqb_spec s "\N") as [->|K]; [exfalso; exact (digits_not_N _ _ J eq_refl)|].
    cbn [float_opt]. destruct NR as [_ B]. rewrite (B z s J). reflexivity.
  - assert (M : mem v INTVARS = false). { destruct (mem v INTVARS) eqn:M; [|reflexivity]. apply mem_In in M. contradiction. } rewrite M, E. cbn [option_map].
    destruct NR as [A _]. destruct (A v q) as [B [C D]]. rewrite (lits_value _ (unquoted_lits _ (float_plain _ B) C)). unfold noN. destruct C as [_ C]. destruct (String.eqb_spec (str_of v q) "\N") as [K|_]; [contradiction|].
    cbn [float_opt]. rewrite D. reflexivity.
Qed.

Definition vheader : list string := "UID" :: "DATE" :: "PENTAD" :: map column documented_voyage_vars.
Lemma vheader_nodup : NoDup vheader.
Proof. cbn. repeat (constructor; [cbn; intuition discriminate|]). constructor. Qed.

(** What the dictionary of the row of r holds. *)
Definition holds_row (r : report) (line : list (string * option string)) : Prop :=
  (exists u, r_uid r = Some u /\ assoc "UID" line = Some (Some u)) /\
  assoc "ID" line = Some (r_id r) /\
  (forall v, In v ["YR"; "MO"; "DY"; "HR"; "LAT"; "LON"; "AT"; "SST"; "DPT"; "SLP"; "OSTIA"; "ICE"; "BGVAR"] -> exists o, assoc v line = Some o /\
     float_opt float_of o = Ok (if mem v INTVARS then getvar r v else option_map (rnd v) (getvar r v))) /\
  (forall v, ~ In v vheader -> assoc v line = None).
Lemma assoc_easy : forall k line, assoc k (easy line) = match assoc k line with Some (Some s) => Some (noN s) | Some None => Some None | None => None end.
Proof.
  intros k line. induction line as [|[k' o] line IH]; [reflexivity|]. cbn [easy map assoc]. destruct (String.eqb k k'); [destruct o as [s|]; [unfold noN; destruct (String.eqb s "\N"); reflexivity|reflexivity]|exact IH].
Qed.
Lemma assoc_combine_F2 : forall (P : list string -> string -> Prop) vars cells (val : string -> string), Forall2 P vars cells -> NoDup (map column vars) -> forall v, In v vars ->
  exists s, P v s /\ assoc (column v) (combine (map column vars) (map Some (map val cells))) = Some (Some (val s)).
Proof.
  intros P vars cells val F. induction F as [|v0 s vars cells H F IH]; intros N v I; [destruct I|]. cbn [map] in N. inversion N as [|? ? N1 N2]; subst. cbn [map combine assoc].
  destruct I as [->|I].
  - exists s. rewrite String.eqb_refl. auto.
  - destruct (String.eqb_spec (column v) (column v0)) as [E|_]; [exfalso; apply N1; rewrite <- E; now apply in_map|]. now apply IH.
Qed.
Lemma assoc_combine_absent : forall (k : string) (names : list string) (l : list (option string)), ~ In k names -> assoc k (combine names l) = None.
Proof.
  intros k names. induction names as [|n names IH]; intros l N; [reflexivity|]. destruct l as [|x l]; [reflexivity|]. cbn. destruct (String.eqb_spec k n) as [->|_]; [exfalso; apply N; now left|]. apply IH. intro I. apply N. now right.
Qed.
Lemma row_holds : forall r row, legible r -> variable_row str_of documented_voyage_vars r row ->
  exists vals, Forall2 field row vals /\ (2 <= length row)%nat /\ holds_row r (easy (fst (row_dict vheader vals))).
Proof.
  intros r row [[[u [EU PU]] PI] [UU UI]] [u0 [d [p [cells [EU0 [D [P [C ->]]]]]]]]. rewrite EU in EU0. injection EU0 as <-.
  assert (ID : forall i, r_id r = Some i -> plain i /\ unquoted i) by (intros i E; auto).
  assert (LD : lits d).
  { destruct D as [[y [m [dd [ys [ms [ds [_ [_ [_ [_ [_ [Y [M [DD ->]]]]]]]]]]]]]]|[_ ->]]; [|cbn; repeat split; discriminate].
    assert (K : forall n z s, padded n z s -> lits s).
    { intros n z s [De _]. unfold lits. induction De as [c e De|s z c e De IH E]; [split; [exact (digit_lit _ _ De)|exact I]|]. apply chars_app. split; [exact IH|]. split; [exact (digit_lit _ _ E)|exact I]. }
    apply chars_app. split; [exact (K _ _ _ Y)|]. apply chars_app. split; [cbn; repeat split; discriminate|]. apply chars_app. split; [exact (K _ _ _ M)|]. apply chars_app. split; [cbn; repeat split; discriminate|exact (K _ _ _ DD)]. }
  assert (LP : lits p).
  { destruct P as [[m [dd [n [_ [_ [_ [_ T]]]]]]]|[_ ->]]; [exact (int_text_lits _ _ T)|cbn; repeat split; discriminate]. }
  assert (LU : lits u) by (apply unquoted_lits; auto).
  exists (u :: d :: p :: map cell_value cells). split; [|split; [cbn; lia|]].
  { constructor; [split; [exact LU|now left]|]. constructor; [split; [exact LD|now left]|]. constructor; [split; [exact LP|now left]|].
    clear - C NR ID. induction C; constructor; auto. eapply cell_lits; eauto. }
  assert (LC : length cells = length documented_voyage_vars) by (symmetry; exact (Forall2_length _ _ _ _ _ C)).
  assert (LR : length (u :: d :: p :: map cell_value cells) = length vheader) by (cbn [length vheader]; rewrite !map_length, LC; reflexivity).
  assert (AS : forall k, assoc k (fst (row_dict vheader (u :: d :: p :: map cell_value cells))) = assoc k (combine vheader (map Some (u :: d :: p :: map cell_value cells)))).
  { intro k. exact (proj1 (row_dict_ok vheader _ LR vheader_nodup k)). }
  assert (NV : NoDup (map column documented_voyage_vars)) by (pose proof vheader_nodup as N; unfold vheader in N; inversion N as [|? ? _ N1]; inversion N1 as [|? ? _ N2]; now inversion N2).
  assert (COL : forall v, In v documented_voyage_vars -> ~ In (column v) ["UID"; "DATE"; "PENTAD"] -> exists s, cell str_of r v s /\ assoc (column v) (easy (fst (row_dict vheader (u :: d :: p :: map cell_value cells)))) = Some (noN (cell_value s))).
  { intros v I NI. destruct (assoc_combine_F2 _ _ _ cell_value C NV v I) as [s [H A]]. exists s. split; [exact H|]. rewrite assoc_easy, AS. unfold vheader. cbn [map combine assoc].
    destruct (String.eqb_spec (column v) "UID") as [E|_]; [exfalso; apply NI; left; now symmetry|]. destruct (String.eqb_spec (column v) "DATE") as [E|_]; [exfalso; apply NI; right; left; now symmetry|].
    destruct (String.eqb_spec (column v) "PENTAD") as [E|_]; [exfalso; apply NI; right; right; left; now symmetry|]. rewrite A. reflexivity. }
  split; [|split; [|split]].
  - exists u. split; [exact EU|]. rewrite assoc_easy, AS. cbn. unfold noN. destruct (UU u EU) as [_ U2]. destruct (String.eqb_spec u "\N"); [contradiction|reflexivity].
  - destruct (COL ["ID"]) as [s [H A]]; [cbn; tauto|cbn; intuition discriminate|]. change (column ["ID"]) with "ID" in A. rewrite A. f_equal.
    inversion H as [l E|l i E| | |v0 X|v0 z s0 X|v0 q X]; subst; try congruence.
    + rewrite E. reflexivity.
    + rewrite E, quoted_value. unfold noN. destruct (UI i E) as [_ U2]. destruct (String.eqb_spec i "\N"); [contradiction|reflexivity].
    + exfalso. cbn in X. intuition discriminate.
  - intros v I. assert (X : column [v] = v) by reflexivity. destruct (COL [v]) as [s [H A]].
    + repeat destruct I as [<-|I]; try contradiction; cbn; tauto.
    + rewrite X. repeat destruct I as [<-|I]; try contradiction; cbn; intuition discriminate.
    + rewrite X in A. exists (noN (cell_value s)). split; [exact A|]. apply cell_number; [| |exact H]; intros ->; cbn in I; intuition discriminate.
  - intros v NI. rewrite assoc_easy, AS. rewrite assoc_combine_absent by exact NI. reflexivity.
Qed.

(* ---- the report ---- *)

Lemma numbers_ok : forall line vars, (forall v, In v vars -> exists o, (match assoc v line with Some o => float_opt float_of o | None => Ok (if String.eqb v "PT" then Some 7%Q else None) end) = Ok o) ->
  exists fs, numbers float_of line vars = Ok fs /\ (forall v, In v vars -> exists o, assoc v fs = Some o /\ (match assoc v line with Some o => float_opt float_of o | None => Ok (if String.eqb v "PT" then Some 7%Q else None) end) = Ok o).
Proof.
  intros line vars. induction vars as [|v vars IH]; intro H; [exists []; split; [reflexivity|intros v []]|].
  destruct (H v (or_introl eq_refl)) as [o E]. destruct IH as [fs [F G]]; [intros w I; apply H; now right|]. exists ((v, o) :: fs). cbn [numbers]. rewrite E. cbn [bind]. rewrite F. cbn [bind]. split; [reflexivity|].
  intros w I. cbn [assoc]. destruct (String.eqb_spec w v) as [->|N]; [exists o; auto|]. destruct I as [->|I]; [congruence|]. now apply G.
Qed.
Lemma getvar_init : forall r v, In v VARLIST -> forall fs, r_data r = init_data fs -> getvar r v = match assoc v fs with Some (Some q) => Some (if mem v INTVARS then inject_Z (py_int q) else q) | _ => None end.
Proof.
  intros r v I fs E. unfold getvar. destruct (index_of_In v VARLIST I) as [i [J N]]. rewrite J, E. unfold init_data.
  assert (X : nth i (map (fun v0 => match assoc v0 fs with Some (Some q) => Some q | _ => None end) VARLIST) None = match assoc v fs with Some (Some q) => Some q | _ => None end).
  { apply (nth_error_nth _ _ None). rewrite nth_error_map, N. reflexivity. }
  rewrite X. destruct (assoc v fs) as [[q|]|]; [destruct (mem v INTVARS); reflexivity|reflexivity|reflexivity].
Qed.
Lemma stamp_ok' : forall r, (forall y m d h, getint r "YR" = Some y -> getint r "MO" = Some m -> getint r "DY" = Some d -> getvar r "HR" = Some h -> 1 <= m <= 12 /\ (valid (mkdate y m d) -> 1 <= y <= 9999 /\ (0 <= h < 24)%Q)) ->
  exists r', calculate_dt r = Ok r' /\ stamp_fits r'.
Proof.
  intros r H. assert (NS : forall r', r' = with_dt r None -> (~ exists d h, getint r "YR" = Some (yr d) /\ getint r "MO" = Some (mo d) /\ getint r "DY" = Some (dy d) /\ getvar r "HR" = Some h /\ valid d) -> stamp_fits r').
  { intros r' -> N. right. split; [exact N|reflexivity]. }
  unfold calculate_dt. destruct (getint r "YR") as [y|] eqn:Y; [|eexists; split; [reflexivity|apply NS; [reflexivity|]; intros [d [h [A _]]]; congruence]].
  destruct (getint r "MO") as [m|] eqn:M; [|eexists; split; [reflexivity|apply NS; [reflexivity|]; intros [d [h [_ [A _]]]]; congruence]].
  destruct (getvar r "HR") as [h|] eqn:HH; [|eexists; split; [reflexivity|apply NS; [reflexivity|]; intros [d [h [_ [_ [_ [A _]]]]]]; congruence]].
  destruct (getint r "DY") as [d|] eqn:D; [|eexists; split; [reflexivity|apply NS; [reflexivity|]; intros [d [h0 [_ [_ [A _]]]]]; congruence]].
  destruct (H y m d h eq_refl eq_refl eq_refl eq_refl) as [M1 V1].
  assert (NV : forall n, py_nth (get_month_lengths y) (m - 1) = Ok n -> ~ (1 <= d <= n) -> ~ (exists d0 h0, Some y = Some (yr d0) /\ Some m = Some (mo d0) /\ Some d = Some (dy d0) /\ Some h = Some h0 /\ valid d0)).
  { intros n E K [d0 [h0 [A [B [C [_ [n' [V W]]]]]]]]. injection A as ->. injection B as ->. injection C as ->. apply month_has_iff in V. destruct V as [_ V]. rewrite E in V. injection V as <-. contradiction. }
  assert (ML : exists n, py_nth (get_month_lengths y) (m - 1) = Ok n).
  { unfold get_month_lengths, py_nth. destruct (py_isleap y); assert (K : m = 1 \/ m = 2 \/ m = 3 \/ m = 4 \/ m = 5 \/ m = 6 \/ m = 7 \/ m = 8 \/ m = 9 \/ m = 10 \/ m = 11 \/ m = 12) by lia; repeat destruct K as [->|K]; try subst m; eexists; reflexivity. }
  destruct ML as [n EN]. destruct (Z.ltb_spec 0 d) as [D0|D0]; [|eexists; split; [reflexivity|apply NS; [reflexivity|]; apply (NV n EN); lia]].
  rewrite EN. cbn [bind]. destruct (Z.leb_spec d n) as [D1|D1]; [|eexists; split; [reflexivity|apply NS; [reflexivity|]; apply (NV n EN); lia]].
  assert (V : valid (mkdate y m d)) by (exists n; split; [apply month_has_iff; split; [exact M1|exact EN]|cbn; lia]). destruct (V1 V) as [RY RH].
  destruct (calculate_dt_complete r y m d h Y M D HH V RY RH) as [r' [E' NN]]. unfold calculate_dt in E'. rewrite Y, M, HH, D in E'. replace (0 <? d) with true in E' by lia. rewrite EN in E'. cbn [bind] in E'. replace (d <=? n) with true in E' by lia.
  exists r'. split; [exact E'|]. left. unfold mk_datetime in E'. destruct (datetime_ok y m d && _ && _ && _ && _); [|discriminate]. cbn [bind] in E'. injection E' as <-. exists (mkdate y m d), h.
  repeat split; try assumption; reflexivity.
Qed.
Lemma stamp_data : forall r r', (forall v, In v ["YR"; "MO"; "DY"; "HR"] -> getvar r' v = getvar r v) -> r_dt r' = r_dt r -> stamp_fits r -> stamp_fits r'.
Proof.
  intros r r' G D H. unfold stamp_fits, getint in *. rewrite !(G "YR"), !(G "MO"), !(G "DY"), !(G "HR"), D by (cbn; tauto). exact H.
Qed.

(** The values of r, as read, before the flags. *)
Definition values_back (r r' : report) : Prop :=
  r_id r' = r_id r /\ r_uid r' = r_uid r /\ stamp_fits r' /\
  (forall v, In v ["YR"; "MO"; "DY"] -> getvar r' v = getvar r v) /\
  (forall v, In v ["HR"; "LAT"; "LON"; "AT"; "SST"; "DPT"; "SLP"] -> getvar r' v = option_map (rnd v) (getvar r v)) /\
  getint r' "PT" = Some 7 /\
  (forall v, In v VARLIST -> ~ In v ["YR"; "MO"; "DY"; "HR"; "LAT"; "LON"; "AT"; "SST"; "DPT"; "SLP"; "PT"] -> getvar r' v = None) /\
  (forall v, In v ["OSTIA"; "ICE"; "BGVAR"] -> getext r' v = Ok (option_map (rnd v) (getvar r v))).
Lemma report_back : forall r line, holds_row r (easy line) -> datable rnd r -> exists r', report_of_row float_of line = Ok r' /\ values_back r r' /\ r_qc r' = [].
Proof.
  intros r line [[u [EU AU]] [AI [AV AN]]] DT. unfold report_of_row. set (L := easy line) in *.
  assert (G : forall v, In v VARLIST -> exists o, (match assoc v L with Some o => float_opt float_of o | None => Ok (if String.eqb v "PT" then Some 7%Q else None) end) = Ok o /\
    o = (if mem v ["YR"; "MO"; "DY"] then getvar r v else if mem v ["HR"; "LAT"; "LON"; "AT"; "SST"; "DPT"; "SLP"] then option_map (rnd v) (getvar r v) else if String.eqb v "PT" then Some 7%Q else None)).
  { intros v I. destruct (in_dec string_dec v ["YR"; "MO"; "DY"; "HR"; "LAT"; "LON"; "AT"; "SST"; "DPT"; "SLP"; "OSTIA"; "ICE"; "BGVAR"]) as [J|J].
    - destruct (AV v J) as [o [A F]]. rewrite A, F. eexists. split; [reflexivity|]. repeat destruct J as [<-|J]; try reflexivity; try contradiction; exfalso; cbn in I; intuition discriminate.
    - rewrite AN by (intro K; apply J; cbn in K |- *; repeat destruct K as [<-|K]; try contradiction; cbn in I; intuition discriminate). eexists. split; [reflexivity|].
      destruct (mem v ["YR"; "MO"; "DY"]) eqn:M1; [exfalso; apply J; apply mem_In in M1; cbn in *; tauto|]. destruct (mem v ["HR"; "LAT"; "LON"; "AT"; "SST"; "DPT"; "SLP"]) eqn:M2; [exfalso; apply J; apply mem_In in M2; cbn in *; tauto|]. reflexivity. }
  destruct (numbers_ok L VARLIST) as [fs [EF GF]]; [intros v I; destruct (G v I) as [o [A _]]; eauto|]. rewrite EF. cbn [bind].
  unfold new_report. set (r0 := {| r_id := text_cell L "ID"; r_uid := text_cell L "UID"; r_data := init_data fs; r_dt := None; r_qc := []; r_ext := []; r_clim := [] |}).
  assert (GV : forall v, In v VARLIST -> getvar r0 v = (if mem v ["YR"; "MO"; "DY"] then getvar r v else if mem v ["HR"; "LAT"; "LON"; "AT"; "SST"; "DPT"; "SLP"] then option_map (rnd v) (getvar r v) else if String.eqb v "PT" then Some 7%Q else None)).
  { intros v I. rewrite (getvar_init r0 v I fs eq_refl). destruct (GF v I) as [o [A B]]. destruct (G v I) as [o' [B' C]]. rewrite B in B'. injection B' as <-. rewrite A. subst o.
    destruct (mem v ["YR"; "MO"; "DY"]) eqn:M1.
    - apply mem_In in M1. assert (MI : mem v INTVARS = true) by (repeat destruct M1 as [<-|M1]; try reflexivity; contradiction). rewrite MI. unfold getvar. destruct (index_of_In v VARLIST I) as [i [J _]]. rewrite J.
      destruct (nth i (r_data r) None) as [q|]; [|reflexivity]. rewrite MI. now rewrite py_int_whole.
    - destruct (mem v ["HR"; "LAT"; "LON"; "AT"; "SST"; "DPT"; "SLP"]) eqn:M2.
      + apply mem_In in M2. assert (MI : mem v INTVARS = false) by (repeat destruct M2 as [<-|M2]; try reflexivity; contradiction). rewrite MI. destruct (getvar r v); reflexivity.
      + destruct (String.eqb_spec v "PT") as [->|_]; reflexivity. }
  assert (V4 : getint r0 "YR" = getint r "YR" /\ getint r0 "MO" = getint r "MO" /\ getint r0 "DY" = getint r "DY" /\ getvar r0 "HR" = option_map (rnd "HR") (getvar r "HR")).
  { unfold getint. rewrite !GV by (cbn; tauto). repeat split; reflexivity. }
  destruct (stamp_ok' r0) as [r1 [E1 ST]].
  { intros y m d h Y M D H. destruct V4 as [V1 [V2 [V3 V5]]]. rewrite V1 in Y. rewrite V2 in M. rewrite V3 in D. rewrite V5 in H. destruct (getvar r "HR") as [h0|] eqn:H0; [|discriminate]. cbn in H. injection H as <-. exact (DT y m d h0 Y M D H0). }
  rewrite E1. cbn [bind]. destruct (calculate_dt_shape _ _ E1) as [dt ->].
  assert (DS : getint (with_dt r0 dt) "DS" = None). { change (getint (with_dt r0 dt) "DS") with (getint r0 "DS"). unfold getint. rewrite GV by (cbn; tauto). reflexivity. }
  unfold calculate_dsi_vsi. rewrite DS. cbn [bind].
  assert (LK : forall v, In v ["OSTIA"; "ICE"; "BGVAR"] -> exists o, lookup_cell L v = Ok o /\ float_opt float_of o = Ok (option_map (rnd v) (getvar r v))).
  { intros v I. destruct (AV v) as [o [A B]]; [cbn in I |- *; tauto|]. exists o. unfold lookup_cell. rewrite A. split; [reflexivity|]. rewrite B. repeat destruct I as [<-|I]; try reflexivity; contradiction. }
  destruct (LK "OSTIA") as [o1 [L1 F1]]; [cbn; tauto|]. destruct (LK "ICE") as [o2 [L2 F2]]; [cbn; tauto|]. destruct (LK "BGVAR") as [o3 [L3 F3]]; [cbn; tauto|].
  rewrite L1. cbn [bind]. rewrite F1. cbn [bind]. rewrite L2. cbn [bind]. rewrite F2. cbn [bind]. rewrite L3. cbn [bind]. rewrite F3. cbn [bind].
  eexists. split; [reflexivity|]. split; [|reflexivity]. match goal with |- values_back r ?x => set (r2 := x) end.
  assert (SV : forall v, In v VARLIST -> getvar r2 v = getvar r0 v) by (intros v I; unfold getvar; destruct (index_of_In v VARLIST I) as [i [J _]]; rewrite J; reflexivity).
  split; [|split; [|split; [|split; [|split; [|split; [|split]]]]]].
  - change (r_id r2) with (text_cell L "ID"). unfold text_cell. now rewrite AI.
  - change (r_uid r2) with (text_cell L "UID"). unfold text_cell. now rewrite AU, EU.
  - apply (stamp_data (with_dt r0 dt) r2); [|reflexivity|exact ST]. intros v I. change (getvar (with_dt r0 dt) v) with (getvar r0 v). apply SV. cbn in *. tauto.
  - intros v I. rewrite SV, GV by (cbn in *; tauto). repeat destruct I as [<-|I]; try reflexivity; contradiction.
  - intros v I. rewrite SV, GV by (cbn in *; tauto). repeat destruct I as [<-|I]; try reflexivity; contradiction.
  - unfold getint. rewrite SV, GV by (cbn; tauto). reflexivity.
  - intros v I N. rewrite SV, GV by exact I. destruct (mem v ["YR"; "MO"; "DY"]) eqn:M1; [exfalso; apply N; apply mem_In in M1; cbn in *; tauto|].
    destruct (mem v ["HR"; "LAT"; "LON"; "AT"; "SST"; "DPT"; "SLP"]) eqn:M2; [exfalso; apply N; apply mem_In in M2; cbn in *; tauto|]. destruct (String.eqb_spec v "PT") as [->|_]; [exfalso; apply N; cbn; tauto|reflexivity].
  - intros v I. repeat destruct I as [<-|I]; try reflexivity; contradiction.
Qed.
Lemma mapM_F2 : forall A B (f : A -> res B) (R : A -> B -> Prop) l, (forall x, In x l -> exists y, f x = Ok y /\ R x y) -> exists l', mapM f l = Ok l' /\ Forall2 R l l'.
Proof.
  intros A B f R l. induction l as [|x l IH]; intro H; [exists []; split; [reflexivity|constructor]|]. destruct (H x (or_introl eq_refl)) as [y [E K]]. destruct IH as [l' [E' F]]; [intros z I; apply H; now right|].
  exists (y :: l'). cbn [mapM]. rewrite E. cbn [bind]. rewrite E'. cbn [bind]. split; [reflexivity|now constructor].
Qed.
Lemma variables_back : forall l text, variable_file str_of documented_voyage_vars l text -> Forall (fun r => legible r /\ datable rnd r) l ->
  exists l', read_variables float_of text = Ok l' /\ Forall2 (fun r r' => values_back r r' /\ r_qc r' = []) l l'.
Proof.
  intros l text [rows [C F]] A. destruct (header_ok _ _ _ C) as [rest [C' [h [CUT CN]]]]. unfold read_variables. rewrite CUT, CN. 
  change (11 <? length ("UID" :: "DATE" :: "PENTAD" :: map column documented_voyage_vars))%nat with true. cbv iota.
  change (update_nth 11 "AT_anom" ("UID" :: "DATE" :: "PENTAD" :: map column documented_voyage_vars)) with vheader. change (13 <? length vheader)%nat with true. cbv iota.
  change (update_nth 13 "SST_anom" vheader) with vheader.
  assert (X : exists vals, Forall2 (fun row val => Forall2 field row val /\ (2 <= length row)%nat) rows vals /\ Forall2 (fun r val => val <> [] /\ holds_row r (easy (fst (row_dict vheader val))) /\ datable rnd r) l vals).
  { clear C C'. induction F as [|r row l rows H F IH]; [exists []; split; constructor|]. inversion A as [|? ? [A1 A2] A']; subst. destruct (IH A') as [vals [V1 V2]]. destruct (row_holds r row A1 H) as [val [W1 [W2 W3]]].
    exists (val :: vals). split; constructor; auto. split; [|auto]. intros ->. inversion W1; subst. cbn in W2. lia. }
  destruct X as [vals [V1 V2]]. rewrite (csv_read_rows _ _ _ C' V1). cbn [bind]. rewrite dict_rows_ok by (clear - V2; induction V2 as [|r v l vals [H _] V IH]; constructor; auto).
  clear - V2. induction V2 as [|r val l vals [_ [H D]] V IH]; [exists []; split; [reflexivity|constructor]|]. destruct IH as [l' [E F]]. destruct (report_back r (fst (row_dict vheader val)) H D) as [r' [E' [B Q]]].
  exists (r' :: l'). cbn [map mapM]. rewrite E'. cbn [bind]. rewrite E. cbn [bind]. split; [reflexivity|]. constructor; auto.
Qed.

(* ---- flags ---- *)

Section Flags.
Variable type : string.
Variable names : list string.
Hypothesis TY : mem type special_qc_types || mem type VARLIST = true.
Hypothesis ND : NoDup ("UID" :: names).

(** Only the flags were written. *)
Definition flagged (r r1 r2 : report) : Prop :=
  r_id r2 = r_id r1 /\ r_uid r2 = r_uid r1 /\ r_data r2 = r_data r1 /\ r_dt r2 = r_dt r1 /\ r_ext r2 = r_ext r1 /\ r_clim r2 = r_clim r1 /\
  (forall f, In f names -> get_qc r2 type f = get_qc r type f) /\
  (forall t f, (forall f', In f' names -> ~ same_key type f' t f) -> get_qc r2 t f = get_qc r1 t f).
Lemma row_flags_ok : forall r line ns r1, (forall f, In f ns -> f <> "UID" /\ exists s, assoc f line = Some (Some s) /\ int_text (get_qc r type f) s /\ 0 <= get_qc r type f <= 9) -> incl ns names ->
  exists r2, row_flags type line ns r1 = Ok r2 /\ r_id r2 = r_id r1 /\ r_uid r2 = r_uid r1 /\ r_data r2 = r_data r1 /\ r_dt r2 = r_dt r1 /\ r_ext r2 = r_ext r1 /\ r_clim r2 = r_clim r1 /\
  (forall f, In f ns -> get_qc r2 type f = get_qc r type f) /\ (forall t f, (forall f', In f' ns -> ~ same_key type f' t f) -> get_qc r2 t f = get_qc r1 t f).
Proof.
  intros r line ns. induction ns as [|n ns IH]; intros r1 H I; [exists r1; repeat split; auto; intros f []|].
  destruct (H n (or_introl eq_refl)) as [NU [s [A [T R]]]]. cbn [row_flags]. unfold lookup_cell. rewrite A. cbn [bind]. destruct (String.eqb_spec n "UID") as [E|_]; [contradiction|].
  rewrite (int_of_str_complete _ _ (int_text_integer _ _ T)). cbn [bind]. destruct (set_qc r1 type n (get_qc r type n)) as [r1'|e] eqn:SQ.
  2:{ exfalso. unfold set_qc in SQ. replace ((0 <=? get_qc r type n) && (get_qc r type n <=? 9)) with true in SQ by lia. rewrite TY in SQ. discriminate. }
  cbn [bind]. destruct (IH r1') as [r2 [E2 [B1 [B2 [B3 [B4 [B5 [B6 [B7 B8]]]]]]]]]; [intros f J; apply H; now right|intros f J; apply I; now right|].
  assert (SH : r1' = with_qc r1 (((type ++ n)%string, get_qc r type n) :: r_qc r1)). { unfold set_qc in SQ. replace ((0 <=? get_qc r type n) && (get_qc r type n <=? 9)) with true in SQ by lia. rewrite TY in SQ. cbn in SQ. congruence. }
  exists r2. split; [exact E2|]. rewrite B1, B2, B3, B4, B5, B6, SH. repeat split; try reflexivity.
  - intros f J. destruct (in_dec string_dec f ns) as [K|K]; [now apply B7|]. destruct J as [<-|J]; [|contradiction]. rewrite B8.
    + rewrite SH. unfold get_qc at 1. cbn [with_qc r_qc assoc]. now rewrite String.eqb_refl.
    + intros f' J K'. unfold same_key in K'. apply app_inj_l in K'. subst f'. contradiction.
  - intros t f K. rewrite B8 by (intros f' J; apply K; now right). rewrite SH. unfold get_qc. cbn [with_qc r_qc assoc]. destruct (String.eqb_spec (t ++ f) (type ++ n)) as [E|_]; [|reflexivity]. exfalso. apply (K n (or_introl eq_refl)). now symmetry.
Qed.
Definition flags_ok (r : report) : Prop := forall f, In f names -> 0 <= get_qc r type f <= 9.
Lemma flag_line : forall r r1 row, legible r -> flags_ok r -> r_uid r1 = r_uid r -> flag_row type names r row ->
  exists vals, Forall2 field row vals /\ length vals = S (length names) /\ snd (row_dict ("UID" :: names) vals) = false /\
    exists r2, row_flags type (fst (row_dict ("UID" :: names) vals)) ("UID" :: names) r1 = Ok r2 /\ flagged r r1 r2.
Proof.
  intros r r1 row [[[u [EU PU]] _] [UU _]] OK U1 [u0 [cells [EU0 [C ->]]]]. rewrite EU in EU0. injection EU0 as <-. exists (u :: cells).
  assert (LC : length cells = length names) by (symmetry; exact (Forall2_length _ _ _ _ _ C)). assert (LV : length (u :: cells) = length ("UID" :: names)) by (cbn; now rewrite LC).
  split; [|split; [cbn; now rewrite LC|split; [exact (proj2 (row_dict_ok ("UID" :: names) (u :: cells) LV ND "UID"))|]]].
  { constructor; [apply plain_field; auto|]. clear - C. induction C as [|n s ns ss H C IH]; constructor; auto. split; [exact (int_text_lits _ _ H)|now left]. }
  set (line := fst (row_dict ("UID" :: names) (u :: cells))).
  assert (AU : assoc "UID" line = Some (Some u)) by (unfold line; rewrite (proj1 (row_dict_ok _ _ LV ND "UID")); reflexivity).
  assert (AC : forall f, In f names -> f <> "UID" /\ exists s, assoc f line = Some (Some s) /\ int_text (get_qc r type f) s /\ 0 <= get_qc r type f <= 9).
  { intros f I. inversion ND as [|? ? N1 N2]; subst. assert (NU : f <> "UID") by (intros ->; contradiction). split; [exact NU|].
    assert (X : exists s, assoc f (combine names (map Some cells)) = Some (Some s) /\ int_text (get_qc r type f) s).
    { clear - C I N2. induction C as [|n s ns ss H C IH]; [destruct I|]. inversion N2; subst. cbn [map combine assoc]. destruct (String.eqb_spec f n) as [->|N]; [eauto|]. destruct I as [->|I]; [congruence|]. now apply IH. }
    destruct X as [s [A T]]. exists s. split; [|split; [exact T|now apply OK]]. unfold line. rewrite (proj1 (row_dict_ok _ _ LV ND f)). cbn [map combine assoc]. destruct (String.eqb_spec f "UID"); [contradiction|exact A]. }
  destruct (row_flags_ok r line names r1 AC (incl_refl _)) as [r2 [E [B1 [B2 [B3 [B4 [B5 [B6 [B7 B8]]]]]]]]]. exists r2. split; [|repeat split; auto].
  cbn [row_flags]. unfold lookup_cell at 1. rewrite AU. cbn [bind]. replace (String.eqb "UID" "UID") with true by reflexivity. rewrite U1, EU. rewrite String.eqb_refl. cbn [bind]. exact E.
Qed.
Lemma flags_back : forall l l1 text, names <> [] -> flag_file type names l text -> Forall (fun r => legible r /\ flags_ok r) l -> Forall2 (fun r r1 => r_uid r1 = r_uid r) l l1 ->
  exists l2, read_flags type text l1 = Ok l2 /\ Forall2 (fun r r12 => flagged r (fst r12) (snd r12)) l (combine l1 l2) /\ length l2 = length l1.
Proof.
  intros l l1 text NE [rows [C F]] A U. destruct (header_ok _ _ _ C) as [rest [C' [h [CUT CN]]]]. unfold read_flags. rewrite CUT, CN.
  assert (X : exists vals, Forall2 (fun row val => Forall2 field row val /\ (2 <= length row)%nat) rows vals /\ Forall (fun val : list string => val <> []) vals /\
    exists l2, add_flags type ("UID" :: names) (map (row_dict ("UID" :: names)) vals) l1 = Ok l2 /\ Forall2 (fun r r12 => flagged r (fst r12) (snd r12)) l (combine l1 l2) /\ length l2 = length l1).
  { clear C C' CUT CN. revert l1 U. induction F as [|r row l rows H F IH]; intros l1 U; inversion U as [|? r1 ? l1' U1 U2]; subst.
    - exists []. split; [constructor|]. split; [constructor|]. exists []. split; [reflexivity|]. split; [constructor|reflexivity].
    - inversion A as [|? ? [A1 A2] A']; subst. destruct (IH A' l1' U2) as [vals [V1 [V2 [l2 [E [G L]]]]]]. destruct (flag_line r r1 row A1 A2 U1 H) as [val [W1 [W2 [W3 [r2 [W4 W5]]]]]].
      exists (val :: vals). split; [constructor; [split; [exact W1|]|exact V1]|split; [constructor; [intros ->; discriminate|exact V2]|]].
      + rewrite (Forall2_length _ _ _ _ _ W1), W2. destruct names; [congruence|cbn; lia].
      + exists (r2 :: l2). cbn [map add_flags]. destruct (row_dict ("UID" :: names) val) as [line longer] eqn:RD. cbn [fst snd] in *. subst longer. rewrite W4. cbn [bind]. rewrite E. cbn [bind]. split; [reflexivity|]. cbn [combine length]. split; [constructor; auto|now rewrite L]. }
  destruct X as [vals [V1 [V2 [l2 [E [G L]]]]]]. rewrite (csv_read_rows _ _ _ C' V1). cbn [bind]. rewrite dict_rows_ok by exact V2. exists l2. auto.
Qed.
End Flags.
End Row.
