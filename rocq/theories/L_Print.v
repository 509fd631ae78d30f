(** Lemmas on the comma separated output. *)
Require Import String Ascii ZArith QArith List Bool Lia.
Require Import Verif.M_Base Verif.M_Calendar Verif.M_Report Verif.M_Imma Verif.M_Files Verif.M_Print.
Require Import Verif.S_Calendar Verif.S_Report Verif.S_Imma Verif.S_Files Verif.S_Print.
Require Import Verif.L_Base Verif.L_Grid Verif.L_Calendar Verif.L_Calendar2 Verif.L_Report Verif.L_Imma Verif.L_Files.
Import ListNotations.
Open Scope string_scope.
Open Scope Z_scope.

(* ---------------------------------------------------------------- lines *)

Lemma between_cons : forall f fs, fs <> [] -> between (f :: fs) = f ++ "," ++ between fs.
Proof. intros f [|g fs] H; [congruence|reflexivity]. Qed.
Lemma field_end : forall a b s t, plain a -> plain b -> forall x y, (x = ","%char \/ x = "010"%char) -> (y = ","%char \/ y = "010"%char) ->
  a ++ String x s = b ++ String y t -> a = b /\ x = y /\ s = t.
Proof.
  induction a as [|c a IH]; intros [|e b] s t A B x y X Y H; cbn in *.
  - injection H as -> ->. auto.
  - injection H as -> _. destruct B as [[B1 B2] _]. destruct X; congruence.
  - injection H as -> _. destruct A as [[A1 A2] _]. destruct Y; congruence.
  - injection H as <- H. destruct A as [_ A], B as [_ B]. destruct (IH b s t A B x y X Y H) as [-> [-> ->]]. auto.
Qed.
Lemma line_split : forall fs gs s t, fs <> [] -> gs <> [] -> Forall plain fs -> Forall plain gs ->
  between fs ++ String "010" s = between gs ++ String "010" t -> fs = gs /\ s = t.
Proof.
  induction fs as [|f fs IH]; intros [|g gs] s t F G PF PG H; try congruence.
  apply Forall_cons_iff in PF, PG. destruct PF as [Pf PF], PG as [Pg PG].
  destruct fs as [|f' fs], gs as [|g' gs].
  - cbn in H. destruct (field_end f g s t Pf Pg _ _ (or_intror eq_refl) (or_intror eq_refl) H) as [-> [_ ->]]. auto.
  - rewrite (between_cons g (g' :: gs)), !app_assoc_s in H by discriminate. cbn [append between] in H.
    destruct (field_end f g _ _ Pf Pg _ _ (or_intror eq_refl) (or_introl eq_refl) H) as [_ [X _]]. discriminate.
  - rewrite (between_cons f (f' :: fs)), !app_assoc_s in H by discriminate. cbn [append between] in H.
    destruct (field_end f g _ _ Pf Pg _ _ (or_introl eq_refl) (or_intror eq_refl) H) as [_ [X _]]. discriminate.
  - rewrite (between_cons f (f' :: fs)), (between_cons g (g' :: gs)), !app_assoc_s in H by discriminate.
    destruct (field_end f g _ _ Pf Pg _ _ (or_introl eq_refl) (or_introl eq_refl) H) as [-> [_ H2]].
    destruct (IH (g' :: gs) s t ltac:(discriminate) ltac:(discriminate) PF PG H2) as [E ->]. rewrite E. auto.
Qed.
Lemma csv_line_inj : forall fs gs s, csv_line fs s -> csv_line gs s -> fs = gs.
Proof.
  intros fs gs s [A [B C]] [D [E F]]. rewrite C in F. apply (line_split fs gs "" "" A D B E F).
Qed.
Lemma csv_file_inj : forall l s, csv_file l s -> forall l', csv_file l' s -> l = l'.
Proof.
  assert (K : forall fs s, csv_line fs s -> s <> ""). { intros fs s [_ [_ ->]]. destruct (between fs); discriminate. }
  induction 1 as [|fs l s t L F IH]; intros l' H.
  - inversion H as [|fs' l2 s' t' L' F' E1 E2]; [reflexivity|]. exfalso. apply (K fs' s' L'). destruct s'; [reflexivity|discriminate].
  - inversion H as [E1 E2|fs' l2 s' t' L' F' E1 E2]; subst.
    + exfalso. apply (K fs s L). destruct s; [reflexivity|discriminate].
    + destruct L as [A [B ->]], L' as [D [E ->]]. rewrite !app_assoc_s in E2. cbn [append] in E2. symmetry in E2.
      destruct (line_split fs fs' _ _ A D B E E2) as [-> ->]. rewrite (IH l2 F'). reflexivity.
Qed.

(* ---------------------------------------------------------------- numbers and dates *)

Lemma str_of_nat_padded : forall z, 0 <= z -> padded 1 z (str_of_nat z).
Proof.
  intros z H. pose proof (zero_pad_padded 1 z ltac:(lia) H) as P. unfold zero_pad in P. destruct (Z.ltb_spec z 0); [lia|].
  pose proof (decimal_nonempty _ _ (str_of_nat_decimal z H)) as N. replace (1 - String.length (str_of_nat z))%nat with O in P by lia. exact P.
Qed.
Lemma str_of_int_int_text : forall z, int_text z (str_of_int z).
Proof.
  intro z. unfold str_of_int, int_text. destruct (Z.ltb_spec z 0).
  - right. split; [lia|]. exists (str_of_nat (- z)). split; [reflexivity|]. apply str_of_nat_padded. lia.
  - left. split; [lia|]. apply str_of_nat_padded. lia.
Qed.
Lemma digits_plain : forall s, chars (fun c => is_digit c = true) s -> chars (fun c => ~ white c /\ c <> ","%char) s.
Proof.
  intros s. apply chars_impl. intros c D. split; [|intros ->; discriminate]. intro W. apply is_space_white in W. apply is_digit_digit in D. rewrite (digit_not_white _ _ D) in W. discriminate.
Qed.
Lemma int_text_float : forall z s, int_text z s -> float_text s.
Proof.
  assert (K : forall n z s, padded n z s -> float_text s).
  { intros n z s P. split; [exact (padded_nonempty _ _ _ P)|]. apply digits_plain, (decimal_digits _ _ (proj1 P)). }
  intros z s [[_ P]|[_ [s' [-> P]]]]; [exact (K _ _ _ P)|]. split; [discriminate|]. split; [split; [intro W; apply is_space_white in W; discriminate|discriminate]|]. exact (proj2 (K _ _ _ P)).
Qed.
Lemma float_plain : forall s, float_text s -> plain s.
Proof.
  intros s [_ H]. eapply chars_impl; [|exact H]. intros c [A B]. split; [exact B|]. intros ->. apply A. unfold white. simpl. tauto.
Qed.
Lemma datestring_text : forall r, date_text r (datestring (getint r "YR") (getint r "MO") (getint r "DY")).
Proof.
  intro r. unfold date_text, datestring.
  destruct (getint r "YR") as [y|] eqn:Y; [|right; split; [intros [a [b [c [X _]]]]; discriminate|reflexivity]].
  destruct (getint r "MO") as [m|] eqn:M; [|right; split; [intros [a [b [c [_ [X _]]]]]; discriminate|reflexivity]].
  destruct (getint r "DY") as [d|] eqn:D; [|right; split; [intros [a [b [c [_ [_ [X _]]]]]]; discriminate|reflexivity]].
  destruct ((1000 <=? y) && datetime_ok y m d) eqn:E.
  - left. apply andb_prop in E. destruct E as [E1 E2]. apply Z.leb_le in E1.
    apply datetime_ok_iff in E2. destruct E2 as [R V].
    exists y, m, d, (zero_pad 4 y), (zero_pad 2 m), (zero_pad 2 d). repeat (split; [solve [reflexivity|exact V|lia]|]).
    destruct V as [n [MH B]]. cbn [yr mo dy] in *. assert (1 <= m) by (inversion MH; lia).
    split; [apply zero_pad_padded; lia|]. split; [apply zero_pad_padded; lia|]. split; [apply zero_pad_padded; lia|reflexivity].
  - right. split; [|reflexivity]. intros [y' [m' [d' [X [X' [X'' [R V]]]]]]]. injection X as <-. injection X' as <-. injection X'' as <-.
    apply andb_false_iff in E. destruct E as [E|E]; [apply Z.leb_gt in E; lia|]. assert (datetime_ok y m d = true) by (apply datetime_ok_iff; split; [lia|exact V]). congruence.
Qed.
Definition pentad_of (r : report) : Z :=
  match getint r "MO", getint r "DY" with
  | Some m, Some d => match which_pentad m d with Ok p => p | Err _ => 0 end
  | _, _ => 0
  end.
Lemma pentad_of_text : forall r, pentad_text r (str_of_int (pentad_of r)).
Proof.
  intro r. unfold pentad_text, pentad_of.
  destruct (getint r "MO") as [m|] eqn:M; [|right; split; [intros [a [b [X _]]]; discriminate|reflexivity]].
  destruct (getint r "DY") as [d|] eqn:D; [|right; split; [intros [a [b [_ [X _]]]]; discriminate|reflexivity]].
  destruct (which_pentad m d) as [p|e] eqn:W.
  - left. exists m, d, p. split; [reflexivity|]. split; [reflexivity|].
    assert (V : md_valid m d). { destruct (which_pentad_total m d) as [_ B]. destruct (day_in_year m d) as [n|] eqn:E; [apply (day_in_year_range m d n E)|]. unfold which_pentad, py_assert in W. destruct ((m <=? 12) && (1 <=? m)); [|discriminate]. cbn [bind] in W. destruct ((d <=? 31) && (1 <=? d)); [|discriminate]. cbn [bind] in W. rewrite E in W. discriminate. }
    split; [exact V|]. split; [|apply str_of_int_int_text]. apply which_pentad_pentad. replace (p - 1 + 1) with p by lia. exact W.
  - right. split; [|reflexivity]. intros [m' [d' [X [X' V]]]]. injection X as <-. injection X' as <-. destruct (proj1 (which_pentad_total m d) V) as [p [P _]]. congruence.
Qed.
Lemma date_text_plain : forall r s, date_text r s -> plain s.
Proof.
  intros r s [[y [m [d [ys [ms [ds [_ [_ [_ [_ [_ [Y [M [D ->]]]]]]]]]]]]]]|[_ ->]].
  - assert (K : forall n z t, padded n z t -> plain t).
    { intros n z t P. apply float_plain. split; [exact (padded_nonempty _ _ _ P)|apply digits_plain, (decimal_digits _ _ (proj1 P))]. }
    unfold plain. rewrite !chars_app. repeat split; try discriminate; eapply K; eassumption.
  - cbn. repeat split; discriminate.
Qed.
Lemma pentad_text_plain : forall r s, pentad_text r s -> plain s.
Proof. intros r s [[m [d [p [_ [_ [_ [_ T]]]]]]]|[_ ->]]; [apply float_plain, (int_text_float p s T)|cbn; repeat split; discriminate]. Qed.

(* ---------------------------------------------------------------- blocks *)

Lemma concat_nil_app : forall l s, String.concat "" (l ++ [s])%list = String.concat "" l ++ s.
Proof.
  assert (K : forall a (l : list string), String.concat "" (a :: l) = a ++ String.concat "" l).
  { intros a [|b l]; [cbn; symmetry; apply app_nil_r_s|reflexivity]. }
  induction l as [|a l IH]; intro s; [reflexivity|]. cbn [app]. rewrite !K, IH, app_assoc_s. reflexivity.
Qed.
Lemma concat_empty_cons : forall a (l : list string), String.concat "" (a :: l) = a ++ String.concat "" l.
Proof. intros a [|b l]; [cbn; symmetry; apply app_nil_r_s|reflexivity]. Qed.
Lemma map_r_some : forall l, map_r (fun o => match o with Some s => Ok s | None => Err TypeError end) (map (@Some string) l) = Ok l.
Proof. induction l as [|a l IH]; [reflexivity|]. cbn. rewrite IH. reflexivity. Qed.
Lemma finish_some : forall l x, finish (map (@Some string) l ++ [x]) = Ok (String.concat "" l ++ newline_s).
Proof.
  intros l x. unfold finish. rewrite removelast_last.
  change [Some newline_s] with (map (@Some string) [newline_s]). rewrite <- map_app, map_r_some. cbn [bind]. unfold joined_by. rewrite concat_nil_app. reflexivity.
Qed.
Lemma commas : forall cells, cells <> [] -> exists x, flat_map (fun s => [Some s; Some ","]) cells = (map (@Some string) x ++ [Some ","])%list /\ String.concat "" x = between cells.
Proof.
  induction cells as [|c cells IH]; intro N; [congruence|]. destruct cells as [|c' cells].
  - exists [c]. split; reflexivity.
  - destruct (IH ltac:(discriminate)) as [x [E F]]. exists (c :: "," :: x). split.
    + change (flat_map (fun s => [Some s; Some ","]) (c :: c' :: cells)) with (Some c :: Some "," :: flat_map (fun s => [Some s; Some ","]) (c' :: cells)). rewrite E. reflexivity.
    + rewrite (between_cons c (c' :: cells)), !concat_empty_cons, F by discriminate. reflexivity.
Qed.
Lemma finish_cells : forall pre cells, cells <> [] ->
  finish (map (@Some string) pre ++ flat_map (fun s => [Some s; Some ","]) cells) = Ok (String.concat "" pre ++ between cells ++ newline_s).
Proof.
  intros pre cells N. destruct (commas cells N) as [x [E F]]. rewrite E, app_assoc, <- map_app, finish_some. f_equal.
  assert (K : forall a b : list string, String.concat "" (a ++ b)%list = String.concat "" a ++ String.concat "" b).
  { induction a as [|y a IH]; intro b; [reflexivity|]. cbn [app]. rewrite !concat_empty_cons, IH, app_assoc_s. reflexivity. }
  rewrite K, F, app_assoc_s. reflexivity.
Qed.
Lemma map_r_ok : forall (A B : Type) (f : A -> res B) (R : A -> B -> Prop) l, Forall (fun a => exists b, f a = Ok b /\ R a b) l -> exists bs, map_r f l = Ok bs /\ Forall2 R l bs.
Proof.
  intros A B f R. induction l as [|a l IH]; intro H; [exists []; split; [reflexivity|constructor]|].
  apply Forall_cons_iff in H. destruct H as [[b [F P]] H]. destruct (IH H) as [bs [E G]]. exists (b :: bs). cbn. rewrite F. cbn. rewrite E. split; [reflexivity|constructor; assumption].
Qed.
Lemma forall2_len : forall (A B : Type) (R : A -> B -> Prop) l l', Forall2 R l l' -> length l = length l'.
Proof. induction 1; cbn; congruence. Qed.
Lemma forall2_nonempty : forall (A B : Type) (R : A -> B -> Prop) l l', Forall2 R l l' -> l <> [] -> l' <> [].
Proof. intros A B R l l' H N ->. inversion H; subst. congruence. Qed.

Section Blocks.
Variable str_of : string -> Q -> string.
Hypothesis STR : forall n q, float_text (str_of n q).

Definition vprefix (r : report) (u : string) (printuid : bool) : list string :=
  if printuid then [u; datestring (getint r "YR") (getint r "MO") (getint r "DY"); str_of_int (pentad_of r)] else [].

Lemma tostring_cell : forall r v, v <> "ID" -> v <> "UID" -> cell str_of r [v] (tostring_var str_of r v).
Proof.
  intros r v N1 N2. unfold tostring_var. apply String.eqb_neq in N1 as E1. apply String.eqb_neq in N2 as E2. rewrite E1, E2.
  destruct (mem v INTVARS) eqn:M.
  - unfold getint. destruct (getvar r v) as [q|] eqn:G; [|apply cell_none; assumption].
    assert (Q : q = inject_Z (py_int q)).
    { unfold getvar in G. destruct (index_of v VARLIST) as [i|e] eqn:I.
      - destruct (nth i (r_data r) None) as [x|]; [|discriminate]. rewrite M in G. injection G as <-. rewrite py_int_inject. reflexivity.
      - exfalso. apply mem_In in M. unfold INTVARS in M. simpl in M. repeat (destruct M as [<-|M]; [discriminate I|]). contradiction. }
    apply cell_int with (z := py_int q); [apply mem_In, M|congruence|apply str_of_int_int_text].
  - assert (~ In v integer_variables) by (intro I; apply mem_In in I; change integer_variables with INTVARS in I; congruence).
    destruct (getvar r v) as [q|] eqn:G; [apply cell_float|apply cell_none]; assumption.
Qed.
Lemma cell_plain : forall r var s, printable r -> cell str_of r var s -> plain s.
Proof.
  assert (N : plain "\N") by (cbn; repeat split; discriminate).
  intros r var s [_ P] C. destruct C; try exact N.
  - unfold plain. rewrite !chars_app. split; [cbn; repeat split; discriminate|]. split; [apply P; assumption|cbn; repeat split; discriminate].
  - apply float_plain, STR.
  - apply float_plain, (int_text_float z s H1).
  - apply float_plain, STR.
Qed.
Definition vline (r : report) (var : list string) : res string :=
  let! v := head_name var in
  if String.eqb v "ID" then
    match r_id r with None => Ok (tostring_var str_of r v) | Some s => Ok (String """" "" ++ s ++ String """" "") end
  else if (1 <? Z.of_nat (length var)) then Ok (tostring_anom str_of r v) else Ok (tostring_var str_of r v).
Lemma vline_cell : forall r var, var <> [] -> var <> ["UID"] -> exists s, vline r var = Ok s /\ cell str_of r var s.
Proof.
  intros r [|v l] N1 N2; [congruence|]. unfold vline. cbn [head_name bind]. destruct (String.eqb_spec v "ID") as [->|N].
  - destruct (r_id r) as [i|] eqn:I; eexists; (split; [reflexivity|]); [apply cell_id, I|]. unfold tostring_var. rewrite I. apply cell_no_id, I.
  - destruct l as [|w l]; cbn [length].
    + change (1 <? Z.of_nat 1) with false. cbv iota. eexists. split; [reflexivity|]. apply tostring_cell; congruence.
    + destruct (Z.ltb_spec 1 (Z.of_nat (S (S (length l))))); [|lia]. eexists. split; [reflexivity|]. unfold tostring_anom. destruct (getanom r v) eqn:G; [apply cell_anom|apply cell_no_anom]; assumption.
Qed.
Lemma variable_block_row : forall r u vars printuid, printable r -> r_uid r = Some u -> vars <> [] -> Forall (fun v => v <> [] /\ v <> ["UID"]) vars ->
  exists s cells, print_variable_block str_of r vars false printuid = Ok s /\ Forall2 (cell str_of r) vars cells /\ csv_line (vprefix r u printuid ++ cells) s.
Proof.
  intros r u vars b P U N V.
  destruct (map_r_ok _ _ (vline r) (cell str_of r) vars) as [cells [E F]].
  { eapply Forall_impl; [|exact V]. intros v [A B]. apply vline_cell; assumption. }
  pose proof (forall2_nonempty _ _ _ _ _ F N) as NC.
  assert (PC : Forall plain cells).
  { clear -F P STR. induction F; constructor; auto. eapply cell_plain; eassumption. }
  assert (PU : plain u). { destruct P as [[u' [X Y]] _]. rewrite U in X. injection X as <-. exact Y. }
  unfold print_variable_block, append_each. fold (vline r). rewrite E. cbn [bind]. rewrite U. destruct b.
  - change [Some u; Some ","; Some (datestring (getint r "YR") (getint r "MO") (getint r "DY")); Some ","; Some (str_of_int (match getint r "MO" with Some m => match getint r "DY" with Some d => match which_pentad m d with Ok p => p | Err _ => 0 end | None => 0 end | None => 0 end)); Some ","]
      with (map (@Some string) [u; ","; datestring (getint r "YR") (getint r "MO") (getint r "DY"); ","; str_of_int (pentad_of r); ","]).
    rewrite finish_cells by exact NC. eexists _, cells. split; [reflexivity|]. split; [exact F|]. unfold vprefix. split; [discriminate|]. split.
    + cbn [app]. constructor; [exact PU|]. constructor; [apply (date_text_plain r), datestring_text|]. constructor; [apply (pentad_text_plain r), pentad_of_text|exact PC].
    + cbn [app]. rewrite !between_cons by (discriminate || exact NC). rewrite !concat_empty_cons. cbn [String.concat]. rewrite !app_assoc_s. reflexivity.
  - change [Some ""] with (map (@Some string) [""]). rewrite finish_cells by exact NC. eexists _, cells. split; [reflexivity|]. split; [exact F|]. split; [exact NC|]. split; [exact PC|reflexivity].
Qed.
Lemma column_join : forall var, (if (1 <? Z.of_nat (length var)) then Ok (joined_by "_" var) else head_name var) = match var with [] => Err IndexError | _ => Ok (column var) end.
Proof.
  assert (K : forall l v, String.concat "_" (v :: l) = column (v :: l)).
  { induction l as [|w l IH]; intro v; [reflexivity|]. change (String.concat "_" (v :: w :: l)) with (v ++ "_" ++ String.concat "_" (w :: l)). rewrite IH. reflexivity. }
  intros [|v [|w l]]; [reflexivity|reflexivity|]. cbn [length]. destruct (Z.ltb_spec 1 (Z.of_nat (S (S (length l))))); [|lia]. unfold joined_by. rewrite K. reflexivity.
Qed.
Lemma variable_block_header : forall r vars printuid, vars <> [] -> Forall (fun v => v <> [] /\ plain (column v)) vars ->
  exists s, print_variable_block str_of r vars true printuid = Ok s /\ csv_line ((if printuid then ["UID"; "DATE"; "PENTAD"] else []) ++ map column vars) s.
Proof.
  intros r vars b N V.
  destruct (map_r_ok _ _ (fun var => if (1 <? Z.of_nat (length var)) then Ok (joined_by "_" var) else head_name var) (fun v s => s = column v) vars) as [cells [E F]].
  { eapply Forall_impl; [|exact V]. intros v [A _]. exists (column v). rewrite column_join. destruct v; [congruence|]. auto. }
  assert (C : cells = map column vars). { clear -F. induction F; [reflexivity|]. cbn. congruence. }
  pose proof (forall2_nonempty _ _ _ _ _ F N) as NC.
  assert (PC : Forall plain cells). { rewrite C. apply Forall_map. eapply Forall_impl; [|exact V]. intros v [_ A]. exact A. }
  unfold print_variable_block, append_each. rewrite E. cbn [bind]. rewrite <- C. destruct b.
  - change [Some "UID,DATE,PENTAD,"] with (map (@Some string) ["UID,DATE,PENTAD,"]). rewrite finish_cells by exact NC. eexists. split; [reflexivity|]. split; [discriminate|]. split.
    + cbn [app]. repeat (constructor; [cbn; repeat split; discriminate|]). exact PC.
    + cbn [app]. rewrite !between_cons by (discriminate || exact NC). reflexivity.
  - change [Some ""] with (map (@Some string) [""]). rewrite finish_cells by exact NC. eexists. split; [reflexivity|]. split; [exact NC|]. split; [exact PC|reflexivity].
Qed.
Lemma flag_block_row : forall r u type names printuid, r_uid r = Some u -> plain u -> names <> [] ->
  exists s cells, print_qc_block r type names false printuid = Ok s /\ Forall2 (fun n t => int_text (get_qc r type n) t) names cells /\ csv_line ((if printuid then [u] else []) ++ cells) s.
Proof.
  intros r u type names b U PU N.
  destruct (map_r_ok _ _ (fun var => Ok (str_of_int (get_qc r type var))) (fun n t => int_text (get_qc r type n) t) names) as [cells [E F]].
  { apply Forall_forall. intros n _. eexists. split; [reflexivity|apply str_of_int_int_text]. }
  pose proof (forall2_nonempty _ _ _ _ _ F N) as NC.
  assert (PC : Forall plain cells). { clear -F. induction F; constructor; auto. eapply float_plain, int_text_float; eassumption. }
  unfold print_qc_block, append_each. rewrite E. cbn [bind]. rewrite U. destruct b.
  - change [Some u; Some ","] with (map (@Some string) [u; ","]). rewrite finish_cells by exact NC. eexists _, cells. split; [reflexivity|]. split; [exact F|]. split; [discriminate|].
    split; [constructor; assumption|]. cbn [app]. rewrite between_cons by exact NC. rewrite !concat_empty_cons. cbn [String.concat]. rewrite !app_assoc_s. reflexivity.
  - change [Some ""] with (map (@Some string) [""]). rewrite finish_cells by exact NC. eexists _, cells. split; [reflexivity|]. split; [exact F|]. split; [exact NC|]. split; [exact PC|reflexivity].
Qed.
Lemma flag_block_header : forall r type names printuid, names <> [] -> Forall plain names ->
  exists s, print_qc_block r type names true printuid = Ok s /\ csv_line ((if printuid then ["UID"] else []) ++ names) s.
Proof.
  intros r type names b N P.
  assert (E : map_r (fun var : string => Ok var) names = Ok names) by (clear; induction names as [|a l IH]; [reflexivity|]; cbn; rewrite IH; reflexivity).
  unfold print_qc_block, append_each. rewrite E. cbn [bind]. destruct b.
  - change [Some "UID,"] with (map (@Some string) ["UID,"]). rewrite finish_cells by exact N. eexists. split; [reflexivity|]. split; [discriminate|].
    split; [constructor; [cbn; repeat split; discriminate|exact P]|]. cbn [app]. rewrite between_cons by exact N. reflexivity.
  - change [Some ""] with (map (@Some string) [""]). rewrite finish_cells by exact N. eexists. split; [reflexivity|]. split; [exact N|]. split; [exact P|reflexivity].
Qed.

(* ---------------------------------------------------------------- files *)

Lemma in_month_iff : forall y m r, in_month y m r = true <-> of_month y m r.
Proof.
  intros y m r. unfold in_month, of_month. destruct (getint r "YR") as [a|], (getint r "MO") as [b|]; rewrite ?andb_true_iff, ?Z.eqb_eq; split; try discriminate.
  - intros [-> ->]. auto.
  - intros [X Y]. split; congruence.
  - intros [_ Y]; discriminate.
  - intros [X _]; discriminate.
  - intros [X _]; discriminate.
Qed.
Lemma filter_picked : forall (p : report -> bool) (P : report -> Prop), (forall r, p r = true <-> P r) -> forall l l', filter p l = l' <-> picked P l l'.
Proof.
  intros p P H. induction l as [|r l IH]; intro l'; cbn [filter].
  - split; [intros <-; constructor|inversion 1; reflexivity].
  - destruct (p r) eqn:E.
    + apply H in E as E'. split.
      * intros <-. apply pick_yes; [exact E'|apply IH; reflexivity].
      * inversion 1; subst; [f_equal; apply IH; assumption|contradiction].
    + assert (~ P r) by (rewrite <- H; congruence). split.
      * intro F. apply pick_no; [assumption|apply IH, F].
      * inversion 1; subst; [contradiction|apply IH; assumption].
Qed.
Lemma picked_incl : forall P l l', picked P l l' -> incl l' l.
Proof. induction 1 as [|r l l' A B IH|r l l' A B IH]; intros x X; [exact X|destruct X as [<-|X]; [left; reflexivity|right; apply IH, X]|right; apply IH, X]. Qed.
Lemma body_ok : forall (line : report -> bool -> res string) (R : report -> list string -> Prop) hdr reps y m l, reps <> [] ->
  picked (of_month y m) reps l ->
  (forall r, exists s, line r true = Ok s /\ csv_line hdr s) ->
  (forall r, In r l -> exists s row, line r false = Ok s /\ csv_line row s /\ R r row) ->
  exists body rows, file_body reps y m line = Ok body /\ csv_file (hdr :: rows) body /\ Forall2 R l rows.
Proof.
  intros line R hdr reps y m l N P H L. unfold file_body. apply (filter_picked _ _ (in_month_iff y m)) in P. rewrite P. clear P.
  destruct reps as [|r0 reps]; [congruence|]. cbn [first_rep bind]. destruct (H r0) as [h [E C]]. rewrite E. cbn [bind].
  assert (K : exists ss rows, map_r (fun r => line r false) l = Ok ss /\ Forall2 R l rows /\ csv_file rows (String.concat "" ss)).
  { clear - L. induction l as [|r l IH]; [exists [], []; split; [reflexivity|]; split; constructor|].
    destruct (L r (or_introl eq_refl)) as [s [row [E [C RR]]]]. destruct (IH (fun x X => L x (or_intror X))) as [ss [rows [F [G I]]]].
    exists (s :: ss), (row :: rows). cbn. rewrite E. cbn. rewrite F. split; [reflexivity|]. split; [constructor; assumption|]. change (csv_file (row :: rows) (String.concat "" (s :: ss))). rewrite concat_empty_cons. constructor; assumption. }
  destruct K as [ss [rows [F [G I]]]]. rewrite F. cbn [bind]. eexists _, rows. split; [reflexivity|]. split; [|exact G]. unfold joined_by. rewrite concat_empty_cons. constructor; assumption.
Qed.
Lemma variable_body : forall vars reps y m l, reps <> [] -> picked (of_month y m) reps l -> Forall printable l ->
  vars <> [] -> Forall (fun v => v <> [] /\ v <> ["UID"] /\ plain (column v)) vars ->
  exists body rows, file_body reps y m (fun r header => print_variable_block str_of r vars header true) = Ok body /\ csv_file (("UID" :: "DATE" :: "PENTAD" :: map column vars) :: rows) body /\ Forall2 (variable_row str_of vars) l rows.
Proof.
  intros vars reps y m l N P PR NV V. apply body_ok; [exact N|exact P| |].
  - intro r. apply (variable_block_header r vars true NV). eapply Forall_impl; [|exact V]. intros v [A [_ B]]. auto.
  - intros r I. rewrite Forall_forall in PR. destruct (PR r I) as [[u [U PU]] _].
    destruct (variable_block_row r u vars true (PR r I) U NV) as [s [cells [E [F C]]]]. { eapply Forall_impl; [|exact V]. intros v [A [B _]]. auto. }
    exists s, (vprefix r u true ++ cells)%list. split; [exact E|]. split; [exact C|]. exists u, (datestring (getint r "YR") (getint r "MO") (getint r "DY")), (str_of_int (pentad_of r)), cells.
    split; [exact U|]. split; [apply datestring_text|]. split; [apply pentad_of_text|]. split; [exact F|reflexivity].
Qed.
Lemma flag_body : forall type names reps y m l, reps <> [] -> picked (of_month y m) reps l -> Forall printable l -> names <> [] -> Forall plain names ->
  exists body rows, file_body reps y m (fun r header => print_qc_block r type names header true) = Ok body /\ csv_file (("UID" :: names) :: rows) body /\ Forall2 (flag_row type names) l rows.
Proof.
  intros type names reps y m l N P PR NV V. apply body_ok; [exact N|exact P| |].
  - intro r. apply (flag_block_header r type names true NV V).
  - intros r I. rewrite Forall_forall in PR. destruct (PR r I) as [[u [U PU]] _].
    destruct (flag_block_row r u type names true U PU NV) as [s [cells [E [F C]]]]. exists s, (u :: cells). split; [exact E|]. split; [exact C|]. exists u, cells. auto.
Qed.
(* ---------------------------------------------------------------- the tracking file *)

Lemma between_app : forall a b, a <> [] -> b <> [] -> between (a ++ b) = between a ++ "," ++ between b.
Proof.
  induction a as [|x a IH]; intros b A B; [congruence|]. destruct a as [|x' a]; [cbn [app]; rewrite between_cons by exact B; reflexivity|].
  cbn [app]. rewrite between_cons by discriminate. change (x' :: a ++ b)%list with ((x' :: a) ++ b)%list. rewrite IH by (discriminate || exact B). rewrite (between_cons x (x' :: a)) by discriminate. rewrite !app_assoc_s. reflexivity.
Qed.
Lemma between_last : forall fs f, exists p, between (fs ++ [f]) = p ++ f.
Proof.
  induction fs as [|x fs IH]; intro f; [exists ""; reflexivity|]. destruct (IH f) as [p P]. cbn [app]. rewrite between_cons by (destruct fs; discriminate). rewrite P. exists (x ++ "," ++ p). rewrite !app_assoc_s. reflexivity.
Qed.
Lemma rstrip_line : forall fs f s, csv_line (fs ++ [f]) s -> f <> "" -> chars (fun c => ~ white c) f -> rstrip s = between (fs ++ [f]).
Proof.
  intros fs f s [_ [_ ->]] N W. rewrite rstrip_white by (split; [unfold white; simpl; tauto|exact I]).
  destruct (between_last fs f) as [p P]. rewrite P. destruct (snoc_cases f) as [->|[t [c ->]]]; [congruence|]. rewrite <- app_assoc_s. apply rstrip_by_keep.
  apply chars_app in W. destruct W as [_ [W _]]. destruct (is_space c) eqn:C; [apply is_space_white in C; contradiction|reflexivity].
Qed.
Lemma rstrip_line' : forall fs s, csv_line fs s -> (exists fs' f, fs = (fs' ++ [f])%list /\ f <> "" /\ chars (fun c => ~ white c) f) -> rstrip s = between fs.
Proof. intros fs s C [fs' [f [-> [N W]]]]. exact (rstrip_line fs' f s C N W). Qed.
End Blocks.
