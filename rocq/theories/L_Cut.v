(** Proofs about files that were cut short. *)
Require Import String Ascii ZArith QArith Qround List Bool Lia.
Require Import Verif.M_Base Verif.L_Base Verif.S_Calendar Verif.M_Report Verif.S_Report Verif.L_Report Verif.M_Imma Verif.S_Imma Verif.L_Imma Verif.M_Files Verif.S_Files Verif.L_Files Verif.M_Print Verif.S_Print Verif.L_Print
  Verif.L_Track5 Verif.M_Tracking Verif.L_Main Verif.S_Reading Verif.L_Reading Verif.L_Reading2 Verif.L_Reading3 Verif.L_Fixed.
Import ListNotations.
Open Scope string_scope.
Open Scope list_scope.
Open Scope Z_scope.

Lemma cut_at : forall (c : ascii) t f x rest, (t ++ x = f ++ String c rest)%string -> (exists y, f = (t ++ y)%string) \/ exists t', t = (f ++ String c t')%string /\ (t' ++ x)%string = rest.
Proof.
  intro c. induction t as [|a t IH]; intros f x rest H; [left; exists f; reflexivity|]. destruct f as [|b f]; cbn in H.
  - injection H as -> H. right. exists t. auto.
  - injection H as -> H. destruct (IH f x rest H) as [[y ->]|[t' [-> K]]]; [left; exists y; reflexivity|right; exists t'; auto].
Qed.
Lemma plain_prefix : forall a b, plain (a ++ b) -> plain a.
Proof. intros a b H. unfold plain in *. apply chars_app in H. tauto. Qed.
Lemma append_nonempty : forall a b : string, (a ++ b = a)%string -> b = "".
Proof. induction a as [|c a IH]; intros b H; [exact H|]. injection H as H. auto. Qed.

(** The fields of the beginning of a line: fewer, or the last one is cut. *)
Lemma split_cut : forall row t x, Forall plain row -> row <> [] -> (t ++ x)%string = between row -> x <> "" ->
  split_comma t "" <> [] /\ ((length (split_comma t "") < length row)%nat \/
    exists vs c y w, split_comma t "" = vs ++ [c] /\ length (split_comma t "") = length row /\ row = w ++ [(c ++ y)%string] /\ y <> "").
Proof.
  induction row as [|f row IH]; intros t x P N E NX; [congruence|]. inversion P as [|? ? Pf P']; subst. destruct row as [|f' row].
  - cbn [between] in E. rewrite <- E in Pf. rewrite split_last by exact (plain_prefix _ _ Pf). split; [discriminate|]. right. exists [], t, x, []. rewrite <- E. cbn. repeat split; auto.
  - change (between (f :: f' :: row)) with (f ++ String "," (between (f' :: row)))%string in E. destruct (cut_at _ _ _ _ _ E) as [[y F]|[t' [-> E']]].
    + rewrite F in Pf. rewrite split_last by exact (plain_prefix _ _ Pf). split; [discriminate|]. left. cbn. lia.
    + rewrite split_field by exact Pf. split; [discriminate|]. destruct (IH t' x P' ltac:(discriminate) E' NX) as [_ [L|[vs [c [y [w [A [B [C D]]]]]]]]].
      * left. cbn in *. lia.
      * right. exists (("" ++ f)%string :: vs), c, y, (f :: w). split; [now rewrite A|]. split; [cbn in *; lia|]. split; [now rewrite C|exact D].
Qed.

(** A text cut short that still has as many lines: whole, or cut in the last line. *)
Lemma count_no_lf : forall t b, chars (fun c => c <> "010"%char) t -> count_lines t b = if match t with EmptyString => b | _ => false end then 0 else 1.
Proof.
  induction t as [|c t IH]; intros b H; [destruct b; reflexivity|]. destruct H as [Hc H]. cbn [count_lines]. rewrite (eqb_no _ _ Hc), (IH false H). destruct t; reflexivity.
Qed.
Lemma csv_cut : forall rows text p x, csv_file rows text -> (p ++ x)%string = text -> count_lines p true = Z.of_nat (length rows) ->
  p = text \/ exists rows0 row a t y, rows = rows0 ++ [row] /\ csv_file rows0 a /\ p = (a ++ t)%string /\ t <> "" /\ (t ++ y)%string = between row /\ Forall plain row /\ row <> [].
Proof.
  intros rows text p x C. revert p x. induction C as [|fs l s t [N [P E]] C IH]; intros p x H K.
  - left. destruct p; [reflexivity|discriminate].
  - subst s. rewrite app_str_assoc in H. cbn [append] in H. destruct (cut_at _ _ _ _ _ H) as [[y F]|[p' [-> G]]].
    + assert (NL : chars (fun c => c <> "010"%char) p). { pose proof (no_lf_plain fs P) as Q. rewrite F in Q. apply chars_app in Q. tauto. }
      rewrite count_no_lf in K by exact NL. destruct p as [|c p]; [cbn [length] in K; lia|]. cbn [length] in K. assert (l = []) by (destruct l; [reflexivity|cbn [length] in K; lia]). subst l.
      right. exists [], fs, "", (String c p), y. split; [reflexivity|]. split; [constructor|]. split; [reflexivity|]. split; [discriminate|]. split; [now rewrite F|]. split; [exact P|exact N].
    + rewrite count_ok in K by (now apply no_lf_plain). cbn [length] in K. destruct (IH p' x G ltac:(lia)) as [->|[rows0 [row [a [t' [y [E1 [E2 [E3 [E4 [E5 [E6 E7]]]]]]]]]]]].
      * left. rewrite app_str_assoc. reflexivity.
      * right. exists (fs :: rows0), row, ((between fs ++ String "010" "") ++ a)%string, t', y. split; [now rewrite E1|]. split; [constructor; [split; [exact N|split; [exact P|reflexivity]]|exact E2]|].
        split; [rewrite E3, !app_str_assoc; reflexivity|]. auto.
Qed.

(** Reading the rest of a line at the end of a file. *)
Definition lit_or_comma (c : ascii) : Prop := lit c \/ c = ","%char.
Lemma read_end : forall t, chars lit_or_comma t ->
  (forall f row, csv_rows t InField f row false = Ok [row ++ split_comma t f]) /\ (forall row, csv_rows t StartField "" row false = Ok [row ++ split_comma t ""]).
Proof.
  induction t as [|c t IH]; intro H; [split; intros; reflexivity|]. destruct H as [[Lc| ->] H]; destruct (IH H) as [A B].
  - destruct (lit_not c Lc) as [X [Y Z]]. split; intros; cbn [csv_rows csv_step split_comma]; rewrite (lit_eol c Lc), ?Z, X; cbn [bind]; rewrite Y; apply A.
  - split; intros; cbn [csv_rows csv_step split_comma]; cbn; rewrite B, <- app_assoc; reflexivity.
Qed.
Lemma read_end_row : forall t, chars lit_or_comma t -> t <> "" -> csv_rows t StartRow "" [] true = Ok [split_comma t ""].
Proof.
  intros t H N. destruct t as [|c t]; [congruence|]. destruct H as [[Lc| ->] H]; destruct (read_end t H) as [A B].
  - destruct (lit_not c Lc) as [X [Y Z]]. cbn [csv_rows csv_step split_comma]. rewrite (lit_eol c Lc), Z, X. cbn [bind]. rewrite Y. apply (A (String c "") []).
  - cbn [csv_rows csv_step split_comma]. cbn. rewrite B. reflexivity.
Qed.
Lemma csv_read_cut : forall rows text vals t, csv_file rows text -> Forall2 (fun row val => Forall2 field row val /\ (2 <= length row)%nat) rows vals -> chars lit_or_comma t -> t <> "" ->
  csv_read (text ++ t) = Ok (vals ++ [split_comma t ""]).
Proof.
  unfold csv_read. intros rows text vals t C. revert vals. induction C as [|fs l s u [N [P E]] C IH]; intros vals F T NT; inversion F as [|? val ? vals' [H L] F']; subst; [now apply read_end_row|].
  destruct fs as [|raw [|raw' raws]]; cbn in L; try lia. rewrite !app_str_assoc. cbn [append]. rewrite (row_line raw raw' raws val) by exact H. unfold line_done. rewrite (IH vals' F' T NT). reflexivity.
Qed.

(** A flag that is missing or empty stops the control. *)
Lemma bad_key : forall type line key names r, In key names -> key <> "UID" -> assoc key line = Some None \/ assoc key line = Some (Some "") -> exists e, row_flags type line names r = Err e.
Proof.
  intros type line key. induction names as [|n names IH]; intros r I U B; [destruct I|]. cbn [row_flags]. unfold lookup_cell. destruct (string_dec n key) as [->|NE].
  - destruct (String.eqb_spec key "UID") as [Z|_]; [contradiction|]. destruct B as [-> | ->]; cbn [bind]; [eexists; reflexivity|]. change (int_of_str "") with (Err ValueError : res Z). cbn [bind]. eexists; reflexivity.
  - destruct I as [->|I]; [congruence|]. destruct (assoc n line) as [cell|]; [|cbn [bind]; eexists; reflexivity]. cbn [bind].
    match goal with |- context [bind ?X _] => destruct X as [r'|e] end; cbn [bind]; [now apply IH|eexists; reflexivity].
Qed.
Lemma assoc_nth : forall (A : Type) (names : list string) (vals : list A) i k v, NoDup names -> nth_error names i = Some k -> nth_error vals i = Some v -> assoc k (combine names vals) = Some v.
Proof.
  intros A names. induction names as [|n names IH]; intros vals [|i] k v N K V; try discriminate; inversion N as [|? ? N1 N2]; subst; destruct vals as [|w vals]; try discriminate; cbn [combine assoc nth_error] in *.
  - injection K as ->. injection V as ->. now rewrite String.eqb_refl.
  - destruct (String.eqb_spec k n) as [->|_]; [exfalso; apply N1; exact (nth_error_In _ _ K)|]. now apply (IH vals i).
Qed.
Lemma cut_row : forall type ns n vals r, NoDup ("UID" :: ns ++ [n]) ->
  (length vals < S (S (length ns)))%nat \/ (exists vs, vals = vs ++ [""] /\ length vals = S (S (length ns))) ->
  exists e, row_flags type (fst (row_dict ("UID" :: ns ++ [n]) vals)) ("UID" :: ns ++ [n]) r = Err e.
Proof.
  intros type ns n vals r N C. apply bad_key with n.
  - right. apply in_or_app. right. now left.
  - inversion N as [|? ? N1 _]; subst. intros ->. apply N1. apply in_or_app. right. now left.
  - unfold row_dict. cbn [fst]. set (names := "UID" :: ns ++ [n]) in *. assert (LN : length names = S (S (length ns))) by (unfold names; cbn; rewrite app_length; cbn; lia).
    assert (PAD : length (map Some vals ++ repeat (@None string) (length names - length vals)) = length names) by (rewrite app_length, map_length, repeat_length; destruct C as [C|[vs [_ C]]]; lia).
    assert (FST : forall (A B : Type) (l : list A) (l' : list B), length l' = length l -> map fst (combine l l') = l).
    { intros A B. induction l as [|x l IH]; intros [|y l'] H; cbn in *; try discriminate; [reflexivity|]. rewrite IH; [reflexivity|lia]. }
    rewrite assoc_rev by (rewrite FST; assumption).
    assert (K : nth_error names (S (length ns)) = Some n) by (unfold names; cbn; rewrite nth_error_app2, Nat.sub_diag by lia; reflexivity).
    destruct C as [C|[vs [-> C]]].
    + left. apply (assoc_nth _ _ _ (S (length ns))); [exact N|exact K|]. rewrite nth_error_app2 by (rewrite map_length; lia). rewrite map_length.
      assert (R : forall m k, (k < m)%nat -> nth_error (repeat (@None string) m) k = Some None) by (induction m as [|m IH]; intros [|k] H; cbn; try lia; [reflexivity|apply IH; lia]). apply R. lia.
    + right. apply (assoc_nth _ _ _ (S (length ns))); [exact N|exact K|]. rewrite app_length in C. cbn in C. rewrite map_app. rewrite <- app_assoc, nth_error_app2 by (rewrite map_length; lia). rewrite map_length. replace (S (length ns) - length vs)%nat with 0%nat by lia. reflexivity.
Qed.
Lemma add_flags_last : forall type names good bad reps, (length good < length reps)%nat -> (forall r, exists e, row_flags type (fst bad) names r = Err e) -> exists e, add_flags type names (good ++ [bad]) reps = Err e.
Proof.
  intros type names good bad. induction good as [|[line longer] good IH]; intros [|r reps] L B; cbn [length] in L; try lia; cbn [app add_flags].
  - destruct bad as [line longer]. destruct (B r) as [e E]. cbn [fst] in E. rewrite E. exists e. reflexivity.
  - destruct (row_flags type line names r) as [r'|e]; [|eexists; reflexivity]. cbn [bind]. destruct longer; [eexists; reflexivity|]. destruct (IH reps ltac:(lia) B) as [e E]. rewrite E. eexists; reflexivity.
Qed.

Section Flags.
Variable type : string.
Variable names : list string.
Hypothesis TY : mem type special_qc_types || mem type VARLIST = true.
Hypothesis ND : NoDup ("UID" :: names).
Hypothesis NE : names <> [].
(** The cells of a row of flags. *)
Lemma flag_cells : forall r row, legible r -> flag_row type names r row -> Forall2 field row row /\ length row = S (length names).
Proof.
  intros r row [[[u [EU PU]] _] [UU _]] [u0 [cells [EU0 [C ->]]]]. rewrite EU in EU0. injection EU0 as <-. split.
  - constructor; [apply plain_field; auto|]. clear - C. induction C as [|n s ns ss H C IH]; constructor; auto. split; [exact (int_text_lits _ _ H)|now left].
  - cbn. now rewrite (Forall2_length _ _ _ _ _ C).
Qed.
Lemma lits_between : forall row, Forall2 field row row -> Forall lits row -> chars lit_or_comma (between row).
Proof.
  intros row _ F. induction F as [|f fs H F IH]; [exact I|]. assert (Hf : chars lit_or_comma f) by (eapply chars_impl; [|exact H]; intros c K; now left).
  destruct fs as [|f' fs]; [exact Hf|]. change (between (f :: f' :: fs)) with (f ++ "," ++ between (f' :: fs))%string. apply chars_app. split; [exact Hf|]. cbn [append chars]. split; [now right|exact IH].
Qed.
Lemma flags_cut : forall l l1 p p' x, flag_file type names l p -> (p' ++ x)%string = p -> count_lines p' true = Z.of_nat (S (length l)) -> Forall (fun r => legible r /\ flags_ok type names r) l -> length l1 = length l ->
  (exists e, read_flags type p' l1 = Err e) \/ read_flags type p' l1 = read_flags type p l1.
Proof.
  intros l l1 p p' x [rows [C F]] E K A L1. assert (LR : length rows = length l) by (symmetry; exact (Forall2_length _ _ _ _ _ F)).
  destruct (csv_cut _ _ _ _ C E) as [->|[rows0 [row [a [t [y [E1 [E2 [E3 [E4 [E5 [E6 E7]]]]]]]]]]]]; [cbn [length]; rewrite K; lia|now right|].
  destruct rows0 as [|h rows0].
  - (* only the header *)
    cbn in E1. injection E1 as E1 E1'. subst rows. inversion E2; subst a. cbn in E3. subst p'. inversion F; subst l. right. destruct (header_ok _ _ _ C) as [rest [C' [h [CUT CN]]]]. inversion C'; subst rest.
    unfold read_flags. rewrite CUT, CN.
    assert (NL : chars (fun c => c <> "010"%char) t). { pose proof (no_lf_plain _ E6) as Q. rewrite <- E5 in Q. apply chars_app in Q. tauto. }
    assert (CT : cut_line t = (t, "")). { clear - NL. induction t as [|c t IH]; [reflexivity|]. destruct NL as [Hc NL]. cbn [cut_line]. rewrite (eqb_no _ _ Hc), (IH NL). reflexivity. }
    rewrite CT. reflexivity.
  - cbn [app] in E1. injection E1 as <- E1. subst rows. destruct (header_ok _ _ _ E2) as [a' [C0 [h [CUT CN]]]]. destruct (header_ok _ _ _ C) as [rest [C' [h' [CUT' CN']]]].
    apply Forall2_app_inv_r in F as [l0 [lr [F0 [FR ->]]]]. inversion FR as [|r ? l' ? FR1 FR2]; subst. inversion FR2; subst. clear FR FR2. apply Forall_app in A as [A0 AR]. inversion AR as [|? ? [AL AF] _]; subst. clear AR.
    assert (V0 : Forall2 (fun row val => Forall2 field row val /\ (2 <= length row)%nat) rows0 rows0).
    { clear - F0 A0 NE. revert A0. induction F0 as [|r row l rows H F IH]; intro A; constructor; [|apply IH; now inversion A]. inversion A as [|? ? [AL _] _]; subst. destruct (flag_cells r row AL H) as [G1 G2]. split; [exact G1|]. rewrite G2. destruct names; [congruence|cbn; lia]. }
    destruct (flag_cells r row AL FR1) as [GC GL].
    assert (LB : chars lit_or_comma (between row)). { apply lits_between; [exact GC|]. clear - GC. induction row as [|f row IH]; constructor; inversion GC as [|? ? ? ? [H _] G]; subst; auto. }
    assert (LT : chars lit_or_comma t) by (rewrite <- E5 in LB; apply chars_app in LB; tauto).
    assert (LONG : (length rows0 < length l1)%nat) by (rewrite L1, app_length, <- (Forall2_length _ _ _ _ _ F0); cbn; lia).
    assert (NEQ : Forall (fun val : list string => val <> []) rows0). { clear - V0. induction rows0 as [|q rows0 IH]; constructor; inversion V0 as [|? ? ? ? [_ H] V]; subst; [intros ->; cbn in H; lia|exact (IH V)]. }
    assert (RD : read_flags type (a ++ t) l1 = add_flags type ("UID" :: names) (dict_rows ("UID" :: names) (rows0 ++ [split_comma t ""])) l1).
    { unfold read_flags. assert (CC : cut_line (a ++ t) = (h, (a' ++ t)%string)).
      { clear - E2 CUT. inversion E2 as [|fs l s u [N [P E]] C]; subst. rewrite !app_str_assoc in *. cbn [append] in *. rewrite cut_ok in * by (now apply no_lf_plain). injection CUT as <- <-. reflexivity. }
      rewrite CC, CN, (csv_read_cut _ _ _ _ C0 V0 LT E4). reflexivity. }
    rewrite RD. destruct (string_dec y "") as [->|NY].
    + (* only the line end is missing *)
      right. rewrite app_str_nil in E5. subst t. rewrite split_between by assumption. unfold read_flags. rewrite CUT', CN'.
      assert (VR : Forall2 (fun row val => Forall2 field row val /\ (2 <= length row)%nat) (rows0 ++ [row]) (rows0 ++ [row])).
      { apply Forall2_app; [exact V0|]. constructor; [|constructor]. split; [exact GC|]. rewrite GL. destruct names; [congruence|cbn; lia]. }
      rewrite (csv_read_rows _ _ _ C' VR). reflexivity.
    + left. destruct (split_cut row t y E6 E7 E5 NY) as [SN SC].
      destruct (exists_last NE) as [ns [n EN]].
      assert (BAD : forall r0, exists e, row_flags type (fst (row_dict ("UID" :: names) (split_comma t ""))) ("UID" :: names) r0 = Err e).
      { intro r0. rewrite EN. apply cut_row; [now rewrite <- EN|]. rewrite GL, EN in SC. rewrite app_length in SC. cbn [length] in SC. destruct SC as [SC|[vs [c [z [w [S1 [S2 [S3 S4]]]]]]]]; [left; lia|right].
        exists vs. split; [|rewrite S2; lia].
        assert (LZ : String.length (c ++ z) = 1%nat).
        { destruct FR1 as [u [cells [_ [FC FE]]]]. rewrite FE in S3. assert (R : 0 <= get_qc r type n <= 9) by (apply AF; rewrite EN; apply in_or_app; right; now left). clear - FC S3 R EN. rewrite EN in FC. clear EN. apply Forall2_app_inv_l in FC as [c1 [c2 [_ [F2 ->]]]]. inversion F2 as [|? s ? ? T F3]; subst. inversion F3; subst.
          change (u :: c1 ++ [s]) with ((u :: c1) ++ [s]) in S3. apply app_inj_tail in S3 as [_ <-].
          rewrite (int_text_inj _ _ _ T (str_of_int_int_text _)). apply flag_cell, R. }
        assert (c = ""). { destruct c as [|c0 c]; [reflexivity|]. exfalso. destruct z as [|z0 z]; [congruence|]. cbn in LZ. assert (LL : forall a b : string, String.length (a ++ b) = (String.length a + String.length b)%nat) by (induction a0; intros; cbn; auto). rewrite LL in LZ. cbn in LZ. lia. }
        subst c. exact S1. }
      unfold dict_rows. rewrite filter_app. cbn [filter]. destruct (split_comma t "") as [|v0 vs0] eqn:ES; [congruence|]. rewrite map_app. cbn [map].
      apply add_flags_last; [|exact BAD]. rewrite map_length. assert (FL : forall (A : Type) (f : A -> bool) (l : list A), (length (filter f l) <= length l)%nat) by (clear; induction l as [|z l IH]; cbn; [lia|destruct (f z); cbn; lia]). specialize (FL _ (fun row0 : list string => match row0 with [] => false | _ :: _ => true end) rows0). lia.
Qed.
End Flags.
