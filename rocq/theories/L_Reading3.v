(** Lemmas for reading back the files of the main program: months. *)
Require Import String Ascii ZArith QArith Qround List Bool Lia Lqa.
Require Import Verif.M_Base Verif.L_Base Verif.S_Calendar Verif.M_Calendar Verif.L_Calendar Verif.M_Report Verif.S_Report Verif.L_Report Verif.L_Report3 Verif.M_Imma Verif.S_Imma Verif.L_Imma Verif.M_Files Verif.S_Files Verif.L_Files Verif.M_Print Verif.S_Print Verif.L_Print Verif.M_Track Verif.L_Track5 Verif.M_Tracking Verif.S_Reading Verif.L_Reading Verif.L_Reading2.
Import ListNotations.
Open Scope string_scope.
Open Scope list_scope.
Open Scope Z_scope.

Definition pos_names : list string := nth 0 (map snd documented_voyage_flags) [].
Definition sst_names : list string := nth 1 (map snd documented_voyage_flags) [].
Lemma pos_nodup : NoDup ("UID" :: pos_names). Proof. cbn. repeat (constructor; [cbn; intuition discriminate|]). constructor. Qed.
Lemma sst_nodup : NoDup ("UID" :: sst_names). Proof. cbn. repeat (constructor; [cbn; intuition discriminate|]). constructor. Qed.
Lemma kept_pos : forall f, In f pos_names -> In ("POS", f) kept_flags.
Proof. intros f I. cbn in I |- *. intuition congruence. Qed.
Lemma kept_sst : forall f, In f sst_names -> In ("SST", f) kept_flags.
Proof. intros f I. cbn in I |- *. intuition congruence. Qed.
Lemma kept_split : forall t f, In (t, f) kept_flags -> t = "POS" /\ In f pos_names \/ t = "SST" /\ In f sst_names.
Proof. intros t f I. cbn in I |- *. repeat (destruct I as [I|I]; [injection I as <- <-; tauto|]). destruct I. Qed.
Lemma int_text_inj : forall z s t, int_text z s -> int_text z t -> s = t.
Proof.
  intros z s t [[A B]|[A [s' [-> B]]]] [[A' B']|[A' [t' [-> B']]]]; try lia; [exact (padded_inj _ _ _ _ B B')|]. now rewrite (padded_inj _ _ _ _ B B').
Qed.
Lemma path_unique : forall kind out id runid y m path, 0 <= m -> month_path kind out id runid (y, m) path -> path = month_file kind out id runid y m.
Proof.
  intros kind out id runid y m path M [ys [ms [I [P ->]]]]. cbn [fst snd] in *. unfold month_file.
  rewrite (int_text_inj _ _ _ I (str_of_int_int_text y)). rewrite (padded_inj _ _ _ _ P (zero_pad_padded 2 m ltac:(lia) M)). reflexivity.
Qed.
Section Months.
Variable str_of : string -> Q -> string.
Variable float_of : string -> res Q.
Variable rnd : string -> Q -> Q.
Hypothesis NR : numbers_read str_of float_of rnd.
Variable files : string -> option string.
Variables out id runid : string.

Lemma contents_back : forall l v p s, variable_file str_of documented_voyage_vars l v -> flag_file "POS" pos_names l p -> flag_file "SST" sst_names l s -> Forall (readable rnd) l ->
  exists l', (let! reps := read_variables float_of v in let! reps := read_flags "POS" p reps in read_flags "SST" s reps) = Ok l' /\ Forall2 (read_back rnd) l l'.
Proof.
  intros l v p s V P S A.
  destruct (variables_back str_of float_of rnd NR l v V) as [l1 [E1 F1]]; [eapply Forall_impl; [|exact A]; intros r [H1 [H2 _]]; auto|]. rewrite E1. cbn [bind].
  destruct (flags_back "POS" pos_names eq_refl pos_nodup l l1 p ltac:(discriminate) P) as [l2 [E2 [F2 L2]]].
  { eapply Forall_impl; [|exact A]. intros r [H1 [_ H2]]. split; [exact H1|]. intros f I. apply H2. now apply kept_pos. }
  { clear - F1. induction F1 as [|r r' l l' [[_ [H _]] _] F IH]; constructor; auto. }
  rewrite E2. cbn [bind].
  assert (U2 : Forall2 (fun r r1 => r_uid r1 = r_uid r) l l2).
  { clear - F1 F2 L2. revert l2 F2 L2. induction F1 as [|r r' l l' [[_ [H _]] _] F IH]; intros l2 F2 L2; destruct l2 as [|r2 l2]; try discriminate; constructor.
    - cbn [combine] in F2. inversion F2 as [|? ? ? ? [_ [U _]] _]; subst. cbn [fst snd] in U. now rewrite U.
    - cbn [combine] in F2. inversion F2; subst. apply IH; auto. }
  destruct (flags_back "SST" sst_names eq_refl sst_nodup l l2 s ltac:(discriminate) S) as [l3 [E3 [F3 L3]]].
  { eapply Forall_impl; [|exact A]. intros r [H1 [_ H2]]. split; [exact H1|]. intros f I. apply H2. now apply kept_sst. }
  { exact U2. }
  exists l3. split; [exact E3|]. clear - F1 F2 F3 L2 L3. revert l2 l3 F2 F3 L2 L3. induction F1 as [|r r1 l l1 [[B1 [B2 [B3 [B4 [B5 [B6 [B7 B8]]]]]]] Q1] F IH]; intros l2 l3 F2 F3 L2 L3; destruct l2 as [|r2 l2], l3 as [|r3 l3]; try discriminate; constructor.
  2:{ cbn [combine] in F2, F3. inversion F2; inversion F3; subst. apply (IH l2 l3); auto. }
  cbn [combine] in F2, F3. inversion F2 as [|? ? ? ? [C1 [C2 [C3 [C4 [C5 [C6 [C7 C8]]]]]]] _]; subst. inversion F3 as [|? ? ? ? [D1 [D2 [D3 [D4 [D5 [D6 [D7 D8]]]]]]] _]; subst. cbn [fst snd] in *.
  assert (GV : forall x, getvar r3 x = getvar r1 x). { intro x. unfold getvar. rewrite D3, C3, D5, C5. reflexivity. }
  assert (DT : r_dt r3 = r_dt r1) by congruence.
  unfold read_back. split; [congruence|]. split; [congruence|]. split; [apply (stamp_data r1); auto|]. split; [intros x I; rewrite GV; auto|]. split; [intros x I; rewrite GV; auto|].
  split; [unfold getint in *; rewrite GV; auto|]. split; [intros x I N; rewrite GV; auto|]. split; [intros x I; unfold getext in *; rewrite D5, C5; apply B8; exact I|]. split.
  - intros t f I. destruct (kept_split t f I) as [[-> J]|[-> J]]; [|now apply D7].
    rewrite D8; [now apply C7|]. intros f' J' K. clear - J J' K. unfold same_key in K. cbn in J, J'. repeat (destruct J as [<-|J]; [repeat (destruct J' as [<-|J']; [discriminate|]); destruct J'|]). destruct J.
  - intros t f K. rewrite D8 by (intros f' J; apply K; now apply kept_sst). rewrite C8 by (intros f' J; apply K; now apply kept_pos). unfold get_qc. rewrite Q1. reflexivity.
Qed.
Lemma holds_eq : forall y m kind content, 0 <= m -> month_holds files out id runid (y, m) kind content -> files (month_file kind out id runid y m) = Some content.
Proof. intros y m kind content M [path [P E]]. now rewrite (path_unique _ _ _ _ _ _ _ M P) in E. Qed.
Lemma lacks_eq : forall y m kind, 0 <= m -> month_lacks files out id runid (y, m) kind -> files (month_file kind out id runid y m) = None.
Proof. intros y m kind M [path [P E]]. now rewrite (path_unique _ _ _ _ _ _ _ M P) in E. Qed.
Lemma month_back : forall y m l, 0 <= m -> month_left str_of files out id runid (y, m) l -> Forall (readable rnd) l -> exists l', read_month float_of files out id runid y m = Ok l' /\ Forall2 (read_back rnd) l l'.
Proof.
  intros y m l M [[-> N]|[v [p [s [V [P [S [FV [FP FS]]]]]]]]] A; unfold read_month.
  - rewrite !lacks_eq by (try exact M; apply N; cbn; tauto). exists []. split; [reflexivity|constructor].
  - rewrite (holds_eq _ _ _ _ M V), (holds_eq _ _ _ _ M P), (holds_eq _ _ _ _ M S).
    destruct FV as [rv [CV GV]], FP as [rp [CP GP]], FS as [rs [CS GS]]. rewrite (count_rows _ _ CV), (count_rows _ _ CP), (count_rows _ _ CS). cbn [length].
    rewrite <- (Forall2_length _ _ _ _ _ GV), <- (Forall2_length _ _ _ _ _ GP), <- (Forall2_length _ _ _ _ _ GS). rewrite !Z.eqb_refl. replace (Z.of_nat (Datatypes.S (length l)) =? 0) with false by lia. cbn [negb orb].
    apply contents_back; auto; eexists; split; eauto.
Qed.
Lemma months_back : forall months ls, Forall (fun ym => 0 <= snd ym) months -> Forall2 (month_left str_of files out id runid) months ls -> Forall (readable rnd) (concat ls) ->
  exists reps, read_months float_of files out id runid months = Ok reps /\ Forall2 (read_back rnd) (concat ls) reps.
Proof.
  intros months ls M F. induction F as [|[y m] l months ls H F IH]; intro A; [exists []; split; [reflexivity|constructor]|]. inversion M; subst. cbn [concat] in *. apply Forall_app in A. destruct A as [A1 A2].
  destruct (month_back y m l) as [l1 [E1 F1]]; auto. destruct IH as [l2 [E2 F2]]; auto. exists (l1 ++ l2). cbn [read_months]. rewrite E1. cbn [bind]. rewrite E2. split; [reflexivity|now apply Forall2_app].
Qed.
End Months.

Lemma strip_solid : forall s, chars (fun c => ~ white c) s -> strip s = s.
Proof.
  intros s H. unfold strip. assert (R : rstrip s = s).
  { destruct (snoc_cases s) as [->|[t [c ->]]]; [reflexivity|]. apply rstrip_by_keep. apply chars_app in H. destruct H as [_ [H _]]. destruct (is_space c) eqn:C; [apply is_space_white in C; contradiction|reflexivity]. }
  rewrite R. destruct s as [|c s]; [reflexivity|]. cbn [lstrip]. destruct H as [H _]. destruct (is_space c) eqn:C; [apply is_space_white in C; contradiction|reflexivity].
Qed.
Section Other.
Variable type : string.
Variable names : list string.
Hypothesis TY : mem type special_qc_types || mem type VARLIST = true.
Hypothesis ND : NoDup ("UID" :: names).
Lemma other_uid : forall r r1 row u u1, legible r -> r_uid r = Some u -> r_uid r1 = Some u1 -> strip u <> strip u1 -> flag_row type names r row ->
  exists vals, Forall2 field row vals /\ length vals = S (length names) /\ row_flags type (fst (row_dict ("UID" :: names) vals)) ("UID" :: names) r1 = Err OtherError.
Proof.
  intros r r1 row u u1 [[[u' [EU PU]] _] [UU _]] EU' EU1 N [u0 [cells [EU0 [C ->]]]]. rewrite EU in EU0, EU'. injection EU0 as <-. injection EU' as ->. exists (u :: cells).
  assert (LC : length cells = length names) by (symmetry; exact (Forall2_length _ _ _ _ _ C)). assert (LV : length (u :: cells) = length ("UID" :: names)) by (cbn; now rewrite LC).
  split; [|split; [cbn; now rewrite LC|]].
  { constructor; [apply plain_field; auto|]. clear - C. induction C as [|n s ns ss H C IH]; constructor; auto. split; [exact (int_text_lits _ _ H)|now left]. }
  set (line := fst (row_dict ("UID" :: names) (u :: cells))).
  assert (AU : assoc "UID" line = Some (Some u)) by (unfold line; rewrite (proj1 (row_dict_ok _ _ LV ND "UID")); reflexivity).
  cbn [row_flags]. unfold lookup_cell at 1. rewrite AU. cbn [bind]. replace (String.eqb "UID" "UID") with true by reflexivity. rewrite EU1. destruct (String.eqb_spec (strip u) (strip u1)); [contradiction|reflexivity].
Qed.
Lemma flags_other : forall l l1 text, names <> [] -> flag_file type names l text -> Forall (fun r => legible r /\ flags_ok type names r) l ->
  Forall2 (fun r r1 => exists u u1, r_uid r = Some u /\ r_uid r1 = Some u1 /\ (u = u1 \/ strip u <> strip u1)) l l1 -> (exists i r r1, nth_error l i = Some r /\ nth_error l1 i = Some r1 /\ r_uid r <> r_uid r1) ->
  read_flags type text l1 = Err OtherError.
Proof.
  intros l l1 text NE [rows [C F]] A U X. destruct (header_ok _ _ _ C) as [rest [C' [h [CUT CN]]]]. unfold read_flags. rewrite CUT, CN.
  assert (Y : exists vals, Forall2 (fun row val => Forall2 field row val /\ (2 <= length row)%nat) rows vals /\ Forall (fun val : list string => val <> []) vals /\
    ((exists i r r1, nth_error l i = Some r /\ nth_error l1 i = Some r1 /\ r_uid r <> r_uid r1) -> add_flags type ("UID" :: names) (map (row_dict ("UID" :: names)) vals) l1 = Err OtherError)).
  { clear C C' CUT CN X. revert l1 U. induction F as [|r row l rows H F IH]; intros l1 U; inversion U as [|? r1 ? l1' U1 U2]; subst.
    - exists []. split; [constructor|]. split; [constructor|]. intros [i [r [r1 [N _]]]]. destruct i; discriminate.
    - inversion A as [|? ? [A1 A2] A']; subst. destruct (IH A' l1' U2) as [vals [V1 [V2 V3]]]. destruct U1 as [u [u1 [E1 [E2 D]]]].
      assert (LL : forall val, Forall2 field row val -> length val = S (length names) -> (2 <= length row)%nat) by (intros val W1 W2; rewrite (Forall2_length _ _ _ _ _ W1), W2; destruct names; [congruence|cbn; lia]).
      destruct (string_dec u u1) as [<-|N].
      + destruct (flag_line type names TY ND r r1 row A1 A2 ltac:(congruence) H) as [val [W1 [W2 [W3 [r2 [W4 W5]]]]]]. exists (val :: vals).
        split; [constructor; [split; [exact W1|eauto]|exact V1]|split; [constructor; [intros ->; discriminate|exact V2]|]].
        intros [i [x [x1 [N1 [N2 N3]]]]]. destruct i as [|i]; [cbn in N1, N2; injection N1 as <-; injection N2 as <-; congruence|].
        cbn [map add_flags]. destruct (row_dict ("UID" :: names) val) as [line longer] eqn:RD. cbn [fst snd] in *. subst longer. rewrite W4. cbn [bind]. rewrite V3 by (exists i, x, x1; auto). reflexivity.
      + destruct D as [D|D]; [contradiction|]. destruct (other_uid r r1 row u u1 A1 E1 E2 D H) as [val [W1 [W2 W3]]]. exists (val :: vals).
        split; [constructor; [split; [exact W1|eauto]|exact V1]|split; [constructor; [intros ->; discriminate|exact V2]|]].
        intros _. cbn [map add_flags]. destruct (row_dict ("UID" :: names) val) as [line longer] eqn:RD. cbn [fst snd] in *. rewrite W3. reflexivity. }
  destruct Y as [vals [V1 [V2 V3]]]. rewrite (csv_read_rows _ _ _ C' V1). cbn [bind]. rewrite dict_rows_ok by exact V2. now apply V3.
Qed.
End Other.
