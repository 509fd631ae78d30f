(** Lemmas for the fixed-width lines. *)
Require Import String Ascii ZArith QArith Qabs Qround List Bool Lia Lqa Psatz.
Require Import Verif.M_Base Verif.M_Report Verif.M_Imma Verif.M_Fixed Verif.S_Report Verif.S_Imma Verif.S_Files Verif.S_Print Verif.S_Fixed.
Require Import Verif.L_Base Verif.L_Imma Verif.L_Print Verif.L_Reading.
Import ListNotations.
Open Scope string_scope.
Open Scope Z_scope.

(* ---- rounding ---- *)

Lemma floor_bounds : forall q, (inject_Z (Qfloor q) <= q)%Q /\ (q < inject_Z (Qfloor q) + 1)%Q.
Proof. intro q. split; [apply Qfloor_le|]. pose proof (Qlt_floor q) as H. rewrite inject_Z_plus in H. exact H. Qed.
Lemma py_round_nearest : forall q, nearest q (py_round q).
Proof.
  intro q. unfold py_round. destruct (Qltb q 0) eqn:E.
  - assert (N : (q < 0)%Q) by (now apply Qltb_true). destruct (floor_bounds (- q + (1 # 2))) as [A B]. set (f := Qfloor (- q + (1 # 2))) in *. rewrite <- (Z.opp_involutive f) in A, B. set (z := - f) in *. rewrite inject_Z_opp in A, B.
    assert (F : (inject_Z z < 0 \/ inject_Z z == 0)%Q). { assert (0 <= f) by (apply (Qfloor_resp_le 0 (- q + (1 # 2))); lra). assert (z <= 0) by lia. apply Z.le_lteq in H0. destruct H0; [left; change 0%Q with (inject_Z 0); now rewrite <- Zlt_Qlt|right; now rewrite H0]. }
    split; [apply Qabs_Qle_condition; lra|]. intro T. rewrite !Qabs_neg by lra. destruct (Qlt_le_dec (q - inject_Z z) 0) as [H|H]; [rewrite Qabs_neg in T by lra|rewrite Qabs_pos in T by lra]; lra.
  - assert (N : (0 <= q)%Q) by (destruct (Qlt_le_dec q 0) as [H|H]; [apply Qltb_true in H; congruence|exact H]). destruct (floor_bounds (q + (1 # 2))) as [A B]. set (z := Qfloor (q + (1 # 2))) in *.
    assert (F : (0 <= inject_Z z)%Q). { assert (0 <= z) by (apply (Qfloor_resp_le 0 (q + (1 # 2))); lra). change 0%Q with (inject_Z 0). now rewrite <- Zle_Qle. }
    split; [apply Qabs_Qle_condition; lra|]. intro T. rewrite !Qabs_pos by lra. destruct (Qlt_le_dec (q - inject_Z z) 0) as [H|H]; [rewrite Qabs_neg in T by lra|rewrite Qabs_pos in T by lra]; lra.
Qed.
Lemma pvar_units : forall v k, in_units v k (pvar v (-32768) k).
Proof. intros [v|] k; [right; exists v; split; [reflexivity|apply py_round_nearest]|now left]. Qed.

(* ---- cells ---- *)

Lemma chars_blanks : forall n, chars (fun c => c = " "%char) (blanks n).
Proof. induction n as [|n IH]; cbn; [exact I|now split]. Qed.
Lemma fits_length : forall z, fits z -> (String.length (str_of_int z) <= 8)%nat.
Proof.
  intros z F. pose proof (str_of_int_int_text z) as T. unfold fits in F.
  assert (P : forall n s, padded 1 n s -> forall k, n < 10 ^ Z.of_nat k -> (1 <= k)%nat -> (String.length s <= k)%nat).
  { intros n s [_ [L1 L2]] k N K. destruct (Nat.le_gt_cases (String.length s) k) as [H|H]; [exact H|exfalso]. specialize (L2 ltac:(lia)). assert (10 ^ Z.of_nat k <= 10 ^ Z.of_nat (String.length s - 1)) by (apply Z.pow_le_mono_r; lia). lia. }
  destruct T as [[H T]|[H [s' [E T]]]].
  - apply (P _ _ T 8%nat); [cbn; lia|lia].
  - rewrite E. cbn [append String.length]. apply le_n_S. apply (P _ _ T 7%nat); [cbn; lia|lia].
Qed.
Lemma d8_right : forall z, right_aligned z (d8 z).
Proof. intro z. exists (blanks (8 - String.length (str_of_int z))), (str_of_int z). split; [reflexivity|]. split; [apply chars_blanks|apply str_of_int_int_text]. Qed.
Lemma d8_length : forall z, fits z -> String.length (d8 z) = 8%nat.
Proof. intros z F. apply pad_left_length, fits_length, F. Qed.
Lemma str_length_app : forall a b, String.length (a ++ b) = (String.length a + String.length b)%nat.
Proof. induction a as [|c a IH]; intro b; cbn; [reflexivity|now rewrite IH]. Qed.
Lemma blanks_len : forall n, String.length (blanks n) = n.
Proof. induction n as [|n IH]; cbn; [reflexivity|now rewrite IH]. Qed.
Lemma take_prefix : forall n s, (String.length (substring 0 n s) = Nat.min n (String.length s)) /\ exists t, s = (substring 0 n s ++ t)%string /\ ((String.length s <= n)%nat -> t = "").
Proof.
  induction n as [|n IH]; intro s.
  - destruct s as [|c s]; cbn; (split; [reflexivity|]); eexists; (split; [reflexivity|]); [reflexivity|lia].
  - destruct s as [|c s]; cbn.
    + split; [reflexivity|]. exists "". now split.
    + destruct (IH s) as [L [t [E N]]]. split; [now rewrite L|]. exists t. split; [now rewrite <- E|]. intro H. apply N. lia.
Qed.
Lemma s_of_left : forall n s, left_aligned n (match s with Some s => s | None => "None" end) (s_of n s).
Proof.
  intros n s. unfold s_of. set (x := match s with Some s => s | None => "None" end). destruct (take_prefix n x) as [L [t [E N]]]. unfold left_aligned, pad_right. rewrite str_length_app, blanks_len, L. split; [lia|].
  destruct (Nat.le_gt_cases n (String.length x)) as [H|H].
  - left. exists t. replace (n - Nat.min n (String.length x))%nat with 0%nat by lia. cbn [blanks]. rewrite app_str_nil. exact E.
  - right. exists (blanks (n - Nat.min n (String.length x))). rewrite (N ltac:(lia)), app_str_nil in E. rewrite <- E. split; [reflexivity|apply chars_blanks].
Qed.
Lemma shipid_left : forall r, left_aligned 9 (match r_id r with Some i => i | None => "" end) (s_of 9 (Some (shipid r))).
Proof.
  intro r. unfold shipid. destruct (r_id r) as [i|]; [exact (s_of_left 9 (Some i))|]. split; [reflexivity|]. right. exists "         ". split; [reflexivity|cbn; repeat split].
Qed.
Lemma flag_cell : forall z, 0 <= z <= 9 -> padded 1 z (str_of_int z) /\ String.length (str_of_int z) = 1%nat.
Proof.
  intros z H. pose proof (str_of_int_int_text z) as [[_ T]|[N _]]; [|lia]. split; [exact T|].
  assert (C : z = 0 \/ z = 1 \/ z = 2 \/ z = 3 \/ z = 4 \/ z = 5 \/ z = 6 \/ z = 7 \/ z = 8 \/ z = 9) by lia.
  repeat (destruct C as [->|C]; [reflexivity|]). now subst.
Qed.

(* ---- columns ---- *)

Fixpoint glue (l : list string) : string := match l with [] => "" | s :: l' => (s ++ glue l')%string end.
Fixpoint cols (start : nat) (fs : list (nat * item)) : list (nat * nat * item) :=
  match fs with [] => [] | (n, f) :: fs' => (start, n, f) :: cols (start + n) fs' end.
Lemma substring_at : forall a p b, substring (String.length a) (String.length p) (a ++ p ++ b) = p.
Proof.
  induction a as [|c a IH]; intros p b.
  - cbn [append String.length]. induction p as [|c p IHp]; cbn; [destruct b; reflexivity|now rewrite IHp].
  - cbn. apply IH.
Qed.
Definition cell_ok (r : report) (p : string) (nf : nat * item) : Prop := String.length p = fst nf /\ shows r (snd nf) p.
Lemma cols_ok : forall r parts fs, Forall2 (cell_ok r) parts fs -> forall a, Forall (fun '(start, n, f) => shows r f (substring start n (a ++ glue parts))) (cols (String.length a) fs).
Proof.
  intros r parts fs H. induction H as [|p [n f] parts fs [L S] H IH]; intro a; [constructor|]. cbn [fst snd] in *. subst n. cbn [cols glue]. constructor.
  - now rewrite substring_at.
  - specialize (IH (a ++ p)%string). rewrite str_length_app, app_str_assoc in IH. exact IH.
Qed.
Lemma glue_length : forall r parts fs, Forall2 (cell_ok r) parts fs -> String.length (glue parts) = fold_right (fun nf n => (fst nf + n)%nat) 0%nat fs.
Proof. intros r parts fs H. induction H as [|p nf parts fs [L S] H IH]; [reflexivity|]. cbn [glue fold_right]. rewrite str_length_app. lia. Qed.
Lemma glue_app : forall a b, glue (a ++ b)%list = (glue a ++ glue b)%string.
Proof. induction a as [|x a IH]; intro b; cbn [glue app]; [reflexivity|]. now rewrite IH, app_str_assoc. Qed.
Lemma flags_glue : forall l, flags_text l = glue (map str_of_int l).
Proof.
  intro l. unfold flags_text. induction l as [|z l IH]; [reflexivity|]. cbn [map glue]. rewrite <- IH. destruct l as [|y l]; cbn [map String.concat]; [now rewrite app_str_nil|reflexivity].
Qed.
Lemma glue_flags : forall l s, (flags_text l ++ s)%string = (glue (map str_of_int l) ++ s)%string.
Proof. intros. now rewrite flags_glue. Qed.

Definition short_fields : list (nat * item) := Eval vm_compute in map (fun '(a, n, f) => (n, f)) report_columns.
Definition long_fields : list (nat * item) := Eval vm_compute in map (fun '(a, n, f) => (n, f)) longform_columns.
Lemma short_cols : cols 0 short_fields = report_columns.
Proof. reflexivity. Qed.
Lemma long_cols : cols 0 long_fields = longform_columns.
Proof. reflexivity. Qed.


Lemma getint_whole : forall r v z, well_typed r -> In v integer_variables -> getint r v = Some z -> getvar r v = Some (inject_Z z).
Proof.
  intros r v z W I E. unfold getint in E. specialize (W v I). destruct (getvar r v) as [q|]; [|discriminate]. destruct W as [z' ->]. injection E as <-. now rewrite L_Grid.py_int_inject.
Qed.

Ltac nested := rewrite ?glue_flags; cbn [map app glue]; rewrite ?app_str_assoc.
Lemma cell_text : forall r n s, String.length s = n -> cell_ok r s (n, Always s).
Proof. intros. split; [assumption|reflexivity]. Qed.
Lemma cell_num : forall r f z, (match f with Latitude | Longitude | Ship | Whole _ | Units _ _ | Anomaly _ _ => True | _ => False end) -> number_of r f z -> fits z -> cell_ok r (d8 z) (8%nat, f).
Proof. intros r f z K N F. split; [now apply d8_length|]. destruct f; try contradiction; exists z; (split; [exact N|apply d8_right]). Qed.
Lemma cell_flag : forall r t n, digit_flags r -> cell_ok r (str_of_int (get_qc r t n)) (1%nat, Flag t n).
Proof. intros r t n D. destruct (flag_cell _ (D t n)) as [P L]. now split. Qed.
Lemma ship_number : forall r, well_typed r -> number_of r Ship (dsvs r).
Proof.
  intros r W. unfold dsvs. cbn [number_of]. destruct (getint r "DS") as [d|] eqn:D, (getint r "VS") as [v|] eqn:V.
  - left. exists d, v. split; [apply getint_whole; auto; cbn; tauto|]. split; [apply getint_whole; auto; cbn; tauto|lia].
  - right. split; [right|reflexivity]. unfold getint in V. now destruct (getvar r "VS").
  - right. split; [left|reflexivity]. unfold getint in D. now destruct (getvar r "DS").
  - right. split; [left|reflexivity]. unfold getint in D. now destruct (getvar r "DS").
Qed.
Lemma lon_number : forall r z, hundredths (lon r) = Ok z -> number_of r Longitude z.
Proof.
  intros r z H. unfold hundredths, lon in H. cbn [number_of]. destruct (getvar r "LON") as [q|]; [|discriminate]. exists q. split; [reflexivity|]. injection H as <-.
  destruct (Qlt_le_dec 180 q) as [L|L].
  - replace (Qltb 180 q) with true by (symmetry; now apply Qltb_true). apply py_round_nearest.
  - replace (Qltb 180 q) with false by (symmetry; now apply Qltb_false). apply py_round_nearest.
Qed.
Lemma lat_number : forall r z, hundredths (getvar r "LAT") = Ok z -> number_of r Latitude z.
Proof.
  intros r z H. unfold hundredths in H. cbn [number_of]. destruct (getvar r "LAT") as [q|]; [|discriminate]. exists q. split; [reflexivity|]. injection H as <-. apply py_round_nearest.
Qed.
Lemma whole_number : forall r v s, well_typed r -> In v integer_variables -> d8_of (getint r v) = Ok s -> exists z, s = d8 z /\ number_of r (Whole v) z.
Proof. intros r v s W I H. destruct (getint r v) as [z|] eqn:E; [|discriminate]. injection H as <-. exists z. split; [reflexivity|]. now apply getint_whole. Qed.
Lemma units_number : forall r v k, number_of r (Units v k) (pvar (getvar r v) (-32768) k).
Proof. intros. apply pvar_units. Qed.
Lemma anomaly_number : forall r v k, number_of r (Anomaly v k) (pvar (getanom r v) (-32768) k).
Proof. intros. apply pvar_units. Qed.

Lemma parts_shown : forall r parts fs, Forall2 (cell_ok r) parts fs -> line_shows r (cols 0 fs) (fold_right (fun nf n => (fst nf + n)%nat) 0%nat fs) (glue parts).
Proof. intros r parts fs H. split; [exact (glue_length r parts fs H)|exact (cols_ok r parts fs H "")]. Qed.

Lemma in_cols : forall (f : item) columns, (exists s n, In (s, n, f) columns) -> forall r, all_fit r columns -> forall z, number_of r f z -> fits z.
Proof. intros f columns [s [n I]] r A z N. exact (A s n f z I N). Qed.
Ltac found := eexists; eexists; repeat ((left; reflexivity) || right).
Ltac number N F := apply cell_num; [exact I|exact N|eapply in_cols; [|exact F|exact N]; found].
Ltac cells W D F LA LO YN MN DN := repeat match goal with |- Forall2 _ (_ :: _) (_ :: _) => constructor | |- Forall2 _ [] [] => constructor end;
  match goal with
  | |- cell_ok _ _ (_, Always _) => apply cell_text; reflexivity
  | |- cell_ok _ _ (_, Flag _ _) => apply cell_flag, D
  | |- cell_ok ?r _ (_, Identifier) => split; [exact (proj1 (shipid_left r))|exact (shipid_left r)]
  | |- cell_ok ?r _ (_, Unique) => split; [exact (proj1 (s_of_left 8 (r_uid r)))|exact (s_of_left 8 (r_uid r))]
  | |- cell_ok _ _ (_, Latitude) => number LA F
  | |- cell_ok _ _ (_, Longitude) => number LO F
  | |- cell_ok _ _ (_, Whole "YR") => number YN F
  | |- cell_ok _ _ (_, Whole "MO") => number MN F
  | |- cell_ok _ _ (_, Whole "DCK") => number DN F
  | |- cell_ok ?r _ (_, Ship) => let N := fresh in pose proof (ship_number r W) as N; number N F
  | |- cell_ok ?r _ (_, Units ?v ?k) => let N := fresh in pose proof (units_number r v k) as N; number N F
  | |- cell_ok ?r _ (_, Anomaly ?v ?k) => let N := fresh in pose proof (anomaly_number r v k) as N; number N F
  end.

Lemma short_ok : forall r line, well_typed r -> digit_flags r -> all_fit r report_columns -> print_report r = Ok line -> line_shows r report_columns 168 line.
Proof.
  intros r line W D F H. unfold print_report in H.
  destruct (hundredths (lon r)) as [lo|] eqn:LO; [cbn [bind] in H|discriminate]. destruct (hundredths (getvar r "LAT")) as [la|] eqn:LA; [cbn [bind] in H|discriminate].
  destruct (d8_of (getint r "YR")) as [yr|] eqn:YR; [cbn [bind] in H|discriminate]. destruct (d8_of (getint r "MO")) as [mo|] eqn:MO; [cbn [bind] in H|discriminate]. destruct (d8_of (getint r "DCK")) as [dck|] eqn:DC; [cbn [bind] in H|discriminate].
  apply lon_number in LO. apply lat_number in LA.
  destruct (whole_number r "YR" yr W ltac:(cbn; tauto) YR) as [yz [-> YN]]. destruct (whole_number r "MO" mo W ltac:(cbn; tauto) MO) as [mz [-> MN]]. destruct (whole_number r "DCK" dck W ltac:(cbn; tauto) DC) as [dz [-> DN]].
  set (q := get_qc r). 
  assert (X : line = glue ([s_of 9 (Some (shipid r)); " "; s_of 8 (r_uid r); d8 la; d8 lo; d8 yz; d8 mz; d8 (pvar (getvar r "DY") (-32768) 1); d8 (pvar (getvar r "HR") (-32768) 100);
     ten r "AT"; anom100 r "AT"; ten r "SST"; anom100 r "SST"; d8 (dsvs r); d8 dz; d8 (printvar r "PT"); " "]
     ++ map str_of_int (map (q "POS") ["day"; "land"; "trk"; "date"; "time"; "pos"; "blklst"; "dup"]) ++ [" "]
     ++ map str_of_int (map (q "SST") ["bud"; "clim"; "nonorm"; "freez"; "noval"; "nbud"; "bbud"; "rep"]) ++ [" "]
     ++ map str_of_int (map (q "AT") ["bud"; "clim"; "nonorm"]) ++ ["9"] ++ map str_of_int (map (q "AT") ["noval"; "nbud"; "bbud"; "rep"])
     ++ [" 99999999 "] ++ map str_of_int (map (q "POS") ["few"; "ntrk"]) ++ [("999999" ++ newline_text)%string])%list).
  { apply (f_equal (fun x => match x with Ok y => y | Err _ => line end)) in H. rewrite <- H. unfold q. nested. reflexivity. }
  rewrite X. rewrite <- short_cols. refine (parts_shown r _ short_fields _). cbn [map app]. unfold short_fields.
  cells W D F LA LO YN MN DN.
Qed.
Lemma long_ok : forall r line, well_typed r -> digit_flags r -> all_fit r longform_columns -> print_longform_report r = Ok line -> line_shows r longform_columns 273 line.
Proof.
  intros r line W D F H. unfold print_longform_report in H.
  destruct (hundredths (lon r)) as [lo|] eqn:LO; [cbn [bind] in H|discriminate]. destruct (hundredths (lat r)) as [la|] eqn:LA; [cbn [bind] in H|discriminate].
  destruct (d8_of (getint r "YR")) as [yr|] eqn:YR; [cbn [bind] in H|discriminate]. destruct (d8_of (getint r "MO")) as [mo|] eqn:MO; [cbn [bind] in H|discriminate]. destruct (d8_of (getint r "DCK")) as [dck|] eqn:DC; [cbn [bind] in H|discriminate].
  apply lon_number in LO. apply lat_number in LA.
  destruct (whole_number r "YR" yr W ltac:(cbn; tauto) YR) as [yz [-> YN]]. destruct (whole_number r "MO" mo W ltac:(cbn; tauto) MO) as [mz [-> MN]]. destruct (whole_number r "DCK" dck W ltac:(cbn; tauto) DC) as [dz [-> DN]].
  set (q := get_qc r). 
  assert (X : line = glue ([s_of 9 (Some (shipid r)); " "; s_of 8 (r_uid r); d8 la; d8 lo; d8 yz; d8 mz; d8 (pvar (getvar r "DY") (-32768) 1); d8 (pvar (getvar r "HR") (-32768) 100);
     ten r "AT"; anom100 r "AT"; ten r "SST"; anom100 r "SST"; ten r "SLP"; ten r "DPT"; anom100 r "DPT"; ten r "SHU"; anom100 r "SHU"; ten r "VAP"; anom100 r "VAP";
     ten r "CRH"; anom100 r "CRH"; ten r "CWB"; anom100 r "CWB"; ten r "DPD"; anom100 r "DPD"; d8 (dsvs r); d8 dz; d8 (printvar r "PT"); " "]
     ++ map str_of_int (map (q "POS") ["day"; "land"; "trk"; "date"; "time"; "pos"; "blklst"; "iquam_track"]) ++ [" "]
     ++ map str_of_int (map (q "SST") ["bud"; "clim"; "nonorm"; "freez"; "noval"; "spike"; "bbud"; "rep"]) ++ [" "]
     ++ map str_of_int (map (q "AT") ["bud"; "clim"; "nonorm"]) ++ ["9"] ++ map str_of_int (map (q "AT") ["noval"; "nbud"; "bbud"; "rep"])
     ++ [" "] ++ map str_of_int (map (q "DPT") ["bud"; "clim"; "nonorm"; "ssat"; "noval"; "round"; "bbud"; "rep"; "repsat"]) ++ [" "] ++ map str_of_int (map (q "POS") ["few"; "ntrk"]) ++ [("999999" ++ newline_text)%string])%list).
  { apply (f_equal (fun x => match x with Ok y => y | Err _ => line end)) in H. rewrite <- H. unfold q. nested. reflexivity. }
  rewrite X. rewrite <- long_cols. refine (parts_shown r _ long_fields _). cbn [map app]. unfold long_fields.
  cells W D F LA LO YN MN DN.
Qed.

Lemma aligned_integer : forall z s, right_aligned z s -> integer_text s z.
Proof.
  intros z s [b [t [-> [B T]]]]. assert (W : chars white b). { clear T. induction b as [|c b IH]; [exact I|]. destruct B as [-> B]. split; [left; reflexivity|now apply IH]. }
  destruct T as [[H [P _]]|[H [t' [-> [P _]]]]].
  - exists b, "", t, "", z. split; [cbn [append]; now rewrite app_str_nil|]. split; [exact W|]. split; [exact I|]. split; [exact P|]. left. split; [now left|reflexivity].
  - exists b, "-", t', "", (- z). split; [now rewrite app_str_nil|]. split; [exact W|]. split; [exact I|]. split; [exact P|]. right. split; [reflexivity|lia].
Qed.
Lemma aligned_same : forall z z' s, right_aligned z s -> right_aligned z' s -> z = z'.
Proof. intros z z' s H H'. apply aligned_integer, int_of_str_complete in H. apply aligned_integer, int_of_str_complete in H'. congruence. Qed.
Lemma padded_integer : forall z s, padded 1 z s -> integer_text s z.
Proof. intros z s [P _]. exists "", "", s, "", z. split; [cbn [append]; now rewrite app_str_nil|]. split; [exact I|]. split; [exact I|]. split; [exact P|]. left. split; [now left|reflexivity]. Qed.
Lemma padded_same : forall z z' s, padded 1 z s -> padded 1 z' s -> z = z'.
Proof. intros z z' s H H'. apply padded_integer, int_of_str_complete in H. apply padded_integer, int_of_str_complete in H'. congruence. Qed.
Lemma shows_same : forall r r' f s, shows r f s -> shows r' f s -> agree r r' f.
Proof.
  intros r r' f s H H'. destruct f; cbn [shows agree] in *; try exact I; try (destruct H as [z [N A]], H' as [z' [N' A']]; rewrite (aligned_same z' z s A' A) in N'; now exists z). exact (padded_same _ _ s H H').
Qed.
Lemma lines_agree : forall r r' columns n n' line, line_shows r columns n line -> line_shows r' columns n' line -> forall s w f, In (s, w, f) columns -> agree r r' f.
Proof.
  intros r r' columns n n' line [_ F] [_ F'] s w f I. rewrite Forall_forall in F, F'. specialize (F _ I). specialize (F' _ I). cbn beta iota in F, F'. exact (shows_same r r' f _ F F').
Qed.
Lemma prints_iff : forall r, (exists line, print_report r = Ok line) <-> (forall v, In v ["LAT"; "LON"; "YR"; "MO"; "DCK"] -> getvar r v <> None).
Proof.
  intro r. unfold print_report, lon, getint. split.
  - intros [line H] v I. destruct (getvar r "LON") eqn:A; [|discriminate]. destruct (getvar r "LAT") eqn:B; [|discriminate]. destruct (getvar r "YR") eqn:C; [|discriminate]. destruct (getvar r "MO") eqn:D; [|discriminate]. destruct (getvar r "DCK") eqn:E; [|discriminate].
    cbn in I. repeat (destruct I as [<-|I]; [congruence|]). destruct I.
  - intro H. pose proof (H "LAT" ltac:(cbn; tauto)). pose proof (H "LON" ltac:(cbn; tauto)). pose proof (H "YR" ltac:(cbn; tauto)). pose proof (H "MO" ltac:(cbn; tauto)). pose proof (H "DCK" ltac:(cbn; tauto)).
    destruct (getvar r "LON"), (getvar r "LAT"), (getvar r "YR"), (getvar r "MO"), (getvar r "DCK"); try congruence. eexists. reflexivity.
Qed.
Lemma long_iff : forall r, (exists line, print_longform_report r = Ok line) <-> (forall v, In v ["LAT"; "LON"; "YR"; "MO"; "DCK"] -> getvar r v <> None).
Proof.
  intro r. rewrite <- prints_iff. unfold print_longform_report, print_report, lat. destruct (hundredths (lon r)); [|split; intros [? ?]; discriminate]. destruct (hundredths (getvar r "LAT")); [|split; intros [? ?]; discriminate].
  destruct (d8_of (getint r "YR")); [|split; intros [? ?]; discriminate]. destruct (d8_of (getint r "MO")); [|split; intros [? ?]; discriminate]. destruct (d8_of (getint r "DCK")); [|split; intros [? ?]; discriminate]. split; intros _; eexists; reflexivity.
Qed.
Lemma nearest_fits : forall q z, nearest q z -> (Qabs q <= inject_Z 9999990)%Q -> fits z.
Proof.
  intros q z [N _] B. apply Qabs_Qle_condition in N, B. unfold fits. split.
  - assert (inject_Z (-9999991) <= inject_Z z)%Q by (change (inject_Z (-9999991)) with (-9999991 # 1)%Q in *; change (inject_Z 9999990) with (9999990 # 1)%Q in *; lra). rewrite <- Zle_Qle in H. lia.
  - assert (inject_Z z <= inject_Z 9999991)%Q by (change (inject_Z 9999991) with (9999991 # 1)%Q in *; change (inject_Z 9999990) with (9999990 # 1)%Q in *; lra). rewrite <- Zle_Qle in H. lia.
Qed.
Lemma moderate_fit : forall r (columns : list (nat * nat * item)), moderate r -> (forall s n v k, In (s, n, Units v k) columns \/ In (s, n, Anomaly v k) columns -> (0 <= k <= 100)%Q) -> all_fit r columns.
Proof.
  intros r columns [B A] K s n f z I N.
  assert (M : forall q k, (Qabs q <= 90360)%Q -> (0 <= k <= 100)%Q -> (Qabs (q * k) <= inject_Z 9999990)%Q).
  { intros q k Q [K0 K1]. rewrite Qabs_Qmult, (Qabs_pos k K0). change (inject_Z 9999990) with (9999990 # 1)%Q. pose proof (Qabs_nonneg q). nra. }
  assert (W : forall v x, getvar r v = Some (inject_Z x) -> -90000 <= x <= 90000).
  { intros v x E. specialize (B v _ E). apply Qabs_Qle_condition in B. destruct B as [B1 B2]. change (- (90000))%Q with (inject_Z (-90000)) in B1. change 90000%Q with (inject_Z 90000) in B2. rewrite <- Zle_Qle in B1, B2. lia. }
  assert (U : forall v k, (0 <= k <= 100)%Q -> in_units v k z -> (forall q, v = Some q -> (Qabs q <= 90000)%Q) -> fits z).
  { intros v k KK [[_ ->]|[q [E H]]] V; [unfold fits; lia|]. apply (nearest_fits _ _ H). apply M; [|exact KK]. specialize (V q E). lra. }
  destruct f; cbn [number_of] in N; try contradiction.
  - destruct N as [q [E H]]. apply (nearest_fits _ _ H), M; [|split; lra]. specialize (B _ _ E). lra.
  - destruct N as [q [E H]]. apply (nearest_fits _ _ H), M; [|split; lra]. specialize (B _ _ E). apply Qabs_Qle_condition in B. destruct (Qlt_le_dec 180 q); apply Qabs_Qle_condition; lra.
  - destruct N as [[d [v [E1 [E2 ->]]]]|[_ ->]]; [|unfold fits; lia]. apply W in E1, E2. unfold fits. lia.
  - apply W in N. unfold fits. lia.
  - apply (U (getvar r var) k); [apply (K s n var); now left|exact N|intros q E; exact (B _ _ E)].
  - apply (U (getanom r var) k); [apply (K s n var); now right|exact N|intros q E; exact (A _ _ E)].
Qed.
Lemma units_100 : forall columns : list (nat * nat * item), Forall (fun '(s, n, f) => match f with Units _ k | Anomaly _ k => (0 <= k <= 100)%Q | _ => True end) columns ->
  forall s n v k, In (s, n, Units v k) columns \/ In (s, n, Anomaly v k) columns -> (0 <= k <= 100)%Q.
Proof. intros columns F s n v k H. rewrite Forall_forall in F. destruct H as [H|H]; exact (F _ H). Qed.
