(** C63 a run of the main program comes to an end. *)
Require Import String Ascii ZArith QArith Qround Qreals Reals List Bool Lia Lqa Sorted.
Require Import Verif.M_Base Verif.L_Base Verif.M_Calendar Verif.S_Calendar Verif.L_Calendar Verif.P_Calendar Verif.M_Report Verif.S_Report Verif.L_Report Verif.M_Imma Verif.M_ImmaTables Verif.S_Imma Verif.L_Imma Verif.L_Imma2 Verif.P_Imma Verif.M_Grid
  Verif.S_Clim Verif.M_Voyage Verif.S_Voyage Verif.L_Voyage Verif.L_Voyage2 Verif.P_Voyage Verif.M_Track Verif.S_Track Verif.M_Buddy Verif.S_Buddy Verif.P_Buddy Verif.M_BaseQC Verif.S_BaseQC Verif.S_Sun Verif.P_BaseQC Verif.M_Hum Verif.S_Hum Verif.L_Hum Verif.L_Hum3 Verif.M_Bayes Verif.S_Bayes Verif.L_Bayes Verif.P_Bayes
  Verif.L_Buddy3 Verif.L_Files Verif.L_Voyage4 Verif.M_Print Verif.S_Print Verif.P_Print Verif.M_Main Verif.S_Main Verif.S_Main2 Verif.L_Main Verif.L_Main2 Verif.L_Main3 Verif.P_Main Verif.P_Main2 Verif.S_Total Verif.L_Total Verif.L_Total2 Verif.L_Total3 Verif.L_Total4 Verif.L_Total5.
Import ListNotations.
Open Scope string_scope.
Open Scope list_scope.
Open Scope Z_scope.

(* ------------------------------------------------------------------ C63 *)

(** If the surroundings of the program are complete and the files of the window are in order, the checks of a month come to an end
    without an exception, *)
Theorem C63_checked : forall E year month, equipped E -> in_order E year month -> exists d, checked_deck E year month = Ok d.
Proof. intros E year month EQ IO. now apply deck_total. Qed.
Print Assumptions C63_checked.
(** and the files of the month are written. *)
Theorem C63_month : forall E year month, equipped E -> in_order E year month -> exists files, run_month E year month = Ok files.
Proof. intros E year month EQ IO. now apply month_total. Qed.
Print Assumptions C63_month.
(** A run over months that are all in order comes to an end. *)
Theorem C63_run : forall E y1 m1 y2 m2, equipped E -> 1 <= m1 <= 12 -> 1 <= m2 <= 12 -> month_number (y1, m1) <= month_number (y2, m2) ->
  (forall y m, 1 <= m <= 12 -> month_number (y1, m1) <= month_number (y, m) <= month_number (y2, m2) -> in_order E y m) ->
  exists n files, forall fuel, (n <= fuel)%nat -> run E fuel y1 m1 y2 m2 = Ok (Some files).
Proof.
  intros E y1 m1 y2 m2 EQ A B C H. set (n := Z.to_nat (12 * (y2 - y1) + m2 - m1)).
  destruct (C05_year_month_gen y1 m1 y2 m2 n A B C (le_n _)) as [l [G [_ [I S1]]]].
  destruct (months_total E EQ l) as [files F].
  { intros y m J. apply I in J. destruct J as [J1 J2]. now apply H. }
  exists n, files. intros fuel L. destruct (C05_year_month_gen y1 m1 y2 m2 fuel A B C L) as [l' [G' [_ [I' S2]]]].
  assert (l' = l).
  { clear -I I' S1 S2. assert (J : forall x, In x l' <-> In x l) by (intro x; rewrite I, I'; tauto). clear I I'. revert l' S2 J. induction S1 as [|a l S1 IH F]; intros l' S2 J.
    - destruct l' as [|b l']; [reflexivity|]. destruct (proj1 (J b) (or_introl eq_refl)).
    - destruct S2 as [|b l' S2 F2]; [destruct (proj2 (J a) (or_introl eq_refl))|]. rewrite Forall_forall in F, F2.
      assert (b = a). { destruct (proj1 (J b) (or_introl eq_refl)) as [K|K]; [auto|]. destruct (proj2 (J a) (or_introl eq_refl)) as [K'|K']; [auto|]. pose proof (F _ K). pose proof (F2 _ K'). lia. }
      subst b. f_equal. apply IH; [exact S2|]. intro x. split; intro K.
      + destruct (proj1 (J x) (or_intror K)) as [->|K']; [pose proof (F2 _ K); lia|exact K'].
      + destruct (proj2 (J x) (or_intror K)) as [->|K']; [pose proof (F _ K); lia|exact K']. }
  subst l'. unfold run. rewrite G'. cbn [bind]. rewrite F. reflexivity.
Qed.
Print Assumptions C63_run.

(** The routines of the code are as the surroundings should be: the humidity variables, *)
Theorem C63_humidity : humidity_only (fun r => calculate_humidity_variables r ["SHU"; "VAP"; "CRH"; "CWB"; "DPD"]) /\ humidity_works (fun r => calculate_humidity_variables r ["SHU"; "VAP"; "CRH"; "CWB"; "DPD"]).
Proof.
  split; [apply calculate_only|]. intros r W C T. set (names := ["SHU"; "VAP"; "CRH"; "CWB"; "DPD"]).
  assert (N : forall n, In n names -> In n humidity_names) by (intros n I; cbn in I |- *; tauto).
  destruct (calculate_missing r names W N) as [M1 [M2 _]]. destruct (assoc "SLP" (r_clim r)) as [[[q|] sd]|] eqn:A; [| |congruence].
  2: { destruct (M1 sd eq_refl) as [r' [K _]]. eauto. }
  destruct (getvar r "DPT") as [td|] eqn:D; [|destruct (M2 q sd eq_refl (or_introl eq_refl)) as [r' [K _]]; eauto].
  destruct (getvar r "AT") as [t|] eqn:AT; [|destruct (M2 q sd eq_refl (or_intror eq_refl)) as [r' [K _]]; eauto].
  assert (TR : forall x, (-237 <= x <= 800)%Q -> temperature (Q2R x)).
  { intros x [X1 X2]. apply Qle_Rle in X1, X2. unfold temperature. replace (Q2R (-237)) with (-237)%R in X1 by (unfold Q2R; cbn; Lra.lra). replace (Q2R 800) with 800%R in X2 by (unfold Q2R; cbn; Lra.lra). auto. }
  assert (T1 : temperature (Q2R td)) by (apply TR, (T "DPT" td); [cbn; tauto|exact D]).
  assert (T2 : temperature (Q2R t)) by (apply TR, (T "AT" t); [cbn; tauto|exact AT]).
  destruct (five_values (Q2R td) (Q2R t) (Q2R q) T1 T2) as [e [es [V [Vs [A1 [A2 [A3 [A4 A5]]]]]]]].
  destruct (calculate_five r names q sd (Some (Q2R td)) (Some (Q2R t)) (Some (Q2R q)) (Some (tenths e)) (Some (tenths (specific e (Q2R q))))
    (Some (tenths (e / es * 100))) (Some (tenths (bulb e (Q2R td) (Q2R t) (Q2R q)))) (Some (tenths (Q2R t - Q2R td)))) as [a [Wa [X [F K]]]];
    try assumption; try (rewrite ?D, ?AT; reflexivity); try (rewrite ?A1, ?A2, ?A3, ?A4, ?A5; reflexivity).
  cbv beta. rewrite K. unfold L_Hum3.finish. destruct (match getvar a "CRH" with None => true | Some c => Qltb c 0 || Qltb 150 c end); [|eauto].
  destruct (clear_ok names a Wa N) as [b [Eb _]]. eauto.
Qed.
Print Assumptions C63_humidity.
(** and the probability of a gross error, for a prior probability of p0 and values rounded to q. *)
Theorem C63_gross : forall p0 q lim a mean sd, (0 <= p0 <= 1)%R -> (0 < q)%R -> (0 < lim)%Q -> (- lim <= a <= lim)%Q -> (0 < sd)%Q ->
  exists p, p_gross erf p0 q (Q2R lim) (- Q2R lim) (Q2R a) (Q2R mean) (Q2R sd) = Ok p.
Proof.
  intros p0 q lim a mean sd P Q0 L [A1 A2] S. eexists. apply C38_bayes. split; [|reflexivity].
  apply Qlt_Rlt in L, S. apply Qle_Rle in A1, A2. rewrite Q2R_opp in A1. replace (Q2R 0) with 0%R in L, S by (unfold Q2R; cbn; Lra.lra). unfold sensible. repeat split; Lra.lra.
Qed.
Print Assumptions C63_gross.

(* ---- the conditions can be met ---- *)

(** A ship in two months, a ship to be left out and a drifter, with tracking. *)
Definition mixed_files (y m : Z) : option (list string) := if y =? 1987 then if m =? 2 then Some [line_b] else if m =? 3 then Some [line_c; line_a; buoy_a] else None else None.
Lemma ends_full : forall s t c, s = (t ++ String c "")%string -> c <> "010"%char -> (108 <= String.length s)%nat -> full_line s s.
Proof.
  intros s t c X C L. exists s, ""%string, ""%string. rewrite app_nil_r_s. split; [reflexivity|]. split; [exact I|]. split; [|split; [reflexivity|split; [exact I|lia]]].
  intros a' K. rewrite X in K. apply snoc_inj in K. destruct K as [_ K]. congruence.
Qed.
Lemma legible_line : forall line t c data core, get_table imma_tables 0 = Ok core -> line = (t ++ String c "")%string -> c <> "010"%char -> (108 <= String.length line)%nat -> decode core line [] = Ok data -> legible core line.
Proof.
  intros line t c data core GT X C L D. split.
  - rewrite X. clear -C. induction t as [|d t IH]; cbn; [intros [A _]; contradiction|]. intros [_ A]. exact (IH A).
  - exists line. split; [eapply ends_full; eassumption|]. intros before p d after n EC _ LN.
    assert (W : width core = 108%nat) by (injection GT as <-; reflexivity).
    destruct (C42_decode 0 core line [] ltac:(now left) GT ltac:(lia)) as [A _]. destruct (A data D) as [A1 _]. destruct (A1 before p d after n EC LN) as [v [_ V]]. eauto.
Qed.
Definition somes (os : list (option imma)) : list imma := flat_map (fun o => match o with Some im => [im] | None => [] end) os.
Lemma off_accept : forall E y m lines os, Forall2 (fun line o => accept E y m line = Ok o) lines os -> forall ims, read_off (usable (e_tables E) (e_excluded E) y m) lines ims -> ims = somes os.
Proof.
  intros E y m lines os F. induction F as [|line o lines os A F IH]; intros ims R; inversion R; subst; [reflexivity| |]; pose proof (accept_spec _ _ _ _ _ A) as K; destruct o as [im'|].
  - cbn. f_equal; [|now apply IH]. destruct H1 as [H1 _], K as [K _]. congruence.
  - destruct (K im H1).
  - destruct (H1 im' K).
  - now apply IH.
Qed.
Lemma number_is : forall im n o, number_field im n o -> seen_number im n = o.
Proof. intros im n o H. exact (field_fun im n _ _ (seen_number_field im n) H). Qed.
Lemma flat_defined : well_defined flat.
Proof.
  split; [|split]; intros; cbn [flat sp_dist sp_move sp_mid fst snd].
  - rewrite (Qabs'_compat (a - c) (a' - c')), (Qabs'_compat (b - d) (b' - d')) by (rewrite ?H, ?H0, ?H1, ?H2; reflexivity). reflexivity.
  - split; reflexivity.
  - split; reflexivity.
Qed.
Lemma small_equipped : forall files t, equipped (small files t).
Proof.
  intros files t. assert (W : forall n ny q, (n = 1 \/ n = 73 \/ n = 365) -> 0 < ny -> clim_wf (grid n ny (2 * ny) q)) by (intros; split; [assumption|]; split; [assumption|reflexivity]).
  assert (W1 : forall q, one_degree (grid 73 180 360 q)) by (intro q; split; [apply (W 73 180 q); [auto|lia]|reflexivity]).
  constructor; try reflexivity.
  - apply small_hum.
  - intros r _ _ _. eexists. reflexivity.
  - intros n _. eexists. split; [reflexivity|apply W1].
  - intros n _. eexists. split; [reflexivity|apply W1].
  - intros n _. eexists. split; [reflexivity|apply W1].
  - intros n c _ L. cbn in L. injection L as <-. reflexivity.
  - intros c u la lo q L V. cbn in L. injection L as <-. cbn in V. injection V as <-. discriminate.
  - exact (proj1 (proj2 C46_ex)).
  - exact (proj1 C46_ex).
  - split; [exact flat_defined|exact flat_ok].
  - repeat split; discriminate.
  - repeat split; discriminate.
  - discriminate.
  - repeat split; discriminate.
  - repeat split; discriminate.
  - intros c I. cbn in I. repeat (destruct I as [<-|I]; [apply W1|]). destruct I.
  - discriminate.
  - split; reflexivity.
  - discriminate.
  - intros v V. exact V.
  - intros. discriminate.
  - exact old_params.
  - exact old_params.
  - intros n q; split; [discriminate|cbn; unfold white; intuition discriminate].
  - intros _ m _. eexists. split; [reflexivity|apply W1].
  - intros _ y m d _. eexists. eexists. split; [reflexivity|]. split; (split; [reflexivity|]; split; reflexivity).
Qed.
Lemma mixed_readable : forall y m lines line core, get_table imma_tables 0 = Ok core -> mixed_files y m = Some lines -> In line lines -> legible core line.
Proof.
  intros y m lines line core GT F I.
  assert (I' : In line [line_a; line_b; line_c; buoy_a]).
  { unfold mixed_files in F. destruct (y =? 1987); [|discriminate]. destruct (m =? 2); [|destruct (m =? 3); [|discriminate]]; injection F as <-; cbn in I |- *; tauto. }
  clear y m lines F I. injection GT as GT'.
  assert (G : forall l t c, l = (t ++ String c "")%string -> c <> "010"%char -> (108 <= String.length l)%nat -> (exists data, decode core l [] = Ok data) -> legible core l).
  { intros l t c A B C [data D]. eapply legible_line; [now rewrite <- GT'|exact A|exact B|exact C|exact D]. }
  destruct I' as [<-|[<-|[<-|[<-|[]]]]].
  - eapply (G line_a (substring 0 (String.length line_a - 1) line_a) "3"%char); [reflexivity|discriminate|vm_compute; lia|rewrite <- GT'; eexists; vm_compute; reflexivity].
  - eapply (G line_b (substring 0 (String.length line_b - 1) line_b) "4"%char); [reflexivity|discriminate|vm_compute; lia|rewrite <- GT'; eexists; vm_compute; reflexivity].
  - eapply (G line_c (substring 0 (String.length line_c - 1) line_c) "5"%char); [reflexivity|discriminate|vm_compute; lia|rewrite <- GT'; eexists; vm_compute; reflexivity].
  - eapply (G buoy_a (substring 0 (String.length buoy_a - 1) buoy_a) "6"%char); [reflexivity|discriminate|vm_compute; lia|rewrite <- GT'; eexists; vm_compute; reflexivity].
Qed.
(** What the lines say. *)
Definition says (im : imma) (id uid : string) (month day pt : Z) : Prop :=
  seen_number im "YR" = Some (inject_Z 1987) /\ seen_number im "MO" = Some (inject_Z month) /\ seen_number im "DY" = Some (inject_Z day) /\ seen_number im "HR" = Some (1200 * (1 # 100))%Q /\
  seen_number im "LAT" = Some (4500 * (1 # 100))%Q /\ seen_number im "LON" = Some (2000 * (1 # 100))%Q /\ seen_number im "DS" = None /\ seen_number im "AT" = Some (110 * (1 # 10))%Q /\ seen_number im "DPT" = None /\
  seen_number im "PT" = Some (inject_Z pt) /\ assoc "ID" (im_data im) = Some (VStr id) /\ assoc "UID" (im_data im) = Some (VStr uid).
Lemma says_a : forall im, readstr imma_tables line_a new_imma = Some (Ok im) -> says im "SHIP1    " "ABC123" 3 15 5.
Proof. intros im R. vm_compute in R. injection R as <-. repeat split; vm_compute; reflexivity. Qed.
Lemma says_b : forall im, readstr imma_tables line_b new_imma = Some (Ok im) -> says im "SHIP1    " "ABC124" 2 15 5.
Proof. intros im R. vm_compute in R. injection R as <-. repeat split; vm_compute; reflexivity. Qed.
Lemma says_c : forall im, readstr imma_tables line_c new_imma = Some (Ok im) -> says im "SHIP9    " "ABC125" 3 16 5.
Proof. intros im R. vm_compute in R. injection R as <-. repeat split; vm_compute; reflexivity. Qed.
Lemma says_d : forall im, readstr imma_tables buoy_a new_imma = Some (Ok im) -> says im "7654321  " "ABC126" 3 15 7.
Proof. intros im R. vm_compute in R. injection R as <-. repeat split; vm_compute; reflexivity. Qed.
Lemma says_good : forall im id uid month day pt, says im id uid month day pt -> plain id -> plain uid -> valid (on 1987 month day) -> workable 1987 month im /\ trackable 1987 month im /\ plain_record im.
Proof.
  intros im id uid month day pt [YR [MO [DY [HR [LA [LO [DS [AT [DP [PT [ID UI]]]]]]]]]]] P1 P2 V. split; [|split].
  - constructor.
    + eexists. split; [rewrite <- LA; apply seen_number_field|split; discriminate].
    + eexists. split; [rewrite <- LO; apply seen_number_field|split; discriminate].
    + intros h K. apply number_is in K. rewrite HR in K. injection K as <-. split; [discriminate|reflexivity].
    + intros k K. apply number_is in K. rewrite DS in K. discriminate.
    + intros n q I K. apply number_is in K. destruct I as [<-|[<-|[]]]; [rewrite AT in K; injection K as <-; split; discriminate|rewrite DP in K; discriminate].
  - constructor.
    + intros d K. apply number_is in K. rewrite DY in K. assert (inject_Z day = inject_Z d) by congruence. injection H as <-. exact V.
    + intros _ K. apply number_is in K. rewrite DY in K. discriminate.
  - split; [exists uid; auto|]. intros i K. rewrite ID in K. injection K as <-. exact P1.
Qed.
Lemma says_fun : forall im a b m d p a' b' m' d' p', says im a b m d p -> says im a' b' m' d' p' -> m = m'.
Proof. intros im a b m d p a' b' m' d' p' [_ [A _]] [_ [B _]]. rewrite A in B. injection B as B. exact B. Qed.
Lemma day_15 : valid (on 1987 3 15) /\ valid (on 1987 2 15).
Proof. split; [exists 31|exists 28]; (split; [|cbn; lia]); [apply mh_31; cbn; tauto|apply mh_28; intro K; apply isleap_iff in K; discriminate]. Qed.
Ltac plain_text := repeat split; discriminate.
(** The conditions hold for a month with a ship, a drifter and a line to be left out, after a month with the same ship; the run writes
    all its files. *)
Example C63_ex : let E := small mixed_files true in equipped E /\ in_order E 1987 3 /\ exists files, run_month E 1987 3 = Ok files /\ length files = 11%nat.
Proof.
  cbv zeta. split; [apply small_equipped|]. split; [|eexists; split; [vm_compute; reflexivity|reflexivity]].
  constructor.
  - lia.
  - lia.
  - intros core y m lines line GT _ L I. exact (mixed_readable y m lines line core GT L I).
  - intros y m lines line im WI L I [R [X _]]. cbn [small e_lines e_tables e_excluded] in L, R, X. destruct day_15 as [V3 V2].
    unfold window, month_before, month_after in WI. cbn in WI. destruct WI as [WI|[WI|[WI|[]]]]; injection WI as <- <-; cbn in L; [injection L as <-|injection L as <-|discriminate].
    + destruct I as [<-|[]]. destruct (says_good _ _ _ _ _ _ (says_b im R) ltac:(plain_text) ltac:(plain_text) V2) as [G1 [G2 G3]]. auto.
    + destruct I as [<-|[<-|[<-|[]]]].
      * destruct (says_c im R) as [_ [_ [_ [_ [_ [_ [_ [_ [_ [_ [ID _]]]]]]]]]]]. destruct (X _ ID). now left.
      * destruct (says_good _ _ _ _ _ _ (says_a im R) ltac:(plain_text) ltac:(plain_text) V3) as [G1 [G2 G3]]. auto.
      * destruct (says_good _ _ _ _ _ _ (says_d im R) ltac:(plain_text) ltac:(plain_text) V3) as [G1 [G2 G3]]. auto.
  - exists 1987, 3, [line_c; line_a; buoy_a], line_a. destruct (accept (small mixed_files true) 1987 3 line_a) as [[im|]|e] eqn:A; [|vm_compute in A; discriminate A|vm_compute in A; discriminate A].
    exists im. split; [cbn; tauto|]. split; [reflexivity|]. split; [cbn; tauto|]. exact (accept_spec _ _ _ _ _ A).
  - intros a b c A B C. set (E := small mixed_files true) in *.
    destruct (accept E 1987 2 line_b) as [[im_b|]|e] eqn:AB; [|vm_compute in AB; discriminate AB|vm_compute in AB; discriminate AB].
    destruct (accept E 1987 3 line_a) as [[im_a|]|e] eqn:AA; [|vm_compute in AA; discriminate AA|vm_compute in AA; discriminate AA].
    destruct (accept E 1987 3 buoy_a) as [[im_d|]|e] eqn:AD; [|vm_compute in AD; discriminate AD|vm_compute in AD; discriminate AD].
    assert (AC : accept E 1987 3 line_c = Ok None) by (vm_compute; reflexivity).
    assert (Ea : a = [im_b]) by (apply (off_accept E 1987 2 [line_b] [Some im_b]); [constructor; [exact AB|constructor]|exact A]).
    assert (Eb : b = [im_a; im_d]) by (apply (off_accept E 1987 3 [line_c; line_a; buoy_a] [None; Some im_a; Some im_d]); [constructor; [exact AC|]; constructor; [exact AA|]; constructor; [exact AD|constructor]|exact B]).
    assert (Ec : c = []) by exact C. subst a b c.
    apply accept_spec in AB, AA, AD. pose proof (says_b im_b (proj1 AB)) as Sb. pose proof (says_a im_a (proj1 AA)) as Sa. pose proof (says_d im_d (proj1 AD)) as Sd. clear AB AA AD AC A B C.
    assert (ID : forall im id uid mm d p o, says im id uid mm d p -> text_field im "ID" o -> o = Some id).
    { intros im id uid mm d p o X [[s' [K ->]]|[K _]]; destruct X as [_ [_ [_ [_ [_ [_ [_ [_ [_ [_ [X _]]]]]]]]]]]; [congruence|destruct K; eauto]. }
    assert (WH : forall im id uid mm d p dd h, says im id uid mm d p -> when im dd h -> dd = on 1987 mm d /\ h = (1200 * (1 # 100))%Q).
    { intros im id uid mm d p dd h [YR [MO [DY [HR _]]]] [K1 [K2 [K3 [_ [_ K4]]]]]. apply number_is in K1, K2, K3. rewrite YR in K1. rewrite MO in K2. rewrite DY in K3.
      assert (Z1 : inject_Z 1987 = inject_Z (yr dd)) by congruence. assert (Z2 : inject_Z mm = inject_Z (mo dd)) by congruence. assert (Z3 : inject_Z d = inject_Z (dy dd)) by congruence.
      injection Z1 as Z1. injection Z2 as Z2. injection Z3 as Z3. split; [destruct dd as [yy m' d']; cbn [yr mo dy] in *; subst; reflexivity|].
      destruct K4 as [K4|[K4 _]]; apply number_is in K4; rewrite HR in K4; [congruence|discriminate]. }
    intros i j x y id d h d' h' t IJ Nx Ny Tx Ty Wx Wy EL.
    destruct i as [|[|i]]; cbn [app nth_error] in Nx.
    + injection Nx as <-. destruct j as [|[|[|j]]]; cbn [app nth_error] in Ny; [lia| | |destruct j; discriminate].
      * injection Ny as <-. destruct (WH _ _ _ _ _ _ _ _ Sb Wx) as [-> ->]. destruct (WH _ _ _ _ _ _ _ _ Sa Wy) as [-> ->].
        destruct EL as [[n [_ ->]]|[n [D _]]]; [assert (0 <= inject_Z (Z.of_nat n))%Q by (change 0%Q with (inject_Z 0); rewrite <- Zle_Qle; lia); lra|]. apply days_later_jdd in D. assert (J : jdd (on 1987 2 15) < jdd (on 1987 3 15)) by (vm_compute; reflexivity). lia.
      * injection Ny as <-. rewrite (ID _ _ _ _ _ _ _ Sb Tx) in Ty. pose proof (ID _ _ _ _ _ _ _ Sd Ty). discriminate.
    + injection Nx as <-. destruct j as [|[|[|j]]]; cbn [app nth_error] in Ny; [lia|lia| |destruct j; discriminate].
      injection Ny as <-. rewrite (ID _ _ _ _ _ _ _ Sa Tx) in Ty. pose proof (ID _ _ _ _ _ _ _ Sd Ty). discriminate.
    + destruct i as [|i]; [|destruct i; discriminate]. destruct j as [|[|[|j]]]; [lia|lia|lia|]. destruct j; discriminate.
Qed.

(** The time check is there to flag an hour that belongs to no day.  A report with such an hour does not get that far: one usable line
    of a valid day with an hour of 24 or more stops the run. *)
Theorem C63_hour_refuted : forall E y m ry rm lines line im d h, 1 <= m <= 12 -> In (ry, rm) (window y m) -> e_lines E ry rm = Some lines -> In line lines ->
  usable (e_tables E) (e_excluded E) ry rm line im -> number_field im "DY" (Some (inject_Z d)) -> valid (on ry rm d) -> number_field im "HR" (Some h) -> (24 <= h)%Q ->
  exists e, checked_deck E y m = Err e.
Proof. intros E y m ry rm lines line im d h M I L J U D V H G. eapply deck_stops; try eassumption. eapply bad_hour; try eassumption. now left. Qed.
Print Assumptions C63_hour_refuted.
Definition line_h : string := "1987 3152400 4500  2000           SHIP1                               110             100                    165      927    5                                               9815ABC123".
Example C63_hour_ex : forall files t, let E := small files t in exists im h, usable (e_tables E) (e_excluded E) 1987 3 line_h im /\ number_field im "DY" (Some (inject_Z 15)) /\ valid (on 1987 3 15) /\ number_field im "HR" (Some h) /\ (24 <= h)%Q.
Proof.
  intros files t. cbv zeta. destruct (accept (small files t) 1987 3 line_h) as [[im|]|e] eqn:A; [|vm_compute in A; discriminate A|vm_compute in A; discriminate A].
  pose proof (accept_spec _ _ _ _ _ A) as U. exists im, (2400 * (1 # 100))%Q. split; [exact U|].
  assert (K : seen_number im "DY" = Some (inject_Z 15) /\ seen_number im "HR" = Some (2400 * (1 # 100))%Q) by (vm_compute in A; injection A as <-; split; vm_compute; reflexivity). destruct K as [K1 K2].
  split; [rewrite <- K1; apply seen_number_field|]. split; [apply day_15|]. split; [rewrite <- K2; apply seen_number_field|discriminate].
Qed.
