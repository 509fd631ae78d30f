(** C44 the main program, continued: which checks are made on which reports, and the drifters. *)
Require Import String Ascii ZArith QArith Qround List Bool Lia Sorted Permutation.
Require Import Verif.M_Base Verif.L_Base Verif.M_Calendar Verif.S_Calendar Verif.P_Calendar Verif.M_Report Verif.S_Report Verif.L_Report Verif.L_Report2 Verif.M_Imma Verif.S_Imma Verif.L_Imma Verif.L_Imma2 Verif.L_Imma3 Verif.M_ImmaTables Verif.M_Grid Verif.M_Voyage Verif.M_Track
  Verif.M_Buddy Verif.M_BaseQC Verif.S_BaseQC Verif.M_Files Verif.S_Files Verif.L_Files Verif.M_Print Verif.S_Print Verif.L_Print Verif.P_Print Verif.M_Main Verif.S_Hum Verif.S_Main Verif.S_Main2
  Verif.L_Main Verif.L_Main2 Verif.L_Main3 Verif.L_Main4 Verif.L_Main5 Verif.L_Main6 Verif.L_Main7 Verif.P_Main.
Import ListNotations.
Open Scope string_scope.
Open Scope list_scope.
Open Scope Z_scope.

(** The checks of a ship, in order, with their parameters. *)
Definition ship_control (E : setup) : list (list report -> res (list report)) :=
  [track_check (e_sphere E) (e_track E); iquam_track_check (e_sphere E) (e_iquam E); spike_check (e_sphere E) (e_spike E) "SST";
   find_saturated_runs (e_sphere E) (fst (e_sat E)) (snd (e_sat E)); find_multiple_rounded_values (e_prt E) (fst (e_round E)) (snd (e_round E)) "DPT"]
  ++ map (find_repeated_values (e_prt E) (fst (e_rep E)) (snd (e_rep E))) ["SST"; "AT"; "AT2"; "DPT"; "SLP"].
(** The comparisons with neighbours, in order: sea temperatures and air temperatures by probability and by limits, dew points and pressures by
    limits, the latter with limits of their own.  The filters and the fields of spread for dew point and pressure are arguments. *)
Definition neighbour_control (E : setup) (fs fa fd fp : qc_filter) (cd cp : clim) : list (list report -> res (list report)) :=
  let by_probability v limit f := bayesian_buddy_check (e_xspan E) (e_sqrt E) (e_gross E limit) v (e_sd1 E) (e_sd2 E) (e_sd3 E) (e_radius E) (e_sigma_m E) (e_noise E) f in
  let by_limits v sd par f := mds_buddy_check (e_xspan E) v sd (fst (fst par)) (snd (fst par)) (snd par) f in
  [by_probability "SST" (p_sst_anom (e_base E)) fs; by_limits "SST" (e_sd_old E) (e_buddy E) fs;
   by_probability "AT" (p_at_anom (e_base E)) fa; by_limits "AT" (e_sd_old E) (e_buddy E) fa;
   by_limits "DPT" cd (e_buddy E) fd; by_limits "SLP" cp (e_slp_buddy E) fp].

(** C44.  The reports of a ship that are well placed, of all three months, go through the checks of a ship; no other report is touched.
    Then the deck goes through the comparisons with neighbours, in each of which the reports fit for it take part. *)
Theorem C44_checks : forall E y m d, humidity_only (e_hum E) -> 1 <= m <= 12 -> checked_deck E y m = Ok d ->
  exists a b c after fs fa fd fp cd cp, from_file E (month_before y m) a /\ from_file E (y, m) b /\ from_file E (month_after y m) c /\
  (forall r, In r (a ++ b ++ c) -> exists sub v v', placed (fun r' => r_id r' = r_id r /\ well_placed r') (a ++ b ++ c) after sub v' /\
     add_reports (e_sphere E) [] sub = Ok v /\ chain (ship_control E) v v') /\
  Forall2 (fun r r' => ~ well_placed r -> r' = r) (a ++ b ++ c) after /\
  lets_through fs fit_sst /\ lets_through fa fit_at /\ lets_through fd fit_dpt /\ lets_through fp fit_slp /\
  e_lib E "DPT" "stdev" = Some cd /\ e_lib E "SLP" "stdev" = Some cp /\
  chain (neighbour_control E fs fa fd fp cd cp) after (d_reps d).
Proof.
  intros E y m d HUM M H. destruct (deck_spec E HUM y m d M H) as [a [b [c [after [PA [PB [PC [IX [SH [BU [F1 F2]]]]]]]]]]].
  assert (PF : forall ym reps, part E y m ym reps -> from_file E ym reps) by (intros ym reps P; apply (done_from E y m); eapply part_done; [exact P|apply frames_refl]).
  unfold buddy_checks in BU. do 4 step BU. step BU. rename y4 into cd. step BU. step BU. rename y5 into cp.
  exists a, b, c, after, sst_filter, at_filter, dpt_filter, slp_filter, cd, cp. rewrite <- before_is, <- after_is by exact M.
  split; [exact (PF _ _ PA)|]. split; [exact (PF _ _ PB)|]. split; [exact (PF _ _ PC)|]. destruct (ships_placed E position_filter _ _ _ IX SH) as [S1 S2]. split; [|split; [|split; [exact sst_lets|split; [exact at_lets|split; [exact dpt_lets|split; [exact slp_lets|]]]]]].
  - intros r I. destruct (S1 r I) as [sub [v [v' [P [A C]]]]]. exists sub, v, v'. split; [|split; [exact A|]].
    + clear - P. induction P; [constructor|apply placed_yes; auto; destruct H; split; [auto|now apply position_lets]|apply placed_no; auto; intros [K1 K2]; apply H; split; [auto|now apply position_lets]].
    + unfold ship_checks in C. do 5 step C. cbn [all_repeated] in C. do 5 step C. apply ok_inj in C. subst v'. unfold ship_control. cbn [map app]. repeat (eapply chain_step; [eassumption|]). apply chain_end.
  - clear - S2. induction S2 as [|r r' l l' H F IH]; constructor; [|exact IH]. intro N. apply H. intro T. apply N. now apply position_lets.
  - unfold field_of in X3, X5. destruct (e_lib E "DPT" "stdev") as [c1|]; [|discriminate]. destruct (e_lib E "SLP" "stdev") as [c2|]; [|discriminate]. apply ok_inj in X3. apply ok_inj in X5. subst c1 c2. split; [reflexivity|]. split; [reflexivity|].
    unfold neighbour_control. cbv zeta. repeat (eapply chain_step; [eassumption|]). apply chain_end.
Qed.
Print Assumptions C44_checks.

(** C44.  With tracking: the file of identifiers names every drifter with reports of the month once; its reports of the month, in order, go
    to its own files.  (Forming the voyages may change derived motion, nothing else.) *)
Theorem C44_drifters : forall E y m files, humidity_only (e_hum E) -> (forall n q, float_text (e_str_of E n q)) -> 1 <= m <= 12 -> e_tracking E = true ->
  run_month E y m = Ok files ->
  (forall lines line im, e_lines E y m = Some lines -> In line lines -> usable (e_tables E) (e_excluded E) y m line im -> plain_record im) ->
  let drifting id r := r_id r = Some id /\ of_month y m r /\ get_qc r "POS" "isdrifter" = 1 in
  exists d base ids lines groups, checked_deck E y m = Ok d /\ files = base ++ ((e_dir E y m ++ "/ID_file.txt")%string, String.concat "" lines) :: concat groups /\
    NoDup ids /\ (forall id, In id ids <-> exists r, In r (d_reps d) /\ drifting id r) /\ Forall2 id_line ids lines /\
    Forall2 (fun id group => exists sub v, picked (drifting id) (d_reps d) sub /\ frames [] sub v /\ drifter_files (e_str_of E) (e_runid E) (e_dir E y m) y m id v group) ids groups.
Proof.
  intros E y m files HUM STR M T H PL drifting. unfold run_month in H. step H. rename y0 into d. rename X into CD. step H. rename y0 into base. rewrite T in H. step H. destruct y0 as [names more]. apply ok_inj in H.
  destruct (deck_spec E HUM y m d M CD) as [a [b [c [after [PA [PB [PC [IX [SH [BU [F1 F2]]]]]]]]]]].
  assert (IX' : index_ok (d_reps d) (d_ids d)) by (apply (index_frames _ _ _ _ F2), (index_frames _ _ _ _ F1), IX).
  destruct (drifter_parts E y m (d_ids d) (d_reps d) names more X0 (groups_disjoint _ _ IX')) as [parts [FP [EN EM]]].
  (* printable reports of the month *)
  destruct (deck_picked E HUM y m d M CD) as [lm [DM PM]].
  assert (PR : forall r, In r (d_reps d) -> of_month y m r -> printable r).
  { assert (X1 : Forall printable lm).
    { destruct DM as [ims [R F]]. cbn [fst snd] in *.
      assert (Q : Forall plain_record ims).
      { unfold records in R. destruct (e_lines E y m) as [lines|] eqn:L; [|subst ims; constructor]. specialize (PL lines).
        assert (PL' : forall line im, In line lines -> usable (e_tables E) (e_excluded E) y m line im -> plain_record im) by (intros; eapply PL; eauto). clear - R PL'.
        induction R as [|x im lines ims U R IH|x lines ims U R IH]; [constructor| |].
        - constructor; [eapply PL'; [now left|exact U]|]. apply IH. intros z im' I. apply PL'. now right.
        - apply IH. intros z im' I. apply PL'. now right. }
      clear - F Q. induction F as [|im r ims reps A F IH]; [constructor|]. inversion Q as [|? ? [[u [U1 U2]] I1] Q']; subst. constructor; [|now apply IH].
      destruct (fn_made _ _ _ _ _ _ _ A) as [MI [MU _]]. split.
      - destruct MU as [[s [S1 S2]]|[S1 S2]]; [|destruct S1; eauto]. exists s. split; [exact S2|]. congruence.
      - intros i I. destruct MI as [[s [S1 S2]]|[S1 S2]]; [|congruence]. apply I1. congruence. }
    rewrite Forall_forall in X1. intros r I O. apply X1. clear - PM I O. induction PM as [|x l l' P PM IH|x l l' P PM IH]; [destruct I|destruct I as [->|I]; [now left|right; auto]|destruct I as [->|I]; [contradiction|auto]]. }
  assert (DR : forall id r, In r (d_reps d) -> (r_id r = Some id /\ test_report drifter_filter r = 0 <-> drifting id r)).
  { intros id r I. unfold drifting. rewrite drifter_lets. destruct (C44_month_match E y m d r HUM M CD I) as [[A B]|[A B]]; rewrite A; split; intros K; intuition congruence. }
  (* which identifiers contribute *)
  assert (K : Forall2 (fun il part => part = ([], []) /\ (forall id, fst il = Some id -> ~ exists r, In r (d_reps d) /\ drifting id r) \/
      exists id line group, fst il = Some id /\ part = ([line], group) /\ (exists r, In r (d_reps d) /\ drifting id r) /\ id_line id line /\
        exists sub v, picked (drifting id) (d_reps d) sub /\ frames [] sub v /\ drifter_files (e_str_of E) (e_runid E) (e_dir E y m) y m id v group) (d_ids d) parts).
  { destruct IX' as [N1 [N2 N3]]. assert (POS : Forall (fun il => snd il = positions (d_reps d) (fst il)) (d_ids d)) by (apply Forall_forall; intros [id l] I; exact (N2 id l I)).
    clear - FP POS DR PR STR M. induction FP as [|[oid l] part ids parts C F IH]; constructor; [|inversion POS; subst; now apply IH]. inversion POS as [|? ? EL _]; subst. cbn [fst snd] in *.
    destruct C as [sel [v [V C]]]. destruct (voyage_picked E drifter_filter (d_reps d) oid l sel v EL V) as [sub [PK FR]].
    assert (SUB : forall r, In r sub -> In r (d_reps d) /\ r_id r = oid /\ test_report drifter_filter r = 0) by (clear - PK; induction PK as [|x l l' P PK IH|x l l' P PK IH]; intros r I; [destruct I|destruct I as [->|I]; [split; [now left|exact P]|destruct (IH r I); split; [now right|assumption]]|destruct (IH r I); split; [now right|assumption]]).
    assert (ALL : forall r, In r (d_reps d) -> r_id r = oid /\ test_report drifter_filter r = 0 -> In r sub) by (clear - PK; induction PK as [|x l l' P PK IH|x l l' P PK IH]; intros r I Q; [destruct I|destruct I as [->|I]; [now left|right; auto]|destruct I as [->|I]; [contradiction|auto]]).
    destruct v as [|r0 v].
    - left. split; [exact C|]. inversion FR; subst. intros id -> [r [I D]]. apply (DR id r I) in D. exact (ALL r I D).
    - destruct sub as [|r1 sub]; [inversion FR|]. inversion FR as [|? ? ? ? [ID0 [_ [_ _]]] FR']; subst. destruct (SUB r1 (or_introl eq_refl)) as [I1 [ID1 T1]]. rewrite ID0, ID1 in C. destruct oid as [id|]; [|left; split; [exact C|intros ? [=]]].
      destruct C as [fs [W ->]]. right. exists id, (id ++ "," ++ safe_filename id ++ newline_s)%string, fs. split; [reflexivity|]. split; [reflexivity|]. split; [exists r1; split; [exact I1|now apply DR]|].
      split; [exists (safe_filename id); split; [apply safe_made; reflexivity|reflexivity]|]. exists (r1 :: sub), (r0 :: v).
      split; [|split; [exact FR|]].
      + clear - PK DR. assert (DR' : forall r, In r (d_reps d) -> r_id r = Some id /\ test_report drifter_filter r = 0 <-> drifting id r) by (intros r I; now apply DR). clear DR. induction PK as [|x l l' P PK IH|x l l' P PK IH].
        * constructor.
        * apply pick_yes; [apply DR'; [now left|exact P]|]. apply IH. intros r I. apply DR'. now right.
        * apply pick_no; [intro Q; apply P; apply DR' in Q; [exact Q|now left]|]. apply IH. intros r I. apply DR'. now right.
      + assert (OM : Forall (fun r => of_month y m r /\ printable r) (r0 :: v)).
        { apply Forall_forall. intros r' I'. assert (X : exists r, In r (r1 :: sub) /\ frame [] r r') by (clear - FR I'; induction FR as [|x x' l l' P F IH]; [destruct I'|destruct I' as [<-|I']; [exists x; split; [now left|exact P]|destruct (IH I') as [r [J Q]]; exists r; split; [now right|exact Q]]]).
          destruct X as [r [J FM]]. destruct (SUB r J) as [J1 [J2 J3]]. destruct (proj1 (DR id r J1) (conj J2 J3)) as [_ [[O1 O2] _]]. split.
          - split; [rewrite (frame_int _ _ _ _ FM); [exact O1|apply not_motion; reflexivity]|rewrite (frame_int _ _ _ _ FM); [exact O2|apply not_motion; reflexivity]].
          - destruct (PR r J1 (conj O1 O2)) as [[u [U1 U2]] U3]. destruct FM as [Q1 [Q2 _]]. split; [exists u; split; [congruence|exact U2]|]. intros i Z. apply U3. congruence. }
        assert (PK' : picked (of_month y m) (r0 :: v) (r0 :: v)) by (apply picked_all; eapply Forall_impl; [|exact OM]; intros r [Z _]; exact Z).
        assert (PR' : Forall printable (r0 :: v)) by (eapply Forall_impl; [|exact OM]; intros r [_ Z]; exact Z).
        destruct (C49_voyage_output (e_str_of E) STR r0 v (r0 :: v) (e_runid E) (e_dir E y m) y m id ltac:(lia) PK' PR' ltac:(congruence)) as [ys [ms [content [fs' [safe [YS [MS [SF [W' [VF FF]]]]]]]]]].
        rewrite W in W'. apply ok_inj in W'. subst fs. exists ys, ms, content, safe, fs'. split; [exact YS|]. split; [exact MS|]. split; [exact SF|]. split; [reflexivity|]. split; [exact VF|exact FF]. }
  (* gather *)
  assert (G : exists ids lines groups, NoDup ids /\ (forall id, In id ids -> In (Some id) (map fst (d_ids d))) /\ (forall id, In id ids <-> In (Some id) (map fst (d_ids d)) /\ exists r, In r (d_reps d) /\ drifting id r) /\ Forall2 id_line ids lines /\
    Forall2 (fun id group => exists sub v, picked (drifting id) (d_reps d) sub /\ frames [] sub v /\ drifter_files (e_str_of E) (e_runid E) (e_dir E y m) y m id v group) ids groups /\
    concat (map fst parts) = lines /\ concat (map snd parts) = concat groups).
  { destruct IX' as [N1 _]. clear - K N1. induction K as [|[oid l] part ids parts C F IH]; [exists [], [], []; repeat split; try constructor; try contradiction; intuition|].
    cbn [map fst] in N1. inversion N1 as [|? ? N2 N3]; subst. destruct (IH N3) as [is_ [ls [gs [A1 [A0 [A2 [A3 [A4 [A5 A6]]]]]]]]]. destruct C as [[-> C]|[id [line [group [C1 [-> [C2 [C3 C4]]]]]]]].
    - exists is_, ls, gs. cbn [map fst snd concat app]. split; [exact A1|]. split; [intros id I; right; auto|]. split; [|repeat split; assumption]. intro id. rewrite A2. split; [intros [I J]; split; [now right|exact J]|]. intros [[I|I] J]; [destruct (C id I J)|auto].
    - cbn [fst] in C1. subst oid. exists (id :: is_), (line :: ls), (group :: gs). cbn [map fst snd concat app]. split; [constructor; [intro I; apply N2; now apply A0|exact A1]|]. split; [intros i [<-|I]; [now left|right; auto]|].
      split; [|split; [constructor; assumption|split; [constructor; assumption|split; [rewrite <- A5; reflexivity|rewrite <- A6; reflexivity]]]]. intro i. split.
      + intros [<-|I]; [split; [now left|exact C2]|]. apply A2 in I. destruct I as [I J]. split; [now right|exact J].
      + intros [[I|I] J]; [injection I as <-; now left|]. right. apply A2. auto. }
  destruct G as [ids [lines [groups [A1 [A0 [A2 [A3 [A4 [A5 A6]]]]]]]]]. exists d, base, ids, lines, groups. split; [reflexivity|].
  split; [rewrite <- H, EN, EM; f_equal; f_equal; [f_equal; unfold joined_by; f_equal; exact A5|exact A6]|]. split; [exact A1|]. split; [|split; [exact A3|exact A4]].
  intro id. rewrite A2. split; [intros [_ J]; exact J|]. intros [r [I D]]. split; [|eauto]. destruct IX' as [_ [_ N3]]. destruct D as [D _]. rewrite <- D. now apply N3.
Qed.
Print Assumptions C44_drifters.

(** C44.  Which lines that cannot be decoded are left out, and which stop the program: it looks for the identifier, which is there if the
    bytes of every parameter of the core up to the identifier mean something. *)
Theorem C44_readable : forall E y m line s e core, e_tables E = imma_tables -> get_table imma_tables 0 = Ok core -> full_line line s ->
  readstr (e_tables E) line new_imma = Some (Err e) ->
  let readable := forall before p d after n, core = before ++ (p, d) :: after -> ~ In "ID" (names before) -> d_len d = Some n -> exists v, means d (substring (width before) n s) v in
  (accept E y m line = Ok None <-> readable) /\ (accept E y m line = Err KeyError <-> ~ readable).
Proof.
  intros E y m line s e core TB GT FL RS readable. unfold accept. rewrite RS.
  assert (LS : (let line := rstrip_newline line in if Z.of_nat (String.length line) <? 108 then (line ++ pad_left (Z.to_nat (108 - Z.of_nat (String.length line))) " ")%string else line) = s /\ (108 <= String.length s)%nat).
  { destruct FL as [a [w [b [-> [W [NL [-> [B L]]]]]]]]. split; [|rewrite L; lia]. cbv zeta.
    assert (R : rstrip_newline (a ++ w) = a).
    { unfold rstrip_newline. rewrite rstrip_by_app by (eapply chars_impl; [|exact W]; intros c ->; reflexivity). destruct (snoc_cases a) as [->|[t [c ->]]]; [reflexivity|]. apply rstrip_by_keep.
      destruct (Ascii.eqb newline c) eqn:C; [|reflexivity]. apply Ascii.eqb_eq in C. subst c. destruct (NL t). reflexivity. }
    rewrite R. rewrite length_app_s in L. destruct (Z.ltb_spec (Z.of_nat (String.length a)) 108).
    - f_equal. rewrite (blanks_only b B). replace (Z.to_nat (108 - Z.of_nat (String.length a))) with (String.length b) by lia. destruct (String.length b) as [|k] eqn:K; [lia|]. unfold pad_left. cbn [String.length]. replace (Datatypes.S k - 1)%nat with k by lia.
      clear. induction k as [|k IH]; [reflexivity|]. cbn [blanks append]. f_equal. exact IH.
    - assert (b = ""%string) by (destruct b as [|c b]; [reflexivity|rewrite Nat.max_r in L by lia; cbn [String.length] in L; lia]). subst b. now rewrite app_nil_r_s. }
  destruct LS as [LS LEN]. unfold id_read. cbv zeta in LS |- *. rewrite LS, TB, GT.
  assert (GT' := GT). injection GT' as <-.
  set (t := up_to_id _).
  assert (PRE : forall t p d pre post, In "ID" (names (up_to_id t)) -> (up_to_id t = pre ++ (p, d) :: post <-> (exists post', t = pre ++ (p, d) :: post') /\ ~ In "ID" (names pre) /\ up_to_id t = pre ++ (p, d) :: post)).
  { clear. intros t p d pre post I. split; [|tauto]. intro H. split; [|split; [|exact H]].
    - revert pre post H I. induction t as [|[q f] t IH]; intros pre post H I; [destruct pre; discriminate|]. cbn [up_to_id] in H, I. destruct (String.eqb_spec q "ID").
      + destruct pre as [|x pre]; [injection H as -> -> _; exists t; reflexivity|]. destruct pre; discriminate.
      + destruct pre as [|x pre]; [injection H as -> -> _; exists t; reflexivity|]. injection H as <- H. destruct I as [I|I]; [cbn in I; congruence|]. destruct (IH _ _ H I) as [post' K]. exists post'. rewrite K. reflexivity.
    - revert pre post H. induction t as [|[q f] t IH]; intros pre post H; [destruct pre; discriminate|]. cbn [up_to_id] in H, I. destruct (String.eqb_spec q "ID").
      + destruct pre as [|x pre]; [intros []|]. destruct pre; discriminate.
      + destruct pre as [|x pre]; [intros []|]. injection H as <- H. destruct I as [I|I]; [cbn in I; congruence|]. intros [K|K]; [cbn in K; congruence|]. exact (IH I _ _ H K). }
  assert (BACK : forall (l : list (string * def)) p d pre post, l = pre ++ (p, d) :: post -> ~ In "ID" (names pre) -> exists post', up_to_id l = pre ++ (p, d) :: post').
  { clear. intros l p d pre. revert l. induction pre as [|[q f] pre IH]; intros l post -> N.
    - cbn [app up_to_id]. destruct (String.eqb p "ID"); eauto.
    - cbn [app up_to_id]. destruct (String.eqb_spec q "ID"); [subst q; destruct N; now left|]. destruct (IH _ post eq_refl) as [post' K]; [intro I; apply N; now right|]. exists post'. now rewrite K. }
  assert (ND : NoDup (names t)) by (unfold t; vm_compute; repeat (constructor; [intro K; repeat (destruct K as [K|K]; [discriminate K|]); destruct K|]); constructor).
  assert (FX : fixed t) by (unfold t; vm_compute; repeat (apply Forall_cons; [eexists; split; [reflexivity|lia]|]); apply Forall_nil).
  assert (GD : all_good t) by (unfold t; cbn [up_to_id]; repeat (apply Forall_cons; [first [left; reflexivity|right; left; split; [reflexivity|]; split; [reflexivity|]; eexists; split; reflexivity|
        right; right; split; [reflexivity|]; intros sc Z; first [discriminate Z|injection Z as <-; reflexivity]]|]); apply Forall_nil).
  assert (WD : (0 + width t <= String.length s)%nat) by (assert (width t <= 108)%nat by (vm_compute; lia); lia).
  assert (II : In "ID" (names t)) by (vm_compute; tauto).
  destruct (decode_from_spec t 0 s [] ND FX GD WD) as [D1 [D2 D3]].
  assert (K : (exists data, decode t s [] = Ok data) <-> readable).
  { split.
    - intros [data D] before p d after n EC NI L. destruct (BACK _ p d before after EC NI) as [post' UP]. destruct (D1 data D) as [D4 _]. destruct (D4 before p d post' n UP L) as [v [_ V]]. eauto.
    - intro R. apply D2. intros pre p d post n EP L. destruct (proj1 (PRE _ p d pre post II) EP) as [[post' EC] [NI _]]. exact (R pre p d post' n EC NI L). }
  destruct (decode t s []) as [data|er] eqn:D.
  - split; [split; [intros _; apply K; eauto|reflexivity]|]. split; [discriminate|]. intro N. destruct N. apply K. eauto.
  - split; [split; [discriminate|intro R; apply K in R; destruct R as [? R]; discriminate]|]. split; [|reflexivity]. intros _ R. apply K in R. destruct R as [? R]; discriminate.
Qed.
Print Assumptions C44_readable.

(** The conditions hold for a window with a drifter and a ship, with tracking. *)
Definition buoy_a : string := "1987 3151200 4500  2000           7654321                             110             100                    165      927    7                                               9815ABC126".
Definition buoy_files (y m : Z) : option (list string) := if (y =? 1987) && (m =? 3) then Some [buoy_a; line_a] else None.
Example C44_drifters_ex : let E := small buoy_files true in
  humidity_only (e_hum E) /\ (forall n q, float_text (e_str_of E n q)) /\ e_tracking E = true /\
  (forall lines line im, e_lines E 1987 3 = Some lines -> In line lines -> usable (e_tables E) (e_excluded E) 1987 3 line im -> plain_record im) /\
  (exists d, checked_deck E 1987 3 = Ok d) /\
  exists files, run_month E 1987 3 = Ok files /\ nth_error files 7 = Some ("OUT/ID_file.txt", ("7654321  ,7654321  " ++ newline_s)%string) /\ length files = 11%nat.
Proof.
  cbv zeta. split; [apply small_hum|]. split; [intros n q; split; [discriminate|cbn; unfold white; intuition discriminate]|]. split; [reflexivity|]. split.
  { intros lines line im L I [R _]. vm_compute in L. injection L as <-.
    destruct I as [<-|[<-|[]]]; vm_compute in R; injection R as <-; (split; [eexists; split; [vm_compute; reflexivity|]|intros i I; vm_compute in I; injection I as <-]; cbn; repeat split; discriminate). }
  split; [destruct (checked_deck (small buoy_files true) 1987 3) as [d|] eqn:D; [eauto|vm_compute in D; discriminate D]|].
  eexists. split; [vm_compute; reflexivity|]. split; reflexivity.
Qed.
Example C44_readable_ex : forall files t, let E := small files t in
  e_tables E = imma_tables /\ (exists core, get_table imma_tables 0 = Ok core) /\ full_line line_x line_x /\ full_line line_y line_y /\
  (exists e, readstr (e_tables E) line_x new_imma = Some (Err e)) /\ (exists e, readstr (e_tables E) line_y new_imma = Some (Err e)).
Proof.
  assert (F : forall s t c, s = (t ++ String c "")%string -> c <> "010"%char -> (108 <= String.length s)%nat -> full_line s s).
  { intros s t c S C L. exists s, ""%string, ""%string. rewrite app_nil_r_s. split; [reflexivity|]. split; [exact I|]. split; [|split; [reflexivity|split; [exact I|lia]]].
    intros a' K. rewrite S in K. apply snoc_inj in K. destruct K as [_ K]. congruence. }
  intros files t. cbv zeta. split; [reflexivity|]. split; [eexists; reflexivity|].
  split; [eapply (F line_x (substring 0 (String.length line_x - 1) line_x) "3"%char); [reflexivity|discriminate|vm_compute; lia]|].
  split; [eapply (F line_y (substring 0 (String.length line_y - 1) line_y) "3"%char); [reflexivity|discriminate|vm_compute; lia]|]. split; eexists; vm_compute; reflexivity.
Qed.
