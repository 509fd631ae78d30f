(** The remaining steps of base QC and the whole sequence. *)
Require Import String ZArith QArith Qround Qabs List Bool Lia Lqa.
Require Import Verif.M_Base Verif.L_Base Verif.S_Calendar Verif.M_Calendar Verif.L_Calendar Verif.L_Calendar2 Verif.L_Grid Verif.S_Checks Verif.M_Checks Verif.L_Checks
  Verif.M_Report Verif.S_Report Verif.L_Report Verif.L_Report3 Verif.M_Sun Verif.S_Sun Verif.L_Sun Verif.M_BaseQC Verif.S_BaseQC Verif.L_BaseQC Verif.L_BaseQC2.
Import ListNotations.
Open Scope string_scope.
Open Scope list_scope.
Open Scope Z_scope.

Lemma humidity_blacklist_after : forall o t0, after t0 humidity_blacklist o [("DPT", "hum_blacklist", ~ one_of o "PT" humidity_platforms)].
Proof.
  intros o t0 r S _. subst o. unfold humidity_blacklist. rewrite set_known by (try reflexivity; now left). cbn [bind].
  change (getint (with_qc r (("DPT" ++ "hum_blacklist", 0) :: r_qc r)%string) "PT") with (getint r "PT").
  pose proof (decides_not _ _ (int_in_one r "PT" humidity_platforms ltac:(pt))) as D.
  exists [("DPThum_blacklist", if int_in (getint r "PT") humidity_platforms then 0 else 1); ("DPThum_blacklist", 0)].
  split; [|now apply (two_realises "DPT" "hum_blacklist")]. unfold humidity_platforms in *.
  destruct (int_in (getint r "PT") [0; 1; 2; 3; 4; 5; 6; 8; 9; 10; 15]); rewrite set_known by (try reflexivity; try (now left); now right); reflexivity.
Qed.
Lemma wind_blacklist_after : forall o t0, after t0 wind_blacklist o [("W", "wind_blacklist", one_of o "DCK" [708; 780])].
Proof.
  intros o t0 r S _. subst o. unfold wind_blacklist. rewrite set_known by (try reflexivity; now left). cbn [bind].
  change (getint (with_qc r (("W" ++ "wind_blacklist", 0) :: r_qc r)%string) "DCK") with (getint r "DCK").
  pose proof (decides_bool _ _ (int_in_one r "DCK" [708; 780] ltac:(pt))) as D. destruct (int_in (getint r "DCK") [708; 780]).
  - exists [("Wwind_blacklist", 1); ("Wwind_blacklist", 0)]. split; [|now apply (two_realises "W" "wind_blacklist")].
    rewrite set_known by (try reflexivity; now right). reflexivity.
  - exists [("Wwind_blacklist", 0)]. split; [reflexivity|now apply (one_realises "W" "wind_blacklist")].
Qed.

Lemma mat_region_spec : forall r, mat_region (lon r) (lat r) = true <-> exists la lo b, place (seen_of r) la lo /\ In b heated_regions /\ in_box b lo la.
Proof.
  intro r. unfold mat_region. split.
  - destruct (lon r) as [lo|] eqn:A; [|discriminate]. destruct (lat r) as [la|] eqn:B; [|discriminate]. intro H. exists la, lo.
    rewrite !orb_true_iff, !andb_true_iff in H.
    assert (P := place_of r la lo B A).
    destruct H as [[[[H|H]|H]|H]|H].
    + exists (-80, 40, 0, 55)%Q. split; [exact P|]. split; [cbn; tauto|]. unfold in_box. destruct H as [[? ?] [? ?]]. qprop. auto.
    + exists (-10, 35, 30, 45)%Q. split; [exact P|]. split; [cbn; tauto|]. unfold in_box. destruct H as [[? ?] [? ?]]. qprop. auto.
    + exists (15, -10, 45, 40)%Q. split; [exact P|]. split; [cbn; tauto|]. unfold in_box. destruct H as [[? ?] [? ?]]. qprop. auto.
    + exists (15, -10, 95, 15)%Q. split; [exact P|]. split; [cbn; tauto|]. unfold in_box. destruct H as [[[? ?] ?] ?]. qprop. auto.
    + exists (95, -10, 105, 5)%Q. split; [exact P|]. split; [cbn; tauto|]. unfold in_box. destruct H as [[? ?] [? ?]]. qprop. auto.
  - intros [la [lo [b [P [I J]]]]]. apply place_inv in P. destruct P as [P [l [Q E]]]. rewrite P, Q.
    apply (in_box_ext b lo l la) in J; [|symmetry; exact E]. rewrite !orb_true_iff, !andb_true_iff.
    destruct I as [<-|[<-|[<-|[<-|[<-|[]]]]]]; destruct J as [J1 [J2 [J3 J4]]].
    all: apply Qleb_true in J1, J2, J3, J4; tauto.
Qed.
Lemma year_between_spec : forall r a b, year_between (getint r "YR") a b = true <-> exists y, number (seen_of r) "YR" y /\ a <= y <= b.
Proof.
  intros r a b. unfold year_between. split.
  - destruct (getint r "YR") as [y|] eqn:E; [|discriminate]. intro H. exists y. split; [apply int_number; [pt|exact E]|lia].
  - intros [y [N H]]. apply int_number in N; [|pt]. rewrite N. lia.
Qed.
Lemma deck193_spec : forall r last, int_is (getint r "DCK") 193 && year_between (getint r "YR") 1880 last && mat_region (lon r) (lat r) = true <-> deck193_excluded last (seen_of r).
Proof.
  intros r last. rewrite !andb_true_iff, int_is_number by pt. rewrite year_between_spec, mat_region_spec. unfold deck193_excluded. tauto.
Qed.
Definition mat_source (t : string) (last : Z) (r : report) : res report :=
  let! r := set_qc r t "mat_blacklist" 0 in
  let! r := (if int_is (getint r "PT") 5 && int_is (getint r "DCK") 780 then set_qc r t "mat_blacklist" 1 else Ok r) in
  if int_is (getint r "DCK") 193 && year_between (getint r "YR") 1880 last && mat_region (lon r) (lat r)
  then set_qc r t "mat_blacklist" 1 else Ok r.
Lemma mat_source_after : forall o t0 t last, mem t special_qc_types || mem t VARLIST = true -> after t0 (mat_source t last) o [(t, "mat_blacklist", bad_air_source last o)].
Proof.
  intros o t0 t last KT r S _. subst o. unfold mat_source. rewrite set_known by (try exact KT; now left). cbn [bind].
  set (q := ((t ++ "mat_blacklist")%string, 0) :: r_qc r).
  change (getint (with_qc r q) "PT") with (getint r "PT"). change (getint (with_qc r q) "DCK") with (getint r "DCK").
  assert (B : int_is (getint r "PT") 5 && int_is (getint r "DCK") 780 = true <-> number (seen_of r) "PT" 5 /\ number (seen_of r) "DCK" 780).
  { rewrite andb_true_iff, !int_is_number by pt. tauto. }
  pose proof (deck193_spec r last) as C.
  destruct (int_is (getint r "PT") 5 && int_is (getint r "DCK") 780); cbn [bind].
  - rewrite set_known by (try exact KT; now right). cbn [bind]. set (q2 := ((t ++ "mat_blacklist")%string, 1) :: r_qc (with_qc r q)).
    change (getint (with_qc (with_qc r q) q2) "DCK") with (getint r "DCK"). change (getint (with_qc (with_qc r q) q2) "YR") with (getint r "YR").
    change (mat_region (lon (with_qc (with_qc r q) q2)) (lat (with_qc (with_qc r q) q2))) with (mat_region (lon r) (lat r)).
    assert (D : decides 1 (bad_air_source last (seen_of r))) by (left; split; [reflexivity|left; now apply B]).
    destruct (int_is (getint r "DCK") 193 && year_between (getint r "YR") 1880 last && mat_region (lon r) (lat r)).
    + exists [((t ++ "mat_blacklist")%string, 1); ((t ++ "mat_blacklist")%string, 1); ((t ++ "mat_blacklist")%string, 0)]. split; [|now apply three_realises].
      rewrite set_known by (try exact KT; now right). reflexivity.
    + exists [((t ++ "mat_blacklist")%string, 1); ((t ++ "mat_blacklist")%string, 0)]. split; [reflexivity|now apply two_realises].
  - change (getint (with_qc r q) "DCK") with (getint r "DCK"). change (getint (with_qc r q) "YR") with (getint r "YR").
    change (mat_region (lon (with_qc r q)) (lat (with_qc r q))) with (mat_region (lon r) (lat r)).
    destruct (int_is (getint r "DCK") 193 && year_between (getint r "YR") 1880 last && mat_region (lon r) (lat r)).
    + exists [((t ++ "mat_blacklist")%string, 1); ((t ++ "mat_blacklist")%string, 0)]. split; [rewrite set_known by (try exact KT; now right); reflexivity|].
      apply two_realises. left. split; [reflexivity|right; now apply C].
    + exists [((t ++ "mat_blacklist")%string, 0)]. split; [reflexivity|]. apply one_realises. right. split; [reflexivity|].
      intros [K|K]; [apply B in K|apply C in K]; discriminate.
Qed.
Lemma mat_blacklist_after : forall o t0, after t0 mat_blacklist o [("AT", "mat_blacklist", bad_air_source 1892 o)].
Proof. intros o t0. apply (mat_source_after o t0 "AT" 1892). reflexivity. Qed.

(** [c f g tf tg]: chain with the tables given. *)
Lemma apart_app : forall a b c, apart (a ++ b) c = apart a c && apart b c.
Proof. intros. unfold apart. apply forallb_app. Qed.
Lemma keys_app : forall a b, keys (a ++ b) = keys a ++ keys b.
Proof. intros. apply map_app. Qed.

(** A step that may follow anything. *)
Definition step (f : report -> res report) (o : seen) (t : list entry) : Prop := forall t0, after t0 f o t.
Lemma step_chain : forall o f g t1 t2, step f o t1 -> step g o t2 -> apart (keys t1) (keys t2) = true -> step (fun r => bind (f r) g) o (t1 ++ t2).
Proof.
  intros o f g t1 t2 F G D t0 r S E. destruct (F [] r S (Forall_nil _)) as [l1 [A R1]]. rewrite A. cbn [bind].
  destruct (G [] (with_qc r (l1 ++ r_qc r)) S (Forall_nil _)) as [l2 [B R2]]. exists (l2 ++ l1). split; [|now apply realises_app].
  rewrite B. unfold with_qc. cbn [r_id r_uid r_data r_dt r_qc r_ext r_clim]. rewrite app_assoc. reflexivity.
Qed.
Lemma step_leaf : forall o t f P (val : report -> Z), mem t special_qc_types || mem t VARLIST = true ->
  (forall r, seen_of r = o -> decides (val r) P) -> step (fun r => set_qc r t f (val r)) o [(t, f, P)].
Proof. intros o t f P val K H t0. now apply leaf. Qed.
Lemma step_leaf_r : forall o t f P (val : report -> res Z), mem t special_qc_types || mem t VARLIST = true ->
  (forall r, seen_of r = o -> exists z, val r = Ok z /\ decides z P) -> step (fun r => set_qc_r r t f (val r)) o [(t, f, P)].
Proof. intros o t f P val K H t0. now apply leaf_r. Qed.

Section Steps.
Variable p : params.
Hypothesis Hp : sane p.

Lemma sst_step : forall o, step (do_base_sst_qc p) o (sst_flags p o).
Proof.
  intro o. unfold do_base_sst_qc, sst_flags.
  apply (step_chain o (fun r => set_qc r "SST" "noval" (value_check (getvar r "SST"))) _ [_] _).
  { apply (step_leaf o _ _ _ (fun r => value_check (getvar r "SST"))); [reflexivity|]. intros r <-. apply value_decides. }
  2: reflexivity.
  apply (step_chain o (fun r => set_qc_r r "SST" "freez" (sst_freeze_check (ox (getvar r "SST")) (Some (Fin 0)) (Some (Fin (p_sst_freeze p))) (Fin (p_sst_sigma p)))) _ [_] _).
  { apply (step_leaf_r o _ _ _ (fun r => sst_freeze_check (ox (getvar r "SST")) (Some (Fin 0)) (Some (Fin (p_sst_freeze p))) (Fin (p_sst_sigma p)))); [reflexivity|]. intros r <-. apply freeze_decides. }
  2: reflexivity.
  apply (step_chain o (fun r => set_qc r "SST" "clim" (climatology_check (ox (getvar r "SST")) (ox (getnorm r "SST")) (Some (Fin (p_sst_anom p))))) _ [_] _).
  { apply (step_leaf o _ _ _ (fun r => climatology_check (ox (getvar r "SST")) (ox (getnorm r "SST")) (Some (Fin (p_sst_anom p))))); [reflexivity|]. intros r <-. apply clim_decides. }
  2: reflexivity.
  apply (step_chain o (fun r => set_qc r "SST" "nonorm" (no_normal_check (getnorm r "SST"))) _ [_] _).
  { apply (step_leaf o _ _ _ (fun r => no_normal_check (getnorm r "SST"))); [reflexivity|]. intros r <-. apply normal_decides. }
  2: reflexivity.
  apply (step_leaf_r o _ _ _ (fun r => hard_limit (ox (getvar r "SST")) (lims (p_sst_lim p)))); [reflexivity|]. intros r <-. apply hard_decides, Hp.
Qed.
Lemma mat_step : forall o, step (do_base_mat_qc p) o (air_flags p o).
Proof.
  intro o. unfold do_base_mat_qc, mat_checks, air_flags.
  apply (step_chain o (fun r => set_qc r "AT" "noval" (value_check (getvar r "AT"))) _ [_] _).
  { apply (step_leaf o _ _ _ (fun r => value_check (getvar r "AT"))); [reflexivity|]. intros r <-. apply value_decides. }
  2: reflexivity.
  apply (step_chain o (fun r => set_qc r "AT" "clim" (climatology_check (ox (getvar r "AT")) (ox (getnorm r "AT")) (Some (Fin (p_at_anom p))))) _ [_] _).
  { apply (step_leaf o _ _ _ (fun r => climatology_check (ox (getvar r "AT")) (ox (getnorm r "AT")) (Some (Fin (p_at_anom p))))); [reflexivity|]. intros r <-. apply clim_decides. }
  2: reflexivity.
  apply (step_chain o (fun r => set_qc r "AT" "nonorm" (no_normal_check (getnorm r "AT"))) _ [_] _).
  { apply (step_leaf o _ _ _ (fun r => no_normal_check (getnorm r "AT"))); [reflexivity|]. intros r <-. apply normal_decides. }
  2: reflexivity.
  apply (step_leaf_r o _ _ _ (fun r => hard_limit (ox (getvar r "AT")) (lims (p_at_lim p)))); [reflexivity|]. intros r <-. apply hard_decides, Hp.
Qed.
Lemma dpt_step : forall o, step (do_base_dpt_qc p) o (dew_flags p o).
Proof.
  intro o. unfold do_base_dpt_qc, dew_flags.
  apply (step_chain o (fun r => set_qc_r r "DPT" "clim" (plus_stdev_np (getvar r "DPT") (getnorm r "DPT") (getnorm_stdev r "DPT") (p_dpt_sd p) (p_dpt_k p))) _ [_] _).
  { apply (step_leaf_r o _ _ _ (fun r => plus_stdev_np (getvar r "DPT") (getnorm r "DPT") (getnorm_stdev r "DPT") (p_dpt_sd p) (p_dpt_k p))); [reflexivity|]. intros r <-. apply sd_decides; apply Hp. }
  2: reflexivity.
  apply (step_chain o (fun r => set_qc r "DPT" "noval" (value_check (getvar r "DPT"))) _ [_] _).
  { apply (step_leaf o _ _ _ (fun r => value_check (getvar r "DPT"))); [reflexivity|]. intros r <-. apply value_decides. }
  2: reflexivity.
  apply (step_chain o (fun r => set_qc r "DPT" "nonorm" (no_normal_check (getnorm r "DPT"))) _ [_] _).
  { apply (step_leaf o _ _ _ (fun r => no_normal_check (getnorm r "DPT"))); [reflexivity|]. intros r <-. apply normal_decides. }
  2: reflexivity.
  apply (step_leaf o _ _ _ (fun r => supersat_check (ox (getvar r "DPT")) (ox (getvar r "AT2")))); [reflexivity|]. intros r <-. apply ssat_decides.
Qed.
Lemma slp_step : forall o, (forall z, s_sd o "SLP" = Some z -> (0 <= z)%Q) -> step (do_base_slp_qc p) o (pressure_flags p o).
Proof.
  intros o Sd. unfold do_base_slp_qc, pressure_flags.
  apply (step_chain o (fun r => set_qc r "SLP" "noval" (value_check (getvar r "SLP"))) _ [_] _).
  { apply (step_leaf o _ _ _ (fun r => value_check (getvar r "SLP"))); [reflexivity|]. intros r <-. apply value_decides. }
  2: reflexivity.
  apply (step_chain o (fun r => set_qc_r r "SLP" "clim" (stdev_with_lowbar_np (getvar r "SLP") (getnorm r "SLP") (getnorm_stdev r "SLP") (p_slp_k p) (p_slp_bar p))) _ [_] _).
  { apply (step_leaf_r o _ _ _ (fun r => stdev_with_lowbar_np (getvar r "SLP") (getnorm r "SLP") (getnorm_stdev r "SLP") (p_slp_k p) (p_slp_bar p))); [reflexivity|]. intros r <-. apply bar_decides; [apply Hp|exact Sd]. }
  2: reflexivity.
  apply (step_leaf o _ _ _ (fun r => no_normal_check (getnorm r "SLP"))); [reflexivity|]. intros r <-. apply normal_decides.
Qed.
Lemma wind_step : forall o, step (do_base_wind_qc p) o (wind_flags p o).
Proof.
  intro o. unfold do_base_wind_qc, wind_flags.
  apply (step_chain o (fun r => set_qc r "W" "noval" (value_check (getvar r "W"))) _ [_] _).
  { apply (step_leaf o _ _ _ (fun r => value_check (getvar r "W"))); [reflexivity|]. intros r <-. apply value_decides. }
  2: reflexivity.
  apply (step_chain o (fun r => set_qc_r r "W" "hardlimit" (hard_limit (ox (getvar r "W")) (lims (p_w_lim p)))) _ [_] _).
  { apply (step_leaf_r o _ _ _ (fun r => hard_limit (ox (getvar r "W")) (lims (p_w_lim p)))); [reflexivity|]. intros r <-. apply hard_decides, Hp. }
  2: reflexivity.
  apply (step_leaf o _ _ _ (fun r => wind_consistency (ox (getvar r "W")) (ox (getvar r "D")) (Fin (p_w_var p)))); [reflexivity|]. intros r <-. apply wind_decides.
Qed.
Lemma kate_step : forall o, step (do_kate_mat_qc p) o (air2_flags p o).
Proof.
  intro o. unfold do_kate_mat_qc, air2_flags.
  apply (step_chain o (fun r => set_qc_r r "AT2" "clim" (plus_stdev_np (getvar r "AT2") (getnorm r "AT2") (getnorm_stdev r "AT2") (p_at_sd p) (p_at_k p))) _ [_] _).
  { apply (step_leaf_r o _ _ _ (fun r => plus_stdev_np (getvar r "AT2") (getnorm r "AT2") (getnorm_stdev r "AT2") (p_at_sd p) (p_at_k p))); [reflexivity|]. intros r <-. apply sd_decides; apply Hp. }
  2: reflexivity.
  apply (step_chain o (fun r => set_qc r "AT2" "noval" (value_check (getvar r "AT2"))) _ [_] _).
  { apply (step_leaf o _ _ _ (fun r => value_check (getvar r "AT2"))); [reflexivity|]. intros r <-. apply value_decides. }
  2: reflexivity.
  apply (step_chain o (fun r => set_qc r "AT2" "nonorm" (no_normal_check (getnorm r "AT2"))) _ [_] _).
  { apply (step_leaf o _ _ _ (fun r => no_normal_check (getnorm r "AT2"))); [reflexivity|]. intros r <-. apply normal_decides. }
  2: reflexivity.
  apply (step_leaf_r o _ _ _ (fun r => hard_limit (ox (getvar r "AT")) (lims (p_at_lim p)))); [reflexivity|]. intros r <-. apply hard_decides, Hp.
Qed.

Lemma silly_ok : forall l r, Forall (fun e => ordered (snd e)) l ->
  exists q, silly_values l r = Ok (with_qc r (q ++ r_qc r)) /\ (forall k, assoc k q <> None -> k = "DPThardlimit") /\
    ((assoc "DPThardlimit" q = None /\ Forall (fun e => inside (snd e) (getvar r (fst e))) l) \/
     (assoc "DPThardlimit" q = Some 1 /\ ~ Forall (fun e => inside (snd e) (getvar r (fst e))) l)).
Proof.
  induction l as [|[v lim] l IH]; intros r H; cbn [silly_values].
  - exists []. split; [destruct r; reflexivity|]. split; [cbn; congruence|left; split; [reflexivity|constructor]].
  - inversion H as [|x y O H' E]; subst. cbn [snd] in O. destruct (hard_decides (getvar r v) lim O) as [z [E D]]. rewrite E. cbn [bind].
    destruct D as [[-> D]|[-> D]]; cbn [Z.eqb].
    + rewrite set_known by (try reflexivity; now right). cbn [bind]. destruct (IH (with_qc r ((("DPT" ++ "hardlimit")%string, 1) :: r_qc r)) H') as [q [A [B C]]].
      exists (q ++ [("DPThardlimit", 1)]). split.
      * etransitivity; [exact A|]. unfold with_qc. cbn [r_id r_uid r_data r_dt r_qc r_ext r_clim]. rewrite <- app_assoc. reflexivity.
      * split.
        -- intros k K. rewrite assoc_app in K. destruct (assoc k q) eqn:X; [apply B; congruence|]. cbn [assoc] in K.
           destruct (String.eqb k "DPThardlimit") eqn:Y; [now apply String.eqb_eq|congruence].
        -- right. split; [rewrite assoc_app; destruct C as [[-> _]|[-> _]]; reflexivity|]. intro F. inversion F; subst. auto.
    + cbn [bind]. destruct (IH r H') as [q [A [B C]]]. exists q. split; [exact A|]. split; [exact B|].
      assert (I : inside lim (getvar r v)).
      { unfold inside in *. destruct (getvar r v) as [x|]; [|exfalso; apply D; intros [x [X _]]; discriminate].
        exists x. split; [reflexivity|]. destruct (qle_dec (fst lim) x), (qle_dec x (snd lim)); auto; exfalso; apply D; intros [y [Y Z]]; injection Y as <-; tauto. }
      destruct C as [[C1 C2]|[C1 C2]]; [left|right]; (split; [exact C1|]).
      * constructor; auto.
      * intro F. inversion F; subst. auto.
Qed.
Lemma silly_step : forall o, step (humidity_limits p) o (silly_flags p o).
Proof.
  intros o t0 r S _. subst o. unfold humidity_limits. rewrite set_known by (try reflexivity; now left). cbn [bind].
  set (r1 := with_qc r ((("DPT" ++ "hardlimit")%string, 0) :: r_qc r)).
  destruct (silly_ok [("AT", p_at_lim p); ("DPT", p_dpt_lim p); ("SHU", p_shu_lim p); ("RH", p_rh_lim p)] r1) as [q [A [B C]]].
  { repeat constructor; apply Hp. }
  exists (q ++ [("DPThardlimit", 0)]). split.
  - etransitivity; [exact A|]. unfold r1, with_qc. cbn [r_id r_uid r_data r_dt r_qc r_ext r_clim]. rewrite <- app_assoc. reflexivity.
  - split.
    + constructor; [|constructor]. unfold key. cbn [fst snd]. change ("DPT" ++ "hardlimit")%string with "DPThardlimit". rewrite assoc_app.
      destruct C as [[-> C]|[-> C]].
      * exists 0. split; [reflexivity|]. right. split; [reflexivity|]. intro K. apply K.
        inversion C as [|? ? C1 C']; subst. inversion C' as [|? ? C2 C'']; subst. inversion C'' as [|? ? C3 C''']; subst. inversion C''' as [|? ? C4 _]; subst. auto.
      * exists 1. split; [reflexivity|]. left. split; [reflexivity|]. intros [K1 [K2 [K3 K4]]]. apply C. repeat constructor; assumption.
    + intros k K. rewrite assoc_app in K. destruct (assoc k q) eqn:X; [left; symmetry; apply B; congruence|]. cbn [assoc] in K.
      destruct (String.eqb k "DPThardlimit") eqn:Y; [left; symmetry; now apply String.eqb_eq|congruence].
Qed.

(* ---- sequences ---- *)

Variable elev : Z -> Z -> Q -> Q -> Q -> Q -> Q.
Hypothesis He : elevation_like elev.
Variable o : seen.
Hypothesis Ho : processable o.

Lemma Hcoords : coords o. Proof. exact (proj1 Ho). Qed.
Lemma Hmonth : month_known o. Proof. destruct Ho as [_ [[y [m [A [B [_ C]]]]] _]]. exists y, m. auto. Qed.


Lemma step_after : forall f t t0, step f o t -> after t0 f o t.
Proof. intros f t t0 H. apply H. Qed.

(** One more step with table [t1] before [g]. *)
Ltac next t1 rest := match goal with |- after ?t0 (fun r => bind (?f r) ?g) o _ => apply (chain o t0 f g t1 rest); [| |reflexivity|reflexivity] end.

Notation P0 := ("POS", "pos", ~ on_earth o).
Notation P1 := ("POS", "date", ~ dated o).
Notation P2 := ("POS", "time", ~ timed o).
Notation P3 := ("POS", "blklst", bad_source o).
Let K2 : list entry := [("POS", "isbuoy", one_of o "PT" [6; 7]); ("POS", "isdrifter", one_of o "PT" [7])].
Let K3 : list entry := [("POS", "isship", one_of o "PT" ship_platforms)].
Let DAY := day_flags elev p o.

Lemma buoy_step : after [] is_buoy o K2. Proof. now apply is_buoy_after. Qed.
Lemma since_ok : (0 <= p_since p <= 24)%Q. Proof. unfold sane in Hp. tauto. Qed.

Definition tail_flags : list entry := humidity_source_flags o ++ air_source_flags o ++ wind_source_flags o ++
  sst_flags p o ++ air_flags p o ++ dew_flags p o ++ pressure_flags p o ++ wind_flags p o ++ silly_flags p o ++ air2_flags p o.
Definition tail_steps (r : report) : res report :=
  let! r := humidity_blacklist r in
  let! r := mat_blacklist r in
  let! r := wind_blacklist r in
  let! r := do_base_sst_qc p r in
  let! r := do_base_mat_qc p r in
  let! r := do_base_dpt_qc p r in
  let! r := do_base_slp_qc p r in
  let! r := do_base_wind_qc p r in
  let! r := humidity_limits p r in
  do_kate_mat_qc p r.
Lemma tail_step : step tail_steps o tail_flags.
Proof.
  unfold tail_steps, tail_flags.
  apply (step_chain o humidity_blacklist); [intro; apply humidity_blacklist_after| |reflexivity].
  apply (step_chain o mat_blacklist); [intro; apply mat_blacklist_after| |reflexivity].
  apply (step_chain o wind_blacklist); [intro; apply wind_blacklist_after| |reflexivity].
  apply (step_chain o (do_base_sst_qc p)); [apply sst_step| |reflexivity].
  apply (step_chain o (do_base_mat_qc p)); [apply mat_step| |reflexivity].
  apply (step_chain o (do_base_dpt_qc p)); [apply dpt_step| |reflexivity].
  apply (step_chain o (do_base_slp_qc p)); [apply slp_step, Ho| |reflexivity].
  apply (step_chain o (do_base_wind_qc p)); [apply wind_step| |reflexivity].
  apply (step_chain o (humidity_limits p)); [apply silly_step| |reflexivity].
  apply kate_step.
Qed.

(** The common beginning, followed by any further steps. *)
Definition head_then (g : report -> res report) (r : report) : res report :=
  let! r := is_buoy r in
  let! r := is_ship r in
  let! r := is_deck_780 r in
  let! r := do_position_check r in
  let! r := do_date_check r in
  let! r := do_time_check r in
  let! r := do_blacklist r in
  let! r := do_day_check elev (p_since p) r in
  g r.
Lemma head_after : forall g t, step g o t -> apart (keys (base_pos_flags elev p o)) (keys t) = true -> after [] (head_then g) o (base_pos_flags elev p o ++ t).
Proof.
  intros g t G D. unfold base_pos_flags in *. rewrite !keys_app in D. rewrite !apart_app, !andb_true_iff in D. destruct D as [D1 [D2 [D3 D4]]].
  unfold head_then.
  assert (D3' : apart ["POSpos"] (keys t) = true /\ apart ["POSdate"] (keys t) = true /\ apart ["POStime"] (keys t) = true /\ apart ["POSblklst"] (keys t) = true).
  { unfold apart in *. cbn [forallb keys place_flags map] in *. rewrite !andb_true_iff in *. tauto. }
  assert (D1' : apart (keys K2) (keys t) = true /\ apart (keys K3) (keys t) = true).
  { unfold apart in *. cbn [forallb keys kind_flags map K2 K3] in *. rewrite !andb_true_iff in *. tauto. }
  destruct D3' as [Q0 [Q1 [Q2 Q3]]]. destruct D1' as [R1 R2].
  assert (AP : forall a b c, apart a b = true -> apart a c = true -> apart a (b ++ c) = true).
  { intros a b c A B. unfold apart in *. rewrite forallb_forall in *. intros k I. specialize (A k I). specialize (B k I). apply negb_true_iff in A, B. apply mem_false in A, B.
    apply negb_true_iff, mem_false. intro X. apply in_app_or in X. tauto. }
  apply (chain o [] is_buoy _ K2 (K3 ++ deck_flags o ++ place_flags o ++ DAY ++ t)); [exact buoy_step| |reflexivity|].
  2: { change (keys (K3 ++ deck_flags o ++ place_flags o ++ DAY ++ t)) with (keys (K3 ++ deck_flags o ++ place_flags o ++ DAY) ++ keys t). apply AP; [reflexivity|exact R1]. }
  apply (chain o _ is_ship _ K3 (deck_flags o ++ place_flags o ++ DAY ++ t)); [apply is_ship_after| |reflexivity|].
  2: { change (keys (deck_flags o ++ place_flags o ++ DAY ++ t)) with (keys (deck_flags o ++ place_flags o ++ DAY) ++ keys t). apply AP; [reflexivity|exact R2]. }
  apply (chain o _ is_deck_780 _ (deck_flags o) (place_flags o ++ DAY ++ t)); [apply is_780_after| |reflexivity|].
  2: { change (keys (place_flags o ++ DAY ++ t)) with (keys (place_flags o ++ DAY) ++ keys t). apply AP; [reflexivity|exact D2]. }
  apply (chain o _ do_position_check _ [P0] ([P1; P2; P3] ++ DAY ++ t)); [apply pos_after, Hcoords| |reflexivity|].
  2: { change (keys ([P1; P2; P3] ++ DAY ++ t)) with (keys ([P1; P2; P3] ++ DAY) ++ keys t). apply AP; [reflexivity|exact Q0]. }
  apply (chain o _ do_date_check _ [P1] ([P2; P3] ++ DAY ++ t)); [apply date_after, Hmonth| |reflexivity|].
  2: { change (keys ([P2; P3] ++ DAY ++ t)) with (keys ([P2; P3] ++ DAY) ++ keys t). apply AP; [reflexivity|exact Q1]. }
  apply (chain o _ do_time_check _ [P2] ([P3] ++ DAY ++ t)); [apply time_after| |reflexivity|].
  2: { change (keys ([P3] ++ DAY ++ t)) with (keys ([P3] ++ DAY) ++ keys t). apply AP; [reflexivity|exact Q2]. }
  apply (chain o _ do_blacklist _ [P3] (DAY ++ t)); [apply blacklist_after; [exact Hcoords|exact Hmonth]| |reflexivity|].
  2: { change (keys (DAY ++ t)) with (keys DAY ++ keys t). apply AP; [reflexivity|exact Q3]. }
  apply (chain o _ (do_day_check elev (p_since p)) _ DAY t); [| |reflexivity|exact D4].
  - apply day_after; [exact He|exact Hcoords|exact since_ok| | |]; cbn; tauto.
  - apply G.
Qed.
Lemma none_step : step (fun r => Ok r) o [].
Proof. intros t0 r S E. exists []. split; [destruct r; reflexivity|]. split; [constructor|]. intros k K. cbn in K. congruence. Qed.

Lemma core_after : after [] (head_then tail_steps) o (base_flags elev p o).
Proof. apply (head_after tail_steps tail_flags); [exact tail_step|reflexivity]. Qed.
Lemma slp_after : after [] (head_then (do_base_slp_qc p)) o (base_slp_flags elev p o).
Proof. apply head_after; [apply slp_step, Ho|reflexivity]. Qed.
Lemma sst_after : after [] (head_then (do_base_sst_qc p)) o (base_sst_flags elev p o).
Proof. apply head_after; [apply sst_step|reflexivity]. Qed.

Definition wind_steps (r : report) : res report :=
  let! r := is_buoy r in
  let! r := is_ship r in
  let! r := wind_blacklist r in
  let! r := do_position_check r in
  let! r := do_date_check r in
  let! r := do_time_check r in
  let! r := do_blacklist r in
  do_base_wind_qc p r.
Lemma wind_after : after [] wind_steps o (kind_flags o ++ wind_source_flags o ++ place_flags o ++ wind_flags p o).
Proof.
  unfold wind_steps.
  apply (chain o [] is_buoy _ K2 (K3 ++ wind_source_flags o ++ place_flags o ++ wind_flags p o)); [exact buoy_step| |reflexivity|reflexivity].
  apply (chain o _ is_ship _ K3 (wind_source_flags o ++ place_flags o ++ wind_flags p o)); [apply is_ship_after| |reflexivity|reflexivity].
  apply (chain o _ wind_blacklist _ (wind_source_flags o) (place_flags o ++ wind_flags p o)); [apply wind_blacklist_after| |reflexivity|reflexivity].
  apply (chain o _ do_position_check _ [P0] ([P1; P2; P3] ++ wind_flags p o)); [apply pos_after, Hcoords| |reflexivity|reflexivity].
  apply (chain o _ do_date_check _ [P1] ([P2; P3] ++ wind_flags p o)); [apply date_after, Hmonth| |reflexivity|reflexivity].
  apply (chain o _ do_time_check _ [P2] ([P3] ++ wind_flags p o)); [apply time_after| |reflexivity|reflexivity].
  apply (chain o _ do_blacklist _ [P3] (wind_flags p o)); [apply blacklist_after; [exact Hcoords|exact Hmonth]| |reflexivity|reflexivity].
  apply wind_step.
Qed.
End Steps.

(* ---- the missing hour ---- *)

Lemma fix_cases : forall r, processable (seen_of r) -> wf_report r ->
  (~ hour_to_fix (seen_of r) /\ do_fix_missing_hour r = Ok r) \/
  (hour_to_fix (seen_of r) /\ exists r', do_fix_missing_hour r = Ok r' /\ wf_report r' /\ getvar r' "HR" = Some 0%Q /\
     (forall n, n <> "HR" -> getvar r' n = getvar r n) /\ r_id r' = r_id r /\ r_uid r' = r_uid r /\ r_ext r' = r_ext r /\ r_clim r' = r_clim r /\ r_qc r' = r_qc r).
Proof.
  intros r Pr W. destruct Pr as [_ [[y [m [Y [M [Y1 M1]]]]] _]]. assert (GY := Y). apply int_number in GY; [|pt]. assert (GM := M). apply int_number in GM; [|pt].
  unfold do_fix_missing_hour. rewrite GY.
  pose proof (int_is_number r "DCK" 701 ltac:(pt)) as B. destruct (int_is (getint r "DCK") 701).
  2: { left. split; [|reflexivity]. intros [K _]. apply B in K. discriminate. }
  destruct (y <? 1860) eqn:Ly.
  2: { left. split; [|reflexivity]. intros [_ [[y' [K K']] _]]. apply int_number in K; [|pt]. assert (y = y') by congruence. lia. }
  destruct (getvar r "HR") as [h|] eqn:Hh.
  { left. split; [|reflexivity]. intros [_ [_ K]]. cbn [seen_of s_var] in K. congruence. }
  right. split; [split; [now apply B|]; split; [exists y; split; [exact Y|lia]|exact Hh]|]. cbn [andb].
  assert (C : forall r0, getint r0 "YR" = Some y -> getint r0 "MO" = Some m -> getvar r0 "HR" = Some 0%Q -> exists r', calculate_dt r0 = Ok r').
  { intros r0 A1 A2 A3. unfold calculate_dt. rewrite A1, A2, A3. destruct (getint r0 "DY") as [d|]; [|eauto]. destruct (0 <? d) eqn:Ld; [|eauto].
    destruct (L_Sun.py_nth_prefix y m M1) as [n [N Mh]]. rewrite N. cbn [bind]. destruct (d <=? n) eqn:Ln; [|eauto].
    change (Qfloor 0) with 0. change (Qfloor (60 * (0 - inject_Z 0))) with 0. unfold mk_datetime.
    assert (datetime_ok y m d = true) as -> by (apply datetime_ok_iff; split; [lia|exists n; split; [exact Mh|cbn; lia]]). cbn [andb Z.leb Z.compare bind]. eauto. }
  assert (S : exists r1, setvar r "HR" (Some 0%Q) = Ok r1).
  { unfold setvar. destruct (index_of_In "HR" VARLIST ltac:(cbn; tauto)) as [i [Ei _]]. rewrite Ei. cbn [bind]. change (mem "HR" ["YR"; "DY"; "HR"]) with true. cbn iota.
    set (r0 := with_data r (update_nth i (Some 0%Q) (r_data r))).
    assert (X : forall n, n <> "HR" -> getvar r0 n = getvar r n).
    { intros n Hn. unfold getvar, r0. cbn [with_data r_data r_ext]. destruct (index_of n VARLIST) as [j|] eqn:Ej; [|reflexivity]. rewrite nth_update_other; [reflexivity|].
      intro K. subst j. apply index_of_nth in Ei, Ej. congruence. }
    apply C; [unfold getint; rewrite X by discriminate; exact GY|unfold getint; rewrite X by discriminate; exact GM|].
    unfold getvar, r0. rewrite Ei. cbn [with_data r_data]. rewrite nth_update_same; [reflexivity|]. apply index_of_nth in Ei. unfold wf_report in W. rewrite W. apply nth_error_Some. congruence. }
  destruct S as [r1 S]. rewrite S. cbn [bind]. pose proof (set_get_var _ _ _ _ W S) as G1. cbn in G1.
  assert (G2 : forall n, n <> "HR" -> getvar r1 n = getvar r n) by (intros; eapply set_get_other_var; eauto).
  assert (U : forall a b, calculate_dt a = Ok b -> exists dt, b = with_dt a dt).
  { intros a b H. unfold calculate_dt in H. destruct (getint a "YR"); [|injection H as <-; eauto]. destruct (getint a "MO"); [|injection H as <-; eauto]. destruct (getvar a "HR"); [|injection H as <-; eauto].
    destruct (getint a "DY"); [|injection H as <-; eauto]. destruct (0 <? z1); [|injection H as <-; eauto]. destruct (py_nth _ _); [|discriminate]. cbn [bind] in H.
    destruct (z1 <=? a0); [|injection H as <-; eauto]. destruct (mk_datetime _ _ _ _ _); [|discriminate]. cbn [bind] in H. injection H as <-. eauto. }
  destruct (C r1) as [r2 C2]; [unfold getint; rewrite G2 by discriminate; exact GY|unfold getint; rewrite G2 by discriminate; exact GM|exact G1|].
  exists r2. split; [exact C2|]. destruct (U _ _ C2) as [dt ->]. split; [exact (setvar_wf _ _ _ _ W S)|]. split; [exact G1|]. split; [exact G2|].
  unfold setvar in S. destruct (index_of "HR" VARLIST) as [i|]; [|discriminate]. cbn [bind] in S. change (mem "HR" ["YR"; "DY"; "HR"]) with true in S. cbn iota in S.
  destruct (U _ _ S) as [dt' ->]. repeat split.
Qed.

(* ---- qc.base_qc_report ---- *)

Section Old.
Variable elev : Z -> Z -> Q -> Q -> Q -> Q -> Q.
Hypothesis He : elevation_like elev.
Variable o : seen.
Hypothesis Hc : coords o.
Hypothesis Hm : month_known o.
Hypothesis Ht : timed o.

Definition old_rest (r : report) : res report :=
  let! r := is_deck_780 r in
  let! r := set_qc_r r "POS" "pos" (position_check (ox (lat r)) (ox (lon r))) in
  let! r := do_date_check r in
  let! r := (if (get_qc r "POS" "pos" =? 0) && (get_qc r "POS" "date" =? 0)
             then set_qc_r r "POS" "day" (day_of elev r 1) else set_qc r "POS" "day" 1) in
  let! r := do_blacklist r in
  let! r := set_qc r "SST" "noval" (value_check (getvar r "SST")) in
  let! r := set_qc_r r "SST" "freez" (sst_freeze_check (ox (getvar r "SST")) (Some (Fin 0)) (Some (Fin (-9 # 5)%Q)) (Fin 2)) in
  let! r := set_qc r "SST" "clim" (climatology_check (ox (getvar r "SST")) (ox (getnorm r "SST")) (Some (Fin 8))) in
  let! r := set_qc r "SST" "nonorm" (no_normal_check (getnorm r "SST")) in
  let! r := set_qc r "AT" "noval" (value_check (getvar r "AT")) in
  let! r := set_qc r "AT" "clim" (climatology_check (ox (getvar r "AT")) (ox (getnorm r "AT")) (Some (Fin 10))) in
  set_qc r "AT" "nonorm" (no_normal_check (getnorm r "AT")).
Lemma bind_assoc : forall A B C (x : res A) (f : A -> res B) (g : B -> res C), bind (bind x f) g = bind x (fun a => bind (f a) g).
Proof. intros. now destruct x. Qed.
Lemma old_shape : forall r, base_qc_report elev r =
  (let! r := (if int_in (getint r "PT") [6; 7] then set_qc r "POS" "isbuoy" 1 else set_qc r "POS" "isbuoy" 0) in
   let! r := is_ship r in let! r := mat_source "POS" 1893 r in old_rest r).
Proof.
  intro r. unfold base_qc_report, mat_source, old_rest. destruct (if int_in (getint r "PT") [6; 7] then _ else _) as [r1|]; [|reflexivity]. cbn [bind].
  destruct (is_ship r1) as [r2|]; [|reflexivity]. cbn [bind]. rewrite !bind_assoc. destruct (set_qc r2 "POS" "mat_blacklist" 0) as [r3|]; [|reflexivity]. cbn [bind]. rewrite !bind_assoc. reflexivity.
Qed.

Lemma old_after : after [] (base_qc_report elev) o (old_flags elev o).
Proof.
  assert (X : after [] (fun r => let! r := (if int_in (getint r "PT") [6; 7] then set_qc r "POS" "isbuoy" 1 else set_qc r "POS" "isbuoy" 0) in
   let! r := is_ship r in let! r := mat_source "POS" 1893 r in old_rest r) o (old_flags elev o)).
  2: { intros r S E. rewrite old_shape. exact (X r S E). }
  unfold old_flags, old_rest.
  apply (chain o [] (fun r => if int_in (getint r "PT") [6; 7] then set_qc r "POS" "isbuoy" 1 else set_qc r "POS" "isbuoy" 0) _ [_]); [| |reflexivity|reflexivity].
  { apply (leaf_if o _ "POS" "isbuoy" _ (fun r => int_in (getint r "PT") [6; 7])); [reflexivity|]. intros r <-. apply int_in_one. pt. }
  apply (chain o _ is_ship _ [_]); [apply is_ship_after| |reflexivity|reflexivity].
  apply (chain o _ (mat_source "POS" 1893) _ [_]); [apply mat_source_after; reflexivity| |reflexivity|reflexivity].
  apply (chain o _ is_deck_780 _ [_]); [apply is_780_after| |reflexivity|reflexivity].
  apply (chain o _ (fun r => set_qc_r r "POS" "pos" (position_check (ox (lat r)) (ox (lon r)))) _ [_]); [| |reflexivity|reflexivity].
  { apply (leaf_r o _ "POS" "pos" _ (fun r => position_check (ox (lat r)) (ox (lon r)))); [reflexivity|]. intros r S. destruct Hc as [la [lo [A B]]]. rewrite <- S in *. cbn [seen_of s_var] in A, B.
    assert (L1 : lat r = Some la) by exact A. destruct (lon r) as [l|] eqn:L2; [|unfold lon in L2; rewrite B in L2; discriminate]. rewrite L1. cbn [ox].
    destruct (position_decides la l) as [z [E D]]. exists z. split; [exact E|]. eapply decides_iff; [exact D|]. unfold on_earth_west. split; intros K H; apply K.
    - destruct H as [a [b [Pl Z]]]. apply place_inv in Pl. destruct Pl as [P1 [l2 [P2 P3]]]. assert (a = la) by congruence. assert (l2 = l) by congruence. subst. lra.
    - exists la, l. split; [now apply place_of|exact H]. }
  apply (chain o _ do_date_check _ [_]); [apply date_after, Hm| |reflexivity|reflexivity].
  apply (chain o _ (fun r => if (get_qc r "POS" "pos" =? 0) && (get_qc r "POS" "date" =? 0) then set_qc_r r "POS" "day" (day_of elev r 1) else set_qc r "POS" "day" 1) _ [_]); [| |reflexivity|reflexivity].
  { intros r S E. assert (EP : decides (get_qc r "POS" "pos") (~ on_earth_west o)) by (apply (established_in r _ ("POS", "pos", ~ on_earth_west o) E); cbn; tauto).
    assert (ED : decides (get_qc r "POS" "date") (~ dated o)) by (apply (established_in r _ ("POS", "date", ~ dated o) E); cbn; tauto).
    destruct EP as [[-> P]|[-> P]]; [|destruct ED as [[-> D]|[-> D]]]; cbn [Z.eqb andb].
    1, 2: exists [("POSday", 1)]; (split; [apply set_known; [now right|reflexivity]|]); apply (one_realises "POS" "day"); left; split; [reflexivity|left; tauto].
    destruct Hc as [la [lo [A B]]]. destruct Ht as [h [Hh HH]]. rewrite <- S in *. cbn [seen_of s_var] in *.
    assert (L1 : lat r = Some la) by exact A. destruct (lon r) as [l|] eqn:L2; [|unfold lon in L2; rewrite B in L2; discriminate].
    assert (LA : (-90 <= la <= 90)%Q). { destruct (qle_dec (-90) la), (qle_dec la 90); try (exfalso; apply P; intros [a [b [X Z]]]; apply place_inv in X; destruct X as [X _]; rewrite L1 in X; injection X as <-; lra). auto. }
    destruct (day_value elev He r 1 h la l ltac:(lra) D Hh HH L1 LA L2) as [z [Ez Dz]]. unfold set_qc_r. rewrite Ez. cbn [bind].
    exists [("POSday", z)]. split; [apply set_known; [eapply decides_bit; eauto|reflexivity]|]. apply (one_realises "POS" "day").
    eapply decides_iff; [exact Dz|]. split; [now right|]. intros [X|X]; [exfalso; tauto|exact X]. }
  apply (chain o _ do_blacklist _ [_]); [apply blacklist_after; [exact Hc|exact Hm]| |reflexivity|reflexivity].
  apply (chain o _ (fun r => set_qc r "SST" "noval" (value_check (getvar r "SST"))) _ [_]); [| |reflexivity|reflexivity].
  { apply (leaf o _ _ _ _ (fun r => value_check (getvar r "SST"))); [reflexivity|]. intros r <-. apply value_decides. }
  apply (chain o _ (fun r => set_qc_r r "SST" "freez" (sst_freeze_check (ox (getvar r "SST")) (Some (Fin 0)) (Some (Fin (-9 # 5)%Q)) (Fin 2))) _ [_]); [| |reflexivity|reflexivity].
  { apply (leaf_r o _ _ _ _ (fun r => sst_freeze_check (ox (getvar r "SST")) (Some (Fin 0)) (Some (Fin (-9 # 5)%Q)) (Fin 2))); [reflexivity|]. intros r <-. apply freeze_decides. }
  apply (chain o _ (fun r => set_qc r "SST" "clim" (climatology_check (ox (getvar r "SST")) (ox (getnorm r "SST")) (Some (Fin 8)))) _ [_]); [| |reflexivity|reflexivity].
  { apply (leaf o _ _ _ _ (fun r => climatology_check (ox (getvar r "SST")) (ox (getnorm r "SST")) (Some (Fin 8)))); [reflexivity|]. intros r <-. apply clim_decides. }
  apply (chain o _ (fun r => set_qc r "SST" "nonorm" (no_normal_check (getnorm r "SST"))) _ [_]); [| |reflexivity|reflexivity].
  { apply (leaf o _ _ _ _ (fun r => no_normal_check (getnorm r "SST"))); [reflexivity|]. intros r <-. apply normal_decides. }
  apply (chain o _ (fun r => set_qc r "AT" "noval" (value_check (getvar r "AT"))) _ [_]); [| |reflexivity|reflexivity].
  { apply (leaf o _ _ _ _ (fun r => value_check (getvar r "AT"))); [reflexivity|]. intros r <-. apply value_decides. }
  apply (chain o _ (fun r => set_qc r "AT" "clim" (climatology_check (ox (getvar r "AT")) (ox (getnorm r "AT")) (Some (Fin 10)))) _ [_]); [| |reflexivity|reflexivity].
  { apply (leaf o _ _ _ _ (fun r => climatology_check (ox (getvar r "AT")) (ox (getnorm r "AT")) (Some (Fin 10)))); [reflexivity|]. intros r <-. apply clim_decides. }
  apply (leaf o _ _ _ _ (fun r => no_normal_check (getnorm r "AT"))); [reflexivity|]. intros r <-. apply normal_decides.
Qed.
End Old.
