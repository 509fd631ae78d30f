(** The steps of base QC, each with the flags it sets, and their composition. *)
Require Import String ZArith QArith Qround Qabs List Bool Lia Lqa.
Require Import Verif.M_Base Verif.L_Base Verif.S_Calendar Verif.M_Calendar Verif.L_Calendar Verif.L_Calendar2 Verif.L_Grid Verif.S_Checks Verif.M_Checks Verif.L_Checks
  Verif.M_Report Verif.S_Report Verif.L_Report Verif.L_Report3 Verif.M_Sun Verif.S_Sun Verif.L_Sun Verif.M_BaseQC Verif.S_BaseQC Verif.L_BaseQC.
Import ListNotations.
Open Scope string_scope.
Open Scope list_scope.
Open Scope Z_scope.

Definition entry := (string * string * Prop)%type.
Definition key (e : entry) : string := (fst (fst e) ++ snd (fst e))%string.
Definition keys (t : list entry) : list string := map key t.
Definition established (r : report) (t : list entry) : Prop := Forall (fun e => decides (get_qc r (fst (fst e)) (snd (fst e))) (snd e)) t.
Definition realises (l : list (string * Z)) (t : list entry) : Prop :=
  Forall (fun e => exists z, assoc (key e) l = Some z /\ decides z (snd e)) t /\ forall k, assoc k l <> None -> In k (keys t).
Definition apart (a b : list string) : bool := forallb (fun k => negb (mem k b)) a.
(** After the flags [t0] are established, [f] sets exactly the flags [t] of a report that shows [o]. *)
Definition after (t0 : list entry) (f : report -> res report) (o : seen) (t : list entry) : Prop :=
  forall r, seen_of r = o -> established r t0 -> exists l, f r = Ok (with_qc r (l ++ r_qc r)) /\ realises l t.

Lemma apart_spec : forall a b, apart a b = true -> forall k, In k a -> ~ In k b.
Proof. intros a b H k I J. unfold apart in H. rewrite forallb_forall in H. specialize (H k I). apply negb_true_iff in H. apply mem_false in H. auto. Qed.
Lemma assoc_app : forall A k (a b : list (string * A)), assoc k (a ++ b) = match assoc k a with Some v => Some v | None => assoc k b end.
Proof. intros A k a b. induction a as [|[k' v] a IH]; cbn [app assoc]; [reflexivity|]. now destruct (String.eqb k k'). Qed.
Lemma in_keys : forall e t, In e t -> In (key e) (keys t).
Proof. intros. now apply in_map. Qed.
Lemma get_qc_key : forall r e, get_qc r (fst (fst e)) (snd (fst e)) = match assoc (key e) (r_qc r) with Some v => v | None => 9 end.
Proof. reflexivity. Qed.

Lemma established_new : forall r l t, realises l t -> established (with_qc r (l ++ r_qc r)) t.
Proof.
  intros r l t [H _]. unfold established. rewrite Forall_forall in *. intros e I. destruct (H e I) as [z [A B]].
  rewrite get_qc_key. cbn [with_qc r_qc]. rewrite assoc_app, A. exact B.
Qed.
Lemma established_old : forall r l t0 t, realises l t -> apart (keys t0) (keys t) = true -> established r t0 -> established (with_qc r (l ++ r_qc r)) t0.
Proof.
  intros r l t0 t [_ H] D E. unfold established in *. rewrite Forall_forall in *. intros e I. specialize (E e I).
  rewrite get_qc_key in *. cbn [with_qc r_qc]. rewrite assoc_app. destruct (assoc (key e) l) eqn:X; [|exact E].
  exfalso. apply (apart_spec _ _ D (key e)); [now apply in_keys|]. apply H. congruence.
Qed.
Lemma established_app : forall r a b, established r a -> established r b -> established r (a ++ b).
Proof. intros. unfold established. apply Forall_app. auto. Qed.
Lemma established_in : forall r t e, established r t -> In e t -> decides (get_qc r (fst (fst e)) (snd (fst e))) (snd e).
Proof. intros r t e H I. unfold established in H. rewrite Forall_forall in H. auto. Qed.

Lemma realises_app : forall l1 t1 l2 t2, realises l1 t1 -> realises l2 t2 -> apart (keys t1) (keys t2) = true -> realises (l2 ++ l1) (t1 ++ t2).
Proof.
  intros l1 t1 l2 t2 [A1 B1] [A2 B2] D. split.
  - apply Forall_app. split; rewrite Forall_forall in *.
    + intros e I. destruct (A1 e I) as [z [X Y]]. exists z. split; [|exact Y]. rewrite assoc_app. destruct (assoc (key e) l2) eqn:K; [|exact X].
      exfalso. apply (apart_spec _ _ D (key e)); [now apply in_keys|]. apply B2. congruence.
    + intros e I. destruct (A2 e I) as [z [X Y]]. exists z. split; [|exact Y]. rewrite assoc_app, X. reflexivity.
  - intros k K. unfold keys. rewrite map_app. apply in_or_app. rewrite assoc_app in K. destruct (assoc k l2) eqn:E.
    + right. apply B2. congruence.
    + left. now apply B1.
Qed.

Lemma chain : forall o t0 f g t1 t2, after t0 f o t1 -> after (t0 ++ t1) g o t2 ->
  apart (keys t0) (keys t1) = true -> apart (keys t1) (keys t2) = true -> after t0 (fun r => bind (f r) g) o (t1 ++ t2).
Proof.
  intros o t0 f g t1 t2 F G D1 D2 r S E. destruct (F r S E) as [l1 [A R1]]. rewrite A. cbn [bind].
  assert (S' : seen_of (with_qc r (l1 ++ r_qc r)) = o) by exact S.
  assert (E' : established (with_qc r (l1 ++ r_qc r)) (t0 ++ t1)) by (apply established_app; [eapply established_old; eauto|now apply established_new]).
  destruct (G _ S' E') as [l2 [B R2]]. exists (l2 ++ l1). split; [|now apply realises_app].
  rewrite B. unfold with_qc. cbn [r_id r_uid r_data r_dt r_qc r_ext r_clim]. rewrite app_assoc. reflexivity.
Qed.

Lemma set_known : forall r t f z, bit z -> mem t special_qc_types || mem t VARLIST = true -> set_qc r t f z = Ok (with_qc r (((t ++ f)%string, z) :: r_qc r)).
Proof. intros r t f z B K. unfold set_qc. rewrite K. destruct B as [-> | ->]; reflexivity. Qed.

Lemma one_realises : forall t f z P, decides z P -> realises [((t ++ f)%string, z)] [(t, f, P)].
Proof.
  intros t f z P D. split.
  - constructor; [|constructor]. exists z. unfold key. cbn [fst snd assoc]. rewrite String.eqb_refl. auto.
  - intros k K. cbn [assoc] in K. destruct (String.eqb k (t ++ f)) eqn:E; [|congruence]. apply String.eqb_eq in E. subst. now left.
Qed.
Lemma two_realises : forall t f z z' P, decides z P -> realises [((t ++ f)%string, z); ((t ++ f)%string, z')] [(t, f, P)].
Proof.
  intros t f z z' P D. split.
  - constructor; [|constructor]. exists z. unfold key. cbn [fst snd assoc]. rewrite String.eqb_refl. auto.
  - intros k K. cbn [assoc] in K. destruct (String.eqb k (t ++ f)) eqn:E; [|congruence]. apply String.eqb_eq in E. subst. now left.
Qed.
Lemma three_realises : forall t f z z' z'' P, decides z P -> realises [((t ++ f)%string, z); ((t ++ f)%string, z'); ((t ++ f)%string, z'')] [(t, f, P)].
Proof.
  intros t f z z' z'' P D. split.
  - constructor; [|constructor]. exists z. unfold key. cbn [fst snd assoc]. rewrite String.eqb_refl. auto.
  - intros k K. cbn [assoc] in K. destruct (String.eqb k (t ++ f)) eqn:E; [|congruence]. apply String.eqb_eq in E. subst. now left.
Qed.

Lemma leaf : forall o t0 t f P (val : report -> Z), mem t special_qc_types || mem t VARLIST = true ->
  (forall r, seen_of r = o -> decides (val r) P) -> after t0 (fun r => set_qc r t f (val r)) o [(t, f, P)].
Proof.
  intros o t0 t f P val K H r S _. specialize (H r S). exists [((t ++ f)%string, val r)]. split; [|now apply one_realises].
  apply set_known; [eapply decides_bit; eauto|exact K].
Qed.
Lemma leaf_r : forall o t0 t f P (val : report -> res Z), mem t special_qc_types || mem t VARLIST = true ->
  (forall r, seen_of r = o -> exists z, val r = Ok z /\ decides z P) -> after t0 (fun r => set_qc_r r t f (val r)) o [(t, f, P)].
Proof.
  intros o t0 t f P val K H r S _. destruct (H r S) as [z [E D]]. exists [((t ++ f)%string, z)]. split; [|now apply one_realises].
  unfold set_qc_r. rewrite E. cbn [bind]. apply set_known; [eapply decides_bit; eauto|exact K].
Qed.
(** [if c then set 1 else set 0]. *)
Lemma leaf_if : forall o t0 t f P (c : report -> bool), mem t special_qc_types || mem t VARLIST = true ->
  (forall r, seen_of r = o -> (c r = true <-> P)) -> after t0 (fun r => if c r then set_qc r t f 1 else set_qc r t f 0) o [(t, f, P)].
Proof.
  intros o t0 t f P c K H r S _. specialize (H r S). exists [((t ++ f)%string, if c r then 1 else 0)]. split; [|apply one_realises, decides_bool, H].
  destruct (c r); apply set_known; auto; [now right|now left].
Qed.

Ltac pt := cbn; tauto.
Lemma is_buoy_after : forall o t0, apart (keys t0) ["POSisbuoy"; "POSisdrifter"] = true -> after t0 is_buoy o
  [("POS", "isbuoy", one_of o "PT" [6; 7]); ("POS", "isdrifter", one_of o "PT" [7])].
Proof.
  intros o t0 D. unfold is_buoy.
  apply (chain o t0 (fun r => if int_in (getint r "PT") [6; 7] then set_qc r "POS" "isbuoy" 1 else set_qc r "POS" "isbuoy" 0)
    (fun r => if int_is (getint r "PT") 7 then set_qc r "POS" "isdrifter" 1 else set_qc r "POS" "isdrifter" 0)
    [("POS", "isbuoy", one_of o "PT" [6; 7])] [("POS", "isdrifter", one_of o "PT" [7])]).
  - apply (leaf_if o t0 "POS" "isbuoy" _ (fun r => int_in (getint r "PT") [6; 7])); [reflexivity|]. intros r <-. apply int_in_one. pt.
  - apply (leaf_if o _ "POS" "isdrifter" _ (fun r => int_is (getint r "PT") 7)); [reflexivity|]. intros r <-. unfold int_is. apply int_in_one. pt.
  - unfold apart in *. rewrite forallb_forall in *. intros k I. specialize (D k I). cbn [mem existsb keys map key] in *. unfold key. cbn [fst snd].
    destruct (String.eqb k "POSisbuoy") eqn:E; [cbn in D; discriminate|]. change ("POS" ++ "isbuoy")%string with "POSisbuoy". rewrite E. reflexivity.
  - reflexivity.
Qed.
Lemma is_ship_after : forall o t0, after t0 is_ship o [("POS", "isship", one_of o "PT" ship_platforms)].
Proof. intros o t0. apply (leaf_if o t0 "POS" "isship" _ (fun r => int_in (getint r "PT") ship_platforms)); [reflexivity|]. intros r <-. apply int_in_one. pt. Qed.
Lemma is_780_after : forall o t0, after t0 is_deck_780 o [("POS", "is780", one_of o "DCK" [780])].
Proof. intros o t0. apply (leaf_if o t0 "POS" "is780" _ (fun r => int_is (getint r "DCK") 780)); [reflexivity|]. intros r <-. unfold int_is. apply int_in_one. pt. Qed.

Definition coords (o : seen) : Prop := exists la lo, s_var o "LAT" = Some la /\ s_var o "LON" = Some lo.
Definition month_known (o : seen) : Prop := exists y m, number o "YR" y /\ number o "MO" m /\ 1 <= m <= 12.

Lemma position_decides : forall la lo, exists z, position_check (Some (Fin la)) (Some (Fin lo)) = Ok z /\ decides z (~ ((-90 <= la <= 90)%Q /\ (-180 <= lo <= 360)%Q)).
Proof.
  intros la lo. destruct (position_check_fin la lo) as [A B].
  assert (D : (-90 <= la /\ la <= 90 /\ -180 <= lo /\ lo <= 360)%Q \/ ~ (-90 <= la /\ la <= 90 /\ -180 <= lo /\ lo <= 360)%Q).
  { destruct (qle_dec (-90) la), (qle_dec la 90), (qle_dec (-180) lo), (qle_dec lo 360); tauto. }
  destruct D as [D|D]; [exists 0|exists 1]; (split; [tauto|]); [right|left]; (split; [reflexivity|tauto]).
Qed.
Lemma pos_after : forall o t0, coords o -> after t0 do_position_check o [("POS", "pos", ~ on_earth o)].
Proof.
  intros o t0 [la [lo [A B]]]. apply (leaf_r o t0 "POS" "pos" _ (fun r => position_check (ox (getvar r "LAT")) (ox (getvar r "LON")))); [reflexivity|].
  intros r S. subst o. cbn [seen_of s_var] in *. rewrite A, B. cbn [ox]. destruct (position_decides la lo) as [z [E D]]. exists z. split; [exact E|].
  eapply decides_iff; [exact D|]. unfold on_earth. cbn [seen_of s_var]. split; intros K H; apply K.
  - destruct H as [a [b [X [Y Z]]]]. congruence.
  - exists la, lo. tauto.
Qed.
Lemma valid_dec : forall d, 1 <= mo d <= 12 -> valid d \/ ~ valid d.
Proof.
  intros [y m d] H. cbn [mo] in H. destruct (L_Sun.py_nth_prefix y m H) as [n [_ M]]. assert (1 <= d <= n \/ ~ 1 <= d <= n) as [K|K] by lia.
  - left. exists n. auto.
  - right. intros [n' [A B]]. cbn [yr mo dy] in *. rewrite (month_has_det y m n n' M A) in K. auto.
Qed.
Lemma date_after : forall o t0, month_known o -> after t0 do_date_check o [("POS", "date", ~ dated o)].
Proof.
  intros o t0 [y [m [Y [M R]]]]. apply (leaf_r o t0 "POS" "date" _ (fun r => date_check (getint r "YR") (getint r "MO") (getint r "DY"))); [reflexivity|].
  intros r S. subst o. assert (GY := Y). assert (GM := M). apply int_number in GY; [|pt]. apply int_number in GM; [|pt]. rewrite GY, GM.
  destruct (getint r "DY") as [d|] eqn:GD.
  - destruct (date_check_valid_month y m d R) as [A B].
    assert (D : (valid (mkdate y m d) /\ 1850 <= y <= 2024) \/ ~ (valid (mkdate y m d) /\ 1850 <= y <= 2024)).
    { destruct (valid_dec (mkdate y m d) R); [|tauto]. assert (1850 <= y <= 2024 \/ ~ 1850 <= y <= 2024) by lia. tauto. }
    destruct D as [D|D]; [exists 0|exists 1]; (split; [tauto|]); [right|left]; (split; [reflexivity|]).
    + intro K. apply K. exists (mkdate y m d). split; [|exact D]. repeat split; cbn [yr mo dy]; auto. apply int_number; [pt|exact GD].
    + intros [d0 [[Y' [M' D']] V]]. apply D. apply int_number in D'; [|pt]. rewrite GD in D'. injection D' as E.
      assert (y = yr d0) by (eapply number_fun; eauto). assert (m = mo d0) by (eapply number_fun; eauto). destruct d0 as [a0 b0 c0]. cbn [yr mo dy] in *. subst. exact V.
  - exists 1. split; [apply date_check_no_day|]. left. split; [reflexivity|]. intros [d0 [[_ [_ D']] _]]. apply int_number in D'; [|pt]. congruence.
Qed.
Lemma time_after : forall o t0, after t0 do_time_check o [("POS", "time", ~ timed o)].
Proof.
  intros o t0. apply (leaf o t0 "POS" "time" _ (fun r => time_check (ox (getvar r "HR")))); [reflexivity|]. intros r <-. unfold timed. cbn [seen_of s_var].
  destruct (getvar r "HR") as [h|]; cbn [ox].
  - destruct (time_check_spec h) as [A [B _]]. assert ((0 <= h /\ h < 24)%Q \/ ~ (0 <= h /\ h < 24)%Q) as [D|D].
    { destruct (qle_dec 0 h); [|tauto]. destruct (Qlt_le_dec h 24); [tauto|]. right. lra. }
    + right. split; [tauto|]. intro K. apply K. exists h. auto.
    + left. split; [tauto|]. intros [x [X Y]]. injection X as <-. tauto.
  - left. split; [reflexivity|]. intros [x [X _]]. discriminate.
Qed.
Lemma blacklist_after : forall o t0, coords o -> month_known o -> after t0 do_blacklist o [("POS", "blklst", bad_source o)].
Proof.
  intros o t0 [la [lo [A B]]] [y [m [Y [M R]]]] r S _. subst o. cbn [seen_of s_var] in A, B.
  assert (GY := Y). assert (GM := M). apply int_number in GY; [|pt]. apply int_number in GM; [|pt].
  unfold do_blacklist. rewrite GY, GM. assert (L1 : lat r = Some la) by exact A. rewrite L1.
  destruct (lon r) as [l|] eqn:L2; [|unfold lon in L2; rewrite B in L2; discriminate].
  set (l' := if Qltb 180 l then (l - 360)%Q else l).
  assert (W : west l l') by (unfold west, l'; destruct (Qltb 180 l) eqn:E; qprop; [right|left]; (split; [exact E|reflexivity])).
  destruct (blacklist_spec' (r_id r) (getint r "DCK") y m la l l' (getint r "PT")) as [z [E [Bz Iff]]].
  { intro K. unfold l'. assert (Qltb 180 l = false) as -> by now apply Qltb_false. reflexivity. }
  { intro K. unfold l'. assert (Qltb 180 l = true) as -> by now apply Qltb_true. reflexivity. }
  assert (D : decides z (bad_source (seen_of r))).
  { assert (K : bad_source (seen_of r) <-> blacklisted (r_id r) (getint r "DCK") y m la l' (getint r "PT")).
    { split.
      - intros [la2 [lo2 [lo3 [y2 [m2 [dk [pt2 [P [Q [Y2 [M2 [DK [PT H]]]]]]]]]]]]].
        apply place_inv in P. destruct P as [P1 [l2 [P2 P3]]]. rewrite L1 in P1. injection P1 as <-. rewrite L2 in P2. injection P2 as <-.
        rewrite (number_fun _ _ _ _ Y Y2), (number_fun _ _ _ _ M M2). rewrite (opt_number_inv r "DCK" dk) by (auto; pt). rewrite (opt_number_inv r "PT" pt2) by (auto; pt).
        eapply blacklisted_ext; [|exact H]. apply west_fun with l; [|exact W]. apply (west_ext lo2); [symmetry; exact P3|exact Q].
      - intro H. exists la, l, l', y, m, (getint r "DCK"), (getint r "PT"). split; [now apply place_of|]. split; [exact W|]. split; [exact Y|]. split; [exact M|].
        split; [apply opt_number; pt|]. split; [apply opt_number; pt|]. exact H. }
    destruct Bz as [-> | ->]; [right|left]; (split; [reflexivity|]); rewrite K; [|now apply Iff]. intro X. apply Iff in X. discriminate. }
  exists [("POSblklst", z)]. split; [|now apply (one_realises "POS" "blklst")].
  unfold set_qc_r. rewrite E. cbn [bind]. apply set_known; [eapply decides_bit; eauto|reflexivity].
Qed.

Section Day.
Variable elev : Z -> Z -> Q -> Q -> Q -> Q -> Q.
Hypothesis He : elevation_like elev.

Lemma dated_inv : forall r, ~ ~ dated (seen_of r) -> exists d, on_date (seen_of r) d /\ valid d /\ getint r "YR" = Some (yr d) /\ getint r "MO" = Some (mo d) /\ getint r "DY" = Some (dy d).
Proof.
  intros r D. destruct (getint r "YR") as [y|] eqn:GY, (getint r "MO") as [m|] eqn:GM, (getint r "DY") as [d|] eqn:GD.
  all: try (exfalso; apply D; intros [d0 [[Y' [M' D']] _]]; apply int_number in Y'; [|pt]; apply int_number in M'; [|pt]; apply int_number in D'; [|pt]; congruence).
  exists (mkdate y m d). cbn [yr mo dy]. split; [repeat split; cbn [yr mo dy]; apply int_number; auto; pt|]. split; [|auto].
  assert (K : 1 <= m <= 12 \/ ~ 1 <= m <= 12) by lia. destruct K as [K|K].
  - destruct (valid_dec (mkdate y m d) K) as [V|V]; [exact V|]. exfalso. apply D. intros [d0 [[Y' [M' D']] [V' _]]].
    apply int_number in Y'; [|pt]. apply int_number in M'; [|pt]. apply int_number in D'; [|pt]. apply V. destruct d0 as [a0 b0 c0]. cbn [yr mo dy] in *. congruence.
  - exfalso. apply D. intros [d0 [[Y' [M' D']] [[n [V' _]] _]]]. apply int_number in M'; [|pt]. apply month_has_iff in V'. destruct V'. apply K. assert (m = mo d0) by congruence. subst. lia.
Qed.
Lemma day_value : forall r since h la l, (0 <= since <= 24)%Q -> ~ ~ dated (seen_of r) -> getvar r "HR" = Some h -> (0 <= h < 24)%Q -> lat r = Some la -> (-90 <= la <= 90)%Q -> lon r = Some l ->
  exists z, day_of elev r since = Ok z /\ decides z (sun_was_up elev since (seen_of r)).
Proof.
  intros r since h la l SI D Hh [H0 H1] L1 LA L2. destruct (dated_inv r D) as [d [OD [V [GY [GM GD]]]]].
  unfold day_of. rewrite L2, L1, GY, GM, GD, Hh.
  destruct (instant_exists d h since V H0 H1 SI) as [d' [hh [mm [I [Ho [Mm [V' _]]]]]]]. destruct (dayinyear_ok d' V') as [k [_ [Kn _]]].
  assert (H24 : (0 <= h <= 24)%Q) by lra.
  destruct (day_test_ok elev He d h la l since d' hh mm k _ _ V H24 LA I Ho Kn (off_zero_aside la) (off_zero_aside l)) as [z [Ez Dz]].
  exists z. split; [exact Ez|].
  destruct Dz as [[-> U]|[-> U]]; [left|right]; (split; [reflexivity|]).
  - exists d, h, la, l, d', hh, mm, k, (off_zero la), (off_zero l). split; [exact OD|]. split; [exact Hh|]. split; [now apply place_of|].
    repeat (split; [first [exact I | exact Ho | exact Kn | apply off_zero_aside]|]). exact U.
  - intro X. destruct X as [d2 [h2 [la2 [lo2 [d2' [hh2 [mm2 [k2 [la2' [lo2' [OD2 [Hh2 [P2 [I2 [Ho2 [Kn2 [As1 [As2 U2]]]]]]]]]]]]]]]]]].
    assert (d2 = d). { destruct OD as [Y1 [M1 D1]], OD2 as [Y2 [M2 D2]]. destruct d as [a0 b0 c0], d2 as [a2 b2 c2]. cbn [yr mo dy] in *. f_equal; eapply number_fun; eauto. }
    cbn [seen_of s_var] in Hh2. assert (h2 = h) by congruence. subst d2 h2. apply place_inv in P2. destruct P2 as [P2 [l2 [P3 P4]]]. rewrite L1 in P2. injection P2 as <-.
    rewrite L2 in P3. injection P3 as <-. pose proof (aside_ext lo2 l lo2' (Qeq_sym _ _ P4) As2) as As3.
    destruct (day_test_ok elev He d h la l since d2' hh2 mm2 k2 la2' lo2' V H24 LA I2 Ho2 Kn2 As1 As3) as [z2 [Ez2 [[-> _]|[-> N]]]].
    + rewrite Ez in Ez2. discriminate.
    + lra.
Qed.
Lemma day_after : forall o t0 since, coords o -> (0 <= since <= 24)%Q ->
  In ("POS", "pos", ~ on_earth o) t0 -> In ("POS", "date", ~ dated o) t0 -> In ("POS", "time", ~ timed o) t0 ->
  after t0 (do_day_check elev since) o [("POS", "day", ~ (on_earth o /\ dated o /\ timed o) \/ sun_was_up elev since o)].
Proof.
  intros o t0 since [la [lo [A B]]] SI IP ID IT r S E. pose proof (established_in _ _ _ E IP) as EP. pose proof (established_in _ _ _ E ID) as ED. pose proof (established_in _ _ _ E IT) as ET.
  cbn [fst snd] in EP, ED, ET. unfold do_day_check.
  destruct EP as [[-> P]|[-> P]]; [|destruct ED as [[-> D]|[-> D]]; [|destruct ET as [[-> T]|[-> T]]]]; cbn [Z.eqb andb].
  1, 2, 3: exists [("POSday", 1)]; (split; [apply set_known; [now right|reflexivity]|]); apply (one_realises "POS" "day"); left; split; [reflexivity|left; tauto].
  assert (LA : (-90 <= la <= 90)%Q). { destruct (qle_dec (-90) la), (qle_dec la 90); try (exfalso; apply P; intros [a [b [X [Y Z]]]]; rewrite A in X; injection X as <-; lra). auto. }
  assert (HT : exists h, s_var o "HR" = Some h /\ (0 <= h < 24)%Q).
  { destruct (s_var o "HR") as [h|] eqn:Hh; [|exfalso; apply T; intros [h [X _]]; congruence].
    exists h. split; [reflexivity|]. destruct (qle_dec 0 h); [|exfalso; apply T; intros [h' [X Y]]; assert (h' = h) by congruence; subst; lra].
    destruct (Qlt_le_dec h 24); [auto|]. exfalso. apply T. intros [h' [X Y]]. assert (h' = h) by congruence. subst. lra. }
  destruct HT as [h [Hh HH]]. subst o. cbn [seen_of s_var] in *.
  assert (L1 : lat r = Some la) by exact A. destruct (lon r) as [l|] eqn:L2; [|unfold lon in L2; rewrite B in L2; discriminate].
  destruct (day_value r since h la l SI D Hh HH L1 LA L2) as [z [Ez Dz]]. unfold set_qc_r. rewrite Ez. cbn [bind].
  exists [("POSday", z)]. split; [apply set_known; [eapply decides_bit; eauto|reflexivity]|]. apply (one_realises "POS" "day").
  eapply decides_iff; [exact Dz|]. split; [now right|]. intros [X|X]; [exfalso; tauto|exact X].
Qed.
End Day.
