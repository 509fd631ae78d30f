(** Proofs about the single-report checks. *)
Require Import String ZArith QArith Qround Qabs List Bool Lia Lqa.
Require Import ZifyBool.
Require Import Verif.M_Base Verif.L_Base Verif.M_Checks Verif.S_Checks.
Import ListNotations.
Open Scope Z_scope.

Ltac bcase :=
  match goal with
  | |- context [if ?b then _ else _] => destruct b eqn:?
  | H : context [if ?b then _ else _] |- _ => destruct b eqn:?
  end.

Lemma x_leb_fin : forall a b, x_leb (Fin a) (Fin b) = Qleb a b.
Proof.
  intros. unfold x_leb; simpl.
  destruct (Qleb a b) eqn:E; qprop.
  - destruct (Qltb a b) eqn:F; simpl; auto. qprop. lra.
  - replace (Qltb a b) with false by (symmetry; qprop; lra). simpl. qprop. lra.
Qed.

Lemma x_abs_sub_fin : forall a b, x_abs (x_sub (Fin a) (Fin b)) = Fin (Qabs' (a + - b)).
Proof. reflexivity. Qed.

(** |a-b| as a specification: the distance of two rationals *)
Lemma Qabs'_lt : forall a l, (l < Qabs' a <-> l < a \/ l < - a)%Q.
Proof. intros a l. destruct (Qabs'_cases a) as [[H E]|[H E]]; rewrite E; lra. Qed.

Lemma climatology_check_fin : forall v c l,
  (climatology_check (Some (Fin v)) (Some (Fin c)) (Some (Fin l)) = 1 <-> (l < v - c \/ l < c - v)%Q) /\
  (climatology_check (Some (Fin v)) (Some (Fin c)) (Some (Fin l)) = 0 <-> (c - l <= v /\ v <= c + l)%Q).
Proof.
  intros v c l. unfold climatology_check. rewrite x_abs_sub_fin. simpl x_ltb.
  pose proof (Qabs'_lt (v + - c) l) as A.
  destruct (Qltb l (Qabs' (v + - c))) eqn:E; qprop; split; split; intro H; try discriminate; auto; try lra.
Qed.

Lemma climatology_check_missing : forall v c l, v = None \/ c = None \/ l = None -> climatology_check v c l = 1.
Proof. intros [v|] [c|] [l|] [H|[H|H]]; try discriminate; reflexivity. Qed.

Lemma climatology_check_bool : forall v c l, climatology_check v c l = 0 \/ climatology_check v c l = 1.
Proof. intros [v|] [c|] [l|]; simpl; try bcase; auto. Qed.

Lemma climatology_check_mono : forall v c l l', (l <= l')%Q ->
  climatology_check v c (Some (Fin l)) = 0 -> climatology_check v c (Some (Fin l')) = 0.
Proof.
  intros v c l l' H. destruct v as [v|], c as [c|]; simpl; auto; try discriminate.
  destruct (x_abs (x_sub v c)) as [q| | |] eqn:E; simpl; auto; try discriminate.
  destruct (Qltb l q) eqn:F; try discriminate. intros _.
  replace (Qltb l' q) with false; auto. symmetry. qprop. lra.
Qed.

Lemma climatology_check_nan : forall c l, climatology_check (Some NaN) (Some c) (Some l) = 0.
Proof. intros c l. unfold climatology_check. simpl. destruct l; reflexivity. Qed.

Lemma value_check_spec : forall A (v : option A), (value_check v = 1 <-> v = None) /\ (value_check v = 0 <-> v <> None).
Proof. intros A [a|]; simpl; split; split; intro; try discriminate; auto; congruence. Qed.

Lemma hard_limit_fin : forall v lo hi, (lo < hi)%Q ->
  (hard_limit (Some (Fin v)) (Fin lo, Fin hi) = Ok 0 <-> (lo <= v /\ v <= hi)%Q) /\
  (hard_limit (Some (Fin v)) (Fin lo, Fin hi) = Ok 1 <-> (v < lo \/ hi < v)%Q).
Proof.
  intros v lo hi H. unfold hard_limit. cbn [fst snd].
  rewrite py_assert_true by (simpl; qprop; assumption). rewrite bind_ok, !x_leb_fin.
  destruct (Qleb lo v && Qleb v hi) eqn:E.
  - qprop. split; split; intro G; auto; try discriminate; lra.
  - apply andb_false_iff in E. split; split; intro G; auto; try discriminate.
    + destruct E; qprop; lra.
    + destruct E; qprop; lra.
Qed.

Lemma hard_limit_bad_limits : forall v lo hi, ~ (lo < hi)%Q -> hard_limit v (Fin lo, Fin hi) = Err AssertionError.
Proof.
  intros v lo hi H. unfold hard_limit. cbn [fst snd].
  rewrite py_assert_false; [reflexivity|]. simpl. qprop. lra.
Qed.

Lemma hard_limit_missing_or_nan : forall lo hi, (lo < hi)%Q ->
  hard_limit None (Fin lo, Fin hi) = Ok 1 /\ hard_limit (Some NaN) (Fin lo, Fin hi) = Ok 1 /\
  hard_limit (Some PInf) (Fin lo, Fin hi) = Ok 1 /\ hard_limit (Some NInf) (Fin lo, Fin hi) = Ok 1.
Proof.
  intros lo hi H. unfold hard_limit. cbn [fst snd].
  rewrite py_assert_true by (simpl; qprop; assumption). rewrite !bind_ok. repeat split.
Qed.

Lemma hard_limit_mono : forall v lo hi lo' hi', (lo' <= lo)%Q -> (hi <= hi')%Q ->
  hard_limit v (Fin lo, Fin hi) = Ok 0 -> hard_limit v (Fin lo', Fin hi') = Ok 0.
Proof.
  intros v lo hi lo' hi' H1 H2 H.
  destruct (Qlt_le_dec lo hi) as [L|L].
  2: { rewrite hard_limit_bad_limits in H by lra. discriminate. }
  destruct v as [[q| | |]|].
  - apply hard_limit_fin in H; auto. apply hard_limit_fin; lra.
  - destruct (hard_limit_missing_or_nan lo hi L) as [_ [_ [E _]]]. congruence.
  - destruct (hard_limit_missing_or_nan lo hi L) as [_ [_ [_ E]]]. congruence.
  - destruct (hard_limit_missing_or_nan lo hi L) as [_ [E _]]. congruence.
  - destruct (hard_limit_missing_or_nan lo hi L) as [E _]. congruence.
Qed.

Lemma supersat_spec : forall td t,
  (supersat_check (Some (Fin td)) (Some (Fin t)) = 1 <-> (t < td)%Q) /\
  (supersat_check (Some (Fin td)) (Some (Fin t)) = 0 <-> (td <= t)%Q).
Proof.
  intros td t. simpl. destruct (Qltb t td) eqn:E; qprop; split; split; intro; auto; try discriminate; lra.
Qed.

Lemma supersat_missing : forall td t, td = None \/ t = None -> supersat_check td t = 1.
Proof. intros [td|] [t|] [H|H]; try discriminate; reflexivity. Qed.

Lemma freeze_spec : forall s u f n,
  (sst_freeze_check (Some (Fin s)) (Some (Fin u)) (Some (Fin f)) (Fin n) = Ok 1 <-> (s < f - n * u)%Q) /\
  (sst_freeze_check (Some (Fin s)) (Some (Fin u)) (Some (Fin f)) (Fin n) = Ok 0 <-> (f - n * u <= s)%Q).
Proof.
  intros s u f n. simpl. destruct (Qltb s (f + - (n * u))) eqn:E; qprop; split; split; intro; auto; try discriminate; lra.
Qed.

Lemma freeze_missing : forall u f n, sst_freeze_check None (Some u) (Some f) n = Ok 0 /\
  (forall s, sst_freeze_check s None (Some f) n = Err AssertionError) /\
  (forall s, sst_freeze_check s (Some u) None n = Err AssertionError).
Proof. intros; repeat split. Qed.

Lemma position_check_fin : forall lat lon,
  (position_check (Some (Fin lat)) (Some (Fin lon)) = Ok 0 <-> (-90 <= lat /\ lat <= 90 /\ -180 <= lon /\ lon <= 360)%Q) /\
  (position_check (Some (Fin lat)) (Some (Fin lon)) = Ok 1 <-> ~ (-90 <= lat /\ lat <= 90 /\ -180 <= lon /\ lon <= 360)%Q).
Proof.
  intros lat lon. unfold position_check. cbn [x_isnan negb py_assert]. rewrite !bind_ok. cbn [x_ltb].
  destruct (Qltb lat (-90) || Qltb 90 lat) eqn:A; destruct (Qltb lon (-180) || Qltb 360 lon) eqn:B;
  try (apply orb_true_iff in A); try (apply orb_true_iff in B);
  qprop; try (destruct A); try (destruct B); qprop; split; split; intro H'; auto; try discriminate; try lra.
Qed.

Lemma position_check_bad : forall lat lon,
  lat = None \/ lon = None \/ lat = Some NaN \/ lon = Some NaN -> position_check lat lon = Err AssertionError.
Proof.
  intros [[q| | |]|] [[p| | |]|] [H|[H|[H|H]]]; try discriminate; reflexivity.
Qed.

Lemma time_check_spec : forall h,
  (time_check (Some (Fin h)) = 0 <-> (0 <= h /\ h < 24)%Q) /\
  (time_check (Some (Fin h)) = 1 <-> ~ (0 <= h /\ h < 24)%Q) /\ time_check None = 1.
Proof.
  intro h. unfold time_check. rewrite x_leb_fin. cbn [x_ltb].
  destruct (Qleb 24 h || Qltb h 0) eqn:E.
  - apply orb_true_iff in E. split; [|split]; auto; split; intro H'; auto; try discriminate; destruct E; qprop; lra.
  - qprop. split; [|split]; auto; split; intro H'; auto; try discriminate; lra.
Qed.

(* ---- climatology with standard deviations ---- *)

(** clip s into [lo, hi] *)
Definition clip (lo hi s : Q) : Q := if Qltb s lo then lo else if Qltb hi s then hi else s.

Lemma clip_range : forall lo hi s, (lo < hi)%Q -> (lo <= clip lo hi s /\ clip lo hi s <= hi)%Q.
Proof. intros; unfold clip; repeat bcase; qprop; lra. Qed.

Lemma stdev_check_val : forall v c s lo hi k, (lo < hi)%Q -> (0 < lo)%Q -> (0 < k)%Q ->
  climatology_plus_stdev_check (Some (Fin v)) (Some (Fin c)) (Some (Fin s)) (Fin lo, Fin hi) (Fin k)
  = Ok (if Qltb (k * clip lo hi s) (Qabs' (v - c)) then 1 else 0).
Proof.
  intros v c s lo hi k H1 H2 H3. unfold climatology_plus_stdev_check. cbn [fst snd].
  rewrite py_assert_true by (simpl; qprop; assumption). rewrite bind_ok.
  rewrite py_assert_true by (simpl; qprop; assumption). rewrite bind_ok.
  pose proof (clip_range lo hi s H1) as [R1 R2].
  assert (E : (if x_ltb (Fin hi) (if x_ltb (Fin s) (Fin lo) then Fin lo else Fin s) then Fin hi
     else if x_ltb (Fin s) (Fin lo) then Fin lo else Fin s) = Fin (clip lo hi s)).
  { unfold clip; cbn [x_ltb]. destruct (Qltb s lo) eqn:A; cbn [x_ltb].
    - replace (Qltb hi lo) with false; auto. symmetry; qprop; lra.
    - destruct (Qltb hi s); auto. }
  cbv zeta. rewrite E. rewrite x_abs_sub_fin. cbn [x_div].
  replace (Qeqb (clip lo hi s) 0) with false by (symmetry; qprop; lra).
  rewrite bind_ok. cbn [x_ltb]. change (v + - c)%Q with (v - c)%Q.
  set (a := Qabs' (v - c)). set (d := clip lo hi s) in *.
  assert (D : (k < a / d <-> k * d < a)%Q).
  { split; intro L.
    - apply Qmult_lt_compat_r with (z := d) in L; [|lra].
      rewrite (Qmult_comm (a/d)), Qmult_div_r in L by lra. lra.
    - apply Qlt_shift_div_l; lra. }
  destruct (Qltb k (a / d)) eqn:F; destruct (Qltb (k * d) a) eqn:G; auto; qprop; tauto || lra.
Qed.

Lemma stdev_check_spec : forall v c s lo hi k, (lo < hi)%Q -> (0 < lo)%Q -> (0 < k)%Q ->
  (climatology_plus_stdev_check (Some (Fin v)) (Some (Fin c)) (Some (Fin s)) (Fin lo, Fin hi) (Fin k) = Ok 1 <->
   exists sd, (lo <= sd /\ sd <= hi)%Q /\
     ((lo <= s /\ s <= hi)%Q -> (sd == s)%Q) /\ ((s < lo)%Q -> (sd == lo)%Q) /\ ((hi < s)%Q -> (sd == hi)%Q) /\
     (k * sd < v - c \/ k * sd < c - v)%Q) /\
  (climatology_plus_stdev_check (Some (Fin v)) (Some (Fin c)) (Some (Fin s)) (Fin lo, Fin hi) (Fin k) = Ok 0 \/
   climatology_plus_stdev_check (Some (Fin v)) (Some (Fin c)) (Some (Fin s)) (Fin lo, Fin hi) (Fin k) = Ok 1).
Proof.
  intros v c s lo hi k H1 H2 H3. rewrite stdev_check_val by assumption.
  split; [|bcase; auto].
  pose proof (Qabs'_lt (v - c) (k * clip lo hi s)) as A.
  destruct (Qltb (k * clip lo hi s) (Qabs' (v - c))) eqn:E; qprop.
  - split; auto. intros _. exists (clip lo hi s). split; [now apply clip_range|].
    apply A in E.
    repeat split; try (unfold clip; repeat bcase; qprop; intros; lra).
    destruct E; [left|right]; lra.
  - split; [discriminate|]. intros [sd [R [S1 [S2 [S3 D]]]]]. exfalso.
    assert (Hs : (sd == clip lo hi s)%Q).
    { unfold clip. repeat bcase; qprop; auto. }
    apply Qle_not_lt in E. apply E, A. rewrite <- Hs. destruct D; [left|right]; lra.
Qed.

Lemma stdev_check_missing : forall v c s lo hi k, (lo < hi)%Q -> (0 < k)%Q ->
  v = None \/ c = None \/ s = None ->
  climatology_plus_stdev_check v c s (Fin lo, Fin hi) (Fin k) = Ok 1.
Proof.
  intros v c s lo hi k H1 H2 H. unfold climatology_plus_stdev_check. cbn [fst snd].
  rewrite py_assert_true by (simpl; qprop; assumption). rewrite bind_ok.
  rewrite py_assert_true by (simpl; qprop; assumption). rewrite bind_ok.
  destruct v, c, s; destruct H as [H|[H|H]]; try discriminate; reflexivity.
Qed.

Lemma stdev_check_raises : forall v c s lo hi k, ~ (lo < hi)%Q \/ ~ (0 < k)%Q ->
  climatology_plus_stdev_check v c s (Fin lo, Fin hi) (Fin k) = Err AssertionError.
Proof.
  intros v c s lo hi k H. unfold climatology_plus_stdev_check, py_assert. cbn [fst snd x_ltb].
  destruct (Qltb lo hi) eqn:E; [|reflexivity]. rewrite bind_ok.
  destruct (Qltb 0 k) eqn:F; [|reflexivity]. qprop. tauto.
Qed.

Lemma stdev_check_mono : forall v v' c s lo hi k k', (lo < hi)%Q -> (0 < lo)%Q -> (0 < k)%Q -> (k <= k')%Q ->
  (Qabs' (v' - c) <= Qabs' (v - c))%Q ->
  climatology_plus_stdev_check (Some (Fin v)) (Some (Fin c)) (Some (Fin s)) (Fin lo, Fin hi) (Fin k) = Ok 0 ->
  climatology_plus_stdev_check (Some (Fin v')) (Some (Fin c)) (Some (Fin s)) (Fin lo, Fin hi) (Fin k') = Ok 0.
Proof.
  intros v v' c s lo hi k k' H1 H2 H3 H4 H5. rewrite !stdev_check_val by lra.
  destruct (Qltb (k * clip lo hi s) (Qabs' (v - c))) eqn:E; [discriminate|]. intros _.
  replace (Qltb (k' * clip lo hi s) (Qabs' (v' - c))) with false; auto. symmetry. qprop.
  pose proof (clip_range lo hi s H1) as [R1 R2].
  assert (k * clip lo hi s <= k' * clip lo hi s)%Q by (apply Qmult_le_compat_r; lra). lra.
Qed.

Lemma lowbar_check_spec : forall v c s k b, (0 < k)%Q -> (0 < s)%Q ->
  (climatology_plus_stdev_with_lowbar (Some (Fin v)) (Some (Fin c)) (Some (Fin s)) (Fin k) (Fin b) = Ok 1 <->
    (k * s < Qabs' (v - c) /\ b < Qabs' (v - c))%Q) /\
  (climatology_plus_stdev_with_lowbar (Some (Fin v)) (Some (Fin c)) (Some (Fin s)) (Fin k) (Fin b) = Ok 0 <->
    (Qabs' (v - c) <= k * s \/ Qabs' (v - c) <= b)%Q).
Proof.
  intros v c s k b H1 H2. unfold climatology_plus_stdev_with_lowbar.
  rewrite py_assert_true by (simpl; qprop; assumption). rewrite bind_ok.
  rewrite x_abs_sub_fin. change (v + - c)%Q with (v - c)%Q. cbn [x_div].
  replace (Qeqb s 0) with false by (symmetry; qprop; lra). rewrite bind_ok. cbn [x_ltb].
  set (a := Qabs' (v - c)).
  assert (D : (k < a / s <-> k * s < a)%Q).
  { split; intro L.
    - apply Qmult_lt_compat_r with (z := s) in L; [|lra].
      rewrite (Qmult_comm (a/s)), Qmult_div_r in L by lra. lra.
    - apply Qlt_shift_div_l; lra. }
  destruct (Qltb k (a / s)) eqn:F; destruct (Qltb b a) eqn:G; qprop; cbn [andb]; split; split; intro K;
   auto; try discriminate; try tauto; try lra.
Qed.

Lemma lowbar_check_other : forall v c s k b,
  (~ (0 < k)%Q -> climatology_plus_stdev_with_lowbar v c s (Fin k) b = Err AssertionError) /\
  ((0 < k)%Q -> v = None \/ c = None \/ s = None -> climatology_plus_stdev_with_lowbar v c s (Fin k) b = Ok 1) /\
  ((0 < k)%Q -> forall v' c', climatology_plus_stdev_with_lowbar (Some v') (Some c') (Some (Fin 0)) (Fin k) b = Err ZeroDivisionError).
Proof.
  intros. unfold climatology_plus_stdev_with_lowbar, py_assert. cbn [x_ltb]. repeat split.
  - intro H. replace (Qltb 0 k) with false by (symmetry; qprop; lra). reflexivity.
  - intros H K. replace (Qltb 0 k) with true by (symmetry; qprop; lra). rewrite bind_ok.
    destruct v, c, s; destruct K as [K|[K|K]]; try discriminate; reflexivity.
  - intros H v' c'. replace (Qltb 0 k) with true by (symmetry; qprop; lra). rewrite bind_ok.
    destruct (x_abs (x_sub v' c')); reflexivity.
Qed.

(* ---- wind ---- *)

Lemma wind_consistency_fin : forall w d l,
  wind_consistency (Some (Fin w)) (Some (Fin d)) (Fin l) = 1 <->
  ((d == 361 /\ ~ w == 0) \/ (d == 362 /\ l < w))%Q.
Proof.
  intros w d l. unfold wind_consistency. cbn [x_eqb x_ltb].
  destruct (Qeqb d 361) eqn:A; destruct (Qeqb w 0) eqn:B; destruct (Qeqb d 362) eqn:C; destruct (Qltb l w) eqn:D;
  cbn [andb negb]; qprop; split; intro H; auto; try discriminate; try tauto; try lra.
Qed.

Lemma wind_consistency_bool : forall w d l, wind_consistency w d l = 0 \/ wind_consistency w d l = 1.
Proof. intros. unfold wind_consistency. repeat bcase; auto. Qed.

Lemma wind_consistency_missing : forall w d l,
  wind_consistency w None l = 0 /\
  (wind_consistency None (Some (Fin d)) l = 1 <-> (d == 361)%Q).
Proof.
  intros w d l. unfold wind_consistency. split; [reflexivity|].
  cbn [x_eqb]. destruct (Qeqb d 361) eqn:A; destruct (Qeqb d 362) eqn:B; simpl; qprop; split; intro H; auto; try discriminate; tauto.
Qed.

(* ---- generic ids ---- *)

Lemma mem_string_In : forall s l, mem_string s l = true <-> In s l.
Proof.
  intros s l. unfold mem_string. rewrite existsb_exists. split.
  - intros [x [H1 H2]]. apply String.eqb_eq in H2. now subst.
  - intro H. exists s. split; auto. apply String.eqb_refl.
Qed.

(* ---- blacklist ---- *)

Lemma bl_regions_loop_spec : forall regs lat lon r,
  (forall z, In z regs -> 1 <= z <= 17) -> r = 0 \/ r = 1 ->
  exists r', bl_regions_loop regs lat lon r = Ok r' /\ (r' = 0 \/ r' = 1) /\
   (r' = 1 <-> r = 1 \/ exists z x0 y0 x1 y1, In z regs /\ bl_region z = Ok (x0, y0, x1, y1) /\
       (x0 <= lon /\ lon <= x1 /\ y0 <= lat /\ lat <= y1)%Q).
Proof.
  induction regs as [|z rest IH]; intros lat lon r Hz Hr.
  - exists r. simpl. repeat split; auto.
    intros [H|[z [x0 [y0 [x1 [y1 [[] _]]]]]]]; auto.
  - simpl.
    assert (exists q, bl_region z = Ok q) as [[[[x0 y0] x1] y1] Eq].
    { assert (1 <= z <= 17) by (apply Hz; left; auto).
      assert (z = 1 \/ z = 2 \/ z = 3 \/ z = 4 \/ z = 5 \/ z = 6 \/ z = 7 \/ z = 8 \/ z = 9 \/ z = 10
       \/ z = 11 \/ z = 12 \/ z = 13 \/ z = 14 \/ z = 15 \/ z = 16 \/ z = 17) as D by lia.
      repeat (destruct D as [->|D]; [eexists; reflexivity|]). subst; eexists; reflexivity. }
    rewrite Eq, bind_ok. cbv beta iota.
    set (c := (Qleb x0 lon && Qleb lon x1) && (Qleb y0 lat && Qleb lat y1)).
    destruct (IH lat lon (if c then 1 else r)) as [r' [E1 [E2 E3]]].
    { intros; apply Hz; now right. }
    { destruct c; auto. }
    exists r'. split; auto. split; auto. rewrite E3. split.
    + intros [H|[z' [a [b [a' [b' [I H]]]]]]].
      * destruct c eqn:C; auto. right. exists z, x0, y0, x1, y1.
        unfold c in C. qprop. repeat split; auto.
      * right. exists z', a, b, a', b'. split; [now right | auto].
    + intros [H|[z' [a [b [a' [b' [I [J K]]]]]]]].
      * left. subst r. destruct c; auto.
      * destruct I as [->|I].
        -- left. rewrite Eq in J. injection J as <- <- <- <-.
           replace c with true; auto. symmetry. unfold c.
           repeat (apply andb_true_iff; split); qprop; tauto.
        -- right. exists z', a, b, a', b'. auto.
Qed.

Lemma bl_year_regions_range : forall y regs z, bl_year_to_regions y = Some regs -> In z regs -> 1 <= z <= 17.
Proof.
  intros y regs z H I. unfold bl_year_to_regions in H.
  repeat match type of H with
  | context [match ?p with _ => _ end] => destruct p; try discriminate H
  end; injection H as <-; simpl in I; lia.
Qed.

Definition box_eqb (a b : Q * Q * Q * Q) : bool :=
  let '(a1, a2, a3, a4) := a in let '(b1, b2, b3, b4) := b in
  let q x y := (Qnum x =? Qnum y) && Pos.eqb (Qden x) (Qden y) in
  q a1 b1 && q a2 b2 && q a3 b3 && q a4 b4.

Lemma box_eqb_eq : forall a b, box_eqb a b = true -> a = b.
Proof.
  intros [[[a1 a2] a3] a4] [[[b1 b2] b3] b4]. unfold box_eqb.
  assert (Q1 : forall x y : Q, (Qnum x =? Qnum y) = true -> Pos.eqb (Qden x) (Qden y) = true -> x = y).
  { intros [x dx] [y dy]; simpl. intros H1 H2.
    apply Z.eqb_eq in H1. apply Pos.eqb_eq in H2. congruence. }
  intro H. rewrite !andb_true_iff in H. destruct H as [[[[? ?] [? ?]] [? ?]] [? ?]].
  rewrite (Q1 a1 b1), (Q1 a2 b2), (Q1 a3 b3), (Q1 a4 b4) by assumption. reflexivity.
Qed.

Definition model_boxes (y : Z) : list (Q * Q * Q * Q) :=
  match bl_year_to_regions y with
  | Some regs => flat_map (fun z => match bl_region z with Ok b => [b] | Err _ => [] end) regs
  | None => []
  end.
Definition spec_boxes (y : Z) : list (Q * Q * Q * Q) :=
  flat_map (fun p => if existsb (Z.eqb y) (snd p) then [fst p] else []) deck732_regions.

Definition incl_b (l l' : list (Q * Q * Q * Q)) : bool := forallb (fun b => existsb (box_eqb b) l') l.
Lemma incl_b_incl : forall l l', incl_b l l' = true -> incl l l'.
Proof.
  intros l l' H b I. unfold incl_b in H. rewrite forallb_forall in H. apply H in I.
  apply existsb_exists in I. destruct I as [c [I E]]. apply box_eqb_eq in E. now subst.
Qed.

Definition boxes_sweep : bool :=
  forallb (fun k => let y := 1958 + Z.of_nat k in
     incl_b (model_boxes y) (spec_boxes y) && incl_b (spec_boxes y) (model_boxes y)) (seq 0 17).

Lemma spec_years : forall b ys y, In (b, ys) deck732_regions -> In y ys -> 1958 <= y <= 1974.
Proof.
  assert (S : forallb (fun p => forallb (fun y => (1958 <=? y) && (y <=? 1974)) (snd p)) deck732_regions = true)
    by (vm_compute; reflexivity).
  intros b ys y I J. rewrite forallb_forall in S. apply S in I. simpl in I.
  rewrite forallb_forall in I. apply I in J. lia.
Qed.

Lemma model_years : forall y regs, bl_year_to_regions y = Some regs -> 1958 <= y <= 1974.
Proof.
  intros y regs H. unfold bl_year_to_regions in H.
  repeat match type of H with
  | context [match ?p with _ => _ end] => destruct p; try discriminate H
  end; lia.
Qed.

Lemma boxes_agree : forall y b, In b (model_boxes y) <-> In b (spec_boxes y).
Proof.
  intros y b.
  assert (S : boxes_sweep = true) by (vm_compute; reflexivity).
  unfold boxes_sweep in S. rewrite forallb_forall in S.
  destruct (Z_le_dec 1958 y); [destruct (Z_le_dec y 1974)|].
  - specialize (S (Z.to_nat (y - 1958)) ltac:(apply in_seq; lia)). cbv zeta in S.
    replace (1958 + Z.of_nat (Z.to_nat (y - 1958))) with y in S by lia.
    apply andb_true_iff in S. destruct S as [S1 S2].
    apply incl_b_incl in S1, S2. split; auto.
  - unfold model_boxes, spec_boxes. split.
    + destruct (bl_year_to_regions y) eqn:E; [apply model_years in E; lia | intros []].
    + intro H. apply in_flat_map in H. destruct H as [[c ys] [I H]]. simpl in H.
      destruct (existsb (Z.eqb y) ys) eqn:E; [|destruct H].
      apply existsb_exists in E. destruct E as [y' [J E]]. apply Z.eqb_eq in E. subst y'.
      pose proof (spec_years _ _ _ I J). lia.
  - unfold model_boxes, spec_boxes. split.
    + destruct (bl_year_to_regions y) eqn:E; [apply model_years in E; lia | intros []].
    + intro H. apply in_flat_map in H. destruct H as [[c ys] [I H]]. simpl in H.
      destruct (existsb (Z.eqb y) ys) eqn:E; [|destruct H].
      apply existsb_exists in E. destruct E as [y' [J E]]. apply Z.eqb_eq in E. subst y'.
      pose proof (spec_years _ _ _ I J). lia.
Qed.

Lemma spec_boxes_excluded : forall y lon lat,
  (exists b, In b (spec_boxes y) /\ in_box b lon lat) <-> deck732_excluded y lon lat.
Proof.
  intros y lon lat. unfold deck732_excluded, spec_boxes. split.
  - intros [b [H B]]. apply in_flat_map in H. destruct H as [[c ys] [I H]]. cbn [fst snd] in H.
    destruct (existsb (Z.eqb y) ys) eqn:E; [|destruct H]. destruct H as [<-|[]].
    apply existsb_exists in E. destruct E as [y' [J E]]. apply Z.eqb_eq in E. subst y'.
    exists c, ys. auto.
  - intros [b [ys [I [J B]]]]. exists b. split; auto. apply in_flat_map. exists (b, ys). split; auto.
    cbn [fst snd]. replace (existsb (Z.eqb y) ys) with true; [now left|].
    symmetry. apply existsb_exists. exists y. split; auto. apply Z.eqb_refl.
Qed.

Lemma bad_buoys_agree : forall s, mem_string s bl_ids = true <-> In s bad_buoys.
Proof.
  intro s. rewrite mem_string_In. change bl_ids with bad_buoys. reflexivity.
Qed.

Lemma blacklist_spec : forall id deck year month lat lon pt,
  exists r, blacklist id deck year month lat lon pt = Ok r /\ (r = 0 \/ r = 1) /\
   (r = 1 <-> blacklisted id deck year month lat (if Qltb 180 lon then lon - 360 else lon)%Q pt).
Proof.
  intros id deck year month lat lon0 pt. unfold blacklist.
  set (lon := (if Qltb 180 lon0 then (lon0 - 360)%Q else lon0)). cbv zeta.
  set (r1 := if Qeqb lat 0 && Qeqb lon 0 then 1 else 0).
  set (r2 := match pt with Some p => if p =? 13 then 1 else r1 | None => r1 end).
  set (r3 := if match id with Some i => String.eqb i "SUPERIGORINA"%string | None => false end then 1 else r2).
  assert (H1 : (r1 = 0 \/ r1 = 1) /\ (r1 = 1 <-> (lat == 0 /\ lon == 0)%Q)).
  { unfold r1. destruct (Qeqb lat 0 && Qeqb lon 0) eqn:E; split; auto.
    - qprop. tauto.
    - split; [discriminate|]. intros [A B]. apply Qeqb_true in A, B. rewrite A, B in E. discriminate. }
  assert (H2 : (r2 = 0 \/ r2 = 1) /\ (r2 = 1 <-> r1 = 1 \/ pt = Some 13)).
  { unfold r2. destruct pt as [p|].
    - destruct (Z.eqb_spec p 13) as [->|N]; [tauto|]. split; [tauto|]. split; [tauto|].
      intros [A|A]; auto. congruence.
    - split; [tauto|]. split; [tauto|]. intros [A|A]; auto. discriminate. }
  assert (H3 : (r3 = 0 \/ r3 = 1) /\ (r3 = 1 <-> r2 = 1 \/ id = Some "SUPERIGORINA"%string)).
  { unfold r3. destruct id as [i|].
    - destruct (String.eqb_spec i "SUPERIGORINA"%string) as [->|N]; [tauto|]. split; [tauto|]. split; [tauto|].
      intros [A|A]; auto. congruence.
    - split; [tauto|]. split; [tauto|]. intros [A|A]; auto. discriminate. }
  assert (H4 : exists r4,
    (if match deck with Some d => d =? 732 | None => false end
     then match bl_year_to_regions year with
          | Some regs => bl_regions_loop regs lat lon r3 | None => Ok r3 end
     else Ok r3) = Ok r4 /\ (r4 = 0 \/ r4 = 1) /\
    (r4 = 1 <-> r3 = 1 \/ (deck = Some 732 /\ deck732_excluded year lon lat))).
  { destruct deck as [d|].
    2: { exists r3. split; auto. split; [tauto|]. split; [tauto|]. intros [A|[A _]]; auto. discriminate. }
    destruct (Z.eqb_spec d 732) as [->|N].
    2: { exists r3. split; auto. split; [tauto|]. split; [tauto|]. intros [A|[A _]]; auto. congruence. }
    assert (X : (exists b, In b (model_boxes year) /\ in_box b lon lat) <-> deck732_excluded year lon lat).
    { rewrite <- spec_boxes_excluded. split; intros [b [I B]]; exists b; split; auto; now apply boxes_agree. }
    unfold model_boxes in X.
    destruct (bl_year_to_regions year) as [regs|] eqn:Er.
    - destruct (bl_regions_loop_spec regs lat lon r3) as [r4 [E1 [E2 E3]]]; [|tauto|].
      { intros z I. eapply bl_year_regions_range; eauto. }
      exists r4. split; auto. split; auto. rewrite E3. rewrite <- X. split.
      + intros [A|[z [x0 [y0 [x1 [y1 [I [J K]]]]]]]]; auto. right. split; auto.
        exists (x0, y0, x1, y1). split; auto. apply in_flat_map. exists z. split; auto. rewrite J. now left.
      + intros [A|[_ [b [I B]]]]; auto. right. apply in_flat_map in I. destruct I as [z [I J]].
        destruct (bl_region z) as [[[[x0 y0] x1] y1]|] eqn:Eb; [|destruct J]. destruct J as [<-|[]].
        exists z, x0, y0, x1, y1. auto.
    - exists r3. split; auto. split; [tauto|]. split; [tauto|]. intros [A|[_ A]]; auto.
      apply X in A. destruct A as [b [[] _]]. }
  destruct H4 as [r4 [-> [B4 H4]]]. rewrite bind_ok.
  eexists. split; [reflexivity|].
  set (r5 := if match deck with Some d => d =? 874 | None => false end then 1 else r4).
  assert (H5 : (r5 = 0 \/ r5 = 1) /\ (r5 = 1 <-> r4 = 1 \/ deck = Some 874)).
  { unfold r5. destruct deck as [d|].
    - destruct (Z.eqb_spec d 874) as [->|N]; [tauto|]. split; [tauto|]. split; [tauto|].
      intros [A|A]; auto. congruence.
    - split; [tauto|]. split; [tauto|]. intros [A|A]; auto. discriminate. }
  assert (HR : r5 = 1 <-> (lat == 0 /\ lon == 0)%Q \/ pt = Some 13 \/ id = Some "SUPERIGORINA"%string \/
     (deck = Some 732 /\ deck732_excluded year lon lat) \/ deck = Some 874).
  { rewrite (proj2 H5), H4, (proj2 H3), (proj2 H2), (proj2 H1). clear. tauto. }
  destruct H5 as [B5 _]. clear H1 H2 H3 H4 B4.
  unfold blacklisted.
  set (mb := ((year =? 2005) && (month =? 11)) || ((year =? 2005) && (month =? 12)) || ((year =? 2006) && (month =? 1))).
  assert (M : mb = true <-> bad_buoy_month year month) by (unfold mb, bad_buoy_month; lia).
  clearbody mb r5. clear r1 r2 r3.
  set (A0 := (lat == 0 /\ lon == 0)%Q) in *. set (A4 := deck732_excluded year lon lat) in *. clearbody A0 A4.
  destruct mb.
  - destruct id as [i|].
    + pose proof (bad_buoys_agree i) as G. destruct (mem_string i bl_ids).
      * split; auto. split; auto. intros _. do 5 right. split; [tauto|]. exists i. tauto.
      * split; [exact B5|]. rewrite HR. split; [clear; tauto|].
        intros [A|[A|[A|[A|[A|[_ [s [A1 A2]]]]]]]]; auto 6.
        injection A1 as ->. apply G in A2. discriminate.
    + split; [exact B5|]. rewrite HR. split; [clear; tauto|].
      intros [A|[A|[A|[A|[A|[_ [s [A1 A2]]]]]]]]; auto 6. discriminate.
  - split; [exact B5|]. rewrite HR. split; [clear; tauto|].
    intros [A|[A|[A|[A|[A|[A _]]]]]]; auto 6. apply M in A. discriminate.
Qed.

Lemma id_is_generic_spec : forall id y, id_is_generic id y = true <-> generic id y.
Proof.
  intros [s|] y; unfold id_is_generic, generic; [|tauto]. rewrite mem_string_In. unfold generic_ids.
  change (["1        "; "58       "; "RIGG     "; "     RIGG"; "SHIP     "; "ship     ";
    "     SHIP"; "PLAT     "; "     PLAT"; "         "; "0120     "; "0204     ";
    "0205     "; "0206     "; "0207     "; "0208     "; "0209     "; "MASKST   ";
    "MASKSTID "; "MASK     "; "XXXX     "; "/////    "]%string) with always_generic.
  rewrite !in_app_iff. split.
  - intros [H|[H|[H|H]]]; [now left|right|right|right];
    match type of H with In _ (if ?b then _ else _) => destruct b eqn:E; [|destruct H] end.
    + exists 1921, 1941. split; [|lia]. destruct H as [<-|[<-|[]]]; simpl; auto 8.
    + exists 1930, 1937. split; [|lia]. destruct H as [<-|[]]; simpl; auto 8.
    + exists 1934, 1954. split; [|lia]. destruct H as [<-|[<-|[]]]; simpl; auto 8.
  - intros [H|[y1 [y2 [H B]]]]; [now left|right].
    unfold generic_in_years in H. simpl in H.
    destruct H as [H|[H|[H|[H|[H|[]]]]]]; injection H as <- <- <-.
    + left. replace ((1921 <=? y) && (y <=? 1941)) with true by lia. simpl; auto.
    + left. replace ((1921 <=? y) && (y <=? 1941)) with true by lia. simpl; auto.
    + right; left. replace ((1930 <=? y) && (y <=? 1937)) with true by lia. simpl; auto.
    + right; right. replace ((1934 <=? y) && (y <=? 1954)) with true by lia. simpl; auto.
    + right; right. replace ((1934 <=? y) && (y <=? 1954)) with true by lia. simpl; auto.
Qed.

Lemma stdev_nan_passes : forall c s lo hi k, (lo < hi)%Q -> (0 < lo)%Q -> (0 < k)%Q ->
  climatology_plus_stdev_check (Some NaN) (Some (Fin c)) (Some (Fin s)) (Fin lo, Fin hi) (Fin k) = Ok 0.
Proof.
  intros c s lo hi k H1 H2 H3. unfold climatology_plus_stdev_check. cbn [fst snd].
  rewrite py_assert_true by (simpl; qprop; assumption). rewrite bind_ok.
  rewrite py_assert_true by (simpl; qprop; assumption). rewrite bind_ok. cbv zeta. cbn [x_sub x_add x_abs x_ltb].
  destruct (Qltb s lo) eqn:A; cbn [x_ltb].
  - replace (Qltb hi lo) with false by (symmetry; qprop; lra). cbn [x_div].
    replace (Qeqb lo 0) with false by (symmetry; qprop; lra). reflexivity.
  - destruct (Qltb hi s) eqn:B; cbn [x_div]; qprop.
    + replace (Qeqb hi 0) with false by (symmetry; qprop; lra). reflexivity.
    + replace (Qeqb s 0) with false by (symmetry; qprop; lra). reflexivity.
Qed.

Lemma sst_freeze_mono : forall s s' u f n, (s <= s')%Q ->
  sst_freeze_check (Some (Fin s)) (Some (Fin u)) (Some (Fin f)) (Fin n) = Ok 0 ->
  sst_freeze_check (Some (Fin s')) (Some (Fin u)) (Some (Fin f)) (Fin n) = Ok 0.
Proof.
  intros s s' u f n H K. apply freeze_spec in K. apply freeze_spec. lra.
Qed.

Lemma report_lon_spec : forall lon, (-180 <= lon)%Q -> (lon <= 360)%Q ->
  (-180 <= report_lon lon /\ report_lon lon <= 180)%Q /\
  ((report_lon lon == lon)%Q \/ (report_lon lon == lon - 360)%Q).
Proof. intros lon H1 H2. unfold report_lon. bcase; qprop; lra. Qed.


Lemma Qabs'_Qabs : forall x, (Qabs' x == Qabs x)%Q.
Proof.
  intro x. destruct (Qlt_le_dec x 0) as [H|H].
  - rewrite Qabs_neg by lra. unfold Qabs'. bcase; qprop; lra.
  - rewrite Qabs_pos by lra. unfold Qabs'. bcase; qprop; lra.
Qed.

Lemma stdev_check_mono_Qabs : forall v v' c s lo hi k k', (lo < hi)%Q -> (0 < lo)%Q -> (0 < k)%Q -> (k <= k')%Q ->
  (Qabs (v' - c) <= Qabs (v - c))%Q ->
  climatology_plus_stdev_check (Some (Fin v)) (Some (Fin c)) (Some (Fin s)) (Fin lo, Fin hi) (Fin k) = Ok 0 ->
  climatology_plus_stdev_check (Some (Fin v')) (Some (Fin c)) (Some (Fin s)) (Fin lo, Fin hi) (Fin k') = Ok 0.
Proof.
  intros v v' c s lo hi k k' H1 H2 H3 H4 H5. rewrite <- !Qabs'_Qabs in H5.
  exact (stdev_check_mono v v' c s lo hi k k' H1 H2 H3 H4 H5).
Qed.

Lemma lowbar_check_spec_Qabs : forall v c s k b, (0 < k)%Q -> (0 < s)%Q ->
  (climatology_plus_stdev_with_lowbar (Some (Fin v)) (Some (Fin c)) (Some (Fin s)) (Fin k) (Fin b) = Ok 1 <->
    (k * s < Qabs (v - c) /\ b < Qabs (v - c))%Q) /\
  (climatology_plus_stdev_with_lowbar (Some (Fin v)) (Some (Fin c)) (Some (Fin s)) (Fin k) (Fin b) = Ok 0 <->
    (Qabs (v - c) <= k * s \/ Qabs (v - c) <= b)%Q).
Proof. intros. rewrite <- !Qabs'_Qabs. now apply lowbar_check_spec. Qed.

Lemma blacklist_spec' : forall id deck year month lat lon lon' pt,
  ((lon <= 180)%Q -> lon' = lon) -> ((180 < lon)%Q -> lon' = (lon - 360)%Q) ->
  exists r, blacklist id deck year month lat lon pt = Ok r /\ (r = 0 \/ r = 1) /\
   (r = 1 <-> blacklisted id deck year month lat lon' pt).
Proof.
  intros id deck year month lat lon lon' pt H1 H2.
  destruct (blacklist_spec id deck year month lat lon pt) as [r [A [B C]]].
  exists r. split; [exact A|]. split; [exact B|]. rewrite C. clear A B C.
  destruct (Qltb 180 lon) eqn:E; qprop; [rewrite (H2 E)|rewrite (H1 E)]; reflexivity.
Qed.
