(** Drifter checks: aground. *)
Require Import String ZArith QArith Qround List Bool Lia Lqa Sorting.Sorted Permutation.
Require Import Verif.M_Base Verif.L_Base Verif.S_Calendar Verif.L_Calendar Verif.M_Stats Verif.S_Stats Verif.L_Stats Verif.M_Report Verif.S_Report Verif.L_Report Verif.L_Report3 Verif.M_Voyage Verif.S_Voyage Verif.L_Voyage Verif.L_Voyage2 Verif.L_Voyage4 Verif.L_Voyage6 Verif.M_Track Verif.S_Track Verif.L_Track2 Verif.L_Track3 Verif.L_Track5 Verif.M_Drifter Verif.S_Drifter Verif.L_Drifter.
Import ListNotations.
Open Scope string_scope.
Open Scope list_scope.
Open Scope Z_scope.

(* ---- smoothing ---- *)

Lemma run_values_fun : forall v name i w l l', run_values v name i w l -> run_values v name i w l' -> l = l'.
Proof.
  intros v name i w l l' [L H] [L' H']. apply (nth_ext l l' 0%Q 0%Q); [congruence|].
  intros j Hj. destruct (nth_error l j) as [x|] eqn:X; [|apply nth_error_None in X; lia].
  destruct (nth_error l' j) as [y|] eqn:Y; [|apply nth_error_None in Y; lia].
  rewrite (nth_error_nth _ _ _ X), (nth_error_nth _ _ _ Y).
  destruct (H j x X) as [r [R G]], (H' j y Y) as [r' [R' G']]. congruence.
Qed.
Lemma smoothed_fun : forall v k i la lo la' lo', smoothed v k i la lo -> smoothed v k i la' lo' -> (la == la' /\ lo == lo')%Q.
Proof.
  intros v k i la lo la' lo' [l [l1 [A [B [C D]]]]] [m [m1 [A' [B' [C' D']]]]].
  rewrite (run_values_fun _ _ _ _ _ _ A A') in C. rewrite (run_values_fun _ _ _ _ _ _ B B') in D.
  split; eapply median_fun; eauto.
Qed.

Lemma nth_error_skipn' : forall A (l : list A) i j, nth_error (skipn i l) j = nth_error l (i + j).
Proof. induction l as [|x l IH]; intros [|i] j; cbn [skipn Nat.add]; auto. - destruct j; reflexivity. - rewrite IH. reflexivity. Qed.
Lemma nth_error_firstn' : forall A (l : list A) n j x, nth_error (firstn n l) j = Some x -> nth_error l j = Some x.
Proof. induction l as [|y l IH]; intros [|n] [|j] x H; cbn in *; try discriminate; auto. eapply IH; eauto. Qed.

Section Smooth.
Variables (v : list report) (lats lons hrs : list Q) (k : nat).
Hypothesis R : recorded v lats lons hrs.
Hypothesis Hk : (2 * k < length v)%nat.
Let w := (2 * k + 1)%nat.
Lemma smooth_length : forall l : list Q, length l = length v -> length (smooth w l) = (length v - 2 * k)%nat.
Proof. intros l E. unfold smooth. rewrite map_length, seq_length, E. unfold w. lia. Qed.
Lemma smooth_nth : forall l i, length l = length v -> (i + 2 * k < length v)%nat -> nth i (smooth w l) 0%Q = np_median (firstn w (skipn i l)).
Proof.
  intros l i E H. unfold smooth.
  rewrite (nth_indep _ 0%Q ((fun i => np_median (firstn w (skipn i l))) 0%nat)) by (rewrite map_length, seq_length; unfold w in *; lia).
  rewrite (map_nth (fun i => np_median (firstn w (skipn i l)))). rewrite seq_nth by (unfold w in *; lia). reflexivity.
Qed.
Lemma times_length : length (smooth_times w hrs) = (length v - 2 * k)%nat.
Proof.
  unfold smooth_times. rewrite firstn_length, skipn_length, (rc_hrs _ _ _ _ R). 
  replace ((w - 1) / 2)%nat with k by (unfold w; replace (2 * k + 1 - 1)%nat with (k * 2)%nat by lia; now rewrite Nat.div_mul).
  unfold w in *. lia.
Qed.
Lemma times_nth : forall i, (i + 2 * k < length v)%nat -> nth i (smooth_times w hrs) 0%Q = nth (i + k) hrs 0%Q.
Proof.
  intros i H. unfold smooth_times. rewrite nth_firstn', nth_skipn'.
  - replace ((w - 1) / 2)%nat with k by (unfold w; replace (2 * k + 1 - 1)%nat with (k * 2)%nat by lia; now rewrite Nat.div_mul). now rewrite Nat.add_comm.
  - rewrite (rc_hrs _ _ _ _ R). unfold w. lia.
Qed.
Lemma times_ord : nondecreasing (smooth_times w hrs).
Proof.
  intros i j H Hj. rewrite times_length in Hj. rewrite !times_nth by lia. apply (rc_ord _ _ _ _ R); [lia|]. rewrite (rc_hrs _ _ _ _ R). lia.
Qed.
Lemma run_of : forall name l i, length l = length v -> (forall j r, nth_error v j = Some r -> getvar r name = Some (nth j l 0%Q)) -> (i + 2 * k < length v)%nat ->
  run_values v name i w (firstn w (skipn i l)).
Proof.
  intros name l i E G H. split.
  - rewrite firstn_length, skipn_length, E. unfold w in *. lia.
  - intros j x Hx. apply nth_error_firstn' in Hx. rewrite nth_error_skipn' in Hx.
    destruct (nth_error v (i + j)) as [r|] eqn:Q0; [|apply nth_error_None in Q0; assert (i + j < length l)%nat by (apply nth_error_Some; congruence); lia].
    exists r. split; [reflexivity|]. rewrite (G _ _ Q0). now rewrite (nth_error_nth _ _ _ Hx).
Qed.
Lemma smoothed_nth : forall i, (i + 2 * k < length v)%nat -> smoothed v k i (nth i (smooth w lats) 0%Q) (nth i (smooth w lons) 0%Q).
Proof.
  intros i H. pose proof (rc_lat _ _ _ _ R) as La. pose proof (rc_lon _ _ _ _ R) as Lo.
  exists (firstn w (skipn i lats)), (firstn w (skipn i lons)).
  assert (X : run_values v "LAT" i w (firstn w (skipn i lats))) by (apply run_of; auto; intros j r J; apply (rc_pos _ _ _ _ R j r J)).
  assert (Y : run_values v "LON" i w (firstn w (skipn i lons))) by (apply run_of; auto; intros j r J; apply (rc_pos _ _ _ _ R j r J)).
  split; [exact X|]. split; [exact Y|]. rewrite !smooth_nth by auto. split; apply np_median_ok; [exact (proj1 X)|exact (proj1 Y)].
Qed.
Lemma still_iff : forall sp tol i j, well_defined sp -> (i + 2 * k < length v)%nat -> (j + 2 * k < length v)%nat ->
  (still (sp_dist sp) tol v k i j <-> (sp_dist sp (nth i (smooth w lats) 0) (nth i (smooth w lons) 0) (nth j (smooth w lats) 0) (nth j (smooth w lons) 0) <= tol)%Q).
Proof.
  intros sp tol i j [W _] Hi Hj. split.
  - intros [la [lo [la' [lo' [A [B C]]]]]]. destruct (smoothed_fun _ _ _ _ _ _ _ A (smoothed_nth i Hi)) as [E1 E2], (smoothed_fun _ _ _ _ _ _ _ B (smoothed_nth j Hj)) as [E3 E4].
    rewrite (W _ la _ lo _ la' _ lo'); try exact C; symmetry; assumption.
  - intro C. exists (nth i (smooth w lats) 0%Q), (nth i (smooth w lons) 0%Q), (nth j (smooth w lats) 0%Q), (nth j (smooth w lons) 0%Q).
    split; [now apply smoothed_nth|]. split; [now apply smoothed_nth|exact C].
Qed.
Lemma window_hours : forall i j, (i + 2 * k < length v)%nat -> (j + 2 * k < length v)%nat ->
  hours_from_to v (i + k) (j + k) (nth j (smooth_times w hrs) 0 - nth i (smooth_times w hrs) 0)%Q.
Proof. intros i j Hi Hj. rewrite !times_nth by assumption. apply (rc_time _ _ _ _ R); lia. Qed.
End Smooth.

(* ---- the state of the scan ---- *)

Section Scan.
Variables (W St : nat -> nat -> Prop).
Definition scan_inv (i : nat) (st : option nat) : Prop :=
  match st with
  | None => forall i0 j, (i0 < i)%nat -> W i0 j -> exists i1 j1, (i0 <= i1 < i)%nat /\ W i1 j1 /\ ~ St i1 j1
  | Some a => (a < i)%nat /\ (exists j, W a j) /\ (forall i1 j1, (a <= i1 < i)%nat -> W i1 j1 -> St i1 j1) /\
      forall i0 j, (i0 < a)%nat -> W i0 j -> exists i1 j1, (i0 <= i1 < a)%nat /\ W i1 j1 /\ ~ St i1 j1
  end.
Lemma scan_still : (forall i j j', W i j -> W i j' -> j = j') -> forall i j st, W i j -> St i j -> scan_inv i st -> scan_inv (S i) (match st with Some _ => st | None => Some i end).
Proof.
  intros Wfun i j [a|] Hw Hs H; cbn [scan_inv] in *.
  - destruct H as [H1 [H2 [H3 H4]]]. split; [lia|]. split; [exact H2|]. split; [|exact H4]. intros i1 j1 R W1.
    destruct (Nat.eq_dec i1 i) as [->|N]; [rewrite (Wfun i j1 j W1 Hw); exact Hs|]. apply H3; [lia|exact W1].
  - split; [lia|]. split; [exists j; exact Hw|]. split; [|exact H]. intros i1 j1 R W1. assert (i1 = i) by lia. subst. now rewrite (Wfun i j1 j W1 Hw).
Qed.
Lemma scan_moves : forall i j, W i j -> ~ St i j -> scan_inv (S i) None.
Proof. intros i j Hw Hs i0 j0 L W0. exists i, j. split; [lia|auto]. Qed.
Lemma scan_skip : forall i st, (forall j, ~ W i j) -> scan_inv i st -> scan_inv (S i) st.
Proof.
  intros i [a|] N H; cbn [scan_inv] in *.
  - destruct H as [H1 [H2 [H3 H4]]]. split; [lia|]. split; [exact H2|]. split; [|exact H4]. intros i1 j1 R W1.
    destruct (Nat.eq_dec i1 i) as [->|D]; [destruct (N j1 W1)|]. apply H3; [lia|exact W1].
  - intros i0 j L W0. destruct (Nat.eq_dec i0 i) as [->|D]; [destruct (N j W0)|]. destruct (H i0 j ltac:(lia) W0) as [i1 [j1 [R K]]]. exists i1, j1. split; [lia|exact K].
Qed.
Lemma scan_end : forall m st k n, scan_inv m st -> (forall i j, W i j -> (i < m)%nat) ->
  (aground W St k n <-> match aground_start k st with Some s => (s <= n)%nat | None => False end).
Proof.
  intros m st k n H E. destruct st as [a|]; cbn [scan_inv] in H.
  - destruct H as [H1 [H2 [H3 H4]]]. split.
    + intros [i0 [[j Wj] [A B]]].
      assert (a <= i0)%nat. { destruct (Nat.lt_ge_cases i0 a) as [L|L]; [|exact L]. exfalso. destruct (H4 i0 j L Wj) as [i1 [j1 [R [X Y]]]]. apply Y. apply A; [lia|exact X]. }
      destruct a as [|a]; cbn [aground_start]; lia.
    + intro L. exists a. split; [exact H2|]. split; [|destruct a as [|a]; cbn [aground_start] in L; lia].
      intros i j G X. apply H3; [split; [exact G|eapply E; eauto]|exact X].
  - cbn [aground_start]. split; [|tauto]. intros [i0 [[j Wj] [A B]]]. destruct (H i0 j (E _ _ Wj) Wj) as [i1 [j1 [R [X Y]]]]. apply Y. apply A; [lia|exact X].
Qed.
End Scan.

(* ---- the flags ---- *)

Definition start_flag (start : option nat) (i : nat) : Z := match start with Some s => if (i <? s)%nat then 0 else 1 | None => 0 end.
Lemma set_from_ok : forall start v off, exists v', set_from start off v = Ok v' /\ length v' = length v /\
  forall i r0, nth_error v i = Some r0 -> exists r, nth_error v' i = Some r /\ unchanged_but "POS" "drf_agr" r0 r /\ get_qc r "POS" "drf_agr" = start_flag start (off + i).
Proof.
  intros start. induction v as [|r v IH]; intro off; cbn [set_from].
  - exists []. split; [reflexivity|]. split; [reflexivity|]. intros [|i] r0 H; discriminate.
  - assert (AC : accepted ("POS", "drf_agr", start_flag start off)).
    { split; cbn; [unfold start_flag; destruct start as [s|]; [destruct (off <? s)%nat|]; lia|now left]. }
    fold (start_flag start off). destruct (set_qc_spec r "POS" "drf_agr" (start_flag start off)) as [[_ K]|[N _]]; [|contradiction].
    destruct (set_qc r "POS" "drf_agr" (start_flag start off)) as [r'|] eqn:E; [|discriminate]. cbn [bind].
    destruct (IH (S off)) as [v' [E' [L H]]]. rewrite E'. cbn [bind]. exists (r' :: v'). split; [reflexivity|]. split; [cbn; lia|].
    intros [|i] r0 Hi; cbn [nth_error] in Hi.
    + injection Hi as <-. exists r'. split; [reflexivity|]. split; [eapply set_qc_unch; eauto|]. rewrite Nat.add_0_r. eapply set_get_same; eauto.
    + destruct (H i r0 Hi) as [r1 [A B]]. exists r1. split; [exact A|]. now rewrite Nat.add_succ_r.
Qed.
Lemma set_from_flags : forall start v (bad : nat -> Prop), (forall n, bad n <-> match start with Some s => (s <= n)%nat | None => False end) ->
  exists v', set_from start 0 v = Ok v' /\ flags_exactly "POS" "drf_agr" bad v v'.
Proof.
  intros start v bad Hb. destruct (set_from_ok start v 0) as [v' [E [L H]]]. exists v'. split; [exact E|].
  apply (writes_flags _ _ (fun i => Some (start_flag start i))).
  - split; [exact L|]. intros i r0 Hi. destruct (H i r0 Hi) as [r [A [B C]]]. exists r. auto.
  - intros i Hi. rewrite Hb. unfold start_flag. destruct start as [s|]; [|right; tauto]. destruct (i <? s)%nat eqn:Q0; [right|left]; split; auto; lia.
Qed.

(* ---- the checks ---- *)

Section Aground.
Variable sp : sphere.
Hypothesis Hw : well_defined sp.
Variables (k : nat) (minw maxw : Z) (v : list report).
Hypothesis Hv : timed v.
Hypothesis Hmin : 1 <= minw.
Let minh := (inject_Z minw * 24)%Q.
Let maxh := (inject_Z maxw * 24)%Q.
Let tol := sp_dist sp 0 0 (1 # 100) (1 # 100).
Let Wl := longest_window v k minh maxh.
Let We := window_to_end v k minh.
Let St := still (sp_dist sp) tol v k.

Lemma minh_pos : (0 < minh)%Q.
Proof. unfold minh. pose proof (inject_Z_le 1 minw Hmin) as P. change (inject_Z 1) with 1%Q in P. lra. Qed.
Lemma smooth_win_half : Z.to_nat (2 * Z.of_nat k + 1) = (2 * k + 1)%nat. Proof. lia. Qed.

Lemma longest_fun : forall i j j', Wl i j -> Wl i j' -> j = j'.
Proof.
  intros i j j' [A [[t [B [_ C]]] D]] [A' [[t' [B' [_ C']]] D']]. destruct (Nat.lt_trichotomy j j') as [L|[L|L]]; [|exact L|]; exfalso.
  - specialize (D j' t' L A' B'). lra.
  - specialize (D' j t L A B). lra.
Qed.
Lemma to_end_fun : forall i j j', We i j -> We i j' -> j = j'.
Proof. intros i j j' [A _] [A' _]. lia. Qed.

Lemma agr_loop : 1 <= maxw -> minw <= maxw -> (2 * k + 1 < length v)%nat -> forall lats lons hrs, recorded v lats lons hrs ->
  exists st m, run_windows (smooth_times (2 * k + 1) hrs) minh (aground_step sp (smooth (2 * k + 1) lats) (smooth (2 * k + 1) lons) (smooth_times (2 * k + 1) hrs) minh maxh) None = Ok st /\
    scan_inv Wl St m st /\ forall i j, Wl i j -> (i < m)%nat.
Proof.
  intros Hmax Hmm Hn lats lons hrs R. set (w := (2 * k + 1)%nat). pose proof minh_pos as MP.
  assert (MX : (minh <= maxh)%Q). { unfold minh, maxh. pose proof (inject_Z_le minw maxw Hmm) as P. lra. }
  assert (K0 : (2 * k < length v)%nat) by lia.
  pose proof (times_length v lats lons hrs k R K0) as TL. fold w in TL.
  pose proof (times_ord v lats lons hrs k R K0) as TO. fold w in TO.
  pose proof (window_hours v lats lons hrs k R K0) as WH. fold w in WH.
  set (T := smooth_times w hrs) in *.
  assert (IR : forall i j, Wl i j -> (i < j)%nat /\ (j < length T)%nat /\ (minh <= nth j T 0 - nth i T 0)%Q /\ (nth j T 0 - nth i T 0 <= maxh)%Q /\ forall j', (j < j')%nat -> (j' < length T)%nat -> (maxh < nth j' T 0 - nth i T 0)%Q).
  { intros i j [A [[t [B [C C']]] D]]. pose proof (hft_range _ _ _ _ B) as [RI RJ].
    assert (Lt : (i < j)%nat).
    { destruct (Nat.lt_ge_cases i j) as [L|L]; [exact L|]. exfalso. pose proof (rc_time _ _ _ _ R (i + k) (j + k) RI RJ) as X. pose proof (hft_fun _ _ _ _ _ B X) as E.
      pose proof (rc_ord _ _ _ _ R (j + k)%nat (i + k)%nat ltac:(lia) ltac:(rewrite (rc_hrs _ _ _ _ R); lia)). lra. }
    split; [exact Lt|]. split; [lia|]. assert (Ri : (i + 2 * k < length v)%nat) by lia. pose proof (hft_fun _ _ _ _ _ B (WH i j Ri A)) as E.
    split; [lra|]. split; [lra|]. intros j' L Lj. apply (D j'); [exact L|lia|]. apply WH; lia. }
  destruct (run_windows_ok T minh (aground_step sp (smooth w lats) (smooth w lons) T minh maxh) (scan_inv Wl St)) with (st := @None nat) as [st [m [E [I [M1 M2]]]]].
  - lia.
  - exact TO.
  - exact MP.
  - intros i st Hi He I. unfold aground_step. rewrite py_nth_nat by exact Hi. cbn [bind].
    destruct (last_of_ok (where_ (fun _ h => Qleb h (nth i T 0%Q + maxh)%Q) T)) as [f [Ef [Inf Max]]].
    { apply where_sorted. }
    { intro N. assert (X : In i (where_ (fun _ h => Qleb h (nth i T 0%Q + maxh)%Q) T)) by (apply where_In; split; [exact Hi|apply Qleb_true; lra]). rewrite N in X. destruct X. }
    rewrite Ef. cbn [bind]. apply where_In in Inf. destruct Inf as [Lf Hf]. qprop. rewrite py_nth_nat by exact Lf. cbn [bind].
    assert (Wf : forall j, Wl i j -> j = f).
    { intros j Wj. destruct (IR i j Wj) as [I1 [I2 [I3 [I4 I5]]]].
      assert (j <= f)%nat. { apply Max. apply where_In. split; [exact I2|]. apply Qleb_true. lra. }
      destruct (Nat.eq_dec j f) as [Ej|N]; [exact Ej|]. exfalso. specialize (I5 f ltac:(lia) Lf). lra. }
    destruct (Qltb (nth f T 0%Q - nth i T 0%Q)%Q minh) eqn:Q1; qprop.
    + exists st. split; [reflexivity|]. apply scan_skip; [|exact I]. intros j Wj. pose proof (Wf j Wj) as ->. destruct (IR i f Wj) as [_ [_ [I3 _]]]. lra.
    + assert (Wif : Wl i f).
      { split; [lia|]. split.
        - exists (nth f T 0 - nth i T 0)%Q. split; [apply WH; lia|]. split; lra.
        - intros j' t L Lj X. assert (Y : ~ (nth j' T 0 <= nth i T 0 + maxh)%Q).
          { intro Y. assert (j' <= f)%nat by (apply Max; apply where_In; split; [lia|apply Qleb_true; exact Y]). lia. }
          rewrite (hft_fun _ _ _ _ _ X (WH i j' ltac:(lia) Lj)). lra. }
      rewrite !py_nth_nat by (rewrite (smooth_length v k) by (auto; apply R); lia). cbn [bind].
      pose proof (still_iff v lats lons hrs k R K0 sp tol i f Hw ltac:(lia) ltac:(lia)) as SI. fold w in SI. unfold tolerance. fold tol.
      match goal with |- context [Qleb ?a ?b] => destruct (Qleb a b) eqn:Q2 end; qprop.
      * eexists. split; [reflexivity|]. eapply scan_still; [exact longest_fun|exact Wif|now apply SI|exact I].
      * exists None. split; [reflexivity|]. apply (scan_moves Wl St i f Wif). intro X. apply SI in X. lra.
  - intros i0 j L. lia.
  - exists st, m. split; [exact E|]. split; [exact I|]. intros i j Wj. destruct (IR i j Wj) as [I1 [I2 [I3 [I4 I5]]]].
    apply M2; [lia|]. pose proof (TO j (length T - 1)%nat ltac:(lia) ltac:(lia)). lra.
Qed.

Lemma new_agr_loop : (2 * k + 1 < length v)%nat -> forall lats lons hrs, recorded v lats lons hrs ->
  exists st m, run_windows (smooth_times (2 * k + 1) hrs) minh (new_aground_step sp (smooth (2 * k + 1) lats) (smooth (2 * k + 1) lons)) None = Ok st /\
    scan_inv We St m st /\ forall i j, We i j -> (i < m)%nat.
Proof.
  intros Hn lats lons hrs R. set (w := (2 * k + 1)%nat). pose proof minh_pos as MP.
  assert (K0 : (2 * k < length v)%nat) by lia.
  pose proof (times_length v lats lons hrs k R K0) as TL. fold w in TL.
  pose proof (times_ord v lats lons hrs k R K0) as TO. fold w in TO.
  pose proof (window_hours v lats lons hrs k R K0) as WH. fold w in WH.
  set (T := smooth_times w hrs) in *.
  destruct (run_windows_ok T minh (new_aground_step sp (smooth w lats) (smooth w lons)) (scan_inv We St)) with (st := @None nat) as [st [m [E [I [M1 M2]]]]].
  - lia.
  - exact TO.
  - exact MP.
  - intros i st Hi He I. unfold new_aground_step.
    assert (Wif : We i (length T - 1)%nat).
    { split; [lia|]. split; [lia|]. exists (nth (length T - 1) T 0 - nth i T 0)%Q. split; [apply WH; lia|exact He]. }
    rewrite !py_nth_nat by (rewrite (smooth_length v k) by (auto; apply R); lia). cbn [bind].
    rewrite !py_nth_last by (rewrite (smooth_length v k) by (auto; apply R); lia). cbn [bind].
    rewrite !(smooth_length v k) by (auto; apply R). rewrite <- TL.
    pose proof (still_iff v lats lons hrs k R K0 sp tol i (length T - 1) Hw ltac:(lia) ltac:(lia)) as SI. fold w in SI. unfold tolerance. fold tol.
    match goal with |- context [Qleb ?a ?b] => destruct (Qleb a b) eqn:Q2 end; qprop.
    + eexists. split; [reflexivity|]. eapply scan_still; [exact to_end_fun|exact Wif|now apply SI|exact I].
    + exists None. split; [reflexivity|]. apply (scan_moves We St i (length T - 1) Wif). intro X. apply SI in X. lra.
  - intros i0 j L. lia.
  - exists st, m. split; [exact E|]. split; [exact I|]. intros i j [A [B [t [C D]]]]. assert (j = length T - 1)%nat by lia. subst j. apply M2; [lia|].
    rewrite <- (hft_fun _ _ _ _ _ C (WH i (length T - 1)%nat ltac:(lia) ltac:(lia))). exact D.
Qed.

Lemma few_aground : forall (W S0 : nat -> nat -> Prop), (length v <= 2 * k + 1)%nat -> (forall i j, W i j -> (j + 2 * k < length v)%nat /\ (i < j)%nat) -> forall n, ~ aground W S0 k n.
Proof. intros W S0 L H n [i0 [[j Wj] _]]. destruct (H i0 j Wj). lia. Qed.

Lemma window_before : forall i j t, hours_from_to v (i + k) (j + k) t -> (minh <= t)%Q -> (i < j)%nat.
Proof.
  intros i j t [a [b [A [B T]]]] M. pose proof minh_pos. destruct (Nat.lt_ge_cases i j) as [L|L]; [exact L|]. exfalso.
  destruct Hv as [Hl [Ho _]]. pose proof (order_far v Hl Ho (i - j) (j + k) b a (- t)%Q B ltac:(replace (j + k + (i - j))%nat with (i + k)%nat by lia; exact A) (hours_opp _ _ _ T)). lra.
Qed.

Lemma aground_check_ok : 1 <= maxw -> minw <= maxw ->
  exists v', aground_check sp (2 * Z.of_nat k + 1) minw maxw v = Ok v' /\ flags_exactly "POS" "drf_agr" (aground Wl St k) v v'.
Proof.
  intros Hmax Hmm. unfold aground_check.
  rewrite (proj2 (Z.leb_le 1 (2 * Z.of_nat k + 1))), (proj2 (Z.leb_le 1 minw)), (proj2 (Z.leb_le 1 maxw)), (proj2 (Z.leb_le minw maxw)) by lia.
  replace (negb ((2 * Z.of_nat k + 1) mod 2 =? 0)) with true
    by (rewrite Z.add_comm, Z.mul_comm, Z.mod_add by lia; reflexivity).
  cbn [py_assert bind]. rewrite smooth_win_half.
  replace (Z.to_nat ((2 * Z.of_nat k + 1 - 1) / 2)) with k by (replace (2 * Z.of_nat k + 1 - 1) with (Z.of_nat k * 2) by lia; rewrite Z.div_mul by lia; lia).
  destruct (Z.of_nat (length v) <=? 2 * Z.of_nat k + 1) eqn:Q0.
  - destruct (set_qc_all_writes "POS" "drf_agr" 0 v) as [v' [E W]]; [split; cbn; [lia|now left]|]. exists v'. split; [exact E|].
    eapply writes_flags; [exact W|]. intros i Hi. right. split; [reflexivity|]. apply few_aground; [lia|].
    intros a b [A [[t [B [C _]]] _]]. split; [exact A|]. eapply window_before; eauto.
  - destruct (read_ok v Hv) as [lats [lons [hrs [E R]]]]; [intro N; rewrite N in Q0; change (length (@nil report)) with 0%nat in Q0; lia|]. rewrite E. cbn [bind].
    destruct (agr_loop Hmax Hmm ltac:(lia) lats lons hrs R) as [st [m [E2 [I J]]]]. fold minh maxh. rewrite E2. cbn [bind].
    apply set_from_flags. intro n. apply (scan_end Wl St m); assumption.
Qed.
Lemma new_aground_check_ok :
  exists v', new_aground_check sp (2 * Z.of_nat k + 1) minw v = Ok v' /\ flags_exactly "POS" "drf_agr" (aground We St k) v v'.
Proof.
  unfold new_aground_check.
  rewrite (proj2 (Z.leb_le 1 (2 * Z.of_nat k + 1))), (proj2 (Z.leb_le 1 minw)) by lia.
  replace (negb ((2 * Z.of_nat k + 1) mod 2 =? 0)) with true
    by (rewrite Z.add_comm, Z.mul_comm, Z.mod_add by lia; reflexivity).
  cbn [py_assert bind]. rewrite smooth_win_half.
  replace (Z.to_nat ((2 * Z.of_nat k + 1 - 1) / 2)) with k by (replace (2 * Z.of_nat k + 1 - 1) with (Z.of_nat k * 2) by lia; rewrite Z.div_mul by lia; lia).
  destruct (Z.of_nat (length v) <=? 2 * Z.of_nat k + 1) eqn:Q0.
  - destruct (set_qc_all_writes "POS" "drf_agr" 0 v) as [v' [E W]]; [split; cbn; [lia|now left]|]. exists v'. split; [exact E|].
    eapply writes_flags; [exact W|]. intros i Hi. right. split; [reflexivity|]. apply few_aground; [lia|].
    intros a b [A [_ [t [B C]]]]. split; [lia|]. eapply window_before; eauto.
  - destruct (read_ok v Hv) as [lats [lons [hrs [E R]]]]; [intro N; rewrite N in Q0; change (length (@nil report)) with 0%nat in Q0; lia|]. rewrite E. cbn [bind].
    destruct (new_agr_loop ltac:(lia) lats lons hrs R) as [st [m [E2 [I J]]]]. fold minh. rewrite E2. cbn [bind].
    apply set_from_flags. intro n. apply (scan_end We St m); assumption.
Qed.
End Aground.
