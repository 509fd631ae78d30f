(** Drifter checks: speed. *)
Require Import String ZArith QArith Qround List Bool Lia Lqa Sorting.Sorted Permutation.
Require Import Verif.M_Base Verif.L_Base Verif.S_Calendar Verif.L_Calendar Verif.M_Stats Verif.S_Stats Verif.L_Stats Verif.M_Report Verif.S_Report Verif.L_Report Verif.L_Report3 Verif.M_Voyage Verif.S_Voyage Verif.L_Voyage Verif.L_Voyage2 Verif.L_Voyage3 Verif.L_Voyage4 Verif.L_Voyage6 Verif.M_Track Verif.S_Track Verif.L_Track2 Verif.L_Track3 Verif.L_Track5 Verif.M_Drifter Verif.S_Drifter Verif.L_Drifter.
Import ListNotations.
Open Scope string_scope.
Open Scope list_scope.
Open Scope Z_scope.

(* ---- raising flags ---- *)

Definition zero_one (g : nat -> option Z) (n : nat) : Prop := forall i, (i < n)%nat -> g i = Some 0 \/ g i = Some 1.
Lemma raise_flags_ok : forall v0 todo g v, writes "POS" "drf_spd" g v0 v -> zero_one g (length v0) -> (forall i, In i todo -> (i < length v0)%nat) ->
  exists v', raise_flags todo v = Ok v' /\ writes "POS" "drf_spd" (fun j => if memn j todo then Some 1 else g j) v0 v'.
Proof.
  intros v0. induction todo as [|i todo IH]; intros g v W Z0 R; cbn [raise_flags].
  - exists v. split; [reflexivity|]. exact W.
  - assert (Hi : (i < length v0)%nat) by (apply R; now left).
    destruct (nth_error v0 i) as [r0|] eqn:E0; [|apply nth_error_None in E0; lia].
    destruct (proj2 W i r0 E0) as [r [Er [U G]]]. rewrite (vget_nth _ _ _ Er). cbn [bind]. rewrite G.
    assert (Hr : forall j, In j todo -> (j < length v0)%nat) by (intros j Hj; apply R; now right).
    destruct (Z0 i Hi) as [K|K]; rewrite K.
    + rewrite Z.eqb_refl. destruct (vset_writes "POS" "drf_spd" g v0 v i 1 W Hi) as [v1 [E1 W1]]; [split; cbn; [lia|now left]|]. rewrite E1. cbn [bind].
      destruct (IH _ v1 W1) as [v' [E' W']]; [|exact Hr|].
      * intros j Hj. destruct (Nat.eqb j i); [now right|now apply Z0].
      * exists v'. split; [exact E'|]. eapply writes_ext; [exact W'|]. intros j Hj. cbn [memn existsb]. unfold memn. cbn [existsb].
        destruct (Nat.eqb j i) eqn:Q0; cbn [orb]; [destruct (existsb (Nat.eqb j) todo); reflexivity|reflexivity].
    + change (1 =? 0) with false. cbn [bind]. destruct (IH g v W Z0 Hr) as [v' [E' W']]. exists v'. split; [exact E'|]. eapply writes_ext; [exact W'|].
      intros j Hj. unfold memn. cbn [existsb]. destruct (Nat.eqb j i) eqn:Q0; cbn [orb]; [|reflexivity]. apply Nat.eqb_eq in Q0. subst j. rewrite K. destruct (existsb (Nat.eqb i) todo); reflexivity.
Qed.

Section Flagging.
Variables (v0 : list report) (Win : nat -> nat -> Prop).
Definition hit (i k : nat) : Prop := exists i' f, (i' < i)%nat /\ Win i' f /\ (i' <= k <= f)%nat.
Definition spd_inv (i : nat) (v : list report) : Prop :=
  exists g, writes "POS" "drf_spd" g v0 v /\ forall k, (k < length v0)%nat -> (g k = Some 1 /\ hit i k) \/ (g k = Some 0 /\ ~ hit i k).
Lemma spd_skip : forall i v, (forall f, ~ Win i f) -> spd_inv i v -> spd_inv (S i) v.
Proof.
  intros i v N [g [W H]]. exists g. split; [exact W|]. intros k Hk.
  assert (E : hit (S i) k <-> hit i k).
  { split; intros [i' [f [A [B C]]]]; exists i', f; (split; [|auto]); [|lia]. destruct (Nat.eq_dec i' i) as [->|]; [destruct (N f B)|lia]. }
  destruct (H k Hk) as [[A B]|[A B]]; [left|right]; (split; [exact A|]); rewrite E; exact B.
Qed.
Lemma spd_raise : forall i f v, (forall f', Win i f' -> f' = f) -> Win i f -> (i <= f < length v0)%nat -> spd_inv i v ->
  exists v', raise_flags (seq i (f + 1 - i)) v = Ok v' /\ spd_inv (S i) v'.
Proof.
  intros i f v U Wf R [g [W H]]. destruct (raise_flags_ok v0 (seq i (f + 1 - i)) g v W) as [v' [E W']].
  - intros k Hk. destruct (H k Hk) as [[A _]|[A _]]; auto.
  - intros k Hk. apply in_seq in Hk. lia.
  - exists v'. split; [exact E|]. eexists. split; [exact W'|]. intros k Hk. cbv beta.
    destruct (memn k (seq i (f + 1 - i))) eqn:M.
    + apply memn_In in M. apply in_seq in M. left. split; [reflexivity|]. exists i, f. split; [lia|]. split; [exact Wf|lia].
    + apply memn_false in M. assert (N : ~ (i <= k <= f)%nat) by (intro X; apply M; apply in_seq; lia).
      assert (E2 : hit (S i) k <-> hit i k).
      { split; intros [i' [f' [A [B C]]]]; exists i', f'; (split; [|auto]); [|lia]. destruct (Nat.eq_dec i' i) as [->|]; [rewrite (U f' B) in C; lia|lia]. }
      destruct (H k Hk) as [[A B]|[A B]]; [left|right]; (split; [exact A|]); rewrite E2; exact B.
Qed.
Lemma spd_end : forall m v, (forall i f, Win i f -> (i < m)%nat) -> spd_inv m v ->
  flags_exactly "POS" "drf_spd" (fun k => exists i f, Win i f /\ (i <= k <= f)%nat) v0 v.
Proof.
  intros m v E [g [W H]]. eapply writes_flags; [exact W|]. intros k Hk.
  assert (X : hit m k <-> exists i f, Win i f /\ (i <= k <= f)%nat).
  { split; [intros [i [f [A B]]]; exists i, f; exact B|intros [i [f [A B]]]; exists i, f; split; [eapply E; eauto|auto]]. }
  destruct (H k Hk) as [[A B]|[A B]]; [left|right]; (split; [exact A|]); rewrite <- X; exact B.
Qed.
End Flagging.

(* ---- speed ---- *)

Lemma over_speed_iff : forall limit d t, (0 < t)%Q -> (over_speed limit d t = true <-> (limit < d / t * 1000 / 3600)%Q).
Proof.
  intros limit d t P. unfold over_speed, np_div. destruct (Qeqb t 0) eqn:Q0; qprop; [lra|]. cbn [x_ltb]. change (60 * 60)%Q with 3600%Q. apply Qltb_true.
Qed.
Lemma drifts_iff : forall sp limit v lats lons hrs i j, recorded v lats lons hrs -> (i < length v)%nat -> (j < length v)%nat ->
  (0 < nth j hrs 0 - nth i hrs 0)%Q ->
  (drifts_faster (sp_dist sp) limit v i j <-> over_speed limit (sp_dist sp (nth i lats 0) (nth i lons 0) (nth j lats 0) (nth j lons 0))%Q (nth j hrs 0 - nth i hrs 0)%Q = true).
Proof.
  intros sp limit v lats lons hrs i j R Hi Hj P. rewrite over_speed_iff by exact P.
  destruct (rc_time _ _ _ _ R i j Hi Hj) as [a [b [A [B T]]]].
  pose proof (rc_pos _ _ _ _ R i a A) as PA. pose proof (rc_pos _ _ _ _ R j b B) as PB. split.
  - intros [a' [b' [la [lo [la' [lo' [t [A' [B' [PA' [PB' [T' [Tp L]]]]]]]]]]]]]. rewrite A in A'. rewrite B in B'. injection A' as <-. injection B' as <-.
    destruct (at_pos_fun _ _ _ _ _ PA PA') as [-> ->], (at_pos_fun _ _ _ _ _ PB PB') as [-> ->].
    rewrite (hours_between_fun _ _ _ _ T T'). exact L.
  - intro L. exists a, b, (nth i lats 0%Q), (nth i lons 0%Q), (nth j lats 0%Q), (nth j lons 0%Q), (nth j hrs 0 - nth i hrs 0)%Q. auto 10.
Qed.

Section Speed.
Variable sp : sphere.
Variables (limit minw maxw : Q) (v : list report).
Hypothesis Hv : timed v.
Hypothesis Hlim : (0 <= limit)%Q.
Hypothesis Hmin : (0 < minw)%Q.
Let minh := (minw * 24)%Q.
Let maxh := (maxw * 24)%Q.

Lemma minh_pos' : (0 < minh)%Q. Proof. unfold minh. lra. Qed.

Lemma order_lt : forall i j t, hours_from_to v i j t -> (0 < t)%Q -> (i < j)%nat.
Proof.
  intros i j t [a [b [A [B T]]]] M. destruct (Nat.lt_ge_cases i j) as [L|L]; [exact L|]. exfalso.
  destruct Hv as [Hl [Ho _]]. pose proof (order_far v Hl Ho (i - j) j b a (- t)%Q B ltac:(replace (j + (i - j))%nat with i by lia; exact A) (hours_opp _ _ _ T)). lra.
Qed.

(** A fast window. *)
Definition fast_window (i f : nat) : Prop := longest_window v 0 minh maxh i f /\ drifts_faster (sp_dist sp) limit v i f.
Lemma single_flags : forall (bad : nat -> Prop), (forall k, (k < length v)%nat -> ~ bad k) ->
  exists v', set_qc_all v "POS" "drf_spd" 0 = Ok v' /\ flags_exactly "POS" "drf_spd" bad v v'.
Proof.
  intros bad H. destruct (set_qc_all_writes "POS" "drf_spd" 0 v) as [v' [E W]]; [split; cbn; [lia|now left]|]. exists v'. split; [exact E|].
  eapply writes_flags; [exact W|]. intros i Hi. right. split; [reflexivity|]. now apply H.
Qed.
Lemma zero_inv : forall Win v', writes "POS" "drf_spd" (fun _ => Some 0) v v' -> spd_inv v Win 0 v'.
Proof. intros Win v' W. eexists. split; [exact W|]. intros k Hk. right. split; [reflexivity|]. intros [i [f [A _]]]. lia. Qed.

Lemma speed_check_ok : (minw <= maxw)%Q ->
  exists v', speed_check sp limit minw maxw v = Ok v' /\
    flags_exactly "POS" "drf_spd" (fun k => exists i f, fast_window i f /\ (i <= k <= f)%nat) v v'.
Proof.
  intros Hmm. unfold speed_check. rewrite (proj2 (Qleb_true 0 limit) Hlim), (proj2 (Qleb_true 0 minw)), (proj2 (Qleb_true 0 maxw)), (proj2 (Qleb_true minw maxw) Hmm) by lra.
  cbn [py_assert bind]. fold minh maxh. pose proof minh_pos' as MP. assert (MX : (minh <= maxh)%Q) by (unfold minh, maxh; lra).
  destruct (length v <=? 1)%nat eqn:Q0.
  - apply single_flags. intros k Hk [i [f [[[A [[t [B [C _]]] _]] _] _]]]. rewrite !Nat.add_0_r in B. pose proof (hft_range _ _ _ _ B). pose proof (order_lt _ _ _ B ltac:(lra)). apply Nat.leb_le in Q0. lia.
  - apply Nat.leb_gt in Q0. destruct (read_ok v Hv) as [lats [lons [hrs [E R]]]]; [intro N; rewrite N in Q0; cbn in Q0; lia|]. rewrite E. cbn [bind].
    destruct (set_qc_all_writes "POS" "drf_spd" 0 v) as [v1 [E1 W1]]; [split; cbn; [lia|now left]|]. rewrite E1. cbn [bind].
    pose proof (rc_hrs _ _ _ _ R) as TL. pose proof (rc_ord _ _ _ _ R) as TO. pose proof (rc_time _ _ _ _ R) as WH.
    assert (IR : forall i j, longest_window v 0 minh maxh i j -> (i < j)%nat /\ (j < length v)%nat /\ (minh <= nth j hrs 0 - nth i hrs 0)%Q /\ (nth j hrs 0 - nth i hrs 0 <= maxh)%Q /\ forall j', (j < j')%nat -> (j' < length v)%nat -> (maxh < nth j' hrs 0 - nth i hrs 0)%Q).
    { intros i j [A [[t [B [C C']]] D]]. rewrite !Nat.add_0_r in B. pose proof (hft_range _ _ _ _ B) as [RI RJ]. pose proof (order_lt _ _ _ B ltac:(lra)) as Lt.
      split; [exact Lt|]. split; [lia|]. pose proof (hft_fun _ _ _ _ _ B (WH i j RI RJ)) as EQ.
      split; [lra|]. split; [lra|]. intros j' L Lj. apply (D j'); [exact L|lia|]. rewrite !Nat.add_0_r. apply WH; lia. }
    destruct (run_windows_ok hrs minh (speed_step sp lats lons hrs limit minh maxh) (spd_inv v fast_window)) with (st := v1) as [v' [m [E2 [I [M1 M2]]]]].
    + lia.
    + exact TO.
    + exact MP.
    + intros i st Hi He I. unfold speed_step. rewrite py_nth_nat by exact Hi. cbn [bind].
      destruct (last_of_ok (where_ (fun _ h => Qleb h (nth i hrs 0%Q + maxh)%Q) hrs)) as [f [Ef [Inf Max]]].
      { apply where_sorted. }
      { intro N. assert (X : In i (where_ (fun _ h => Qleb h (nth i hrs 0%Q + maxh)%Q) hrs)) by (apply where_In; split; [exact Hi|apply Qleb_true; lra]). rewrite N in X. destruct X. }
      rewrite Ef. cbn [bind]. apply where_In in Inf. destruct Inf as [Lf Hf]. qprop. rewrite py_nth_nat by exact Lf. cbn [bind].
      assert (Wf : forall j, longest_window v 0 minh maxh i j -> j = f).
      { intros j Wj. destruct (IR i j Wj) as [I1 [I2 [I3 [I4 I5]]]].
        assert (j <= f)%nat. { apply Max. apply where_In. split; [lia|]. apply Qleb_true. lra. }
        destruct (Nat.eq_dec j f) as [Ej|N]; [exact Ej|]. exfalso. specialize (I5 f ltac:(lia) ltac:(lia)). lra. }
      destruct (Qltb (nth f hrs 0%Q - nth i hrs 0%Q)%Q minh) eqn:Q1; qprop.
      * exists st. split; [reflexivity|]. apply spd_skip; [|exact I]. intros j [Wj _]. pose proof (Wf j Wj) as ->. destruct (IR i f Wj) as [_ [_ [I3 _]]]. lra.
      * assert (Wif : longest_window v 0 minh maxh i f).
        { split; [lia|]. split.
          - exists (nth f hrs 0 - nth i hrs 0)%Q. rewrite !Nat.add_0_r. split; [apply WH; lia|]. split; lra.
          - intros j' t L Lj X. rewrite !Nat.add_0_r in X. assert (Y : ~ (nth j' hrs 0 <= nth i hrs 0 + maxh)%Q).
            { intro Y. assert (j' <= f)%nat by (apply Max; apply where_In; split; [lia|apply Qleb_true; exact Y]). lia. }
            rewrite (hft_fun _ _ _ _ _ X (WH i j' ltac:(lia) ltac:(lia))). lra. }
        rewrite !py_nth_nat by (rewrite ?(rc_lat _ _ _ _ R), ?(rc_lon _ _ _ _ R); lia). cbn [bind].
        pose proof (drifts_iff sp limit v lats lons hrs i f R ltac:(lia) ltac:(lia) ltac:(lra)) as DI.
        match goal with |- context [over_speed ?a ?b ?c] => destruct (over_speed a b c) eqn:Q2 end.
        -- apply spd_raise; [intros f' [X _]; now apply Wf|split; [exact Wif|now apply DI]| |exact I]. destruct (IR i f Wif) as [I1 _]. lia.
        -- exists st. split; [reflexivity|]. apply spd_skip; [|exact I]. intros j [Wj Dj]. pose proof (Wf j Wj) as ->. apply DI in Dj. congruence.
    + apply zero_inv. exact W1.
    + rewrite E2. exists v'. split; [reflexivity|]. apply (spd_end v fast_window m); [|exact I]. intros i j [Wj _]. destruct (IR i j Wj) as [I1 [I2 [I3 [I4 I5]]]].
      apply M2; [lia|]. pose proof (TO j (length hrs - 1)%nat ltac:(lia) ltac:(lia)). lra.
Qed.

(* ---- the new speed check ---- *)

Lemma first_after_fun : forall out i f f', first_after v out minh i f -> first_after v out minh i f' -> f = f'.
Proof.
  intros out i f f' [A [B [[t [T P]] D]]] [A' [B' [[t' [T' P']] D']]]. destruct (Nat.lt_trichotomy f f') as [L|[L|L]]; [|exact L|]; exfalso.
  - specialize (D' f t L B T). lra.
  - specialize (D f' t' L B' T'). lra.
Qed.
Definition fast_leg (out : nat -> Prop) (i f : nat) : Prop := first_after v out minh i f /\ drifts_faster (sp_dist sp) limit v i f.

Lemma new_speed_ok : forall p ship (out : nat -> Prop),
  ship_flags sp p v = Ok ship -> length ship = length v ->
  (forall i, (i < length v)%nat -> (nth i ship 1 = 1 /\ out i) \/ (nth i ship 1 = 0 /\ ~ out i)) -> (1 < length v)%nat ->
  exists v', new_speed_check sp p limit minw v = Ok v' /\
    flags_exactly "POS" "drf_spd" (fun k => exists i f, fast_leg out i f /\ (i <= k <= f)%nat) v v'.
Proof.
  intros p ship out Es Ls Hs Hn. unfold new_speed_check. rewrite (proj2 (Qleb_true 0 limit) Hlim), (proj2 (Qleb_true 0 minw)) by lra.
  cbn [py_assert bind]. fold minh. pose proof minh_pos' as MP.
  rewrite (proj2 (Nat.leb_gt (length v) 1) Hn).
  destruct (read_ok v Hv) as [lats [lons [hrs [E R]]]]; [intro N; rewrite N in Hn; cbn in Hn; lia|]. rewrite E. cbn [bind]. rewrite Es. cbn [bind].
  destruct (set_qc_all_writes "POS" "drf_spd" 0 v) as [v1 [E1 W1]]; [split; cbn; [lia|now left]|]. rewrite E1. cbn [bind].
  pose proof (rc_hrs _ _ _ _ R) as TL. pose proof (rc_ord _ _ _ _ R) as TO. pose proof (rc_time _ _ _ _ R) as WH.
  assert (IR : forall i j, first_after v out minh i j -> (i < j)%nat /\ (j < length v)%nat /\ (minh <= nth j hrs 0 - nth i hrs 0)%Q).
  { intros i j [A [B [[t [T P]] D]]]. pose proof (hft_range _ _ _ _ T) as [RI RJ]. pose proof (order_lt _ _ _ T ltac:(lra)) as Lt.
    split; [exact Lt|]. split; [lia|]. pose proof (hft_fun _ _ _ _ _ T (WH i j RI RJ)) as EQ. lra. }
  destruct (run_windows_ok hrs minh (new_speed_step sp lats lons hrs ship limit minh) (spd_inv v (fast_leg out))) with (st := v1) as [v' [m [E2 [I [M1 M2]]]]].
  - lia.
  - exact TO.
  - exact MP.
  - intros i st Hi He I. unfold new_speed_step. rewrite (L_Stats.py_nth_nat Z ship i 1) by lia. cbn [bind].
    assert (OI : (nth i ship 1 =? 1) = false <-> ~ out i) by (destruct (Hs i ltac:(lia)) as [[-> O]|[-> O]]; cbn; intuition congruence).
    destruct (nth i ship 1 =? 1) eqn:Q0.
    { exists st. split; [reflexivity|]. apply spd_skip; [|exact I]. intros f [[O _] _]. apply OI in O. discriminate. }
    assert (NO : ~ out i) by (apply OI; reflexivity). clear OI.
    rewrite py_nth_nat by exact Hi. cbn [bind].
    pose proof (where_sorted (fun j h => Qleb (nth i hrs 0%Q + minh)%Q h && (nth j ship 1 =? 0)) hrs) as WS.
    pose proof (where_In (fun j h => Qleb (nth i hrs 0%Q + minh)%Q h && (nth j ship 1 =? 0)) hrs) as WI.
    assert (CA : forall j, (j < length v)%nat -> (Qleb (nth i hrs 0%Q + minh)%Q (nth j hrs 0%Q) && (nth j ship 1 =? 0) = true <-> (minh <= nth j hrs 0 - nth i hrs 0)%Q /\ ~ out j)).
    { intros j Hj. rewrite andb_true_iff. destruct (Hs j Hj) as [[-> O]|[-> O]]; cbn; split; intros [X Y]; try (discriminate || contradiction); split; auto; qprop; try lra. }
    assert (FA : forall f, first_after v out minh i f -> In f (where_ (fun j h => Qleb (nth i hrs 0%Q + minh)%Q h && (nth j ship 1 =? 0)) hrs)).
    { intros f F. destruct (IR i f F) as [I1 [I2 I3]]. apply WI. split; [lia|]. apply CA; [exact I2|]. split; [exact I3|]. apply F. }
    destruct (where_ (fun j h => Qleb (nth i hrs 0%Q + minh)%Q h && (nth j ship 1 =? 0)) hrs) as [|f l] eqn:EW.
    { exists st. split; [reflexivity|]. apply spd_skip; [|exact I]. intros f [F _]. destruct (FA f F). }
    assert (Lf : (f < length v)%nat) by (rewrite <- TL; apply (WI f); now left).
    assert (Cf : (minh <= nth f hrs 0 - nth i hrs 0)%Q /\ ~ out f) by (apply CA; [exact Lf|]; apply (WI f); now left).
    assert (Ff : first_after v out minh i f).
    { split; [exact NO|]. split; [apply Cf|]. split; [exists (nth f hrs 0 - nth i hrs 0)%Q; split; [apply WH; lia|apply Cf]|].
      intros j t L O T. pose proof (hft_range _ _ _ _ T) as [RI RJ]. rewrite (hft_fun _ _ _ _ _ T (WH i j RI RJ)).
      apply Qnot_le_lt. intro X. assert (In j (f :: l)) by (apply WI; split; [lia|]; apply CA; auto). pose proof (first_of_sorted f l WS j H). lia. }
    rewrite !py_nth_nat by (rewrite ?(rc_lat _ _ _ _ R), ?(rc_lon _ _ _ _ R); lia). cbn [bind].
    pose proof (drifts_iff sp limit v lats lons hrs i f R ltac:(lia) ltac:(lia) ltac:(lra)) as DI.
    match goal with |- context [over_speed ?a ?b ?c] => destruct (over_speed a b c) eqn:Q2 end.
    + apply spd_raise; [intros f' [X _]; now apply (first_after_fun out i)|split; [exact Ff|now apply DI]| |exact I]. destruct (IR i f Ff) as [I1 _]. lia.
    + exists st. split; [reflexivity|]. apply spd_skip; [|exact I]. intros j [Wj Dj]. rewrite (first_after_fun out i j f Wj Ff) in Dj. apply DI in Dj. congruence.
  - apply zero_inv. exact W1.
  - rewrite E2. exists v'. split; [reflexivity|]. apply (spd_end v (fast_leg out) m); [|exact I]. intros i j [Wj _]. destruct (IR i j Wj) as [I1 [I2 I3]].
    apply M2; [lia|]. pose proof (TO j (length hrs - 1)%nat ltac:(lia) ltac:(lia)). lra.
Qed.
End Speed.

(* ---- the record as a ship ---- *)

(** Same ID and variables, but for the platform type. *)
Definition ship_of (r r' : report) : Prop := r_id r' = r_id r /\ pt_buoy r' = false /\ forall n, In n VARLIST -> n <> "PT" -> getvar r' n = getvar r n.
Lemma ship_located : forall r r' la lo d h, ship_of r r' -> located r la lo d h -> located r' la lo d h.
Proof.
  intros r r' la lo d h [_ [_ G]] [A1 A2 A3 A4 A5 A6 A7 A8].
  constructor; auto; unfold lat, lon, getint in *; rewrite G by (simpl; tauto || discriminate); assumption.
Qed.
Lemma located_ship : forall r r' la lo d h, ship_of r r' -> located r' la lo d h -> located r la lo d h.
Proof.
  intros r r' la lo d h [_ [_ G]] [A1 A2 A3 A4 A5 A6 A7 A8].
  constructor; auto; unfold lat, lon, getint in *; rewrite G in * by (simpl; tauto || discriminate); assumption.
Qed.
Lemma set_pt : forall r r', setvar r "PT" (Some 5%Q) = Ok r' -> pt_buoy r' = false.
Proof.
  intros r r' H. destruct (setvar_ok _ _ _ _ H) as [i [E [D _]]]. unfold pt_buoy, getint, getvar. rewrite E, D.
  destruct (Nat.lt_ge_cases i (length (r_data r))) as [L|L].
  - rewrite nth_update_same by exact L. reflexivity.
  - rewrite nth_overflow; [reflexivity|]. rewrite update_length. exact L.
Qed.
Lemma as_ships_ok : forall l, exists l', as_ships l = Ok l' /\ Forall2 ship_of l l'.
Proof.
  induction l as [|r l IH]; cbn [as_ships]; [exists []; auto|].
  assert (S1 : exists r1, setvar r "PT" (Some 5%Q) = Ok r1) by (unfold setvar; eexists; reflexivity). destruct S1 as [r1 E1]. rewrite E1. cbn [bind].
  destruct (set_qc_spec r1 "POS" "iquam_track" 0) as [[_ K]|[N _]]; [|exfalso; apply N; split; cbn; [lia|now left]].
  destruct (set_qc r1 "POS" "iquam_track" 0) as [r2|] eqn:E2; [|discriminate]. cbn [bind].
  destruct IH as [l' [E' F]]. rewrite E'. cbn [bind]. exists (r2 :: l'). split; [reflexivity|]. constructor; [|exact F].
  pose proof (set_qc_unch _ _ _ _ _ E2) as U. split; [|split].
  - rewrite (proj1 U). exact (proj2 (setvar_keeps _ _ _ _ "POS" "iquam_track" E1)).
  - unfold pt_buoy. rewrite (unch_getint _ _ _ _ "PT" U). exact (set_pt _ _ E1).
  - intros n _ N. rewrite (unch_getvar _ _ _ _ n U). eapply set_get_other_var; eauto.
Qed.
Lemma ship_same : forall a b c, ship_of a b -> same_report b c -> ship_of a c.
Proof.
  intros a b c [A1 [A2 A3]] S0. pose proof (same_data _ _ S0) as D. split; [rewrite (proj1 D); exact A1|]. split.
  - unfold pt_buoy, getint in *. rewrite (data_same_var b c) by (auto; simpl; tauto). exact A2.
  - intros n Hn N. rewrite (data_same_var b c) by auto. now apply A3.
Qed.
Lemma greedy_ext : forall (V V' : nat -> nat -> Prop) n l, (forall i j, V i j <-> V' i j) -> greedy V n l -> greedy V' n l.
Proof.
  intros V V' n l E G. assert (X : forall rm i l', open_violations V rm i l' <-> open_violations V' rm i l').
  { intros rm i l'. unfold open_violations, lists. setoid_rewrite E. reflexivity. }
  induction G as [|rm i l0 G IH Hi Hn Ho Hl Hm]; [constructor|]. econstructor; eauto.
  - apply X. exact Ho.
  - intros j l' Hj Hj' O. apply Hm; auto. now apply X.
Qed.
Lemma near_ship : forall sp v w n lim dd dt i j, Forall2 ship_of v w ->
  (near_pair w n (too_fast (sp_dist sp) lim dd dt) i j <-> near_pair v n (too_fast (sp_dist sp) lim dd dt) i j).
Proof.
  intros sp v w n lim dd dt i j F. split; intros [A [a [b [X [Y [la [lo [d [h [la' [lo' [d' [h' [t [L [L' [E K]]]]]]]]]]]]]]]]]; (split; [exact A|]).
  - destruct (Forall2_nth_back _ _ _ _ _ F i a X) as [a0 [X0 Sa]], (Forall2_nth_back _ _ _ _ _ F j b Y) as [b0 [Y0 Sb]].
    exists a0, b0. split; [exact X0|]. split; [exact Y0|]. exists la, lo, d, h, la', lo', d', h', t. split; [eapply located_ship; eauto|]. split; [eapply located_ship; eauto|auto].
  - destruct (Forall2_nth _ _ _ _ _ F i a X) as [a0 [X0 Sa]], (Forall2_nth _ _ _ _ _ F j b Y) as [b0 [Y0 Sb]].
    exists a0, b0. split; [exact X0|]. split; [exact Y0|]. exists la, lo, d, h, la', lo', d', h', t. split; [eapply ship_located; eauto|]. split; [eapply ship_located; eauto|auto].
Qed.

Lemma ship_flags_ok : forall sp p r0 rest, let v := r0 :: rest in
  distance_like (sp_dist sp) -> Forall is_located v -> (0 <= iq_ship p)%Q -> (0 <= iq_d p)%Q -> (0 < iq_t p)%Q ->
  exists ship removed, ship_flags sp p v = Ok ship /\ length ship = length v /\
    ship_removed (sp_dist sp) (iq_ship p) (iq_d p) (iq_t p) (iq_n p) (generic_report r0) v removed /\
    (forall i, (i < length v)%nat -> (nth i ship 1 = 1 /\ In i removed) \/ (nth i ship 1 = 0 /\ ~ In i removed)).
Proof.
  intros sp p r0 rest v Hd Hl H1 H2 H3. unfold ship_flags. destruct (as_ships_ok v) as [s1 [E1 F1]]. rewrite E1. cbn [bind].
  assert (L1 : Forall is_located s1).
  { apply Forall_forall. intros r Hr. apply In_nth_error in Hr. destruct Hr as [i Hi]. destruct (Forall2_nth_back _ _ _ _ _ F1 i r Hi) as [r' [Hi' S0]].
    rewrite Forall_forall in Hl. destruct (Hl r' (nth_error_In _ _ Hi')) as [la [lo [d [h L]]]]. exists la, lo, d, h. eapply ship_located; eauto. }
  destruct (build_voyage_ok sp s1 L1) as [s2 [E2 [F2 _]]]. rewrite E2. cbn [bind].
  assert (F : Forall2 ship_of v s2).
  { apply Forall2_of_nth.
    - rewrite <- (Forall2_length _ _ _ _ _ F2), <- (Forall2_length _ _ _ _ _ F1). reflexivity.
    - intros i x Hi. destruct (Forall2_nth _ _ _ _ _ F1 i x Hi) as [y [Hy Sy]], (Forall2_nth _ _ _ _ _ F2 i y Hy) as [z [Hz Sz]].
      exists z. split; [exact Hz|]. eapply ship_same; eauto. }
  assert (L2 : Forall is_located s2).
  { apply Forall_forall. intros r Hr. apply In_nth_error in Hr. destruct Hr as [i Hi]. destruct (Forall2_nth_back _ _ _ _ _ F i r Hi) as [r' [Hi' S0]].
    rewrite Forall_forall in Hl. destruct (Hl r' (nth_error_In _ _ Hi')) as [la [lo [d [h L]]]]. exists la, lo, d, h. eapply ship_located; eauto. }
  unfold v in F. inversion F as [|a s0 l srest SH FT EA EB]; subst a l. symmetry in EB.
  assert (GE : generic_report s0 = generic_report r0).
  { unfold generic_report, getint. destruct SH as [X1 [X2 X3]]. rewrite X1, X3 by (simpl; tauto || discriminate). reflexivity. }
  assert (PB : pt_buoy s0 = false) by apply SH.
  assert (LE : length s2 = length v) by (rewrite EB; unfold v; cbn; f_equal; symmetry; eapply Forall2_length; exact FT).
  assert (FIN : forall s3 removed, flags_exactly "POS" "iquam_track" (fun i => In i removed) s2 s3 ->
    length (map (fun r => get_qc r "POS" "iquam_track") s3) = length v /\
    forall i, (i < length v)%nat -> (nth i (map (fun r => get_qc r "POS" "iquam_track") s3) 1 = 1 /\ In i removed) \/ (nth i (map (fun r => get_qc r "POS" "iquam_track") s3) 1 = 0 /\ ~ In i removed)).
  { intros s3 removed [G1 G2]. pose proof (Forall2_length _ _ _ _ _ G1) as GL. rewrite map_length. split; [congruence|]. intros i Hi.
    destruct (nth_error s3 i) as [r|] eqn:Er; [|apply nth_error_None in Er; lia].
    assert (N : nth i (map (fun r => get_qc r "POS" "iquam_track") s3) 1 = get_qc r "POS" "iquam_track") by (apply nth_error_nth; exact (map_nth_error (fun r => get_qc r "POS" "iquam_track") i s3 Er)).
    rewrite N. exact (G2 i r Er). }
  destruct (generic_report r0) eqn:GR.
  - destruct (iquam_generic_ok sp p s2 s0 srest EB GE) as [s3 [E3 G3]]. rewrite <- EB, E3. cbn [bind].
    destruct (FIN s3 []) as [X Y]; [destruct G3 as [G1 G2]; split; [exact G1|]; intros i r Hr; destruct (G2 i r Hr) as [[_ []]|[G4 _]]; right; split; [exact G4|intros []]|].
    eexists. exists []. split; [reflexivity|]. split; [exact X|]. split; [reflexivity|exact Y].
  - pose proof (iquam_check_ok sp p s2 s0 srest EB GE Hd L2) as IQ. cbv zeta in IQ. rewrite EB in IQ. rewrite PB in IQ. rewrite <- EB in IQ.
    destruct (IQ H1 H2 H3) as [s3 [removed [E3 [G3 [C3 F3]]]]]. rewrite <- EB, E3. cbn [bind]. destruct (FIN s3 removed F3) as [X Y].
    eexists. exists removed. split; [reflexivity|]. split; [exact X|]. split; [|exact Y].
    pose proof (fun i j => near_ship sp v s2 (iq_n p) (iq_ship p) (iq_d p) (iq_t p) i j F) as NS.
    split.
    + rewrite LE in G3. eapply greedy_ext; [exact NS|exact G3].
    + intros i j B. apply C3. now apply NS.
Qed.

Lemma new_speed_check_ok : forall sp p limit minw v, timed v -> distance_like (sp_dist sp) ->
  (0 <= limit)%Q -> (0 < minw)%Q -> (0 <= iq_ship p)%Q -> (0 <= iq_d p)%Q -> (0 < iq_t p)%Q ->
  exists v' removed, new_speed_check sp p limit minw v = Ok v' /\
    ship_removed (sp_dist sp) (iq_ship p) (iq_d p) (iq_t p) (iq_n p) (match v with r :: _ => generic_report r | [] => true end) v removed /\
    flags_exactly "POS" "drf_spd" (fun k => exists i f, first_after v (fun i => In i removed) (minw * 24) i f /\
      drifts_faster (sp_dist sp) limit v i f /\ (i <= k <= f)%nat) v v'.
Proof.
  intros sp p limit minw v Hv Hd H0 Hm H1 H2 H3.
  destruct v as [|r0 rest].
  - exists [], []. split; [|split; [reflexivity|]].
    + unfold new_speed_check. rewrite (proj2 (Qleb_true 0 limit) H0), (proj2 (Qleb_true 0 minw)) by lra. reflexivity.
    + split; [constructor|]. intros [|i] r N; discriminate.
  - destruct (ship_flags_ok sp p r0 rest Hd (proj1 Hv) H1 H2 H3) as [ship [removed [E [L [G K]]]]].
    destruct (Nat.le_gt_cases (length (r0 :: rest)) 1) as [S1|S1].
    + destruct (single_flags (r0 :: rest) (fun k => exists i f, first_after (r0 :: rest) (fun i => In i removed) (minw * 24) i f /\ drifts_faster (sp_dist sp) limit (r0 :: rest) i f /\ (i <= k <= f)%nat)) as [v' [E' F']].
      * intros k Hk [i [f [[A [B [[t [T P]] _]]] _]]]. pose proof (hft_range _ _ _ _ T). pose proof (order_lt _ Hv _ _ _ T ltac:(lra)). lia.
      * exists v', removed. split; [|split; [exact G|exact F']].
        unfold new_speed_check. rewrite (proj2 (Qleb_true 0 limit) H0), (proj2 (Qleb_true 0 minw)) by lra. cbn [py_assert bind].
        rewrite (proj2 (Nat.leb_le _ _) S1). exact E'.
    + destruct (new_speed_ok sp limit minw (r0 :: rest) Hv H0 Hm p ship (fun i => In i removed) E L K S1) as [v' [E' [F1 F2]]].
      exists v', removed. split; [exact E'|]. split; [exact G|]. split; [exact F1|]. intros i r Hr. destruct (F2 i r Hr) as [[A [a [b [[B C] D]]]]|[A B]]; [left|right]; (split; [exact A|]).
      * exists a, b. auto.
      * intros [a [b [C [D D']]]]. apply B. exists a, b. split; [split; assumption|exact D'].
Qed.

(* ---- a minimum period of zero ---- *)

Lemma where_head : forall hrs maxh i, (i < length hrs)%nat -> (0 <= maxh)%Q -> nondecreasing hrs ->
  exists f, last_of (where_ (fun _ h => Qleb h (nth i hrs 0%Q + maxh)%Q) hrs) = Ok f /\ (i <= f < length hrs)%nat.
Proof.
  intros hrs maxh i Hi Hm _. destruct (last_of_ok (where_ (fun _ h => Qleb h (nth i hrs 0%Q + maxh)%Q) hrs)) as [f [Ef [Inf Max]]].
  { apply where_sorted. }
  { intro N. assert (X : In i (where_ (fun _ h => Qleb h (nth i hrs 0%Q + maxh)%Q) hrs)) by (apply where_In; split; [exact Hi|apply Qleb_true; lra]). rewrite N in X. destruct X. }
  exists f. split; [exact Ef|]. split; [|apply where_In in Inf; apply Inf]. apply Max. apply where_In. split; [exact Hi|apply Qleb_true; lra].
Qed.

Section ZeroLoop.
Context {St : Type}.
Variables (hrs : list Q) (step : nat -> St -> res St) (I : St -> Prop).
Hypothesis Hs : nondecreasing hrs.
Hypothesis Hstep : forall i st, (i < length hrs)%nat -> I st -> exists st', step i st = Ok st' /\ I st'.
Lemma zero_loop : forall fuel i st, (i < length hrs)%nat -> (length hrs <= fuel + i)%nat -> I st ->
  window_loop hrs 0 step fuel i (nth (length hrs - 1) hrs 0 - nth i hrs 0)%Q st = Err IndexError.
Proof.
  induction fuel as [|fuel IH]; intros i st Hi Hf HI; [lia|]. cbn [window_loop].
  pose proof (Hs i (length hrs - 1)%nat ltac:(lia) ltac:(lia)). rewrite (proj2 (Qleb_true 0 _)) by lra.
  destruct (Hstep i st Hi HI) as [st1 [E1 I1]]. rewrite E1. cbn [bind]. rewrite py_nth_last by lia. cbn [bind].
  destruct (Nat.eq_dec (i + 1) (length hrs)) as [D|D].
  - unfold py_nth. replace (Z.of_nat (i + 1) <? 0) with false by lia. replace (Z.of_nat (length hrs) <=? Z.of_nat (i + 1)) with true by lia. rewrite orb_true_r. reflexivity.
  - rewrite py_nth_nat by lia. cbn [bind]. apply IH; [lia|lia|exact I1].
Qed.
Lemma zero_run : forall st, (0 < length hrs)%nat -> I st -> run_windows hrs 0 step st = Err IndexError.
Proof.
  intros st Hn HI. unfold run_windows. rewrite py_nth_last by exact Hn. cbn [bind]. change 0 with (Z.of_nat 0) at 1. rewrite py_nth_nat by exact Hn. cbn [bind].
  apply zero_loop; [exact Hn|lia|exact HI].
Qed.
End ZeroLoop.

Lemma speed_zero_raises : forall sp limit maxw v, timed v -> (1 < length v)%nat -> (0 <= limit)%Q -> (0 <= maxw)%Q ->
  speed_check sp limit 0 maxw v = Err IndexError.
Proof.
  intros sp limit maxw v Hv Hn Hlim Hmax. unfold speed_check. rewrite (proj2 (Qleb_true 0 limit) Hlim), (proj2 (Qleb_true 0 maxw) Hmax).
  change (Qleb 0 0) with true. cbn [py_assert bind]. rewrite (proj2 (Nat.leb_gt _ _) Hn).
  destruct (read_ok v Hv) as [lats [lons [hrs [E R]]]]; [intro N; rewrite N in Hn; cbn in Hn; lia|]. rewrite E. cbn [bind].
  destruct (set_qc_all_writes "POS" "drf_spd" 0 v) as [v1 [E1 W1]]; [split; cbn; [lia|now left]|]. rewrite E1. cbn [bind].
  change (0 * 24)%Q with 0%Q. pose proof (rc_hrs _ _ _ _ R) as TL.
  apply (zero_run hrs _ (fun w => exists g, writes "POS" "drf_spd" g v w /\ zero_one g (length v))).
  - exact (rc_ord _ _ _ _ R).
  - intros i st Hi [g [W Z0]]. unfold speed_step. rewrite py_nth_nat by exact Hi. cbn [bind].
    destruct (where_head hrs (maxw * 24) i Hi ltac:(lra) (rc_ord _ _ _ _ R)) as [f [Ef Rf]]. rewrite Ef. cbn [bind]. rewrite py_nth_nat by lia. cbn [bind].
    destruct (Qltb _ 0); [exists st; split; [reflexivity|eauto]|].
    rewrite !py_nth_nat by (rewrite ?(rc_lat _ _ _ _ R), ?(rc_lon _ _ _ _ R); lia). cbn [bind].
    destruct (over_speed _ _ _); [|exists st; split; [reflexivity|eauto]].
    destruct (raise_flags_ok v (seq i (f + 1 - i)) g st W Z0) as [v' [E' W']]; [intros k Hk; apply in_seq in Hk; lia|].
    exists v'. split; [exact E'|]. eexists. split; [exact W'|]. intros k Hk. cbv beta. destruct (memn k _); [now right|now apply Z0].
  - lia.
  - eexists. split; [exact W1|]. intros k Hk. now left.
Qed.
Lemma new_speed_zero_raises : forall sp p limit v, timed v -> (1 < length v)%nat -> (0 <= limit)%Q -> distance_like (sp_dist sp) ->
  (0 <= iq_ship p)%Q -> (0 <= iq_d p)%Q -> (0 < iq_t p)%Q -> new_speed_check sp p limit 0 v = Err IndexError.
Proof.
  intros sp p limit v Hv Hn Hlim Hd H1 H2 H3. unfold new_speed_check. rewrite (proj2 (Qleb_true 0 limit) Hlim).
  change (Qleb 0 0) with true. cbn [py_assert bind]. rewrite (proj2 (Nat.leb_gt _ _) Hn).
  destruct (read_ok v Hv) as [lats [lons [hrs [E R]]]]; [intro N; rewrite N in Hn; cbn in Hn; lia|]. rewrite E. cbn [bind].
  assert (SF : exists ship, ship_flags sp p v = Ok ship /\ length ship = length v).
  { destruct v as [|r0 rest]; [cbn in Hn; lia|]. destruct (ship_flags_ok sp p r0 rest Hd (proj1 Hv) H1 H2 H3) as [ship [removed [X [L _]]]]. exists ship. auto. }
  destruct SF as [ship [Es Ls]]. rewrite Es. cbn [bind].
  destruct (set_qc_all_writes "POS" "drf_spd" 0 v) as [v1 [E1 W1]]; [split; cbn; [lia|now left]|]. rewrite E1. cbn [bind].
  change (0 * 24)%Q with 0%Q. pose proof (rc_hrs _ _ _ _ R) as TL.
  apply (zero_run hrs _ (fun w => exists g, writes "POS" "drf_spd" g v w /\ zero_one g (length v))).
  - exact (rc_ord _ _ _ _ R).
  - intros i st Hi [g [W Z0]]. unfold new_speed_step. rewrite (L_Stats.py_nth_nat Z ship i 1) by lia. cbn [bind].
    destruct (nth i ship 1 =? 1); [exists st; split; [reflexivity|eauto]|]. rewrite py_nth_nat by exact Hi. cbn [bind].
    pose proof (where_In (fun j h => Qleb (nth i hrs 0%Q + 0)%Q h && (nth j ship 1 =? 0)) hrs) as WI.
    destruct (where_ (fun j h => Qleb (nth i hrs 0%Q + 0)%Q h && (nth j ship 1 =? 0)) hrs) as [|f l]; [exists st; split; [reflexivity|eauto]|].
    assert (Lf : (f < length hrs)%nat) by (apply (WI f); now left).
    rewrite !py_nth_nat by (rewrite ?(rc_lat _ _ _ _ R), ?(rc_lon _ _ _ _ R); lia). cbn [bind].
    destruct (over_speed _ _ _); [|exists st; split; [reflexivity|eauto]].
    destruct (raise_flags_ok v (seq i (f + 1 - i)) g st W Z0) as [v' [E' W']]; [intros k Hk; apply in_seq in Hk; lia|].
    exists v'. split; [exact E'|]. eexists. split; [exact W'|]. intros k Hk. cbv beta. destruct (memn k _); [now right|now apply Z0].
  - lia.
  - eexists. split; [exact W1|]. intros k Hk. now left.
Qed.
