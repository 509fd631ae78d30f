(** Modal speed and speed limits. *)
Require Import String ZArith QArith Qround List Bool Lia Lqa.
Require Import Verif.M_Base Verif.L_Base Verif.M_Report Verif.L_Report3 Verif.M_Voyage Verif.L_Voyage Verif.M_Track Verif.S_Track.
Import ListNotations.
Open Scope list_scope.
Open Scope Z_scope.

Lemma km_pos : (0 < km_to_nm)%Q.
Proof. reflexivity. Qed.

Lemma speed_bin_spec : forall s, in_bin (s * (539957 # 1000000)) (Z.of_nat (speed_bin s)).
Proof.
  intro s. unfold speed_bin, in_bin. pose proof (Qfloor_spec (km_to_nm * s / 3)) as [A B].
  remember (Qfloor (km_to_nm * s / 3)) as k eqn:E. clear E.
  assert (A3 : (3 * inject_Z k <= s * (539957 # 1000000))%Q).
  { setoid_replace (s * (539957 # 1000000))%Q with (3 * (km_to_nm * s / 3))%Q by (unfold km_to_nm; field). lra. }
  assert (B3 : (s * (539957 # 1000000) < 3 * inject_Z k + 3)%Q).
  { setoid_replace (s * (539957 # 1000000))%Q with (3 * (km_to_nm * s / 3))%Q by (unfold km_to_nm; field). lra. }
  rewrite Z2Nat.id by lia. split; [lia|]. split.
  - destruct (Z_le_dec k 0); [left; lia|right]. eapply Qle_trans; [|exact A3].
    rewrite inject_Z_mult. change (inject_Z 3) with 3%Q.
    assert (inject_Z (Z.max 0 (Z.min 11 k)) <= inject_Z k)%Q by (apply inject_Z_le; lia). lra.
  - destruct (Z_le_dec 11 k); [left; lia|right]. eapply Qlt_le_trans; [exact B3|].
    rewrite inject_Z_plus, inject_Z_mult. change (inject_Z 3) with 3%Q.
    assert (inject_Z k <= inject_Z (Z.max 0 (Z.min 11 k)))%Q by (apply inject_Z_le; lia). lra.
Qed.

Lemma in_bin_fun : forall x k k', in_bin x k -> in_bin x k' -> k = k'.
Proof.
  assert (W : forall x k k', in_bin x k -> in_bin x k' -> ~ k < k').
  { intros x k k' [R [_ U]] [R' [L' _]] H. destruct L' as [->|L']; [lia|]. destruct U as [->|U]; [lia|].
    assert (inject_Z (3 * k + 3) <= inject_Z (3 * k'))%Q by (apply inject_Z_le; lia). lra. }
  intros x k k' A B. pose proof (W x k k' A B). pose proof (W x k' k B A). lia.
Qed.

Lemma bin_count_fun : forall l k c c', bin_count l k c -> bin_count l k c' -> c = c'.
Proof.
  induction l as [|s l IH]; intros k c c' A B; inversion A; inversion B; subst; auto; try contradiction.
  - f_equal. eauto.
  - eauto.
Qed.
Lemma bin_count_nonneg : forall l k c, bin_count l k c -> 0 <= c.
Proof. intros l k c H. induction H; lia. Qed.

Lemma histogram_ok : forall l freq, length freq = 12%nat -> exists freq', histogram (map Some l) freq = Ok freq' /\ length freq' = 12%nat /\
  forall k, 0 <= k <= 11 -> exists c, bin_count l k c /\ nth (Z.to_nat k) freq' 0 = nth (Z.to_nat k) freq 0 + c.
Proof.
  induction l as [|s l IH]; intros freq L; simpl.
  - exists freq. split; auto. split; auto. intros k Hk. exists 0. split; [constructor|lia].
  - destruct (IH (update_nth (speed_bin s) (nth (speed_bin s) freq 0 + 1) freq)) as [f' [E [L' H]]]; [now rewrite update_length|].
    exists f'. split; auto. split; auto. intros k Hk. destruct (H k Hk) as [c [C N]].
    pose proof (speed_bin_spec s) as SB. destruct (Z.eq_dec k (Z.of_nat (speed_bin s))) as [->|D].
    + exists (c + 1). split; [now constructor|]. rewrite N. rewrite Nat2Z.id.
      rewrite nth_update_same; [lia|]. destruct SB as [R _]. lia.
    + exists c. split; [apply bc_out; auto; intro K; apply D; eapply in_bin_fun; eauto|]. rewrite N.
      rewrite nth_update_other; [reflexivity|]. intro K. apply D. lia.
Qed.

Lemma top_bin_spec : forall freq idx best ik, let r := top_bin freq idx best ik in
  (r = best /\ forall j, (j < length freq)%nat -> nth j freq 0 <= ik) \/
  (exists j, (j < length freq)%nat /\ r = (idx + j)%nat /\ ik < nth j freq 0 /\
     (forall j', (j' < length freq)%nat -> nth j' freq 0 <= nth j freq 0) /\ forall j', (j' < j)%nat -> nth j' freq 0 < nth j freq 0).
Proof.
  induction freq as [|f freq IH]; intros idx best ik r; unfold r; cbn [top_bin].
  - left. split; auto. intros j Hj. simpl in Hj. lia.
  - destruct (Z.ltb_spec ik f) as [C|C].
    + right. destruct (IH (S idx) idx f) as [[E A]|[j [Hj [E [G [A B]]]]]].
      * exists O. split; [simpl; lia|]. split; [rewrite E; lia|]. split; [exact C|]. split; [|intros j' Hj'; lia].
        intros j' Hj'. destruct j'; cbn [nth]; [lia|]. apply A. simpl in Hj'. lia.
      * exists (S j). split; [simpl; lia|]. split; [rewrite E; lia|]. cbn [nth]. split; [lia|]. split.
        -- intros j' Hj'. destruct j'; cbn [nth]; [lia|]. apply A. simpl in Hj'. lia.
        -- intros j' Hj'. destruct j'; cbn [nth]; [lia|]. apply B. lia.
    + destruct (IH (S idx) best ik) as [[E A]|[j [Hj [E [G [A B]]]]]].
      * left. split; auto. intros j Hj. destruct j; cbn [nth]; [lia|]. apply A. simpl in Hj. lia.
      * right. exists (S j). split; [simpl; lia|]. split; [rewrite E; lia|]. cbn [nth]. split; [lia|]. split.
        -- intros j' Hj'. destruct j'; cbn [nth]; [lia|]. apply A. simpl in Hj'. lia.
        -- intros j' Hj'. destruct j'; cbn [nth]; [lia|]. apply B. lia.
Qed.

Lemma modesp_ok : forall x0 l, l <> [] -> exists a m, modesp (x0 :: map Some l) = Ok (Some a) /\ modal_knots l m /\ (a == nm m)%Q.
Proof.
  intros x0 l Nl. destruct l as [|s l]; [contradiction|]. clear Nl. remember (s :: l) as sl eqn:Esl.
  assert (M : modesp (x0 :: map Some sl) = let! freq := histogram (map Some sl) (repeat 0 12) in
    let atmode := (inject_Z (Z.of_nat (top_bin freq 0 0 (-32768)) + 1) * 3 - (3 # 2))%Q in
    let amode := if Qleb atmode (17 # 2) then (17 # 2)%Q else atmode in Ok (Some (amode / km_to_nm)%Q)) by (rewrite Esl; reflexivity).
  rewrite M. clear M Esl. destruct (histogram_ok sl (repeat 0 12) eq_refl) as [freq [E [L H]]]. rewrite E. cbn [bind].
  set (b := top_bin freq 0 0 (-32768)).
  assert (Z0 : forall k, 0 <= k <= 11 -> nth (Z.to_nat k) (repeat 0 12) 0 = 0).
  { intros k Hk. assert (K : (Z.to_nat k < 12)%nat) by lia. generalize (Z.to_nat k) K. intros n Hn. do 12 (destruct n; [reflexivity|]). lia. }
  assert (N : forall j, (j < 12)%nat -> exists c, bin_count sl (Z.of_nat j) c /\ nth j freq 0 = c).
  { intros j Hj. destruct (H (Z.of_nat j)) as [c [C Nc]]; [lia|]. exists c. split; auto. rewrite Z0, Nat2Z.id in Nc by lia. lia. }
  destruct (top_bin_spec freq 0 0 (-32768)) as [[_ A]|[j [Hj [Eb [G [A B]]]]]].
  { exfalso. rewrite L in A. destruct (N O) as [c [C K]]; [lia|]. specialize (A O ltac:(lia)). rewrite K in A. apply bin_count_nonneg in C. lia. }
  fold b in Eb. rewrite L in *. cbn [Nat.add] in Eb. rewrite Eb. clear b Eb.
  set (atm := (inject_Z (Z.of_nat j + 1) * 3 - (3 # 2))%Q). cbv zeta.
  assert (AT : (atm == inject_Z (3 * Z.of_nat j) + (3 # 2))%Q).
  { unfold atm. rewrite inject_Z_plus, inject_Z_mult. change (inject_Z 3) with 3%Q. change (inject_Z 1) with 1%Q. ring. }
  destruct (N j Hj) as [c [C Nj]].
  exists ((if Qleb atm (17 # 2) then 17 # 2 else atm) / km_to_nm)%Q, (if Qleb atm (17 # 2) then (17 # 2)%Q else atm).
  split; [reflexivity|]. split; [|reflexivity].
  exists (Z.of_nat j), c. split; [lia|]. split; [exact C|]. split.
  - intros k' c' Hk' C'. destruct (N (Z.to_nat k')) as [c2 [C2 K2]]; [lia|]. rewrite Z2Nat.id in C2 by lia.
    rewrite (bin_count_fun _ _ _ _ C' C2). rewrite <- K2, <- Nj.
    pose proof (A (Z.to_nat k') ltac:(lia)). destruct (Z_lt_dec k' (Z.of_nat j)).
    + left. apply B. lia.
    + lia.
  - destruct (Qleb atm (17 # 2)) eqn:Q0; qprop.
    + destruct (Qlt_le_dec (inject_Z (3 * Z.of_nat j) + (3 # 2)) (17 # 2)) as [D|D]; [right; split; [exact D|reflexivity]|left; split; [exact D|lra]].
    + left. split; [lra|exact AT].
Qed.

Lemma modesp_short : forall l, (length l <= 1)%nat -> modesp l = Ok None.
Proof. intros [|x [|y l]] H; try reflexivity. simpl in H. lia. Qed.

Lemma modal_range : forall l m, modal_knots l m -> (17 # 2 <= m <= 69 # 2)%Q.
Proof.
  intros l m [k [c [R [_ [_ H]]]]]. assert (inject_Z (3 * k) <= inject_Z 33)%Q by (apply inject_Z_le; lia). change (inject_Z 33) with 33%Q in H0.
  destruct H as [[A B]|[A B]]; lra.
Qed.

Lemma limits_ok : forall a m, (a == nm m)%Q -> (17 # 2 <= m)%Q -> exists amax amaxx amin, set_speed_limits (Some a) = (amax, amaxx, amin) /\
  ((m <= 851 # 100 /\ amax == nm 15 /\ amaxx == nm 20 /\ amin == 0) \/
   (851 # 100 < m /\ amax == nm ((5 # 4) * m) /\ amaxx == nm 30 /\ amin == nm ((3 # 4) * m)))%Q.
Proof.
  intros a m E R. unfold set_speed_limits. destruct (Qleb a ((851 # 100) / km_to_nm)) eqn:C; qprop; do 3 eexists; (split; [reflexivity|]).
  - left. split; [|repeat split; reflexivity]. rewrite E in C. unfold nm in C. change (539957 # 1000000) with km_to_nm in C.
    apply (Qmult_le_r _ _ (/ km_to_nm)); [reflexivity|]. exact C.
  - right. split; [|split; [|split]].
    + rewrite E in C. unfold nm in C. change (539957 # 1000000) with km_to_nm in C. apply (Qmult_lt_r _ _ (/ km_to_nm)); [reflexivity|]. exact C.
    + rewrite E. unfold nm. field.
    + reflexivity.
    + rewrite E. unfold nm. field.
Qed.
