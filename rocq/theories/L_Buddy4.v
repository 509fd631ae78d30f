(** The buddy check does not depend on the order of reports; neighbours in small boxes. *)
Require Import String ZArith QArith Qround Qabs List Bool Lia Lqa Permutation.
Require Import ZifyBool.
Require Import Verif.M_Base Verif.L_Base Verif.M_Grid Verif.S_Grid Verif.S_Clim Verif.M_Stats Verif.S_Stats Verif.L_Stats Verif.M_Report Verif.M_Buddy Verif.S_Buddy Verif.L_Buddy Verif.L_Buddy2 Verif.L_Buddy3.
Import ListNotations.
Open Scope string_scope.
Open Scope list_scope.
Open Scope Z_scope.

Lemma collected_perm : forall P v l l', Permutation l l' -> forall out, collected P v l out -> exists out', collected P v l' out' /\ Permutation out out'.
Proof.
  intros P v l l' H. induction H; intros out C.
  - inversion C; subst. exists []. split; [constructor|reflexivity].
  - inversion C; subst.
    + destruct (IHPermutation out0) as [o [A B]]; [assumption|]. exists (a :: o). split; [now apply coll_in|now constructor].
    + destruct (IHPermutation out) as [o [A B]]; [assumption|]. exists o. split; [now apply coll_none|assumption].
    + destruct (IHPermutation out) as [o [A B]]; [assumption|]. exists o. split; [now apply coll_out|assumption].
  - inversion C; subst; clear C;
      match goal with X : collected _ _ (_ :: _) _ |- _ => inversion X; subst; clear X end;
      match goal with
      | |- exists o, _ /\ Permutation (?a :: ?b :: ?w) o => exists (b :: a :: w); split; [|constructor]
      | |- exists o, _ /\ Permutation ?u o => exists u; split; [|reflexivity]
      end;
      repeat (first [eapply coll_in; [eassumption|eassumption|] | eapply coll_none; [eassumption|eassumption|] | eapply coll_out; [eassumption|]]); assumption.
  - destruct (IHPermutation1 out C) as [o [A B]]. destruct (IHPermutation2 o A) as [o' [A' B']]. exists o'. split; [exact A'|]. now rewrite B.
Qed.

Section Order.
Variables (f : qc_filter) (t : string) (l l2 : list report).
Hypothesis perm : Permutation l l2.

Lemma occ_perm : forall c, occupied f t l c -> occupied f t l2 c.
Proof.
  intros c [out [C N]]. destruct (collected_perm _ _ _ _ perm out C) as [out' [C' P]]. exists out'. split; [exact C'|].
  intros ->. apply Permutation_sym, Permutation_nil in P. contradiction.
Qed.
End Order.

Lemma neighbours_occ : forall (occ occ' : place -> Prop) rx ry rp c offs, (forall x, occ x <-> occ' x) -> neighbours occ rx ry rp c offs -> neighbours occ' rx ry rp c offs.
Proof. intros occ occ' rx ry rp c offs H [N M]. split; [exact N|]. intros dx dy dp. rewrite M, H. reflexivity. Qed.

Lemma buddies_unique : forall f t l l2 rx ry rp c bm counts bm2 counts2, Permutation l l2 ->
  buddies f t l rx ry rp c bm counts -> buddies f t l2 rx ry rp c bm2 counts2 -> (bm == bm2)%Q /\ Permutation counts counts2.
Proof.
  intros f t l l2 rx ry rp c bm counts bm2 counts2 P [offs [outs [N [F [NE [B CO]]]]]] [offs2 [outs2 [N2 [F2 [NE2 [B2 CO2]]]]]].
  assert (N' : neighbours (occupied f t l2) rx ry rp c offs).
  { eapply neighbours_occ; [|exact N]. intro x. split; apply occ_perm; [exact P|now symmetry]. }
  pose proof (neighbours_perm _ _ _ _ _ _ _ N' N2) as PO.
  destruct (Permutation_Forall2 PO F) as [outs' [PU F']].
  assert (Z1 : Forall2 (@Permutation Q) outs' outs2).
  { clear - F' F2 P. revert outs2 F2. induction F' as [|o out u w H F' IH]; intros outs2 F2; inversion F2; subst; constructor; [|auto].
    destruct (collected_perm _ _ _ _ P out H) as [out' [C' P']]. now rewrite P', (collected_fun _ _ _ _ _ C' H2). }
  subst counts counts2. rewrite B, B2. split.
  - rewrite (meanQ_perm _ _ (Permutation_map meanQ PU)). apply meanQ_eq. clear - Z1. induction Z1; constructor; [now apply meanQ_perm|assumption].
  - rewrite (Permutation_map (fun out => Z.of_nat (length out)) PU). clear - Z1. induction Z1; [constructor|]. cbn [map]. rewrite (Permutation_length H). now constructor.
Qed.
Lemma no_buddies_perm : forall f t l l2 rx ry rp c, Permutation l l2 -> no_buddies f t l rx ry rp c -> no_buddies f t l2 rx ry rp c.
Proof. intros f t l l2 rx ry rp c P N. eapply neighbours_occ; [|exact N]. intro x. split; apply occ_perm; [exact P|now symmetry]. Qed.
Lemma buddies_exclusive : forall f t l l2 rx ry rp c bm counts, Permutation l l2 -> buddies f t l rx ry rp c bm counts -> ~ no_buddies f t l2 rx ry rp c.
Proof.
  intros f t l l2 rx ry rp c bm counts P [offs [outs [N [F [NE _]]]]] NB. apply Permutation_sym in P. apply (no_buddies_perm _ _ _ _ _ _ _ _ P) in NB.
  pose proof (neighbours_perm _ _ _ _ _ _ _ N NB) as PO. apply Permutation_sym, Permutation_nil in PO. subst offs. inversion F; subst. congruence.
Qed.
Lemma multiplier_unique : forall lims mults t q q', multiplier_for lims mults t q -> multiplier_for lims mults t q' -> q = q'.
Proof.
  intros lims mults t q q' [i [l [A [B [C D]]]]] [i' [l' [A' [B' [C' D']]]]].
  destruct (lt_eq_lt_dec i i') as [[L|E]|L].
  - specialize (D i' l' L A'). lia.
  - subst i'. congruence.
  - specialize (D' i l L A). lia.
Qed.
Lemma sd_unique : forall sd c s s', clim_wf sd -> sd_at sd c s -> sd_at sd c s' -> (s == s')%Q.
Proof.
  intros sd c s s' [[W|[W|W]] _] [t [A [B [C D]]]] [t' [A' [B' [C' D']]]]; (assert (t = t') by (intuition congruence)); subst t';
    (destruct (cval sd t _ _) as [v|]; [destruct D as [[D1 D2]|[D1 D2]], D' as [[D1' D2']|[D1' D2']]; lra|lra]).
Qed.
Lemma sum_perm : forall a b, Permutation a b -> fold_right Z.add 0 a = fold_right Z.add 0 b.
Proof. intros a b H. induction H; cbn [fold_right]; lia. Qed.

Lemma limits_unique : forall reach f t l l2 sd steps c bm bsd bm2 bsd2, clim_wf sd -> Permutation l l2 ->
  buddy_limits reach f t l sd steps c bm bsd -> buddy_limits reach f t l2 sd steps c bm2 bsd2 -> (bm == bm2)%Q /\ (bsd == bsd2)%Q.
Proof.
  intros reach f t l l2 sd steps c bm bsd bm2 bsd2 W P H H2.
  destruct H as [[i [s [counts [mult [sdv [A [B [C [D [E F]]]]]]]]]]|[A [B C]]], H2 as [[i2 [s2 [counts2 [mult2 [sdv2 [A2 [B2 [C2 [D2 [E2 F2]]]]]]]]]]|[A2 [B2 C2]]].
  - destruct (lt_eq_lt_dec i i2) as [[L|EQ]|L].
    + exfalso. exact (buddies_exclusive _ _ _ _ _ _ _ _ _ _ P C (B2 i s L A)).
    + subst i2. assert (s2 = s) by congruence. subst s2. destruct (buddies_unique _ _ _ _ _ _ _ _ _ _ _ _ P C C2) as [U V]. split; [exact U|].
      rewrite (sum_perm _ _ V) in D. rewrite F, F2, (multiplier_unique _ _ _ _ _ D D2), (sd_unique sd c _ _ W E E2). reflexivity.
    + exfalso. exact (buddies_exclusive _ _ _ _ _ _ _ _ _ _ (Permutation_sym P) C2 (B i2 s2 L A2)).
  - exfalso. exact (buddies_exclusive _ _ _ _ _ _ _ _ _ _ P C (A2 s (nth_error_In _ _ A))).
  - exfalso. exact (buddies_exclusive _ _ _ _ _ _ _ _ _ _ (Permutation_sym P) C2 (A s2 (nth_error_In _ _ A2))).
  - split; lra.
Qed.

Lemma verdict_unique : forall reach f t sd steps l l2 r v v2, clim_wf sd -> Permutation l l2 ->
  mds_verdict reach f t sd steps l r v -> mds_verdict reach f t sd steps l2 r v2 -> v = v2.
Proof.
  intros reach f t sd steps l l2 r v v2 W P [[A ->]|[A [c [a [bm [bsd [B [C [D E]]]]]]]]] [[A2 ->]|[A2 [c2 [a2 [bm2 [bsd2 [B2 [C2 [D2 E2]]]]]]]]]; try lia.
  assert (c2 = c) by (eapply in_cell_unique; eauto). subst c2. assert (a2 = a) by congruence. subst a2.
  destruct (limits_unique _ _ _ _ _ _ _ _ _ _ _ _ W P D D2) as [U V].
  assert (X : (Qabs' (a - bm) == Qabs' (a - bm2))%Q).
  { destruct (Qabs'_cases (a - bm)) as [[? ->]|[? ->]], (Qabs'_cases (a - bm2)) as [[? ->]|[? ->]]; lra. }
  destruct E as [[E ->]|[E ->]], E2 as [[E2 ->]|[E2 ->]]; try reflexivity; lra.
Qed.

Lemma flagged_nth : forall t fl verdict l l' i r, flagged t fl verdict l l' -> nth_error l i = Some r -> exists v r', nth_error l' i = Some r' /\ verdict r v /\ set_qc r t fl v = Ok r'.
Proof.
  intros t fl verdict l l' i r H. revert i. induction H as [|x x' l l' [v [V Q]] H IH]; intros [|i] N; try discriminate.
  - injection N as ->. exists v, x'. now split.
  - apply IH. exact N.
Qed.

(* ---- small boxes ---- *)
Lemma mod_small_diff : forall n a b, 0 < n -> a mod n = b mod n -> Z.abs (a - b) < n -> a = b.
Proof.
  intros n a b H E L. assert (K : (a - b) mod n = 0) by (rewrite Zminus_mod, E, Z.sub_diag; apply Z.mod_0_l; lia).
  apply Z.mod_divide in K; [|lia]. destruct K as [k K]. assert (k = 0) by nia. subst k. lia.
Qed.
Lemma small_box : forall occ rx ry rp c offs, neighbours occ rx ry rp c offs -> 2 * rx < 360 -> 2 * ry < 180 -> 2 * rp < 73 -> cell_ok c ->
  NoDup (map (shift c) offs) /\ ~ In c (map (shift c) offs) /\
  forall c', In c' (map (shift c) offs) <-> (c' <> c /\ occ c' /\ cell_ok c' /\
    (exists k, Z.abs (fst (fst c') - fst (fst c) + 360 * k) <= rx) /\ (exists k, Z.abs (snd (fst c') - snd (fst c) + 180 * k) <= ry) /\ (exists k, Z.abs (snd c' - snd c + 73 * k) <= rp)).
Proof.
  intros occ rx ry rp [[x y] p] offs [N M] X Y P [CX [CY CP]]. cbn [fst snd] in *.
  assert (Self : ~ In (x, y, p) (map (shift (x, y, p)) offs)).
  { rewrite in_map_iff. intros [[[dx dy] dp] [E I]]. apply M in I. unfold shift in E. cbn [fst snd] in E. injection E as E1 E2 E3.
    assert (dx = 0) by (cut (x + dx = x); [lia|]; apply (mod_small_diff 360); [lia|rewrite E1; symmetry; apply Z.mod_small; lia|lia]).
    assert (dy = 0) by (cut (y + dy = y); [lia|]; apply (mod_small_diff 180); [lia|rewrite E2; symmetry; apply Z.mod_small; lia|lia]).
    assert (dp = 0) by (cut (p + dp = p); [lia|]; apply (mod_small_diff 73); [lia|rewrite E3; symmetry; apply Z.mod_small; lia|lia]). lia. }
  split; [|split; [exact Self|]].
  - apply NoDup_map_inj; [|exact N]. intros [[dx dy] dp] [[ex ey] ep] I J E. apply M in I, J. unfold shift in E. cbn [fst snd] in E. injection E as E1 E2 E3.
    assert (x + dx = x + ex) by (apply (mod_small_diff 360); lia). assert (y + dy = y + ey) by (apply (mod_small_diff 180); lia). assert (p + dp = p + ep) by (apply (mod_small_diff 73); lia).
    repeat f_equal; lia.
  - intros [[x' y'] p']. rewrite in_map_iff. cbn [fst snd]. split.
    + intros [[[dx dy] dp] [E I]]. pose proof (in_map (shift (x, y, p)) _ _ I) as J. rewrite E in J. apply M in I. rewrite E in I.
      split; [intro K; rewrite K in J; contradiction|]. split; [tauto|]. rewrite <- E. split; [apply cell_ok_shift|].
      unfold shift in E. cbn [fst snd] in E. injection E as <- <- <-.
      split; [exists ((x + dx) / 360)|split; [exists ((y + dy) / 180)|exists ((p + dp) / 73)]].
      * pose proof (Z.div_mod (x + dx) 360 ltac:(lia)). lia.
      * pose proof (Z.div_mod (y + dy) 180 ltac:(lia)). lia.
      * pose proof (Z.div_mod (p + dp) 73 ltac:(lia)). lia.
    + intros [NE [O [[CX' [CY' CP']] [[k1 K1] [[k2 K2] [k3 K3]]]]]]. cbn [fst snd] in *.
      exists (x' - x + 360 * k1, y' - y + 180 * k2, p' - p + 73 * k3).
      assert (E : shift (x, y, p) (x' - x + 360 * k1, y' - y + 180 * k2, p' - p + 73 * k3) = (x', y', p')).
      { unfold shift. cbn [fst snd]. f_equal; [f_equal|].
        - replace (x + (x' - x + 360 * k1)) with (x' + k1 * 360) by lia. rewrite Z.mod_add by lia. apply Z.mod_small. lia.
        - replace (y + (y' - y + 180 * k2)) with (y' + k2 * 180) by lia. rewrite Z.mod_add by lia. apply Z.mod_small. lia.
        - replace (p + (p' - p + 73 * k3)) with (p' + k3 * 73) by lia. rewrite Z.mod_add by lia. apply Z.mod_small. lia. }
      split; [exact E|]. apply M. rewrite E. repeat (split; [lia|]). split; [|exact O].
      intros [Z1 [Z2 Z3]]. apply NE. assert (k1 = 0) by lia. assert (k2 = 0) by lia. assert (k3 = 0) by lia. subst. f_equal; [f_equal|]; lia.
Qed.

(** A deck whose checked reports all lie in one cell. *)
Lemma lonely : forall reach f t l sd steps c, clim_wf sd -> cell_ok c ->
  (forall r c', In r l -> test_report f r = 0 -> in_cell r c' -> c' = c) ->
  (forall s, In s steps -> 2 * reach (fst (fst (fst s))) (snd (fst c)) < 360 /\ 2 * snd (fst (fst s)) < 180 /\ 2 * snd (fst s) < 73) ->
  forall r v, In r l -> test_report f r = 0 -> mds_verdict reach f t sd steps l r v -> exists a, getanom r t = Some a /\ ((500 <= Qabs' a)%Q /\ v = 1 \/ (Qabs' a < 500)%Q /\ v = 0).
Proof.
  intros reach f t l sd steps c W C ONE SM r v I T [[V _]|[_ [c0 [a [bm [bsd [B [A [L V]]]]]]]]]; [lia|]. assert (c0 = c) by (eapply ONE; eauto). subst c0.
  exists a. split; [exact A|].
  assert (OC : forall c', occupied f t l c' -> c' = c).
  { clear - ONE. intros c' [out [H N]]. assert (EX : exists r, In r l /\ test_report f r = 0 /\ in_cell r c').
    { unfold cell_anoms in H. induction H.
      - congruence.
      - exists r. split; [now left|exact H].
      - destruct IHcollected as [r' [A B]]; [intros r' c2 I; apply ONE; now right|exact N|]. exists r'. split; [now right|exact B].
      - destruct IHcollected as [r' [A B]]; [intros r' c2 I; apply ONE; now right|exact N|]. exists r'. split; [now right|exact B]. }
    destruct EX as [r [A [B D]]]. eapply ONE; eauto. }
  assert (E : (bm == 0)%Q /\ (bsd == 500)%Q).
  { destruct L as [[i [s [counts [mult [sdv [S1 [_ [[offs [outs [N [F [NE _]]]]] _]]]]]]]]|[_ L]]; [|exact L]. exfalso.
    destruct (SM s (nth_error_In _ _ S1)) as [M1 [M2 M3]]. destruct (small_box _ _ _ _ _ _ N M1 M2 M3 C) as [_ [Self _]].
    destruct N as [_ M]. destruct offs as [|[[dx dy] dp] offs]; [inversion F; subst; congruence|].
    assert (J : In (dx, dy, dp) ((dx, dy, dp) :: offs)) by now left. pose proof (in_map (shift c) _ _ J) as K. apply M in J.
    destruct J as [_ [_ [_ [_ J]]]]. apply OC in J. rewrite J in K. contradiction. }
  destruct E as [E1 E2].
  assert (X : (Qabs' (a - bm) == Qabs' a)%Q).
  { destruct (Qabs'_cases (a - bm)) as [[? ->]|[? ->]], (Qabs'_cases a) as [[? ->]|[? ->]]; lra. }
  destruct V as [[V ->]|[V ->]]; [left|right]; (split; [lra|reflexivity]).
Qed.
