(** The flags of the buddy checks. *)
Require Import String ZArith QArith Qround Qabs List Bool Lia Lqa Permutation.
Require Import ZifyBool.
Require Import Verif.M_Base Verif.L_Base Verif.M_Calendar Verif.S_Calendar Verif.L_Calendar Verif.L_Calendar2 Verif.M_Grid Verif.S_Grid Verif.L_Grid Verif.L_Grid2 Verif.L_Mds
  Verif.S_Clim Verif.L_Clim Verif.M_Stats Verif.S_Stats Verif.L_Stats Verif.L_Stats2 Verif.M_Report Verif.L_Report Verif.M_Drifter Verif.M_Buddy Verif.S_Buddy Verif.L_Buddy Verif.L_Buddy2.
Import ListNotations.
Open Scope string_scope.
Open Scope list_scope.
Open Scope Z_scope.

Section Flags.
Variables (f : qc_filter) (t flag : string) (verdict : Q -> Q * Q -> res Z) (bs : list (cell * (Q * Q))) (L : list report).
Hypothesis known : In t ["SST"; "AT"; "DPT"; "SLP"].
Variable R : cell -> Q * Q -> Prop.
Hypothesis bs_ok : forall c, occupied f t L c -> exists b, g_find c bs = Some b /\ R c b.
Hypothesis placed : forall r, In r L -> test_report f r = 0 -> exists c, in_cell r c.

Lemma set_qc_known : forall r v, 0 <= v <= 9 -> exists r', set_qc r t flag v = Ok r'.
Proof.
  intros r v V. unfold set_qc. rewrite py_assert_true by lia. cbn [bind].
  rewrite py_assert_true; [cbn [bind]; eauto|]. cbn in known. destruct known as [<-|[<-|[<-|[<-|[]]]]]; reflexivity.
Qed.

Definition one_verdict (r : report) (v : Z) : Prop :=
  (test_report f r <> 0 /\ v = 0) \/
  (test_report f r = 0 /\ exists c a b, in_cell r c /\ getanom r t = Some a /\ R c b /\ verdict a b = Ok v).

Lemma flag_reports_sound : forall l l', (forall r, In r l -> In r L) -> flag_reports f t flag verdict bs l = Ok l' -> flagged t flag one_verdict l l'.
Proof.
  induction l as [|r l IH]; intros l' S H; cbn [flag_reports] in H; [injection H as <-; constructor|].
  destruct (test_report f r =? 0) eqn:T.
  - destruct (placed r (S r (or_introl eq_refl)) ltac:(lia)) as [c C].
    destruct (getanom r t) as [a|] eqn:A.
    + destruct (bs_ok c) as [b [B1 B2]]; [eapply own_cell; [apply S; now left|lia|exact C|exact A]|].
      rewrite (get_buddy_spec r c bs b C B1) in H. cbn [bind] in H. destruct (verdict a b) as [q|e] eqn:V; cbn [bind] in H; [|discriminate].
      destruct (set_qc r t flag q) as [r'|e] eqn:Q; cbn [bind] in H; [|discriminate].
      destruct (flag_reports f t flag verdict bs l) as [l''|e] eqn:F; cbn [bind] in H; [|discriminate]. injection H as <-.
      constructor; [|apply IH; [intros x X; apply S; now right|reflexivity]]. exists q. split; [|exact Q]. right. split; [lia|].
      exists c, a, b. repeat split; assumption.
    + destruct (get_buddy bs (lat r) (lon r) (getint r "MO") (getint r "DY")); cbn [bind] in H; discriminate.
  - destruct (set_qc r t flag 0) as [r'|e] eqn:Q; cbn [bind] in H; [|discriminate].
    destruct (flag_reports f t flag verdict bs l) as [l''|e] eqn:F; cbn [bind] in H; [|discriminate]. injection H as <-.
    constructor; [|apply IH; [intros x X; apply S; now right|reflexivity]]. exists 0. split; [|exact Q]. left. split; [lia|reflexivity].
Qed.
Lemma flag_reports_complete : (forall a b v, verdict a b = Ok v -> 0 <= v <= 9) -> forall l, (forall r, In r l -> In r L) ->
  (forall r c a b, In r l -> test_report f r = 0 -> in_cell r c -> getanom r t = Some a -> R c b -> exists v, verdict a b = Ok v) ->
  checkable f t l -> exists l', flag_reports f t flag verdict bs l = Ok l'.
Proof.
  intro W. induction l as [|r l IH]; intros S V K; cbn [flag_reports]; [eauto|].
  destruct IH as [l' E]; [intros x X; apply S; now right|intros r' c a b I; apply V; now right|intros x X; apply K; now right|]. rewrite E.
  destruct (test_report f r =? 0) eqn:T.
  - destruct (K r (or_introl eq_refl) ltac:(lia)) as [c [a [C A]]].
    destruct (bs_ok c) as [b [B1 B2]]; [eapply own_cell; [apply S; now left|lia|exact C|exact A]|].
    rewrite (get_buddy_spec r c bs b C B1), A. cbn [bind]. destruct (V r c a b (or_introl eq_refl) ltac:(lia) C A B2) as [v V']. rewrite V'. cbn [bind].
    destruct (set_qc_known r v (W _ _ _ V')) as [r' ->]. cbn [bind]. eauto.
  - destruct (set_qc_known r 0 ltac:(lia)) as [r' ->]. cbn [bind]. eauto.
Qed.
Lemma flag_reports_checkable : forall l l', (forall r, In r l -> In r L) -> flag_reports f t flag verdict bs l = Ok l' -> checkable f t l.
Proof.
  intros l l' S H. apply flag_reports_sound in H; [|exact S]. intros r I T. clear S.
  induction H as [|x x' l l' [v [V _]] H IH]; [destruct I|]. destruct I as [->|I]; [|auto].
  destruct V as [[V _]|[_ [c [a [b [C [A _]]]]]]]; [lia|]. now exists c, a.
Qed.
End Flags.

Lemma placed_of : forall f t l g, grid_reports f t l [] = Ok g -> forall r, In r l -> test_report f r = 0 -> exists c, in_cell r c.
Proof. intros f t l g H. destruct (grid_reports_spec f t l [] g H) as [_ [_ [P _]]]; [intros c s n K; discriminate|constructor|exact P]. Qed.
Lemma occupied_find : forall f t l g c, averaged f t l g -> (occupied f t l c <-> In c (map fst g)).
Proof.
  intros f t l g c A. rewrite <- (averaged_occ f t l g c A), <- g_find_keys. destruct (g_find c g) as [v|]; cbn [has]; split; intro H; try discriminate; try destruct H; eauto; discriminate.
Qed.
Lemma occupied_ok : forall f t l c, occupied f t l c -> cell_ok c.
Proof.
  intros f t l c [out [H N]]. unfold cell_anoms in H. induction H; auto; [congruence|]. destruct H as [_ H]. now apply in_cell_ok in H.
Qed.

(* ---- mds_buddy_check ---- *)
Section Mds.
Variables (xspan : Z -> Z -> Z) (sd : clim) (limits : list (Z * Z * Z)) (ths : list (list Z)) (mus : list (list Q)).
Hypothesis Wsd : clim_wf sd.
Hypothesis Nsd : cny sd = 180.
Hypothesis Wp : params_ok limits ths mus.

Lemma mds_limits : forall f t l g, averaged f t l g -> exists bs,
  get_buddy_limits_with_parameters xspan sd limits ths mus g = Ok bs /\
  forall c, occupied f t l c -> exists b, g_find c bs = Some b /\ buddy_limits xspan f t l sd (steps_of limits ths mus) c (fst b) (snd b).
Proof.
  intros f t l g A. unfold get_buddy_limits_with_parameters.
  destruct (all_cells_spec (cell_limits xspan sd limits ths mus g) g (fun c b => buddy_limits xspan f t l sd (steps_of limits ths mus) c (fst b) (snd b))) as [bs [B1 [B2 B3]]].
  - intros c I. apply (occupied_find f t l g c A) in I. apply occupied_ok in I.
    destruct (cell_limits_spec xspan f t l g sd limits ths mus c A Wp Wsd Nsd I) as [bm [bsd [E1 E2]]]. exists (bm, bsd). split; [exact E1|exact E2].
  - exists bs. split; [exact B1|]. intros c O. apply (occupied_find f t l g c A) in O. rewrite <- B2 in O. apply g_find_keys in O.
    destruct O as [b O]. exists b. split; [exact O|]. now apply B3.
Qed.

Lemma known_types : forall t, mem t ["SST"; "AT"; "DPT"; "SLP"] = true <-> In t ["SST"; "AT"; "DPT"; "SLP"].
Proof. intro t. apply mem_In. Qed.

Theorem mds_sound : forall t f l l', mds_buddy_check xspan t sd limits ths mus f l = Ok l' ->
  In t ["SST"; "AT"; "DPT"; "SLP"] /\ checkable f t l /\ flagged t "bud" (mds_verdict xspan f t sd (steps_of limits ths mus) l) l l'.
Proof.
  intros t f l l' H. unfold mds_buddy_check in H. destruct (mem t ["SST"; "AT"; "DPT"; "SLP"]) eqn:M; [|discriminate]. apply known_types in M.
  rewrite py_assert_true in H by reflexivity. cbn [bind] in H. destruct (grid_reports f t l []) as [g|e] eqn:G; cbn [bind] in H; [|discriminate].
  pose proof (averaged_grid f t l g G) as A. destruct (mds_limits f t l _ A) as [bs [B1 B2]]. rewrite B1 in H. cbn [bind] in H.
  pose proof (placed_of f t l g G) as P. split; [exact M|].
  split; [eapply flag_reports_checkable; [exact B2|exact P|intros r I; exact I|exact H]|].
  eapply flag_reports_sound in H; [|exact B2|exact P|intros r I; exact I].
  eapply Forall2_imp; [|exact H]. cbv beta. intros r r' [v [V Q]]. exists v. split; [|exact Q].
  destruct V as [V|[V1 [c [a [[bm bsd] [V2 [V3 [V4 V5]]]]]]]]; [now left|]. right. split; [exact V1|]. exists c, a, bm, bsd. cbn [fst snd] in *.
  split; [exact V2|]. split; [exact V3|]. split; [exact V4|]. destruct (Qleb bsd (Qabs' (a - bm))) eqn:E; injection V5 as <-; qprop; [left|right]; split; auto.
Qed.
Theorem mds_complete : forall t f l, In t ["SST"; "AT"; "DPT"; "SLP"] -> checkable f t l -> exists l', mds_buddy_check xspan t sd limits ths mus f l = Ok l'.
Proof.
  intros t f l M K. unfold mds_buddy_check. rewrite (py_assert_true _ (proj2 (known_types t) M)). cbn [bind].
  destruct (grid_reports_total f t l []) as [g G]; [intros r I T; destruct (K r I T) as [c [a [C _]]]; now exists c|]. rewrite G. cbn [bind].
  pose proof (averaged_grid f t l g G) as A. destruct (mds_limits f t l _ A) as [bs [B1 B2]]. rewrite B1. cbn [bind].
  eapply flag_reports_complete; [exact M|exact B2|exact (placed_of f t l g G)| |intros r I; exact I| |exact K].
  - intros a b v V. destruct (Qleb (snd b) (Qabs' (a - fst b))); injection V as <-; lia.
  - intros r c a b _ _ _ _ _. eauto.
Qed.
End Mds.

(* ---- bayesian_buddy_check ---- *)
Section Bayes.
Variables (xspan : Z -> Z -> Z) (sq : Q -> Q) (p_gross : Q -> Q -> Q -> option Q) (sd1 sd2 sd3 : clim) (radius : Z * Z * Z) (sigma_m noise : Q).
Hypothesis W1 : clim_wf sd1. Hypothesis W2 : clim_wf sd2. Hypothesis W3 : clim_wf sd3.
Hypothesis N1 : cny sd1 = 180. Hypothesis N2 : cny sd2 = 180. Hypothesis N3 : cny sd3 = 180.
Hypothesis noise_pos : (0 <= noise)%Q.

Lemma value_at_centre : forall sd c m d, clim_wf sd -> cny sd = 180 -> cell_ok c -> pentad_to_month_day (snd c + 1) = Ok (m, d) ->
  exists s, get_value sd ((179 # 2) - inject_Z (snd (fst c))) (- (359 # 2) + inject_Z (fst (fst c))) m d = Ok s /\ sd_at sd c (sd_or_1 s).
Proof.
  intros sd [[x y] p] m d W N [X [Y P]] E. cbn [fst snd] in *.
  destruct (pentad_round_trip (p + 1)) as [Rt _]. destruct (Rt ltac:(lia)) as [m' [d' [E' [D Q]]]]. rewrite E in E'. injection E' as <- <-.
  assert (V : md_valid m d) by now apply md_valid_pentad in Q.
  pose proof (inject_Z_le 0 y ltac:(lia)) as Y1. pose proof (inject_Z_le y 179 ltac:(lia)) as Y2.
  pose proof (inject_Z_le 0 x ltac:(lia)) as X1. pose proof (inject_Z_le x 359 ltac:(lia)) as X2.
  change (inject_Z 0) with 0%Q in *. change (inject_Z 179) with 179%Q in *. change (inject_Z 359) with 359%Q in *.
  destruct (get_value_spec sd ((179 # 2) - inject_Z y) (- (359 # 2) + inject_Z x) m d W V ltac:(lra) ltac:(lra) ltac:(lra)) as [t [y' [x' [G [S [Hy Hx]]]]]].
  rewrite N in Hy, Hx.
  assert (y' = y) by (eapply row_centre; [exact Hy|lra]). subst y'.
  assert (x' = x) by (eapply (col_centre x x' _ 0); [lia|exact Hx|change (inject_Z 0) with 0%Q; lra]). subst x'.
  destruct (tindex_total sd m d W V) as [t' [T S']]. assert (t' = t) by (eapply slice_det; [apply W|exact S'|exact S]). subst t'.
  destruct (pentad_slice sd p m d t W ltac:(lia) E T) as [_ [S0 [S1 [S2 S3]]]].
  exists (cval sd t y x). split; [exact G|]. exists t. cbn [fst snd]. split; [exact S1|]. split; [exact S2|]. split; [exact S3|]. unfold sd_or_1. destruct (cval sd t y x) as [v|]; [|reflexivity].
  destruct (Qltb v 0) eqn:F; qprop; [right|left]; split; try assumption; reflexivity.
Qed.

Lemma buddy_noise_sum : forall s2 l z, (fold_left (fun tot n => tot + sigma_m * sigma_m / inject_Z n + noise * (s2 * s2 / inject_Z n)) l z ==
  z + sumQ (map (fun k => (sigma_m * sigma_m + noise * (s2 * s2)) / inject_Z k) l))%Q.
Proof.
  intros s2. induction l as [|n l IH]; intro z; [cbn [fold_left map sumQ fold_right]; ring|]. cbn [fold_left map sumQ fold_right].
  rewrite IH. fold (sumQ (map (fun k => ((sigma_m * sigma_m + noise * (s2 * s2)) / inject_Z k)%Q) l)). unfold Qdiv. ring.
Qed.

Lemma sumQ_nonneg : forall l, (forall x, In x l -> (0 <= x)%Q) -> (0 <= sumQ l)%Q.
Proof.
  induction l as [|x l IH]; intro H; cbn [sumQ fold_right]; [lra|]. fold (sumQ l). specialize (IH (fun y Y => H y (or_intror Y))).
  specialize (H x (or_introl eq_refl)). lra.
Qed.
Lemma sq_nonneg : forall q, (0 <= q * q)%Q.
Proof. intro q. destruct (Qlt_le_dec q 0); nra. Qed.
Lemma div_nonneg : forall a b, (0 <= a)%Q -> (0 < b)%Q -> (0 <= a / b)%Q.
Proof. intros a b A B. apply Qle_shift_div_l; lra. Qed.
Lemma bayes_var_above : forall s1 s2 s3 counts, (forall k, In k counts -> 0 < k) -> counts <> [] -> (sigma_m * sigma_m <= bayes_var sigma_m noise s1 s2 s3 counts)%Q.
Proof.
  intros s1 s2 s3 counts P NE. unfold bayes_var. cbv zeta. set (n := inject_Z (Z.of_nat (length counts))).
  assert (NP : (0 < n)%Q) by (unfold n; apply (inject_Z_lt 0); destruct counts; [congruence|cbn [length]; lia]).
  pose proof (sq_nonneg sigma_m). pose proof (sq_nonneg s1). pose proof (sq_nonneg s2). pose proof (sq_nonneg s3).
  assert (0 <= noise * (s2 * s2))%Q by nra.
  assert (0 <= sumQ (map (fun k => (sigma_m * sigma_m + noise * (s2 * s2)) / inject_Z k) counts))%Q.
  { apply sumQ_nonneg. intros x I. apply in_map_iff in I. destruct I as [k [<- K]]. apply div_nonneg; [lra|]. apply (inject_Z_lt 0). now apply P. }
  assert (0 < n * n)%Q by nra.
  pose proof (div_nonneg _ _ H4 H5). pose proof (div_nonneg _ _ H2 NP). lra.
Qed.
Lemma bayes_var_nonneg : forall s1 s2 s3 counts, (forall k, In k counts -> 0 < k) -> counts <> [] -> (0 <= bayes_var sigma_m noise s1 s2 s3 counts)%Q.
Proof. intros s1 s2 s3 counts P NE. pose proof (bayes_var_above s1 s2 s3 counts P NE). pose proof (sq_nonneg sigma_m). lra. Qed.
Lemma buddies_counts_pos : forall f t l rx ry rp c bm counts, buddies f t l rx ry rp c bm counts -> (forall k, In k counts -> 0 < k) /\ counts <> [].
Proof.
  intros f t l rx ry rp c bm counts [offs [outs [[N M] [F [NE [_ ->]]]]]]. split.
  - intros k K. apply in_map_iff in K. destruct K as [out [<- O]].
    assert (EX : exists o, In o offs /\ cell_anoms f t l (shift c o) out).
    { clear - F O. induction F as [|o out' u w H F IH]; [destruct O|]. destruct O as [->|O]; [exists o; split; [now left|exact H]|].
      destruct (IH O) as [o' [A B]]. exists o'. split; [now right|exact B]. }
    destruct EX as [[[dx dy] dp] [I C]]. apply M in I. destruct I as [_ [_ [_ [_ [out' [C' NE']]]]]].
    rewrite (collected_fun _ _ _ _ _ C C'). destruct out'; [congruence|cbn [length]; lia].
  - destruct outs; [congruence|discriminate].
Qed.

Lemma new_cell_spec : forall f t l g c, averaged f t l g -> cell_ok c -> exists b, new_cell_limits xspan sq sd1 sd2 sd3 radius sigma_m noise g c = Ok b /\
  bayes_limits xspan sq f t l sd1 sd2 sd3 radius sigma_m noise c (fst b) (snd b).
Proof.
  intros f t l g c A C. destruct (cell_sd sd1 c W1 N1 C) as [m [d [_ [E _]]]].
  destruct (value_at_centre sd1 c m d W1 N1 C E) as [s1 [G1 S1]]. destruct (value_at_centre sd2 c m d W2 N2 C E) as [s2 [G2 S2]]. destruct (value_at_centre sd3 c m d W3 N3 C E) as [s3 [G3 S3]].
  destruct radius as [[sx sy] sp]. pose proof (neigh_cases xspan f t l g sx sy sp c A) as NC. cbv zeta in NC.
  destruct c as [[x y] p]. cbn [fst snd] in *. unfold new_cell_limits. rewrite E. cbn [bind]. rewrite G1. cbn [bind]. rewrite G2. cbn [bind]. rewrite G3. cbn [bind]. cbv zeta.
  destruct (get_neighbour_anomalies xspan g (sx, sy, sp) (x, y, p)) as [|u found] eqn:Q.
  - exists (0%Q, 500%Q). split; [reflexivity|]. right. cbn [fst snd]. split; [exact NC|]. split; reflexivity.
  - destruct NC as [counts [B [_ [_ CE]]]]. set (w := u :: found) in *.
    set (n := inject_Z (Z.of_nat (length w))). set (var := (_ + _ + _ + (_ / (n * n) + _))%Q).
    assert (V : (var == bayes_var sigma_m noise (sd_or_1 s1) (sd_or_1 s2) (sd_or_1 s3) counts)%Q).
    { unfold var, bayes_var, buddy_noise. cbv zeta. rewrite buddy_noise_sum, CE. unfold n. rewrite <- CE, map_length. rewrite Qplus_0_l. reflexivity. }
    destruct (buddies_counts_pos _ _ _ _ _ _ _ _ _ B) as [P1 P2].
    pose proof (bayes_var_nonneg (sd_or_1 s1) (sd_or_1 s2) (sd_or_1 s3) counts P1 P2) as V0. rewrite <- V in V0.
    replace (Qltb var 0) with false by (symmetry; apply Qltb_false; exact V0).
    eexists. split; [reflexivity|]. left. cbn [fst snd]. exists counts, (sd_or_1 s1), (sd_or_1 s2), (sd_or_1 s3), var.
    repeat (split; [assumption|]). reflexivity.
Qed.
Lemma bayes_all_limits : forall f t l g, averaged f t l g -> exists bs,
  get_new_buddy_limits xspan sq sd1 sd2 sd3 radius sigma_m noise g = Ok bs /\
  forall c, occupied f t l c -> exists b, g_find c bs = Some b /\ bayes_limits xspan sq f t l sd1 sd2 sd3 radius sigma_m noise c (fst b) (snd b).
Proof.
  intros f t l g A. unfold get_new_buddy_limits.
  destruct (all_cells_spec (new_cell_limits xspan sq sd1 sd2 sd3 radius sigma_m noise g) g (fun c b => bayes_limits xspan sq f t l sd1 sd2 sd3 radius sigma_m noise c (fst b) (snd b))) as [bs [B1 [B2 B3]]].
  - intros c I. apply (occupied_find f t l g c A) in I. apply occupied_ok in I. now apply new_cell_spec.
  - exists bs. split; [exact B1|]. intros c O. apply (occupied_find f t l g c A) in O. rewrite <- B2 in O. apply g_find_keys in O.
    destruct O as [b O]. exists b. split; [exact O|]. now apply B3.
Qed.

Lemma ok_inj : forall A (a b : A), Ok a = Ok b -> a = b.
Proof. intros A a b H. now injection H. Qed.
Lemma bayes_flag_range : forall a b v, bayes_flag p_gross a b = Ok v -> exists p, p_gross a (fst b) (snd b) = Some p /\
  ((p <= 0)%Q /\ v = 0 \/ (0 < p)%Q /\ 0 <= v /\ (inject_Z v <= 10 * p)%Q /\ (10 * p < inject_Z v + 1)%Q /\ v <= 9 \/ (10 <= 10 * p)%Q /\ v = 9).
Proof.
  intros a b v H. unfold bayes_flag in H. destruct (p_gross a (fst b) (snd b)) as [p|]; [|discriminate]. exists p. split; [reflexivity|].
  apply ok_inj in H. destruct (Qltb 0 p) eqn:E; qprop; [|left; split; [exact E|now symmetry]].
  destruct (Qfloor_spec (p * 10)) as [F1 F2].
  assert (F0 : 0 <= Qfloor (p * 10)). { assert (0 < Qfloor (p * 10) + 1); [|lia]. apply inject_Z_lt_inv. rewrite inject_Z_plus. change (inject_Z 0) with 0%Q. change (inject_Z 1) with 1%Q. lra. }
  destruct (9 <? Qfloor (p * 10)) eqn:G.
  - right. right. subst v. split; [|reflexivity]. assert (10 <= Qfloor (p * 10)) by lia. apply inject_Z_le in H. change (inject_Z 10) with 10%Q in H. lra.
  - right. left. subst v. split; [exact E|]. split; [exact F0|]. split; [lra|]. split; [lra|]. lia.
Qed.

Theorem bayes_sound : forall t f l l', bayesian_buddy_check xspan sq p_gross t sd1 sd2 sd3 radius sigma_m noise f l = Ok l' ->
  In t ["SST"; "AT"] /\ checkable f t l /\ flagged t "bbud" (bayes_verdict xspan sq p_gross f t sd1 sd2 sd3 radius sigma_m noise l) l l'.
Proof.
  intros t f l l' H. unfold bayesian_buddy_check in H. destruct (mem t ["SST"; "AT"]) eqn:M; [|discriminate]. apply mem_In in M.
  rewrite py_assert_true in H by reflexivity. cbn [bind] in H. destruct (grid_reports f t l []) as [g|e] eqn:G; cbn [bind] in H; [|discriminate].
  pose proof (averaged_grid f t l g G) as A. destruct (bayes_all_limits f t l _ A) as [bs [B1 B2]]. rewrite B1 in H. cbn [bind] in H.
  pose proof (placed_of f t l g G) as P. split; [exact M|].
  split; [eapply flag_reports_checkable; [exact B2|exact P|intros r I; exact I|exact H]|].
  eapply flag_reports_sound in H; [|exact B2|exact P|intros r I; exact I].
  eapply Forall2_imp; [|exact H]. cbv beta. intros r r' [v [V Q]]. exists v. split; [|exact Q].
  destruct V as [V|[V1 [c [a [[bm bsd] [V2 [V3 [V4 V5]]]]]]]]; [now left|]. right. split; [exact V1|].
  destruct (bayes_flag_range a (bm, bsd) v V5) as [p [P1 P2]]. exists c, a, bm, bsd, p. cbn [fst snd] in *. repeat (split; [assumption|]). exact P2.
Qed.
Lemma bayes_limits_pos : forall f t l c bm bsd, ~ (sigma_m == 0)%Q -> (forall v, (0 < v)%Q -> (0 < sq v)%Q) -> bayes_limits xspan sq f t l sd1 sd2 sd3 radius sigma_m noise c bm bsd -> (0 < bsd)%Q.
Proof.
  intros f t l c bm bsd SG SQ [[counts [s1 [s2 [s3 [var [B [_ [_ [_ [V [_ ->]]]]]]]]]]]|[_ [_ ->]]]; [|reflexivity]. apply SQ.
  destruct (buddies_counts_pos _ _ _ _ _ _ _ _ _ B) as [P1 P2]. pose proof (bayes_var_above s1 s2 s3 counts P1 P2) as A. rewrite V. assert (0 < sigma_m * sigma_m)%Q by (destruct (Qlt_le_dec sigma_m 0); [nra|assert (0 < sigma_m)%Q by (apply Qle_lteq in q; destruct q as [q|q]; [exact q|destruct SG; now rewrite <- q]); nra]). lra.
Qed.
Theorem bayes_complete : forall t f l, In t ["SST"; "AT"] -> checkable f t l -> ~ (sigma_m == 0)%Q -> (forall v, (0 < v)%Q -> (0 < sq v)%Q) ->
  (forall r a bm bsd, In r l -> test_report f r = 0 -> getanom r t = Some a -> (0 < bsd)%Q -> p_gross a bm bsd <> None) ->
  exists l', bayesian_buddy_check xspan sq p_gross t sd1 sd2 sd3 radius sigma_m noise f l = Ok l'.
Proof.
  intros t f l M K SG SQ PG. unfold bayesian_buddy_check. rewrite (py_assert_true _ (proj2 (mem_In t ["SST"; "AT"]) M)). cbn [bind].
  destruct (grid_reports_total f t l []) as [g G]; [intros r I T; destruct (K r I T) as [c [a [C _]]]; now exists c|]. rewrite G. cbn [bind].
  pose proof (averaged_grid f t l g G) as A. destruct (bayes_all_limits f t l _ A) as [bs [B1 B2]]. rewrite B1. cbn [bind].
  eapply flag_reports_complete; [|exact B2|exact (placed_of f t l g G)| |intros r I; exact I| |exact K].
  - cbn in M |- *. tauto.
  - intros a b v V. apply bayes_flag_range in V. destruct V as [p [_ V]]. destruct V as [[_ ->]|[[_ V]|[_ ->]]]; lia.
  - intros r c a b I T _ AN LM. unfold bayes_flag. specialize (PG r a (fst b) (snd b) I T AN (bayes_limits_pos _ _ _ _ _ _ SG SQ LM)). destruct (p_gross a (fst b) (snd b)); [eauto|congruence].
Qed.
End Bayes.

(* ---- the older search ---- *)
Lemma old_params : params_ok old_limits old_thresholds old_multipliers.
Proof.
  split; [reflexivity|]. split; [reflexivity|].
  repeat (constructor; [cbn [fst snd]; split; [reflexivity|split; [|split; [reflexivity|repeat constructor; lia]]]; intros m I; cbn in I; repeat (destruct I as [<-|I]; [reflexivity|]); destruct I|]).
  constructor.
Qed.
Lemma old_cell_same : forall xspan f t l g sd c, averaged f t l g -> old_cell_limits xspan sd g c = cell_limits xspan sd old_limits old_thresholds old_multipliers g c.
Proof.
  intros xspan f t l g sd [[x y] p] A. unfold old_cell_limits, cell_limits. destruct (pentad_to_month_day (p + 1)) as [[m d]|e]; [cbn [bind]|reflexivity].
  destruct (get_value_mds_style sd _ _ m d) as [s|e]; [cbn [bind]|reflexivity]. unfold old_limits, old_thresholds, old_multipliers. cbn [combine old_loop limits_loop].
  assert (NZ : forall sx sy sp a w, get_neighbour_anomalies xspan g (sx, sy, sp) (x, y, p) = a :: w -> sumz (map snd (a :: w)) =? 0 = false).
  { intros sx sy sp a w Q. pose proof (neigh_cases xspan f t l g sx sy sp (x, y, p) A) as NC. cbv zeta in NC. rewrite Q in NC. destruct NC as [counts [_ [_ [PS _]]]]. apply Z.eqb_neq. lia. }
  destruct (get_neighbour_anomalies xspan g (1, 1, 2) (x, y, p)) as [|a w] eqn:Q1; [|rewrite (NZ _ _ _ _ _ Q1); cbn; reflexivity].
  destruct (get_neighbour_anomalies xspan g (2, 2, 2) (x, y, p)) as [|a w] eqn:Q2; [|rewrite (NZ _ _ _ _ _ Q2); cbn; reflexivity].
  destruct (get_neighbour_anomalies xspan g (1, 1, 4) (x, y, p)) as [|a w] eqn:Q3; [|rewrite (NZ _ _ _ _ _ Q3); cbn; reflexivity].
  destruct (get_neighbour_anomalies xspan g (2, 2, 4) (x, y, p)) as [|a w] eqn:Q4; [|rewrite (NZ _ _ _ _ _ Q4); cbn; reflexivity].
  reflexivity.
Qed.
Lemma old_limits_ok : forall xspan sd f t l g, clim_wf sd -> cny sd = 180 -> grid_reports f t l [] = Ok g -> exists bs,
  get_buddy_limits xspan sd (take_average g) = Ok bs /\
  forall c, occupied f t l c -> exists b, g_find c bs = Some b /\ buddy_limits xspan f t l sd old_search c (fst b) (snd b).
Proof.
  intros xspan sd f t l g W N G. pose proof (averaged_grid f t l g G) as A. destruct (mds_limits xspan sd old_limits old_thresholds old_multipliers W N old_params f t l _ A) as [bs [B1 B2]].
  exists bs. split; [|exact B2]. rewrite <- B1. unfold get_buddy_limits, get_buddy_limits_with_parameters.
  generalize (take_average g) at 2 4 as h. induction h as [|[c v] h IH]; [reflexivity|]. cbn [all_cells]. rewrite (old_cell_same xspan f t l _ sd c A), IH. reflexivity.
Qed.
