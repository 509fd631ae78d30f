(** Lemmas about gridding for the buddy check. *)
Require Import String ZArith QArith Qround Qabs List Bool Lia Lqa Permutation.
Require Import ZifyBool.
Require Import Verif.M_Base Verif.L_Base Verif.M_Calendar Verif.S_Calendar Verif.L_Calendar Verif.L_Calendar2 Verif.M_Grid Verif.S_Grid Verif.L_Grid Verif.L_Grid2 Verif.L_Mds
  Verif.M_Stats Verif.S_Stats Verif.L_Stats Verif.M_Report Verif.M_Drifter Verif.M_Buddy Verif.S_Buddy.
Import ListNotations.
Open Scope string_scope.
Open Scope list_scope.
Open Scope Z_scope.

Lemma cell_eqb_eq : forall a b, cell_eqb a b = true <-> a = b.
Proof.
  intros [[x y] p] [[x' y'] p']. unfold cell_eqb. split.
  - intro H. apply andb_true_iff in H. destruct H as [H P]. apply andb_true_iff in H. destruct H as [X Y].
    apply Z.eqb_eq in X, Y, P. congruence.
  - intro H. injection H as -> -> ->. now rewrite !Z.eqb_refl.
Qed.
Lemma cell_eqb_refl : forall a, cell_eqb a a = true.
Proof. intro a. now apply cell_eqb_eq. Qed.
Lemma cell_eqb_neq : forall a b, a <> b -> cell_eqb a b = false.
Proof. intros a b H. destruct (cell_eqb a b) eqn:E; [|reflexivity]. apply cell_eqb_eq in E. congruence. Qed.
Lemma cell_dec : forall a b : cell, {a = b} + {a <> b}.
Proof. intros a b. destruct (cell_eqb a b) eqn:E; [left; now apply cell_eqb_eq|right; intro C; apply cell_eqb_eq in C; congruence]. Qed.

(* ---- positions ---- *)
Lemma one_90 : (1 == 90 / inject_Z 90)%Q.
Proof. reflexivity. Qed.
Lemma mds_row_outside : forall la, ~ ((-90 <= la)%Q /\ (la <= 90)%Q) -> ~ 0 <= mds_lat_to_yindex la 1 < 180.
Proof.
  intros la N. unfold mds_lat_to_yindex. cbv zeta.
  assert (A : Qeqb la (-90) = false) by (apply Bool.not_true_iff_false; intro C; apply N; qprop; lra). rewrite A.
  assert (B : Qeqb la 90 = false) by (apply Bool.not_true_iff_false; intro C; apply N; qprop; lra). rewrite B.
  assert (D : (la / 1 == la)%Q) by field.
  destruct (Qltb 0 la) eqn:E; qprop.
  - assert (L : (90 < la)%Q) by (destruct (Qlt_le_dec 90 la); [assumption|exfalso; apply N; lra]).
    destruct (py_int_bounds_pos (la / 1) ltac:(lra)) as [H1 [H2 H3]]. set (t := py_int (la / 1)) in *. clearbody t.
    rewrite (py_int_eq_inject _ (90 - 1 - t)) by (injz; reflexivity).
    assert (89 < t); [|lia]. apply inject_Z_lt_inv. change (inject_Z 89) with 89%Q. lra.
  - assert (L : (la < -90)%Q) by (destruct (Qlt_le_dec la (-90)); [assumption|exfalso; apply N; lra]).
    destruct (py_int_bounds_neg (la / 1) ltac:(lra)) as [H1 [H2 H3]]. set (t := py_int (la / 1)) in *. clearbody t.
    rewrite (py_int_eq_inject _ (90 - t)) by (injz; reflexivity).
    assert (t < -89); [|lia]. apply inject_Z_lt_inv. change (inject_Z (-89)) with (-89)%Q. lra.
Qed.
Lemma mds_col_outside : forall lo, ~ ((-180 <= lo)%Q /\ (lo <= 180)%Q) -> ~ 0 <= mds_lon_to_xindex lo 1 < 360.
Proof.
  intros la N. unfold mds_lon_to_xindex. cbv zeta.
  assert (A : Qeqb la (-180) = false) by (apply Bool.not_true_iff_false; intro C; apply N; qprop; lra). rewrite A.
  assert (B : Qeqb la 180 = false) by (apply Bool.not_true_iff_false; intro C; apply N; qprop; lra). rewrite B.
  assert (D : (la / 1 == la)%Q) by field.
  destruct (Qltb 0 la) eqn:E; qprop.
  - assert (L : (180 < la)%Q) by (destruct (Qlt_le_dec 180 la); [assumption|exfalso; apply N; lra]).
    destruct (py_int_bounds_pos (la / 1) ltac:(lra)) as [H1 [H2 H3]]. set (t := py_int (la / 1)) in *. clearbody t.
    rewrite (py_int_eq_inject _ (t + 180)) by (injz; reflexivity).
    assert (179 < t); [|lia]. apply inject_Z_lt_inv. change (inject_Z 179) with 179%Q. lra.
  - assert (L : (la < -180)%Q) by (destruct (Qlt_le_dec la (-180)); [assumption|exfalso; apply N; lra]).
    destruct (py_int_bounds_neg (la / 1) ltac:(lra)) as [H1 [H2 H3]]. set (t := py_int (la / 1)) in *. clearbody t.
    rewrite (py_int_eq_inject _ (t + 180 - 1)) by (injz; reflexivity).
    assert (t < -179); [|lia]. apply inject_Z_lt_inv. change (inject_Z (-179)) with (-179)%Q. lra.
Qed.

Definition in_range (c : cell) : bool :=
  let '(x, y, p) := c in ((0 <=? x) && (x <? 360)) && ((0 <=? y) && (y <? 180)) && ((0 <=? p) && (p <? 73)).

(** The indices computed for a report, within the arrays, are those of its cell. *)
Lemma cell_of_in_cell : forall r c, (cell_of (lat r) (lon r) (getint r "MO") (getint r "DY") = Ok c /\ in_range c = true) <-> in_cell r c.
Proof.
  intros r [[x y] p]. unfold in_cell, cell_of. cbn [fst snd]. split.
  - intros [H R]. destruct (lon r) as [lo|] eqn:EO; [|discriminate]. destruct (lat r) as [la|] eqn:EA; [|discriminate].
    destruct (getint r "MO") as [mo|] eqn:EM; [|discriminate]. destruct (getint r "DY") as [d|] eqn:ED; [|discriminate].
    destruct (which_pentad mo d) as [q|e] eqn:EP; cbn [bind] in H; [|discriminate]. injection H as <- <- <-.
    unfold in_range in R.
    assert (A : (-90 <= la)%Q /\ (la <= 90)%Q).
    { destruct (Qlt_le_dec la (-90)) as [C|C]; [exfalso; apply (mds_row_outside la); [lra|lia]|].
      destruct (Qlt_le_dec 90 la) as [C'|C']; [exfalso; apply (mds_row_outside la); [lra|lia]|]. now split. }
    assert (O : (-180 <= lo)%Q /\ (lo <= 180)%Q).
    { destruct (Qlt_le_dec lo (-180)) as [C|C]; [exfalso; apply (mds_col_outside lo); [lra|lia]|].
      destruct (Qlt_le_dec 180 lo) as [C'|C']; [exfalso; apply (mds_col_outside lo); [lra|lia]|]. now split. }
    exists la, lo, mo, d. repeat (split; [tauto|]).
    split; [apply (mds_lon_exact 1 90 ltac:(lia) one_90 ltac:(lra) lo); tauto|].
    split; [apply (mds_lat_exact 1 90 ltac:(lia) one_90 ltac:(lra) la); tauto|].
    apply which_pentad_pentad. now rewrite Z.sub_add.
  - intros [la [lo [mo [d [-> [-> [-> [-> [A1 [A2 [O1 [O2 [X [Y P]]]]]]]]]]]]]].
    apply (mds_lon_iff 1 90 ltac:(lia) one_90 ltac:(lra) lo) in X; try assumption.
    apply (mds_lat_iff 1 90 ltac:(lia) one_90 ltac:(lra) la) in Y; try assumption.
    pose proof P as P'. apply which_pentad_pentad in P. rewrite P. cbn [bind]. subst x y. rewrite Z.add_simpl_r.
    split; [reflexivity|]. unfold in_range.
    pose proof (mds_lon_exact 1 90 ltac:(lia) one_90 ltac:(lra) lo O1 O2) as [X _]. pose proof (mds_lat_exact 1 90 ltac:(lia) one_90 ltac:(lra) la A1 A2) as [Y _].
    destruct (which_pentad_total mo d) as [T1 T2].
    assert (V : md_valid mo d).
    { destruct P' as [n [C _]]. apply day_in_year_common in C. now apply day_in_year_range in C. }
    destruct (T1 V) as [q [Q1 Q2]]. rewrite P in Q1. injection Q1 as <-.
    cbn [Z.mul Pos.mul] in X, Y. lia.
Qed.
Lemma in_cell_unique : forall r c c', in_cell r c -> in_cell r c' -> c = c'.
Proof. intros r c c' H H'. apply cell_of_in_cell in H, H'. destruct H as [H _], H' as [H' _]. congruence. Qed.

Lemma add_rep_spec : forall r t g,
  (exists c, in_cell r c /\ add_rep (lat r) (lon r) (getint r "MO") (getint r "DY") (getanom r t) g = Ok (match getanom r t with Some a => g_add c a g | None => g end)) \/
  ((forall c, ~ in_cell r c) /\ exists e, add_rep (lat r) (lon r) (getint r "MO") (getint r "DY") (getanom r t) g = Err e).
Proof.
  intros r t g. unfold add_rep.
  destruct (cell_of (lat r) (lon r) (getint r "MO") (getint r "DY")) as [[[x y] p]|e] eqn:E; cbn [bind].
  - destruct (in_range (x, y, p)) eqn:R.
    + left. exists (x, y, p). split; [apply cell_of_in_cell; now rewrite E|]. unfold in_range in R.
      repeat (rewrite py_assert_true by lia; cbn [bind]). now destruct (getanom r t).
    + right. split.
      * intros c C. apply cell_of_in_cell in C. destruct C as [C1 C2]. rewrite E in C1. injection C1 as <-. congruence.
      * unfold in_range in R. unfold py_assert.
        destruct ((0 <=? x) && (x <? 360)); cbn [bind]; [|eauto]. destruct ((0 <=? y) && (y <? 180)); cbn [bind]; [|eauto].
        destruct ((0 <=? p) && (p <? 73)); cbn [bind]; [discriminate|eauto].
  - right. split; [|eauto]. intros c C. apply cell_of_in_cell in C. destruct C as [C1 C2]. congruence.
Qed.

(* ---- the grid ---- *)
Definition gsum (g : sgrid) (c : cell) : Q := match g_find c g with Some (s, _) => s | None => 0%Q end.
Definition gcnt (g : sgrid) (c : cell) : Z := match g_find c g with Some (_, n) => n | None => 0 end.

Lemma g_add_same : forall g c a, exists s, g_find c (g_add c a g) = Some (s, gcnt g c + 1) /\ (s == gsum g c + a)%Q.
Proof.
  induction g as [|[c' [s n]] g IH]; intros c a; cbn [g_add].
  - cbn [g_find]. rewrite cell_eqb_refl. exists a. split; [reflexivity|]. unfold gsum. cbn [g_find]. ring.
  - unfold gcnt, gsum. cbn [g_find]. destruct (cell_eqb c' c) eqn:E; cbn [g_find]; rewrite E.
    + exists (s + a)%Q. split; reflexivity.
    + apply IH.
Qed.
Lemma g_add_other : forall g c c' a, c <> c' -> g_find c' (g_add c a g) = g_find c' g.
Proof.
  induction g as [|[d [s n]] g IH]; intros c c' a H; cbn [g_add].
  - cbn [g_find]. now rewrite cell_eqb_neq.
  - destruct (cell_eqb d c) eqn:E; cbn [g_find].
    + apply cell_eqb_eq in E. subst d. now rewrite cell_eqb_neq.
    + destruct (cell_eqb d c'); [reflexivity|]. now apply IH.
Qed.
Lemma g_add_keys : forall g c a d, In d (map fst (g_add c a g)) <-> d = c \/ In d (map fst g).
Proof.
  induction g as [|[c' [s n]] g IH]; intros c a d; cbn [g_add map fst In].
  - intuition.
  - destruct (cell_eqb c' c) eqn:E; cbn [map fst In].
    + apply cell_eqb_eq in E. subst c'. intuition.
    + rewrite IH. intuition.
Qed.
Lemma g_add_nodup : forall g c a, NoDup (map fst g) -> NoDup (map fst (g_add c a g)).
Proof.
  induction g as [|[c' [s n]] g IH]; intros c a H; cbn [g_add map fst].
  - constructor; [intros []|constructor].
  - inversion H as [|? ? N M]; subst. destruct (cell_eqb c' c) eqn:E; cbn [map fst]; constructor; auto.
    intro I. apply g_add_keys in I. destruct I as [->|I]; [rewrite cell_eqb_refl in E; discriminate|now apply N].
Qed.
Lemma g_find_keys : forall A (g : list (cell * A)) c, (exists v, g_find c g = Some v) <-> In c (map fst g).
Proof.
  induction g as [|[c' v] g IH]; intro c; cbn [g_find map fst In].
  - split; [intros [v H]; discriminate|intros []].
  - destruct (cell_eqb c' c) eqn:E.
    + apply cell_eqb_eq in E. split; [now left|eauto].
    + rewrite IH. split; [now right|]. intros [->|H]; [rewrite cell_eqb_refl in E; discriminate|exact H].
Qed.

Definition grid_ok (g : sgrid) : Prop := forall c s n, g_find c g = Some (s, n) -> 0 < n.
Lemma gcnt_nonneg : forall g c, grid_ok g -> 0 <= gcnt g c.
Proof. intros g c H. unfold gcnt. destruct (g_find c g) as [[s n]|] eqn:E; [apply H in E|]; lia. Qed.
Lemma g_add_ok : forall g c a, grid_ok g -> grid_ok (g_add c a g).
Proof.
  intros g c a H d s n F. destruct (cell_dec c d) as [->|N].
  - destruct (g_add_same g d a) as [s' [E _]]. rewrite E in F. injection F as _ <-. pose proof (gcnt_nonneg g d H). lia.
  - rewrite g_add_other in F by assumption. eauto.
Qed.

(** The gridded deck: sums and numbers of the anomalies collected. *)
Lemma in_dec_cell : forall f r c, (test_report f r = 0 /\ in_cell r c) \/ ~ (test_report f r = 0 /\ in_cell r c).
Proof.
  intros f r c. destruct (Z.eq_dec (test_report f r) 0) as [T|T]; [|tauto].
  destruct (cell_of (lat r) (lon r) (getint r "MO") (getint r "DY")) as [c'|e] eqn:E.
  - destruct (in_range c') eqn:R.
    + destruct (cell_dec c c') as [->|N].
      * left. split; [exact T|]. apply cell_of_in_cell. now split.
      * right. intros [_ C]. apply cell_of_in_cell in C. rewrite E in C. destruct C as [C _]. injection C as ->. congruence.
    + right. intros [_ C]. apply cell_of_in_cell in C. rewrite E in C. destruct C as [C1 C2]. injection C1 as ->. congruence.
  - right. intros [_ C]. apply cell_of_in_cell in C. rewrite E in C. destruct C as [C _]. discriminate.
Qed.
Lemma collected_total : forall f t l c, exists out, cell_anoms f t l c out.
Proof.
  intros f t l c. induction l as [|r l [out IH]]; [exists []; constructor|].
  destruct (in_dec_cell f r c) as [I|I].
  - destruct (getanom r t) as [a|] eqn:E; [exists (a :: out)|exists out]; [now apply coll_in|now apply coll_none].
  - exists out. now apply coll_out.
Qed.
Lemma collected_fun : forall P v l o1 o2, collected P v l o1 -> collected P v l o2 -> o1 = o2.
Proof.
  intros P v l o1 o2 H. revert o2. induction H; intros o2 K; inversion K; subst; try congruence; try tauto; auto.
  - f_equal; [congruence|auto].
Qed.

Lemma grid_reports_spec : forall f t l g g', grid_reports f t l g = Ok g' -> grid_ok g -> NoDup (map fst g) ->
  grid_ok g' /\ NoDup (map fst g') /\ (forall r, In r l -> test_report f r = 0 -> exists c, in_cell r c) /\
  forall c out, cell_anoms f t l c out -> gcnt g' c = gcnt g c + Z.of_nat (length out) /\ (gsum g' c == gsum g c + sumQ out)%Q.
Proof.
  intros f t. induction l as [|r l IH]; intros g g' H G N.
  - injection H as <-. split; [exact G|]. split; [exact N|]. split; [intros r []|]. intros c out C. inversion C; subst.
    cbn [length Z.of_nat sumQ fold_right]. split; [lia|ring].
  - cbn [grid_reports] in H. destruct (test_report f r =? 0) eqn:T.
    + destruct (add_rep_spec r t g) as [[c0 [C0 E]]|[_ [e E]]]; rewrite E in H; cbn [bind] in H; [|discriminate].
      set (g1 := match getanom r t with Some a => g_add c0 a g | None => g end) in *.
      assert (G1 : grid_ok g1 /\ NoDup (map fst g1)).
      { unfold g1. destruct (getanom r t); [split; [now apply g_add_ok|now apply g_add_nodup]|now split]. }
      destruct (IH g1 g' H (proj1 G1) (proj2 G1)) as [A [A' [B D]]]. split; [exact A|]. split; [exact A'|]. split.
      * intros r' [<-|I] T'; [now exists c0|now apply B].
      * intros c out C. inversion C; subst.
        -- destruct (D c out0) as [D1 D2]; [assumption|]. match goal with X : test_report f r = 0 /\ in_cell r c |- _ => destruct X as [_ X]; pose proof (in_cell_unique r c0 c C0 X) as K; subst c0 end.
           match goal with X : getanom r t = Some ?a |- _ => rename a into aa; unfold g1 in D1, D2; rewrite X in D1, D2 end.
           destruct (g_add_same g c aa) as [s [S1 S2]].
           assert (U1 : gcnt (g_add c aa g) c = gcnt g c + 1) by (unfold gcnt at 1; now rewrite S1).
           assert (U2 : (gsum (g_add c aa g) c == gsum g c + aa)%Q) by (unfold gsum at 1; now rewrite S1).
           rewrite D1, D2, U1, U2. cbn [length sumQ fold_right]. fold (sumQ out0). split; [lia|ring].
        -- destruct (D c out) as [D1 D2]; [assumption|]. unfold g1 in D1, D2. match goal with X : getanom r t = None |- _ => now rewrite X in D1, D2 end.
        -- destruct (D c out) as [D1 D2]; [assumption|]. rewrite D1, D2.
           assert (K : c0 <> c).
           { intros ->. apply Z.eqb_eq in T. match goal with X : ~ (_ /\ in_cell r c) |- _ => apply X end. now split. }
           unfold g1. destruct (getanom r t) as [a|]; [|split; [lia|reflexivity]].
           unfold gcnt, gsum. now rewrite !g_add_other by exact K.
    + destruct (IH g g' H G N) as [A [A' [B D]]]. split; [exact A|]. split; [exact A'|]. split.
      * intros r' [<-|I] T'; [lia|now apply B].
      * intros c out C. apply D. inversion C; subst; try (match goal with X : test_report f r = 0 /\ _ |- _ => destruct X; lia end). assumption.
Qed.
Lemma grid_reports_total : forall f t l g, (forall r, In r l -> test_report f r = 0 -> exists c, in_cell r c) -> exists g', grid_reports f t l g = Ok g'.
Proof.
  intros f t. induction l as [|r l IH]; intros g H; cbn [grid_reports]; [eauto|].
  destruct (test_report f r =? 0) eqn:T.
  - destruct (add_rep_spec r t g) as [[c [_ E]]|[A _]].
    + rewrite E. cbn [bind]. apply IH. intros r' I. apply H. now right.
    + exfalso. destruct (H r (or_introl eq_refl) ltac:(lia)) as [c C]. now apply (A c).
  - apply IH. intros r' I. apply H. now right.
Qed.

(** The grid after averaging: number and mean of each cell. *)
Definition averaged (f : qc_filter) (t : string) (l : list report) (g : sgrid) : Prop :=
  NoDup (map fst g) /\
  forall c, (g_find c g = None /\ cell_anoms f t l c []) \/
    (exists out v, g_find c g = Some (v, Z.of_nat (length out)) /\ cell_anoms f t l c out /\ out <> [] /\ (v == meanQ out)%Q).
Lemma g_find_average : forall g c, g_find c (take_average g) = match g_find c g with Some (s, n) => Some ((s / inject_Z n)%Q, n) | None => None end.
Proof.
  induction g as [|[c' [s n]] g IH]; intro c; [reflexivity|]. unfold take_average in *. cbn [map g_find fst snd].
  destruct (cell_eqb c' c); [reflexivity|apply IH].
Qed.
Lemma averaged_grid : forall f t l g, grid_reports f t l [] = Ok g -> averaged f t l (take_average g).
Proof.
  intros f t l g H. destruct (grid_reports_spec f t l [] g H) as [A [N [_ B]]]; [intros c s n K; discriminate|constructor|].
  split; [unfold take_average; rewrite map_map; cbn [fst]; exact N|].
  intro c. rewrite g_find_average. destruct (collected_total f t l c) as [out C]. destruct (B c out C) as [B1 B2].
  unfold gcnt, gsum in B1, B2. cbn [g_find] in B1, B2. destruct (g_find c g) as [[s n]|] eqn:E.
  - right. exists out. eexists. pose proof (A _ _ _ E). assert (n = Z.of_nat (length out)) by lia. subst n.
    split; [reflexivity|]. split; [exact C|].
    assert (NE : out <> []) by (intros ->; cbn [length Z.of_nat] in H0; lia).
    split; [exact NE|]. rewrite B2. unfold meanQ. rewrite Qplus_0_l. reflexivity.
  - left. split; [reflexivity|]. destruct out as [|a out]; [exact C|]. cbn [length] in B1. lia.
Qed.
