(** Rounded and repeated values. *)
Require Import String ZArith QArith Qround List Bool Lia Lqa Permutation.
Require Import Verif.M_Base Verif.L_Base Verif.M_Report Verif.S_Report Verif.L_Report Verif.L_Report3 Verif.M_Voyage Verif.S_Voyage Verif.L_Voyage Verif.L_Voyage3.
Import ListNotations.
Open Scope string_scope.
Open Scope list_scope.
Open Scope Z_scope.

Section Tally.
Variables (prt : Q -> Q) (name : string) (v0 : list report).

Definition valued (i : nat) : Prop := exists x, value_at v0 name i x.
Definition keyed (k : Q) (i : nat) : Prop := exists x, value_at v0 name i x /\ (prt x == k)%Q.

(** Dictionary of the positions below i. *)
Record dict (d : list (Q * list nat)) (i : nat) : Prop := {
  di_l : forall k l, In (k, l) d -> NoDup l /\ forall j, In j l <-> (j < i)%nat /\ keyed k j;
  di_all : forall j x, (j < i)%nat -> value_at v0 name j x -> exists k l, In (k, l) d /\ (k == prt x)%Q;
  di_keys : ForallOrdPairs (fun a b => ~ fst a == fst b)%Q d }.

Lemma tally_add_In : forall k i d k' l', In (k', l') (tally_add k i d) ->
  (In (k', l') d /\ ((~ k' == k)%Q \/ exists l1 k1, In (k1, l1) d /\ (k1 == k)%Q)) \/
  (exists l, In (k', l) d /\ (k' == k)%Q /\ l' = l ++ [i]) \/ (k' = k /\ l' = [i] /\ forall a, In a d -> ~ (fst a == k)%Q).
Proof.
  intros k i d k' l'. induction d as [|[a l] d IH]; simpl; intro H.
  - destruct H as [H|[]]. injection H as <- <-. right. right. split; auto.
  - destruct (Qeqb a k) eqn:E; qprop.
    + destruct H as [H|H].
      * injection H as <- <-. right. left. exists l. auto.
      * left. split; auto. right. exists l, a. auto.
    + destruct H as [H|H].
      * injection H as <- <-. left. auto.
      * destruct (IH H) as [[A B]|[[l1 [A [B C]]]|[A [B C]]]].
        -- left. split; auto. destruct B as [B|[l1 [k1 [B1 B2]]]]; eauto 6.
        -- right. left. exists l1. auto.
        -- right. right. split; auto. split; auto. intros y [<-|Hy]; auto.
Qed.

Lemma tally_add_pairs : forall k i d, ForallOrdPairs (fun a b => ~ fst a == fst b)%Q d -> ForallOrdPairs (fun a b => ~ fst a == fst b)%Q (tally_add k i d).
Proof.
  intros k i d. induction d as [|[a l] d IH]; simpl; intro H.
  - constructor; constructor.
  - inversion H; subst. destruct (Qeqb a k) eqn:E; qprop.
    + constructor; [exact H2|assumption].
    + constructor; [|now apply IH]. rewrite Forall_forall in *. intros [x lx] Hx. simpl.
      destruct (tally_add_In k i d x lx Hx) as [[A B]|[[l1 [A [B C]]]|[A [B C]]]].
      * apply (H2 (x, lx) A).
      * apply (H2 (x, l1) A).
      * subst x. exact E.
Qed.

Lemma pairs_key : forall (d : list (Q * list nat)) a la b lb, ForallOrdPairs (fun a b => ~ fst a == fst b)%Q d -> In (a, la) d -> In (b, lb) d -> (a == b)%Q -> (a, la) = (b, lb).
Proof.
  intros d a la b lb F. induction F as [|x d Hx F IH]; intros A B E; [destruct A|].
  rewrite Forall_forall in Hx. destruct A as [->|A], B as [B|B]; auto.
  - exfalso. apply (Hx (b, lb) B). exact E.
  - subst x. exfalso. apply (Hx (a, la) A). simpl. now symmetry.
Qed.

Lemma value_at_fun : forall i x y, value_at v0 name i x -> value_at v0 name i y -> x = y.
Proof. intros i x y [r [A B]] [r' [A' B']]. congruence. Qed.

Lemma dict_skip : forall d i, dict d i -> ~ valued i -> dict d (S i).
Proof.
  intros d i D N. constructor.
  - intros k l H. destruct (di_l _ _ D k l H) as [A B]. split; auto. intro j. rewrite B. split; [intros [? ?]; split; auto; lia|].
    intros [L K]. split; auto. destruct (Nat.eq_dec j i) as [->|]; [|lia]. destruct K as [x [K _]]. exfalso. apply N. now exists x.
  - intros j x Hj Hx. apply (di_all _ _ D j x); auto. destruct (Nat.eq_dec j i) as [->|]; [|lia]. exfalso. apply N. now exists x.
  - apply D.
Qed.

Lemma tally_add_has_key : forall k i d, exists k' l, In (k', l) (tally_add k i d) /\ (k' == k)%Q.
Proof.
  intros k i d. induction d as [|[a l] d IH]; simpl; [exists k, [i]; split; [now left|reflexivity]|].
  destruct (Qeqb a k) eqn:E; [qprop; exists a; eexists; split; [left; reflexivity|exact E]|]. destruct IH as [k' [l' [A B]]]. exists k', l'. split; auto. now right.
Qed.
Lemma tally_add_keeps : forall k i d k' l, In (k', l) d -> exists l', In (k', l') (tally_add k i d).
Proof.
  intros k i d k' l. induction d as [|[a la] d IH]; simpl; intro H; [destruct H|].
  destruct (Qeqb a k) eqn:E.
  - destruct H as [H|H]; [injection H as <- <-; eexists; left; reflexivity|exists l; now right].
  - destruct H as [H|H]; [injection H as <- <-; eexists; left; reflexivity|]. destruct (IH H) as [l' K]. exists l'. now right.
Qed.

Lemma keyed_compat : forall k k' i, (k == k')%Q -> keyed k i -> keyed k' i.
Proof. intros k k' i E [x [A B]]. exists x. split; auto. now rewrite <- E. Qed.

Lemma dict_add : forall d i x, dict d i -> value_at v0 name i x -> dict (tally_add (prt x) i d) (S i).
Proof.
  intros d i x D Hx. pose proof (tally_add_pairs (prt x) i d (di_keys _ _ D)) as FP. constructor; auto.
  - intros k l H. destruct (tally_add_In (prt x) i d k l H) as [[A B]|[[l1 [A [B C]]]|[A [B C]]]].
    + assert (NE : ~ (k == prt x)%Q).
      { intro E. destruct B as [B|[l1 [k1 [B1 B2]]]]; [contradiction|].
        (* the entry with this key was extended *)
        assert (X : exists k2 l2, In (k2, l2) (tally_add (prt x) i d) /\ (k2 == prt x)%Q /\ In i l2).
        { clear - B1 B2. induction d as [|[a la] d IH]; simpl in *; [destruct B1|]. destruct (Qeqb a (prt x)) eqn:E2; qprop.
          - exists a, (la ++ [i]). split; [now left|]. split; auto. apply in_app_iff. right. now left.
          - destruct B1 as [B1|B1]; [injection B1 as <- <-; contradiction|]. destruct (IH B1) as [k2 [l2 [X1 X2]]]. exists k2, l2. split; [right; exact X1|exact X2]. }
        destruct X as [k2 [l2 [X1 [X2 X3]]]].
        assert (Eq : (k, l) = (k2, l2)) by (eapply pairs_key; eauto; now rewrite E, X2). injection Eq as <- <-.
        destruct (di_l _ _ D k l A) as [_ Q]. apply Q in X3. lia. }
      destruct (di_l _ _ D k l A) as [N1 Q]. split; auto. intro j. rewrite Q. split; [intros [? ?]; split; auto; lia|].
      intros [L K]. split; auto. destruct (Nat.eq_dec j i) as [->|]; [|lia]. destruct K as [y [K1 K2]].
      rewrite (value_at_fun _ _ _ K1 Hx) in K2. exfalso. apply NE. now symmetry.
    + subst l. destruct (di_l _ _ D k l1 A) as [N1 Q]. split.
      * apply (Permutation_NoDup (l := i :: l1)); [apply Permutation_cons_append|]. constructor; auto. rewrite Q. lia.
      * intro j. rewrite in_app_iff, Q. simpl. split.
        -- intros [[L K]|[<-|[]]]; split; auto; try lia. exists x. split; auto. now symmetry.
        -- intros [L K]. destruct (Nat.eq_dec j i); [auto|]. left. split; auto. lia.
    + subst k l. split; [constructor; [intros []|constructor]|]. intro j. simpl. split.
      * intros [<-|[]]. split; [lia|]. exists x. split; auto. reflexivity.
      * intros [L [y [K1 K2]]]. destruct (Nat.eq_dec j i); [auto|]. exfalso.
        destruct (di_all _ _ D j y ltac:(lia) K1) as [k2 [l2 [Y1 Y2]]]. apply (C (k2, l2) Y1). simpl. now rewrite Y2.
  - intros j y Hj Hy. destruct (Nat.eq_dec j i) as [->|].
    + rewrite (value_at_fun _ _ _ Hy Hx). apply tally_add_has_key.
    + destruct (di_all _ _ D j y ltac:(lia) Hy) as [k [l [A B]]]. destruct (tally_add_keeps (prt x) i d k l A) as [l' K]. exists k, l'. auto.
Qed.

(** Positions with a value, below i. *)
Definition val_pos (i : nat) : list nat :=
  filter (fun j => match nth_error v0 j with Some r => match getvar r name with Some _ => true | None => false end | None => false end) (seq 0 i).

Lemma val_pos_lists : forall i, lists (fun j => (j < i)%nat /\ valued j) (val_pos i).
Proof.
  intro i. split; [apply NoDup_filter, seq_NoDup|]. intro j. unfold val_pos. rewrite filter_In, in_seq. unfold valued, value_at.
  destruct (nth_error v0 j) as [r|]; [destruct (getvar r name) as [x|] eqn:E|].
  - split; [intros [L _]; split; [lia|]; exists x, r; auto|intros [L _]; split; [lia|auto]].
  - split; [intros [_ H]; discriminate|intros [_ [x [r' [A B]]]]]. injection A as <-. congruence.
  - split; [intros [_ H]; discriminate|intros [_ [x [r' [A B]]]]]. congruence.
Qed.

Lemma tally_ok : forall l pre d cnt, v0 = pre ++ l -> dict d (length pre) -> cnt = Z.of_nat (length (val_pos (length pre))) ->
  exists d' , tally prt name (length pre) l d cnt = (d', Z.of_nat (length (val_pos (length v0)))) /\ dict d' (length v0).
Proof.
  induction l as [|r l IH]; intros pre d cnt E D C; simpl.
  - exists d. rewrite app_nil_r in E. rewrite E at 1 2. rewrite C. now split.
  - assert (N : nth_error v0 (length pre) = Some r) by (rewrite E, nth_error_app2, Nat.sub_diag by lia; reflexivity).
    assert (SP : val_pos (S (length pre)) = val_pos (length pre) ++ (match getvar r name with Some _ => [length pre] | None => [] end)).
    { unfold val_pos. replace (S (length pre)) with (length pre + 1)%nat by lia. rewrite seq_app, filter_app. simpl. rewrite N. destruct (getvar r name); reflexivity. }
    assert (LP : length (pre ++ [r]) = S (length pre)) by (rewrite app_length; simpl; lia).
    specialize (IH (pre ++ [r])). rewrite LP in IH. rewrite SP in IH.
    destruct (getvar r name) as [x|] eqn:G.
    + apply IH; [now rewrite <- app_assoc|apply dict_add; auto; exists r; auto|]. rewrite C, app_length. simpl. lia.
    + apply IH; [now rewrite <- app_assoc|apply dict_skip; auto; intros [x [r' [A B]]]; congruence|]. rewrite C, app_nil_r. lia.
Qed.

Lemma tally_start : exists d, tally prt name 0 v0 [] 0 = (d, Z.of_nat (length (val_pos (length v0)))) /\ dict d (length v0).
Proof.
  apply (tally_ok v0 [] [] 0); auto. constructor; [intros k l []|intros; simpl in *; lia|constructor].
Qed.

Lemma valued_range : forall j, valued j -> (j < length v0)%nat.
Proof. intros j [x [r [A _]]]. apply nth_error_Some. congruence. Qed.

End Tally.

Lemma tally_unch : forall prt name t f v v' i d c, Forall2 (unchanged_but t f) v v' -> tally prt name i v' d c = tally prt name i v d c.
Proof.
  intros prt name t f v v' i d c F. revert i d c. induction F as [|r r' v v' U F IH]; intros; simpl; auto.
  rewrite (unch_getvar t f r r' name U). destruct (getvar r name); apply IH.
Qed.

Lemma writes_Forall2 : forall t f g v0 v, writes t f g v0 v -> Forall2 (unchanged_but t f) v0 v.
Proof.
  intros t f g v0 v [L W]. revert g v L W. induction v0 as [|r v0 IH]; intros g v L W; destruct v as [|r' v]; simpl in L; try lia; constructor.
  - destruct (W O r eq_refl) as [x [A [B _]]]. simpl in A. now injection A as <-.
  - apply (IH (fun i => g (S i))); [lia|]. intros i r0 Hi. apply (W (S i) r0 Hi).
Qed.

(** Share of a voyage's values: P holds on strictly / not less than a share q of the valued positions. *)
Lemma div_lt : forall q a n, 0 < n -> (Qltb q (inject_Z a / inject_Z n) = true <-> (q * inject_Z n < inject_Z a)%Q).
Proof.
  intros q a n H. assert (0 < inject_Z n)%Q by (change 0%Q with (inject_Z 0); now rewrite <- Zlt_Qlt).
  split; intro K; qprop.
  - apply (Qmult_lt_r _ _ (inject_Z n)) in K; auto. unfold Qdiv in K. rewrite <- Qmult_assoc, (Qmult_comm (/ _)), Qmult_inv_r, Qmult_1_r in K by lra. exact K.
  - now apply Qlt_shift_div_l.
Qed.
Lemma div_le : forall q a n, 0 < n -> (Qleb q (inject_Z a / inject_Z n) = true <-> (q * inject_Z n <= inject_Z a)%Q).
Proof.
  intros q a n H. assert (0 < inject_Z n)%Q by (change 0%Q with (inject_Z 0); now rewrite <- Zlt_Qlt).
  split; intro K; qprop.
  - apply (Qmult_le_r _ _ (inject_Z n)) in K; auto. unfold Qdiv in K. rewrite <- Qmult_assoc, (Qmult_comm (/ _)), Qmult_inv_r, Qmult_1_r in K by lra. exact K.
  - now apply Qle_shift_div_l.
Qed.

Section Checks.
Variables (prt : Q -> Q) (name : string) (v0 : list report) (min_count : Z) (threshold : Q).
Hypothesis Hth : (0 <= threshold <= 1)%Q.

Definition repeated (i : nat) : Prop :=
  exists x same all, value_at v0 name i x /\ lists (fun j => exists y, value_at v0 name j y /\ (prt y == prt x)%Q) same /\
    lists (fun j => exists y, value_at v0 name j y) all /\ min_count < Z.of_nat (length all) /\
    (threshold * inject_Z (Z.of_nat (length all)) < inject_Z (Z.of_nat (length same)))%Q.

Definition rounded (i : nat) : Prop :=
  exists x whole all, value_at v0 name i x /\ (exists z, prt x == inject_Z z)%Q /\
    lists (fun j => exists y z, value_at v0 name j y /\ (prt y == inject_Z z)%Q) whole /\
    lists (fun j => exists y, value_at v0 name j y) all /\ min_count < Z.of_nat (length all) /\
    (threshold * inject_Z (Z.of_nat (length all)) <= inject_Z (Z.of_nat (length whole)))%Q.

Let n := length v0.
Let all := val_pos name v0 n.

Lemma all_lists : lists (fun j => exists y, value_at v0 name j y) all.
Proof.
  destruct (val_pos_lists prt name v0 n) as [A B]. split; auto. intro j. unfold all. rewrite B. unfold valued. split; [tauto|].
  intro H. split; auto. now apply (valued_range name).
Qed.

Lemma keyed_lists : forall d k l x, dict prt name v0 d n -> In (k, l) d -> (k == prt x)%Q -> lists (fun j => exists y, value_at v0 name j y /\ (prt y == prt x)%Q) l.
Proof.
  intros d k l x D H E. destruct (di_l _ _ _ _ _ D k l H) as [N Q]. split; auto. intro j. rewrite Q. unfold keyed. split.
  - intros [_ [y [A B]]]. exists y. split; auto. now rewrite B.
  - intros [y [A B]]. split; [apply (valued_range name); now exists y|]. exists y. split; auto. now rewrite B, E.
Qed.

Lemma rep_loop_ok : forall d0 cnt d g v, dict prt name v0 d0 n -> incl d d0 -> writes name "rep" g v0 v -> In name variables ->
  exists v' g', rep_loop threshold cnt name d v = Ok v' /\ writes name "rep" g' v0 v' /\
    (forall j, (forall k l, In (k, l) d -> ~ In j l) -> g' j = g j) /\
    (ForallOrdPairs (fun a b => ~ fst a == fst b)%Q d -> forall k l j, In (k, l) d -> In j l -> g' j = Some (if Qltb threshold (inject_Z (count_of l) / inject_Z cnt) then 1 else 0)).
Proof.
  intros d0 cnt d. induction d as [|[k l] d IH]; intros g v D I W Hn; simpl.
  - exists v, g. split; auto. split; auto. split; auto. intros _ k l j [].
  - destruct (di_l _ _ _ _ _ D k l (I _ (or_introl eq_refl))) as [N Q].
    destruct (vset_list_writes name "rep" v0 (if Qltb threshold (inject_Z (count_of l) / inject_Z cnt) then 1 else 0) l g v W) as [v1 [E1 W1]].
    { intros i Hi. apply Q in Hi. apply Hi. }
    { split; [unfold att_value; simpl; destruct (Qltb _ _); lia|now right]. }
    rewrite E1. cbn [bind]. destruct (IH _ v1 D (fun x Hx => I x (or_intror Hx)) W1 Hn) as [v' [g' [E' [W' [G1 G2]]]]].
    exists v', g'. split; auto. split; auto. split.
    + intros j Hj. rewrite G1; [|intros k' l' H'; apply (Hj k' l'); now right].
      rewrite (proj2 (memn_false j l)); auto. apply (Hj k l). now left.
    + intros F k' l' j H' Hj. inversion F; subst. destruct H' as [H'|H']; [|now apply (G2 H2 k' l')].
      injection H' as <- <-. rewrite G1.
      * now rewrite (proj2 (memn_In j l) Hj).
      * intros k' l' H' Hj'. rewrite Forall_forall in H1. apply (H1 (k', l') H'). simpl.
        apply Q in Hj. destruct Hj as [_ [x [A B]]]. destruct (di_l _ _ _ _ _ D k' l' (I _ (or_intror H'))) as [_ Q'].
        apply Q' in Hj'. destruct Hj' as [_ [y [A' B']]]. rewrite (value_at_fun name v0 _ _ _ A' A) in B'. now rewrite <- B, <- B'.
Qed.

Lemma find_repeated_values_ok : In name ["SST"; "AT"; "AT2"; "DPT"; "SLP"] ->
  exists v', find_repeated_values prt min_count threshold name v0 = Ok v' /\ flags_exactly name "rep" repeated v0 v'.
Proof.
  intro Hn. unfold find_repeated_values.
  rewrite (proj2 (mem_In name _) Hn). cbn [py_assert bind].
  replace (Qleb 0 threshold && Qleb threshold 1) with true by (symmetry; apply andb_true_iff; split; qprop; tauto). cbn [py_assert bind].
  assert (Hv : In name variables) by (simpl in Hn; unfold variables; simpl; tauto).
  destruct (set_qc_all_writes name "rep" 0 v0) as [v1 [E1 W1]].
  { split; [unfold att_value; simpl; lia|now right]. }
  rewrite E1. cbn [bind]. rewrite (tally_unch prt name name "rep" v0 v1 0 [] 0 (writes_Forall2 _ _ _ _ _ W1)).
  destruct (tally_start prt name v0) as [d [Et D]]. fold n in Et, D. fold all in Et. rewrite Et. cbv beta iota.
  pose proof all_lists as AL.
  assert (SM : forall i x same al, value_at v0 name i x -> lists (fun j => exists y, value_at v0 name j y /\ (prt y == prt x)%Q) same -> lists (fun j => exists y, value_at v0 name j y) al ->
     length al = length all) by (intros; eapply lists_length; eauto).
  destruct (Z.ltb_spec min_count (Z.of_nat (length all))) as [L|L].
  - destruct (rep_loop_ok d (Z.of_nat (length all)) d _ v1 D (incl_refl d) W1 Hv) as [v' [g' [E' [W' [G1 G2]]]]].
    exists v'. split; [exact E'|]. eapply writes_flags; [exact W'|]. intros i Hi.
    specialize (G2 (di_keys _ _ _ _ _ D)).
    destruct (nth_error v0 i) as [r|] eqn:Er; [|apply nth_error_None in Er; lia].
    destruct (getvar r name) as [x|] eqn:Ex.
    + assert (Vx : value_at v0 name i x) by (exists r; auto).
      destruct (di_all _ _ _ _ _ D i x Hi Vx) as [k [l [A B]]].
      pose proof (keyed_lists d k l x D A B) as KL.
      assert (Il : In i l) by (apply (proj2 KL); exists x; split; auto; reflexivity).
      rewrite (G2 k l i A Il).
      assert (Pos : 0 < Z.of_nat (length all)).
      { assert (In i all) by (apply (proj2 AL); eauto). destruct all; [destruct H|simpl; lia]. }
      destruct (Qltb threshold (inject_Z (count_of l) / inject_Z (Z.of_nat (length all)))) eqn:C.
      * left. split; auto. exists x, l, all. split; auto. split; auto. split; auto. split; auto. now apply div_lt in C.
      * right. split; auto. intros [x' [same [al [X1 [X2 [X3 [X4 X5]]]]]]]. rewrite (value_at_fun name v0 _ _ _ X1 Vx) in X2.
        rewrite (lists_length _ _ _ X2 KL), (lists_length _ _ _ X3 AL) in X5. apply div_lt in X5; [|exact Pos]. unfold count_of in C. congruence.
    + right. rewrite G1.
      * split; auto. intros [x [same [al [[r' [X1 X2]] _]]]]. congruence.
      * intros k l A Il. destruct (di_l _ _ _ _ _ D k l A) as [_ Q]. apply Q in Il. destruct Il as [_ [x [[r' [X1 X2]] _]]]. congruence.
  - exists v1. split; [reflexivity|]. eapply writes_flags; [exact W1|]. intros i Hi. right. split; auto.
    intros [x [same [al [X1 [X2 [X3 [X4 _]]]]]]]. rewrite (lists_length _ _ _ X3 AL) in X4. lia.
Qed.

Lemma is_integer_spec : forall q, is_integer q = true <-> exists z, (q == inject_Z z)%Q.
Proof.
  intro q. unfold is_integer. split; intro H.
  - qprop. exists (Qfloor q). now symmetry.
  - destruct H as [z E]. assert (Qfloor q = z) by (rewrite E; apply Qfloor_Z). unfold Qeqb. apply Qeq_bool_iff. rewrite H. now symmetry.
Qed.

Lemma concat_whole_lists : forall d, dict prt name v0 d n ->
  lists (fun j => exists y z, value_at v0 name j y /\ (prt y == inject_Z z)%Q) (concat (map snd (filter (fun kl => is_integer (fst kl)) d))).
Proof.
  intros d D. split.
  - assert (F : ForallOrdPairs (fun a b => ~ fst a == fst b)%Q d) by apply D.
    assert (I : incl d d) by apply incl_refl. revert I F. generalize d at 1 3 4. intro e. induction e as [|[k l] e IH]; intros I F; simpl; [constructor|].
    inversion F; subst. specialize (IH (fun x Hx => I x (or_intror Hx)) H2). destruct (is_integer k); simpl; auto.
    destruct (di_l _ _ _ _ _ D k l (I _ (or_introl eq_refl))) as [N Q].
    apply L_Report2.NoDup_app_disj; auto. intros j Hj Hj'. apply in_concat in Hj'. destruct Hj' as [l' [Hl' Hj']]. apply in_map_iff in Hl'. destruct Hl' as [[k' l2] [<- Hk']].
    apply filter_In in Hk'. destruct Hk' as [Hk' _]. rewrite Forall_forall in H1. apply (H1 _ Hk'). simpl in *.
    apply Q in Hj. destruct Hj as [_ [x [A B]]]. destruct (di_l _ _ _ _ _ D k' l2 (I _ (or_intror Hk'))) as [_ Q'].
    apply Q' in Hj'. destruct Hj' as [_ [y [A' B']]]. rewrite (value_at_fun name v0 _ _ _ A' A) in B'. now rewrite <- B, <- B'.
  - intro j. rewrite in_concat. split.
    + intros [l [Hl Hj]]. apply in_map_iff in Hl. destruct Hl as [[k l2] [<- Hk]]. apply filter_In in Hk. destruct Hk as [Hk Ik]. simpl in *.
      apply is_integer_spec in Ik. destruct Ik as [z Ik]. destruct (di_l _ _ _ _ _ D k l2 Hk) as [_ Q]. apply Q in Hj. destruct Hj as [_ [y [A B]]].
      exists y, z. split; auto. now rewrite B.
    + intros [y [z [A B]]]. destruct (di_all _ _ _ _ _ D j y) as [k [l [K1 K2]]]; auto. { apply (valued_range name). now exists y. }
      exists l. split.
      * apply in_map_iff. exists (k, l). split; auto. apply filter_In. split; auto. simpl. apply is_integer_spec. exists z. now rewrite K2.
      * apply (proj2 (keyed_lists d k l y D K1 K2)). exists y. split; auto. reflexivity.
Qed.

Lemma sum_counts_concat : forall l, sum_counts l = Z.of_nat (length (concat l)).
Proof. induction l as [|x l IH]; simpl; auto. rewrite app_length, IH. unfold count_of. lia. Qed.

Lemma find_rounded_ok : In name ["SST"; "AT"; "AT2"; "DPT"] -> 0 <= min_count ->
  exists v', find_multiple_rounded_values prt min_count threshold name v0 = Ok v' /\ flags_exactly name "round" rounded v0 v'.
Proof.
  intros Hn Hm. unfold find_multiple_rounded_values.
  rewrite (proj2 (mem_In name _) Hn). cbn [py_assert bind].
  replace (Qleb 0 threshold && Qleb threshold 1) with true by (symmetry; apply andb_true_iff; split; qprop; tauto). cbn [py_assert bind].
  assert (Hv : In name variables) by (simpl in Hn; unfold variables; simpl; tauto).
  assert (Acc : forall x, x = 0 \/ x = 1 -> accepted (name, "round", x)) by (intros x Hx; split; [unfold att_value; simpl; lia|now right]).
  destruct (set_qc_all_writes name "round" 0 v0 (Acc 0 (or_introl eq_refl))) as [v1 [E1 W1]].
  rewrite E1. cbn [bind]. rewrite (tally_unch prt name name "round" v0 v1 0 [] 0 (writes_Forall2 _ _ _ _ _ W1)).
  destruct (tally_start prt name v0) as [d [Et D]]. fold n in Et, D. fold all in Et. rewrite Et. cbv beta iota.
  pose proof all_lists as AL. pose proof (concat_whole_lists d D) as WL.
  set (whole := concat (map snd (filter (fun kl => is_integer (fst kl)) d))) in *.
  assert (NB : forall i, rounded i -> min_count < Z.of_nat (length all) /\ (threshold * inject_Z (Z.of_nat (length all)) <= inject_Z (Z.of_nat (length whole)))%Q /\ In i whole).
  { intros i [x [w [al [X1 [[z X2] [X3 [X4 [X5 X6]]]]]]]]. rewrite (lists_length _ _ _ X4 AL) in X5, X6. rewrite (lists_length _ _ _ X3 WL) in X6.
    split; auto. split; auto. apply (proj2 WL). exists x, z. auto. }
  destruct (Z.ltb_spec min_count (Z.of_nat (length all))) as [L|L].
  - destruct (Z.eqb_spec (Z.of_nat (length all)) 0) as [Z0|Z0]; [lia|]. rewrite sum_counts_concat. fold whole.
    destruct (Qleb threshold (inject_Z (Z.of_nat (length whole)) / inject_Z (Z.of_nat (length all)))) eqn:C.
    + apply div_le in C; [|lia]. destruct (vset_list_writes name "round" v0 1 whole _ v1 W1) as [v' [E' W']].
      { intros i Hi. apply (proj2 WL) in Hi. destruct Hi as [y [z [A _]]]. apply (valued_range name). now exists y. }
      { apply Acc. auto. }
      exists v'. split; [exact E'|]. eapply writes_flags; [exact W'|]. intros i Hi. cbv beta. destruct (memn i whole) eqn:Mi.
      * left. split; auto. apply memn_In in Mi. apply (proj2 WL) in Mi. destruct Mi as [y [z [A B]]]. exists y, whole, all. eauto 8.
      * right. split; auto. intro R. apply NB in R. apply memn_false in Mi. tauto.
    + exists v1. split; [reflexivity|]. eapply writes_flags; [exact W1|]. intros i Hi. right. split; auto. intro R. apply NB in R.
      destruct R as [_ [R _]]. apply div_le in R; [|lia]. congruence.
  - exists v1. split; [reflexivity|]. eapply writes_flags; [exact W1|]. intros i Hi. right. split; auto. intro R. apply NB in R. lia.
Qed.
End Checks.
