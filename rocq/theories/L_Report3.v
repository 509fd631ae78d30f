(** Lemmas about ordering of reports and about getvar/setvar. *)
Require Import String Ascii ZArith QArith Qround List Bool Lia Lqa Permutation Sorting.Sorted.
Require Import ZifyBool.
Require Import Verif.M_Base Verif.L_Base Verif.S_Calendar Verif.M_Calendar Verif.L_Calendar Verif.L_Calendar2 Verif.M_Report Verif.S_Report Verif.L_Report Verif.L_Report2.
Import ListNotations.
Open Scope string_scope.
Open Scope list_scope.
Open Scope Z_scope.

(* ---- comparisons ---- *)

Record good_cmp {A} (cmp : A -> A -> comparison) : Prop := {
  gc_refl : forall a, cmp a a = Eq;
  gc_eq : forall a b, cmp a b = Eq -> a = b;
  gc_anti : forall a b, cmp a b = CompOpp (cmp b a);
  gc_trans : forall a b c, cmp a b = Lt -> cmp b c = Lt -> cmp a c = Lt }.

Lemma str_good : good_cmp String.compare.
Proof.
  constructor.
  - apply str_cmp_refl.
  - apply String.compare_eq_iff.
  - apply String.compare_antisym.
  - induction a as [|x a IH]; intros [|y b] [|z c] H1 H2; cbn in *; try discriminate; try reflexivity.
    destruct (x ?= y)%char eqn:E1; try discriminate.
    + apply Ascii.compare_eq_iff in E1. subst y. destruct (x ?= z)%char eqn:E2; try discriminate; [eauto|reflexivity].
    + destruct (y ?= z)%char eqn:E2; try discriminate.
      * apply Ascii.compare_eq_iff in E2. subst z. now rewrite E1.
      * unfold Ascii.compare in *. rewrite N.compare_lt_iff in E1, E2. assert (E3 : (N_of_ascii x ?= N_of_ascii z)%N = Lt) by (apply N.compare_lt_iff; lia). now rewrite E3.
Qed.

Lemma lex_good : good_cmp lex_cmp.
Proof.
  constructor.
  - induction a as [|x a IH]; [reflexivity|]. cbn. now rewrite Z.compare_refl.
  - induction a as [|x a IH]; intros [|y b] H; cbn in H; try discriminate; [reflexivity|].
    destruct (x ?= y) eqn:E; try discriminate. apply Z.compare_eq in E. subst. f_equal. now apply IH.
  - induction a as [|x a IH]; intros [|y b]; cbn; try reflexivity. rewrite (Z.compare_antisym y x).
    destruct (y ?= x); cbn; [apply IH|reflexivity|reflexivity].
  - induction a as [|x a IH]; intros [|y b] [|z c] H1 H2; cbn in *; try discriminate; try reflexivity.
    destruct (x ?= y) eqn:E1; try discriminate.
    + apply Z.compare_eq in E1. subst y. destruct (x ?= z) eqn:E2; try discriminate; [eauto|reflexivity].
    + destruct (y ?= z) eqn:E2; try discriminate.
      * apply Z.compare_eq in E2. subst z. now rewrite E1.
      * rewrite Z.compare_lt_iff in E1, E2. assert (E3 : (x ?= z) = Lt) by (apply Z.compare_lt_iff; lia). now rewrite E3.
Qed.

Lemma opt_good : forall A (cmp : A -> A -> comparison), good_cmp cmp -> good_cmp (opt_cmp cmp).
Proof.
  intros A cmp [R E N T]. constructor.
  - intros [a|]; cbn; auto.
  - intros [a|] [b|] H; cbn in *; try discriminate; [f_equal; auto|reflexivity].
  - intros [a|] [b|]; cbn; auto.
  - intros [a|] [b|] [c|] H1 H2; cbn in *; try discriminate; eauto.
Qed.

(** Identifier first, then time. *)
Definition rcmp (a b : report) : comparison :=
  match id_cmp (r_id a) (r_id b) with Eq => opt_cmp lex_cmp (r_dt a) (r_dt b) | c => c end.

Lemma rcmp_anti : forall a b, rcmp a b = CompOpp (rcmp b a).
Proof.
  intros a b. unfold rcmp. pose proof (opt_good _ _ str_good) as G. pose proof (opt_good _ _ lex_good) as L.
  fold id_cmp in G. rewrite (gc_anti _ G (r_id a)). destruct (id_cmp (r_id b) (r_id a)); cbn; [apply (gc_anti _ L)|reflexivity|reflexivity].
Qed.
Lemma rcmp_trans : forall a b c, rcmp a b = Lt -> rcmp b c = Lt -> rcmp a c = Lt.
Proof.
  intros a b c. unfold rcmp. pose proof (opt_good _ _ str_good) as G. pose proof (opt_good _ _ lex_good) as L. fold id_cmp in G.
  destruct (id_cmp (r_id a) (r_id b)) eqn:E1; try discriminate.
  - apply (gc_eq _ G) in E1. rewrite E1. destruct (id_cmp (r_id b) (r_id c)) eqn:E2; try discriminate; [|reflexivity].
    intros. eapply (gc_trans _ L); eauto.
  - intros _. destruct (id_cmp (r_id b) (r_id c)) eqn:E2; try discriminate.
    + apply (gc_eq _ G) in E2. rewrite <- E2, E1. reflexivity.
    + intros _. now rewrite (gc_trans _ G _ _ _ E1 E2).
Qed.
Lemma rcmp_eq_l : forall a b c, rcmp a b = Eq -> rcmp a c = rcmp b c.
Proof.
  intros a b c. unfold rcmp. pose proof (opt_good _ _ str_good) as G. pose proof (opt_good _ _ lex_good) as L. fold id_cmp in G.
  destruct (id_cmp (r_id a) (r_id b)) eqn:E1; try discriminate. apply (gc_eq _ G) in E1. intro E2. apply (gc_eq _ L) in E2. now rewrite E1, E2.
Qed.

Definition complete (r : report) : Prop := r_dt r <> None.

Lemma rep_gt_rcmp : forall a b, complete a -> complete b -> (rep_gt a b = true <-> rcmp a b = Gt).
Proof.
  intros a b A B. unfold rep_gt, rcmp, complete in *. destruct (id_cmp (r_id a) (r_id b)).
  - destruct (r_dt a); [|congruence]. destruct (r_dt b); [|congruence]. cbn. destruct (lex_cmp l l0); split; congruence.
  - split; discriminate.
  - tauto.
Qed.
Lemma rep_eq_rcmp : forall a b, rep_eq a b = true <-> rcmp a b = Eq.
Proof.
  intros a b. unfold rep_eq, rcmp. destruct (id_cmp (r_id a) (r_id b)); [|split; discriminate|split; discriminate].
  destruct (opt_cmp lex_cmp (r_dt a) (r_dt b)); split; congruence.
Qed.

Lemma trichotomy : forall a b, complete a -> complete b ->
  (rep_gt a b = true /\ rep_eq a b = false /\ rep_gt b a = false) \/
  (rep_gt a b = false /\ rep_eq a b = true /\ rep_gt b a = false) \/
  (rep_gt a b = false /\ rep_eq a b = false /\ rep_gt b a = true).
Proof.
  intros a b A B. pose proof (rep_gt_rcmp a b A B) as G. pose proof (rep_gt_rcmp b a B A) as H. pose proof (rep_eq_rcmp a b) as E.
  rewrite (rcmp_anti b a) in H.
  destruct (rep_gt a b), (rep_eq a b), (rep_gt b a), (rcmp a b); cbn in H; intuition (try discriminate; try congruence).
Qed.
Lemma gt_trans : forall a b c, complete a -> complete b -> complete c -> rep_gt a b = true -> rep_gt b c = true -> rep_gt a c = true.
Proof.
  intros a b c A B C. rewrite !rep_gt_rcmp by assumption. rewrite (rcmp_anti a b), (rcmp_anti b c), (rcmp_anti a c).
  intros H1 H2. destruct (rcmp b a) eqn:E1; try discriminate. destruct (rcmp c b) eqn:E2; try discriminate.
  now rewrite (rcmp_trans c b a E2 E1).
Qed.
Lemma ge_le_consistent : forall a b, complete a -> complete b ->
  rep_ge a b = Ok (rep_gt a b || rep_eq a b) /\ rep_le a b = Ok (rep_gt b a || rep_eq a b).
Proof.
  intros a b A B. unfold complete in *. destruct (r_dt a) as [x|] eqn:Da; [|congruence]. destruct (r_dt b) as [y|] eqn:Db; [|congruence].
  pose proof (opt_good _ _ str_good) as G. fold id_cmp in G.
  unfold rep_ge, rep_le, rep_gt, rep_eq. rewrite Da, Db. rewrite (gc_anti _ G (r_id b) (r_id a)). rewrite (gc_anti _ lex_good y x).
  destruct (id_cmp (r_id a) (r_id b)); cbn; [|auto|auto]. destruct (lex_cmp x y); auto.
Qed.

(** [a] does not sort after [b]. *)
Definition not_after (a b : report) : Prop := rep_gt a b = false.
Lemma not_after_rcmp : forall a b, complete a -> complete b -> (not_after a b <-> rcmp a b <> Gt).
Proof. intros a b A B. unfold not_after. rewrite <- (rep_gt_rcmp a b A B). destruct (rep_gt a b); split; congruence. Qed.
Lemma not_after_trans : forall a b c, complete a -> complete b -> complete c -> not_after a b -> not_after b c -> not_after a c.
Proof.
  intros a b c A B C. rewrite !not_after_rcmp by assumption. intros H1 H2 H3.
  destruct (rcmp a b) eqn:E1; [|clear H1|congruence].
  - rewrite (rcmp_eq_l a b c E1) in H3. congruence.
  - destruct (rcmp b c) eqn:E2; [| |congruence].
    + rewrite (rcmp_anti b c) in E2. destruct (rcmp c b) eqn:E3; try discriminate.
      rewrite (rcmp_anti a c), (rcmp_eq_l c b a E3), (rcmp_anti b a), E1 in H3. discriminate.
    + rewrite (rcmp_trans _ _ _ E1 E2) in H3. discriminate.
Qed.

Lemma ins_perm : forall x l, Permutation (ins_report x l) (x :: l).
Proof.
  intros x l. induction l as [|y l IH]; cbn; [reflexivity|]. destruct (rep_gt x y); [|reflexivity].
  rewrite IH. apply perm_swap.
Qed.
Lemma sort_perm : forall l, Permutation (sort_reports l) l.
Proof.
  induction l as [|x l IH]; cbn; [reflexivity|]. unfold sort_reports in *. rewrite ins_perm. now rewrite IH.
Qed.
Lemma ins_sorted : forall x l, complete x -> Forall complete l -> StronglySorted not_after l -> StronglySorted not_after (ins_report x l).
Proof.
  intros x l X. induction l as [|y l IH]; intros F S; cbn; [repeat constructor|].
  inversion F; subst. inversion S; subst. destruct (rep_gt x y) eqn:E.
  - constructor; [now apply IH|]. rewrite Forall_forall in *. intros z Hz. apply (Permutation_in _ (ins_perm x l)) in Hz.
    destruct Hz as [<-|Hz]; [|now apply H4]. unfold not_after.
    destruct (trichotomy x y X H1) as [T|[T|T]]; intuition congruence.
  - constructor; [exact S|]. constructor; [exact E|]. rewrite Forall_forall in *. intros z Hz.
    apply (not_after_trans x y z); auto; now apply H4.
Qed.
Lemma sort_sorted : forall l, Forall complete l -> StronglySorted not_after (sort_reports l).
Proof.
  induction l as [|x l IH]; intro F; cbn; [constructor|]. inversion F; subst. apply ins_sorted; auto.
  rewrite Forall_forall in *. intros z Hz. apply H2. now apply (Permutation_in _ (sort_perm l)).
Qed.
(** Reports that compare equal keep their order. *)
Lemma ins_stable : forall x l r0, complete x -> complete r0 -> Forall complete l ->
  filter (rep_eq r0) (ins_report x l) = filter (rep_eq r0) (x :: l).
Proof.
  intros x l r0 X R. induction l as [|y l IH]; intro F; [reflexivity|]. inversion F; subst. cbn [ins_report]. destruct (rep_gt x y) eqn:E; [|reflexivity].
  cbn [filter]. rewrite IH by assumption. cbn [filter]. destruct (rep_eq r0 x) eqn:E1; [|reflexivity].
  destruct (rep_eq r0 y) eqn:E2; [|reflexivity]. exfalso. apply rep_eq_rcmp in E1, E2. apply rep_gt_rcmp in E; [|assumption|assumption].
  rewrite <- (rcmp_eq_l r0 x y E1), E2 in E. discriminate.
Qed.
Lemma sort_stable : forall l r0, complete r0 -> Forall complete l -> filter (rep_eq r0) (sort_reports l) = filter (rep_eq r0) l.
Proof.
  induction l as [|x l IH]; intros r0 R F; [reflexivity|]. inversion F; subst. cbn [sort_reports fold_right].
  rewrite ins_stable; [|assumption|assumption|]. 
  - cbn [filter]. fold (sort_reports l). rewrite IH by assumption. reflexivity.
  - rewrite Forall_forall in *. intros z Hz. apply H2. now apply (Permutation_in _ (sort_perm l)).
Qed.

(* ---- time stamps ---- *)

Lemma lex_stamp : forall a b, stamp_ok a -> stamp_ok b -> (lex_cmp a b = Lt <-> stamp_before a b).
Proof.
  intros a b A B.
  destruct a as [|y [|m [|d [|h [|mi [|]]]]]]; try destruct A. destruct b as [|y' [|m' [|d' [|h' [|mi' [|]]]]]]; try destruct B.
  unfold stamp_before, earlier. cbn [yr mo dy lex_cmp].
  destruct (Z.compare_spec y y'); [|split; [lia|reflexivity]|split; [discriminate|lia]].
  destruct (Z.compare_spec m m'); [|split; [lia|reflexivity]|split; [discriminate|lia]].
  destruct (Z.compare_spec d d'); [|split; [lia|reflexivity]|split; [discriminate|lia]].
  destruct (Z.compare_spec h h'); [|split; [lia|reflexivity]|split; [discriminate|lia]].
  destruct (Z.compare_spec mi mi'); [split; [discriminate|lia]|split; [lia|reflexivity]|split; [discriminate|lia]].
Qed.

Lemma floor_minutes : forall h, 60 * Qfloor h + Qfloor (60 * (h - inject_Z (Qfloor h))) = Qfloor (60 * h).
Proof.
  intro h. symmetry. destruct (Qfloor_spec (60 * (h - inject_Z (Qfloor h)))) as [A B].
  assert (E : (inject_Z (60 * Qfloor h + Qfloor (60 * (h - inject_Z (Qfloor h)))) ==
               60 * inject_Z (Qfloor h) + inject_Z (Qfloor (60 * (h - inject_Z (Qfloor h)))))%Q)
    by (rewrite inject_Z_plus, inject_Z_mult; reflexivity).
  apply Qfloor_unique; rewrite E; lra.
Qed.
Lemma minute_range : forall h, 0 <= Qfloor (60 * (h - inject_Z (Qfloor h))) <= 59.
Proof.
  intro h. destruct (Qfloor_spec h) as [A B]. destruct (Qfloor_spec (60 * (h - inject_Z (Qfloor h)))) as [C D].
  set (z := Qfloor (60 * (h - inject_Z (Qfloor h)))) in *. split.
  - assert (inject_Z (-1) < inject_Z z)%Q as H1 by (change (inject_Z (-1)) with (-1)%Q; lra). apply inject_Z_lt_inv in H1. lia.
  - assert (inject_Z z < inject_Z 60)%Q as H1 by (change (inject_Z 60) with 60%Q; lra). apply inject_Z_lt_inv in H1. lia.
Qed.

(** What a stored time stamp says. *)
Lemma calculate_dt_stamp : forall r r' st, calculate_dt r = Ok r' -> r_dt r' = Some st ->
  exists y m d h mi, getint r "YR" = Some y /\ getint r "MO" = Some m /\ getint r "DY" = Some d /\ getvar r "HR" = Some h /\
    valid (mkdate y m d) /\ 0 <= Qfloor h <= 23 /\ st = [y; m; d; Qfloor h; mi] /\ 0 <= mi <= 59 /\
    60 * Qfloor h + mi = Qfloor (60 * h).
Proof.
  intros r r' st H S. unfold calculate_dt in H.
  destruct (getint r "YR") as [y|] eqn:Y; [|injection H as <-; discriminate].
  destruct (getint r "MO") as [m|] eqn:M; [|injection H as <-; discriminate].
  destruct (getvar r "HR") as [h|] eqn:HH; [|injection H as <-; discriminate].
  destruct (getint r "DY") as [d|] eqn:D; [|injection H as <-; discriminate].
  destruct (0 <? d); [|injection H as <-; discriminate].
  apply bind_Ok in H. destruct H as [ml [_ H]]. destruct (d <=? ml); [|injection H as <-; discriminate].
  apply bind_Ok in H. destruct H as [dt [E H]]. injection H as <-. cbn [with_dt r_dt] in S. injection S as ->.
  unfold mk_datetime in E.
  destruct (datetime_ok y m d && (0 <=? Qfloor h) && (Qfloor h <=? 23) && (0 <=? Qfloor (60 * (h - inject_Z (Qfloor h)))) && (Qfloor (60 * (h - inject_Z (Qfloor h))) <=? 59)) eqn:G; [|discriminate].
  injection E as <-. rewrite !andb_true_iff in G. destruct G as [[[[G1 G2] G3] G4] G5].
  apply datetime_ok_iff in G1.
  exists y, m, d, h, (Qfloor (60 * (h - inject_Z (Qfloor h)))). pose proof (floor_minutes h).
  split; [reflexivity|]. split; [reflexivity|]. split; [reflexivity|]. split; [reflexivity|]. split; [apply G1|]. split; [lia|]. split; [reflexivity|]. split; lia.
Qed.

Lemma calculate_dt_complete : forall r y m d h, getint r "YR" = Some y -> getint r "MO" = Some m -> getint r "DY" = Some d -> getvar r "HR" = Some h ->
  valid (mkdate y m d) -> 1 <= y <= 9999 -> hour_ok h -> exists r', calculate_dt r = Ok r' /\ r_dt r' <> None.
Proof.
  intros r y m d h Y M D H V Ry [H0 H1]. unfold calculate_dt. rewrite Y, M, D, H.
  pose proof V as [n [V1 V2]]. cbn [yr mo dy] in V1, V2. apply month_has_iff in V1. destruct V1 as [V1 V3].
  replace (0 <? d) with true by lia. rewrite V3. cbn [bind]. replace (d <=? n) with true by lia.
  assert (F : 0 <= Qfloor h <= 23).
  { destruct (Qfloor_spec h) as [A B]. split.
    - assert (inject_Z (-1) < inject_Z (Qfloor h))%Q as K by (change (inject_Z (-1)) with (-1)%Q; lra). apply inject_Z_lt_inv in K. lia.
    - assert (inject_Z (Qfloor h) < inject_Z 24)%Q as K by (change (inject_Z 24) with 24%Q; lra). apply inject_Z_lt_inv in K. lia. }
  pose proof (minute_range h) as MR.
  unfold mk_datetime. assert (G : datetime_ok y m d = true) by (apply datetime_ok_iff; auto). rewrite G.
  replace (true && (0 <=? Qfloor h) && (Qfloor h <=? 23) && (0 <=? Qfloor (60 * (h - inject_Z (Qfloor h)))) && (Qfloor (60 * (h - inject_Z (Qfloor h))) <=? 59)) with true by (symmetry; rewrite !andb_true_iff; repeat split; lia).
  cbn [bind]. eexists. split; [reflexivity|]. discriminate.
Qed.

(* ---- variables ---- *)

Lemma index_of_In : forall s l, In s l -> exists i, index_of s l = Ok i /\ nth_error l i = Some s.
Proof.
  intros s l. induction l as [|x l IH]; intro H; [destruct H|]. cbn [index_of]. destruct (String.eqb_spec s x) as [->|N].
  - exists O. auto.
  - destruct H as [->|H]; [congruence|]. destruct (IH H) as [i [A B]]. rewrite A. exists (S i). auto.
Qed.
Lemma index_of_nth : forall s l i, index_of s l = Ok i -> nth_error l i = Some s.
Proof.
  intros s l. induction l as [|x l IH]; intros i H; [discriminate|]. cbn [index_of] in H. destruct (String.eqb_spec s x) as [->|N].
  - injection H as <-. reflexivity.
  - apply bind_Ok in H. destruct H as [n [A B]]. injection B as <-. cbn. now apply IH.
Qed.
Lemma index_of_notin : forall s l, ~ In s l -> index_of s l = Err ValueError.
Proof.
  intros s l. induction l as [|x l IH]; intro H; [reflexivity|]. cbn [index_of]. destruct (String.eqb_spec s x) as [->|N]; [exfalso; apply H; now left|].
  rewrite IH; [reflexivity|]. intro; apply H; now right.
Qed.
Lemma nth_update_same : forall A (l : list A) i v d, (i < length l)%nat -> nth i (update_nth i v l) d = v.
Proof. induction l as [|x l IH]; intros [|i] v d H; cbn in *; try lia; [reflexivity|]. apply IH. lia. Qed.
Lemma nth_update_other : forall A (l : list A) i j v d, i <> j -> nth j (update_nth i v l) d = nth j l d.
Proof. induction l as [|x l IH]; intros [|i] [|j] v d H; cbn; try reflexivity; try congruence. apply IH. congruence. Qed.
Lemma update_length : forall A (l : list A) i v, length (update_nth i v l) = length l.
Proof. induction l as [|x l IH]; intros [|i] v; cbn; try reflexivity. now rewrite IH. Qed.

Definition wf_report (r : report) : Prop := length (r_data r) = length VARLIST.

Lemma new_report_wf : forall id uid fields r, new_report id uid fields = Ok r -> wf_report r.
Proof. intros id uid fields r H. apply new_report_qc in H. unfold wf_report. rewrite (proj2 (proj2 H)). unfold init_data. now rewrite map_length. Qed.

(** What an accepted setvar does. *)
Lemma setvar_ok : forall r name v r', setvar r name v = Ok r' -> exists i, index_of name VARLIST = Ok i /\ r_data r' = update_nth i v (r_data r) /\
  r_id r' = r_id r /\ r_qc r' = r_qc r /\ r_ext r' = r_ext r.
Proof.
  intros r name v r' H. unfold setvar in H. apply bind_Ok in H. destruct H as [i [A B]]. exists i. split; [exact A|].
  destruct (mem name ["YR"; "DY"; "HR"]).
  - apply calculate_dt_qc in B. cbn [with_data r_qc r_id r_data r_ext] in B. intuition.
  - injection B as <-. auto.
Qed.

Lemma set_get_var : forall r name v r', wf_report r -> setvar r name v = Ok r' ->
  getvar r' name = match v with Some q => Some (if mem name INTVARS then inject_Z (py_int q) else q) | None => None end.
Proof.
  intros r name v r' W H. apply setvar_ok in H. destruct H as [i [A [B _]]]. unfold getvar. rewrite A, B.
  rewrite nth_update_same. 2:{ rewrite W. apply nth_error_Some. rewrite (index_of_nth _ _ _ A). discriminate. }
  destruct v; [|reflexivity]. now destruct (mem name INTVARS).
Qed.
Lemma set_get_other_var : forall r name v r' name', setvar r name v = Ok r' -> name' <> name -> getvar r' name' = getvar r name'.
Proof.
  intros r name v r' name' H N. apply setvar_ok in H. destruct H as [i [A [B [_ [_ C]]]]]. unfold getvar. rewrite B, C.
  destruct (index_of name' VARLIST) as [j|] eqn:E; [|reflexivity]. rewrite nth_update_other; [reflexivity|].
  intros ->. apply index_of_nth in A, E. congruence.
Qed.
Lemma setvar_unknown : forall r name v, ~ In name VARLIST -> setvar r name v = Err ValueError.
Proof. intros r name v H. unfold setvar. now rewrite index_of_notin. Qed.
Lemma getvar_unknown : forall r name, ~ In name VARLIST -> assoc name (r_ext r) = None -> getvar r name = None.
Proof. intros r name H E. unfold getvar. now rewrite index_of_notin, E. Qed.
Lemma setvar_wf : forall r name v r', wf_report r -> setvar r name v = Ok r' -> wf_report r'.
Proof. intros r name v r' W H. apply setvar_ok in H. destruct H as [i [_ [B _]]]. unfold wf_report. rewrite B, update_length. exact W. Qed.

(** The time stamp is up to date: recalculating it changes nothing. *)
Definition dt_current (r : report) : Prop := calculate_dt r = Ok r.

Lemma getvar_data : forall r r' n, r_data r' = r_data r -> r_ext r' = r_ext r -> getvar r' n = getvar r n.
Proof. intros r r' n D E. unfold getvar. now rewrite D, E. Qed.

Lemma calculate_dt_idem : forall r r', calculate_dt r = Ok r' -> calculate_dt r' = Ok r'.
Proof.
  intros r r' H. pose proof (calculate_dt_qc _ _ H) as [_ [_ [D E]]].
  assert (G : forall n, getvar r' n = getvar r n) by (intro; now apply getvar_data).
  unfold calculate_dt in *. unfold getint in *. rewrite !G. 
  destruct (getvar r "YR"); [|injection H as <-; reflexivity].
  destruct (getvar r "MO"); [|injection H as <-; reflexivity].
  destruct (getvar r "HR"); [|injection H as <-; reflexivity].
  destruct (getvar r "DY"); [|injection H as <-; reflexivity].
  destruct (0 <? py_int q2); [|injection H as <-; reflexivity].
  apply bind_Ok in H. destruct H as [ml [A H]]. rewrite A. cbn [bind]. destruct (py_int q2 <=? ml); [|injection H as <-; reflexivity].
  apply bind_Ok in H. destruct H as [dt [B H]]. rewrite B. cbn [bind]. injection H as <-. reflexivity.
Qed.
Lemma setvar_dt_current : forall r name v r', In name ["YR"; "DY"; "HR"] -> setvar r name v = Ok r' -> dt_current r'.
Proof.
  intros r name v r' H S. unfold setvar in S. apply bind_Ok in S. destruct S as [i [_ S]].
  apply mem_In in H. rewrite H in S. now apply calculate_dt_idem in S.
Qed.
Lemma setvar_keeps : forall r name v r' t f, setvar r name v = Ok r' -> get_qc r' t f = get_qc r t f /\ r_id r' = r_id r.
Proof. intros r name v r' t f H. apply setvar_ok in H. destruct H as [i [_ [_ [A [B _]]]]]. unfold get_qc. now rewrite B. Qed.
Lemma gt_stamp : forall a b sa sb, r_id a = r_id b -> r_dt a = Some sa -> r_dt b = Some sb -> stamp_ok sa -> stamp_ok sb ->
  (rep_gt b a = true <-> stamp_before sa sb).
Proof.
  intros a b sa sb I A B SA SB. rewrite rep_gt_rcmp by (unfold complete; congruence). rewrite <- (lex_stamp sa sb SA SB).
  unfold rcmp. rewrite I, A, B. rewrite (proj2 (id_cmp_eq _ _) eq_refl). cbn. rewrite (gc_anti _ lex_good sb sa).
  destruct (lex_cmp sa sb); cbn; split; congruence.
Qed.

(** Course and speed codes. *)
Lemma dsi_vsi_spec : forall r r', calculate_dsi_vsi r = Ok r' ->
  r_data r' = r_data r /\ exists dsi vsi, getext r' "dsi" = Ok dsi /\ getext r' "vsi" = Ok vsi /\
    course_of (getint r' "DS") dsi /\ speed_of (getint r' "YR") (getvar r' "VS") vsi.
Proof.
  intros r r' H. unfold calculate_dsi_vsi in H. apply bind_Ok in H. destruct H as [dsi [D H]].
  match type of H with Ok (setext (setext r "dsi" dsi) "vsi" ?v) = _ => set (vsi := v) in * end. injection H as <-.
  split; [reflexivity|]. exists dsi, vsi. split; [reflexivity|]. split; [reflexivity|].
  change (getint (setext (setext r "dsi" dsi) "vsi" vsi) "DS") with (getint r "DS").
  change (getint (setext (setext r "dsi" dsi) "vsi" vsi) "YR") with (getint r "YR").
  change (getvar (setext (setext r "dsi" dsi) "vsi" vsi) "VS") with (getvar r "VS"). split.
  - unfold course_of. destruct (getint r "DS") as [d|]; [|now injection D as <-]. intros R.
    assert (C : d = 0 \/ d = 1 \/ d = 2 \/ d = 3 \/ d = 4 \/ d = 5 \/ d = 6 \/ d = 7 \/ d = 8 \/ d = 9) by lia.
    repeat (destruct C as [->|C]; [vm_compute in D; injection D as <-; split; intro K; try lia; eexists; split; reflexivity|]).
    subst d. vm_compute in D. injection D as <-. split; [lia|reflexivity].
  - unfold speed_of. subst vsi. destruct (getvar r "VS") as [v|]; [|reflexivity].
    destruct (Qeqb v 0) eqn:E.
    + apply Qeq_bool_iff in E. exists 0%Q. split; [reflexivity|]. split; [reflexivity|]. split; intro K; contradiction.
    + assert (N : ~ (v == 0)%Q) by (intro K; apply Qeq_bool_iff in K; unfold Qeqb in E; congruence).
      destruct (getint r "YR") as [y|].
      * destruct (1968 <=? y) eqn:Y; eexists; (split; [reflexivity|]); (split; [contradiction|]); split; intros _ K; try field.
        -- exfalso. apply K. exists y. split; [reflexivity|lia].
        -- destruct K as [z [Z1 Z2]]. injection Z1 as <-. lia.
      * eexists; (split; [reflexivity|]); (split; [contradiction|]); split; intros _ K; try field. destruct K as [z [Z1 _]]. discriminate.
Qed.
Lemma new_report_codes : forall id uid fields r, new_report id uid fields = Ok r ->
  exists dsi vsi, getext r "dsi" = Ok dsi /\ getext r "vsi" = Ok vsi /\ course_of (getint r "DS") dsi /\ speed_of (getint r "YR") (getvar r "VS") vsi.
Proof. intros id uid fields r H. unfold new_report in H. apply bind_Ok in H. destruct H as [r0 [_ H]]. apply dsi_vsi_spec in H. tauto. Qed.
Lemma new_report_bad_code : forall id uid fields d, (forall r, new_report id uid fields = Ok r -> getint r "DS" = Some d -> -10 <= d <= 9).
Proof.
  intros id uid fields d r H D. unfold new_report in H. apply bind_Ok in H. destruct H as [r0 [_ H]].
  unfold calculate_dsi_vsi in H. apply bind_Ok in H. destruct H as [dsi [E H]].
  assert (getint r0 "DS" = Some d) as G by (injection H as <-; exact D). rewrite G in E. apply py_nth_Ok_range in E. cbn [length ds_convert] in E. lia.
Qed.
