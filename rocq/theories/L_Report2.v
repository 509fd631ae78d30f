(** Lemmas about the deck index. *)
Require Import String Ascii ZArith QArith Qround List Bool Lia Permutation Sorting.Sorted.
Require Import ZifyBool.
Require Import Verif.M_Base Verif.L_Base Verif.M_Calendar Verif.M_Report Verif.S_Report Verif.L_Report.
Import ListNotations.
Open Scope string_scope.
Open Scope list_scope.
Open Scope Z_scope.

Lemma str_cmp_refl : forall s, String.compare s s = Eq.
Proof.
  induction s as [|c s IH]; [reflexivity|]. cbn. assert (E : (c ?= c)%char = Eq) by apply N.compare_refl. now rewrite E.
Qed.
Lemma id_cmp_eq : forall a b, id_cmp a b = Eq <-> a = b.
Proof.
  intros [a|] [b|]; cbn; try (split; congruence).
  split; [intro H; apply String.compare_eq_iff in H; congruence|intro H; injection H as ->; apply str_cmp_refl].
Qed.
Lemma id_eqb_eq : forall a b, id_eqb a b = true <-> a = b.
Proof. intros a b. unfold id_eqb. rewrite <- id_cmp_eq. destruct (id_cmp a b); split; congruence. Qed.
Lemma id_eqb_refl : forall a, id_eqb a a = true.
Proof. intro. now apply id_eqb_eq. Qed.
Lemma id_eqb_neq : forall a b, a <> b -> id_eqb a b = false.
Proof. intros a b H. destruct (id_eqb a b) eqn:E; [|reflexivity]. apply id_eqb_eq in E. contradiction. Qed.

(** Positions of the reports with an identifier. *)
Definition has_id (reps : list report) (id : option string) (i : nat) : bool :=
  match nth_error reps i with Some r => id_eqb (r_id r) id | None => false end.
Definition positions (reps : list report) (id : option string) : list nat :=
  filter (has_id reps id) (seq 0 (length reps)).

Definition index_ok (reps : list report) (t : list (option string * list nat)) : Prop :=
  NoDup (map fst t) /\ (forall id l, In (id, l) t -> l = positions reps id) /\
  (forall r, In r reps -> In (r_id r) (map fst t)).

Lemma filter_ext_in' : forall A (f g : A -> bool) l, (forall x, In x l -> f x = g x) -> filter f l = filter g l.
Proof. intros. now apply filter_ext_in. Qed.

Lemma positions_snoc : forall reps r id, positions (reps ++ [r]) id = positions reps id ++ (if id_eqb (r_id r) id then [length reps] else []).
Proof.
  intros reps r id. unfold positions. rewrite app_length. cbn [length]. rewrite Nat.add_1_r, seq_S, filter_app. f_equal.
  - apply filter_ext_in'. intros i Hi. apply in_seq in Hi. unfold has_id. rewrite nth_error_app1 by lia. reflexivity.
  - cbn [filter]. unfold has_id. cbn [Nat.add]. rewrite nth_error_app2 by lia. rewrite Nat.sub_diag. cbn [nth_error].
    now destruct (id_eqb (r_id r) id).
Qed.

Lemma track_keys : forall t id i k, In k (map fst (track id i t)) <-> In k (map fst t) \/ k = id.
Proof.
  induction t as [|[k0 l0] t IH]; intros id i k; cbn [track map fst].
  - cbn. intuition.
  - destruct (id_eqb k0 id) eqn:E; cbn [map fst In].
    + apply id_eqb_eq in E. subst. intuition.
    + rewrite IH. intuition.
Qed.
Lemma track_NoDup : forall t id i, NoDup (map fst t) -> NoDup (map fst (track id i t)).
Proof.
  induction t as [|[k0 l0] t IH]; intros id i N; cbn [track map fst].
  - repeat constructor. intros [].
  - cbn [map fst] in N. inversion N; subst. destruct (id_eqb k0 id) eqn:E; cbn [map fst]; [exact N|].
    constructor; [|now apply IH]. rewrite track_keys. intros [K| ->]; [contradiction|]. now rewrite id_eqb_refl in E.
Qed.
Lemma track_In : forall t id i k l, NoDup (map fst t) -> In (k, l) (track id i t) ->
  (k <> id /\ In (k, l) t) \/ (k = id /\ ((exists l0, In (id, l0) t /\ l = l0 ++ [i]) \/ (~ In id (map fst t) /\ l = [i]))).
Proof.
  induction t as [|[k0 l0] t IH]; intros id i k l N H; cbn [track] in H.
  - destruct H as [H|[]]. injection H as <- <-. right. split; [reflexivity|]. right. split; [intros []|reflexivity].
  - cbn [map fst] in N. inversion N; subst. destruct (id_eqb k0 id) eqn:E.
    + apply id_eqb_eq in E. subst k0. destruct H as [H|H].
      * injection H as <- <-. right. split; [reflexivity|]. left. exists l0. split; [now left|reflexivity].
      * left. split; [|now right]. intro; subst. apply H2. apply in_map_iff. exists (id, l). auto.
    + destruct H as [H|H].
      * injection H as <- <-. left. split; [|now left]. intro; subst. now rewrite id_eqb_refl in E.
      * apply IH in H; [|assumption]. destruct H as [[A B]|[A [[g1 [B C]]|[B C]]]].
        -- left. split; [exact A|now right].
        -- right. split; [exact A|]. left. exists g1. split; [now right|exact C].
        -- right. split; [exact A|]. right. split; [|exact C]. cbn [map fst In]. intros [K|K]; [|contradiction].
           subst. now rewrite id_eqb_refl in E.
Qed.

Lemma index_ok_append : forall d r, index_ok (d_reps d) (d_ids d) -> index_ok (d_reps (deck_append d r)) (d_ids (deck_append d r)).
Proof.
  intros d r [A [B C]]. unfold deck_append. cbn [d_reps d_ids]. split; [|split].
  - now apply track_NoDup.
  - intros id l H. rewrite positions_snoc. apply track_In in H; [|exact A].
    destruct H as [[H1 H2]|[-> [[l0 [H1 H2]]|[H1 H2]]]].
    + rewrite id_eqb_neq by congruence. rewrite app_nil_r. now apply B.
    + rewrite id_eqb_refl. rewrite <- (B _ _ H1). exact H2.
    + rewrite id_eqb_refl. subst l. assert (E : positions (d_reps d) (r_id r) = []); [|now rewrite E].
      unfold positions.
      destruct (filter (has_id (d_reps d) (r_id r)) (seq 0 (length (d_reps d)))) as [|i q] eqn:Q; [reflexivity|exfalso].
      assert (K : In i (filter (has_id (d_reps d) (r_id r)) (seq 0 (length (d_reps d))))) by (rewrite Q; now left).
      apply filter_In in K. destruct K as [_ K]. unfold has_id in K. destruct (nth_error (d_reps d) i) as [r'|] eqn:E; [|discriminate].
      apply id_eqb_eq in K. apply H1. rewrite <- K. apply C. eapply nth_error_In; eauto.
  - intros r' H. rewrite track_keys. apply in_app_or in H. destruct H as [H|[<-|[]]]; [left; now apply C|now right].
Qed.

Lemma index_ok_appends : forall l d, index_ok (d_reps d) (d_ids d) ->
  index_ok (d_reps (fold_left deck_append l d)) (d_ids (fold_left deck_append l d)).
Proof. induction l as [|r l IH]; intros d H; [exact H|]. cbn [fold_left]. apply IH. now apply index_ok_append. Qed.
Lemma appends_reps : forall l d, d_reps (fold_left deck_append l d) = d_reps d ++ l.
Proof. induction l as [|r l IH]; intro d; [now rewrite app_nil_r|]. cbn [fold_left]. rewrite IH. cbn [deck_append d_reps]. now rewrite <- app_assoc. Qed.
Lemma appends_filter : forall l d, d_filter (fold_left deck_append l d) = d_filter d.
Proof. induction l as [|r l IH]; intro d; [reflexivity|]. cbn [fold_left]. now rewrite IH. Qed.
Lemma index_ok_new : index_ok [] [].
Proof. split; [constructor|]. split; [intros id l []|intros r []]. Qed.

(** A report at a position passes the filter. *)
Definition passes (f : qc_filter) (reps : list report) (i : nat) : bool :=
  match nth_error reps i with Some r => test_report f r =? 0 | None => false end.

Lemma pick_spec : forall f reps l, (forall i, In i l -> (i < length reps)%nat) -> pick f reps l = Ok (filter (passes f reps) l).
Proof.
  intros f reps. induction l as [|i l IH]; intro H; [reflexivity|]. cbn [pick filter].
  destruct (nth_error reps i) as [r|] eqn:E; [|apply nth_error_None in E; specialize (H i (or_introl eq_refl)); lia].
  rewrite IH by (intros; apply H; now right). cbn [bind].
  assert (P : passes f reps i = (test_report f r =? 0)) by (unfold passes; now rewrite E). rewrite P.
  now destruct (test_report f r =? 0).
Qed.
Lemma pick_all_spec : forall f reps t, (forall id l i, In (id, l) t -> In i l -> (i < length reps)%nat) ->
  pick_all f reps t = Ok (map (fun p => filter (passes f reps) (snd p)) t).
Proof.
  intros f reps. induction t as [|[id l] t IH]; intro H; [reflexivity|]. cbn [pick_all map snd].
  rewrite pick_spec by (intros i Hi; apply (H id l i); [now left|exact Hi]). cbn [bind].
  rewrite IH; [reflexivity|]. intros id' l' i Hl Hi. apply (H id' l' i); [now right|exact Hi].
Qed.

Lemma In_positions : forall reps id i, In i (positions reps id) <-> exists r, nth_error reps i = Some r /\ r_id r = id.
Proof.
  intros reps id i. unfold positions. rewrite filter_In, in_seq. unfold has_id. split.
  - intros [A B]. destruct (nth_error reps i) as [r|]; [|discriminate]. exists r. split; [reflexivity|]. now apply id_eqb_eq.
  - intros [r [A B]]. rewrite A. split; [|now apply id_eqb_eq]. assert (i < length reps)%nat by (apply nth_error_Some; congruence). lia.
Qed.

Lemma seq_sorted : forall n a, StronglySorted lt (seq a n).
Proof.
  induction n as [|n IH]; intro a; cbn; constructor; [apply IH|]. apply Forall_forall. intros x Hx. apply in_seq in Hx. lia.
Qed.
Lemma filter_sorted : forall (f : nat -> bool) l, StronglySorted lt l -> StronglySorted lt (filter f l).
Proof.
  intros f l S. induction S as [|a l S IH F]; cbn [filter]; [constructor|].
  destruct (f a); [|exact IH]. constructor; [exact IH|]. rewrite Forall_forall in *. intros x Hx. apply filter_In in Hx. now apply F.
Qed.

Lemma NoDup_app_disj : forall A (l l' : list A), NoDup l -> NoDup l' -> (forall x, In x l -> ~ In x l') -> NoDup (l ++ l').
Proof.
  intros A l l' N N' D. induction N as [|x l H N IH]; [exact N'|]. cbn. constructor.
  - rewrite in_app_iff. intros [K|K]; [contradiction|]. apply (D x); [now left|exact K].
  - apply IH. intros y Hy. apply D. now right.
Qed.

Lemma groups_NoDup : forall reps (P : nat -> bool) t, NoDup (map fst t) -> (forall id l, In (id, l) t -> l = positions reps id) ->
  NoDup (concat (map (fun p => filter P (snd p)) t)).
Proof.
  intros reps P t. induction t as [|[id l] t IH]; intros A B; cbn [map concat snd]; [constructor|].
  cbn [map fst] in A. inversion A; subst. apply NoDup_app_disj.
  - rewrite (B id l (or_introl eq_refl)). apply NoDup_filter. unfold positions. apply NoDup_filter. apply seq_NoDup.
  - apply IH; [assumption|]. intros; apply B; now right.
  - intros i Hi Hj. apply filter_In in Hi. destruct Hi as [Hi _]. rewrite (B id l (or_introl eq_refl)) in Hi. apply In_positions in Hi.
    destruct Hi as [r [E1 E2]]. apply in_concat in Hj. destruct Hj as [x [Hx Hj]]. apply in_map_iff in Hx. destruct Hx as [[id1 l1] [<- Hx]].
    cbn [snd] in Hj. apply filter_In in Hj. destruct Hj as [Hj _]. rewrite (B id1 l1 (or_intror Hx)) in Hj. apply In_positions in Hj.
    destruct Hj as [r' [E3 E4]]. rewrite E1 in E3. injection E3 as <-. apply H1. apply in_map_iff. exists (id1, l1). cbn. split; [congruence|exact Hx].
Qed.

Lemma platforms_spec : forall d, index_ok (d_reps d) (d_ids d) ->
  exists groups, platforms d = Ok groups /\
    (* every passing report is in exactly one voyage, the others in none *)
    (forall i, (exists g, In g groups /\ In i g) <-> passes (d_filter d) (d_reps d) i = true) /\
    NoDup (concat groups) /\
    (* a voyage holds reports of one identifier in deck order, and all of them *)
    (forall g, In g groups -> StronglySorted lt g /\ exists id, forall i, In i g <->
        (passes (d_filter d) (d_reps d) i = true /\ exists r, nth_error (d_reps d) i = Some r /\ r_id r = id)).
Proof.
  intros d [A [B C]]. set (P := passes (d_filter d) (d_reps d)).
  exists (map (fun p => filter P (snd p)) (d_ids d)).
  assert (R : forall id l i, In (id, l) (d_ids d) -> In i l -> (i < length (d_reps d))%nat).
  { intros id l i H K. rewrite (B id l H) in K. apply In_positions in K. destruct K as [r [K _]]. apply nth_error_Some. congruence. }
  split; [apply pick_all_spec; exact R|].
  assert (G : forall id l i, In (id, l) (d_ids d) -> (In i (filter P l) <-> P i = true /\ exists r, nth_error (d_reps d) i = Some r /\ r_id r = id)).
  { intros id l i H. rewrite filter_In, (B id l H), In_positions. tauto. }
  split; [|split].
  - intro i. split.
    + intros [g [H1 H2]]. apply in_map_iff in H1. destruct H1 as [[id l] [<- H1]]. cbn [snd] in H2. apply filter_In in H2. tauto.
    + intro H. assert (H0 := H). unfold P, passes in H. destruct (nth_error (d_reps d) i) as [r|] eqn:E; [|discriminate].
      assert (K := C r (nth_error_In _ _ E)). apply in_map_iff in K. destruct K as [[id l] [K1 K2]]. cbn [fst] in K1.
      exists (filter P l). split; [apply in_map_iff; exists (id, l); auto|]. apply (G id l i K2). split; [exact H0|].
      exists r. auto.
  - apply (groups_NoDup (d_reps d)); assumption.
  - intros g H. apply in_map_iff in H. destruct H as [[id l] [<- H]]. cbn [snd]. split.
    + rewrite (B id l H). apply filter_sorted. unfold positions. apply filter_sorted. apply seq_sorted.
    + exists id. intro i. now apply G.
Qed.

Lemma platforms_appended : forall reps f,
  let d := add_filter (fold_left deck_append reps new_deck) f in
  let passing i := exists r, nth_error reps i = Some r /\ forall t fl v, In (t, fl, v) f -> get_qc r t fl = v in
  exists voyages, platforms d = Ok voyages /\
    (forall i, (exists g, In g voyages /\ In i g) <-> passing i) /\
    NoDup (concat voyages) /\
    (forall g, In g voyages -> StronglySorted lt g /\
       exists id, forall i, In i g <-> (passing i /\ exists r, nth_error reps i = Some r /\ r_id r = id)).
Proof.
  intros reps f d passing.
  assert (R : d_reps d = reps) by (unfold d, add_filter; cbn [d_reps]; rewrite appends_reps; reflexivity).
  assert (I : index_ok (d_reps d) (d_ids d)) by (unfold d, add_filter; cbn [d_reps d_ids]; apply index_ok_appends, index_ok_new).
  assert (F : d_filter d = f) by reflexivity.
  assert (P : forall i, passes f reps i = true <-> passing i).
  { intro i. unfold passes, passing. destruct (nth_error reps i) as [r|].
    - rewrite Z.eqb_eq, (proj1 (test_report_spec f r)). split; [intro H; exists r; auto|intros [r' [E H]]; injection E as <-; exact H].
    - split; [discriminate|intros [r [E _]]; discriminate]. }
  destruct (platforms_spec d I) as [g [A [B [C D]]]]. rewrite R, F in *. exists g. split; [exact A|]. split; [|split; [exact C|]].
  - intro i. now rewrite B, P.
  - intros x Hx. destruct (D x Hx) as [D1 [id D2]]. split; [exact D1|]. exists id. intro i. now rewrite D2, P.
Qed.
