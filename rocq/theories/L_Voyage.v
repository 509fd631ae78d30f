(** Writing flags in voyages; differences of located reports. *)
Require Import String ZArith QArith Qround List Bool Lia Lqa.
Require Import Verif.M_Base Verif.L_Base Verif.S_Calendar Verif.M_Calendar Verif.L_Calendar Verif.L_Calendar2 Verif.M_Checks Verif.M_Report Verif.S_Report Verif.L_Report Verif.L_Report3 Verif.M_Voyage Verif.S_Voyage.
Import ListNotations.
Open Scope string_scope.
Open Scope list_scope.
Open Scope Z_scope.

Lemma nth_error_update_same : forall A (l : list A) i v, (i < length l)%nat -> nth_error (update_nth i v l) i = Some v.
Proof. intros A l. induction l; intros i v H; destruct i; simpl in *; try lia; auto. apply IHl. lia. Qed.
Lemma nth_error_update_other : forall A (l : list A) i j v, i <> j -> nth_error (update_nth i v l) j = nth_error l j.
Proof. intros A l. induction l; intros i j v H; destruct i, j; simpl; auto; try congruence. Qed.

Lemma unch_refl : forall t f r, unchanged_but t f r r.
Proof. intros t f r. unfold unchanged_but. intuition. Qed.
Lemma unch_trans : forall t f a b c, unchanged_but t f a b -> unchanged_but t f b c -> unchanged_but t f a c.
Proof.
  intros t f a b c [A1 [A2 [A3 [A4 [A5 [A6 A7]]]]]] [B1 [B2 [B3 [B4 [B5 [B6 B7]]]]]].
  unfold unchanged_but. do 6 (split; [congruence|]). intros t' f' H. rewrite B7, A7; auto.
Qed.
Lemma set_qc_unch : forall r t f x r', set_qc r t f x = Ok r' -> unchanged_but t f r r'.
Proof.
  intros r t f x r' H. unfold unchanged_but. destruct (set_qc_spec r t f x) as [[_ K]|[_ K]]; rewrite K in H; [|discriminate].
  do 6 (split; [injection H as <-; reflexivity|]).
  intros t' f' N. rewrite <- K in H. eapply set_get_other; eauto.
Qed.
Lemma unch_getvar : forall t f r r' n, unchanged_but t f r r' -> getvar r' n = getvar r n.
Proof. intros t f r r' n [A1 [A2 [A3 [A4 [A5 _]]]]]. now apply getvar_data. Qed.
Lemma unch_getint : forall t f r r' n, unchanged_but t f r r' -> getint r' n = getint r n.
Proof. intros. unfold getint. now rewrite (unch_getvar t f r r'). Qed.
Lemma unch_lat : forall t f r r', unchanged_but t f r r' -> lat r' = lat r.
Proof. intros. unfold lat. now rewrite (unch_getvar t f r r'). Qed.
Lemma unch_lon : forall t f r r', unchanged_but t f r r' -> lon r' = lon r.
Proof. intros. unfold lon. now rewrite (unch_getvar t f r r'). Qed.
Lemma unch_sub : forall sp t f a a' b b', unchanged_but t f a a' -> unchanged_but t f b b' -> rep_sub sp a' b' = rep_sub sp a b.
Proof.
  intros sp t f a a' b b' A B. unfold rep_sub, rep_timediff.
  rewrite (unch_lat t f a a' A), (unch_lat t f b b' B), (unch_lon t f a a' A), (unch_lon t f b b' B).
  rewrite !(unch_getvar t f a a' _ A), !(unch_getvar t f b b' _ B), !(unch_getint t f a a' _ A), !(unch_getint t f b b' _ B). reflexivity.
Qed.
Lemma unch_saturated : forall t f r r', unchanged_but t f r r' -> saturated r' = saturated r.
Proof. intros t f r r' H. unfold saturated. now rewrite !(unch_getvar t f r r' _ H). Qed.

(** Flags written so far: [g i] is the value written at position i, if any. *)
Definition writes (t f : string) (g : nat -> option Z) (v0 v : list report) : Prop :=
  length v = length v0 /\
  forall i r0, nth_error v0 i = Some r0 -> exists r, nth_error v i = Some r /\ unchanged_but t f r0 r /\
    get_qc r t f = match g i with Some x => x | None => get_qc r0 t f end.

Lemma writes_refl : forall t f v, writes t f (fun _ => None) v v.
Proof. intros t f v. split; auto. intros i r0 H. exists r0. split; auto. split; auto using unch_refl. Qed.

Lemma writes_ext : forall t f g g' v0 v, writes t f g v0 v -> (forall i, (i < length v0)%nat -> g i = g' i) -> writes t f g' v0 v.
Proof.
  intros t f g g' v0 v [L H] E. split; auto. intros i r0 Hi. destruct (H i r0 Hi) as [r [A [B C]]]. exists r. rewrite <- E; auto.
  apply nth_error_Some. congruence.
Qed.

Lemma writes_get : forall t f g v0 v i, writes t f g v0 v -> (i < length v0)%nat ->
  exists r0 r, nth_error v0 i = Some r0 /\ vget v i = Ok r /\ unchanged_but t f r0 r.
Proof.
  intros t f g v0 v i [L H] Hi. destruct (nth_error v0 i) as [r0|] eqn:E; [|apply nth_error_None in E; lia].
  destruct (H i r0 E) as [r [A [B C]]]. exists r0, r. unfold vget. rewrite A. auto.
Qed.

Lemma vset_writes : forall t f g v0 v i x, writes t f g v0 v -> (i < length v0)%nat -> accepted (t, f, x) ->
  exists v', vset v i t f x = Ok v' /\ writes t f (fun j => if Nat.eqb j i then Some x else g j) v0 v'.
Proof.
  intros t f g v0 v i x [L H] Hi A. unfold vset.
  destruct (nth_error v i) as [r|] eqn:E; [|apply nth_error_None in E; lia].
  destruct (set_qc_spec r t f x) as [[_ K]|[N _]]; [|contradiction].
  destruct (set_qc r t f x) as [r'|] eqn:S; [|discriminate]. cbn [bind]. eexists. split; [reflexivity|].
  split; [now rewrite update_length|]. intros j r0 Hj. destruct (H j r0 Hj) as [r1 [H1 [H2 H3]]].
  destruct (Nat.eqb_spec j i) as [->|N].
  - rewrite E in H1. injection H1 as <-. exists r'. rewrite nth_error_update_same by lia. split; auto.
    split; [eapply unch_trans; eauto using set_qc_unch|]. eapply set_get_same; eauto.
  - exists r1. rewrite nth_error_update_other by congruence. auto.
Qed.

Lemma memn_In : forall i l, memn i l = true <-> In i l.
Proof.
  intros i l. unfold memn. rewrite existsb_exists. split.
  - intros [x [A B]]. apply Nat.eqb_eq in B. now subst.
  - intro H. exists i. split; auto. apply Nat.eqb_refl.
Qed.
Lemma memn_false : forall i l, memn i l = false <-> ~ In i l.
Proof. intros i l. rewrite <- memn_In. destruct (memn i l); intuition congruence. Qed.

Lemma vset_list_writes : forall t f v0 x l g v, writes t f g v0 v -> (forall i, In i l -> (i < length v0)%nat) -> accepted (t, f, x) ->
  exists v', vset_list v l t f x = Ok v' /\ writes t f (fun j => if memn j l then Some x else g j) v0 v'.
Proof.
  intros t f v0 x. induction l as [|i l IH]; intros g v W R A; simpl vset_list.
  - exists v. split; auto.
  - destruct (vset_writes t f g v0 v i x W) as [v1 [E1 W1]]; [apply R; now left|assumption|]. rewrite E1. cbn [bind].
    destruct (IH _ v1 W1) as [v' [E' W']]; [intros j Hj; apply R; now right|assumption|]. exists v'. split; auto.
    eapply writes_ext; [exact W'|]. intros j Hj. simpl. unfold memn. simpl. destruct (Nat.eqb j i), (existsb (Nat.eqb j) l); reflexivity.
Qed.

Lemma set_qc_all_writes : forall t f x v, accepted (t, f, x) -> exists v', set_qc_all v t f x = Ok v' /\ writes t f (fun _ => Some x) v v'.
Proof.
  intros t f x v A. induction v as [|r v IH]; simpl.
  - exists []. split; auto. split; auto. intros i r0 H. destruct i; discriminate.
  - destruct (set_qc_spec r t f x) as [[_ K]|[N _]]; [|contradiction].
    destruct (set_qc r t f x) as [r'|] eqn:S; [|discriminate]. cbn [bind]. destruct IH as [v' [E [L W]]]. rewrite E. cbn [bind].
    eexists. split; [reflexivity|]. split; [simpl; lia|]. intros i r0 H. destruct i; simpl in *.
    + injection H as <-. exists r'. split; auto. split; [eapply set_qc_unch; eauto|eapply set_get_same; eauto].
    + apply W. assumption.
Qed.

(** From written flags to the final statement. *)
Lemma writes_flags : forall t f g v0 v (bad : nat -> Prop), writes t f g v0 v ->
  (forall i, (i < length v0)%nat -> (g i = Some 1 /\ bad i) \/ (g i = Some 0 /\ ~ bad i)) -> flags_exactly t f bad v0 v.
Proof.
  intros t f g v0 v bad [L W] H. split.
  - revert v L W. clear H. revert g. induction v0 as [|r v0 IH]; intros g v L W; destruct v as [|r' v]; simpl in L; try lia; constructor.
    + destruct (W O r eq_refl) as [x [A [B _]]]. simpl in A. now injection A as <-.
    + apply (IH (fun i => g (S i))); [lia|]. intros i r0 Hi. apply (W (S i) r0 Hi).
  - intros i r' Hi. assert (I : (i < length v0)%nat) by (rewrite <- L; apply nth_error_Some; congruence).
    destruct (nth_error v0 i) as [r0|] eqn:E; [|apply nth_error_None in E; lia].
    destruct (W i r0 E) as [x [A [_ C]]]. rewrite A in Hi. injection Hi as <-. rewrite C.
    destruct (H i I) as [[G K]|[G K]]; rewrite G; auto.
Qed.

(* ---- located reports ---- *)

Lemma rep_sub_located : forall sp a b la lo d h la' lo' d' h', located a la lo d h -> located b la' lo' d' h' ->
  exists t c speed, rep_sub sp b a = Ok (speed, sp_dist sp la' lo' la lo, c, t) /\ elapsed d h d' h' t /\
    c = sp_course sp la lo la' lo' /\ ((t == 0 /\ speed = sp_dist sp la' lo' la lo) \/ (~ t == 0 /\ speed = sp_dist sp la' lo' la lo / t))%Q.
Proof.
  intros sp a b la lo d h la' lo' d' h' [A1 A2 A3 A4 A5 A6 A7 A8] [B1 B2 B3 B4 B5 B6 B7 B8].
  unfold rep_sub, rep_timediff. rewrite A1, A2, B1, B2, A3, A4, A5, A6, B3, B4, B5, B6.
  assert (T : exists t, time_difference (yr d) (mo d) (dy d) (Some h) (yr d') (mo d') (dy d') (Some h') = Ok (Some t) /\ elapsed d h d' h' t).
  { destruct (time_difference_val d h d' h' A7 B7 A8 B8) as [t [E Ht]]. exists t. split; auto.
    destruct (Z_le_dec (jdd d) (jdd d')) as [L|L].
    - left. exists (Z.to_nat (jdd d' - jdd d)). split; [apply days_later_iff; auto; lia|]. rewrite Ht, Z2Nat.id by lia. ring.
    - right. exists (Z.to_nat (jdd d - jdd d')). split; [apply days_later_iff; auto; lia|]. rewrite Ht, Z2Nat.id by lia.
      replace (jdd d' - jdd d) with (- (jdd d - jdd d')) by lia. rewrite inject_Z_opp. ring. }
  destruct T as [t [E El]]. rewrite E. cbn [bind].
  destruct (Qeqb t 0) eqn:Z0; qprop.
  - exists 0%Q. do 2 eexists. split; [reflexivity|]. split; [|split; [reflexivity|left; split; reflexivity]].
    unfold elapsed in *. destruct El as [[n [D K]]|[n [D K]]]; [left|right]; exists n; (split; [exact D|]); now rewrite <- K, Z0.
  - exists t. do 2 eexists. split; [reflexivity|]. split; [exact El|]. split; [reflexivity|]. right. split; [exact Z0|reflexivity].
Qed.
