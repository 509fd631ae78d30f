(** Lemmas for the tracking quality control: the record of the reports wanted. *)
Require Import String ZArith QArith Qround List Bool Lia Lqa Permutation Sorted.
Require Import Verif.M_Base Verif.L_Base Verif.S_Calendar Verif.M_Calendar Verif.L_Calendar Verif.M_Report Verif.S_Report Verif.L_Report Verif.L_Report3 Verif.M_Voyage Verif.S_Voyage Verif.L_Voyage Verif.L_Voyage2 Verif.L_Voyage4 Verif.L_Voyage6 Verif.M_Track Verif.S_Track Verif.L_Track5 Verif.M_Drifter Verif.S_Drifter Verif.L_Drifter Verif.S_Tail Verif.S_Tail2 Verif.M_Tracking Verif.S_Tracking.
Import ListNotations.
Open Scope string_scope.
Open Scope list_scope.
Open Scope Z_scope.

(* ---- what the motion fields leave ---- *)

Definition motion : list string := ["speed"; "course"; "distance"; "time_diff"].
(** Same report but for motion fields, told by getext. *)
Definition kept (r r' : report) : Prop := same_report r r' /\ forall n, ~ In n motion -> getext r' n = getext r n.
Lemma kept_refl : forall r, kept r r.
Proof. split; [apply same_refl|auto]. Qed.
Lemma kept_trans : forall a b c, kept a b -> kept b c -> kept a c.
Proof. intros a b c [A1 A2] [B1 B2]. split; [eapply same_trans; eauto|]. intros n N. rewrite (B2 n N). now apply A2. Qed.
Lemma setext_other : forall r n v m, n <> m -> getext (setext r n v) m = getext r m.
Proof. intros r n v m N. unfold getext, setext, with_ext. cbn [r_ext assoc]. destruct (String.eqb m n) eqn:E; [apply String.eqb_eq in E; congruence|reflexivity]. Qed.
Lemma set_motion_kept : forall r m, kept r (set_motion r m).
Proof.
  intros r m. split; [apply set_motion_same|]. intros n N. unfold motion in N. cbn [In] in N.
  destruct m as [[[[s d] c] t]|]; cbn [set_motion]; rewrite !setext_other; auto; intro E; apply N; tauto.
Qed.
Lemma add_reports_kept : forall sp l v0 l0 v, Forall2 kept l0 v0 -> add_reports sp v0 l = Ok v -> Forall2 kept (l0 ++ l) v.
Proof.
  intros sp. induction l as [|r l IH]; intros v0 l0 v F H; cbn [add_reports] in H.
  - injection H as <-. now rewrite app_nil_r.
  - apply bind_Ok in H. destruct H as [v1 [A H]]. replace (l0 ++ r :: l) with ((l0 ++ [r]) ++ l) by now rewrite <- app_assoc.
    apply (IH v1); [|exact H]. unfold add_report in A. destruct (rev v0) as [|p w] eqn:R.
    + injection A as <-. assert (v0 = []) by (rewrite <- (rev_involutive v0), R; reflexivity). subst v0. inversion F; subst. cbn. constructor; [exact (set_motion_kept r None)|constructor].
    + apply bind_Ok in A. destruct A as [m [A B]]. injection B as <-. apply Forall2_app; [exact F|]. constructor; [exact (set_motion_kept r (Some m))|constructor].
Qed.
Lemma remotion_kept : forall sp l p l', remotion sp p l = Ok l' -> Forall2 kept l l'.
Proof.
  intros sp. induction l as [|r l IH]; intros p l' H; cbn [remotion] in H.
  - injection H as <-. constructor.
  - apply bind_Ok in H. destruct H as [m [A H]]. apply bind_Ok in H. destruct H as [w [B H]]. injection H as <-. constructor; [exact (set_motion_kept r (Some m))|eauto].
Qed.

(* ---- sorting with positions ---- *)

Lemma ins_ref_snd : forall x l, map snd (ins_ref x l) = ins_report (snd x) (map snd l).
Proof. intros x. induction l as [|y l IH]; cbn [ins_ref map ins_report]; [reflexivity|]. destruct (rep_gt (snd x) (snd y)); cbn [map]; [now rewrite IH|reflexivity]. Qed.
Lemma sort_refs_snd : forall l, map snd (sort_refs l) = sort_reports (map snd l).
Proof. induction l as [|x l IH]; [reflexivity|]. unfold sort_refs, sort_reports in *. cbn [fold_right map]. now rewrite ins_ref_snd, IH. Qed.
Lemma ins_ref_perm : forall x l, Permutation (ins_ref x l) (x :: l).
Proof. intros x. induction l as [|y l IH]; cbn [ins_ref]; [reflexivity|]. destruct (rep_gt (snd x) (snd y)); [|reflexivity]. rewrite IH. apply perm_swap. Qed.
Lemma sort_refs_perm : forall l, Permutation (sort_refs l) l.
Proof. induction l as [|x l IH]; [reflexivity|]. unfold sort_refs in *. cbn [fold_right]. rewrite ins_ref_perm. now rewrite IH. Qed.
(** Sorted, and equal ones in order of position. *)
Definition ref_le (x y : nat * report) : Prop := rep_gt (snd x) (snd y) = false /\ (rep_gt (snd y) (snd x) = false -> (fst x < fst y)%nat).
Lemma ins_ref_sorted : forall x l, complete (snd x) -> Forall (fun y => complete (snd y)) l -> Forall (fun y => (fst x < fst y)%nat) l ->
  StronglySorted ref_le l -> StronglySorted ref_le (ins_ref x l).
Proof.
  intros x l X. induction l as [|y l IH]; intros F L S; cbn [ins_ref]; [repeat constructor|].
  inversion F as [|? ? F1 F2]; subst. inversion L as [|? ? L1 L2]; subst. inversion S as [|? ? S1 S2]; subst. destruct (rep_gt (snd x) (snd y)) eqn:E.
  - constructor; [now apply IH|]. rewrite Forall_forall in *. intros z Hz. apply (Permutation_in _ (ins_ref_perm x l)) in Hz.
    destruct Hz as [<-|Hz]; [|now apply S2]. split; [|congruence]. destruct (trichotomy (snd x) (snd y) X F1) as [T|[T|T]]; intuition congruence.
  - constructor; [exact S|]. constructor; [split; [exact E|intros _; exact L1]|]. rewrite Forall_forall in *. intros z Hz. destruct (S2 z Hz) as [K _].
    split; [|intros _; now apply L2]. apply (not_after_trans (snd x) (snd y) (snd z)); auto.
Qed.
Lemma sort_refs_sorted : forall l, Forall (fun y => complete (snd y)) l -> StronglySorted (fun x y : nat * report => (fst x < fst y)%nat) l -> StronglySorted ref_le (sort_refs l).
Proof.
  induction l as [|x l IH]; intros F S; [constructor|]. inversion F as [|? ? F1 F2]; subst. inversion S as [|? ? S1 S2]; subst.
  unfold sort_refs in *. cbn [fold_right]. apply ins_ref_sorted; auto.
  - rewrite Forall_forall in *. intros z Hz. apply F2. now apply (Permutation_in _ (sort_refs_perm l)).
  - rewrite Forall_forall in *. intros z Hz. apply S2. now apply (Permutation_in _ (sort_refs_perm l)).
Qed.
Lemma sorted_nth : forall A (R : A -> A -> Prop) l, StronglySorted R l -> forall i j x y, (i < j)%nat -> nth_error l i = Some x -> nth_error l j = Some y -> R x y.
Proof.
  intros A R l S. induction S as [|a l S IH F]; intros i j x y L X Y; [destruct i; discriminate|].
  destruct j as [|j]; [lia|]. cbn [nth_error] in Y. destruct i as [|i]; cbn [nth_error] in X.
  - injection X as <-. rewrite Forall_forall in F. apply F. eapply nth_error_In; eauto.
  - apply (IH i j); auto. lia.
Qed.

(* ---- the positions wanted ---- *)

Lemma positions_from : forall (want : report -> bool) (reps : list report) k,
  combine (map fst (filter (fun p => want (snd p)) (combine (seq k (length reps)) reps))) (filter want reps) = filter (fun p => want (snd p)) (combine (seq k (length reps)) reps).
Proof.
  intros want. induction reps as [|r reps IH]; intro k; cbn [length seq combine filter]; [reflexivity|]. cbn [snd]. destruct (want r); cbn [map combine fst]; [f_equal|]; apply IH.
Qed.
Lemma positions_combine : forall (want : report -> bool) (reps : list report), combine (positions want reps) (filter want reps) = filter (fun p => want (snd p)) (combine (seq 0 (length reps)) reps).
Proof. intros. apply positions_from. Qed.
Lemma positions_len : forall want reps, length (positions want reps) = length (filter want reps).
Proof.
  intros want reps. unfold positions. rewrite map_length. generalize 0%nat. induction reps as [|r reps IH]; intro k; cbn [length seq combine filter]; [reflexivity|]. cbn [snd]. destruct (want r); cbn [length]; now rewrite IH.
Qed.
Lemma in_combine_seq : forall (reps : list report) k i r, In (i, r) (combine (seq k (length reps)) reps) <-> (k <= i)%nat /\ nth_error reps (i - k) = Some r.
Proof.
  induction reps as [|x reps IH]; intros k i r; cbn [length seq combine In].
  - split; [tauto|]. intros [_ H]. destruct (i - k)%nat; discriminate.
  - rewrite IH. split.
    + intros [E|[L N]]; [injection E as <- <-; split; [lia|]; now rewrite Nat.sub_diag|]. split; [lia|]. replace (i - k)%nat with (S (i - S k)) by lia. exact N.
    + intros [L N]. destruct (Nat.eq_dec i k) as [->|D]; [left; rewrite Nat.sub_diag in N; cbn in N; congruence|]. right. split; [lia|]. replace (i - k)%nat with (S (i - S k)) in N by lia. exact N.
Qed.
Lemma filter_sorted : forall A (R : A -> A -> Prop) f l, StronglySorted R l -> StronglySorted R (filter f l).
Proof.
  intros A R f l S. induction S as [|a l S IH F]; cbn [filter]; [constructor|]. destruct (f a); [|exact IH]. constructor; [exact IH|].
  rewrite Forall_forall in *. intros x X. apply filter_In in X. now apply F.
Qed.
Lemma seq_sorted : forall (reps : list report) k, StronglySorted (fun x y : nat * report => (fst x < fst y)%nat) (combine (seq k (length reps)) reps).
Proof.
  induction reps as [|r reps IH]; intro k; cbn [length seq combine]; [constructor|]. constructor; [apply IH|]. apply Forall_forall. intros [i x] I.
  apply in_combine_seq in I. cbn [fst]. lia.
Qed.
(** Replacing the second components by kept ones changes neither positions nor order. *)
Lemma combine_fst_sorted : forall (l : list nat) (a b : list report), length a = length b -> StronglySorted (fun x y : nat * report => (fst x < fst y)%nat) (combine l a) ->
  StronglySorted (fun x y : nat * report => (fst x < fst y)%nat) (combine l b).
Proof.
  induction l as [|i l IH]; intros a b L S; [constructor|]. destruct a as [|x a], b as [|y b]; cbn in L; try discriminate; [constructor|]. cbn [combine] in *.
  inversion S as [|? ? S1 S2]; subst. constructor; [apply (IH a b); [lia|exact S1]|]. rewrite Forall_forall in *. intros [j z] I. cbn [fst].
  assert (J : exists z', In (j, z') (combine l a)).
  { injection L as L. clear -I L. revert a b L I. induction l as [|k l IH]; intros a b L I; [destruct I|]. destruct a, b; cbn in *; try discriminate; [destruct I|].
    destruct I as [E|I]; [injection E as <- <-; eauto|]. destruct (IH a b ltac:(lia) I) as [z' J]. eauto. }
  destruct J as [z' J]. apply (S2 (j, z') J).
Qed.

(* ---- time stamps and hours ---- *)

Lemma stamped_complete : forall r, stamped r -> complete r.
Proof. intros r [la [lo [d [h [mi [_ [_ [_ [_ E]]]]]]]]]. unfold complete. congruence. Qed.
Lemma stamped_located : forall r, stamped r -> is_located r.
Proof. intros r [la [lo [d [h [mi [L _]]]]]]. exists la, lo, d, h. exact L. Qed.
Lemma Qfloor_lt : forall a b, Qfloor a < Qfloor b -> (a < b)%Q.
Proof. intros a b H. destruct (Qlt_le_dec a b) as [L|L]; [exact L|]. apply Qfloor_resp_le in L. lia. Qed.
Lemma stamp_later : forall a b t, r_id a = r_id b -> stamped a -> stamped b -> hours_between a b t -> rep_gt b a = true -> (0 < t)%Q.
Proof.
  intros a b t I [la [lo [d [h [mi [L [Y [M [F E]]]]]]]]] [la' [lo' [d' [h' [mi' [L' [Y' [M' [F' E']]]]]]]]] H G.
  apply (gt_stamp a b _ _ I E E') in G; [|exact M|exact M']. pose proof (hours_jdd _ _ _ _ _ _ _ _ _ _ _ L L' H) as T.
  assert (V := loc_valid _ _ _ _ _ L). assert (V' := loc_valid _ _ _ _ _ L'). assert (W := loc_hour _ _ _ _ _ L). assert (W' := loc_hour _ _ _ _ _ L'). unfold hour_ok in W, W'.
  cbn [stamp_before] in G. destruct G as [G|[G1 [G2 [G3 G4]]]].
  - assert (EE : earlier d d') by exact G. apply (earlier_iff_jdd d d' V V') in EE. assert (Z1 : (1 <= inject_Z (jdd d' - jdd d))%Q) by (change 1%Q with (inject_Z 1); rewrite <- Zle_Qle; lia). lra.
  - assert (D : d = d') by (destruct d, d'; cbn in *; congruence). subst d'. rewrite Z.sub_diag in T. change (inject_Z 0) with 0%Q in T.
    rewrite F, F' in G4. apply Qfloor_lt in G4. lra.
Qed.
Lemma stamp_same : forall a b, r_id a = r_id b -> stamped a -> stamped b -> rep_gt a b = false -> rep_gt b a = false -> r_dt a = r_dt b.
Proof.
  intros a b I A B G1 G2. destruct (trichotomy a b (stamped_complete a A) (stamped_complete b B)) as [T|[T|T]]; try (intuition congruence).
  destruct T as [_ [T _]]. apply rep_eq_rcmp in T. unfold rcmp in T. destruct (id_cmp (r_id a) (r_id b)); try discriminate.
  apply (gc_eq _ (opt_good _ _ lex_good)) in T. exact T.
Qed.
Lemma kept_gt : forall a a' b b', kept a a' -> kept b b' -> rep_gt a' b' = rep_gt a b.
Proof. intros a a' b b' [[A1 [_ [_ [A2 _]]]] _] [[B1 [_ [_ [B2 _]]]] _]. unfold rep_gt. now rewrite A1, A2, B1, B2. Qed.
Lemma kept_stamped : forall r r', kept r r' -> stamped r -> stamped r'.
Proof.
  intros r r' [S _] [la [lo [d [h [mi [L [Y [M [F E]]]]]]]]]. exists la, lo, d, h, mi. split; [eapply located_same; eauto|]. destruct S as [_ [_ [_ [D _]]]]. rewrite D. auto.
Qed.
Lemma kept_data : forall r r', kept r r' -> data_same r r'.
Proof. intros r r' [S _]. now apply same_data. Qed.

(* ---- the record of the reports wanted ---- *)

Lemma sort_refs_kept : forall l l', Forall2 (fun x y : nat * report => fst x = fst y /\ kept (snd x) (snd y)) l l' ->
  Forall2 (fun x y : nat * report => fst x = fst y /\ kept (snd x) (snd y)) (sort_refs l) (sort_refs l').
Proof.
  intros l l' F. induction F as [|x y l l' K F IH]; [constructor|]. unfold sort_refs in *. cbn [fold_right]. revert IH. generalize (fold_right ins_ref [] l) (fold_right ins_ref [] l').
  intros m m' G. induction G as [|u w m m' H G IH]; cbn [ins_ref]; [constructor; [exact K|constructor]|].
  rewrite (kept_gt (snd x) (snd y) (snd u) (snd w)) by tauto. destruct (rep_gt (snd x) (snd u)); constructor; auto.
Qed.
Lemma sorted_NoDup : forall l : list (nat * report), StronglySorted (fun x y => (fst x < fst y)%nat) l -> NoDup (map fst l).
Proof.
  intros l S. induction S as [|a l S IH F]; cbn [map]; constructor; [|exact IH]. intro I. apply in_map_iff in I. destruct I as [x [E I]]. rewrite Forall_forall in F. specialize (F x I). lia.
Qed.
Lemma Forall2_map_pair : forall (R : nat -> report -> Prop) l, Forall (fun x => R (fst x) (snd x)) l -> Forall2 R (map fst l) (map snd l).
Proof. intros R l F. induction F; cbn [map]; constructor; auto. Qed.
Lemma nth_map_fst : forall (l : list (nat * report)) i x y, nth_error (map fst l) i = Some x -> nth_error (map snd l) i = Some y -> nth_error l i = Some (x, y).
Proof. induction l as [|[a b] l IH]; intros [|i] x y X Y; cbn in *; try discriminate; [congruence|eauto]. Qed.
Lemma Forall2_combine_kept : forall (l : list nat) a b, length l = length a -> Forall2 kept a b ->
  Forall2 (fun x y : nat * report => fst x = fst y /\ kept (snd x) (snd y)) (combine l a) (combine l b).
Proof.
  intros l a b L F. revert l L. induction F as [|x y a b K F IH]; intros [|i l] L; cbn in *; try discriminate; constructor; [auto|]. apply IH. lia.
Qed.
Lemma Forall2_fst_eq : forall l l', Forall2 (fun x y : nat * report => fst x = fst y /\ kept (snd x) (snd y)) l l' -> map fst l = map fst l'.
Proof. intros l l' F. induction F as [|x y l l' [K _] F IH]; cbn [map]; congruence. Qed.
Lemma Forall2_snd_kept : forall l l', Forall2 (fun x y : nat * report => fst x = fst y /\ kept (snd x) (snd y)) l l' -> Forall2 kept (map snd l) (map snd l').
Proof. intros l l' F. induction F as [|x y l l' [_ K] F IH]; cbn [map]; constructor; auto. Qed.
Lemma Forall2_kept_trans : forall a b c, Forall2 kept a b -> Forall2 kept b c -> Forall2 kept a c.
Proof. intros a b c F. revert c. induction F; intros c G; inversion G; subst; constructor; eauto using kept_trans. Qed.
Lemma Forall2_kept_located : forall a b, Forall2 kept a b -> Forall is_located a -> Forall is_located b.
Proof. intros a b F. induction F as [|x y a b K F IH]; intro L; inversion L; subst; constructor; auto. eapply is_located_same; [apply K|assumption]. Qed.

Section Record.
Variable sp : sphere.
Variable want : report -> bool.
Variable P : report -> Prop.
Hypothesis want_P : forall r, want r = true <-> P r.
Variable reps : list report.
Variable id : option string.
Hypothesis ids : forall r, In r reps -> r_id r = id.
Hypothesis stamps : forall r, In r reps -> P r -> stamped r.
Hypothesis minutes : forall i j a b t, (i < j)%nat -> nth_error reps i = Some a -> nth_error reps j = Some b -> P a -> P b -> r_dt a = r_dt b -> hours_between a b t -> (0 <= t)%Q.

(** The wanted reports with their positions, sorted. *)
Let s0 := sort_refs (filter (fun p => want (snd p)) (combine (seq 0 (length reps)) reps)).
Lemma s0_in : forall i r, In (i, r) s0 <-> nth_error reps i = Some r /\ P r.
Proof.
  intros i r. unfold s0. split.
  - intro I. apply (Permutation_in _ (sort_refs_perm _)) in I. apply filter_In in I. destruct I as [I W]. apply in_combine_seq in I. rewrite Nat.sub_0_r in I. split; [tauto|]. now apply want_P.
  - intros [N H]. apply (Permutation_in _ (Permutation_sym (sort_refs_perm _))). apply filter_In. split; [|now apply want_P]. apply in_combine_seq. rewrite Nat.sub_0_r. split; [lia|exact N].
Qed.
Lemma s0_in_record : in_record P reps (map fst s0) (map snd s0).
Proof.
  split; [|split; [split|]].
  - apply Forall2_map_pair, Forall_forall. intros [i r] I. now apply s0_in in I.
  - unfold s0. eapply Permutation_NoDup; [apply Permutation_map, Permutation_sym, sort_refs_perm|]. apply sorted_NoDup, filter_sorted, seq_sorted.
  - intro i. split.
    + intro I. apply in_map_iff in I. destruct I as [[j r] [E I]]. cbn in E. subst j. exists r. now apply s0_in.
    + intros [r H]. apply in_map_iff. exists (i, r). split; [reflexivity|now apply s0_in].
  - intros j k i i' a b t L I I' A B T. pose proof (nth_map_fst _ _ _ _ I A) as X. pose proof (nth_map_fst _ _ _ _ I' B) as Y.
    assert (RL : ref_le (i, a) (i', b)).
    { refine (sorted_nth _ _ _ _ j k _ _ L X Y). unfold s0. apply sort_refs_sorted; [|apply filter_sorted, seq_sorted]. apply Forall_forall. intros [n r] I0. cbn [snd].
      apply (Permutation_in _ (Permutation_sym (sort_refs_perm _))) in I0. apply s0_in in I0. apply stamped_complete, stamps; [|tauto]. eapply nth_error_In; apply I0. }
    apply nth_error_In, s0_in in X. apply nth_error_In, s0_in in Y. destruct X as [X PX], Y as [Y PY]. destruct RL as [R1 R2]. cbn [fst snd] in *.
    assert (SA : stamped a) by (apply stamps; [eapply nth_error_In; eauto|exact PX]). assert (SB : stamped b) by (apply stamps; [eapply nth_error_In; eauto|exact PY]).
    assert (EI : r_id a = r_id b) by (rewrite (ids a), (ids b); eauto using nth_error_In).
    destruct (rep_gt b a) eqn:G; [left; exact (stamp_later a b t EI SA SB T G)|]. specialize (R2 eq_refl).
    assert (T0 := minutes i i' a b t R2 X Y PX PY (stamp_same a b EI SA SB R1 G) T). destruct (Qlt_le_dec 0 t); [now left|right]. split; [lra|exact R2].
Qed.
Lemma filter_want : forall r, In r (filter want reps) -> In r reps /\ P r.
Proof. intros r I. apply filter_In in I. now rewrite want_P in I. Qed.
Lemma record_ok : exists idx v0 v, record_of sp want reps = Ok (idx, v) /\ in_record P reps idx v0 /\ Forall2 kept v0 v /\ timed v.
Proof.
  assert (L0 : Forall is_located (filter want reps)) by (apply Forall_forall; intros r I; apply filter_want in I; apply stamped_located, stamps; tauto).
  destruct (build_voyage_ok sp _ L0) as [w [E [_ _]]]. pose proof (add_reports_kept sp _ [] [] w (Forall2_nil _) E) as K. cbn [app] in K.
  pose proof (sort_refs_kept _ _ (Forall2_combine_kept _ _ _ (positions_len want reps) K)) as F. rewrite positions_combine in F. fold s0 in F.
  pose proof (Forall2_fst_eq _ _ F) as EF. pose proof (Forall2_snd_kept _ _ F) as KS.
  pose proof s0_in_record as IR. assert (LS : Forall is_located (map snd s0)).
  { apply Forall_forall. intros r I. apply in_map_iff in I. destruct I as [[i r'] [<- I]]. apply s0_in in I. apply stamped_located, stamps; [eapply nth_error_In; apply I|apply I]. }
  unfold record_of. rewrite E. cbn [bind]. destruct (sort_refs (combine (positions want reps) w)) as [|[i r] l] eqn:ES.
  - exists (map fst s0), (map snd s0), []. cbn [map] in EF, KS. rewrite EF. split; [reflexivity|]. rewrite EF in IR. split; [exact IR|]. split; [exact KS|].
    split; [constructor|]. split; intros j a b t A; destruct j; discriminate.
  - cbn [map snd] in KS. pose proof (Forall2_kept_located _ _ KS LS) as LV. inversion LV as [|? ? LR LL]; subst.
    destruct (remotion_ok sp (map snd l) r LR LL) as [v [E' [_ LK]]]. rewrite E'. cbn [bind].
    exists (map fst s0), (map snd s0), (r :: v). cbn [map fst] in EF. rewrite EF in IR |- *. split; [reflexivity|]. split; [exact IR|].
    assert (KV : Forall2 kept (map snd s0) (r :: v)).
    { eapply Forall2_kept_trans; [exact KS|]. constructor; [apply kept_refl|]. eapply remotion_kept; exact E'. }
    split; [exact KV|]. apply (linked_timed sp); [eapply Forall2_kept_located; eauto| |exact LK].
    intros j a b t A B T. destruct (Forall2_nth_back _ _ _ _ _ KV _ _ A) as [a0 [A0 KA]], (Forall2_nth_back _ _ _ _ _ KV _ _ B) as [b0 [B0 KB]].
    destruct IR as [IR1 [IR2 IR3]]. destruct (Forall2_nth_back _ _ _ _ _ IR1 _ _ A0) as [ia [IA _]], (Forall2_nth_back _ _ _ _ _ IR1 _ _ B0) as [ib [IB _]].
    assert (T0 : hours_between a0 b0 t) by (eapply data_hours; [apply data_same_sym, kept_data; exact KA|apply data_same_sym, kept_data; exact KB|exact T]).
    destruct (IR3 j (S j) ia ib a0 b0 t ltac:(lia) IA IB A0 B0 T0) as [G|[G _]]; lra.
Qed.
End Record.
