(** Track check: repeated passes. *)
Require Import String ZArith QArith Qround List Bool Lia Lqa Sorting.Sorted.
Require Import Verif.M_Base Verif.L_Base Verif.S_Calendar Verif.M_Calendar Verif.L_Calendar Verif.M_Report Verif.S_Report Verif.L_Report Verif.L_Report2 Verif.L_Report3 Verif.M_Voyage Verif.S_Voyage Verif.L_Voyage Verif.L_Voyage2 Verif.L_Voyage3 Verif.L_Voyage4 Verif.L_Voyage6 Verif.M_Track Verif.S_Track Verif.L_Track Verif.L_Track2 Verif.L_Track3 Verif.L_Track4 Verif.L_Track5.
Import ListNotations.
Open Scope string_scope.
Open Scope list_scope.
Open Scope Z_scope.

Lemma put_flags_ok : forall refs qcs master, NoDup refs -> (forall i, In i refs -> (i < length master)%nat) -> length qcs = length refs ->
  exists m', put_flags refs qcs master = Ok m' /\ length m' = length master /\
    (forall j i, nth_error refs j = Some i -> nth_error m' i = nth_error qcs j) /\ (forall i, ~ In i refs -> nth_error m' i = nth_error master i).
Proof.
  induction refs as [|a refs IH]; intros qcs master N R L; cbn [put_flags].
  - exists master. repeat split; auto. intros j i H. destruct j; discriminate.
  - destruct qcs as [|q qcs]; [discriminate L|]. inversion N as [|x l NI N' Ex]. subst.
    destruct (IH qcs (update_nth a q master) N') as [m' [E [L' [A B]]]].
    + intros i Hi. rewrite update_length. apply R. now right.
    + simpl in L. lia.
    + rewrite update_length in L'. exists m'. split; [exact E|]. split; [exact L'|]. split.
      * intros [|j] i H; cbn [nth_error] in H |- *.
        -- injection H as <-. rewrite (B a NI). apply nth_error_update_same. apply R. now left.
        -- now apply A.
      * intros i H. rewrite B by (intro K; apply H; now right). apply nth_error_update_other. intros ->. apply H. now left.
Qed.
Lemma put_back_ok : forall refs sub v, NoDup refs -> (forall i, In i refs -> (i < length v)%nat) -> length sub = length refs ->
  length (put_back refs sub v) = length v /\
    (forall j i, nth_error refs j = Some i -> nth_error (put_back refs sub v) i = nth_error sub j) /\
    (forall i, ~ In i refs -> nth_error (put_back refs sub v) i = nth_error v i).
Proof.
  induction refs as [|a refs IH]; intros sub v N R L.
  - cbn. repeat split; auto. intros j i H. destruct j; discriminate.
  - destruct sub as [|q sub]; [discriminate L|]. cbn [put_back]. inversion N as [|x l NI N' Ex]. subst.
    destruct (IH sub (update_nth a q v) N') as [L' [A B]].
    + intros i Hi. rewrite update_length. apply R. now right.
    + simpl in L. lia.
    + rewrite update_length in L'. split; [exact L'|]. split.
      * intros [|j] i H; cbn [nth_error] in H |- *.
        -- injection H as <-. rewrite (B a NI). apply nth_error_update_same. apply R. now left.
        -- now apply A.
      * intros i H. rewrite B by (intro K; apply H; now right). apply nth_error_update_other. intros ->. apply H. now left.
Qed.

Definition keep_of (F : list nat) (n : nat) : list nat := filter (fun i => negb (existsb (Nat.eqb i) F)) (seq 0 n).
Lemma existsb_eqb : forall F i, existsb (Nat.eqb i) F = true <-> In i F.
Proof.
  intros F i. rewrite existsb_exists. split.
  - intros [x [A B]]. apply Nat.eqb_eq in B. now subst.
  - intro H. exists i. split; [exact H|apply Nat.eqb_refl].
Qed.
Lemma keep_In : forall F n i, In i (keep_of F n) <-> (i < n)%nat /\ ~ In i F.
Proof.
  intros F n i. unfold keep_of. rewrite filter_In, in_seq, negb_true_iff, <- not_true_iff_false, existsb_eqb. intuition lia.
Qed.
Lemma keep_sorted : forall F n, StronglySorted lt (keep_of F n).
Proof. intros. apply filter_sorted, seq_sorted. Qed.
Lemma sorted_lt_nth : forall l i j a b, StronglySorted lt l -> nth_error l i = Some a -> nth_error l j = Some b -> (i < j)%nat -> (a < b)%nat.
Proof.
  intros l i j a b S0. revert i j. induction S0 as [|x l S0 IH Fx]; intros i j A B H; [destruct i; discriminate|].
  destruct j as [|j]; [lia|]. destruct i as [|i]; cbn [nth_error] in *.
  - injection A as <-. rewrite Forall_forall in Fx. apply Fx. eapply nth_error_In; eauto.
  - eapply IH; eauto. lia.
Qed.
Lemma keep_NoDup : forall F n, NoDup (keep_of F n).
Proof. intros. apply NoDup_filter, seq_NoDup. Qed.
Lemma keep_head : forall F n, (0 < n)%nat -> ~ In O F -> nth_error (keep_of F n) 0 = Some O.
Proof.
  intros F n P N. destruct n; [lia|]. unfold keep_of. cbn [seq filter].
  destruct (existsb (Nat.eqb 0) F) eqn:E; [apply existsb_eqb in E; contradiction|]. reflexivity.
Qed.
Lemma keep_two : forall F n, (2 <= n)%nat -> ~ In O F -> ~ In (n - 1)%nat F -> (2 <= length (keep_of F n))%nat.
Proof.
  intros F n H A B. apply (NoDup_incl_length (l := [O; (n - 1)%nat])).
  - constructor; [|constructor; [intros []|constructor]]. intros [K|[]]. lia.
  - intros x [<-|[<-|[]]]; apply keep_In; split; auto; lia.
Qed.
Lemma open_keep : forall master F n, length master = n -> (forall i q, nth_error master i = Some q -> right_flag (fun i => In i F) i q) ->
  open_refs master = keep_of F n.
Proof.
  intros master F n L R. unfold open_refs, keep_of. rewrite L. apply filter_ext_in. intros i Hi. apply in_seq in Hi.
  destruct (nth_error master i) as [q|] eqn:N; [|apply nth_error_None in N; lia]. rewrite (nth_error_nth _ _ 1 N).
  destruct (R i q N) as [[-> H]|[-> H]].
  - rewrite (proj2 (existsb_eqb F i) H). reflexivity.
  - destruct (existsb (Nat.eqb i) F) eqn:E; [apply existsb_eqb in E; contradiction|reflexivity].
Qed.
Lemma data_generic : forall r r', data_same r r' -> generic_report r' = generic_report r.
Proof.
  intros r r' K. unfold generic_report, getint. rewrite (data_same_var _ _ "YR" K) by (simpl; tauto). destruct K as [-> _]. reflexivity.
Qed.

Section Full.
Variable sp : sphere.
Variables (v0 : list report) (r0 : report) (rest : list report).
Hypothesis WD : well_defined sp.
Hypothesis RD : ready sp v0.
Hypothesis Ev : v0 = r0 :: rest.
Hypothesis Gen : generic_report r0 = false.
Hypothesis Len : (2 <= length v0)%nat.

Definition flags_of (F : list nat) (master : list Z) : Prop :=
  length master = length v0 /\ forall i q, nth_error master i = Some q -> right_flag (fun i => In i F) i q.
Definition news (G : list nat) (qcs : list Z) : Prop := any_flag qcs = Ok (negb (match G with [] => true | _ => false end)).
Definition inner (F : list nat) : Prop := forall i, In i F -> (1 <= i)%nat /\ (S i < length v0)%nat.

Lemma news_ok : forall G qcs n, (0 < n)%nat -> length qcs = n -> (forall i, In i G -> (i < n)%nat) ->
  (forall i q, nth_error qcs i = Some q -> right_flag (fun i => In i G) i q) -> news G qcs.
Proof.
  intros G qcs n P L B R. unfold news, any_flag. destruct qcs as [|q0 qcs]; [simpl in L; lia|]. f_equal. destruct G as [|g G]; cbn [negb].
  - apply not_true_iff_false. rewrite existsb_exists. intros [q [A C]]. apply In_nth_error in A. destruct A as [i A]. destruct (R i q A) as [[_ []]|[-> _]]. discriminate.
  - apply existsb_exists. pose proof (B g (or_introl eq_refl)) as I. destruct (nth_error (q0 :: qcs) g) as [q|] eqn:N; [|apply nth_error_None in N; lia].
    exists q. split; [eapply nth_error_In; eauto|]. destruct (R g q N) as [[-> _]|[_ C]]; [reflexivity|]. exfalso. apply C. now left.
Qed.

Lemma loop_ok : forall m k F G qcs master v, (1 <= k)%nat -> rounds sp v0 k F G -> inner F -> news G qcs -> flags_of F master -> Forall2 mds_frame v0 v ->
  exists k' F' G' master' v', full_loop sp m qcs master v = Ok (master', v') /\ rounds sp v0 k' F' G' /\ (k <= k' <= k + m)%nat /\
    (k' = k + m \/ G' = [])%nat /\ inner F' /\ flags_of F' master' /\ Forall2 mds_frame v0 v'.
Proof.
  induction m as [|m IH]; intros k F G qcs master v Hk HR HI HN HF HV.
  - cbn [full_loop]. rewrite HN. cbn [bind]. exists k, F, G, master, v. split; [destruct (negb _); reflexivity|]. split; [exact HR|]. split; [lia|]. split; [left; lia|]. auto.
  - cbn [full_loop]. rewrite HN. cbn [bind]. destruct G as [|g G]; cbn [negb].
    + exists k, F, (@nil nat), master, v. split; [reflexivity|]. split; [exact HR|]. split; [lia|]. split; [now right|]. auto.
    + destruct HF as [LM RM]. rewrite (open_keep master F (length v0) LM RM). set (keep := keep_of F (length v0)).
      assert (Z0 : ~ In O F) by (intro K; apply HI in K; lia).
      assert (Z1 : ~ In (length v0 - 1)%nat F) by (intro K; apply HI in K; lia).
      pose proof (keep_two F (length v0) Len Z0 Z1) as K2. fold keep in K2.
      assert (KB : forall i, In i keep -> (i < length v0)%nat) by (intros i Hi; now apply keep_In in Hi).
      pose proof (Forall2_length _ _ _ _ _ HV) as LV.
      (* the reports of the pass *)
      destruct (mapM_ok _ _ (vget v) keep) as [objs [E1 [LO HO]]].
      { intros i Hi. destruct (nth_error v i) as [r|] eqn:N; [exists r; now apply vget_nth|]. apply nth_error_None in N. pose proof (KB i Hi). lia. }
      destruct (mapM_ok _ _ (vget v0) keep) as [w [_ [LW HW]]].
      { intros i Hi. destruct (nth_error v0 i) as [r|] eqn:N; [exists r; now apply vget_nth|]. apply nth_error_None in N. pose proof (KB i Hi). lia. }
      unfold pick. rewrite E1. cbn [bind].
      assert (VN : forall u i r, vget u i = Ok r -> nth_error u i = Some r).
      { intros u i r H. unfold vget in H. destruct (nth_error u i); [congruence|discriminate]. }
      assert (PW : picks v0 keep w).
      { apply Forall2_of_nth; [exact LW|]. intros j i H. destruct (HW j i H) as [y [A B]]. exists y. split; auto. }
      assert (FO : Forall2 mds_frame w objs).
      { apply Forall2_of_nth; [congruence|]. intros j r H. destruct (Forall2_nth_back _ _ _ _ _ PW _ _ H) as [i [A B]].
        destruct (HO j i A) as [y [C D]]. apply VN in D. exists y. split; [exact C|].
        destruct (Forall2_nth _ _ _ _ _ HV _ _ B) as [y' [D' X]]. congruence. }
      assert (DO : Forall2 data_same w objs) by (eapply Forall2_impl'; [apply frame_data|exact FO]).
      assert (InW : forall r, In r w -> In r v0).
      { intros r H. apply In_nth_error in H. destruct H as [j H]. destruct (Forall2_nth_back _ _ _ _ _ PW _ _ H) as [i [A B]]. eapply nth_error_In; eauto. }
      destruct RD as [D1 D2 D3 D4 D5].
      assert (W1 : Forall is_located w) by (apply Forall_forall; intros r H; exact (proj1 (Forall_forall _ _) D1 r (InW r H))).
      assert (W2 : Forall heading_known w) by (apply Forall_forall; intros r H; exact (proj1 (Forall_forall _ _) D5 r (InW r H))).
      assert (W3 : in_time_order w).
      { eapply picks_order; [exact D1|exact D4|exact PW|]. intros i a b A B. eapply sorted_lt_nth; [apply keep_sorted|exact A|exact B|lia]. }
      assert (O1 : Forall is_located objs) by (eapply Forall_Forall2; [apply data_located'|exact DO|exact W1]).
      assert (O2 : Forall heading_known objs) by (eapply Forall_Forall2; [apply data_heading|exact DO|exact W2]).
      assert (O3 : in_time_order objs) by (eapply data_order; eauto).
      destruct (build_voyage_ok sp objs O1) as [temp [E2 _]]. rewrite E2. cbn [bind].
      destruct (built_ready sp objs temp O1 O3 O2 E2) as [RT FT].
      assert (LT : length temp = length keep) by (rewrite <- (Forall2_length _ _ _ _ _ FT); exact LO).
      destruct temp as [|t0 temp0] eqn:ET; [simpl in LT; lia|]. rewrite <- ET in *.
      assert (GT : generic_report t0 = false).
      { pose proof (keep_head F (length v0) ltac:(lia) Z0) as KH. fold keep in KH. destruct (HO O O KH) as [y [A B]]. apply VN in B.
        destruct (Forall2_nth _ _ _ _ _ FT _ _ A) as [y' [A' X]]. rewrite ET in A'. cbn in A'. injection A' as <-.
        rewrite (data_generic _ _ (same_data _ _ X)). 
        destruct (Forall2_nth_back _ _ _ _ _ HV _ _ B) as [z [Bz Y]]. rewrite (data_generic _ _ (frame_data _ _ Y)). rewrite Ev in Bz. cbn in Bz. congruence. }
      destruct (mds_ok sp temp t0 temp0 WD RT ET GT ltac:(lia)) as [qcs' [temp' [H [E3 [LQ [PH [IH' [_ [RQ FR]]]]]]]]].
      rewrite E3. cbn [bind].
      destruct (put_flags_ok keep qcs' master (keep_NoDup _ _)) as [master' [E4 [LM' [P1 P2]]]]; [intros i Hi; rewrite LM; auto|congruence|].
      rewrite E4. cbn [bind].
      assert (LT' : length temp' = length keep) by (rewrite <- (Forall2_length _ _ _ _ _ FR); exact LT).
      destruct (put_back_ok keep temp' v (keep_NoDup _ _)) as [LB [B1 B2]]; [intros i Hi; rewrite <- LV; auto|exact LT'|].
      assert (PWH : pass sp w H).
      { eapply data_pass; [|exact PH]. apply Forall2_data_sym. apply Forall2_of_nth; [congruence|]. intros i r Hr.
        destruct (Forall2_nth _ _ _ _ _ DO _ _ Hr) as [y [A X]]. destruct (Forall2_nth _ _ _ _ _ FT _ _ A) as [y' [A' X']].
        exists y'. split; [exact A'|]. eapply data_same_trans; [exact X|]. now apply same_data. }
      set (G' := map (fun j => nth j keep O) H).
      assert (HG : forall i, In i G' <-> exists j, nth_error keep j = Some i /\ In j H).
      { intro i. unfold G'. rewrite in_map_iff. split.
        - intros [j [A B]]. exists j. split; [|exact B]. subst i. apply nth_error_nth'. apply IH' in B. lia.
        - intros [j [A B]]. exists j. split; [|exact B]. now apply nth_error_nth. }
      assert (IG : inner G').
      { intros i Hi. apply HG in Hi. destruct Hi as [j [A B]]. destruct (IH' j B) as [J1 J2]. split.
        - assert ((O < i)%nat); [|lia]. eapply (sorted_lt_nth keep O j); [apply keep_sorted|apply keep_head; [lia|exact Z0]|exact A|lia].
        - destruct (nth_error keep (S j)) as [b|] eqn:Nb; [|apply nth_error_None in Nb; lia].
          assert (i < b)%nat by (eapply (sorted_lt_nth keep j (S j)); [apply keep_sorted|exact A|exact Nb|lia]).
          pose proof (KB b (nth_error_In _ _ Nb)). lia. }
      assert (HR' : rounds sp v0 (S k) (F ++ G') G') by (eapply rounds_next; eauto).
      assert (HI' : inner (F ++ G')) by (intros i Hi; apply in_app_or in Hi; destruct Hi; auto).
      destruct (IH (S k) (F ++ G') G' qcs' master' (put_back keep temp' v)) as [k' [F' [G2 [m' [v' [X1 [X2 [X3 [X4 [X5 [X6 X7]]]]]]]]]]]; auto.
      * unfold news. pose proof (news_ok H qcs' (length keep) ltac:(lia) ltac:(congruence) ltac:(intros i Hi; apply IH' in Hi; lia) RQ) as N. unfold news in N.
        rewrite N. unfold G'. destruct H; reflexivity.
      * split; [congruence|]. intros i q Hq.
        destruct (in_dec Nat.eq_dec i keep) as [I|I].
        -- pose proof I as I'. apply In_nth_error in I'. destruct I' as [j Hj]. rewrite (P1 j i Hj) in Hq.
           assert (NF : ~ In i F) by (apply keep_In in I; tauto).
           destruct (RQ j q Hq) as [[-> C]|[-> C]].
           ++ left. split; [reflexivity|]. apply in_or_app. right. apply HG. eauto.
           ++ right. split; [reflexivity|]. intro K. apply in_app_or in K. destruct K as [K|K]; [contradiction|].
              apply HG in K. destruct K as [j' [A B]]. assert (j' = j); [|congruence].
              eapply (proj1 (NoDup_nth_error keep) (keep_NoDup _ _)); [apply nth_error_Some; congruence|congruence].
        -- rewrite (P2 i I) in Hq. assert (HF : In i F).
           { destruct (in_dec Nat.eq_dec i F) as [Y|Y]; [exact Y|]. exfalso. apply I. apply keep_In. split; [|exact Y]. rewrite <- LM. apply nth_error_Some. congruence. }
           destruct (RM i q Hq) as [[-> _]|[_ C]]; [|contradiction]. left. split; [reflexivity|]. apply in_or_app. now left.
      * apply Forall2_of_nth; [congruence|]. intros i r Hr. destruct (Forall2_nth _ _ _ _ _ HV _ _ Hr) as [y [A X]].
        destruct (in_dec Nat.eq_dec i keep) as [I|I].
        -- apply In_nth_error in I. destruct I as [j Hj]. rewrite (B1 j i Hj). destruct (HO j i Hj) as [y1 [C1 D0]]. apply VN in D0.
           assert (y1 = y) by congruence. subst y1. destruct (Forall2_nth _ _ _ _ _ FT _ _ C1) as [y2 [C2 X']].
           destruct (Forall2_nth _ _ _ _ _ FR _ _ C2) as [y3 [C3 X'']]. exists y3. split; [exact C3|].
           eapply frame_trans; [exact X|]. eapply frame_trans; [apply frame_same; exact X'|exact X''].
        -- rewrite (B2 i I). eauto.
      * exists k', F', G2, m', v'. split; [exact X1|]. split; [exact X2|]. split; [lia|]. split; [destruct X4; [left; lia|now right]|]. auto.
Qed.

Lemma final_ok : forall master F v1, flags_of F master -> length v1 = length v0 -> forall todo g v, writes "POS" "bad_track" g v1 v -> (forall i, In i todo -> (i < length v0)%nat) ->
  exists v', final_flags master todo v = Ok v' /\ writes "POS" "bad_track" (fun j => if memn j todo then Some (nth j master 0) else g j) v1 v'.
Proof.
  intros master F v1 [LM RM] LV. induction todo as [|i todo IH]; intros g v W B; cbn [final_flags].
  - exists v. split; [reflexivity|exact W].
  - assert (I : (i < length v0)%nat) by (apply B; now left).
    destruct (nth_error master i) as [q|] eqn:N; [|apply nth_error_None in N; lia]. rewrite (py_nth_error _ _ _ _ N). cbn [bind].
    assert (Q : exists v2, (if q =? 0 then vset v i "POS" "bad_track" 0 else if q =? 1 then vset v i "POS" "bad_track" 1 else Ok v) = Ok v2 /\
                writes "POS" "bad_track" (fun j => if Nat.eqb j i then Some q else g j) v1 v2).
    { destruct (RM i q N) as [[-> _]|[-> _]]; cbn [Z.eqb]; apply vset_writes; auto; try lia; split; simpl; auto; unfold att_value; lia. }
    destruct Q as [v2 [E2 W2]]. rewrite E2. cbn [bind]. destruct (IH _ v2 W2) as [v' [E' W']]; [intros j Hj; apply B; now right|].
    exists v'. split; [exact E'|]. eapply writes_ext; [exact W'|]. intros j Hj. cbn [memn existsb]. unfold memn. cbn [existsb].
    destruct (existsb (Nat.eqb j) todo) eqn:Em; [now rewrite orb_true_r|]. rewrite orb_false_r. destruct (Nat.eqb j i) eqn:Ej; [|reflexivity].
    apply Nat.eqb_eq in Ej. subst j. now rewrite (nth_error_nth _ _ 0 N).
Qed.

Lemma full_ok : exists k F G v', mds_full_track_check sp v0 = Ok v' /\ rounds sp v0 k F G /\ (1 <= k <= 5)%nat /\ (k = 5%nat \/ G = []) /\
  inner F /\ length v' = length v0 /\
  forall i r, nth_error v0 i = Some r -> exists r', nth_error v' i = Some r' /\ mds_frame r r' /\ right_flag (fun i => In i F) i (get_qc r' "POS" "bad_track").
Proof.
  destruct (mds_ok sp v0 r0 rest WD RD Ev Gen Len) as [qcs [v1 [G1 [E1 [LQ [P1 [I1 [_ [R1 F1]]]]]]]]].
  destruct (loop_ok 4 1 G1 G1 qcs qcs v1) as [k [F [G [master [v2 [X1 [X2 [X3 [X4 [X5 [X6 X7]]]]]]]]]]].
  - lia.
  - now constructor.
  - exact I1.
  - apply (news_ok G1 qcs (length v0)); auto; [lia|]. intros i Hi. apply I1 in Hi. lia.
  - split; assumption.
  - exact F1.
  - pose proof (Forall2_length _ _ _ _ _ X7) as L2.
    destruct (final_ok master F v2 X6 ltac:(congruence) (seq 0 (length v2)) _ v2 (writes_refl _ _ _)) as [v' [E' [L' W']]]; [intros i Hi; apply in_seq in Hi; lia|].
    exists k, F, G, v'. split; [|split; [exact X2|split; [lia|split; [destruct X4; [left; lia|now right]|split; [exact X5|split; [congruence|]]]]]].
    + unfold mds_full_track_check. rewrite E1. cbn [bind]. destruct qcs as [|q0 qcs]; [simpl in LQ; lia|]. rewrite X1. cbn [bind]. exact E'.
    + intros i r Hr. destruct (Forall2_nth _ _ _ _ _ X7 _ _ Hr) as [y [A X]]. destruct (W' i y A) as [r' [B [U Q]]].
      exists r'. split; [exact B|]. split; [eapply frame_trans; [exact X|eapply frame_unch; [left; reflexivity|exact U]]|].
      assert (I : (i < length v0)%nat) by (apply nth_error_Some; congruence).
      rewrite (proj2 (memn_seq i 0 (length v2))) in Q by lia. rewrite Q. destruct X6 as [LM RM]. apply RM. apply nth_error_nth'. lia.
Qed.
End Full.

(** A generic identifier passes. *)
Lemma full_generic : forall sp v r0 rest, v = r0 :: rest -> generic_report r0 = true ->
  exists v', mds_full_track_check sp v = Ok v' /\ writes "POS" "bad_track" (fun _ => Some 0) v v'.
Proof.
  intros sp v r0 rest Ev G. assert (Em : mds_track_check sp v = let! v := vset_list v (seq 0 (length v)) "POS" "bad_track" 0 in Ok (repeat 0 (length v), v))
    by (rewrite Ev; cbn [mds_track_check]; rewrite G; reflexivity).
  destruct (vset_list_writes "POS" "bad_track" v 0 (seq 0 (length v)) _ _ (writes_refl _ _ _)) as [v1 [E1 W1]].
  - intros i Hi. apply in_seq in Hi. lia.
  - split; [unfold att_value; simpl; lia|now left].
  - unfold mds_full_track_check. rewrite Em, E1. cbn [bind].
    assert (L1 : length v1 = length v) by apply W1. rewrite L1.
    assert (LP : (0 < length v)%nat) by (rewrite Ev; simpl; lia).
    assert (EL : full_loop sp 4 (repeat 0 (length v)) (repeat 0 (length v)) v1 = Ok (repeat 0 (length v), v1)).
    { cbn [full_loop]. unfold any_flag. destruct (length v) as [|n]; [lia|]. cbn [repeat]. replace (existsb (fun q => 0 <? q) (0 :: repeat 0 n)) with false; [reflexivity|].
      symmetry. apply not_true_iff_false. rewrite existsb_exists. intros [q [A B]]. apply (repeat_spec (S n) 0 q) in A. subst. discriminate. }
    destruct (repeat 0 (length v)) eqn:ER; [destruct (length v); [lia|discriminate]|]. rewrite <- ER in *. rewrite EL. cbn [bind]. rewrite L1.
    assert (W1' : writes "POS" "bad_track" (fun _ => Some 0) v v1).
    { eapply writes_ext; [exact W1|]. intros i Hi. cbn beta. rewrite (proj2 (memn_seq i 0 (length v))) by lia. reflexivity. }
    assert (FL : forall todo u, writes "POS" "bad_track" (fun _ => Some 0) v u -> (forall i, In i todo -> (i < length v)%nat) ->
       exists u', final_flags (repeat 0 (length v)) todo u = Ok u' /\ writes "POS" "bad_track" (fun _ => Some 0) v u').
    { induction todo as [|i todo IH]; intros u W B; cbn [final_flags]; [eauto|].
      assert (I : (i < length v)%nat) by (apply B; now left).
      assert (N : nth_error (repeat 0 (length v)) i = Some 0) by (clear -I; revert i I; induction (length v); intros i I; [lia|]; destruct i; cbn; auto; apply IHn; lia).
      rewrite (py_nth_error _ _ _ _ N). cbn [bind Z.eqb].
      destruct (vset_writes "POS" "bad_track" _ v u i 0 W I) as [u1 [E W']]; [split; [unfold att_value; simpl; lia|now left]|]. rewrite E. cbn [bind].
      apply IH; [|intros j Hj; apply B; now right]. eapply writes_ext; [exact W'|]. intros j Hj. cbn beta. destruct (Nat.eqb j i); reflexivity. }
    apply FL; [exact W1'|]. intros i Hi. apply in_seq in Hi. lia.
Qed.

(* ---- the speed limit is unique ---- *)

Lemma in_bin_compat : forall x y k, (x == y)%Q -> in_bin x k -> in_bin y k.
Proof. intros x y k E [A [B C]]. split; [exact A|]. split; [destruct B as [B|B]; [now left|right; lra]|destruct C as [C|C]; [now left|right; lra]]. Qed.
Lemma bin_count_compat : forall l l', Forall2 Qeq l l' -> forall k c, bin_count l k c -> bin_count l' k c.
Proof.
  intros l l' F. induction F as [|x y l l' E F IH]; intros k c H; inversion H; subst.
  - constructor.
  - constructor; [|auto]. eapply in_bin_compat; [|eassumption]. rewrite E. reflexivity.
  - apply bc_out; [|auto]. intro K. match goal with H : ~ _ |- _ => apply H end. eapply in_bin_compat; [|exact K]. rewrite E. reflexivity.
Qed.
Lemma bin_count_ex : forall l k, exists c, bin_count l k c.
Proof.
  induction l as [|s l IH]; intro k; [exists 0; constructor|]. destruct (IH k) as [c C].
  assert (D : in_bin (s * (539957 # 1000000)) k \/ ~ in_bin (s * (539957 # 1000000)) k).
  { set (x := (s * (539957 # 1000000))%Q). unfold in_bin.
    assert (forall a b : Q, (a <= b)%Q \/ ~ (a <= b)%Q) by (intros a b; destruct (Qlt_le_dec b a); [right; lra|now left]).
    assert (forall a b : Q, (a < b)%Q \/ ~ (a < b)%Q) by (intros a b; destruct (Qlt_le_dec a b); [now left|right; lra]).
    destruct (H (inject_Z (3 * k)) x), (H0 x (inject_Z (3 * k + 3))), (Z.eq_dec k 0), (Z.eq_dec k 11), (Z_le_dec 0 k), (Z_le_dec k 11); tauto. }
  destruct D; [exists (c + 1); now constructor|exists c; now apply bc_out].
Qed.
Lemma modal_fun : forall l l' m m', Forall2 Qeq l l' -> modal_knots l m -> modal_knots l' m' -> (m == m')%Q.
Proof.
  intros l l' m m' F [k [c [R [C [M V]]]]] [k' [c' [R' [C' [M' V']]]]].
  assert (F' : Forall2 Qeq l' l) by (eapply Forall2_impl'; [|apply Forall2_flip'; exact F]; intros x y H; now symmetry).
  pose proof (M k' c' R' (bin_count_compat _ _ F' _ _ C')) as A. pose proof (M' k c R (bin_count_compat _ _ F _ _ C)) as B.
  assert (k = k') by lia. subst k'. destruct V as [[? ?]|[? ?]], V' as [[? ?]|[? ?]]; lra.
Qed.
Lemma limit_fun : forall dist v a a', voyage_limit dist v a -> voyage_limit dist v a' -> (a == a')%Q.
Proof.
  intros dist v a a' [l [m [[L S0] [M V]]]] [l' [m' [[L' S1] [M' V']]]].
  assert (F : Forall2 Qeq l l').
  { apply Forall2_of_nth; [lia|]. intros i s H. assert (I : (i < length l)%nat) by (apply nth_error_Some; congruence).
    destruct (nth_error l' i) as [s'|] eqn:E; [|apply nth_error_None in E; lia]. exists s'. split; [reflexivity|].
    destruct (nth_error v i) as [x|] eqn:X; [|apply nth_error_None in X; lia].
    destruct (nth_error v (S i)) as [y|] eqn:Y; [|apply nth_error_None in Y; lia]. eapply speed_fun; eauto. }
  pose proof (modal_fun _ _ _ _ F M M') as E. unfold nm in *. destruct V as [[? ?]|[? ?]], V' as [[? ?]|[? ?]]; try lra; rewrite H0, H2, ?E; reflexivity.
Qed.

(* ---- from the reports given to the voyage built ---- *)

Lemma same_Forall2_data : forall l v, Forall2 same_report l v -> Forall2 data_same l v.
Proof. intros l v F. eapply Forall2_impl'; [apply same_data|exact F]. Qed.
Lemma built_head : forall sp r0 l v, Forall is_located (r0 :: l) -> add_reports sp [] (r0 :: l) = Ok v -> exists s0 rest, v = s0 :: rest /\ same_report r0 s0.
Proof.
  intros sp r0 l v A E. destruct (build_voyage_ok sp _ A) as [v' [E' [F _]]]. rewrite E in E'. injection E' as <-. inversion F; subst. eauto.
Qed.
Lemma data_buoy : forall r r', data_same r r' -> pt_buoy r' = pt_buoy r.
Proof. intros r r' K. unfold pt_buoy, getint. rewrite (data_same_var _ _ "PT" K) by (simpl; tauto). reflexivity. Qed.
Lemma data_deck : forall r r', data_same r r' -> early_deck_720 r' = early_deck_720 r.
Proof. intros r r' K. unfold early_deck_720, getint. rewrite (data_same_var _ _ "DCK" K), (data_same_var _ _ "YR" K) by (simpl; tauto). reflexivity. Qed.

Definition all_frame (trk few : string) (r r' : report) : Prop := track_same (motion_names ++ alt_names) trk few r r'.
Lemma all_frame_intro : forall trk few r s t, same_report r s -> track_same alt_names trk few s t -> all_frame trk few r t.
Proof.
  intros trk few r s t [A1 [A2 [A3 [A4 [A5 [A6 A7]]]]]] [B1 [B2 [B3 [B4 [B5 [B6 B7]]]]]]. unfold all_frame, track_same. do 5 (split; [congruence|]). split.
  - intros n H. rewrite B6 by (intro K; apply H; apply in_or_app; now right). apply A7. intro K. apply H. apply in_or_app. now left.
  - intros ty f H1 H2. rewrite B7 by auto. unfold get_qc. now rewrite A5.
Qed.

Lemma result_back : forall l v v' trk few bad x, Forall2 same_report l v -> track_result v trk few bad x v' ->
  length v' = length l /\ forall i r, nth_error l i = Some r -> exists r', nth_error v' i = Some r' /\ all_frame trk few r r' /\
    right_flag bad i (get_qc r' "POS" trk) /\ get_qc r' "POS" few = x.
Proof.
  intros l v v' trk few bad x F [L H]. split; [rewrite L; symmetry; eapply Forall2_length; eauto|].
  intros i r Hi. destruct (Forall2_nth _ _ _ _ _ F _ _ Hi) as [s [A K]]. destruct (H i s A) as [r' [B [C [D E]]]]. exists r'. split; [exact B|].
  split; [eapply all_frame_intro; eauto|auto].
Qed.

Lemma C30_full : forall sp p r0 l, well_defined sp -> Forall is_located (r0 :: l) -> in_time_order (r0 :: l) -> Forall heading_known (r0 :: l) ->
  generic_report r0 = false -> pt_buoy r0 = false -> (2 <= length l)%nat ->
  exists v v' amax, add_reports sp [] (r0 :: l) = Ok v /\ track_check sp p v = Ok v' /\ voyage_limit (sp_dist sp) (r0 :: l) amax /\ length v' = S (length l) /\
    forall i r, nth_error (r0 :: l) i = Some r -> exists r', nth_error v' i = Some r' /\ all_frame "trk" "few" r r' /\
      right_flag (off_track sp (tk_dir p) (tk_speed p) (tk_abs p) (tk_mid p) (r0 :: l) amax) i (get_qc r' "POS" "trk") /\ get_qc r' "POS" "few" = 0.
Proof.
  intros sp p r0 l WD A B C G Bu L. destruct (build_voyage_ok sp _ A) as [v [E [F _]]]. destruct (built_ready sp _ v A B C E) as [RD _].
  destruct (built_head sp r0 l v A E) as [s0 [rest [Ev K0]]]. pose proof (same_data _ _ K0) as D0. pose proof (Forall2_length _ _ _ _ _ F) as LF. cbn [length] in LF.
  destruct (track_check_full sp p v s0 rest WD RD Ev) as [v' [amax [E' [V T]]]].
  - now rewrite (data_generic _ _ D0).
  - now rewrite (data_buoy _ _ D0).
  - lia.
  - pose proof (Forall2_data_sym _ _ (same_Forall2_data _ _ F)) as FB. exists v, v', amax. split; [exact E|]. split; [exact E'|]. split; [eapply data_limit; eauto|].
    destruct (result_back _ _ _ _ _ _ _ F T) as [L' H]. split; [exact L'|]. intros i r Hi. destruct (H i r Hi) as [r' [X1 [X2 [X3 X4]]]].
    exists r'. split; [exact X1|]. split; [exact X2|]. split; [|exact X4]. destruct X3 as [[X3 X5]|[X3 X5]]; [left|right]; (split; [exact X3|]).
    + eapply data_off; eauto.
    + intro K. apply X5. eapply data_off; [|exact K]. now apply same_Forall2_data.
Qed.
Lemma C30_few : forall sp p r0 l, Forall is_located (r0 :: l) ->
  generic_report r0 = true \/ pt_buoy r0 = true \/ (length l < 2)%nat ->
  exists v v', add_reports sp [] (r0 :: l) = Ok v /\ track_check sp p v = Ok v' /\ length v' = S (length l) /\
    forall i r, nth_error (r0 :: l) i = Some r -> exists r', nth_error v' i = Some r' /\ all_frame "trk" "few" r r' /\ get_qc r' "POS" "trk" = 0 /\
      get_qc r' "POS" "few" = if generic_report r0 || pt_buoy r0 || early_deck_720 r0 then 0 else 1.
Proof.
  intros sp p r0 l A H. destruct (build_voyage_ok sp _ A) as [v [E [F _]]].
  destruct (built_head sp r0 l v A E) as [s0 [rest [Ev K0]]]. pose proof (same_data _ _ K0) as D0. pose proof (Forall2_length _ _ _ _ _ F) as LF. cbn [length] in LF.
  assert (T : exists v', track_check sp p v = Ok v' /\ track_result v "trk" "few" (fun _ => False) (if generic_report r0 || pt_buoy r0 || early_deck_720 r0 then 0 else 1) v').
  { rewrite <- (data_generic _ _ D0), <- (data_buoy _ _ D0), <- (data_deck _ _ D0) in *.
    destruct (generic_report s0) eqn:G; [cbn [orb]; eapply track_check_pass; eauto|].
    destruct (pt_buoy s0) eqn:Bu; [cbn [orb]; eapply track_check_pass; eauto|]. cbn [orb].
    eapply track_check_few; eauto. destruct H as [H|[H|H]]; try discriminate. lia. }
  destruct T as [v' [E' T]]. exists v, v'. split; [exact E|]. split; [exact E'|].
  destruct (result_back _ _ _ _ _ _ _ F T) as [L' W]. split; [exact L'|]. intros i r Hi. destruct (W i r Hi) as [r' [X1 [X2 [X3 X4]]]].
  exists r'. split; [exact X1|]. split; [exact X2|]. split; [|exact X4]. destruct X3 as [[_ []]|[X3 _]]. exact X3.
Qed.

Lemma C30_mds : forall sp r0 l, well_defined sp -> Forall is_located (r0 :: l) -> in_time_order (r0 :: l) -> Forall heading_known (r0 :: l) ->
  generic_report r0 = false -> (1 <= length l)%nat ->
  exists v v' qcs G, add_reports sp [] (r0 :: l) = Ok v /\ mds_track_check sp v = Ok (qcs, v') /\ length qcs = S (length l) /\ pass sp (r0 :: l) G /\
    (forall i q, nth_error qcs i = Some q -> (q = 1 /\ In i G) \/ (q = 0 /\ ~ In i G)) /\ ~ In O G /\ ~ In (length l) G /\
    Forall2 (all_frame "bad_track" "fewsome_check") (r0 :: l) v'.
Proof.
  intros sp r0 l WD A B C G L. destruct (build_voyage_ok sp _ A) as [v [E [F _]]]. destruct (built_ready sp _ v A B C E) as [RD _].
  destruct (built_head sp r0 l v A E) as [s0 [rest [Ev K0]]]. pose proof (same_data _ _ K0) as D0. pose proof (Forall2_length _ _ _ _ _ F) as LF. cbn [length] in LF.
  destruct (mds_ok sp v s0 rest WD RD Ev) as [qcs [v' [G1 [E1 [LQ [P1 [I1 [_ [R1 F1]]]]]]]]].
  - now rewrite (data_generic _ _ D0).
  - lia.
  - exists v, v', qcs, G1. split; [exact E|]. split; [exact E1|]. split; [congruence|].
    split; [eapply data_pass; [apply Forall2_data_sym, same_Forall2_data; exact F|exact P1]|]. split; [exact R1|].
    split; [intro K; apply I1 in K; lia|]. split; [intro K; apply I1 in K; lia|].
    apply Forall2_of_nth; [rewrite <- (Forall2_length _ _ _ _ _ F1); cbn [length]; lia|]. intros i r Hi. destruct (Forall2_nth _ _ _ _ _ F _ _ Hi) as [s [X Y]].
    destruct (Forall2_nth _ _ _ _ _ F1 _ _ X) as [t [X' Y']]. exists t. split; [exact X'|].
    eapply frame_trans; [apply frame_same; exact Y|exact Y'].
Qed.

Lemma data_picks : forall v v' keep w, Forall2 data_same v v' -> picks v keep w -> exists w', picks v' keep w' /\ Forall2 data_same w w'.
Proof.
  intros v v' keep w F P. induction P as [|i r keep w H P IH]; [exists []; split; constructor|].
  destruct IH as [w' [A B]]. destruct (Forall2_nth _ _ _ _ _ F _ _ H) as [r' [N K]]. exists (r' :: w'). split; constructor; auto.
Qed.
Lemma data_rounds : forall sp v v' k F G, Forall2 data_same v v' -> rounds sp v k F G -> rounds sp v' k F G.
Proof.
  intros sp v v' k F G D R. induction R as [G P|k F G keep w H R IH K P PW].
  - constructor. eapply data_pass; eauto.
  - destruct (data_picks _ _ _ _ D P) as [w' [P' D']]. eapply rounds_next; [exact IH| |exact P'|eapply data_pass; eauto].
    rewrite <- (Forall2_length _ _ _ _ _ D). exact K.
Qed.
Lemma C31_full : forall sp r0 l, well_defined sp -> Forall is_located (r0 :: l) -> in_time_order (r0 :: l) -> Forall heading_known (r0 :: l) ->
  generic_report r0 = false -> (1 <= length l)%nat ->
  exists v v' k F G, add_reports sp [] (r0 :: l) = Ok v /\ mds_full_track_check sp v = Ok v' /\ rounds sp (r0 :: l) k F G /\
    (1 <= k <= 5)%nat /\ (k = 5%nat \/ G = []) /\ ~ In O F /\ ~ In (length l) F /\ length v' = S (length l) /\
    forall i r, nth_error (r0 :: l) i = Some r -> exists r', nth_error v' i = Some r' /\ all_frame "bad_track" "fewsome_check" r r' /\
      ((get_qc r' "POS" "bad_track" = 1 /\ In i F) \/ (get_qc r' "POS" "bad_track" = 0 /\ ~ In i F)).
Proof.
  intros sp r0 l WD A B C G L. destruct (build_voyage_ok sp _ A) as [v [E [F _]]]. destruct (built_ready sp _ v A B C E) as [RD _].
  destruct (built_head sp r0 l v A E) as [s0 [rest [Ev K0]]]. pose proof (same_data _ _ K0) as D0. pose proof (Forall2_length _ _ _ _ _ F) as LF. cbn [length] in LF.
  destruct (full_ok sp v s0 rest WD RD Ev) as [k [F1 [G1 [v' [E1 [R1 [K1 [K2 [I1 [L1 H1]]]]]]]]]].
  - now rewrite (data_generic _ _ D0).
  - lia.
  - exists v, v', k, F1, G1. split; [exact E|]. split; [exact E1|]. split; [eapply data_rounds; [|exact R1]; apply Forall2_data_sym, same_Forall2_data; exact F|].
    split; [exact K1|]. split; [exact K2|]. split; [intro K; apply I1 in K; lia|]. split; [intro K; apply I1 in K; lia|]. split; [congruence|].
    intros i r Hi. destruct (Forall2_nth _ _ _ _ _ F _ _ Hi) as [s [X Y]]. destruct (H1 i s X) as [r' [X1 [X2 X3]]]. exists r'. split; [exact X1|]. split; [|exact X3].
    eapply frame_trans; [apply frame_same; exact Y|exact X2].
Qed.
