(** The tail check and the bias and noise check as a whole. *)
Require Import String ZArith QArith Qround List Bool Lia Lqa Permutation.
Require Import Verif.M_Base Verif.L_Base Verif.S_Stats Verif.L_Stats Verif.M_Stats Verif.M_Sun Verif.S_Sun Verif.M_Report Verif.S_Report Verif.L_Report Verif.M_Voyage Verif.S_Voyage Verif.L_Voyage Verif.S_Track Verif.M_Drifter Verif.S_Drifter
  Verif.S_Tail Verif.S_Tail2 Verif.L_Tail Verif.L_Tail2 Verif.L_Tail3.
Import ListNotations.
Open Scope string_scope.
Open Scope list_scope.
Open Scope Z_scope.

Lemma sst_accepted : forall f x, 0 <= x <= 9 -> accepted ("SST", f, x).
Proof. intros f x H. split; [exact H|]. right. cbn. tauto. Qed.
Lemma tail_keys : distinct_keys "SST" ["drf_tail1"; "drf_tail2"].
Proof. intros f g [<-|[<-|[]]] [<-|[<-|[]]] K; try reflexivity; discriminate K. Qed.

Section Whole.
Variable elev : Z -> Z -> Q -> Q -> Q -> Q -> Q.
Hypothesis He : elevation_like elev.
Variable sq : Q -> Q.
Hypothesis Hsq : forall a b, (a == b)%Q -> (sq a == sq b)%Q.

Lemma tail_flags_ok : forall p half v, timed v -> assessable v -> tail_params_ok p half ->
  exists obs v', comparisons elev (fun _ => True) v obs /\ sst_tail_check elev sq p v = Ok v' /\
    flags_are "SST" [("drf_tail1", start_tail sq p half obs); ("drf_tail2", end_tail sq p half obs)] v v'.
Proof.
  intros p half v T A [P1 [P2 [P3 [P4 [P5 [P6 [P7 P8]]]]]]].
  destruct (comparisons_ok elev He (fun _ => false) (fun _ => True) (fun b => conj (fun _ => I) (fun _ => eq_refl)) v T A) as [obs [E C]]. exists obs.
  unfold sst_tail_check. rewrite (proj2 (Z.leb_le 1 (tl_long p))) by lia.
  assert (X : negb (tl_long p mod 2 =? 0) = true) by (rewrite P1, Z.add_comm, Z.mul_comm, Z_mod_plus_full; reflexivity).
  rewrite X, (proj2 (Qleb_true _ _) P4), (proj2 (Z.leb_le _ _) P2), (proj2 (Qleb_true _ _) P5), (proj2 (Z.leb_le _ _) P3), (proj2 (Qleb_true _ _) P6), (proj2 (Qleb_true _ _) P7), (proj2 (Qleb_true _ _) P8). cbn [py_assert bind].
  rewrite E. cbn [bind].
  destruct (flag_holds "SST" ["drf_tail1"; "drf_tail2"] "drf_tail1" 0 (fun _ => true) _ v v (holds_start _ _ v) ltac:(cbn; tauto) tail_keys (sst_accepted _ 0 ltac:(lia))) as [v1 [E1 H1]].
  rewrite (set_all_some _ _ _ _ 0), E1. cbn [bind].
  destruct (flag_holds "SST" ["drf_tail1"; "drf_tail2"] "drf_tail2" 0 (fun _ => true) _ v v1 H1 ltac:(cbn; tauto) tail_keys (sst_accepted _ 0 ltac:(lia))) as [v2 [E2 H2]].
  rewrite (set_all_some _ _ _ _ 0), E2. cbn [bind]. clear H1 E1.
  destruct obs as [|o0 obs0] eqn:EO.
  { exists v2. split; [exact C|]. split; [reflexivity|]. eapply holds_flags; [exact H2|]. intros f bad [K|[K|[]]] i Hi; injection K as <- <-; right; (split; [reflexivity|]);
      intros [a [b [_ [_ [x [K _]]]]]]; cbn [length Nat.sub] in K; rewrite ?nth_error_nil in K; destruct (a - 1)%nat; discriminate K. }
  rewrite <- EO in *. assert (N : (0 < length (map snd obs))%nat) by (rewrite EO; cbn; lia).
  destruct (all_tails_ok sq Hsq p half P1 P2 (map snd obs) N) as [start [finish [ET TS]]].
  assert (M1 : map (fun x => fst (snd x)) obs = map fst (map snd obs)) by (now rewrite map_map).
  assert (M2 : map (fun x => sq (snd (snd x))) obs = errs sq (map snd obs)) by (unfold errs; now rewrite map_map).
  rewrite M1, M2. destruct (long_tails sq p (map fst (map snd obs)) (errs sq (map snd obs))) as [s f].
  destruct (short_tails sq p (map fst (map snd obs)) (errs sq (map snd obs)) s f) as [[s' f']|e]; [|discriminate]. cbn [bind] in ET |- *.
  rewrite map_length in ET. injection ET as ET. rewrite ET.
  rewrite map_length in TS.
  assert (RI : forall k, (k < length obs)%nat -> exists x, nth_error obs k = Some x /\ py_nth (map fst obs) (Z.of_nat k) = Ok (fst x)).
  { intros k K. destruct (nth_error obs k) as [x|] eqn:Ex; [|apply nth_error_None in Ex; lia]. exists x. split; [reflexivity|]. apply py_nth_nonneg; [|lia]. rewrite Nat2Z.id. now apply map_nth_error. }
  destruct TS as [[a [b [TT [-> [-> AB]]]]]|[NT [-> ->]]].
  - (* first flag *)
    assert (F1 : exists v3, (if Z.of_nat a - 1 =? -1 then Ok v2 else let! k := py_nth (map fst obs) (Z.of_nat a - 1) in flag_where (fun i => (i <=? k)%nat) "drf_tail1" 0 v2) = Ok v3 /\
       exists g, holds "SST" ["drf_tail1"; "drf_tail2"] g v v3 /\ (forall i, (g "drf_tail1" i = 1 /\ start_tail sq p half obs i) \/ (g "drf_tail1" i = 0 /\ ~ start_tail sq p half obs i)) /\ (forall i, g "drf_tail2" i = 0)).
    { destruct (Z.of_nat a - 1 =? -1) eqn:Q.
      - exists v2. split; [reflexivity|]. eexists. split; [exact H2|]. split; [|reflexivity]. intro i. right. split; [reflexivity|].
        intros [a' [b' [TT' [L _]]]]. destruct (tails_fun _ _ _ _ _ _ _ _ _ TT TT'). lia.
      - destruct (RI (a - 1)%nat ltac:(lia)) as [x [Nx Px]]. replace (Z.of_nat a - 1) with (Z.of_nat (a - 1)) by lia. rewrite Px. cbn [bind]. rewrite flag_where_some.
        destruct (flag_holds "SST" _ "drf_tail1" 1 (fun i => (i <=? fst x)%nat) _ v v2 H2 ltac:(cbn; tauto) tail_keys (sst_accepted _ 1 ltac:(lia))) as [v3 [E3 H3]].
        exists v3. split; [exact E3|]. eexists. split; [exact H3|]. cbv beta. change (String.eqb "drf_tail1" "drf_tail1") with true. change (String.eqb "drf_tail2" "drf_tail1") with false. cbv iota.
        split; [|reflexivity]. intro i. destruct (Nat.leb_spec i (fst x)) as [L|L]; [left|right]; (split; [reflexivity|]).
        + exists a, b. split; [exact TT|]. split; [lia|]. exists x. auto.
        + intros [a' [b' [TT' [L' [x' [Nx' Lx]]]]]]. destruct (tails_fun _ _ _ _ _ _ _ _ _ TT TT') as [<- <-]. rewrite Nx in Nx'. injection Nx' as <-. lia. }
    destruct F1 as [v3 [E3 [g [H3 [G1 G2]]]]]. rewrite E3. cbn [bind].
    assert (BE : forall x, nth_error obs (length obs - b) = Some x -> (0 < b)%nat -> forall i, end_tail sq p half obs i <-> (fst x <= i)%nat).
    { intros x Nx L i. split.
      - intros [a' [b' [TT' [_ [x' [Nx' Lx]]]]]]. destruct (tails_fun _ _ _ _ _ _ _ _ _ TT TT') as [<- <-]. rewrite Nx in Nx'. injection Nx' as <-. exact Lx.
      - intro K. exists a, b. split; [exact TT|]. split; [exact L|]. exists x. auto. }
    destruct (Z.of_nat (length obs) - Z.of_nat b =? Z.of_nat (length obs)) eqn:Q.
    + exists v3. split; [exact C|]. split; [reflexivity|]. eapply holds_flags; [exact H3|]. intros f0 bad [K|[K|[]]] i Hi; injection K as <- <-; [apply G1|].
      right. split; [apply G2|]. intros [a' [b' [TT' [L _]]]]. destruct (tails_fun _ _ _ _ _ _ _ _ _ TT TT'). lia.
    + destruct (RI (length obs - b)%nat ltac:(lia)) as [x [Nx Px]]. replace (Z.of_nat (length obs) - Z.of_nat b) with (Z.of_nat (length obs - b)) by lia. rewrite Px. cbn [bind]. rewrite flag_where_some.
      destruct (flag_holds "SST" _ "drf_tail2" 1 (fun i => (fst x <=? i)%nat) _ v v3 H3 ltac:(cbn; tauto) tail_keys (sst_accepted _ 1 ltac:(lia))) as [v4 [E4 H4]].
      exists v4. split; [exact C|]. split; [exact E4|]. eapply holds_flags; [exact H4|]. cbv beta.
      intros f0 bad [K|[K|[]]] i Hi; injection K as <- <-; [change (String.eqb "drf_tail1" "drf_tail2") with false; apply G1|].
      change (String.eqb "drf_tail2" "drf_tail2") with true. cbv iota. rewrite (BE x Nx ltac:(lia) i). destruct (Nat.leb_spec (fst x) i) as [L|L]; [left|right]; (split; [auto|lia]).
  - rewrite Z.eqb_refl. cbn [bind]. rewrite Z.eqb_refl. exists v2. split; [exact C|]. split; [reflexivity|]. eapply holds_flags; [exact H2|].
    intros f0 bad [K|[K|[]]] i Hi; injection K as <- <-; right; (split; [reflexivity|]); intros [a [b [TT _]]]; exact (NT _ _ TT).
Qed.

(* ---- bias and noise ---- *)
Definition bias_flags : list string := ["drf_bias"; "drf_noise"; "drf_short"].
Lemma bias_keys : distinct_keys "SST" bias_flags.
Proof. intros f g [<-|[<-|[<-|[]]]] [<-|[<-|[<-|[]]]] K; try reflexivity; discriminate K. Qed.

Lemma bias_flags_ok : forall p v, timed v -> assessable v -> bias_params_ok p ->
  exists obs v', comparisons elev (fun b => b <= bs_bg p)%Q v obs /\ sst_biased_noisy_check elev sq p v = Ok v' /\
    flags_are "SST" [("drf_bias", fun _ => record_biased p obs); ("drf_noise", fun _ => record_noisy sq p obs); ("drf_short", fun _ => record_short sq p v obs)] v v'.
Proof.
  intros p v T A [P1 [P2 [P3 [P4 [P5 [P6 P7]]]]]]. set (masked := fun b => match b with Some x => Qltb (bs_bg p) x | None => false end).
  destruct (comparisons_ok elev He masked (fun b => b <= bs_bg p)%Q (fun b => Qltb_false (bs_bg p) b) v T A) as [obs [E C]]. exists obs.
  unfold sst_biased_noisy_check. rewrite (proj2 (Z.ltb_lt _ _) P1), (proj2 (Qleb_true _ _) P3), (proj2 (Qleb_true _ _) P4), (proj2 (Qleb_true _ _) P5), (proj2 (Qleb_true _ _) P6), (proj2 (Z.leb_le _ _) P2), (proj2 (Qleb_true _ _) P7). cbn [py_assert bind].
  fold masked. rewrite E. cbn [bind].
  destruct (flag_holds "SST" bias_flags "drf_bias" 0 (fun _ => true) _ v v (holds_start _ _ v) ltac:(cbn; tauto) bias_keys (sst_accepted _ 0 ltac:(lia))) as [v1 [E1 H1]].
  rewrite (set_all_some _ _ _ _ 0), E1. cbn [bind].
  destruct (flag_holds "SST" bias_flags "drf_noise" 0 (fun _ => true) _ v v1 H1 ltac:(cbn; tauto) bias_keys (sst_accepted _ 0 ltac:(lia))) as [v2 [E2 H2]].
  rewrite (set_all_some _ _ _ _ 0), E2. cbn [bind].
  destruct (flag_holds "SST" bias_flags "drf_short" 0 (fun _ => true) _ v v2 H2 ltac:(cbn; tauto) bias_keys (sst_accepted _ 0 ltac:(lia))) as [v3 [E3 H3]].
  rewrite (set_all_some _ _ _ _ 0), E3. cbn [bind]. clear H1 H2 E1 E2.
  assert (HM : existsb (fun r => match getext r "BGVAR" with Ok b => masked b | Err _ => false end) v = false <-> (forall r b, In r v -> getext r "BGVAR" = Ok (Some b) -> (b <= bs_bg p)%Q)).
  { split.
    - intros H r b I B. apply Qltb_false. destruct (Qltb (bs_bg p) b) eqn:Q; [|reflexivity]. assert (existsb (fun r => match getext r "BGVAR" with Ok b => masked b | Err _ => false end) v = true) by (apply existsb_exists; exists r; rewrite B; auto). congruence.
    - intro H. destruct (existsb _ v) eqn:Q; [|reflexivity]. apply existsb_exists in Q. destruct Q as [r [I B]]. destruct (getext r "BGVAR") as [[b|]|] eqn:G; try discriminate. specialize (H r b I G). unfold masked in B. qprop. lra. }
  destruct obs as [|o0 obs0] eqn:EO.
  { exists v3. split; [exact C|]. split; [reflexivity|]. eapply holds_flags; [exact H3|].
    intros f bad [K|[K|[K|[]]]] i Hi; injection K as <- <-; right; (split; [reflexivity|]); [intros [K _]|intros [K _]|intros [_ [_ K]]; unfold many_suspicious in K]; cbn in K; lia. }
  rewrite <- EO in *. assert (N : map fst (map snd obs) <> []) by (rewrite EO; discriminate). assert (N' : errs sq (map snd obs) <> []) by (rewrite EO; discriminate).
  assert (N3 : map (fun e => e * e)%Q (errs sq (map snd obs)) <> []) by (rewrite EO; discriminate).
  assert (M1 : map (fun x => fst (snd x)) obs = map fst (map snd obs)) by (now rewrite map_map).
  assert (M2 : map (fun x => sq (snd (snd x))) obs = errs sq (map snd obs)) by (unfold errs; now rewrite map_map).
  rewrite M1, M2. destruct (bs_eval p <=? Z.of_nat (length obs)) eqn:Q.
  - assert (NS : ~ record_short sq p v obs) by (intros [K _]; lia).
    assert (B1 : Qltb (bs_lim p) (Qabs' (num (np_mean (map fst (map snd obs))))) = true <-> record_biased p obs).
    { rewrite Qltb_true, (abs_compat _ _ (mean_num _ N)). unfold record_biased. split; [intro; split; [lia|assumption]|tauto]. }
    assert (B2 : Qltb (sq (bs_intra p * bs_intra p + sq (num (np_mean (map (fun e => e * e)%Q (errs sq (map snd obs))))) * sq (num (np_mean (map (fun e => e * e)%Q (errs sq (map snd obs)))))))%Q (sq (num (np_var (map fst (map snd obs))))) = true <-> record_noisy sq p obs).
    { destruct (np_var_total _ N) as [x X]. destruct (np_var_fin _ _ X) as [_ X']. rewrite X. cbn [num]. rewrite Qltb_true, (Hsq _ _ X'). unfold record_noisy. cbv zeta.
      set (r := sq (num (np_mean (map (fun e => e * e)%Q (errs sq (map snd obs)))))). set (r' := sq (meanQ (map (fun e => e * e)%Q (errs sq (map snd obs))))).
      assert (ER : (r == r')%Q) by (apply Hsq, mean_num, N3). assert (EE : (sq (bs_intra p * bs_intra p + r * r) == sq (bs_intra p * bs_intra p + r' * r'))%Q) by (apply Hsq; rewrite ER; reflexivity).
      rewrite EE. split; [intro; split; [lia|assumption]|tauto]. }
    assert (F1 : exists v4, (if Qltb (bs_lim p) (Qabs' (num (np_mean (map fst (map snd obs))))) then set_qc_all v3 "SST" "drf_bias" 1 else Ok v3) = Ok v4 /\
       exists g, holds "SST" bias_flags g v v4 /\ (forall i, (g "drf_bias" i = 1 /\ record_biased p obs) \/ (g "drf_bias" i = 0 /\ ~ record_biased p obs)) /\ (forall i, g "drf_noise" i = 0) /\ (forall i, g "drf_short" i = 0)).
    { destruct (Qltb (bs_lim p) (Qabs' (num (np_mean (map fst (map snd obs)))))) eqn:Q1.
      - destruct (flag_holds "SST" bias_flags "drf_bias" 1 (fun _ => true) _ v v3 H3 ltac:(cbn; tauto) bias_keys (sst_accepted _ 1 ltac:(lia))) as [v4 [E4 H4]].
        rewrite (set_all_some _ _ _ _ 0). exists v4. split; [exact E4|]. eexists. split; [exact H4|]. split; [|split; reflexivity]. intro i. left. split; [reflexivity|now apply B1].
      - exists v3. split; [reflexivity|]. eexists. split; [exact H3|]. split; [|split; reflexivity]. intro i. right. split; [reflexivity|]. intro K. apply B1 in K. congruence. }
    destruct F1 as [v4 [E4 [g [H4 [G1 [G2 G3]]]]]]. rewrite E4. cbn [bind].
    destruct (Qltb (sq _) (sq (num (np_var (map fst (map snd obs)))))) eqn:Q2.
    + destruct (flag_holds "SST" bias_flags "drf_noise" 1 (fun _ => true) _ v v4 H4 ltac:(cbn; tauto) bias_keys (sst_accepted _ 1 ltac:(lia))) as [v5 [E5 H5]].
      rewrite (set_all_some _ _ _ _ 0). exists v5. split; [exact C|]. split; [exact E5|]. eapply holds_flags; [exact H5|].
      intros f bad [K|[K|[K|[]]]] i Hi; injection K as <- <-.
      * change (String.eqb "drf_bias" "drf_noise") with false. apply G1.
      * left. split; [reflexivity|now apply B2].
      * right. split; [apply G3|exact NS].
    + exists v4. split; [exact C|]. split; [reflexivity|]. eapply holds_flags; [exact H4|]. intros f bad [K|[K|[K|[]]]] i Hi; injection K as <- <-.
      * apply G1.
      * right. split; [apply G2|]. intro K. apply B2 in K. congruence.
      * right. split; [apply G3|exact NS].
  - assert (NB : ~ record_biased p obs) by (intros [K _]; lia). assert (NN : ~ record_noisy sq p obs) by (intros [K _]; lia).
    destruct (existsb _ v) eqn:QM.
    + exists v3. split; [exact C|]. split; [reflexivity|]. eapply holds_flags; [exact H3|]. intros f bad [K|[K|[K|[]]]] i Hi; injection K as <- <-; right; (split; [reflexivity|]); auto.
      intros [_ [K _]]. apply HM in K. discriminate K.
    + pose proof (proj1 HM eq_refl) as KM. pose proof (count_exceeds_iff sq (bs_n p) (bs_inter p) (bs_intra p) (bs_bad p) (map snd obs)) as CE.
      destruct (bs_bad p <=? count_exceeds sq (bs_n p) (bs_inter p) (bs_intra p) (map fst (map snd obs)) (errs sq (map snd obs))) eqn:QB.
      * destruct (flag_holds "SST" bias_flags "drf_short" 1 (fun _ => true) _ v v3 H3 ltac:(cbn; tauto) bias_keys (sst_accepted _ 1 ltac:(lia))) as [v5 [E5 H5]].
        rewrite (set_all_some _ _ _ _ 0). exists v5. split; [exact C|]. split; [exact E5|]. eapply holds_flags; [exact H5|].
        intros f bad [K|[K|[K|[]]]] i Hi; injection K as <- <-; [right; split; [reflexivity|exact NB]|right; split; [reflexivity|exact NN]|].
        left. split; [reflexivity|]. split; [lia|]. split; [exact KM|]. now apply CE.
      * exists v3. split; [exact C|]. split; [reflexivity|]. eapply holds_flags; [exact H3|]. intros f bad [K|[K|[K|[]]]] i Hi; injection K as <- <-; right; (split; [reflexivity|]); auto.
        intros [_ [_ K]]. apply CE in K. discriminate K.
Qed.
End Whole.
