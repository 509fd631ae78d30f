(** C77: the averages of the buddy check and its flag in double precision. *)
Require Import ZArith QArith Reals Lra Lia Bool List Permutation.
From Flocq Require Import Core.Core IEEE754.BinarySingleNaN.
Require Import Verif.M_Base Verif.M_Float Verif.S_Float Verif.S_Float2 Verif.L_Float Verif.L_Float6 Verif.M_Float5 Verif.L_Float9.
Import ListNotations.
Open Scope R_scope.

(** The doubles of a cell stand for the anomalies of its reports: at least one, none beyond M. *)
Definition occupied (M : R) (xs : list fl) (c : list R) : Prop := are xs c /\ c <> [] /\ forall a, In a c -> Rabs a <= M.
Definition tiny : R := 4 / 10000000000000000.

(** A sum of up to a million doubles of at most M, whatever the order and the bracketing, is off by at most n^2 M 4e-16. *)
Theorem C77_sum : forall M t c, 1 <= M <= 10000 -> are (terms t) c -> (Z.of_nat (length c) <= 1000000)%Z -> (forall a, In a c -> Rabs a <= M) ->
  exists s, is_double (fsum t) s /\ Rabs (s - total c) <= INR (length c) * INR (length c) * M * tiny.
Proof.
  intros M t c HM F L Q. pose proof u_pos as U. destruct c as [|a0 c'] eqn:Ec.
  - destruct (fsum_ok 1 M ltac:(lra) ltac:(lia)) with (t := t) (c := @nil R) as [s [I [Z _]]]; try assumption; [cbn [INR]; lra|cbn [INR]; lra|cbn; lia|]. exists s. split; [exact I|]. rewrite (Z eq_refl). cbn. rewrite Rminus_0_r, Rabs_R0. lra.
  - rewrite <- Ec in *. set (n := length c) in *. assert (N1 : (1 <= n)%nat) by (unfold n; subst c; cbn; lia). assert (P1 : 1 <= INR n) by (apply (le_INR 1); lia). assert (P2 : INR n <= 1000000) by (rewrite INR_IZR_INZ; apply IZR_le; exact L).
    destruct (fsum_ok n M ltac:(lra) N1) with (t := t) (c := c) as [s [I [_ E]]]; try assumption; [apply Rle_trans with (1000000 * 10000); [apply Rmult_le_compat; lra|lra]|unfold n; lia|].
    exists s. split; [exact I|]. eapply Rle_trans; [exact E|]. fold n. replace (INR n * INR n * M * tiny) with (INR n * (INR n * M * tiny)) by ring.
    assert (W : 0 <= INR n * M) by (apply Rmult_le_pos; lra). apply Rmult_le_compat; [apply pos_INR|apply Rmult_le_pos; lra|apply le_INR; lia|].
    replace (3 * (INR n * M) * u) with (INR n * M * (3 * u)) by ring. apply Rmult_le_compat_l; [exact W|unfold tiny; lra].
Qed.
Print Assumptions C77_sum.
(** Numbers of observations are added without an error, and so select the same multiplier. *)
Theorem C77_count : forall t c, Forall2 (fun x n => is_double x (IZR n) /\ (0 <= n)%Z) (terms t) c -> (fold_right Z.add 0%Z c <= 2 ^ 53)%Z ->
  is_double (fsum t) (IZR (fold_right Z.add 0%Z c)).
Proof. exact fsum_whole. Qed.
Print Assumptions C77_count.
(** The average of a cell. *)
Theorem C77_cell : forall M xs c, 1 <= M <= 10000 -> occupied M xs c -> (Z.of_nat (length c) <= 1000000)%Z ->
  exists s, is_double (fcell_mean xs) s /\ Rabs (s - mean c) <= (INR (length c) + 1) * M * tiny.
Proof.
  intros M xs c HM [F [NE Q]] L. pose proof u_pos as U. destruct (fcell_ok M xs c HM F NE L Q) as [s [I E]]. exists s. split; [exact I|]. eapply Rle_trans; [exact E|].
  replace ((INR (length c) + 1) * (3 * M * u)) with ((INR (length c) + 1) * M * (3 * u)) by ring. apply Rmult_le_compat_l; [|unfold tiny; lra]. apply Rmult_le_pos; [pose proof (pos_INR (length c)); lra|lra].
Qed.
Print Assumptions C77_cell.

Lemma cells_ok : forall M N, 1 <= M <= 10000 -> (Z.of_nat N <= 1000000)%Z -> forall cells nums, Forall2 (occupied M) cells nums -> (length (concat nums) <= N)%nat ->
  exists c, are (map fcell_mean cells) c /\ length c = length nums /\ Forall2 (fun a b => Rabs (a - b) <= (INR N + 1) * (3 * M * u)) c (map mean nums) /\ (length nums <= length (concat nums))%nat.
Proof.
  intros M N HM HN cells nums F. pose proof u_pos as U. induction F as [|xs c cells nums [A [NE Q]] F IH]; cbn [concat map length]; intro L.
  - exists []. repeat split; constructor.
  - rewrite app_length in *. destruct IH as [d [D [E [G K]]]]; [lia|]. destruct (fcell_ok M xs c HM A NE ltac:(lia) Q) as [s [I B]]. exists (s :: d).
    split; [apply Forall2_cons; assumption|]. split; [cbn; congruence|]. split; [|destruct c; [easy|cbn [length]; lia]]. apply Forall2_cons; [|exact G]. eapply Rle_trans; [exact B|]. apply Rmult_le_compat_r; [apply Rmult_le_pos; lra|]. apply Rplus_le_compat_r, le_INR. lia.
Qed.
Lemma mean_close : forall e a b, a <> [] -> Forall2 (fun x y => Rabs (x - y) <= e) a b -> Rabs (mean a - mean b) <= e.
Proof.
  intros e a b NE F. assert (L : length a = length b) by (clear NE; induction F; cbn; congruence). pose proof (total_close e a b F) as T. unfold mean. rewrite <- L.
  assert (P : 0 < INR (length a)) by (apply (lt_INR 0); destruct a; [easy|cbn; lia]). replace (total a / INR (length a) - total b / INR (length a)) with ((total a - total b) * / INR (length a)) by (field; lra).
  rewrite Rabs_mult, (Rabs_pos_eq (/ _)) by (apply Rlt_le, Rinv_0_lt_compat; exact P). apply Rmult_le_reg_r with (INR (length a)); [exact P|]. rewrite Rmult_assoc, Rinv_l by lra. lra.
Qed.
Lemma mean_perm : forall a b, Permutation a b -> mean a = mean b.
Proof. intros a b P. unfold mean. now rewrite (total_perm _ _ P), (Permutation_length P). Qed.

(** The average of the neighbouring cells, each with the average of its reports, added in any order: N reports in all. *)
Theorem C77_buddy : forall M t cells nums, 1 <= M <= 1000 -> Forall2 (occupied M) cells nums -> cells <> [] -> (Z.of_nat (length (concat nums)) <= 1000000)%Z ->
  Permutation (terms t) (map fcell_mean cells) ->
  exists b, is_double (fmean t) b /\ Rabs (b - mean (map mean nums)) <= (INR (length (concat nums)) + 1) * M * (3 * tiny).
Proof.
  intros M t cells nums HM F NE L P. pose proof u_pos as U. set (N := length (concat nums)) in *.
  destruct (cells_ok M N ltac:(lra) L cells nums F (le_n _)) as [c [A [LC [G K]]]]. fold N in K.
  destruct (are_perm _ _ P c A) as [d [D PD]]. assert (LN : (1 <= length nums)%nat) by (destruct F; [easy|cbn; lia]).
  assert (NN : 1 <= INR N <= 1000000). { split; [apply (le_INR 1); lia|rewrite INR_IZR_INZ; apply IZR_le; exact L]. }
  assert (CE : c <> []) by (destruct c; [cbn in LC; lia|easy]). assert (LD : length d = length nums) by (rewrite (Permutation_length PD); exact LC).
  set (e := (INR N + 1) * (3 * M * u)) in *. assert (E1 : e <= M / 1000). { unfold e. apply Rle_trans with (1000001 * (3 * M * (12 / 100000000000000000))); [|lra]. apply Rmult_le_compat; try lra; [apply Rmult_le_pos; lra|]. apply Rmult_le_compat; lra. }
  assert (QN : forall a, In a (map mean nums) -> Rabs a <= M).
  { intros a H. apply in_map_iff in H. destruct H as [l [<- H]]. clear - F H. induction F as [|xs c0 cs ns [_ [X Y]] F IH]; [easy|]. destruct H as [->|H]; [now apply mean_bound|auto]. }
  assert (QC : forall a, In a c -> Rabs a <= 2 * M).
  { intros a H. clear - G H E1 QN HM. revert QN. induction G as [|x y c ms B G IH]; intros QN; [easy|]. destruct H as [->|H]; [|apply IH; [exact H|intros; apply QN; now right]].
    pose proof (QN y (or_introl eq_refl)). replace a with ((a - y) + y) by ring. eapply Rle_trans; [apply Rabs_triang|]. lra. }
  destruct (fmean_ok (2 * M) t d (length (terms t)) ltac:(lra) D (are_length _ _ D)) as [s [I B]].
  { intros ->. cbn in LD. lia. } { rewrite (are_length _ _ D). lia. } { intros a H. apply QC. eapply Permutation_in; eassumption. }
  exists s. split; [exact I|]. rewrite (mean_perm _ _ PD) in B. pose proof (mean_close e c (map mean nums) CE G) as C.
  replace (s - mean (map mean nums)) with ((s - mean c) + (mean c - mean (map mean nums))) by ring. eapply Rle_trans; [apply Rabs_triang|].
  assert (KL : INR (length d) <= INR N) by (apply le_INR; lia). assert (KD : (INR (length d) + 1) * (3 * (2 * M) * u) <= (INR N + 1) * (3 * (2 * M) * u)) by (apply Rmult_le_compat_r; [apply Rmult_le_pos; lra|lra]).
  unfold e in C. assert (W : 0 <= (INR N + 1) * M) by (apply Rmult_le_pos; lra). assert (V : (INR N + 1) * M * (9 * u) <= (INR N + 1) * M * (3 * tiny)) by (apply Rmult_le_compat_l; [exact W|unfold tiny; lra]). lra.
Qed.
Print Assumptions C77_buddy.
(** The flag: beyond the limit by more than the margin it is set, short of the limit by more than the margin it is not. *)
Theorem C77_flag : forall M t cells nums x a multiplier m stdev sd, 1 <= M <= 1000 -> Forall2 (occupied M) cells nums -> cells <> [] -> (Z.of_nat (length (concat nums)) <= 1000000)%Z ->
  Permutation (terms t) (map fcell_mean cells) -> is_double x a -> Rabs a <= M -> is_double multiplier m -> is_double stdev sd -> 0 <= m * sd <= 1000 ->
  let margin := (INR (length (concat nums)) + 400) * M * (4 * tiny) in
  (m * sd + margin <= Rabs (a - mean (map mean nums)) -> fbuddy_flag x (fmean t) multiplier stdev = 1%Z) /\
  (Rabs (a - mean (map mean nums)) + margin <= m * sd -> fbuddy_flag x (fmean t) multiplier stdev = 0%Z).
Proof.
  intros M t cells nums x a ml m st sd HM F NE L P X A I1 I2 B. pose proof u_pos as U. destruct (C77_buddy M t cells nums HM F NE L P) as [b [Ib Eb]]. set (N := length (concat nums)) in *. set (mm := mean (map mean nums)) in *.
  assert (MB : Rabs mm <= M).
  { unfold mm. apply mean_bound; [destruct F; [easy|discriminate]|]. intros y H. apply in_map_iff in H. destruct H as [l [<- H]]. clear - F H. induction F as [|xs c0 cs ns [_ [X Y]] F IH]; [easy|]. destruct H as [->|H]; [now apply mean_bound|auto]. }
  assert (NN : 0 <= INR N <= 1000000) by (split; [apply pos_INR|rewrite INR_IZR_INZ; apply IZR_le; exact L]).
  assert (EM : (INR N + 1) * M * (3 * tiny) <= M). { apply Rle_trans with (1000001 * M * (3 * tiny)); [|unfold tiny; lra]. apply Rmult_le_compat_r; [unfold tiny; lra|]. apply Rmult_le_compat_r; lra. }
  assert (AB : Rabs (a - b) <= 3 * M). { replace (a - b) with (a - mm - (b - mm)) by ring. apply Rabs_le_inv in A, MB, Eb. apply Rabs_le. lra. }
  pose proof (is_sub _ _ _ _ X Ib ltac:(apply small_big; lra)) as S1. apply is_abs in S1. assert (MSA : Rabs (m * sd) <= 1000) by (rewrite Rabs_pos_eq; lra).
  pose proof (is_mul _ _ _ _ I1 I2 ltac:(apply small_big; lra)) as S2.
  pose proof (err_le _ _ AB ltac:(lra)) as R1. pose proof (err_le _ _ MSA ltac:(lra)) as R2.
  assert (D : Rabs (rnd (a - b) - (a - mm)) <= (1 + 1 / 1000) * (3 * M) * u + (INR N + 1) * M * (3 * tiny)).
  { replace (rnd (a - b) - (a - mm)) with ((rnd (a - b) - (a - b)) + - (b - mm)) by ring. eapply Rle_trans; [apply Rabs_triang|]. rewrite Rabs_Ropp. lra. }
  assert (D2 : Rabs (Rabs (rnd (a - b)) - Rabs (a - mm)) <= (1 + 1 / 1000) * (3 * M) * u + (INR N + 1) * M * (3 * tiny)) by (eapply Rle_trans; [apply Rabs_triang_inv2|exact D]).
  assert (MG : (1 + 1 / 1000) * (3 * M) * u + (INR N + 1) * M * (3 * tiny) + (1 + 1 / 1000) * 1000 * u < (INR N + 400) * M * (4 * tiny)).
  { assert (M * u <= M * (tiny / 3)) by (apply Rmult_le_compat_l; [lra|unfold tiny; lra]). assert (u <= M * (tiny / 3)) by (apply Rle_trans with (1 * (tiny / 3)); [unfold tiny; lra|apply Rmult_le_compat_r; [unfold tiny; lra|lra]]).
    assert (0 <= INR N * M * tiny) by (apply Rmult_le_pos; [apply Rmult_le_pos; lra|unfold tiny; lra]). assert (0 < M * tiny) by (apply Rmult_lt_0_compat; [lra|unfold tiny; lra]). lra. }
  intro margin. unfold fbuddy_flag. rewrite (fle_is _ _ _ _ S2 S1). apply Rabs_le_inv in R2, D2. unfold margin. split; intro H.
  - rewrite Rle_bool_true; [reflexivity|lra].
  - rewrite Rle_bool_false; [reflexivity|lra].
Qed.
Print Assumptions C77_flag.
(** Within the margin the order of the reports may decide: with anomalies of 0.1, 0.2 and 0.3, taken in two orders, an anomaly of 0 and a limit
    of 0.2 get different flags. *)
Theorem C77_order_refuted : exists xs ys x multiplier stdev, Permutation xs ys /\
  fbuddy_flag x (fmean (term (fcell_mean xs))) multiplier stdev <> fbuddy_flag x (fmean (term (fcell_mean ys))) multiplier stdev.
Proof.
  exists [fq (1 # 10); fq (2 # 10); fq (3 # 10)], [fq (3 # 10); fq (2 # 10); fq (1 # 10)], (fz 0), (fz 1), (fq (2 # 10)). split.
  - apply Permutation_rev.
  - vm_compute. discriminate.
Qed.
Print Assumptions C77_order_refuted.

(* ---- a case: two cells with anomalies 1, 2, 3 and 4, whose average is 3; an anomaly of 8 and a limit of 4 ---- *)
Example C77_ex :
  let cells := [[fz 1; fz 2; fz 3]; [fz 4]] in
  let t := plus (term (fcell_mean [fz 4])) (plus nothing (term (fcell_mean [fz 1; fz 2; fz 3]))) in
  Forall2 (occupied 4) cells [[1; 2; 3]; [4]] /\ Permutation (terms t) (map fcell_mean cells) /\ fbuddy_flag (fz 8) (fmean t) (fz 4) (fz 1) = 1%Z /\ fbuddy_flag (fz 6) (fmean t) (fz 4) (fz 1) = 0%Z.
Proof.
  cbv zeta. split; [|split; [|split; vm_compute; reflexivity]].
  - assert (O : forall k, (1 <= k <= 4)%Z -> is_double (fz k) (IZR k)) by (intros; apply is_fz; lia).
    assert (A : forall k, (1 <= k <= 4)%Z -> Rabs (IZR k) <= 4) by (intros; rewrite Rabs_pos_eq; apply IZR_le; lia).
    apply Forall2_cons; [|apply Forall2_cons; [|constructor]].
    + split; [|split; [discriminate|]].
      * apply Forall2_cons; [apply O; lia|apply Forall2_cons; [apply O; lia|apply Forall2_cons; [apply O; lia|constructor]]].
      * intros a [<-|[<-|[<-|[]]]]; apply A; lia.
    + split; [apply Forall2_cons; [apply O; lia|constructor]|]. split; [discriminate|]. intros a [<-|[]]; apply A; lia.
  - cbn [terms app map]. apply perm_swap.
Qed.
