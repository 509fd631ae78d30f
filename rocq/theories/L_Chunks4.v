(** Successive runs of the tracking wrapper. *)
Require Import String ZArith List Bool Lia Sorting.Sorted.
Require Import ZifyBool.
Require Import Verif.M_Base Verif.L_Base Verif.M_Calendar Verif.S_Calendar Verif.M_Chunks Verif.S_Chunks Verif.L_Chunks Verif.L_Chunks2 Verif.L_Chunks3.
Import ListNotations.
Open Scope Z_scope.

(** The run over months first..last submits a job for identifier [id] and months [s]..[e]. *)
Definition submitted (fuel : nat) (ids : Z * Z -> list string) (mode : string) (gap : Z) (first last : Z * Z) (id : string) (s e : Z) : Prop :=
  exists jobs it, wrapper fuel ids mode gap (fst first) (snd first) (fst last) (snd last) = Ok (Some jobs) /\
    In (id, it) jobs /\ first_of it = s /\ last_of it = e.

Definition run_ok (fuel : nat) (gap : Z) (first last : Z * Z) : Prop :=
  ym_ok first /\ ym_ok last /\ month_number first <= month_number last /\
  month_number last - month_number first <= Z.of_nat fuel /\ 1 <= gap <= 10.

Lemma submitted_tested : forall fuel ids mode gap first last id s e, run_ok fuel gap first last -> In mode ["standard"; "all"; "new"; "noend"]%string ->
  (submitted fuel ids mode gap first last id s e <->
   chunk_of gap (present first last ids id) s e /\ tested mode gap (month_number first) (month_number last) s e).
Proof.
  intros fuel ids mode gap [y1 m1] [y2 m2] id s e [A [B [C [F G]]]] M. unfold ym_ok in A, B. cbn [fst snd] in A, B.
  destruct (wrapper_spec y1 m1 y2 m2 fuel ids mode gap A B C) as [jobs [W [_ [J _]]]]; [unfold month_number in F; cbn [fst snd] in F; lia|exact M|exact G|].
  unfold submitted. cbn [fst snd]. rewrite W. rewrite <- J. split.
  - intros [jobs' [it [E K]]]. injection E as <-. now exists it.
  - intros [it K]. exists jobs, it. auto.
Qed.

Lemma submitted_wanted : forall fuel ids mode gap first last id s e, run_ok fuel gap first last -> In mode ["standard"; "all"; "new"]%string ->
  (submitted fuel ids mode gap first last id s e <->
   chunk_of gap (present first last ids id) s e /\ wanted mode gap (month_number first) (month_number last) s e).
Proof.
  intros fuel ids mode gap first last id s e R M. rewrite (submitted_tested _ _ _ _ _ _ _ _ _ R).
  - unfold tested, wanted. assert (mode <> "noend"%string) by (cbn in M; intuition; subst; discriminate). tauto.
  - cbn in *. tauto.
Qed.

Lemma noend_exact : forall fuel ids gap first last id s e, run_ok fuel gap first last ->
  (submitted fuel ids "noend" gap first last id s e <->
   chunk_of gap (present first last ids id) s e /\ (s - month_number first < gap \/ gap <= month_number last - e)).
Proof.
  intros fuel ids gap first last id s e R. rewrite (submitted_tested _ _ _ _ _ _ _ _ _ R) by (cbn; tauto).
  unfold tested. assert ("noend"%string <> "all"%string /\ "noend"%string <> "standard"%string /\ "noend"%string <> "new"%string) by (repeat split; discriminate). tauto.
Qed.

Lemma present_widen : forall ids id gap f l f' l' s e, 1 <= gap ->
  month_number f' <= month_number f -> month_number l <= month_number l' ->
  f' = f \/ gap <= s - month_number f -> l' = l \/ gap <= month_number l - e -> month_number f <= s -> e <= month_number l ->
  (chunk_of gap (present f l ids id) s e <-> chunk_of gap (present f' l' ids id) s e).
Proof.
  intros ids id gap f l f' l' s e G H1 H2 H3 H4 H5 H6. unfold present.
  apply (chunk_widen gap (fun k => exists ym, ym_ok ym /\ month_number ym = k /\ In id (ids ym))); auto.
  - destruct H3 as [->|H3]; auto.
  - destruct H4 as [->|H4]; auto.
Qed.

Lemma standard_stable : forall fuel ids gap f l f' l' id s e, run_ok fuel gap f l -> run_ok fuel gap f' l' ->
  month_number f' <= month_number f -> month_number l <= month_number l' ->
  submitted fuel ids "standard" gap f l id s e -> submitted fuel ids "standard" gap f' l' id s e.
Proof.
  intros fuel ids gap f l f' l' id s e R R' H1 H2 S.
  apply submitted_wanted in S; [|exact R|cbn; tauto]. destruct S as [C W].
  apply submitted_wanted; [exact R'|cbn; tauto|].
  destruct W as [W|[[_ [W1 W2]]|[[W _]|[W _]]]]; try discriminate.
  destruct R as [_ [_ [_ [_ G]]]]. split.
  - apply (present_widen ids id gap f l f' l' s e); auto; lia.
  - right. left. repeat split; lia.
Qed.

Lemma new_once : forall fuel ids gap f l l' id s e, run_ok fuel gap f l -> run_ok fuel gap f l' ->
  submitted fuel ids "new" gap f l id s e -> submitted fuel ids "new" gap f l' id s e -> l = l'.
Proof.
  intros fuel ids gap f l l' id s e R R' S S'.
  apply submitted_wanted in S; [|exact R|cbn; tauto]. apply submitted_wanted in S'; [|exact R'|cbn; tauto].
  destruct S as [_ [W|[[W _]|[[_ W]|[W _]]]]]; try discriminate. destruct S' as [_ [W'|[[W' _]|[[_ W']|[W' _]]]]]; try discriminate.
  apply month_number_inj; [apply R|apply R'|lia].
Qed.

Lemma ym_of_number : forall k, exists ym, ym_ok ym /\ month_number ym = k.
Proof.
  intro k. exists (k / 12, k mod 12 + 1). unfold ym_ok, month_number. cbn [fst snd].
  pose proof (Z.mod_pos_bound k 12 ltac:(lia)). pose proof (Z.div_mod k 12 ltac:(lia)). lia.
Qed.

(** A complete chunk was submitted in 'new' mode by the run that ended gap months after it. *)
Lemma new_complete : forall fuel ids gap f l id s e, run_ok fuel gap f l ->
  submitted fuel ids "all" gap f l id s e -> gap <= month_number l - e ->
  exists l0, run_ok fuel gap f l0 /\ month_number l0 = e + gap /\ submitted fuel ids "new" gap f l0 id s e.
Proof.
  intros fuel ids gap f l id s e R S H. apply submitted_wanted in S; [|exact R|cbn; tauto]. destruct S as [C _].
  destruct (ym_of_number (e + gap)) as [l0 [L1 L2]]. exists l0.
  pose proof (proj1 C) as [[P1 P2] _]. pose proof (proj1 (proj2 C)) as [[P3 P4] _]. pose proof (proj1 (proj2 (proj2 C))) as P5.
  destruct R as [R1 [R2 [R3 [R4 R5]]]].
  assert (R0 : run_ok fuel gap f l0) by (unfold run_ok; repeat split; try apply R1; try apply L1; lia).
  split; [exact R0|]. split; [exact L2|]. apply submitted_wanted; [exact R0|cbn; tauto|]. split.
  - apply (present_widen ids id gap f l0 f l s e); auto; lia.
  - right. right. left. split; [reflexivity|lia].
Qed.

(** In 'all' mode each month of each identifier is in exactly one job. *)
Lemma all_covers : forall fuel ids gap first last id k, run_ok fuel gap first last -> present first last ids id k ->
  exists s e, submitted fuel ids "all" gap first last id s e /\ s <= k <= e /\
    forall s' e', submitted fuel ids "all" gap first last id s' e' -> s' <= k <= e' -> s' = s /\ e' = e.
Proof.
  intros fuel ids gap first last id k R P.
  assert (M : In "all"%string ["standard"; "all"; "new"]%string) by (cbn; tauto).
  pose proof R as [R1 [R2 [R3 [R4 R5]]]].
  destruct first as [y1 m1]. destruct last as [y2 m2]. unfold ym_ok in R1, R2. cbn [fst snd] in R1, R2.
  (* the flag list of the identifier *)
  set (f := month_number (y1, m1)) in *. set (n := month_number (y2, m2) - f + 1).
  destruct (ymc_init_ok y1 m1 y2 m2 fuel R1 R2 R3) as [l [_ [MO _]]]; [unfold f, month_number in *; cbn [fst snd] in *; lia|]. fold f n in MO.
  set (c := map (fun ym => if in_dec string_dec id (ids ym) then 1 else 0) l).
  assert (F : flags_ok c). { intros v Hv. apply in_map_iff in Hv. destruct Hv as [ym [<- _]]. destruct (in_dec _ _ _); auto. }
  assert (D : forall i, present (y1, m1) (y2, m2) ids id (i + f) <-> data c i).
  { intro i. unfold present. fold f. split.
    - intros [K1 [ym [K2 [K3 K4]]]]. split; [lia|]. unfold c.
      pose proof (months_of_nth y1 m1 n l ym MO K2) as K5. fold f in K5. specialize (K5 ltac:(unfold n; lia)). rewrite K3 in K5.
      replace (i + f - f) with i in K5 by lia. rewrite (map_nth_error _ _ _ K5). destruct (in_dec _ _ _); [reflexivity|contradiction].
    - intros [K0 K]. unfold c in K. destruct (nth_error l (Z.to_nat i)) as [ym|] eqn:E.
      + rewrite (map_nth_error _ _ _ E) in K. destruct (in_dec string_dec id (ids ym)) as [I|I]; [|discriminate].
        destruct (proj2 MO _ _ E) as [E1 E2]. fold f in E2.
        assert (Z.to_nat i < length l)%nat by (apply nth_error_Some; congruence). destruct MO as [MO _]. split; [unfold n in MO; lia|].
        exists ym. repeat split; try apply E1; [lia|exact I].
      + assert (nth_error (map (fun ym => if in_dec string_dec id (ids ym) then 1 else 0) l) (Z.to_nat i) = None) as Q
          by (apply nth_error_None; rewrite map_length; now apply nth_error_None). congruence. }
  assert (S : forall s e, submitted fuel ids "all" gap (y1, m1) (y2, m2) id s e <-> is_chunk gap c (s - f) (e - f)).
  { intros s e. rewrite (submitted_wanted _ _ _ _ _ _ _ _ _ R M).
    pose proof (chunk_of_shift gap (data c) (present (y1, m1) (y2, m2) ids id) f (s - f) (e - f) D) as Q.
    rewrite !Z.sub_add in Q. unfold is_chunk. rewrite <- Q. unfold wanted. tauto. }
  assert (DK : data c (k - f)) by (apply D; now rewrite Z.sub_add).
  destruct (chunks_cover gap c (k - f) ltac:(lia) F DK) as [s [e [C1 [C2 C3]]]].
  exists (s + f), (e + f). split; [apply S; now rewrite !Z.add_simpl_r|]. split; [lia|].
  intros s' e' S' H. apply S in S'. destruct (C3 _ _ S' ltac:(lia)). lia.
Qed.

Lemma noend_refuted : exists fuel ids gap first last id s e, run_ok fuel gap first last /\
  submitted fuel ids "noend" gap first last id s e /\ ~ gap <= month_number last - e.
Proof.
  exists 2%nat, (fun _ => ["A"%string]), 3, (2000, 1), (2000, 2), "A"%string, (month_number (2000, 1)), (month_number (2000, 2)).
  split; [unfold run_ok, ym_ok, month_number; cbn [fst snd]; lia|]. split; [|unfold month_number; cbn [fst snd]; lia].
  unfold submitted. eexists _, _. split; [vm_compute; reflexivity|]. split; [left; reflexivity|]. split; reflexivity.
Qed.
