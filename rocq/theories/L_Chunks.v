(** Lemmas about chunking. *)
Require Import String ZArith List Bool Lia Sorting.Sorted.
Require Import ZifyBool.
Require Import Verif.M_Base Verif.L_Base Verif.M_Chunks Verif.S_Chunks.
Import ListNotations.
Open Scope Z_scope.

(* ---- facts about the specification ---- *)

Lemma data_range : forall c i, data c i -> 0 <= i < Z.of_nat (length c).
Proof. intros c i [A B]. apply nth_error_Some_length in B || (assert (K : nth_error c (Z.to_nat i) <> None) by congruence; apply nth_error_Some in K). lia. Qed.

Lemma data_app_l : forall c c' i, i < Z.of_nat (length c) -> (data (c ++ c') i <-> data c i).
Proof.
  intros c c' i H. unfold data. split; intros [A B]; (split; [exact A|]).
  - rewrite nth_error_app1 in B by lia. exact B.
  - rewrite nth_error_app1 by lia. exact B.
Qed.
Lemma data_app_r : forall c c' i, Z.of_nat (length c) <= i -> (data (c ++ c') i <-> data c' (i - Z.of_nat (length c))).
Proof.
  intros c c' i H. unfold data. split; intros [A B]; (split; [lia|]).
  - rewrite nth_error_app2 in B by lia. rewrite <- B. f_equal. lia.
  - rewrite nth_error_app2 by lia. rewrite <- B. f_equal. lia.
Qed.
Lemma data_snoc : forall c v i, data (c ++ [v]) i <-> data c i \/ (i = Z.of_nat (length c) /\ v = 1).
Proof.
  intros c v i. destruct (Z_lt_le_dec i (Z.of_nat (length c))) as [H|H].
  - rewrite data_app_l by exact H. split; [auto|]. intros [K|[K _]]; [exact K|lia].
  - rewrite data_app_r by exact H. split.
    + intros [A B]. right. destruct (Z.to_nat (i - Z.of_nat (length c))) eqn:E.
      * cbn in B. split; [lia|congruence].
      * cbn in B. destruct n; discriminate.
    + intros [K|[-> ->]]; [apply data_range in K; lia|]. split; [lia|]. now rewrite Z.sub_diag.
Qed.

Lemma dense_cross : forall (P : Z -> Prop) gap e n s1 s2, s2 - s1 <= Z.of_nat n -> P s1 -> s1 < s2 <= e ->
  (forall i, s1 <= i < e -> P i -> exists j, i < j <= i + gap /\ j <= e /\ P j) ->
  exists i, s1 <= i /\ s2 - gap <= i < s2 /\ P i.
Proof.
  intros P gap e. induction n as [|n IH]; intros s1 s2 B H1 H D; [lia|].
  destruct (D s1 ltac:(lia) H1) as [j [J1 [J2 J3]]].
  destruct (Z_lt_le_dec j s2) as [L|L].
  - destruct (IH j s2 ltac:(lia) J3 ltac:(lia)) as [i [A1 [A2 A3]]].
    + intros i Hi Pi. apply D; [lia|exact Pi].
    + exists i. repeat split; try lia; exact A3.
  - exists s1. repeat split; try lia; exact H1.
Qed.

(** Overlapping chunks are equal. *)
Lemma chunk_overlap : forall gap c s e s' e', is_chunk gap c s e -> is_chunk gap c s' e' -> s <= s' <= e -> s = s' /\ e = e'.
Proof.
  intros gap c s e s' e' [A1 [A2 [A3 [A4 [A5 A6]]]]] [B1 [B2 [B3 [B4 [B5 B6]]]]] H.
  assert (s = s').
  { destruct (Z.eq_dec s s') as [E|E]; [exact E|exfalso].
    destruct (dense_cross (data c) gap e (Z.to_nat (s' - s)) s s' ltac:(lia) A1 ltac:(lia) A4) as [i [I1 [I2 I3]]].
    apply (B5 i); [lia|exact I3]. }
  split; [assumption|]. subst s'.
  destruct (Z.lt_trichotomy e e') as [L|[L|L]]; [exfalso|exact L|exfalso].
  - destruct (B4 e ltac:(lia) A2) as [j [J1 [J2 J3]]]. apply (A6 j); [lia|exact J3].
  - destruct (A4 e' ltac:(lia) B2) as [j [J1 [J2 J3]]]. apply (B6 j); [lia|exact J3].
Qed.

(* ---- the scan ---- *)

Lemma mk_chunk : forall gap c s e, data c s -> data c e -> s <= e ->
  (forall i, s <= i < e -> data c i -> exists j, i < j <= i + gap /\ j <= e /\ data c j) ->
  (forall i, s - gap <= i < s -> ~ data c i) -> (forall i, e < i <= e + gap -> ~ data c i) -> is_chunk gap c s e.
Proof. intros. unfold is_chunk, chunk_of. tauto. Qed.

Definition after (gap : Z) (p q : Z * Z) : Prop := snd p + gap < fst q.

(** A list of chunks in order that covers all data. *)
Definition chunk_list (gap : Z) (c : list Z) (l : list (Z * Z)) : Prop :=
  (forall p, In p l -> is_chunk gap c (fst p) (snd p)) /\
  (forall i, data c i -> exists p, In p l /\ fst p <= i <= snd p) /\
  StronglySorted (after gap) l.

(** Loop invariant after the prefix [c]. *)
Definition scan_inv (gap : Z) (c : list Z) (st : cstate) : Prop :=
  ((forall i, ~ data c i) /\ c_starts st = [] /\ c_ends st = [] /\ gap <= c_zeros st /\ c_lastdata st = -1) \/
  (exists closed s, c_starts st = map fst closed ++ [s] /\ c_ends st = map snd closed /\
     0 <= c_lastdata st /\ data c (c_lastdata st) /\ (forall i, c_lastdata st < i -> ~ data c i) /\
     c_zeros st = Z.of_nat (length c) - 1 - c_lastdata st /\
     chunk_list gap c (closed ++ [(s, c_lastdata st)])).

Lemma sorted_snoc : forall gap l p, StronglySorted (after gap) l -> (forall q, In q l -> after gap q p) -> StronglySorted (after gap) (l ++ [p]).
Proof.
  intros gap l p S. induction S as [|a l S IH F]; intro H; cbn; [repeat constructor|].
  constructor; [apply IH; intros; apply H; now right|]. rewrite Forall_forall in *.
  intros q Hq. apply in_app_or in Hq. destruct Hq as [Hq|[<-|[]]]; [auto|apply H; now left].
Qed.
Lemma sorted_snoc_inv : forall gap l p, StronglySorted (after gap) (l ++ [p]) -> StronglySorted (after gap) l /\ forall q, In q l -> after gap q p.
Proof.
  intros gap l p. induction l as [|a l IH]; cbn; intro S; [split; [constructor|intros q []]|].
  inversion S; subst. rewrite Forall_forall in H2. destruct (IH H1) as [A B]. split.
  - constructor; [exact A|]. rewrite Forall_forall. intros q Hq. apply H2. apply in_or_app. now left.
  - intros q [<-|Hq]; [apply H2; apply in_or_app; right; now left|auto].
Qed.

(** A chunk keeps being one when a month without data is appended. *)
Lemma chunk_data_ext : forall gap c c' s e, (forall i, data c i <-> data c' i) -> is_chunk gap c s e -> is_chunk gap c' s e.
Proof.
  intros gap c c' s e H [A1 [A2 [A3 [A4 [A5 A6]]]]]. repeat split.
  - now apply H in A1 as [? ?].
  - apply H in A1. apply A1.
  - now apply H in A2 as [? ?].
  - apply H in A2. apply A2.
  - exact A3.
  - intros i Hi D. apply H in D. destruct (A4 i Hi D) as [j [J1 [J2 J3]]]. exists j. repeat split; try lia; now apply H in J3 as [? ?].
  - intros i Hi D. apply H in D. exact (A5 i Hi D).
  - intros i Hi D. apply H in D. exact (A6 i Hi D).
Qed.

Lemma scan_step : forall gap c v st, 1 <= gap -> v = 0 \/ v = 1 -> scan_inv gap c st ->
  scan_inv gap (c ++ [v]) (chunk_step gap (Z.of_nat (length c)) v st).
Proof.
  intros gap c v st Hg Hv I. set (n := Z.of_nat (length c)). unfold chunk_step.
  destruct Hv as [->| ->].
  - (* no data *)
    change (0 =? 0) with true. change (0 =? 1) with false. cbn [andb].
    assert (E : forall i, data c i <-> data (c ++ [0]) i).
    { intro i. rewrite data_snoc. split; [auto|]. intros [K|[_ K]]; [exact K|discriminate]. }
    destruct I as [[N [A [B [C D]]]]|[closed [s [A [B [C0 [C [D [Z0 [L1 [L2 L3]]]]]]]]]]].
    + left. cbn. repeat split; auto; [|lia]. intros i K. apply (N i), E, K.
    + right. exists closed, s. cbn [c_starts c_ends c_zeros c_lastdata].
      repeat split; auto.
      * apply E in C. apply C.
      * intros i Hi K. apply (D i Hi), E, K.
      * rewrite Z0, app_length. cbn [length]. lia.
      * apply (proj1 (chunk_data_ext gap c _ _ _ E (L1 p H))).
      * apply (chunk_data_ext gap c _ _ _ E (L1 p H)).
      * apply (chunk_data_ext gap c _ _ _ E (L1 p H)).
      * apply (chunk_data_ext gap c _ _ _ E (L1 p H)).
      * apply (chunk_data_ext gap c _ _ _ E (L1 p H)).
      * apply (chunk_data_ext gap c _ _ _ E (L1 p H)).
      * apply (chunk_data_ext gap c _ _ _ E (L1 p H)).
      * apply (chunk_data_ext gap c _ _ _ E (L1 p H)).
      * intros i Hi. apply L2, E, Hi.
  - (* data *)
    change (1 =? 0) with false. change (1 =? 1) with true. cbn [andb].
    assert (E : forall i, data (c ++ [1]) i <-> data c i \/ i = n).
    { intro i. rewrite data_snoc. fold n. intuition. }
    assert (Len : Z.of_nat (length (c ++ [1])) = n + 1) by (rewrite app_length; cbn [length]; lia).
    destruct I as [[N [A [B [C D]]]]|[closed [s [A [B [C0 [C [D [Z0 [L1 [L2 L3]]]]]]]]]]].
    + replace (gap <=? c_zeros st) with true by lia. rewrite D. change (negb (-1 =? -1)) with false. cbv iota.
      cbn [c_zeros c_starts c_ends c_lastdata]. replace (0 <? gap) with true by lia. cbn [c_starts c_ends c_zeros c_lastdata].
      right. exists [], n. cbn [c_starts c_ends c_zeros c_lastdata map app]. rewrite A, B.
      assert (Dn : forall i, data (c ++ [1]) i <-> i = n) by (intro i; rewrite E; firstorder).
      repeat split; auto; try lia.
      * now apply Dn.
      * intros i Hi K. apply Dn in K. lia.
      * destruct H as [<-|[]]. cbn. now apply Dn.
      * destruct H as [<-|[]]. cbn. now apply Dn.
      * destruct H as [<-|[]]. cbn. now apply Dn.
      * destruct H as [<-|[]]. cbn. now apply Dn.
      * destruct H as [<-|[]]. cbn. lia.
      * destruct H as [<-|[]]. cbn. intros; lia.
      * destruct H as [<-|[]]. cbn. intros i Hi K. apply Dn in K. lia.
      * destruct H as [<-|[]]. cbn. intros i Hi K. apply Dn in K. lia.
      * intros i Hi. apply Dn in Hi. exists (n, n). split; [now left|cbn; lia].
      * repeat constructor.
    + set (L := c_lastdata st) in *.
      pose proof (data_range _ _ C) as RL. fold n in RL, Z0.
      apply sorted_snoc_inv in L3. destruct L3 as [L3 L4].
      pose proof (L1 (s, L) ltac:(apply in_or_app; right; now left)) as CL. cbn [fst snd] in CL.
      destruct (gap <=? c_zeros st) eqn:G.
      * (* a new chunk *)
        replace (negb (L =? -1)) with true by lia. cbv iota. cbn [c_zeros c_starts c_ends c_lastdata].
        replace (0 <? gap) with true by lia. cbn [c_starts c_ends c_zeros c_lastdata].
        right. exists (closed ++ [(s, L)]), n. cbn [c_starts c_ends c_zeros c_lastdata].
        rewrite !map_app. cbn [map fst snd]. rewrite A, B.
        split; [reflexivity|]. split; [reflexivity|]. split; [lia|]. split; [apply E; now right|].
        split; [intros i Hi K; apply data_range in K; lia|]. split; [lia|].
        split; [|split].
        -- intros p Hp. apply in_app_or in Hp. destruct Hp as [Hp|[<-|[]]].
           ++ destruct (L1 p Hp) as [P1 [P2 [P3 [P4 [P5 P6]]]]].
              assert (snd p <= L).
              { destruct (Z_lt_le_dec L (snd p)) as [K|K]; [exfalso; exact (D _ K P2)|exact K]. }
              apply mk_chunk; [apply E; now left|apply E; now left|exact P3|..].
              ** intros i Hi K. apply E in K. destruct K as [K|K]; [|lia].
                 destruct (P4 i Hi K) as [j [J1 [J2 J3]]]. exists j. repeat split; try lia; apply (proj2 (E j) (or_introl J3)).
              ** intros i Hi K. apply E in K. destruct K as [K|K]; [exact (P5 i Hi K)|]. lia.
              ** intros i Hi K. apply E in K. destruct K as [K|K]; [exact (P6 i Hi K)|]. lia.
           ++ cbn [fst snd]. apply mk_chunk; [apply E; now right|apply E; now right|lia|intros; lia|..].
              ** intros i Hi K. apply E in K. destruct K as [K|K]; [|lia]. apply (D i); [lia|exact K].
              ** intros i Hi K. apply data_range in K. lia.
        -- intros i K. apply E in K. destruct K as [K| ->].
           ++ destruct (L2 i K) as [p [P1 P2]]. exists p. split; [apply in_or_app; now left|exact P2].
           ++ exists (n, n). split; [apply in_or_app; right; now left|cbn; lia].
        -- apply sorted_snoc; [apply sorted_snoc; assumption|].
           intros q Hq. unfold after. cbn [fst]. apply in_app_or in Hq. destruct Hq as [Hq|[<-|[]]].
           ++ specialize (L4 q Hq). unfold after in L4. cbn [fst] in L4. pose proof (proj1 (proj2 (proj2 CL))). lia.
           ++ cbn [snd]. lia.
      * (* the last chunk grows *)
        replace (c_zeros st <? gap) with true by lia. cbn [c_starts c_ends c_zeros c_lastdata].
        right. exists closed, s. cbn [c_starts c_ends c_zeros c_lastdata].
        split; [exact A|]. split; [exact B|]. split; [lia|]. split; [apply E; now right|].
        split; [intros i Hi K; apply data_range in K; lia|]. split; [lia|].
        destruct CL as [Q1 [Q2 [Q3 [Q4 [Q5 Q6]]]]].
        split; [|split].
        -- intros p Hp. apply in_app_or in Hp. destruct Hp as [Hp|[<-|[]]].
           ++ destruct (L1 p ltac:(apply in_or_app; now left)) as [P1 [P2 [P3 [P4 [P5 P6]]]]].
              specialize (L4 p Hp). unfold after in L4. cbn [fst] in L4.
              apply mk_chunk; [apply E; now left|apply E; now left|exact P3|..].
              ** intros i Hi K. apply E in K. destruct K as [K|K]; [|lia].
                 destruct (P4 i Hi K) as [j [J1 [J2 J3]]]. exists j. repeat split; try lia; apply (proj2 (E j) (or_introl J3)).
              ** intros i Hi K. apply E in K. destruct K as [K|K]; [exact (P5 i Hi K)|]. lia.
              ** intros i Hi K. apply E in K. destruct K as [K|K]; [exact (P6 i Hi K)|]. lia.
           ++ cbn [fst snd]. apply mk_chunk; [apply E; now left|apply E; now right|lia|..].
              ** intros i Hi K. apply E in K. destruct K as [K|K]; [|lia].
                 destruct (Z_lt_le_dec i L) as [W|W].
                 --- destruct (Q4 i ltac:(lia) K) as [j [J1 [J2 J3]]]. exists j. repeat split; try lia; apply (proj2 (E j) (or_introl J3)).
                 --- assert (i = L). { destruct (Z.eq_dec i L); [assumption|]. exfalso. apply (D i); [lia|exact K]. }
                     subst i. exists n. repeat split; try lia; apply (proj2 (E n)); now right.
              ** intros i Hi K. apply E in K. destruct K as [K|K]; [exact (Q5 i Hi K)|]. lia.
              ** intros i Hi K. apply data_range in K. lia.
        -- intros i K. apply E in K. destruct K as [K| ->].
           ++ destruct (L2 i K) as [p [P1 P2]]. apply in_app_or in P1. destruct P1 as [P1|[<-|[]]].
              ** exists p. split; [apply in_or_app; now left|exact P2].
              ** exists (s, n). split; [apply in_or_app; right; now left|]. cbn in *. lia.
           ++ exists (s, n). split; [apply in_or_app; right; now left|]. cbn. lia.
        -- apply sorted_snoc; [exact L3|]. intros q Hq. exact (L4 q Hq).
Qed.

Lemma scan_loop : forall gap c' c st, 1 <= gap -> flags_ok c' -> scan_inv gap c st ->
  scan_inv gap (c ++ c') (chunk_loop gap (Z.of_nat (length c)) c' st).
Proof.
  intros gap c'. induction c' as [|v c' IH]; intros c st Hg F I; cbn [chunk_loop]; [now rewrite app_nil_r|].
  replace (Z.of_nat (length c) + 1) with (Z.of_nat (length (c ++ [v]))) by (rewrite app_length; cbn [length]; lia).
  change (c ++ v :: c') with (c ++ [v] ++ c'). rewrite app_assoc. apply IH.
  - exact Hg.
  - intros w Hw. apply F. now right.
  - apply scan_step; [exact Hg|apply F; now left|exact I].
Qed.

Lemma data_nil : forall i, ~ data [] i.
Proof. intros i K. apply data_range in K. cbn in K. lia. Qed.

Lemma combine_fst_snd : forall (l : list (Z * Z)), combine (map fst l) (map snd l) = l.
Proof. induction l as [|[a b] l IH]; cbn; congruence. Qed.

Lemma get_chunks_list : forall gap c, 1 <= gap <= 10 -> flags_ok c ->
  exists l, get_chunks gap c = (map fst l, map snd l) /\ chunk_list gap c l.
Proof.
  intros gap c Hg F. unfold get_chunks.
  assert (I : scan_inv gap [] cstate0).
  { left. cbn. repeat split; auto; [apply data_nil|lia]. }
  pose proof (scan_loop gap c [] cstate0 ltac:(lia) F I) as K. cbn [app length Z.of_nat] in K.
  destruct K as [[N [A [B _]]]|[closed [s [A [B [C0 [C [D [Z0 L]]]]]]]]].
  - exists []. rewrite A, B. cbn. split; [reflexivity|]. split; [intros p []|]. split; [intros i Hi; destruct (N i Hi)|constructor].
  - rewrite A, B. rewrite app_length, !map_length. cbn [length].
    replace (length closed <? length closed + 1)%nat with true by lia.
    eexists (closed ++ [(s, _)]). rewrite !map_app. cbn [map fst snd]. split; [reflexivity|exact L].
Qed.

Lemma chunk_list_iff : forall gap c l, chunk_list gap c l -> forall s e, In (s, e) l <-> is_chunk gap c s e.
Proof.
  intros gap c l [A [B C]] s e. split; [intro H; exact (A (s, e) H)|].
  intro H. destruct (B s) as [[s' e'] [P1 P2]]; [apply H|]. cbn [fst snd] in P2.
  destruct (chunk_overlap gap c s' e' s e (A _ P1) H P2) as [<- <-]. exact P1.
Qed.

Lemma get_chunks_spec : forall gap c, 1 <= gap <= 10 -> flags_ok c ->
  exists starts ends, get_chunks gap c = (starts, ends) /\ length starts = length ends /\
    (forall s e, In (s, e) (combine starts ends) <-> is_chunk gap c s e) /\
    StronglySorted (fun p q => snd p + gap < fst q) (combine starts ends).
Proof.
  intros gap c Hg F. destruct (get_chunks_list gap c Hg F) as [l [A L]].
  exists (map fst l), (map snd l). split; [exact A|]. split; [now rewrite !map_length|]. rewrite combine_fst_snd.
  split; [now apply chunk_list_iff|]. apply L.
Qed.

(** Every month with data lies in exactly one chunk. *)
Lemma chunks_cover : forall gap c i, 1 <= gap -> flags_ok c -> data c i ->
  exists s e, is_chunk gap c s e /\ s <= i <= e /\
    forall s' e', is_chunk gap c s' e' -> s' <= i <= e' -> s' = s /\ e' = e.
Proof.
  intros gap c i Hg F D.
  assert (I : scan_inv gap [] {| c_starts := []; c_ends := []; c_zeros := gap; c_lastdata := -1 |}).
  { left. cbn. repeat split; auto; [apply data_nil|lia]. }
  pose proof (scan_loop gap c [] _ ltac:(lia) F I) as K. cbn [app] in K.
  assert (L : exists l, chunk_list gap c l).
  { destruct K as [[N _]|[closed [s [_ [_ [_ [_ [_ [_ L]]]]]]]]]; [destruct (N i D)|eexists; exact L]. }
  destruct L as [l L]. destruct (proj1 (proj2 L) i D) as [[s e] [P1 P2]]. exists s, e.
  pose proof (proj1 L _ P1) as Q. cbn [fst snd] in *. split; [exact Q|]. split; [exact P2|].
  intros s' e' Q' H.
  destruct (Z_le_gt_dec s s') as [W|W].
  - destruct (chunk_overlap gap c s e s' e' Q Q' ltac:(lia)); auto.
  - destruct (chunk_overlap gap c s' e' s e Q' Q ltac:(lia)); auto.
Qed.

(* ---- stability ---- *)

(** A chunk followed by at least [gap] months is still one after appending months. *)
Lemma chunk_append : forall gap c c' s e, 1 <= gap -> e + gap < Z.of_nat (length c) ->
  (is_chunk gap (c ++ c') s e <-> is_chunk gap c s e).
Proof.
  intros gap c c' s e Hg H. unfold is_chunk, chunk_of.
  assert (E : forall i, i < Z.of_nat (length c) -> (data (c ++ c') i <-> data c i)) by (intros; now apply data_app_l).
  split; intros [A1 [A2 [A3 [A4 [A5 A6]]]]].
  - split; [apply E; [lia|exact A1]|]. split; [apply E; [lia|exact A2]|]. split; [exact A3|]. split; [|split].
    + intros i Hi K. apply E in K; [|lia]. destruct (A4 i Hi K) as [j [J1 [J2 J3]]]. exists j. split; [lia|]. split; [lia|]. apply E in J3; [exact J3|lia].
    + intros i Hi K. apply E in K; [|lia]. exact (A5 i Hi K).
    + intros i Hi K. apply E in K; [|lia]. exact (A6 i Hi K).
  - split; [apply E; [lia|exact A1]|]. split; [apply E; [lia|exact A2]|]. split; [exact A3|]. split; [|split].
    + intros i Hi K. apply E in K; [|lia]. destruct (A4 i Hi K) as [j [J1 [J2 J3]]]. exists j. split; [lia|]. split; [lia|]. apply E; [lia|exact J3].
    + intros i Hi K. apply E in K; [|lia]. exact (A5 i Hi K).
    + intros i Hi K. apply E in K; [|lia]. exact (A6 i Hi K).
Qed.

(** A chunk preceded by at least [gap] months is still one (shifted) after prepending months. *)
Lemma chunk_prepend : forall gap c c' s e, 1 <= gap -> gap <= s ->
  let k := Z.of_nat (length c') in (is_chunk gap (c' ++ c) (s + k) (e + k) <-> is_chunk gap c s e).
Proof.
  intros gap c c' s e Hg H k. unfold is_chunk, chunk_of.
  assert (E : forall i, 0 <= i -> (data (c' ++ c) (i + k) <-> data c i)).
  { intros i Hi. unfold k. rewrite data_app_r by lia. replace (i + Z.of_nat (length c') - Z.of_nat (length c')) with i by lia. reflexivity. }
  split; intros [A1 [A2 [A3 [A4 [A5 A6]]]]].
  - assert (s <= e) by lia. split; [apply E; [lia|exact A1]|]. split; [apply E; [lia|exact A2]|]. split; [lia|]. split; [|split].
    + intros i Hi K. apply E in K; [|lia]. destruct (A4 (i + k) ltac:(lia) K) as [j [J1 [J2 J3]]]. exists (j - k). split; [lia|]. split; [lia|].
      apply E; [lia|]. now replace (j - k + k) with j by lia.
    + intros i Hi K. apply E in K; [|lia]. apply (A5 (i + k)); [lia|exact K].
    + intros i Hi K. apply E in K; [|lia]. apply (A6 (i + k)); [lia|exact K].
  - split; [apply E; [lia|exact A1]|]. split; [apply E; [lia|exact A2]|]. split; [lia|]. split; [|split].
    + intros i Hi K. assert (data c (i - k)). { apply E; [lia|]. now replace (i - k + k) with i by lia. }
      destruct (A4 (i - k) ltac:(lia) H0) as [j [J1 [J2 J3]]]. exists (j + k). split; [lia|]. split; [lia|]. apply E; [lia|exact J3].
    + intros i Hi K. apply (A5 (i - k)); [lia|]. apply E; [lia|]. now replace (i - k + k) with i by lia.
    + intros i Hi K. apply (A6 (i - k)); [lia|]. apply E; [lia|]. now replace (i - k + k) with i by lia.
Qed.

(* ---- findings ---- *)

Lemma get_chunks_gap_large : forall gap, 10 < gap ->
  get_chunks gap [1] = ([], []) /\ data [1] 0 /\ is_chunk gap [1] 0 0.
Proof.
  intros gap H. split; [|split].
  - unfold get_chunks. cbn [chunk_loop]. unfold chunk_step, cstate0. cbn [c_zeros c_starts c_ends c_lastdata].
    change (1 =? 0) with false. change (1 =? 1) with true. cbn [andb]. cbn [c_zeros c_starts c_ends c_lastdata].
    replace (gap <=? 10) with false by lia. cbn [c_zeros c_starts c_ends c_lastdata]. replace (10 <? gap) with true by lia. reflexivity.
  - split; [lia|reflexivity].
  - assert (D : forall i, data [1] i -> i = 0) by (intros i K; apply data_range in K; cbn in K; lia).
    repeat split; try lia.
    + intros i Hi K. apply D in K. lia.
    + intros i Hi K. apply D in K. lia.
Qed.
