(** Lemmas about the tracking wrapper. *)
Require Import String ZArith List Bool Lia Sorting.Sorted.
Require Import ZifyBool.
Require Import Verif.M_Base Verif.L_Base Verif.M_Calendar Verif.S_Calendar Verif.M_Chunks Verif.S_Chunks Verif.L_Chunks Verif.L_Chunks2.
Import ListNotations.
Open Scope Z_scope.

Definition ops_of (id : string) (ps : list (Z * Z * string)) : list (Z * Z * Z) :=
  map (fun p => (fst p, 1)) (filter (fun p => String.eqb (snd p) id) ps).

Definition dict_inv (fresh : ymcounter) (ps : list (Z * Z * string)) (d : list (string * ymcounter)) : Prop :=
  NoDup (map fst d) /\ (forall id, In id (map fst d) <-> exists ym, In (ym, id) ps) /\
  forall id g, In (id, g) d -> g = set_all fresh (ops_of id ps).

Lemma dict_set_keys : forall d fresh id y m k, In k (map fst (dict_set d fresh id y m)) <-> In k (map fst d) \/ k = id.
Proof.
  induction d as [|[k0 g0] d IH]; intros fresh id y m k; cbn [dict_set map fst].
  - cbn. intuition.
  - destruct (String.eqb_spec k0 id) as [E|E]; cbn [map fst In].
    + subst. intuition.
    + rewrite IH. intuition.
Qed.
Lemma dict_set_NoDup : forall d fresh id y m, NoDup (map fst d) -> NoDup (map fst (dict_set d fresh id y m)).
Proof.
  induction d as [|[k0 g0] d IH]; intros fresh id y m N; cbn [dict_set map fst].
  - repeat constructor. intros [].
  - cbn [map fst] in N. inversion N; subst. destruct (String.eqb_spec k0 id) as [E|E]; cbn [map fst]; [exact N|].
    constructor; [|now apply IH]. rewrite dict_set_keys. intuition.
Qed.
Lemma dict_set_In : forall d fresh id y m k g, NoDup (map fst d) -> In (k, g) (dict_set d fresh id y m) ->
  (k <> id /\ In (k, g) d) \/ (k = id /\ ((exists g0, In (id, g0) d /\ g = setym g0 y m 1) \/ (~ In id (map fst d) /\ g = setym fresh y m 1))).
Proof.
  induction d as [|[k0 g0] d IH]; intros fresh id y m k g N H; cbn [dict_set] in H.
  - destruct H as [H|[]]. injection H as <- <-. right. split; [reflexivity|]. right. split; [intros []|reflexivity].
  - cbn [map fst] in N. inversion N; subst. destruct (String.eqb_spec k0 id) as [E|E].
    + subst. destruct H as [H|H].
      * injection H as <- <-. right. split; [reflexivity|]. left. exists g0. split; [now left|reflexivity].
      * left. split; [|now right]. intro; subst. apply H2. apply in_map_iff. exists (id, g). auto.
    + destruct H as [H|H].
      * injection H as <- <-. left. split; [exact E|now left].
      * apply IH in H; [|assumption]. destruct H as [[A B]|[A [[g1 [B C]]|[B C]]]].
        -- left. split; [exact A|now right].
        -- right. split; [exact A|]. left. exists g1. split; [now right|exact C].
        -- right. split; [exact A|]. right. split; [|exact C]. cbn [map fst In]. intuition.
Qed.

Lemma dict_inv_step : forall fresh ps d ym id, dict_inv fresh ps d ->
  dict_inv fresh (ps ++ [(ym, id)]) (dict_set d fresh id (fst ym) (snd ym)).
Proof.
  intros fresh ps d ym id [A [B C]]. split; [|split].
  - now apply dict_set_NoDup.
  - intro k. rewrite dict_set_keys, B. split.
    + intros [[ym' H]| ->]; [exists ym'; apply in_or_app; now left|exists ym; apply in_or_app; right; now left].
    + intros [ym' H]. apply in_app_or in H. destruct H as [H|[H|[]]]; [left; now exists ym'|right; congruence].
  - intros k g H. assert (O : ops_of k (ps ++ [(ym, id)]) = ops_of k ps ++ (if String.eqb id k then [(ym, 1)] else [])).
    { unfold ops_of. rewrite filter_app, map_app. f_equal. cbn [filter snd]. now destruct (String.eqb id k). }
    rewrite O. apply dict_set_In in H; [|exact A]. destruct H as [[H1 H2]|[-> [[g0 [H1 H2]]|[H1 H2]]]].
    + destruct (String.eqb_spec id k); [congruence|]. rewrite app_nil_r. now apply C.
    + rewrite String.eqb_refl. unfold set_all. rewrite fold_left_app. cbn [fold_left fst snd].
      fold (set_all fresh (ops_of id ps)). rewrite <- (C _ _ H1). exact H2.
    + rewrite String.eqb_refl. unfold set_all. rewrite fold_left_app. cbn [fold_left fst snd].
      assert (E : ops_of id ps = []).
      { unfold ops_of. destruct (filter (fun p => String.eqb (snd p) id) ps) as [|[ym' id'] r] eqn:Q; [reflexivity|].
        exfalso. apply H1. apply B. exists ym'. assert (In (ym', id') ps /\ String.eqb id' id = true).
        { apply (proj1 (filter_In (fun p => String.eqb (snd p) id) (ym', id') ps)). rewrite Q. now left. }
        destruct H as [K1 K2]. apply String.eqb_eq in K2. now subst. }
      rewrite E. exact H2.
Qed.

Definition pairs_of (ids : Z * Z -> list string) (months : list (Z * Z)) : list (Z * Z * string) :=
  flat_map (fun ym => map (pair ym) (ids ym)) months.

Lemma read_ids_inv : forall ids fresh months, dict_inv fresh (pairs_of ids months) (read_ids ids fresh months).
Proof.
  intros ids fresh months. unfold read_ids.
  assert (Inner : forall l ym ps d, dict_inv fresh ps d ->
    dict_inv fresh (ps ++ map (pair ym) l) (fold_left (fun d id => dict_set d fresh id (fst ym) (snd ym)) l d)).
  { induction l as [|id l IH]; intros ym ps d D; cbn [map fold_left]; [now rewrite app_nil_r|].
    change ((ym, id) :: map (pair ym) l) with ([(ym, id)] ++ map (pair ym) l). rewrite app_assoc. apply IH. now apply dict_inv_step. }
  assert (Outer : forall ms ps d, dict_inv fresh ps d ->
    dict_inv fresh (ps ++ pairs_of ids ms) (fold_left (fun d ym => fold_left (fun d id => dict_set d fresh id (fst ym) (snd ym)) (ids ym) d) ms d)).
  { induction ms as [|ym ms IH]; intros ps d D; cbn [pairs_of flat_map fold_left]; [now rewrite app_nil_r|].
    rewrite app_assoc. apply IH. now apply Inner. }
  apply (Outer months []). split; [constructor|]. split; [|intros id g []].
  intro id. split; [intros []|intros [ym []]].
Qed.

Lemma flag_after_ones : forall ops ym v, (forall op, In op ops -> snd op = 1) ->
  (fold_left (fun acc op => if (fst (fst op) =? fst ym) && (snd (fst op) =? snd ym) then snd op else acc) ops v = 1
   <-> v = 1 \/ In (ym, 1) ops).
Proof.
  induction ops as [|[a f] ops IH]; intros ym v H; [cbn; intuition|]. cbn [fold_left fst snd].
  rewrite IH by (intros; apply H; now right). pose proof (H (a, f) (or_introl eq_refl)) as F. cbn in F. subst f.
  destruct ((fst a =? fst ym) && (snd a =? snd ym)) eqn:E.
  - assert (a = ym) by (destruct a, ym; cbn in *; f_equal; lia). subst a. cbn. intuition.
  - cbn [In]. split; [intuition|]. intros [K|[K|K]]; [now left| |now right]. injection K as ->. lia.
Qed.

Lemma ops_present : forall ids months id y1 m1 y2 m2, months_of y1 m1 (month_number (y2, m2) - month_number (y1, m1) + 1) months ->
  forall k, flagged (y1, m1) (y2, m2) (ops_of id (pairs_of ids months)) k <-> present (y1, m1) (y2, m2) ids id k.
Proof.
  intros ids months id y1 m1 y2 m2 M k. unfold flagged, present.
  assert (E : forall ym, In (ym, 1) (ops_of id (pairs_of ids months)) <-> In ym months /\ In id (ids ym)).
  { intro ym. unfold ops_of. rewrite in_map_iff. split.
    - intros [[ym' id'] [H1 H2]]. cbn in H1. injection H1 as ->. apply filter_In in H2. destruct H2 as [H2 H3]. cbn in H3.
      apply String.eqb_eq in H3. subst id'. unfold pairs_of in H2. apply in_flat_map in H2. destruct H2 as [ym'' [H2 H3]].
      apply in_map_iff in H3. destruct H3 as [x [H3 H4]]. injection H3 as -> ->. auto.
    - intros [H1 H2]. exists (ym, id). split; [reflexivity|]. apply filter_In. split; [|cbn; apply String.eqb_refl].
      unfold pairs_of. apply in_flat_map. exists ym. split; [exact H1|]. apply in_map_iff. now exists id. }
  assert (O : forall op, In op (ops_of id (pairs_of ids months)) -> snd op = 1).
  { intros op H. unfold ops_of in H. apply in_map_iff in H. destruct H as [p [<- _]]. reflexivity. }
  split; intros [K [ym [A [B C]]]]; (split; [exact K|]; exists ym; split; [exact A|]; split; [exact B|]).
  - unfold flag_after in C. apply flag_after_ones in C; [|exact O]. destruct C as [C|C]; [discriminate|]. now apply E in C.
  - unfold flag_after. apply flag_after_ones; [exact O|]. right. apply E. split; [|exact C].
    apply (months_of_In _ _ _ _ ym M). split; [exact A|]. lia.
Qed.

Lemma submit_all_ok : forall edge gap d (items : string -> list chunk_item), NoDup (map fst d) ->
  (forall id g, In (id, g) d -> yield_start_and_end_dates g gap = Ok (items id)) ->
  exists jobs, submit_all edge gap d = Ok jobs /\
    (forall id it, In (id, it) jobs <-> In id (map fst d) /\ In it (items id) /\ submits edge (snd it) = true) /\
    ((forall id, In id (map fst d) -> NoDup (map (fun it => (first_of it, last_of it)) (items id))) ->
     NoDup (map (fun job => (fst job, first_of (snd job), last_of (snd job))) jobs)).
Proof.
  intros edge gap d items. induction d as [|[id0 g0] d IH]; intros N Y; cbn [submit_all map fst].
  - exists []. split; [reflexivity|]. split; [cbn; intuition|]. intros _. constructor.
  - cbn [map fst] in N. inversion N; subst. destruct (IH H2) as [jobs [J1 [J2 J3]]]; [intros; apply Y; now right|].
    rewrite (Y id0 g0 (or_introl eq_refl)). cbn [bind]. rewrite J1. cbn [bind].
    eexists. split; [reflexivity|]. split.
    + intros id it. rewrite in_app_iff, (in_map_iff (fun it => (id0, it))), J2. cbn [In]. split.
      * intros [K|K]; [|intuition]. destruct K as [x [A B]]. inversion A; subst. apply filter_In in B. intuition.
      * intros [[E|A] [B C]]; [subst id; left; exists it; split; [reflexivity|apply filter_In; auto]|right; auto].
    + intro ND. rewrite map_app, map_map. cbn [fst snd].
      assert (D1 : NoDup (map (fun x => (id0, first_of x, last_of x)) (filter (fun it => submits edge (snd it)) (items id0)))).
      { specialize (ND id0 (or_introl eq_refl)). clear - ND. induction (items id0) as [|x l IHl]; [constructor|].
        cbn [map] in ND. inversion ND; subst. cbn [filter]. destruct (submits edge (snd x)); [|now apply IHl].
        cbn [map]. constructor; [|now apply IHl]. intro K. apply in_map_iff in K. destruct K as [z [K1 K2]].
        injection K1 as K1 K3. apply filter_In in K2. apply H1. apply in_map_iff. exists z. split; [congruence|apply K2]. }
      specialize (J3 (fun id H => ND id (or_intror H))).
      revert D1. generalize (filter (fun it => submits edge (snd it)) (items id0)). induction l as [|x l IHl]; intro D1; cbn [map app]; [exact J3|].
      cbn [map] in D1. inversion D1; subst. constructor; [|now apply IHl]. rewrite in_app_iff. intros [K|K]; [contradiction|].
      apply in_map_iff in K. destruct K as [[id it] [K1 K2]]. cbn [fst snd] in K1. injection K1 as -> _ _. apply J2 in K2. tauto.
Qed.

Lemma has_In : forall s l, has s l = true <-> In s l.
Proof. intros s l. unfold has. rewrite existsb_exists. split; [intros [x [A B]]; apply String.eqb_eq in B; now subst|intro H; exists s; split; [exact H|apply String.eqb_refl]]. Qed.

(** The condition that is actually tested. *)
Definition tested (mode : string) (gap first last s e : Z) : Prop :=
  (mode = "all"%string) \/
  (mode = "standard"%string /\ gap <= s - first /\ gap <= last - e) \/
  (mode = "new"%string /\ last - e = gap) \/
  (mode = "noend"%string /\ (s - first < gap \/ gap <= last - e)).

Lemma submits_tested : forall mode gap f l it, class_ok gap f l it ->
  (submits mode (snd it) = true <-> tested mode gap (month_number f) (month_number l) (first_of it) (last_of it)).
Proof.
  intros mode gap f l it [A [B [C D]]]. unfold item_class in *. unfold submits, tested.
  rewrite !orb_true_iff, !andb_true_iff, orb_true_iff, !has_In, A, C, D, !String.eqb_eq. 
  assert (K : (gap <= first_of it - month_number f /\ gap <= month_number l - last_of it) \/ first_of it - month_number f < gap <->
              first_of it - month_number f < gap \/ gap <= month_number l - last_of it) by lia.
  rewrite K. tauto.
Qed.

Lemma sorted_NoDup : forall gap items, 0 <= gap -> (forall it, In it items -> first_of it <= last_of it) ->
  StronglySorted (fun a b => last_of a + gap < first_of b) items -> NoDup (map (fun it => (first_of it, last_of it)) items).
Proof.
  intros gap items G H S. induction S as [|a l S IH F]; cbn [map]; [constructor|]. constructor; [|apply IH; intros; apply H; now right].
  intro K. apply in_map_iff in K. destruct K as [b [K1 K2]]. injection K1 as K1 K3. rewrite Forall_forall in F. specialize (F b K2).
  pose proof (H a (or_introl eq_refl)). lia.
Qed.

Lemma wrapper_spec : forall y1 m1 y2 m2 fuel ids mode gap,
  1 <= m1 <= 12 -> 1 <= m2 <= 12 -> month_number (y1, m1) <= month_number (y2, m2) ->
  (Z.to_nat (12 * (y2 - y1) + m2 - m1) <= fuel)%nat ->
  In mode ["standard"; "all"; "new"; "noend"]%string -> 1 <= gap <= 10 ->
  exists jobs, wrapper fuel ids mode gap y1 m1 y2 m2 = Ok (Some jobs) /\
    (forall job, In job jobs -> ym_ok (item_start (snd job)) /\ ym_ok (item_end (snd job)) /\ class_ok gap (y1, m1) (y2, m2) (snd job)) /\
    (forall id s e, (exists it, In (id, it) jobs /\ first_of it = s /\ last_of it = e) <->
       chunk_of gap (present (y1, m1) (y2, m2) ids id) s e /\
       tested mode gap (month_number (y1, m1)) (month_number (y2, m2)) s e) /\
    NoDup (map (fun job => (fst job, first_of (snd job), last_of (snd job))) jobs).
Proof.
  intros y1 m1 y2 m2 fuel ids mode gap H1 H2 H3 F HM G.
  destruct (ymc_init_ok y1 m1 y2 m2 fuel H1 H2 H3 F) as [l [A [M I]]].
  unfold wrapper. apply has_In in HM. rewrite HM. cbn [negb]. rewrite A. cbn [bind]. rewrite I. cbn [bind].
  set (n := month_number (y2, m2) - month_number (y1, m1) + 1) in *.
  set (g := {| yc_n := n; yc_months := l; yc_counter := repeat 0 (Z.to_nat n) |}) in *.
  destruct (read_ids_inv ids g l) as [D1 [D2 D3]].
  set (d := read_ids ids g l) in *.
  set (items := fun id => match yield_start_and_end_dates (set_all g (ops_of id (pairs_of ids l))) gap with Ok x => x | Err _ => [] end).
  assert (P : forall id, yield_start_and_end_dates (set_all g (ops_of id (pairs_of ids l))) gap = Ok (items id) /\
    (forall it, In it (items id) -> ym_ok (item_start it) /\ ym_ok (item_end it) /\ class_ok gap (y1, m1) (y2, m2) it) /\
    (forall s e, (exists it, In it (items id) /\ first_of it = s /\ last_of it = e) <->
                 chunk_of gap (present (y1, m1) (y2, m2) ids id) s e) /\
    NoDup (map (fun it => (first_of it, last_of it)) (items id))).
  { intro id.
    assert (O : forall op, In op (ops_of id (pairs_of ids l)) -> snd op = 0 \/ snd op = 1).
    { intros op K. unfold ops_of in K. apply in_map_iff in K. destruct K as [p [<- _]]. now right. }
    destruct (yield_spec y1 m1 y2 m2 fuel _ gap H1 H2 H3 F O G) as [g' [its [Y1 [Y2 [Y3 [Y4 Y5]]]]]].
    rewrite I in Y1. injection Y1 as <-. unfold items. rewrite Y2. split; [reflexivity|]. split; [exact Y3|].
    assert (Y4' : forall s e, (exists it, In it its /\ first_of it = s /\ last_of it = e) <-> chunk_of gap (present (y1, m1) (y2, m2) ids id) s e).
    { intros s e. rewrite Y4. symmetry. apply chunk_of_ext. intro k. symmetry. now apply ops_present. }
    split; [exact Y4'|]. apply (sorted_NoDup gap); [lia| |exact Y5]. intros it Hit.
    pose proof (proj1 (Y4' (first_of it) (last_of it)) (ex_intro _ it (conj Hit (conj eq_refl eq_refl)))) as K. apply K. }
  destruct (submit_all_ok mode gap d items D1) as [jobs [J1 [J2 J3]]].
  { intros id g' Hg. rewrite (D3 id g' Hg). apply P. }
  rewrite J1. cbn [bind]. exists jobs. split; [reflexivity|].
  split; [|split].
  - intros [id it] Hj. apply J2 in Hj. cbn [snd]. destruct Hj as [_ [Hj _]]. destruct (P id) as [_ [P2 _]]. specialize (P2 it Hj). tauto.
  - intros id s e. destruct (P id) as [P1 [P2 [P3 P4]]]. rewrite <- P3. split.
    + intros [it [Q1 [Q2 Q3]]]. apply J2 in Q1. destruct Q1 as [R1 [R2 R3]]. split; [exists it; auto|].
      apply (submits_tested mode gap _ _ it (proj2 (proj2 (P2 it R2)))) in R3. now rewrite Q2, Q3 in R3.
    + intros [[it [R1 [R2 R3]]] T]. exists it. split; [|auto]. apply J2. split; [|split; [exact R1|]].
      * pose proof (proj1 (P3 s e) (ex_intro _ it (conj R1 (conj R2 R3)))) as [[K1 [ym [K2 [K3 K4]]]] _].
        apply D2. exists ym. unfold pairs_of. apply in_flat_map. exists ym. split.
        -- apply (months_of_In _ _ _ _ ym M). split; [exact K2|]. unfold n. lia.
        -- apply in_map_iff. now exists id.
      * apply (submits_tested mode gap _ _ it (proj2 (proj2 (P2 it R1)))). now rewrite R2, R3.
  - apply J3. intros id _. apply P.
Qed.

(* ---- histories: chunks of an interval and of a longer interval ---- *)

(** If the interval is widened only on sides where the chunk keeps its distance, it stays a chunk;
    and a chunk of the wider interval that lies well inside the smaller one is one there. *)
Lemma chunk_widen : forall gap D f l f' l' s e, 1 <= gap -> f' <= f -> l <= l' ->
  f' = f \/ gap <= s - f -> l' = l \/ gap <= l - e -> f <= s -> e <= l ->
  (chunk_of gap (fun k => f <= k <= l /\ D k) s e <-> chunk_of gap (fun k => f' <= k <= l' /\ D k) s e).
Proof.
  intros gap D f l f' l' s e G H1 H2 H3 H4 H5 H6. unfold chunk_of.
  split; intros [A1 [A2 [A3 [A4 [A5 A6]]]]].
  - split; [split; [lia|apply A1]|]. split; [split; [lia|apply A2]|]. split; [exact A3|]. split; [|split].
    + intros i Hi [_ K]. assert (K' : f <= i <= l /\ D i) by (split; [lia|exact K]).
      destruct (A4 i Hi K') as [j [J1 [J2 [_ J3]]]]. exists j. repeat split; try lia; exact J3.
    + intros i Hi [K0 K]. apply (A5 i Hi). split; [lia|exact K].
    + intros i Hi [K0 K]. apply (A6 i Hi). split; [lia|exact K].
  - split; [split; [lia|apply A1]|]. split; [split; [lia|apply A2]|]. split; [exact A3|]. split; [|split].
    + intros i Hi [_ K]. assert (K' : f' <= i <= l' /\ D i) by (split; [lia|exact K]).
      destruct (A4 i Hi K') as [j [J1 [J2 [_ J3]]]]. exists j. repeat split; try lia; exact J3.
    + intros i Hi [K0 K]. apply (A5 i Hi). split; [lia|exact K].
    + intros i Hi [K0 K]. apply (A6 i Hi). split; [lia|exact K].
Qed.
