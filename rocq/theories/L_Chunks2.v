(** Lemmas about YMCounter objects and the tracking wrapper. *)
Require Import String ZArith List Bool Lia Sorting.Sorted.
Require Import ZifyBool.
Require Import Verif.M_Base Verif.L_Base Verif.M_Calendar Verif.S_Calendar Verif.L_Calendar Verif.L_Calendar2 Verif.M_Chunks Verif.S_Chunks Verif.L_Chunks.
Import ListNotations.
Open Scope Z_scope.

(* ---- months of the interval ---- *)

Lemma month_number_inj : forall a b, ym_ok a -> ym_ok b -> month_number a = month_number b -> a = b.
Proof. intros [y m] [y' m']; unfold ym_ok, month_number; cbn [fst snd]. intros. assert (y = y') by lia. f_equal; lia. Qed.

Lemma ym_loop_nth : forall fuel y m y2 m2 l, 1 <= m <= 12 -> ym_loop fuel y m y2 m2 = Some l ->
  forall i ym, nth_error l i = Some ym -> ym_ok ym /\ month_number ym = month_number (y, m) + Z.of_nat i.
Proof.
  induction fuel as [|fuel IH]; intros y m y2 m2 l Hm H i ym Hi; cbn [ym_loop] in H.
  - destruct ((y =? y2) && (m =? m2)); [|discriminate]. injection H as <-.
    destruct i as [|[|i]]; cbn in Hi; try discriminate. injection Hi as <-. unfold ym_ok, month_number. cbn [fst snd]. lia.
  - destruct ((y =? y2) && (m =? m2)).
    + injection H as <-. destruct i as [|[|i]]; cbn in Hi; try discriminate. injection Hi as <-. unfold ym_ok, month_number. cbn [fst snd]. lia.
    + destruct (12 <? m + 1) eqn:G; cbv zeta in H; cbv beta iota in H;
      [destruct (ym_loop fuel (y + 1) 1 y2 m2) as [l'|] eqn:Q|destruct (ym_loop fuel y (m + 1) y2 m2) as [l'|] eqn:Q]; try discriminate; injection H as <-;
      (destruct i as [|i]; cbn [nth_error] in Hi; [injection Hi as <-; unfold ym_ok, month_number; cbn [fst snd]; lia|]);
      (eapply IH in Q; [|lia|exact Hi]); unfold ym_ok, month_number in *; cbn [fst snd] in *; lia.
Qed.

Definition months_of (y1 m1 n : Z) (l : list (Z * Z)) : Prop :=
  Z.of_nat (length l) = n /\
  forall i ym, nth_error l i = Some ym -> ym_ok ym /\ month_number ym = month_number (y1, m1) + Z.of_nat i.

Lemma months_of_nth : forall y1 m1 n l ym, months_of y1 m1 n l -> ym_ok ym ->
  month_number (y1, m1) <= month_number ym < month_number (y1, m1) + n ->
  nth_error l (Z.to_nat (month_number ym - month_number (y1, m1))) = Some ym.
Proof.
  intros y1 m1 n l ym [A B] O H. set (k := Z.to_nat _).
  destruct (nth_error l k) as [ym'|] eqn:E.
  - destruct (B k ym' E) as [C D]. f_equal. apply month_number_inj; auto. unfold k in D. lia.
  - apply nth_error_None in E. unfold k in E. lia.
Qed.

Lemma months_of_In : forall y1 m1 n l ym, months_of y1 m1 n l ->
  (In ym l <-> ym_ok ym /\ month_number (y1, m1) <= month_number ym < month_number (y1, m1) + n).
Proof.
  intros y1 m1 n l ym M. split.
  - intro H. apply In_nth_error in H. destruct H as [i Hi]. pose proof (proj2 M i ym Hi) as [A B].
    assert (i < length l)%nat by (apply nth_error_Some; congruence). split; [exact A|]. destruct M. lia.
  - intros [A B]. eapply nth_error_In. eapply months_of_nth; eauto.
Qed.

Lemma index_from_shift : forall ms i y m, index_from i ms y m = map (Z.add i) (index_from 0 ms y m).
Proof.
  induction ms as [|ym ms IH]; intros i y m; [reflexivity|]. cbn [index_from].
  rewrite (IH (i + 1)), (IH (0 + 1)). destruct (ym_eqb ym (y, m)); cbn [map]; rewrite ?map_map.
  - f_equal; [lia|]. apply map_ext. intros; lia.
  - apply map_ext. intros; lia.
Qed.

Lemma ym_eqb_eq : forall a b, ym_eqb a b = true <-> a = b.
Proof. intros [a b] [c d]. unfold ym_eqb. cbn [fst snd]. rewrite andb_true_iff, !Z.eqb_eq. split; [intros []; congruence|intro E; injection E; auto]. Qed.
Lemma ym_eqb_neq : forall a b, a <> b -> ym_eqb a b = false.
Proof. intros a b H. destruct (ym_eqb a b) eqn:E; [|reflexivity]. apply ym_eqb_eq in E. contradiction. Qed.

Lemma index_from_notin : forall ms y m, ~ In (y, m) ms -> index_from 0 ms y m = [].
Proof.
  induction ms as [|ym ms IH]; intros y m H; [reflexivity|]. cbn [index_from].
  rewrite ym_eqb_neq by (intro; subst; apply H; now left). rewrite index_from_shift, IH; [reflexivity|]. intro; apply H; now right.
Qed.

Lemma index_from_single : forall ms i y m, NoDup ms -> nth_error ms i = Some (y, m) -> index_from 0 ms y m = [Z.of_nat i].
Proof.
  induction ms as [|ym ms IH]; intros i y m N H; [destruct i; discriminate|].
  inversion N; subst. cbn [index_from]. destruct i as [|i]; cbn [nth_error] in H.
  - injection H as ->. rewrite (proj2 (ym_eqb_eq _ _) eq_refl). rewrite index_from_shift, index_from_notin by assumption. reflexivity.
  - rewrite ym_eqb_neq; [|intro; subst; apply nth_error_In in H; contradiction].
    rewrite index_from_shift, (IH i) by assumption. cbn [map]. f_equal. lia.
Qed.

Lemma months_of_NoDup : forall y1 m1 n l, months_of y1 m1 n l -> NoDup l.
Proof.
  intros y1 m1 n l [A B]. apply NoDup_nth_error. intros i j Hi H.
  destruct (nth_error l i) as [ym|] eqn:E; [|apply nth_error_None in E; lia].
  symmetry in H. pose proof (proj2 (B _ _ E)). pose proof (proj2 (B _ _ H)). lia.
Qed.

(* ---- a well formed counter ---- *)

Definition wf_counter (y1 m1 n : Z) (g : ymcounter) : Prop :=
  yc_n g = n /\ months_of y1 m1 n (yc_months g) /\ Z.of_nat (length (yc_counter g)) = n.

Lemma ymc_init_ok : forall y1 m1 y2 m2 fuel,
  1 <= m1 <= 12 -> 1 <= m2 <= 12 -> month_number (y1, m1) <= month_number (y2, m2) ->
  (Z.to_nat (12 * (y2 - y1) + m2 - m1) <= fuel)%nat ->
  let n := month_number (y2, m2) - month_number (y1, m1) + 1 in
  exists l, year_month_gen fuel y1 m1 y2 m2 = Ok (Some l) /\ months_of y1 m1 n l /\
    ymc_init fuel y1 m1 y2 m2 = Ok (Some {| yc_n := n; yc_months := l; yc_counter := repeat 0 (Z.to_nat n) |}).
Proof.
  intros y1 m1 y2 m2 fuel H1 H2 H3 F n.
  destruct (year_month_gen_spec y1 m1 y2 m2 fuel H1 H2 H3 F) as [l [A [B _]]].
  assert (N : n = 12 * (y2 - y1) + m2 - m1 + 1) by (unfold n, month_number; cbn [fst snd]; lia).
  assert (M : months_of y1 m1 n l).
  { split; [congruence|]. intros i ym Hi. unfold year_month_gen in A.
    destruct (y1 <=? y2); [|discriminate]. cbn [py_assert bind] in A.
    destruct ((0 <? m1) && (m1 <=? 12)); [|discriminate]. cbn [py_assert bind] in A. injection A as A.
    eapply ym_loop_nth; eauto. }
  exists l. split; [exact A|]. split; [exact M|].
  unfold ymc_init. rewrite <- N. replace (n <? 0) with false by (unfold month_number in *; cbn [fst snd] in *; lia).
  rewrite A. cbn [bind]. destruct M as [M1 M2]. rewrite M1. rewrite Z.ltb_irrefl.
  replace (Z.to_nat n - length l)%nat with 0%nat by lia. cbn [repeat]. now rewrite app_nil_r.
Qed.

Lemma combine_length_eq : forall A B (l : list A) (l' : list B), length l = length l' -> length (combine l l') = length l.
Proof. intros. rewrite combine_length. lia. Qed.

Lemma setym_wf : forall y1 m1 n g y m f, wf_counter y1 m1 n g -> wf_counter y1 m1 n (setym g y m f).
Proof.
  intros y1 m1 n g y m f [A [B C]]. unfold setym, wf_counter. cbn [yc_n yc_months yc_counter].
  split; [exact A|]. split; [exact B|]. rewrite map_length, combine_length. destruct B as [B _]. lia.
Qed.

Lemma nth_error_combine : forall A B (l : list A) (l' : list B) i x y, nth_error l i = Some x -> nth_error l' i = Some y ->
  nth_error (combine l l') i = Some (x, y).
Proof. induction l as [|a l IH]; intros [|b l'] [|i] x y H1 H2; cbn in *; try discriminate; [congruence|now apply IH]. Qed.

Lemma setym_nth : forall y1 m1 n g y m f i v ym, wf_counter y1 m1 n g ->
  nth_error (yc_months g) i = Some ym -> nth_error (yc_counter g) i = Some v ->
  nth_error (yc_counter (setym g y m f)) i = Some (if ym_eqb ym (y, m) then f else v).
Proof.
  intros y1 m1 n g y m f i v ym W H1 H2. unfold setym. cbn [yc_counter].
  rewrite (map_nth_error _ _ _ (nth_error_combine _ _ _ _ _ _ _ H1 H2)). reflexivity.
Qed.

Definition set_all (g : ymcounter) (ops : list (Z * Z * Z)) : ymcounter :=
  fold_left (fun g op => setym g (fst (fst op)) (snd (fst op)) (snd op)) ops g.

Lemma set_all_wf : forall ops y1 m1 n g, wf_counter y1 m1 n g -> wf_counter y1 m1 n (set_all g ops).
Proof. induction ops as [|op ops IH]; intros y1 m1 n g W; [exact W|]. cbn [set_all fold_left]. apply IH, setym_wf, W. Qed.
Lemma set_all_months : forall ops g, yc_months (set_all g ops) = yc_months g.
Proof. unfold set_all. induction ops as [|op ops IH]; intro g; [reflexivity|]. cbn [fold_left]. now rewrite IH. Qed.

Lemma set_all_nth : forall ops y1 m1 n g i v ym, wf_counter y1 m1 n g ->
  nth_error (yc_months g) i = Some ym -> nth_error (yc_counter g) i = Some v ->
  nth_error (yc_counter (set_all g ops)) i =
  Some (fold_left (fun acc op => if (fst (fst op) =? fst ym) && (snd (fst op) =? snd ym) then snd op else acc) ops v).
Proof.
  induction ops as [|op ops IH]; intros y1 m1 n g i v ym W H1 H2; [exact H2|]. cbn [set_all fold_left].
  pose proof (setym_nth y1 m1 n g (fst (fst op)) (snd (fst op)) (snd op) i v ym W H1 H2) as E.
  fold (set_all (setym g (fst (fst op)) (snd (fst op)) (snd op)) ops).
  rewrite (IH y1 m1 n _ i _ ym (setym_wf _ _ _ _ _ _ _ W) H1 E). f_equal. f_equal.
  unfold ym_eqb. cbn [fst snd]. rewrite (Z.eqb_sym (fst ym)), (Z.eqb_sym (snd ym)). reflexivity.
Qed.

(* ---- yield_start_and_end_dates ---- *)

Definition item_of (g : ymcounter) (gap : Z) (p : Z * Z) : chunk_item :=
  let a := nth (Z.to_nat (fst p)) (yc_months g) (0, 0) in
  let b := nth (Z.to_nat (snd p)) (yc_months g) (0, 0) in
  (fst a, snd a, fst b, snd b,
   (if fst p <? gap then ["start_edge_case"%string] else []) ++
   (if yc_n g - gap - 1 <? snd p then ["end_edge_case"%string] else []) ++
   (if snd p =? yc_n g - gap - 1 then ["new"%string] else []) ++
   (if negb ((fst p <? gap) || (yc_n g - gap - 1 <? snd p)) then ["regular"%string] else [])).

Lemma py_nth_ok : forall A (l : list A) i d, 0 <= i < Z.of_nat (length l) -> py_nth l i = Ok (nth (Z.to_nat i) l d).
Proof.
  intros A l i d H. unfold py_nth.
  cbv zeta. rewrite !(proj2 (Z.ltb_ge i 0)) by lia. replace (false || (Z.of_nat (length l) <=? i)) with false by lia.
  destruct (nth_error l (Z.to_nat i)) as [x|] eqn:E.
  - now rewrite (nth_error_nth _ _ d E).
  - apply nth_error_None in E. lia.
Qed.

Lemma yield_loop_ok : forall y1 m1 n g gap l pre, wf_counter y1 m1 n g ->
  (forall p, In p l -> 0 <= fst p < n /\ 0 <= snd p < n) ->
  yield_loop g gap (Z.of_nat (length pre)) (map fst l) (pre ++ map snd l) = Ok (map (item_of g gap) l).
Proof.
  intros y1 m1 n g gap l. induction l as [|[s e] l IH]; intros pre W R; [reflexivity|].
  cbn [map fst snd yield_loop]. destruct (R (s, e) (or_introl eq_refl)) as [Rs Re]. cbn [fst snd] in Rs, Re.
  pose proof W as [Wn [Wm Wc]]. pose proof (proj1 Wm) as Wl.
  pose proof (months_of_NoDup _ _ _ _ Wm) as ND.
  rewrite (py_nth_ok _ _ s (0, 0)) by lia. cbn [bind].
  rewrite (py_nth_ok _ _ (Z.of_nat (length pre)) 0) by (rewrite app_length; cbn [length]; lia). cbn [bind].
  rewrite Nat2Z.id. rewrite nth_middle.
  rewrite (py_nth_ok _ _ e (0, 0)) by lia. cbn [bind].
  destruct (nth (Z.to_nat s) (yc_months g) (0, 0)) as [ya ma] eqn:Ea.
  destruct (nth (Z.to_nat e) (yc_months g) (0, 0)) as [yb mb] eqn:Eb.
  assert (Na : nth_error (yc_months g) (Z.to_nat s) = Some (ya, ma)) by (rewrite <- Ea; apply nth_error_nth'; lia).
  assert (Nb : nth_error (yc_months g) (Z.to_nat e) = Some (yb, mb)) by (rewrite <- Eb; apply nth_error_nth'; lia).
  unfold classify, ymc_index.
  rewrite (index_from_single _ _ _ _ ND Na), (index_from_single _ _ _ _ ND Nb). cbn [map np_truth bind].
  rewrite !Z2Nat.id by lia.
  replace (Z.of_nat (length pre) + 1) with (Z.of_nat (length (pre ++ [e]))) by (rewrite app_length; cbn [length]; lia).
  replace (pre ++ e :: map snd l) with ((pre ++ [e]) ++ map snd l) by now rewrite <- app_assoc.
  rewrite IH; [|exact W|intros; apply R; now right]. cbn [bind]. f_equal. f_equal.
  unfold item_of. cbn [fst snd]. rewrite Ea, Eb. reflexivity.
Qed.

Lemma In_class : forall (b : bool) (s x : string), In x (if b then [s] else []) <-> b = true /\ x = s.
Proof. intros [] s x; cbn; intuition congruence. Qed.

Lemma item_class_ok : forall y1 m1 y2 m2 g gap p,
  wf_counter y1 m1 (month_number (y2, m2) - month_number (y1, m1) + 1) g ->
  0 <= fst p < yc_n g -> 0 <= snd p < yc_n g ->
  let it := item_of g gap p in
  ym_ok (item_start it) /\ ym_ok (item_end it) /\
  first_of it = month_number (y1, m1) + fst p /\ last_of it = month_number (y1, m1) + snd p /\
  class_ok gap (y1, m1) (y2, m2) it.
Proof.
  intros y1 m1 y2 m2 g gap [s e] [Wn [[Wl Wm] Wc]] Hs He. cbn [fst snd] in *. rewrite Wn in Hs, He.
  set (it := item_of g gap (s, e)). cbv zeta.
  assert (Na : nth_error (yc_months g) (Z.to_nat s) = Some (nth (Z.to_nat s) (yc_months g) (0, 0))) by (apply nth_error_nth'; lia).
  assert (Nb : nth_error (yc_months g) (Z.to_nat e) = Some (nth (Z.to_nat e) (yc_months g) (0, 0))) by (apply nth_error_nth'; lia).
  destruct (Wm _ _ Na) as [A1 A2]. destruct (Wm _ _ Nb) as [B1 B2].
  assert (Es : item_start it = nth (Z.to_nat s) (yc_months g) (0, 0)) by (unfold it, item_of; cbn [item_start fst snd]; now destruct (nth _ _ _)).
  assert (Ee : item_end it = nth (Z.to_nat e) (yc_months g) (0, 0)) by (unfold it, item_of; cbn [item_end fst snd]; now destruct (nth (Z.to_nat e) _ _)).
  assert (Fs : first_of it = month_number (y1, m1) + s) by (unfold first_of; rewrite Es, A2; lia).
  assert (Fe : last_of it = month_number (y1, m1) + e) by (unfold last_of; rewrite Ee, B2; lia).
  rewrite Es, Ee. split; [exact A1|]. split; [exact B1|]. split; [exact Fs|]. split; [exact Fe|].
  unfold class_ok. rewrite Fs, Fe. unfold it, item_of, item_class. cbn [fst snd]. rewrite Wn.
  rewrite !in_app_iff, !In_class. 
  split; [|split; [|split]]; split; intro K;
    repeat match goal with H : _ \/ _ |- _ => destruct H | H : _ /\ _ |- _ => destruct H end; try discriminate; try lia.
  - left. split; [lia|reflexivity].
  - right. left. split; [lia|reflexivity].
  - right. right. left. split; [lia|reflexivity].
  - right. right. right. split; [lia|reflexivity].
Qed.

Lemma chunk_of_shift : forall gap (D D' : Z -> Prop) k s e, (forall i, D' (i + k) <-> D i) ->
  (chunk_of gap D' (s + k) (e + k) <-> chunk_of gap D s e).
Proof.
  intros gap D D' k s e H. unfold chunk_of. rewrite !H.
  split; intros [A1 [A2 [A3 [A4 [A5 A6]]]]]; (split; [exact A1|]; split; [exact A2|]; split; [lia|]; split; [|split]).
  - intros i Hi K. apply H in K. destruct (A4 (i + k) ltac:(lia) K) as [j [J1 [J2 J3]]]. exists (j - k). repeat split; try lia.
    apply H. now replace (j - k + k) with j by lia.
  - intros i Hi K. apply (A5 (i + k)); [lia|]. now apply H.
  - intros i Hi K. apply (A6 (i + k)); [lia|]. now apply H.
  - intros i Hi K. replace i with (i - k + k) in K by lia. apply H in K. destruct (A4 (i - k) ltac:(lia) K) as [j [J1 [J2 J3]]].
    exists (j + k). repeat split; try lia. now apply H.
  - intros i Hi K. replace i with (i - k + k) in K by lia. apply H in K. apply (A5 (i - k)); [lia|exact K].
  - intros i Hi K. replace i with (i - k + k) in K by lia. apply H in K. apply (A6 (i - k)); [lia|exact K].
Qed.

Lemma chunk_of_ext : forall gap (D D' : Z -> Prop) s e, (forall i, D' i <-> D i) -> (chunk_of gap D' s e <-> chunk_of gap D s e).
Proof.
  intros gap D D' s e H. pose proof (chunk_of_shift gap D D' 0 s e) as K. rewrite !Z.add_0_r in K. apply K.
  intro i. rewrite Z.add_0_r. apply H.
Qed.

Lemma flag_after_01 : forall ops ym v, (forall op, In op ops -> snd op = 0 \/ snd op = 1) -> v = 0 \/ v = 1 ->
  let r := fold_left (fun acc op => if (fst (fst op) =? fst ym) && (snd (fst op) =? snd ym) then snd op else acc) ops v in r = 0 \/ r = 1.
Proof.
  induction ops as [|op ops IH]; intros ym v H Hv; [exact Hv|]. cbn [fold_left]. apply IH; [intros; apply H; now right|].
  destruct ((fst (fst op) =? fst ym) && (snd (fst op) =? snd ym)); [apply H; now left|exact Hv].
Qed.

Lemma yield_spec : forall y1 m1 y2 m2 fuel ops gap,
  1 <= m1 <= 12 -> 1 <= m2 <= 12 -> month_number (y1, m1) <= month_number (y2, m2) ->
  (Z.to_nat (12 * (y2 - y1) + m2 - m1) <= fuel)%nat ->
  (forall op, In op ops -> snd op = 0 \/ snd op = 1) -> 1 <= gap <= 10 ->
  exists g items, ymc_init fuel y1 m1 y2 m2 = Ok (Some g) /\
    yield_start_and_end_dates (set_all g ops) gap = Ok items /\
    (forall it, In it items -> ym_ok (item_start it) /\ ym_ok (item_end it) /\ class_ok gap (y1, m1) (y2, m2) it) /\
    (forall s e, (exists it, In it items /\ first_of it = s /\ last_of it = e) <->
                 chunk_of gap (flagged (y1, m1) (y2, m2) ops) s e) /\
    StronglySorted (fun a b => last_of a + gap < first_of b) items.
Proof.
  intros y1 m1 y2 m2 fuel ops gap H1 H2 H3 F O G.
  destruct (ymc_init_ok y1 m1 y2 m2 fuel H1 H2 H3 F) as [l [A [M I]]].
  set (n := month_number (y2, m2) - month_number (y1, m1) + 1) in *.
  set (g := {| yc_n := n; yc_months := l; yc_counter := repeat 0 (Z.to_nat n) |}) in *.
  assert (W0 : wf_counter y1 m1 n g).
  { unfold wf_counter, g; cbn [yc_n yc_months yc_counter]. split; [reflexivity|]. split; [exact M|]. rewrite repeat_length. lia. }
  assert (W : wf_counter y1 m1 n (set_all g ops)) by now apply set_all_wf.
  assert (V : forall i ym, nth_error l i = Some ym -> nth_error (yc_counter (set_all g ops)) i = Some (flag_after ops ym)).
  { intros i ym Hi. apply (set_all_nth ops y1 m1 n g i 0 ym W0 Hi). cbn [g yc_counter]. apply nth_error_repeat.
    assert (i < length l)%nat by (apply nth_error_Some; congruence). destruct M. lia. }
  assert (FO : flags_ok (yc_counter (set_all g ops))).
  { intros v Hv. apply In_nth_error in Hv. destruct Hv as [i Hi].
    assert (i < length (yc_counter (set_all g ops)))%nat by (apply nth_error_Some; congruence).
    destruct W as [_ [_ Wc]]. destruct (nth_error l i) as [ym|] eqn:E.
    - rewrite (V i ym E) in Hi. injection Hi as <-. apply flag_after_01; auto.
    - apply nth_error_None in E. destruct M. lia. }
  destruct (get_chunks_list gap _ G FO) as [ch [C L]].
  pose proof (chunk_list_iff _ _ _ L) as IFF. destruct L as [L1 [L2 L3]].
  assert (R : forall p, In p ch -> 0 <= fst p < n /\ 0 <= snd p < n).
  { intros p Hp. destruct (L1 p Hp) as [P1 [P2 _]]. apply data_range in P1, P2. destruct W as [_ [_ Wc]]. lia. }
  pose proof (yield_loop_ok y1 m1 n _ gap ch [] W R) as Y. cbn [length Z.of_nat app] in Y.
  exists g, (map (item_of (set_all g ops) gap) ch). split; [exact I|]. split.
  { unfold yield_start_and_end_dates. rewrite C. exact Y. }
  assert (Wn : yc_n (set_all g ops) = n) by apply W.
  assert (IT : forall p, In p ch -> let it := item_of (set_all g ops) gap p in
     ym_ok (item_start it) /\ ym_ok (item_end it) /\
     first_of it = month_number (y1, m1) + fst p /\ last_of it = month_number (y1, m1) + snd p /\ class_ok gap (y1, m1) (y2, m2) it).
  { intros p Hp. apply item_class_ok; [exact W|rewrite Wn; apply (R p Hp)|rewrite Wn; apply (R p Hp)]. }
  assert (DD : forall i, flagged (y1, m1) (y2, m2) ops (i + month_number (y1, m1)) <-> data (yc_counter (set_all g ops)) i).
  { intro i. split.
    - intros [K1 [ym [K2 [K3 K4]]]]. split; [lia|].
      pose proof (months_of_nth y1 m1 n l ym M K2 ltac:(lia)) as K5. rewrite K3 in K5.
      replace (i + month_number (y1, m1) - month_number (y1, m1)) with i in K5 by lia. rewrite (V _ _ K5). now rewrite K4.
    - intro K. pose proof (data_range _ _ K) as RK. destruct K as [K0 K]. assert (Z.of_nat (length l) = n) by apply M.
      assert (RK' : 0 <= i < n) by (destruct W as [_ [_ Wc]]; lia).
      destruct (nth_error l (Z.to_nat i)) as [ym|] eqn:E; [|apply nth_error_None in E; lia].
      rewrite (V _ _ E) in K. destruct (proj2 M _ _ E) as [E1 E2]. split; [unfold n in RK'; lia|].
      exists ym. repeat split; try apply E1; [lia|congruence]. }
  split; [|split].
  - intros it Hit. apply in_map_iff in Hit. destruct Hit as [p [<- Hp]]. pose proof (IT p Hp) as Q. cbv zeta in Q. tauto.
  - intros s e. 
    rewrite <- (Z.sub_add (month_number (y1, m1)) s), <- (Z.sub_add (month_number (y1, m1)) e).
    rewrite (chunk_of_shift gap _ _ _ _ _ DD). change (chunk_of gap (data ?c)) with (is_chunk gap c). rewrite <- IFF.
    split.
    + intros [it [Hit [Q1 Q2]]]. apply in_map_iff in Hit. destruct Hit as [p [<- Hp]].
      destruct (IT p Hp) as [_ [_ [P1 [P2 _]]]]. rewrite P1 in Q1. rewrite P2 in Q2.
      replace (s - month_number (y1, m1)) with (fst p) by lia. replace (e - month_number (y1, m1)) with (snd p) by lia. now destruct p.
    + intro Hp. exists (item_of (set_all g ops) gap (s - month_number (y1, m1), e - month_number (y1, m1))).
      split; [now apply in_map|]. destruct (IT _ Hp) as [_ [_ [P1 [P2 _]]]]. cbn [fst snd] in P1, P2. lia.
  - clear Y C L2 IFF. induction ch as [|p ch IH]; cbn [map]; [constructor|]. inversion L3; subst. constructor.
    + apply IH; intros; auto; [apply L1|apply R|apply IT]; now right.
    + rewrite Forall_forall in *. intros it Hit. apply in_map_iff in Hit. destruct Hit as [q [<- Hq]].
      destruct (IT p (or_introl eq_refl)) as [_ [_ [_ [P2 _]]]]. destruct (IT q (or_intror Hq)) as [_ [_ [Q1 _]]].
      specialize (H5 q Hq). unfold after in H5. lia.
Qed.
