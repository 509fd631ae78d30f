(** Lemmas about reports, flags, filters and decks. *)
Require Import String Ascii ZArith QArith Qround List Bool Lia Permutation Sorting.Sorted.
Require Import ZifyBool.
Require Import Verif.M_Base Verif.L_Base Verif.S_Calendar Verif.M_Calendar Verif.M_Report Verif.S_Report.
Import ListNotations.
Open Scope string_scope.
Open Scope list_scope.
Open Scope Z_scope.

Lemma mem_In : forall s l, mem s l = true <-> In s l.
Proof.
  intros s l. unfold mem. rewrite existsb_exists. split.
  - intros [x [A B]]. apply String.eqb_eq in B. now subst.
  - intro H. exists s. split; [exact H|apply String.eqb_refl].
Qed.
Lemma mem_false : forall s l, mem s l = false <-> ~ In s l.
Proof. intros s l. rewrite <- mem_In. destruct (mem s l); intuition discriminate. Qed.

(* ---- flags ---- *)

Lemma known_type : forall t, mem t special_qc_types || mem t VARLIST = true <-> t = "POS" \/ In t variables.
Proof.
  intro t. rewrite orb_true_iff, !mem_In. change VARLIST with variables. split.
  - intros [H|H]; [|now right]. cbn in H.
    destruct H as [<-|[<-|[<-|[<-|[<-|[<-|[<-|[]]]]]]]]; [now left|right; cbn; tauto ..].
  - intros [->|H]; [left; cbn; tauto|now right].
Qed.

Lemma set_qc_spec : forall r t f v,
  (accepted (t, f, v) /\ set_qc r t f v = Ok (with_qc r (((t ++ f)%string, v) :: r_qc r))) \/
  (~ accepted (t, f, v) /\ set_qc r t f v = Err AssertionError).
Proof.
  intros r t f v. unfold set_qc, accepted, att_value, att_type. cbn [fst snd].
  destruct ((0 <=? v) && (v <=? 9)) eqn:A; cbn [py_assert bind].
  - destruct (mem t special_qc_types || mem t VARLIST) eqn:B; cbn [py_assert bind].
    + left. apply known_type in B. split; [split; [lia|exact B]|reflexivity].
    + right. split; [|reflexivity]. intros [_ K]. apply known_type in K. congruence.
  - right. split; [|reflexivity]. intros [K _]. lia.
Qed.

(** An attempt that raises leaves the report as it was. *)
Definition try_set (r : report) (a : attempt) : report :=
  match set_qc r (fst (fst a)) (snd (fst a)) (snd a) with Ok r' => r' | Err _ => r end.

Lemma get_try_set : forall r a t f,
  get_qc (try_set r a) t f =
  match set_qc r (att_type a) (att_flag a) (att_value a) with
  | Ok _ => if String.eqb (t ++ f) (att_type a ++ att_flag a) then att_value a else get_qc r t f
  | Err _ => get_qc r t f
  end.
Proof.
  intros r [[t0 f0] v0] t f. unfold try_set, att_type, att_flag, att_value. cbn [fst snd].
  destruct (set_qc_spec r t0 f0 v0) as [[A ->]|[A ->]]; [|reflexivity].
  unfold get_qc. cbn [with_qc r_qc assoc]. now destruct (String.eqb (t ++ f) (t0 ++ f0)).
Qed.

Lemma set_get_same : forall r t f v r', set_qc r t f v = Ok r' -> get_qc r' t f = v.
Proof.
  intros r t f v r' H. destruct (set_qc_spec r t f v) as [[A E]|[A E]]; rewrite E in H; [|discriminate].
  injection H as <-. unfold get_qc. cbn [with_qc r_qc assoc]. now rewrite String.eqb_refl.
Qed.
Lemma set_get_other : forall r t f v r' t' f', set_qc r t f v = Ok r' -> ~ same_key t f t' f' -> get_qc r' t' f' = get_qc r t' f'.
Proof.
  intros r t f v r' t' f' H K. destruct (set_qc_spec r t f v) as [[A E]|[A E]]; rewrite E in H; [|discriminate].
  injection H as <-. unfold get_qc. cbn [with_qc r_qc assoc].
  destruct (String.eqb_spec (t' ++ f') (t ++ f)); [|reflexivity]. exfalso. apply K. unfold same_key. congruence.
Qed.

Lemma history_last : forall before a after r t f, accepted a -> same_key (att_type a) (att_flag a) t f ->
  (forall b, In b after -> accepted b -> ~ same_key (att_type b) (att_flag b) t f) ->
  get_qc (fold_left try_set (before ++ a :: after) r) t f = att_value a.
Proof.
  intros before a after r t f A K H. rewrite fold_left_app. cbn [fold_left].
  set (r0 := fold_left try_set before r).
  assert (E : get_qc (try_set r0 a) t f = att_value a).
  { rewrite get_try_set. destruct a as [[t0 f0] v0]. unfold att_type, att_flag, att_value in *. cbn [fst snd] in *.
    destruct (set_qc_spec r0 t0 f0 v0) as [[_ ->]|[B _]]; [|contradiction]. unfold same_key in K.
    destruct (String.eqb_spec (t ++ f) (t0 ++ f0)); [reflexivity|congruence]. }
  revert E. generalize (try_set r0 a). clear r0. induction after as [|b after IH]; intros r1 E; [exact E|].
  cbn [fold_left]. apply IH; [intros; apply H; [now right|assumption]|]. rewrite get_try_set.
  destruct b as [[t1 f1] v1]. destruct (set_qc_spec r1 (att_type (t1, f1, v1)) (att_flag (t1, f1, v1)) (att_value (t1, f1, v1))) as [[B ->]|[B ->]]; [|exact E].
  destruct (String.eqb_spec (t ++ f) (att_type (t1, f1, v1) ++ att_flag (t1, f1, v1))) as [Q|Q]; [|exact E].
  exfalso. apply (H (t1, f1, v1)); [now left|exact B|]. unfold same_key. congruence.
Qed.

Lemma history_none : forall ops r t f,
  (forall b, In b ops -> accepted b -> ~ same_key (att_type b) (att_flag b) t f) ->
  get_qc (fold_left try_set ops r) t f = get_qc r t f.
Proof.
  induction ops as [|b ops IH]; intros r t f H; [reflexivity|]. cbn [fold_left].
  rewrite IH by (intros; apply H; [now right|assumption]). rewrite get_try_set.
  destruct b as [[t1 f1] v1]. destruct (set_qc_spec r (att_type (t1, f1, v1)) (att_flag (t1, f1, v1)) (att_value (t1, f1, v1))) as [[B ->]|[B ->]]; [|reflexivity].
  destruct (String.eqb_spec (t ++ f) (att_type (t1, f1, v1) ++ att_flag (t1, f1, v1))) as [Q|Q]; [|reflexivity].
  exfalso. apply (H (t1, f1, v1)); [now left|exact B|]. unfold same_key. congruence.
Qed.

Lemma calculate_dt_qc : forall r r', calculate_dt r = Ok r' -> r_qc r' = r_qc r /\ r_id r' = r_id r /\ r_data r' = r_data r /\ r_ext r' = r_ext r.
Proof.
  intros r r' H. unfold calculate_dt in H.
  destruct (getint r "YR"); [|injection H as <-; auto].
  destruct (getint r "MO"); [|injection H as <-; auto].
  destruct (getvar r "HR"); [|injection H as <-; auto].
  destruct (getint r "DY"); [|injection H as <-; auto].
  destruct (0 <? z1); [|injection H as <-; auto].
  apply bind_Ok in H. destruct H as [ml [_ H]]. destruct (z1 <=? ml); [|injection H as <-; auto].
  apply bind_Ok in H. destruct H as [dt [_ H]]. injection H as <-. auto.
Qed.

Lemma new_report_qc : forall id uid fields r, new_report id uid fields = Ok r -> r_qc r = [] /\ r_id r = id /\ r_data r = init_data fields.
Proof.
  intros id uid fields r H. unfold new_report in H. apply bind_Ok in H. destruct H as [r1 [A B]].
  apply calculate_dt_qc in A. cbn [r_qc r_id r_data] in A. unfold calculate_dsi_vsi in B. apply bind_Ok in B. destruct B as [dsi [_ B]].
  injection B as <-. unfold setext, with_ext. cbn [r_qc r_id r_data]. intuition.
Qed.

Lemma new_report_flags : forall id uid fields r t f, new_report id uid fields = Ok r -> get_qc r t f = 9.
Proof. intros id uid fields r t f H. apply new_report_qc in H. unfold get_qc. now rewrite (proj1 H). Qed.

(** Flag values are always 0..9. *)
Lemma history_range : forall ops r t f, (forall t f, 0 <= get_qc r t f <= 9) -> 0 <= get_qc (fold_left try_set ops r) t f <= 9.
Proof.
  induction ops as [|[[t1 f1] v1] ops IH]; intros r t f H; [apply H|]. cbn [fold_left]. apply IH. intros t' f'. rewrite get_try_set.
  destruct (set_qc_spec r (att_type (t1, f1, v1)) (att_flag (t1, f1, v1)) (att_value (t1, f1, v1))) as [[B ->]|[B ->]]; [|apply H].
  destruct (String.eqb _ _); [|apply H]. destruct B. exact H0.
Qed.

(** Keys determine type and flag when types are upper case and flags start lower case. *)
Lemma key_injective : forall t t' f f', type_name t -> type_name t' -> flag_name f -> flag_name f' ->
  same_key t f t' f' -> t = t' /\ f = f'.
Proof.
  unfold same_key, type_name. induction t as [|c t IH]; intros t' f f' T T' F F' K.
  - destruct t' as [|c' t']; [split; [reflexivity|exact K]|]. exfalso. destruct F as [d [s [-> D]]]. cbn in K.
    injection K as -> _. destruct T' as [T' _]. unfold upper_or_digit, lower in *. lia.
  - destruct t' as [|c' t'].
    + exfalso. destruct F' as [d [s [-> D]]]. cbn in K. injection K as -> _. destruct T as [T _]. unfold upper_or_digit, lower in *. lia.
    + cbn in K. injection K as -> K. destruct T as [_ T]. destruct T' as [_ T']. destruct (IH t' f f' T T' F F' K) as [-> ->]. auto.
Qed.

Lemma variables_type_names : forall t, t = "POS" \/ In t variables -> type_name t.
Proof.
  intros t H. assert (E : In t ("POS" :: variables)) by (destruct H; [left; congruence|now right]). clear H.
  repeat (destruct E as [<-|E]; [unfold type_name, all_chars, upper_or_digit; cbn; lia|]). destruct E.
Qed.

(* ---- filters ---- *)

Lemma test_report_spec : forall f r,
  (test_report f r = 0 <-> forall t fl v, In (t, fl, v) f -> get_qc r t fl = v) /\ (test_report f r = 0 \/ test_report f r = 1).
Proof.
  intros f r. unfold test_report.
  assert (G : forall f a, (a = 0 \/ a = 1) ->
    let x := fold_left (fun result c => if get_qc r (fst (fst c)) (snd (fst c)) =? snd c then result else 1) f a in
    (x = 0 <-> a = 0 /\ forall t fl v, In (t, fl, v) f -> get_qc r t fl = v) /\ (x = 0 \/ x = 1)).
  { clear f. induction f as [|[[t fl] v] f IH]; intros a Ha; cbn [fold_left fst snd].
    - split; [|exact Ha]. split; [intro; split; [assumption|intros ? ? ? []]|tauto].
    - destruct (get_qc r t fl =? v) eqn:E.
      + destruct (IH a Ha) as [A B]. split; [|exact B]. rewrite A. split; intros [C D]; (split; [exact C|]).
        * intros t' fl' v' [Q|Q]; [injection Q as <- <- <-; lia|now apply D].
        * intros t' fl' v' Q. apply D. now right.
      + destruct (IH 1 (or_intror eq_refl)) as [A B]. split; [|exact B]. split.
        * intro C. apply A in C. destruct C. discriminate.
        * intros [_ D]. specialize (D t fl v (or_introl eq_refl)). lia. }
  destruct (G f 0 (or_introl eq_refl)) as [A B]. split; [|exact B]. rewrite A. tauto.
Qed.

Lemma split_loop_spec : forall f l d p q, d_reps d = l ->
  exists p' q' d', split_loop f (length l) d p q = Ok (p', q', d') /\ d_reps d' = [] /\
    d_reps p' = d_reps p ++ filter (fun r => test_report f r =? 0) l /\
    d_reps q' = d_reps q ++ filter (fun r => negb (test_report f r =? 0)) l /\
    p' = fold_left deck_append (filter (fun r => test_report f r =? 0) l) p /\
    q' = fold_left deck_append (filter (fun r => negb (test_report f r =? 0)) l) q.
Proof.
  intro f. induction l as [|r l IH]; intros d p q H; cbn [length split_loop filter].
  - exists p, q, d. rewrite !app_nil_r. auto 10.
  - unfold deck_pop0. rewrite H. cbn [bind].
    set (d' := {| d_reps := l; d_ids := d_ids d; d_filter := d_filter d |}).
    destruct (test_report f r =? 0) eqn:E; cbn [negb].
    + destruct (IH d' (deck_append p r) q eq_refl) as [p' [q' [d'' [A [B [C [D [F G]]]]]]]]. exists p', q', d''.
      split; [exact A|]. split; [exact B|]. split; [rewrite C; cbn [deck_append d_reps]; now rewrite <- app_assoc|]. split; [exact D|]. split; [exact F|exact G].
    + destruct (IH d' p (deck_append q r) eq_refl) as [p' [q' [d'' [A [B [C [D [F G]]]]]]]]. exists p', q', d''.
      split; [exact A|]. split; [exact B|]. split; [exact C|]. split; [rewrite D; cbn [deck_append d_reps]; now rewrite <- app_assoc|]. split; [exact F|exact G].
Qed.

Lemma split_reports_spec : forall f d,
  exists p q d', split_reports f d = Ok (p, q, d') /\ d_reps d' = [] /\
    d_reps p = filter (fun r => test_report f r =? 0) (d_reps d) /\
    d_reps q = filter (fun r => negb (test_report f r =? 0)) (d_reps d) /\
    p = fold_left deck_append (d_reps p) new_deck /\ q = fold_left deck_append (d_reps q) new_deck.
Proof.
  intros f d. destruct (split_loop_spec f (d_reps d) d new_deck new_deck eq_refl) as [p [q [d' [A [B [C [D [F G]]]]]]]].
  exists p, q, d'. unfold split_reports. cbn [new_deck d_reps app] in C, D.
  split; [exact A|]. split; [exact B|]. split; [exact C|]. split; [exact D|]. rewrite C, D. auto.
Qed.

Lemma filter_partition : forall A (f : A -> bool) l, Permutation (filter f l ++ filter (fun x => negb (f x)) l) l.
Proof.
  intros A f. induction l as [|x l IH]; [constructor|]. cbn [filter]. destruct (f x); cbn [negb app].
  - now constructor.
  - symmetry. apply Permutation_cons_app. now symmetry.
Qed.

Lemma history_range_new : forall id uid fields r ops t f, new_report id uid fields = Ok r -> 0 <= get_qc (fold_left try_set ops r) t f <= 9.
Proof. intros id uid fields r ops t f N. apply history_range. intros t' f'. rewrite (new_report_flags _ _ _ _ _ _ N). lia. Qed.

Lemma split_partition : forall f d p q d', split_reports f d = Ok (p, q, d') -> Permutation (d_reps p ++ d_reps q) (d_reps d).
Proof.
  intros f d p q d' H. destruct (split_reports_spec f d) as [p0 [q0 [d0 [E [_ [A [B _]]]]]]]. rewrite E in H. injection H as <- <- <-.
  rewrite A, B. apply filter_partition.
Qed.
