(** C74: reports, variables and flags by position. *)
Require Import String ZArith QArith List Bool Lia.
Require Import Verif.M_Base Verif.L_Base Verif.M_Report Verif.S_Report Verif.L_Report Verif.L_Report3 Verif.S_Voyage Verif.L_Voyage Verif.M_VoyageAcc Verif.S_VoyageAcc.
Import ListNotations.
Open Scope string_scope.
Open Scope list_scope.
Open Scope Z_scope.

(* ---- lemmas ---- *)
Lemma ok_inj : forall A (a b : A), Ok a = Ok b -> a = b.
Proof. congruence. Qed.
Lemma stands_fun : forall n p i j, stands_for n p i -> stands_for n p j -> i = j.
Proof. unfold stands_for. intros. lia. Qed.
Lemma py_index_ok : forall n p i, py_index n p = Ok i <-> stands_for n p i.
Proof.
  intros n p i. unfold py_index, stands_for. destruct (p <? 0) eqn:E; [apply Z.ltb_lt in E|apply Z.ltb_ge in E].
  - destruct ((p + Z.of_nat n <? 0) || (Z.of_nat n <=? p + Z.of_nat n)) eqn:F.
    + apply orb_true_iff in F. rewrite Z.ltb_lt, Z.leb_le in F. split; [discriminate|]. lia.
    + apply orb_false_iff in F. rewrite Z.ltb_ge, Z.leb_gt in F. split; [intro H; apply ok_inj in H; lia|]. intro H. f_equal. lia.
  - destruct ((p <? 0) || (Z.of_nat n <=? p)) eqn:F.
    + apply orb_true_iff in F. rewrite Z.ltb_lt, Z.leb_le in F. split; [discriminate|]. lia.
    + apply orb_false_iff in F. rewrite Z.ltb_ge, Z.leb_gt in F. split; [intro H; apply ok_inj in H; lia|]. intro H. f_equal. lia.
Qed.
Lemma py_index_err : forall n p, (py_index n p = Err IndexError /\ forall i, ~ stands_for n p i) \/ exists i, stands_for n p i.
Proof.
  intros n p. destruct (py_index n p) eqn:E.
  - right. exists a. now apply py_index_ok.
  - left. split.
    + unfold py_index in E |- *. destruct (_ || _); congruence.
    + intros i H. apply py_index_ok in H. congruence.
Qed.
Lemma py_nth_index : forall A (l : list A) p, py_nth l p = let! i := py_index (length l) p in match nth_error l i with Some a => Ok a | None => Err IndexError end.
Proof. intros A l p. unfold py_nth, py_index. destruct (_ || _); reflexivity. Qed.
Lemma py_nth_ok : forall A (l : list A) p a, py_nth l p = Ok a <-> exists i, stands_for (length l) p i /\ nth_error l i = Some a.
Proof.
  intros A l p a. rewrite py_nth_index. split.
  - intro H. apply bind_Ok in H. destruct H as [i [B C]]. exists i. apply py_index_ok in B. split; [exact B|].
    destruct (nth_error l i); congruence.
  - intros [i [B C]]. apply py_index_ok in B. rewrite B. cbn [bind]. now rewrite C.
Qed.
Lemma py_nth_err : forall A (l : list A) p, (forall i, ~ stands_for (length l) p i) -> py_nth l p = Err IndexError.
Proof.
  intros A l p H. rewrite py_nth_index. destruct (py_index_err (length l) p) as [[E _]|[i S]]; [now rewrite E|now elim (H i)].
Qed.
Lemma update_split : forall A (l : list A) i a b, nth_error l i = Some a -> exists x y, length x = i /\ l = x ++ a :: y /\ update_nth i b l = x ++ b :: y.
Proof.
  intros A l. induction l as [|h l IH]; intros [|i] a b H; try discriminate; cbn in H.
  - exists [], l. cbn. repeat split. congruence.
  - destruct (IH i a b H) as [x [y [E [F G]]]]. exists (h :: x), y. cbn. rewrite E, <- F, G. auto.
Qed.
Lemma only_at_length : forall i r r' v w, only_at i r r' v w -> length w = length v.
Proof. intros i r r' v w [a [b [_ [-> ->]]]]. now rewrite !app_length. Qed.
Lemma only_at_nth : forall i r r' v w, only_at i r r' v w -> nth_error v i = Some r /\ nth_error w i = Some r' /\ forall j, j <> i -> nth_error w j = nth_error v j.
Proof.
  intros i r r' v w [a [b [<- [-> ->]]]]. rewrite !nth_error_app2, !Nat.sub_diag by lia. do 2 (split; [reflexivity|]).
  intros j N. destruct (Nat.lt_ge_cases j (length a)); [now rewrite !nth_error_app1|]. rewrite !nth_error_app2 by lia.
  destruct (j - length a)%nat eqn:E; [lia|reflexivity].
Qed.

Lemma pop_split : forall A (a : list A) r b, firstn (length a) (a ++ r :: b) ++ skipn (S (length a)) (a ++ r :: b) = a ++ b.
Proof. intros A a r b. induction a as [|h a IH]; [reflexivity|]. cbn [length firstn app skipn]. f_equal. exact IH. Qed.

(* ---- reading ---- *)

(** getrep(p) gives the report in the place p stands for, and raises IndexError when p stands for none. *)
Theorem C74_get : forall v p,
  (forall i r, stands_for (length v) p i -> nth_error v i = Some r -> getrep v p = Ok r) /\
  ((forall i, ~ stands_for (length v) p i) -> getrep v p = Err IndexError).
Proof.
  intros v p. split; [|apply py_nth_err]. intros i r S N. apply py_nth_ok. eauto.
Qed.
Print Assumptions C74_get.

(** A position is accepted exactly when it is in -n ... n-1, and stands for one place. *)
Theorem C74_range : forall v p, (exists r, getrep v p = Ok r) <-> - voyage_len v <= p < voyage_len v.
Proof.
  intros v p. unfold getrep, voyage_len. split.
  - intros [r H]. apply py_nth_ok in H. destruct H as [i [[A B] _]]. lia.
  - intro H. destruct (nth_error v (Z.to_nat (if p <? 0 then p + Z.of_nat (length v) else p))) as [r|] eqn:E.
    + exists r. apply py_nth_ok. eexists. split; [|exact E]. unfold stands_for. destruct (p <? 0) eqn:F; [apply Z.ltb_lt in F|apply Z.ltb_ge in F]; lia.
    + apply nth_error_None in E. destruct (p <? 0) eqn:F; [apply Z.ltb_lt in F|apply Z.ltb_ge in F]; lia.
Qed.
Print Assumptions C74_range.

(** Variables and flags read by position are those of the report in that place. *)
Theorem C74_read : forall v p name t f,
  (forall r, getrep v p = Ok r -> voyage_getvar v p name = Ok (getvar r name) /\ voyage_get_qc v p t f = Ok (get_qc r t f)) /\
  (forall e, getrep v p = Err e -> voyage_getvar v p name = Err e /\ voyage_get_qc v p t f = Err e).
Proof. intros v p name t f. unfold getrep, voyage_getvar, voyage_get_qc. split; intros x H; rewrite H; split; reflexivity. Qed.
Print Assumptions C74_read.

(** last_rep is the report added last. *)
Theorem C74_last : forall v r, last_rep (v ++ [r]) = Ok r /\ getrep (v ++ [r]) (-1) = Ok r.
Proof.
  intros v r. split; apply py_nth_ok; exists (length v); (split; [|rewrite nth_error_app2, Nat.sub_diag by lia; reflexivity]);
    unfold stands_for, voyage_len; rewrite app_length; cbn [length]; lia.
Qed.
Print Assumptions C74_last.

(** A voyage without reports has no last report: IndexError. *)
Theorem C74_last_empty : last_rep [] = Err IndexError.
Proof. reflexivity. Qed.
Print Assumptions C74_last_empty.

(* ---- writing ---- *)

(** An accepted flag is written to the report in that place only, and nothing else changes. *)
Theorem C74_set_flag : forall v p t f x v', voyage_set_qc v p t f x = Ok v' ->
  exists i r r', stands_for (length v) p i /\ only_at i r r' v v' /\ unchanged_but t f r r' /\ get_qc r' t f = x.
Proof.
  intros v p t f x v' H. unfold voyage_set_qc in H. apply bind_Ok in H. destruct H as [r [A H]].
  apply bind_Ok in H. destruct H as [i [B H]]. apply bind_Ok in H. destruct H as [r' [C H]]. apply ok_inj in H. subst v'.
  apply py_nth_ok in A. destruct A as [j [S N]]. apply py_index_ok in B. assert (j = i) by (eapply stands_fun; eauto). subst j.
  exists i, r, r'. split; [exact S|]. split; [|split; [eapply set_qc_unch; eauto|eapply set_get_same; eauto]].
  destruct (update_split _ v i r r' N) as [a [b [E [F G]]]]. exists a, b. auto.
Qed.
Print Assumptions C74_set_flag.

(** Which calls are accepted: a position of the voyage, a value from 0 to 9 and a variable name or POS. *)
Theorem C74_set_flag_accepts : forall v p t f x,
  (exists v', voyage_set_qc v p t f x = Ok v') <-> (- voyage_len v <= p < voyage_len v /\ accepted (t, f, x)).
Proof.
  intros v p t f x. rewrite <- C74_range. split.
  - intros [v' H]. unfold voyage_set_qc in H. apply bind_Ok in H. destruct H as [r [A H]].
    apply bind_Ok in H. destruct H as [i [B H]]. apply bind_Ok in H. destruct H as [r' [C H]].
    split; [now exists r|]. destruct (set_qc_spec r t f x) as [[K _]|[_ K]]; [exact K|congruence].
  - intros [[r A] K]. unfold getrep in A. unfold voyage_set_qc. rewrite A. cbn [bind]. apply py_nth_ok in A. destruct A as [i [S N]].
    apply py_index_ok in S. rewrite S. cbn [bind]. destruct (set_qc_spec r t f x) as [[_ E]|[E _]]; [|contradiction]. rewrite E. cbn [bind]. eauto.
Qed.
Print Assumptions C74_set_flag_accepts.

(** An accepted variable is written to the report in that place only; its flags and other variables stay. *)
Theorem C74_set_var : forall v p name x v', (forall r, In r v -> length (r_data r) = length variables) ->
  voyage_setvar v p name x = Ok v' ->
  exists i r r', stands_for (length v) p i /\ only_at i r r' v v' /\
    getvar r' name = match x with Some q => Some (if mem name integer_variables then inject_Z (M_Base.py_int q) else q) | None => None end /\
    (forall other, other <> name -> getvar r' other = getvar r other) /\
    (forall t f, get_qc r' t f = get_qc r t f) /\ r_id r' = r_id r.
Proof.
  intros v p name x v' W H. unfold voyage_setvar in H. apply bind_Ok in H. destruct H as [r [A H]].
  apply bind_Ok in H. destruct H as [i [B H]]. apply bind_Ok in H. destruct H as [r' [C H]]. apply ok_inj in H. subst v'.
  apply py_nth_ok in A. destruct A as [j [S N]]. apply py_index_ok in B. assert (j = i) by (eapply stands_fun; eauto). subst j.
  exists i, r, r'. split; [exact S|]. destruct (update_split _ v i r r' N) as [a [b [E [F G]]]].
  split; [exists a, b; auto|]. split; [refine (set_get_var r name x r' _ C); apply W; eapply nth_error_In; eauto|].
  split; [intros; eapply set_get_other_var; eauto|]. pose proof (setvar_ok _ _ _ _ C) as [k [_ [_ [I [Q _]]]]].
  split; [|exact I]. intros. unfold get_qc. now rewrite Q.
Qed.
Print Assumptions C74_set_var.

(** What was written is read back, through either of the two positions of the place. *)
Theorem C74_read_back : forall v p p' i t f x v', voyage_set_qc v p t f x = Ok v' ->
  stands_for (length v) p i -> stands_for (length v) p' i -> voyage_get_qc v' p' t f = Ok x.
Proof.
  intros v p p' i t f x v' H S S'. destruct (C74_set_flag _ _ _ _ _ _ H) as [j [r [r' [A [B [_ D]]]]]].
  assert (j = i) by (eapply stands_fun; eauto). subst j. unfold voyage_get_qc.
  assert (E : py_nth v' p' = Ok r'). { apply py_nth_ok. exists i. rewrite (only_at_length _ _ _ _ _ B). split; [exact S'|]. apply (only_at_nth _ _ _ _ _ B). }
  rewrite E. cbn [bind]. now rewrite D.
Qed.
Print Assumptions C74_read_back.

Lemma do_write_at : forall v w v', do_write v w = Ok v' -> exists i r r', stands_for (length v) (place_of w) i /\ only_at i r r' v v'.
Proof.
  intros v [p name x|p t f x] v' H; cbn [do_write place_of] in *.
  - unfold voyage_setvar in H. apply bind_Ok in H. destruct H as [r [A H]].
    apply bind_Ok in H. destruct H as [i [B H]]. apply bind_Ok in H. destruct H as [r' [C H]]. apply ok_inj in H. subst v'.
    apply py_nth_ok in A. destruct A as [j [S N]]. apply py_index_ok in B. assert (j = i) by (eapply stands_fun; eauto). subst j.
    exists i, r, r'. split; [exact S|]. destruct (update_split _ v i r r' N) as [a [b [E [F G]]]]. exists a, b. auto.
  - destruct (C74_set_flag _ _ _ _ _ _ H) as [i [r [r' [A [B _]]]]]. eauto.
Qed.

(** Any history of writes keeps the number of reports, and the reports in places never written to. *)
Theorem C74_history : forall v l v', writes v l v' -> length v' = length v /\
  forall i, (forall w, In w l -> ~ stands_for (length v) (place_of w) i) -> nth_error v' i = nth_error v i.
Proof.
  intros v l v' H. induction H as [v|v w v1 l v2 D H [L K]]; [auto|].
  destruct (do_write_at _ _ _ D) as [j [r [r' [S O]]]]. pose proof (only_at_length _ _ _ _ _ O) as M. split; [congruence|].
  intros i Q. rewrite K; [|rewrite M; intros; apply Q; now right].
  apply (only_at_nth _ _ _ _ _ O). intros ->. apply (Q w); [now left|exact S].
Qed.
Print Assumptions C74_history.

(* ---- Deck.pop ---- *)

(** pop takes out the report in that place and keeps the others in order; outside the deck it raises IndexError. *)
Theorem C74_pop : forall d p,
  (forall r d', deck_pop d p = Ok (r, d') -> exists a b, d_reps d = a ++ r :: b /\ d_reps d' = a ++ b /\ stands_for (length (d_reps d)) p (length a)) /\
  (forall a r b, d_reps d = a ++ r :: b -> stands_for (length (d_reps d)) p (length a) -> exists d', deck_pop d p = Ok (r, d') /\ d_reps d' = a ++ b) /\
  ((forall i, ~ stands_for (length (d_reps d)) p i) -> deck_pop d p = Err IndexError).
Proof.
  intros d p. unfold deck_pop. split; [|split].
  - intros r d' H. apply bind_Ok in H. destruct H as [r0 [A H]]. apply bind_Ok in H. destruct H as [i [B H]].
    apply ok_inj in H. injection H as -> <-. cbn [d_reps]. apply py_nth_ok in A. destruct A as [j [S N]]. apply py_index_ok in B.
    assert (j = i) by (eapply stands_fun; eauto). subst j. destruct (update_split _ _ i r r N) as [a [b [<- [F _]]]]. exists a, b.
    split; [exact F|]. split; [|exact S]. rewrite F. apply pop_split.
  - intros a r b F S. assert (A : py_nth (d_reps d) p = Ok r). { apply py_nth_ok. exists (length a). split; [exact S|]. rewrite F, nth_error_app2, Nat.sub_diag by lia. reflexivity. }
    rewrite A. cbn [bind]. apply py_index_ok in S. rewrite S. cbn [bind]. eexists. split; [reflexivity|]. cbn [d_reps]. rewrite F.
    apply pop_split.
  - intro H. now rewrite (py_nth_err _ _ _ H).
Qed.
Print Assumptions C74_pop.

(* ---- a case ---- *)
Definition blank (id : string) : report :=
  {| r_id := Some id; r_uid := None; r_data := repeat None 26; r_dt := None; r_qc := []; r_ext := []; r_clim := [] |}.
Definition three : list report := [blank "A"; blank "B"; blank "C"].

Example C74_ex : stands_for (length three) (-3) 0 /\ stands_for (length three) 0 0 /\ (forall i, ~ stands_for (length three) 3 i) /\
  (forall r, In r three -> length (r_data r) = length variables) /\
  match voyage_set_qc three (-3) "SST" "bud" 1, voyage_setvar three 1 "AT" (Some 15%Q) with
  | Ok v, Ok w => voyage_get_qc v 0 "SST" "bud" = Ok 1 /\ voyage_get_qc v 1 "SST" "bud" = Ok 9 /\
                  voyage_getvar w (-2) "AT" = Ok (Some 15%Q) /\ voyage_getvar w 2 "AT" = Ok None
  | _, _ => False
  end.
Proof.
  unfold stands_for. cbn [three length]. split; [lia|]. split; [lia|]. split; [lia|].
  split; [intros r [<-|[<-|[<-|[]]]]; reflexivity|]. vm_compute. auto.
Qed.

(** pop leaves the platform index of the deck as it was, so the index may name a place that no longer exists:
    after taking the only report out of a deck, going through its platforms raises IndexError. *)
Theorem C74_pop_index_refuted : exists d r d', d = deck_append new_deck (blank "A") /\ deck_pop d 0 = Ok (r, d') /\
  platforms d = Ok [[O]] /\ platforms d' = Err IndexError.
Proof. eexists. eexists. eexists. repeat split; vm_compute; reflexivity. Qed.
Print Assumptions C74_pop_index_refuted.
