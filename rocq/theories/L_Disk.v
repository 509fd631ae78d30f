(** Proofs about the disk. *)
Require Import String Ascii ZArith List Bool Lia Sorted Permutation.
Require Import Verif.M_Base Verif.L_Base Verif.S_Calendar Verif.M_Imma Verif.S_Imma Verif.L_Imma Verif.M_Report Verif.S_Report Verif.M_Files Verif.S_Files Verif.L_Files Verif.M_Print Verif.S_Print Verif.L_Print
  Verif.M_Track Verif.M_Disk Verif.S_Disk Verif.M_Main Verif.L_Main Verif.L_Reading Verif.L_Reading2 Verif.L_Reading3.
Import ListNotations.
Open Scope string_scope.
Open Scope list_scope.
Open Scope Z_scope.

Definition at_path (q : string) (f : file) : bool := String.eqb q (fst f).
(** The disk at a path depends on the files of that path only. *)
Lemma store_ext : forall files d d' q, d q = d' q -> store files d q = store files d' q.
Proof.
  induction files as [|f files IH]; intros d d' q H; [exact H|]. cbn. apply IH. unfold write_file. destruct (String.eqb q (fst f)); [reflexivity|exact H].
Qed.
Lemma store_filter : forall files d q, store files d q = store (filter (at_path q) files) d q.
Proof.
  induction files as [|f files IH]; intros d q; [reflexivity|]. cbn. unfold at_path at 1. destruct (String.eqb q (fst f)) eqn:E.
  - cbn. apply IH.
  - rewrite <- IH. apply store_ext. unfold write_file. now rewrite E.
Qed.
Lemma store_none : forall files d q, ~ In q (map fst files) -> store files d q = d q.
Proof.
  induction files as [|f files IH]; intros d q H; [reflexivity|]. cbn. rewrite IH by (intro K; apply H; now right). unfold write_file. destruct (String.eqb_spec q (fst f)) as [->|_]; [|reflexivity].
  exfalso. apply H. now left.
Qed.
Lemma store_some : forall (files : list file) q, In q (map fst files) -> exists c, In (q, c) files /\ forall d', store files d' q = Some c.
Proof.
  induction files as [|f files IH]; intros q H; [destruct H|]. destruct (in_dec string_dec q (map fst files)) as [I|N].
  - destruct (IH q I) as [c [C1 C2]]. exists c. split; [now right|]. intro d'. cbn. apply C2.
  - destruct H as [<-|H]; [|contradiction]. exists (snd f). split; [left; now destruct f|]. intro d'. cbn. rewrite store_none by exact N. unfold write_file. now rewrite String.eqb_refl.
Qed.
Lemma stopped_paths : forall files d d', stopped_often files d d' -> forall q, ~ In q (map fst files) -> d' q = d q.
Proof.
  intros files d d' H. induction H as [|d' d'' _ IH S]; intros q N; [reflexivity|]. destruct (S q) as [E|[c [t [I _]]]]; [now rewrite E, IH|].
  exfalso. apply N. apply in_map_iff. exists (q, c). auto.
Qed.

(** Shares that have no path in common. *)
Definition no_common (p p' : list file) : Prop := forall f g, In f p -> In g p' -> fst f <> fst g.
Definition all_apart (parts : list (list file)) : Prop := ForallOrdPairs no_common parts.
Lemma apart_sub : forall a x p b, all_apart (a ++ (x :: p) :: b) -> all_apart (a ++ p :: b).
Proof.
  induction a as [|h a IH]; intros x p b H; cbn in *; inversion H as [|? ? F O]; subst.
  - constructor; [|exact O]. eapply Forall_impl; [|exact F]. intros l N f g I J. apply N; [now right|exact J].
  - constructor; [|now apply IH with x]. apply Forall_app in F as [F1 F2]. inversion F2 as [|? ? N F3]; subst. apply Forall_app. split; [exact F1|]. constructor; [|exact F3].
    intros f g I J. apply N; [exact I|now right].
Qed.
Lemma apart_before : forall a x p b q, all_apart (a ++ (x :: p) :: b) -> at_path q x = true -> filter (at_path q) (concat a) = [].
Proof.
  induction a as [|h a IH]; intros x p b q H E; [reflexivity|]. cbn in *. inversion H as [|? ? F O]; subst. rewrite filter_app, (IH x p b q O E), app_nil_r.
  apply Forall_app in F as [_ F]. inversion F as [|? ? N _]; subst. apply String.eqb_eq in E.
  assert (K : forall l, incl l h -> filter (at_path q) l = []).
  { induction l as [|g l IHl]; intro I; [reflexivity|]. cbn. unfold at_path at 1. destruct (String.eqb_spec q (fst g)) as [Z|_]; [|apply IHl; intros z Hz; apply I; now right].
    exfalso. apply (N g x); [apply I; now left|now left|congruence]. }
  apply K, incl_refl.
Qed.
Lemma interleaved_filter : forall parts l, interleaved parts l -> all_apart parts -> forall q, filter (at_path q) l = filter (at_path q) (concat parts).
Proof.
  intros parts l H. induction H as [parts F|a x p b l H IH]; intros A q.
  - clear A. induction F as [|p parts -> F IH]; [reflexivity|exact IH].
  - specialize (IH (apart_sub _ _ _ _ A) q). rewrite concat_app in *. cbn [concat] in *. rewrite !filter_app in *. cbn [filter] in *. destruct (at_path q x) eqn:E.
    + rewrite (apart_before _ _ _ _ _ A E) in *. cbn in IH |- *. now rewrite IH.
    + exact IH.
Qed.
Lemma interleaved_store : forall parts l d, interleaved parts l -> all_apart parts -> forall q, store l d q = store (concat parts) d q.
Proof. intros parts l d H A q. rewrite (store_filter l), (store_filter (concat parts)). now rewrite (interleaved_filter _ _ H A). Qed.

(** All files of a month are in its directory. *)
Definition inside (dir : string) (f : file) : Prop := exists name, fst f = (dir ++ "/" ++ name)%string.
Lemma map_r_all : forall (A B : Type) (f : A -> res B) (P : B -> Prop) l l', (forall a b, f a = Ok b -> P b) -> map_r f l = Ok l' -> Forall P l'.
Proof.
  intros A B f P l. induction l as [|a l IH]; intros l' H E; cbn in E.
  - injection E as <-. constructor.
  - destruct (f a) as [b|e] eqn:F; [|discriminate]. cbn in E. destruct (map_r f l) as [bs|e]; [|discriminate]. cbn in E. injection E as <-. constructor; [eauto|apply IH; auto].
Qed.
Lemma deck_inside : forall str vars flags reps runid dir y m files, deck_write str vars flags reps runid dir y m false = Ok files -> Forall (inside dir) files.
Proof.
  intros str vars flags reps runid dir y m files H. unfold deck_write in H. destruct (file_body _ _ _ _) as [b|e]; [|discriminate]. cbn [bind] in H.
  destruct (deck_write_qc _ _ _ _ _ _ _) as [fs|e] eqn:E; [|discriminate]. cbn [bind] in H. injection H as <-. constructor; [eexists; reflexivity|].
  unfold deck_write_qc in E. eapply map_r_all; [|exact E]. intros [v n] b' K. destruct (file_body _ _ _ _); [|discriminate]. cbn [bind] in K. injection K as <-. eexists. reflexivity.
Qed.
Lemma voyage_inside : forall str reps runid dir y m files, voyage_write_output str reps runid dir y m = Ok files -> Forall (inside dir) files.
Proof.
  intros str reps runid dir y m files H. unfold voyage_write_output in H. destruct (first_id reps) as [id|e]; [|discriminate]. cbn [bind] in H. destruct (file_body _ _ _ _) as [b|e]; [|discriminate]. cbn [bind] in H.
  destruct (voyage_write_qc _ _ _ _ _ _) as [fs|e] eqn:E; [|discriminate]. cbn [bind] in H. injection H as <-. constructor; [eexists; reflexivity|].
  unfold voyage_write_qc in E. eapply map_r_all; [|exact E]. intros [v n] b' K. destruct (first_id reps); [|discriminate]. cbn [bind] in K. destruct (file_body _ _ _ _); [|discriminate]. cbn [bind] in K. injection K as <-. eexists. reflexivity.
Qed.
Lemma drifters_inside : forall E y m ids reps names files, drifter_output E y m ids reps = Ok (names, files) -> Forall (inside (e_dir E y m)) files.
Proof.
  intros E y m ids. induction ids as [|[id l] ids IH]; intros reps names files H; cbn [drifter_output] in H.
  - injection H as <- <-. constructor.
  - destruct (voyage_of E drifter_filter reps l) as [[sel v]|e]; [|discriminate]. cbn [bind] in H.
    match type of H with bind ?X _ = _ => destruct X as [[n1 f1]|e] eqn:X1; [|discriminate] end. cbn [bind] in H.
    destruct (drifter_output E y m ids (put_back sel v reps)) as [[n2 f2]|e] eqn:X2; [|discriminate]. cbn [bind] in H. injection H as <- <-.
    apply Forall_app. split; [|exact (IH _ _ _ X2)]. destruct v as [|r v]; [injection X1 as <- <-; constructor|]. destruct (r_id r); [|injection X1 as <- <-; constructor].
    destruct (voyage_write_output _ _ _ _ _ _) as [fs|e] eqn:V; [|discriminate]. cbn [bind] in X1. injection X1 as <- <-. exact (voyage_inside _ _ _ _ _ _ _ V).
Qed.
Lemma month_inside : forall E y m files, run_month E y m = Ok files -> Forall (inside (e_dir E y m)) files.
Proof.
  intros E y m files H. unfold run_month in H. destruct (checked_deck E y m) as [d|e]; [|discriminate]. cbn [bind] in H.
  destruct (deck_write_output _ _ _ _ _ _ _) as [fs|e] eqn:D; [|discriminate]. cbn [bind] in H. pose proof (deck_inside _ _ _ _ _ _ _ _ _ D) as I.
  destruct (e_tracking E); [|injection H as <-; exact I]. destruct (drifter_output _ _ _ _ _) as [[n more]|e] eqn:X; [|discriminate]. cbn [bind] in H. injection H as <-.
  apply Forall_app. split; [exact I|]. constructor; [eexists; reflexivity|]. exact (drifters_inside _ _ _ _ _ _ _ X).
Qed.

(** Directories of different months have no path in common. *)
Lemma cut_slash : forall a b x y, chars (fun c => c <> "/"%char) a -> chars (fun c => c <> "/"%char) b -> (a ++ "/" ++ x = b ++ "/" ++ y)%string -> a = b /\ x = y.
Proof.
  induction a as [|c a IH]; intros [|c' b] x y A B H; cbn in *.
  - injection H as H. auto.
  - injection H as H _. exfalso. apply (proj1 B). now symmetry.
  - injection H as H _. exfalso. now apply (proj1 A).
  - injection H as <- H. destruct (IH b x y (proj2 A) (proj2 B) H) as [-> ->]. auto.
Qed.
Lemma append_cancel : forall a b c, (a ++ b = a ++ c)%string -> b = c.
Proof. induction a as [|x a IH]; intros b c H; [exact H|]. injection H as H. auto. Qed.
Lemma decimal_same : forall s z z', decimal s z -> decimal s z' -> z = z'.
Proof.
  intros s z z' A B. assert (K : forall z, decimal s z -> int_of_str s = Ok z).
  { intros n H. apply int_of_str_complete. exists "", "", s, "", n. split; [cbn [append]; now rewrite app_str_nil|]. split; [exact I|]. split; [exact I|]. split; [exact H|]. left. split; [now left|reflexivity]. }
  pose proof (K _ A) as A'. rewrite (K _ B) in A'. now injection A' as ->.
Qed.
Lemma int_text_same : forall s z z', int_text z s -> int_text z' s -> z = z'.
Proof.
  intros s z z' A B. apply int_text_integer in A, B. apply int_of_str_complete in A, B. rewrite A in B. now injection B.
Qed.
Lemma decimal_no_slash : forall s z, decimal s z -> chars (fun c => c <> "/"%char) s.
Proof.
  intros s z H. induction H as [c d [H1 H2]|s c z d H IH [H1 H2]]; [|apply chars_app; split; [exact IH|]]; (split; [|exact I]); intros ->; assert (Z.of_nat (nat_of_ascii "/") = 47) by reflexivity; lia.
Qed.
Lemma int_no_slash : forall s z, int_text z s -> chars (fun c => c <> "/"%char) s.
Proof.
  intros s z [[_ [H _]]|[_ [s' [-> [H _]]]]]; [exact (decimal_no_slash _ _ H)|]. split; [discriminate|exact (decimal_no_slash _ _ H)].
Qed.
Lemma months_apart : forall base y m y' m' dir dir' f g, month_dir base y m dir -> month_dir base y' m' dir' -> inside dir f -> inside dir' g -> fst f = fst g -> (y, m) = (y', m').
Proof.
  intros base y m y' m' dir dir' f g [ys [ms [Y [[M _] ->]]]] [ys' [ms' [Y' [[M' _] ->]]]] [n F] [n' G] E. rewrite F, G in E. rewrite !app_str_assoc in E. apply append_cancel in E.
  apply cut_slash in E as [E1 E]; [|eapply int_no_slash; eassumption|eapply int_no_slash; eassumption]. apply cut_slash in E as [E2 _]; [|eapply decimal_no_slash; eassumption|eapply decimal_no_slash; eassumption].
  subst ys' ms'. f_equal; [eapply int_text_same; eassumption|eapply decimal_same; eassumption].
Qed.
Lemma parts_apart : forall E base months parts, (forall y m, ym_ok (y, m) -> month_dir base y m (e_dir E y m)) -> NoDup months -> Forall ym_ok months ->
  Forall2 (fun ym files => run_month E (fst ym) (snd ym) = Ok files) months parts -> all_apart parts.
Proof.
  intros E base months parts D ND OK F. induction F as [|[y m] p months parts A F IH]; [constructor|]. inversion ND as [|? ? N ND']; subst. inversion OK as [|? ? O OK']; subst. constructor; [|now apply IH].
  clear IH ND ND' OK. revert N OK'. induction F as [|[y' m'] p' months parts B F IH]; intros N OK; constructor; inversion OK as [|? ? O' OK']; subst; [|apply IH; [intro K; apply N; now right|exact OK']].
  intros f g I J Z. apply N. left. symmetry. cbn [fst snd] in A, B. pose proof (proj1 (Forall_forall _ _) (month_inside _ _ _ _ A) f I) as PF. pose proof (proj1 (Forall_forall _ _) (month_inside _ _ _ _ B) g J) as PG.
  exact (months_apart base y m y' m' _ _ f g (D y m O) (D y' m' O') PF PG Z).
Qed.
(** The months of a run. *)
Lemma run_months_app : forall E a b, run_months E (a ++ b) = (let! x := run_months E a in let! y := run_months E b in Ok (x ++ y)).
Proof.
  intros E a b. induction a as [|[y m] a IH]; cbn [run_months app].
  - cbn. destruct (run_months E b); reflexivity.
  - destruct (run_month E y m) as [f|e]; [|reflexivity]. cbn [bind]. rewrite IH. destruct (run_months E a) as [x|e]; [|reflexivity]. cbn [bind]. destruct (run_months E b) as [z|e]; [|reflexivity]. cbn [bind]. now rewrite app_assoc.
Qed.
Lemma sorted_same : forall (l l' : list (Z * Z)), StronglySorted (fun a b => month_number a < month_number b) l -> StronglySorted (fun a b => month_number a < month_number b) l' ->
  (forall ym, In ym l <-> In ym l') -> l = l'.
Proof.
  induction l as [|a l IH]; intros [|b l'] S S' H.
  - reflexivity.
  - exfalso. apply (H b). now left.
  - exfalso. apply (H a). now left.
  - inversion S as [|? ? S1 F1]; subst. inversion S' as [|? ? S2 F2]; subst.
    assert (a = b) as <-.
    { destruct (proj1 (H a) (or_introl eq_refl)) as [E|I]; [now symmetry|]. destruct (proj2 (H b) (or_introl eq_refl)) as [E|J]; [exact E|].
      pose proof (proj1 (Forall_forall _ _) F1 b J). pose proof (proj1 (Forall_forall _ _) F2 a I). cbv beta in *. lia. }
    f_equal. apply IH; [exact S1|exact S2|]. intro ym. split; intro I.
    + destruct (proj1 (H ym) (or_intror I)) as [<-|K]; [|exact K]. pose proof (proj1 (Forall_forall _ _) F1 a I). cbv beta in *. lia.
    + destruct (proj2 (H ym) (or_intror I)) as [<-|K]; [|exact K]. pose proof (proj1 (Forall_forall _ _) F2 a I). cbv beta in *. lia.
Qed.
Lemma sorted_app : forall (l l' : list (Z * Z)), StronglySorted (fun a b => month_number a < month_number b) l -> StronglySorted (fun a b => month_number a < month_number b) l' ->
  (forall a b, In a l -> In b l' -> month_number a < month_number b) -> StronglySorted (fun a b => month_number a < month_number b) (l ++ l').
Proof.
  induction l as [|a l IH]; intros l' S S' H; [exact S'|]. inversion S as [|? ? S1 F1]; subst. cbn. constructor.
  - apply IH; [exact S1|exact S'|]. intros x y I J. apply H; [now right|exact J].
  - apply Forall_app. split; [exact F1|]. apply Forall_forall. intros y J. apply H; [now left|exact J].
Qed.
Lemma sorted_nodup : forall l, StronglySorted (fun a b => month_number a < month_number b) l -> NoDup l.
Proof.
  intros l S. induction S as [|a l S IH F]; constructor; [|exact IH]. intro I. pose proof (proj1 (Forall_forall _ _) F a I). cbv beta in *. lia.
Qed.
(** The same months in another order give the same parts in another order. *)
Lemma parts_perm : forall E months months' parts, Permutation months months' -> Forall2 (fun ym files => run_month E (fst ym) (snd ym) = Ok files) months parts ->
  exists parts', Permutation parts parts' /\ Forall2 (fun ym files => run_month E (fst ym) (snd ym) = Ok files) months' parts'.
Proof.
  intros E months months' parts P. revert parts. induction P as [|x l l' P IH|x y l|l l' l'' P IH P' IH']; intros parts F.
  - inversion F; subst. exists []. split; constructor.
  - inversion F as [|? p ? ps A F']; subst. destruct (IH _ F') as [ps' [Q G]]. exists (p :: ps'). split; [now constructor|now constructor].
  - inversion F as [|? p ? ps A F']; subst. inversion F' as [|? p' ? ps' A' F'']; subst. exists (p' :: p :: ps'). split; [apply perm_swap|repeat constructor; assumption].
  - destruct (IH _ F) as [ps [Q G]]. destruct (IH' _ G) as [ps' [Q' G']]. exists ps'. split; [now transitivity ps|exact G'].
Qed.
Lemma parts_unique : forall E months p p', Forall2 (fun ym files => run_month E (fst ym) (snd ym) = Ok files) months p -> Forall2 (fun ym files => run_month E (fst ym) (snd ym) = Ok files) months p' -> p = p'.
Proof.
  intros E months p p' F. revert p'. induction F as [|ym f months p A F IH]; intros p' G; inversion G as [|? f' ? p1 B G']; subst; [reflexivity|]. rewrite A in B. injection B as <-. f_equal. now apply IH.
Qed.
(** Parts that are apart can be put in any order. *)
Lemma apart_perm_store : forall parts parts' d, Permutation parts parts' -> all_apart parts -> all_apart parts' -> forall q, store (concat parts) d q = store (concat parts') d q.
Proof.
  intros parts parts' d P A A' q. rewrite (store_filter (concat parts)), (store_filter (concat parts')). f_equal.
  assert (ONE : forall ps, all_apart ps -> filter (at_path q) (concat ps) = [] /\ (forall p, In p ps -> filter (at_path q) p = []) \/
    exists p, In p ps /\ filter (at_path q) p <> [] /\ filter (at_path q) (concat ps) = filter (at_path q) p /\ forall p', In p' ps -> p' = p \/ filter (at_path q) p' = []).
  { clear. induction ps as [|p ps IH]; intro A; [left; split; [reflexivity|intros p []]|]. inversion A as [|? ? F O]; subst. cbn [concat]. rewrite filter_app. destruct (filter (at_path q) p) as [|f fs] eqn:EF.
    - destruct (IH O) as [[E1 E2]|[p1 [I [N [E1 E2]]]]].
      + left. split; [exact E1|]. intros p' [<-|J]; auto.
      + right. exists p1. split; [now right|]. split; [exact N|]. split; [exact E1|]. intros p' [<-|J]; auto.
    - right. exists p. split; [now left|]. split; [rewrite EF; discriminate|].
      assert (Z : forall p', In p' ps -> filter (at_path q) p' = []).
      { intros p' J. pose proof (proj1 (Forall_forall _ _) F p' J) as NC. assert (K : In f (filter (at_path q) p)) by (rewrite EF; now left). apply filter_In in K as [K1 K2]. apply String.eqb_eq in K2.
        destruct (filter (at_path q) p') as [|g gs] eqn:EG; [reflexivity|]. assert (L : In g (filter (at_path q) p')) by (rewrite EG; now left). apply filter_In in L as [L1 L2]. apply String.eqb_eq in L2. exfalso. apply (NC f g K1 L1). congruence. }
      split.
      + rewrite EF. assert (W : filter (at_path q) (concat ps) = []); [|now rewrite W, app_nil_r]. clear - Z. induction ps as [|p' ps IH]; [reflexivity|]. cbn. rewrite filter_app, Z by now left. apply IH. intros x J. apply Z. now right.
      + intros p' [<-|J]; [now left|right; now apply Z]. }
  destruct (ONE parts A) as [[E1 E2]|[p [I [N [E1 E2]]]]]; destruct (ONE parts' A') as [[E1' E2']|[p' [I' [N' [E1' E2']]]]].
  - congruence.
  - exfalso. apply N'. apply E2. now apply (Permutation_in _ (Permutation_sym P)).
  - exfalso. apply N. apply E2'. now apply (Permutation_in _ P).
  - destruct (E2 p' (Permutation_in _ (Permutation_sym P) I')) as [->|Z]; [congruence|contradiction].
Qed.
