(** Lemmas about sorting, means and trimming. *)
Require Import ZArith QArith Qround List Bool Lia Lqa Permutation Sorting.Sorted.
Require Import ZifyBool.
Require Import Verif.M_Base Verif.L_Base Verif.M_Stats Verif.S_Stats.
Import ListNotations.
Open Scope Z_scope.

(* ---- sorting ---- *)

Lemma qinsert_perm : forall x l, Permutation (qinsert x l) (x :: l).
Proof.
  induction l as [|y l IH]; cbn; [reflexivity|]. destruct (Qleb x y); [reflexivity|].
  rewrite IH. apply perm_swap.
Qed.
Lemma qsort_perm : forall l, Permutation (qsort l) l.
Proof. induction l as [|x l IH]; cbn; [reflexivity|]. rewrite qinsert_perm. now constructor. Qed.

Lemma qinsert_sorted : forall x l, StronglySorted Qle l -> StronglySorted Qle (qinsert x l).
Proof.
  intros x l H. induction H as [|y l H IH F]; cbn; [repeat constructor|].
  destruct (Qleb x y) eqn:E; qprop.
  - constructor; [now constructor|]. constructor; [exact E|].
    rewrite Forall_forall in *. intros z Hz. specialize (F z Hz). lra.
  - constructor; [exact IH|]. rewrite Forall_forall in *. intros z Hz.
    apply (Permutation_in _ (qinsert_perm x l)) in Hz. destruct Hz as [<-|Hz]; [lra|auto].
Qed.
Lemma qsort_sorted : forall l, StronglySorted Qle (qsort l).
Proof. induction l as [|x l IH]; cbn; [constructor|now apply qinsert_sorted]. Qed.

Lemma qsort_sorts : forall l, sorts (qsort l) l.
Proof. intro l. split; [apply qsort_perm|apply qsort_sorted]. Qed.
Lemma sorts_length : forall s l, sorts s l -> length s = length l.
Proof. intros s l [P _]. now apply Permutation_length. Qed.
Lemma qsort_length : forall l, length (qsort l) = length l.
Proof. intro. apply sorts_length, qsort_sorts. Qed.

Lemma count_perm : forall p s l, Permutation s l -> count p s = count p l.
Proof.
  intros p s l H. unfold count. induction H; cbn; try congruence.
  - destruct (p x); cbn; congruence.
  - destruct (p x), (p y); reflexivity.
Qed.

Lemma count_zero : forall p l, (forall x, In x l -> p x = false) -> count p l = 0%nat.
Proof.
  intros p l H. unfold count. induction l as [|a l IH]; [reflexivity|]. cbn.
  rewrite H by now left. apply IH. intros x Hx. apply H. now right.
Qed.

Lemma Forall2_length : forall (R : Q -> Q -> Prop) s s', Forall2 R s s' -> length s = length s'.
Proof. intros R s s' H. induction H; cbn; congruence. Qed.

(** Order statistics of an ascending list. *)
Lemma order_stat : forall s i b, StronglySorted Qle s -> (i < length s)%nat ->
  ((nth i s 0 < b)%Q <-> (i < count (fun x => Qltb x b) s)%nat).
Proof.
  intros s i b H. revert i. induction H as [|a s H IH F]; intros i Hi; [cbn in Hi; lia|].
  rewrite Forall_forall in F.
  assert (C : count (fun x => Qltb x b) (a :: s) = ((if Qltb a b then 1 else 0) + count (fun x => Qltb x b) s)%nat).
  { unfold count. cbn. destruct (Qltb a b); reflexivity. }
  rewrite C. clear C. destruct (Qltb a b) eqn:E.
  - destruct i as [|i]; cbn [nth]; [qprop; split; [lia|auto]|].
    cbn [length] in Hi. rewrite IH by lia. lia.
  - qprop. rewrite count_zero.
    + split; [|lia]. intro K. exfalso. destruct i as [|i]; cbn [nth] in K; [lra|].
      cbn [length] in Hi. specialize (F (nth i s 0%Q) ltac:(apply nth_In; lia)). lra.
    + intros x Hx. specialize (F x Hx). apply Qltb_false. lra.
Qed.

Lemma count_mono : forall l l' b, Forall2 Qle l l' ->
  (count (fun x => Qltb x b) l' <= count (fun x => Qltb x b) l)%nat.
Proof.
  intros l l' b H. unfold count. induction H as [|x y l l' H H' IH]; [reflexivity|]. cbn.
  destruct (Qltb y b) eqn:E1, (Qltb x b) eqn:E2; cbn; qprop; try lia. lra.
Qed.

Lemma nth_Forall2 : forall (R : Q -> Q -> Prop) s s', length s = length s' ->
  (forall i, (i < length s)%nat -> R (nth i s 0%Q) (nth i s' 0%Q)) -> Forall2 R s s'.
Proof.
  intros R s. induction s as [|a s IH]; intros [|b s'] L H; try discriminate L; constructor.
  - apply (H 0%nat). cbn. lia.
  - apply IH; [now injection L|]. intros i Hi. apply (H (S i)). cbn. lia.
Qed.

Lemma Forall2_nth : forall (R : Q -> Q -> Prop) s s' i, Forall2 R s s' -> R 0%Q 0%Q -> R (nth i s 0%Q) (nth i s' 0%Q).
Proof. intros R s s' i H H0. revert i. induction H; intros [|i]; cbn; auto. Qed.

Lemma sorts_mono : forall s l s' l', sorts s l -> sorts s' l' -> Forall2 Qle l l' -> Forall2 Qle s s'.
Proof.
  intros s l s' l' [P S] [P' S'] H.
  assert (L : length s = length s').
  { rewrite (Permutation_length P), (Permutation_length P'). exact (Forall2_length _ _ _ H). }
  apply nth_Forall2; [exact L|]. intros i Hi.
  destruct (Qlt_le_dec (nth i s' 0%Q) (nth i s 0%Q)) as [K|K]; [|exact K]. exfalso.
  pose proof (proj1 (order_stat s' i _ S' ltac:(lia)) K) as K1.
  rewrite (count_perm _ _ _ P') in K1.
  pose proof (count_mono l l' (nth i s 0%Q) H) as K2. rewrite <- (count_perm _ _ _ P) in K2.
  assert (K3 : (i < count (fun x => Qltb x (nth i s 0%Q)) s)%nat) by lia.
  apply (order_stat s i _ S Hi) in K3. lra.
Qed.

Lemma Forall2_refl : forall (R : Q -> Q -> Prop) l, (forall x, R x x) -> Forall2 R l l.
Proof. intros R l H. induction l; constructor; auto. Qed.

(** Sorting determines the values of the sorted list. *)
Lemma sorts_eq : forall s s' l, sorts s l -> sorts s' l -> Forall2 Qeq s s'.
Proof.
  intros s s' l H H'.
  assert (R : Forall2 Qle l l) by (apply Forall2_refl; intro; lra).
  pose proof (sorts_mono _ _ _ _ H H' R) as A. pose proof (sorts_mono _ _ _ _ H' H R) as B.
  clear -A B. induction A as [|x y s s' E A IH]; [constructor|]. inversion B; subst. constructor; [lra|auto].
Qed.

Lemma sorts_perm : forall s l l', Permutation l l' -> sorts s l -> sorts s l'.
Proof. intros s l l' P [Q S]. split; [now rewrite Q|exact S]. Qed.

(* ---- relations through the list functions ---- *)

Lemma Forall2_firstn : forall (R : Q -> Q -> Prop) n s s', Forall2 R s s' -> Forall2 R (firstn n s) (firstn n s').
Proof. intros R n s s' H. revert n. induction H; intros [|n]; cbn; constructor; auto. Qed.
Lemma Forall2_skipn : forall (R : Q -> Q -> Prop) n s s', Forall2 R s s' -> Forall2 R (skipn n s) (skipn n s').
Proof. intros R n s s' H. revert n. induction H; intros [|n]; cbn; auto. Qed.
Lemma Forall2_repeat : forall (R : Q -> Q -> Prop) n x y, R x y -> Forall2 R (repeat x n) (repeat y n).
Proof. intros R n x y H. induction n; cbn; constructor; auto. Qed.
Lemma Forall2_middle : forall (R : Q -> Q -> Prop) k s s', Forall2 R s s' -> Forall2 R (middle k s) (middle k s').
Proof.
  intros R k s s' H. unfold middle. rewrite (Forall2_length _ _ _ H). now apply Forall2_firstn, Forall2_skipn.
Qed.
Lemma Forall2_winsorised : forall (R : Q -> Q -> Prop) s s', R 0%Q 0%Q -> Forall2 R s s' ->
  Forall2 R (winsorised s) (winsorised s').
Proof.
  intros R s s' H0 H. unfold winsorised. rewrite (Forall2_length _ _ _ H).
  apply Forall2_app; [apply Forall2_repeat; now apply Forall2_nth|].
  apply Forall2_app; [now apply Forall2_middle|]. apply Forall2_repeat. now apply Forall2_nth.
Qed.

Lemma sumQ_le : forall l l', Forall2 Qle l l' -> (sumQ l <= sumQ l')%Q.
Proof. intros l l' H. unfold sumQ. induction H; cbn; lra. Qed.
Lemma sumQ_eq : forall l l', Forall2 Qeq l l' -> (sumQ l == sumQ l')%Q.
Proof. intros l l' H. unfold sumQ. induction H; cbn; lra. Qed.
Lemma len_pos : forall (l : list Q), l <> [] -> (0 < inject_Z (Z.of_nat (length l)))%Q.
Proof. intros [|x l] H; [congruence|]. apply (inject_Z_lt 0). cbn [length]. lia. Qed.
Lemma meanQ_le : forall l l', Forall2 Qle l l' -> l <> [] -> (meanQ l <= meanQ l')%Q.
Proof.
  intros l l' H N. unfold meanQ. rewrite <- (Forall2_length _ _ _ H). pose proof (len_pos l N) as P.
  pose proof (sumQ_le _ _ H). apply Qmult_le_compat_r; [assumption|]. apply Qlt_le_weak. now apply Qinv_lt_0_compat.
Qed.
Lemma meanQ_eq : forall l l', Forall2 Qeq l l' -> (meanQ l == meanQ l')%Q.
Proof. intros l l' H. unfold meanQ. rewrite <- (Forall2_length _ _ _ H), (sumQ_eq _ _ H). reflexivity. Qed.
Lemma meanQ_mult : forall l, l <> [] -> (meanQ l * inject_Z (Z.of_nat (length l)) == sumQ l)%Q.
Proof. intros l N. unfold meanQ. pose proof (len_pos l N). field. lra. Qed.

Lemma sumQ_bounds : forall l lo hi, (forall x, In x l -> (lo <= x /\ x <= hi)%Q) ->
  (lo * inject_Z (Z.of_nat (length l)) <= sumQ l /\ sumQ l <= hi * inject_Z (Z.of_nat (length l)))%Q.
Proof.
  induction l as [|a l IH]; intros lo hi H; cbn [sumQ fold_right length].
  - change (inject_Z (Z.of_nat 0)) with 0%Q. lra.
  - destruct (IH lo hi) as [A B]; [intros; apply H; now right|]. destruct (H a) as [C D]; [now left|].
    rewrite Nat2Z.inj_succ. unfold Z.succ. rewrite inject_Z_plus. change (inject_Z 1) with 1%Q.
    fold (sumQ l). lra.
Qed.
Lemma meanQ_bounds : forall l lo hi, l <> [] -> (forall x, In x l -> (lo <= x /\ x <= hi)%Q) -> (lo <= meanQ l /\ meanQ l <= hi)%Q.
Proof.
  intros l lo hi N H. destruct (sumQ_bounds l lo hi H) as [A B]. pose proof (meanQ_mult l N) as C.
  pose proof (len_pos l N) as P. split; nra.
Qed.

Lemma sumQ_app : forall a b, (sumQ (a ++ b) == sumQ a + sumQ b)%Q.
Proof.
  induction a as [|x a IH]; intro b; [change (sumQ []) with 0%Q; cbn [app]; ring|].
  change (sumQ ((x :: a) ++ b)) with (x + sumQ (a ++ b))%Q. change (sumQ (x :: a)) with (x + sumQ a)%Q. rewrite IH. ring.
Qed.
Lemma sumQ_repeat : forall x n, (sumQ (repeat x n) == x * inject_Z (Z.of_nat n))%Q.
Proof.
  induction n as [|n IH]; cbn [repeat sumQ fold_right]; [change (inject_Z (Z.of_nat 0)) with 0%Q; ring|].
  fold (sumQ (repeat x n)). rewrite IH, Nat2Z.inj_succ. unfold Z.succ. rewrite inject_Z_plus. change (inject_Z 1) with 1%Q. ring.
Qed.
Lemma sumQ_rev : forall l, (sumQ (rev l) == sumQ l)%Q.
Proof.
  induction l as [|x l IH]; [reflexivity|]. cbn [rev]. rewrite sumQ_app, IH.
  change (sumQ [x]) with (x + 0)%Q. change (sumQ (x :: l)) with (x + sumQ l)%Q. ring.
Qed.
Lemma sumQ_perm : forall l l', Permutation l l' -> (sumQ l == sumQ l')%Q.
Proof. intros l l' H. unfold sumQ in *. induction H; cbn; lra. Qed.
Lemma meanQ_perm : forall l l', Permutation l l' -> (meanQ l == meanQ l')%Q.
Proof. intros l l' H. unfold meanQ. rewrite (Permutation_length H), (sumQ_perm _ _ H). reflexivity. Qed.
Lemma sumQ_affine : forall a b l, (sumQ (map (fun x => a * x + b) l) == a * sumQ l + b * inject_Z (Z.of_nat (length l)))%Q.
Proof.
  induction l as [|x l IH]; cbn [map sumQ fold_right length]; [change (inject_Z (Z.of_nat 0)) with 0%Q; ring|].
  fold (sumQ (map (fun x => (a * x + b)%Q) l)) (sumQ l). rewrite IH, Nat2Z.inj_succ. unfold Z.succ. rewrite inject_Z_plus.
  change (inject_Z 1) with 1%Q. ring.
Qed.
Lemma meanQ_affine : forall a b l, l <> [] -> (meanQ (map (fun x => a * x + b) l) == a * meanQ l + b)%Q.
Proof.
  intros a b l N. unfold meanQ. rewrite map_length, sumQ_affine. pose proof (len_pos l N). field. lra.
Qed.

(* ---- shapes ---- *)

Lemma middle_length : forall k s, length (middle k s) = (length s - 2 * k)%nat.
Proof. intros. unfold middle. rewrite firstn_length, skipn_length. lia. Qed.
Lemma winsorised_length : forall s, length (winsorised s) = length s.
Proof.
  intro s. unfold winsorised. rewrite !app_length, !repeat_length, middle_length.
  assert (length s / 4 * 4 <= length s)%nat by (rewrite Nat.mul_comm; apply Nat.mul_div_le; lia). lia.
Qed.

Lemma nth_sorted : forall s i j, StronglySorted Qle s -> (i <= j < length s)%nat -> (nth i s 0 <= nth j s 0)%Q.
Proof.
  intros s i j H. revert i j. induction H as [|a s H IH F]; intros i j L; cbn [length] in L; [lia|].
  rewrite Forall_forall in F. destruct i as [|i], j as [|j]; cbn [nth]; try lra; try lia.
  - apply F. apply nth_In. lia.
  - apply IH. lia.
Qed.

Lemma nth_skipn' : forall A k (s : list A) i d, nth i (skipn k s) d = nth (k + i) s d.
Proof.
  intros A k. induction k as [|k IH]; intros [|a s] i d; cbn; try reflexivity; [destruct i; reflexivity|apply IH].
Qed.
Lemma nth_firstn' : forall A n (s : list A) i d, (i < n)%nat -> nth i (firstn n s) d = nth i s d.
Proof.
  intros A n. induction n as [|n IH]; intros [|a s] i d H; cbn; try lia; [destruct i; reflexivity|].
  destruct i; [reflexivity|]. apply IH. lia.
Qed.

Lemma In_middle : forall k s x, (2 * k < length s)%nat -> In x (middle k s) ->
  exists i, (k <= i <= length s - 1 - k)%nat /\ nth i s 0%Q = x.
Proof.
  intros k s x L H. unfold middle in H. apply (In_nth _ _ 0%Q) in H. destruct H as [i [A B]].
  rewrite firstn_length, skipn_length in A. exists (k + i)%nat. split; [lia|].
  rewrite <- B, nth_firstn' by lia. now rewrite nth_skipn'.
Qed.

Lemma middle_bounds : forall k s x, StronglySorted Qle s -> (2 * k < length s)%nat -> In x (middle k s) ->
  (nth k s 0 <= x /\ x <= nth (length s - 1 - k) s 0)%Q.
Proof.
  intros k s x H L I. destruct (In_middle k s x L I) as [i [A <-]]. split; apply nth_sorted; auto; lia.
Qed.

Lemma winsorised_bounds : forall s x, StronglySorted Qle s -> In x (winsorised s) ->
  let k := (length s / 4)%nat in (nth k s 0 <= x /\ x <= nth (length s - 1 - k) s 0)%Q.
Proof.
  intros s x H I k. unfold winsorised in I. fold k in I.
  assert (K : (k * 4 <= length s)%nat) by (unfold k; rewrite Nat.mul_comm; apply Nat.mul_div_le; lia).
  destruct (Nat.eq_dec (length s) 0) as [Z|Z].
  { destruct s; [|discriminate]. unfold k in I. cbn in I. destruct I. }
  assert (M : (nth k s 0 <= nth (length s - 1 - k) s 0)%Q) by (apply nth_sorted; auto; lia).
  apply in_app_or in I. destruct I as [I|I]; [apply repeat_spec in I; subst; lra|].
  apply in_app_or in I. destruct I as [I|I]; [|apply repeat_spec in I; subst; lra].
  apply middle_bounds; auto. lia.
Qed.

(** Few values below lo: the k-th smallest is at least lo. *)
Lemma order_low : forall s l k lo, sorts s l -> (k < length s)%nat ->
  (count (fun x => Qltb x lo) l <= k)%nat -> (lo <= nth k s 0)%Q.
Proof.
  intros s l k lo [P S] L H. destruct (Qlt_le_dec (nth k s 0%Q) lo) as [K|K]; [|exact K]. exfalso.
  apply (order_stat s k lo S L) in K. rewrite (count_perm _ _ _ P) in K. lia.
Qed.

Lemma count_split : forall p l, (count p l + count (fun x => negb (p x)) l = length l)%nat.
Proof. intros p l. unfold count. induction l as [|x l IH]; [reflexivity|]. cbn. destruct (p x); cbn; lia. Qed.
Lemma count_le_ext : forall p q l, (forall x, p x = true -> q x = true) -> (count p l <= count q l)%nat.
Proof.
  intros p q l H. unfold count. induction l as [|x l IH]; [reflexivity|]. cbn.
  destruct (p x) eqn:E; [rewrite (H x E); cbn; lia|]. destruct (q x); cbn; lia.
Qed.

Lemma order_high : forall s l k hi, sorts s l -> (k < length s)%nat ->
  (count (fun x => Qltb hi x) l <= k)%nat -> (nth (length s - 1 - k) s 0 <= hi)%Q.
Proof.
  intros s l k hi Hs L H. destruct (Qlt_le_dec hi (nth (length s - 1 - k) s 0%Q)) as [K|K]; [|exact K]. exfalso.
  set (b := nth (length s - 1 - k) s 0%Q) in *.
  destruct Hs as [P S].
  assert (N : ~ (length s - 1 - k < count (fun x => Qltb x b) s)%nat).
  { rewrite <- (order_stat s (length s - 1 - k) b S ltac:(lia)). fold b. lra. }
  pose proof (count_split (fun x => Qltb x b) s) as C.
  assert ((count (fun x => negb (Qltb x b)) s <= count (fun x => Qltb hi x) s)%nat).
  { apply count_le_ext. intros x Hx. apply negb_true_iff in Hx. qprop. lra. }
  rewrite (count_perm (fun x => Qltb hi x) s l P) in H0. lia.
Qed.

(* ---- maps ---- *)

Lemma sorted_map : forall f s, (forall x y, (x <= y)%Q -> (f x <= f y)%Q) -> StronglySorted Qle s -> StronglySorted Qle (map f s).
Proof.
  intros f s Hf H. induction H as [|a s H IH F]; cbn; constructor; auto.
  rewrite Forall_forall in *. intros y Hy. apply in_map_iff in Hy. destruct Hy as [x [<- Hx]]. auto.
Qed.
Lemma sorts_map : forall f s l, (forall x y, (x <= y)%Q -> (f x <= f y)%Q) -> sorts s l -> sorts (map f s) (map f l).
Proof. intros f s l Hf [P S]. split; [now apply Permutation_map|now apply sorted_map]. Qed.

Lemma sorted_app_last : forall s x, StronglySorted Qle s -> (forall y, In y s -> (y <= x)%Q) -> StronglySorted Qle (s ++ [x]).
Proof.
  intros s x H. induction H as [|a s H IH F]; intro B; cbn; [repeat constructor|].
  constructor; [apply IH; intros; apply B; now right|].
  rewrite Forall_forall in *. intros y Hy. apply in_app_or in Hy. destruct Hy as [Hy|[<-|[]]]; [auto|]. apply B. now left.
Qed.
Lemma sorts_rev : forall f s l, (forall x y, (x <= y)%Q -> (f y <= f x)%Q) -> sorts s l -> sorts (rev (map f s)) (map f l).
Proof.
  intros f s l Hf [P S]. split; [rewrite <- Permutation_rev; now apply Permutation_map|].
  clear P l. induction S as [|a s S IH F]; cbn; [constructor|]. apply sorted_app_last; [exact IH|].
  intros y Hy. apply in_rev in Hy. apply in_map_iff in Hy. destruct Hy as [x [<- Hx]].
  rewrite Forall_forall in F. auto.
Qed.

Lemma nth_map : forall (f : Q -> Q) s i, (i < length s)%nat -> nth i (map f s) 0%Q = f (nth i s 0%Q).
Proof. intros f s i H. rewrite (nth_indep _ 0%Q (f 0%Q)); [apply map_nth|now rewrite map_length]. Qed.
Lemma map_repeat : forall (f : Q -> Q) x n, map f (repeat x n) = repeat (f x) n.
Proof. intros. induction n; cbn; congruence. Qed.
Lemma middle_map : forall f k s, middle k (map f s) = map f (middle k s).
Proof. intros. unfold middle. now rewrite map_length, skipn_map, firstn_map. Qed.
Lemma winsorised_map : forall f s, winsorised (map f s) = map f (winsorised s).
Proof.
  intros f s. unfold winsorised. rewrite map_length, !map_app, !map_repeat, middle_map.
  destruct s as [|a s]; [reflexivity|]. set (q := a :: s).
  assert (K : (length q / 4 * 4 <= length q)%nat) by (rewrite Nat.mul_comm; apply Nat.mul_div_le; lia).
  assert (length q <> 0)%nat by discriminate.
  rewrite !nth_map by lia. reflexivity.
Qed.
Lemma middle_rev : forall k s, (2 * k <= length s)%nat -> middle k (rev s) = rev (middle k s).
Proof.
  intros k s H. unfold middle. rewrite rev_length, skipn_rev, firstn_rev, firstn_length.
  replace (Nat.min (length s - k) (length s) - (length s - 2 * k))%nat with k by lia.
  f_equal. rewrite firstn_skipn_comm. f_equal. f_equal. lia.
Qed.
Lemma rev_repeat : forall (x : Q) n, rev (repeat x n) = repeat x n.
Proof. intros. induction n as [|n IH]; [reflexivity|]. cbn. rewrite IH. symmetry. apply repeat_cons. Qed.
Lemma winsorised_rev : forall s, winsorised (rev s) = rev (winsorised s).
Proof.
  intro s. unfold winsorised. rewrite rev_length, !rev_app_distr, !rev_repeat.
  destruct s as [|a s]; [reflexivity|]. set (q := a :: s).
  assert (K : (length q / 4 * 4 <= length q)%nat) by (rewrite Nat.mul_comm; apply Nat.mul_div_le; lia).
  assert (length q <> 0)%nat by discriminate.
  rewrite middle_rev by lia. rewrite !rev_nth by lia. rewrite <- app_assoc.
  replace (length q - S (length q / 4))%nat with (length q - 1 - length q / 4)%nat by lia.
  replace (length q - S (length q - 1 - length q / 4))%nat with (length q / 4)%nat by lia. reflexivity.
Qed.

(* ---- the model ---- *)

Lemma py_nth_nat : forall A (l : list A) i d, (i < length l)%nat -> py_nth l (Z.of_nat i) = Ok (nth i l d).
Proof.
  intros A l i d H. unfold py_nth. replace (Z.of_nat i <? 0) with false by lia.
  replace ((Z.of_nat i <? 0) || (Z.of_nat (length l) <=? Z.of_nat i)) with false by lia.
  rewrite Nat2Z.id. destruct (nth_error l i) as [a|] eqn:E.
  - apply (nth_error_nth l i d) in E. congruence.
  - apply nth_error_None in E. lia.
Qed.

Lemma skipn_S : forall (s : list Q) j, (j < length s)%nat -> skipn j s = nth j s 0%Q :: skipn (S j) s.
Proof.
  intros s j. revert s. induction j as [|j IH]; intros [|a s] H; cbn [length] in H; try lia; [reflexivity|].
  cbn [skipn nth]. rewrite IH by lia. reflexivity.
Qed.

Lemma sum_from_spec : forall k s j t, (j + k <= length s)%nat ->
  exists v, sum_from s (Z.of_nat j) k t = Ok v /\ (v == t + sumQ (firstn k (skipn j s)))%Q.
Proof.
  induction k as [|k IH]; intros s j t H; cbn [sum_from].
  - exists t. split; [reflexivity|]. cbn [firstn]. change (sumQ []) with 0%Q. ring.
  - rewrite (py_nth_nat _ s j 0%Q) by lia. rewrite bind_ok.
    replace (Z.of_nat j + 1) with (Z.of_nat (S j)) by lia.
    destruct (IH s (S j) (t + nth j s 0%Q)%Q) as [v [A B]]; [lia|]. exists v. split; [exact A|].
    rewrite B. rewrite (skipn_S s j) by lia. cbn [firstn sumQ fold_right].
    fold (sumQ (firstn k (skipn (S j) s))). ring.
Qed.

Definition wtotal (l : list Q) : res Q :=
  let length := Z.of_nat (length l) in
  let s := qsort l in
  let! (lower, upper, total) :=
    (if 4 <=? length then
       let lower := length / 4 in
       let upper := length - 1 - lower in
       let! a := py_nth s lower in
       let! b := py_nth s upper in
       Ok (lower, upper, (0 + (a + b) * inject_Z lower)%Q)
     else Ok (0, length - 1, 0%Q)) in
  sum_from s lower (Z.to_nat (upper + 1 - lower)) total.

Lemma wtotal_spec : forall l, exists t, wtotal l = Ok t /\ (t == sumQ (winsorised (qsort l)))%Q.
Proof.
  intro l. unfold wtotal. rewrite <- (qsort_length l). set (s := qsort l). set (n := length s).
  assert (Z.of_nat n / 4 = Z.of_nat (n / 4)) as -> by (rewrite Nat2Z.inj_div; reflexivity).
  assert (K : (n / 4 * 4 <= n)%nat) by (rewrite Nat.mul_comm; apply Nat.mul_div_le; lia).
  destruct (4 <=? Z.of_nat n) eqn:E.
  - cbv zeta. rewrite (py_nth_nat _ s (n / 4) 0%Q) by (fold n; lia). rewrite bind_ok.
    replace (Z.of_nat n - 1 - Z.of_nat (n / 4)) with (Z.of_nat (n - 1 - n / 4)) by lia.
    rewrite (py_nth_nat _ s (n - 1 - n / 4) 0%Q) by (fold n; lia). rewrite !bind_ok.
    replace (Z.to_nat (Z.of_nat (n - 1 - n / 4) + 1 - Z.of_nat (n / 4))) with (n - 2 * (n / 4))%nat by lia.
    destruct (sum_from_spec (n - 2 * (n / 4)) s (n / 4) (0 + (nth (n / 4) s 0 + nth (n - 1 - n / 4) s 0) * inject_Z (Z.of_nat (n / 4)))%Q)
      as [v [A B]]; [fold n; lia|].
    exists v. split; [exact A|]. rewrite B. unfold winsorised. fold n. rewrite !sumQ_app, !sumQ_repeat.
    change (firstn (n - 2 * (n / 4)) (skipn (n / 4) s)) with (middle (n / 4) s). ring.
  - rewrite bind_ok. assert (Z4 : (n / 4 = 0)%nat) by (apply Nat.div_small; lia).
    replace (Z.to_nat (Z.of_nat n - 1 + 1 - 0)) with (n - 2 * (n / 4))%nat by lia.
    destruct (sum_from_spec (n - 2 * (n / 4)) s 0 0) as [v [A B]]; [fold n; lia|].
    exists v. split; [exact A|]. rewrite B. unfold winsorised. fold n. rewrite Z4. cbn [repeat app].
    rewrite app_nil_r. unfold middle. fold n. ring.
Qed.

Lemma winsorised_mean_unfold : forall l, winsorised_mean l =
  let! t := wtotal l in if Z.of_nat (length l) =? 0 then Err ZeroDivisionError else Ok (t / inject_Z (Z.of_nat (length l)))%Q.
Proof.
  intro l. unfold winsorised_mean, wtotal. cbv zeta.
  destruct (4 <=? Z.of_nat (length l)); [|rewrite !bind_ok; reflexivity].
  destruct (py_nth (qsort l) (Z.of_nat (length l) / 4)); [rewrite !bind_ok|reflexivity].
  destruct (py_nth (qsort l) (Z.of_nat (length l) - 1 - Z.of_nat (length l) / 4)); [rewrite !bind_ok|]; reflexivity.
Qed.

Lemma winsorised_mean_value : forall l, l <> [] ->
  exists v, winsorised_mean l = Ok v /\ forall s, sorts s l -> (v == meanQ (winsorised s))%Q.
Proof.
  intros l N. rewrite winsorised_mean_unfold. destruct (wtotal_spec l) as [t [-> T]]. rewrite bind_ok.
  destruct l as [|a l]; [congruence|]. set (q := a :: l) in *.
  replace (Z.of_nat (length q) =? 0) with false by (symmetry; apply Z.eqb_neq; unfold q; cbn [length]; lia).
  eexists. split; [reflexivity|]. intros s Hs.
  assert (E : (meanQ (winsorised (qsort q)) == meanQ (winsorised s))%Q).
  { apply meanQ_eq, Forall2_winsorised; [reflexivity|]. apply (sorts_eq _ _ q); [apply qsort_sorts|exact Hs]. }
  rewrite <- E. unfold meanQ. rewrite winsorised_length, qsort_length, T. reflexivity.
Qed.

Lemma winsorised_mean_empty : winsorised_mean [] = Err ZeroDivisionError.
Proof. reflexivity. Qed.

Lemma winsorised_mean_inv : forall l v, winsorised_mean l = Ok v ->
  l <> [] /\ forall s, sorts s l -> (v == meanQ (winsorised s))%Q.
Proof.
  intros l v H. destruct l as [|a l]; [discriminate H|]. split; [discriminate|].
  destruct (winsorised_mean_value (a :: l)) as [v' [A B]]; [discriminate|]. rewrite A in H. injection H as <-. exact B.
Qed.

Lemma winsorised_nonempty : forall s, s <> [] -> winsorised s <> [].
Proof. intros s H K. apply H. apply length_zero_iff_nil. rewrite <- winsorised_length, K. reflexivity. Qed.
Lemma sorts_nonempty : forall s l, sorts s l -> l <> [] -> s <> [].
Proof. intros s l H N K. subst. apply N. destruct H as [P _]. now apply Permutation_nil. Qed.

Lemma winsorised_mean_perm : forall l l' v v', Permutation l l' -> winsorised_mean l = Ok v -> winsorised_mean l' = Ok v' -> (v == v')%Q.
Proof.
  intros l l' v v' P A B. apply winsorised_mean_inv in A, B.
  rewrite (proj2 A (qsort l)), (proj2 B (qsort l)); [reflexivity| |apply qsort_sorts].
  apply (sorts_perm _ l l' P), qsort_sorts.
Qed.

Lemma winsorised_mean_mono : forall l l' v v', Forall2 Qle l l' -> winsorised_mean l = Ok v -> winsorised_mean l' = Ok v' -> (v <= v')%Q.
Proof.
  intros l l' v v' P A B. apply winsorised_mean_inv in A, B. destruct A as [N A].
  rewrite (A (qsort l) (qsort_sorts l)), (proj2 B (qsort l') (qsort_sorts l')).
  apply meanQ_le.
  - apply Forall2_winsorised; [lra|]. apply (sorts_mono _ l _ l'); auto using qsort_sorts.
  - apply winsorised_nonempty. apply (sorts_nonempty _ l); auto using qsort_sorts.
Qed.

Lemma winsorised_mean_resistant : forall l v lo hi, winsorised_mean l = Ok v ->
  (count (fun x => Qltb x lo) l <= length l / 4)%nat -> (count (fun x => Qltb hi x) l <= length l / 4)%nat ->
  (lo <= v /\ v <= hi)%Q.
Proof.
  intros l v lo hi A H1 H2. apply winsorised_mean_inv in A. destruct A as [N A].
  pose proof (qsort_sorts l) as S. rewrite (A _ S).
  assert (n0 : (0 < length l)%nat) by (destruct l; [congruence|cbn; lia]).
  rewrite <- (qsort_length l) in H1, H2, n0.
  assert (K : (length (qsort l) / 4 * 4 <= length (qsort l))%nat) by (rewrite Nat.mul_comm; apply Nat.mul_div_le; lia).
  pose proof (order_low _ _ (length (qsort l) / 4) lo S ltac:(lia) H1) as L.
  pose proof (order_high _ _ (length (qsort l) / 4) hi S ltac:(lia) H2) as U.
  apply meanQ_bounds; [apply winsorised_nonempty, (sorts_nonempty _ l); auto|].
  intros x Hx. pose proof (winsorised_bounds _ x (proj2 S) Hx) as B. cbv zeta in B. lra.
Qed.

Lemma winsorised_mean_bounds : forall l v lo hi, winsorised_mean l = Ok v ->
  (forall x, In x l -> (lo <= x /\ x <= hi)%Q) -> (lo <= v /\ v <= hi)%Q.
Proof.
  intros l v lo hi A H. apply (winsorised_mean_resistant l v lo hi A).
  - rewrite count_zero; [apply Nat.le_0_l|]. intros x Hx. apply Qltb_false. apply H, Hx.
  - rewrite count_zero; [apply Nat.le_0_l|]. intros x Hx. apply Qltb_false. apply H, Hx.
Qed.

Lemma winsorised_mean_affine : forall a b l v v', winsorised_mean l = Ok v ->
  winsorised_mean (map (fun x => a * x + b)%Q l) = Ok v' -> (v' == a * v + b)%Q.
Proof.
  intros a b l v v' A B. apply winsorised_mean_inv in A, B. destruct A as [N A]. destruct B as [_ B].
  rewrite (A _ (qsort_sorts l)).
  assert (N' : winsorised (qsort l) <> []) by (apply winsorised_nonempty, (sorts_nonempty _ l); auto using qsort_sorts).
  destruct (Qlt_le_dec a 0) as [C|C].
  - rewrite (B (rev (map (fun x => a * x + b)%Q (qsort l)))).
    + rewrite winsorised_rev, winsorised_map. rewrite (meanQ_perm _ (map (fun x => a * x + b)%Q (winsorised (qsort l)))).
      * apply meanQ_affine, N'.
      * symmetry. apply Permutation_rev.
    + apply sorts_rev; [intros; nra|apply qsort_sorts].
  - rewrite (B (map (fun x => a * x + b)%Q (qsort l))).
    + rewrite winsorised_map. apply meanQ_affine, N'.
    + apply sorts_map; [intros; nra|apply qsort_sorts].
Qed.

(* ---- integer lists ---- *)

Definition isint (q : Q) : Prop := exists z, (q == inject_Z z)%Q.
Lemma isint_plus : forall a b, isint a -> isint b -> isint (a + b).
Proof. intros a b [x A] [y B]. exists (x + y). rewrite inject_Z_plus, A, B. reflexivity. Qed.
Lemma isint_mult : forall a b, isint a -> isint b -> isint (a * b).
Proof. intros a b [x A] [y B]. exists (x * y). rewrite inject_Z_mult, A, B. reflexivity. Qed.
Lemma isint_inj : forall z, isint (inject_Z z).
Proof. intro z. exists z. reflexivity. Qed.
Lemma sumQ_int : forall l, (forall x, In x l -> isint x) -> isint (sumQ l).
Proof.
  induction l as [|a l IH]; intro H; cbn; [apply (isint_inj 0)|].
  apply isint_plus; [apply H; now left|apply IH; intros; apply H; now right].
Qed.
Lemma In_winsorised : forall s x, s <> [] -> In x (winsorised s) -> In x s.
Proof.
  intros s x N H. unfold winsorised in H.
  assert (K : (length s / 4 * 4 <= length s)%nat) by (rewrite Nat.mul_comm; apply Nat.mul_div_le; lia).
  assert (length s <> 0)%nat by (destruct s; [congruence|discriminate]).
  apply in_app_or in H. destruct H as [H|H]; [apply repeat_spec in H; subst; apply nth_In; lia|].
  apply in_app_or in H. destruct H as [H|H]; [|apply repeat_spec in H; subst; apply nth_In; lia].
  apply In_middle in H; [|lia]. destruct H as [i [A <-]]. apply nth_In. lia.
Qed.

Lemma winsorised_mean_int_floor : forall l v, winsorised_mean (map inject_Z l) = Ok v ->
  winsorised_mean_int l = Ok (Qfloor v).
Proof.
  intros l v H.
  assert (U : winsorised_mean_int l = let! t := wtotal (map inject_Z l) in py_div (Qfloor t) (Z.of_nat (length l))).
  { unfold winsorised_mean_int, wtotal. rewrite map_length. cbv zeta.
    destruct (4 <=? Z.of_nat (length l)); [|rewrite !bind_ok; reflexivity].
    destruct (py_nth (qsort (map inject_Z l)) (Z.of_nat (length l) / 4)); [rewrite !bind_ok|reflexivity].
    destruct (py_nth (qsort (map inject_Z l)) (Z.of_nat (length l) - 1 - Z.of_nat (length l) / 4)); [rewrite !bind_ok|]; reflexivity. }
  rewrite U. rewrite winsorised_mean_unfold in H. destruct (wtotal_spec (map inject_Z l)) as [t [E T]].
  rewrite E in *. rewrite bind_ok in *. rewrite map_length in H.
  destruct (Z.of_nat (length l) =? 0) eqn:Z0; [discriminate|]. injection H as <-.
  unfold py_div. rewrite Z0. f_equal.
  assert (I : isint t).
  { destruct (sumQ_int (winsorised (qsort (map inject_Z l)))) as [z Hz].
    - intros x Hx. apply In_winsorised in Hx.
      + apply (Permutation_in _ (qsort_perm _)) in Hx. apply in_map_iff in Hx. destruct Hx as [z [<- _]]. apply isint_inj.
      + intro K. apply (f_equal (@length Q)) in K. rewrite qsort_length, map_length in K. cbn in K. lia.
    - exists z. now rewrite T. }
  destruct I as [z Hz]. rewrite (Qfloor_comp _ _ Hz), Qfloor_Z. rewrite Zdiv_Qdiv.
  apply Qfloor_comp. now rewrite Hz.
Qed.

(* ---- trimming ---- *)

Lemma py_slice_middle : forall s k, 0 <= k -> 2 * k <= Z.of_nat (length s) ->
  py_slice s k (Z.of_nat (length s) - k) = middle (Z.to_nat k) s.
Proof.
  intros s k H1 H2. unfold py_slice, slice_clip, middle.
  replace (k <? 0) with false by lia. replace (Z.of_nat (length s) - k <? 0) with false by lia.
  f_equal; [lia|]. f_equal. lia.
Qed.
Lemma py_slice_empty : forall (s : list Q) a b, 0 <= b -> b <= a -> py_slice s a b = [].
Proof.
  intros s a b H1 H2. unfold py_slice, slice_clip. replace (a <? 0) with false by lia. replace (b <? 0) with false by lia.
  replace (Z.to_nat _) with 0%nat by lia. reflexivity.
Qed.

(** For trim >= 1 the values averaged are the central ones. *)
Lemma trim_values_spec : forall l trim, 2 <= trim ->
  trim_values l trim = middle (length l / Z.to_nat trim) (qsort l).
Proof.
  intros l trim H. unfold trim_values. replace (trim =? 0) with false by lia. cbv zeta.
  rewrite <- (qsort_length l). set (s := qsort l).
  assert (Z.of_nat (length s) / trim = Z.of_nat (length s / Z.to_nat trim)) as ->.
  { rewrite Nat2Z.inj_div. f_equal. lia. }
  assert (2 * (length s / Z.to_nat trim) <= length s)%nat.
  { pose proof (Nat.mul_div_le (length s) (Z.to_nat trim) ltac:(lia)). nia. }
  rewrite py_slice_middle by lia. now rewrite Nat2Z.id.
Qed.

Lemma np_sum_acc : forall l a, (fold_left Qplus l a == a + sumQ l)%Q.
Proof.
  induction l as [|x l IH]; intro a; cbn [fold_left]; [change (sumQ []) with 0%Q; ring|]. rewrite IH.
  change (sumQ (x :: l)) with (x + sumQ l)%Q. ring.
Qed.
Lemma np_mean_spec : forall l, (l = [] /\ np_mean l = NaN) \/ (l <> [] /\ exists v, np_mean l = Fin v /\ (v == meanQ l)%Q).
Proof.
  intros [|a l]; [left; auto|right]. split; [discriminate|]. eexists. split; [reflexivity|].
  unfold np_sum, meanQ. rewrite np_sum_acc. unfold Qdiv. rewrite Qplus_0_l. reflexivity.
Qed.
Lemma np_mean_fin : forall l v, np_mean l = Fin v -> l <> [] /\ (v == meanQ l)%Q.
Proof.
  intros l v H. destruct (np_mean_spec l) as [[-> E]|[N [w [E W]]]]; rewrite E in H; [discriminate|].
  injection H as <-. auto.
Qed.

Lemma trim_nonempty : forall (l : list Q) trim, 3 <= trim -> l <> [] -> (2 * (length l / Z.to_nat trim) < length l)%nat.
Proof.
  intros l trim H N. assert (0 < length l)%nat by (destruct l; [congruence|cbn; lia]).
  pose proof (Nat.mul_div_le (length l) (Z.to_nat trim) ltac:(lia)). nia.
Qed.

Lemma trimmed_mean_value : forall l trim, 3 <= trim -> l <> [] ->
  exists v, trimmed_mean l trim = Fin v /\
    forall s, sorts s l -> (v == meanQ (middle (length l / Z.to_nat trim) s))%Q.
Proof.
  intros l trim H N. unfold trimmed_mean. rewrite trim_values_spec by lia.
  pose proof (trim_nonempty l trim H N) as P.
  destruct (np_mean_spec (middle (length l / Z.to_nat trim) (qsort l))) as [[E _]|[_ [v [E V]]]].
  - apply (f_equal (@length Q)) in E. rewrite middle_length, qsort_length in E. cbn in E. lia.
  - exists v. split; [exact E|]. intros s Hs. rewrite V. apply meanQ_eq, Forall2_middle.
    apply (sorts_eq _ _ l); [apply qsort_sorts|exact Hs].
Qed.

Lemma trimmed_mean_untrimmed : forall l, l <> [] -> exists v, trimmed_mean l 0 = Fin v /\ (v == meanQ l)%Q.
Proof.
  intros l N. unfold trimmed_mean, trim_values. cbn [Z.eqb].
  destruct (np_mean_spec l) as [[-> _]|[_ K]]; [congruence|exact K].
Qed.

Lemma trimmed_mean_inv : forall l trim v, 3 <= trim -> trimmed_mean l trim = Fin v ->
  l <> [] /\ forall s, sorts s l -> (v == meanQ (middle (length l / Z.to_nat trim) s))%Q.
Proof.
  intros l trim v H E.
  assert (N : l <> []).
  { intro K. subst. unfold trimmed_mean in E. rewrite trim_values_spec in E by lia.
    change (qsort []) with (@nil Q) in E. unfold middle in E. rewrite skipn_nil, firstn_nil in E. discriminate E. }
  split; [exact N|]. destruct (trimmed_mean_value l trim H N) as [v' [A B]]. rewrite A in E. injection E as <-. exact B.
Qed.

Lemma middle_nonempty : forall k s, (2 * k < length s)%nat -> middle k s <> [].
Proof. intros k s H K. apply (f_equal (@length Q)) in K. rewrite middle_length in K. cbn in K. lia. Qed.

Lemma trimmed_mean_perm : forall l l' trim v v', 3 <= trim \/ trim = 0 -> Permutation l l' ->
  trimmed_mean l trim = Fin v -> trimmed_mean l' trim = Fin v' -> (v == v')%Q.
Proof.
  intros l l' trim v v' [H| ->] P A B.
  - apply trimmed_mean_inv in A; [|exact H]. apply trimmed_mean_inv in B; [|exact H].
    rewrite (proj2 A (qsort l) (qsort_sorts l)), (proj2 B (qsort l)); [now rewrite (Permutation_length P)|].
    apply (sorts_perm _ l l' P), qsort_sorts.
  - unfold trimmed_mean, trim_values in A, B. cbn [Z.eqb] in A, B. apply np_mean_fin in A, B.
    rewrite (proj2 A), (proj2 B). now apply meanQ_perm.
Qed.

Lemma trimmed_mean_resistant : forall l trim v lo hi, 3 <= trim -> trimmed_mean l trim = Fin v ->
  (count (fun x => Qltb x lo) l <= length l / Z.to_nat trim)%nat ->
  (count (fun x => Qltb hi x) l <= length l / Z.to_nat trim)%nat -> (lo <= v /\ v <= hi)%Q.
Proof.
  intros l trim v lo hi H A H1 H2. apply trimmed_mean_inv in A; [|exact H]. destruct A as [N A].
  pose proof (trim_nonempty l trim H N) as P. set (k := (length l / Z.to_nat trim)%nat) in *.
  pose proof (qsort_sorts l) as S. rewrite (A _ S). rewrite <- (qsort_length l) in P.
  pose proof (order_low _ _ k lo S ltac:(lia) H1) as L.
  pose proof (order_high _ _ k hi S ltac:(lia) H2) as U.
  apply meanQ_bounds; [now apply middle_nonempty|].
  intros x Hx. pose proof (middle_bounds _ _ x (proj2 S) P Hx) as B. lra.
Qed.

Lemma trimmed_mean_mono : forall l l' trim v v', 3 <= trim -> Forall2 Qle l l' ->
  trimmed_mean l trim = Fin v -> trimmed_mean l' trim = Fin v' -> (v <= v')%Q.
Proof.
  intros l l' trim v v' H P A B. apply trimmed_mean_inv in A; [|exact H]. apply trimmed_mean_inv in B; [|exact H].
  destruct A as [N A]. rewrite (A (qsort l) (qsort_sorts l)), (proj2 B (qsort l') (qsort_sorts l')).
  rewrite <- (Forall2_length _ _ _ P). apply meanQ_le.
  - apply Forall2_middle. apply (sorts_mono _ l _ l'); auto using qsort_sorts.
  - apply middle_nonempty. rewrite qsort_length. now apply trim_nonempty.
Qed.

Lemma trimmed_mean_affine : forall a b l trim v v', 3 <= trim -> trimmed_mean l trim = Fin v ->
  trimmed_mean (map (fun x => a * x + b)%Q l) trim = Fin v' -> (v' == a * v + b)%Q.
Proof.
  intros a b l trim v v' H A B. apply trimmed_mean_inv in A; [|exact H]. apply trimmed_mean_inv in B; [|exact H].
  destruct A as [N A]. destruct B as [_ B]. rewrite map_length in B.
  rewrite (A _ (qsort_sorts l)). pose proof (trim_nonempty l trim H N) as P.
  set (k := (length l / Z.to_nat trim)%nat) in *. rewrite <- (qsort_length l) in P.
  pose proof (middle_nonempty k _ P) as N'.
  destruct (Qlt_le_dec a 0) as [C|C].
  - rewrite (B (rev (map (fun x => a * x + b)%Q (qsort l)))).
    + rewrite middle_rev by (rewrite map_length; lia). rewrite middle_map.
      rewrite (meanQ_perm _ (map (fun x => a * x + b)%Q (middle k (qsort l)))).
      * apply meanQ_affine, N'.
      * symmetry. apply Permutation_rev.
    + apply sorts_rev; [intros; nra|apply qsort_sorts].
  - rewrite (B (map (fun x => a * x + b)%Q (qsort l))).
    + rewrite middle_map. apply meanQ_affine, N'.
    + apply sorts_map; [intros; nra|apply qsort_sorts].
Qed.

(** trim = 1 drops everything, as does trim = 2 on an even number of values. *)
Lemma trimmed_mean_nothing_left : forall l, trimmed_mean l 1 = NaN /\ (Nat.even (length l) = true -> trimmed_mean l 2 = NaN).
Proof.
  intro l. split.
  - unfold trimmed_mean, trim_values. cbn [Z.eqb]. rewrite Z.div_1_r, Z.sub_diag. rewrite py_slice_empty by lia. reflexivity.
  - intro E. unfold trimmed_mean. rewrite trim_values_spec by lia.
    apply Nat.even_spec in E. destruct E as [k E].
    replace (middle (length l / Z.to_nat 2) (qsort l)) with (@nil Q); [reflexivity|].
    symmetry. apply length_zero_iff_nil. rewrite middle_length, qsort_length. change (Z.to_nat 2) with 2%nat.
    rewrite E. rewrite Nat.mul_comm, Nat.div_mul by lia. lia.
Qed.

(* ---- variance ---- *)

Lemma np_var_fin : forall l v, np_var l = Fin v -> l <> [] /\ (v == varQ l)%Q.
Proof.
  intros l v H. unfold np_var in H. destruct (np_mean_spec l) as [[-> E]|[N [m [E M]]]]; rewrite E in H; [discriminate|].
  apply np_mean_fin in H. destruct H as [_ H]. split; [exact N|]. rewrite H. unfold varQ.
  apply meanQ_eq. clear -M. induction l as [|x l IH]; cbn [map]; constructor.
  - rewrite M. reflexivity.
  - revert M. generalize (meanQ (x :: l)). intros q M. clear IH. induction l; cbn; constructor; auto. rewrite M. reflexivity.
Qed.

Lemma np_var_total : forall l, l <> [] -> exists v, np_var l = Fin v.
Proof.
  intros [|a l] N; [congruence|]. unfold np_var, np_mean. eexists. cbn [map]. reflexivity.
Qed.

Lemma sq_nonneg : forall y : Q, (0 <= y * y)%Q.
Proof. intro y. destruct (Qlt_le_dec y 0); nra. Qed.
Lemma sumsq_nonneg : forall l m, (0 <= sumQ (map (fun x => (x - m) * (x - m))%Q l))%Q.
Proof.
  induction l as [|x l IH]; intro m; [cbn; lra|]. specialize (IH m). cbn [map sumQ fold_right].
  fold (sumQ (map (fun x => (x - m) * (x - m))%Q l)). pose proof (sq_nonneg (x - m)). lra.
Qed.
Lemma sumsq_zero : forall l m, (sumQ (map (fun x => (x - m) * (x - m))%Q l) == 0)%Q -> forall x, In x l -> (x == m)%Q.
Proof.
  induction l as [|a l IH]; intros m H x []; subst; cbn [map sumQ fold_right] in H; fold (sumQ (map (fun x => (x - m) * (x - m))%Q l)) in H;
    pose proof (sumsq_nonneg l m).
  - pose proof (sq_nonneg (x - m)). assert (H2 : ((x - m) * (x - m) == 0)%Q) by lra. apply Qmult_integral in H2. destruct H2; lra.
  - pose proof (sq_nonneg (a - m)). apply IH; [lra|assumption].
Qed.

Lemma varQ_nonneg : forall l, l <> [] -> (0 <= varQ l)%Q.
Proof.
  intros l N. unfold varQ. set (m := meanQ l). set (q := map _ l).
  assert (q <> []) by (unfold q; destruct l; [congruence|discriminate]).
  pose proof (meanQ_mult q H). pose proof (len_pos q H). pose proof (sumsq_nonneg l m). fold q in H2. nra.
Qed.
Lemma varQ_zero : forall l, l <> [] -> ((varQ l == 0)%Q <-> forall x y, In x l -> In y l -> (x == y)%Q).
Proof.
  intros l N. split.
  - intros H x y Hx Hy. unfold varQ in H. set (m := meanQ l) in *. set (q := map _ l) in H.
    assert (Nq : q <> []) by (unfold q; destruct l; [congruence|discriminate]).
    pose proof (meanQ_mult q Nq) as M. rewrite H in M.
    assert (Z0 : (sumQ q == 0)%Q) by (rewrite <- M; ring).
    rewrite (sumsq_zero l m Z0 x Hx), (sumsq_zero l m Z0 y Hy). reflexivity.
  - intro H. destruct l as [|a l]; [congruence|]. set (q := a :: l) in *.
    assert (M : (meanQ q == a)%Q).
    { assert (B : (a <= meanQ q /\ meanQ q <= a)%Q).
      { apply meanQ_bounds; [exact N|]. intros x Hx. rewrite (H x a Hx); [lra|now left]. } lra. }
    unfold varQ. assert (B : (0 <= meanQ (map (fun x => (x - meanQ q) * (x - meanQ q))%Q q) /\
                             meanQ (map (fun x => (x - meanQ q) * (x - meanQ q))%Q q) <= 0)%Q).
    { apply meanQ_bounds; [discriminate|]. intros y Hy. apply in_map_iff in Hy. destruct Hy as [x [<- Hx]].
      rewrite (H x a Hx) by now left. rewrite M. split; ring_simplify; lra. }
    lra.
Qed.
Lemma varQ_affine : forall a b l, l <> [] -> (varQ (map (fun x => a * x + b) l) == a * a * varQ l)%Q.
Proof.
  intros a b l N. unfold varQ. rewrite map_map.
  pose proof (meanQ_affine a b l N) as M. set (m := meanQ (map (fun x => (a * x + b)%Q) l)) in *.
  rewrite (meanQ_eq _ (map (fun z => a * a * z + 0)%Q (map (fun x => (x - meanQ l) * (x - meanQ l))%Q l))).
  - rewrite meanQ_affine; [ring|]. destruct l; [congruence|discriminate].
  - rewrite map_map. clearbody m. generalize dependent (meanQ l). intros q M. clear -M.
    induction l as [|x l IH]; cbn; [constructor|]. constructor; [rewrite M; ring|exact IH].
Qed.
Lemma varQ_eq : forall l l', Forall2 Qeq l l' -> (varQ l == varQ l')%Q.
Proof.
  intros l l' H. unfold varQ. apply meanQ_eq. pose proof (meanQ_eq _ _ H) as M.
  generalize dependent (meanQ l). generalize (meanQ l'). intros p q M.
  induction H; cbn; constructor; auto. rewrite M, H. reflexivity.
Qed.
Lemma varQ_perm : forall l l', Permutation l l' -> (varQ l == varQ l')%Q.
Proof.
  intros l l' H. unfold varQ. rewrite (meanQ_perm _ (map (fun x => (x - meanQ l) * (x - meanQ l))%Q l')).
  - apply meanQ_eq. pose proof (meanQ_perm _ _ H) as M. generalize dependent (meanQ l). generalize (meanQ l').
    intros p q M. clear -M. induction l'; cbn; constructor; auto. rewrite M. reflexivity.
  - now apply Permutation_map.
Qed.
