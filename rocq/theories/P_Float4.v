(** C73: the winsorised mean in double precision. *)
Require Import ZArith QArith Reals Lra Lia Bool List Permutation Qreals.
From Flocq Require Import Core.Core IEEE754.BinarySingleNaN.
Require Import Verif.M_Base Verif.M_Stats Verif.S_Stats Verif.L_Stats Verif.M_Float Verif.M_Float2 Verif.S_Float Verif.L_Float Verif.L_Float3 Verif.L_Float6.
Import ListNotations.
Open Scope R_scope.

(** The doubles xs stand for the numbers qs, of which there are between 1 and a million, none above M in absolute value. *)
Definition doubles_for (M : R) (xs : list fl) (qs : list Q) : Prop :=
  Forall2 (fun x q => is_double x (Q2R q)) xs qs /\ (1 <= Z.of_nat (length qs) <= 1000000)%Z /\ 1 <= M <= 100000 /\ forall q, In q qs -> Rabs (Q2R q) <= M.
(** The mean of n doubles is the winsorised mean of the same numbers up to (n + 3) * M * 4e-16. *)
Theorem C73_close : forall M xs qs s, doubles_for M xs qs -> sorts s qs ->
  exists x a, fwinsorised_mean xs = Ok x /\ is_double x a /\ Rabs (a - Q2R (meanQ (winsorised s))) <= (INR (length qs) + 3) * M * (4 / 10000000000000000).
Proof.
  intros M xs qs s [R [N [MB Q]]] S. destruct (winsorised_mean_value qs ltac:(intros ->; cbn in N; lia)) as [v [V E]].
  pose proof (wins_rel M xs qs MB R N Q) as W. rewrite V in W. destruct W as [x [a [F [I [B _]]]]]. exists x, a. split; [exact F|]. split; [exact I|]. rewrite <- (Qeq_eqR _ _ (E s S)). eapply Rle_trans; [exact B|].
  pose proof u_pos. pose proof (pos_INR (length qs)). replace ((INR (length qs) + 3) * M * (4 / 10000000000000000)) with ((INR (length qs) + 3) * (M * (4 / 10000000000000000))) by ring. apply Rmult_le_compat_l; [lra|]. nra.
Qed.
Print Assumptions C73_close.
(** It does not depend on the order of the numbers at all, although additions in double precision do: the numbers are sorted first. *)
Theorem C73_order : forall M xs qs ys, doubles_for M xs qs -> Permutation xs ys ->
  exists x y a, fwinsorised_mean xs = Ok x /\ fwinsorised_mean ys = Ok y /\ is_double x a /\ is_double y a.
Proof.
  intros M xs qs ys [R [N [MB Q]]] P. destruct (rel_perm _ _ P _ R) as [qs' [R' P']].
  assert (N' : (1 <= Z.of_nat (length qs') <= 1000000)%Z) by (now rewrite <- (Permutation_length P')). assert (Q' : forall q, In q qs' -> Rabs (Q2R q) <= M) by (intros q I; apply Q; apply (Permutation_in _ (Permutation_sym P') I)).
  destruct (winsorised_mean_value qs ltac:(intros ->; cbn in N; lia)) as [v [V _]]. destruct (winsorised_mean_value qs' ltac:(intros ->; cbn in N'; lia)) as [v' [V' _]].
  pose proof (wins_rel M xs qs MB R N Q) as W. rewrite V in W. destruct W as [x [a [F [I [_ D]]]]]. pose proof (wins_rel M ys qs' MB R' N' Q') as W'. rewrite V' in W'. destruct W' as [y [b [F' [I' [_ D']]]]].
  rewrite (same_values (qsort qs) (qsort qs')) in D. { assert (a = b) by congruence. subst b. exists x, y, a. auto. }
  apply (sorts_eq _ _ qs'); [|apply qsort_sorts]. apply (sorts_perm _ qs); [exact P'|apply qsort_sorts].
Qed.
Print Assumptions C73_order.
(** No numbers, no mean. *)
Theorem C73_empty : fwinsorised_mean [] = Err ZeroDivisionError.
Proof. reflexivity. Qed.
Print Assumptions C73_empty.
Example C73_ex : doubles_for 9 [fz 3; fz 9; fz 1; fz 4; fz 7] (map inject_Z [3; 9; 1; 4; 7]%Z) /\ match fwinsorised_mean [fz 3; fz 9; fz 1; fz 4; fz 7] with Ok x => feq x (fq (24 # 5)) | Err _ => false end = true.
Proof.
  split; [|vm_compute; reflexivity]. split; [|split; [cbn; lia|split; [lra|]]].
  - cbn [map]. repeat (apply Forall2_cons; [rewrite Q2R_Z; apply is_fz; lia|]). apply Forall2_nil.
  - intros q I. cbn [map In] in I. destruct I as [<-|[<-|[<-|[<-|[<-|[]]]]]]; rewrite Q2R_Z, <- abs_IZR; apply IZR_le; lia.
Qed.
(** Finding: the mean need not be between the smallest and the largest number, as it is on exact numbers (C16): three times 0.1, as
    a double, has a mean above 0.1. *)
Theorem C73_bounded_refuted : match fwinsorised_mean (repeat (fq (1 # 10)) 3) with Ok x => flt (fq (1 # 10)) x | Err _ => false end = true.
Proof. vm_compute. reflexivity. Qed.
Print Assumptions C73_bounded_refuted.
