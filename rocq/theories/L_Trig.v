(** Rational bounds on cosines. *)
Require Import Reals Lra ZArith.
Open Scope R_scope.

Fixpoint zfact (n : nat) : Z := match n with O => 1%Z | S m => (Z.of_nat n * zfact m)%Z end.
Lemma fact_z : forall n, INR (fact n) = IZR (zfact n).
Proof. induction n as [|n IH]; [reflexivity|]. cbn [zfact]. rewrite mult_IZR, <- IH, <- INR_IZR_INZ, <- mult_INR. reflexivity. Qed.
Definition cpoly (a : R) (n : nat) : R := sum_f_R0 (fun i => (-1) ^ i * (a ^ (2 * i) / IZR (zfact (2 * i)))) n.
Lemma cos_cpoly : forall a n, cos_approx a n = cpoly a n.
Proof. intros. unfold cos_approx, cpoly, cos_term. apply sum_eq. intros. now rewrite fact_z. Qed.
Ltac cpoly_in A :=
  rewrite cos_cpoly in A; unfold cpoly in A; cbn [sum_f_R0 Nat.mul Nat.add pow] in A;
  repeat match type of A with context [IZR (zfact ?n)] => let v := eval vm_compute in (zfact n) in change (zfact n) with v in A end.
