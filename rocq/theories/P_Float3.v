(** C71: scaled fields of a record in double precision. C72: limits and flags in double precision. *)
Require Import String ZArith QArith Reals Lra Lia Bool List.
From Flocq Require Import Core.Core IEEE754.BinarySingleNaN.
Require Import Verif.M_Base Verif.M_Imma Verif.M_ImmaTables Verif.M_Float Verif.S_Float Verif.L_Float Verif.L_Float2 Verif.L_Float3 Verif.L_Float5.
Import ListNotations.
Open Scope R_scope.

(** A number n of scale units, decoded to a float and encoded again, comes back if it is not negative; a negative one comes back one
    too high, as it does in exact arithmetic. *)
Theorem C71_encode : forall s r n, is_double s r -> 1 / 2000 <= r <= 2 -> (Z.abs n <= 10 ^ 11)%Z -> fencode s (fdecode s n) = Ok (if (0 <=? n)%Z then n else (n + 1)%Z).
Proof. exact encode_ok. Qed.
Print Assumptions C71_encode.
(** The scale of a field is 1, a tenth, a hundredth or a thousandth. *)
Lemma scales : forall att name table field d sc, In (att, (name, table)) imma_tables -> In (field, d) table -> d_scale d = Some sc -> In sc [1 # 1; 1 # 10; 1 # 100; 1 # 1000]%Q.
Proof.
  assert (E : forallb (fun at_ => forallb (fun fd => match d_scale (snd fd) with Some sc => existsb (fun s => (Qnum s =? Qnum sc)%Z && (Qden s =? Qden sc)%positive) [1 # 1; 1 # 10; 1 # 100; 1 # 1000]%Q | None => true end) (snd (snd at_))) imma_tables = true) by reflexivity.
  intros att name table field d sc T F S. rewrite forallb_forall in E. specialize (E _ T). cbn [snd] in E. rewrite forallb_forall in E. specialize (E _ F). cbn [snd] in E. rewrite S in E. apply existsb_exists in E as [s [I E]]. apply andb_true_iff in E as [E1 E2]. apply Z.eqb_eq in E1. apply Pos.eqb_eq in E2.
  enough (s = sc) as <- by exact I. destruct s, sc. cbn in *. congruence.
Qed.
Lemma scale_facts : forall sc, In sc [1 # 1; 1 # 10; 1 # 100; 1 # 1000]%Q -> 1 / 1000 <= Q2R sc <= 1 /\ (Qnum sc <= 2 ^ 53)%Z /\ (0 < Qnum sc)%Z /\ (Zpos (Qden sc) <= 2 ^ 53)%Z /\ ~ (sc == 0)%Q.
Proof. intros sc [<-|[<-|[<-|[<-|[]]]]]; unfold Q2R; cbn; repeat split; try lra; try lia; discriminate. Qed.
(** For every field of every attachment the doubles lead to the same number as exact arithmetic does (IMMA1.py: encode), and the
    decoded value is the exact one up to a relative error of 3e-16. *)
Theorem C71_fields : forall att name table field d sc n, In (att, (name, table)) imma_tables -> In (field, d) table -> d_scale d = Some sc -> (Z.abs n <= 10 ^ 11)%Z ->
  fencode (fq sc) (fdecode (fq sc) n) = Ok (py_int (inject_Z n * sc / sc + (1 # 2))) /\
  exists v, is_double (fdecode (fq sc) n) v /\ Rabs (v - IZR n * Q2R sc) <= 3 / 10000000000000000 * Rabs (IZR n * Q2R sc).
Proof.
  intros att name table field d sc n T F S N. destruct (scale_facts sc (scales _ _ _ _ _ _ T F S)) as [B [N1 [N2 [D NZ]]]]. destruct (decode_near sc n B N1 N2 D N) as [v [r [I [R [V E]]]]]. split; [|exists v; now split].
  rewrite (encode_ok _ r n I R N). f_equal. rewrite <- trunc_Q. assert (X : Q2R (inject_Z n * sc / sc + (1 # 2)) = IZR n + 1 / 2).
  { transitivity (Q2R (inject_Z n + (1 # 2))); [apply Qreals.Qeq_eqR; field; exact NZ|]. rewrite Qreals.Q2R_plus, Q2R_Z. unfold Q2R. cbn. lra. }
  rewrite X. symmetry. destruct (Z.leb_spec 0 n) as [P|P]; [apply trunc_near_pos; [lra|exact P]|apply trunc_near_neg; [rewrite plus_IZR; lra|lia]].
Qed.
Print Assumptions C71_fields.
Example C71_ex : In (0%Z, ("core"%string, table_00)) imma_tables /\ In ("SST"%string, mkdef (Some 4%nat) (Some (1 # 10)) 1) table_00 /\ fencode (fq (1 # 10)) (fdecode (fq (1 # 10)) 273) = Ok 273%Z /\ fencode (fq (1 # 10)) (fdecode (fq (1 # 10)) (-18)) = Ok (-17)%Z.
Proof. split; [now left|]. split; [cbn; tauto|]. split; vm_compute; reflexivity. Qed.
(** A number of k-th parts written to an output line as a whole number of k-th parts (pvar) is the number read. *)
Theorem C71_output : forall k n, (1 <= k <= 1000)%Z -> (Z.abs n <= 10 ^ 11)%Z -> fpvar (fdecode (fdiv (fz 1) (fz k)) n) (fz k) = Ok n.
Proof. exact pvar_ok. Qed.
Print Assumptions C71_output.
Example C71_output_ex : fq (1 # 100) = fdiv (fz 1) (fz 100) /\ fpvar (fdecode (fdiv (fz 1) (fz 100)) (-3567)) (fz 100) = Ok (-3567)%Z.
Proof. split; [reflexivity|vm_compute; reflexivity]. Qed.
(** Rounding gives a nearest whole number, and of two the one further from zero. *)
Theorem C71_round : forall x a, is_double x a -> Rabs a <= 100000000000 -> exists n, fround x = Ok n /\ Rabs (a - IZR n) <= 1 / 2 /\ (Rabs (a - IZR n) = 1 / 2 -> Rabs a < Rabs (IZR n)).
Proof. exact fround_spec. Qed.
Print Assumptions C71_round.
Example C71_round_ex : fround (fdiv (fz 5) (fz 2)) = Ok 3%Z /\ fround (fdiv (fz (-5)) (fz 2)) = Ok (-3)%Z /\ fround (fdiv (fz 9) (fz 4)) = Ok 2%Z.
Proof. repeat split; vm_compute; reflexivity. Qed.

(** A value that is within the limit of the climatological average is never flagged. *)
Theorem C72_within : forall x a m b l c, is_double x a -> is_double m b -> is_double l c -> Rabs (a - b) <= 1000000000000 -> Rabs (a - b) <= c -> ffar x m l = false.
Proof. intros x a m b l c I J K B H. eapply far_within; eauto. now apply small_big. Qed.
Print Assumptions C72_within.
(** A value that is beyond the limit by 1e-13 is always flagged. *)
Theorem C72_beyond : forall x a m b l c, is_double x a -> is_double m b -> is_double l c -> Rabs (a - b) <= 1000000000000 -> 0 <= c <= 1000 -> c + 1 / 10000000000000 <= Rabs (a - b) -> ffar x m l = true.
Proof. intros x a m b l c I J K B C H. eapply far_beyond; eauto. now apply small_big. Qed.
Print Assumptions C72_beyond.
Example C72_ex : is_double (fz 20) 20 /\ is_double (fz 11) 11 /\ is_double (fz 8) 8 /\ is_double (fz 9) 9 /\ ffar (fz 20) (fz 11) (fz 8) = true /\ ffar (fz 20) (fz 11) (fz 9) = false.
Proof. split; [apply (is_fz 20); lia|]. split; [apply (is_fz 11); lia|]. split; [apply (is_fz 8); lia|]. split; [apply (is_fz 9); lia|]. split; vm_compute; reflexivity. Qed.
(** Finding: the values are doubles near decimal numbers, not the decimal numbers themselves. A value of 8.2, read as 82 tenths, is exactly
    8 from an average of 0.2, read as 2 tenths, yet it is flagged for a difference of more than 8. *)
Theorem C72_decimal_refuted : ffar (fdecode (fq (1 # 10)) 82) (fdecode (fq (1 # 10)) 2) (fz 8) = true /\ ((82 * (1 # 10) - 2 * (1 # 10) == 8))%Q.
Proof. split; [vm_compute; reflexivity|reflexivity]. Qed.
Print Assumptions C72_decimal_refuted.
(** The flag for a probability: from 0 to 9, and the probability in tenths, rounded down (1 counts as 9), up to an error of 1e-15. *)
Theorem C72_flag : forall x p, is_double x p -> 0 <= p <= 1 -> exists k, fflag x = Ok k /\ (0 <= k <= 9)%Z /\ IZR k / 10 - 1 / 1000000000000000 <= p /\ (p < (IZR k + 1) / 10 \/ k = 9%Z).
Proof. exact flag_ok. Qed.
Print Assumptions C72_flag.
Example C72_flag_ex : is_double (fdiv (fz 1) (fz 4)) (1 / 4) /\ fflag (fdiv (fz 1) (fz 4)) = Ok 2%Z /\ fflag (fz 1) = Ok 9%Z /\ fflag (fq (3 # 10)) = Ok 3%Z.
Proof.
  split; [|repeat split; vm_compute; reflexivity]. pose proof (is_fq (1 # 4) ltac:(cbn; lia) ltac:(cbn; lia)) as K. cbn [Qnum Qden] in K. rewrite rnd_id in K; [exact K|]. replace (1 / 4) with (IZR 1 * bpow radix2 (-2)) by (cbn; lra). apply dbl_scaled; lia.
Qed.
