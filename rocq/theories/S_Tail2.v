(** What the tail check and the bias and noise check of a drifter's temperatures decide. *)
Require Import String ZArith QArith Qround List Bool.
Require Import Verif.M_Base Verif.S_Stats Verif.S_Sun Verif.M_Report Verif.S_Report Verif.S_Voyage Verif.S_Track Verif.M_Drifter Verif.S_Tail.
Import ListNotations.
Open Scope string_scope.
Open Scope list_scope.
Open Scope Z_scope.

(** All reports of the record carry matched values in range. *)
Definition assessable (v : list report) : Prop := forall r, In r v -> exists bg ice var, matched r bg ice var.

(** Parameters in their documented ranges; the long window has 2 half + 1 observations. *)
Definition tail_params_ok (p : tail_params) (half : nat) : Prop :=
  tl_long p = 2 * Z.of_nat half + 1 /\ 1 <= tl_short p /\ 1 <= tl_bad p /\ (0 <= tl_long_n p)%Q /\ (0 <= tl_short_n p)%Q /\ (0 <= tl_inter p)%Q /\ (0 <= tl_intra p)%Q /\ (0 <= tl_lim p)%Q.

Section Decisions.
Variable sq : Q -> Q.
(** The long (short) window starting at the i-th compared observation is reliable and fails. *)
Definition long_bad (p : tail_params) (half : nat) (ws : list (Q * Q)) (i : nat) : Prop :=
  reliable sq (tl_lim p) (from_to i (2 * half + 1) ws) /\ biased_or_noisy sq (tl_long_n p) (tl_inter p) (tl_intra p) (from_to i (2 * half + 1) ws).
Definition short_bad (p : tail_params) (ws : list (Q * Q)) (i : nat) : Prop :=
  let sw := Z.to_nat (tl_short p) in
  reliable sq (tl_lim p) (from_to i sw ws) /\ many_suspicious sq (tl_short_n p) (tl_inter p) (tl_intra p) (tl_bad p) (from_to i sw ws).
(** The i-th report of the record lies in the start tail (at or before its last compared observation), in
    the end tail (at or after its first one). *)
Definition start_tail (p : tail_params) (half : nat) (obs : list (nat * (Q * Q))) (i : nat) : Prop :=
  exists a b, tails (length obs) half (Z.to_nat (tl_short p)) (long_bad p half (map snd obs)) (short_bad p (map snd obs)) a b /\
    (0 < a)%nat /\ exists x, nth_error obs (a - 1) = Some x /\ (i <= fst x)%nat.
Definition end_tail (p : tail_params) (half : nat) (obs : list (nat * (Q * Q))) (i : nat) : Prop :=
  exists a b, tails (length obs) half (Z.to_nat (tl_short p)) (long_bad p half (map snd obs)) (short_bad p (map snd obs)) a b /\
    (0 < b)%nat /\ exists x, nth_error obs (length obs - b) = Some x /\ (fst x <= i)%nat.

(** Parameters of the bias and noise check. *)
Definition bias_params_ok (p : bias_params) : Prop :=
  0 < bs_eval p /\ 1 <= bs_bad p /\ (0 <= bs_lim p)%Q /\ (0 <= bs_intra p)%Q /\ (0 <= bs_inter p)%Q /\ (0 <= bs_n p)%Q /\ (0 <= bs_bg p)%Q.
(** A record with enough compared observations is biased, is noisy; one with too few has many suspicious
    observations (and no report with an unreliable background). *)
Definition record_biased (p : bias_params) (obs : list (nat * (Q * Q))) : Prop :=
  bs_eval p <= Z.of_nat (length obs) /\ (bs_lim p < Qabs' (meanQ (map fst (map snd obs))))%Q.
Definition record_noisy (p : bias_params) (obs : list (nat * (Q * Q))) : Prop :=
  bs_eval p <= Z.of_nat (length obs) /\
  let rms := sq (meanQ (map (fun e => e * e)%Q (errs sq (map snd obs)))) in (sq (bs_intra p * bs_intra p + rms * rms) < sq (varQ (map fst (map snd obs))))%Q.
Definition record_short (p : bias_params) (v : list report) (obs : list (nat * (Q * Q))) : Prop :=
  Z.of_nat (length obs) < bs_eval p /\ (forall r b, In r v -> getext r "BGVAR" = Ok (Some b) -> (b <= bs_bg p)%Q) /\
  many_suspicious sq (bs_n p) (bs_inter p) (bs_intra p) (bs_bad p) (map snd obs).
End Decisions.
