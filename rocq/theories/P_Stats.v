(** Property theorems C16, C17, C19 (resistant averages, buddy-check multiplier). *)
Require Import ZArith QArith Qround List Bool Lia Lqa Permutation Sorting.Sorted Reals Qreals.
Require Import Verif.M_Base Verif.M_Stats Verif.S_Stats Verif.L_Stats Verif.L_Stats2.
Import ListNotations.
Open Scope Z_scope.

(* ------------------------------------------------------------------ C16 *)

Theorem C16_value : forall l, l <> [] ->
  exists v, winsorised_mean l = Ok v /\ forall s, sorts s l -> (v == meanQ (winsorised s))%Q.
Proof. exact winsorised_mean_value. Qed.
Print Assumptions C16_value.

Theorem C16_empty_raises : winsorised_mean [] = Err ZeroDivisionError.
Proof. exact winsorised_mean_empty. Qed.
Print Assumptions C16_empty_raises.

Theorem C16_permutation_invariant : forall l l' v v', Permutation l l' ->
  winsorised_mean l = Ok v -> winsorised_mean l' = Ok v' -> (v == v')%Q.
Proof. exact winsorised_mean_perm. Qed.
Print Assumptions C16_permutation_invariant.

Theorem C16_bounded : forall l v lo hi, winsorised_mean l = Ok v ->
  (forall x, In x l -> (lo <= x /\ x <= hi)%Q) -> (lo <= v /\ v <= hi)%Q.
Proof. exact winsorised_mean_bounds. Qed.
Print Assumptions C16_bounded.

(** Resistance: a quarter of the values may be arbitrarily low and another quarter arbitrarily high
    without moving the result out of the range of the rest. *)
Theorem C16_resistant : forall l v lo hi, winsorised_mean l = Ok v ->
  (count (fun x => Qltb x lo) l <= length l / 4)%nat ->
  (count (fun x => Qltb hi x) l <= length l / 4)%nat -> (lo <= v /\ v <= hi)%Q.
Proof. exact winsorised_mean_resistant. Qed.
Print Assumptions C16_resistant.

Theorem C16_monotone : forall l l' v v', Forall2 Qle l l' ->
  winsorised_mean l = Ok v -> winsorised_mean l' = Ok v' -> (v <= v')%Q.
Proof. exact winsorised_mean_mono. Qed.
Print Assumptions C16_monotone.

(** Shifting, scaling and changing sign commute with the mean. *)
Theorem C16_affine : forall a b l v v', winsorised_mean l = Ok v ->
  winsorised_mean (map (fun x => a * x + b)%Q l) = Ok v' -> (v' == a * v + b)%Q.
Proof. exact winsorised_mean_affine. Qed.
Print Assumptions C16_affine.

(** Finding: a list of integers gets the mean rounded down. *)
Theorem C16_integer_list_floor : forall l v, winsorised_mean (map inject_Z l) = Ok v ->
  winsorised_mean_int l = Ok (Qfloor v).
Proof. exact winsorised_mean_int_floor. Qed.
Print Assumptions C16_integer_list_floor.

(** A list of integers does not get the mean of the same numbers as floats: Python 2 divides integers downwards. *)
Theorem C16_integer_list_refuted : exists l v, winsorised_mean (map inject_Z l) = Ok v /\
  forall z, winsorised_mean_int l = Ok z -> ~ (inject_Z z == v)%Q.
Proof.
  exists [1; 2], (3 # 2)%Q. split; [reflexivity|]. intros z H. vm_compute in H. injection H as <-. discriminate.
Qed.
Print Assumptions C16_integer_list_refuted.

Example C16_ex : exists v, winsorised_mean [100; 1; 3; 2; -50; 4; 5; 6]%Q = Ok v /\ (v == 7 # 2)%Q /\
  (count (fun x => Qltb x 1) [100; 1; 3; 2; -50; 4; 5; 6]%Q <= 8 / 4)%nat.
Proof. eexists. split; [vm_compute; reflexivity|]. split; [reflexivity|]. vm_compute. lia. Qed.

(* ------------------------------------------------------------------ C17 *)

(** trim_mean in trackqc computes the same values as trimmed_mean in qc. *)
Theorem C17_same_function : forall l trim, trim_mean l trim = trimmed_mean l trim.
Proof. reflexivity. Qed.
Print Assumptions C17_same_function.

Theorem C17_value : forall l trim, 3 <= trim -> l <> [] ->
  exists v, trimmed_mean l trim = Fin v /\
    forall s, sorts s l -> (v == meanQ (middle (length l / Z.to_nat trim) s))%Q.
Proof. exact trimmed_mean_value. Qed.
Print Assumptions C17_value.

Theorem C17_untrimmed : forall l, l <> [] -> exists v, trimmed_mean l 0 = Fin v /\ (v == meanQ l)%Q.
Proof. exact trimmed_mean_untrimmed. Qed.
Print Assumptions C17_untrimmed.

Theorem C17_permutation_invariant : forall l l' trim v v', 3 <= trim \/ trim = 0 -> Permutation l l' ->
  trimmed_mean l trim = Fin v -> trimmed_mean l' trim = Fin v' -> (v == v')%Q.
Proof. exact trimmed_mean_perm. Qed.
Print Assumptions C17_permutation_invariant.

Theorem C17_resistant : forall l trim v lo hi, 3 <= trim -> trimmed_mean l trim = Fin v ->
  (count (fun x => Qltb x lo) l <= length l / Z.to_nat trim)%nat ->
  (count (fun x => Qltb hi x) l <= length l / Z.to_nat trim)%nat -> (lo <= v /\ v <= hi)%Q.
Proof. exact trimmed_mean_resistant. Qed.
Print Assumptions C17_resistant.

Theorem C17_monotone : forall l l' trim v v', 3 <= trim -> Forall2 Qle l l' ->
  trimmed_mean l trim = Fin v -> trimmed_mean l' trim = Fin v' -> (v <= v')%Q.
Proof. exact trimmed_mean_mono. Qed.
Print Assumptions C17_monotone.

(** Shift, scale and sign change (a = -1: trimming treats both ends alike). *)
Theorem C17_affine : forall a b l trim v v', 3 <= trim -> trimmed_mean l trim = Fin v ->
  trimmed_mean (map (fun x => a * x + b)%Q l) trim = Fin v' -> (v' == a * v + b)%Q.
Proof. exact trimmed_mean_affine. Qed.
Print Assumptions C17_affine.

(** The trimmed standard deviation is the root of the population variance of the central values. *)
Theorem C17_std_value : forall l trim, 3 <= trim -> l <> [] ->
  exists r, trim_std l trim = Some r /\ (0 <= r)%R /\
    forall s, sorts s l -> (r * r = Q2R (varQ (middle (length l / Z.to_nat trim) s)))%R.
Proof. exact trim_std_value. Qed.
Print Assumptions C17_std_value.

Theorem C17_std_untrimmed : forall l, l <> [] ->
  exists r, trim_std l 0 = Some r /\ (0 <= r)%R /\ (r * r = Q2R (varQ l))%R.
Proof. exact trim_std_untrimmed. Qed.
Print Assumptions C17_std_untrimmed.

(** Its square ignores shifts and scales quadratically. *)
Theorem C17_variance_affine : forall a b l trim v v', 3 <= trim -> trim_var l trim = Fin v ->
  trim_var (map (fun x => a * x + b)%Q l) trim = Fin v' -> (v' == a * a * v)%Q.
Proof. exact trim_var_affine. Qed.
Print Assumptions C17_variance_affine.

(** The specification's variance vanishes exactly for constant lists. *)
Theorem C17_variance_zero : forall l, l <> [] ->
  ((varQ l == 0)%Q <-> forall x y, In x l -> In y l -> (x == y)%Q).
Proof. exact varQ_zero. Qed.
Print Assumptions C17_variance_zero.

(** Finding: trimming by 1, or by 2 with an even number of values, leaves nothing and gives NaN. *)
Theorem C17_nothing_left_refuted : forall l,
  trimmed_mean l 1 = NaN /\ (Nat.even (length l) = true -> trimmed_mean l 2 = NaN).
Proof. exact trimmed_mean_nothing_left. Qed.
Print Assumptions C17_nothing_left_refuted.

Example C17_ex : exists v w, trimmed_mean [9; 1; 2; 3; -70]%Q 5 = Fin v /\ (v == 2)%Q /\
  trim_var [9; 1; 2; 3; -70]%Q 5 = Fin w /\ (w == 2 # 3)%Q /\ sorts [-70; 1; 2; 3; 9]%Q [9; 1; 2; 3; -70]%Q.
Proof.
  do 2 eexists. split; [vm_compute; reflexivity|]. split; [reflexivity|]. split; [vm_compute; reflexivity|]. split; [reflexivity|].
  exact (qsort_sorts [9; 1; 2; 3; -70]%Q).
Qed.

(* ------------------------------------------------------------------ C19 *)

(** For at least one observation: the multiplier of the largest limit strictly below the count. *)
Theorem C19_lookup : forall t lims mults, table_ok lims mults -> 0 < t ->
  exists i l q, nth_error lims i = Some l /\ nth_error mults i = Some q /\ l < t /\
    (forall j l', (i < j)%nat -> nth_error lims j = Some l' -> t <= l') /\
    get_threshold_multiplier t lims mults = Ok q.
Proof. exact multiplier_positive. Qed.
Print Assumptions C19_lookup.

(** No observations: 4 whatever the table; a negative count raises. *)
Theorem C19_zero : forall lims mults, table_ok lims mults -> get_threshold_multiplier 0 lims mults = Ok 4%Q.
Proof. exact multiplier_zero. Qed.
Print Assumptions C19_zero.

Theorem C19_negative_raises : forall t lims mults, table_ok lims mults -> t < 0 ->
  get_threshold_multiplier t lims mults = Err AssertionError.
Proof. exact multiplier_negative. Qed.
Print Assumptions C19_negative_raises.

Theorem C19_bad_table_raises : forall t lims mults, ~ table_ok lims mults ->
  exists e, get_threshold_multiplier t lims mults = Err e.
Proof. exact multiplier_bad_table. Qed.
Print Assumptions C19_bad_table_raises.

(** More observations never loosen the limit, for non-increasing multipliers of at most 4
    (as in the tables written in the code: Extended_IMMA.py:2703, 2723, 2743, 2763). *)
Theorem C19_antitone : forall t t' lims mults q q', table_ok lims mults ->
  StronglySorted (fun a b => (b <= a)%Q) mults -> (forall m, In m mults -> (m <= 4)%Q) ->
  t <= t' -> get_threshold_multiplier t lims mults = Ok q -> get_threshold_multiplier t' lims mults = Ok q' -> (q' <= q)%Q.
Proof. exact multiplier_antitone. Qed.
Print Assumptions C19_antitone.

Example C19_ex : table_ok [0; 5; 15; 100] [4; 7 # 2; 3; 5 # 2]%Q /\
  StronglySorted (fun a b => (b <= a)%Q) [4; 7 # 2; 3; 5 # 2]%Q /\
  get_threshold_multiplier 5 [0; 5; 15; 100] [4; 7 # 2; 3; 5 # 2]%Q = Ok 4%Q /\
  get_threshold_multiplier 6 [0; 5; 15; 100] [4; 7 # 2; 3; 5 # 2]%Q = Ok (7 # 2)%Q.
Proof.
  split; [split; [reflexivity|split; [|split; [reflexivity|repeat constructor]]]|].
  - intros m H. cbn in H. repeat (destruct H as [<-|H]; [lra|]). destruct H.
  - split; [repeat (constructor; try (unfold Qle; cbn; lia))|]. split; reflexivity.
Qed.
