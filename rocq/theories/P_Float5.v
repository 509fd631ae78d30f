(** C75: the modal speed and the speed limits of the track check in double precision. *)
Require Import String ZArith QArith Reals Lra Lia Bool List Qreals.
From Flocq Require Import Core.Core IEEE754.BinarySingleNaN.
Require Import Verif.M_Base Verif.M_Report Verif.M_Track Verif.S_Track Verif.M_Float Verif.M_Float3 Verif.S_Float Verif.L_Float Verif.L_Float2 Verif.L_Float3 Verif.L_Float6 Verif.L_Float7.
Import ListNotations.
Open Scope R_scope.

(** One knot is 1/0.539957 km/h. *)
Definition knot : R := / (539957 / 1000000).
(** Speed s (km/h) is at least 1e-13 knots from the borders of the bins, 3, 6, ..., 33 knots. *)
Definition clear (s : R) : Prop := forall k, (1 <= k <= 11)%Z -> 1 / 10 ^ 13 <= Rabs (s / knot - 3 * IZR k).
Lemma over_knot : forall s, s / knot = km * s.
Proof. intro s. unfold knot, km. field. Qed.
Lemma times_knot : forall m, m * knot = m / km.
Proof. intro m. unfold knot, km. field. Qed.

(** The computed modal speed is the modal speed of speeds that differ from those given by at most 6e-16 of their size, in km/h up to 1e-13.
    The first entry of the list is not looked at. *)
Theorem C75_modal : forall first xs ss, Forall2 is_double xs ss -> xs <> [] -> (forall s, In s ss -> Rabs s <= 1000000000) ->
  exists y v qs m, fmodesp (first :: map Some xs) = Ok (Some y) /\ is_double y v /\
    Forall2 (fun s q => Rabs (Q2R q - s) <= 6 / 10 ^ 16 * Rabs s + 1 / 10 ^ 30) ss qs /\
    modal_knots qs m /\ Rabs (v - Q2R m * knot) <= 1 / 10 ^ 13.
Proof.
  intros first xs ss F N B. pose proof u_pos as U.
  assert (U' : 5 * u <= 6 / 10 ^ 16) by (unfold u; cbn; lra).
  assert (X : exists qs, Forall2 (fun s q => Rabs (Q2R q - s) <= 6 / 10 ^ 16 * Rabs s + 1 / 10 ^ 30) ss qs /\ Forall2 (fun x q => fspeed_bin x = Ok (speed_bin q)) xs qs).
  { clear N. induction F as [|x s xs ss I F IH]; [exists []; split; constructor|]. destruct IH as [qs [A C]]; [intros; apply B; now right|].
    destruct (bin_nearby x s I (B s (or_introl eq_refl))) as [q [Q1 Q2]]. exists (q :: qs). split; (apply Forall2_cons; [|assumption]); [|exact Q2].
    eapply Rle_trans; [exact Q1|]. apply Rplus_le_compat; [apply Rmult_le_compat_r; [apply Rabs_pos|exact U']|lra]. }
  destruct X as [qs [A C]]. destruct (fmodesp_ok first xs qs N C) as [y [v [m [Y [I [M [D _]]]]]]]. exists y, v, qs, m. rewrite times_knot. repeat split; try assumption; try apply I. lra.
Qed.
Print Assumptions C75_modal.
(** If no speed is that close to a border, it is the modal speed of the very speeds given. *)
Theorem C75_modal_clear : forall first xs qs, Forall2 (fun x q => is_double x (Q2R q)) xs qs -> xs <> [] ->
  (forall q, In q qs -> Rabs (Q2R q) <= 1000000000 /\ clear (Q2R q)) ->
  exists y v m, fmodesp (first :: map Some xs) = Ok (Some y) /\ is_double y v /\ modal_knots qs m /\ Rabs (v - Q2R m * knot) <= 1 / 10 ^ 13.
Proof.
  intros first xs qs F N B. pose proof u_pos as U.
  assert (C : Forall2 (fun x q => fspeed_bin x = Ok (speed_bin q)) xs qs).
  { clear N. induction F as [|x q xs qs I F IH]; [constructor|]. apply Forall2_cons; [|apply IH; intros; apply B; now right].
    destruct (B q (or_introl eq_refl)) as [B1 B2]. apply bin_exact; [exact I|exact B1|]. intros k K. specialize (B2 k K). now rewrite over_knot in B2. }
  destruct (fmodesp_ok first xs qs N C) as [y [v [m [Y [I [M [D _]]]]]]]. exists y, v, m. rewrite times_knot. repeat split; try assumption; try apply I. lra.
Qed.
Print Assumptions C75_modal_clear.
(** With the limits: those of the exact modal speed m, up to 1e-12 km/h. *)
Theorem C75_limits : forall first xs qs, Forall2 (fun x q => is_double x (Q2R q)) xs qs -> xs <> [] ->
  (forall q, In q qs -> Rabs (Q2R q) <= 1000000000 /\ clear (Q2R q)) ->
  exists y m a b c ra rb rc, fmodesp (first :: map Some xs) = Ok (Some y) /\ modal_knots qs m /\
    fset_speed_limits (Some y) = (a, b, c) /\ is_double a ra /\ is_double b rb /\ is_double c rc /\
    ((Q2R m <= 851 / 100 /\ Rabs (ra - 15 * knot) <= 1 / 10 ^ 12 /\ Rabs (rb - 20 * knot) <= 1 / 10 ^ 12 /\ rc = 0) \/
     (851 / 100 < Q2R m /\ Rabs (ra - 5 / 4 * Q2R m * knot) <= 1 / 10 ^ 12 /\ Rabs (rb - 30 * knot) <= 1 / 10 ^ 12 /\ Rabs (rc - 3 / 4 * Q2R m * knot) <= 1 / 10 ^ 12)).
Proof.
  intros first xs qs F N B. pose proof u_pos as U.
  assert (C : Forall2 (fun x q => fspeed_bin x = Ok (speed_bin q)) xs qs).
  { clear N. induction F as [|x q xs qs I F IH]; [constructor|]. apply Forall2_cons; [|apply IH; intros; apply B; now right].
    destruct (B q (or_introl eq_refl)) as [B1 B2]. apply bin_exact; [exact I|exact B1|]. intros k K. specialize (B2 k K). now rewrite over_knot in B2. }
  destruct (fmodesp_ok first xs qs N C) as [y [v [m [Y [I [M [D R]]]]]]]. destruct (limits_near y v (Q2R m) I D R) as [a [b [c [ra [rb [rc [E [Ia [Ib [Ic L]]]]]]]]]].
  exists y, m, a, b, c, ra, rb, rc. rewrite !times_knot. do 6 (split; [assumption|]). destruct L as [[L1 [L2 [L3 L4]]]|[L1 [L2 [L3 L4]]]]; [left|right]; repeat split; try assumption; lra.
Qed.
Print Assumptions C75_limits.
(** With fewer than two entries there is no modal speed. *)
Theorem C75_short : forall l, (length l <= 1)%nat -> fmodesp l = Ok None.
Proof. intros [|x [|y l]] H; try reflexivity. cbn in H. lia. Qed.
Print Assumptions C75_short.
(** A speed of exactly 3k knots, computed as the double nearest to its km/h, counts for the upper bin, as documented. *)
Theorem C75_border : forall k, (1 <= k <= 11)%Z -> fspeed_bin (fdiv (fz (3 * k)) fkm) = Ok (Z.to_nat k).
Proof.
  intros k K. assert (C : (k = 1 \/ k = 2 \/ k = 3 \/ k = 4 \/ k = 5 \/ k = 6 \/ k = 7 \/ k = 8 \/ k = 9 \/ k = 10 \/ k = 11)%Z) by lia.
  repeat (destruct C as [->|C]; [vm_compute; reflexivity|]). subst k. vm_compute. reflexivity.
Qed.
Print Assumptions C75_border.
Example C75_ex : Forall2 (fun x q => is_double x (Q2R q)) [fz 20; fz 21; fz 50] [20; 21; 50]%Q /\ (forall q, In q [20; 21; 50]%Q -> Rabs (Q2R q) <= 1000000000 /\ clear (Q2R q)) /\
  match fmodesp (None :: map Some [fz 20; fz 21; fz 50]) with Ok (Some y) => feq y (fdiv (fq (21 # 2)) fkm) | _ => false end = true.
Proof.
  assert (V : Q2R 20 = 20 /\ Q2R 21 = 21 /\ Q2R 50 = 50) by (unfold Q2R; cbn; lra). destruct V as [V1 [V2 V3]].
  split.
  - apply Forall2_cons; [rewrite V1; apply (is_fz 20); lia|]. apply Forall2_cons; [rewrite V2; apply (is_fz 21); lia|]. apply Forall2_cons; [rewrite V3; apply (is_fz 50); lia|constructor].
  - split; [|vm_compute; reflexivity]. intros q [<-|[<-|[<-|[]]]]; rewrite ?V1, ?V2, ?V3; (split; [apply Rabs_le; lra|]); intros k K; unfold knot;
      assert (C : (k = 1 \/ k = 2 \/ k = 3 \/ k = 4 \/ k = 5 \/ k = 6 \/ k = 7 \/ k = 8 \/ k = 9 \/ k = 10 \/ k = 11)%Z) by lia;
      (repeat (destruct C as [->|C]; [unfold Rabs; destruct (Rcase_abs _); lra|])); subst k; unfold Rabs; destruct (Rcase_abs _); lra.
Qed.
