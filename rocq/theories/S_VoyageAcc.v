(** Specification vocabulary for positions in a list of reports. *)
Require Import String ZArith QArith List.
Require Import Verif.M_Base Verif.S_Report Verif.M_Report Verif.M_VoyageAcc.
Import ListNotations.
Open Scope Z_scope.

(** In a list of n elements index p stands for place i, places counted from 0: 0, 1, ..., n-1 from the
    front, -1, -2, ..., -n from the back. *)
Definition stands_for (n : nat) (p : Z) (i : nat) : Prop :=
  (i < n)%nat /\ (p = Z.of_nat i \/ p = Z.of_nat i - Z.of_nat n).

(** w is v with only the report in place i replaced, r by r'. *)
Definition only_at (i : nat) (r r' : report) (v w : list report) : Prop :=
  exists a b, length a = i /\ v = a ++ r :: b /\ w = a ++ r' :: b.

(** A call that writes to a voyage: a variable or a flag. *)
Inductive write :=
| WVar (p : Z) (name : string) (x : option Q)
| WFlag (p : Z) (t f : string) (x : Z).
Definition place_of (w : write) : Z := match w with WVar p _ _ => p | WFlag p _ _ _ => p end.
Definition do_write (v : list report) (w : write) : res (list report) :=
  match w with
  | WVar p name x => voyage_setvar v p name x
  | WFlag p t f x => voyage_set_qc v p t f x
  end.
(** A history of successful writes. *)
Inductive writes : list report -> list write -> list report -> Prop :=
| writes_nil : forall v, writes v [] v
| writes_cons : forall v w v' l v'', do_write v w = Ok v' -> writes v' l v'' -> writes v (w :: l) v''.
