(** What the unit tests of the project observe: values as Python prints them, and when a test takes two of them as equal.
    This file and the other T_ files are tests of the model, not proofs of properties. *)
Require Import String ZArith QArith List Bool.
Require Import Verif.M_Base Verif.M_Report Verif.M_Voyage Verif.T_Num.
Import ListNotations.
Open Scope string_scope.
Open Scope Z_scope.

(** A Python value; VRaise: the call raised. *)
Inductive val := VRaise (e : exn) | VNone | VNum (q : Q) | VNan | VInf (positive : bool) | VStr (s : string).
Definition ofZ (z : Z) : val := VNum (inject_Z z).
Definition ofQ (q : Q) : val := VNum q.
(** True is 1. *)
Definition ofB (b : bool) : val := VNum (if b then 1 else 0).
Definition ofN (n : nat) : val := ofZ (Z.of_nat n).
Definition ofX (x : xnum) : val := match x with Fin q => VNum q | PInf => VInf true | NInf => VInf false | NaN => VNan end.
Definition opt {A} (f : A -> val) (o : option A) : val := match o with Some a => f a | None => VNone end.
Definition rs {A} (f : A -> val) (r : res A) : val := match r with Ok a => f a | Err e => VRaise e end.

(** assertEqual. *)
Definition same (v w : val) : bool :=
  match v, w with
  | VNone, VNone => true
  | VNum p, VNum q => Qeqb p q
  | VInf a, VInf b => Bool.eqb a b
  | VStr s, VStr t => String.eqb s t
  | _, _ => false
  end.
(** assertAlmostEqual with a delta. *)
Definition near (d : Q) (v w : val) : bool :=
  match v, w with VNum p, VNum q => Qleb (p - q) d && Qleb (q - p) d | _, _ => false end.
(** assertRaises(AssertionError). *)
Definition asserts (v : val) : bool := match v with VRaise AssertionError => true | _ => false end.
Definition raises (v : val) : bool := match v with VRaise _ => true | _ => false end.
Definition all (l : list bool) : bool := forallb (fun b => b) l.
Definition minus (v w : val) : val := match v, w with VNum p, VNum q => VNum (p - q) | VRaise e, _ | _, VRaise e => VRaise e | _, _ => VRaise TypeError end.

(** A voyage built report by report. *)
Fixpoint voyage_of (v : list report) (l : list (res report)) : res (list report) :=
  match l with [] => Ok v | r :: l' => let! r := r in let! v := add_report earth v r in voyage_of v l' end.
Fixpoint reports_of (l : list (res report)) : res (list report) :=
  match l with [] => Ok [] | r :: l' => let! r := r in let! v := reports_of l' in Ok (r :: v) end.
Definition on {A B} (r : res A) (f : A -> res B) : res B := bind r f.
(** The flags of a voyage. *)
Definition flags (r : res (list report)) (t f : string) (l : list Z) : bool :=
  match r with Ok v => forallb (fun p => fst p =? snd p) (combine (map (fun r => get_qc r t f) v) l) && Nat.eqb (length v) (length l) | Err _ => false end.
Definition at_ {A} (l : list A) (i : nat) : res A := match nth_error l i with Some a => Ok a | None => Err IndexError end.
(** reps[i].setvar. *)
Definition setvar_at (v : list report) (i : nat) (name : string) (x : option Q) : res (list report) :=
  let! r := at_ v i in let! r := setvar r name x in Ok (update_nth i r v).
(** set of the extended variables of a new report. *)
Definition with_exts (r : res report) (l : list (string * option Q)) : res report :=
  let! r := r in Ok (fold_left (fun r e => setext r (fst e) (snd e)) l r).
