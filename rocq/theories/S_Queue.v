(** Specification of the batch queue: independent of how the wrapper counts. *)
Require Import String Ascii ZArith List Bool.
Require Import Verif.M_Base Verif.M_Queue.
Import ListNotations.
Open Scope string_scope.
Open Scope list_scope.

(** The text [s] has [p] in it. *)
Definition mentions (s p : string) : Prop := exists a b, s = (a ++ p ++ b)%string.
(** The jobs of a user in a queue. *)
Definition jobs_of (user : string) (q : list queued) : list queued := filter (fun x => String.eqb (q_user x) user) q.
(** squeue prints a heading and then, for every job, one piece of text; in that of a job of [user] is the name [name]. *)
Definition shows (listing : list queued -> string) (user name : string) : Prop :=
  exists heading line, (forall q, listing q = (heading ++ String.concat "" (map line q))%string) /\ forall x, q_user x = user -> mentions (line x) name.
(** A history without end: at each moment either the wrapper acts, or the queue changes. *)
Definition history (listing : list queued -> string) (user : string) (h : nat -> state) : Prop := forall n, step listing user (h n) (h (S n)).
(** At moment [n] the wrapper acts. *)
Definition acts (listing : list queued -> string) (user : string) (h : nat -> state) (n : nat) : Prop := exists accepted, h (S n) = wrapper_step listing user accepted (h n).
