(** C42: the tables of the attachments have the documented layout. *)
Require Import String ZArith QArith List.
Require Import Verif.M_Imma Verif.M_ImmaTables Verif.S_ImmaLayout.
Import ListNotations.

(** The attachments with their names, and every field of each: its place, its name, its length in bytes, its unit and its encoding. *)
Theorem C42_layout : Forall2 (fun t l => fst t = fst l /\ fst (snd t) = fst (snd l) /\ Forall2 matches (snd (snd t)) (snd (snd l))) imma_tables layout.
Proof. repeat (constructor; [split; [reflexivity|split; [reflexivity|cbn [snd]; repeat (constructor; [repeat split; reflexivity|]); constructor]]|]). constructor. Qed.
Print Assumptions C42_layout.
Example C42_layout_ex : In ("SST"%string, 4%nat, Tenths) layout_00 /\ In ("HR"%string, 4%nat, Hundredths) layout_00 /\ In ("ATTC"%string, 1%nat, Base36) layout_00.
Proof. cbn. tauto. Qed.
