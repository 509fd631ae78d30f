(** Lemmas for the other readers. *)
Require Import String Ascii ZArith QArith List Bool Lia.
Require Import Verif.M_Base Verif.M_Report Verif.M_Imma Verif.M_Tracking Verif.M_Readers Verif.M_Checks Verif.S_Imma Verif.S_Print Verif.S_Readers.
Require Import Verif.L_Base Verif.L_Imma Verif.L_Imma3 Verif.L_Reading.
Import ListNotations.
Open Scope string_scope.
Open Scope list_scope.
Open Scope Z_scope.

Fixpoint skip (n : nat) (s : string) : string := match n, s with O, _ => s | S n', String _ s' => skip n' s' | S _, "" => "" end.
Lemma sub_empty : forall a w, substring a w "" = "".
Proof. destruct a, w; reflexivity. Qed.
Lemma sub_skip : forall a w s, substring a w s = substring 0 w (skip a s).
Proof. induction a as [|a IH]; intros w s; [reflexivity|]. destruct s as [|c s]; cbn [skip]; [now rewrite !sub_empty|]. cbn [substring]. apply IH. Qed.
Lemma skip_skip : forall a b s, skip b (skip a s) = skip (a + b) s.
Proof. induction a as [|a IH]; intros b s; [reflexivity|]. destruct s as [|c s]; cbn [skip Nat.add]; [destruct b; reflexivity|apply IH]. Qed.
Fixpoint cuts (ws : list nat) (s : string) : list string := match ws with [] => [] | n :: ws' => substring 0 n s :: cuts ws' (skip n s) end.
Lemma sub_all : forall s n, (String.length s <= n)%nat -> substring 0 n s = s.
Proof. induction s as [|c s IH]; intros n H; [apply sub_empty|]. destruct n; cbn in *; [lia|]. now rewrite IH by lia. Qed.
Lemma skip_all : forall s n, (String.length s <= n)%nat -> skip n s = "".
Proof. induction s as [|c s IH]; intros n H; destruct n; cbn in *; try reflexivity; [lia|]. apply IH. lia. Qed.
Lemma laid_cuts : forall ws s cells, laid ws s cells -> cells = cuts ws s.
Proof.
  intros ws s cells H. induction H as [rest|n ws c rest cells L H IH|n ws c cells L H IH]; cbn [cuts]; [reflexivity| |].
  - subst n. assert (E : substring 0 (String.length c) (c ++ rest) = c /\ skip (String.length c) (c ++ rest) = rest).
    { clear. induction c as [|x c [I1 I2]]; cbn; [split; [destruct rest; reflexivity|reflexivity]|]. rewrite I1. now split. }
    destruct E as [-> ->]. now rewrite <- IH.
  - rewrite sub_all by lia. rewrite skip_all by lia. now rewrite <- IH.
Qed.
Lemma rstrip_newlines : forall s e, chars (fun c => c <> "010"%char) s -> newlines e -> rstrip_newline (s ++ e)%string = s.
Proof.
  intros s e C N. unfold rstrip_newline. rewrite rstrip_by_app.
  - induction s as [|c s IH]; [reflexivity|]. destruct C as [C1 C2]. cbn [rstrip_by]. rewrite (IH C2). destruct s; [|reflexivity]. cbn [rstrip_by]. unfold newline. destruct (Ascii.eqb_spec "010"%char c); [congruence|reflexivity].
  - clear C. induction e as [|c e IH]; [exact I|]. destruct N as [-> N]. split; [reflexivity|now apply IH].
Qed.
Lemma trint_means : forall float_of s, entry_means float_of Integer s (trint s).
Proof.
  intros float_of s. unfold trint. cbn [entry_means]. destruct (int_of_str s) as [z|e] eqn:E; [left; exists z; split; [now apply int_of_str_sound|reflexivity]|]. right. split; [|reflexivity]. intros z T. apply int_of_str_complete in T. congruence.
Qed.
Lemma trfloat_means : forall float_of s k, entry_means float_of (Scaled k) s (trfloat float_of s k).
Proof. intros float_of s k. unfold trfloat. cbn [entry_means]. destruct (float_of s) as [[q| | |]|]; try reflexivity. cbn [x_scale]. eexists. split; [reflexivity|reflexivity]. Qed.
Lemma simple_ok : forall float_of line e cells, chars (fun c => c <> "010"%char) line -> newlines e -> laid (map (fun f => snd (fst f)) simple_fields) line cells ->
  Forall2 (fun '(name, _, k) s => exists v, assoc name (simple_read float_of (line ++ e)) = Some v /\ entry_means float_of k s v) simple_fields cells.
Proof.
  intros float_of line e cells C N L. apply laid_cuts in L. subst cells. unfold simple_read. rewrite (rstrip_newlines _ _ C N). unfold cut. cbn [Nat.sub].
  unfold simple_fields. cbn [map fst snd cuts]. rewrite !skip_skip. cbn [Nat.add]. rewrite <- !sub_skip.
  repeat (constructor; [eexists; split; [reflexivity|first [apply trint_means|apply trfloat_means|reflexivity]]|]). constructor.
Qed.
