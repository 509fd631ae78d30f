(** Lemmas: verdicts on differences in double precision. *)
Require Import ZArith QArith Reals Lra Lia Bool Psatz List Permutation Qreals.
From Flocq Require Import Core.Core IEEE754.BinarySingleNaN.
Require Import Verif.M_Base Verif.M_Float Verif.S_Float Verif.L_Float Verif.L_Float6 Verif.L_Float10 Verif.M_Float8 Verif.M_Float9 Verif.S_Trim Verif.S_Exceed Verif.L_Float14 Verif.L_Float15.
Import ListNotations.
Open Scope R_scope.

Lemma root_ok2 : forall x q, is x q -> 0 <= q <= 400 -> exists r, is (fsqrt x) r /\ 0 <= r <= 21 /\ Rabs (r * r - q) <= 900 * u.
Proof.
  intros x q I B. pose proof u_pos as U. pose proof (sqrt_pos q) as S0. pose proof (sqrt_sqrt q ltac:(lra)) as S2. assert (S1 : sqrt q <= 20) by nra.
  exists (rnd (sqrt q)). split; [apply is_fsqrt; [exact I|lra]|]. pose proof (err_le (sqrt q) 20 ltac:(rewrite Rabs_pos_eq; lra) ltac:(lra)) as E. assert (E' : Rabs (rnd (sqrt q) - sqrt q) <= 21 * u) by lra.
  assert (P : 0 <= rnd (sqrt q)) by (apply rnd_ge; [apply dbl0|exact S0]). set (r := rnd (sqrt q)) in *. assert (R17 : r <= 21) by (apply abs_in in E'; lra). split; [lra|].
  rewrite <- S2 at 1. replace (r * r - sqrt q * sqrt q) with ((r - sqrt q) * (r + sqrt q)) by ring. rewrite Rabs_mult, (Rabs_pos_eq (r + _)) by lra. apply Rle_trans with (21 * u * 41); [|lra]. apply Rmult_le_compat; try lra. apply Rabs_pos.
Qed.
Lemma limit_ok : forall nf n xf i yf j ef e, parameter nf n -> parameter xf i -> parameter yf j -> is ef e -> 0 <= e <= 10 ->
  exists t, is (fmul nf (fsqrt (fadd (fadd (fmul ef ef) (fmul xf xf)) (fmul yf yf)))) t /\ 0 <= t /\ Rabs (t * t - limit_squared n i j e) <= 300000 * u.
Proof.
  intros nf n xf i yf j ef e [In_ Bn] [Ii Bi] [Ij Bj] Ie Be. pose proof u_pos as U.
  destruct (sq_ok ef e Ie ltac:(lra)) as [a [IA [BA EA]]]. destruct (sq_ok xf i Ii ltac:(lra)) as [b [IB [BB EB]]]. destruct (sq_ok yf j Ij ltac:(lra)) as [c [IC [BC EC]]].
  pose proof (is_add _ _ _ _ IA IB ltac:(apply small_big; rewrite Rabs_pos_eq; lra)) as I1. pose proof (err_le (a + b) 244 ltac:(rewrite Rabs_pos_eq; lra) ltac:(lra)) as E1.
  assert (P1 : 0 <= rnd (a + b)) by (apply rnd_ge; [apply dbl0|lra]). set (s := rnd (a + b)) in *. assert (E1' : Rabs (s - (a + b)) <= 250 * u) by lra. assert (S1 : s <= 245) by (apply abs_in in E1'; lra).
  pose proof (is_add _ _ _ _ I1 IC ltac:(apply small_big; rewrite Rabs_pos_eq; lra)) as I2. pose proof (err_le (s + c) 367 ltac:(rewrite Rabs_pos_eq; lra) ltac:(lra)) as E2.
  assert (P2 : 0 <= rnd (s + c)) by (apply rnd_ge; [apply dbl0|lra]). set (q := rnd (s + c)) in *. assert (E2' : Rabs (q - (s + c)) <= 370 * u) by lra. assert (Q1 : q <= 370) by (apply abs_in in E2'; lra).
  destruct (root_ok2 _ q I2 ltac:(lra)) as [r [IR [BR ER]]]. assert (NR : 0 <= n * r <= 210) by nra. pose proof (is_mul _ _ _ _ In_ IR ltac:(apply small_big; rewrite Rabs_pos_eq; lra)) as IT.
  pose proof (err_le (n * r) 210 ltac:(rewrite Rabs_pos_eq; lra) ltac:(lra)) as ET. assert (ET' : Rabs (rnd (n * r) - n * r) <= 211 * u) by lra.
  assert (PT : 0 <= rnd (n * r)) by (apply rnd_ge; [apply dbl0|lra]). set (t := rnd (n * r)) in *. exists t. split; [exact IT|]. split; [exact PT|].
  assert (T1 : Rabs (t * t - n * r * (n * r)) <= 90000 * u).
  { replace (t * t - n * r * (n * r)) with ((t - n * r) * (t + n * r)) by ring. rewrite Rabs_mult, (Rabs_pos_eq (t + _)) by lra. apply Rle_trans with (211 * u * 421); [|lra]. apply Rmult_le_compat; try lra; [apply Rabs_pos|]. apply abs_in in ET'. lra. }
  assert (RR : Rabs (r * r - (e * e + i * i + j * j)) <= 2000 * u) by (apply Rabs_le; apply abs_in in ER; apply abs_in in E2'; apply abs_in in E1'; apply abs_in in EA; apply abs_in in EB; apply abs_in in EC; lra).
  assert (T2 : Rabs (n * r * (n * r) - limit_squared n i j e) <= 200000 * u).
  { unfold limit_squared. replace (n * r * (n * r) - n * n * (e * e + i * i + j * j)) with (n * n * (r * r - (e * e + i * i + j * j))) by ring. rewrite Rabs_mult, (Rabs_pos_eq (n * n)) by nra. apply Rle_trans with (100 * (2000 * u)); [|lra]. apply Rmult_le_compat; [nra|apply Rabs_pos|nra|exact RR]. }
  apply Rabs_le. apply abs_in in T1. apply abs_in in T2. lra.
Qed.
Lemma exceeds_ok : forall nf n xf i yf j x r, parameter nf n -> parameter xf i -> parameter yf j -> observed x r ->
  (clearly_beyond (4 / 100000000000) n i j r = true -> fexceeds nf xf yf (fst x) (snd x) = true) /\ (clearly_within (4 / 100000000000) n i j r = true -> fexceeds nf xf yf (fst x) (snd x) = false).
Proof.
  intros nf n xf i yf j x [a e] PN PI PJ [IA [IE BE]]. cbn [fst snd] in *. pose proof u_pos as U. destruct (limit_ok _ _ _ _ _ _ _ _ PN PI PJ IE BE) as [t [IT [PT ET]]].
  unfold fexceeds, clearly_beyond, clearly_within. cbn [fst snd]. rewrite (flt_is _ _ _ _ IT IA), (flt_is _ _ _ _ IA (is_fopp _ _ IT)). apply abs_in in ET. split; intros H.
  - match type of H with Rlt_bool ?p ?q = true => destruct (Rlt_bool_spec p q) as [L|L]; [|discriminate H] end. apply orb_true_iff.
    destruct (Rle_lt_dec 0 a) as [A|A]; [left|right]; apply Rlt_bool_true; nra.
  - match type of H with Rle_bool ?p ?q = true => destruct (Rle_bool_spec p q) as [L|L]; [|discriminate H] end. apply orb_false_iff. split; apply Rlt_bool_false; nra.
Qed.
