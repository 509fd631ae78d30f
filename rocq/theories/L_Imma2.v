(** Lemmas about fields and attachments. *)
Require Import String Ascii ZArith QArith Qabs List Bool Lia Lqa.
Require Import Verif.M_Base Verif.L_Base Verif.L_Grid Verif.M_Report Verif.M_Imma Verif.S_Imma Verif.L_Imma.
Import ListNotations.
Open Scope string_scope.
Open Scope Z_scope.

(* ---------------------------------------------------------------- base 36 *)

Lemma z_below : forall (P : Z -> Prop) n, (forall k, (k < n)%nat -> P (Z.of_nat k)) -> forall z, 0 <= z < Z.of_nat n -> P z.
Proof. intros P n H z Z. rewrite <- (Z2Nat.id z) by lia. apply H. lia. Qed.
Lemma encode_decode36 : forall z, 0 <= z <= 35 -> decode_base36 (encode_base36 z) = z.
Proof.
  intros z H. apply (z_below (fun z => decode_base36 (encode_base36 z) = z) 36); [|lia]. intros k K.
  do 36 (destruct k as [|k]; [reflexivity|]). lia.
Qed.
Lemma encode36_char : forall z, 0 <= z <= 35 -> exists c, encode_base36 z = String c "" /\ base36 c z.
Proof.
  intros z H. apply (z_below (fun z => exists c, encode_base36 z = String c "" /\ base36 c z) 36); [|lia]. intros k K. unfold base36, digit.
  do 10 (destruct k as [|k]; [eexists; split; [reflexivity|]; left; split; [lia|reflexivity]|]).
  do 26 (destruct k as [|k]; [eexists; split; [reflexivity|]; right; split; [lia|reflexivity]|]). lia.
Qed.
Lemma base36_unique : forall c a b, base36 c a -> base36 c b -> a = b.
Proof. unfold base36, digit. lia. Qed.
Lemma decode36_char : forall c, (exists z, base36 c z /\ decode_base36 (String c "") = z) \/ ((forall z, ~ base36 c z) /\ decode_base36 (String c "") = -1).
Proof.
  intro c. remember (decode_base36 (String c "")) as v eqn:E. destruct (Z.eq_dec v (-1)) as [->|N].
  - right. split; [|reflexivity]. intros z B.
    assert (R : 0 <= z <= 35) by (unfold base36, digit in B; lia).
    destruct (encode36_char z R) as [c' [EC B']].
    assert (c = c'). { rewrite <- (ascii_nat_embedding c), <- (ascii_nat_embedding c'). f_equal. unfold base36, digit in B, B'. lia. }
    subst c'. pose proof (encode_decode36 z R) as D. rewrite EC in D. lia.
  - left. exists v. split; [|reflexivity].
    unfold decode_base36, find_in in E. destruct (String.index 0 (String c "") base36_digits) as [i|] eqn:I; [|congruence].
    apply String.index_correct1 in I. cbn [String.length] in I.
    assert (L : (i < 36)%nat).
    { destruct (Nat.lt_ge_cases i 36) as [|G]; [assumption|]. exfalso. revert I. do 36 (destruct i as [|i]; [lia|]). destruct i; discriminate. }
    subst v. clear N. unfold base36, digit.
    do 10 (destruct i as [|i]; [left; cbn in I; injection I as <-; split; [lia|reflexivity]|]).
    do 26 (destruct i as [|i]; [right; cbn in I; injection I as <-; split; [lia|reflexivity]|]). lia.
Qed.

(* ---------------------------------------------------------------- one field *)

(** The definitions in the tables. *)
Definition good (d : def) : Prop :=
  d_enc d = 1 \/
  (d_enc d = 2 /\ d_len d = Some 1%nat /\ exists sc, d_scale d = Some sc /\ (sc == 1)%Q) \/
  (d_enc d = 3 /\ forall sc, d_scale d = Some sc -> (sc == 1)%Q).
Definition sized (d : def) (s : string) : Prop := forall n, d_len d = Some n -> String.length s = n.

Lemma int_of_str_err : forall s e, int_of_str s = Err e -> e = ValueError.
Proof.
  assert (DF : forall m acc e', digits_from acc m = Err e' -> e' = ValueError).
  { induction m as [|c m IH]; intros acc e' D; cbn in D; [discriminate|]. destruct (is_digit c); [eapply IH, D|congruence]. }
  assert (DV : forall m e', digits_value m = Err e' -> e' = ValueError).
  { intros m e' D. unfold digits_value in D. destruct m; [congruence|eapply DF, D]. }
  intros m e' I. unfold int_of_str in I. destruct (rstrip (lstrip m)) as [|c x]; [cbn in I; congruence|].
  destruct (ascii_dec c "-") as [->|N1]; [|destruct (ascii_dec c "+") as [->|N2]].
  - destruct (digits_value x) eqn:D; [discriminate|]. cbn in I. injection I as <-. eapply DV, D.
  - eapply DV, I.
  - apply DV with (m := String c x). destruct c as [b0 b1 b2 b3 b4 b5 b6 b7]. destruct b0, b1, b2, b3, b4, b5, b6, b7; try exact I; congruence.
Qed.
Lemma means_unique : forall d s v w, means d s v -> means d s w -> v = w.
Proof.
  assert (U : forall s a b, integer_text s a -> integer_text s b -> a = b).
  { intros s a b A B. apply int_of_str_complete in A, B. congruence. }
  intros d s v w [[A ->]|[A V]] [[B ->]|[B W]]; try tauto; try congruence.
  destruct (d_enc d) as [|[[q|q|]|[q|q|]|]|q]; destruct (d_scale d); try congruence;
    try (destruct V as [c [-> V]]; destruct W as [c' [E W]]; injection E as <-;
         destruct V as [[z [V ->]]|[V ->]]; destruct W as [[z' [W ->]]|[W ->]]; [f_equal; eapply base36_unique; eassumption|exfalso; eapply W, V|exfalso; eapply V, W|reflexivity]).
  - destruct V as [z [I V]]. destruct W as [z' [I' W]]. rewrite <- (U s z z' I I') in W. destruct V as [[V ->]|[V ->]], W as [[W ->]|[W ->]]; congruence.
  - destruct V as [z [I ->]]. destruct W as [z' [I' ->]]. f_equal. apply (U s); assumption.
Qed.
Lemma field_value_spec : forall d s v, good d -> sized d s -> (field_value d s = Ok v <-> means d s v).
Proof.
  assert (K : forall d s, good d -> sized d s -> (exists v, field_value d s = Ok v /\ means d s v) \/ (field_value d s = Err ValueError /\ d_enc d = 1 /\ ~ blank s /\ forall z, ~ integer_text s z)).
  { intros d s G Z. unfold field_value, means. destruct (isspace s) eqn:S.
    - left. exists VNone. split; [reflexivity|]. left. apply isspace_blank in S. auto.
    - apply isspace_false in S. destruct G as [G|[[G [L [sc [E1 E2]]]]|[G F]]]; rewrite G.
      + change (1 =? 2) with false. change (1 =? 1) with true. cbn iota. destruct (int_of_str s) as [z|e] eqn:I.
        * left. pose proof (int_of_str_sound s z I) as T. cbn [bind]. destruct (d_scale d) as [sc|].
          -- destruct (Qeqb sc 1) eqn:Q.
             ++ exists (VInt z). split; [reflexivity|]. right. split; [exact S|]. exists z. split; [exact T|]. left. split; [apply Qeq_bool_iff, Q|reflexivity].
             ++ exists (VFloat (inject_Z z * sc)). split; [reflexivity|]. right. split; [exact S|]. exists z. split; [exact T|]. right. split; [apply Qeq_bool_neq, Q|reflexivity].
          -- exists (VInt z). split; [reflexivity|]. right. split; [exact S|]. exists z. auto.
        * right. assert (e = ValueError) as ->; [|repeat split; auto; intros z T; apply int_of_str_complete in T; congruence].
          eapply int_of_str_err, I.
      + change (2 =? 2) with true. cbn iota. rewrite E1. cbn [bind]. rewrite (proj2 (Qeq_bool_iff sc 1) E2 : Qeqb sc 1 = true).
        left. exists (VInt (decode_base36 s)). split; [reflexivity|]. right. split; [exact S|].
        specialize (Z _ L). destruct s as [|c [|c' s]]; try discriminate Z. exists c. split; [reflexivity|].
        destruct (decode36_char c) as [[z [B ->]]|[B ->]]; [left; exists z; auto|right; auto].
      + change (3 =? 2) with false. change (3 =? 1) with false. cbn iota. cbn [bind]. left. exists (VStr s). split; [|right; auto].
        destruct (d_scale d) as [sc|]; [|reflexivity]. rewrite (proj2 (Qeq_bool_iff sc 1) (F sc eq_refl) : Qeqb sc 1 = true). reflexivity. }
  intros d s v G Z. destruct (K d s G Z) as [[w [F M]]|[F [E [B N]]]].
  - rewrite F. split; [intro H; injection H as <-; exact M|]. intro H. f_equal. eapply means_unique; eassumption.
  - rewrite F. split; [discriminate|]. intros [[H _]|[_ H]]; [contradiction|]. rewrite E in H. destruct (d_scale d); destruct H as [z [H _]]; exfalso; exact (N z H).
Qed.
Lemma field_value_fails : forall d s, good d -> sized d s -> (forall v, ~ means d s v) -> field_value d s = Err ValueError.
Proof.
  intros d s G Z H. destruct (field_value d s) as [v|e] eqn:F; [exfalso; apply (H v), field_value_spec; assumption|].
  unfold field_value in F. destruct (isspace s); [discriminate|]. f_equal.
  destruct (d_enc d =? 2); [|destruct (d_enc d =? 1)].
  - cbn [bind] in F. destruct (d_scale d) as [sc|]; [|discriminate]. destruct (Qeqb sc 1); discriminate.
  - destruct (int_of_str s) as [z|e'] eqn:I; [|cbn in F; injection F as <-; eapply int_of_str_err, I]. cbn [bind] in F. destruct (d_scale d) as [sc|]; [|discriminate]. destruct (Qeqb sc 1); discriminate.
  - cbn [bind] in F. destruct (d_scale d) as [sc|]; [|discriminate]. destruct (Qeqb sc 1); [discriminate|].
    destruct (int_of_str s) as [z|e'] eqn:I; [discriminate|]. cbn in F. injection F as <-. eapply int_of_str_err, I.
Qed.

(** A value a field holds is written in exactly the field's bytes, and those bytes mean the value. *)
Lemma unscale : forall z sc, ~ (sc == 0)%Q -> (inject_Z z * sc / sc == inject_Z z)%Q.
Proof. intros. field. assumption. Qed.
Lemma nint : forall z q, (q == inject_Z z)%Q -> py_int (q + (1 # 2)) = if z <? 0 then z + 1 else z.
Proof.
  intros z q E. destruct (Z.ltb_spec z 0) as [N|P].
  - assert (I : (inject_Z z <= -1)%Q) by (unfold Qle, inject_Z; cbn [Qnum Qden]; lia).
    assert (Q0 : (q + (1 # 2) <= 0)%Q) by lra.
    destruct (py_int_bounds_neg _ Q0) as [A [B C]].
    assert (A' : (inject_Z z < inject_Z (py_int (q + (1 # 2))))%Q) by lra. rewrite <- Zlt_Qlt in A'.
    assert (B' : (inject_Z (py_int (q + (1 # 2))) < inject_Z (z + 2))%Q) by (rewrite inject_Z_plus; change (inject_Z 2) with 2%Q; lra).
    rewrite <- Zlt_Qlt in B'. lia.
  - assert (I : (0 <= inject_Z z)%Q) by (unfold Qle, inject_Z; cbn [Qnum Qden]; lia). apply py_int_unique; lra.
Qed.
Lemma char_text_means : forall d s, d_enc d = 3 -> ~ blank s -> means d s (VStr s).
Proof. intros d s E B. right. split; [exact B|]. rewrite E. reflexivity. Qed.

Lemma field_text_holds : forall d v, holds d v -> exists s, field_text d v = Ok s /\ sized d s /\ means d s v /\
  chars (fun c => white c -> c = " "%char) s /\ (v = VNone <-> blank s).
Proof.
  assert (BW : forall n, chars (fun c => white c -> c = " "%char) (blanks n)) by (induction n; [exact I|split; [reflexivity|assumption]]).
  assert (IW : forall n z, 0 <= z -> chars (fun c => white c -> c = " "%char) (pad_left n (str_of_int z))).
  { intros n z Z. unfold pad_left. apply chars_app. split; [apply BW|]. unfold str_of_int. destruct (Z.ltb_spec z 0); [lia|].
    assert (D : forall s k, decimal s k -> chars (fun c => white c -> c = " "%char) s).
    { induction 1 as [c d D|s k c d _ IH D]; [|apply chars_app; split; [exact IH|]]; (split; [|exact I]); intro W; apply is_space_white in W; rewrite (digit_not_white _ _ D) in W; discriminate. }
    exact (D _ _ (str_of_nat_decimal z Z)). }
  intros d v [n [L [N H]]]. unfold sized. rewrite L. destruct H as [->|H].
  - exists (blanks n). unfold field_text. rewrite L, pad_left_blank by exact N. split; [reflexivity|].
    split; [intros m E; injection E as <-; apply blanks_length|]. split; [left; split; [apply blanks_blank, N|reflexivity]|]. split; [apply BW|].
    split; [intros _; apply blanks_blank, N|reflexivity].
  - destruct (d_enc d) as [|[[q|q|]|[q|q|]|]|q] eqn:E; destruct (d_scale d) as [sc|] eqn:S; try contradiction.
    + (* texts *)
      destruct H as [s [-> [Ls [W B]]]]. exists s. unfold field_text. rewrite E, S, L. cbn [bind]. change (3 =? 2) with false. change (3 =? 1) with false. cbn iota. cbn [bind].
      rewrite pad_right_full by exact Ls. split; [reflexivity|]. split; [intros m M; injection M as <-; exact Ls|]. split; [apply char_text_means; assumption|]. split; [exact W|].
      split; [discriminate|contradiction].
    + (* base 36 *)
      destruct H as [S1 [-> [z [Z ->]]]]. destruct (encode36_char z Z) as [c [EC B]]. exists (String c ""). unfold field_text. rewrite E, S, L. cbn [bind].
      assert (S0 : Qeqb sc 0 = false) by (destruct (Qeqb sc 0) eqn:X; [apply Qeq_bool_iff in X; rewrite S1 in X; discriminate|reflexivity]).
      rewrite S0. cbn [bind]. change (2 =? 2) with true. change (2 =? 1) with false. cbn iota.
      rewrite (nint z) by (rewrite S1; field). rewrite (proj2 (Z.ltb_ge z 0)) by lia. cbn [bind]. rewrite EC.
      assert (NW : ~ white c). { intro W. assert (NB : 48 <= Z.of_nat (nat_of_ascii c)) by (unfold base36, digit in B; lia). destruct W as [<-|[<-|[<-|[<-|[<-|[<-|[]]]]]]]; apply NB; reflexivity. }
      split; [reflexivity|]. split; [intros m M; injection M as <-; reflexivity|]. split.
      * right. split; [intros [_ [W _]]; contradiction|]. rewrite E. exists c. split; [reflexivity|]. left. exists z. auto.
      * split; [split; [tauto|exact I]|]. split; [discriminate|]. intros [_ [W _]]. contradiction.
    + (* integers *)
      destruct H as [z [Z [S0 ->]]]. exists (pad_left n (str_of_int z)).
      assert (S0' : Qeqb sc 0 = false) by (destruct (Qeqb sc 0) eqn:X; [apply Qeq_bool_iff in X; contradiction|reflexivity]).
      assert (T : integer_text (pad_left n (str_of_int z)) z) by (apply integer_text_pad, str_of_int_text).
      assert (F : field_text d (if Qeqb sc 1 then VInt z else VFloat (inject_Z z * sc)) = Ok (pad_left n (str_of_int z))).
      { unfold field_text. rewrite E, S, L. destruct (Qeqb sc 1) eqn:S1; cbn [bind]; rewrite S0'; cbn [bind]; change (1 =? 2) with false; change (1 =? 1) with true; cbn iota; cbn [bind].
        - apply Qeq_bool_iff in S1. rewrite (nint z) by (rewrite S1; field). rewrite (proj2 (Z.ltb_ge z 0)) by lia. reflexivity.
        - rewrite (nint z) by (apply unscale, S0). rewrite (proj2 (Z.ltb_ge z 0)) by lia. reflexivity. }
      split; [exact F|]. split; [intros m M; injection M as <-; apply pad_left_length, str_of_int_length; lia|]. split.
      * right. split; [eapply integer_text_not_blank, T|]. rewrite E, S. exists z. split; [exact T|]. destruct (Qeqb sc 1) eqn:S1; [left; split; [apply Qeq_bool_iff, S1|reflexivity]|right; split; [apply Qeq_bool_neq, S1|reflexivity]].
      * split; [apply IW; lia|]. split; [destruct (Qeqb sc 1); discriminate|]. intro B. exfalso. eapply integer_text_not_blank; eassumption.
Qed.
(** Negative numbers are written one unit too high. *)
Lemma field_text_negative : forall d n sc z, d_len d = Some n -> d_enc d = 1 -> d_scale d = Some sc -> ~ (sc == 0)%Q -> z < 0 ->
  field_text d (if Qeqb sc 1 then VInt z else VFloat (inject_Z z * sc)) = Ok (pad_left n (str_of_int (z + 1))).
Proof.
  intros d n sc z L E S S0 Z. assert (S0' : Qeqb sc 0 = false) by (destruct (Qeqb sc 0) eqn:X; [apply Qeq_bool_iff in X; contradiction|reflexivity]).
  unfold field_text. rewrite E, S, L. destruct (Qeqb sc 1) eqn:S1; cbn [bind]; rewrite S0'; cbn [bind]; change (1 =? 2) with false; change (1 =? 1) with true; cbn iota; cbn [bind].
  - apply Qeq_bool_iff in S1. rewrite (nint z) by (rewrite S1; field). rewrite (proj2 (Z.ltb_lt z 0)) by lia. reflexivity.
  - rewrite (nint z) by (apply unscale, S0). rewrite (proj2 (Z.ltb_lt z 0)) by lia. reflexivity.
Qed.
