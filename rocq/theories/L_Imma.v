(** Lemmas about text: substrings, stripping, numbers. *)
Require Import String Ascii ZArith QArith List Bool Lia.
Require Import Verif.M_Base Verif.L_Base Verif.M_Imma Verif.S_Imma.
Import ListNotations.
Open Scope string_scope.
Open Scope Z_scope.

Lemma app_nil_r_s : forall s, s ++ "" = s.
Proof. induction s; cbn; congruence. Qed.
Lemma app_assoc_s : forall a b c, (a ++ b) ++ c = a ++ (b ++ c).
Proof. induction a; intros; cbn; congruence. Qed.
Lemma length_app_s : forall a b, String.length (a ++ b) = (String.length a + String.length b)%nat.
Proof. induction a; intros; cbn; [reflexivity|]. now rewrite IHa. Qed.
Lemma substring_0 : forall b c, substring 0 (String.length b) (b ++ c) = b.
Proof. induction b; intros; cbn; [destruct c; reflexivity|]. now rewrite IHb. Qed.
Lemma substring_skip : forall a n s, substring (String.length a) n (a ++ s) = substring 0 n s.
Proof. induction a; intros; cbn; [reflexivity|apply IHa]. Qed.
Lemma substring_mid : forall a b c, substring (String.length a) (String.length b) (a ++ b ++ c) = b.
Proof. intros. rewrite substring_skip. apply substring_0. Qed.
Lemma substring_all : forall s, substring 0 (String.length s) s = s.
Proof. intro s. rewrite <- (app_nil_r_s s) at 2. apply substring_0. Qed.
Lemma substring_length : forall s a n, (a + n <= String.length s)%nat -> String.length (substring a n s) = n.
Proof.
  induction s as [|c s IH]; intros [|a] [|n] H; cbn in *; try reflexivity; try lia.
  - rewrite IH by lia. reflexivity.
  - rewrite IH by lia. reflexivity.
  - rewrite IH by lia. reflexivity.
Qed.
Lemma split_at : forall s n, (n <= String.length s)%nat -> exists a b, s = a ++ b /\ String.length a = n.
Proof.
  induction s as [|c s IH]; intros [|n] H; cbn in *; try lia.
  - exists "", "". auto.
  - exists "", (String c s). auto.
  - destruct (IH n) as [a [b [-> E]]]; [lia|]. exists (String c a), b. cbn. auto.
Qed.
Lemma drop_app : forall a b, drop (String.length a) (a ++ b) = b.
Proof.
  intros. unfold drop. rewrite substring_skip, length_app_s. replace (String.length a + String.length b - String.length a)%nat with (String.length b) by lia.
  apply substring_all.
Qed.
Lemma length_nil : forall s, String.length s = O -> s = "".
Proof. destruct s; [reflexivity|discriminate]. Qed.

(* ---------------------------------------------------------------- white space *)

Lemma is_space_white : forall c, is_space c = true <-> white c.
Proof.
  intro c. unfold is_space, white. split.
  - intro H. destruct c as [b0 b1 b2 b3 b4 b5 b6 b7]. destruct b0, b1, b2, b3, b4, b5, b6, b7; vm_compute in H; try discriminate H; simpl; tauto.
  - intro H. simpl in H. repeat (destruct H as [<-|H]; [reflexivity|]). contradiction.
Qed.
Lemma all_space_white : forall s, all_space s = true <-> chars white s.
Proof. induction s as [|c s IHs]; [split; auto; exact (fun _ => I)|]. cbn [all_space chars]. rewrite andb_true_iff, is_space_white, IHs. reflexivity. Qed.
Lemma isspace_blank : forall s, isspace s = true <-> blank s.
Proof.
  intro s. unfold blank. destruct s; [cbn; split; [discriminate|intros [H _]; congruence]|]. cbn [isspace]. rewrite all_space_white. split; [intro; split; [discriminate|assumption]|tauto].
Qed.
Lemma isspace_false : forall s, isspace s = false <-> ~ blank s.
Proof. intro s. rewrite <- isspace_blank. destruct (isspace s); split; congruence. Qed.
Lemma chars_app : forall P a b, chars P (a ++ b) <-> chars P a /\ chars P b.
Proof. induction a; intros; cbn; [tauto|]. rewrite IHa. tauto. Qed.
Lemma chars_impl : forall (P Q : ascii -> Prop) s, (forall c, P c -> Q c) -> chars P s -> chars Q s.
Proof. intros P Q s H. induction s; cbn; [auto|]. intros [A B]. auto. Qed.
Lemma blanks_length : forall n, String.length (blanks n) = n.
Proof. induction n; cbn; congruence. Qed.
Lemma blanks_white : forall n, chars white (blanks n).
Proof. induction n; [exact I|]. split; [left; reflexivity|exact IHn]. Qed.
Lemma blanks_app : forall n m, blanks n ++ blanks m = blanks (n + m).
Proof. induction n; intros; cbn; [reflexivity|]. now rewrite IHn. Qed.
Lemma pad_left_length : forall n s, (String.length s <= n)%nat -> String.length (pad_left n s) = n.
Proof. intros. unfold pad_left. rewrite length_app_s, blanks_length. lia. Qed.
Lemma pad_left_blank : forall n, (0 < n)%nat -> pad_left n " " = blanks n.
Proof.
  intros n H. unfold pad_left. cbn [String.length]. change " " with (blanks 1). rewrite blanks_app. f_equal. lia.
Qed.
Lemma pad_right_full : forall n s, String.length s = n -> pad_right n s = s.
Proof. intros n s H. unfold pad_right. rewrite H, Nat.sub_diag. apply app_nil_r_s. Qed.
Lemma blanks_blank : forall n, (0 < n)%nat -> blank (blanks n).
Proof. intros [|n] H; [lia|]. split; [discriminate|apply blanks_white]. Qed.

Lemma lstrip_white : forall a s, chars white a -> lstrip (a ++ s) = lstrip s.
Proof. induction a as [|c a IH]; intros s H; [reflexivity|]. destruct H as [C H]. apply is_space_white in C. cbn. rewrite C. apply IH, H. Qed.
Lemma lstrip_split : forall s, exists a, s = a ++ lstrip s /\ chars white a.
Proof.
  induction s as [|c s [a [E H]]]; [exists ""; split; [reflexivity|exact I]|]. cbn. destruct (is_space c) eqn:C.
  - exists (String c a). cbn. split; [congruence|]. split; [apply is_space_white, C|exact H].
  - exists "". split; [reflexivity|exact I].
Qed.
Lemma rstrip_by_split : forall f s, exists b, s = rstrip_by f s ++ b /\ chars (fun c => f c = true) b.
Proof.
  intro f. induction s as [|c s [b [E H]]]; [exists ""; split; [reflexivity|exact I]|]. cbn [rstrip_by]. destruct (rstrip_by f s) as [|c' r].
  - destruct (f c) eqn:F; [exists (String c b)|exists b]; cbn in *; (split; [congruence|auto]).
  - exists b. split; [cbn in *; congruence|exact H].
Qed.
Lemma rstrip_by_all : forall f b, chars (fun c => f c = true) b -> rstrip_by f b = "".
Proof. intros f. induction b as [|c b IH]; intros H; [reflexivity|]. destruct H as [C H]. cbn. rewrite (IH H), C. reflexivity. Qed.
Lemma rstrip_by_app : forall f s b, chars (fun c => f c = true) b -> rstrip_by f (s ++ b) = rstrip_by f s.
Proof. intros f. induction s as [|c s IH]; intros b H; [cbn; apply rstrip_by_all, H|]. cbn. rewrite (IH b H). reflexivity. Qed.
Lemma rstrip_by_keep : forall f s c, f c = false -> rstrip_by f (s ++ String c "") = s ++ String c "".
Proof.
  intros f. induction s as [|x s IH]; intros c H; [cbn; now rewrite H|]. cbn. rewrite (IH c H). destruct (s ++ String c "") eqn:E; [|reflexivity].
  destruct s; discriminate.
Qed.
Lemma rstrip_white : forall s b, chars white b -> rstrip (s ++ b) = rstrip s.
Proof. intros. apply rstrip_by_app. eapply chars_impl; [|exact H]. intros c C. apply is_space_white, C. Qed.
Lemma snoc_cases : forall s, s = "" \/ exists t c, s = t ++ String c "".
Proof.
  induction s as [|c s [->|[t [d ->]]]]; [left; reflexivity|right; exists "", c; reflexivity|right; exists (String c t), d; reflexivity].
Qed.

(* ---------------------------------------------------------------- numbers *)

Lemma digit_is : forall c d, digit c d -> is_digit c = true /\ Z.of_nat (nat_of_ascii c - 48) = d.
Proof. intros c d [A B]. unfold is_digit. rewrite andb_true_iff, !Nat.leb_le. lia. Qed.
Lemma is_digit_digit : forall c, is_digit c = true -> digit c (Z.of_nat (nat_of_ascii c - 48)).
Proof. intros c H. unfold is_digit in H. rewrite andb_true_iff, !Nat.leb_le in H. unfold digit. lia. Qed.
Lemma digits_from_app : forall s acc c d z, digits_from acc s = Ok z -> digit c d -> digits_from acc (s ++ String c "") = Ok (10 * z + d).
Proof.
  induction s as [|x s IH]; intros acc c d z H D; cbn in *.
  - injection H as <-. destruct (digit_is c d D) as [A B]. rewrite A. cbn. rewrite B. reflexivity.
  - destruct (is_digit x); [|discriminate]. apply (IH _ c d z H D).
Qed.
Lemma decimal_value : forall s z, decimal s z -> digits_value s = Ok z.
Proof.
  assert (K : forall s z, decimal s z -> digits_from 0 s = Ok z /\ s <> "").
  { induction 1 as [c d D|s z c d H [IH N] D].
    - split; [|discriminate]. change (String c "") with ("" ++ String c ""). rewrite (digits_from_app "" 0 c d 0); auto.
    - split; [apply digits_from_app; auto|]. destruct s; discriminate. }
  intros s z H. destruct (K s z H) as [A B]. destruct s; [congruence|exact A].
Qed.
Lemma digits_from_snoc : forall s acc c z, digits_from acc (s ++ String c "") = Ok z -> exists y, digits_from acc s = Ok y /\ is_digit c = true /\ z = 10 * y + Z.of_nat (nat_of_ascii c - 48).
Proof.
  induction s as [|x s IH]; intros acc c z H; cbn in *.
  - destruct (is_digit c) eqn:D; [|discriminate]. exists acc. split; [reflexivity|]. split; [reflexivity|]. injection H as <-. reflexivity.
  - destruct (is_digit x); [|discriminate]. apply IH, H.
Qed.
Lemma value_decimal : forall s z, digits_value s = Ok z -> decimal s z.
Proof.
  assert (K : forall n s z, String.length s = n -> s <> "" -> digits_from 0 s = Ok z -> decimal s z).
  { induction n as [|n IH]; intros s z L N H; [apply length_nil in L; congruence|].
    destruct (snoc_cases s) as [->|[t [c ->]]]; [congruence|].
    apply digits_from_snoc in H. destruct H as [y [Y [D ->]]]. apply is_digit_digit in D.
    destruct t as [|x t].
    - cbn in Y. injection Y as <-. cbn [append]. rewrite Z.mul_0_r, Z.add_0_l. apply dec_one, D.
    - apply dec_more; [|exact D]. apply IH; [|discriminate|exact Y]. rewrite length_app_s in L. cbn in *. lia. }
  intros s z H. unfold digits_value in H. destruct s; [discriminate|]. eapply K; [reflexivity|discriminate|exact H].
Qed.

(** Decimal texts: not empty, only digits; their ends are not white space. *)
Lemma digit_not_white : forall c d, digit c d -> is_space c = false.
Proof.
  intros c d D. destruct (digit_is c d D) as [A _]. unfold is_digit in A. rewrite andb_true_iff, !Nat.leb_le in A.
  unfold is_space. apply orb_false_iff. rewrite Nat.eqb_neq, andb_false_iff, !Nat.leb_gt. lia.
Qed.
Lemma decimal_ends : forall s z, decimal s z -> (exists c t, s = String c t /\ is_digit c = true) /\ exists t c d, s = t ++ String c "" /\ digit c d.
Proof.
  induction 1 as [c d D|s z c d H [[c' [t [E C]]] _] D].
  - split; [exists c, ""; split; [reflexivity|apply (digit_is c d D)]|exists "", c, d; split; [reflexivity|exact D]].
  - split; [exists c', (t ++ String c ""); subst; split; [reflexivity|exact C]|exists s, c, d; auto].
Qed.
Lemma decimal_nonneg : forall s z, decimal s z -> 0 <= z.
Proof. induction 1 as [c d D|s z c d H IH D]; destruct D as [D _]; lia. Qed.
Lemma rstrip_decimal : forall p s z, decimal s z -> rstrip (p ++ s) = p ++ s.
Proof.
  intros p s z D. destruct (decimal_ends s z D) as [_ [t [c [d [-> C]]]]]. rewrite <- app_assoc_s. apply rstrip_by_keep. exact (digit_not_white c d C).
Qed.
Lemma lstrip_keep : forall c s, is_space c = false -> lstrip (String c s) = String c s.
Proof. intros c s H. cbn. now rewrite H. Qed.

Lemma int_of_str_complete : forall s z, integer_text s z -> int_of_str s = Ok z.
Proof.
  intros s z [a [sign [ds [b [n [-> [A [B [D S]]]]]]]]]. destruct (decimal_ends ds n D) as [[c [t [E C]]] _].
  assert (CS : is_space c = false). { apply is_digit_digit in C. exact (digit_not_white _ _ C). }
  assert (X : rstrip (lstrip (a ++ sign ++ ds ++ b)) = sign ++ ds).
  { rewrite lstrip_white by exact A.
    assert (L : lstrip (sign ++ ds ++ b) = sign ++ ds ++ b).
    { destruct S as [[[-> | ->] _]|[-> _]]; [subst ds; cbn [append]; apply lstrip_keep, CS|reflexivity|reflexivity]. }
    rewrite L, <- app_assoc_s, rstrip_white by exact B. exact (rstrip_decimal _ _ _ D). }
  unfold int_of_str. rewrite X. pose proof (decimal_value ds n D) as V.
  destruct S as [[[-> | ->] ->]|[-> ->]]; cbn [append].
  - subst ds. destruct c as [b0 b1 b2 b3 b4 b5 b6 b7]. destruct b0, b1, b2, b3, b4, b5, b6, b7; try discriminate C; exact V.
  - exact V.
  - rewrite V. reflexivity.
Qed.
Lemma int_of_str_sound : forall s z, int_of_str s = Ok z -> integer_text s z.
Proof.
  intros s z H. unfold int_of_str in H. destruct (lstrip_split s) as [a [E A]]. destruct (rstrip_by_split is_space (lstrip s)) as [b [F B]].
  fold (rstrip (lstrip s)) in F. set (m := rstrip (lstrip s)) in *.
  assert (W : chars white b) by (eapply chars_impl; [|exact B]; intros c C; apply is_space_white, C).
  assert (G : s = a ++ m ++ b) by congruence. clearbody m. clear E F B.
  assert (K : forall m, digits_value m = Ok z -> s = a ++ "" ++ m ++ b -> integer_text s z).
  { intros m' V G'. exists a, "", m', b, z. repeat split; auto. apply value_decimal, V. }
  destruct m as [|c m]; [discriminate H|].
  destruct (ascii_dec c "-") as [->|N1]; [|destruct (ascii_dec c "+") as [->|N2]].
  - apply bind_Ok in H. destruct H as [n [V H]]. injection H as <-. exists a, "-", m, b, n. repeat split; auto. apply value_decimal, V.
  - exists a, "+", m, b, z. repeat split; auto. apply value_decimal, H.
  - apply K with (m := String c m); [|exact G].
    destruct c as [b0 b1 b2 b3 b4 b5 b6 b7]. destruct b0, b1, b2, b3, b4, b5, b6, b7; try exact H; congruence.
Qed.

(** str of a number. *)
Lemma digit_char_digit : forall d, 0 <= d <= 9 -> digit (digit_char d) d.
Proof.
  intros d H. unfold digit, digit_char. split; [exact H|]. rewrite nat_ascii_embedding by lia. lia.
Qed.
Lemma digits_decimal : forall fuel n, 0 <= n < 2 ^ Z.of_nat fuel -> (0 < fuel)%nat -> decimal (digits fuel n) n.
Proof.
  induction fuel as [|fuel IH]; intros n H F; [lia|]. cbn [digits]. destruct (Z.ltb_spec n 10).
  - apply dec_one, digit_char_digit. lia.
  - assert (P : 2 ^ Z.of_nat (S fuel) = 2 * 2 ^ Z.of_nat fuel) by (rewrite Nat2Z.inj_succ, Z.pow_succ_r; lia).
    rewrite (Z.div_mod n 10) at 3 by lia. apply dec_more; [|apply digit_char_digit; pose proof (Z.mod_pos_bound n 10); lia].
    apply IH.
    + split; [apply Z.div_pos; lia|]. apply Z.div_lt_upper_bound; lia.
    + destruct fuel; [cbn in H; lia|lia].
Qed.
Lemma str_of_nat_decimal : forall n, 0 <= n -> decimal (str_of_nat n) n.
Proof.
  intros n H. unfold str_of_nat. apply digits_decimal; [|lia]. split; [exact H|]. rewrite Nat2Z.inj_succ, Z2Nat.id by apply Z.log2_nonneg.
  destruct (Z.eq_dec n 0) as [->|N]; [reflexivity|]. apply Z.log2_spec. lia.
Qed.
Lemma digits_length : forall fuel n k, 0 <= n < 10 ^ Z.of_nat k -> (0 < k)%nat -> (String.length (digits fuel n) <= k)%nat.
Proof.
  induction fuel as [|fuel IH]; intros n k H K; [cbn; lia|]. cbn [digits]. destruct (Z.ltb_spec n 10); [cbn; lia|].
  rewrite length_app_s. cbn [String.length]. destruct k as [|[|k]]; [lia|cbn in H; lia|].
  assert (String.length (digits fuel (n / 10)) <= S k)%nat; [|lia]. apply IH; [|lia].
  split; [apply Z.div_pos; lia|]. apply Z.div_lt_upper_bound; [lia|]. rewrite Nat2Z.inj_succ, Z.pow_succ_r in H by lia. lia.
Qed.
Lemma str_of_int_text : forall z, integer_text (str_of_int z) z.
Proof.
  intro z. unfold str_of_int. destruct (Z.ltb_spec z 0).
  - exists "", "-", (str_of_nat (- z)), "", (- z). cbn [append]. rewrite app_nil_r_s. repeat split; auto. apply str_of_nat_decimal. lia. right. split; [reflexivity|lia].
  - exists "", "", (str_of_nat z), "", z. cbn [append]. rewrite app_nil_r_s. repeat split; auto. apply str_of_nat_decimal. lia.
Qed.
Lemma str_of_int_length : forall z n, 0 <= z < 10 ^ Z.of_nat n -> (0 < n)%nat -> (String.length (str_of_int z) <= n)%nat.
Proof. intros z n H N. unfold str_of_int. destruct (Z.ltb_spec z 0); [lia|]. apply digits_length; assumption. Qed.
Lemma integer_text_pad : forall n s z, integer_text s z -> integer_text (pad_left n s) z.
Proof.
  intros n s z [a [sign [ds [b [k [-> [A [B [D S]]]]]]]]]. exists (blanks (n - String.length (a ++ sign ++ ds ++ b)) ++ a), sign, ds, b, k.
  split; [unfold pad_left; rewrite app_assoc_s; reflexivity|]. split; [apply chars_app; split; [apply blanks_white|exact A]|]. auto.
Qed.
Lemma integer_text_not_blank : forall s z, integer_text s z -> ~ blank s.
Proof.
  intros s z [a [sign [ds [b [n [-> [A [B [D S]]]]]]]]] [_ W]. rewrite !chars_app in W. destruct W as [_ [_ [W _]]].
  destruct (decimal_ends ds n D) as [[c [t [-> C]]] _]. destruct W as [W _]. apply is_space_white in W. apply is_digit_digit in C. rewrite (digit_not_white _ _ C) in W. discriminate.
Qed.
