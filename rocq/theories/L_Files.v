(** Lemmas on templates, paths and identifier files. *)
Require Import String Ascii ZArith List Bool Lia.
Require Import Verif.M_Base Verif.M_Imma Verif.M_Files Verif.S_Imma Verif.S_Files Verif.L_Base Verif.L_Imma.
Import ListNotations.
Open Scope string_scope.
Open Scope Z_scope.

(* ---------------------------------------------------------------- numbers *)

Lemma decimal_digits : forall s z, decimal s z -> chars (fun c => is_digit c = true) s.
Proof.
  induction 1 as [c d D|s z c d H IH D].
  - split; [apply (digit_is c d D)|exact I].
  - apply chars_app. split; [exact IH|]. split; [apply (digit_is c d D)|exact I].
Qed.
Lemma decimal_bound : forall s z, decimal s z -> z < 10 ^ Z.of_nat (String.length s).
Proof.
  induction 1 as [c d D|s z c d H IH D]; destruct D as [D _]; [cbn; lia|].
  rewrite length_app_s. cbn [String.length]. replace (Z.of_nat (String.length s + 1)) with (Z.succ (Z.of_nat (String.length s))) by lia.
  rewrite Z.pow_succ_r by lia. lia.
Qed.
Lemma decimal_nonempty : forall s z, decimal s z -> (0 < String.length s)%nat.
Proof. induction 1; [cbn; lia|]. rewrite length_app_s. cbn. lia. Qed.
Lemma snoc_inj : forall s t c d, s ++ String c "" = t ++ String d "" -> s = t /\ c = d.
Proof.
  induction s as [|x s IH]; intros [|y t] c d H; cbn in H.
  - injection H as <-. auto.
  - injection H as _ H. destruct t; discriminate.
  - injection H as _ H. destruct s; discriminate.
  - injection H as <- H. destruct (IH t c d H) as [-> ->]. auto.
Qed.
Lemma digit_inj : forall c c' d, digit c d -> digit c' d -> c = c'.
Proof.
  intros c c' d [_ A] [_ B]. rewrite <- (ascii_nat_embedding c), <- (ascii_nat_embedding c'). f_equal. lia.
Qed.
Lemma decimal_inj : forall s z, decimal s z -> forall t, decimal t z -> String.length s = String.length t -> s = t.
Proof.
  induction 1 as [c d D|s z c d H IH D]; intros t T L.
  - inversion T as [c' d' D' E|t' z' c' d' H' D' E E']; subst.
    + f_equal. exact (digit_inj _ _ _ D D').
    + rewrite length_app_s in L. cbn in L. pose proof (decimal_nonempty _ _ H'). lia.
  - rewrite length_app_s in L. cbn in L. inversion T as [c' d' D' E F|t' z' c' d' H' D' E E']; subst.
    + cbn in L. pose proof (decimal_nonempty _ _ H). lia.
    + rewrite length_app_s in L. cbn in L. destruct D as [D1 D2], D' as [D1' D2'].
      change (10 * z' + d' = 10 * z + d) in E'.
      assert (z' = z) by lia. subst z'. assert (d' = d) by lia. subst d'. rewrite (IH t' H') by lia.
      f_equal. f_equal. apply (digit_inj c c' d); split; assumption.
Qed.
Lemma padded_inj : forall n z s t, padded n z s -> padded n z t -> s = t.
Proof.
  intros n z s t [A [B C]] [A' [B' C']]. apply (decimal_inj s z A t A').
  pose proof (decimal_bound _ _ A). pose proof (decimal_bound _ _ A').
  assert (M : forall a b, 10 ^ Z.of_nat (a - 1) <= z -> z < 10 ^ Z.of_nat b -> (a <= b)%nat).
  { intros a b P Q. assert (Z.of_nat (a - 1) < Z.of_nat b); [|lia]. apply (Z.pow_lt_mono_r_iff 10); lia. }
  destruct (Nat.eq_dec (String.length s) n) as [E|E], (Nat.eq_dec (String.length t) n) as [E'|E']; [congruence| | |].
  - specialize (M _ (String.length s) (C' ltac:(lia)) ltac:(assumption)). lia.
  - specialize (M _ (String.length t) (C ltac:(lia)) ltac:(assumption)). lia.
  - pose proof (M _ (String.length s) (C' ltac:(lia)) ltac:(assumption)). pose proof (M _ (String.length t) (C ltac:(lia)) ltac:(assumption)). lia.
Qed.
Lemma zeros_length : forall n, String.length (zeros n) = n.
Proof. induction n; cbn; congruence. Qed.
Lemma zeros_decimal : forall n s z, decimal s z -> decimal (zeros n ++ s) z.
Proof.
  intros n s z D. induction n as [|n IH]; [exact D|]. cbn [zeros append]. clear D. induction IH as [c d D|t y c d H IH2 D].
  - change (String "0" (String c "")) with (String "0" "" ++ String c ""). replace d with (10 * 0 + d) by lia. apply dec_more; [|exact D].
    apply dec_one. split; [lia|reflexivity].
  - change (String "0" (t ++ String c "")) with (String "0" t ++ String c ""). apply dec_more; assumption.
Qed.
Lemma digits_lead : forall fuel n, 0 <= n < 2 ^ Z.of_nat fuel -> (1 < String.length (digits fuel n))%nat -> 10 ^ Z.of_nat (String.length (digits fuel n) - 1) <= n.
Proof.
  induction fuel as [|fuel IH]; intros n H L; [cbn in L; lia|]. cbn [digits] in *. destruct (Z.ltb_spec n 10); [cbn in L; lia|].
  rewrite length_app_s in *. cbn [String.length] in *.
  assert (P : 2 ^ Z.of_nat (S fuel) = 2 * 2 ^ Z.of_nat fuel) by (rewrite Nat2Z.inj_succ, Z.pow_succ_r; lia).
  assert (D : 0 <= n / 10 < 2 ^ Z.of_nat fuel) by (pose proof (Z.div_mod n 10); pose proof (Z.mod_pos_bound n 10); lia).
  set (k := String.length (digits fuel (n / 10))) in *. replace (k + 1 - 1)%nat with k by lia.
  assert (0 < k)%nat by lia. destruct (Nat.eq_dec k 1) as [->|K]; [cbn; lia|].
  specialize (IH (n / 10) D ltac:(lia)). fold k in IH. replace (Z.of_nat k) with (Z.succ (Z.of_nat (k - 1))) by lia. rewrite Z.pow_succ_r by lia.
  pose proof (Z.div_mod n 10). pose proof (Z.mod_pos_bound n 10). lia.
Qed.
Lemma zero_pad_padded : forall n z, (0 < n)%nat -> 0 <= z -> padded n z (zero_pad n z).
Proof.
  intros n z N H. unfold zero_pad. destruct (Z.ltb_spec z 0); [lia|]. unfold padded.
  pose proof (str_of_nat_decimal z H) as D. rewrite length_app_s, zeros_length.
  split; [apply zeros_decimal, D|]. split; [lia|]. intro L. assert (L' : (n < String.length (str_of_nat z))%nat) by lia.
  replace (n - String.length (str_of_nat z))%nat with O by lia. cbn [plus]. unfold str_of_nat in *. apply digits_lead; [|lia].
  split; [exact H|]. rewrite Nat2Z.inj_succ, Z2Nat.id by apply Z.log2_nonneg. destruct (Z.eq_dec z 0) as [->|X]; [reflexivity|]. apply Z.log2_spec. lia.
Qed.

(* ---------------------------------------------------------------- replace *)

Lemma prefix_begins : forall p s, prefix p s = true <-> begins p s.
Proof.
  induction p as [|c p IH]; intros [|x s]; cbn.
  - split; [exists ""; reflexivity|reflexivity].
  - split; [exists (String x s); reflexivity|reflexivity].
  - split; [discriminate|intros [t T]; discriminate].
  - destruct (ascii_dec c x) as [->|N].
    + rewrite IH. split; intros [t T]; exists t; [cbn; congruence|cbn in T; congruence].
    + split; [discriminate|]. intros [t T]. cbn in T. congruence.
Qed.
Lemma prefix_no : forall p s, prefix p s = false <-> ~ begins p s.
Proof. intros. rewrite <- prefix_begins. destruct (prefix p s); split; congruence. Qed.
Lemma replace_skip : forall a old new s, replace_go (String.length a) old new (a ++ s) = replace_go 0 old new s.
Proof. induction a as [|c a IH]; intros; [reflexivity|]. cbn. apply IH. Qed.
Lemma replace_hit : forall c old new s, replace (String c old) new (String c old ++ s) = new ++ replace (String c old) new s.
Proof.
  intros. unfold replace. cbn [append replace_go]. assert (P : prefix (String c old) (String c (old ++ s)) = true) by (apply prefix_begins; exists s; reflexivity).
  rewrite P. f_equal. replace (String.length (String c old) - 1)%nat with (String.length old) by (cbn; lia). apply replace_skip.
Qed.
Lemma replace_miss : forall old new c s, ~ begins old (String c s) -> replace old new (String c s) = String c (replace old new s).
Proof. intros old new c s H. apply prefix_no in H. unfold replace. cbn [replace_go]. rewrite H. reflexivity. Qed.
(** Text without the first character of the pattern is left alone. *)
Lemma replace_pass : forall x old new a s, chars (fun c => c <> x) a -> replace (String x old) new (a ++ s) = a ++ replace (String x old) new s.
Proof.
  intros x old new. induction a as [|c a IH]; intros s H; [reflexivity|]. destruct H as [C H]. cbn [append]. rewrite replace_miss, IH; auto.
  intros [t T]. cbn in T. congruence.
Qed.
(** Replacing does not create or remove an occurrence, at the front, of a text of other characters. *)
Lemma replace_prefix : forall x old new, (exists c new', new = String c new' /\ is_digit c = true) ->
  forall p s, chars (fun c => c <> x /\ is_digit c = false) p -> (begins p (replace (String x old) new s) <-> begins p s).
Proof.
  intros x old new [c0 [new' [-> C0]]]. induction p as [|c p IH]; intros s H; [split; intros _; eexists; reflexivity|].
  destruct H as [[N D] H]. destruct s as [|a s]; [reflexivity|].
  destruct (prefix (String x old) (String a s)) eqn:P.
  - apply prefix_begins in P. destruct P as [t T]. rewrite T, replace_hit. cbn [append]. split; intros [u U]; cbn in U; injection U as U _.
    + subst c0. congruence.
    + congruence.
  - apply prefix_no in P. rewrite replace_miss by exact P. split; intros [u U]; cbn in U; injection U as <- U.
    + destruct (proj1 (IH s H)) as [v V]; [exists u; exact U|]. exists v. cbn. congruence.
    + destruct (proj2 (IH s H)) as [v V]; [exists u; exact U|]. exists v. cbn. congruence.
Qed.

Section Template.
Variables y m d : string.
Hypothesis Y : chars (fun c => is_digit c = true) y.
Hypothesis M : chars (fun c => is_digit c = true) m.
Hypothesis Y0 : y <> "".
Hypothesis M0 : m <> "".
Let fill s := replace "DDDD" d (replace "MMMM" m (replace "YYYY" y s)).
Lemma digits_first : forall s, chars (fun c => is_digit c = true) s -> s <> "" -> exists c s', s = String c s' /\ is_digit c = true.
Proof. intros [|c s] H N; [congruence|]. exists c, s. split; [reflexivity|apply H]. Qed.
Lemma digits_other : forall x s, is_digit x = false -> chars (fun c => is_digit c = true) s -> chars (fun c => c <> x) s.
Proof. intros x s X H. eapply chars_impl; [|exact H]. intros c C E. cbn beta in C. congruence. Qed.
Lemma fill_year : forall s, fill ("YYYY" ++ s) = y ++ fill s.
Proof.
  intro s. unfold fill. rewrite replace_hit, replace_pass by (apply digits_other; [reflexivity|exact Y]).
  apply replace_pass. apply digits_other; [reflexivity|exact Y].
Qed.
Lemma fill_month : forall s, fill ("MMMM" ++ s) = m ++ fill s.
Proof.
  intro s. unfold fill. rewrite (replace_pass "Y" "YYY" y "MMMM") by (cbn; repeat split; discriminate). rewrite replace_hit.
  apply replace_pass. apply digits_other; [reflexivity|exact M].
Qed.
Lemma fill_day : forall s, fill ("DDDD" ++ s) = d ++ fill s.
Proof.
  intro s. unfold fill. rewrite (replace_pass "Y" "YYY" y "DDDD") by (cbn; repeat split; discriminate).
  rewrite (replace_pass "M" "MMM" m "DDDD") by (cbn; repeat split; discriminate). apply replace_hit.
Qed.
Lemma fill_char : forall c s, ~ begins "YYYY" (String c s) -> ~ begins "MMMM" (String c s) -> ~ begins "DDDD" (String c s) -> fill (String c s) = String c (fill s).
Proof.
  intros c s A B C. unfold fill. rewrite (replace_miss _ _ c s A).
  assert (PY : forall p, chars (fun c => c <> "Y"%char /\ is_digit c = false) p -> forall u, (begins p (replace "YYYY" y u) <-> begins p u)).
  { intros p Hp u. apply (replace_prefix "Y" "YYY" y); [apply digits_first; assumption|exact Hp]. }
  assert (PM : forall p, chars (fun c => c <> "M"%char /\ is_digit c = false) p -> forall u, (begins p (replace "MMMM" m u) <-> begins p u)).
  { intros p Hp u. apply (replace_prefix "M" "MMM" m); [apply digits_first; assumption|exact Hp]. }
  rewrite (replace_miss "MMMM" m c).
  2: { rewrite <- (replace_miss _ y c s A). rewrite PY; [exact B|]. cbn. repeat split; discriminate. }
  apply replace_miss. rewrite <- (replace_miss "MMMM" m c).
  2: { rewrite <- (replace_miss _ y c s A). rewrite PY; [exact B|]. cbn. repeat split; discriminate. }
  rewrite PM by (cbn; repeat split; discriminate). rewrite <- (replace_miss _ y c s A). rewrite PY by (cbn; repeat split; discriminate). exact C.
Qed.
Lemma fill_filled : forall n s, (String.length s <= n)%nat -> filled y m d s (fill s).
Proof.
  assert (L : forall p t s n, s = p ++ t -> p <> "" -> (String.length s <= S n)%nat -> (String.length t <= n)%nat).
  { intros p t s n -> P H. rewrite length_app_s in H. destruct p; [congruence|]. cbn in H. lia. }
  induction n as [|n IH]; intros s H; [rewrite (length_nil s) by lia; apply F_end|].
  destruct s as [|c s]; [apply F_end|].
  destruct (prefix "YYYY" (String c s)) eqn:A. { apply prefix_begins in A. destruct A as [t T]. rewrite T, fill_year. apply F_year, IH. eapply L; [exact T|discriminate|exact H]. }
  destruct (prefix "MMMM" (String c s)) eqn:B. { apply prefix_begins in B. destruct B as [t T]. rewrite T, fill_month. apply F_month, IH. eapply L; [exact T|discriminate|exact H]. }
  destruct (prefix "DDDD" (String c s)) eqn:C. { apply prefix_begins in C. destruct C as [t T]. rewrite T, fill_day. apply F_day, IH. eapply L; [exact T|discriminate|exact H]. }
  apply prefix_no in A, B, C. rewrite fill_char by assumption. apply F_char; auto. apply IH. cbn in H. lia.
Qed.
Lemma filled_fill : forall s o, filled y m d s o -> fill s = o.
Proof.
  induction 1 as [|t o H IH|t o H IH|t o H IH|c t o H IH A B C].
  - reflexivity.
  - now rewrite fill_year, IH.
  - now rewrite fill_month, IH.
  - now rewrite fill_day, IH.
  - now rewrite fill_char, IH by assumption.
Qed.
End Template.

Lemma padded_nonempty : forall n z s, padded n z s -> s <> "".
Proof. intros n z s [D _] ->. apply decimal_nonempty in D. cbn in D. lia. Qed.
Lemma process_string_filled : forall year month day y m d, 0 <= year -> 0 <= month -> 0 <= day ->
  padded 4 year y -> padded 2 month m -> padded 2 day d ->
  forall t o, process_string t year month day = o <-> filled y m d t o.
Proof.
  intros year month day y m d A B C Y M D t o. unfold process_string. cbv zeta.
  rewrite (padded_inj 4 year _ y (zero_pad_padded 4 year ltac:(lia) A) Y), (padded_inj 2 month _ m (zero_pad_padded 2 month ltac:(lia) B) M),
    (padded_inj 2 day _ d (zero_pad_padded 2 day ltac:(lia) C) D).
  pose proof (decimal_digits _ _ (proj1 Y)) as Y1. pose proof (decimal_digits _ _ (proj1 M)) as M1.
  pose proof (padded_nonempty _ _ _ Y). pose proof (padded_nonempty _ _ _ M). split.
  - intros <-. eapply (fill_filled y m d); try eassumption. apply le_n.
  - intro F. apply (filled_fill y m d); assumption.
Qed.

(* ---------------------------------------------------------------- different dates, different names *)

Lemma app_inj_len : forall a b s t, String.length a = String.length b -> a ++ s = b ++ t -> a = b /\ s = t.
Proof.
  induction a as [|c a IH]; intros [|e b] s t L H; cbn in *; try discriminate; [auto|]. injection H as <- H. injection L as L.
  destruct (IH b s t L H) as [-> ->]. auto.
Qed.
Lemma app_inj_l : forall (a s t : string), a ++ s = a ++ t -> s = t.
Proof. induction a; cbn; intros; [assumption|]. apply IHa. congruence. Qed.
(** A run of one letter inside a text that starts with a run of another begins after it. *)
Lemma occurs_after : forall x z t, x <> z ->
  occurs (String z (String z (String z (String z "")))) (String x (String x (String x (String x t)))) -> occurs (String z (String z (String z (String z "")))) t.
Proof.
  intros x z t N [a [b H]]. destruct a as [|a1 a]; [cbn in H; congruence|]. destruct a as [|a2 a]; [cbn in H; congruence|].
  destruct a as [|a3 a]; [cbn in H; congruence|]. destruct a as [|a4 a]; [cbn in H; congruence|]. exists a, b. cbn in H. cbn. congruence.
Qed.
Lemma occurs_tail : forall p c t, ~ begins p (String c t) -> occurs p (String c t) -> occurs p t.
Proof. intros p c t N [[|a1 a] [b H]]; [exfalso; apply N; exists b; exact H|]. exists a, b. cbn in H. congruence. Qed.
Lemma no_occurs : forall c p, ~ occurs (String c p) "".
Proof. intros c p [[|x a] [b H]]; discriminate. Qed.
Lemma filled_same : forall y m d t o, filled y m d t o -> forall y' m' d', String.length y' = String.length y -> String.length m' = String.length m ->
  String.length d' = String.length d -> filled y' m' d' t o ->
  (occurs "YYYY" t -> y = y') /\ (occurs "MMMM" t -> m = m') /\ (occurs "DDDD" t -> d = d').
Proof.
  induction 1 as [|t o H IH|t o H IH|t o H IH|c t o H IH A B C]; intros y' m' d' LY LM LD F.
  - repeat split; intro O; destruct (no_occurs _ _ O).
  - inversion F as [|t1 o1 F1 E1 E2| | |c1 t1 o1 F1 NY NM ND E1 E2]; subst; [|exfalso; apply NY; exists t; reflexivity].
    destruct (app_inj_len y' y o1 o LY E2) as [-> ->]. destruct (IH y m' d' eq_refl LM LD F1) as [_ [IM ID]].
    split; [reflexivity|]. split; intro O; [apply IM|apply ID]; apply (occurs_after "Y"); (discriminate || exact O).
  - inversion F as [| |t1 o1 F1 E1 E2| |c1 t1 o1 F1 NY NM ND E1 E2]; subst; [|exfalso; apply NM; exists t; reflexivity].
    destruct (app_inj_len m' m o1 o LM E2) as [-> ->]. destruct (IH y' m d' LY eq_refl LD F1) as [IY [_ ID]].
    split; [|split; [reflexivity|]]; intro O; [apply IY|apply ID]; apply (occurs_after "M"); (discriminate || exact O).
  - inversion F as [| | |t1 o1 F1 E1 E2|c1 t1 o1 F1 NY NM ND E1 E2]; subst; [|exfalso; apply ND; exists t; reflexivity].
    destruct (app_inj_len d' d o1 o LD E2) as [-> ->]. destruct (IH y' m' d LY LM eq_refl F1) as [IY [IM _]].
    split; [|split; [|reflexivity]]; intro O; [apply IY|apply IM]; apply (occurs_after "D"); (discriminate || exact O).
  - inversion F as [|t1 o1 F1 E1 E2|t1 o1 F1 E1 E2|t1 o1 F1 E1 E2|c1 t1 o1 F1 NY NM ND E1 E2]; subst.
    + exfalso. apply A. exists t1. cbn. congruence.
    + exfalso. apply B. exists t1. cbn. congruence.
    + exfalso. apply C. exists t1. cbn. congruence.
    + destruct (IH y' m' d' LY LM LD F1) as [IY [IM ID]]. repeat split; intro O; [apply IY|apply IM|apply ID]; (eapply occurs_tail; [|exact O]); assumption.
Qed.
Lemma padded_width : forall n z s, padded n z s -> (0 < n)%nat -> z < 10 ^ Z.of_nat n -> String.length s = n.
Proof.
  intros n z s [D [L B]] N H. destruct (Nat.eq_dec (String.length s) n) as [E|E]; [exact E|]. specialize (B ltac:(lia)).
  assert (Z.of_nat (String.length s - 1) < Z.of_nat n); [|lia]. apply (Z.pow_lt_mono_r_iff 10); lia.
Qed.
Lemma decimal_fun : forall s z z', decimal s z -> decimal s z' -> z = z'.
Proof. intros s z z' A B. apply decimal_value in A, B. congruence. Qed.

(* ---------------------------------------------------------------- paths *)

Lemma ends_slash_spec : forall s, ends_slash s = true <-> exists a, s = a ++ "/".
Proof.
  induction s as [|c s IH]; cbn; [split; [discriminate|intros [[|x a] H]; discriminate]|]. destruct s as [|c' s].
  - rewrite Ascii.eqb_eq. split; [intros ->; exists ""; reflexivity|]. intros [[|x a] H]; cbn in H; [congruence|]. destruct a; discriminate.
  - rewrite IH. split.
    + intros [a E]. exists (String c a). cbn. congruence.
    + intros [[|x a] H]; cbn in H; [discriminate|]. exists a. congruence.
Qed.
Lemma path_join_joined : forall a b p, path_join a b = p <-> joined a b p.
Proof.
  intros a b p. unfold path_join, joined. destruct (prefix "/" b) eqn:P.
  - apply prefix_begins in P. split; [intros <-; left; auto|]. intros [[_ ->]|[[N _]|[N _]]]; [reflexivity|contradiction|contradiction].
  - apply prefix_no in P. destruct (String.eqb a "" || ends_slash a) eqn:E.
    + rewrite orb_true_iff, String.eqb_eq, ends_slash_spec in E. split; [intros <-; right; left; auto|].
      intros [[N _]|[[_ [_ ->]]|[_ [N1 [N2 _]]]]]; [contradiction|reflexivity|]. destruct E; contradiction.
    + rewrite orb_false_iff, String.eqb_neq in E. destruct E as [E1 E2]. assert (N : ~ exists a', a = a' ++ "/") by (rewrite <- ends_slash_spec; congruence).
      split; [intros <-; right; right; auto|]. intros [[X _]|[[_ [[X|X] _]]|[_ [_ [_ ->]]]]]; [contradiction|contradiction|contradiction|reflexivity].
Qed.
Lemma make_filename_names : forall year month day dirstub stub path, 0 <= year -> 0 <= month -> 0 <= day ->
  (make_filename dirstub stub year month day = path <-> names_file year month day dirstub stub path).
Proof.
  intros year month day ds st p A B C. unfold make_filename, names_file.
  pose proof (zero_pad_padded 4 year ltac:(lia) A) as Y. pose proof (zero_pad_padded 2 month ltac:(lia) B) as M. pose proof (zero_pad_padded 2 day ltac:(lia) C) as D.
  rewrite path_join_joined. split.
  - intro J. eexists _, _, _, _, _. split; [exact Y|]. split; [exact M|]. split; [exact D|]. split; [|split; [|exact J]].
    + apply (process_string_filled year month day _ _ _ A B C Y M D). reflexivity.
    + apply (process_string_filled year month day _ _ _ A B C Y M D). reflexivity.
  - intros [y [m [d [dir [file [Y' [M' [D' [F1 [F2 J]]]]]]]]]].
    rewrite (proj2 (process_string_filled year month day y m d A B C Y' M' D' ds dir) F1), (proj2 (process_string_filled year month day y m d A B C Y' M' D' st file) F2). exact J.
Qed.
Lemma completions_descend : forall subs a l, build_completions a subs = l <-> descends a subs l.
Proof.
  induction subs as [|b subs IH]; intros a l; cbn.
  - split; [intros <-; constructor|inversion 1; reflexivity].
  - split.
    + intros <-. constructor; [apply path_join_joined; reflexivity|]. apply IH. reflexivity.
    + inversion 1 as [|a' b' subs' p l' J D]; subst. apply path_join_joined in J. rewrite J. f_equal. apply IH, D.
Qed.
Lemma last_cons : forall (A : Type) (l : list A) x y, last (x :: l) y = last l x.
Proof. induction l as [|a l IH]; intros; [reflexivity|]. change (last (x :: a :: l) y) with (last (a :: l) y). rewrite IH. symmetry. apply IH. Qed.
Lemma make_dirs : forall (fs : Type) (mkdir : fs -> string -> option fs) (isdir : fs -> string -> Prop) subs out l f,
  (forall f p f' q, mkdir f p = Some f' -> isdir f' p /\ (isdir f q -> isdir f' q)) ->
  (forall f a b p, isdir f a -> In b subs -> joined a b p -> mkdir f p = None -> isdir f p) ->
  isdir f out -> descends out subs l ->
  forall o f' r, fold_left (fun '(f, _) adir => (match mkdir f adir with Some f' => f' | None => f end, Some adir)) l (f, o) = (f', r) ->
  Forall (isdir f') l /\ (forall q, isdir f q -> isdir f' q) /\ r = match l with [] => o | _ => Some (last l out) end.
Proof.
  intros fs mkdir isdir subs. induction subs as [|b subs IH]; intros out l f H1 H2 F D o f' r E.
  - inversion D; subst. cbn in E. injection E as <- <-. repeat split; auto.
  - inversion D as [|a' b' subs' p l' J D']; subst. cbn [fold_left] in E.
    set (f1 := match mkdir f p with Some f' => f' | None => f end) in E.
    assert (K : isdir f1 p /\ forall q, isdir f q -> isdir f1 q).
    { unfold f1. destruct (mkdir f p) as [f2|] eqn:M; [split; [exact (proj1 (H1 f p f2 p M))|intros q; exact (proj2 (H1 f p f2 q M))]|]. split; [apply (H2 f out b p F (or_introl eq_refl) J M)|auto]. }
    destruct K as [K1 K2]. destruct (IH p l' f1 H1 (fun f a b p A B => H2 f a b p A (or_intror B)) K1 D' _ _ _ E) as [A [B C]].
    split; [constructor; [apply B, K1|exact A]|]. split; [intros q Q; apply B, K2, Q|]. rewrite C. rewrite last_cons. destruct l'; reflexivity.
Qed.

(* ---------------------------------------------------------------- identifiers *)

Lemma rstrip_end : forall s u c, rstrip s = u ++ String c "" -> ~ white c.
Proof.
  intros s u c H W. apply is_space_white in W. assert (E : rstrip (rstrip s) = rstrip s).
  { unfold rstrip. destruct (rstrip_by_split is_space s) as [b [E B]]. rewrite E at 2. rewrite rstrip_by_app by exact B. reflexivity. }
  rewrite H in E. unfold rstrip in E. rewrite rstrip_by_app in E by (split; [exact W|exact I]).
  destruct (rstrip_by_split is_space u) as [b [F _]]. rewrite E in F. apply (f_equal String.length) in F. rewrite !length_app_s in F. cbn in F. lia.
Qed.
Lemma blanks_only : forall b, chars (fun c => c = " "%char) b -> b = blanks (String.length b).
Proof. induction b as [|c b IH]; intro H; [reflexivity|]. destruct H as [-> H]. cbn. rewrite <- IH by exact H. reflexivity. Qed.
Lemma blanks_chars : forall n, chars (fun c => c = " "%char) (blanks n).
Proof. induction n; cbn; auto. Qed.
Lemma bad_id_pad : forall line id, bad_id line id <-> pad_right 9 (rstrip line) = id.
Proof.
  intros line id. split.
  - intros [stem [w [b [-> [W [S [-> [B L]]]]]]]]. rewrite rstrip_white by exact W.
    assert (R : rstrip stem = stem). { destruct (snoc_cases stem) as [->|[t [c ->]]]; [reflexivity|]. apply rstrip_by_keep. specialize (S t c eq_refl). destruct (is_space c) eqn:C; [apply is_space_white in C; contradiction|reflexivity]. }
    rewrite R. unfold pad_right. f_equal. rewrite length_app_s in L. rewrite (blanks_only b B). f_equal. rewrite length_app_s || idtac. lia.
  - intros <-. destruct (rstrip_by_split is_space line) as [w [E W]]. fold (rstrip line) in E. exists (rstrip line), w, (blanks (9 - String.length (rstrip line))).
    split; [exact E|]. split; [eapply chars_impl; [|exact W]; intros c C; apply is_space_white, C|]. split; [intros s c; apply rstrip_end|].
    split; [reflexivity|]. split; [apply blanks_chars|]. unfold pad_right. rewrite length_app_s, blanks_length. lia.
Qed.
Lemma pad_blank : forall line, pad_right 9 (rstrip line) = "         " <-> chars white line.
Proof.
  intro line. destruct (rstrip_by_split is_space line) as [w [E W]]. fold (rstrip line) in E.
  assert (W' : chars white w) by (eapply chars_impl; [|exact W]; intros c C; apply is_space_white, C). split.
  - intro H. rewrite E. apply chars_app. split; [|exact W']. assert (X : chars white (pad_right 9 (rstrip line))) by (rewrite H; cbn; intuition).
    unfold pad_right in X. apply chars_app in X. apply X.
  - intro H. assert (R : rstrip line = ""). { apply rstrip_by_all. eapply chars_impl; [|exact H]. intros c C. apply is_space_white, C. } rewrite R. reflexivity.
Qed.
Lemma bad_ids : forall lines l, process_bad_id_file lines = l <-> ids_of lines l.
Proof.
  induction lines as [|line lines IH]; intro l.
  - cbn. split; [intros <-; constructor|inversion 1; reflexivity].
  - unfold process_bad_id_file. cbn [flat_map]. fold (process_bad_id_file lines). cbv zeta.
    destruct (String.eqb (pad_right 9 (rstrip line)) "         ") eqn:E.
    + apply String.eqb_eq in E. apply pad_blank in E. cbn [app]. split.
      * intros H. apply I_blank; [exact E|apply IH, H].
      * inversion 1; subst; [apply IH; assumption|contradiction].
    + apply String.eqb_neq in E. assert (N : ~ chars white line) by (rewrite <- pad_blank; exact E). split.
      * cbn [app]. intros <-. apply I_line; [exact N|apply bad_id_pad; reflexivity|apply IH; reflexivity].
      * inversion 1; subst; [contradiction|]. cbn [app]. f_equal; [apply bad_id_pad; assumption|apply IH; assumption].
Qed.

(* ---------------------------------------------------------------- safe names *)

Lemma replace_one : forall x n s, replace (String x "") (String n "") s = string_of_list_ascii (map (fun c => if Ascii.eqb x c then n else c) (list_ascii_of_string s)).
Proof.
  intros x n. induction s as [|c s IH]; [reflexivity|]. cbn [list_ascii_of_string map string_of_list_ascii]. destruct (Ascii.eqb_spec x c) as [<-|N].
  - change (String x s) with (String x "" ++ s). rewrite replace_hit, IH. reflexivity.
  - rewrite replace_miss, IH; [reflexivity|]. intros [t T]. cbn in T. congruence.
Qed.
Lemma safe_made : forall s t, safe_filename s = t <-> made_safe s t.
Proof.
  assert (K : forall c s, safe_filename (String c s) = String (if Ascii.eqb "/" c then "_" else if Ascii.eqb "*" c then "_" else c) (safe_filename s)).
  { intros c s. unfold safe_filename. rewrite !(replace_one "/"), !(replace_one "*"). cbn [list_ascii_of_string map string_of_list_ascii]. f_equal.
    destruct (Ascii.eqb_spec "/" c); [reflexivity|]. destruct (Ascii.eqb "*" c); reflexivity. }
  induction s as [|c s IH]; intro t.
  - cbn. split; [intros <-; constructor|inversion 1; reflexivity].
  - rewrite K. destruct (Ascii.eqb_spec "/" c) as [<-|N1]; [|destruct (Ascii.eqb_spec "*" c) as [<-|N2]].
    + split; [intros <-; apply A_bad; [auto|apply IH; reflexivity]|]. inversion 1; subst; [f_equal; apply IH; assumption|congruence].
    + split; [intros <-; apply A_bad; [auto|apply IH; reflexivity]|]. inversion 1; subst; [f_equal; apply IH; assumption|congruence].
    + split; [intros <-; apply A_char; [congruence|congruence|apply IH; reflexivity]|].
      inversion 1 as [|c1 s1 t1 X Y|c1 s1 t1 X Y Z]; subst; [destruct X; congruence|f_equal; apply IH; assumption].
Qed.

(* ---------------------------------------------------------------- the first file *)

Lemma first_some : forall (isfile : string -> bool) l o,
  fold_left (fun out fname => match out with None => if isfile fname then Some fname else None | _ => out end) l o
  = match o with Some f => Some f | None => find isfile l end.
Proof.
  intros isfile. induction l as [|x l IH]; intros [f|]; cbn [fold_left find]; [reflexivity|reflexivity|apply IH|]. rewrite IH. destruct (isfile x); reflexivity.
Qed.
Lemma find_first : forall (A : Type) (P : A -> bool) l x, find P l = Some x <-> exists i, nth_error l i = Some x /\ P x = true /\ forall j y, (j < i)%nat -> nth_error l j = Some y -> P y = false.
Proof.
  intros A P. induction l as [|a l IH]; intro x; cbn [find].
  - split; [discriminate|intros [[|i] [H _]]; discriminate].
  - destruct (P a) eqn:E.
    + split; [intros [= <-]; exists O; repeat split; auto; intros j y J; lia|]. intros [[|i] [H [X Y]]]; [exact H|]. specialize (Y O a ltac:(lia) eq_refl). congruence.
    + rewrite IH. split.
      * intros [i [H [X Y]]]. exists (S i). repeat split; auto. intros [|j] y J K; [cbn in K; congruence|]. apply (Y j y ltac:(lia) K).
      * intros [[|i] [H [X Y]]]; [cbn in H; congruence|]. exists i. repeat split; auto. intros j y J K. apply (Y (S j) y ltac:(lia) K).
Qed.
Lemma nth_error_combine : forall (A B : Type) (l : list A) (l' : list B) i a b, nth_error (combine l l') i = Some (a, b) <-> nth_error l i = Some a /\ nth_error l' i = Some b.
Proof.
  intros A B. induction l as [|x l IH]; intros [|y l'] [|i] a b; cbn.
  1-6: split; [discriminate|intros [H1 H2]; discriminate].
  - split; [intro E; injection E as <- <-; auto|intros [E1 E2]; congruence].
  - apply IH.
Qed.
Lemma stubs_ok : forall ds fs, length ds = length fs -> stubs ds fs = Ok (combine ds fs).
Proof. intros ds fs L. unfold stubs, py_assert. rewrite L, Nat.eqb_refl. reflexivity. Qed.

(* ---------------------------------------------------------------- ICOADS files *)

Lemma digits_stop : forall x, is_digit x = false -> forall a b s t, chars (fun c => is_digit c = true) a -> chars (fun c => is_digit c = true) b ->
  a ++ String x s = b ++ String x t -> a = b /\ s = t.
Proof.
  intros x X. induction a as [|c a IH]; intros [|e b] s t A B H; cbn in *.
  - injection H as ->. auto.
  - injection H as -> _. destruct B as [B _]. congruence.
  - injection H as -> _. destruct A as [A _]. congruence.
  - injection H as <- H. destruct (IH b s t (proj2 A) (proj2 B) H) as [-> ->]. auto.
Qed.
Lemma str_of_int_nat : forall z, 0 <= z -> decimal (str_of_int z) z.
Proof. intros z H. unfold str_of_int. destruct (Z.ltb_spec z 0); [lia|]. apply str_of_nat_decimal, H. Qed.
Lemma month_name_inj : forall x y m y' m', is_digit x = false -> 0 <= y -> 0 <= m -> 0 <= y' -> 0 <= m' ->
  str_of_int y ++ String x (zero_pad 2 m ++ ".gz") = str_of_int y' ++ String x (zero_pad 2 m' ++ ".gz") -> y = y' /\ m = m'.
Proof.
  intros x y m y' m' X A B C D H.
  pose proof (str_of_int_nat y A) as Y. pose proof (str_of_int_nat y' C) as Y'.
  pose proof (zero_pad_padded 2 m ltac:(lia) B) as [M _]. pose proof (zero_pad_padded 2 m' ltac:(lia) D) as [M' _].
  destruct (digits_stop x X _ _ _ _ (decimal_digits _ _ Y) (decimal_digits _ _ Y') H) as [E F].
  destruct (digits_stop "." eq_refl _ _ "gz" "gz" (decimal_digits _ _ M) (decimal_digits _ _ M') F) as [G _].
  rewrite E in Y. rewrite G in M. split; [exact (decimal_fun _ _ _ Y Y')|exact (decimal_fun _ _ _ M M')].
Qed.
Lemma icoads_distinct : forall dir y m y' m' v f, 0 <= y -> 0 <= m -> 0 <= y' -> 0 <= m' ->
  icoads_filename dir y m v = Ok (Some f) -> icoads_filename dir y' m' v = Ok (Some f) -> y = y' /\ m = m'.
Proof.
  intros dir y m y' m' v f A B C D E E'. unfold icoads_filename, py_assert in E, E'. cbv zeta in E, E'.
  destruct (String.eqb_spec v "2.5") as [->|N2].
  - cbn [orb bind] in E, E'. change (String.eqb "2.5" "3.0") with false in *. cbv iota in E, E'.
    destruct ((2007 <? y) && (y <? 2015)), ((2007 <? y') && (y' <? 2015)); injection E as <-; injection E' as E'; apply app_inj_l in E'; try discriminate E';
      injection E' as E'; symmetry in E'; apply (month_name_inj "." y m y' m' eq_refl A B C D E').
  - destruct (String.eqb_spec v "3.0") as [->|N3]; [|discriminate]. cbn [orb bind] in E, E'.
    destruct (Z.leb_spec y 2014), (Z.leb_spec 2015 y), (Z.leb_spec y' 2014), (Z.leb_spec 2015 y'); try lia; injection E as <-; injection E' as E'; apply app_inj_l in E'; try discriminate E';
      injection E' as E'; symmetry in E'; apply (month_name_inj "-" y m y' m' eq_refl A B C D E').
Qed.
Lemma icoads_total : forall dir y m v, (exists f, icoads_filename dir y m v = Ok (Some f)) <-> v = "2.5" \/ v = "3.0".
Proof.
  intros dir y m v. unfold icoads_filename, py_assert. cbv zeta. destruct (String.eqb_spec v "2.5") as [->|N2].
  - cbn. split; [auto|intros _]. destruct ((2007 <? y) && (y <? 2015)); eexists; reflexivity.
  - destruct (String.eqb_spec v "3.0") as [->|N3]; cbn.
    + split; [auto|intros _]. destruct (Z.leb_spec y 2014), (Z.leb_spec 2015 y); try lia; eexists; reflexivity.
    + split; [intros [f F]; discriminate|intros [E|E]; contradiction].
Qed.

(* ---------------------------------------------------------------- background fields *)

Lemma contains_occurs : forall p t, contains p t = true <-> occurs p t.
Proof.
  intros p. induction t as [|c t IH]; cbn [contains]; rewrite orb_true_iff, prefix_begins.
  - split; [intros [[b B]|X]; [exists "", b; exact B|discriminate]|]. intros [[|x a] [b H]]; [left; exists b; exact H|discriminate].
  - rewrite IH. split.
    + intros [[b B]|[a [b B]]]; [exists "", b; exact B|exists (String c a), b; cbn; congruence].
    + intros [[|x a] [b H]]; [left; exists b; exact H|right; exists a, b; cbn in H; congruence].
Qed.

Lemma full_b : forall size f, match size f with Some n => negb (n =? 0) | None => false end = true <-> full size f.
Proof.
  intros. unfold full. destruct (size f) as [n|]; [rewrite negb_true_iff, Z.eqb_neq|]; split; try discriminate.
  - intro N. exists n. auto.
  - intros [k [[= <-] N]]. exact N.
  - intros [k [X _]]. discriminate.
Qed.
Lemma choose_spec : forall size l,
  match choose size l with
  | Some (o, n) => exists i orig, nth_error l i = Some (orig, n) /\ (full size (orig ++ ".bz2") /\ o = orig ++ ".bz2" \/ ~ full size (orig ++ ".bz2") /\ full size orig /\ o = orig) /\
      forall j x y, (j < i)%nat -> nth_error l j = Some (x, y) -> ~ full size x /\ ~ full size (x ++ ".bz2")
  | None => forall j x y, nth_error l j = Some (x, y) -> ~ full size x /\ ~ full size (x ++ ".bz2")
  end.
Proof.
  intros size. induction l as [|[orig new] l IH]; cbn [choose]; [intros [|j] x y H; discriminate|]. cbv zeta.
  destruct (match size (orig ++ ".bz2") with Some n => negb (n =? 0) | None => false end) eqn:B.
  - apply full_b in B. exists O, orig. split; [reflexivity|]. split; [auto|]. intros j x y J. lia.
  - assert (B' : ~ full size (orig ++ ".bz2")) by (rewrite <- full_b; congruence).
    destruct (match size orig with Some n => negb (n =? 0) | None => false end) eqn:A.
    + apply full_b in A. exists O, orig. split; [reflexivity|]. split; [auto|]. intros j x y J. lia.
    + assert (A' : ~ full size orig) by (rewrite <- full_b; congruence). destruct (choose size l) as [[o n]|].
      * destruct IH as [i [og [H [K L]]]]. exists (S i), og. split; [exact H|]. split; [exact K|]. intros [|j] x y J X; [cbn in X; injection X as <- <-; auto|]. apply (L j x y ltac:(lia) X).
      * intros [|j] x y X; [cbn in X; injection X as <- <-; auto|]. apply (IH j x y X).
Qed.
