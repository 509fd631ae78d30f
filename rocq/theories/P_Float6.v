(** C76: equal, repeated and whole readings in double precision. *)
Require Import String ZArith QArith Qround Reals Lra Lia Bool List Qreals.
From Flocq Require Import Core.Core IEEE754.BinarySingleNaN.
Require Import Verif.M_Base Verif.M_Report Verif.S_Report Verif.M_Voyage Verif.S_Voyage Verif.L_Voyage5 Verif.M_Float Verif.M_Float4 Verif.S_Float Verif.L_Float Verif.L_Float5 Verif.L_Float8.
Import ListNotations.
Open Scope string_scope.
Open Scope list_scope.
Open Scope Z_scope.

(** The units of scaled fields: 1, a tenth, a hundredth, a thousandth. *)
Definition unit (sc : Q) : Prop := In sc [1 # 1; 1 # 10; 1 # 100; 1 # 1000]%Q.
(** Variable [name] of the reports of v holds the numbers of units ns, read as doubles (n times the unit), or is missing. *)
Definition readings (name : string) (sc : Q) (ns : list (option Z)) (v : list report) : Prop :=
  Forall2 (fun r n => match n with Some n => Z.abs n <= 10 ^ 8 /\ getvar r name = Some (qof (fdecode (fq sc) n)) | None => getvar r name = None end) v ns.
(** Reading i is n units. *)
Definition reads (ns : list (option Z)) (i : nat) (n : Z) : Prop := nth_error ns i = Some (Some n).

Lemma reads_value : forall name sc ns v, readings name sc ns v -> forall i x, value_at v name i x <-> exists n, reads ns i n /\ Z.abs n <= 10 ^ 8 /\ x = qof (fdecode (fq sc) n).
Proof.
  intros name sc ns v R. unfold value_at, reads. induction R as [|r n v ns H R IH]; intros [|i] x; cbn [nth_error].
  - split; [intros [? [? _]]; discriminate|intros [? [? _]]; discriminate].
  - split; [intros [? [? _]]; discriminate|intros [? [? _]]; discriminate].
  - split.
    + intros [r' [E G]]. injection E as <-. destruct n as [n|]; [|congruence]. destruct H as [B H]. exists n. split; [reflexivity|]. split; [exact B|congruence].
    + intros [n' [E [B ->]]]. injection E as ->. exists r. split; [reflexivity|apply H].
  - apply IH.
Qed.
Lemma flags_exactly_iff : forall t f bad bad' v v', (forall i, bad i <-> bad' i) -> flags_exactly t f bad v v' -> flags_exactly t f bad' v v'.
Proof. intros t f bad bad' v v' H [A B]. split; [exact A|]. intros i r' E. rewrite <- H. now apply B. Qed.
Lemma lists_iff : forall P Q l, (forall i, P i <-> Q i) -> lists P l <-> lists Q l.
Proof. intros P Q l H. unfold lists. split; intros [A B]; (split; [exact A|]); intro i; rewrite B; [apply H|symmetry; apply H]. Qed.

(** Two readings in the same unit are equal as doubles exactly when the numbers read are equal. *)
Theorem C76_equal : forall sc n m, unit sc -> Z.abs n <= 10 ^ 8 -> Z.abs m <= 10 ^ 8 -> feq (fdecode (fq sc) n) (fdecode (fq sc) m) = (n =? m).
Proof. exact decode_inj. Qed.
Print Assumptions C76_equal.
(** They have the same text, which has twelve digits, exactly when the numbers read are equal. *)
Theorem C76_text : forall sc n m, unit sc -> Z.abs n <= 10 ^ 8 -> Z.abs m <= 10 ^ 8 ->
  ((float_of_text (qof (fdecode (fq sc) n)) == float_of_text (qof (fdecode (fq sc) m)))%Q <-> n = m).
Proof. exact text_inj. Qed.
Print Assumptions C76_text.
(** The text of any number is the nearest one with twelve significant digits: with k such that the number is at least 10^(k+11) and less
    than 10^(k+12), it is a whole multiple of 10^k at most half of 10^k away. *)
Theorem C76_digits : forall q, (powerRZ 10 (-30) <= Rabs (Q2R q) < powerRZ 10 370)%R ->
  exists k d, (powerRZ 10 (k + 11) <= Rabs (Q2R q) < powerRZ 10 (k + 12))%R /\ Q2R (text12 q) = (IZR d * powerRZ 10 k)%R /\ (Rabs (Q2R (text12 q) - Q2R q) <= powerRZ 10 k / 2)%R.
Proof.
  intros q B. rewrite <- !(bpow_powerRZ r10) in B. destruct (text_digits q B) as [k [d H]]. exists k, d. now rewrite <- !(bpow_powerRZ r10).
Qed.
Print Assumptions C76_digits.
Example C76_digits_ex : (powerRZ 10 (-30) <= Rabs (Q2R (12345678901234567 # 1)) < powerRZ 10 370)%R /\ (text12 (12345678901234567 # 1) == 12345678901200000 # 1)%Q.
Proof.
  split; [|vm_compute; reflexivity]. rewrite <- !(bpow_powerRZ r10). rewrite Rabs_pos_eq by (unfold Q2R; cbn; lra). split.
  - apply Rle_trans with (bpow r10 0); [apply bpow_le; lia|unfold Q2R; cbn; lra].
  - apply Rlt_le_trans with (bpow r10 17); [unfold Q2R; cbn; lra|apply bpow_le; lia].
Qed.
(** Read back from its text it is a whole number exactly when the units of a whole divide the number read. *)
Theorem C76_whole : forall sc n, unit sc -> Z.abs n <= 10 ^ 8 ->
  ((exists z, float_of_text (qof (fdecode (fq sc) n)) == inject_Z z)%Q <-> (Zpos (Qden sc) | n)).
Proof. exact text_whole. Qed.
Print Assumptions C76_whole.
(** The text is needed for that: the text with twelve digits is of the double nearest to n units, the double itself may be another one
    (3 tenths are 0.30000000000000004). *)
Theorem C76_nearest_refuted : exists n, ~ (float_of_text (qof (fdecode (fq (1 # 10)) n)) == qof (fdecode (fq (1 # 10)) n))%Q.
Proof. exists 3. vm_compute. discriminate. Qed.
Print Assumptions C76_nearest_refuted.
(** The share of c among n values compared with a decimal threshold p/q: the double comparison is the exact one. *)
Theorem C76_share : forall c n p q, 0 <= c <= n -> 1 <= n <= 10 ^ 6 -> 0 <= p <= Zpos q -> Zpos q <= 10 ^ 6 ->
  share_above c n (fq (p # q)) = (p * n <? c * Zpos q) /\ share_reaches c n (fq (p # q)) = (p * n <=? c * Zpos q).
Proof. exact share_ok. Qed.
Print Assumptions C76_share.
(** So the repeated value check on doubles flags exactly the readings whose number is that of more than the threshold share. *)
Theorem C76_repeated : forall name sc ns v min_count threshold, In name ["SST"; "AT"; "AT2"; "DPT"; "SLP"] -> unit sc -> readings name sc ns v -> (0 <= threshold <= 1)%Q ->
  exists v', find_repeated_values float_of_text min_count threshold name v = Ok v' /\
    flags_exactly name "rep"
      (fun i => exists n same all, reads ns i n /\ lists (fun j => reads ns j n) same /\ lists (fun j => exists m, reads ns j m) all /\
         min_count < Z.of_nat (length all) /\ (threshold * inject_Z (Z.of_nat (length all)) < inject_Z (Z.of_nat (length same)))%Q) v v'.
Proof.
  intros name sc ns v mc th Hn S R T. destruct (find_repeated_values_ok float_of_text name v mc th T Hn) as [v' [E F]]. exists v'. split; [exact E|].
  revert F. apply flags_exactly_iff. intro i. pose proof (reads_value _ _ _ _ R) as V.
  assert (ALL : forall all, lists (fun j => exists y, value_at v name j y) all <-> lists (fun j => exists m, reads ns j m) all).
  { intro all. apply lists_iff. intro j. split; [intros [y H]; apply V in H; destruct H as [m [H _]]; now exists m|]. intros [m H].
    destruct (nth_error v j) as [r|] eqn:Er.
    - exists (qof (fdecode (fq sc) m)). apply V. exists m. split; [exact H|]. split; [|reflexivity]. clear - R H. revert j H. unfold reads. induction R as [|r n v ns P R IH]; intros [|j] H; try discriminate; cbn in H; [injection H as ->; apply P|eauto].
    - exfalso. apply nth_error_None in Er. assert (L : length v = length ns) by (clear - R; induction R; cbn; congruence). assert (X : nth_error ns j <> None) by (rewrite H; discriminate). apply nth_error_Some in X. lia. }
  assert (SAME : forall n, Z.abs n <= 10 ^ 8 -> forall same, lists (fun j => exists y, value_at v name j y /\ (float_of_text y == float_of_text (qof (fdecode (fq sc) n)))%Q) same <-> lists (fun j => reads ns j n) same).
  { intros n B same. apply lists_iff. intro j. split.
    - intros [y [H Q]]. apply V in H. destruct H as [m [H [M ->]]]. apply (text_inj sc m n S M B) in Q. now subst m.
    - intro H. exists (qof (fdecode (fq sc) n)). split; [|reflexivity]. apply V. exists n. auto. }
  split.
  - intros [x [same [all [Hx [Hs [Ha K]]]]]]. apply V in Hx. destruct Hx as [n [Rn [B ->]]]. exists n, same, all. split; [exact Rn|]. split; [now apply SAME|]. split; [now apply ALL|exact K].
  - intros [n [same [all [Hx [Hs [Ha K]]]]]]. assert (X : exists y, value_at v name i y).
    { destruct all as [|j0 all]; [|].
      - exfalso. apply (proj2 Ha i). now exists n.
      - apply ALL in Ha. apply (proj2 Ha). apply ALL in Ha. apply (proj2 Ha). now exists n. }
    destruct X as [y X]. pose proof X as Y. apply V in Y. destruct Y as [m [Rm [B ->]]]. assert (m = n) by (unfold reads in *; congruence). subst m.
    exists (qof (fdecode (fq sc) n)), same, all. split; [exact X|]. split; [now apply SAME|]. split; [now apply ALL|exact K].
Qed.
Print Assumptions C76_repeated.
(** And the rounded value check flags exactly the whole readings, if they reach the threshold share. *)
Theorem C76_rounded : forall name sc ns v min_count threshold, In name ["SST"; "AT"; "AT2"; "DPT"] -> 0 <= min_count -> unit sc -> readings name sc ns v -> (0 <= threshold <= 1)%Q ->
  exists v', find_multiple_rounded_values float_of_text min_count threshold name v = Ok v' /\
    flags_exactly name "round"
      (fun i => exists n whole all, reads ns i n /\ (Zpos (Qden sc) | n) /\ lists (fun j => exists m, reads ns j m /\ (Zpos (Qden sc) | m)) whole /\
         lists (fun j => exists m, reads ns j m) all /\ min_count < Z.of_nat (length all) /\
         (threshold * inject_Z (Z.of_nat (length all)) <= inject_Z (Z.of_nat (length whole)))%Q) v v'.
Proof.
  intros name sc ns v mc th Hn MC S R T. destruct (find_rounded_ok float_of_text name v mc th T Hn MC) as [v' [E F]]. exists v'. split; [exact E|].
  revert F. apply flags_exactly_iff. intro i. pose proof (reads_value _ _ _ _ R) as V.
  assert (RV : forall j m, reads ns j m -> value_at v name j (qof (fdecode (fq sc) m)) /\ Z.abs m <= 10 ^ 8).
  { intros j m H. assert (B : Z.abs m <= 10 ^ 8).
    { clear - R H. revert j H. unfold reads. induction R as [|r n v ns P R IH]; intros [|j] H; try discriminate; cbn in H; [injection H as ->; apply P|eauto]. }
    split; [|exact B]. apply V. now exists m. }
  assert (ALL : forall all, lists (fun j => exists y, value_at v name j y) all <-> lists (fun j => exists m, reads ns j m) all).
  { intro all. apply lists_iff. intro j. split; [intros [y H]; apply V in H; destruct H as [m [H _]]; now exists m|]. intros [m H]. eexists. apply (RV j m H). }
  assert (WH : forall whole, lists (fun j => exists y z, value_at v name j y /\ (float_of_text y == inject_Z z)%Q) whole <-> lists (fun j => exists m, reads ns j m /\ (Zpos (Qden sc) | m)) whole).
  { intro whole. apply lists_iff. intro j. split.
    - intros [y [z [H Q]]]. apply V in H. destruct H as [m [H [M ->]]]. exists m. split; [exact H|]. apply (text_whole sc m S M). now exists z.
    - intros [m [H D]]. destruct (RV j m H) as [X M]. apply (text_whole sc m S M) in D. destruct D as [z D]. eauto. }
  split.
  - intros [x [whole [all [Hx [[z Hz] [Hw [Ha K]]]]]]]. apply V in Hx. destruct Hx as [n [Rn [B ->]]]. exists n, whole, all. split; [exact Rn|]. split; [apply (text_whole sc n S B); now exists z|]. split; [now apply WH|]. split; [now apply ALL|exact K].
  - intros [n [whole [all [Rn [D [Hw [Ha K]]]]]]]. destruct (RV i n Rn) as [X B]. exists (qof (fdecode (fq sc) n)), whole, all. split; [exact X|]. split; [now apply (text_whole sc n S B)|]. split; [now apply WH|]. split; [now apply ALL|exact K].
Qed.
Print Assumptions C76_rounded.

(* ---- a case: sea temperatures of 7.2, 7.2, 7.0 degrees and a missing one ---- *)
Definition sst_report (x : option Q) : report :=
  {| r_id := Some "A"; r_uid := None; r_data := update_nth 11 x (repeat None 26); r_dt := None; r_qc := []; r_ext := []; r_clim := [] |}.
Definition tenths (n : Z) : option Q := Some (qof (fdecode (fq (1 # 10)) n)).
Definition some_reports : list report := map sst_report [tenths 72; tenths 72; tenths 70; None].
Example C76_ex : readings "SST" (1 # 10) [Some 72; Some 72; Some 70; None] some_reports /\
  match find_repeated_values float_of_text 2 (1 # 2) "SST" some_reports, find_multiple_rounded_values float_of_text 2 (3 # 10) "SST" some_reports with
  | Ok v, Ok w => map (fun r => get_qc r "SST" "rep") v = [1; 1; 0; 0] /\ map (fun r => get_qc r "SST" "round") w = [0; 0; 1; 0]
  | _, _ => False
  end.
Proof.
  split.
  - unfold readings, some_reports. cbn [map]. repeat (apply Forall2_cons; [first [split; [lia|reflexivity]|reflexivity]|]). constructor.
  - vm_compute. auto.
Qed.
Example C76_share_ex : share_above 7 10 (fq (7 # 10)) = false /\ share_reaches 7 10 (fq (7 # 10)) = true /\ share_above 8 11 (fq (7 # 10)) = true.
Proof. repeat split; vm_compute; reflexivity. Qed.
