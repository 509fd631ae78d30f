(** C42: the IMMA reader and writer. *)
Require Import String Ascii ZArith QArith List Bool Lia.
Require Import Verif.M_Base Verif.L_Base Verif.M_Report Verif.M_Imma Verif.M_ImmaTables Verif.S_Imma Verif.L_Imma Verif.L_Imma2 Verif.L_Imma3.
Import ListNotations.
Open Scope string_scope.
Open Scope Z_scope.

(** The attachments with fixed length fields, all but 97 (Error) and 99 (supplemental data). *)
Definition fixed_atts : list Z := [0; 1; 2; 3; 4; 5; 6; 7; 8; 9; 95; 96; 98].
Lemma tables_ok : forall a, In a fixed_atts -> exists t, get_table imma_tables a = Ok t /\ NoDup (names t) /\ fixed t /\ all_good t.
Proof.
  assert (ND : forall l : list string, nodup string_dec l = l -> NoDup l) by (intros l E; rewrite <- E; apply NoDup_nodup).
  intros a H. repeat (destruct H as [<-|H];
    [eexists; split; [reflexivity|]; split; [apply ND; vm_compute; reflexivity|]; split;
     [repeat (apply Forall_cons; [eexists; split; [reflexivity|lia]|]); apply Forall_nil|
      repeat (apply Forall_cons; [first [left; reflexivity|right; left; split; [reflexivity|]; split; [reflexivity|]; eexists; split; reflexivity|
        right; right; split; [reflexivity|]; intros sc E; first [discriminate E|injection E as <-; reflexivity]]|]); apply Forall_nil]|]).
  destruct H.
Qed.

(** The base 36 digits 0..9, A..Z: writing and reading one returns it; any other character reads as -1. *)
Theorem C42_base36 :
  (forall z, 0 <= z <= 35 -> exists c, encode_base36 z = String c "" /\ base36 c z /\ decode_base36 (String c "") = z) /\
  (forall c z, base36 c z -> decode_base36 (String c "") = z /\ encode_base36 z = String c "") /\
  (forall c, (forall z, ~ base36 c z) -> decode_base36 (String c "") = -1).
Proof.
  assert (D : forall c z, base36 c z -> decode_base36 (String c "") = z).
  { intros c z B. destruct (decode36_char c) as [[z' [B' ->]]|[N _]]; [eapply base36_unique; eassumption|exfalso; exact (N z B)]. }
  split; [|split].
  - intros z Z. destruct (encode36_char z Z) as [c [E B]]. exists c. auto.
  - intros c z B. split; [apply D, B|]. assert (Z : 0 <= z <= 35) by (unfold base36, digit in B; lia). destruct (encode36_char z Z) as [c' [E B']]. rewrite E.
    f_equal. rewrite <- (ascii_nat_embedding c), <- (ascii_nat_embedding c'). f_equal. unfold base36, digit in B, B'. lia.
  - intros c N. destruct (decode36_char c) as [[z [B _]]|[_ E]]; [exfalso; exact (N z B)|exact E].
Qed.
Print Assumptions C42_base36.
(** 36 has no digit; it is written as nothing (a blank in its field). *)
Theorem C42_base36_refuted : encode_base36 36 = "" /\ field_text (mkdef (Some 1%nat) (Some 1%Q) 2) (VInt 36) = Ok " ".
Proof. split; reflexivity. Qed.
Print Assumptions C42_base36_refuted.

(** Reading and printing of integers: int(text) is the number the text denotes and fails exactly if it denotes none;
    str(z) denotes z. *)
Theorem C42_integers : (forall s z, int_of_str s = Ok z <-> integer_text s z) /\
  (forall s, (forall z, ~ integer_text s z) -> int_of_str s = Err ValueError) /\ forall z, integer_text (str_of_int z) z.
Proof.
  split; [split; [apply int_of_str_sound|apply int_of_str_complete]|]. split; [|apply str_of_int_text].
  intros s N. destruct (int_of_str s) as [z|e] eqn:E; [exfalso; exact (N z (int_of_str_sound s z E))|]. f_equal. eapply int_of_str_err, E.
Qed.
Print Assumptions C42_integers.

(** Reading an attachment: every parameter gets the meaning of the bytes after those of the parameters before it, all
    other values stay; if some bytes mean nothing, and only then, it fails, with ValueError. *)
Theorem C42_decode : forall a t s data, In a fixed_atts -> get_table imma_tables a = Ok t -> (width t <= String.length s)%nat ->
  (forall data', decode t s data = Ok data' ->
     (forall pre p d post n, t = (pre ++ (p, d) :: post)%list -> d_len d = Some n ->
        exists v, assoc p data' = Some v /\ means d (substring (width pre) n s) v) /\
     (forall q, ~ In q (names t) -> assoc q data' = assoc q data)) /\
  ((exists data', decode t s data = Ok data') <->
     forall pre p d post n, t = (pre ++ (p, d) :: post)%list -> d_len d = Some n -> exists v, means d (substring (width pre) n s) v) /\
  (forall e, decode t s data = Err e -> e = ValueError).
Proof.
  intros a t s data I GT LE. destruct (tables_ok a I) as [t' [GT' [ND [FX GD]]]]. rewrite GT in GT'. injection GT' as <-.
  destruct (decode_from_spec t 0 s data ND FX GD LE) as [A [B C]]. split; [exact A|]. split; [|intros e H; apply (C e H)].
  split; [|exact B]. intros [data' D] pre p d post n E L. destruct (A data' D) as [A1 _]. destruct (A1 pre p d post n E L) as [v [_ V]]. eauto.
Qed.
Print Assumptions C42_decode.
(** A text has at most one meaning. *)
Theorem C42_meaning_unique : forall d s v w, means d s v -> means d s w -> v = w.
Proof. exact means_unique. Qed.
Print Assumptions C42_meaning_unique.

(** Bytes in each attachment (in a file, header included, the IMMA lengths 65, 76, 66, 57, 94, 68, 58, 102, 32, 61, 53, 15). *)
Theorem C42_widths : map (fun a => match get_table imma_tables a with Ok t => width t | Err _ => O end) fixed_atts
  = [108; 61; 72; 62; 53; 90; 64; 54; 98; 28; 57; 49; 11]%nat.
Proof. reflexivity. Qed.
Print Assumptions C42_widths.

(** Writing an attachment whose values fit gives exactly its bytes, and reading them gives the same values. *)
Theorem C42_round_trip : forall a t data, In a fixed_atts -> get_table imma_tables a = Ok t -> fills t data ->
  exists s, encode_fields t data = Ok s /\ String.length s = width t /\
    forall rest data0, exists data1, decode t (s ++ rest) data0 = Ok data1 /\ (forall p, In p (names t) -> assoc p data1 = assoc p data) /\
      (forall p, ~ In p (names t) -> assoc p data1 = assoc p data0).
Proof.
  intros a t data I GT F. destruct (tables_ok a I) as [t' [GT' [ND [FX GD]]]]. rewrite GT in GT'. injection GT' as <-.
  destruct (round_trip t data ND GD F) as [s [E [L [_ [_ R]]]]]. eauto.
Qed.
Print Assumptions C42_round_trip.

(** A whole record: core and any attachments but 8, 97 and 99, with fitting values, the last attachment not all
    missing, is written as one line, and reading that line gives the same attachments and values. *)
Theorem C42_record : forall data rest, (forall a, In a rest -> In a [1; 2; 3; 4; 5; 6; 7; 9; 95; 96; 98]) ->
  (forall a t, In a (0 :: rest)%list -> get_table imma_tables a = Ok t -> fills t data) ->
  (forall t, get_table imma_tables (last (0 :: rest)%list 0) = Ok t -> some_value t data) ->
  exists text data', write imma_tables {| im_data := data; im_att := (0 :: rest)%list |} = Ok text /\
    readstr imma_tables text new_imma = Some (Ok {| im_data := data'; im_att := (0 :: rest)%list |}) /\
    forall a t p, In a (0 :: rest)%list -> get_table imma_tables a = Ok t -> In p (names t) -> assoc p data' = assoc p data.
Proof.
  intros data rest I F S.
  assert (R : Forall (regular imma_tables) rest).
  { apply Forall_forall. intros a A. specialize (I a A). assert (IF : In a fixed_atts) by (revert I; cbn; tauto).
    destruct (tables_ok a IF) as [t [GT [ND [FX GD]]]]. split; [|split].
    - repeat (destruct I as [<-|I]; [lia|]). destruct I.
    - repeat (destruct I as [<-|I]; [lia|]). destruct I.
    - exists t. split; [exact GT|]. split; [exact ND|]. split; [exact GD|].
      clear - I GT. repeat (destruct I as [<-|I]; [vm_compute in GT; injection GT as <-; vm_compute; lia|]). destruct I. }
  destruct (tables_ok 0 (or_introl eq_refl)) as [t [GT [ND [FX GD]]]].
  apply (record_round_trip imma_tables data rest t GT ND GD).
  - vm_compute in GT. injection GT as <-. reflexivity.
  - apply (F 0 t); [left; reflexivity|exact GT].
  - exact R.
  - apply Forall_forall. intros a A. rewrite Forall_forall in R. destruct (R a A) as [_ [_ [ta [GA _]]]]. exists ta. split; [exact GA|]. apply (F a ta); [right; exact A|exact GA].
  - intros pre a ta E GA. apply S. rewrite E, last_last. exact GA.
Qed.
Print Assumptions C42_record.

(** Reading a line always ends. *)
Theorem C42_ends : forall line r, readstr imma_tables line r <> None.
Proof. intros line r. apply read_ends. left. lia. Qed.
Print Assumptions C42_ends.

(** Negative numbers are not kept: a number below zero, in a field with a unit, is written one unit too high. *)
Theorem C42_negative_refuted : forall d n sc z, d_len d = Some n -> d_enc d = 1 -> d_scale d = Some sc -> ~ (sc == 0)%Q -> z < 0 ->
  exists s, field_text d (if Qeqb sc 1 then VInt z else VFloat (inject_Z z * sc)) = Ok s /\ integer_text s (z + 1).
Proof.
  intros d n sc z L E S S0 Z. exists (pad_left n (str_of_int (z + 1))). split; [apply field_text_negative; assumption|]. apply integer_text_pad, str_of_int_text.
Qed.
Print Assumptions C42_negative_refuted.

(** Records: all values missing but the given ones. *)
Definition missing (t : list (string * def)) : list (string * value) := map (fun e => (fst e, VNone)) t.
Definition sample (more : list (string * value)) : list (string * value) := (more ++ missing table_00 ++ missing table_01 ++ missing table_08 ++ missing table_99)%list.
Definition after (r : imma) (p : string) : option value :=
  match write imma_tables r with
  | Ok text => match readstr imma_tables text new_imma with Some (Ok r') => assoc p (im_data r') | _ => None end
  | Err _ => None
  end.
(** A ship at 45 degrees south is read back at 44.99 degrees south. *)
Theorem C42_latitude_refuted : after {| im_data := sample [("LAT", VFloat (-4500 * (1 # 100))); ("YR", VInt 1987)]; im_att := [0] |} "LAT" = Some (VFloat (-4499 * (1 # 100))).
Proof. vm_compute. reflexivity. Qed.
Print Assumptions C42_latitude_refuted.
(** Attachment 8 is written with a three digit length, which shifts its fields on reading (a missing temperature
    becomes 0.002); attachment 99 is read with its
    header as data; an attachment with no values is lost if it is the last. *)
Theorem C42_attachments_refuted :
  (exists text r', write imma_tables {| im_data := sample [("YR", VInt 1987)]; im_att := [0; 8] |} = Ok text /\
     readstr imma_tables text new_imma = Some (Ok r') /\ assoc "OTV" (sample [("YR", VInt 1987)]) = Some VNone /\ assoc "OTV" (im_data r') = Some (VFloat (2 * (1 # 1000)))) /\
  (exists text r', write imma_tables {| im_data := sample [("YR", VInt 1987); ("ATTE", VInt 1); ("SUPD", VStr "ABC")]; im_att := [0; 99] |} = Ok text /\
     readstr imma_tables text new_imma = Some (Ok r') /\ assoc "ATTE" (im_data r') = Some (VInt 9) /\ assoc "SUPD" (im_data r') = Some (VStr "9 01ABC")) /\
  (exists text r', write imma_tables {| im_data := sample [("YR", VInt 1987)]; im_att := [0; 1] |} = Ok text /\
     readstr imma_tables text new_imma = Some (Ok r') /\ im_att r' = [0]).
Proof.
  split; [|split].
  - eexists. eexists. split; [vm_compute; reflexivity|]. split; [vm_compute; reflexivity|]. split; reflexivity.
  - eexists. eexists. split; [vm_compute; reflexivity|]. split; [vm_compute; reflexivity|]. split; reflexivity.
  - eexists. eexists. split; [vm_compute; reflexivity|]. split; [vm_compute; reflexivity|]. reflexivity.
Qed.
Print Assumptions C42_attachments_refuted.

(** Attachment 5 has a text field with a unit, which no text can be written to. *)
Theorem C42_nu_refuted : exists d, In ("NU", d) table_05 /\ forall s, field_text d (VStr s) = Err TypeError.
Proof. eexists. split; [cbn; auto 60|]. reflexivity. Qed.
Print Assumptions C42_nu_refuted.

(** The hypotheses of C42_record are met by a report with a year, a position, a call sign, an air temperature, and an ICOADS attachment. *)
Example C42_ex :
  let data := sample [("YR", VInt 1987); ("MO", VInt 6); ("HR", VFloat (1200 * (1 # 100))); ("LAT", VFloat (5025 * (1 # 100))); ("ID", VStr "SHIP 12  ");
                      ("ATTC", VInt 1); ("AT", VFloat (123 * (1 # 10))); ("DCK", VInt 892)] in
  (forall a t, In a [0; 1] -> get_table imma_tables a = Ok t -> fills t data) /\
  (forall t, get_table imma_tables (last [0; 1] 0) = Ok t -> some_value t data) /\
  after {| im_data := data; im_att := [0; 1] |} "AT" = Some (VFloat (123 * (1 # 10))).
Proof.
  intro data. split; [|split].
  - assert (M : forall n, (0 < n)%nat -> forall sc e, holds (mkdef (Some n) sc e) VNone) by (intros n N sc e; exists n; repeat split; auto).
    assert (Z : forall n k sc, (0 < n)%nat -> 0 <= k < 10 ^ Z.of_nat n -> Qeqb sc 0 = false -> holds (mkdef (Some n) (Some sc) 1) (if Qeqb sc 1 then VInt k else VFloat (inject_Z k * sc))).
    { intros n k sc N K S. exists n. split; [reflexivity|]. split; [exact N|]. right. cbn [d_enc d_scale]. exists k. split; [exact K|]. split; [apply Qeq_bool_neq, S|reflexivity]. }
    intros a t [<-|[<-|[]]] GT; vm_compute in GT; injection GT as <-; unfold fills;
      repeat (apply Forall_cons; [eexists; split; [vm_compute; reflexivity|]; cbn [snd];
        first [apply M; lia
              |exact (Z 4%nat 1987 1%Q ltac:(lia) ltac:(cbn; lia) eq_refl)|exact (Z 2%nat 6 1%Q ltac:(lia) ltac:(cbn; lia) eq_refl)
              |exact (Z 4%nat 1200 (1 # 100) ltac:(lia) ltac:(cbn; lia) eq_refl)|exact (Z 5%nat 5025 (1 # 100) ltac:(lia) ltac:(cbn; lia) eq_refl)
              |exact (Z 4%nat 123 (1 # 10) ltac:(lia) ltac:(cbn; lia) eq_refl)|exact (Z 3%nat 892 1%Q ltac:(lia) ltac:(cbn; lia) eq_refl)
              |exists 1%nat; split; [reflexivity|]; split; [lia|]; right; split; [reflexivity|]; split; [reflexivity|]; eexists; split; [|reflexivity]; lia
              |exists 9%nat; split; [reflexivity|]; split; [lia|]; right; eexists; split; [reflexivity|]; split; [reflexivity|]; split;
                 [cbn; repeat split; intro W; try reflexivity; exfalso; apply is_space_white in W; discriminate W
                 |intros [_ [W _]]; apply is_space_white in W; discriminate W]]|]); apply Forall_nil.
  - intros t GT. vm_compute in GT. injection GT as <-. exists "DCK". eexists. split; [|vm_compute; discriminate]. cbn. auto 40.
  - vm_compute. reflexivity.
Qed.
