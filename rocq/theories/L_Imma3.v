(** Lemmas about attachments and whole records. *)
Require Import String Ascii ZArith QArith List Bool Lia.
Require Import Verif.M_Base Verif.L_Base Verif.M_Report Verif.M_Imma Verif.S_Imma Verif.L_Imma Verif.L_Imma2.
Import ListNotations.
Open Scope string_scope.
Open Scope Z_scope.

Definition all_good (t : list (string * def)) : Prop := Forall (fun e => good (snd e)) t.

Lemma substring_app_l : forall s r a n, (a + n <= String.length s)%nat -> substring a n (s ++ r) = substring a n s.
Proof.
  induction s as [|c s IH]; intros r [|a] [|n] H; cbn in *; try lia; try reflexivity.
  - destruct r; reflexivity.
  - f_equal. apply IH. lia.
  - apply IH. lia.
  - apply IH. lia.
Qed.

(** Decoding: every parameter gets the meaning of its bytes, nothing else changes; or it fails with ValueError. *)
Lemma decode_from_spec : forall t pos s data, NoDup (names t) -> fixed t -> all_good t -> (pos + width t <= String.length s)%nat ->
  (forall data', decode_from pos t s data = Ok data' ->
     (forall pre p d post n, t = (pre ++ (p, d) :: post)%list -> d_len d = Some n ->
        exists v, assoc p data' = Some v /\ means d (substring (pos + width pre) n s) v) /\
     (forall q, ~ In q (names t) -> assoc q data' = assoc q data)) /\
  ((forall pre p d post n, t = (pre ++ (p, d) :: post)%list -> d_len d = Some n -> exists v, means d (substring (pos + width pre) n s) v) ->
     exists data', decode_from pos t s data = Ok data') /\
  (forall e, decode_from pos t s data = Err e -> e = ValueError /\
     exists pre p d post n, t = (pre ++ (p, d) :: post)%list /\ d_len d = Some n /\ forall v, ~ means d (substring (pos + width pre) n s) v).
Proof.
  induction t as [|[p d] t IH]; intros pos s data ND FX GD LE.
  - cbn. split; [|split].
    + intros data' H. injection H as <-. split; [intros [|? ?]; discriminate|reflexivity].
    + intros _. eauto.
    + discriminate.
  - inversion_clear ND as [|? ? NI ND']. inversion_clear FX as [|? ? [n [L N]] FX']. inversion_clear GD as [|? ? G GD']. cbn [snd] in L, G.
    cbn [width] in LE. rewrite L in LE. cbn [decode_from]. rewrite L.
    assert (SZ : sized d (substring pos n s)) by (intros m M; rewrite L in M; injection M as <-; apply substring_length; lia).
    destruct (IH (pos + n)%nat s) with (data := (p, VNone) :: data) as [_ [_ _]]; try assumption; [lia|].
    destruct (field_value d (substring pos n s)) as [v|e] eqn:F; cbn [bind].
    + apply field_value_spec in F; [|exact G|exact SZ].
      destruct (IH (pos + n)%nat s ((p, v) :: data) ND' FX' GD' ltac:(lia)) as [A [B C]]. split; [|split].
      * intros data' H. destruct (A data' H) as [A1 A2]. split.
        -- intros pre p' d' post m E M. destruct pre as [|[p0 d0] pre]; cbn in E.
           ++ injection E as <- <- <-. exists v. cbn [width]. rewrite Nat.add_0_r. assert (m = n) by congruence. subst m. split; [|exact F].
              rewrite A2 by exact NI. cbn. rewrite String.eqb_refl. reflexivity.
           ++ injection E as <- <- E. cbn [width]. rewrite L, Nat.add_assoc. exact (A1 pre p' d' post m E M).
        -- intros q Q. cbn in Q. rewrite A2 by tauto. cbn. destruct (String.eqb_spec q p); [subst; tauto|reflexivity].
      * intros H. apply B. intros pre p' d' post m E M. destruct (H ((p, d) :: pre)%list p' d' post m) as [w W]; [cbn; congruence|exact M|].
        exists w. cbn [width] in W. rewrite L, Nat.add_assoc in W. exact W.
      * intros e H. destruct (C e H) as [C1 [pre [p' [d' [post [m [E [M W]]]]]]]]. split; [exact C1|]. exists ((p, d) :: pre)%list, p', d', post, m.
        split; [cbn; congruence|]. split; [exact M|]. cbn [width]. rewrite L, Nat.add_assoc. exact W.
    + assert (NM : forall v, ~ means d (substring pos n s) v) by (intros v V; apply field_value_spec in V; [congruence|exact G|exact SZ]).
      split; [discriminate|]. split.
      * intro H. destruct (H [] p d t n eq_refl L) as [v V]. cbn [width] in V. rewrite Nat.add_0_r in V. exfalso. exact (NM v V).
      * intros e' H. injection H as <-. pose proof (field_value_fails d _ G SZ NM) as X. split; [congruence|].
        exists [], p, d, t, n. split; [reflexivity|]. split; [exact L|]. cbn [width]. rewrite Nat.add_0_r. exact NM.
Qed.

(** Encoding. *)
Definition plain (s : string) := chars (fun c => white c -> c = " "%char) s.

Lemma encode_fields_spec : forall t data, fills t data -> exists s, encode_fields t data = Ok s /\ String.length s = width t /\ plain s /\
  (some_value t data -> ~ chars white s) /\
  forall pre p d post n, t = (pre ++ (p, d) :: post)%list -> d_len d = Some n -> exists v, assoc p data = Some v /\ means d (substring (width pre) n s) v.
Proof.
  induction t as [|[p d] t IH]; intros data F.
  - exists "". cbn. repeat split; auto; [intros [p [d [[] _]]]|intros [|? ?]; discriminate].
  - inversion_clear F as [|? ? [v [A H]] F']. cbn [fst snd] in A, H. destruct (IH data F') as [s [E [L [P [W M]]]]].
    destruct (field_text_holds d v H) as [f [FT [SZ [MN [PF BV]]]]]. destruct H as [n [LN [N _]]]. pose proof (SZ n LN) as LF.
    exists (f ++ s). cbn [encode_fields]. rewrite A. cbn [bind]. rewrite FT. cbn [bind]. rewrite E. cbn [bind]. split; [reflexivity|].
    split; [rewrite length_app_s; cbn [width]; rewrite LN; lia|]. split; [apply chars_app; auto|]. split.
    + intros [p' [d' [I NE]]] C. apply chars_app in C. destruct C as [C1 C2]. destruct I as [I|I].
      * injection I as <- <-. assert (X : v = VNone) by (apply BV; split; [intros ->; cbn in LF; lia|exact C1]). congruence.
      * apply W; [exists p', d'; auto|exact C2].
    + intros pre p' d' post m EQ LM. destruct pre as [|[p0 d0] pre]; cbn in EQ.
      * injection EQ as <- <- <-. exists v. split; [exact A|]. cbn [width]. assert (m = n) by congruence. subst m. rewrite <- LF, substring_0. exact MN.
      * injection EQ as <- <- EQ. destruct (M pre p' d' post m EQ LM) as [w [AW MW]]. exists w. split; [exact AW|]. cbn [width]. rewrite LN, <- LF.
        assert (X : forall a k b u, substring (String.length a + k) u (a ++ b) = substring k u b) by (induction a; intros; cbn; auto).
        rewrite X. exact MW.
Qed.
Lemma round_trip : forall t data, NoDup (names t) -> all_good t -> fills t data -> exists s, encode_fields t data = Ok s /\ String.length s = width t /\ plain s /\
  (some_value t data -> ~ chars white s) /\
  forall rest data0, exists data1, decode t (s ++ rest) data0 = Ok data1 /\ (forall p, In p (names t) -> assoc p data1 = assoc p data) /\
    (forall p, ~ In p (names t) -> assoc p data1 = assoc p data0).
Proof.
  intros t data ND GD F. destruct (encode_fields_spec t data F) as [s [E [L [P [W M]]]]]. exists s. repeat split; auto.
  intros rest data0.
  assert (FX : fixed t) by (eapply Forall_impl; [|exact F]; intros [p d] [v [_ [n [LN [N _]]]]]; exists n; auto).
  assert (LE : (0 + width t <= String.length (s ++ rest))%nat) by (rewrite length_app_s; lia).
  assert (SUB : forall pre p d post n, t = (pre ++ (p, d) :: post)%list -> d_len d = Some n -> substring (width pre) n (s ++ rest) = substring (width pre) n s).
  { intros pre p d post n EQ LN. apply substring_app_l. rewrite L, EQ. clear - LN.
    induction pre as [|[p0 d0] pre IH]; cbn [app width]; [rewrite LN; lia|lia]. }
  destruct (decode_from_spec t 0 (s ++ rest) data0 ND FX GD LE) as [A [B _]]. cbn [plus] in A, B.
  destruct B as [data1 D].
  { intros pre p d post n EQ LN. rewrite (SUB pre p d post n EQ LN). destruct (M pre p d post n EQ LN) as [v [_ V]]. eauto. }
  exists data1. split; [exact D|]. destruct (A data1 D) as [A1 A2]. split; [|exact A2].
  intros p I. apply in_map_iff in I. destruct I as [[p' d] [<- I]]. cbn [fst]. apply in_split in I. destruct I as [pre [post EQ]].
  assert (FD : In (p', d) t) by (rewrite EQ; apply in_or_app; right; left; reflexivity).
  unfold fixed in FX. rewrite Forall_forall in FX. destruct (FX _ FD) as [n [LN _]]. cbn [snd] in LN.
  destruct (A1 pre p' d post n EQ LN) as [v [AV MV]]. destruct (M pre p' d post n EQ LN) as [w [AW MW]]. rewrite (SUB pre p' d post n EQ LN) in MV.
  rewrite AV, AW. f_equal. eapply means_unique; eassumption.
Qed.

(* ---------------------------------------------------------------- records *)

(** Attachments whose header has two digits for the length, other than 8 and 99. *)
Definition regular (tables : list (Z * (string * list (string * def)))) (a : Z) : Prop :=
  1 <= a <= 98 /\ a <> 8 /\ exists t, get_table tables a = Ok t /\ NoDup (names t) /\ all_good t /\ (0 < width t /\ width t + 4 <= 99)%nat.
Definition header (a : Z) (n : nat) : string := pad_left 2 (str_of_int a) ++ pad_left 2 (str_of_int (Z.of_nat n + 4)).

Lemma rstrip_app : forall x y, ~ chars white y -> rstrip (x ++ y) = x ++ rstrip y.
Proof.
  assert (N : forall y, ~ chars white y -> rstrip y <> "").
  { intros y H E. apply H. destruct (rstrip_by_split is_space y) as [b [F B]]. fold (rstrip y) in F. rewrite E in F. cbn in F. subst y.
    eapply chars_impl; [|exact B]. intros c C. apply is_space_white, C. }
  intros x y H. induction x as [|c x IH]; [reflexivity|]. unfold rstrip in *. cbn [append rstrip_by]. rewrite IH. destruct (x ++ rstrip_by is_space y) as [|c' r] eqn:E; [|reflexivity].
  destruct x; [|discriminate]. cbn in E. exfalso. exact (N y H E).
Qed.
Lemma rstrip_nonempty : forall y, ~ chars white y -> rstrip y <> "".
Proof.
  intros y H E. apply H. destruct (rstrip_by_split is_space y) as [b [F B]]. fold (rstrip y) in F. rewrite E in F. cbn in F. subst y.
  eapply chars_impl; [|exact B]. intros c C. apply is_space_white, C.
Qed.
Lemma rstrip_pad : forall y, plain y -> exists k, y = rstrip y ++ blanks k.
Proof.
  intros y P. destruct (rstrip_by_split is_space y) as [b [F B]]. fold (rstrip y) in F. exists (String.length b). rewrite F at 1. f_equal.
  assert (PB : plain b) by (rewrite F in P; apply chars_app in P; tauto). clear - B PB.
  induction b as [|c b IH]; [reflexivity|]. destruct B as [C B]. destruct PB as [D PB]. cbn. rewrite (D (proj1 (is_space_white c) C)). f_equal. apply IH; assumption.
Qed.
Lemma rstrip_last : forall y, rstrip_newline (rstrip y ++ String newline "") = rstrip y.
Proof.
  intro y. unfold rstrip_newline. rewrite rstrip_by_app by (split; [reflexivity|exact I]).
  assert (K : forall y, rstrip_by (Ascii.eqb newline) (rstrip_by is_space y) = rstrip_by is_space y).
  { induction y0 as [|c y0 IH]; [reflexivity|]. cbn [rstrip_by]. destruct (rstrip_by is_space y0) as [|c' r] eqn:E.
    - destruct (is_space c) eqn:S; [reflexivity|]. cbn [rstrip_by]. destruct (Ascii.eqb_spec newline c); [subst; discriminate S|reflexivity].
    - cbn [rstrip_by] in IH |- *. destruct (rstrip_by (Ascii.eqb newline) r) eqn:E2.
      + destruct (Ascii.eqb newline c') eqn:E3; [discriminate IH|]. injection IH as <-. reflexivity.
      + injection IH as <-. reflexivity. }
  apply K.
Qed.
Lemma header_length : forall a n, 1 <= a <= 98 -> (n + 4 <= 99)%nat -> String.length (header a n) = 4%nat.
Proof.
  intros a n A N. unfold header. rewrite length_app_s, !pad_left_length; [reflexivity| |]; apply str_of_int_length; cbn; lia.
Qed.
Lemma header_not_blank : forall a n, ~ chars white (header a n).
Proof.
  intros a n C. apply chars_app in C. destruct C as [C _]. pose proof (integer_text_pad 2 _ _ (str_of_int_text a)) as T.
  apply (integer_text_not_blank _ _ T). split; [|exact C]. intros E. rewrite E in T. destruct T as [x [sg [ds [b [k [F [_ [_ [D _]]]]]]]]].
  destruct (decimal_ends ds k D) as [[c [t [-> _]]] _]. destruct x; [|discriminate]. destruct sg; discriminate.
Qed.
Lemma header_parts : forall a n r, 1 <= a <= 98 -> (n + 4 <= 99)%nat ->
  int_of_str (substring 0 2 (header a n ++ r)) = Ok a /\ int_of_str (substring 2 2 (header a n ++ r)) = Ok (Z.of_nat n + 4) /\
  isspace (substring 2 2 (header a n ++ r)) = false /\ drop 4 (header a n ++ r) = r.
Proof.
  intros a n r A N. unfold header.
  assert (L1 : String.length (pad_left 2 (str_of_int a)) = 2%nat) by (apply pad_left_length, str_of_int_length; cbn; lia).
  assert (L2 : String.length (pad_left 2 (str_of_int (Z.of_nat n + 4))) = 2%nat) by (apply pad_left_length, str_of_int_length; cbn; lia).
  set (x := pad_left 2 (str_of_int a)) in *. set (y := pad_left 2 (str_of_int (Z.of_nat n + 4))) in *.
  assert (X : substring 0 2 ((x ++ y) ++ r) = x) by (rewrite app_assoc_s, <- L1; apply substring_0).
  assert (Y : substring 2 2 ((x ++ y) ++ r) = y) by (rewrite app_assoc_s; rewrite <- L1 at 1; rewrite <- L2; apply substring_mid).
  rewrite X, Y. repeat split.
  - apply int_of_str_complete. subst x. apply integer_text_pad, str_of_int_text.
  - apply int_of_str_complete. subst y. apply integer_text_pad, str_of_int_text.
  - apply isspace_false. eapply integer_text_not_blank. subst y. apply integer_text_pad, str_of_int_text.
  - replace 4%nat with (String.length (x ++ y)) by (rewrite length_app_s; lia). apply drop_app.
Qed.
Lemma drop_z_app : forall a b, drop_z (Z.of_nat (String.length a)) (a ++ b) = b.
Proof.
  intros a b. unfold drop_z, slice. rewrite length_app_s. destruct (Z.ltb_spec (Z.of_nat (String.length a)) 0); [lia|].
  destruct (Z.ltb_spec (Z.of_nat (String.length a + String.length b)) 0); [lia|].
  replace (Z.to_nat (Z.max 0 (Z.min (Z.of_nat (String.length a + String.length b)) (Z.of_nat (String.length a))))) with (String.length a) by lia.
  replace (Z.to_nat _) with (String.length b) by lia. rewrite substring_skip. apply substring_all.
Qed.

(** What the reader must find: the parameters of the attachments read so far as written. *)
Definition agree (tables : list (Z * (string * list (string * def)))) (atts : list Z) (data data' : list (string * value)) : Prop :=
  forall a t p, In a atts -> get_table tables a = Ok t -> In p (names t) -> assoc p data' = assoc p data.
Definition writable (tables : list (Z * (string * list (string * def)))) (data : list (string * value)) (a : Z) : Prop :=
  exists t, get_table tables a = Ok t /\ fills t data.

Definition pad_line (n : Z) (line : string) : string :=
  if (0 <? n) && (Z.of_nat (String.length line) <? n) then line ++ pad_left (Z.to_nat (n - Z.of_nat (String.length line))) " " else line.
Lemma read_loop_some : forall fuel tables line a t n r data, line <> "" -> n <> 0 -> get_table tables a = Ok t ->
  decode t (pad_line n line) (im_data r) = Ok data ->
  read_loop (S fuel) tables line a (Some n) r =
  let r := {| im_data := data; im_att := (im_att r ++ [a])%list |} in
  let line := drop_z n (pad_line n line) in
  match line with
  | EmptyString => Some (Ok r)
  | _ =>
      match int_of_str (substring 0 2 line) with
      | Err e => Some (Err e)
      | Ok att =>
      let l := if att =? 8 then "102" else substring 2 2 line in
      if isspace l then
        match get_table tables att with Err e => Some (Err e) | Ok _ => read_loop fuel tables line att None r end
      else
        match int_of_str l with
        | Err e => Some (Err e)
        | Ok n =>
        let (n, line) := if n =? 0 then (n, line) else (n - 4, drop 4 line) in
        match get_table tables att with Err e => Some (Err e) | Ok _ => read_loop fuel tables line att (Some n) r end
        end
      end
  end.
Proof.
  intros fuel tables line a t n r data NE N0 GT D. destruct line as [|c line]; [congruence|]. cbn [read_loop]. fold (pad_line n (String c line)). rewrite GT, D.
  destruct (Z.eqb_spec n 0); [contradiction|]. reflexivity.
Qed.

Lemma encode_all_spec : forall tables data rest, Forall (regular tables) rest -> Forall (writable tables data) rest ->
  (forall pre a t, rest = (pre ++ [a])%list -> get_table tables a = Ok t -> some_value t data) ->
  exists s, encode_all tables rest data = Ok s /\ (rest <> [] -> ~ chars white s) /\ (rest = [] -> s = "") /\
  forall a t body fuel r, get_table tables a = Ok t -> NoDup (names t) -> all_good t -> fills t data -> (0 < width t)%nat ->
    encode_fields t data = Ok body -> (rest = [] -> some_value t data) ->
    (String.length (rstrip (body ++ s)) < fuel)%nat -> agree tables (im_att r) data (im_data r) ->
    exists data', read_loop fuel tables (rstrip (body ++ s)) a (Some (Z.of_nat (width t))) r = Some (Ok {| im_data := data'; im_att := (im_att r ++ a :: rest)%list |}) /\
      agree tables (im_att r ++ a :: rest) data data'.
Proof.
  intros tables data.
  assert (AGR : forall a t (r : imma) data1, get_table tables a = Ok t -> agree tables (im_att r) data (im_data r) ->
    (forall p, In p (names t) -> assoc p data1 = assoc p data) -> (forall p, ~ In p (names t) -> assoc p data1 = assoc p (im_data r)) ->
    agree tables (im_att r ++ [a]) data data1).
  { intros a t r data1 GT AG A1 A2 b tb p IB GB IP. apply in_app_or in IB. destruct (in_dec String.string_dec p (names t)) as [I|NI]; [apply A1, I|].
    rewrite A2 by exact NI. destruct IB as [IB|[->|[]]]; [exact (AG b tb p IB GB IP)|]. exfalso. rewrite GT in GB. injection GB as <-. contradiction. }
  induction rest as [|a' rest IH]; intros RG WR SV.
  - exists "". split; [reflexivity|]. split; [congruence|]. split; [reflexivity|]. intros a t body fuel r GT ND GD FL W0 EB S FU AG. rewrite app_nil_r_s in *.
    destruct (round_trip t data ND GD FL) as [s [E [L [P [NB RT]]]]]. rewrite EB in E. injection E as <-.
    specialize (NB (S eq_refl)). pose proof (rstrip_nonempty body NB) as NE. destruct (rstrip_pad body P) as [k K].
    destruct fuel as [|fuel]; [lia|].
    assert (PAD : pad_line (Z.of_nat (width t)) (rstrip body) = body).
    { unfold pad_line. assert (LB : String.length body = (String.length (rstrip body) + k)%nat) by (rewrite K at 1; rewrite length_app_s, blanks_length; reflexivity).
      destruct (Z.ltb_spec 0 (Z.of_nat (width t))); [|lia]. cbn [andb]. destruct (Z.ltb_spec (Z.of_nat (String.length (rstrip body))) (Z.of_nat (width t))).
      - rewrite pad_left_blank by lia. rewrite K at 3. f_equal. f_equal. lia.
      - assert (k = 0)%nat by lia. subst k. cbn [blanks] in K. rewrite app_nil_r_s in K. congruence. }
    destruct (RT "" (im_data r)) as [data1 [D [A1 A2]]]. rewrite app_nil_r_s in D.
    rewrite (read_loop_some fuel tables (rstrip body) a t (Z.of_nat (width t)) r data1 NE ltac:(lia) GT) by (rewrite PAD; exact D).
    rewrite PAD. rewrite <- L. replace (drop_z (Z.of_nat (String.length body)) body) with "" by (rewrite <- (app_nil_r_s body) at 2; rewrite drop_z_app; reflexivity).
    exists data1. split; [reflexivity|]. eapply AGR; eassumption.
  - apply Forall_cons_iff in RG. destruct RG as [[RA [R8 [t' [GT' [ND' [GD' [W' WD']]]]]]] RG']. apply Forall_cons_iff in WR. destruct WR as [[t2 [GT2 FL']] WR']. rewrite GT' in GT2. injection GT2 as <-.
    destruct (IH RG' WR') as [s [E [NB [EN R]]]].
    { intros pre b tb EQ GB. apply (SV (a' :: pre)%list b tb); [cbn; congruence|exact GB]. }
    destruct (round_trip t' data ND' GD' FL') as [body' [EB' [L' [P' [NB' RT']]]]].
    assert (SB : ~ chars white (body' ++ s)).
    { intro C. apply chars_app in C. destruct C as [C1 C2]. destruct rest as [|b rest]; [|apply NB; [discriminate|exact C2]].
      apply NB'; [apply (SV [] a' t'); [reflexivity|exact GT']|exact C1]. }
    exists (header a' (width t') ++ body' ++ s). cbn [encode_all]. rewrite GT'. cbn [bind]. unfold encode. rewrite EB'. cbn [bind].
    destruct (Z.eqb_spec a' 0); [lia|]. destruct (Z.eqb_spec a' 99); [lia|]. rewrite E. cbn [bind]. split; [|split; [|split]].
    + unfold header. rewrite L'. rewrite !app_assoc_s. reflexivity.
    + intros _ C. apply chars_app in C. apply (header_not_blank a' (width t')), C.
    + discriminate.
    + intros a t body fuel r GT ND GD FL W0 EB _ FU AG.
      destruct (round_trip t data ND GD FL) as [b0 [EB0 [L [P [NBb RT]]]]]. rewrite EB in EB0. injection EB0 as <-.
      assert (RS : rstrip (body ++ header a' (width t') ++ body' ++ s) = body ++ header a' (width t') ++ rstrip (body' ++ s)).
      { rewrite rstrip_app by (intro C; apply chars_app in C; apply (header_not_blank a' (width t')), C). rewrite rstrip_app by exact SB. reflexivity. }
      rewrite RS in *. set (line' := rstrip (body' ++ s)) in *.
      assert (PAD : pad_line (Z.of_nat (width t)) (body ++ header a' (width t') ++ line') = body ++ header a' (width t') ++ line').
      { unfold pad_line. rewrite !length_app_s. destruct (Z.ltb_spec (Z.of_nat (String.length body + (String.length (header a' (width t')) + String.length line'))) (Z.of_nat (width t))); [lia|].
        rewrite andb_false_r. reflexivity. }
      destruct fuel as [|fuel]; [lia|]. destruct (RT (header a' (width t') ++ line') (im_data r)) as [data1 [D [A1 A2]]].
      rewrite (read_loop_some fuel tables _ a t (Z.of_nat (width t)) r data1); [|destruct body; [cbn in L; lia|discriminate]|lia|exact GT|rewrite PAD; exact D].
      cbv zeta. rewrite PAD, <- L, drop_z_app.
      destruct (header_parts a' (width t') line' RA WD') as [H1 [H2 [H3 H4]]].
      destruct (header a' (width t') ++ line') as [|c0 l0] eqn:HL.
      { exfalso. pose proof (header_length a' (width t') RA WD') as HH. destruct (header a' (width t')); [discriminate HH|discriminate HL]. }
      rewrite H1. destruct (Z.eqb_spec a' 8); [contradiction|]. rewrite H3, H2. destruct (Z.eqb_spec (Z.of_nat (width t') + 4) 0); [lia|]. rewrite H4, GT'.
      replace (Z.of_nat (width t') + 4 - 4) with (Z.of_nat (width t')) by lia.
      destruct (R a' t' body' fuel {| im_data := data1; im_att := (im_att r ++ [a])%list |} GT' ND' GD' FL' W' EB') as [data2 [RL AG2]].
      * intros ->. apply (SV [] a' t'); [reflexivity|exact GT'].
      * fold line'. rewrite length_app_s in FU. rewrite <- HL in FU. rewrite length_app_s, header_length in FU by assumption. lia.
      * cbn [im_att im_data]. eapply AGR; eassumption.
      * cbn [im_att im_data] in RL, AG2. rewrite <- app_assoc in RL, AG2. exists data2. split; [exact RL|exact AG2].
Qed.

Theorem record_round_trip : forall tables data rest t, get_table tables 0 = Ok t -> NoDup (names t) -> all_good t -> width t = 108%nat -> fills t data ->
  Forall (regular tables) rest -> Forall (writable tables data) rest ->
  (forall pre a ta, (0 :: rest)%list = (pre ++ [a])%list -> get_table tables a = Ok ta -> some_value ta data) ->
  exists text data', write tables {| im_data := data; im_att := (0 :: rest)%list |} = Ok text /\ readstr tables text new_imma = Some (Ok {| im_data := data'; im_att := (0 :: rest)%list |}) /\ agree tables (0 :: rest)%list data data'.
Proof.
  intros tables data rest t GT ND GD W FL RG WR SV. destruct (encode_all_spec tables data rest RG WR) as [s [E [NB [EN R]]]].
  { intros pre a ta EQ GA. apply (SV (0 :: pre)%list a ta); [cbn; congruence|exact GA]. }
  destruct (round_trip t data ND GD FL) as [body [EB [L [P [NBb RT]]]]].
  unfold write. cbn [im_att im_data encode_all]. rewrite GT. cbn [bind]. unfold encode. rewrite EB. cbn [bind]. change (0 =? 0) with true. cbn iota. rewrite E. cbn [bind].
  destruct (R 0 t body (S (String.length (rstrip (body ++ s)))) new_imma GT ND GD FL ltac:(lia) EB) as [data' [RL AG]].
  - intros ->. apply (SV [] 0 t); [reflexivity|exact GT].
  - lia.
  - intros a ta p [].
  - exists (rstrip (body ++ s) ++ String newline ""), data'. split; [reflexivity|]. unfold readstr. rewrite rstrip_last. rewrite W in RL. split; [exact RL|exact AG].
Qed.

(* ---------------------------------------------------------------- termination *)

Lemma drop_z_length : forall n s, (String.length (drop_z n s) <= String.length s)%nat.
Proof.
  assert (K : forall s a n, (String.length (substring a n s) <= String.length s)%nat).
  { induction s as [|c s IH]; intros [|a] [|n]; cbn; try lia; [specialize (IH 0%nat n)|specialize (IH a 0%nat)|specialize (IH a (S n))]; lia. }
  intros. apply K.
Qed.
Lemma drop_length : forall n s, String.length (drop n s) = (String.length s - n)%nat.
Proof.
  intros n s. unfold drop. destruct (Nat.le_gt_cases n (String.length s)); [apply substring_length; lia|].
  replace (String.length s - n)%nat with O by lia. clear. revert s. induction n as [|n IH]; intros [|c s]; cbn; auto.
Qed.
Lemma drop_z_padded : forall n line, 0 < n -> Z.of_nat (String.length line) < n -> drop_z n (pad_line n line) = "".
Proof.
  intros n line N L. unfold pad_line. destruct (Z.ltb_spec 0 n); [|lia]. destruct (Z.ltb_spec (Z.of_nat (String.length line)) n); [|lia]. cbn [andb].
  set (x := pad_left _ _). assert (LX : String.length x = (Z.to_nat (n - Z.of_nat (String.length line)))) by (apply pad_left_length; cbn [String.length]; lia).
  replace n with (Z.of_nat (String.length (line ++ x))) by (rewrite length_app_s, LX; lia). rewrite <- (app_nil_r_s (line ++ x)) at 2. apply drop_z_app.
Qed.
Lemma read_ends : forall fuel tables line a len r, (String.length line < fuel)%nat \/ ((0 < fuel)%nat /\ (len = None \/ len = Some 0)) ->
  read_loop fuel tables line a len r <> None.
Proof.
  induction fuel as [|fuel IH]; intros tables line a len r H; [lia|]. destruct line as [|c line]; [discriminate|].
  assert (X : forall n, (String.length (drop_z n (pad_line n (String c line))) <= String.length (String c line))%nat).
  { intro n. destruct (Z.ltb_spec 0 n); [destruct (Z.ltb_spec (Z.of_nat (String.length (String c line))) n)|].
    - rewrite drop_z_padded by assumption. cbn; lia.
    - unfold pad_line. rewrite (proj2 (Z.ltb_ge _ _) H1), andb_false_r. apply drop_z_length.
    - unfold pad_line. rewrite (proj2 (Z.ltb_ge _ _) H0). apply drop_z_length. }
  cbn [read_loop]. destruct len as [n|].
  - fold (pad_line n (String c line)). destruct (get_table tables a) as [t|e]; [|discriminate]. destruct (decode t _ (im_data r)) as [data|e]; [|discriminate].
    destruct (Z.eqb_spec n 0) as [->|N0]; [discriminate|]. specialize (X n). remember (drop_z n (pad_line n (String c line))) as l' eqn:EL. destruct l' as [|c' l']; [discriminate|].
    destruct (int_of_str (substring 0 2 (String c' l'))) as [a'|e]; [|discriminate].
    assert (F : (String.length (String c line) <= fuel)%nat) by (destruct H as [H|[_ [H|H]]]; [lia|congruence|congruence]).
    destruct (isspace _); [destruct (get_table tables a'); [|discriminate]; apply IH; right; split; [cbn in X, F; lia|left; reflexivity]|].
    destruct (int_of_str _) as [m|e]; [|discriminate]. destruct (Z.eqb_spec m 0) as [->|M]; (destruct (get_table tables a'); [|discriminate]); apply IH.
    + right. split; [cbn in X, F; lia|right; reflexivity].
    + left. rewrite drop_length. cbn [String.length] in *. lia.
  - destruct (get_table tables a) as [t|e]; [|discriminate]. destruct (decode t _ (im_data r)) as [data|e]; discriminate.
Qed.
