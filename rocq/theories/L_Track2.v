(** Track check: list helpers, the two flags, alternate speeds. *)
Require Import String ZArith QArith Qround List Bool Lia Lqa.
Require Import Verif.M_Base Verif.L_Base Verif.S_Calendar Verif.M_Report Verif.S_Report Verif.L_Report Verif.L_Report3 Verif.M_Voyage Verif.S_Voyage Verif.L_Voyage Verif.L_Voyage2 Verif.L_Voyage4 Verif.L_Voyage6 Verif.M_Track Verif.S_Track.
Import ListNotations.
Open Scope string_scope.
Open Scope list_scope.
Open Scope Z_scope.

Lemma mapM_ok : forall A B (f : A -> res B) l, (forall x, In x l -> exists y, f x = Ok y) ->
  exists ys, mapM f l = Ok ys /\ length ys = length l /\ forall i x, nth_error l i = Some x -> exists y, nth_error ys i = Some y /\ f x = Ok y.
Proof.
  intros A B f. induction l as [|a l IH]; intro H; cbn [mapM].
  - exists []. split; auto. split; auto. intros i x Hi. destruct i; discriminate.
  - destruct (H a (or_introl eq_refl)) as [y E]. rewrite E. cbn [bind].
    destruct IH as [ys [E' [L N]]]; [intros x Hx; apply H; now right|]. rewrite E'. cbn [bind].
    exists (y :: ys). split; auto. split; [simpl; lia|]. intros i x Hi. destruct i; cbn [nth_error] in *.
    + injection Hi as <-. eauto.
    + auto.
Qed.
Lemma mapM_app : forall A B (f : A -> res B) l l' ys ys', mapM f l = Ok ys -> mapM f l' = Ok ys' -> mapM f (l ++ l') = Ok (ys ++ ys').
Proof.
  intros A B f. induction l as [|a l IH]; intros l' ys ys' H H'; cbn [mapM app] in *.
  - injection H as <-. exact H'.
  - apply bind_Ok in H. destruct H as [y [E H]]. apply bind_Ok in H. destruct H as [zs [E' H]]. injection H as <-.
    rewrite E. cbn [bind]. rewrite (IH l' zs ys' E' H'). reflexivity.
Qed.
Lemma mapM_rev : forall A B (f : A -> res B) l ys, mapM f l = Ok ys -> mapM f (rev l) = Ok (rev ys).
Proof.
  intros A B f. induction l as [|a l IH]; intros ys H; cbn [mapM rev] in *.
  - injection H as <-. reflexivity.
  - apply bind_Ok in H. destruct H as [y [E H]]. apply bind_Ok in H. destruct H as [zs [E' H]]. injection H as <-. cbn [rev].
    apply mapM_app; [auto|]. cbn [mapM]. rewrite E. reflexivity.
Qed.
Lemma nth_error_seq : forall a k i, (i < k)%nat -> nth_error (seq a k) i = Some (a + i)%nat.
Proof.
  intros a k i. revert a i. induction k; intros a i H; [lia|]. destruct i; cbn [seq nth_error]; [f_equal; lia|]. rewrite IHk by lia. f_equal. lia.
Qed.
Lemma py_nth_error : forall A (l : list A) i x, nth_error l i = Some x -> py_nth l (Z.of_nat i) = Ok x.
Proof.
  intros A l i x H. unfold py_nth. assert (L : (i < length l)%nat) by (apply nth_error_Some; congruence).
  destruct (Z.ltb_spec (Z.of_nat i) 0); [lia|]. destruct (Z.leb_spec (Z.of_nat (length l)) (Z.of_nat i)); [lia|].
  simpl. destruct (Z.ltb_spec (Z.of_nat i) 0); [lia|]. simpl. now rewrite Nat2Z.id, H.
Qed.
Lemma vget_nth : forall v i r, nth_error v i = Some r -> vget v i = Ok r.
Proof. intros v i r H. unfold vget. now rewrite H. Qed.

(* ---- ext fields ---- *)

(** r' is r but for the ext fields named. *)
Definition ext_same (names : list string) (r r' : report) : Prop :=
  r_id r' = r_id r /\ r_uid r' = r_uid r /\ r_data r' = r_data r /\ r_dt r' = r_dt r /\ r_clim r' = r_clim r /\ r_qc r' = r_qc r /\
  forall n, ~ In n names -> assoc n (r_ext r') = assoc n (r_ext r).
Lemma ext_same_getvar : forall names r r' n, ext_same names r r' -> ~ In n names -> getvar r' n = getvar r n.
Proof. intros names r r' n [_ [_ [D [_ [_ [_ E]]]]]] H. unfold getvar. now rewrite D, (E n H). Qed.
Lemma ext_same_getext : forall names r r' n, ext_same names r r' -> ~ In n names -> getext r' n = getext r n.
Proof. intros names r r' n [_ [_ [_ [_ [_ [_ E]]]]]] H. unfold getext. now rewrite (E n H). Qed.
Lemma ext_same_data : forall names r r' n, ext_same names r r' -> In n VARLIST -> getvar r' n = getvar r n.
Proof.
  intros names r r' n [_ [_ [D _]]] H. unfold getvar. destruct (index_of_In n VARLIST H) as [i [E _]]. now rewrite E, D.
Qed.
Lemma ext_same_refl : forall names r, ext_same names r r.
Proof. intros. unfold ext_same. intuition. Qed.
Lemma ext_same_trans : forall names a b c, ext_same names a b -> ext_same names b c -> ext_same names a c.
Proof.
  intros names a b c [A1 [A2 [A3 [A4 [A5 [A6 A7]]]]]] [B1 [B2 [B3 [B4 [B5 [B6 B7]]]]]]. unfold ext_same.
  do 6 (split; [congruence|]). intros n H. rewrite B7, A7; auto.
Qed.
Lemma setext_ext : forall names r n v, In n names -> ext_same names r (setext r n v).
Proof.
  intros names r n v H. unfold ext_same. do 6 (split; [reflexivity|]). intros m Hm. simpl.
  destruct (String.eqb_spec m n); [subst; contradiction|reflexivity].
Qed.
Lemma set_alt_ext : forall r m, ext_same alt_names r (set_alt r m).
Proof.
  intros r m. destruct m as [[[[s d] c] t]|]; unfold set_alt; repeat (eapply ext_same_trans; [|apply setext_ext; unfold alt_names; simpl; tauto]); apply ext_same_refl.
Qed.
Lemma set_motion_ext : forall r m, ext_same motion_names r (set_motion r m).
Proof.
  intros r m. destruct m as [[[[s d] c] t]|]; unfold set_motion; repeat (eapply ext_same_trans; [|apply setext_ext; unfold motion_names; simpl; tauto]); apply ext_same_refl.
Qed.
Lemma set_alt_some : forall r s d c t, getvar (set_alt r (Some (s, d, c, t))) "alt_speed" = Some s.
Proof. intros. unfold set_alt. repeat (rewrite setext_other by discriminate). apply setext_same. apply notvar. simpl. tauto. Qed.
Lemma set_alt_none : forall r, getvar (set_alt r None) "alt_speed" = None.
Proof. intros. unfold set_alt. repeat (rewrite setext_other by discriminate). apply setext_same. apply notvar. simpl. tauto. Qed.

Lemma ext_same_located : forall names r r' la lo d h, ext_same names r r' -> located r la lo d h -> located r' la lo d h.
Proof.
  intros names r r' la lo d h K [A1 A2 A3 A4 A5 A6 A7 A8].
  assert (G : forall n, In n VARLIST -> getvar r' n = getvar r n) by (intros; eapply ext_same_data; eauto).
  constructor; auto; unfold lat, lon, getint in *; rewrite G by (simpl; tauto); assumption.
Qed.
Lemma ext_same_sub : forall names sp a a' b b', ext_same names a a' -> ext_same names b b' -> rep_sub sp a' b' = rep_sub sp a b.
Proof.
  intros names sp a a' b b' A B. unfold rep_sub, rep_timediff, lat, lon, getint.
  assert (G : forall n, In n VARLIST -> getvar a' n = getvar a n) by (intros; eapply ext_same_data; eauto).
  assert (H : forall n, In n VARLIST -> getvar b' n = getvar b n) by (intros; eapply ext_same_data; eauto).
  rewrite !G, !H by (simpl; tauto). reflexivity.
Qed.

(* ---- speeds ---- *)

Lemma elapsed_compat : forall d h d' h' t t', (t == t')%Q -> elapsed d h d' h' t -> elapsed d h d' h' t'.
Proof. intros d h d' h' t t' E [[n [D K]]|[n [D K]]]; [left|right]; exists n; (split; [exact D|]); now rewrite <- E. Qed.

Lemma speed_fun : forall dist a b s s', speed_from dist a b s -> speed_from dist a b s' -> (s == s')%Q.
Proof.
  intros dist a b s s' [la [lo [d [h [la' [lo' [d' [h' [t [A [B [E K]]]]]]]]]]]] [ma [mo [e [k [ma' [mo' [e' [k' [t' [A' [B' [E' K']]]]]]]]]]]].
  destruct (located_inj _ _ _ _ _ _ _ _ _ A A') as [-> [-> [-> ->]]], (located_inj _ _ _ _ _ _ _ _ _ B B') as [-> [-> [-> ->]]].
  assert (T : (t == t')%Q) by (apply (elapsed_fun e k e' k'); auto; [apply A|apply B]).
  destruct K as [[K1 K2]|[K1 K2]], K' as [[L1 L2]|[L1 L2]].
  - now rewrite K2, L2.
  - rewrite T in K1. contradiction.
  - rewrite T in K1. contradiction.
  - rewrite K2, L2, T. reflexivity.
Qed.
Lemma speed_faster : forall dist a b s limit, speed_from dist a b s -> ((limit < s)%Q <-> faster dist a b limit).
Proof.
  intros dist a b s limit H. split.
  - intro L. exists s. auto.
  - intros [s' [H' L]]. rewrite (speed_fun dist a b s s' H H'). exact L.
Qed.
Lemma sub_speed : forall sp a b la lo d h la' lo' d' h', located a la lo d h -> located b la' lo' d' h' ->
  exists s di c t, rep_sub sp b a = Ok (s, di, c, t) /\ speed_from (sp_dist sp) a b s.
Proof.
  intros sp a b la lo d h la' lo' d' h' A B. destruct (rep_sub_located sp a b la lo d h la' lo' d' h' A B) as [t [c [s [E [El [C K]]]]]].
  do 4 eexists. split; [exact E|]. exists la, lo, d, h, la', lo', d', h', t. do 3 (split; [assumption|]).
  destruct K as [[K1 K2]|[K1 K2]]; subst; [left|right]; (split; [assumption|reflexivity]).
Qed.

Section Alt.
Variables (sp : sphere) (v0 : list report).
Hypothesis Hloc : Forall is_located v0.

(** State of the voyage after the first k steps of calc_alternate_speeds. *)
Definition alt_state (k : nat) (v : list report) : Prop :=
  length v = length v0 /\ forall i r0, nth_error v0 i = Some r0 -> exists r, nth_error v i = Some r /\ ext_same alt_names r0 r /\
    ((1 <= i < k)%nat -> exists a c s, nth_error v0 (i - 1) = Some a /\ nth_error v0 (i + 1) = Some c /\ getvar r "alt_speed" = Some s /\ speed_from (sp_dist sp) a c s) /\
    (~ (1 <= i < k)%nat -> getvar r "alt_speed" = None).

Lemma alt_loop_ok : forall m k v, (k + m + 1 = length v0)%nat -> (1 <= k)%nat -> alt_state k v ->
  exists v', alt_loop sp (seq k m) v = Ok v' /\ alt_state (k + m) v'.
Proof.
  induction m as [|m IH]; intros k v Hk K1 St; cbn [seq alt_loop].
  - exists v. rewrite Nat.add_0_r. auto.
  - destruct St as [L St].
    assert (N : forall i, (i < length v0)%nat -> exists r0, nth_error v0 i = Some r0).
    { intros i Hi. destruct (nth_error v0 i) eqn:E; eauto. apply nth_error_None in E. lia. }
    destruct (N (k + 1)%nat) as [c0 C0]; [lia|]. destruct (N (k - 1)%nat) as [a0 A0]; [lia|]. destruct (N k) as [b0 B0]; [lia|].
    destruct (St _ _ C0) as [c1 [C1 [CE _]]], (St _ _ A0) as [a1 [A1 [AE _]]], (St _ _ B0) as [b1 [B1 [BE _]]].
    rewrite (vget_nth _ _ _ C1), (vget_nth _ _ _ A1). cbn [bind]. rewrite (ext_same_sub _ sp _ _ _ _ CE AE).
    pose proof (proj1 (Forall_forall _ _) Hloc a0 (nth_error_In _ _ A0)) as [la [lo [d [h LA]]]].
    pose proof (proj1 (Forall_forall _ _) Hloc c0 (nth_error_In _ _ C0)) as [la' [lo' [d' [h' LC]]]].
    destruct (sub_speed sp a0 c0 _ _ _ _ _ _ _ _ LA LC) as [s [di [co [t [E S0]]]]]. rewrite E. cbn [bind].
    rewrite (vget_nth _ _ _ B1). cbn [bind].
    destruct (IH (S k) (update_nth k (set_alt b1 (Some (s, di, co, t))) v)) as [v' [E' St']]; [lia|lia| |].
    + split; [now rewrite update_length|]. intros i r0 Hi. destruct (St i r0 Hi) as [r [R1 [R2 [R3 R4]]]].
      destruct (Nat.eq_dec k i) as [<-|D].
      * rewrite B1 in R1. injection R1 as <-. exists (set_alt b1 (Some (s, di, co, t))). rewrite nth_error_update_same by lia. split; auto.
        split; [eapply ext_same_trans; [exact R2|apply set_alt_ext]|]. split; [|intro; lia].
        intros _. exists a0, c0, s. split; [exact A0|]. split; [exact C0|]. split; [apply set_alt_some|exact S0].
      * exists r. rewrite nth_error_update_other by auto. split; auto. split; auto. split; [intro; apply R3; lia|intro; apply R4; lia].
    + exists v'. split; [exact E'|]. now replace (k + S m)%nat with (S k + m)%nat by lia.
Qed.

Lemma calc_alt_ok : (2 <= length v0)%nat -> exists v', calc_alternate_speeds sp v0 = Ok v' /\ alt_state (length v0 - 1) v'.
Proof.
  intro L. unfold calc_alternate_speeds.
  destruct (alt_loop_ok (length v0 - 2) 1 (map (fun r => set_alt r None) v0)) as [v' [E St]]; [lia|lia| |].
  - split; [apply map_length|]. intros i r0 Hi. exists (set_alt r0 None). rewrite nth_error_map, Hi. split; [reflexivity|].
    split; [apply set_alt_ext|]. split; [lia|]. intros _. apply set_alt_none.
  - exists v'. split; [exact E|]. now replace (length v0 - 1)%nat with (1 + (length v0 - 2))%nat by lia.
Qed.
End Alt.

(* ---- two flags ---- *)

Definition same2 (trk few : string) (r r' : report) : Prop :=
  r_id r' = r_id r /\ r_uid r' = r_uid r /\ r_data r' = r_data r /\ r_dt r' = r_dt r /\ r_clim r' = r_clim r /\ r_ext r' = r_ext r /\
  forall t f, ~ same_key "POS" trk t f -> ~ same_key "POS" few t f -> get_qc r' t f = get_qc r t f.
Lemma same2_refl : forall trk few r, same2 trk few r r.
Proof. intros. unfold same2. intuition. Qed.
Lemma same2_getvar : forall trk few r r' n, same2 trk few r r' -> getvar r' n = getvar r n.
Proof. intros trk few r r' n [_ [_ [A [_ [_ [B _]]]]]]. now apply getvar_data. Qed.
Lemma same2_unch : forall trk few f a b c, f = trk \/ f = few -> same2 trk few a b -> unchanged_but "POS" f b c -> same2 trk few a c.
Proof.
  intros trk few f a b c Hf [A1 [A2 [A3 [A4 [A5 [A6 A7]]]]]] [B1 [B2 [B3 [B4 [B5 [B6 B7]]]]]]. unfold same2.
  do 6 (split; [congruence|]). intros t g H1 H2. rewrite B7, A7; auto. destruct Hf; subst; assumption.
Qed.

Definition writes2 (trk few : string) (g h : nat -> option Z) (v1 v : list report) : Prop :=
  length v = length v1 /\ forall i r0, nth_error v1 i = Some r0 -> exists r, nth_error v i = Some r /\ same2 trk few r0 r /\
    get_qc r "POS" trk = match g i with Some x => x | None => get_qc r0 "POS" trk end /\
    get_qc r "POS" few = match h i with Some x => x | None => get_qc r0 "POS" few end.
Definition upd (g : nat -> option Z) (i : nat) (x : Z) : nat -> option Z := fun j => if Nat.eqb j i then Some x else g j.

Lemma writes2_refl : forall trk few v, writes2 trk few (fun _ => None) (fun _ => None) v v.
Proof. intros. split; auto. intros i r0 H. exists r0. split; auto. split; auto using same2_refl. Qed.

Lemma vset_trk : forall trk few g h v1 v i x, ~ same_key "POS" trk "POS" few -> writes2 trk few g h v1 v -> (i < length v1)%nat -> 0 <= x <= 9 ->
  exists v', vset v i "POS" trk x = Ok v' /\ writes2 trk few (upd g i x) h v1 v'.
Proof.
  intros trk few g h v1 v i x NK [L H] Hi Hx. unfold vset.
  destruct (nth_error v i) as [r|] eqn:E; [|apply nth_error_None in E; lia].
  destruct (set_qc_spec r "POS" trk x) as [[_ K]|[N _]]; [|exfalso; apply N; split; [exact Hx|now left]].
  destruct (set_qc r "POS" trk x) as [r'|] eqn:S; [|discriminate]. cbn [bind]. eexists. split; [reflexivity|].
  split; [now rewrite update_length|]. intros j r0 Hj. destruct (H j r0 Hj) as [r1 [H1 [H2 [H3 H4]]]]. unfold upd.
  destruct (Nat.eqb_spec j i) as [->|N].
  - rewrite E in H1. injection H1 as <-. exists r'. rewrite nth_error_update_same by lia. split; auto.
    split; [eapply same2_unch; [left; reflexivity|exact H2|eapply set_qc_unch; eauto]|]. split; [eapply set_get_same; eauto|].
    rewrite <- H4. eapply set_get_other; eauto.
  - exists r1. rewrite nth_error_update_other by congruence. auto.
Qed.
Lemma vset_few : forall trk few g h v1 v i x, ~ same_key "POS" trk "POS" few -> writes2 trk few g h v1 v -> (i < length v1)%nat -> 0 <= x <= 9 ->
  exists v', vset v i "POS" few x = Ok v' /\ writes2 trk few g (upd h i x) v1 v'.
Proof.
  intros trk few g h v1 v i x NK [L H] Hi Hx. unfold vset.
  destruct (nth_error v i) as [r|] eqn:E; [|apply nth_error_None in E; lia].
  destruct (set_qc_spec r "POS" few x) as [[_ K]|[N _]]; [|exfalso; apply N; split; [exact Hx|now left]].
  destruct (set_qc r "POS" few x) as [r'|] eqn:S; [|discriminate]. cbn [bind]. eexists. split; [reflexivity|].
  split; [now rewrite update_length|]. intros j r0 Hj. destruct (H j r0 Hj) as [r1 [H1 [H2 [H3 H4]]]]. unfold upd.
  destruct (Nat.eqb_spec j i) as [->|N].
  - rewrite E in H1. injection H1 as <-. exists r'. rewrite nth_error_update_same by lia. split; auto.
    split; [eapply same2_unch; [right; reflexivity|exact H2|eapply set_qc_unch; eauto]|]. split; [|eapply set_get_same; eauto].
    rewrite <- H3. eapply set_get_other; eauto. intro Q0. apply NK. unfold same_key in *. congruence.
  - exists r1. rewrite nth_error_update_other by congruence. auto.
Qed.

Lemma set_both_ok : forall trk few x y, ~ same_key "POS" trk "POS" few -> 0 <= x <= 9 -> 0 <= y <= 9 ->
  forall todo g h v1 v, writes2 trk few g h v1 v -> (forall i, In i todo -> (i < length v1)%nat) ->
  exists v', set_both trk few x y todo v = Ok v' /\
    writes2 trk few (fun i => if memn i todo then Some x else g i) (fun i => if memn i todo then Some y else h i) v1 v'.
Proof.
  intros trk few x y NK Hx Hy. induction todo as [|i todo IH]; intros g h v1 v W R; cbn [set_both].
  - exists v. split; auto.
  - destruct (vset_trk trk few g h v1 v i x NK W) as [v2 [E2 W2]]; [apply R; now left|assumption|]. rewrite E2. cbn [bind].
    destruct (vset_few trk few _ h v1 v2 i y NK W2) as [v3 [E3 W3]]; [apply R; now left|assumption|]. rewrite E3. cbn [bind].
    destruct (IH _ _ v1 v3 W3) as [v' [E' [L' W']]]; [intros j Hj; apply R; now right|]. exists v'. split; [exact E'|].
    split; [exact L'|]. intros j r0 Hj. destruct (W' j r0 Hj) as [r [A [B [C D]]]]. exists r. split; auto. split; auto.
    unfold upd in *. change (memn j (i :: todo)) with (Nat.eqb j i || memn j todo)%bool.
    destruct (memn j todo), (Nat.eqb j i); simpl; auto.
Qed.
