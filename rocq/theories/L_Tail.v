(** Lemmas about the tail check: flags, comparisons and windows. *)
Require Import String ZArith QArith Qround List Bool Lia Lqa Permutation Sorting.Sorted.
Require Import Verif.M_Base Verif.L_Base Verif.S_Calendar Verif.S_Stats Verif.L_Stats Verif.L_Stats2 Verif.M_Stats Verif.M_Sun Verif.S_Sun Verif.L_Sun Verif.M_Report Verif.S_Report Verif.L_Report
  Verif.M_Voyage Verif.S_Voyage Verif.L_Voyage Verif.S_Track Verif.L_Track5 Verif.M_Drifter Verif.S_Drifter Verif.S_Tail Verif.S_Tail2.
Import ListNotations.
Open Scope string_scope.
Open Scope list_scope.
Open Scope Z_scope.

(* ---- several flags ---- *)
Definition distinct_keys (t : string) (fs : list string) : Prop := forall f g, In f fs -> In g fs -> same_key t f t g -> f = g.
Definition holds (t : string) (fs : list string) (g : string -> nat -> Z) (v0 v : list report) : Prop :=
  length v = length v0 /\
  forall i r0, nth_error v0 i = Some r0 -> exists r, nth_error v i = Some r /\ unchanged_flags t fs r0 r /\ forall f, In f fs -> get_qc r t f = g f i.
Lemma unchf_refl : forall t fs r, unchanged_flags t fs r r.
Proof. intros. unfold unchanged_flags. intuition. Qed.
Lemma set_unchf : forall t fs f x r0 r r', In f fs -> unchanged_flags t fs r0 r -> set_qc r t f x = Ok r' -> unchanged_flags t fs r0 r'.
Proof.
  intros t fs f x r0 r r' I [A1 [A2 [A3 [A4 [A5 [A6 A7]]]]]] E. destruct (set_qc_unch _ _ _ _ _ E) as [B1 [B2 [B3 [B4 [B5 [B6 B7]]]]]].
  unfold unchanged_flags. do 6 (split; [congruence|]). intros t' f' H. rewrite B7; auto.
Qed.
Lemma holds_flags : forall t (fl : list (string * (nat -> Prop))) g v0 v, holds t (map fst fl) g v0 v ->
  (forall f bad, In (f, bad) fl -> forall i, (i < length v0)%nat -> (g f i = 1 /\ bad i) \/ (g f i = 0 /\ ~ bad i)) -> flags_are t fl v0 v.
Proof.
  intros t fl g v0 v [L H] G. split.
  - apply L_Track5.Forall2_of_nth; [exact L|]. intros i a Ha. destruct (H i a Ha) as [r [E [U _]]]. eauto.
  - intros f bad I i r' E. destruct (nth_error v0 i) as [r0|] eqn:E0; [|apply nth_error_None in E0; assert (nth_error v i <> None) by congruence; apply nth_error_Some in H0; lia].
    destruct (H i r0 E0) as [r [E1 [_ V]]]. rewrite E in E1. injection E1 as <-. rewrite (V f (in_map fst _ _ I)). apply (G f bad I). apply nth_error_Some. congruence.
Qed.
(** One flag written where a test holds, by position. *)
Fixpoint flag_some (t f : string) (x : Z) (test : nat -> bool) (i : nat) (v : list report) : res (list report) :=
  match v with
  | [] => Ok []
  | r :: v' => let! r := (if test i then set_qc r t f x else Ok r) in let! v' := flag_some t f x test (S i) v' in Ok (r :: v')
  end.
Lemma flag_where_some : forall test f v i, flag_where test f i v = flag_some "SST" f 1 test i v.
Proof. intros test f. induction v as [|r v IH]; intro i; cbn [flag_where flag_some]; [reflexivity|]. rewrite IH. reflexivity. Qed.
Lemma set_all_some : forall t f x v i, set_qc_all v t f x = flag_some t f x (fun _ => true) i v.
Proof. intros t f x. induction v as [|r v IH]; intro i; cbn [set_qc_all flag_some]; [reflexivity|]. rewrite <- (IH (S i)). reflexivity. Qed.
Lemma flag_some_ok : forall t f x test v i, accepted (t, f, x) -> exists v', flag_some t f x test i v = Ok v' /\ length v' = length v /\
  forall k r, nth_error v k = Some r -> exists r', nth_error v' k = Some r' /\ (if test (i + k)%nat then set_qc r t f x else Ok r) = Ok r'.
Proof.
  intros t f x test. induction v as [|r v IH]; intros i A; cbn [flag_some].
  - exists []. split; [reflexivity|]. split; [reflexivity|]. intros k r H. destruct k; discriminate.
  - destruct (IH (S i) A) as [v' [E [L H]]].
    assert (X : exists r', (if test i then set_qc r t f x else Ok r) = Ok r') by (destruct (test i); [|eauto]; destruct (set_qc_spec r t f x) as [[_ K]|[K _]]; [rewrite K; eauto|contradiction]).
    destruct X as [r' X]. rewrite X. cbn [bind]. rewrite E. cbn [bind]. exists (r' :: v'). split; [reflexivity|]. split; [cbn [length]; lia|].
    intros [|k] q Q; cbn [nth_error] in *; [injection Q as <-; rewrite Nat.add_0_r; eauto|]. replace (i + S k)%nat with (S i + k)%nat by lia. auto.
Qed.
Lemma flag_holds : forall t fs f x test g v0 v, holds t fs g v0 v -> In f fs -> distinct_keys t fs -> accepted (t, f, x) ->
  exists v', flag_some t f x test 0 v = Ok v' /\ holds t fs (fun f' i => if (f' =? f)%string then (if test i then x else g f i) else g f' i) v0 v'.
Proof.
  intros t fs f x test g v0 v [L H] I D A. destruct (flag_some_ok t f x test v 0 A) as [v' [E [L' H']]]. exists v'. split; [exact E|]. split; [congruence|].
  intros i r0 E0. destruct (H i r0 E0) as [r [E1 [U V]]]. destruct (H' i r E1) as [r' [E2 X]]. cbn [Nat.add] in X. exists r'. split; [exact E2|].
  destruct (test i).
  - split; [eapply set_unchf; eauto|]. intros f' I'. destruct (String.eqb_spec f' f) as [->|N]; [exact (set_get_same _ _ _ _ _ X)|].
    rewrite (set_get_other _ _ _ _ _ t f' X); [now apply V|]. intro K. apply N. symmetry. exact (D f f' I I' K).
  - injection X as <-. split; [exact U|]. intros f' I'. destruct (String.eqb_spec f' f) as [->|N]; now apply V.
Qed.
(** Starting point: nothing written yet. *)
Definition current (t : string) (v : list report) (f : string) (i : nat) : Z := match nth_error v i with Some r => get_qc r t f | None => 0 end.
Lemma holds_start : forall t fs v, holds t fs (current t v) v v.
Proof. intros t fs v. split; [reflexivity|]. intros i r0 E. exists r0. split; [exact E|]. split; [apply unchf_refl|]. intros f _. unfold current. now rewrite E. Qed.

(* ---- comparisons ---- *)
Section Compare.
Variable elev : Z -> Z -> Q -> Q -> Q -> Q -> Q.
Hypothesis He : elevation_like elev.

Lemma at_pos_uniq : forall r la lo la' lo', at_pos r la lo -> at_pos r la' lo' -> la = la' /\ lo = lo'.
Proof. intros r la lo la' lo' [A B] [C D]. rewrite A in C. rewrite B in D. injection C as ->. injection D as ->. auto. Qed.

Lemma day_test_dark : forall r la lo d h, getint r "YR" = Some (yr d) -> getint r "MO" = Some (mo d) -> getint r "DY" = Some (dy d) -> getvar r "HR" = Some h ->
  valid d -> hour_ok h -> at_pos r la lo -> (-90 <= la <= 90)%Q ->
  exists b, track_day_test elev (getint r "YR") (getint r "MO") (getint r "DY") (getvar r "HR") (getvar r "LAT") (getvar r "LON") (- (5 # 2))%Q = Ok b /\ (b = false <-> dark elev r).
Proof.
  intros r la lo d h Y M D Hh V Hok [P1 P2] R. destruct (dayinyear_ok d V) as [k [_ [K _]]].
  destruct (track_day_ok elev He d h la lo k (off_zero la) (off_zero lo) (- (5 # 2)) V Hok R K (off_zero_aside la) (off_zero_aside lo)) as [b [E Hb]].
  exists b. rewrite Y, M, D, Hh, P1, P2. split; [exact E|]. split.
  - intros ->. exists (elev (yr d) k (inject_Z (Qfloor h)) ((h - inject_Z (Qfloor h)) * 60) (off_zero la) (off_zero lo)). split.
    + exists d, h, k, la, lo, (off_zero la), (off_zero lo). split; [exact Y|]. split; [exact M|]. split; [exact D|]. split; [exact Hh|]. split; [split; assumption|]. split; [exact K|].
      split; [apply off_zero_aside|]. split; [apply off_zero_aside|reflexivity].
    + apply Qnot_lt_le. intro L. apply Hb in L. discriminate.
  - intros [e [[d' [h' [k' [la1 [lo1 [la2 [lo2 [Y' [M' [D' [H' [P' [K' [A1 [A2 E']]]]]]]]]]]]]]] L]].
    assert (d' = d) by (rewrite Y in Y'; rewrite M in M'; rewrite D in D'; destruct d, d'; cbn in Y', M', D'; congruence). subst d'.
    rewrite Hh in H'. injection H' as <-. destruct (at_pos_uniq _ _ _ _ _ P' (conj P1 P2)) as [-> ->]. rewrite (day_number_fun d k' k K' K) in E'.
    destruct b; [|reflexivity]. exfalso. pose proof (proj1 Hb eq_refl) as Q.
    rewrite E' in L. rewrite (proj1 He (yr d) k _ _ _ _ la2 (off_zero la) lo2 (off_zero lo) (Qeq_refl _) (Qeq_refl _) (aside_fun _ _ _ A1 (off_zero_aside la)) (aside_fun _ _ _ A2 (off_zero_aside lo))) in L. lra.
Qed.

Variable mask : option Q -> bool.
Variable ok : Q -> Prop.
Hypothesis Hmask : forall b, mask (Some b) = false <-> ok b.

Lemma assess_ok : forall ind r la lo d h bg ice var, located r la lo d h -> matched r bg ice var ->
  (ind <> O -> exists t, getext r "time_diff" = Ok (Some t) /\ (0 <= t)%Q) ->
  exists o, assess elev mask ind r = Ok o /\
    match o with Some (a, b) => compared elev ok r a b | None => forall a b, ~ compared elev ok r a b end.
Proof.
  intros ind r la lo d h bg ice var L M T. destruct M as [M1 M2 M3 M4 M5 [s M6] [la' [lo' [M7 M8]]]].
  destruct (day_test_dark r la' lo' d h (loc_y _ _ _ _ _ L) (loc_m _ _ _ _ _ L) (loc_d _ _ _ _ _ L) (loc_h _ _ _ _ _ L) (loc_valid _ _ _ _ _ L) (loc_hour _ _ _ _ _ L) M7 M8) as [day [E D]].
  unfold assess. rewrite M1, M2, M3. cbn [bind].
  set (ic := match ice with Some x => x | None => 0%Q end).
  assert (IC : (0 <= ic /\ ic <= 1)%Q) by (unfold ic; destruct ice as [x|]; [apply (M4 x eq_refl)|split; discriminate]).
  rewrite (proj2 (Qleb_true 0 ic) (proj1 IC)), (proj2 (Qleb_true ic 1) (proj2 IC)). cbn [andb py_assert bind]. rewrite E. cbn [bind].
  assert (TT : (if (0 <? ind)%nat then let! t := getext r "time_diff" in py_assert (match t with Some t => Qleb 0 t | None => false end) else Ok tt) = Ok tt).
  { destruct ind as [|ind]; [reflexivity|]. destruct (T ltac:(discriminate)) as [t [T1 T2]]. cbn [Nat.ltb Nat.leb]. rewrite T1. cbn [bind]. rewrite (proj2 (Qleb_true 0 t) T2). reflexivity. }
  rewrite TT. cbn [bind].
  assert (NI : (forall x, getext r "ICE" = Ok (Some x) -> (x <= 15 # 100)%Q) <-> Qltb (15 # 100) ic = false).
  { rewrite M2. unfold ic. destruct ice as [x|].
    - rewrite Qltb_false. split; [intro H; now apply H|intros H y Y; injection Y as <-; exact H].
    - split; [reflexivity|intros _ x X; discriminate]. }
  destruct day.
  { exists None. split; [reflexivity|]. intros a b [C _]. apply D in C. discriminate. }
  destruct bg as [bg|]; [|exists None; split; [reflexivity|]; intros a b [_ [[bg [s' [C _]]] _]]; rewrite M1 in C; discriminate].
  destruct (M5 bg eq_refl) as [R [x [-> X]]].
  destruct (Qltb (15 # 100) ic) eqn:Q; [exists None; split; [reflexivity|]; intros a b [_ [_ [C _]]]; apply NI in C; discriminate|].
  destruct (mask (Some x)) eqn:K; [exists None; split; [reflexivity|]; intros a b [_ [_ [_ [C C']]]]; rewrite M3 in C; injection C as <-; apply Hmask in C'; congruence|].
  cbn [orb]. rewrite (proj2 (Qleb_true (-5) bg) (proj1 R)), (proj2 (Qleb_true bg 45) (proj2 R)). cbn [andb py_assert bind].
  rewrite (proj2 (Qleb_true 0 x) (proj1 X)), (proj2 (Qleb_true x 10) (proj2 X)). cbn [andb py_assert bind]. rewrite M6.
  exists (Some ((s - bg)%Q, x)). split; [reflexivity|]. split; [now apply D|]. split; [exists bg, s; auto|]. split; [now apply NI|]. split; [exact M3|]. now apply Hmask.
Qed.


Lemma compared_fun : forall r a b a' b', compared elev ok r a b -> compared elev ok r a' b' -> a = a' /\ b = b'.
Proof.
  intros r a b a' b' [_ [[bg [s [A1 [A2 A3]]]] [_ [A4 _]]]] [_ [[bg' [s' [B1 [B2 B3]]]] [_ [B4 _]]]]. rewrite A1 in B1. rewrite A2 in B2. rewrite A4 in B4.
  injection B1 as <-. injection B2 as <-. injection B4 as <-. subst. auto.
Qed.

Lemma assess_all_ok : forall v ind, Forall is_located v -> assessable v ->
  (forall k r, nth_error v k = Some r -> (ind + k <> 0)%nat -> exists t, getext r "time_diff" = Ok (Some t) /\ (0 <= t)%Q) ->
  exists obs, assess_all elev mask ind v = Ok obs /\
    (forall j k x y, (j < k)%nat -> nth_error obs j = Some x -> nth_error obs k = Some y -> (fst x < fst y)%nat) /\
    (forall x, In x obs -> (ind <= fst x)%nat) /\
    forall i a b, In ((ind + i)%nat, (a, b)) obs <-> exists r, nth_error v i = Some r /\ compared elev ok r a b.
Proof.
  induction v as [|r v IH]; intros ind L A T; cbn [assess_all].
  - exists []. split; [reflexivity|]. split; [intros [|j]; discriminate|]. split; [intros x []|]. intros i a b. split; [intros []|]. intros [r [E _]]. destruct i; discriminate.
  - apply Forall_cons_iff in L. destruct L as [[la [lo [d [h L]]]] LV]. destruct (A r (or_introl eq_refl)) as [bg [ice [var M]]].
    destruct (assess_ok ind r la lo d h bg ice var L M) as [o [E C]]; [intro N; apply (T O r eq_refl); lia|].
    destruct (IH (S ind) LV) as [obs [E' [S1 [S2 S3]]]]; [intros q Q; apply A; now right|intros k q Q N; apply (T (S k) q Q); lia|].
    rewrite E, E'. cbn [bind]. 
    assert (Tail : forall i a b, In ((ind + S i)%nat, (a, b)) obs <-> exists q, nth_error v i = Some q /\ compared elev ok q a b) by (intros i a b; replace (ind + S i)%nat with (S ind + i)%nat by lia; apply S3).
    destruct o as [[a b]|].
    + exists ((ind, (a, b)) :: obs). split; [reflexivity|]. split; [|split].
      * intros [|j] [|k] x y JK Hx Hy; try lia.
        -- injection Hx as <-. cbn [nth_error] in Hy. apply nth_error_In, S2 in Hy. cbn [fst]. lia.
        -- cbn [nth_error] in Hx, Hy. apply (S1 j k); auto. lia.
      * intros x [<-|I]; [cbn [fst]; lia|]. apply S2 in I. lia.
      * intros i a' b'. destruct i as [|i].
        -- rewrite Nat.add_0_r. split.
           ++ intros [I|I]; [injection I as <- <-; exists r; auto|]. apply S2 in I. cbn [fst] in I. lia.
           ++ intros [q [Q X]]. injection Q as <-. left. destruct (compared_fun _ _ _ _ _ C X) as [-> ->]. reflexivity.
        -- cbn [nth_error]. rewrite <- Tail. split; [|now right]. intros [I|I]; [injection I; lia|exact I].
    + exists obs. split; [reflexivity|]. split; [exact S1|]. split; [intros x I; apply S2 in I; lia|].
      intros i a b. destruct i as [|i]; [|apply Tail]. rewrite Nat.add_0_r. split.
      * intro I. apply S2 in I. cbn [fst] in I. lia.
      * intros [q [Q X]]. injection Q as <-. destruct (C a b X).
Qed.
Lemma comparisons_ok : forall v, timed v -> assessable v -> exists obs, assess_all elev mask 0 v = Ok obs /\ comparisons elev ok v obs.
Proof.
  intros v [L [O T]] A. destruct (assess_all_ok v 0 L A) as [obs [E [S1 [_ S3]]]].
  - intros [|k] r Hk N; [lia|]. destruct (nth_error v k) as [a|] eqn:Ea; [|apply nth_error_None in Ea; assert (nth_error v (S k) <> None) by congruence; apply nth_error_Some in H; lia].
    destruct (T k a r Ea Hk) as [t [Ht Et]]. exists t. split; [exact Et|]. exact (O k a r t Ea Hk Ht).
  - exists obs. split; [exact E|]. split; [exact S1|exact S3].
Qed.
End Compare.
Lemma comparisons_fun : forall elev ok v obs obs', comparisons elev ok v obs -> comparisons elev ok v obs' -> obs = obs'.
Proof.
  intros elev ok v. 
  assert (G : forall obs obs' : list (nat * (Q * Q)), (forall j k x y, (j < k)%nat -> nth_error obs j = Some x -> nth_error obs k = Some y -> (fst x < fst y)%nat) ->
     (forall j k x y, (j < k)%nat -> nth_error obs' j = Some x -> nth_error obs' k = Some y -> (fst x < fst y)%nat) -> (forall x, In x obs <-> In x obs') -> obs = obs').
  { induction obs as [|x obs IH]; intros [|y obs'] A B C; [reflexivity|exfalso; apply (proj2 (C y)); now left|exfalso; apply (proj1 (C x)); now left|].
    assert (M : forall (z : nat * (Q * Q)) l, (forall j k x y, (j < k)%nat -> nth_error (z :: l) j = Some x -> nth_error (z :: l) k = Some y -> (fst x < fst y)%nat) -> forall u, In u l -> (fst z < fst u)%nat).
    { intros z l H u U. apply In_nth_error in U. destruct U as [k U]. apply (H O (S k) z u); [lia|reflexivity|exact U]. }
    assert (x = y).
    { destruct (proj1 (C x) (or_introl eq_refl)) as [E|I]; [now symmetry|]. destruct (proj2 (C y) (or_introl eq_refl)) as [E|I']; [exact E|].
      pose proof (M _ _ B _ I). pose proof (M _ _ A _ I'). lia. }
    subst y. f_equal. apply IH.
    - intros j k a b JK Ha Hb. apply (A (S j) (S k)); [lia|exact Ha|exact Hb].
    - intros j k a b JK Ha Hb. apply (B (S j) (S k)); [lia|exact Ha|exact Hb].
    - intro u. split; intro U.
      + destruct (proj1 (C u) (or_intror U)) as [<-|I]; [|exact I]. pose proof (M _ _ A _ U). lia.
      + destruct (proj2 (C u) (or_intror U)) as [<-|I]; [|exact I]. pose proof (M _ _ B _ U). lia. }
  intros obs obs' [A1 A2] [B1 B2]. apply G; auto. intros [i [a b]]. rewrite A2, B2. reflexivity.
Qed.
