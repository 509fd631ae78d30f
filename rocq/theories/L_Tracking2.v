(** Lemmas for the tracking quality control: what depends on the data only; one stage; later stages. *)
Require Import String ZArith QArith Qround List Bool Lia Lqa.
Require Import Verif.M_Base Verif.L_Base Verif.S_Calendar Verif.M_Report Verif.S_Report Verif.L_Report Verif.L_Report3 Verif.M_Voyage Verif.S_Voyage Verif.L_Voyage4 Verif.L_Voyage6 Verif.M_Track Verif.S_Track Verif.L_Track5 Verif.L_Track6 Verif.L_Main4 Verif.M_Drifter Verif.S_Drifter Verif.L_Drifter Verif.S_Tail Verif.S_Tail2 Verif.M_Tracking Verif.S_Tracking Verif.L_Tracking.
Import ListNotations.
Open Scope string_scope.
Open Scope list_scope.
Open Scope Z_scope.

(** Same but for motion and flags. *)
Definition core (r r' : report) : Prop :=
  r_id r' = r_id r /\ r_uid r' = r_uid r /\ r_data r' = r_data r /\ r_dt r' = r_dt r /\ r_clim r' = r_clim r /\
  (forall n, ~ In n motion -> getext r' n = getext r n).
(** Same but for motion and the flags in L. *)
Definition ch (L : list (string * string)) (r r' : report) : Prop :=
  core r r' /\ forall t f, (forall t' f', In (t', f') L -> ~ same_key t' f' t f) -> get_qc r' t f = get_qc r t f.
Lemma core_refl : forall r, core r r.
Proof. intro r. repeat split; auto. Qed.
Lemma core_sym : forall a b, core a b -> core b a.
Proof. intros a b [A1 [A2 [A3 [A4 [A5 A6]]]]]. repeat split; auto. intros n N. symmetry. auto. Qed.
Lemma core_trans : forall a b c, core a b -> core b c -> core a c.
Proof. intros a b c [A1 [A2 [A3 [A4 [A5 A6]]]]] [B1 [B2 [B3 [B4 [B5 B6]]]]]. repeat split; try congruence. intros n N. rewrite B6, A6; auto. Qed.
Lemma ch_refl : forall L r, ch L r r.
Proof. intros. split; [apply core_refl|auto]. Qed.
Lemma ch_trans : forall L L' a b c, ch L a b -> ch L' b c -> ch (L ++ L') a c.
Proof.
  intros L L' a b c [A1 A2] [B1 B2]. split; [eapply core_trans; eauto|]. intros t f H. rewrite B2, A2; [reflexivity| |]; intros t' f' I; apply H, in_or_app; auto.
Qed.
Lemma kept_core : forall r r', kept r r' -> core r r'.
Proof. intros r r' [[A1 [A2 [A3 [A4 [A5 [A6 A7]]]]]] B]. repeat split; auto. Qed.
Lemma kept_qc : forall r r' t f, kept r r' -> get_qc r' t f = get_qc r t f.
Proof. intros r r' t f [[_ [_ [_ [_ [Q _]]]]] _]. unfold get_qc. now rewrite Q. Qed.
Lemma getvar_ext : forall r r' n, r_data r' = r_data r -> getext r' n = getext r n -> getvar r' n = getvar r n.
Proof.
  intros r r' n D E. unfold getvar, getext in *. rewrite D. destruct (index_of n VARLIST); [reflexivity|]. destruct (assoc n (r_ext r')), (assoc n (r_ext r)); congruence.
Qed.
Lemma core_data : forall r r', core r r' -> data_same r r'.
Proof.
  intros r r' [A1 [A2 [A3 [A4 [A5 A6]]]]]. unfold data_same. repeat split; auto; apply getvar_ext; auto; apply A6; unfold motion; cbn; intuition discriminate.
Qed.
Lemma core_ext : forall r r' n, core r r' -> ~ In n motion -> getext r' n = getext r n.
Proof. intros r r' n [_ [_ [_ [_ [_ A]]]]] N. now apply A. Qed.
Lemma F2_core_data : forall v v', Forall2 core v v' -> Forall2 data_same v v'.
Proof. intros v v' F. induction F; constructor; auto using core_data. Qed.
Lemma F2_core_sym : forall v v', Forall2 core v v' -> Forall2 core v' v.
Proof. intros v v' F. induction F; constructor; auto using core_sym. Qed.
Lemma F2_data_sym : forall v v', Forall2 data_same v v' -> Forall2 data_same v' v.
Proof. intros v v' F. induction F; constructor; auto using data_same_sym. Qed.
Lemma F2_core_trans : forall a b c, Forall2 core a b -> Forall2 core b c -> Forall2 core a c.
Proof. intros a b c F. revert c. induction F; intros c G; inversion G; subst; constructor; eauto using core_trans. Qed.

(* ---- the findings depend on data and background only ---- *)

Section Data.
Variables v v' : list report.
Hypothesis F : Forall2 data_same v v'.
Lemma len_d : length v' = length v.
Proof. symmetry. exact (Forall2_length _ _ _ _ _ F). Qed.
Lemma hft_d : forall i j t, hours_from_to v i j t -> hours_from_to v' i j t.
Proof.
  intros i j t [a [b [A [B H]]]]. destruct (Forall2_nth _ _ _ _ _ F _ _ A) as [a' [A' KA]], (Forall2_nth _ _ _ _ _ F _ _ B) as [b' [B' KB]].
  exists a', b'. repeat split; auto. eapply data_hours; eauto.
Qed.
Lemma rv_d : forall name i w l, In name VARLIST -> run_values v name i w l -> run_values v' name i w l.
Proof.
  intros name i w l N [A B]. split; [exact A|]. intros j x X. destruct (B j x X) as [r [R V]]. destruct (Forall2_nth _ _ _ _ _ F _ _ R) as [r' [R' K]]. exists r'. split; [exact R'|].
  now rewrite (data_same_var r r').
Qed.
Lemma smoothed_d : forall k i la lo, smoothed v k i la lo -> smoothed v' k i la lo.
Proof. intros k i la lo [a [b [A [B [C D]]]]]. exists a, b. split; [|split; [|split; [exact C|exact D]]]; apply rv_d; auto; simpl; tauto. Qed.
Lemma still_d : forall dist tol k i j, still dist tol v k i j -> still dist tol v' k i j.
Proof. intros dist tol k i j [a [b [c [d [A [B C]]]]]]. exists a, b, c, d. repeat split; auto using smoothed_d. Qed.
Lemma wte_d : forall k minh i j, window_to_end v k minh i j -> window_to_end v' k minh i j.
Proof. intros k minh i j [A [B [t [C D]]]]. split; [rewrite len_d; exact A|]. split; [exact B|]. exists t. split; [now apply hft_d|exact D]. Qed.
Lemma fast_d : forall dist lim i j, drifts_faster dist lim v i j -> drifts_faster dist lim v' i j.
Proof.
  intros dist lim i j [a [b [la [lo [la' [lo' [t [A [B [C [D [E [G K]]]]]]]]]]]]]. destruct (Forall2_nth _ _ _ _ _ F _ _ A) as [a' [A' KA]], (Forall2_nth _ _ _ _ _ F _ _ B) as [b' [B' KB]].
  exists a', b', la, lo, la', lo', t. split; [exact A'|]. split; [exact B'|]. split; [exact (data_at_pos a a' la lo KA C)|]. split; [exact (data_at_pos b b' la' lo' KB D)|].
  split; [eapply data_hours; eauto|]. split; [exact G|exact K].
Qed.
Lemma near_d : forall k dist limit dd dt i j, near_pair v k (too_fast dist limit dd dt) i j -> near_pair v' k (too_fast dist limit dd dt) i j.
Proof.
  intros k dist limit dd dt i j [A [a [b [B [C D]]]]]. split; [exact A|]. destruct (Forall2_nth _ _ _ _ _ F _ _ B) as [a' [A' KA]], (Forall2_nth _ _ _ _ _ F _ _ C) as [b' [B' KB]].
  exists a', b'. repeat split; auto. destruct D as [la [lo [d [h [la' [lo' [d' [h' [t [D1 [D2 D3]]]]]]]]]]]. exists la, lo, d, h, la', lo', d', h', t.
  split; [eapply data_located; eauto|]. split; [eapply data_located; eauto|exact D3].
Qed.
End Data.
Section Both.
Variables v v' : list report.
Hypothesis F : Forall2 data_same v v'.
Let G : Forall2 data_same v' v := F2_data_sym _ _ F.
Lemma fa_d : forall out minh i f, first_after v out minh i f -> first_after v' out minh i f.
Proof.
  intros out minh i f [A [B [[t [C D]] E]]]. split; [exact A|]. split; [exact B|]. split; [exists t; split; [now apply (hft_d v v' F)|exact D]|].
  intros j u J K H. apply (E j u J K). now apply (hft_d v' v G).
Qed.
Lemma ship_d : forall dist ship dd dt n g removed, ship_removed dist ship dd dt n g v removed -> ship_removed dist ship dd dt n g v' removed.
Proof.
  intros dist ship dd dt n g removed. unfold ship_removed. destruct g; [auto|]. cbv zeta. intros [A B]. split.
  - rewrite (len_d v v' F). revert A. apply greedy_ext. intros i j. split; [now apply near_d|now apply near_d].
  - intros i j H. apply B. now apply (near_d v' v G).
Qed.
Lemma generic_d : (match v' with [] => true | r :: _ => generic_report r end) = (match v with [] => true | r :: _ => generic_report r end).
Proof.
  clear G. destruct F as [|r r' w w' K _]; [reflexivity|]. unfold generic_report, getint. rewrite (data_same_var r r' "YR") by (auto; simpl; tauto). destruct K as [-> _]. reflexivity.
Qed.
End Both.
Lemma aground_iff : forall (W W' S S' : nat -> nat -> Prop) k n, (forall i j, W i j <-> W' i j) -> (forall i j, S i j <-> S' i j) -> aground W S k n -> aground W' S' k n.
Proof.
  intros W W' S S' k n HW HS [i0 [[j A] [B C]]]. exists i0. split; [exists j; now apply HW|]. split; [|exact C]. intros i j' L H. apply HS, B; [exact L|now apply HW].
Qed.
Lemma are_trans : forall a b c, are a b -> are b c -> are a c.
Proof. intros a b c F. revert c. induction F as [|x y a b E F IH]; intros c H; inversion H as [|? z ? ? K1 K2]; subst; [constructor|]. constructor; [intro k; now rewrite E, K1|now apply IH]. Qed.
Lemma runs_aground_d : forall dist half days v v' bads, Forall2 core v v' -> runs_aground dist half days v bads -> runs_aground dist half days v' bads.
Proof.
  intros dist half days v v' bads F A. pose proof (F2_core_data _ _ F) as D. pose proof (F2_data_sym _ _ D) as G. unfold runs_aground in *. eapply are_trans; [exact A|]. constructor; [|constructor].
  intro k. split; apply aground_iff; intros i j; split; first [now apply (wte_d v v')|now apply (wte_d v' v)|now apply (still_d v v')|now apply (still_d v' v)].
Qed.
Lemma picked_up_d : forall dist ship dd dt n limit days v v' bads, Forall2 core v v' -> picked_up dist ship dd dt n limit days v bads -> picked_up dist ship dd dt n limit days v' bads.
Proof.
  intros dist ship dd dt n limit days v v' bads F [removed [A B]]. pose proof (F2_core_data _ _ F) as D. pose proof (F2_data_sym _ _ D) as G. exists removed. split.
  - rewrite (generic_d v v' D). now apply (ship_d v v' D).
  - eapply are_trans; [exact B|]. constructor; [|constructor]. intro k. split; intros [i [f [X [Y Z0]]]]; exists i, f; (split; [|split; [|exact Z0]]).
    + now apply (fa_d v v' D).
    + now apply (fast_d v v' D).
    + now apply (fa_d v' v G).
    + now apply (fast_d v' v G).
Qed.
Lemma not_motion : forall n, In n ["OSTIA"; "ICE"; "BGVAR"] -> ~ In n motion.
Proof. intros n I J. unfold motion in J. cbn in I, J. intuition congruence. Qed.
Lemma compared_d : forall elev ok r r' a b, core r r' -> compared elev ok r a b -> compared elev ok r' a b.
Proof.
  intros elev ok r r' a b C [D [[bg [s [O [S E]]]] [I [V K]]]]. pose proof (core_data _ _ C) as DS.
  assert (G : forall n, In n VARLIST -> getvar r' n = getvar r n) by (intros; now apply data_same_var).
  assert (X : forall n, In n ["OSTIA"; "ICE"; "BGVAR"] -> getext r' n = getext r n) by (intros n N; apply core_ext; [exact C|now apply not_motion]).
  split; [|split; [|split; [|split; [|exact K]]]].
  - destruct D as [e [[d [h [k [la [lo [la' [lo' [A1 [A2 [A3 [A4 [A5 A6]]]]]]]]]]]] L]]. exists e. split; [|exact L]. exists d, h, k, la, lo, la', lo'. unfold getint in *.
    rewrite !G by (simpl; tauto). split; [exact A1|]. split; [exact A2|]. split; [exact A3|]. split; [exact A4|]. split; [eapply data_at_pos; eauto|exact A6].
  - exists bg, s. rewrite X, G by (simpl; tauto). auto.
  - intros ice. rewrite X by (simpl; tauto). apply I.
  - rewrite X by (simpl; tauto). exact V.
Qed.
Lemma comparisons_d : forall elev ok v v' obs, Forall2 core v v' -> comparisons elev ok v obs -> comparisons elev ok v' obs.
Proof.
  intros elev ok v v' obs F [A B]. split; [exact A|]. intros i a b. rewrite B. split; intros [r [R K]].
  - destruct (Forall2_nth _ _ _ _ _ F _ _ R) as [r' [R' C]]. exists r'. split; [exact R'|]. eapply compared_d; eauto.
  - destruct (Forall2_nth_back _ _ _ _ _ F _ _ R) as [r' [R' C]]. exists r'. split; [exact R'|]. eapply compared_d; [apply core_sym|]; eauto.
Qed.
Lemma has_tails_d : forall elev sq p half v v' bads, Forall2 core v v' -> has_tails elev sq p half v bads -> has_tails elev sq p half v' bads.
Proof. intros elev sq p half v v' bads F [obs [A B]]. exists obs. split; [eapply comparisons_d; eauto|exact B]. Qed.
Lemma short_d : forall sq p v v' obs, Forall2 core v v' -> record_short sq p v obs -> record_short sq p v' obs.
Proof.
  intros sq p v v' obs F [A [B C]]. split; [exact A|]. split; [|exact C]. intros r b I E. apply In_nth_error in I. destruct I as [i I].
  destruct (Forall2_nth_back _ _ _ _ _ F _ _ I) as [r0 [I0 K]]. apply (B r0 b); [eapply nth_error_In; eauto|]. rewrite <- E. symmetry. apply core_ext; [exact K|]. apply not_motion. simpl. tauto.
Qed.
Lemma off_background_d : forall elev sq p v v' bads, Forall2 core v v' -> off_background elev sq p v bads -> off_background elev sq p v' bads.
Proof.
  intros elev sq p v v' bads F [obs [A B]]. exists obs. split; [eapply comparisons_d; eauto|]. eapply are_trans; [exact B|].
  repeat (constructor; [intro k; try reflexivity|]); [|constructor]. split; [now apply short_d|apply short_d; now apply F2_core_sym].
Qed.

(* ---- one stage ---- *)

Definition here (t : string) (flags : list string) : list (string * string) := map (fun f => (t, f)) flags.
Lemma unchanged_ch : forall t fs r r', unchanged_flags t fs r r' -> ch (here t fs) r r'.
Proof.
  intros t fs r r' [A1 [A2 [A3 [A4 [A5 [A6 A7]]]]]]. split.
  - repeat split; auto. intros n _. unfold getext. now rewrite A5.
  - intros t' f' H. apply A7. intros f I. apply (H t f). unfold here. apply in_map_iff. eauto.
Qed.
Lemma exactly_are : forall t f bad v v', flags_exactly t f bad v v' -> flags_are t [(f, bad)] v v'.
Proof.
  intros t f bad v v' [A B]. split.
  - eapply Forall2_impl'; [|exact A]. intros a b [A1 [A2 [A3 [A4 [A5 [A6 A7]]]]]]. repeat split; auto. intros t' f' H. apply A7. apply H. now left.
  - intros f' bad' [E|[]] i r' N. injection E as <- <-. now apply B.
Qed.
Lemma if_drifter_ok : forall sp check fl t v, Forall (fun r => getint r "PT" = Some 7) v ->
  (exists v', check v = Ok v' /\ flags_are t fl v v') -> exists v', if_drifter sp check false v = Ok v' /\ flags_are t fl v v'.
Proof.
  intros sp check fl t [|r v] P [v' [E A]]; unfold if_drifter.
  - exists []. split; [reflexivity|]. split; [constructor|]. intros f bad _ i r' N. destruct i; discriminate.
  - inversion P as [|? ? PR _]; subst. rewrite PR. cbn [bind]. eauto.
Qed.

Section Stage.
Variable sp : sphere.
Variable want : report -> bool.
Variable P : report -> Prop.
Hypothesis want_P : forall r, want r = true <-> P r.
Variable reps : list report.
Variable id : option string.
Hypothesis ids : forall r, In r reps -> r_id r = id.
Hypothesis stamps : forall r, In r reps -> P r -> stamped r.
Hypothesis minutes : forall i j a b t, (i < j)%nat -> nth_error reps i = Some a -> nth_error reps j = Some b -> P a -> P b -> r_dt a = r_dt b -> hours_between a b t -> (0 <= t)%Q.
Variable check : list report -> res (list report).
Variable type : string.
Variable flags : list string.
Variable verdict : list report -> list (nat -> Prop) -> Prop.
Hypothesis inv_v : forall v v' bads, Forall2 core v v' -> verdict v bads -> verdict v' bads.
Hypothesis inv_P : forall r r', ch (here type flags) r r' -> (P r <-> P r').
Hypothesis runs : forall v0 v, Forall2 core v0 v -> (forall r, In r v0 -> In r reps /\ P r) -> timed v ->
  exists bads v', length bads = length flags /\ verdict v bads /\ check v = Ok v' /\ flags_are type (combine flags bads) v v'.

Lemma map_fst_combine : forall A B (l : list A) (l' : list B), length l' = length l -> map fst (combine l l') = l.
Proof. intros A B. induction l as [|x l IH]; intros [|y l'] H; cbn in *; try discriminate; [reflexivity|]. rewrite IH; [reflexivity|lia]. Qed.
Lemma stage_ok : exists reps', stage sp want check reps = Ok reps' /\ Forall2 (ch (here type flags)) reps reps' /\ flagged_in type flags P verdict reps reps'.
Proof.
  destruct (record_ok sp want P want_P reps id ids stamps minutes) as [idx [v0 [v [E [IR [K T]]]]]].
  assert (KC : Forall2 core v0 v) by (eapply Forall2_impl'; [|exact K]; apply kept_core).
  destruct IR as [IR1 [[IR2 IR3] IR4]].
  destruct (runs v0 v KC) as [bads [v' [LB [V [E' [FA FB]]]]]]; [|exact T|].
  { intros r I. apply In_nth_error in I. destruct I as [j I]. destruct (Forall2_nth_back _ _ _ _ _ IR1 _ _ I) as [i [J N]]. apply nth_error_In in J. apply IR3 in J. destruct J as [r' [N' H]].
    rewrite N in N'. injection N' as <-. split; [eapply nth_error_In; eauto|exact H]. }
  rewrite map_fst_combine in FA by exact LB. unfold stage. rewrite E. cbn [bind]. rewrite E'. cbn [bind].
  assert (L1 : length v' = length idx) by (rewrite (Forall2_length _ _ _ _ _ IR1), (Forall2_length _ _ _ _ _ K); symmetry; exact (Forall2_length _ _ _ _ _ FA)).
  assert (LT : forall i, In i idx -> (i < length reps)%nat) by (intros i I; apply IR3 in I; destruct I as [r [N _]]; apply nth_error_Some; congruence).
  pose proof (put_back_same idx v' reps IR2 L1 LT) as PS. set (reps' := put_back idx v' reps) in *. exists reps'. split; [reflexivity|].
  assert (AT : forall j i r, nth_error idx j = Some i -> nth_error reps i = Some r -> exists s r', nth_error v0 j = Some r /\ nth_error v j = Some s /\ nth_error v' j = Some r' /\ nth_error reps' i = Some r' /\ kept r s /\ ch (here type flags) s r').
  { intros j i r J N. destruct (Forall2_nth _ _ _ _ _ IR1 _ _ J) as [r0 [A B]]. rewrite N in B. injection B as <-. destruct (Forall2_nth _ _ _ _ _ K _ _ A) as [s [S1 S2]].
    destruct (Forall2_nth _ _ _ _ _ FA _ _ S1) as [r' [R1 R2]]. destruct (Forall2_nth _ _ _ _ _ PS _ _ J) as [r'' [R3 R4]]. rewrite R1 in R3. injection R3 as <-.
    exists s, r'. repeat split; auto; try apply S2; apply unchanged_ch in R2; apply R2. }
  assert (CH : Forall2 (ch (here type flags)) reps reps').
  { apply Forall2_of_nth; [apply put_back_length|]. intros i r N. destruct (in_dec Nat.eq_dec i idx) as [I|I].
    - apply In_nth_error in I. destruct I as [j J]. destruct (AT j i r J N) as [s [r' [_ [_ [_ [R [KS C]]]]]]]. exists r'. split; [exact R|]. destruct C as [C1 C2]. split; [eapply core_trans; [apply kept_core; exact KS|exact C1]|].
      intros t f H. rewrite (C2 t f H). now apply kept_qc.
    - exists r. split; [unfold reps'; now rewrite put_back_other|apply ch_refl]. }
  split; [exact CH|].
  assert (PP : forall i r r', nth_error reps i = Some r -> nth_error reps' i = Some r' -> (P r <-> P r')).
  { intros i r r' N N'. destruct (Forall2_nth _ _ _ _ _ CH _ _ N) as [r'' [A B]]. rewrite N' in A. injection A as <-. now apply inv_P. }
  assert (CV : Forall2 core v v') by (eapply Forall2_impl'; [|exact FA]; intros a b H; apply unchanged_ch in H; apply H).
  exists idx, v', bads. split; [split; [exact PS|split; [split; [exact IR2|]|]]|].
  - intro i. rewrite IR3. split; intros [r [N H]].
    + destruct (Forall2_nth _ _ _ _ _ CH _ _ N) as [r' [A B]]. exists r'. split; [exact A|]. now apply (PP i r r').
    + destruct (Forall2_nth_back _ _ _ _ _ CH _ _ N) as [r' [A B]]. exists r'. split; [exact A|]. now apply (PP i r' r).
  - intros j k i i' a b t L J J' A B H. assert (C0 : Forall2 core v0 v') by (eapply F2_core_trans; eauto).
    destruct (Forall2_nth_back _ _ _ _ _ C0 _ _ A) as [a0 [A0 KA]], (Forall2_nth_back _ _ _ _ _ C0 _ _ B) as [b0 [B0 KB]].
    apply (IR4 j k i i' a0 b0 t L J J' A0 B0). eapply data_hours; [apply data_same_sym, core_data; exact KA|apply data_same_sym, core_data; exact KB|exact H].
  - split; [exact LB|]. split; [eapply inv_v; eauto|]. split.
    + intros flag bad I j i r' J N. destruct (Forall2_nth _ _ _ _ _ PS _ _ J) as [r'' [R1 R2]]. rewrite N in R2. injection R2 as <-. exact (FB flag bad I j r' R1).
    + intros flag i r r' I N N' NP. assert (NI : ~ In i idx) by (intro I'; apply IR3 in I'; destruct I' as [r0 [N0 P0]]; rewrite N in N0; injection N0 as <-; apply NP; now apply (PP i r r')).
      unfold reps' in N'. rewrite put_back_other in N' by exact NI. rewrite N in N'. now injection N' as <-.
Qed.
End Stage.

(* ---- stages before and after ---- *)

Lemma flagged_later : forall type flags P verdict reps reps1 reps2 L,
  flagged_in type flags P verdict reps reps1 -> Forall2 (ch L) reps1 reps2 ->
  (forall r r', ch L r r' -> (P r <-> P r')) -> (forall v v' bads, Forall2 core v v' -> verdict v bads -> verdict v' bads) ->
  (forall f t' f', In f flags -> In (t', f') L -> ~ same_key t' f' type f) -> flagged_in type flags P verdict reps reps2.
Proof.
  intros type flags P verdict reps reps1 reps2 L [idx [v [bads [[IR1 [[IR2 IR3] IR4]] [LB [V [FB U]]]]]]] F IP IV D.
  assert (X : exists v2, Forall2 (fun i r => nth_error reps2 i = Some r) idx v2 /\ Forall2 core v v2).
  { clear -IR1 F. induction IR1 as [|i r idx v N IR1 IH]; [exists []; split; constructor|]. destruct IH as [v2 [A B]]. destruct (Forall2_nth _ _ _ _ _ F _ _ N) as [r' [N' [C _]]].
    exists (r' :: v2). split; constructor; auto. }
  destruct X as [v2 [X1 X2]]. exists idx, v2, bads. split; [split; [exact X1|split; [split; [exact IR2|]|]]|].
  - intro i. rewrite IR3. split; intros [r [N H]].
    + destruct (Forall2_nth _ _ _ _ _ F _ _ N) as [r' [N' C]]. exists r'. split; [exact N'|]. now apply (IP r r').
    + destruct (Forall2_nth_back _ _ _ _ _ F _ _ N) as [r' [N' C]]. exists r'. split; [exact N'|]. now apply (IP r' r).
  - intros j k i i' a b t Lt J J' A B H. destruct (Forall2_nth_back _ _ _ _ _ X2 _ _ A) as [a0 [A0 KA]], (Forall2_nth_back _ _ _ _ _ X2 _ _ B) as [b0 [B0 KB]].
    apply (IR4 j k i i' a0 b0 t Lt J J' A0 B0). eapply data_hours; [apply data_same_sym, core_data; exact KA|apply data_same_sym, core_data; exact KB|exact H].
  - split; [exact LB|]. split; [eapply IV; eauto|]. split.
    + intros flag bad I j i r' J N. destruct (Forall2_nth_back _ _ _ _ _ F _ _ N) as [r0 [N0 [_ C]]]. rewrite (C type flag); [exact (FB flag bad I j i r0 J N0)|].
      intros t' f' I'. apply D; [|exact I']. apply in_combine_l in I. exact I.
    + intros flag i r r' I N N' NP. destruct (Forall2_nth_back _ _ _ _ _ F _ _ N') as [r0 [N0 C]]. destruct C as [C0 C]. rewrite (C type flag); [apply (U flag i r r0 I N N0)|].
      * intro H. apply NP. now apply (IP r0 r' (conj C0 C)).
      * intros t' f' I'. now apply D.
Qed.
Lemma flagged_before : forall type flags P verdict reps reps1 reps2 L,
  flagged_in type flags P verdict reps1 reps2 -> Forall2 (ch L) reps reps1 ->
  (forall f t' f', In f flags -> In (t', f') L -> ~ same_key t' f' type f) -> flagged_in type flags P verdict reps reps2.
Proof.
  intros type flags P verdict reps reps1 reps2 L [idx [v [bads [IR [LB [V [FB U]]]]]]] F D. exists idx, v, bads. split; [exact IR|]. split; [exact LB|]. split; [exact V|]. split; [exact FB|].
  intros flag i r r' I N N' NP. destruct (Forall2_nth _ _ _ _ _ F _ _ N) as [r1 [N1 [_ C]]]. rewrite (U flag i r1 r' I N1 N' NP). apply C. intros t' f' I'. now apply D.
Qed.
