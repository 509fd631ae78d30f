(** The reports of a window from the files to the output. *)
Require Import String Ascii ZArith QArith Qround List Bool Lia.
Require Import Verif.S_Sun.
Require Import Verif.M_Base Verif.L_Base Verif.M_Calendar Verif.S_Calendar Verif.P_Calendar Verif.M_Report Verif.S_Report Verif.L_Report Verif.L_Report2 Verif.L_Report3 Verif.M_Imma Verif.M_Grid
  Verif.M_Voyage Verif.M_Track Verif.M_BaseQC Verif.S_BaseQC Verif.L_BaseQC Verif.L_BaseQC2 Verif.P_BaseQC Verif.S_Print Verif.M_Main Verif.S_Hum Verif.S_Main
  Verif.L_Main Verif.L_Main2 Verif.L_Main3 Verif.L_Main4.
Import ListNotations.
Open Scope string_scope.
Open Scope list_scope.
Open Scope Z_scope.

(* ---- what the base flags depend on ---- *)

Definition view' (r : report) : seen :=
  {| s_id := r_id r;
     s_var := fun n => match index_of n VARLIST with
                       | Ok i => match nth i (r_data r) None with None => None | Some q => if mem n INTVARS then Some (inject_Z (py_int q)) else Some q end
                       | Err _ => if String.eqb n "RH" then match assoc "RH" (r_ext r) with Some v => v | None => None end else None
                       end;
     s_norm := getnorm r; s_sd := getnorm_stdev r |}.
Lemma view'_flags : forall elev p r, base_flags elev p (view' r) = base_flags elev p (view r).
Proof. reflexivity. Qed.
Lemma flags_frame : forall elev p K r r', frame K r r' -> base_flags elev p (view r') = base_flags elev p (view r).
Proof.
  intros elev p K r r' [A [_ [B [_ [C [D _]]]]]]. rewrite <- !view'_flags. f_equal. unfold view', getnorm, getnorm_stdev. rewrite A, B, C. f_equal. rewrite D; [reflexivity|].
  cbn. intuition discriminate.
Qed.
Lemma flagged_frame : forall elev p K r r', frame K r r' -> forallb (fun k => negb (mem k base_keys)) K = true ->
  flagged r (base_flags elev p (view r)) -> flagged r' (base_flags elev p (view r')).
Proof.
  intros elev p K r r' F D H v f P I. rewrite (flags_frame _ _ _ _ _ F) in I. destruct F as [_ [_ [_ [_ [_ [_ F]]]]]]. rewrite F; [now apply H|].
  intro J. rewrite forallb_forall in D. specialize (D _ J). apply negb_true_iff in D. apply in_keys in I. unfold key in I. cbn [fst snd] in I.
  assert (X : forallb (fun k => mem k base_keys) (keys (base_flags elev p (view r))) = true) by reflexivity. rewrite forallb_forall in X. specialize (X _ I). congruence.
Qed.

(* ---- climatologies ---- *)

Lemma look_normal : forall get c r o, (exists la lo, getvar r "LAT" = Some la /\ getvar r "LON" = Some lo) -> (exists m, getint r "MO" = Some m) ->
  look get c r = Ok o -> normal_at get c r o.
Proof.
  intros get c r o [la [lo [A B]]] [m M] H. unfold look in H. rewrite M in H. destruct (getint r "DY") as [d|] eqn:D.
  - left. unfold lat, lon in *. rewrite A, B in H. rewrite A, B. eauto 10.
  - right. apply ok_inj in H. auto.
Qed.
Lemma get_value_nonneg : forall c la lo m d q, (forall t y x z, cval c t y x = Some z -> (0 <= z)%Q) -> get_value c la lo m d = Ok (Some q) -> (0 <= q)%Q.
Proof.
  intros c la lo m d q H G. unfold get_value in G. destruct (clim_date_ok m d); [|discriminate]. step G. step G. unfold clim_read in G. do 3 step G. apply ok_inj in G. eapply H, G.
Qed.

Section Deck.
Variable E : setup.
Hypothesis HUM : humidity_only (e_hum E).

(** The reports of a file, ready. *)
Definition part (year month : Z) (ym : Z * Z) (reps : list report) : Prop :=
  exists ims, records (usable (e_tables E) (e_excluded E) (fst ym) (snd ym)) (e_lines E (fst ym) (snd ym)) ims /\ Forall2 (ready E year month (fst ym) (snd ym)) ims reps.

Lemma deck_spec : forall y m d, 1 <= m <= 12 -> checked_deck E y m = Ok d -> exists a b c after,
  part y m (last_month_was y m) a /\ part y m (y, m) b /\ part y m (next_month_is y m) c /\
  index_ok (a ++ b ++ c) (d_ids d) /\ all_ships E position_filter (d_ids d) (a ++ b ++ c) = Ok after /\ buddy_checks E after = Ok (d_reps d) /\
  frames ship_keys (a ++ b ++ c) after /\ frames buddy_keys after (d_reps d).
Proof.
  intros y m d M H. unfold checked_deck in H. rewrite (window_spec y m M) in H. cbn [bind] in H. step H. destruct y0 as [st d0]. destruct (read_window_spec E HUM _ _ _ _ _ _ _ X) as [parts [P D]].
  inversion P as [|? ? ? ? PA P1]; subst. inversion P1 as [|? ? ? ? PB P2]; subst. inversion P2 as [|? ? ? ? PC P3]; subst. inversion P3; subst. clear P P1 P2 P3.
  rename y0 into a, y1 into b, y2 into c. do 2 step H. apply ok_inj in H. subst d. cbn [d_ids d_reps].
  assert (R : d_reps (fold_left deck_append (concat [a; b; c]) new_deck) = a ++ b ++ c) by (rewrite appends_reps; cbn [concat]; rewrite app_nil_r; reflexivity).
  pose proof (index_ok_appends (concat [a; b; c]) new_deck index_ok_new) as I. rewrite R in *. exists a, b, c, y0. split; [exact PA|]. split; [exact PB|]. split; [exact PC|]. split; [exact I|]. split; [exact X0|]. split; [exact X1|]. split.
  - eapply all_ships_frame, X0. destruct I as [_ [I _]]. apply Forall_forall. intros [id l] J. cbn [snd]. rewrite (I _ _ J). unfold positions. apply NoDup_filter, seq_NoDup.
  - apply (buddy_frame E _ _ X1).
Qed.

Lemma base_ok : forall year month y m im r, elevation_like (e_elev E) -> sane (e_base E) -> 1 <= y -> 1 <= m <= 12 ->
  (forall c t y x q, e_lib E "SLP" "stdev" = Some c -> cval c t y x = Some q -> (0 <= q)%Q) ->
  ready E year month y m im r -> flagged r (base_flags (e_elev E) (e_base E) (view r)).
Proof.
  intros year month y m im r EL SA Y M SD R. destruct (rd_base _ _ _ _ _ _ _ R) as [r0 [r1 [W [_ [CL [YR [MO [B S]]]]]]]].
  assert (P : processable (view r0)).
  { split; [|split].
    - destruct (base_coords _ _ _ _ B) as [la [lo [A C]]]. exists la, lo. split; assumption.
    - exists y, m. split; [apply int_number; [now cbn; auto|exact YR]|]. split; [apply int_number; [now cbn; auto|exact MO]|]. auto.
    - intros z Z. cbn [view s_sd] in Z. destruct (rd_climate _ _ _ _ _ _ _ R) as [_ [_ C]]. destruct (C "SLP") as [c [L K]]; [now cbn; auto|].
      assert (G : getnorm_stdev r "SLP" = Some z) by (rewrite <- Z; unfold getnorm_stdev; now rewrite CL). rewrite G in K. unfold look in K.
      destruct (getint r "MO"), (getint r "DY"); try discriminate. destruct (lat r), (lon r); try (destruct (clim_date_ok _ _); discriminate).
      eapply get_value_nonneg; [|exact K]. intros ? ? ? ? V. eapply SD; eassumption. }
  destruct (C46_base_qc _ _ _ EL SA P W) as [r1' [B' [F _]]]. rewrite B in B'. apply ok_inj in B'. subst r1'.
  eapply flagged_frame; [exact (set_qc_frame _ _ _ _ _ S)|reflexivity|exact F].
Qed.

(** What a ready report keeps to the end. *)
Definition all_keys : list string := ship_keys ++ buddy_keys.
Lemma frames_all : forall a b c, frames ship_keys a b -> frames buddy_keys b c -> frames all_keys a c.
Proof.
  intros a b c A B. eapply frames_trans; [eapply frames_incl; [|exact A]|eapply frames_incl; [|exact B]]; intros k K; unfold all_keys; apply in_app_iff; auto.
Qed.
Lemma frame_int : forall K r r' n, frame K r r' -> ~ In n motion -> getint r' n = getint r n.
Proof. intros K r r' n F N. unfold getint. now rewrite (frame_getvar K r r' n F N). Qed.
Lemma not_motion : forall n, mem n motion = false -> ~ In n motion.
Proof. intros n H J. apply mem_In in J. congruence. Qed.
Lemma frame_where : forall K r r', frame K r r' -> same_where r r'.
Proof. intros K r r' F. pose proof (fun n H => frame_getvar K r r' n F (not_motion n H)) as G. repeat split; try (apply G; reflexivity); apply (frame_int K _ _ _ F), not_motion; reflexivity. Qed.
Record finished (year month y m : Z) (im : imma) (r : report) : Prop := {
  fn_made : made_from im r;
  fn_month : of_month y m r;
  fn_match : get_qc r "POS" "month_match" = month_match year month y m;
  fn_mds : forall n, In n mds_names -> exists c, e_lib E n "mean" = Some c /\ normal_at get_value_mds_style c r (getnorm r n);
  fn_mean : forall n, In n (mean_names ++ sd_names) -> exists c, e_lib E n "mean" = Some c /\ normal_at get_value c r (getnorm r n);
  fn_sd : forall n, In n sd_names -> exists c, e_lib E n "stdev" = Some c /\ normal_at get_value c r (getnorm_stdev r n);
  fn_base : elevation_like (e_elev E) -> sane (e_base E) -> 1 <= y -> 1 <= m <= 12 ->
    (forall c t y x q, e_lib E "SLP" "stdev" = Some c -> cval c t y x = Some q -> (0 <= q)%Q) -> flagged r (base_flags (e_elev E) (e_base E) (view r)) }.
Lemma finish : forall year month y m im r r', ready E year month y m im r -> frame all_keys r r' -> finished year month y m im r'.
Proof.
  intros year month y m im r r' R F. pose proof (frame_where _ _ _ F) as W.
  assert (YR : getint r' "YR" = Some y) by (rewrite (frame_int _ _ _ _ F); [apply (rd_year _ _ _ _ _ _ _ R)|apply not_motion; reflexivity]).
  assert (MO : getint r' "MO" = Some m) by (rewrite (frame_int _ _ _ _ F); [apply (rd_month _ _ _ _ _ _ _ R)|apply not_motion; reflexivity]).
  assert (PL : exists la lo, getvar r' "LAT" = Some la /\ getvar r' "LON" = Some lo).
  { rewrite !(frame_getvar _ _ _ _ F) by (apply not_motion; reflexivity). apply (rd_place _ _ _ _ _ _ _ R). }
  destruct (climate_keep E r r' (rd_climate _ _ _ _ _ _ _ R) W) as [C1 [C2 C3]]; [apply F|].
  constructor.
  - eapply frame_made; [exact F|]. apply (rd_made _ _ _ _ _ _ _ R).
  - split; assumption.
  - transitivity (get_qc r "POS" "month_match"); [|apply (rd_match _ _ _ _ _ _ _ R)]. apply F. cbn. intuition discriminate.
  - intros n N. destruct (C1 n N) as [c [L K]]. exists c. split; [exact L|]. apply look_normal; eauto.
  - intros n N. destruct (C2 n N) as [c [L K]]. exists c. split; [exact L|]. apply look_normal; eauto.
  - intros n N. destruct (C3 n N) as [c [L K]]. exists c. split; [exact L|]. apply look_normal; eauto.
  - intros EL SA Y M SD. eapply flagged_frame; [exact F|reflexivity|]. eapply base_ok; eassumption.
Qed.
Lemma finish_all : forall year month y m ims reps reps', Forall2 (ready E year month y m) ims reps -> frames all_keys reps reps' -> Forall2 (finished year month y m) ims reps'.
Proof.
  intros year month y m ims reps reps' R. revert reps'. induction R as [|im r ims reps A R IH]; intros reps' F; inversion F; subst; constructor; [|now apply IH]. eapply finish; eassumption.
Qed.
(** The files of the window after all checks. *)
Definition done (year month : Z) (ym : Z * Z) (reps : list report) : Prop :=
  exists ims, records (usable (e_tables E) (e_excluded E) (fst ym) (snd ym)) (e_lines E (fst ym) (snd ym)) ims /\ Forall2 (finished year month (fst ym) (snd ym)) ims reps.
Lemma part_done : forall year month ym reps reps', part year month ym reps -> frames all_keys reps reps' -> done year month ym reps'.
Proof. intros year month ym reps reps' [ims [A B]] F. exists ims. split; [exact A|]. eapply finish_all; eassumption. Qed.
Lemma deck_done : forall y m d, 1 <= m <= 12 -> checked_deck E y m = Ok d -> exists a b c, d_reps d = a ++ b ++ c /\
  done y m (last_month_was y m) a /\ done y m (y, m) b /\ done y m (next_month_is y m) c.
Proof.
  intros y m d M H. destruct (deck_spec y m d M H) as [a [b [c [after [PA [PB [PC [_ [_ [_ [F1 F2]]]]]]]]]]].
  pose proof (frames_all _ _ _ F1 F2) as F. apply Forall2_app_inv_l in F. destruct F as [a' [bc' [FA [F ->]]]]. apply Forall2_app_inv_l in F. destruct F as [b' [c' [FB [FC ->]]]].
  exists a', b', c'. split; [reflexivity|]. split; [|split]; eapply part_done; eassumption.
Qed.
Lemma done_month : forall year month ym reps, done year month ym reps -> Forall (of_month (fst ym) (snd ym)) reps.
Proof. intros year month ym reps [ims [_ F]]. induction F as [|im r ims reps R F IH]; constructor; [apply (fn_month _ _ _ _ _ _ R)|exact IH]. Qed.
Lemma done_other : forall year month ym reps y m, done year month ym reps -> ym <> (y, m) -> Forall (fun r => ~ of_month y m r) reps.
Proof.
  intros year month ym reps y m D N. apply done_month in D. eapply Forall_impl; [|exact D]. intros r [A B] [A' B']. apply N. destruct ym. cbn [fst snd] in *. congruence.
Qed.
Lemma deck_picked : forall y m d, 1 <= m <= 12 -> checked_deck E y m = Ok d -> exists l, done y m (y, m) l /\ picked (of_month y m) (d_reps d) l.
Proof.
  intros y m d M H. destruct (deck_done y m d M H) as [a [b [c [-> [A [B C]]]]]]. exists b. split; [exact B|].
  enough (X : picked (of_month y m) (a ++ b ++ c) ([] ++ b ++ [])) by (rewrite app_nil_r in X; exact X). apply picked_app; [|apply picked_app].
  - apply picked_none. eapply done_other; [exact A|]. now apply last_month_other.
  - apply picked_all. exact (done_month _ _ _ _ B).
  - apply picked_none. eapply done_other; [exact C|]. now apply next_month_other.
Qed.
End Deck.
