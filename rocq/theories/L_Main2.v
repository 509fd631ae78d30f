(** Lemmas about the main program: from a record to a report. *)
Require Import String Ascii ZArith QArith Qround List Bool Lia.
Require Import Verif.M_Base Verif.L_Base Verif.M_Calendar Verif.M_Checks Verif.M_Report Verif.S_Report Verif.L_Report Verif.L_Report3 Verif.M_Imma Verif.M_Grid Verif.M_Voyage Verif.M_Track Verif.M_Buddy
  Verif.M_BaseQC Verif.M_Print Verif.M_Main Verif.S_Hum Verif.S_Main Verif.L_Main.
Import ListNotations.
Open Scope string_scope.
Open Scope list_scope.
Open Scope Z_scope.

Lemma accept_spec : forall E y m line o, accept E y m line = Ok o ->
  match o with Some im => usable (e_tables E) (e_excluded E) y m line im | None => forall im, ~ usable (e_tables E) (e_excluded E) y m line im end.
Proof.
  intros E y m line o H. unfold accept in H. unfold usable.
  assert (IV : forall v z, int_value (Some v) z = true <-> is_int v z).
  { intros v z. unfold int_value, is_int. destruct v as [|n|q|s]; split; intro K; try discriminate; try (destruct K as [K|[q' [K _]]]; discriminate).
    - left. f_equal. now apply Z.eqb_eq. - destruct K as [K|[q' [K _]]]; [injection K as ->; apply Z.eqb_refl|discriminate].
    - right. exists q. split; [reflexivity|]. now apply Qeq_bool_eq. - destruct K as [K|[q' [K L]]]; [discriminate|]. injection K as <-. now apply Qeq_eq_bool. }
  destruct (readstr (e_tables E) line new_imma) as [[im|e]|]; [|destruct (id_read E line); [|discriminate]; injection H as <-; intros im [A _]; discriminate|discriminate].
  destruct (assoc "ID" (im_data im)) as [v|] eqn:I; [|discriminate].
  assert (X : match v with VStr s => mem s (e_excluded E) | _ => false end = false <-> (forall s, Some v = Some (VStr s) -> ~ In s (e_excluded E))).
  { destruct v as [|n|q|s]; split; intro K; try reflexivity; try (intros s0 Z; discriminate).
    - intros s0 Z. injection Z as <-. now apply mem_false. - apply mem_false. now apply K. }
  destruct (match v with VStr s => mem s (e_excluded E) | _ => false end).
  { injection H as <-. intros im' [A [B _]]. injection A as <-. rewrite I in B. apply X in B. discriminate. }
  destruct (assoc "YR" (im_data im)) as [yv|] eqn:Y; [|discriminate]. destruct (int_value (Some yv) y) eqn:IY.
  2: { injection H as <-. intros im' [A [_ [[v' [B C]] _]]]. injection A as <-. rewrite Y in B. injection B as <-. apply IV in C. congruence. }
  destruct (assoc "MO" (im_data im)) as [mv|] eqn:M; [|discriminate]. destruct (int_value (Some mv) m) eqn:IM.
  2: { injection H as <-. intros im' [A [_ [_ [v' [B C]]]]]. injection A as <-. rewrite M in B. injection B as <-. apply IV in C. congruence. }
  injection H as <-. split; [reflexivity|]. split; [rewrite I; now apply X|]. split; [exists yv|exists mv]; split; auto; now apply IV.
Qed.

(* ---- the report of a record ---- *)

Lemma assoc_map_self : forall A (f : string -> A) l v, In v l -> assoc v (map (fun n => (n, f n)) l) = Some (f v).
Proof. induction l as [|x l IH]; intros v I; [contradiction|]. cbn. destruct (String.eqb_spec v x) as [->|N]; [reflexivity|]. apply IH. destruct I; [congruence|assumption]. Qed.
Lemma nth_map_index : forall A (f : string -> option A) l n i, index_of n l = Ok i -> nth i (map f l) None = f n.
Proof.
  induction l as [|x l IH]; intros n i H; cbn in *; [discriminate|]. destruct (String.eqb_spec n x) as [->|N]; [injection H as <-; reflexivity|].
  destruct (index_of n l) as [j|] eqn:J; [|discriminate]. injection H as <-. now apply IH.
Qed.
Lemma new_report_shape : forall id uid fields r, new_report id uid fields = Ok r ->
  r_id r = id /\ r_uid r = uid /\ r_data r = init_data fields /\ r_qc r = [] /\ r_clim r = [] /\ (exists a b, r_ext r = [("vsi", a); ("dsi", b)]).
Proof.
  intros id uid fields r H. unfold new_report in H. destruct (calculate_dt _) as [r1|] eqn:E; [|discriminate]. cbn [bind] in H.
  assert (X : exists d, r1 = with_dt {| r_id := id; r_uid := uid; r_data := init_data fields; r_dt := None; r_qc := []; r_ext := []; r_clim := [] |} d).
  { unfold calculate_dt in E. repeat match type of E with
      | (match ?x with _ => _ end) = Ok _ => destruct x
      | (let! _ := ?x in _) = Ok _ => destruct x; [cbn [bind] in E|discriminate]
      | Ok _ = Ok _ => apply ok_inj in E; subst r1; eexists; reflexivity end. }
  destruct X as [d ->]. unfold calculate_dsi_vsi in H. match type of H with bind ?x _ = _ => destruct x; [|discriminate] end. cbn [bind] in H.
  apply ok_inj in H. subst r. repeat split. eexists _, _. reflexivity.
Qed.

Definition plain_number (im : imma) (n : string) : option Q := match assoc n (im_data im) with Some v => number_of v | None => None end.
Definition seen_number (im : imma) (n : string) : option Q :=
  match plain_number im n with Some q => if mem n INTVARS then Some (inject_Z (py_int q)) else Some q | None => None end.
Lemma py_int_inject : forall z, py_int (inject_Z z) = z.
Proof.
  intro z. unfold py_int. destruct (Qle_bool 0 (inject_Z z)); [apply Qfloor_Z|]. rewrite <- inject_Z_opp, Qfloor_Z. lia.
Qed.
Lemma seen_number_field : forall im n, number_field im n (seen_number im n).
Proof.
  intros im n. unfold number_field, seen_number, plain_number. destruct (assoc n (im_data im)) as [[|z|q|s]|]; cbn [number_of].
  - right. right. repeat split; intros [x X]; discriminate.
  - left. exists z. split; [reflexivity|]. destruct (mem n INTVARS); [|reflexivity]. now rewrite py_int_inject.
  - right. left. exists q. split; [reflexivity|]. destruct (mem n INTVARS) eqn:M; [right; split; [now apply mem_In|reflexivity]|left; split; [now apply mem_false|reflexivity]].
  - right. right. repeat split; intros [x X]; discriminate.
  - right. right. repeat split; intros [x X]; discriminate.
Qed.
Lemma field_fun : forall im n a b, number_field im n a -> number_field im n b -> a = b.
Proof.
  intros im n a b A B. unfold number_field in *.
  destruct A as [[z [A A']]|[[q [A A']]|[A1 [A2 A3]]]], B as [[z' [B B']]|[[q' [B B']]|[B1 [B2 B3]]]]; try congruence; try (exfalso; eauto; fail).
  assert (q = q') by congruence. subst q'. destruct A' as [[X ->]|[X ->]], B' as [[Y ->]|[Y ->]]; congruence || contradiction.
Qed.
Lemma report_of_spec : forall im r, report_of im = Ok r -> text_field im "ID" (r_id r) /\ text_field im "UID" (r_uid r) /\
  (forall n, In n VARLIST -> getvar r n = seen_number im n) /\ wf_report r /\ r_qc r = [] /\ r_clim r = [] /\ (exists a b, r_ext r = [("vsi", a); ("dsi", b)]).
Proof.
  intros im r H. unfold report_of in H. destruct (new_report_shape _ _ _ _ H) as [A [B [C [D [F G]]]]].
  assert (T : forall n, text_field im n (text_of (assoc n (im_data im)))).
  { intro n. unfold text_field, text_of. destruct (assoc n (im_data im)) as [[|z|q|s]|]; try (right; split; [intros [x X]; discriminate|reflexivity]). left. exists s. auto. }
  rewrite A, B. split; [apply T|]. split; [apply T|]. split; [|split; [eapply new_report_wf, H|auto]].
  intros n I. unfold getvar. destruct (index_of_In n VARLIST I) as [i [J K]]. rewrite J, C. unfold init_data, seen_number, plain_number.
  rewrite (nth_map_index _ _ _ _ _ J). rewrite (assoc_map_self _ _ _ _ I). destruct (assoc n (im_data im)) as [[]|]; reflexivity.
Qed.

(* ---- steps that keep variables ---- *)

(** Everything but exts, flags and climatologies is as before, outside the names K. *)
Definition holds_on (K : list string) (r r' : report) : Prop :=
  r_id r' = r_id r /\ r_uid r' = r_uid r /\ (forall n, In n VARLIST -> ~ In n K -> getvar r' n = getvar r n) /\ (wf_report r -> wf_report r').
Lemma holds_trans : forall K a b c, holds_on K a b -> holds_on K b c -> holds_on K a c.
Proof. intros K a b c [A1 [A2 [A3 A4]]] [B1 [B2 [B3 B4]]]. repeat split; try congruence; auto. intros n I J. now rewrite B3, A3. Qed.
Lemma holds_incl : forall K K' a b, incl K K' -> holds_on K a b -> holds_on K' a b.
Proof. intros K K' a b I [A1 [A2 [A3 A4]]]. repeat split; auto. Qed.
Lemma getvar_listed : forall r r' n, In n VARLIST -> r_data r' = r_data r -> getvar r' n = getvar r n.
Proof. intros r r' n I D. unfold getvar. destruct (index_of_In n VARLIST I) as [i [-> _]]. now rewrite D. Qed.
Lemma holds_data : forall r r', r_id r' = r_id r -> r_uid r' = r_uid r -> r_data r' = r_data r -> holds_on [] r r'.
Proof. intros r r' A B D. repeat split; auto. - intros n I _. now apply getvar_listed. - unfold wf_report. now rewrite D. Qed.
Lemma holds_setvar : forall r n v r', setvar r n v = Ok r' -> holds_on [n] r r'.
Proof.
  intros r n v r' H. pose proof (setvar_wf r n v r') as W. destruct (setvar_keeps _ _ _ _ "" "" H) as [_ I]. split; [exact I|]. split; [|split; [|intro; apply W; assumption]].
  - unfold setvar in H. destruct (index_of n VARLIST); [|discriminate]. cbn [bind] in H. destruct (mem n ["YR"; "DY"; "HR"]).
    + unfold calculate_dt in H. repeat match type of H with
      | (match ?x with _ => _ end) = Ok _ => destruct x
      | (let! _ := ?x in _) = Ok _ => destruct x; [cbn [bind] in H|discriminate]
      | Ok _ = Ok _ => apply ok_inj in H; subst r'; reflexivity end.
    + apply ok_inj in H. now subst r'.
  - intros m I' J. apply (set_get_other_var _ _ _ _ m H). intros ->. apply J. now left.
Qed.
Lemma frame_holds : forall K r r', frame K r r' -> holds_on [] r r'.
Proof. intros K r r' [A [B [C [D [F [G H]]]]]]. now apply holds_data. Qed.

(* ---- base quality control of any report, whatever the parameters ---- *)

Lemma set_qc_r_frame : forall r t f v r', set_qc_r r t f v = Ok r' -> frame [(t ++ f)%string] r r'.
Proof. intros r t f v r' H. unfold set_qc_r in H. destruct v; [|discriminate]. eapply set_qc_frame, H. Qed.
Definition base_keys : list string :=
  ["POSisbuoy"; "POSisdrifter"; "POSisship"; "POSis780"; "POSpos"; "POSdate"; "POStime"; "POSblklst"; "POSday"; "DPThum_blacklist"; "ATmat_blacklist"; "Wwind_blacklist";
   "SSTnoval"; "SSTfreez"; "SSTclim"; "SSTnonorm"; "SSThardlimit"; "ATnoval"; "ATclim"; "ATnonorm"; "AThardlimit"; "DPTclim"; "DPTnoval"; "DPTnonorm"; "DPTssat";
   "SLPnoval"; "SLPclim"; "SLPnonorm"; "Wnoval"; "Whardlimit"; "Wconsistency"; "DPThardlimit"; "AT2clim"; "AT2noval"; "AT2nonorm"; "AT2hardlimit"].
Lemma qc_base : forall r t f v r', set_qc r t f v = Ok r' -> mem (t ++ f)%string base_keys = true -> frame base_keys r r'.
Proof. intros r t f v r' H M. eapply frame_incl; [|eapply set_qc_frame, H]. intros k [<-|[]]. now apply mem_In. Qed.
Lemma qc_base_r : forall r t f v r', set_qc_r r t f v = Ok r' -> mem (t ++ f)%string base_keys = true -> frame base_keys r r'.
Proof. intros r t f v r' H M. unfold set_qc_r in H. destruct v; [|discriminate]. eapply qc_base; eassumption. Qed.
Ltac qc_leaf H := first [exact (qc_base _ _ _ _ _ H eq_refl) | exact (qc_base_r _ _ _ _ _ H eq_refl)].
Ltac qc_walk H :=
  lazymatch type of H with
  | bind ?x _ = Ok _ =>
      let y := fresh "y" in let X := fresh "X" in destruct x as [y|] eqn:X; [cbn [bind] in H|discriminate H];
      first [apply (frame_trans base_keys _ y); [solve [qc_walk X]|qc_walk H] | qc_walk H]
  | set_qc _ _ _ _ = Ok _ => qc_leaf H
  | set_qc_r _ _ _ _ = Ok _ => qc_leaf H
  | Ok _ = Ok _ => apply ok_inj in H; subst; apply frame_refl
  | (if ?b then _ else _) = Ok _ => destruct b; qc_walk H
  | (match ?x with _ => _ end) = Ok _ => destruct x; try discriminate H; qc_walk H
  end.
Lemma silly_frame : forall l r r', silly_values l r = Ok r' -> frame base_keys r r'.
Proof. induction l as [|[v lim] l IH]; intros r r' H; cbn [silly_values] in H; [apply ok_inj in H; subst; apply frame_refl|].
  step H. step H. eapply frame_trans; [qc_walk X0|]. eapply IH, H.
Qed.
Lemma base_frame : forall elev p r r', perform_base_qc elev p r = Ok r' -> exists r1, do_fix_missing_hour r = Ok r1 /\ frame base_keys r1 r'.
Proof.
  intros elev p r r' H. unfold perform_base_qc in H. step H. exists y. split; [reflexivity|].
  step H. eapply frame_trans; [unfold is_buoy in X0; qc_walk X0|].
  step H. eapply frame_trans; [unfold is_ship in X1; qc_walk X1|].
  step H. eapply frame_trans; [unfold is_deck_780 in X2; qc_walk X2|].
  step H. eapply frame_trans; [unfold do_position_check in X3; qc_walk X3|].
  step H. eapply frame_trans; [unfold do_date_check in X4; qc_walk X4|].
  step H. eapply frame_trans; [unfold do_time_check in X5; qc_walk X5|].
  step H. eapply frame_trans; [unfold do_blacklist in X6; qc_walk X6|].
  step H. eapply frame_trans; [unfold do_day_check in X7; qc_walk X7|].
  step H. eapply frame_trans; [unfold humidity_blacklist in X8; qc_walk X8|].
  step H. eapply frame_trans; [unfold mat_blacklist in X9; qc_walk X9|].
  step H. eapply frame_trans; [unfold wind_blacklist in X10; qc_walk X10|].
  step H. eapply frame_trans; [unfold do_base_sst_qc in X11; qc_walk X11|].
  step H. eapply frame_trans; [unfold do_base_mat_qc, mat_checks in X12; qc_walk X12|].
  step H. eapply frame_trans; [unfold do_base_dpt_qc in X13; qc_walk X13|].
  step H. eapply frame_trans; [unfold do_base_slp_qc in X14; qc_walk X14|].
  step H. eapply frame_trans; [unfold do_base_wind_qc in X15; qc_walk X15|].
  step H. eapply frame_trans; [unfold humidity_limits in X16; step X16; eapply frame_trans; [qc_walk X17|eapply silly_frame, X16]|].
  unfold do_kate_mat_qc in H. qc_walk H.
Qed.
