(** Property theorem C37 (buddy checks). *)
Require Import String ZArith QArith Qround List Bool Lia Permutation Reals Lqa.
Require Import Verif.M_Base Verif.L_Base Verif.M_Grid Verif.S_Grid Verif.S_Clim Verif.M_Stats Verif.S_Stats Verif.M_Report Verif.M_Buddy Verif.M_BuddyR Verif.S_Buddy
  Verif.L_Buddy Verif.L_Buddy2 Verif.L_Buddy3 Verif.L_Buddy4 Verif.L_Buddy5 Verif.L_BuddyR Verif.S_Print.
Import ListNotations.
Open Scope string_scope.
Open Scope list_scope.
Open Scope Z_scope.

(* ------------------------------------------------------------------ C37 *)

(** With well-formed tables and a global 1-degree field of standard deviations the check finishes exactly when
    the variable is one of four and every report that passes the filter has a place and an anomaly. *)
Theorem C37_accepts : forall reach sd limits ths mus t f l, clim_wf sd -> cny sd = 180 -> params_ok limits ths mus ->
  ((exists l', mds_buddy_check reach t sd limits ths mus f l = Ok l') <-> In t ["SST"; "AT"; "DPT"; "SLP"] /\ checkable f t l).
Proof.
  intros reach sd limits ths mus t f l W N P. split.
  - intros [l' H]. apply mds_sound in H; try assumption. tauto.
  - intros [K C]. now apply mds_complete.
Qed.
Print Assumptions C37_accepts.

(** The flags: each report keeps everything but its buddy flag, which is 1 exactly when it passes the filter and
    its anomaly differs from the average of the neighbouring cells by the limit or more. *)
Theorem C37_flags : forall reach sd limits ths mus t f l l', clim_wf sd -> cny sd = 180 -> params_ok limits ths mus ->
  mds_buddy_check reach t sd limits ths mus f l = Ok l' ->
  flagged t "bud" (mds_verdict reach f t sd (steps_of limits ths mus) l) l l'.
Proof. intros reach sd limits ths mus t f l l' W N P H. apply mds_sound in H; tauto. Qed.
Print Assumptions C37_flags.

(** The order of the reports does not matter: the same report gets the same flag. *)
Theorem C37_order : forall reach sd limits ths mus t f l l' m m' i j r, clim_wf sd -> cny sd = 180 -> params_ok limits ths mus ->
  mds_buddy_check reach t sd limits ths mus f l = Ok l' -> mds_buddy_check reach t sd limits ths mus f m = Ok m' ->
  Permutation l m -> nth_error l i = Some r -> nth_error m j = Some r -> nth_error l' i = nth_error m' j.
Proof.
  intros reach sd limits ths mus t f l l' m m' i j r W N P H K PE I J.
  apply mds_sound in H; try assumption. apply mds_sound in K; try assumption. destruct H as [_ [_ H]], K as [_ [_ K]].
  destruct (flagged_nth _ _ _ _ _ _ _ H I) as [v [r1 [A1 [B1 C1]]]]. destruct (flagged_nth _ _ _ _ _ _ _ K J) as [v2 [r2 [A2 [B2 C2]]]].
  rewrite (verdict_unique _ _ _ _ _ _ _ _ _ _ W PE B1 B2) in C1. congruence.
Qed.
Print Assumptions C37_order.

(** The report x lies in a cell that the search from the cell c looks at. *)
Definition in_reach (reach : Z -> Z -> Z) (limits : list (Z * Z * Z)) (c : place) (x : report) : Prop :=
  exists b dx dy dp, In b limits /\ Z.abs dx <= reach (fst (fst b)) (snd (fst c)) /\ Z.abs dy <= snd (fst b) /\ Z.abs dp <= snd b /\
    ~ (dx = 0 /\ dy = 0 /\ dp = 0) /\ in_cell x (shift c (dx, dy, dp)).
(** Reports out of reach do not matter: a report gets the same flag in two decks that have the same reports within reach of it. *)
Theorem C37_out_of_reach : forall reach sd limits ths mus t f l l' m m' i j r c n n2, clim_wf sd -> cny sd = 180 -> params_ok limits ths mus ->
  mds_buddy_check reach t sd limits ths mus f l = Ok l' -> mds_buddy_check reach t sd limits ths mus f m = Ok m' ->
  nth_error l i = Some r -> nth_error m j = Some r -> in_cell r c ->
  picked (in_reach reach limits c) l n -> picked (in_reach reach limits c) m n2 -> Permutation n n2 -> nth_error l' i = nth_error m' j.
Proof.
  intros reach sd limits ths mus t f l l' m m' i j r c n n2 W N P H K I J IC PL PM PE.
  apply mds_sound in H; try assumption. apply mds_sound in K; try assumption. destruct H as [_ [_ H]], K as [_ [_ K]].
  destruct (flagged_nth _ _ _ _ _ _ _ H I) as [v [r1 [A1 [B1 C1]]]]. destruct (flagged_nth _ _ _ _ _ _ _ K J) as [v2 [r2 [A2 [B2 C2]]]].
  assert (AG : forall a b, picked (in_reach reach limits c) a b -> forall s, In s (steps_of limits ths mus) -> agree f t c (reach (fst (fst (fst s))) (snd (fst c))) (snd (fst (fst s))) (snd (fst s)) a b).
  { intros a b PK s S [[dx dy] dp] [X1 [X2 [X3 X4]]] out. apply (collected_near _ _ _ _ _ PK). intros x [_ Y]. exists (fst s), dx, dy, dp. destruct s as [b0 tm]. apply in_combine_l in S. cbn [fst snd] in *. auto 8. }
  apply (agree_verdict _ _ _ _ _ _ _ _ _ _ IC (AG _ _ PL)) in B1. apply (agree_verdict _ _ _ _ _ _ _ _ _ _ IC (AG _ _ PM)) in B2.
  rewrite (verdict_unique _ _ _ _ _ _ _ _ _ _ W PE B1 B2) in C1. congruence.
Qed.
Print Assumptions C37_out_of_reach.

(** A box that does not wrap onto itself visits each of its other occupied cells once, and never the cell
    itself. *)
Theorem C37_neighbours_once : forall occ rx ry rp c offs, neighbours occ rx ry rp c offs -> 2 * rx < 360 -> 2 * ry < 180 -> 2 * rp < 73 -> cell_ok c ->
  NoDup (map (shift c) offs) /\ ~ In c (map (shift c) offs) /\
  forall c', In c' (map (shift c) offs) <-> (c' <> c /\ occ c' /\ cell_ok c' /\
    (exists k, Z.abs (fst (fst c') - fst (fst c) + 360 * k) <= rx) /\ (exists k, Z.abs (snd (fst c') - snd (fst c) + 180 * k) <= ry) /\ (exists k, Z.abs (snd c' - snd c + 73 * k) <= rp)).
Proof. exact small_box. Qed.
Print Assumptions C37_neighbours_once.

(** Without neighbours only anomalies of 500 degrees or more are flagged. *)
Theorem C37_lonely : forall reach sd limits ths mus t f l l' c i r, clim_wf sd -> cny sd = 180 -> params_ok limits ths mus ->
  mds_buddy_check reach t sd limits ths mus f l = Ok l' ->
  (forall r c', In r l -> test_report f r = 0 -> in_cell r c' -> c' = c) ->
  (forall b, In b limits -> 2 * reach (fst (fst b)) (snd (fst c)) < 360 /\ 2 * snd (fst b) < 180 /\ 2 * snd b < 73) ->
  nth_error l i = Some r -> test_report f r = 0 ->
  exists a r', getanom r t = Some a /\ nth_error l' i = Some r' /\ (get_qc r' t "bud" = 1 <-> (500 <= Qabs' a)%Q) /\ (get_qc r' t "bud" = 0 <-> (Qabs' a < 500)%Q).
Proof.
  intros reach sd limits ths mus t f l l' c i r W N P H ONE SM I T. apply mds_sound in H; try assumption. destruct H as [_ [CH H]].
  destruct (flagged_nth _ _ _ _ _ _ _ H I) as [v [r' [A [B C]]]]. pose proof (nth_error_In _ _ I) as IN.
  destruct (CH r IN T) as [c0 [a0 [C0 _]]]. assert (c0 = c) by (eapply ONE; eauto). subst c0.
  destruct (lonely reach f t l sd (steps_of limits ths mus) c W (in_cell_ok _ _ C0) ONE) with (r := r) (v := v) as [a [E V]]; try assumption.
  { intros [b tm] S. cbn [fst snd]. apply SM. apply in_combine_l in S. exact S. }
  exists a, r'. split; [exact E|]. split; [exact A|]. rewrite (L_Report.set_get_same _ _ _ _ _ C).
  destruct V as [[V ->]|[V ->]]; split; split; intro K; try lia; try assumption; exfalso; lra.
Qed.
Print Assumptions C37_lonely.

(** The number of columns searched: as many as fit into the same distance at the latitude of the row (with the
    code's value of pi). *)
Theorem C37_reach : forall s y k, 0 <= s -> 0 <= y < 180 ->
  (full_xspan s y = k <-> (IZR k * cos ((89.5 - IZR y) * (3.1415928 / 180)) <= IZR s < (IZR k + 1) * cos ((89.5 - IZR y) * (3.1415928 / 180)))%R).
Proof. exact full_xspan_spec. Qed.
Print Assumptions C37_reach.

(** Never fewer than at the equator, and the same in both hemispheres. *)
Theorem C37_reach_bounds : forall s y, 0 <= s -> 0 <= y < 180 -> s <= full_xspan s y /\ full_xspan s (179 - y) = full_xspan s y.
Proof. exact full_xspan_bounds. Qed.
Print Assumptions C37_reach_bounds.

(** "Each neighbouring cell counts once" fails next to the poles: with two columns at the equator, the cell
    half way round the world is counted twice. *)
Theorem C37_double_count_refuted : forall occ ry rp x p offs, 0 <= ry -> 0 <= rp ->
  neighbours occ (full_xspan 2 0) ry rp (x, 0, p) offs -> occ (shift (x, 0, p) (180, 0, 0)) -> ~ NoDup (map (shift (x, 0, p)) offs).
Proof.
  intros occ ry rp x p offs Y P [N M] O D. destruct full_xspan_poles as [F _].
  assert (E : shift (x, 0, p) (-180, 0, 0) = shift (x, 0, p) (180, 0, 0)).
  { unfold shift. cbn [fst snd]. f_equal. f_equal. replace (x + 180) with (x + -180 + 1 * 360) by lia. now rewrite Z.mod_add by lia. }
  assert (A : In (180, 0, 0) offs) by (apply M; repeat split; try lia; assumption).
  assert (B : In (-180, 0, 0) offs) by (apply M; rewrite E; repeat split; try lia; assumption).
  apply in_split in A. destruct A as [u [w ->]]. rewrite map_app in D. cbn [map] in D. apply NoDup_remove_2 in D. apply D.
  rewrite <- map_app, in_map_iff. exists (-180, 0, 0). split; [exact E|]. apply in_app_or in B. apply in_or_app. destruct B as [B|[B|B]]; [now left|discriminate|now right].
Qed.
Print Assumptions C37_double_count_refuted.

(** With four columns the report's own cell is among its neighbours. *)
Theorem C37_own_cell_refuted : forall occ ry rp x p offs, 0 <= x < 360 -> 0 <= p < 73 -> 0 <= ry -> 0 <= rp ->
  neighbours occ (full_xspan 4 0) ry rp (x, 0, p) offs -> occ (x, 0, p) -> In (x, 0, p) (map (shift (x, 0, p)) offs).
Proof.
  intros occ ry rp x p offs X P0 Y P [N M] O. destruct full_xspan_poles as [_ [_ F]].
  assert (E : shift (x, 0, p) (360, 0, 0) = (x, 0, p)).
  { unfold shift. cbn [fst snd]. replace (x + 360) with (x + 1 * 360) by lia. rewrite Z.mod_add by lia. rewrite Z.add_0_r, Z.add_0_r. f_equal; [f_equal|]; apply Z.mod_small; lia. }
  rewrite in_map_iff. exists (360, 0, 0). split; [exact E|]. apply M. rewrite E. repeat split; try lia. exact O.
Qed.
Print Assumptions C37_own_cell_refuted.

(** A report without anomaly that passes the filter stops the check. *)
Theorem C37_missing_anomaly_refuted : forall reach sd limits ths mus t f l r, clim_wf sd -> cny sd = 180 -> params_ok limits ths mus ->
  In r l -> test_report f r = 0 -> getanom r t = None -> exists e, mds_buddy_check reach t sd limits ths mus f l = Err e.
Proof.
  intros reach sd limits ths mus t f l r W N P I T A. destruct (mds_buddy_check reach t sd limits ths mus f l) as [l'|e] eqn:E; [|eauto].
  apply mds_sound in E; try assumption. destruct E as [_ [C _]]. destruct (C r I T) as [c [a [_ K]]]. congruence.
Qed.
Print Assumptions C37_missing_anomaly_refuted.

(** The Bayesian check finishes when every report that passes the filter has a place and an anomaly, the measurement error is not
    zero, and the probability of a gross error can be had for these anomalies and any positive standard deviation. *)
Theorem C37_bayes_accepts : forall reach sq pg sd1 sd2 sd3 radius sigma noise t f l,
  clim_wf sd1 -> clim_wf sd2 -> clim_wf sd3 -> cny sd1 = 180 -> cny sd2 = 180 -> cny sd3 = 180 -> (0 <= noise)%Q ->
  In t ["SST"; "AT"] -> checkable f t l -> ~ (sigma == 0)%Q -> (forall v, (0 < v)%Q -> (0 < sq v)%Q) ->
  (forall r a bm bsd, In r l -> test_report f r = 0 -> getanom r t = Some a -> (0 < bsd)%Q -> pg a bm bsd <> None) ->
  exists l', bayesian_buddy_check reach sq pg t sd1 sd2 sd3 radius sigma noise f l = Ok l'.
Proof. intros; now apply bayes_complete. Qed.
Print Assumptions C37_bayes_accepts.
Theorem C37_bayes_flags : forall reach sq pg sd1 sd2 sd3 radius sigma noise t f l l',
  clim_wf sd1 -> clim_wf sd2 -> clim_wf sd3 -> cny sd1 = 180 -> cny sd2 = 180 -> cny sd3 = 180 -> (0 <= noise)%Q ->
  bayesian_buddy_check reach sq pg t sd1 sd2 sd3 radius sigma noise f l = Ok l' ->
  In t ["SST"; "AT"] /\ checkable f t l /\ flagged t "bbud" (bayes_verdict reach sq pg f t sd1 sd2 sd3 radius sigma noise l) l l'.
Proof. intros. now apply bayes_sound. Qed.
Print Assumptions C37_bayes_flags.

(** The older search: for the grid of the reports, every occupied cell gets the buddy mean and limit of its fixed steps. *)
Theorem C37_old_limits : forall reach sd f t l g, clim_wf sd -> cny sd = 180 -> grid_reports f t l [] = Ok g -> exists bs,
  get_buddy_limits reach sd (take_average g) = Ok bs /\
  forall c, occupied f t l c -> exists b, g_find c bs = Some b /\ buddy_limits reach f t l sd old_search c (fst b) (snd b).
Proof. exact old_limits_ok. Qed.
Print Assumptions C37_old_limits.

(* ---- examples ---- *)

Definition flat_sd : clim := {| cn := 73; cny := 180; cnx := 360; cval := fun _ _ _ => Some 1%Q |}.
(** A report at a place on a day of March 2003 with an SST anomaly. *)
Definition at_place (la lo : Q) (d : Z) (a : Q) : report :=
  match new_report (Some "AB12") (Some "U1") [("YR", Some 2003%Q); ("MO", Some 3%Q); ("DY", Some (inject_Z d)); ("HR", Some 1%Q); ("LAT", Some la); ("LON", Some lo); ("SST", Some (a + 10)%Q)] with
  | Ok r => add_climate_variable r "SST" (Some 10%Q) (Some 1%Q)
  | Err _ => {| r_id := None; r_uid := None; r_data := []; r_dt := None; r_qc := []; r_ext := []; r_clim := [] |}
  end.
Definition buds (x : res (list report)) : res (list Z) := match x with Ok l => Ok (map (fun r => get_qc r "SST" "bud") l) | Err e => Err e end.
Definition near (s y : Z) : Z := if (y =? 0) || (y =? 179) then 114 * s else s.

Example C37_ex : clim_wf flat_sd /\ params_ok old_limits old_thresholds old_multipliers /\
  buds (mds_buddy_check near "SST" flat_sd old_limits old_thresholds old_multipliers []
    [at_place (21 # 2) (41 # 2) 3 0; at_place (23 # 2) (41 # 2) 3 1; at_place (23 # 2) (43 # 2) 9 (-1); at_place (21 # 2) (39 # 2) 4 9]) = Ok [0; 0; 0; 1].
Proof.
  split; [split; [right; now left|split; reflexivity]|]. split.
  - split; [reflexivity|]. split; [reflexivity|].
    repeat (constructor; [cbn [fst snd]; split; [reflexivity|split; [|split; [reflexivity|repeat constructor; lia]]]; intros m I; cbn in I; repeat (destruct I as [<-|I]; [reflexivity|]); destruct I|]).
    constructor.
  - vm_compute. reflexivity.
Qed.

(** "Neighbours are nearby" fails at the poles: a report at 89.5N is flagged because of one at 89.5S. *)
Theorem C37_pole_refuted : exists north south,
  lat north = Some (179 # 2)%Q /\ lat south = Some (-179 # 2)%Q /\
  buds (mds_buddy_check near "SST" flat_sd old_limits old_thresholds old_multipliers [] [north; south]) = Ok [1; 1] /\
  buds (mds_buddy_check near "SST" flat_sd old_limits old_thresholds old_multipliers [] [north]) = Ok [0].
Proof.
  exists (at_place (179 # 2) (1 # 2) 3 0), (at_place (-179 # 2) (1 # 2) 3 9). split; [reflexivity|]. split; [reflexivity|]. split; vm_compute; reflexivity.
Qed.
Print Assumptions C37_pole_refuted.

(** A report, a neighbour one degree to the north that makes it fail, one in its own cell and one on the other side of the
    world: of the three others only the neighbour is within reach. *)
Definition in_doubt : report := at_place (21 # 2) (41 # 2) 3 9.
Definition neighbour : report := at_place (23 # 2) (41 # 2) 3 0.
Definition same_cell : report := at_place (21 # 2) (41 # 2) 3 1.
Definition far_away : report := at_place (-81 # 2) (201 # 2) 3 5.
Example C37_out_of_reach_ex : exists c, in_cell in_doubt c /\
  picked (in_reach near old_limits c) [in_doubt; far_away; same_cell; neighbour] [neighbour] /\ picked (in_reach near old_limits c) [neighbour; in_doubt] [neighbour] /\
  buds (mds_buddy_check near "SST" flat_sd old_limits old_thresholds old_multipliers [] [in_doubt; far_away; same_cell; neighbour]) = Ok [1; 0; 0; 1] /\
  buds (mds_buddy_check near "SST" flat_sd old_limits old_thresholds old_multipliers [] [neighbour; in_doubt]) = Ok [1; 1].
Proof.
  destruct (cell_of (lat in_doubt) (lon in_doubt) (getint in_doubt "MO") (getint in_doubt "DY")) as [c|e] eqn:E; vm_compute in E; [|discriminate E].
  injection E as <-. eexists. split. { apply cell_of_in_cell. split; vm_compute; reflexivity. }
  assert (OUT : forall x cx, in_cell x cx -> (forall b dx dy dp, In b old_limits -> Z.abs dx <= near (fst (fst b)) 79 -> Z.abs dy <= snd (fst b) -> Z.abs dp <= snd b -> ~ (dx = 0 /\ dy = 0 /\ dp = 0) -> shift (200, 79, 12) (dx, dy, dp) <> cx) -> ~ in_reach near old_limits (200, 79, 12) x).
  { intros x cx I N [b [dx [dy [dp [B [X [Y [P [Z I2]]]]]]]]]. apply (N b dx dy dp B X Y P Z). exact (in_cell_unique _ _ _ I2 I). }
  assert (SMALL : forall b dx dy dp, In b old_limits -> Z.abs dx <= near (fst (fst b)) 79 -> Z.abs dy <= snd (fst b) -> Z.abs dp <= snd b -> -2 <= dx <= 2 /\ -2 <= dy <= 2 /\ -4 <= dp <= 4).
  { intros b dx dy dp B X Y P. cbn in B. repeat destruct B as [<-|B]; try contradiction; cbn in X, Y, P; lia. }
  assert (SAME : forall x, in_cell x (200, 79, 12) -> ~ in_reach near old_limits (200, 79, 12) x).
  { intros x I. apply (OUT x _ I). intros b dx dy dp B X Y P Z S. apply Z. destruct (SMALL b dx dy dp B X Y P) as [X' [Y' P']].
    unfold shift in S. cbn [fst snd] in S. apply pair_equal_spec in S; destruct S as [S1 S3]; apply pair_equal_spec in S1; destruct S1 as [S1 S2]. clear - S1 S2 S3 X' Y' P'.
    pose proof (Z.div_mod (200 + dx) 360 ltac:(discriminate)). pose proof (Z.div_mod (79 + dy) 180 ltac:(discriminate)). pose proof (Z.div_mod (12 + dp) 73 ltac:(discriminate)). lia. }
  assert (D : in_cell in_doubt (200, 79, 12)) by (apply cell_of_in_cell; split; vm_compute; reflexivity).
  assert (S : in_cell same_cell (200, 79, 12)) by (apply cell_of_in_cell; split; vm_compute; reflexivity).
  assert (F : ~ in_reach near old_limits (200, 79, 12) far_away).
  { apply (OUT far_away (280, 130, 12)); [apply cell_of_in_cell; split; vm_compute; reflexivity|].
    intros b dx dy dp B X Y P Z S'. destruct (SMALL b dx dy dp B X Y P) as [X' [Y' P']]. unfold shift in S'. cbn [fst snd] in S'. apply pair_equal_spec in S'; destruct S' as [S1 S3]; apply pair_equal_spec in S1; destruct S1 as [S1 S2]. clear - S1 S2 S3 X' Y' P'.
    pose proof (Z.div_mod (200 + dx) 360 ltac:(discriminate)). lia. }
  assert (N : in_reach near old_limits (200, 79, 12) neighbour).
  { exists (1, 1, 2), 0, (-1), 0. split; [left; reflexivity|]. split; [vm_compute; discriminate|]. split; [vm_compute; discriminate|]. split; [vm_compute; discriminate|].
    split; [lia|]. apply cell_of_in_cell; split; vm_compute; reflexivity. }
  split. { apply pick_no; [exact (SAME _ D)|]. apply pick_no; [exact F|]. apply pick_no; [exact (SAME _ S)|]. apply pick_yes; [exact N|]. apply pick_nil. }
  split. { apply pick_yes; [exact N|]. apply pick_no; [exact (SAME _ D)|]. apply pick_nil. }
  split; vm_compute; reflexivity.
Qed.
