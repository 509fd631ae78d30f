(** C62: climatologies looked up for a report, and the library that keeps them. *)
Require Import String Ascii ZArith QArith Qround List Bool Lia Lqa.
Require Import Verif.M_Base Verif.L_Base Verif.M_Calendar Verif.S_Calendar Verif.M_Report Verif.M_Grid Verif.S_Grid Verif.S_Clim Verif.L_Clim Verif.L_Clim2 Verif.P_Grid Verif.M_ClimRep Verif.L_ClimRep.
Import ListNotations.
Open Scope string_scope.
Open Scope Z_scope.

(** A report has a latitude, a longitude, a month and a day. *)
Definition located (r : report) (la lo : Q) (m d : Z) : Prop := lat r = Some la /\ lon r = Some lo /\ getint r "MO" = Some m /\ getint r "DY" = Some d.
Definition on_earth (la lo : Q) : Prop := (-90 <= la /\ la <= 90 /\ -180 <= lo /\ lo <= 180)%Q.

(** The value is that of the cell that has the report's position, at the slice of its date; missing if the cell is. *)
Theorem C62_get_clim : forall r c la lo m d, sst_wf c -> located r la lo m d -> md_valid m d -> on_earth la lo ->
  exists t y x, get_clim r c = cval c t y x /\ slice (cn c) m d t /\ row_has 180 y la /\ col_has 180 x lo.
Proof.
  intros r c la lo m d W [R1 [R2 [R3 R4]]] V [A [B [C D]]]. unfold get_clim, at_report. rewrite R1, R2, R3, R4. destruct (C15_get_sst c la lo m d W V A B C ltac:(lra)) as [t [y [x [E F]]]].
  exists t, y, x. rewrite E. split; [reflexivity|exact F].
Qed.
Print Assumptions C62_get_clim.
Theorem C62_get_hires_clim : forall r c la lo m d, cn c = 365 -> cny c = 720 -> cnx c = 1440 -> located r la lo m d -> md_valid m d -> on_earth la lo ->
  exists t y x, slice 365 m d t /\ row_has 720 y la /\ col_has 720 x lo /\
    forall v, get_hires_clim r c = Some v <-> cval c t y x = Some v /\ ~ (v == -999)%Q.
Proof.
  intros r c la lo m d W1 W2 W3 [R1 [R2 [R3 R4]]] V [A [B [C D]]]. unfold get_hires_clim, at_report. rewrite R1, R2, R3, R4. destruct (C15_get_hires_sst c la lo m d W1 W2 W3 V A B C ltac:(lra)) as [t [y [x [E1 [E2 [E3 [E4 _]]]]]]].
  exists t, y, x. split; [exact E1|]. split; [exact E2|]. split; [exact E3|]. intro v. rewrite <- E4. destruct (get_hires_sst la lo m d c) as [o|e]; cbn [try_none]; split; congruence.
Qed.
Print Assumptions C62_get_hires_clim.
(** A report without position or date, or with an impossible one, has no value: nothing raises. *)
Theorem C62_missing : forall r c, ~ (exists la lo m d, located r la lo m d /\ md_valid m d /\ (-90 <= la)%Q /\ (la <= 90)%Q /\ (-185 <= lo)%Q /\ (lo <= 365)%Q) ->
  get_clim r c = None /\ get_hires_clim r c = None.
Proof.
  intros r c H. unfold get_clim, get_hires_clim, at_report. destruct (lat r) as [la|] eqn:R1; [|split; reflexivity]. destruct (lon r) as [lo|] eqn:R2; [|split; reflexivity].
  destruct (getint r "MO") as [m|] eqn:R3; [|split; reflexivity]. destruct (getint r "DY") as [d|] eqn:R4; [|split; reflexivity].
  assert (K : ~ (md_valid m d /\ (-90 <= la)%Q /\ (la <= 90)%Q /\ (-185 <= lo)%Q /\ (lo <= 365)%Q)) by (intro K; apply H; exists la, lo, m, d; split; [split; [|split; [|split]]; assumption|exact K]).
  split; [unfold get_sst; rewrite sst_args_bad by exact K; reflexivity|]. unfold get_hires_sst. rewrite sst_args_bad; [reflexivity|]. intros [K1 [K2 [K3 [K4 K5]]]]. apply K. repeat split; try assumption; lra.
Qed.
Print Assumptions C62_missing.
(** On a one degree climatology of pentads the interpolation for a report gives what the climatology's own interpolation gives at the
    report's place and date, errors included (C15). *)
Theorem C62_interpolated_same : forall r c la lo m d, located r la lo m d -> cn c = 73 -> cny c = 180 -> cnx c = 360 -> md_valid m d -> on_earth la lo ->
  get_clim_interpolated r c = get_interpolated_value c la lo m d.
Proof. intros r c la lo m d [R1 [R2 [R3 R4]]] N NY NX V [A [B [C D]]]. now apply interp_same. Qed.
Print Assumptions C62_interpolated_same.
(** So it lies within any bounds of the field at that date. *)
Theorem C62_interpolated_range : forall r c la lo m d lw hi, located r la lo m d -> cn c = 73 -> cny c = 180 -> cnx c = 360 -> md_valid m d -> on_earth la lo -> ~ (la == -(179 # 2))%Q ->
  (forall t y x v, slice 73 m d t -> cval c t y x = Some v -> (lw <= v /\ v <= hi)%Q) ->
  get_clim_interpolated r c = Ok None \/ exists v, get_clim_interpolated r c = Ok (Some v) /\ (lw <= v /\ v <= hi)%Q.
Proof.
  intros r c la lo m d lw hi L N NY NX V O S F. rewrite (C62_interpolated_same r c la lo m d L N NY NX V O). destruct O as [A [B [C D]]]. rewrite <- N in F.
  apply C15_interpolated_range; try assumption. split; [tauto|lia].
Qed.
Print Assumptions C62_interpolated_range.
(** And a field sampled from a bilinear function of the position is interpolated exactly. *)
Theorem C62_interpolated_exact : forall r c la lo m d t a b e g, located r la lo m d -> cn c = 73 -> cny c = 180 -> cnx c = 360 -> md_valid m d -> slice 73 m d t ->
  (-(179 # 2) < la)%Q -> (la < 179 # 2)%Q -> (-(359 # 2) < lo)%Q -> (lo < 359 # 2)%Q ->
  let f u v := (a + b * u + e * v + g * u * v)%Q in
  (forall y x, 0 <= y < 180 -> 0 <= x < 360 ->
     exists w, cval c t y x = Some w /\ (w == f (90 - inject_Z y - (1 # 2)) (inject_Z x - 180 + (1 # 2)))%Q) ->
  exists v, get_clim_interpolated r c = Ok (Some v) /\ (v == f la lo)%Q.
Proof.
  intros r c la lo m d t a b e g L N NY NX V SL A B C D f F. rewrite (C62_interpolated_same r c la lo m d L N NY NX V ltac:(repeat split; lra)).
  apply (C15_interpolated_exact c la lo m d t a b e g); try assumption; [split; [tauto|lia]|now rewrite N].
Qed.
Print Assumptions C62_interpolated_exact.
(** A report without position or date is not interpolated. *)
Theorem C62_interpolated_missing : forall r c, lat r = None \/ lon r = None \/ getint r "MO" = None \/ getint r "DY" = None -> get_clim_interpolated r c = Ok None.
Proof.
  intros r c H. unfold get_clim_interpolated. destruct (lat r); [|reflexivity]. destruct (lon r); [|reflexivity]. destruct (getint r "MO"); [|reflexivity]. destruct (getint r "DY"); [|reflexivity].
  destruct H as [H|[H|[H|H]]]; discriminate H.
Qed.
Print Assumptions C62_interpolated_missing.
(** Finding: a single field and a field of pentads with the same values everywhere give different results beside the date line, because the
    single field is not read west of it. *)
Definition columns (n : Z) : clim := {| cn := n; cny := 180; cnx := 360; cval := fun _ _ x => Some (inject_Z x) |}.
Definition at_date_line : report :=
  {| r_id := None; r_uid := None; r_data := init_data [("LAT", Some 0%Q); ("LON", Some (-180)%Q); ("MO", Some 6%Q); ("DY", Some 1%Q)]; r_dt := None; r_qc := []; r_ext := []; r_clim := [] |}.
Theorem C62_single_field_refuted : exists r c c' v v', located r 0 (-180) 6 1 /\ cn c = 73 /\ cn c' = 1 /\ cny c' = 180 /\ cnx c' = 360 /\ (forall t t' y x, cval c t y x = cval c' t' y x) /\
  get_clim_interpolated r c = Ok (Some v) /\ get_clim_interpolated r c' = Ok (Some v') /\ ~ (v == v')%Q.
Proof.
  exists at_date_line, (columns 73), (columns 1). destruct (get_clim_interpolated at_date_line (columns 73)) as [[v|]|] eqn:A; [|vm_compute in A; discriminate A|vm_compute in A; discriminate A].
  destruct (get_clim_interpolated at_date_line (columns 1)) as [[v'|]|] eqn:B; [|vm_compute in B; discriminate B|vm_compute in B; discriminate B].
  exists v, v'. split; [repeat split|]. do 4 (split; [reflexivity|]). split; [reflexivity|]. split; [reflexivity|]. split; [reflexivity|]. vm_compute in A, B. injection A as <-. injection B as <-. intro K. vm_compute in K. discriminate K.
Qed.
Print Assumptions C62_single_field_refuted.

(** The library: a field is found under the variable and statistic it was last added with; under any other an assertion fails. *)
Theorem C62_library : forall A (adds : list (string * string * A)) v s,
  let lib := fold_left (fun lib a => add_field lib (fst (fst a)) (snd (fst a)) (snd a)) adds new_library in
  ((forall f, ~ In (v, s, f) adds) /\ get_field lib v s = Err AssertionError) \/
  exists f before after, adds = (before ++ (v, s, f) :: after)%list /\ (forall f', ~ In (v, s, f') after) /\ get_field lib v s = Ok f.
Proof.
  intros A adds v s lib. unfold lib. clear lib. rewrite <- (rev_involutive adds). induction (rev adds) as [|[[v' s'] f'] l IH].
  - left. split; [intros f []|reflexivity].
  - cbn [rev]. rewrite fold_left_app. cbn [fold_left fst snd]. rewrite field_of_add. destruct (String.eqb_spec v' v) as [->|NV]; [destruct (String.eqb_spec s' s) as [->|NS]|]; cbn [andb].
    + right. exists f', (rev l), []. split; [reflexivity|]. split; [intros f []|reflexivity].
    + destruct IH as [[N G]|[f [b [a [E [N G]]]]]]; [left; split; [|exact G]; intros f I; apply in_app_or in I; destruct I as [I|[I|[]]]; [now apply (N f)|congruence]|].
      right. exists f, b, (a ++ [(v, s', f')])%list. split; [rewrite E; now rewrite <- app_assoc|]. split; [|exact G]. intros g I. apply in_app_or in I. destruct I as [I|[I|[]]]; [now apply (N g)|congruence].
    + destruct IH as [[N G]|[f [b [a [E [N G]]]]]]; [left; split; [|exact G]; intros f I; apply in_app_or in I; destruct I as [I|[I|[]]]; [now apply (N f)|congruence]|].
      right. exists f, b, (a ++ [(v', s', f')])%list. split; [rewrite E; now rewrite <- app_assoc|]. split; [|exact G]. intros g I. apply in_app_or in I. destruct I as [I|[I|[]]]; [now apply (N g)|congruence].
Qed.
Print Assumptions C62_library.

Example C62_ex : sst_wf (columns 73) /\ located at_date_line 0 (-180) 6 1 /\ md_valid 6 1 /\ on_earth 0 (-180) /\ get_clim at_date_line (columns 73) = Some 0%Q /\
  (exists v, get_clim_interpolated at_date_line (columns 73) = Ok (Some v) /\ (v == 359 # 2)%Q) /\
  get_field (add_field (add_field (add_field new_library "SST" "mean" 1) "SST" "stdev" 2) "SST" "mean" 3) "SST" "mean" = Ok 3.
Proof.
  split; [split; [now right|split; reflexivity]|]. split; [repeat split|]. split; [apply clim_date_ok_iff; reflexivity|]. split; [repeat split; lra|]. split; [vm_compute; reflexivity|]. split; [|reflexivity].
  eexists. split; [vm_compute; reflexivity|reflexivity].
Qed.
