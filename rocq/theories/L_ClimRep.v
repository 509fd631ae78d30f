(** Lemmas about the lookups that take a report and about the library. *)
Require Import String Ascii ZArith QArith Qround List Bool Lia Lqa.
Require Import Verif.M_Base Verif.L_Base Verif.M_Calendar Verif.S_Calendar Verif.L_Calendar Verif.M_Report Verif.M_Grid Verif.S_Grid Verif.S_Clim Verif.L_Grid Verif.L_Grid2 Verif.L_Clim Verif.L_Clim2 Verif.M_ClimRep.
Import ListNotations.
Open Scope string_scope.
Open Scope Z_scope.

(** The reader of the qc module and that of the class agree on a one degree field of pentads. *)
Lemma sst_value : forall c lat lon m d, cn c = 73 -> cny c = 180 -> md_valid m d -> (-90 <= lat)%Q -> (lat <= 90)%Q -> (-185 <= lon)%Q -> (lon <= 365)%Q ->
  get_sst lat lon m d c = get_value c lat lon m d.
Proof.
  intros c lat lon m d N NY V H1 H2 H3 H4. unfold get_sst. rewrite sst_args_good by assumption. rewrite bind_ok. unfold get_value. rewrite (proj2 (clim_date_ok_iff m d) V). unfold get_tindex, clim_res. rewrite N, NY.
  change (73 =? 1) with false. change (73 =? 365) with false. change (73 =? 73) with true. cbv iota zeta.
  change (lon_to_xindex_res lon (180 / inject_Z 180)) with (lon_to_xindex_res lon 1). change (lat_to_yindex lat (180 / inject_Z 180)) with (lat_to_yindex lat 1).
  destruct (which_pentad m d) as [p|e] eqn:E; cbn [bind]; [|destruct (lon_to_xindex_res lon 1) as [x|e'] eqn:X; cbn [bind]; [reflexivity|]].
  - destruct (lon_to_xindex_res lon 1); reflexivity.
  - destruct (lon_to_xindex_res_cell lon ltac:(lra)) as [x [k [A _]]]. congruence.
Qed.
Lemma sst_outside : forall c lat lon m d, (lat < -90 \/ 90 < lat)%Q -> try_none (get_sst lat lon m d c) = None.
Proof. intros c lat lon m d H. unfold get_sst. rewrite sst_args_bad; [reflexivity|]. intros [_ [A [B _]]]. destruct H; lra. Qed.

Lemma value_ext : forall c la la' lo m d, lat_to_yindex la (clim_res c) = lat_to_yindex la' (clim_res c) -> get_value c la lo m d = get_value c la' lo m d.
Proof. intros c la la' lo m d H. unfold get_value. now rewrite H. Qed.
(** Both ends of the last thousandth of a degree before a pole lie in the same row. *)
Lemma north_row : forall la, (la + (1 # 1000) == 90)%Q -> lat_to_yindex (la + (1 # 1000)) 1 = lat_to_yindex (la - (1 # 1000)) 1.
Proof.
  intros la H. unfold lat_to_yindex. change (Qeqb 1 1) with true. cbv iota zeta.
  rewrite (py_int_comp (90 - (la + (1 # 1000))) 0) by lra. rewrite (py_int_comp (90 - (la - (1 # 1000))) (2 # 1000)) by lra. reflexivity.
Qed.
Lemma south_row : forall la, (la - (1 # 1000) == -90)%Q -> lat_to_yindex (la - (1 # 1000)) 1 = lat_to_yindex (la + (1 # 1000)) 1.
Proof.
  intros la H. unfold lat_to_yindex. change (Qeqb 1 1) with true. cbv iota zeta.
  rewrite (py_int_comp (90 - (la - (1 # 1000))) 180) by lra. rewrite (py_int_comp (90 - (la + (1 # 1000))) (180 - (2 # 1000))) by lra. reflexivity.
Qed.

Lemma interp_same : forall r c la lo m d, lat r = Some la -> lon r = Some lo -> getint r "MO" = Some m -> getint r "DY" = Some d ->
  cn c = 73 -> cny c = 180 -> cnx c = 360 -> md_valid m d -> (-90 <= la)%Q -> (la <= 90)%Q -> (-180 <= lo)%Q -> (lo <= 180)%Q ->
  get_clim_interpolated r c = get_interpolated_value c la lo m d.
Proof.
  intros r c la lo m d R1 R2 R3 R4 N NY NX V H1 H2 H3 H4. unfold get_clim_interpolated. rewrite R1, R2, R3, R4. cbv zeta.
  assert (W : clim_wf c) by (split; [tauto|lia]).
  assert (CR : forall q, lat_to_yindex q (clim_res c) = lat_to_yindex q 1) by (intro q; unfold clim_res; rewrite NY; reflexivity).
  assert (T : forall y x, (-90 <= y)%Q -> (y <= 90)%Q -> (-185 <= x)%Q -> (x <= 365)%Q -> exists v, get_value c y x m d = Ok v /\ try_none (get_sst y x m d c) = v).
  { intros y x A B C D. destruct (get_value_ok c y x m d W V A B ltac:(lra)) as [v E]. exists v. split; [exact E|]. rewrite sst_value by assumption. rewrite E. reflexivity. }
  unfold get_interpolated_value. cbv zeta. set (e := (1 # 1000)%Q) in *.
  (* the four lookups *)
  set (G := fun y x => try_none (get_sst y x m d c)).
  set (P12 := if Qltb (la + e) 90 then let! pert1 := get_value c (la + e) (lo + e) m d in let! pert2 := get_value c (la + e) (lo - e) m d in Ok (pert1, pert2) else Ok (None, None)).
  set (P34 := if Qltb (-90) (la - e) then let! pert3 := get_value c (la - e) (lo + e) m d in let! pert4 := get_value c (la - e) (lo - e) m d in Ok (pert3, pert4) else Ok (None, None)).
  assert (K : exists a b a' b', P12 = Ok (a, b) /\ P34 = Ok (a', b') /\
    is_none a && is_none b && is_none a' && is_none b' = is_none (G (la + e) (lo + e))%Q && is_none (G (la + e) (lo - e))%Q && is_none (G (la - e) (lo + e))%Q && is_none (G (la - e) (lo - e))%Q).
  { unfold P12, P34. destruct (Qltb (la + e) 90) eqn:A; destruct (Qltb (-90) (la - e)) eqn:B; qprop.
    - destruct (T (la + e) (lo + e))%Q as [a [A1 A2]]; try (unfold e in *; lra). destruct (T (la + e) (lo - e))%Q as [b [B1 B2]]; try (unfold e in *; lra).
      destruct (T (la - e) (lo + e))%Q as [a' [A1' A2']]; try (unfold e in *; lra). destruct (T (la - e) (lo - e))%Q as [b' [B1' B2']]; try (unfold e in *; lra).
      exists a, b, a', b'. rewrite A1, B1, A1', B1'. cbn [bind]. split; [reflexivity|]. split; [reflexivity|]. unfold G. rewrite A2, B2, A2', B2'. reflexivity.
    - destruct (T (la + e) (lo + e))%Q as [a [A1 A2]]; try (unfold e in *; lra). destruct (T (la + e) (lo - e))%Q as [b [B1 B2]]; try (unfold e in *; lra).
      exists a, b, None, None. rewrite A1, B1. cbn [bind]. split; [reflexivity|]. split; [reflexivity|]. unfold G. rewrite A2, B2.
      destruct (Qlt_le_dec (la - e) (-90)) as [O|O]; [rewrite !sst_outside by (left; exact O); reflexivity|].
      assert (Z : (la - e == -90)%Q) by lra. pose proof (south_row la Z) as S. fold e in S. rewrite <- !CR in S.
      destruct (T (la - e) (lo + e))%Q as [a' [A1' A2']]; try (unfold e in *; lra). destruct (T (la - e) (lo - e))%Q as [b' [B1' B2']]; try (unfold e in *; lra).
      rewrite A2', B2'. rewrite (value_ext _ _ _ (lo + e)%Q m d S) in A1'. rewrite (value_ext _ _ _ (lo - e)%Q m d S) in B1'. rewrite A1 in A1'. rewrite B1 in B1'. injection A1' as <-. injection B1' as <-. now destruct a, b.
    - destruct (T (la - e) (lo + e))%Q as [a [A1 A2]]; try (unfold e in *; lra). destruct (T (la - e) (lo - e))%Q as [b [B1 B2]]; try (unfold e in *; lra).
      exists None, None, a, b. rewrite A1, B1. cbn [bind]. split; [reflexivity|]. split; [reflexivity|]. unfold G. rewrite A2, B2.
      destruct (Qlt_le_dec 90 (la + e)) as [O|O]; [rewrite !sst_outside by (right; exact O); reflexivity|].
      assert (Z : (la + e == 90)%Q) by lra. pose proof (north_row la Z) as S. fold e in S. rewrite <- !CR in S.
      destruct (T (la + e) (lo + e))%Q as [a' [A1' A2']]; try (unfold e in *; lra). destruct (T (la + e) (lo - e))%Q as [b' [B1' B2']]; try (unfold e in *; lra).
      rewrite A2', B2'. rewrite (value_ext _ _ _ (lo + e)%Q m d S) in A1'. rewrite (value_ext _ _ _ (lo - e)%Q m d S) in B1'. rewrite A1 in A1'. rewrite B1 in B1'. injection A1' as <-. injection B1' as <-. now destruct a, b.
    - exfalso. unfold e in *. lra. }
  destruct K as [a [b [a' [b' [K1 [K2 K3]]]]]]. rewrite K1, K2, !bind_ok. cbn [fst snd]. rewrite K3. unfold G.
  destruct (is_none (try_none (get_sst (la + e) (lo + e) m d c)) && is_none (try_none (get_sst (la + e) (lo - e) m d c)) && is_none (try_none (get_sst (la - e) (lo + e) m d c)) && is_none (try_none (get_sst (la - e) (lo - e) m d c))); [reflexivity|].
  destruct (four_points la lo 1 H1 H2 H3 H4) as [x1 [x2 [y1 [y2 [i [j [A0 [A1 [A2 [A3 [A4 A5]]]]]]]]]]]. rewrite A0, !bind_ok.
  change (negb (1 =? 0)) with true in A4, A5. rewrite andb_true_r in A4, A5.
  assert (Y : (-90 <= y1 /\ y1 <= 90 /\ -90 <= y2 /\ y2 <= 90 /\ -185 <= x1 /\ x1 <= 365 /\ -185 <= x2 /\ x2 <= 365)%Q).
  { assert (J1 : (-90 <= inject_Z j)%Q) by (change (-90)%Q with (inject_Z (-90)); rewrite <- Zle_Qle; lia).
    assert (J2 : (inject_Z j <= 90)%Q) by (change 90%Q with (inject_Z 90); rewrite <- Zle_Qle; lia).
    assert (B2 : (-90 <= y2 /\ y2 <= 90)%Q).
    { rewrite A4. destruct (j =? 90) eqn:E; [split; lra|]. assert (J3 : (inject_Z j <= 89)%Q) by (change 89%Q with (inject_Z 89); rewrite <- Zle_Qle; lia). split; lra. }
    assert (B1 : (-90 <= y1 /\ y1 <= 90)%Q).
    { rewrite A5. destruct (Qeqb la (-(179 # 2))); [cbn [orb]; split; lra|]. cbn [orb]. destruct (j =? -90) eqn:E; [split; lra|]. assert (J3 : (-89 <= inject_Z j)%Q) by (change (-89)%Q with (inject_Z (-89)); rewrite <- Zle_Qle; lia). split; lra. }
    destruct A1 as [_ [A1 [A1' A1'']]]. repeat split; try apply B1; try apply B2; lra. }
  destruct Y as [Y1 [Y2 [Y3 [Y4 [X1 [X2 [X3 X4]]]]]]]. rewrite !sst_value by assumption. reflexivity.
Qed.

Lemma assoc_change : forall A k (g : A -> A) l k', assoc k' (change k g l) = if String.eqb k k' then match assoc k' l with Some v => Some (g v) | None => None end else assoc k' l.
Proof.
  intros A k g l k'. induction l as [|[j v] l IH]; [now destruct (String.eqb k k')|]. cbn [change assoc]. destruct (String.eqb_spec k j) as [->|K]; cbn [assoc].
  - rewrite (String.eqb_sym j k'). now destruct (String.eqb_spec k' j) as [->|N].
  - rewrite IH. destruct (String.eqb_spec k' j) as [->|N]; [|reflexivity]. destruct (String.eqb_spec k j); [contradiction|reflexivity].
Qed.
Lemma field_of_add : forall A (lib : library A) v s f v' s',
  get_field (add_field lib v s f) v' s' = if String.eqb v v' && String.eqb s s' then Ok f else get_field lib v' s'.
Proof.
  intros A lib v s f v' s'. unfold get_field, add_field. destruct (assoc v lib) as [d|] eqn:D.
  - rewrite assoc_change. destruct (String.eqb_spec v v') as [<-|N]; [|reflexivity]. rewrite D. unfold get_statistic, add_statistic. cbn [assoc andb]. rewrite (String.eqb_sym s' s). now destruct (String.eqb s s').
  - cbn [assoc]. rewrite (String.eqb_sym v' v). destruct (String.eqb_spec v v') as [<-|N]; [|reflexivity]. rewrite D. unfold get_statistic, add_statistic. cbn [assoc andb]. rewrite (String.eqb_sym s' s). now destruct (String.eqb s s').
Qed.
