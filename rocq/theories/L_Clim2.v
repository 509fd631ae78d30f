(** Lemmas about the lookups of qc.py on gridded fields, and range corollaries. *)
Require Import String ZArith QArith Qround Qabs List Bool Lia Lqa.
Require Import ZifyBool.
Require Import Verif.M_Base Verif.L_Base Verif.M_Calendar Verif.S_Calendar Verif.L_Calendar Verif.L_Calendar2
  Verif.M_Grid Verif.S_Grid Verif.S_Clim Verif.L_Grid Verif.L_Grid2 Verif.L_Clim.
Import ListNotations.
Open Scope Z_scope.

Lemma interp_field_range : forall c lat lon m d lo hi, clim_wf c -> cny c = 180 -> md_valid m d ->
  (-90 <= lat)%Q -> (lat <= 90)%Q -> (-180 <= lon)%Q -> (lon <= 180)%Q -> ~ (lat == -(179 # 2))%Q ->
  (forall t y x v, slice (cn c) m d t -> cval c t y x = Some v -> (lo <= v /\ v <= hi)%Q) ->
  get_interpolated_value c lat lon m d = Ok None \/
  exists v, get_interpolated_value c lat lon m d = Ok (Some v) /\ (lo <= v /\ v <= hi)%Q.
Proof.
  intros c lat lon m d lo hi W Hn Hv H1 H2 H3 H4 Hs HB.
  destruct (interp_one_degree c lat lon m d W Hn Hv H1 H2 H3 H4 Hs) as [[_ E]|[_ [v [x1 [x2 [y1 [y2 [E [F G]]]]]]]]];
    [now left|right]. exists v. split; [exact E|].
  assert (K : forall y x w, (y == y1 \/ y == y2)%Q -> (x == x1 \/ x == x2)%Q -> corner c m d y x = Some w -> (lo <= w /\ w <= hi)%Q).
  { intros y x w Hy Hx K.
    destruct (four_points lat lon 1 H1 H2 H3 H4) as [x1' [x2' [y1' [y2' [i [j [A0 [A1 [A2 [A3 [A4 A5]]]]]]]]]]].
    rewrite F in A0. injection A0 as <- <- <- <-.
    assert (JJ : (-90 <= inject_Z j /\ inject_Z j <= 90)%Q).
    { split; [apply (inject_Z_le (-90))|apply (inject_Z_le j 90)]; lia. }
    replace (Qeqb lat (-(179 # 2))) with false in A5 by (symmetry; qprop; exact Hs). cbn [orb] in A5.
    change (negb (1 =? 0)) with true in A4, A5. rewrite andb_true_r in A4, A5.
    assert (Y : (-90 <= y /\ y <= 90)%Q).
    { assert (Y1 : (-90 <= y1 /\ y1 <= 90)%Q).
      { destruct (j =? -90) eqn:E1; rewrite A5; [split; lra|].
        assert (-89 <= inject_Z j)%Q by (apply (inject_Z_le (-89)); lia). split; lra. }
      assert (Y2 : (-90 <= y2 /\ y2 <= 90)%Q).
      { destruct (j =? 90) eqn:E1; rewrite A4; [split; lra|].
        assert (inject_Z j <= 89)%Q by (apply (inject_Z_le j 89); lia). split; lra. }
      destruct Hy as [Hy|Hy]; rewrite Hy; assumption. }
    destruct (get_value_spec c y x m d W Hv) as [t [yy [xx [G1 [G2 _]]]]]; try lra.
    unfold corner in K. rewrite G1 in K. cbn [try_none] in K. exact (HB t yy xx w G2 K). }
  destruct G as [[l [[L|[L|[L|L]]] L']] [h [[U|[U|[U|U]]] U']]];
    apply K in L; try (left; reflexivity); try (right; reflexivity);
    apply K in U; try (left; reflexivity); try (right; reflexivity); lra.
Qed.

Lemma sst_args_good : forall lonmin lonmax lat lon m d, md_valid m d ->
  (-90 <= lat)%Q -> (lat <= 90)%Q -> (lonmin <= lon)%Q -> (lon <= lonmax)%Q ->
  sst_args_ok lonmin lonmax lat lon m d = Ok tt.
Proof.
  intros lonmin lonmax lat lon m d Hv H1 H2 H3 H4. unfold sst_args_ok.
  destruct Hv as [n [M B]]; cbn [yr mo dy] in *. pose proof (month_has_range _ _ _ M) as R.
  rewrite !py_assert_true by (first [lia | qprop; assumption]). rewrite !bind_ok.
  destruct (get_ml_2004 m ltac:(lia)) as [n' [E M']]. rewrite E, bind_ok.
  rewrite (month_has_det _ _ _ _ M' M). rewrite !py_assert_true by lia. reflexivity.
Qed.

Lemma sst_args_bad : forall lonmin lonmax lat lon m d,
  ~ (md_valid m d /\ (-90 <= lat)%Q /\ (lat <= 90)%Q /\ (lonmin <= lon)%Q /\ (lon <= lonmax)%Q) ->
  sst_args_ok lonmin lonmax lat lon m d = Err AssertionError.
Proof.
  intros lonmin lonmax lat lon m d H. unfold sst_args_ok.
  destruct (Qleb (-90) lat) eqn:E1; [|reflexivity]. destruct (Qleb lat 90) eqn:E2; [|reflexivity].
  destruct (Qleb lonmin lon) eqn:E3; [|reflexivity]. destruct (Qleb lon lonmax) eqn:E4; [|reflexivity].
  destruct (1 <=? m) eqn:E5; [|reflexivity]. destruct (m <=? 12) eqn:E6; [|reflexivity].
  rewrite !(py_assert_true true eq_refl), !bind_ok.
  destruct (get_ml_2004 m ltac:(lia)) as [n [E M]]. rewrite E, bind_ok.
  destruct (1 <=? d) eqn:E7; [|reflexivity]. destruct (d <=? n) eqn:E8; [|reflexivity].
  exfalso. apply H. qprop. split; [|auto]. exists n. cbn [yr mo dy]. split; [exact M|lia].
Qed.

(** A pentad (73) or single field on the one-degree grid. *)
Definition sst_wf (c : clim) : Prop := (cn c = 1 \/ cn c = 73) /\ cny c = 180 /\ cnx c = 360.

Lemma get_sst_spec : forall c lat lon m d, sst_wf c -> md_valid m d ->
  (-90 <= lat)%Q -> (lat <= 90)%Q -> (-180 <= lon)%Q -> (lon <= 360)%Q ->
  exists t y x, get_sst lat lon m d c = Ok (cval c t y x) /\
    slice (cn c) m d t /\ row_has 180 y lat /\ col_has 180 x lon.
Proof.
  intros c lat lon m d [Wc [Wy Wx]] Hv H1 H2 H3 H4. unfold get_sst.
  rewrite sst_args_good by (try assumption; lra). rewrite bind_ok.
  assert (W : clim_wf c) by (split; [tauto|lia]).
  pose proof (lat_row 180 lat ltac:(lia) H1 H2) as R.
  destruct (lon_col 180 lon ltac:(lia) ltac:(lra)) as [x [X1 X2]].
  assert (RR : row_has 180 (lat_to_yindex lat 1) lat).
  { destruct (lat_to_yindex_cell lat 1 180 ltac:(lia) one_res H1 H2) as [A [B [C _]]].
    assert (S1 : (step 180 == 1)%Q) by reflexivity. split; [lia|]. rewrite S1. split; assumption. }
  assert (XX : exists x, lon_to_xindex_res lon 1 = Ok x /\ col_has 180 x lon).
  { destruct (lon_to_xindex_res_cell lon ltac:(lra)) as [x' [k [A [B [C D]]]]]. exists x'. split; [exact A|].
    assert (S1 : (step 180 == 1)%Q) by reflexivity. split; [lia|]. exists k. rewrite S1. split; lra. }
  destruct XX as [x' [X1' X2']].
  destruct (cn c =? 1) eqn:E.
  - unfold get_sst_single_field. rewrite !py_assert_true by (qprop; assumption). rewrite !bind_ok.
    cbv zeta. rewrite X1', bind_ok. exists 0, (lat_to_yindex lat 1), x'.
    destruct RR as [R1 R2]. destruct X2' as [C1 C2].
    rewrite clim_read_in by lia. split; [reflexivity|]. split; [apply slice_model; repeat split; lia|].
    split; split; try lia; assumption.
  - destruct (tindex_total c m d W Hv) as [t [T1 T2]].
    assert (C73 : cn c = 73) by lia. pose proof (proj1 (slice_model _ _ _ _) T2) as [Tr [_ [T3 _]]]. rewrite (T3 C73), bind_ok.
    cbv zeta. rewrite X1', bind_ok. replace (t + 1 - 1) with t by lia.
    exists t, (lat_to_yindex lat 1), x'.
    destruct RR as [R1 R2]. destruct X2' as [C1 C2].
    rewrite clim_read_in by lia. split; [reflexivity|]. split; [exact T2|].
    split; split; try lia; assumption.
Qed.

Lemma get_sst_bad : forall c lat lon m d,
  ~ (md_valid m d /\ (-90 <= lat)%Q /\ (lat <= 90)%Q /\ (-185 <= lon)%Q /\ (lon <= 365)%Q) ->
  get_sst lat lon m d c = Err AssertionError /\ get_sst_daily lat lon m d c = Err AssertionError.
Proof.
  intros c lat lon m d H. unfold get_sst, get_sst_daily. rewrite sst_args_bad by exact H. split; reflexivity.
Qed.

Lemma get_sst_daily_spec : forall c lat lon m d, cn c = 365 -> cny c = 180 -> cnx c = 360 -> md_valid m d ->
  (-90 <= lat)%Q -> (lat <= 90)%Q -> (-180 <= lon)%Q -> (lon <= 180)%Q ->
  exists t y x, get_sst_daily lat lon m d c = Ok (cval c t y x) /\
    slice 365 m d t /\ row_has 180 y lat /\ col_has_closed 180 x lon.
Proof.
  intros c lat lon m d Wc Wy Wx Hv H1 H2 H3 H4. unfold get_sst_daily.
  rewrite sst_args_good by (try assumption; lra). rewrite bind_ok.
  destruct (day_in_year_total m d Hv) as [n [A B]]. rewrite A, bind_ok.
  assert (E1 : (1 == 90 / inject_Z 90)%Q) by reflexivity.
  destruct (mds_lat_cell 1 90 ltac:(lia) E1 ltac:(lra) lat H1 H2) as [C [D E]].
  destruct (mds_lon_cell 1 90 ltac:(lia) E1 ltac:(lra) lon H3 H4) as [F [G H]].
  exists (n - 1), (mds_lat_to_yindex lat 1), (mds_lon_to_xindex lon 1).
  rewrite clim_read_in by lia. split; [reflexivity|].
  assert (S1 : (step 180 == 1)%Q) by reflexivity.
  split; [|split; (split; [lia|]); rewrite S1; split; assumption].
  apply slice_model. split; [lia|]. split; [lia|]. split; [lia|]. intros _. now replace (n - 1 + 1) with n by lia.
Qed.

Lemma get_sst_daily_raises : forall c lat lon m d, cn c = 365 -> cny c = 180 -> cnx c = 360 -> md_valid m d ->
  (-90 <= lat)%Q -> (lat <= 90)%Q -> (180 < lon)%Q -> (lon <= 360)%Q ->
  get_sst_daily lat lon m d c = Err IndexError.
Proof.
  intros c lat lon m d Wc Wy Wx Hv H1 H2 H3 H4. unfold get_sst_daily.
  rewrite sst_args_good by (try assumption; lra). rewrite bind_ok.
  destruct (day_in_year_total m d Hv) as [n [A B]]. rewrite A, bind_ok.
  assert (E1 : (1 == 90 / inject_Z 90)%Q) by reflexivity.
  destruct (mds_lat_cell 1 90 ltac:(lia) E1 ltac:(lra) lat H1 H2) as [C [D E]].
  pose proof (mds_lon_out_of_range 1 90 ltac:(lia) E1 ltac:(lra) lon H3 H4) as F.
  unfold clim_read. rewrite (np_index_in (cn c)) by lia. rewrite bind_ok.
  rewrite (np_index_in (cny c)) by lia. rewrite bind_ok. rewrite np_index_out by lia. reflexivity.
Qed.

Lemma get_hires_sst_spec : forall c lat lon m d, cn c = 365 -> cny c = 720 -> cnx c = 1440 -> md_valid m d ->
  (-90 <= lat)%Q -> (lat <= 90)%Q -> (-180 <= lon)%Q -> (lon <= 360)%Q ->
  exists t y x, slice 365 m d t /\ row_has 720 y lat /\ col_has 720 x lon /\
    (forall v, get_hires_sst lat lon m d c = Ok (Some v) <-> cval c t y x = Some v /\ ~ (v == -999)%Q) /\
    (get_hires_sst lat lon m d c = Ok None <-> (cval c t y x = None \/ exists v, cval c t y x = Some v /\ (v == -999)%Q)).
Proof.
  intros c lat lon m d Wc Wy Wx Hv H1 H2 H3 H4. unfold get_hires_sst.
  rewrite sst_args_good by (try assumption; lra). rewrite bind_ok.
  destruct (day_in_year_total m d Hv) as [n [A B]]. rewrite A, bind_ok. cbv zeta.
  assert (E4 : (1 # 4 == 180 / inject_Z 720)%Q) by reflexivity.
  destruct (lat_to_yindex_cell lat (1 # 4) 720 ltac:(lia) E4 H1 H2) as [C [D [E _]]].
  destruct (lon_to_xindex_cell lon (1 # 4) 720 ltac:(lia) E4 ltac:(lra)) as [x [k [F [G [H I]]]]].
  unfold lon_to_xindex_res. rewrite F, bind_ok.
  rewrite clim_read_in by lia. rewrite bind_ok.
  exists (n - 1), (lat_to_yindex lat (1 # 4)), x.
  assert (S4 : (step 720 == 1 # 4)%Q) by reflexivity.
  split. { apply slice_model. split; [lia|]. split; [lia|]. split; [lia|]. intros _. now replace (n - 1 + 1) with n by lia. }
  split. { split; [lia|]. rewrite S4. split; assumption. }
  split. { split; [lia|]. exists k. rewrite S4. split; assumption. }
  destruct (cval c (n - 1) (lat_to_yindex lat (1 # 4)) x) as [q|].
  - destruct (Qeqb q (-999)) eqn:Q1; qprop.
    + split; [intro v; split; [discriminate|intros [K1 K2]; congruence]|].
      split; [intros _; right; exists q; auto|auto].
    + split; [intro v; split; [intro K; injection K as <-; auto|intros [K1 K2]; congruence]|].
      split; [discriminate|intros [K|[v [K1 K2]]]; congruence].
  - split; [intro v; split; [discriminate|intros [K _]; discriminate]|]. split; auto.
Qed.

(* ---- packaged statements ---- *)

Lemma bilinear_bounded : forall x1 x2 y1 y2 x y q11 q12 q21 q22,
  (x1 <= x)%Q -> (x <= x2)%Q -> (y1 <= y)%Q -> (y <= y2)%Q -> (x1 < x2)%Q -> (y1 < y2)%Q ->
  exists v, bilinear_interp x1 x2 y1 y2 x y (Some q11) (Some q12) (Some q21) (Some q22) = Ok v /\
  forall lo hi, (lo <= q11 /\ lo <= q12 /\ lo <= q21 /\ lo <= q22)%Q ->
                (q11 <= hi /\ q12 <= hi /\ q21 <= hi /\ q22 <= hi)%Q -> (lo <= v /\ v <= hi)%Q.
Proof.
  intros. eexists. split; [now apply bilinear_value|]. intros lo hi L H'. now apply bil_bounds.
Qed.

Lemma bilinear_exact_fn : forall x1 x2 y1 y2 x y a b c d,
  (x1 <= x)%Q -> (x <= x2)%Q -> (y1 <= y)%Q -> (y <= y2)%Q -> (x1 < x2)%Q -> (y1 < y2)%Q ->
  let f u v := (a + b * u + c * v + d * u * v)%Q in
  exists v, bilinear_interp x1 x2 y1 y2 x y (Some (f x1 y1)) (Some (f x1 y2)) (Some (f x2 y1)) (Some (f x2 y2)) = Ok v /\
            (v == f x y)%Q.
Proof.
  intros x1 x2 y1 y2 x y a b c d H1 H2 H3 H4 H5 H6 f. eexists. split; [now apply bilinear_value|].
  exact (bilinear_exact x1 x2 y1 y2 x y a b c d H5 H6).
Qed.

Lemma bilinear_corner_values : forall x1 x2 y1 y2 q11 q12 q21 q22, (x1 < x2)%Q -> (y1 < y2)%Q ->
  let f x y := bilinear_interp x1 x2 y1 y2 x y (Some q11) (Some q12) (Some q21) (Some q22) in
  (exists v, f x1 y1 = Ok v /\ (v == q11)%Q) /\ (exists v, f x1 y2 = Ok v /\ (v == q12)%Q) /\
  (exists v, f x2 y1 = Ok v /\ (v == q21)%Q) /\ (exists v, f x2 y2 = Ok v /\ (v == q22)%Q).
Proof.
  intros x1 x2 y1 y2 q11 q12 q21 q22 H1 H2 f. unfold f.
  destruct (bilinear_corners x1 x2 y1 y2 q11 q12 q21 q22 H1 H2) as [A [B [C D]]].
  repeat split; eexists; (split; [apply bilinear_value; lra|assumption]).
Qed.

Lemma four_points_bracket : forall lat lon,
  (-90 <= lat)%Q -> (lat <= 90)%Q -> (-180 <= lon)%Q -> (lon <= 180)%Q -> ~ (lat == -(179 # 2))%Q ->
  exists x1 x2 y1 y2 i j, get_four_surrounding_points lat lon 0 = Ok (x1, x2, y1, y2) /\
    (x1 == inject_Z i + (1 # 2) /\ x2 == x1 + 1 /\ x1 <= lon /\ lon <= x2)%Q /\
    (y1 == inject_Z j + (1 # 2) /\ y2 == y1 + 1 /\ y1 <= lat /\ lat <= y2)%Q.
Proof.
  intros lat lon H1 H2 H3 H4 Hs.
  destruct (four_points lat lon 0 H1 H2 H3 H4) as [x1 [x2 [y1 [y2 [i [j [A0 [A1 [A2 [A3 [A4 A5]]]]]]]]]]].
  rewrite andb_false_r in A4. rewrite andb_false_r, orb_false_r in A5.
  replace (Qeqb lat (-(179 # 2))) with false in A5 by (symmetry; qprop; exact Hs).
  exists x1, x2, y1, y2, i, (j - 1). split; [exact A0|]. rewrite inject_Z_minus. change (inject_Z 1) with 1%Q.
  split; repeat split; lra.
Qed.

Lemma four_points_lon_same : forall lat lon a b x1 x2 y1 y2 x1' x2' y1' y2',
  get_four_surrounding_points lat lon a = Ok (x1, x2, y1, y2) ->
  get_four_surrounding_points lat lon b = Ok (x1', x2', y1', y2') -> x1 = x1' /\ x2 = x2'.
Proof.
  intros lat lon a b x1 x2 y1 y2 x1' x2' y1' y2'. unfold get_four_surrounding_points.
  destruct (Qleb (-90) lat && Qleb lat 90); [|discriminate].
  destruct (Qleb (-180) lon && Qleb lon 180); [|discriminate].
  cbn [py_assert bind].
  destruct (lon_to_xindex_res (lon + (1 # 2)) 1) as [k|]; [|discriminate]. cbn [bind].
  destruct (xindex_to_lon k 1) as [xx|]; [|discriminate]. cbn [bind].
  destruct (lon_to_xindex_res (lon - (1 # 2)) 1) as [k'|]; [|discriminate]. cbn [bind].
  destruct (xindex_to_lon k' 1) as [xx'|]; [|discriminate]. cbn [bind].
  intros A B.
  repeat match type of A with bind ?e _ = _ => destruct e; [cbn [bind] in A|discriminate A] end.
  repeat match type of B with bind ?e _ = _ => destruct e; [cbn [bind] in B|discriminate B] end.
  split; congruence.
Qed.

Lemma four_points_on_grid : forall lat lon max90, max90 <> 0 ->
  (-90 <= lat)%Q -> (lat <= 90)%Q -> (-180 <= lon)%Q -> (lon <= 180)%Q -> ~ (lat == -(179 # 2))%Q ->
  exists x1 x2 y1 y2 y1' y2', get_four_surrounding_points lat lon max90 = Ok (x1, x2, y1, y2) /\
    get_four_surrounding_points lat lon 0 = Ok (x1, x2, y1', y2') /\
    ((y1' < -90)%Q -> (y1 == -(179 # 2))%Q) /\ ((-90 <= y1')%Q -> (y1 == y1')%Q) /\
    ((90 < y2')%Q -> (y2 == 179 # 2)%Q) /\ ((y2' <= 90)%Q -> (y2 == y2')%Q).
Proof.
  intros lat lon max90 Hm H1 H2 H3 H4 Hs.
  destruct (four_points lat lon max90 H1 H2 H3 H4) as [x1 [x2 [y1 [y2 [i [j [A0 [A1 [A2 [A3 [A4 A5]]]]]]]]]]].
  destruct (four_points lat lon 0 H1 H2 H3 H4) as [x1' [x2' [y1' [y2' [i' [j' [B0 [B1 [B2 [B3 [B4 B5]]]]]]]]]]].
  destruct (four_points_lon_same _ _ _ _ _ _ _ _ _ _ _ _ A0 B0) as [<- <-].
  exists x1, x2, y1, y2, y1', y2'. split; [exact A0|]. split; [exact B0|].
  assert (j' = j). { assert (j' - j = 0); [|lia]. apply inj_eq_zero; rewrite inject_Z_minus; lra. } subst j'.
  rewrite andb_false_r in B4. rewrite andb_false_r, orb_false_r in B5.
  replace (Qeqb lat (-(179 # 2))) with false in A5, B5 by (symmetry; qprop; exact Hs). cbn [orb] in A5.
  replace (max90 =? 0) with false in A4, A5 by lia. cbn [negb] in *. rewrite andb_true_r in A4, A5.
  destruct (j =? -90) eqn:E1, (j =? 90) eqn:E2.
  - lia.
  - assert (j = -90) by lia. subst j. change (inject_Z (-90)) with (-90)%Q in *. repeat split; intros; lra.
  - assert (j = 90) by lia. subst j. change (inject_Z 90) with 90%Q in *. repeat split; intros; lra.
  - assert (-89 <= inject_Z j /\ inject_Z j <= 89)%Q.
    { split; [apply (inject_Z_le (-89))|apply (inject_Z_le j 89)]; lia. }
    repeat split; intros; lra.
Qed.

Lemma four_points_degenerate : forall lon max90, (-180 <= lon)%Q -> (lon <= 180)%Q ->
  exists x1 x2 y1 y2, get_four_surrounding_points (-(179 # 2)) lon max90 = Ok (x1, x2, y1, y2) /\ (y1 == y2)%Q.
Proof.
  intros lon max90 H3 H4.
  destruct (four_points (-(179 # 2)) lon max90 ltac:(lra) ltac:(lra) H3 H4) as [x1 [x2 [y1 [y2 [i [j [A0 [A1 [A2 [A3 [A4 A5]]]]]]]]]]].
  exists x1, x2, y1, y2. split; [exact A0|].
  assert (j = -90). { assert (j + 90 = 0); [|lia]. apply inj_eq_zero; rewrite inject_Z_plus; change (inject_Z 90) with 90%Q; lra. }
  subst j. change (Qeqb (-(179 # 2)) (-(179 # 2))) with true in A5. cbn [orb] in A5.
  change (-90 =? 90) with false in A4. cbn [andb] in A4. change (inject_Z (-90)) with (-90)%Q in A4. lra.
Qed.

Lemma missing_mean_fold : forall l r n,
  exists vs, (forall v, In v vs <-> In (Some v) l) /\
    length vs = length (filter (fun o => negb (is_none o)) l) /\
    let p := fold_left (fun (acc : Q * Q) val =>
      match val with Some v => (fst acc + v, snd acc + 1)%Q | None => acc end) l (r, n) in
    (fst p == r + fold_right Qplus 0 vs)%Q /\ (snd p == n + inject_Z (Z.of_nat (length vs)))%Q.
Proof.
  induction l as [|o l IH]; intros r n.
  - exists []. split; [intro v; split; intros []|]. split; [reflexivity|]. cbn [fold_left fst snd fold_right length]. change (inject_Z (Z.of_nat 0)) with 0%Q. split; ring.
  - destruct o as [q|].
    + destruct (IH (r + q)%Q (n + 1)%Q) as [vs [A [B [C D]]]]. exists (q :: vs). split; [|split; [|split]].
      * intro v. split; intros [H|H]; [left; congruence|right; now apply A|left; congruence|right; now apply A].
      * cbn. now rewrite B.
      * cbn [fold_left fst snd]. rewrite C. cbn. ring.
      * cbn [fold_left fst snd]. rewrite D. cbn [length]. rewrite Nat2Z.inj_succ. unfold Z.succ. rewrite inject_Z_plus.
        change (inject_Z 1) with 1%Q. ring.
    + destruct (IH r n) as [vs [A [B [C D]]]]. exists vs. split; [|split; [|split]].
      * intro v. rewrite A. split; [now right|intros [H|H]; [discriminate|exact H]].
      * cbn. exact B.
      * exact C.
      * exact D.
Qed.

Lemma missing_mean_spec : forall l,
  (missing_mean l = None <-> forall v, ~ In (Some v) l) /\
  (forall r, missing_mean l = Some r ->
     exists vs, vs <> [] /\ (forall v, In v vs <-> In (Some v) l) /\ length vs = length (filter (fun o => negb (is_none o)) l) /\
       (r * inject_Z (Z.of_nat (length vs)) == fold_right Qplus 0 vs)%Q).
Proof.
  intro l. destruct (missing_mean_fold l 0 0) as [vs [A [B [C D]]]].
  unfold missing_mean. destruct (fold_left _ l (0, 0)%Q) as [s n]. cbn [fst snd] in C, D.
  destruct (Qeqb n 0) eqn:E; qprop.
  - assert (vs = []).
    { destruct vs as [|v vs]; [reflexivity|]. exfalso.
      assert (0 < inject_Z (Z.of_nat (length (v :: vs))))%Q by (apply injZ_pos; cbn [length]; lia). lra. }
    subst vs. split; [split; [intros _ v Hv; apply A in Hv; destruct Hv|reflexivity]|discriminate].
  - assert (vs <> []).
    { intro K. subst vs. apply E. rewrite D. reflexivity. }
    split.
    + split; [discriminate|]. intro K. exfalso. destruct vs as [|v vs]; [tauto|]. apply (K v). apply A. now left.
    + intros r H0. injection H0 as <-. exists vs. split; [exact H|]. split; [exact A|]. split; [exact B|].
      assert (n == inject_Z (Z.of_nat (length vs)))%Q by lra. rewrite <- H0.
      assert (s == fold_right Qplus 0 vs)%Q by lra. rewrite <- H1. field. exact E.
Qed.

(** One quarter-degree cell with data at (0.125N, 0.125E). *)
Definition fine_clim : clim :=
  {| cn := 1; cny := 720; cnx := 1440; cval := fun t y x => if (y =? 359) && (x =? 720) then Some 1%Q else None |}.
Lemma interp_fine_grid : exists c lat lon m d, clim_wf c /\ cny c = 720 /\ md_valid m d /\
  (exists v, get_value c lat lon m d = Ok (Some v)) /\
  (-89 <= lat /\ lat <= 90 /\ -180 <= lon /\ lon <= 180)%Q /\
  get_interpolated_value c lat lon m d = Err AssertionError.
Proof.
  exists fine_clim, (1 # 8)%Q, (1 # 8)%Q, 1, 1.
  split; [split; [now left|split; reflexivity]|]. split; [reflexivity|].
  split; [apply clim_date_ok_iff; reflexivity|].
  split; [exists 1%Q; vm_compute; reflexivity|].
  split; [repeat split; lra|]. vm_compute. reflexivity.
Qed.

Lemma bil_compat : forall x1 x2 y1 y2 x y a b c d a' b' c' d', (a == a')%Q -> (b == b')%Q -> (c == c')%Q -> (d == d')%Q ->
  (bil x1 x2 y1 y2 x y a b c d == bil x1 x2 y1 y2 x y a' b' c' d')%Q.
Proof. intros. unfold bil. rewrite H, H0, H1, H2. reflexivity. Qed.

(** A field sampled from a bilinear function at the cell centres is interpolated exactly. *)
Lemma interp_exact : forall c lat lon m d t a b e g, clim_wf c -> cny c = 180 -> md_valid m d -> slice (cn c) m d t ->
  (-(179 # 2) < lat)%Q -> (lat < 179 # 2)%Q -> (-(359 # 2) < lon)%Q -> (lon < 359 # 2)%Q ->
  let f u v := (a + b * u + e * v + g * u * v)%Q in
  (forall y x, 0 <= y < 180 -> 0 <= x < 360 ->
     exists w, cval c t y x = Some w /\ (w == f (90 - inject_Z y - (1 # 2)) (inject_Z x - 180 + (1 # 2)))%Q) ->
  exists v, get_interpolated_value c lat lon m d = Ok (Some v) /\ (v == f lat lon)%Q.
Proof.
  intros c lat lon m d t a b e g W Hn Hv Ht H1 H2 H3 H4 f Hf.
  destruct (four_points lat lon 1 ltac:(lra) ltac:(lra) ltac:(lra) ltac:(lra)) as [x1 [x2 [y1 [y2 [i [j [A0 [A1 [A2 [A3 [A4 A5]]]]]]]]]]].
  destruct (four_points lat lon 0 ltac:(lra) ltac:(lra) ltac:(lra) ltac:(lra)) as [x1' [x2' [y1' [y2' [i' [j' [B0 [B1 [B2 [B3 [B4 B5]]]]]]]]]]].
  destruct (four_points_lon_same _ _ _ _ _ _ _ _ _ _ _ _ A0 B0) as [<- <-].
  assert (j' = j). { assert (j' - j = 0); [|lia]. apply inj_eq_zero; rewrite inject_Z_minus; lra. } subst j'.
  assert (J : -89 <= j <= 89).
  { assert (-90 < j /\ j < 90); [|lia]. split; [apply (inject_Z_lt_inv (-90) j)|apply (inject_Z_lt_inv j 90)];
    [change (inject_Z (-90)) with (-90)%Q|change (inject_Z 90) with 90%Q]; lra. }
  assert (I : -180 <= i <= 178).
  { assert (-181 < i /\ i < 179); [|lia]. split; [apply (inject_Z_lt_inv (-181) i)|apply (inject_Z_lt_inv i 179)];
    [change (inject_Z (-181)) with (-181)%Q|change (inject_Z 179) with 179%Q]; lra. }
  rewrite andb_false_r in B4. rewrite andb_false_r, orb_false_r in B5.
  assert (Hs : ~ (lat == -(179 # 2))%Q) by lra.
  replace (Qeqb lat (-(179 # 2))) with false in A5, B5 by (symmetry; qprop; exact Hs). cbn [orb] in A5.
  replace (j =? 90) with false in A4 by lia. replace (j =? -90) with false in A5 by lia. cbn [andb] in A4, A5.
  (* the corner lookups *)
  assert (Q0 : forall y x yy xx, 0 <= y < 180 -> 0 <= x < 360 ->
     (yy == 90 - inject_Z y - (1 # 2))%Q -> (xx == inject_Z x - 180 + (1 # 2))%Q ->
     exists w, corner c m d yy xx = Some w /\ (w == f yy xx)%Q).
  { intros y x yy xx Hy Hx E1 E2.
    assert (0 <= inject_Z y /\ inject_Z y <= 179)%Q.
    { split; [apply (inject_Z_le 0)|apply (inject_Z_le y 179)]; lia. }
    assert (0 <= inject_Z x)%Q by (apply (inject_Z_le 0); lia).
    destruct (get_value_spec c yy xx m d W Hv ltac:(lra) ltac:(lra) ltac:(lra)) as [t' [y' [x' [K1 [K2 [K3 K4]]]]]].
    rewrite Hn in K3, K4.
    assert (t' = t) by (apply (slice_det (cn c) m d); [apply W|exact K2|exact Ht]).
    assert (y' = y) by (apply (row_centre y y' yy K3 E1)).
    assert (x' = x).
    { apply (col_centre x x' xx 0 ltac:(lia) K4). change (inject_Z 0) with 0%Q. lra. }
    subst. destruct (Hf y x Hy Hx) as [w [C1 C2]]. exists w. unfold corner. rewrite K1. split; [exact C1|].
    rewrite C2. unfold f. clear -E1 E2. setoid_rewrite E1. setoid_rewrite E2. reflexivity. }
  assert (Ej : forall k, (inject_Z (k - j) == inject_Z k - inject_Z j)%Q) by (intro; apply inject_Z_minus).
  assert (Ei : forall k, (inject_Z (i + k) == inject_Z i + inject_Z k)%Q) by (intro; rewrite inject_Z_plus; reflexivity).
  pose proof (Ej 90) as Ej90. pose proof (Ej 89) as Ej89. pose proof (Ei 180) as Ei180. pose proof (Ei 181) as Ei181.
  change (inject_Z 90) with 90%Q in Ej90. change (inject_Z 89) with 89%Q in Ej89.
  change (inject_Z 180) with 180%Q in Ei180. change (inject_Z 181) with 181%Q in Ei181.
  destruct (Q0 (90 - j) (i + 180) y1 x1 ltac:(lia) ltac:(lia) ltac:(lra) ltac:(lra)) as [w11 [C11 D11]].
  destruct (Q0 (89 - j) (i + 180) y2 x1 ltac:(lia) ltac:(lia) ltac:(lra) ltac:(lra)) as [w12 [C12 D12]].
  destruct (Q0 (90 - j) (i + 181) y1 x2 ltac:(lia) ltac:(lia) ltac:(lra) ltac:(lra)) as [w21 [C21 D21]].
  destruct (Q0 (89 - j) (i + 181) y2 x2 ltac:(lia) ltac:(lia) ltac:(lra) ltac:(lra)) as [w22 [C22 D22]].
  destruct (interp_reduce c lat lon m d W Hv ltac:(lra) ltac:(lra) ltac:(lra) ltac:(lra)) as [[N _]|[_ E]].
  - exfalso. apply N. unfold some_pert, pert_points.
    replace (Qltb (lat + (1 # 1000)) 90) with true by (symmetry; qprop; lra).
    destruct (get_value_spec c (lat + (1 # 1000)) (lon + (1 # 1000)) m d W Hv ltac:(lra) ltac:(lra) ltac:(lra)) as [t' [y' [x' [K1 [K2 [K3 K4]]]]]].
    assert (t' = t) by (apply (slice_det (cn c) m d); [apply W|exact K2|exact Ht]). subst t'.
    rewrite Hn in K3, K4.
    destruct (Hf y' x') as [w [Hw _]]; [apply K3|destruct K4; lia|].
    eexists (_, _), w. split; [left; reflexivity|]. cbn [fst snd]. rewrite K1. now rewrite Hw.
  - rewrite E, A0, bind_ok. cbv zeta.
    fold (corner c m d y1 x1) (corner c m d y2 x2) (corner c m d y2 x1) (corner c m d y1 x2).
    rewrite C11, C12, C21, C22.
    change (fill_missing_vals (Some w11) (Some w12) (Some w21) (Some w22)) with (Some w11, Some w12, Some w21, Some w22).
    cbv iota beta. rewrite B0, bind_ok. rewrite bilinear_value by lra. rewrite bind_ok. eexists. split; [reflexivity|].
    rewrite (bil_compat _ _ _ _ _ _ w11 w12 w21 w22
      ((a + e * x1 + b * y1' + g * x1 * y1')%Q) ((a + e * x1 + b * y2' + g * x1 * y2')%Q)
      ((a + e * x2 + b * y1' + g * x2 * y1')%Q) ((a + e * x2 + b * y2' + g * x2 * y2')%Q)).
    + rewrite bilinear_exact by lra. unfold f. ring.
    + rewrite D11. unfold f. assert (y1 == y1')%Q as -> by lra. ring.
    + rewrite D12. unfold f. assert (y2 == y2')%Q as -> by lra. ring.
    + rewrite D21. unfold f. assert (y1 == y1')%Q as -> by lra. ring.
    + rewrite D22. unfold f. assert (y2 == y2')%Q as -> by lra. ring.
Qed.
