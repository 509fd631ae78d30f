(** Lemmas about climatology lookups. *)
Require Import String ZArith QArith Qround Qabs List Bool Lia Lqa.
Require Import ZifyBool.
Require Import Verif.M_Base Verif.L_Base Verif.M_Calendar Verif.S_Calendar Verif.L_Calendar Verif.L_Calendar2
  Verif.M_Grid Verif.S_Grid Verif.S_Clim Verif.L_Grid Verif.L_Grid2.
Import ListNotations.
Open Scope Z_scope.

Lemma lat_row : forall n lat, 0 < n -> (-90 <= lat)%Q -> (lat <= 90)%Q ->
  row_has n (lat_to_yindex lat (180 / inject_Z n)) lat.
Proof.
  intros n lat Hn H1 H2.
  destruct (lat_to_yindex_cell lat (180 / inject_Z n) n Hn ltac:(reflexivity) H1 H2) as [A [B [C _]]].
  split; [exact A|]. unfold step. split; assumption.
Qed.

Lemma lon_col : forall n lon, 0 < n -> (-540 <= lon)%Q ->
  exists x, lon_to_xindex_res lon (180 / inject_Z n) = Ok x /\ col_has n x lon.
Proof.
  intros n lon Hn H.
  destruct (lon_to_xindex_cell lon (180 / inject_Z n) n Hn ltac:(reflexivity) H) as [x [k [A [B [C D]]]]].
  exists x. unfold lon_to_xindex_res. rewrite A. split; [reflexivity|]. split; [lia|]. exists k. split; assumption.
Qed.

Lemma np_index_in : forall n i, 0 <= i < n -> np_index n i = Ok i.
Proof.
  intros n i H. unfold np_index. replace (i <? 0) with false by lia.
  now replace ((i <? 0) || (n <=? i)) with false by lia.
Qed.

Lemma np_index_out : forall n i, n <= i -> 0 <= n -> np_index n i = Err IndexError.
Proof.
  intros n i H K. unfold np_index. replace (i <? 0) with false by lia.
  now replace ((i <? 0) || (n <=? i)) with true by lia.
Qed.

Lemma clim_read_in : forall c t y x, 0 <= t < cn c -> 0 <= y < cny c -> 0 <= x < cnx c ->
  clim_read c t y x = Ok (cval c t y x).
Proof. intros c t y x H1 H2 H3. unfold clim_read. rewrite !np_index_in by assumption. reflexivity. Qed.

Lemma clim_date_ok_iff : forall m d, clim_date_ok m d = true <-> md_valid m d.
Proof.
  intros m d. unfold clim_date_ok, md_valid, valid. cbn [yr mo dy].
  destruct ((m <? 1) || (12 <? m)) eqn:E; cbn [negb andb].
  - split; [discriminate|]. intros [n [H _]]. apply month_has_range in H. lia.
  - destruct (get_ml_2004 m ltac:(lia)) as [n [A B]]. rewrite A. split.
    + intro K. exists n. split; [exact B|]. lia.
    + intros [n' [B' K]]. rewrite (month_has_det _ _ _ _ B B'). lia.
Qed.

Lemma day_in_year_total : forall m d, md_valid m d -> exists n, day_in_year m d = Ok n /\ 1 <= n <= 365.
Proof.
  intros m d H. destruct (day_in_year m d) as [n|e] eqn:E.
  - exists n. split; [reflexivity|]. now apply day_in_year_range in E.
  - exfalso. rewrite day_in_year_good in E by exact H. revert E.
    repeat match goal with |- context [if ?b then _ else _] => destruct b end; discriminate.
Qed.

(** The slices in terms of the model's own functions. *)
Lemma slice_model : forall n month day t, slice n month day t <->
  0 <= t < n /\ (n = 1 -> t = 0) /\ (n = 73 -> which_pentad month day = Ok (t + 1)) /\ (n = 365 -> day_in_year month day = Ok (t + 1)).
Proof. intros n m d t. unfold slice. now rewrite <- which_pentad_pentad, <- day_in_year_common. Qed.

Lemma tindex_total : forall c m d, clim_wf c -> md_valid m d ->
  exists t, get_tindex c m d = Ok t /\ slice (cn c) m d t.
Proof.
  intros c m d W Hv. enough (T : exists t, get_tindex c m d = Ok t /\
    (0 <= t < cn c /\ (cn c = 1 -> t = 0) /\ (cn c = 73 -> which_pentad m d = Ok (t + 1)) /\ (cn c = 365 -> day_in_year m d = Ok (t + 1)))).
  { destruct T as [t [T1 T2]]. exists t. split; [exact T1|]. now apply slice_model. }
  revert W. intros [[H|[H|H]] _]; unfold get_tindex; rewrite H.
  - exists 0. split; [reflexivity|]. repeat split; try lia.
  - destruct (day_in_year_total m d Hv) as [n [A B]].
    destruct (which_pentad m d) as [p|e] eqn:E.
    + exists (p - 1). rewrite Z.sub_add.
      pose proof (which_pentad_total m d) as T.
      assert (1 <= p <= 73).
      { rewrite (which_pentad_good m d n A) in E. injection E as <-.
        split; [|]; Z.div_mod_to_equations; lia. }
      split; [reflexivity|]. repeat split; try lia.
    + rewrite (which_pentad_good m d n A) in E. discriminate.
  - destruct (day_in_year_total m d Hv) as [n [A B]]. rewrite A. exists (n - 1).
    rewrite Z.sub_add. split; [reflexivity|]. repeat split; try lia.
Qed.

Lemma get_value_spec : forall c lat lon m d, clim_wf c -> md_valid m d ->
  (-90 <= lat)%Q -> (lat <= 90)%Q -> (-540 <= lon)%Q ->
  exists t y x, get_value c lat lon m d = Ok (cval c t y x) /\
    slice (cn c) m d t /\ row_has (cny c) y lat /\ col_has (cny c) x lon.
Proof.
  intros c lat lon m d W Hv H1 H2 H3. unfold get_value.
  rewrite (proj2 (clim_date_ok_iff m d) Hv). cbv zeta.
  destruct (tindex_total c m d W Hv) as [t [T1 T2]].
  destruct W as [_ [Wn Wx]]. unfold clim_res.
  destruct (lon_col (cny c) lon Wn H3) as [x [X1 X2]]. pose proof (lat_row (cny c) lat Wn H1 H2) as Y.
  rewrite X1, bind_ok, T1, bind_ok.
  exists t, (lat_to_yindex lat (180 / inject_Z (cny c))), x.
  rewrite clim_read_in; [|apply T2|apply Y|rewrite Wx; apply X2].
  repeat split; try apply T2; try apply Y; try apply X2.
Qed.

Lemma get_value_bad_date : forall c lat lon m d, ~ md_valid m d ->
  get_value c lat lon m d = Ok None /\ get_value_mds_style c lat lon m d = Ok None.
Proof.
  intros c lat lon m d H. unfold get_value, get_value_mds_style.
  destruct (clim_date_ok m d) eqn:E; [apply clim_date_ok_iff in E; tauto|]. split; reflexivity.
Qed.

(** A fixed time slice for fixed date. *)
Lemma slice_det : forall n m d t t', (n = 1 \/ n = 73 \/ n = 365) ->
  slice n m d t -> slice n m d t' -> t = t'.
Proof.
  intros n m d t t' Hn S S'. apply slice_model in S, S'. revert S S'. intros [_ [A [B C]]] [_ [A' [B' C']]]. destruct Hn as [H|[H|H]]; subst n.
  - rewrite A, A'; auto.
  - specialize (B eq_refl). specialize (B' eq_refl). assert (Ok (t + 1) = Ok (t' + 1)) by congruence. injection H. lia.
  - specialize (C eq_refl). specialize (C' eq_refl). assert (Ok (t + 1) = Ok (t' + 1)) by congruence. injection H. lia.
Qed.

Lemma mds_style_spec : forall c lat lon m d, clim_wf c -> cny c = 180 -> md_valid m d ->
  (-90 <= lat)%Q -> (lat <= 90)%Q -> (-180 <= lon)%Q -> (lon <= 180)%Q ->
  exists t y x, get_value_mds_style c lat lon m d = Ok (cval c t y x) /\
    slice (cn c) m d t /\ row_has 180 y lat /\ col_has_closed 180 x lon.
Proof.
  intros c lat lon m d W Hn Hv H1 H2 H3 H4. unfold get_value_mds_style.
  rewrite (proj2 (clim_date_ok_iff m d) Hv). cbv zeta.
  destruct (tindex_total c m d W Hv) as [t [T1 T2]]. rewrite T1, bind_ok.
  destruct W as [_ [Wn Wx]].
  assert (E1 : (1 == 90 / inject_Z 90)%Q) by reflexivity.
  destruct (mds_lat_cell 1 90 ltac:(lia) E1 ltac:(lra) lat H1 H2) as [A [B C]].
  destruct (mds_lon_cell 1 90 ltac:(lia) E1 ltac:(lra) lon H3 H4) as [D [E F]].
  exists t, (mds_lat_to_yindex lat 1), (mds_lon_to_xindex lon 1).
  rewrite clim_read_in; [|apply T2|lia|lia].
  assert (S1 : (step 180 == 1)%Q) by reflexivity.
  split; [reflexivity|]. split; [exact T2|]. split.
  - split; [lia|]. rewrite S1. split; assumption.
  - split; [lia|]. rewrite S1. split; assumption.
Qed.

Lemma ostia_spec : forall c lat lon, 0 < cn c -> cny c = 3600 -> cnx c = 7200 ->
  (-90 <= lat)%Q -> (lat <= 90)%Q -> (-180 <= lon)%Q -> (lon <= 180)%Q ->
  exists y x, get_value_ostia c lat lon = Ok (cval c 0 y x) /\ row_has 3600 y lat /\ col_has_closed 3600 x lon.
Proof.
  intros c lat lon W Hn Hx H1 H2 H3 H4. unfold get_value_ostia.
  assert (E1 : (1 # 20 == 90 / inject_Z 1800)%Q) by reflexivity.
  destruct (mds_lat_cell (1 # 20) 1800 ltac:(lia) E1 ltac:(lra) lat H1 H2) as [A [B C]].
  destruct (mds_lon_cell (1 # 20) 1800 ltac:(lia) E1 ltac:(lra) lon H3 H4) as [D [E F]].
  exists (mds_lat_to_yindex lat (1 # 20)), (mds_lon_to_xindex lon (1 # 20)).
  rewrite clim_read_in; [|lia|lia|lia].
  assert (S1 : (step 3600 == 1 # 20)%Q) by reflexivity.
  split; [reflexivity|]. split.
  - split; [lia|]. rewrite S1. split; assumption.
  - split; [lia|]. rewrite S1. split; assumption.
Qed.

(** Longitudes beyond 180E make the MDS-style lookups raise IndexError. *)
Lemma mds_style_raises : forall c lat lon m d, clim_wf c -> cny c = 180 -> md_valid m d ->
  (-90 <= lat)%Q -> (lat <= 90)%Q -> (180 < lon)%Q -> (lon <= 360)%Q ->
  get_value_mds_style c lat lon m d = Err IndexError.
Proof.
  intros c lat lon m d W Hn Hv H1 H2 H3 H4. unfold get_value_mds_style.
  rewrite (proj2 (clim_date_ok_iff m d) Hv). cbv zeta.
  destruct (tindex_total c m d W Hv) as [t [T1 T2]]. rewrite T1, bind_ok.
  destruct W as [_ [Wn Wx]].
  assert (E1 : (1 == 90 / inject_Z 90)%Q) by reflexivity.
  destruct (mds_lat_cell 1 90 ltac:(lia) E1 ltac:(lra) lat H1 H2) as [A [B C]].
  pose proof (mds_lon_out_of_range 1 90 ltac:(lia) E1 ltac:(lra) lon ltac:(lra) H4) as D.
  unfold clim_read. rewrite (np_index_in (cn c) t) by apply T2. rewrite bind_ok.
  rewrite (np_index_in (cny c)) by lia. rewrite bind_ok. rewrite np_index_out by lia. reflexivity.
Qed.

(* ---- interpolated lookups ---- *)

Lemma get_value_ok : forall c lat lon m d, clim_wf c -> md_valid m d ->
  (-90 <= lat)%Q -> (lat <= 90)%Q -> (-540 <= lon)%Q ->
  exists v, get_value c lat lon m d = Ok v.
Proof. intros. destruct (get_value_spec c lat lon m d) as [t [y [x [A _]]]]; eauto. Qed.

Lemma interp_reduce : forall c lat lon m d, clim_wf c -> md_valid m d ->
  (-90 <= lat)%Q -> (lat <= 90)%Q -> (-180 <= lon)%Q -> (lon <= 180)%Q ->
  (~ some_pert c lat lon m d /\ get_interpolated_value c lat lon m d = Ok None) \/
  (some_pert c lat lon m d /\
   get_interpolated_value c lat lon m d =
     let! (x1, x2, y1, y2) := get_four_surrounding_points lat lon 1 in
     let q11 := try_none (get_value c y1 x1 m d) in
     let q22 := try_none (get_value c y2 x2 m d) in
     let q12 := try_none (get_value c y2 x1 m d) in
     let q21 := try_none (get_value c y1 x2 m d) in
     let '(q11, q12, q21, q22) := fill_missing_vals q11 q12 q21 q22 in
     let! (x1, x2, y1, y2) := get_four_surrounding_points lat lon 0 in
     let! v := bilinear_interp x1 x2 y1 y2 lon lat q11 q12 q21 q22 in
     Ok (Some v)).
Proof.
  intros c lat lon m d W Hv H1 H2 H3 H4. unfold get_interpolated_value. cbv zeta.
  set (e := (1 # 1000)%Q).
  assert (P12 : exists a b, (if Qltb (lat + e) 90 then
                 let! pert1 := get_value c (lat + e) (lon + e) m d in
                 let! pert2 := get_value c (lat + e) (lon - e) m d in
                 Ok (pert1, pert2)
               else Ok (None, None)) = Ok (a, b) /\
      ((a = None /\ b = None) <-> (forall p v, In p (if Qltb (lat + e) 90 then [(lat + e, lon + e); (lat + e, lon - e)]%Q else []) ->
          get_value c (fst p) (snd p) m d <> Ok (Some v)))).
  { destruct (Qltb (lat + e) 90) eqn:E; qprop.
    - destruct (get_value_ok c (lat + e) (lon + e) m d W Hv) as [a A]; try (unfold e; lra).
      { unfold e in *; lra. }
      destruct (get_value_ok c (lat + e) (lon - e) m d W Hv) as [b B]; try (unfold e in *; lra).
      exists a, b. rewrite A, bind_ok, B, bind_ok. split; [reflexivity|]. split.
      + intros [-> ->] p v [<-|[<-|[]]]; cbn [fst snd]; congruence.
      + intro K. split.
        * destruct a as [a|]; [|reflexivity]. exfalso. apply (K ((lat + e)%Q, (lon + e)%Q) a); [now left|exact A].
        * destruct b as [b|]; [|reflexivity]. exfalso. apply (K ((lat + e)%Q, (lon - e)%Q) b); [right; now left|exact B].
    - exists None, None. split; [reflexivity|]. split; [intros _ p v []|auto]. }
  assert (P34 : exists a b, (if Qltb (-90) (lat - e) then
                 let! pert3 := get_value c (lat - e) (lon + e) m d in
                 let! pert4 := get_value c (lat - e) (lon - e) m d in
                 Ok (pert3, pert4)
               else Ok (None, None)) = Ok (a, b) /\
      ((a = None /\ b = None) <-> (forall p v, In p (if Qltb (-90) (lat - e) then [(lat - e, lon + e); (lat - e, lon - e)]%Q else []) ->
          get_value c (fst p) (snd p) m d <> Ok (Some v)))).
  { destruct (Qltb (-90) (lat - e)) eqn:E; qprop.
    - destruct (get_value_ok c (lat - e) (lon + e) m d W Hv) as [a A]; try (unfold e in *; lra).
      destruct (get_value_ok c (lat - e) (lon - e) m d W Hv) as [b B]; try (unfold e in *; lra).
      exists a, b. rewrite A, bind_ok, B, bind_ok. split; [reflexivity|]. split.
      + intros [-> ->] p v [<-|[<-|[]]]; cbn [fst snd]; congruence.
      + intro K. split.
        * destruct a as [a|]; [|reflexivity]. exfalso. apply (K ((lat - e)%Q, (lon + e)%Q) a); [now left|exact A].
        * destruct b as [b|]; [|reflexivity]. exfalso. apply (K ((lat - e)%Q, (lon - e)%Q) b); [right; now left|exact B].
    - exists None, None. split; [reflexivity|]. split; [intros _ p v []|auto]. }
  destruct P12 as [a [b [A1 A2]]]. destruct P34 as [a' [b' [B1 B2]]].
  rewrite A1, bind_ok, B1, bind_ok. cbn [fst snd].
  destruct (is_none a && is_none b && is_none a' && is_none b') eqn:E.
  - left. split; [|reflexivity]. intros [p [v [Hp Hg]]].
    destruct a, b, a', b'; try discriminate E.
    unfold pert_points in Hp. apply in_app_or in Hp. destruct Hp as [Hp|Hp].
    + exact (proj1 A2 (conj eq_refl eq_refl) p v Hp Hg).
    + exact (proj1 B2 (conj eq_refl eq_refl) p v Hp Hg).
  - right. split; [|reflexivity].
    unfold some_pert.
    assert (D : forall l, (exists p v, In p l /\ get_value c (fst p) (snd p) m d = Ok (Some v)) \/
                          (forall p v, In p l -> get_value c (fst p) (snd p) m d <> Ok (Some v))).
    { induction l as [|p l IH]; [right; intros p v []|].
      destruct (get_value c (fst p) (snd p) m d) as [[v|]|ee] eqn:G.
      - left. exists p, v. split; [now left|exact G].
      - destruct IH as [[p' [v' [K1 K2]]]|IH]; [left; exists p', v'; split; [now right|exact K2]|].
        right. intros p' v' [<-|K]; [congruence|now apply IH].
      - destruct IH as [[p' [v' [K1 K2]]]|IH]; [left; exists p', v'; split; [now right|exact K2]|].
        right. intros p' v' [<-|K]; [congruence|now apply IH]. }
    destruct (D (pert_points lat lon)) as [K|K]; [exact K|exfalso].
    assert (a = None /\ b = None) as [-> ->].
    { apply A2. intros p v Hp. apply K. unfold pert_points. apply in_or_app. now left. }
    assert (a' = None /\ b' = None) as [-> ->].
    { apply B2. intros p v Hp. apply K. unfold pert_points. apply in_or_app. now right. }
    discriminate E.
Qed.

Lemma interp_general : forall c lat lon m d, clim_wf c -> md_valid m d ->
  (-90 <= lat)%Q -> (lat <= 90)%Q -> (-180 <= lon)%Q -> (lon <= 180)%Q -> ~ (lat == -(179 # 2))%Q ->
  exists x1 x2 y1 y2, get_four_surrounding_points lat lon 1 = Ok (x1, x2, y1, y2) /\
  let q11 := corner c m d y1 x1 in let q12 := corner c m d y2 x1 in
  let q21 := corner c m d y1 x2 in let q22 := corner c m d y2 x2 in
  (~ some_pert c lat lon m d -> get_interpolated_value c lat lon m d = Ok None) /\
  (some_pert c lat lon m d -> q11 = None /\ q12 = None /\ q21 = None /\ q22 = None ->
     get_interpolated_value c lat lon m d = Err AssertionError) /\
  (some_pert c lat lon m d -> ~ (q11 = None /\ q12 = None /\ q21 = None /\ q22 = None) ->
     exists v, get_interpolated_value c lat lon m d = Ok (Some v) /\
       forall lo hi, (forall w, In (Some w) [q11; q12; q21; q22] -> (lo <= w /\ w <= hi)%Q) -> (lo <= v /\ v <= hi)%Q).
Proof.
  intros c lat lon m d W Hv H1 H2 H3 H4 Hs.
  destruct (four_points lat lon 1 H1 H2 H3 H4) as [x1 [x2 [y1 [y2 [i [j [A0 _]]]]]]].
  destruct (four_points lat lon 0 H1 H2 H3 H4) as [x1' [x2' [y1' [y2' [i' [j' [B0 [B1 [B2 [B3 [B4 B5]]]]]]]]]]].
  rewrite andb_false_r in B4. rewrite andb_false_r, orb_false_r in B5.
  replace (Qeqb lat (-(179 # 2))) with false in B5 by (symmetry; qprop; exact Hs).
  exists x1, x2, y1, y2. split; [exact A0|]. cbv zeta.
  destruct (interp_reduce c lat lon m d W Hv H1 H2 H3 H4) as [[N E]|[N E]].
  - split; [auto|]. split; intro; tauto.
  - split; [tauto|]. rewrite E. rewrite A0, bind_ok. cbv zeta.
    fold (corner c m d y1 x1) (corner c m d y2 x2) (corner c m d y2 x1) (corner c m d y1 x2).
    split; intros _ K.
    + destruct K as [-> [-> [-> ->]]]. cbn [fill_missing_vals]. unfold fill_missing_vals, orelse. rewrite missing_mean2.
      rewrite B0, bind_ok. rewrite bilinear_raises; [reflexivity|]. right; left; reflexivity.
    + destruct (fill_some _ _ _ _ K) as [a' [b' [c' [d' [F1 [_ [_ [_ [_ F2]]]]]]]]].
      rewrite F1. rewrite B0, bind_ok.
      rewrite bilinear_value by lra. rewrite bind_ok. eexists. split; [reflexivity|].
      intros lo hi L. specialize (F2 lo hi L).
      apply bil_bounds; try lra.
      * repeat split; apply F2; simpl; auto.
      * repeat split; apply F2; simpl; auto.
Qed.

(** Row and column lookups at cell centres. *)
Lemma row_centre : forall y y' l, row_has 180 y' l -> (l == 90 - inject_Z y - (1 # 2))%Q -> y' = y.
Proof.
  intros y y' l [A [B C]] E. assert (S1 : (step 180 == 1)%Q) by reflexivity. rewrite S1 in B, C.
  assert (y' - y = 0); [|lia]. apply inj_eq_zero; rewrite inject_Z_minus; lra.
Qed.

Lemma col_centre : forall x x' l k, 0 <= x < 360 -> col_has 180 x' l ->
  (l == inject_Z x - 180 + (1 # 2) + 360 * inject_Z k)%Q -> x' = x.
Proof.
  intros x x' l k Hx [A [k' [B C]]] E. assert (S1 : (step 180 == 1)%Q) by reflexivity. rewrite S1 in B, C.
  assert (x' - x - 360 * (k + k') = 0).
  { apply inj_eq_zero; rewrite !inject_Z_minus, inject_Z_mult, inject_Z_plus; change (inject_Z 360) with 360%Q; lra. }
  nia.
Qed.

Lemma inj_small : forall a b : Z, (-2 < inject_Z (a - b) /\ inject_Z (a - b) < 1)%Q -> a = b \/ a = b - 1.
Proof.
  intros a b [A B]. change (-2)%Q with (inject_Z (-2)) in A. change 1%Q with (inject_Z 1) in B.
  apply inject_Z_lt_inv in A, B. lia.
Qed.

(** On a one-degree grid a value near the point is one of the four corner values. *)
Lemma one_degree_corner : forall c lat lon m d, clim_wf c -> cny c = 180 -> md_valid m d ->
  (-90 <= lat)%Q -> (lat <= 90)%Q -> (-180 <= lon)%Q -> (lon <= 180)%Q -> ~ (lat == -(179 # 2))%Q ->
  some_pert c lat lon m d ->
  forall x1 x2 y1 y2, get_four_surrounding_points lat lon 1 = Ok (x1, x2, y1, y2) ->
  ~ (corner c m d y1 x1 = None /\ corner c m d y2 x1 = None /\ corner c m d y1 x2 = None /\ corner c m d y2 x2 = None).
Proof.
  intros c lat lon m d W Hn Hv H1 H2 H3 H4 Hs [p [v [Hp Hg]]] x1 x2 y1 y2 F.
  destruct (four_points lat lon 1 H1 H2 H3 H4) as [x1' [x2' [y1' [y2' [i [j [A0 [A1 [A2 [A3 [A4 A5]]]]]]]]]]].
  rewrite F in A0. injection A0 as <- <- <- <-.
  replace (Qeqb lat (-(179 # 2))) with false in A5 by (symmetry; qprop; exact Hs). cbn [orb] in A5.
  change (negb (1 =? 0)) with true in A4, A5. rewrite andb_true_r in A4, A5.
  (* the perturbed point *)
  assert (P : (-90 <= fst p /\ fst p <= 90 /\ lat - (1 # 1000) <= fst p /\ fst p <= lat + (1 # 1000) /\
               lon - (1 # 1000) <= snd p /\ snd p <= lon + (1 # 1000))%Q).
  { unfold pert_points in Hp. apply in_app_or in Hp.
    destruct Hp as [Hp|Hp].
    - destruct (Qltb (lat + (1 # 1000)) 90) eqn:E; [|destruct Hp]. qprop.
      destruct Hp as [<-|[<-|[]]]; cbn [fst snd]; repeat split; lra.
    - destruct (Qltb (-90) (lat - (1 # 1000))) eqn:E; [|destruct Hp]. qprop.
      destruct Hp as [<-|[<-|[]]]; cbn [fst snd]; repeat split; lra. }
  destruct p as [la lo]. cbn [fst snd] in *.
  destruct (get_value_spec c la lo m d W Hv ltac:(lra) ltac:(lra) ltac:(lra)) as [t [y [x [G1 [G2 [G3 G4]]]]]].
  rewrite Hn in G3, G4. rewrite G1 in Hg. injection Hg as Hg.
  assert (S1 : (step 180 == 1)%Q) by reflexivity.
  destruct G3 as [R1 [R2 R3]]. rewrite S1 in R2, R3.
  destruct G4 as [C1 [k [C2 C3]]]. rewrite S1 in C2, C3.
  (* the row is that of y1 or y2 *)
  assert (Yc : (90 - inject_Z y - (1 # 2) == inject_Z j - (1 # 2) \/ 90 - inject_Z y - (1 # 2) == inject_Z j + (1 # 2))%Q).
  { destruct (inj_small (90 - y - 1) j) as [E|E].
    - rewrite !inject_Z_minus. change (inject_Z 90) with 90%Q. change (inject_Z 1) with 1%Q. split; lra.
    - right. subst j. rewrite !inject_Z_minus. change (inject_Z 90) with 90%Q. change (inject_Z 1) with 1%Q. lra.
    - left. replace j with (90 - y) by lia. rewrite !inject_Z_minus. change (inject_Z 90) with 90%Q. lra. }
  assert (Yr : (y1 == 90 - inject_Z y - (1 # 2) \/ y2 == 90 - inject_Z y - (1 # 2))%Q).
  { assert (0 <= inject_Z y /\ inject_Z y <= 179)%Q.
    { split; [apply (inject_Z_le 0)|apply (inject_Z_le y 179)]; lia. }
    destruct Yc as [Yc|Yc].
    - left. rewrite A5. destruct (j =? -90) eqn:E; [|lra].
      assert (j = -90) by lia. subst j. change (inject_Z (-90)) with (-90)%Q in *. lra.
    - right. rewrite A4. destruct (j =? 90) eqn:E; [|lra].
      assert (j = 90) by lia. subst j. change (inject_Z 90) with 90%Q in *. lra. }
  assert (Xr : (x1 == inject_Z x - 180 + (1 # 2) + 360 * inject_Z (- k) \/ x2 == inject_Z x - 180 + (1 # 2) + 360 * inject_Z (- k))%Q).
  { destruct A1 as [B1 [B2 [B3 B4]]].
    assert (x - 180 - 360 * k = i \/ x - 180 - 360 * k = i + 1) as [E|E].
    { assert (L : (-1 < inject_Z (x - 180 - 360 * k - i) /\ inject_Z (x - 180 - 360 * k - i) < 2)%Q).
      { rewrite !inject_Z_minus, inject_Z_mult. change (inject_Z 180) with 180%Q. change (inject_Z 360) with 360%Q.
        split; lra. }
      destruct L as [L1 L2]. change (-1)%Q with (inject_Z (-1)) in L1. change 2%Q with (inject_Z 2) in L2.
      apply inject_Z_lt_inv in L1, L2. lia. }
    - left. rewrite B1, <- E. rewrite !inject_Z_minus, inject_Z_mult, inject_Z_opp.
      change (inject_Z 180) with 180%Q. change (inject_Z 360) with 360%Q. ring.
    - right. rewrite B2, B1. replace i with (x - 180 - 360 * k - 1) by lia.
      rewrite !inject_Z_minus, inject_Z_mult, inject_Z_opp.
      change (inject_Z 180) with 180%Q. change (inject_Z 360) with 360%Q. change (inject_Z 1) with 1%Q. ring. }
  (* the corner lookup at matching centres returns the value *)
  assert (Q0 : forall yy xx, (yy == 90 - inject_Z y - (1 # 2))%Q -> (xx == inject_Z x - 180 + (1 # 2) + 360 * inject_Z (- k))%Q ->
    (-540 <= xx)%Q -> corner c m d yy xx = Some v).
  { intros yy xx E1 E2 E3. unfold corner.
    assert (0 <= inject_Z y /\ inject_Z y <= 179)%Q.
    { split; [apply (inject_Z_le 0)|apply (inject_Z_le y 179)]; lia. }
    destruct (get_value_spec c yy xx m d W Hv ltac:(lra) ltac:(lra) E3) as [t' [y' [x' [K1 [K2 [K3 K4]]]]]].
    rewrite Hn in K3, K4. rewrite K1. cbn [try_none].
    assert (t' = t) by (apply (slice_det (cn c) m d); [apply W|exact K2|exact G2]).
    assert (y' = y) by (apply (row_centre y y' yy K3 E1)).
    assert (x' = x) by (apply (col_centre x x' xx (- k) ltac:(lia) K4 E2)).
    subst. exact Hg. }
  intros [N1 [N2 [N3 N4]]].
  destruct Yr as [Yr|Yr], Xr as [Xr|Xr];
    [rewrite (Q0 y1 x1 Yr Xr) in N1|rewrite (Q0 y1 x2 Yr Xr) in N3
    |rewrite (Q0 y2 x1 Yr Xr) in N2|rewrite (Q0 y2 x2 Yr Xr) in N4]; try discriminate; lra.
Qed.

Lemma interp_one_degree : forall c lat lon m d, clim_wf c -> cny c = 180 -> md_valid m d ->
  (-90 <= lat)%Q -> (lat <= 90)%Q -> (-180 <= lon)%Q -> (lon <= 180)%Q -> ~ (lat == -(179 # 2))%Q ->
  (~ some_pert c lat lon m d /\ get_interpolated_value c lat lon m d = Ok None) \/
  (some_pert c lat lon m d /\ exists v x1 x2 y1 y2, get_interpolated_value c lat lon m d = Ok (Some v) /\
     get_four_surrounding_points lat lon 1 = Ok (x1, x2, y1, y2) /\
     within v (corner c m d y1 x1) (corner c m d y2 x1) (corner c m d y1 x2) (corner c m d y2 x2)).
Proof.
  intros c lat lon m d W Hn Hv H1 H2 H3 H4 Hs.
  destruct (interp_general c lat lon m d W Hv H1 H2 H3 H4 Hs) as [x1 [x2 [y1 [y2 [A [B [_ C]]]]]]].
  destruct (interp_reduce c lat lon m d W Hv H1 H2 H3 H4) as [[N E]|[N _]]; [left; auto|right].
  split; [exact N|].
  destruct (C N (one_degree_corner c lat lon m d W Hn Hv H1 H2 H3 H4 Hs N x1 x2 y1 y2 A)) as [v [V1 V2]].
  exists v, x1, x2, y1, y2. split; [exact V1|]. split; [exact A|].
  pose proof (one_degree_corner c lat lon m d W Hn Hv H1 H2 H3 H4 Hs N x1 x2 y1 y2 A) as Z.
  revert V2 Z. generalize (corner c m d y1 x1) (corner c m d y2 x1) (corner c m d y1 x2) (corner c m d y2 x2).
  clear. intros a b c d V2 Z.
  (* the extremes of the present values are attained *)
  assert (M : forall l : list (option Q), (exists q, In (Some q) l) ->
    (exists lo, In (Some lo) l /\ forall w, In (Some w) l -> (lo <= w)%Q) /\
    (exists hi, In (Some hi) l /\ forall w, In (Some w) l -> (w <= hi)%Q)).
  { induction l as [|o l IH]; [intros [q []]|]. intros [q Hq].
    assert (D : (exists q, In (Some q) l) \/ ~ (exists q, In (Some q) l)).
    { clear. induction l as [|o l IH]; [right; intros [q []]|]. destruct o as [q|]; [left; exists q; now left|].
      destruct IH as [[q IH]|IH]; [left; exists q; now right|]. right. intros [q [K|K]]; [discriminate|]. apply IH. now exists q. }
    destruct D as [D|D].
    - destruct (IH D) as [[lo [L1 L2]] [hi [K1 K2]]].
      destruct o as [o|].
      + split.
        * destruct (Qlt_le_dec o lo) as [E|E].
          -- exists o. split; [now left|]. intros w [Hw|Hw]; [injection Hw as <-; lra|]. specialize (L2 w Hw). lra.
          -- exists lo. split; [now right|]. intros w [Hw|Hw]; [injection Hw as <-; lra|]. now apply L2.
        * destruct (Qlt_le_dec hi o) as [E|E].
          -- exists o. split; [now left|]. intros w [Hw|Hw]; [injection Hw as <-; lra|]. specialize (K2 w Hw). lra.
          -- exists hi. split; [now right|]. intros w [Hw|Hw]; [injection Hw as <-; lra|]. now apply K2.
      + split; [exists lo|exists hi]; (split; [now right|]); intros w [Hw|Hw]; try discriminate; auto.
    - assert (o = Some q) by (destruct Hq as [Hq|Hq]; [exact Hq|exfalso; apply D; now exists q]). subst o.
      split; exists q; (split; [now left|]); intros w [Hw|Hw]; try (injection Hw as <-; lra); exfalso; apply D; now exists w. }
  assert (E : exists q, In (Some q) [a; b; c; d]).
  { destruct a as [a|]; [exists a; simpl; auto|]. destruct b as [b|]; [exists b; simpl; auto|].
    destruct c as [c|]; [exists c; simpl; auto|]. destruct d as [d|]; [exists d; simpl; auto|].
    exfalso. apply Z. auto. }
  destruct (M _ E) as [[lo [L1 L2]] [hi [K1 K2]]].
  destruct (V2 lo hi) as [U1 U2]; [intros w Hw; split; auto|].
  assert (I : forall q, In (Some q) [a; b; c; d] -> a = Some q \/ b = Some q \/ c = Some q \/ d = Some q).
  { intros q [K|[K|[K|[K|[]]]]]; auto. }
  split; [exists lo|exists hi]; split; auto.
Qed.

(** At latitude -89.5 the interpolation raises whenever there is a value near the point. *)
Lemma interp_raises_895S : forall c lon m d, clim_wf c -> md_valid m d -> (-180 <= lon)%Q -> (lon <= 180)%Q ->
  some_pert c (-(179 # 2)) lon m d ->
  get_interpolated_value c (-(179 # 2)) lon m d = Err AssertionError.
Proof.
  intros c lon m d W Hv H3 H4 N.
  destruct (interp_reduce c (-(179 # 2)) lon m d W Hv ltac:(lra) ltac:(lra) H3 H4) as [[N' _]|[_ E]]; [tauto|].
  rewrite E.
  destruct (four_points (-(179 # 2)) lon 1 ltac:(lra) ltac:(lra) H3 H4) as [x1 [x2 [y1 [y2 [i [j [A0 _]]]]]]].
  destruct (four_points (-(179 # 2)) lon 0 ltac:(lra) ltac:(lra) H3 H4) as [x1' [x2' [y1' [y2' [i' [j' [B0 [B1 [B2 [B3 [B4 B5]]]]]]]]]]].
  rewrite A0, bind_ok. cbv zeta. destruct (fill_missing_vals _ _ _ _) as [[[a b] c'] d'].
  rewrite B0, bind_ok. rewrite bilinear_raises; [reflexivity|]. left. intros [_ [_ [_ [_ [_ K]]]]].
  change (Qeqb (-(179 # 2)) (-(179 # 2))) with true in B5. cbn [orb] in B5.
  rewrite andb_false_r in B4.
  assert (j' = -90).
  { assert (j' + 90 = 0); [|lia]. apply inj_eq_zero; rewrite inject_Z_plus; change (inject_Z 90) with 90%Q; lra. }
  subst j'. change (inject_Z (-90)) with (-90)%Q in B4. lra.
Qed.
