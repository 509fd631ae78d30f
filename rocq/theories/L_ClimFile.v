(** Proofs about loading climatologies. *)
Require Import String ZArith QArith Qround List Bool Lia Lqa.
Require Import Verif.M_Base Verif.L_Base Verif.M_Grid Verif.M_ClimFile Verif.S_Grid Verif.S_ClimFile Verif.L_Checks Verif.L_Grid Verif.L_Grid2.
Import ListNotations.
Open Scope string_scope.
Open Scope list_scope.
Open Scope Z_scope.

Lemma find_coord_fold : forall f names acc c,
  (forall name c', In name names -> nc_coord f name = Some c' -> c' = c) -> (acc = Some c \/ acc = None) ->
  let r := fold_left (fun found name => match nc_coord f name with Some c => Some c | None => found end) names acc in
  (r = Some c \/ r = None) /\ ((acc = Some c \/ exists name, In name names /\ nc_coord f name = Some c) -> r = Some c).
Proof.
  intros f names. induction names as [|n names IH]; intros acc c U A; cbn [fold_left].
  - split; [exact A|]. intros [K|[name [[] _]]]. exact K.
  - destruct (nc_coord f n) as [d|] eqn:E.
    + assert (d = c) by (apply (U n); [now left|exact E]). subst d.
      destruct (IH (Some c) c) as [I1 I2]; [intros m c' I' E'; exact (U m c' (or_intror I') E')|now left|]. split; [exact I1|]. intros _. apply I2. now left.
    + destruct (IH acc c) as [I1 I2]; [intros m c' I' E'; exact (U m c' (or_intror I') E')|exact A|]. split; [exact I1|]. intros [K|[name [[K|K] L]]]; apply I2; [now left|subst; congruence|right; eauto].
Qed.
Lemma find_coord_spec : forall f names c, coord f names c -> find_coord f names = Ok c.
Proof.
  intros f names c [[name [I E]] U]. unfold find_coord. destruct (find_coord_fold f names None c U) as [_ H]; [now right|]. cbv zeta in H. rewrite H; [reflexivity|]. right. eauto.
Qed.
Lemma find_coord_none : forall f names, (forall name, In name names -> nc_coord f name = None) -> find_coord f names = Err AssertionError.
Proof.
  intros f names H. unfold find_coord.
  enough (fold_left (fun found name => match nc_coord f name with Some c => Some c | None => found end) names None = None) as -> by reflexivity.
  induction names as [|n names IH]; [reflexivity|]. cbn [fold_left]. rewrite (H n) by now left. apply IH. intros; apply H; now right.
Qed.

Lemma step_pos : forall n, 0 < n -> (0 < step n)%Q /\ (inject_Z n * step n == 180)%Q.
Proof.
  intros n H. unfold step. assert (0 < inject_Z n)%Q by (change 0%Q with (inject_Z 0); now apply inject_Z_lt). split.
  - apply Qlt_shift_div_l; lra.
  - field. lra.
Qed.
Lemma first_lat : forall n lats, 0 < n -> (north_first n lats -> exists a, py_nth lats 0 = Ok a /\ (a == 90 - (1 # 2) * step n)%Q) /\ (south_first n lats -> exists a, py_nth lats 0 = Ok a /\ (a == -90 + (1 # 2) * step n)%Q).
Proof.
  intros n lats H. destruct (step_pos n H) as [P Q]. split; intros [L A]; destruct lats as [|a lats]; cbn [length] in L; try lia; exists a; (split; [reflexivity|]); specialize (A O a eq_refl); rewrite A; unfold mid_lat; cbn [Z.of_nat].
  - change (inject_Z 0) with 0%Q. lra.
  - rewrite Z.sub_0_r, inject_Z_minus. change (inject_Z 1) with 1%Q. lra.
Qed.
Lemma first_lon : forall n lons, 0 < n -> (from_date_line n lons -> exists a, py_nth lons 0 = Ok a /\ (a == -180 + (1 # 2) * step n)%Q) /\ (from_greenwich n lons -> exists a, py_nth lons 0 = Ok a /\ (a == (1 # 2) * step n)%Q).
Proof.
  intros n lons H. split; intros [L A]; destruct lons as [|a lons]; cbn [length] in L; try lia; exists a; (split; [reflexivity|]); specialize (A O a eq_refl); rewrite A; unfold mid_lon; cbn [Z.of_nat]; change (inject_Z 0) with 0%Q; lra.
Qed.
Lemma nth_Z : forall (A : Type) (l : list A) i, 0 <= i < Z.of_nat (length l) -> exists a, nth_error l (Z.to_nat i) = Some a.
Proof. intros A l i H. destruct (nth_error l (Z.to_nat i)) eqn:E; [eauto|]. apply nth_error_None in E. lia. Qed.
Lemma same_lon_refl : forall a b, (a == b)%Q -> same_lon a b.
Proof. intros a b H. exists 0. change (inject_Z 0) with 0%Q. lra. Qed.

(** Reading rows through [fy] and columns through [fx] is faithful when they go to the right coordinates. *)
Lemma faithful_from : forall get lats lons n c fy fx, 0 < n -> cny c = n -> cnx c = 2 * n ->
  Z.of_nat (length lats) = n -> Z.of_nat (length lons) = 2 * n ->
  (forall t y x, 0 <= t < cn c -> 0 <= y < n -> 0 <= x < 2 * n -> cval c t y x = get t (fy y) (fx x)) ->
  (forall y, 0 <= y < n -> 0 <= fy y < n /\ forall a, nth_error lats (Z.to_nat (fy y)) = Some a -> (a == mid_lat n y)%Q) ->
  (forall x, 0 <= x < 2 * n -> 0 <= fx x < 2 * n /\ forall a, nth_error lons (Z.to_nat (fx x)) = Some a -> same_lon a (mid_lon n x)) ->
  faithful get lats lons n c.
Proof.
  intros get lats lons n c fy fx N CY CX LA LO V FY FX. split; [exact CY|]. split; [exact CX|]. intros t y x T Y X.
  destruct (FY y Y) as [B1 M1]. destruct (FX x X) as [B2 M2].
  destruct (nth_Z _ lats (fy y)) as [a A]; [lia|]. destruct (nth_Z _ lons (fx x)) as [b B]; [lia|].
  exists (Z.to_nat (fy y)), (Z.to_nat (fx x)), a, b. rewrite !Z2Nat.id by lia. repeat split; auto.
Qed.

(** The rows and columns the loader reads. *)
Lemma rows_north : forall n lats, 0 < n -> north_first n lats -> forall y, 0 <= y < n -> 0 <= y < n /\ forall a, nth_error lats (Z.to_nat y) = Some a -> (a == mid_lat n y)%Q.
Proof. intros n lats N [L A] y Y. split; [exact Y|]. intros a E. rewrite (A _ _ E). now rewrite Z2Nat.id by lia. Qed.
Lemma rows_south : forall n lats, 0 < n -> south_first n lats -> forall y, 0 <= y < n -> 0 <= n - 1 - y < n /\ forall a, nth_error lats (Z.to_nat (n - 1 - y)) = Some a -> (a == mid_lat n y)%Q.
Proof. intros n lats N [L A] y Y. split; [lia|]. intros a E. rewrite (A _ _ E). rewrite Z2Nat.id by lia. now replace (n - 1 - (n - 1 - y)) with y by lia. Qed.
Lemma cols_date : forall n lons, 0 < n -> from_date_line n lons -> forall x, 0 <= x < 2 * n -> 0 <= x < 2 * n /\ forall a, nth_error lons (Z.to_nat x) = Some a -> same_lon a (mid_lon n x).
Proof. intros n lons N [L A] x X. split; [exact X|]. intros a E. apply same_lon_refl. rewrite (A _ _ E). now rewrite Z2Nat.id by lia. Qed.
Lemma cols_green : forall n lons, 0 < n -> from_greenwich n lons -> forall x, 0 <= x < 2 * n -> 0 <= (x - 2 * n / 2) mod (2 * n) < 2 * n /\ forall a, nth_error lons (Z.to_nat ((x - 2 * n / 2) mod (2 * n))) = Some a -> same_lon a (mid_lon n x).
Proof.
  intros n lons N [L A] x X. replace (2 * n / 2) with n by (rewrite Z.mul_comm, Z.div_mul; lia).
  assert (B : 0 <= (x - n) mod (2 * n) < 2 * n) by (apply Z.mod_pos_bound; lia). split; [exact B|].
  intros a E. apply A in E. rewrite Z2Nat.id in E by lia. destruct (step_pos n N) as [P S]. unfold same_lon, mid_lon in *.
  destruct (Z_lt_le_dec x n) as [C|C].
  - replace (x - n) with (x + n + -1 * (2 * n)) in E by lia. rewrite Z.mod_add in E by lia. rewrite Z.mod_small in E by lia. exists 1. rewrite inject_Z_plus in E. change (inject_Z 1) with 1%Q. lra.
  - rewrite Z.mod_small in E by lia. exists 0. rewrite inject_Z_minus in E. change (inject_Z 0) with 0%Q. lra.
Qed.

Lemma init_ok : forall c, cn c = 1 \/ cn c = 73 \/ cn c = 365 -> clim_init c = Ok c.
Proof. intros c [H|[H|H]]; unfold clim_init; rewrite H; reflexivity. Qed.
Lemma init_iff : forall c c', clim_init c = Ok c' <-> (cn c = 1 \/ cn c = 73 \/ cn c = 365) /\ c' = c.
Proof.
  intros c c'. split.
  - unfold clim_init. intro H. destruct ((cn c =? 1) || (cn c =? 73) || (cn c =? 365)) eqn:E; [|discriminate]. cbn in H. injection H as <-. split; [|reflexivity].
    rewrite !orb_true_iff, !Z.eqb_eq in E. tauto.
  - intros [H ->]. now apply init_ok.
Qed.

Lemma qltb_t : forall a b, (a < b)%Q -> Qltb a b = true. Proof. intros a b H. now apply Qltb_true. Qed.
Lemma qltb_f : forall a b, (b <= a)%Q -> Qltb a b = false. Proof. intros a b H. now apply Qltb_false. Qed.

Lemma load_good : forall f var k n get lats lons,
  k = 1 \/ k = 73 \/ k = 365 -> 0 < n ->
  (nc_field f var = Some (F3 k n (2 * n) get) \/
   (k = 1 /\ n = 180 /\ nc_field f var = Some (F3 1 360 180 (fun t x y => get t y x)))) ->
  coord f lat_synonyms lats -> coord f lon_synonyms lons ->
  ((1 < n /\ north_first n lats) \/ (1 < n /\ south_first n lats)) -> (from_date_line n lons \/ (90 < n /\ from_greenwich n lons)) ->
  exists c, from_filename (Some f) var = Ok c /\ cn c = k /\ faithful get lats lons n c.
Proof.
  intros f var k n get lats lons K N FL CA CO LA LO. unfold from_filename.
  rewrite (find_coord_spec _ _ _ CA), (find_coord_spec _ _ _ CO).
  assert (U : exists fl, nc_field f var = Some fl /\ exists get', untranspose fl = Ok (F3 k n (2 * n) get') /\ forall t y x, get' t y x = get t y x).
  { destruct FL as [E|[-> [-> E]]].
    - exists (F3 k n (2 * n) get). split; [exact E|]. exists get. split; [|reflexivity]. cbn [untranspose].
      destruct ((k =? 1) && (n =? 360) && (2 * n =? 180)) eqn:B; [|reflexivity]. rewrite !andb_true_iff, !Z.eqb_eq in B. lia.
    - eexists. split; [exact E|]. eexists. split; [reflexivity|reflexivity]. }
  destruct U as [fl [E [get' [U EG]]]]. rewrite E. cbn [bind]. rewrite U. cbn [bind].
  destruct (step_pos n N) as [SP SN].
  assert (LAT : exists la0, py_nth lats 0 = Ok la0 /\ Z.of_nat (length lats) = n /\
    (((0 < la0)%Q /\ north_first n lats) \/ ((la0 < 0)%Q /\ south_first n lats))).
  { destruct LA as [[N1 LA]|[N1 LA]].
    - destruct (proj1 (first_lat n lats N) LA) as [a [A1 A2]]. exists a. split; [exact A1|]. split; [apply LA|]. left. split; [|exact LA].
      rewrite A2. assert (2 <= inject_Z n)%Q by (change 2%Q with (inject_Z 2); apply inject_Z_le; lia). nra.
    - destruct (proj2 (first_lat n lats N) LA) as [a [A1 A2]]. exists a. split; [exact A1|]. split; [apply LA|]. right. split; [|exact LA].
      rewrite A2. assert (2 <= inject_Z n)%Q by (change 2%Q with (inject_Z 2); apply inject_Z_le; lia). nra. }
  destruct LAT as [la0 [A1 [A2 A3]]]. rewrite A1. cbn [bind].
  assert (LON : exists lo0, py_nth lons 0 = Ok lo0 /\ Z.of_nat (length lons) = 2 * n /\
    (((lo0 <= 0)%Q /\ from_date_line n lons) \/ ((0 < lo0)%Q /\ (lo0 < 1)%Q /\ from_greenwich n lons))).
  { destruct LO as [LO|[N1 LO]].
    - destruct (proj1 (first_lon n lons N) LO) as [a [B1 B2]]. exists a. split; [exact B1|]. split; [apply LO|]. left. split; [|exact LO].
      rewrite B2. assert (1 <= inject_Z n)%Q by (change 1%Q with (inject_Z 1); apply inject_Z_le; lia). nra.
    - destruct (proj2 (first_lon n lons N) LO) as [a [B1 B2]]. exists a. split; [exact B1|]. split; [apply LO|]. right. rewrite B2.
      assert (91 <= inject_Z n)%Q by (change 91%Q with (inject_Z 91); apply inject_Z_le; lia). split; [lra|]. split; [nra|exact LO]. }
  destruct LON as [lo0 [B1 [B2 B3]]].
  destruct A3 as [[A3 A4]|[A3 A4]]; destruct B3 as [[B3 B4]|[B3 [B3' B4]]].
  1,3: destruct (Qltb la0 0) eqn:Q1; [try (apply Qltb_true in Q1; lra)|try (apply Qltb_false in Q1; lra)]; rewrite B1; cbn [bind]; rewrite (qltb_f 0 lo0 B3); cbn [andb flip1 first_level bind];
    (rewrite init_ok; [|exact K]); eexists; (split; [reflexivity|]); (split; [reflexivity|]).
  3,4: destruct (Qltb la0 0) eqn:Q1; [try (apply Qltb_true in Q1; lra)|try (apply Qltb_false in Q1; lra)]; rewrite B1; cbn [bind]; rewrite (qltb_t 0 lo0 B3), (qltb_t _ _ B3'); cbn [andb flip1 roll2 first_level bind];
    (rewrite init_ok; [|exact K]); eexists; (split; [reflexivity|]); (split; [reflexivity|]).
  - apply (faithful_from _ _ _ _ _ (fun y => y) (fun x => x)); try assumption; try reflexivity; [intros; apply EG|now apply rows_north|now apply cols_date].
  - apply (faithful_from _ _ _ _ _ (fun y => n - 1 - y) (fun x => x)); try assumption; try reflexivity; [intros; apply EG|now apply rows_south|now apply cols_date].
  - apply (faithful_from _ _ _ _ _ (fun y => y) (fun x => (x - 2 * n / 2) mod (2 * n))); try assumption; try reflexivity; [intros; apply EG|now apply rows_north|now apply cols_green].
  - apply (faithful_from _ _ _ _ _ (fun y => n - 1 - y) (fun x => (x - 2 * n / 2) mod (2 * n))); try assumption; try reflexivity; [intros; apply EG|now apply rows_south|now apply cols_green].
Qed.

(** Coarse grids that start at Greenwich are not turned. *)
Lemma load_coarse : forall f var k n get lats lons, k = 1 \/ k = 73 \/ k = 365 -> 1 < n <= 90 ->
  nc_field f var = Some (F3 k n (2 * n) get) -> coord f lat_synonyms lats -> coord f lon_synonyms lons ->
  north_first n lats -> from_greenwich n lons ->
  exists c, from_filename (Some f) var = Ok c /\ forall t y x, cval c t y x = get t y x.
Proof.
  intros f var k n get lats lons K N FL CA CO LA LO. unfold from_filename.
  rewrite FL, (find_coord_spec _ _ _ CA), (find_coord_spec _ _ _ CO). cbn [bind].
  assert (U : untranspose (F3 k n (2 * n) get) = Ok (F3 k n (2 * n) get)).
  { cbn [untranspose]. destruct ((k =? 1) && (n =? 360) && (2 * n =? 180)) eqn:B; [|reflexivity]. rewrite !andb_true_iff, !Z.eqb_eq in B. lia. }
  rewrite U. cbn [bind]. destruct (step_pos n) as [SP SN]; [lia|].
  assert (2 <= inject_Z n)%Q by (change 2%Q with (inject_Z 2); apply inject_Z_le; lia).
  assert (inject_Z n <= 90)%Q by (change 90%Q with (inject_Z 90); apply inject_Z_le; lia).
  destruct (proj1 (first_lat n lats ltac:(lia)) LA) as [a [A1 A2]]. destruct (proj2 (first_lon n lons ltac:(lia)) LO) as [b [B1 B2]].
  rewrite A1. cbn [bind]. rewrite (qltb_f a 0) by (rewrite A2; nra). rewrite B1. cbn [bind].
  rewrite (qltb_f b 1) by (rewrite B2; nra). rewrite andb_false_r. cbn [first_level bind]. rewrite init_ok by exact K. eexists. split; [reflexivity|]. reflexivity.
Qed.

(** A level axis: the turn and the flip hit the wrong axes. *)
Lemma load_levels : forall f var k n get lats lons, k = 1 \/ k = 73 \/ k = 365 -> 90 < n ->
  nc_field f var = Some (F4 k 1 n (2 * n) get) -> coord f lat_synonyms lats -> coord f lon_synonyms lons ->
  (north_first n lats \/ south_first n lats) -> (from_date_line n lons \/ from_greenwich n lons) ->
  exists c, from_filename (Some f) var = Ok c /\
    (from_date_line n lons -> forall t y x, cval c t y x = get t 0 y x) /\
    (from_greenwich n lons -> forall t y x, cval c t y x = get t 0 ((y - n / 2) mod n) x).
Proof.
  intros f var k n get lats lons K N FL CA CO LA LO. unfold from_filename.
  rewrite FL, (find_coord_spec _ _ _ CA), (find_coord_spec _ _ _ CO). cbn [bind].
  assert (U : untranspose (F4 k 1 n (2 * n) get) = Ok (F4 k 1 n (2 * n) get)) by (cbn [untranspose]; now rewrite andb_false_r).
  rewrite U. cbn [bind]. destruct (step_pos n) as [SP SN]; [lia|].
  assert (91 <= inject_Z n)%Q by (change 91%Q with (inject_Z 91); apply inject_Z_le; lia).
  assert (LA0 : exists a, py_nth lats 0 = Ok a) by (destruct LA as [LA|LA]; [destruct (proj1 (first_lat n lats ltac:(lia)) LA) as [a [A _]]|destruct (proj2 (first_lat n lats ltac:(lia)) LA) as [a [A _]]]; eauto).
  destruct LA0 as [a A]. rewrite A. cbn [bind].
  assert (LON : exists b, py_nth lons 0 = Ok b /\ (((b < 0)%Q /\ from_date_line n lons) \/ ((0 < b)%Q /\ (b < 1)%Q /\ from_greenwich n lons))).
  { destruct LO as [LO|LO]; [destruct (proj1 (first_lon n lons ltac:(lia)) LO) as [b [B E]]|destruct (proj2 (first_lon n lons ltac:(lia)) LO) as [b [B E]]]; exists b; (split; [exact B|]); [left|right]; rewrite E; split; try assumption; try nra. split; [nra|exact LO]. }
  destruct LON as [b [B C]].
  destruct (Qltb a 0); rewrite B; cbn [bind]; destruct C as [[C D]|[C [C' D]]].
  1,3: rewrite (qltb_f 0 b) by lra; cbn [andb flip1 first_level bind Z.eqb]; rewrite init_ok by exact K; eexists; (split; [reflexivity|]); (split; [reflexivity|]);
    intros G; destruct (proj2 (first_lon n lons ltac:(lia)) G) as [b' [B' E']]; rewrite B in B'; injection B' as <-; lra.
  1,2: rewrite (qltb_t 0 b C), (qltb_t b 1 C'); cbn [andb flip1 roll2 first_level bind Z.eqb]; rewrite init_ok by exact K; eexists; (split; [reflexivity|]); (split; [|reflexivity]);
    intros G; destruct (proj1 (first_lon n lons ltac:(lia)) G) as [b' [B' E']]; rewrite B in B'; injection B' as <-; nra.
Qed.
