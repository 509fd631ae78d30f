(** Property theorem C54 (climatology files). *)
Require Import String ZArith QArith Qround List Bool Lia Lqa.
Require Import Verif.M_Base Verif.L_Base Verif.M_Grid Verif.M_ClimFile Verif.S_Calendar Verif.S_Grid Verif.S_Clim Verif.S_ClimFile Verif.L_ClimFile Verif.L_Clim.
Import ListNotations.
Open Scope string_scope.
Open Scope list_scope.
Open Scope Z_scope.

(* ------------------------------------------------------------------ C54 *)

(** Whatever the order of the file's rows, and whether its columns start at the date line or at Greenwich (grids
    finer than two degrees), the loaded climatology has the file's values at the same times and places; a
    360 x 180 field is recognised as transposed. *)
Theorem C54_load : forall f var k n get lats lons,
  k = 1 \/ k = 73 \/ k = 365 -> 0 < n ->
  (nc_field f var = Some (F3 k n (2 * n) get) \/
   (k = 1 /\ n = 180 /\ nc_field f var = Some (F3 1 360 180 (fun t x y => get t y x)))) ->
  coord f lat_synonyms lats -> coord f lon_synonyms lons ->
  ((1 < n /\ north_first n lats) \/ (1 < n /\ south_first n lats)) -> (from_date_line n lons \/ (90 < n /\ from_greenwich n lons)) ->
  exists c, from_filename (Some f) var = Ok c /\ cn c = k /\ faithful get lats lons n c.
Proof. exact load_good. Qed.
Print Assumptions C54_load.

(** Looking up a position in the loaded climatology gives the file's value at the centre of a cell that
    contains the position. *)
Theorem C54_lookup : forall f var k n get lats lons lat lon m d,
  k = 1 \/ k = 73 \/ k = 365 -> 1 < n -> nc_field f var = Some (F3 k n (2 * n) get) ->
  coord f lat_synonyms lats -> coord f lon_synonyms lons ->
  (north_first n lats \/ south_first n lats) -> (from_date_line n lons \/ (90 < n /\ from_greenwich n lons)) ->
  md_valid m d -> (-90 <= lat)%Q -> (lat <= 90)%Q -> (-540 <= lon)%Q ->
  exists c v t y x, from_filename (Some f) var = Ok c /\ get_value c lat lon m d = Ok v /\
    slice k m d t /\ row_has n y lat /\ col_has n x lon /\ file_value get lats lons t (mid_lat n y) (mid_lon n x) v.
Proof.
  intros f var k n get lats lons lat lon m d K N FL CA CO LA LO MD A B C.
  destruct (load_good f var k n get lats lons K) as [c [E [EK [F1 [F2 F3]]]]]; auto; [lia|destruct LA; [left|right]; split; assumption|].
  assert (W : clim_wf c) by (split; [rewrite EK; exact K|]; rewrite F1, F2; split; [lia|reflexivity]).
  destruct (get_value_spec c lat lon m d W MD A B C) as [t [y [x [G [S [R CL]]]]]]. rewrite EK in S. rewrite F1 in R, CL.
  exists c, (cval c t y x), t, y, x. repeat (split; [assumption|]). apply F3; [rewrite EK; apply S|apply R|apply CL].
Qed.
Print Assumptions C54_lookup.

(** A field with another number of time steps is refused; so is a file without coordinates. *)
Theorem C54_steps : forall c c', clim_init c = Ok c' <-> (cn c = 1 \/ cn c = 73 \/ cn c = 365) /\ c' = c.
Proof. exact init_iff. Qed.
Print Assumptions C54_steps.
Theorem C54_no_coordinates : forall f var fl, nc_field f var = Some fl ->
  (forall name, In name ["lat"; "lats"; "latitude"; "latitudes"] -> nc_coord f name = None) \/
  ((exists lats, coord f ["lat"; "lats"; "latitude"; "latitudes"] lats) /\ forall name, In name ["lon"; "lons"; "long"; "longs"; "longitude"; "longitudes"] -> nc_coord f name = None) ->
  from_filename (Some f) var = Err AssertionError.
Proof.
  intros f var fl FL [H|[[lats L] H]]; unfold from_filename; rewrite FL.
  - unfold lat_synonyms. rewrite (find_coord_none f _ H). reflexivity.
  - unfold lat_synonyms. rewrite (find_coord_spec f _ lats L). unfold lon_synonyms. rewrite (find_coord_none f _ H). reflexivity.
Qed.
Print Assumptions C54_no_coordinates.

(** Without a file every lookup is missing. *)
Theorem C54_no_file : forall var, exists c, from_filename None var = Ok c /\ clim_wf c /\
  forall lat lon m d, md_valid m d -> (-90 <= lat)%Q -> (lat <= 90)%Q -> (-540 <= lon)%Q -> get_value c lat lon m d = Ok None.
Proof.
  intro var. eexists. split; [reflexivity|]. match goal with |- clim_wf ?c /\ _ => assert (W : clim_wf c) by (split; [now left|split; reflexivity]) end.
  split; [exact W|]. intros lat lon m d MD A B C. destruct (get_value_spec _ lat lon m d W MD A B C) as [t [y [x [G _]]]]. exact G.
Qed.
Print Assumptions C54_no_file.

(** "Columns may start at Greenwich" fails for grids of two degrees and coarser: every value ends up on the
    opposite side of the world. *)
Theorem C54_coarse_refuted : forall f var k n get lats lons, k = 1 \/ k = 73 \/ k = 365 -> 1 < n <= 90 ->
  nc_field f var = Some (F3 k n (2 * n) get) -> coord f lat_synonyms lats -> coord f lon_synonyms lons ->
  north_first n lats -> from_greenwich n lons ->
  exists c, from_filename (Some f) var = Ok c /\
    forall t y x, 0 <= y < n -> 0 <= x < 2 * n -> file_value get lats lons t (mid_lat n y) (mid_lon n x + 180) (cval c t y x).
Proof.
  intros f var k n get lats lons K N FL CA CO LA LO. destruct (load_coarse f var k n get lats lons K N FL CA CO LA LO) as [c [E V]].
  exists c. split; [exact E|]. intros t y x Y X. rewrite V. pose proof LA as [LL LA']. pose proof LO as [OL LO'].
  destruct (nth_Z _ lats y) as [a A]; [lia|]. destruct (nth_Z _ lons x) as [b B]; [lia|].
  exists (Z.to_nat y), (Z.to_nat x), a, b. rewrite !Z2Nat.id by lia. split; [exact A|]. split; [exact B|].
  apply LA' in A. apply LO' in B. rewrite Z2Nat.id in A, B by lia. split; [exact A|]. split; [|reflexivity]. apply same_lon_refl. rewrite B. ring.
Qed.
Print Assumptions C54_coarse_refuted.

(** "A level axis is harmless" fails: rows are never put into order, and with columns from Greenwich the rows are
    turned instead of the columns. *)
Theorem C54_levels_refuted : forall f var k n get lats lons, k = 1 \/ k = 73 \/ k = 365 -> 90 < n ->
  nc_field f var = Some (F4 k 1 n (2 * n) get) -> coord f lat_synonyms lats -> coord f lon_synonyms lons ->
  (north_first n lats \/ south_first n lats) -> (from_date_line n lons \/ from_greenwich n lons) ->
  exists c, from_filename (Some f) var = Ok c /\
    (from_date_line n lons -> forall t y x, cval c t y x = get t 0 y x) /\
    (from_greenwich n lons -> forall t y x, cval c t y x = get t 0 ((y - n / 2) mod n) x).
Proof. exact load_levels. Qed.
Print Assumptions C54_levels_refuted.

(* ---- examples ---- *)

(** A half-degree file, rows from the south, columns from Greenwich, whose values are its row numbers. *)
Definition ex_lats : list Q := map (fun i => (-90 + (inject_Z (Z.of_nat i) + (1 # 2)) * (1 # 2))%Q) (seq 0 360).
Definition ex_lons : list Q := map (fun i => ((inject_Z (Z.of_nat i) + (1 # 2)) * (1 # 2))%Q) (seq 0 720).
Definition ex_file : ncfile :=
  {| nc_field := fun v => if String.eqb v "sst" then Some (F3 73 360 720 (fun _ y x => Some (inject_Z (1000 * y + x)))) else None;
     nc_coord := fun v => if String.eqb v "latitude" then Some ex_lats else if String.eqb v "lon" then Some ex_lons else None |}.
Lemma nth_map_seq : forall (A : Type) (g : nat -> A) n i a, nth_error (map g (seq 0 n)) i = Some a -> a = g i /\ (i < n)%nat.
Proof.
  intros A g n i a H. assert (L : (i < n)%nat) by (rewrite <- (seq_length n 0), <- (map_length g); apply nth_error_Some; congruence).
  rewrite (map_nth_error g i (seq 0 n) (d := i)) in H; [|rewrite nth_error_nth' with (d := O) by (rewrite seq_length; exact L); now rewrite seq_nth].
  injection H as <-. split; [reflexivity|exact L].
Qed.
Example C54_ex : nc_field ex_file "sst" = Some (F3 73 360 720 (fun _ y x => Some (inject_Z (1000 * y + x)))) /\
  coord ex_file lat_synonyms ex_lats /\ coord ex_file lon_synonyms ex_lons /\ south_first 360 ex_lats /\ from_greenwich 360 ex_lons /\
  (let! c := from_filename (Some ex_file) "sst" in get_value c (-89) 10 6 1) = Ok (Some 1020%Q).
Proof.
  split; [reflexivity|]. split; [|split; [|split; [|split]]].
  - split; [exists "latitude"; split; [right; right; now left|reflexivity]|]. intros name c' I E.
    repeat (destruct I as [<-|I]; [first [discriminate E | injection E as <-; reflexivity]|]). destruct I.
  - split; [exists "lon"; split; [now left|reflexivity]|]. intros name c' I E.
    repeat (destruct I as [<-|I]; [first [discriminate E | injection E as <-; reflexivity]|]). destruct I.
  - split; [reflexivity|]. intros y a E. apply nth_map_seq in E. destruct E as [-> L]. unfold mid_lat, step. rewrite !inject_Z_minus.
    change (180 / inject_Z 360)%Q with (180 / 360)%Q. change (inject_Z 360) with 360%Q. change (inject_Z 1) with 1%Q. field.
  - split; [reflexivity|]. intros x a E. apply nth_map_seq in E. destruct E as [-> L]. unfold mid_lon, step.
    change (180 / inject_Z 360)%Q with (180 / 360)%Q. field.
  - vm_compute. reflexivity.
Qed.

(** A field with levels is accepted whatever its shape, if it has a level and 1, 73 or 365 time steps, but for one shape: 360 levels of 180
    rows at a single time are taken for a field that lies on its side, and numpy refuses to turn it. *)
Theorem C54_levels_accepted : forall f var n0 n1 n2 n3 get lats lons, nc_field f var = Some (F4 n0 n1 n2 n3 get) ->
  coord f lat_synonyms lats -> coord f lon_synonyms lons -> lats <> [] -> lons <> [] ->
  ((exists c, from_filename (Some f) var = Ok c) <-> (n0 = 1 \/ n0 = 73 \/ n0 = 365) /\ n1 <> 0 /\ ~ (n0 = 1 /\ n1 = 360 /\ n2 = 180)) /\
  (from_filename (Some f) var = Err ValueError <-> n0 = 1 /\ n1 = 360 /\ n2 = 180).
Proof.
  intros f var n0 n1 n2 n3 get lats lons FL CA CO NA NO. unfold from_filename. rewrite FL, (find_coord_spec _ _ _ CA), (find_coord_spec _ _ _ CO). cbn [bind untranspose].
  destruct lats as [|la0 lats]; [easy|]. destruct lons as [|lo0 lons]; [easy|].
  destruct ((n0 =? 1) && (n1 =? 360) && (n2 =? 180)) eqn:B.
  - rewrite !andb_true_iff, !Z.eqb_eq in B. cbn [bind]. split; [split; [intros [c H]; discriminate H|tauto]|split; [tauto|reflexivity]].
  - assert (B' : ~ (n0 = 1 /\ n1 = 360 /\ n2 = 180)) by (intros [-> [-> ->]]; discriminate B). cbn [bind]. change (py_nth (la0 :: lats) 0) with (@Ok Q la0). change (py_nth (lo0 :: lons) 0) with (@Ok Q lo0). cbn [bind].
    assert (S : exists g, (if Qltb 0 lo0 && Qltb lo0 1 then roll2 (if Qltb la0 0 then flip1 (F4 n0 n1 n2 n3 get) else F4 n0 n1 n2 n3 get) else (if Qltb la0 0 then flip1 (F4 n0 n1 n2 n3 get) else F4 n0 n1 n2 n3 get)) = F4 n0 n1 n2 n3 g)
      by (destruct (Qltb 0 lo0 && Qltb lo0 1), (Qltb la0 0); eexists; reflexivity).
    destruct S as [g ->]. cbn [first_level]. destruct (n1 =? 0) eqn:E.
    + apply Z.eqb_eq in E. cbn [bind]. split; [split; [intros [c H]; discriminate H|intros [_ [H _]]; easy]|split; [discriminate|intros [_ [H _]]; lia]].
    + apply Z.eqb_neq in E. cbn [bind]. unfold clim_init. cbn [cn]. destruct ((n0 =? 1) || (n0 =? 73) || (n0 =? 365)) eqn:K; cbn.
      * rewrite !orb_true_iff, !Z.eqb_eq in K. split; [split; [intros _; tauto|intros _; eexists; reflexivity]|split; [discriminate|tauto]].
      * rewrite !orb_false_iff, !Z.eqb_neq in K. split; [split; [intros [c H]; discriminate H|tauto]|split; [discriminate|tauto]].
Qed.
Print Assumptions C54_levels_accepted.
Example C54_levels_accepted_ex : let f n1 := {| nc_field := fun _ => Some (F4 1 n1 180 360 (fun _ _ _ _ => Some 1%Q)); nc_coord := fun s => if (s =? "lat")%string then Some [89%Q] else if (s =? "lon")%string then Some [(-180)%Q] else None |} in
  coord (f 360) lat_synonyms [89%Q] /\ coord (f 360) lon_synonyms [(-180)%Q] /\ from_filename (Some (f 360)) "sst" = Err ValueError /\ exists c, from_filename (Some (f 1)) "sst" = Ok c.
Proof.
  intros f. split; [|split; [|split; [reflexivity|eexists; reflexivity]]].
  - split; [exists "lat"%string; split; [now left|reflexivity]|]. intros name c' I E. cbn in E. destruct (name =? "lat")%string; [congruence|]. destruct (name =? "lon")%string eqn:K; [|discriminate]. apply String.eqb_eq in K. subst name. cbn in I. repeat destruct I as [I|I]; try discriminate I. destruct I.
  - split; [exists "lon"%string; split; [now left|reflexivity]|]. intros name c' I E. cbn in E. destruct (name =? "lat")%string eqn:K; [|destruct (name =? "lon")%string; congruence]. apply String.eqb_eq in K. subst name. cbn in I. repeat destruct I as [I|I]; try discriminate I. destruct I.
Qed.
