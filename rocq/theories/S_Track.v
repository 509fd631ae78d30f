(** Specification vocabulary for the track check: speeds, estimated positions, and the reports that are off
    track.  Refers to the report record only. *)
Require Import String ZArith QArith Qround List Bool.
Require Import Verif.M_Base Verif.S_Calendar Verif.M_Report Verif.S_Report Verif.M_Voyage Verif.S_Voyage.
Import ListNotations.
Open Scope string_scope.
Open Scope list_scope.
Open Scope Z_scope.

(** One knot is 1/0.539957 km/h, one nautical mile 1/0.539957 km. *)
Definition nm (x : Q) : Q := (x / (539957 # 1000000))%Q.

(** s is the speed in km/h from report a to report b (for simultaneous reports: the distance itself). *)
Definition speed_from (dist : Q -> Q -> Q -> Q -> Q) (a b : report) (s : Q) : Prop :=
  exists la lo d h la' lo' d' h' t, located a la lo d h /\ located b la' lo' d' h' /\ elapsed d h d' h' t /\
    ((t == 0 /\ s == dist la' lo' la lo) \/ (~ t == 0 /\ s == dist la' lo' la lo / t))%Q.
Definition faster (dist : Q -> Q -> Q -> Q -> Q) (a b : report) (limit : Q) : Prop := exists s, speed_from dist a b s /\ (limit < s)%Q.
(** Initial course from a to b. *)
Definition course_from (course : Q -> Q -> Q -> Q -> Q) (a b : report) (c : Q) : Prop :=
  exists la lo d h la' lo' d' h', located a la lo d h /\ located b la' lo' d' h' /\ c = course la lo la' lo'.

(** Reported position, speed (knots) and heading of a report. *)
Definition at_pos (r : report) (la lo : Q) : Prop := getvar r "LAT" = Some la /\ getvar r "LON" = Some lo.
Definition sailing (r : report) (v d : Q) : Prop := getvar r "vsi" = Some v /\ getvar r "dsi" = Some d.

(** Displacement in degrees from (la, lo) when sailing at v knots with heading d for t/2 hours. *)
Definition half_leg (sp : sphere) (la lo v d t : Q) : Q * Q :=
  let (x, y) := sp_move sp la lo d (nm v * t / 2)%Q in ((x - la)%Q, (y - lo)%Q).

(** x is the distance of report b from where report a, by dead reckoning over t hours, would put it: half the
    time with the speed and heading of a, half with those of b. *)
Definition reckoned (sp : sphere) (a b : report) (t x : Q) : Prop :=
  exists la lo va da lb ob vb db, at_pos a la lo /\ sailing a va da /\ at_pos b lb ob /\ sailing b vb db /\
    let p := half_leg sp la lo va da t in let q := half_leg sp lb ob vb db t in
    (x == sp_dist sp lb ob (la + fst p + fst q) (lo + snd p + snd q))%Q.
(** The same backwards in time from report c to report b: headings turned by 180 degrees. *)
Definition reckoned_back (sp : sphere) (b c : report) (t x : Q) : Prop :=
  exists lb ob vb db lc oc vc dc, at_pos b lb ob /\ sailing b vb db /\ at_pos c lc oc /\ sailing c vc dc /\
    let p := half_leg sp lc oc vc (dc - 180)%Q t in let q := half_leg sp lb ob vb (db - 180)%Q t in
    (x == sp_dist sp lb ob (lc + fst p + fst q) (oc + snd p + snd q))%Q.

(** Report b lies more than [limit] km from the point between a and c proportional to the times. *)
Definition strays (sp : sphere) (limit : Q) (a b c : report) : Prop :=
  exists la lo lb ob lc oc t0 t1 f, at_pos a la lo /\ at_pos b lb ob /\ at_pos c lc oc /\
    hours_between a b t0 /\ hours_between b c t1 /\
    ((t0 + t1 == 0 /\ f == 0) \/ (~ t0 + t1 == 0 /\ f == t0 / (t0 + t1)))%Q /\
    (limit < sp_dist sp lb ob (fst (sp_mid sp la lo lc oc f)) (snd (sp_mid sp la lo lc oc f)))%Q.

(** Too fast at position i: two of the legs at report i exceed the limit: the one before it together with the
    one from two reports before, or the one after it together with the one to two reports after, or both legs. *)
Definition rushes (dist : Q -> Q -> Q -> Q -> Q) (v : list report) (amax : Q) (i : nat) (a b c : report) : Prop :=
  (faster dist a b amax /\ exists j z, i = S (S j) /\ nth_error v j = Some z /\ faster dist z b amax) \/
  (faster dist b c amax /\ exists d, nth_error v (S (S i)) = Some d /\ faster dist b d amax) \/
  (faster dist a b amax /\ faster dist b c amax).

(** Report b contradicts dead reckoning from both neighbours by more than the distance sailed since a. *)
Definition off_reckoning (sp : sphere) (a b c : report) : Prop :=
  exists va da vb db t t' x y, sailing a va da /\ sailing b vb db /\ hours_between a b t /\ hours_between b c t' /\
    (0 < va /\ 0 < vb /\ 0 < t)%Q /\ reckoned sp a b t x /\ reckoned_back sp b c t' y /\
    (nm (t * ((va + vb) / 2)) < x /\ nm (t * ((va + vb) / 2)) < y)%Q.
(** The course from a to b differs by more than [limit] degrees (and less than 360 - limit) from a reported heading. *)
Definition off_heading (sp : sphere) (limit : Q) (a b : report) : Prop :=
  exists da db c, getvar a "dsi" = Some da /\ getvar b "dsi" = Some db /\
    course_from (sp_course sp) a b c /\
    ((limit < Qabs' (db - c) /\ Qabs' (db - c) < 360 - limit) \/ (limit < Qabs' (da - c) /\ Qabs' (da - c) < 360 - limit))%Q.
(** The speed from a to b differs by more than [limit] knots from both reported speeds. *)
Definition off_speed (sp : sphere) (limit : Q) (a b : report) : Prop :=
  exists va vb s, getvar a "vsi" = Some va /\ getvar b "vsi" = Some vb /\ speed_from (sp_dist sp) a b s /\
    (nm limit < Qabs' (nm vb - s) /\ nm limit < Qabs' (nm va - s))%Q.

(** Report i of voyage v is off track. *)
Definition off_track (sp : sphere) (dir speed absolute mid : Q) (v : list report) (amax : Q) (i : nat) : Prop :=
  exists i' a b c, i = S i' /\ nth_error v i' = Some a /\ nth_error v i = Some b /\ nth_error v (S i) = Some c /\
    strays sp (nm mid) a b c /\ rushes (sp_dist sp) v amax i a b c /\
    (off_reckoning sp a b c \/ off_heading sp dir a b \/ off_speed sp speed a b \/ faster (sp_dist sp) a b (nm absolute)).

(** Speed bin of a speed in knots: three knots wide, the last one open, the first one including negative speeds. *)
Definition in_bin (knots : Q) (k : Z) : Prop :=
  0 <= k <= 11 /\ (k = 0 \/ (inject_Z (3 * k) <= knots)%Q) /\ (k = 11 \/ (knots < inject_Z (3 * k + 3))%Q).
(** c of the speeds (km/h) fall in bin k. *)
Inductive bin_count : list Q -> Z -> Z -> Prop :=
| bc_nil : forall k, bin_count [] k 0
| bc_in : forall s l k c, in_bin (s * (539957 # 1000000)) k -> bin_count l k c -> bin_count (s :: l) k (c + 1)
| bc_out : forall s l k c, ~ in_bin (s * (539957 # 1000000)) k -> bin_count l k c -> bin_count (s :: l) k c.
(** m knots is the centre of the first most populated bin, raised to 8.5 knots. *)
Definition modal_knots (l : list Q) (m : Q) : Prop :=
  exists k c, 0 <= k <= 11 /\ bin_count l k c /\
    (forall k' c', 0 <= k' <= 11 -> bin_count l k' c' -> c' < c \/ (c' = c /\ k <= k')) /\
    ((17 # 2 <= inject_Z (3 * k) + (3 # 2) /\ m == inject_Z (3 * k) + (3 # 2)) \/ (inject_Z (3 * k) + (3 # 2) < 17 # 2 /\ m == 17 # 2))%Q.
(** Speeds between consecutive reports. *)
Definition leg_speeds (dist : Q -> Q -> Q -> Q -> Q) (v : list report) (l : list Q) : Prop :=
  S (length l) = length v /\
  forall i a b s, nth_error v i = Some a -> nth_error v (S i) = Some b -> nth_error l i = Some s -> speed_from dist a b s.
(** amax km/h is the speed limit of the voyage: 15 knots if the modal speed is at most 8.51 knots, otherwise
    1.25 times the modal speed. *)
Definition voyage_limit (dist : Q -> Q -> Q -> Q -> Q) (v : list report) (amax : Q) : Prop :=
  exists l m, leg_speeds dist v l /\ modal_knots l m /\
    ((m <= 851 # 100 /\ amax == nm 15) \/ (851 # 100 < m /\ amax == nm ((5 # 4) * m)))%Q.

(** r' is r but for the derived fields in [names] and the two flags (POS, trk), (POS, few). *)
Definition alt_names : list string := ["alt_speed"; "alt_course"; "alt_distance"; "alt_time_diff"].
Definition motion_names : list string := ["speed"; "course"; "distance"; "time_diff"].
Definition track_same (names : list string) (trk few : string) (r r' : report) : Prop :=
  r_id r' = r_id r /\ r_uid r' = r_uid r /\ r_data r' = r_data r /\ r_dt r' = r_dt r /\ r_clim r' = r_clim r /\
  (forall n, ~ In n names -> getvar r' n = getvar r n) /\
  forall t f, ~ same_key "POS" trk t f -> ~ same_key "POS" few t f -> get_qc r' t f = get_qc r t f.

(** Reports in the order of time. *)
Definition in_time_order (v : list report) : Prop :=
  forall i a b t, nth_error v i = Some a -> nth_error v (S i) = Some b -> hours_between a b t -> (0 <= t)%Q.
(** The reported heading is one of the eight directions (or 360), or missing. *)
Definition heading_known (r : report) : Prop :=
  forall d, getvar r "dsi" = Some d -> exists k, 0 <= k <= 8 /\ (d == inject_Z (45 * k))%Q.

(** The geometry works on numbers, not on fractions: equal rationals give equal results. *)
Definition well_defined (sp : sphere) : Prop :=
  (forall a a' b b' c c' d d', a == a' -> b == b' -> c == c' -> d == d' -> sp_dist sp a b c d == sp_dist sp a' b' c' d')%Q /\
  (forall a b c d d', d == d' -> fst (sp_move sp a b c d) == fst (sp_move sp a b c d') /\ snd (sp_move sp a b c d) == snd (sp_move sp a b c d'))%Q /\
  (forall a b c d f f', f == f' -> fst (sp_mid sp a b c d f) == fst (sp_mid sp a b c d f') /\ snd (sp_mid sp a b c d f) == snd (sp_mid sp a b c d f'))%Q.

(* ---- repeated passes ---- *)

(** G lists the positions flagged by one pass of the MDS track check (limits 60 degrees, 10 knots, 40 knots,
    150 nautical miles) over the reports w; with fewer than three reports nothing is flagged. *)
Definition pass (sp : sphere) (w : list report) (G : list nat) : Prop :=
  ((length w < 3)%nat /\ G = []) \/
  exists amax, voyage_limit (sp_dist sp) w amax /\ lists (off_track sp 60 10 40 150 w amax) G.
(** The reports at given positions. *)
Definition picks (v : list report) (keep : list nat) (w : list report) : Prop := Forall2 (fun i r => nth_error v i = Some r) keep w.
(** k passes over voyage v have flagged the positions F, the last one G.  Each pass runs over the reports not
    flagged before, in their order. *)
Inductive rounds (sp : sphere) (v : list report) : nat -> list nat -> list nat -> Prop :=
| rounds_first : forall G, pass sp v G -> rounds sp v 1 G G
| rounds_next : forall k F G keep w H, rounds sp v k F G ->
    keep = filter (fun i => negb (existsb (Nat.eqb i) F)) (seq 0 (length v)) -> picks v keep w -> pass sp w H ->
    rounds sp v (S k) (F ++ map (fun j => nth j keep O) H) (map (fun j => nth j keep O) H).
