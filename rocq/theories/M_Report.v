(** Model of MarineReport, QC_filter and Deck (Extended_IMMA.py).  No proofs here.
    Float data are exact rationals, a missing value (NaN in the data array) is None.
    Dictionaries are association lists, most recent binding first for the flag and ext stores. *)
Require Import String Ascii ZArith QArith Qround List Bool.
Require Import Verif.M_Base Verif.M_Calendar.
Import ListNotations.
Open Scope string_scope.
Open Scope list_scope.
Open Scope Z_scope.

(** Extended_IMMA.py:20-21. *)
Definition VARLIST : list string :=
  ["YR"; "MO"; "DY"; "HR"; "LAT"; "LON"; "DS"; "VS"; "SLP"; "AT"; "AT2"; "SST"; "DCK"; "PT"; "SID"; "DPT";
   "SHU"; "VAP"; "CRH"; "CWB"; "DPD"; "W"; "WI"; "D"; "DI"; "WW"].
(** Extended_IMMA.py:685. *)
Definition INTVARS : list string := ["YR"; "MO"; "DY"; "DS"; "VS"; "DCK"; "PT"; "SID"].
(** Extended_IMMA.py:372. *)
Definition special_qc_types : list string := ["POS"; "SST"; "AT"; "DPT"; "SLP"; "W"; "D"].

Definition mem (s : string) (l : list string) : bool := existsb (String.eqb s) l.
Fixpoint assoc {A} (k : string) (l : list (string * A)) : option A :=
  match l with [] => None | (k', v) :: l' => if String.eqb k k' then Some v else assoc k l' end.
(** list.index: position of the first occurrence, ValueError when absent. *)
Fixpoint index_of (s : string) (l : list string) : res nat :=
  match l with
  | [] => Err ValueError
  | x :: l' => if String.eqb s x then Ok O else let! n := index_of s l' in Ok (S n)
  end.
Fixpoint update_nth {A} (i : nat) (v : A) (l : list A) : list A :=
  match i, l with
  | _, [] => []
  | O, _ :: l' => v :: l'
  | S i', x :: l' => x :: update_nth i' v l'
  end.

(** Extended_IMMA.py:340-372: the fields of a MarineReport. r_dt is the datetime as
    [year; month; day; hour; minute]; r_clim maps a variable to its climatology and standard deviation
    (ClimVariable, Extended_IMMA.py:285-337). *)
Record report := {
  r_id : option string; r_uid : option string; r_data : list (option Q);
  r_dt : option (list Z); r_qc : list (string * Z); r_ext : list (string * option Q);
  r_clim : list (string * (option Q * option Q)) }.

Definition with_data r d := {| r_id := r_id r; r_uid := r_uid r; r_data := d; r_dt := r_dt r; r_qc := r_qc r; r_ext := r_ext r; r_clim := r_clim r |}.
Definition with_dt r d := {| r_id := r_id r; r_uid := r_uid r; r_data := r_data r; r_dt := d; r_qc := r_qc r; r_ext := r_ext r; r_clim := r_clim r |}.
Definition with_qc r q := {| r_id := r_id r; r_uid := r_uid r; r_data := r_data r; r_dt := r_dt r; r_qc := q; r_ext := r_ext r; r_clim := r_clim r |}.
Definition with_ext r e := {| r_id := r_id r; r_uid := r_uid r; r_data := r_data r; r_dt := r_dt r; r_qc := r_qc r; r_ext := e; r_clim := r_clim r |}.
Definition with_clim r c := {| r_id := r_id r; r_uid := r_uid r; r_data := r_data r; r_dt := r_dt r; r_qc := r_qc r; r_ext := r_ext r; r_clim := c |}.

(** Extended_IMMA.py:665-690 getvar, for every name but 'ID' and 'UID' (which are r_id, r_uid):
    integer types are truncated; names that are neither a variable nor an ext give None. *)
Definition getvar (r : report) (name : string) : option Q :=
  match index_of name VARLIST with
  | Ok i =>
      match nth i (r_data r) None with
      | None => None
      | Some q => if mem name INTVARS then Some (inject_Z (py_int q)) else Some q
      end
  | Err _ => match assoc name (r_ext r) with Some v => v | None => None end
  end.
(** getvar of an integer-typed variable. *)
Definition getint (r : report) (name : string) : option Z :=
  match getvar r name with Some q => Some (py_int q) | None => None end.

(** The constructor datetime(y, m, d, h, mi): ValueError outside the ranges. *)
Definition mk_datetime (y m d h mi : Z) : res (list Z) :=
  if datetime_ok y m d && (0 <=? h) && (h <=? 23) && (0 <=? mi) && (mi <=? 59)
  then Ok [y; m; d; h; mi] else Err ValueError.

(** Extended_IMMA.py:456-478 calculate_dt. *)
Definition calculate_dt (r : report) : res report :=
  match getint r "YR" with
  | None => Ok (with_dt r None)
  | Some y =>
      match getint r "MO", getvar r "HR", getint r "DY" with
      | Some m, Some h, Some d =>
          if 0 <? d then
            let! ml := py_nth (get_month_lengths y) (m - 1) in
            if d <=? ml then
              let rh := Qfloor h in
              let rm := Qfloor (60 * (h - inject_Z rh)) in
              let! dt := mk_datetime y m d rh rm in
              Ok (with_dt r (Some dt))
            else Ok (with_dt r None)
          else Ok (with_dt r None)
      | _, _, _ => Ok (with_dt r None)
      end
  end.

(** Extended_IMMA.py:645-663 setvar for every name but 'ID' and 'UID'.  Assigning None to the float
    array stores NaN.  The date-time is recalculated for YR, DY, HR (not MO). *)
Definition setvar (r : report) (name : string) (v : option Q) : res report :=
  let! i := index_of name VARLIST in
  let r' := with_data r (update_nth i v (r_data r)) in
  if mem name ["YR"; "DY"; "HR"] then calculate_dt r' else Ok r'.

(** Extended_IMMA.py:634-643 setext, 622-632 getext. *)
Definition setext (r : report) (name : string) (v : option Q) : report := with_ext r ((name, v) :: r_ext r).
Definition getext (r : report) (name : string) : res (option Q) :=
  match assoc name (r_ext r) with Some v => Ok v | None => Err AssertionError end.

(** Extended_IMMA.py:389-406 calculate_dsi_vsi. *)
Definition ds_convert : list (option Q) :=
  [Some 0; Some 45; Some 90; Some 135; Some 180; Some 225; Some 270; Some 315; Some 360; None]%Q.
Definition calculate_dsi_vsi (r : report) : res report :=
  let! dsi := match getint r "DS" with Some d => py_nth ds_convert d | None => Ok None end in
  let vsi := match getvar r "VS" with
             | Some v =>
                 if Qeqb v 0 then Some 0%Q
                 else if match getint r "YR" with Some y => 1968 <=? y | None => false end
                 then Some (v * 5 - 2)%Q else Some (v * 3 - 1)%Q
             | None => None
             end in
  Ok (setext (setext r "dsi" dsi) "vsi" vsi).

(** Extended_IMMA.py:347-372 __init__ from the decoded record: identifiers and numeric fields.  The
    recalculations of the date-time during filling raise only if the last one raises. *)
Definition init_data (fields : list (string * option Q)) : list (option Q) :=
  map (fun v => match assoc v fields with Some (Some q) => Some q | _ => None end) VARLIST.
Definition new_report (id uid : option string) (fields : list (string * option Q)) : res report :=
  let r := {| r_id := id; r_uid := uid; r_data := init_data fields; r_dt := None; r_qc := []; r_ext := []; r_clim := [] |} in
  let! r := calculate_dt r in calculate_dsi_vsi r.

(** Extended_IMMA.py:374-387 lat, lon ([None > 180] is False in Python 2). *)
Definition lat (r : report) : option Q := getvar r "LAT".
Definition lon (r : report) : option Q :=
  match getvar r "LON" with Some l => Some (if Qltb 180 l then l - 360 else l)%Q | None => None end.

(** Extended_IMMA.py:555-566 add_climate_variable, 568-601 getnorm, getanom. *)
Definition add_climate_variable (r : report) (name : string) (c s : option Q) : report :=
  with_clim r ((name, (c, s)) :: r_clim r).
Definition getnorm (r : report) (name : string) : option Q :=
  match assoc name (r_clim r) with Some (c, _) => c | None => None end.
Definition getnorm_stdev (r : report) (name : string) : option Q :=
  match assoc name (r_clim r) with Some (_, s) => s | None => None end.
Definition getanom (r : report) (name : string) : option Q :=
  match assoc name (r_clim r) with
  | Some (Some c, _) => match getvar r name with Some v => Some (v - c)%Q | None => None end
  | _ => None
  end.

(** Extended_IMMA.py:603-620 get_normalised_anom (standard deviations are Python floats: dividing by zero raises). *)
Definition get_normalised_anom (r : report) (name : string) : res (option Q) :=
  match assoc name (r_clim r) with
  | Some (Some c, Some s) =>
      match getvar r name with
      | Some v => if Qeqb s 0 then Err ZeroDivisionError else Ok (Some ((v - c) / s)%Q)
      | None => Ok None
      end
  | _ => Ok None
  end.

(** Extended_IMMA.py:692-711 set_qc. *)
Definition set_qc (r : report) (qc_type flag : string) (v : Z) : res report :=
  assert! (0 <=? v) && (v <=? 9);
  assert! mem qc_type special_qc_types || mem qc_type VARLIST;
  Ok (with_qc r (((qc_type ++ flag)%string, v) :: r_qc r)).
(** Extended_IMMA.py:713-729 get_qc. *)
Definition get_qc (r : report) (qc_type flag : string) : Z :=
  match assoc ((qc_type ++ flag)%string) (r_qc r) with Some v => v | None => 9 end.

(** Extended_IMMA.py:731-744 saturated. *)
Definition saturated (r : report) : bool :=
  match getvar r "DPT", getvar r "AT" with Some d, Some t => Qeqb d t | _, _ => false end.

(* ---- comparison (Python 2: None sorts before every string, str and datetime compare lexicographically) ---- *)

Definition opt_cmp {A} (cmp : A -> A -> comparison) (a b : option A) : comparison :=
  match a, b with
  | None, None => Eq
  | None, Some _ => Lt
  | Some _, None => Gt
  | Some x, Some y => cmp x y
  end.
Definition id_cmp : option string -> option string -> comparison := opt_cmp String.compare.
Fixpoint lex_cmp (a b : list Z) : comparison :=
  match a, b with
  | [], [] => Eq
  | [], _ => Lt
  | _, [] => Gt
  | x :: a', y :: b' => match x ?= y with Eq => lex_cmp a' b' | c => c end
  end.

(** Extended_IMMA.py:505-512 __eq__. *)
Definition rep_eq (a b : report) : bool :=
  match id_cmp (r_id a) (r_id b), opt_cmp lex_cmp (r_dt a) (r_dt b) with Eq, Eq => true | _, _ => false end.
(** Extended_IMMA.py:514-527 __gt__. *)
Definition rep_gt (a b : report) : bool :=
  match id_cmp (r_id a) (r_id b) with
  | Gt => true
  | Eq => match r_dt a, r_dt b with
          | Some x, Some y => match lex_cmp x y with Gt => true | _ => false end
          | _, _ => false
          end
  | Lt => false
  end.
(** Extended_IMMA.py:529-540 __ge__ and 542-553 __le__ (comparing a datetime with None raises TypeError). *)
Definition dt_cmp_strict (a b : option (list Z)) : res comparison :=
  match a, b with
  | Some x, Some y => Ok (lex_cmp x y)
  | None, None => Ok Eq
  | _, _ => Err TypeError
  end.
Definition rep_ge (a b : report) : res bool :=
  match id_cmp (r_id a) (r_id b) with
  | Gt => Ok true
  | Eq => let! c := dt_cmp_strict (r_dt a) (r_dt b) in Ok (match c with Lt => false | _ => true end)
  | Lt => Ok false
  end.
Definition rep_le (a b : report) : res bool :=
  match id_cmp (r_id a) (r_id b) with
  | Lt => Ok true
  | Eq => let! c := dt_cmp_strict (r_dt a) (r_dt b) in Ok (match c with Gt => false | _ => true end)
  | Gt => Ok false
  end.

(** list.sort on reports: x < y is evaluated as y > x (__lt__ is not defined).  Stable insertion sort;
    the result of Python's sort is the same whenever the order is a strict weak order. *)
Fixpoint ins_report (x : report) (l : list report) : list report :=
  match l with
  | [] => [x]
  | y :: l' => if rep_gt x y then y :: ins_report x l' else x :: l
  end.
Definition sort_reports (l : list report) : list report := fold_right ins_report [] l.

(* ---- QC_filter, Extended_IMMA.py:218-282 ---- *)

Definition qc_filter := list (string * string * Z).

(** Extended_IMMA.py:239-252 test_report. *)
Definition test_report (f : qc_filter) (r : report) : Z :=
  fold_left (fun result c => if get_qc r (fst (fst c)) (snd (fst c)) =? snd c then result else 1) f 0.

(* ---- Deck, Extended_IMMA.py:2892-2989 ---- *)

(** Reports, positions by identifier (in order of first appearance), filter. *)
Record deck := { d_reps : list report; d_ids : list (option string * list nat); d_filter : qc_filter }.
(** Extended_IMMA.py:2908-2911. *)
Definition new_deck : deck := {| d_reps := []; d_ids := []; d_filter := [] |}.

Definition id_eqb (a b : option string) : bool := match id_cmp a b with Eq => true | _ => false end.
(** Extended_IMMA.py:2928-2931: append a position to the list of an identifier. *)
Fixpoint track (id : option string) (i : nat) (t : list (option string * list nat)) : list (option string * list nat) :=
  match t with
  | [] => [(id, [i])]
  | (k, l) :: t' => if id_eqb k id then (k, l ++ [i]) :: t' else (k, l) :: track id i t'
  end.
(** Extended_IMMA.py:2916-2931 append. *)
Definition deck_append (d : deck) (r : report) : deck :=
  {| d_reps := (d_reps d ++ [r])%list; d_ids := track (r_id r) (length (d_reps d)) (d_ids d); d_filter := d_filter d |}.
(** Extended_IMMA.py:2941-2951 index_by_id: adds to the existing index. *)
Definition index_by_id (d : deck) : deck :=
  {| d_reps := d_reps d;
     d_ids := fold_left (fun t p => track (r_id (snd p)) (fst p) t) (combine (seq 0 (length (d_reps d))) (d_reps d)) (d_ids d);
     d_filter := d_filter d |}.
(** Extended_IMMA.py:2933-2939 sort. *)
Definition deck_sort (d : deck) : deck :=
  index_by_id {| d_reps := sort_reports (d_reps d); d_ids := d_ids d; d_filter := d_filter d |}.
(** Extended_IMMA.py:2953-2960 pop(0): the index is not updated. *)
Definition deck_pop0 (d : deck) : res (report * deck) :=
  match d_reps d with
  | [] => Err IndexError
  | r :: l => Ok (r, {| d_reps := l; d_ids := d_ids d; d_filter := d_filter d |})
  end.
(** Extended_IMMA.py:2962-2979 set_qc on every report. *)
Fixpoint set_qc_all (l : list report) (t f : string) (v : Z) : res (list report) :=
  match l with
  | [] => Ok []
  | r :: l' => let! r' := set_qc r t f v in let! l'' := set_qc_all l' t f v in Ok (r' :: l'')
  end.
(** Extended_IMMA.py:2981-2989 add_filter. *)
Definition add_filter (d : deck) (f : qc_filter) : deck :=
  {| d_reps := d_reps d; d_ids := d_ids d; d_filter := f |}.

(** Extended_IMMA.py:254-282 split_reports: the loop runs [n] times, popping from the input deck. *)
Fixpoint split_loop (f : qc_filter) (n : nat) (d passes fails : deck) : res (deck * deck * deck) :=
  match n with
  | O => Ok (passes, fails, d)
  | S k =>
      let! (r, d') := deck_pop0 d in
      if test_report f r =? 0 then split_loop f k d' (deck_append passes r) fails
      else split_loop f k d' passes (deck_append fails r)
  end.
(** Result: passes, fails, and what is left in the input deck. *)
Definition split_reports (f : qc_filter) (d : deck) : res (deck * deck * deck) :=
  split_loop f (length (d_reps d)) d new_deck new_deck.

(** Extended_IMMA.py:3118-3133 get_one_platform_at_a_time: the voyages, each as the positions of its
    reports in the deck (the voyage holds references to the deck's reports).  Python's dictionary order
    is not modelled: voyages are listed in order of first appearance of the identifier. *)
Fixpoint pick (f : qc_filter) (reps : list report) (l : list nat) : res (list nat) :=
  match l with
  | [] => Ok []
  | i :: l' =>
      match nth_error reps i with
      | None => Err IndexError
      | Some r => let! rest := pick f reps l' in Ok (if test_report f r =? 0 then i :: rest else rest)
      end
  end.
Fixpoint pick_all (f : qc_filter) (reps : list report) (t : list (option string * list nat)) : res (list (list nat)) :=
  match t with
  | [] => Ok []
  | (_, l) :: t' => let! a := pick f reps l in let! b := pick_all f reps t' in Ok (a :: b)
  end.
Definition platforms (d : deck) : res (list (list nat)) := pick_all (d_filter d) (d_reps d) (d_ids d).
