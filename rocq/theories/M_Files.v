(** Model of the file name functions (BackgroundField.py; safe_filename, Extended_IMMA.py:24-37).  No proofs here.

    Simplifications: text is bytes; the operating system is given as arguments: which files exist and their sizes,
    what making a directory does, the environment.  Files are modelled by their lines. *)
Require Import String Ascii ZArith List Bool.
Require Import Verif.M_Base Verif.M_Imma.
Import ListNotations.
Open Scope string_scope.
Open Scope Z_scope.

(** s.replace(old, new), old not empty: occurrences from the left, not overlapping; [skip] bytes of an occurrence are
    still to be passed over. *)
Fixpoint replace_go (skip : nat) (old new s : string) : string :=
  match s with
  | EmptyString => EmptyString
  | String c s' =>
      match skip with
      | S k => replace_go k old new s'
      | O => if prefix old s then new ++ replace_go (String.length old - 1) old new s' else String c (replace_go 0 old new s')
      end
  end.
Definition replace (old new s : string) : string := replace_go 0 old new s.

Fixpoint zeros (n : nat) : string := match n with O => EmptyString | S n' => String "0" (zeros n') end.
(** "{:04}".format(z): padded with zeros after the sign. *)
Definition zero_pad (n : nat) (z : Z) : string :=
  if z <? 0 then String "-" (zeros (n - 1 - String.length (str_of_nat (- z))) ++ str_of_nat (- z))
  else zeros (n - String.length (str_of_nat z)) ++ str_of_nat z.

(** Extended_IMMA.py:24-37 safe_filename. *)
Definition safe_filename (s : string) : string := replace "*" "_" (replace "/" "_" s).

(** BackgroundField.py:149-167 process_string. *)
Definition process_string (s : string) (year month day : Z) : string :=
  let sy := zero_pad 4 year in
  let sm := zero_pad 2 month in
  let sd := zero_pad 2 day in
  replace "DDDD" sd (replace "MMMM" sm (replace "YYYY" sy s)).

(** s.endswith('/'). *)
Fixpoint ends_slash (s : string) : bool :=
  match s with EmptyString => false | String c EmptyString => Ascii.eqb c "/" | String _ s' => ends_slash s' end.
(** os.path.join of two paths (posix). *)
Definition path_join (a b : string) : string :=
  if prefix "/" b then b
  else if String.eqb a "" || ends_slash a then a ++ b
  else a ++ "/" ++ b.
(** BackgroundField.py:170-188 make_filename. *)
Definition make_filename (dirstub filenamestub : string) (year month day : Z) : string :=
  path_join (process_string dirstub year month day) (process_string filenamestub year month day).

(** BackgroundField.py:27-45 build_completions. *)
Fixpoint build_completions (indir : string) (subdirs : list string) : list string :=
  match subdirs with
  | [] => []
  | d :: subdirs' => let base_dir := path_join indir d in base_dir :: build_completions base_dir subdirs'
  end.

(** BackgroundField.py:10-24 process_bad_id_file, from the lines of the file. *)
Definition process_bad_id_file (lines : list string) : list string :=
  flat_map (fun line =>
    let line := pad_right 9 (rstrip line) in
    if String.eqb line "         " then [] else [line]) lines.

Section Fs.
(** The directories that exist; [mkdir] gives None for OSError. *)
Variable fs : Type.
Variable mkdir : fs -> string -> option fs.
(** BackgroundField.py:48-68 safe_make_dir_generic: the last directory, or None. *)
Definition safe_make_dir_generic (f : fs) (out_dir : string) (subdirs : list string) : fs * option string :=
  fold_left (fun '(f, _) adir => (match mkdir f adir with Some f' => f' | None => f end, Some adir)) (build_completions out_dir subdirs) (f, None).
(** BackgroundField.py:71-85 safe_make_dir. *)
Definition safe_make_dir (f : fs) (out_dir : string) (year month : Z) : fs * option string :=
  safe_make_dir_generic f out_dir [str_of_int year; zero_pad 2 month].
End Fs.

(** dirstubs and filenamestubs, as the assertion of equal lengths leaves them. *)
Definition stubs (dirstubs filenamestubs : list string) : res (list (string * string)) :=
  assert! (Nat.eqb (length dirstubs) (length filenamestubs));
  Ok (combine dirstubs filenamestubs).

(** BackgroundField.py:88-115 icoads_filename_from_stub; [isfile] is os.path.isfile. *)
Definition icoads_filename_from_stub (isfile : string -> bool) (dirstubs filenamestubs : list string) (year month : option Z) : res (option string) :=
  match year, month with
  | Some year, Some month =>
      let! l := stubs dirstubs filenamestubs in
      let candidates := map (fun '(d, f) => make_filename d f year month 1) l in
      Ok (fold_left (fun out fname => match out with None => if isfile fname then Some fname else None | _ => out end) candidates None)
  | _, _ => Ok None
  end.

(** BackgroundField.py:118-146 icoads_filename. *)
Definition icoads_filename (icoads_dir : string) (readyear readmonth : Z) (version : string) : res (option string) :=
  assert! (String.eqb version "2.5" || String.eqb version "3.0");
  let syr := str_of_int readyear in
  let smn := zero_pad 2 readmonth in
  let filename := None in
  let filename :=
    if String.eqb version "2.5" then
      let filename := Some (icoads_dir ++ "/ICOADS.2.5.1/R2.5.1." ++ syr ++ "." ++ smn ++ ".gz") in
      if (2007 <? readyear) && (readyear <? 2015) then Some (icoads_dir ++ "/R2.5.2." ++ syr ++ "." ++ smn ++ ".gz") else filename
    else filename in
  let filename :=
    if String.eqb version "3.0" then
      let filename := if readyear <=? 2014 then Some (icoads_dir ++ "/ICOADS.3.0.0/IMMA1_R3.0.0_" ++ syr ++ "-" ++ smn ++ ".gz") else filename in
      if 2015 <=? readyear then Some (icoads_dir ++ "/ICOADS.3.0.1/IMMA1_R3.0.1_" ++ syr ++ "-" ++ smn ++ ".gz") else filename
    else filename in
  Ok filename.

(** s in t. *)
Fixpoint contains (s t : string) : bool :=
  prefix s t || match t with EmptyString => false | String _ t' => contains s t' end.
(** BackgroundField.py:221-231: [size f] is the size of a file that exists. *)
Fixpoint choose (size : string -> option Z) (l : list (string * string)) : option (string * string) :=
  match l with
  | [] => None
  | (orig, new) :: l' =>
      let there f := match size f with Some n => negb (n =? 0) | None => false end in
      let chosen := if there orig then Some (orig, new) else None in
      let chosen := if there (orig ++ ".bz2") then Some (orig ++ ".bz2", new) else chosen in
      match chosen with Some c => Some c | None => choose size l' end
  end.
(** BackgroundField.py:191-249 get_background_filename: the file, and the shell command run, if any.  [scratch] is the
    environment variable SCRATCH (KeyError if not set). *)
Definition get_background_filename (size : string -> option Z) (scratch : option string) (dirstubs filenamestubs : list string) (year month day : option Z)
  : res (option string * option string) :=
  match year, month, day with
  | Some year, Some month, Some day =>
      let! l := stubs dirstubs filenamestubs in
      let! scratch := match scratch with Some s => Ok s | None => Err KeyError end in
      match choose size (map (fun '(d, f) => (make_filename d f year month day, make_filename scratch f year month day)) l) with
      | None => Ok (None, None)
      | Some (orig, new) =>
          if contains ".bz2" orig then
            Ok (Some new, match size new with Some _ => None | None => Some ("bunzip2 -c " ++ orig ++ ".bz2 > " ++ new) end)
          else Ok (Some orig, None)
      end
  | _, _, _ => Ok (None, None)
  end.
