(** C43: file name templates, directories, identifier files.  C48: safe file names. *)
Require Import String Ascii ZArith List Bool Lia.
Require Import Verif.M_Base Verif.M_Imma Verif.M_Files Verif.S_Imma Verif.S_Files Verif.L_Base Verif.L_Imma Verif.L_Files.
Import ListNotations.
Open Scope string_scope.
Open Scope Z_scope.

(** C43.  Filling a template replaces, from left to right, every YYYY, MMMM and DDDD by the year in at least four, the
    month and the day in at least two digits, and copies every other character. *)
Theorem C43_template : forall year month day, 0 <= year -> 0 <= month -> 0 <= day ->
  exists y m d, padded 4 year y /\ padded 2 month m /\ padded 2 day d /\
  forall template out, process_string template year month day = out <-> filled y m d template out.
Proof.
  intros year month day A B C. pose proof (zero_pad_padded 4 year ltac:(lia) A) as Y. pose proof (zero_pad_padded 2 month ltac:(lia) B) as M.
  pose proof (zero_pad_padded 2 day ltac:(lia) C) as D. eexists _, _, _. split; [exact Y|]. split; [exact M|]. split; [exact D|].
  apply process_string_filled; assumption.
Qed.
Print Assumptions C43_template.
(** The digits are determined by the number. *)
Theorem C43_digits_unique : forall n z s t, padded n z s -> padded n z t -> s = t.
Proof. exact padded_inj. Qed.
Print Assumptions C43_digits_unique.
(** A negative year: a minus sign and at least three digits. *)
Theorem C43_negative_year : forall year month day, year < 0 -> exists s, padded 3 (- year) s /\ process_string "YYYY" year month day = "-" ++ s.
Proof.
  intros year month day H. exists (zero_pad 3 (- year)). pose proof (zero_pad_padded 3 (- year) ltac:(lia) ltac:(lia)) as P. split; [exact P|].
  assert (Z : zero_pad 4 year = ("-" ++ zero_pad 3 (- year))%string).
  { unfold zero_pad. destruct (Z.ltb_spec year 0); [|lia]. destruct (Z.ltb_spec (- year) 0); [lia|]. reflexivity. }
  pose proof (decimal_digits _ _ (proj1 P)) as D. unfold process_string. cbv zeta.
  change (replace "YYYY" (zero_pad 4 year) "YYYY") with (zero_pad 4 year ++ "")%string. rewrite Z.
  assert (C : forall x, is_digit x = false -> x <> "-"%char -> chars (fun c => c <> x) ("-" ++ zero_pad 3 (- year))%string) by (intros x X N; split; [congruence|exact (digits_other x _ X D)]).
  rewrite (replace_pass "M" "MMM" (zero_pad 2 month) ("-" ++ zero_pad 3 (- year)) "") by (apply C; [reflexivity|discriminate]). cbn [replace replace_go].
  rewrite (replace_pass "D" "DDD" (zero_pad 2 day) ("-" ++ zero_pad 3 (- year)) "") by (apply C; [reflexivity|discriminate]). cbn [replace replace_go]. now rewrite app_nil_r_s.
Qed.
Print Assumptions C43_negative_year.
Example C43_template_ex :
  process_string "/data/YYYY/MMMM/YYYYYMMMMDDDD.nc" 1987 3 14 = "/data/1987/03/1987Y0314.nc" /\
  padded 4 1987 "1987" /\ padded 2 3 "03".
Proof.
  split; [reflexivity|]. split; [exact (zero_pad_padded 4 1987 ltac:(lia) ltac:(lia))|exact (zero_pad_padded 2 3 ltac:(lia) ltac:(lia))].
Qed.

(** C43.  The file name is the filled file template seen from the filled directory template. *)
Theorem C43_filename : forall year month day dirstub stub path, 0 <= year -> 0 <= month -> 0 <= day ->
  (make_filename dirstub stub year month day = path <-> names_file year month day dirstub stub path).
Proof. exact make_filename_names. Qed.
Print Assumptions C43_filename.
Example C43_filename_ex :
  make_filename "/d/YYYY" "fMMMM.gz" 850 11 1 = "/d/0850/f11.gz" /\ make_filename "/d/YYYY/" "fMMMM.gz" 850 11 1 = "/d/0850/f11.gz" /\
  make_filename "/d" "/abs/YYYY" 850 11 1 = "/abs/0850".
Proof. repeat split. Qed.

(** C43.  Two dates with years below 10000 and months and days below 100 fill a template to the same text only if they agree
    on everything the template asks for. *)
Theorem C43_distinct : forall template y m d y' m' d',
  0 <= y < 10000 -> 0 <= m < 100 -> 0 <= d < 100 -> 0 <= y' < 10000 -> 0 <= m' < 100 -> 0 <= d' < 100 ->
  process_string template y m d = process_string template y' m' d' ->
  (occurs "YYYY" template -> y = y') /\ (occurs "MMMM" template -> m = m') /\ (occurs "DDDD" template -> d = d').
Proof.
  intros t y m d y' m' d' A B C A' B' C' H.
  pose proof (zero_pad_padded 4 y ltac:(lia) ltac:(lia)) as Y. pose proof (zero_pad_padded 2 m ltac:(lia) ltac:(lia)) as M. pose proof (zero_pad_padded 2 d ltac:(lia) ltac:(lia)) as D.
  pose proof (zero_pad_padded 4 y' ltac:(lia) ltac:(lia)) as Y'. pose proof (zero_pad_padded 2 m' ltac:(lia) ltac:(lia)) as M'. pose proof (zero_pad_padded 2 d' ltac:(lia) ltac:(lia)) as D'.
  pose proof (proj1 (process_string_filled y m d _ _ _ ltac:(lia) ltac:(lia) ltac:(lia) Y M D t _) H) as F.
  pose proof (proj1 (process_string_filled y' m' d' _ _ _ ltac:(lia) ltac:(lia) ltac:(lia) Y' M' D' t _) eq_refl) as F'.
  assert (W : forall n z, (0 < n)%nat -> 0 <= z < 10 ^ Z.of_nat n -> String.length (zero_pad n z) = n).
  { intros n z N Z. apply (padded_width n z); [apply zero_pad_padded; lia|exact N|lia]. }
  assert (W4 : forall z, 0 <= z < 10000 -> String.length (zero_pad 4 z) = 4%nat) by (intros z Z; apply W; [lia|exact Z]).
  assert (W2 : forall z, 0 <= z < 100 -> String.length (zero_pad 2 z) = 2%nat) by (intros z Z; apply W; [lia|exact Z]).
  destruct (filled_same _ _ _ _ _ F (zero_pad 4 y') (zero_pad 2 m') (zero_pad 2 d') ltac:(rewrite !W4 by lia; reflexivity) ltac:(rewrite !W2 by lia; reflexivity) ltac:(rewrite !W2 by lia; reflexivity) F') as [P [Q R]].
  split; [|split]; intro O.
  - specialize (P O). rewrite P in Y. exact (decimal_fun _ _ _ (proj1 Y) (proj1 Y')).
  - specialize (Q O). rewrite Q in M. exact (decimal_fun _ _ _ (proj1 M) (proj1 M')).
  - specialize (R O). rewrite R in D. exact (decimal_fun _ _ _ (proj1 D) (proj1 D')).
Qed.
Print Assumptions C43_distinct.
(** Without the bounds it fails: month 67 of the year 12345 and month 567 of the year 1234 share a file. *)
Theorem C43_distinct_refuted : exists template y m y' m',
  occurs "YYYY" template /\ 0 <= y /\ y <> y' /\ process_string template y m 1 = process_string template y' m' 1.
Proof. exists "YYYYMMMM", 12345, 67, 1234, 567. split; [exists "", "MMMM"; reflexivity|]. split; [lia|]. split; [lia|reflexivity]. Qed.
Print Assumptions C43_distinct_refuted.
Example C43_distinct_ex : occurs "MMMM" "IMMA1_R3.0.0_YYYY-MMMM.gz" /\ process_string "IMMA1_R3.0.0_YYYY-MMMM.gz" 1901 2 1 = "IMMA1_R3.0.0_1901-02.gz".
Proof. split; [exists "IMMA1_R3.0.0_YYYY-", ".gz"; reflexivity|reflexivity]. Qed.

(** C43.  The directories are made one inside the other.  If making a directory that is missing only fails when it is
    there already, all of them exist afterwards, those that existed still do, and the last is given. *)
Theorem C43_directories : forall (fs : Type) (mkdir : fs -> string -> option fs) (isdir : fs -> string -> Prop) out subs f f' r,
  (forall f p f' q, mkdir f p = Some f' -> isdir f' p /\ (isdir f q -> isdir f' q)) ->
  (forall f a b p, isdir f a -> In b subs -> joined a b p -> mkdir f p = None -> isdir f p) ->
  isdir f out -> safe_make_dir_generic fs mkdir f out subs = (f', r) ->
  exists l, descends out subs l /\ Forall (isdir f') l /\ (forall q, isdir f q -> isdir f' q) /\
    (subs = [] /\ r = None \/ exists l' p, l = (l' ++ [p])%list /\ r = Some p).
Proof.
  intros fs mkdir isdir out subs f f' r H1 H2 F E. exists (build_completions out subs).
  pose proof (proj1 (completions_descend subs out _) eq_refl) as D. split; [exact D|].
  destruct (make_dirs fs mkdir isdir subs out _ f H1 H2 F D None f' r E) as [A [B C]]. split; [exact A|]. split; [exact B|].
  destruct subs as [|b subs]; [left; split; [reflexivity|exact C]|right]. remember (build_completions out (b :: subs)) as l eqn:L.
  destruct l as [|x l]; [discriminate|]. exists (removelast (x :: l)), (last (x :: l) out). split; [apply app_removelast_last; discriminate|exact C].
Qed.
Print Assumptions C43_directories.
(** Year and month directories: the number of the year, then the month in two digits. *)
Theorem C43_month_directory : forall (fs : Type) (mkdir : fs -> string -> option fs) f out year month,
  0 <= year -> 0 <= month ->
  exists y m p p', decimal y year /\ padded 2 month m /\ joined out y p /\ joined p m p' /\
  safe_make_dir fs mkdir f out year month = safe_make_dir_generic fs mkdir f out [y; m] /\
  snd (safe_make_dir fs mkdir f out year month) = Some p'.
Proof.
  intros fs mkdir f out year month A B. exists (str_of_int year), (zero_pad 2 month), (path_join out (str_of_int year)), (path_join (path_join out (str_of_int year)) (zero_pad 2 month)).
  split; [apply str_of_int_nat, A|]. split; [apply zero_pad_padded; lia|]. split; [apply path_join_joined; reflexivity|]. split; [apply path_join_joined; reflexivity|].
  split; reflexivity.
Qed.
Print Assumptions C43_month_directory.
(** Any other error is swallowed: the directory given need not exist. *)
Theorem C43_directories_refuted : exists (fs : Type) (mkdir : fs -> string -> option fs) (isdir : fs -> string -> Prop) f f' p,
  (forall f p f' q, mkdir f p = Some f' -> isdir f' p /\ (isdir f q -> isdir f' q)) /\
  safe_make_dir fs mkdir f "/out" 1987 3 = (f', Some p) /\ ~ isdir f' p.
Proof.
  exists unit, (fun _ _ => None), (fun _ _ => False), tt, tt, "/out/1987/03". split; [discriminate|]. split; [reflexivity|auto].
Qed.
Print Assumptions C43_directories_refuted.
Definition C43_fs := list string.
Definition C43_mkdir (f : C43_fs) (p : string) : option C43_fs := if in_dec String.string_dec p f then None else Some (p :: f)%list.
Example C43_directories_ex :
  (forall f p f' q, C43_mkdir f p = Some f' -> In p f' /\ (In q f -> In q f')) /\
  (forall f a b p, In a f -> In b ["1987"; "03"] -> joined a b p -> C43_mkdir f p = None -> In p f) /\
  safe_make_dir C43_fs C43_mkdir ["/out"; "/out/1987"]%list "/out" 1987 3 = (["/out/1987/03"; "/out"; "/out/1987"]%list, Some "/out/1987/03").
Proof.
  split; [|split].
  - intros f p f' q H. unfold C43_mkdir in H. destruct (in_dec String.string_dec p f); [discriminate|]. injection H as <-. split; [left; reflexivity|right; assumption].
  - intros f a b p _ _ _ H. unfold C43_mkdir in H. destruct (in_dec String.string_dec p f); [assumption|discriminate].
  - vm_compute. reflexivity.
Qed.

(** C43.  Every line of the identifier file that is not blank gives one identifier, in order: the line without the white
    space at its end, then blanks up to nine characters. *)
Theorem C43_bad_ids : forall lines ids, process_bad_id_file lines = ids <-> ids_of lines ids.
Proof. exact bad_ids. Qed.
Print Assumptions C43_bad_ids.
(** So a report whose identifier has nine characters is excluded exactly if its identifier without the blanks at its end is
    one of the lines without the white space at their end. *)
Theorem C43_excluded : forall lines id, String.length id = 9%nat ->
  (In id (process_bad_id_file lines) <->
   exists line stem w b, In line lines /\ line = stem ++ w /\ chars white w /\ id = stem ++ b /\ chars (fun c => c = " "%char) b /\
     stem <> "" /\ forall s c, stem = s ++ String c "" -> ~ white c).
Proof.
  intros lines id L. split.
  - pose proof (proj1 (bad_ids lines _) eq_refl) as D. remember (process_bad_id_file lines) as ids eqn:E. clear E.
    induction D as [|line lines l W D IH|line i lines l N B D IH]; intro H; [contradiction| |].
    + destruct (IH H) as [ln [stem [w [b [X Y]]]]]. exists ln, stem, w, b. split; [right; exact X|exact Y].
    + destruct H as [->|H].
      * destruct B as [stem [w [b [E1 [W [S [E2 [B _]]]]]]]]. exists line, stem, w, b. split; [left; reflexivity|]. repeat split; auto.
        intros ->. apply N. rewrite E1. exact W.
      * destruct (IH H) as [ln [stem [w [b [X Y]]]]]. exists ln, stem, w, b. split; [right; exact X|exact Y].
  - intros [line [stem [w [b [I0 [E1 [W [E2 [B [N S]]]]]]]]]].
    assert (P : pad_right 9 (rstrip line) = id).
    { apply bad_id_pad. exists stem, w, b. repeat split; auto. rewrite L. rewrite E2 in L. rewrite length_app_s in L. lia. }
    unfold process_bad_id_file. apply in_flat_map. exists line. split; [exact I0|]. cbv zeta. rewrite P.
    destruct (String.eqb_spec id "         ") as [X|X]; [|left; reflexivity]. exfalso.
    destruct (snoc_cases stem) as [->|[t [c ->]]]; [congruence|]. apply (S t c eq_refl).
    assert (Y : chars white id) by (rewrite X; cbn; intuition). rewrite E2 in Y. rewrite !chars_app in Y. apply Y.
Qed.
Print Assumptions C43_excluded.
(** A line of more than nine characters is kept whole, and excludes no report. *)
Theorem C43_excluded_refuted : exists line, (forall id, In id (process_bad_id_file [line]) -> String.length id <> 9%nat) /\ process_bad_id_file [line] <> [].
Proof. exists "ABCDEFGHIJ". split; [|discriminate]. intros id [<-|[]]; discriminate. Qed.
Print Assumptions C43_excluded_refuted.
Example C43_bad_ids_ex : process_bad_id_file ["FRED" ++ String newline ""; String newline ""; "  X  "; "123456789"] = ["FRED     "; "  X      "; "123456789"] /\ String.length "FRED     " = 9%nat.
Proof. split; reflexivity. Qed.

(** C43.  Of the files the pairs of templates name, the first that exists is read; none if none does. *)
Theorem C43_first_file : forall (isfile : string -> bool) dirstubs filestubs year month f, 0 <= year -> 0 <= month -> length dirstubs = length filestubs ->
  (icoads_filename_from_stub isfile dirstubs filestubs (Some year) (Some month) = Ok (Some f) <->
   exists i ds fs, nth_error dirstubs i = Some ds /\ nth_error filestubs i = Some fs /\ names_file year month 1 ds fs f /\ isfile f = true /\
     forall j ds' fs' f', (j < i)%nat -> nth_error dirstubs j = Some ds' -> nth_error filestubs j = Some fs' -> names_file year month 1 ds' fs' f' -> isfile f' = false).
Proof.
  intros isfile dss fss year month f A B L. unfold icoads_filename_from_stub. rewrite stubs_ok by exact L. cbn [bind]. rewrite first_some.
  split.
  - intro H. injection H as H. apply find_first in H. destruct H as [i [H [X Y]]]. rewrite nth_error_map in H.
    destruct (nth_error (combine dss fss) i) as [[ds fs]|] eqn:N; [|discriminate]. injection H as <-. apply nth_error_combine in N. destruct N as [N1 N2].
    exists i, ds, fs. split; [exact N1|]. split; [exact N2|]. split; [apply make_filename_names; (lia || reflexivity)|]. split; [exact X|].
    intros j ds' fs' f' J N1' N2' F. apply make_filename_names in F; [|lia..]. subst f'. apply (Y j); [exact J|]. rewrite nth_error_map.
    rewrite (proj2 (nth_error_combine _ _ dss fss j ds' fs') (conj N1' N2')). reflexivity.
  - intros [i [ds [fs [N1 [N2 [F [X Y]]]]]]]. f_equal. apply find_first. exists i. rewrite nth_error_map, (proj2 (nth_error_combine _ _ dss fss i ds fs) (conj N1 N2)).
    apply make_filename_names in F; [|lia..]. cbn. rewrite F. split; [reflexivity|]. split; [exact X|]. intros j y J H. rewrite nth_error_map in H.
    destruct (nth_error (combine dss fss) j) as [[ds' fs']|] eqn:N; [|discriminate]. injection H as <-. apply nth_error_combine in N. destruct N as [N1' N2'].
    apply (Y j ds' fs'); auto. apply make_filename_names; (lia || reflexivity).
Qed.
Print Assumptions C43_first_file.
Theorem C43_no_file : forall (isfile : string -> bool) dirstubs filestubs year month, 0 <= year -> 0 <= month -> length dirstubs = length filestubs ->
  (icoads_filename_from_stub isfile dirstubs filestubs (Some year) (Some month) = Ok None <->
   forall j ds fs f, nth_error dirstubs j = Some ds -> nth_error filestubs j = Some fs -> names_file year month 1 ds fs f -> isfile f = false).
Proof.
  intros isfile dss fss year month A B L. unfold icoads_filename_from_stub. rewrite stubs_ok by exact L. cbn [bind]. rewrite first_some. split.
  - intros H j ds fs f N1 N2 F. injection H as H. apply make_filename_names in F; [|lia..]. subst f.
    apply (find_none _ _ H). apply in_map_iff. exists (ds, fs). split; [reflexivity|]. apply (nth_error_In _ j), nth_error_combine. auto.
  - intro H. f_equal. destruct (find isfile (map (fun '(d, f) => make_filename d f year month 1) (combine dss fss))) as [f|] eqn:F; [|reflexivity].
    apply find_some in F. destruct F as [F X]. apply in_map_iff in F. destruct F as [[ds fs] [E N]]. apply In_nth_error in N. destruct N as [j N]. apply nth_error_combine in N.
    rewrite (H j ds fs f) in X; [discriminate|apply N|apply N|]. apply make_filename_names; (lia || exact E).
Qed.
Print Assumptions C43_no_file.
Example C43_first_file_ex :
  icoads_filename_from_stub (fun f => String.eqb f "/b/1987-03" || String.eqb f "/c/1987-03") ["/a"; "/b"; "/c"] ["YYYY-MMMM"; "YYYY-MMMM"; "YYYY-MMMM"] (Some 1987) (Some 3) = Ok (Some "/b/1987-03").
Proof. reflexivity. Qed.

(** C43.  ICOADS releases 2.5 and 3.0, and only these, have a file for every month; two months never share one. *)
Theorem C43_icoads_total : forall dir year month version, (exists f, icoads_filename dir year month version = Ok (Some f)) <-> version = "2.5" \/ version = "3.0".
Proof. exact icoads_total. Qed.
Print Assumptions C43_icoads_total.
Theorem C43_icoads_distinct : forall dir y m y' m' version f, 0 <= y -> 0 <= m -> 0 <= y' -> 0 <= m' ->
  icoads_filename dir y m version = Ok (Some f) -> icoads_filename dir y' m' version = Ok (Some f) -> y = y' /\ m = m'.
Proof. exact icoads_distinct. Qed.
Print Assumptions C43_icoads_distinct.
Example C43_icoads_ex : icoads_filename "/i" 2007 1 "2.5" = Ok (Some "/i/ICOADS.2.5.1/R2.5.1.2007.01.gz") /\ icoads_filename "/i" 2008 1 "2.5" = Ok (Some "/i/R2.5.2.2008.01.gz") /\
  icoads_filename "/i" 2014 12 "3.0" = Ok (Some "/i/ICOADS.3.0.0/IMMA1_R3.0.0_2014-12.gz") /\ icoads_filename "/i" 2015 1 "3.0" = Ok (Some "/i/ICOADS.3.0.1/IMMA1_R3.0.1_2015-01.gz").
Proof. repeat split. Qed.

(** C43.  The background field: of the files named, the first that is there and not empty, plain or with .bz2 added, decides.
    If it is compressed the copy in the scratch directory is used, and made if it is not there; else the file itself.  No
    file and no command if none is there. *)
Theorem C43_background : forall size scratch dirstubs filestubs year month day out cmd, 0 <= year -> 0 <= month -> 0 <= day ->
  length dirstubs = length filestubs ->
  get_background_filename size (Some scratch) dirstubs filestubs (Some year) (Some month) (Some day) = Ok (out, cmd) ->
  (out = None /\ cmd = None /\
   forall i orig new, candidate year month day scratch dirstubs filestubs i orig new -> ~ full size orig /\ ~ full size (orig ++ ".bz2")) \/
  exists i orig new used, candidate year month day scratch dirstubs filestubs i orig new /\
    (forall j x y, (j < i)%nat -> candidate year month day scratch dirstubs filestubs j x y -> ~ full size x /\ ~ full size (x ++ ".bz2")) /\
    (full size (orig ++ ".bz2") /\ used = orig ++ ".bz2" \/ ~ full size (orig ++ ".bz2") /\ full size orig /\ used = orig) /\
    (~ occurs ".bz2" used /\ out = Some used /\ cmd = None \/
     occurs ".bz2" used /\ out = Some new /\ (size new <> None <-> cmd = None)).
Proof.
  intros size scratch dss fss year month day out cmd A B C L H. unfold get_background_filename in H. rewrite stubs_ok in H by exact L. cbn [bind] in H.
  set (l := map _ _) in H.
  assert (K : forall i orig new, nth_error l i = Some (orig, new) <-> candidate year month day scratch dss fss i orig new).
  { intros i orig new. unfold l, candidate. rewrite nth_error_map. split.
    - destruct (nth_error (combine dss fss) i) as [[ds fs]|] eqn:N; [|discriminate]. cbn. intro E. injection E as <- <-. apply nth_error_combine in N.
      exists ds, fs. split; [apply N|]. split; [apply N|]. split; apply make_filename_names; (lia || reflexivity).
    - intros [ds [fs [N1 [N2 [F1 F2]]]]]. rewrite (proj2 (nth_error_combine _ _ dss fss i ds fs) (conj N1 N2)). cbn.
      apply make_filename_names in F1; [|lia..]. apply make_filename_names in F2; [|lia..]. rewrite F1, F2. reflexivity. }
  pose proof (choose_spec size l) as S. destruct (choose size l) as [[o n]|].
  - destruct S as [i [orig [N [U J]]]]. right. exists i, orig, n, o. split; [apply K, N|]. split; [intros j x y Hj Hc; apply (J j x y Hj), K, Hc|]. split; [exact U|].
    destruct (contains ".bz2" o) eqn:O.
    + apply contains_occurs in O. right. injection H as <- <-. split; [exact O|]. split; [reflexivity|]. destruct (size n); split; congruence.
    + left. injection H as <- <-. split; [rewrite <- contains_occurs; congruence|]. auto.
  - left. injection H as <- <-. split; [reflexivity|]. split; [reflexivity|]. intros i orig new X. apply (S i orig new), K, X.
Qed.
Print Assumptions C43_background.
(** The copy is not made from the compressed file but from a file with .bz2 added once more. *)
Theorem C43_background_refuted : exists size source new,
  get_background_filename size (Some "/tmp") ["/d"] ["YYYYMMMMDDDD.nc"] (Some 2001) (Some 2) (Some 3) = Ok (Some new, Some ("bunzip2 -c " ++ source ++ " > " ++ new)) /\
  full size "/d/20010203.nc.bz2" /\ size source = None /\ size new = None.
Proof.
  exists (fun f => if String.eqb f "/d/20010203.nc.bz2" then Some 7 else None), "/d/20010203.nc.bz2.bz2", "/tmp/20010203.nc".
  split; [reflexivity|]. split; [exists 7; split; [reflexivity|lia]|]. split; reflexivity.
Qed.
Print Assumptions C43_background_refuted.
(** And a plain file is passed over, and its copy looked for in the scratch directory, if a compressed one lies beside it. *)
Theorem C43_background_plain_refuted : exists size out cmd,
  full size "/d/20010203.nc" /\ get_background_filename size (Some "/tmp") ["/d"] ["YYYYMMMMDDDD.nc"] (Some 2001) (Some 2) (Some 3) = Ok (Some out, cmd) /\ size out = None.
Proof.
  exists (fun f => if String.eqb f "/d/20010203.nc" || String.eqb f "/d/20010203.nc.bz2" then Some 7 else None), "/tmp/20010203.nc".
  eexists. split; [exists 7; split; [reflexivity|lia]|]. split; reflexivity.
Qed.
Print Assumptions C43_background_plain_refuted.

(** C48.  A safe file name has an underscore for every slash and star, and every other character unchanged. *)
Theorem C48_safe : forall s t, safe_filename s = t <-> made_safe s t.
Proof. exact safe_made. Qed.
Print Assumptions C48_safe.
(** So it has the same length, holds no slash and no star, and a safe name is left as it is. *)
Theorem C48_safe_chars : forall s, chars (fun c => c <> "/"%char /\ c <> "*"%char) (safe_filename s) /\ String.length (safe_filename s) = String.length s /\
  (chars (fun c => c <> "/"%char /\ c <> "*"%char) s <-> safe_filename s = s).
Proof.
  intro s. pose proof (proj1 (safe_made s _) eq_refl) as M. induction M as [|c s t C M IH|c s t N1 N2 M IH].
  - repeat split.
  - destruct IH as [A [B D]]. split; [split; [split; discriminate|exact A]|]. split; [cbn; congruence|]. cbn [chars]. split; [intros [[X Y] _]; destruct C; contradiction|].
    intro E. injection E as E _. destruct C; subst; discriminate.
  - destruct IH as [A [B D]]. split; [split; [auto|exact A]|]. split; [cbn; congruence|]. cbn [chars]. split.
    + intros [_ X]. f_equal. apply D, X.
    + intro E. injection E as E. split; [auto|]. apply D, E.
Qed.
Print Assumptions C48_safe_chars.
Theorem C48_safe_twice : forall s, safe_filename (safe_filename s) = safe_filename s.
Proof. intro s. apply (C48_safe_chars (safe_filename s)). apply (C48_safe_chars s). Qed.
Print Assumptions C48_safe_twice.
(** Different identifiers may get the same safe name. *)
Theorem C48_safe_refuted : exists s t, s <> t /\ safe_filename s = safe_filename t.
Proof. exists "A/1", "A*1". split; [discriminate|reflexivity]. Qed.
Print Assumptions C48_safe_refuted.
Example C48_ex : safe_filename "SHIP/7*_A" = "SHIP_7__A".
Proof. reflexivity. Qed.
