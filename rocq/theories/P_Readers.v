(** C65: the other readers of reports. *)
Require Import String Ascii ZArith QArith List Bool Lia Lqa.
Require Import Verif.M_Base Verif.M_Report Verif.M_Imma Verif.M_Tracking Verif.M_Readers Verif.M_Checks Verif.S_Imma Verif.S_Print Verif.S_Readers.
Require Import Verif.L_Base Verif.L_Reading Verif.L_Readers.
Import ListNotations.
Open Scope string_scope.
Open Scope list_scope.
Open Scope Z_scope.

(** Every field of a simple line is read from its columns, whatever the line is. *)
Theorem C65_simple : forall float_of line e cells, chars (fun c => c <> "010"%char) line -> newlines e -> laid (map (fun f => snd (fst f)) simple_fields) line cells ->
  Forall2 (fun '(name, _, k) s => exists v, assoc name (simple_read float_of (line ++ e)) = Some v /\ entry_means float_of k s v) simple_fields cells.
Proof. exact simple_ok. Qed.
Print Assumptions C65_simple.
(** Every line can be cut into cells. *)
Theorem C65_laid : forall ws line, exists cells, laid ws line cells /\ forall cells', laid ws line cells' -> cells' = cells.
Proof.
  intros ws line. assert (X : exists cells, laid ws line cells).
  { revert line. induction ws as [|n ws IH]; intro line; [exists []; constructor|]. destruct (Nat.le_gt_cases n (String.length line)) as [H|H].
    - assert (E : exists c rest, line = (c ++ rest)%string /\ String.length c = n).
      { clear IH. revert line H. induction n as [|n IHn]; intros line H; [exists "", line; now split|]. destruct line as [|x line]; cbn in H; [lia|]. destruct (IHn line ltac:(lia)) as [c [rest [-> L]]]. exists (String x c), rest. split; [reflexivity|cbn; now rewrite L]. }
      destruct E as [c [rest [-> L]]]. destruct (IH rest) as [cells R]. exists (c :: cells). now apply laid_full.
    - destruct (IH "") as [cells R]. exists (line :: cells). now apply laid_short. }
  destruct X as [cells L]. exists cells. split; [exact L|]. intros cells' L'. apply laid_cuts in L, L'. congruence.
Qed.
Print Assumptions C65_laid.
Example C65_simple_ex : laid (map (fun f => snd (fst f)) simple_fields) "19870605 125 -2503000034SHIP1     251" ["1987"; "06"; "05"; " 125"; " -250"; "300003"; "4"; "S"; "HIP1     "; "251"; ""; ""; ""; ""; ""; ""].
Proof.
  unfold simple_fields. cbn [map fst snd].
  change "19870605 125 -2503000034SHIP1     251" with ("1987" ++ "06" ++ "05" ++ " 125" ++ " -250" ++ "300003" ++ "4" ++ "S" ++ "HIP1     " ++ "251")%string.
  do 9 (apply laid_full; [reflexivity|]). repeat (apply laid_short; [cbn; lia|]). constructor.
Qed.

(** A near-real-time line has six fields; the record has the date, the position cut at 200 and 400 degrees, the temperature, and
    says that it is of a drifting buoy. *)
Definition capped (limit : Q) (x y : xnum) : Prop := match x with Fin q => if Qlt_le_dec limit q then y = Fin limit else y = x | PInf => y = Fin limit | _ => y = x end.
Theorem C65_nrt : forall float_of parse_date id dud date lat lon sst e data y mo d h mi la lo, Forall plain [id; dud; date; lat; lon; sst] -> newlines e ->
  parse_date date = Some (y, mo, d, h, mi) -> float_of lat = Some la -> float_of lon = Some lo -> (sst <> "nan" -> float_of sst <> None) ->
  exists r la' lo' hr, nrt_read float_of parse_date (between [id; dud; date; lat; lon; sst] ++ e) data = Ok r /\
    assoc "ID" r = Some (EStr id) /\ assoc "UID" r = Some (EStr ("NRT" ++ id ++ date)) /\ assoc "YR" r = Some (EInt y) /\ assoc "MO" r = Some (EInt mo) /\ assoc "DY" r = Some (EInt d) /\
    assoc "HR" r = Some (EFloat (Fin hr)) /\ (60 * hr == inject_Z (60 * h + mi))%Q /\
    assoc "LAT" r = Some (EFloat la') /\ capped 200 la la' /\ assoc "LON" r = Some (EFloat lo') /\ capped 400 lo lo' /\
    match float_of sst with Some x => assoc "SST" r = Some (if String.eqb sst "nan" then ENone else EFloat x) | None => assoc "SST" r = Some ENone end /\
    assoc "PT" r = Some (EInt 7) /\ assoc "DCK" r = Some (EInt 9999) /\ (forall v, In v ["AT"; "DPT"; "DS"; "VS"; "SIM"; "C1"; "SI"] -> assoc v r = Some ENone).
Proof.
  intros float_of parse_date id dud date lat lon sst e data y mo d h mi la lo P N D LA LO S.
  assert (X : rstrip_newline (between [id; dud; date; lat; lon; sst] ++ e)%string = between [id; dud; date; lat; lon; sst]) by (apply rstrip_newlines; [now apply no_lf_plain|exact N]).
  assert (NE : exists c s, (between [id; dud; date; lat; lon; sst] ++ e)%string = String c s) by (cbn [between]; destruct id; eexists; eexists; reflexivity).
  unfold nrt_read. destruct NE as [c [s NE]]. rewrite NE in *. cbn iota. rewrite X, split_between by (exact P || discriminate). rewrite D, LA, LO.
  assert (C : forall l x, capped l x (if x_ltb (Fin l) x then Fin l else x)).
  { intros l x. unfold capped. destruct x as [q| | |]; cbn [x_ltb]; try reflexivity. destruct (Qlt_le_dec l q) as [H|H]; [apply Qltb_true in H; now rewrite H|apply Qltb_false in H; now rewrite H]. }
  assert (HR : (60 * (inject_Z h + inject_Z mi / 60) == inject_Z (60 * h + mi))%Q) by (rewrite inject_Z_plus, inject_Z_mult; change (inject_Z 60) with 60%Q; field).
  destruct (String.eqb sst "nan") eqn:E.
  - cbn [bind]. eexists. exists (if x_ltb (Fin 200) la then Fin 200 else la), (if x_ltb (Fin 400) lo then Fin 400 else lo), (inject_Z h + inject_Z mi / 60)%Q.
    split; [reflexivity|]. do 6 (split; [reflexivity|]). split; [exact HR|]. split; [reflexivity|]. split; [apply C|]. split; [reflexivity|]. split; [apply C|]. split; [destruct (float_of sst); reflexivity|].
    split; [reflexivity|]. split; [reflexivity|]. intros v I. cbn in I. repeat (destruct I as [<-|I]; [reflexivity|]). destruct I.
  - apply String.eqb_neq in E. specialize (S E). destruct (float_of sst) as [x|]; [|congruence]. cbn [bind]. eexists. exists (if x_ltb (Fin 200) la then Fin 200 else la), (if x_ltb (Fin 400) lo then Fin 400 else lo), (inject_Z h + inject_Z mi / 60)%Q.
    split; [reflexivity|]. do 6 (split; [reflexivity|]). split; [exact HR|]. split; [reflexivity|]. split; [apply C|]. split; [reflexivity|]. split; [apply C|]. split; [reflexivity|].
    split; [reflexivity|]. split; [reflexivity|]. intros v I. cbn in I. repeat (destruct I as [<-|I]; [reflexivity|]). destruct I.
Qed.
Print Assumptions C65_nrt.
(** Cutting a position does not change what the position check says of it. *)
Theorem C65_nrt_position : forall la lo la' lo', capped 200 la la' -> capped 400 lo lo' -> position_check (Some la') (Some lo') = position_check (Some la) (Some lo).
Proof.
  assert (G : forall limit bound x y, (bound < limit)%Q -> (0 <= bound)%Q -> capped limit x y -> x_isnan y = x_isnan x /\ (forall b, (b <= 0)%Q -> x_ltb y (Fin b) = x_ltb x (Fin b)) /\ x_ltb (Fin bound) y = x_ltb (Fin bound) x).
  { intros limit bound x y L B C. unfold capped in C. destruct x as [q| | |]; try (subst y; now repeat split).
    - destruct (Qlt_le_dec limit q) as [H|H]; subst y; [|now repeat split]. split; [reflexivity|]. cbn [x_ltb]. split; [intros b Hb|].
      + replace (Qltb limit b) with false by (symmetry; apply Qltb_false; lra). symmetry. apply Qltb_false. lra.
      + replace (Qltb bound limit) with true by (symmetry; now apply Qltb_true). symmetry. apply Qltb_true. lra.
    - subst y. split; [reflexivity|]. cbn [x_ltb]. split; [intros b Hb; apply Qltb_false; lra|apply Qltb_true; exact L]. }
  intros la lo la' lo' A O. destruct (G 200%Q 90%Q la la' ltac:(lra) ltac:(lra) A) as [A1 [A2 A3]]. destruct (G 400%Q 360%Q lo lo' ltac:(lra) ltac:(lra) O) as [O1 [O2 O3]].
  unfold position_check. rewrite A1, O1, A3, O3, (A2 (-90)%Q), (O2 (-180)%Q) by lra. reflexivity.
Qed.
Print Assumptions C65_nrt_position.
(** A line with more or fewer fields is refused; an empty one leaves the record as it was. *)
Theorem C65_nrt_fields : forall float_of parse_date fs e data, Forall plain fs -> fs <> [] -> fs <> [""] -> newlines e -> length fs <> 6%nat ->
  nrt_read float_of parse_date (between fs ++ e) data = Err ValueError.
Proof.
  intros float_of parse_date fs e data P NE NE' N L. unfold nrt_read.
  assert (X : rstrip_newline (between fs ++ e)%string = between fs) by (apply rstrip_newlines; [now apply no_lf_plain|exact N]).
  destruct (between fs ++ e)%string as [|c s] eqn:E.
  - exfalso. destruct fs as [|f fs]; [congruence|]. destruct fs as [|f' fs]; cbn [between] in E; destruct f; try discriminate. now apply NE'.
  - cbn iota. rewrite X, split_between by assumption. do 7 (destruct fs as [|? fs]; try reflexivity). cbn in L. lia.
Qed.
Print Assumptions C65_nrt_fields.
Theorem C65_nrt_end : forall float_of parse_date data, nrt_read float_of parse_date "" data = Ok data.
Proof. reflexivity. Qed.
Print Assumptions C65_nrt_end.
Example C65_nrt_ex : Forall plain ["4401"; "x"; "2015-03-04T05:30:00Z"; "1234.0"; "-20.5"; "nan"] /\ capped 200 (Fin 1234) (Fin 200) /\ position_check (Some (Fin 200)) (Some (Fin (-41 # 2))) = Ok 1.
Proof. split; [repeat (constructor; [cbn; repeat split; discriminate|]); constructor|]. split; [cbn; destruct (Qlt_le_dec 200 1234); [reflexivity|lra]|reflexivity]. Qed.

(** A row of a table is read from its cells, with deck 999; -32768 is a missing hour or temperature. *)
Theorem C65_row : forall float_of row, (length row >= 12)%nat -> (forall i, In i [2; 3; 4; 5; 6; 7; 11]%nat -> exists q, float_of (nth i row "") = Some (Fin q)) ->
  exists r, test_read float_of row = Ok r /\ assoc "ID" r = Some (EStr (nth 0 row "")) /\ assoc "UID" r = Some (EStr (nth 1 row "")) /\ assoc "DCK" r = Some (EFloat (Fin 999)) /\
    (forall v i, In (v, i) [("LAT", 2%nat); ("LON", 3%nat)] -> exists q, float_of (nth i row "") = Some (Fin q) /\ assoc v r = Some (EFloat (Fin q))) /\
    (forall v i, In (v, i) [("YR", 4%nat); ("MO", 5%nat); ("DY", 6%nat)] -> exists q, float_of (nth i row "") = Some (Fin q) /\ assoc v r = Some (EInt (py_int q))) /\
    (forall v i, In (v, i) [("HR", 7%nat); ("SST", 11%nat)] -> exists q, float_of (nth i row "") = Some (Fin q) /\
       (((q == -32768)%Q /\ assoc v r = Some ENone) \/ (~ (q == -32768)%Q /\ assoc v r = Some (EFloat (Fin q))))).
Proof.
  intros float_of row L F. do 12 (destruct row as [|? row]; [cbn in L; lia|]). 
  destruct (F 2%nat ltac:(cbn; tauto)) as [q2 E2], (F 3%nat ltac:(cbn; tauto)) as [q3 E3], (F 4%nat ltac:(cbn; tauto)) as [q4 E4], (F 5%nat ltac:(cbn; tauto)) as [q5 E5], (F 6%nat ltac:(cbn; tauto)) as [q6 E6], (F 7%nat ltac:(cbn; tauto)) as [q7 E7], (F 11%nat ltac:(cbn; tauto)) as [q11 E11].
  cbn [nth] in *. unfold test_read, cell_at, to_float. cbn [nth_error bind]. rewrite E2, E3, E4, E5, E6, E7, E11. cbn [bind to_int]. eexists. split; [reflexivity|]. split; [reflexivity|]. split; [reflexivity|]. split; [reflexivity|].
  assert (M : forall q, ((q == -32768)%Q /\ not_missing (Fin q) = ENone) \/ (~ (q == -32768)%Q /\ not_missing (Fin q) = EFloat (Fin q))).
  { intro q. unfold not_missing. destruct (Qeqb q (inject_Z (-32768))) eqn:E; [left; split; [now apply Qeqb_true in E|reflexivity]|right; split; [now apply Qeqb_false in E|reflexivity]]. }
  split; [|split]; intros v i I; cbn in I; repeat (destruct I as [I|I]; [injection I as <- <-; eexists; (split; [eassumption|]); try reflexivity|]); try destruct I.
  - destruct (M q7) as [[A B]|[A B]]; [left|right]; (split; [exact A|]); transitivity (Some (not_missing (Fin q7))); try reflexivity; now rewrite B.
  - destruct (M q11) as [[A B]|[A B]]; [left|right]; (split; [exact A|]); transitivity (Some (not_missing (Fin q11))); try reflexivity; now rewrite B.
Qed.
Print Assumptions C65_row.
(** A row of fewer than twelve cells raises. *)
Theorem C65_row_short : forall float_of row, (length row < 12)%nat -> exists e, test_read float_of row = Err e.
Proof.
  intros float_of row L. unfold test_read. destruct (test_read float_of row) as [r|e] eqn:E; unfold test_read in E; [|rewrite E; eauto]. exfalso. revert E.
  assert (N : cell_at row 11 = Err IndexError) by (unfold cell_at; destruct (nth_error row 11) eqn:H; [assert (nth_error row 11 <> None) as H' by congruence; apply nth_error_Some in H'; lia|reflexivity]). rewrite N.
  destruct (cell_at row 0); cbn [bind]; [|discriminate]. destruct (cell_at row 1); cbn [bind]; [|discriminate]. destruct (cell_at row 2); cbn [bind]; [|discriminate]. destruct (to_float _ _); cbn [bind]; [|discriminate].
  destruct (cell_at row 3); cbn [bind]; [|discriminate]. destruct (to_float _ _); cbn [bind]; [|discriminate]. destruct (cell_at row 4); cbn [bind]; [|discriminate]. destruct (to_float _ _); cbn [bind]; [|discriminate]. destruct (to_int _); cbn [bind]; [|discriminate].
  destruct (cell_at row 5); cbn [bind]; [|discriminate]. destruct (to_float _ _); cbn [bind]; [|discriminate]. destruct (to_int _); cbn [bind]; [|discriminate]. destruct (cell_at row 6); cbn [bind]; [|discriminate]. destruct (to_float _ _); cbn [bind]; [|discriminate]. destruct (to_int _); cbn [bind]; [|discriminate].
  destruct (cell_at row 7); cbn [bind]; [|discriminate]. destruct (to_float _ _); cbn [bind]; discriminate.
Qed.
Print Assumptions C65_row_short.
