(** Lemmas about the jobs of the tracking wrapper: the command line as read by argparse, the names of the job files. *)
Require Import String Ascii ZArith QArith List Bool Lia Permutation.
Require Import Verif.M_Base Verif.L_Base Verif.M_Calendar Verif.S_Calendar Verif.M_Chunks Verif.S_Chunks Verif.M_Imma Verif.S_Imma Verif.L_Imma Verif.M_Files Verif.S_Files Verif.L_Files
  Verif.M_Print Verif.S_Print Verif.L_Print Verif.M_Report Verif.M_Tracking Verif.S_Main2 Verif.M_Jobs Verif.S_Jobs Verif.L_Jobs.
Import ListNotations.
Open Scope string_scope.
Open Scope Z_scope.

(* ---- argparse ---- *)

Definition option_names : list string := ["-config"; "-id"; "-yr1"; "-mn1"; "-yr2"; "-mn2"; "-edge"; "-runmonthid"].
(** Setting an option that takes its arguments changes one field, whatever the others are. *)
Lemma set_arg_fun : forall o args a a', set_arg o args a = Ok a' -> In o option_names /\ exists f, forall b, set_arg o args b = Ok (f b).
Proof.
  intros o args a a' H. unfold set_arg in *. cbv zeta in *. unfold option_names.
  repeat (match type of H with (if String.eqb o ?n then _ else _) = _ => destruct (String.eqb_spec o n); [split; [subst o; cbn; tauto|]|] end;
    [first [destruct args as [|s [|]]; try discriminate; destruct (int_of_str s); cbn in *; [|discriminate]; eexists; intro; reflexivity
           |destruct args as [|s [|]]; try discriminate; eexists; intro; reflexivity|destruct args; [discriminate|]; eexists; intro; reflexivity]|]).
  discriminate.
Qed.
Lemma ok_same : forall A (x y : A), Ok x = Ok y -> x = y.
Proof. intros A x y H. now injection H. Qed.
Lemma set_arg_swap : forall o1 x1 o2 x2 a b c, o1 <> o2 -> set_arg o1 x1 a = Ok b -> set_arg o2 x2 b = Ok c -> exists b', set_arg o2 x2 a = Ok b' /\ set_arg o1 x1 b' = Ok c.
Proof.
  intros o1 x1 o2 x2 a b c N H1 H2. destruct (set_arg_fun _ _ _ _ H1) as [I1 [f1 F1]]. destruct (set_arg_fun _ _ _ _ H2) as [I2 [f2 F2]].
  exists (f2 a). split; [apply F2|]. rewrite F1. rewrite F1 in H1. rewrite F2 in H2. apply (f_equal (fun r => match r with Ok x => x | Err _ => a end)) in H1. cbn in H1. subst b.
  rewrite <- H2. f_equal. assert (K1 := F1 a). assert (K2 := F2 (f1 a)). assert (K3 := F2 a). assert (K4 := F1 (f2 a)).
  unfold set_arg in K1, K2, K3, K4. cbv zeta in *. unfold option_names in *.
  repeat (destruct I1 as [I1|I1]; [subst o1|]); try destruct I1; repeat (destruct I2 as [I2|I2]; [subst o2|]); try destruct I2; try congruence;
  cbn [String.eqb Ascii.eqb Bool.eqb] in K1, K2, K3, K4;
  repeat match goal with K : match ?l with [] => _ | _ :: _ => _ end = Ok _ |- _ => destruct l; try discriminate end;
  repeat match goal with K : bind (int_of_str ?s) _ = Ok _ |- _ => destruct (int_of_str s); cbn [bind] in *; try discriminate end; 
  apply ok_same in K1; apply ok_same in K2; apply ok_same in K3; apply ok_same in K4; rewrite <- K2, <- K4, <- K1, <- K3; reflexivity.
Qed.
Fixpoint set_args (l : list (string * list string)) (a : track_args) : res track_args :=
  match l with [] => Ok a | (o, args) :: l' => let! a := set_arg o args a in set_args l' a end.
Lemma set_args_perm : forall l l', Permutation l l' -> NoDup (map fst l) -> forall a b, set_args l a = Ok b -> set_args l' a = Ok b.
Proof.
  intros l l' P. induction P as [|[o x] l l' P IH|[o1 x1] [o2 x2] l|l l1 l2 P1 IH1 P2 IH2]; intros N a b H.
  - exact H.
  - cbn [set_args map fst] in *. inversion N; subst. destruct (set_arg o x a) as [a'|]; [|discriminate]. cbn [bind] in *. now apply IH.
  - cbn [set_args map fst] in *. inversion N as [|? ? N1 _]; subst. destruct (set_arg o2 x2 a) as [a1|] eqn:E1; [|discriminate]. cbn [bind] in H. destruct (set_arg o1 x1 a1) as [a2|] eqn:E2; [|discriminate]. cbn [bind] in H.
    destruct (set_arg_swap o2 x2 o1 x1 a a1 a2) as [b' [B1 B2]]; [intro K; apply N1; left; now symmetry|exact E1|exact E2|]. rewrite B1. cbn [bind]. rewrite B2. exact H.
  - apply IH2; [eapply Permutation_NoDup; [apply Permutation_map, P1|exact N]|]. now apply IH1.
Qed.
Lemma take_args_spec : forall args rest, Forall (fun w => dash w = false) args -> (rest = [] \/ exists w r, rest = w :: r /\ dash w = true) -> take_args (args ++ rest) = (args, rest).
Proof.
  induction args as [|w args IH]; intros rest H R; cbn [app take_args].
  - destruct R as [->|[w [r [-> D]]]]; [reflexivity|]. cbn [take_args]. now rewrite D.
  - inversion_clear H as [|? ? D F]. rewrite D, (IH rest F R). reflexivity.
Qed.
Lemma parse_set : forall l fuel a b, Forall (fun o => dash (fst o) = true /\ Forall (fun w => dash w = false) (snd o)) l -> (length (flat_map (fun o => fst o :: snd o) l) <= fuel)%nat ->
  set_args l a = Ok b -> parse_args fuel (flat_map (fun o => fst o :: snd o) l) a = Ok b.
Proof.
  induction l as [|[o args] l IH]; intros fuel a b F L H; cbn [flat_map fst snd app set_args] in *; [destruct fuel; exact H|].
  inversion_clear F as [|? ? [D N] F']. cbn [fst snd] in *. destruct fuel as [|k]; [cbn in L; lia|]. cbn [parse_args]. rewrite D.
  rewrite take_args_spec; [|exact N|destruct l as [|[o' x'] l]; [now left|right; inversion_clear F' as [|? ? [D' _] _]; cbn [fst] in D'; cbn; eauto]].
  destruct (set_arg o args a) as [a'|]; [|discriminate]. cbn [bind] in *. apply IH; [exact F'| |exact H]. cbn [length] in L. rewrite app_length in L. lia.
Qed.
Lemma dash_plain : forall s, plain_word s -> dash s = false.
Proof. intros s [_ [c [t [-> C]]]]. unfold dash. destruct c as [[|] [|] [|] [|] [|] [|] [|] [|]]; try reflexivity. destruct C. reflexivity. Qed.

(* ---- the shell ---- *)

Lemma redirected_to : forall ws f, Forall (fun w => chars plain_char w) ws -> chars plain_char f -> redirected (ws ++ [">"; f]) = Ok (ws, Some f).
Proof.
  induction ws as [|w ws IH]; intros f H F; cbn [app redirected].
  - cbn [String.eqb Ascii.eqb Bool.eqb]. now rewrite all_harmless.
  - inversion_clear H as [|? ? W H']. destruct (String.eqb_spec w ">") as [->|_]; [destruct W as [W _]; apply harmless_plain in W; discriminate W|]. rewrite all_harmless, IH by assumption. reflexivity.
Qed.
Lemma number_plain : forall z, 0 <= z -> plain_word (str_of_int z).
Proof.
  intros z Z. pose proof (str_of_int_nat z Z) as D. pose proof (decimal_digits _ _ D) as C. pose proof (decimal_nonempty _ _ D) as N. split; [now apply digits_plain|].
  destruct (str_of_int z) as [|c t]; [cbn in N; lia|]. exists c, t. split; [reflexivity|]. intros ->. destruct C as [C _]. discriminate C.
Qed.
Lemma int_of_number : forall z, int_of_str (str_of_int z) = Ok z.
Proof. intro z. apply int_of_str_complete, str_of_int_text. Qed.
Lemma padded_plain : forall n z, (0 < n)%nat -> 0 <= z -> chars plain_char (zero_pad n z).
Proof. intros n z N Z. apply digits_plain. exact (decimal_digits _ _ (proj1 (zero_pad_padded n z N Z))). Qed.
Lemma no_spaces_plain : forall a b, chars plain_char a -> chars (fun c => c = " "%char) b -> no_spaces (a ++ b) = a.
Proof.
  intros a b A B. unfold no_spaces. rewrite (replace_pass " " "" "") by (apply (plain_no " "%char); [reflexivity|exact A]).
  assert (E : replace " " "" b = ""); [|rewrite E; apply app_nil_r_s]. induction b as [|c b IH]; [reflexivity|]. destruct B as [-> B]. change (String " " b) with (String " " "" ++ b). rewrite (replace_hit " " "" "" b). exact (IH B).
Qed.
Lemma log_plain : forall kind out a b y m runid, chars plain_char kind -> chars plain_char out -> chars plain_char a -> chars (fun c => c = " "%char) b -> 0 <= y -> 0 <= m -> chars plain_char runid ->
  chars plain_char (job_log kind out (a ++ b) y m runid).
Proof.
  intros kind out a b y m runid K O A B Y M R. unfold job_log. rewrite no_spaces_plain by assumption. pose proof (proj1 (number_plain y Y)). pose proof (padded_plain 2 m ltac:(lia) M).
  assert (L : forall s, all_chars harmless s = true -> chars plain_char s) by (intros s H1; apply all_chars_spec in H1; eapply chars_impl; [|exact H1]; intros c; apply harmless_plain).
  repeat (apply chars_app; split); try assumption; apply L; reflexivity.
Qed.

Section Job.
Variables (order : list (string * string) -> list (string * string)) (config id core b : string) (y1 m1 y2 m2 : Z) (edge : list string) (rm out runid : string).
Hypothesis ORD : forall l, Permutation l (order l).
Hypothesis CF : plain_word config.
Hypothesis ID : id = core ++ b.
Hypothesis CO : plain_word core.
Hypothesis BL : chars (fun c => c = " "%char) b.
Hypothesis Y1 : 0 <= y1.
Hypothesis M1 : 0 <= m1.
Hypothesis Y2 : 0 <= y2.
Hypothesis M2 : 0 <= m2.
Hypothesis EN : edge <> [].
Hypothesis EP : Forall plain_word edge.
Hypothesis RM : plain_word rm.
Hypothesis OUT : chars plain_char out.
Hypothesis RI : chars plain_char runid.

Definition job_ok : track_args :=
  {| a_config := config; a_id := Some core; a_yr1 := Some y1; a_mn1 := Some m1; a_yr2 := Some y2; a_mn2 := Some m2; a_edge := Some edge; a_runmonthid := rm |}.
Definition groups (l : list (string * string)) : list (string * list string) := map (fun o => ("-" ++ fst o, words (snd o) "")) l.
Let opts := job_options config id y1 m1 y2 m2 edge rm.

Lemma opts_groups : groups opts =
  [("-id", [core]); ("-config", [config]); ("-yr1", [str_of_int y1]); ("-mn1", [str_of_int m1]); ("-yr2", [str_of_int y2]); ("-mn2", [str_of_int m2]); ("-edge", edge); ("-runmonthid", [rm])].
Proof.
  unfold opts, job_options, groups. cbn [map fst snd append]. rewrite ID, words_padded, (words_plain config), (words_plain rm), words_concat by assumption.
  rewrite !words_plain by (apply number_plain; assumption). reflexivity.
Qed.
Lemma opts_set : set_args (groups opts) no_args = Ok job_ok.
Proof.
  rewrite opts_groups. unfold job_ok, set_args, set_arg. cbv zeta. cbn [String.eqb Ascii.eqb Bool.eqb bind]. rewrite !int_of_number. cbn [bind]. revert EN. generalize edge. intros [|e l] N; [congruence|]. reflexivity.
Qed.
Lemma opts_good : Forall (fun g => dash (fst g) = true /\ chars plain_char (fst g) /\ Forall plain_word (snd g)) (groups opts).
Proof.
  rewrite opts_groups.
  assert (L : forall s, all_chars harmless s = true -> chars plain_char s) by (intros s H1; apply all_chars_spec in H1; eapply chars_impl; [|exact H1]; intros c; apply harmless_plain).
  repeat (apply Forall_cons; [split; [reflexivity|split; [apply L; reflexivity|cbn [snd]; first [exact EP|constructor; [first [assumption|now apply number_plain]|constructor]]]]|]). apply Forall_nil.
Qed.
Lemma chars_concat : forall P l, Forall (chars P) l -> P " "%char -> chars P (String.concat " " l).
Proof.
  intros P l F S. induction F as [|x l X F IH]; [exact I|]. destruct l as [|y l]; [exact X|]. change (String.concat " " (x :: y :: l)) with (x ++ " " ++ String.concat " " (y :: l)).
  apply chars_app. split; [exact X|]. split; [exact S|]. exact IH.
Qed.
Lemma command_line : chars (fun c => c <> "010"%char) (job_command (order opts)).
Proof.
  assert (F : Forall (fun o => chars (fun c => c <> "010"%char) (fst o) /\ chars (fun c => c <> "010"%char) (snd o)) (order opts)).
  { eapply Permutation_Forall; [apply ORD|]. unfold opts, job_options. pose proof (fun s => plain_no "010"%char eq_refl s) as PN.
    repeat (apply Forall_cons; [split; cbn [fst snd]|]); try apply Forall_nil; try (cbn; repeat split; discriminate).
    - rewrite ID. apply chars_app. split; [apply PN, CO|]. eapply chars_impl; [|exact BL]. intros c ->. discriminate.
    - apply PN, CF.
    - apply PN, (number_plain y1 Y1).
    - apply PN, (number_plain m1 M1).
    - apply PN, (number_plain y2 Y2).
    - apply PN, (number_plain m2 M2).
    - apply chars_concat; [|discriminate]. eapply Forall_impl; [|exact EP]. intros s [H _]. now apply PN.
    - apply PN, RM. }
  unfold job_command. assert (S : chars (fun c => c <> "010"%char) ("python " ++ codedir ++ "tracking_qc.py")) by (vm_compute; repeat split; discriminate). revert S.
  generalize ("python " ++ codedir ++ "tracking_qc.py"). induction F as [|[n v] l [A B] F IH]; intros s S; [exact S|]. cbn [fold_left fst snd] in *. apply IH.
  repeat (apply chars_app; split); try assumption; cbn; repeat split; discriminate.
Qed.
Lemma job_args_ok : job_args (job_text order config id y1 m1 y2 m2 edge rm out runid) = Ok job_ok.
Proof.
  assert (LOG : forall kind, all_chars harmless kind = true -> chars plain_char (job_log kind out id y2 m2 runid)).
  { intros kind K. rewrite ID. apply log_plain; try assumption; [|apply CO]. apply all_chars_spec in K. eapply chars_impl; [|exact K]. intros c. apply harmless_plain. }
  pose proof (LOG "errout" eq_refl) as L1. pose proof (LOG "genout" eq_refl) as L2. clear LOG.
  unfold job_args, job_commands, job_text. fold opts. unfold nl. cbn [append].
  (* the lines *)
  set (cmd := job_command (order opts)). set (log1 := job_log "errout" out id y2 m2 runid) in *. set (log2 := job_log "genout" out id y2 m2 runid) in *.
  assert (FL : file_lines ("#!/bin/bash -l" ++ String "010" ("#SBATCH --mem=8000" ++ String "010" ("#SBATCH --ntasks=1" ++ String "010" (("#SBATCH --output=" ++ log1) ++ String "010" ("#SBATCH --time=30" ++ String "010" ("" ++ String "010"
     ("module load scitools/default_legacy-current" ++ String "010" ((cmd ++ " > " ++ log2) ++ String "010" "")))))))) "" =
     ["#!/bin/bash -l"; "#SBATCH --mem=8000"; "#SBATCH --ntasks=1"; "#SBATCH --output=" ++ log1; "#SBATCH --time=30"; ""; "module load scitools/default_legacy-current"; cmd ++ " > " ++ log2]).
  { rewrite !lines_line; [reflexivity| | | | | | | |]; try (cbn; repeat split; discriminate).
    - apply chars_app. split; [apply command_line|]. apply chars_app. split; [cbn; repeat split; discriminate|]. now apply (plain_no "010"%char).
    - apply chars_app. split; [cbn; repeat split; discriminate|]. now apply (plain_no "010"%char). }
  rewrite !app_assoc_s in FL. cbn [append] in FL. rewrite FL. clear FL. cbn [filter is_comment Ascii.eqb Bool.eqb negb].
  assert (NC : negb (is_comment (cmd ++ " > " ++ log2)) = true).
  { assert (exists t, cmd = String "p" t) as [t ->]; [|reflexivity]. unfold cmd, job_command. generalize (order opts). intro l.
    assert (K : forall c, (exists t, c = String "p" t) -> exists t, fold_left (fun c o => (c ++ " -" ++ fst o ++ " " ++ snd o)%string) l c = String "p" t) by (induction l as [|o l IH]; intros c [t ->]; [exists t; reflexivity|cbn [fold_left]; apply IH; eexists; reflexivity]).
    apply K. eexists. reflexivity. }
  cbn [append] in NC. rewrite NC. cbn [M_Track.mapM]. unfold shell_line at 1. change (redirected (words "module load scitools/default_legacy-current" "")) with (Ok (["module"; "load"; "scitools/default_legacy-current"], @None string)). cbn [bind].
  unfold shell_line. change (cmd ++ String " " (String ">" (String " " log2))) with (cmd ++ " " ++ (">" ++ " " ++ log2)). rewrite words_app, words_app.
  assert (W2 : words log2 "" = [log2]).
  { rewrite words_word by (apply (plain_no " "%char); [reflexivity|exact L2]). cbn [append]. unfold log2, job_log. destruct out; reflexivity. }
  rewrite W2. change (words ">" "") with [">"]. cbn [app].
  assert (WC : words cmd "" = "python" :: (codedir ++ "tracking_qc.py") :: flat_map (fun o => fst o :: snd o) (groups (order opts))).
  { unfold cmd, job_command. rewrite command_words. change (words ("python " ++ codedir ++ "tracking_qc.py") "") with ["python"; codedir ++ "tracking_qc.py"]. cbn [app]. f_equal. f_equal.
    assert (D : Forall (fun o => words ("-" ++ fst o) "" = ["-" ++ fst o]) (order opts)) by (eapply Permutation_Forall; [apply ORD|]; unfold opts, job_options; repeat constructor).
    unfold groups. clear - D. induction D as [|o l D F IH]; [reflexivity|]. cbn [flat_map map fst snd]. rewrite D, IH. cbn [app]. reflexivity. }
  assert (G : Forall (fun g => dash (fst g) = true /\ chars plain_char (fst g) /\ Forall plain_word (snd g)) (groups (order opts))) by (eapply Permutation_Forall; [apply Permutation_map, ORD|apply opts_good]).
  rewrite WC, redirected_to; [| |exact L2].
  - cbn [bind]. change (String.eqb (codedir ++ "tracking_qc.py") (codedir ++ "tracking_qc.py")) with true. cbv iota.
    apply parse_set; [|apply le_n|].
    + eapply Forall_impl; [|exact G]. intros g [A [_ B]]. split; [exact A|]. eapply Forall_impl; [|exact B]. apply dash_plain.
    + eapply set_args_perm; [apply Permutation_map, ORD| |apply opts_set]. fold (groups opts). rewrite opts_groups. cbn [map fst]. repeat (constructor; [cbn; intuition discriminate|]). constructor.
  - assert (L : forall s, all_chars harmless s = true -> chars plain_char s) by (intros s H1; apply all_chars_spec in H1; eapply chars_impl; [|exact H1]; intros c; apply harmless_plain).
    constructor; [apply L; reflexivity|]. constructor; [apply L; reflexivity|]. clear - G. induction G as [|g l [_ [A B]] G IH]; [constructor|]. cbn [flat_map app]. constructor; [exact A|]. apply Forall_app. split; [|exact IH].
    eapply Forall_impl; [|exact B]. intros s [S _]. exact S.
Qed.
End Job.
