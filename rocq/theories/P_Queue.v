(** C66, C67: the batch queue and the directories of the jobs. *)
Require Import String Ascii ZArith List Bool Lia.
Require Import Verif.M_Base Verif.L_Base Verif.M_Report Verif.M_Imma Verif.S_Imma Verif.L_Imma Verif.M_Files Verif.L_Files Verif.M_Queue Verif.S_Queue Verif.L_Queue.
Import ListNotations.
Open Scope string_scope.
Open Scope list_scope.

(** A listing as squeue prints it: job and user, line by line. *)
Definition plain_line (x : queued) : string := (q_file x ++ " " ++ q_user x ++ String "010" "")%string.
Definition plain_listing (q : list queued) : string := ("JOBID USER" ++ String "010" "" ++ String.concat "" (map plain_line q))%string.
Lemma plain_shows : forall user name, mentions user name -> shows plain_listing user name.
Proof.
  intros user name [a [b E]]. exists ("JOBID USER" ++ String "010" "")%string, plain_line. split; [intros q; unfold plain_listing; now rewrite app_assoc_s|].
  intros x U. exists (q_file x ++ " " ++ a)%string, (b ++ String "010" "")%string. unfold plain_line. rewrite U, E, !app_assoc_s. reflexivity.
Qed.

(** C66.  Whatever the queue does, it never holds more than 251 jobs of the user (or one more than it held when the wrapper started). *)
Theorem C66_limit : forall listing user queue jobs s, shows listing user "hadjj" -> reach listing user (start queue jobs) s ->
  (length (jobs_of user (s_queue s)) <= Nat.max (length (jobs_of user queue)) 250 + 1)%nat.
Proof. intros listing user queue jobs s SH R. pose proof (reach_within _ _ _ _ _ SH R) as W. unfold within in W. destruct (s_waiting s); lia. Qed.
Print Assumptions C66_limit.
(** C66.  The jobs are handed over once each and in order, and nothing else is. *)
Theorem C66_order : forall listing user queue jobs s, reach listing user (start queue jobs) s ->
  s_sent s ++ s_left s = jobs /\ forall x, In x (s_queue s) -> q_user x = user -> In x queue \/ In (q_file x) (s_sent s).
Proof.
  intros listing user queue jobs s R. split; [exact (reach_order _ _ _ _ _ R)|]. intros x I U. apply (reach_known _ _ _ _ _ R). apply filter_In. split; [exact I|]. now apply String.eqb_eq.
Qed.
Print Assumptions C66_order.
(** C66.  While squeue names the user more than 250 times, a wrapper that has begun to wait submits nothing. *)
Theorem C66_waits : forall listing user h n k, history listing user h -> s_waiting (h n) = true ->
  (forall m, (n <= m < n + k)%nat -> (250 < py_count (listing (s_queue (h m))) "hadjj")%nat) -> s_sent (h (n + k)%nat) = s_sent (h n).
Proof. intros listing user h n k HI W C. exact (proj2 (waits _ _ _ HI n k W C)). Qed.
Print Assumptions C66_waits.
(** C66.  If it gets its turn again and again with the count at most 250, it submits everything. *)
Theorem C66_all_sent : forall listing user h queue jobs, history listing user h -> h 0%nat = start queue jobs ->
  (forall n, exists m, (n <= m)%nat /\ acts listing user h m /\ (py_count (listing (s_queue (h m))) "hadjj" <= 250)%nat) ->
  exists n, s_sent (h n) = jobs.
Proof.
  intros listing user h queue jobs HI H0 FAIR. destruct (all_sent listing user h HI FAIR 0) as [m [_ L]]. exists m.
  assert (R : forall n, reach listing user (start queue jobs) (h n)) by (induction n as [|n IH]; [rewrite H0; constructor|econstructor; [exact IH|apply HI]]).
  pose proof (reach_order _ _ _ _ _ (R m)) as E. now rewrite L, app_nil_r in E.
Qed.
Print Assumptions C66_all_sent.

(** The hypotheses are met: three jobs, the wrapper acting all the time. *)
Fixpoint alone (s : state) (n : nat) : state := match n with O => s | S n => wrapper_step plain_listing "hadjj" true (alone s n) end.
Lemma alone_history : forall s, history plain_listing "hadjj" (alone s).
Proof. intros s n. cbn [alone]. constructor. Qed.
Example C66_case : shows plain_listing "hadjj" "hadjj" /\ history plain_listing "hadjj" (alone (start [] ["a"; "b"; "c"])) /\
  s_sent (alone (start [] ["a"; "b"; "c"]) 6) = ["a"; "b"; "c"] /\ length (jobs_of "hadjj" (s_queue (alone (start [] ["a"; "b"; "c"]) 6))) = 3%nat /\
  forall n, exists m, (n <= m)%nat /\ acts plain_listing "hadjj" (alone (start [] ["a"; "b"; "c"])) m /\ (py_count (plain_listing (s_queue (alone (start [] ["a"; "b"; "c"]) m))) "hadjj" <= 250)%nat.
Proof.
  split; [apply plain_shows; exists "", ""; reflexivity|]. split; [apply alone_history|]. split; [vm_compute; reflexivity|]. split; [vm_compute; reflexivity|].
  assert (E : forall n, alone (start [] ["a"; "b"; "c"]) (6 + n) = alone (start [] ["a"; "b"; "c"]) 6) by (induction n as [|n IH]; [reflexivity|rewrite Nat.add_succ_r; cbn [alone]; rewrite IH; vm_compute; reflexivity]).
  intros n. exists (6 + n)%nat. split; [lia|]. split; [exists true; reflexivity|]. rewrite E. vm_compute. lia.
Qed.
(** A queue that is full: the second job is not sent. *)
Definition crowd (u : string) (n : nat) : list queued := repeat {| q_user := u; q_file := "x" |} n.
Example C66_waits_case : s_waiting (alone (start (crowd "hadjj" 250) ["a"; "b"]) 1) = true /\
  (forall m, (1 <= m < 4)%nat -> (250 < py_count (plain_listing (s_queue (alone (start (crowd "hadjj" 250) ["a"; "b"]) m))) "hadjj")%nat) /\ s_sent (alone (start (crowd "hadjj" 250) ["a"; "b"]) 4) = ["a"].
Proof.
  split; [vm_compute; reflexivity|]. split; [|vm_compute; reflexivity].
  intros m M. assert (m = 1 \/ m = 2 \/ m = 3)%nat as [ -> |[ -> | -> ]] by lia; apply Nat.ltb_lt; vm_compute; reflexivity.
Qed.

(** C66.  The name asked for is fixed in the program: for anybody else there is no limit. *)
Lemma no_h_count : forall s, chars (fun c => c <> "h"%char) s -> py_count s "hadjj" = 0%nat.
Proof. induction s as [|c s IH]; intros H; [reflexivity|]. destruct H as [H H']. rewrite py_count_cons by discriminate. cbn [prefix]. destruct (ascii_dec "h" c); [congruence|]. auto. Qed.
Lemma jones_count : forall q, Forall (fun x => x = {| q_user := "jones"; q_file := "x" |}) q -> py_count (plain_listing q) "hadjj" = 0%nat.
Proof.
  intros q F. apply no_h_count. unfold plain_listing. apply chars_app. split; [cbn; repeat split; discriminate|]. apply chars_app. split; [cbn; repeat split; discriminate|].
  induction F as [|x q E F IH]; [exact I|]. subst x. destruct q as [|y q]; [cbn; repeat split; discriminate|].
  change (String.concat "" (map plain_line ({| q_user := "jones"; q_file := "x" |} :: y :: q))) with (plain_line {| q_user := "jones"; q_file := "x" |} ++ "" ++ String.concat "" (map plain_line (y :: q)))%string.
  apply chars_app. split; [cbn; repeat split; discriminate|]. exact IH.
Qed.
Theorem C66_other_user_refuted : exists listing user, shows listing user user /\ forall n, exists jobs s, reach listing user (start [] jobs) s /\ length (jobs_of user (s_queue s)) = n.
Proof.
  exists plain_listing, "jones". split; [apply plain_shows; exists "", ""; reflexivity|]. intros n. exists (repeat "x" n).
  assert (K : forall k, (k <= n)%nat -> reach plain_listing "jones" (start [] (repeat "x" n)) {| s_queue := crowd "jones" k; s_left := repeat "x" (n - k); s_sent := repeat "x" k; s_waiting := false |}).
  { induction k as [|k IH]; intros L; [rewrite Nat.sub_0_r; constructor|].
    eapply reach_step with (t := {| s_queue := crowd "jones" (S k); s_left := repeat "x" (n - S k); s_sent := repeat "x" (S k); s_waiting := true |}).
    - eapply reach_step; [apply IH; lia|]. replace {| s_queue := crowd "jones" (S k); s_left := repeat "x" (n - S k); s_sent := repeat "x" (S k); s_waiting := true |}
        with (wrapper_step plain_listing "jones" true {| s_queue := crowd "jones" k; s_left := repeat "x" (n - k); s_sent := repeat "x" k; s_waiting := false |}); [constructor|].
      unfold wrapper_step, submit. cbn [s_waiting s_left s_queue s_sent]. replace (n - k)%nat with (S (n - S k)) by lia. cbn [repeat]. unfold crowd. rewrite <- !repeat_cons. reflexivity.
    - match goal with |- step _ _ ?t ?u => replace u with (wrapper_step plain_listing "jones" true t) end; [constructor|]. unfold wrapper_step, poll. cbn [s_waiting s_left s_queue s_sent]. unfold checkload.
      rewrite jones_count; [reflexivity|]. apply Forall_forall. intros x I. exact (repeat_spec _ _ _ I). }
  eexists. split; [exact (K n (le_n n))|]. cbn [s_queue]. unfold crowd. clear. induction n as [|n IH]; [reflexivity|]. cbn. f_equal. exact IH.
Qed.
Print Assumptions C66_other_user_refuted.

(** C66.  A job that sbatch refuses is lost without notice: the wrapper ends as if all had been queued. *)
Theorem C66_refused_refuted : forall listing user jobs, py_count (listing []) "hadjj" = 0%nat -> exists s, reach listing user (start [] jobs) s /\ s_sent s = jobs /\ s_left s = [] /\ s_queue s = [].
Proof.
  intros listing user jobs C.
  assert (K : forall rest sent, jobs = sent ++ rest -> reach listing user (start [] jobs) {| s_queue := []; s_left := rest; s_sent := sent; s_waiting := false |} -> exists s, reach listing user (start [] jobs) s /\ s_sent s = jobs /\ s_left s = [] /\ s_queue s = []).
  { induction rest as [|j rest IH]; intros sent E R; [eexists; split; [exact R|]; cbn; rewrite E, app_nil_r; auto|]. apply (IH (sent ++ [j])); [now rewrite <- app_assoc|].
    eapply reach_step with (t := {| s_queue := []; s_left := rest; s_sent := sent ++ [j]; s_waiting := true |}).
    - eapply reach_step; [exact R|]. apply (step_wrapper listing user {| s_queue := []; s_left := j :: rest; s_sent := sent; s_waiting := false |} false).
    - match goal with |- step _ _ ?t ?u => replace u with (wrapper_step listing user true t) end; [constructor|]. unfold wrapper_step, poll, checkload. cbn [s_waiting s_left s_queue s_sent]. rewrite C. reflexivity. }
  apply (K jobs []); [reflexivity|constructor].
Qed.
Print Assumptions C66_refused_refuted.
Example C66_refused_case : py_count (plain_listing []) "hadjj" = 0%nat.
Proof. reflexivity. Qed.

(** C66.  Jobs of others whose name contains the word count as well: the wrapper can wait for ever with one job of its own in the queue. *)
Theorem C66_others_counted_refuted : exists listing queue jobs h, shows listing "hadjj" "hadjj" /\ history listing "hadjj" h /\ h 0%nat = start queue jobs /\ (forall n, acts listing "hadjj" h n) /\
  forall n, (length (jobs_of "hadjj" (s_queue (h n))) <= 1)%nat /\ s_left (h n) <> [].
Proof.
  exists plain_listing, (crowd "hadjj2" 250), ["a"; "b"], (alone (start (crowd "hadjj2" 250) ["a"; "b"])). split; [apply plain_shows; exists "", ""; reflexivity|]. split; [apply alone_history|]. split; [reflexivity|].
  split; [intros n; exists true; reflexivity|].
  assert (E : forall n, alone (start (crowd "hadjj2" 250) ["a"; "b"]) (1 + n) = alone (start (crowd "hadjj2" 250) ["a"; "b"]) 1) by (induction n as [|n IH]; [reflexivity|rewrite Nat.add_succ_r; cbn [alone]; rewrite IH; vm_compute; reflexivity]).
  intros [|n]; [|change (S n) with (1 + n)%nat; rewrite E]; (split; [vm_compute; lia|vm_compute; discriminate]).
Qed.
Print Assumptions C66_others_counted_refuted.

(* ---- C67: directories ---- *)

Lemma parent_plain : forall t seen acc, chars (fun c => c <> "/"%char) t -> parent_of t seen acc = acc.
Proof. induction t as [|c t IH]; intros seen acc H; [reflexivity|]. destruct H as [H H']. cbn [parent_of]. destruct (Ascii.eqb_spec c "/"); [congruence|]. now apply IH. Qed.
Lemma parent_app : forall a b seen acc, chars (fun c => c <> "/"%char) b -> parent_of (a ++ "/" ++ b) seen acc = (seen ++ a)%string.
Proof.
  induction a as [|c a IH]; intros b seen acc B; cbn [append parent_of].
  - rewrite Ascii.eqb_refl, parent_plain by exact B. now rewrite app_nil_r_s.
  - destruct (Ascii.eqb_spec c "/") as [->|_]; cbn [append] in IH; rewrite IH by exact B; rewrite app_assoc_s; reflexivity.
Qed.
Lemma parent_of_child : forall a b, chars (fun c => c <> "/"%char) b -> parent (a ++ "/" ++ b) = a.
Proof. intros a b B. unfold parent. now rewrite parent_app. Qed.
Lemma mem_In : forall s l, mem s l = true <-> In s l.
Proof. intros s l. unfold mem. rewrite existsb_exists. split; [intros [x [I E]]; apply String.eqb_eq in E; now subst|intros I; exists s; split; [exact I|apply String.eqb_refl]]. Qed.
Lemma safemake_ok : forall fs a b, chars (fun c => c <> "/"%char) b -> In a fs -> exists fs', safemake fs (a ++ "/" ++ b) = Ok fs' /\ forall d, In d fs' <-> In d fs \/ d = (a ++ "/" ++ b)%string.
Proof.
  intros fs a b B I. unfold safemake. destruct (mem (a ++ "/" ++ b) fs) eqn:M.
  - exists fs. split; [reflexivity|]. intros d. split; [auto|]. intros [J| -> ]; [exact J|now apply mem_In].
  - rewrite parent_of_child by exact B. rewrite (proj2 (mem_In a fs) I). eexists. split; [reflexivity|]. intros d. cbn [In]. split; intros [J|J]; auto.
Qed.
(** C67.  Under an output directory that exists the directories of the jobs and of their logs are made, nothing else is touched, and doing it again changes nothing. *)
Theorem C67_made : forall fs outdir, In outdir fs -> exists fs', job_directories fs outdir = Ok fs' /\ job_directories fs' outdir = Ok fs' /\
  forall d, In d fs' <-> In d fs \/ In d [outdir ++ "/TrackingQC"; outdir ++ "/TrackingQC/logs"; outdir ++ "/TrackingQC/jobs"]%string.
Proof.
  intros fs outdir I.
  assert (P : forall w, (outdir ++ "/TrackingQC/" ++ w = (outdir ++ "/TrackingQC") ++ "/" ++ w)%string) by (intros w; rewrite app_assoc_s; reflexivity).
  destruct (safemake_ok fs outdir "TrackingQC" ltac:(cbn; repeat split; discriminate) I) as [f1 [E1 H1]].
  destruct (safemake_ok f1 (outdir ++ "/TrackingQC") "logs" ltac:(cbn; repeat split; discriminate) ltac:(apply H1; auto)) as [f2 [E2 H2]].
  destruct (safemake_ok f2 (outdir ++ "/TrackingQC") "jobs" ltac:(cbn; repeat split; discriminate) ltac:(apply H2; left; apply H1; auto)) as [f3 [E3 H3]].
  exists f3. unfold job_directories. cbn [append] in *. pose proof (P "logs") as PL. pose proof (P "jobs") as PJ. cbn [append] in PL, PJ. rewrite PL, PJ.
  assert (W : forall d, In d f3 <-> In d fs \/ In d [outdir ++ "/TrackingQC"; (outdir ++ "/TrackingQC") ++ "/logs"; (outdir ++ "/TrackingQC") ++ "/jobs"]%string).
  { intros d. rewrite H3, H2, H1. cbn [In]. intuition auto. }
  split; [rewrite E1; cbn [bind]; rewrite E2; cbn [bind]; exact E3|]. split; [|exact W].
  assert (M : forall d, In d [outdir ++ "/TrackingQC"; (outdir ++ "/TrackingQC") ++ "/logs"; (outdir ++ "/TrackingQC") ++ "/jobs"]%string -> safemake f3 d = Ok f3) by (intros d J; unfold safemake; now rewrite (proj2 (mem_In d f3) (proj2 (W d) (or_intror J)))).
  rewrite (M (outdir ++ "/TrackingQC")%string) by (cbn; auto). cbn [bind]. rewrite (M ((outdir ++ "/TrackingQC") ++ "/logs")%string) by (cbn; auto). cbn [bind]. apply M. cbn. auto.
Qed.
Print Assumptions C67_made.
(** C67.  Without the output directory it raises before a job file is opened. *)
Theorem C67_missing : forall fs outdir, ~ In outdir fs -> ~ In (outdir ++ "/TrackingQC")%string fs -> job_directories fs outdir = Err OtherError.
Proof.
  intros fs outdir N N'. unfold job_directories, safemake. destruct (mem (outdir ++ "/TrackingQC") fs) eqn:M; [apply mem_In in M; contradiction|].
  change ("/TrackingQC") with ("/" ++ "TrackingQC")%string. rewrite parent_of_child by (cbn; repeat split; discriminate). destruct (mem outdir fs) eqn:M2; [apply mem_In in M2; contradiction|]. reflexivity.
Qed.
Print Assumptions C67_missing.
Example C67_case : job_directories ["/data"; "/data/out"] "/data/out" = Ok ["/data/out/TrackingQC/jobs"; "/data/out/TrackingQC/logs"; "/data/out/TrackingQC"; "/data"; "/data/out"] /\ job_directories ["/data"] "/data/out" = Err OtherError.
Proof. split; reflexivity. Qed.
