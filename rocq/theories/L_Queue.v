(** Lemmas about the batch queue. *)
Require Import String Ascii ZArith List Bool Lia.
Require Import Verif.M_Base Verif.L_Base Verif.M_Report Verif.M_Imma Verif.L_Imma Verif.M_Files Verif.L_Files Verif.M_Queue Verif.S_Queue.
Import ListNotations.
Open Scope string_scope.
Open Scope list_scope.

(* ---- counting ---- *)

Fixpoint sdrop (k : nat) (s : string) : string := match k, s with O, _ => s | S k, String _ t => sdrop k t | S _, "" => "" end.
Lemma count_skip : forall p k s, count_from p k s = count_from p 0 (sdrop k s).
Proof. induction k as [|k IH]; intros s; [now destruct s|]. destruct s as [|c t]; [reflexivity|]. cbn [count_from sdrop]. apply IH. Qed.
Lemma py_count_cons : forall p c t, p <> "" -> py_count (String c t) p = if prefix p (String c t) then S (py_count (sdrop (String.length p) (String c t)) p) else py_count t p.
Proof.
  intros p c t N. unfold py_count. cbn [count_from]. destruct (prefix p (String c t)); [|reflexivity]. f_equal. rewrite count_skip. f_equal.
  destruct p as [|a p]; [congruence|]. cbn [String.length sdrop]. f_equal. lia.
Qed.
Lemma sdrop_length : forall k s, (String.length (sdrop k s) <= String.length s)%nat.
Proof. induction k as [|k IH]; intros [|c t]; cbn [sdrop String.length]; try lia. specialize (IH t). lia. Qed.
Lemma sdrop_add : forall a b s, sdrop (a + b) s = sdrop b (sdrop a s).
Proof. induction a as [|a IH]; intros b [|c t]; cbn [sdrop Nat.add]; try reflexivity; [now destruct b|apply IH]. Qed.

(** A later start finds no more, and at most one less within the length of the word. *)
Lemma count_suffix : forall p, p <> "" -> forall n s, (String.length s <= n)%nat ->
  (forall k, (py_count (sdrop k s) p <= py_count s p)%nat) /\ (forall k, (k <= String.length p)%nat -> (py_count s p <= S (py_count (sdrop k s) p))%nat).
Proof.
  intros p N. induction n as [|n IH]; intros s L.
  - destruct s as [|c t]; [|cbn in L; lia]. split; intros [|k]; cbn [sdrop]; intros; lia.
  - assert (B : forall k, (k <= String.length p)%nat -> (py_count s p <= S (py_count (sdrop k s) p))%nat).
    { intros [|k] K; [cbn [sdrop]; lia|]. destruct s as [|c t]; [cbn [sdrop]; lia|]. cbn [String.length] in L. destruct (IH t ltac:(lia)) as [A B].
      rewrite py_count_cons by exact N. destruct (prefix p (String c t)).
      - apply le_n_S. cbn [sdrop]. destruct p as [|a p]; [congruence|]. cbn [String.length sdrop] in *. replace (String.length p) with (k + (String.length p - k))%nat by lia. rewrite sdrop_add.
        apply (IH (sdrop k t)). pose proof (sdrop_length k t). lia.
      - cbn [sdrop]. apply B. lia. }
    split; [|exact B]. intros [|k]; [cbn [sdrop]; lia|]. destruct s as [|c t]; [cbn [sdrop]; lia|]. cbn [sdrop String.length] in *. destruct (IH t ltac:(lia)) as [A _]. etransitivity; [apply A|].
    rewrite py_count_cons by exact N. destruct (prefix p (String c t)); [|lia]. destruct p as [|a p]; [congruence|]. cbn [String.length sdrop]. apply (IH t ltac:(lia)). cbn [String.length]. lia.
Qed.
Lemma prefix_app_l : forall p a b, prefix p a = true -> prefix p (a ++ b) = true.
Proof. induction p as [|c p IH]; intros a b H; [now destruct (a ++ b)%string|]. destruct a as [|d a]; [discriminate|]. cbn [prefix append] in *. destruct (ascii_dec c d); [now apply IH|discriminate]. Qed.
Lemma sdrop_app : forall k a b, (k <= String.length a)%nat -> sdrop k (a ++ b) = (sdrop k a ++ b)%string.
Proof. induction k as [|k IH]; intros a b L; [reflexivity|]. destruct a as [|c a]; [cbn in L; lia|]. cbn [sdrop append String.length] in *. apply IH. lia. Qed.
Lemma prefix_len : forall p s, prefix p s = true -> (String.length p <= String.length s)%nat.
Proof. induction p as [|c p IH]; intros [|d s] H; cbn [String.length]; try lia; [discriminate|]. cbn [prefix] in H. destruct (ascii_dec c d); [|discriminate]. specialize (IH s H). lia. Qed.
Lemma count_app : forall p, p <> "" -> forall n a b, (String.length a <= n)%nat -> (py_count a p + py_count b p <= py_count (a ++ b) p)%nat.
Proof.
  intros p N. induction n as [|n IH]; intros a b L; (destruct a as [|c t]; [exact (le_n _)|]); cbn [String.length] in L; [lia|].
  cbn [append]. rewrite py_count_cons by exact N. destruct (prefix p (String c t)) eqn:P.
  - rewrite py_count_cons by exact N. pose proof (prefix_app_l p (String c t) b P) as P'. cbn [append] in P'. rewrite P'.
    pose proof (prefix_len _ _ P) as PL. pose proof (sdrop_app _ _ b PL) as D. cbn [append] in D. rewrite D. cbn [Nat.add]. apply le_n_S. apply IH.
    destruct p as [|x p]; [congruence|]. cbn [sdrop String.length]. pose proof (sdrop_length (String.length p) t). lia.
  - pose proof (IH t b ltac:(lia)) as K. etransitivity; [exact K|]. exact (proj1 (count_suffix p N _ (String c (t ++ b)) (le_n _)) 1%nat).
Qed.
Lemma prefix_self : forall p s, prefix p (p ++ s) = true.
Proof. induction p as [|c p IH]; intros s; [now destruct s|]. cbn [prefix append]. destruct (ascii_dec c c); [apply IH|congruence]. Qed.
Lemma count_mentions : forall s p, p <> "" -> mentions s p -> (1 <= py_count s p)%nat.
Proof.
  intros s p N [a [b ->]]. pose proof (count_app p N _ a (p ++ b) (le_n _)) as K. assert (1 <= py_count (p ++ b) p)%nat; [|lia].
  destruct (p ++ b)%string as [|c t] eqn:E; [destruct p; [congruence|discriminate]|]. rewrite py_count_cons by exact N. rewrite <- E, prefix_self. lia.
Qed.
(** A listing that shows every job of the user counts at least their number. *)
Lemma shows_count : forall listing user name, name <> "" -> shows listing user name -> forall q, (length (jobs_of user q) <= py_count (listing q) name)%nat.
Proof.
  intros listing user name N [heading [line [L M]]] q. rewrite L. etransitivity; [|apply (count_app name N _ heading _ (le_n _))].
  enough (length (jobs_of user q) <= py_count (String.concat "" (map line q)) name)%nat by lia. clear L.
  assert (C : forall l, String.concat "" (map line l) = fold_right append "" (map line l)).
  { induction l as [|x l IH]; [reflexivity|]. destruct l as [|y l]; [cbn; now rewrite app_nil_r_s|]. change (String.concat "" (map line (x :: y :: l))) with (line x ++ "" ++ String.concat "" (map line (y :: l)))%string. rewrite IH. reflexivity. }
  rewrite C. clear C. induction q as [|x q IH]; [cbn; lia|]. cbn [map fold_right]. etransitivity; [|apply (count_app name N _ (line x) _ (le_n _))].
  unfold jobs_of in *. cbn [filter]. destruct (String.eqb (q_user x) user) eqn:E; cbn [length]; [|lia]. apply String.eqb_eq in E. pose proof (count_mentions _ _ N (M x E)). lia.
Qed.

(* ---- runs ---- *)

Lemma jobs_of_app : forall u a b, jobs_of u (a ++ b) = jobs_of u a ++ jobs_of u b.
Proof. intros. unfold jobs_of. apply filter_app. Qed.
(** While the wrapper does not wait the last count was low; one more job may have come since. *)
Definition within (u : string) (n0 : nat) (s : state) : Prop :=
  (length (jobs_of u (s_queue s)) <= Nat.max n0 250 + (if s_waiting s then 1 else 0))%nat.
Lemma within_step : forall listing u n0, shows listing u "hadjj" -> forall s t, within u n0 s -> step listing u s t -> within u n0 t.
Proof.
  intros listing u n0 SH s t W H. unfold within in *. destruct H as [s accepted|s a x b E|s a x b E NE].
  - unfold wrapper_step. destruct (s_waiting s) eqn:WT.
    + unfold poll. cbn [s_queue s_waiting]. destruct (Z.ltb_spec 250 (checkload (listing (s_queue s)) "hadjj")) as [C|C]; [exact W|]. unfold checkload in C. pose proof (shows_count listing u "hadjj" ltac:(discriminate) SH (s_queue s)). lia.
    + unfold submit. destruct (s_left s) as [|j rest]; [rewrite WT; exact W|]. cbn [s_queue s_waiting]. destruct accepted; [|lia]. rewrite jobs_of_app, app_length. cbn. rewrite String.eqb_refl. cbn. lia.
  - cbn [s_queue s_waiting]. rewrite E, jobs_of_app, app_length in W. rewrite jobs_of_app, app_length. unfold jobs_of in *. cbn [filter] in W. destruct (String.eqb (q_user x) u); cbn [length] in W; lia.
  - cbn [s_queue s_waiting]. rewrite E, jobs_of_app, app_length in W. rewrite jobs_of_app, app_length. unfold jobs_of in *. cbn [filter]. apply String.eqb_neq in NE. rewrite NE. exact W.
Qed.
Lemma reach_within : forall listing u q jobs s, shows listing u "hadjj" -> reach listing u (start q jobs) s -> within u (length (jobs_of u q)) s.
Proof.
  intros listing u q jobs s SH R. remember (start q jobs) as s0 eqn:E. induction R as [s|s t v R IH H].
  - subst s. unfold within, start. cbn [s_queue s_waiting]. lia.
  - eapply within_step; [exact SH|apply IH, E|exact H].
Qed.
Lemma step_order : forall listing u s t, step listing u s t -> (s_sent t ++ s_left t = s_sent s ++ s_left s) /\ exists l, s_sent t = s_sent s ++ l.
Proof.
  intros listing u s t H. destruct H as [s accepted|s a x b E|s a x b E NE]; cbn [s_sent s_left]; try (split; [reflexivity|exists []; now rewrite app_nil_r]).
  unfold wrapper_step, poll, submit. destruct (s_waiting s); [split; [reflexivity|exists []; now rewrite app_nil_r]|]. destruct (s_left s) as [|j rest] eqn:L; cbn [s_sent s_left]; [rewrite L; split; [reflexivity|exists []; now rewrite app_nil_r]|].
  split; [now rewrite <- app_assoc|eauto].
Qed.
Lemma reach_order : forall listing u q jobs s, reach listing u (start q jobs) s -> s_sent s ++ s_left s = jobs.
Proof.
  intros listing u q jobs s R. remember (start q jobs) as s0 eqn:E. induction R as [s|s t v R IH H]; [now subst s|]. rewrite (proj1 (step_order _ _ _ _ H)). auto.
Qed.
(** Every job of the user in the queue was there before or has been handed over. *)
Lemma reach_known : forall listing u q jobs s, reach listing u (start q jobs) s -> forall x, In x (jobs_of u (s_queue s)) -> In x q \/ In (q_file x) (s_sent s).
Proof.
  intros listing u q jobs s R. remember (start q jobs) as s0 eqn:E. induction R as [s|s t v R IH H]; intros x I.
  - subst s. left. apply filter_In in I. apply I.
  - destruct (step_order _ _ _ _ H) as [_ [l SE]]. specialize (IH E x). destruct H as [s0' accepted|s0' a y b Q|s0' a y b Q NE]; cbn [s_queue s_sent] in *.
    + unfold wrapper_step in *. destruct (s_waiting s0'); [cbn [poll s_queue s_sent] in *; auto|]. unfold submit in *. destruct (s_left s0') as [|j rest]; [auto|]. cbn [s_queue s_sent] in *. destruct accepted.
      * rewrite jobs_of_app, in_app_iff in I. destruct I as [I|I]; [destruct (IH I); [now left|right; apply in_or_app; now left]|]. cbn in I. rewrite String.eqb_refl in I. destruct I as [<-|[]]. right. apply in_or_app. right. now left.
      * destruct (IH I); [now left|right; apply in_or_app; now left].
    + apply IH. rewrite Q. unfold jobs_of in *. rewrite filter_In, in_app_iff in *. cbn [In]. tauto.
    + apply IH. rewrite Q. unfold jobs_of in *. rewrite filter_In, in_app_iff in *. cbn [In] in I. destruct I as [[I|[<-|I]] U]; try tauto. apply String.eqb_eq in U. congruence.
Qed.
(** A waiting wrapper goes on waiting while the name is listed more than 250 times. *)
Lemma waits : forall listing u h, history listing u h -> forall n k, s_waiting (h n) = true -> (forall m, (n <= m < n + k)%nat -> (250 < py_count (listing (s_queue (h m))) "hadjj")%nat) ->
  s_waiting (h (n + k)%nat) = true /\ s_sent (h (n + k)%nat) = s_sent (h n).
Proof.
  intros listing u h HI n k W. induction k as [|k IH]; intros C; [rewrite Nat.add_0_r; auto|]. destruct (IH ltac:(intros; apply C; lia)) as [W' S']. rewrite Nat.add_succ_r. specialize (HI (n + k)%nat). specialize (C (n + k)%nat ltac:(lia)).
  revert W' S' HI C. generalize (h (n + k)%nat) (h (S (n + k))). intros s t W' S' H C. destruct H as [s accepted|s a x b E|s a x b E NE]; cbn [s_waiting s_sent]; auto. unfold wrapper_step. rewrite W'. cbn [poll s_waiting s_sent]. split; [|exact S']. apply Z.ltb_lt. unfold checkload. lia.
Qed.
(** Between its own steps the wrapper stays as it is. *)
Lemma idle : forall listing u s t, step listing u s t -> (exists acc, t = wrapper_step listing u acc s) \/ (s_left t = s_left s /\ s_sent t = s_sent s /\ s_waiting t = s_waiting s).
Proof. intros listing u s t H. destruct H; [left; eauto|right; auto|right; auto]. Qed.
(** If the wrapper acts again and again while the count is low, everything is handed over. *)
Lemma all_sent : forall listing u h, history listing u h -> (forall n, exists m, (n <= m)%nat /\ acts listing u h m /\ (py_count (listing (s_queue (h m))) "hadjj" <= 250)%nat) ->
  forall n, exists m, (n <= m)%nat /\ s_left (h m) = [].
Proof.
  intros listing u h HI FAIR.
  assert (Q : forall n m, (n <= m)%nat -> (length (s_left (h m)) <= length (s_left (h n)))%nat).
  { intros n m L. induction L as [|m L IH]; [lia|]. specialize (HI m). revert HI IH. generalize (h m) (h (S m)). intros s t H IH. destruct (step_order _ _ _ _ H) as [E [l E2]]. rewrite E2, <- app_assoc in E. apply app_inv_head in E. apply (f_equal (@length string)) in E. rewrite app_length in E. lia. }
  (* one more job within finitely many steps *)
  assert (P : forall n, s_left (h n) <> [] -> exists m, (n <= m)%nat /\ (length (s_left (h m)) < length (s_left (h n)))%nat).
  { (* while the wrapper has not acted the state of waiting is kept *)
    assert (STAY : forall k n, exists m, (n <= m <= n + k)%nat /\ s_left (h m) = s_left (h n) /\ s_waiting (h m) = s_waiting (h n) /\ (m = (n + k)%nat \/ acts listing u h m)).
    { induction k as [|k IH]; intros n; [exists n; repeat split; try lia; left; lia|]. destruct (IH n) as [m [M [E1 [E2 [E3|E3]]]]]; [|exists m; repeat split; try lia; auto]. subst m.
      destruct (idle _ _ _ _ (HI (n + k)%nat)) as [A|[A1 [A2 A3]]]; [exists (n + k)%nat; repeat split; try lia; auto|]. exists (S (n + k)). repeat split; try congruence; try lia; left; lia. }
    assert (READY : forall n, s_left (h n) <> [] -> s_waiting (h n) = false -> exists m, (n <= m)%nat /\ (length (s_left (h m)) < length (s_left (h n)))%nat).
    { intros n NE W. destruct (FAIR n) as [m [L [A _]]]. destruct (STAY (m - n)%nat n) as [m' [M [E1 [E2 E3]]]]. assert (AC : acts listing u h m') by (destruct E3 as [E3|E3]; [replace m' with m by lia; exact A|exact E3]). destruct AC as [acc AC].
      exists (S m'). split; [lia|]. rewrite AC. unfold wrapper_step. rewrite E2, W. unfold submit. rewrite E1. destruct (s_left (h n)) as [|j rest]; [congruence|]. cbn. lia. }
    intros n NE. destruct (s_waiting (h n)) eqn:W; [|now apply READY].
    destruct (FAIR n) as [m [L [A C]]].
    (* either the wait ended before m, or it ends there *)
    destruct (s_left (h m)) as [|j rest] eqn:LM; [exists m; split; [lia|]; rewrite LM; destruct (s_left (h n)); [congruence|cbn; lia]|].
    destruct (s_waiting (h m)) eqn:WM.
    - destruct A as [acc A]. assert (WN : s_waiting (h (S m)) = false) by (rewrite A; unfold wrapper_step; rewrite WM; cbn [poll s_waiting]; apply Z.ltb_ge; unfold checkload; lia).
      assert (LN : s_left (h (S m)) = s_left (h m)) by (rewrite A; unfold wrapper_step; rewrite WM; reflexivity).
      destruct (READY (S m) ltac:(rewrite LN, LM; discriminate) WN) as [k [K1 K2]]. exists k. split; [lia|]. rewrite LN in K2. pose proof (Q n m L). lia.
    - destruct (READY m ltac:(rewrite LM; discriminate) WM) as [k [K1 K2]]. exists k. split; [lia|]. pose proof (Q n m L). lia. }
  intros n. remember (length (s_left (h n))) as len eqn:E. revert n E. induction len as [len IH] using lt_wf_ind. intros n E. destruct (s_left (h n)) as [|j rest] eqn:L; [exists n; auto|].
  destruct (P n ltac:(rewrite L; discriminate)) as [m [M1 M2]]. rewrite L in M2. cbn [length] in *. destruct (IH (length (s_left (h m))) ltac:(lia) m eq_refl) as [k [K1 K2]]. exists k. split; [lia|exact K2].
Qed.
