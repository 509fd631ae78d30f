(** C20, C21, C51: months of data are grouped into chunks, and the tracking wrapper submits them. *)
Require Import String ZArith List Bool Lia Sorting.Sorted.
Require Import Verif.M_Base Verif.M_Calendar Verif.S_Calendar Verif.M_Chunks Verif.S_Chunks Verif.L_Chunks Verif.L_Chunks2 Verif.L_Chunks3 Verif.L_Chunks4.
Import ListNotations.
Open Scope Z_scope.

(* ------------------------------------------------------------------ C20 *)

(** get_chunks returns exactly the chunks of the record, in order, with more than [gap] months from an
    end to the next start. *)
Theorem C20_get_chunks : forall gap c, 1 <= gap <= 10 -> flags_ok c ->
  exists starts ends, get_chunks gap c = (starts, ends) /\ length starts = length ends /\
    (forall s e, In (s, e) (combine starts ends) <-> is_chunk gap c s e) /\
    StronglySorted (fun p q => snd p + gap < fst q) (combine starts ends).
Proof. exact get_chunks_spec. Qed.
Print Assumptions C20_get_chunks.

Example C20_ex : 1 <= 2 <= 10 /\ flags_ok [0;1;0;1;0;0;1;1;0] /\ get_chunks 2 [0;1;0;1;0;0;1;1;0] = ([1;6], [3;7]).
Proof. repeat split; try lia. intros v H. cbn in H. lia. Qed.

(** Every month with data is in exactly one chunk. *)
Theorem C20_cover : forall gap c i, 1 <= gap -> flags_ok c -> data c i ->
  exists s e, is_chunk gap c s e /\ s <= i <= e /\
    forall s' e', is_chunk gap c s' e' -> s' <= i <= e' -> s' = s /\ e' = e.
Proof. exact chunks_cover. Qed.
Print Assumptions C20_cover.

Example C20_cover_ex : data [0;1;0;1] 3.
Proof. split; [lia|reflexivity]. Qed.

(** The dates and classes of a counter after any history of setym calls (flags 0 and 1). *)
Theorem C20_counter : forall y1 m1 y2 m2 fuel ops gap,
  1 <= m1 <= 12 -> 1 <= m2 <= 12 -> month_number (y1, m1) <= month_number (y2, m2) ->
  (Z.to_nat (12 * (y2 - y1) + m2 - m1) <= fuel)%nat ->
  (forall op, In op ops -> snd op = 0 \/ snd op = 1) -> 1 <= gap <= 10 ->
  exists g items, ymc_init fuel y1 m1 y2 m2 = Ok (Some g) /\
    yield_start_and_end_dates
      (fold_left (fun g op => setym g (fst (fst op)) (snd (fst op)) (snd op)) ops g) gap = Ok items /\
    (forall it, In it items -> ym_ok (item_start it) /\ ym_ok (item_end it) /\ class_ok gap (y1, m1) (y2, m2) it) /\
    (forall s e, (exists it, In it items /\ first_of it = s /\ last_of it = e) <->
                 chunk_of gap (flagged (y1, m1) (y2, m2) ops) s e) /\
    StronglySorted (fun a b => last_of a + gap < first_of b) items.
Proof. exact yield_spec. Qed.
Print Assumptions C20_counter.

Example C20_counter_ex : exists g, ymc_init 30 2000 1 2001 12 = Ok (Some g) /\
  yield_start_and_end_dates (setym (setym (setym g 2000 2 1) 2000 9 1) 2000 11 1) 3 =
  Ok [(2000, 2, 2000, 2, ["start_edge_case"%string]); (2000, 9, 2000, 11, ["regular"%string])].
Proof. eexists. split; vm_compute; reflexivity. Qed.

(** Finding: the scan starts from 10 "empty" months, so with a gap above 10 a record of one month gives no
    chunk, and a chunk can end before it starts. *)
Theorem C20_large_gap_refuted :
  (forall gap, 10 < gap -> get_chunks gap [1] = ([], []) /\ data [1] 0 /\ is_chunk gap [1] 0 0) /\
  get_chunks 11 ([1] ++ repeat 0 11 ++ [1]) = ([12], [0]).
Proof. split; [exact get_chunks_gap_large|reflexivity]. Qed.
Print Assumptions C20_large_gap_refuted.

(* ------------------------------------------------------------------ C51 *)

(** Jobs submitted for an interval of months: exactly the wanted chunks of each identifier. *)
Theorem C51_jobs : forall fuel ids mode gap first last id s e,
  run_ok fuel gap first last -> In mode ["standard"; "all"; "new"]%string ->
  (submitted fuel ids mode gap first last id s e <->
   chunk_of gap (present first last ids id) s e /\ wanted mode gap (month_number first) (month_number last) s e).
Proof. exact submitted_wanted. Qed.
Print Assumptions C51_jobs.

Example C51_run_ok : run_ok 100 3 (1999, 5) (2004, 2).
Proof. unfold run_ok, ym_ok, month_number; cbn [fst snd]; lia. Qed.

(** No job is submitted twice, a run with a documented mode does not fail, and the jobs carry their dates and classes. *)
Theorem C51_jobs_once : forall y1 m1 y2 m2 fuel ids mode gap,
  1 <= m1 <= 12 -> 1 <= m2 <= 12 -> month_number (y1, m1) <= month_number (y2, m2) ->
  (Z.to_nat (12 * (y2 - y1) + m2 - m1) <= fuel)%nat ->
  In mode ["standard"; "all"; "new"; "noend"]%string -> 1 <= gap <= 10 ->
  exists jobs, wrapper fuel ids mode gap y1 m1 y2 m2 = Ok (Some jobs) /\
    (forall job, In job jobs -> ym_ok (item_start (snd job)) /\ ym_ok (item_end (snd job)) /\ class_ok gap (y1, m1) (y2, m2) (snd job)) /\
    NoDup (map (fun job => (fst job, first_of (snd job), last_of (snd job))) jobs).
Proof.
  exact (fun y1 m1 y2 m2 fuel ids mode gap a b c d e f =>
    let (jobs, H) := wrapper_spec y1 m1 y2 m2 fuel ids mode gap a b c d e f in
    ex_intro _ jobs (conj (proj1 H) (conj (proj1 (proj2 H)) (proj2 (proj2 (proj2 H)))))).
Qed.
Print Assumptions C51_jobs_once.

Definition ex_ids (ym : Z * Z) : list string :=
  if month_number ym =? month_number (2000, 6) then ["A"; "B"]%string
  else if month_number ym =? month_number (2000, 7) then ["A"]%string
  else if month_number ym =? month_number (2001, 12) then ["B"; "B"]%string else [].
Example C51_ex : wrapper 40 ex_ids "standard" 3 2000 1 2002 6 =
  Ok (Some [("A"%string, (2000, 6, 2000, 7, ["regular"%string])); ("B"%string, (2000, 6, 2000, 6, ["regular"%string]));
            ("B"%string, (2001, 12, 2001, 12, ["regular"%string]))]).
Proof. vm_compute. reflexivity. Qed.

(** In 'all' mode each month of each identifier is in exactly one job of that identifier. *)
Theorem C51_all_covers : forall fuel ids gap first last id k, run_ok fuel gap first last -> present first last ids id k ->
  exists s e, submitted fuel ids "all" gap first last id s e /\ s <= k <= e /\
    forall s' e', submitted fuel ids "all" gap first last id s' e' -> s' <= k <= e' -> s' = s /\ e' = e.
Proof. exact all_covers. Qed.
Print Assumptions C51_all_covers.

Example C51_present : present (2000, 1) (2002, 6) ex_ids "B" (month_number (2001, 12)).
Proof.
  split; [unfold month_number; cbn [fst snd]; lia|]. exists (2001, 12). split; [unfold ym_ok; cbn [snd]; lia|].
  split; [reflexivity|]. vm_compute. auto.
Qed.

(** Exactly what 'noend' submits; the documented chunks are all there ... *)
Theorem C51_noend_exact : forall fuel ids gap first last id s e, run_ok fuel gap first last ->
  (submitted fuel ids "noend" gap first last id s e <->
   chunk_of gap (present first last ids id) s e /\ (s - month_number first < gap \/ gap <= month_number last - e)).
Proof. exact noend_exact. Qed.
Print Assumptions C51_noend_exact.

(** ... but, against the documentation, also a chunk that touches both ends of the series. *)
Theorem C51_noend_refuted : exists fuel ids gap first last id s e, run_ok fuel gap first last /\
  submitted fuel ids "noend" gap first last id s e /\ ~ gap <= month_number last - e.
Proof. exact noend_refuted. Qed.
Print Assumptions C51_noend_refuted.

(* ------------------------------------------------------------------ C21 *)

(** What a 'standard' run submits does not change when months are added before or after. *)
Theorem C21_standard_stable : forall fuel ids gap f l f' l' id s e, run_ok fuel gap f l -> run_ok fuel gap f' l' ->
  month_number f' <= month_number f -> month_number l <= month_number l' ->
  submitted fuel ids "standard" gap f l id s e -> submitted fuel ids "standard" gap f' l' id s e.
Proof. exact standard_stable. Qed.
Print Assumptions C21_standard_stable.

Example C21_ex : submitted 100 ex_ids "standard" 3 (2000, 1) (2002, 6) "B" (month_number (2000, 6)) (month_number (2000, 6)).
Proof. unfold submitted. eexists _, _. split; [vm_compute; reflexivity|]. split; [right; left; reflexivity|]. split; reflexivity. Qed.

(** Running month by month, a chunk is submitted in 'new' mode at most once ... *)
Theorem C21_new_once : forall fuel ids gap f l l' id s e, run_ok fuel gap f l -> run_ok fuel gap f l' ->
  submitted fuel ids "new" gap f l id s e -> submitted fuel ids "new" gap f l' id s e -> l = l'.
Proof. exact new_once. Qed.
Print Assumptions C21_new_once.

(** ... and every chunk that is complete in some run was submitted by the run ending gap months after it. *)
Theorem C21_new_complete : forall fuel ids gap f l id s e, run_ok fuel gap f l ->
  submitted fuel ids "all" gap f l id s e -> gap <= month_number l - e ->
  exists l0, run_ok fuel gap f l0 /\ month_number l0 = e + gap /\ submitted fuel ids "new" gap f l0 id s e.
Proof. exact new_complete. Qed.
Print Assumptions C21_new_complete.

Example C21_new_ex : submitted 100 ex_ids "new" 3 (2000, 1) (2000, 10) "A" (month_number (2000, 6)) (month_number (2000, 7)) /\
  submitted 100 ex_ids "all" 3 (2000, 1) (2002, 6) "A" (month_number (2000, 6)) (month_number (2000, 7)).
Proof. split; unfold submitted; eexists _, _; (split; [vm_compute; reflexivity|]); (split; [left; reflexivity|]); split; reflexivity. Qed.

(** A classification made over an interval: 'regular' chunks have no data within gap months on either side,
    whatever months are appended or prepended; stated on flag lists. *)
Theorem C21_append : forall gap c c' s e, 1 <= gap -> e + gap < Z.of_nat (length c) ->
  (is_chunk gap (c ++ c') s e <-> is_chunk gap c s e).
Proof. exact chunk_append. Qed.
Print Assumptions C21_append.
Theorem C21_prepend : forall gap c c' s e, 1 <= gap -> gap <= s ->
  let k := Z.of_nat (length c') in (is_chunk gap (c' ++ c) (s + k) (e + k) <-> is_chunk gap c s e).
Proof. exact chunk_prepend. Qed.
Print Assumptions C21_prepend.
