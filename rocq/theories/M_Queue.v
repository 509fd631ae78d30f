(** Model of how the tracking wrapper hands its jobs to the batch queue (Tracking_QC_wrapper.py:27-49, 85-114).  No proofs here.
    The queue is shared with other users and changes on its own; what the wrapper sees of it is the text printed by squeue, given by
    [listing].  Simplifications: a job handed to sbatch is queued or refused at once; the 20 seconds of sleep are a step without effect. *)
Require Import String Ascii ZArith List Bool.
Require Import Verif.M_Base Verif.M_Report.
Import ListNotations.
Open Scope string_scope.
Open Scope list_scope.
Open Scope Z_scope.

(** str.count of a text that is not empty: occurrences from the left that do not overlap. *)
Fixpoint count_from (p : string) (skip : nat) (s : string) : nat :=
  match s with
  | "" => 0%nat
  | String _ t =>
      match skip with
      | S k => count_from p k t
      | O => if prefix p s then S (count_from p (String.length p - 1) t) else count_from p 0 t
      end
  end.
Definition py_count (s p : string) : nat := count_from p 0 s.

(** Tracking_QC_wrapper.py:27-37 checkload. *)
Definition checkload (stream uname : string) : Z := Z.of_nat (py_count stream uname).

(** A job in the queue: who owns it and its file. *)
Record queued := { q_user : string; q_file : string }.
(** The queue, the jobs the wrapper has still to submit, those it has handed to sbatch, and whether it is in the loop of lines 110-113. *)
Record state := { s_queue : list queued; s_left : list string; s_sent : list string; s_waiting : bool }.

Section Queue.
(** The text of squeue -l. *)
Variable listing : list queued -> string.
(** The user who runs the wrapper. *)
Variable user : string.

(** Tracking_QC_wrapper.py:109-113: count = checkload('hadjj'), again while it is above 250. *)
Definition poll (s : state) : state :=
  {| s_queue := s_queue s; s_left := s_left s; s_sent := s_sent s; s_waiting := 250 <? checkload (listing (s_queue s)) "hadjj" |}.
(** Tracking_QC_wrapper.py:107 os.system("sbatch ..."), whose result is not looked at. *)
Definition submit (accepted : bool) (s : state) : state :=
  match s_left s with
  | [] => s
  | j :: rest =>
      {| s_queue := if accepted then s_queue s ++ [{| q_user := user; q_file := j |}] else s_queue s; s_left := rest; s_sent := s_sent s ++ [j]; s_waiting := true |}
  end.
(** What the wrapper does next. *)
Definition wrapper_step (accepted : bool) (s : state) : state := if s_waiting s then poll s else submit accepted s.

(** One step of the world: the wrapper, a job that ends, a job of somebody else that comes. *)
Inductive step : state -> state -> Prop :=
| step_wrapper : forall s accepted, step s (wrapper_step accepted s)
| step_end : forall s a x b, s_queue s = a ++ x :: b -> step s {| s_queue := a ++ b; s_left := s_left s; s_sent := s_sent s; s_waiting := s_waiting s |}
| step_other : forall s a x b, s_queue s = a ++ b -> q_user x <> user -> step s {| s_queue := a ++ x :: b; s_left := s_left s; s_sent := s_sent s; s_waiting := s_waiting s |}.
Inductive reach : state -> state -> Prop :=
| reach_here : forall s, reach s s
| reach_step : forall s t u, reach s t -> step t u -> reach s u.
End Queue.

(** The loops of main over the jobs (Tracking_QC_wrapper.py:219-249), with a queue as it is found. *)
Definition start (queue : list queued) (jobs : list string) : state := {| s_queue := queue; s_left := jobs; s_sent := []; s_waiting := false |}.

(* ---- directories ---- *)

(** The text before the last slash. *)
Fixpoint parent_of (s seen acc : string) : string :=
  match s with
  | "" => acc
  | String c t => if Ascii.eqb c "/" then parent_of t (seen ++ "/")%string seen else parent_of t (seen ++ String c "")%string acc
  end.
Definition parent (s : string) : string := parent_of s "" "".
(** Tracking_QC_wrapper.py:40-49 safemake on the directories there are, told apart by their names; os.mkdir raises OSError (OtherError here)
    if the directory above is missing. *)
Definition safemake (fs : list string) (folder : string) : res (list string) :=
  if mem folder fs then Ok fs else if mem (parent folder) fs then Ok (folder :: fs) else Err OtherError.
(** Tracking_QC_wrapper.py:85-90. *)
Definition job_directories (fs : list string) (outdir : string) : res (list string) :=
  let jobdir := (outdir ++ "/TrackingQC/jobs")%string in
  let logdir := (outdir ++ "/TrackingQC/logs")%string in
  let! fs := safemake fs (outdir ++ "/TrackingQC")%string in
  let! fs := safemake fs logdir in
  safemake fs jobdir.
