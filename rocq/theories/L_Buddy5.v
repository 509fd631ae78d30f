(** Lemmas: reports out of reach do not matter to the buddy check. *)
Require Import String ZArith QArith Qround List Bool Lia Permutation.
Require Import Verif.M_Base Verif.M_Grid Verif.M_Report Verif.S_Grid Verif.S_Stats Verif.S_Buddy Verif.S_Print Verif.L_Buddy Verif.L_Buddy4.
Import ListNotations.
Open Scope Z_scope.

Lemma collected_near : forall (near inside : report -> Prop) val l n, picked near l n -> (forall r, inside r -> near r) -> forall out, collected inside val l out <-> collected inside val n out.
Proof.
  intros near inside val l n P I. induction P as [|r l n A P IH|r l n A P IH]; intro out; [reflexivity| |].
  - split; intro C; inversion C; subst; [apply coll_in|apply coll_none|apply coll_out|apply coll_in|apply coll_none|apply coll_out]; auto; now apply IH.
  - split; intro C; [inversion C; subst; try (now apply IH); exfalso; auto|]. apply coll_out; [auto|now apply IH].
Qed.
Section Near.
Variables (f : qc_filter) (t : string) (c : place).
Definition in_box (rx ry rp : Z) (o : place) : Prop :=
  Z.abs (fst (fst o)) <= rx /\ Z.abs (snd (fst o)) <= ry /\ Z.abs (snd o) <= rp /\ ~ (fst (fst o) = 0 /\ snd (fst o) = 0 /\ snd o = 0).
Definition agree (rx ry rp : Z) (l n : list report) : Prop := forall o, in_box rx ry rp o -> forall out, cell_anoms f t l (shift c o) out <-> cell_anoms f t n (shift c o) out.
Lemma agree_sym : forall rx ry rp l n, agree rx ry rp l n -> agree rx ry rp n l.
Proof. intros rx ry rp l n A o B out. symmetry. now apply A. Qed.
Lemma agree_neighbours : forall rx ry rp l n offs, agree rx ry rp l n -> neighbours (occupied f t l) rx ry rp c offs -> neighbours (occupied f t n) rx ry rp c offs.
Proof.
  intros rx ry rp l n offs A [N M]. split; [exact N|]. intros dx dy dp. rewrite M. clear M. split; intros [B1 [B2 [B3 [B4 [out [O1 O2]]]]]]; (repeat (split; [assumption|])); exists out; (split; [|exact O2]); apply (A (dx, dy, dp)); auto; repeat split; auto.
Qed.
Lemma agree_buddies : forall rx ry rp l n bm counts, agree rx ry rp l n -> buddies f t l rx ry rp c bm counts -> buddies f t n rx ry rp c bm counts.
Proof.
  intros rx ry rp l n bm counts A [offs [outs [N [F [NE [B C]]]]]]. exists offs, outs. split; [now apply (agree_neighbours _ _ _ l)|]. split; [|auto].
  assert (I : forall o, In o offs -> in_box rx ry rp o). { intros [[dx dy] dp] O. apply (proj2 N) in O. unfold in_box. cbn [fst snd]. tauto. }
  clear - F A I. induction F as [|o out offs outs H F IH]; constructor; [|apply IH; intros; apply I; now right]. apply A; [apply I; now left|exact H].
Qed.
Lemma agree_none : forall rx ry rp l n, agree rx ry rp l n -> no_buddies f t l rx ry rp c -> no_buddies f t n rx ry rp c.
Proof. intros rx ry rp l n A N. exact (agree_neighbours _ _ _ l n [] A N). Qed.
Lemma agree_limits : forall reach sd steps l n bm bsd, (forall s, In s steps -> agree (reach (fst (fst (fst s))) (snd (fst c))) (snd (fst (fst s))) (snd (fst s)) l n) ->
  buddy_limits reach f t l sd steps c bm bsd -> buddy_limits reach f t n sd steps c bm bsd.
Proof.
  intros reach sd steps l n bm bsd A [[i [s [counts [mult [sdv [N [B [C D]]]]]]]]|[N B]].
  - left. exists i, s, counts, mult, sdv. split; [exact N|]. split; [intros j s' L J; eapply agree_none; [apply A; eapply nth_error_In; exact J|eauto]|]. split; [|exact D]. eapply agree_buddies; [|exact C]. apply A. eapply nth_error_In; exact N.
  - right. split; [|exact B]. intros s' I. eapply agree_none; [apply A, I|auto].
Qed.
End Near.
Lemma agree_verdict : forall reach f t sd steps l n r v c, in_cell r c ->
  (forall s, In s steps -> agree f t c (reach (fst (fst (fst s))) (snd (fst c))) (snd (fst (fst s))) (snd (fst s)) l n) ->
  mds_verdict reach f t sd steps l r v -> mds_verdict reach f t sd steps n r v.
Proof.
  intros reach f t sd steps l n r v c I A [H|[T [c' [a [bm [bsd [I' [G [B V]]]]]]]]]; [now left|]. right. split; [exact T|]. assert (c' = c) by (eapply in_cell_unique; eauto). subst c'. exists c, a, bm, bsd. split; [exact I|]. split; [exact G|]. split; [|exact V]. now apply (agree_limits f t c reach sd steps l).
Qed.
