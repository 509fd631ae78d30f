(** Lemmas about neighbours and buddy limits. *)
Require Import String ZArith QArith Qround Qabs List Bool Lia Lqa Permutation.
Require Import ZifyBool.
Require Import Verif.M_Base Verif.L_Base Verif.M_Calendar Verif.S_Calendar Verif.L_Calendar Verif.L_Calendar2 Verif.M_Grid Verif.S_Grid Verif.L_Grid Verif.L_Grid2 Verif.L_Mds
  Verif.S_Clim Verif.L_Clim Verif.M_Stats Verif.S_Stats Verif.L_Stats Verif.L_Stats2 Verif.M_Report Verif.M_Drifter Verif.M_Buddy Verif.S_Buddy Verif.L_Buddy.
Import ListNotations.
Open Scope string_scope.
Open Scope list_scope.
Open Scope Z_scope.

(* ---- the box ---- *)
Lemma around_in : forall s d, In d (around s) <-> Z.abs d <= s.
Proof.
  intros s d. unfold around. rewrite in_map_iff. split.
  - intros [k [<- K]]. apply in_seq in K. lia.
  - intro H. exists (Z.to_nat (d + s)). split; [lia|]. apply in_seq. lia.
Qed.
Lemma NoDup_map_inj : forall A B (f : A -> B) l, (forall a b, In a l -> In b l -> f a = f b -> a = b) -> NoDup l -> NoDup (map f l).
Proof.
  intros A B f l. induction l as [|a l IH]; intros I N; [constructor|]. inversion N; subst. cbn [map]. constructor.
  - rewrite in_map_iff. intros [b [E K]]. assert (b = a) by (apply I; [now right|now left|exact E]). subst b. contradiction.
  - apply IH; [|assumption]. intros x y X Y. apply I; now right.
Qed.
Lemma around_nodup : forall s, NoDup (around s).
Proof. intro s. unfold around. apply NoDup_map_inj; [intros a b _ _ H; lia|apply seq_NoDup]. Qed.
Lemma NoDup_flat_map : forall A B (f : A -> list B) l, NoDup l -> (forall a, In a l -> NoDup (f a)) ->
  (forall a b x, In a l -> In b l -> In x (f a) -> In x (f b) -> a = b) -> NoDup (flat_map f l).
Proof.
  intros A B f. induction l as [|a l IH]; intros N F D; [constructor|]. inversion N; subst. cbn [flat_map].
  assert (E : NoDup (flat_map f l)).
  { apply IH; [assumption|intros b Hb; apply F; now right|]. intros b c x Hb Hc. apply D; now right. }
  assert (X : forall x, In x (f a) -> ~ In x (flat_map f l)).
  { intros x Hx K. apply in_flat_map in K. destruct K as [b [Hb Kb]].
    assert (a = b) by (apply (D a b x); [now left|now right|exact Hx|exact Kb]). subst b. contradiction. }
  assert (Y : NoDup (f a)) by (apply F; now left). revert X Y. generalize (f a) as u. clear - E.
  induction u as [|x u IHu]; intros X Y; [exact E|]. inversion Y; subst. cbn [app]. constructor.
  - intro K. apply in_app_iff in K. destruct K as [K|K]; [contradiction|]. apply (X x); [now left|exact K].
  - apply IHu; [|assumption]. intros z Hz. apply X. now right.
Qed.

Definition box (rx ry rp : Z) : list place :=
  flat_map (fun dx => flat_map (fun dy => flat_map (fun dp =>
      if (dx =? 0) && (dy =? 0) && (dp =? 0) then [] else [(dx, dy, dp)]) (around rp)) (around ry)) (around rx).
Lemma flat_map_map : forall A B C (g : B -> C) (f : A -> list B) l, map g (flat_map f l) = flat_map (fun a => map g (f a)) l.
Proof. intros A B C g f l. induction l as [|a l IH]; [reflexivity|]. cbn [flat_map]. now rewrite map_app, IH. Qed.
Lemma flat_map_eq : forall A B (f g : A -> list B) l, (forall a, f a = g a) -> flat_map f l = flat_map g l.
Proof. intros A B f g l H. induction l as [|a l IH]; [reflexivity|]. cbn [flat_map]. now rewrite H, IH. Qed.
Lemma visited_box : forall xspan sx sy sp c, visited xspan (sx, sy, sp) c = map (shift c) (box (xspan sx (snd (fst c))) sy sp).
Proof.
  intros xspan sx sy sp [[x y] p]. unfold visited, box. cbn [fst snd]. rewrite flat_map_map. apply flat_map_eq. intro dx.
  rewrite flat_map_map. apply flat_map_eq. intro dy. rewrite flat_map_map. apply flat_map_eq. intro dp.
  destruct ((dx =? 0) && (dy =? 0) && (dp =? 0)); reflexivity.
Qed.
Lemma box_in : forall rx ry rp dx dy dp, In (dx, dy, dp) (box rx ry rp) <->
  Z.abs dx <= rx /\ Z.abs dy <= ry /\ Z.abs dp <= rp /\ ~ (dx = 0 /\ dy = 0 /\ dp = 0).
Proof.
  intros rx ry rp dx dy dp. unfold box. rewrite in_flat_map. split.
  - intros [ex [X K]]. apply in_flat_map in K. destruct K as [ey [Y K]]. apply in_flat_map in K. destruct K as [ep [P K]].
    apply around_in in X, Y, P. destruct ((ex =? 0) && (ey =? 0) && (ep =? 0)) eqn:E; [destruct K|]. destruct K as [K|[]]. injection K as -> -> ->. lia.
  - intros [X [Y [P N]]]. exists dx. split; [now apply around_in|]. apply in_flat_map. exists dy. split; [now apply around_in|].
    apply in_flat_map. exists dp. split; [now apply around_in|]. replace ((dx =? 0) && (dy =? 0) && (dp =? 0)) with false by lia. now left.
Qed.
Lemma box_nodup : forall rx ry rp, NoDup (box rx ry rp).
Proof.
  intros rx ry rp. unfold box.
  assert (T : forall dx dy dp x, In x (if (dx =? 0) && (dy =? 0) && (dp =? 0) then [] else [(dx, dy, dp)]) -> x = (dx, dy, dp)).
  { intros dx dy dp x. destruct ((dx =? 0) && (dy =? 0) && (dp =? 0)); [intros []|]. now intros [<-|[]]. }
  apply NoDup_flat_map; [apply around_nodup| |].
  - intros dx _. apply NoDup_flat_map; [apply around_nodup| |].
    + intros dy _. apply NoDup_flat_map; [apply around_nodup| |].
      * intros dp _. destruct ((dx =? 0) && (dy =? 0) && (dp =? 0)); repeat constructor. intros [].
      * intros a b x _ _ A B. apply T in A, B. congruence.
    + intros a b x _ _ A B. apply in_flat_map in A, B. destruct A as [u [_ A]], B as [w [_ B]]. apply T in A, B. congruence.
  - intros a b x _ _ A B. apply in_flat_map in A, B. destruct A as [u [_ A]], B as [w [_ B]].
    apply in_flat_map in A, B. destruct A as [u' [_ A]], B as [w' [_ B]]. apply T in A, B. congruence.
Qed.

Lemma Forall2_imp : forall A B (P Q : A -> B -> Prop) l l', (forall a b, P a b -> Q a b) -> Forall2 P l l' -> Forall2 Q l l'.
Proof. intros A B P Q l l' H F. induction F; constructor; auto. Qed.

(* ---- neighbours ---- *)
Lemma neighbours_perm : forall occ rx ry rp c a b, neighbours occ rx ry rp c a -> neighbours occ rx ry rp c b -> Permutation a b.
Proof.
  intros occ rx ry rp c a b [N1 H1] [N2 H2]. apply NoDup_Permutation; try assumption. intros [[x y] p]. now rewrite H1, H2.
Qed.
Definition has {A} (o : option A) : bool := match o with Some _ => true | None => false end.

Lemma averaged_occ : forall f t l g c, averaged f t l g -> (has (g_find c g) = true <-> occupied f t l c).
Proof.
  intros f t l g c [_ H]. destruct (H c) as [[E C]|[out [v [E [C [N _]]]]]]; rewrite E; cbn [has]; split; intro K; try discriminate; try reflexivity.
  - destruct K as [o [O1 O2]]. exfalso. apply O2. now apply (collected_fun _ _ _ _ _ O1 C).
  - exists out. now split.
Qed.

Lemma neigh_list : forall (g : sgrid) c u,
  flat_map (fun c' => match g_find c' g with Some x => [x] | None => [] end) (map (shift c) u) =
  flat_map (fun o => match g_find (shift c o) g with Some x => [x] | None => [] end) (filter (fun o => has (g_find (shift c o) g)) u).
Proof.
  intros g c. induction u as [|o u IH]; [reflexivity|]. cbn [map flat_map filter]. destruct (g_find (shift c o) g) as [x|] eqn:E; cbn [has].
  - cbn [flat_map]. rewrite E. now rewrite IH.
  - exact IH.
Qed.
Lemma sumz_right : forall l, sumz l = fold_right Z.add 0 l.
Proof. intro l. unfold sumz. now rewrite <- fold_symmetric by (intros; lia). Qed.

(** The neighbours found in an averaged grid. *)
Lemma neigh_spec : forall xspan f t l g sx sy sp c, averaged f t l g ->
  let rx := xspan sx (snd (fst c)) in
  let found := get_neighbour_anomalies xspan g (sx, sy, sp) c in
  exists offs outs, neighbours (occupied f t l) rx sy sp c offs /\
    Forall2 (fun o out => cell_anoms f t l (shift c o) out /\ out <> []) offs outs /\
    map snd found = map (fun out => Z.of_nat (length out)) outs /\ Forall2 Qeq (map fst found) (map meanQ outs).
Proof.
  intros xspan f t l g sx sy sp c A rx found.
  set (offs := filter (fun o => has (g_find (shift c o) g)) (box rx sy sp)).
  assert (N : neighbours (occupied f t l) rx sy sp c offs).
  { split; [apply NoDup_filter; apply box_nodup|]. intros dx dy dp. unfold offs. rewrite filter_In, box_in, (averaged_occ f t l g _ A). tauto. }
  assert (E : found = flat_map (fun o => match g_find (shift c o) g with Some x => [x] | None => [] end) offs).
  { unfold found, get_neighbour_anomalies. rewrite visited_box. apply neigh_list. }
  assert (H : forall o, In o offs -> has (g_find (shift c o) g) = true) by (intros o I; apply filter_In in I; tauto).
  exists offs. rewrite E. clear E found. cut (exists outs, Forall2 (fun o out => cell_anoms f t l (shift c o) out /\ out <> []) offs outs /\
    map snd (flat_map (fun o => match g_find (shift c o) g with Some x => [x] | None => [] end) offs) = map (fun out => Z.of_nat (length out)) outs /\
    Forall2 Qeq (map fst (flat_map (fun o => match g_find (shift c o) g with Some x => [x] | None => [] end) offs)) (map meanQ outs)).
  { intros [outs K]. exists outs. now split. }
  clear N. revert H. generalize offs as u. destruct A as [_ A]. induction u as [|o u IH]; intro H.
  - exists []. repeat split; constructor.
  - destruct IH as [outs [I1 [I2 I3]]]; [intros o' Ho; apply H; now right|].
    specialize (H o (or_introl eq_refl)). destruct (A (shift c o)) as [[E _]|[out [v [E [C [NE V]]]]]]; [rewrite E in H; discriminate|].
    exists (out :: outs). cbn [flat_map]. rewrite E. cbn [app map fst snd]. split; [constructor; [now split|exact I1]|].
    split; [now rewrite I2|]. now constructor.
Qed.

Lemma neigh_cases : forall xspan f t l g sx sy sp c, averaged f t l g ->
  let rx := xspan sx (snd (fst c)) in
  match get_neighbour_anomalies xspan g (sx, sy, sp) c with
  | [] => no_buddies f t l rx sy sp c
  | found => exists counts, buddies f t l rx sy sp c (num (np_mean (map fst found))) counts /\ sumz (map snd found) = fold_right Z.add 0 counts /\ 0 < sumz (map snd found) /\
      map snd found = counts
  end.
Proof.
  intros xspan f t l g sx sy sp c A rx. pose proof (neigh_spec xspan f t l g sx sy sp c A) as S. cbv zeta in S. fold rx in S.
  destruct S as [offs [outs [N [F [E1 E2]]]]].
  destruct (get_neighbour_anomalies xspan g (sx, sy, sp) c) as [|x found] eqn:Q.
  - destruct outs; [|discriminate]. inversion F; subst. exact N.
  - set (w := x :: found) in *. exists (map snd w). split; [|split; [apply sumz_right|split; [|reflexivity]]].
    + exists offs, outs. split; [exact N|]. split; [eapply Forall2_imp; [|exact F]; cbn; tauto|].
      assert (NE : outs <> []) by (intros ->; discriminate). split; [exact NE|]. split; [|exact E1].
      destruct (np_mean_spec (map fst w)) as [[X _]|[_ [v [X V]]]]; [discriminate|]. rewrite X. cbn [num]. rewrite V. now apply meanQ_eq.
    + rewrite sumz_right, E1. clear - F E1. destruct outs as [|out outs]; [discriminate|]. inversion F as [|o out' u outs' [_ P] F']; subst. cbn [map fold_right].
      assert (0 < Z.of_nat (length out)) by (destruct out; [congruence|cbn [length]; lia]).
      assert (G : forall z : list (list Q), 0 <= fold_right Z.add 0 (map (fun o => Z.of_nat (length o)) z)) by (induction z; cbn [map fold_right]; lia).
      specialize (G outs). lia.
Qed.

(* ---- the standard deviations ---- *)
Lemma row_mid : forall y, 0 <= y < 180 -> mds_row 180 y ((179 # 2) - inject_Z y).
Proof.
  intros y H. split; [exact H|]. assert (S1 : (step 180 == 1)%Q) by reflexivity. rewrite S1.
  destruct (Z_le_dec y 89) as [L|L].
  - left. assert (inject_Z y <= 89)%Q by (change 89%Q with (inject_Z 89); apply inject_Z_le; lia). split; [lra|]. split; [lra|]. left. lra.
  - right. assert (90 <= inject_Z y)%Q by (change 90%Q with (inject_Z 90); apply inject_Z_le; lia). split; [lra|]. split; [lra|]. left. lra.
Qed.
Lemma col_mid : forall x, 0 <= x < 360 -> mds_col 180 x (- (359 # 2) + inject_Z x).
Proof.
  intros y H. split; [exact H|]. assert (S1 : (step 180 == 1)%Q) by reflexivity. rewrite S1.
  destruct (Z_le_dec y 179) as [L|L].
  - right. assert (inject_Z y <= 179)%Q by (change 179%Q with (inject_Z 179); apply inject_Z_le; lia). split; [lra|]. split; [lra|]. left. lra.
  - left. assert (180 <= inject_Z y)%Q by (change 180%Q with (inject_Z 180); apply inject_Z_le; lia). split; [lra|]. split; [lra|]. left. lra.
Qed.
Lemma in_range_ok : forall c, in_range c = true <-> cell_ok c.
Proof. intros [[x y] p]. unfold in_range, cell_ok. cbn [fst snd]. lia. Qed.
Lemma in_cell_ok : forall r c, in_cell r c -> cell_ok c.
Proof. intros r c H. apply cell_of_in_cell in H. now apply in_range_ok. Qed.
Lemma md_valid_pentad : forall m d q, which_pentad m d = Ok q -> md_valid m d.
Proof.
  intros m d q H. replace q with (q - 1 + 1) in H by lia. apply which_pentad_pentad in H. destruct H as [n [C _]].
  apply day_in_year_common in C. now apply day_in_year_range in C.
Qed.

(** Time slice of the first day of pentad [p]. *)
Lemma pentad_slice : forall c p m d t, clim_wf c -> 0 <= p < 73 -> pentad_to_month_day (p + 1) = Ok (m, d) -> get_tindex c m d = Ok t ->
  md_valid m d /\ 0 <= t < cn c /\ (cn c = 1 -> t = 0) /\ (cn c = 73 -> t = p) /\ (cn c = 365 -> t = 5 * p).
Proof.
  intros c p m d t W P E T. destruct (pentad_round_trip (p + 1)) as [R _]. destruct (R ltac:(lia)) as [m' [d' [E' [D Q]]]].
  rewrite E in E'. injection E' as <- <-. assert (V : md_valid m d) by now apply md_valid_pentad in Q.
  destruct (tindex_total c m d W V) as [t' [T' S]]. rewrite T in T'. injection T' as <-. split; [exact V|]. split; [apply S|].
  apply slice_model in S. destruct S as [_ [S1 [S2 S3]]]. split; [exact S1|]. split.
  - intro K. specialize (S2 K). rewrite Q in S2. assert (Z0 : forall a b : Z, Ok a = Ok b -> a = b) by (intros a b Z0; now injection Z0). apply Z0 in S2. lia.
  - intro K. specialize (S3 K). rewrite D in S3. assert (Z0 : forall a b : Z, Ok a = Ok b -> a = b) by (intros a b Z0; now injection Z0). apply Z0 in S3. lia.
Qed.
Lemma cell_sd : forall sd c, clim_wf sd -> cny sd = 180 -> cell_ok c -> exists m d s,
  pentad_to_month_day (snd c + 1) = Ok (m, d) /\
  get_value_mds_style sd ((179 # 2) - inject_Z (snd (fst c))) (- (359 # 2) + inject_Z (fst (fst c))) m d = Ok s /\ sd_at sd c (sd_or_1 s).
Proof.
  intros sd [[x y] p] W Ny [X [Y P]]. cbn [fst snd] in *. destruct (pentad_round_trip (p + 1)) as [R _]. destruct (R ltac:(lia)) as [m [d [E [D Q]]]].
  assert (V : md_valid m d) by now apply md_valid_pentad in Q.
  destruct (tindex_total sd m d W V) as [t [T _]]. destruct (pentad_slice sd p m d t W ltac:(lia) E T) as [_ [S0 [S1 [S2 S3]]]].
  exists m, d, (cval sd t y x). split; [exact E|]. split.
  - unfold get_value_mds_style. rewrite (proj2 (clim_date_ok_iff m d) V). cbv zeta. rewrite T. cbn [bind].
    assert (A : mds_lat_to_yindex ((179 # 2) - inject_Z y) 1 = y).
    { pose proof (inject_Z_le 0 y ltac:(lia)). pose proof (inject_Z_le y 179 ltac:(lia)). change (inject_Z 0) with 0%Q in *. change (inject_Z 179) with 179%Q in *.
      apply (mds_lat_iff 1 90 ltac:(lia) one_90 ltac:(lra)); [lra|lra|]. now apply row_mid. }
    assert (B : mds_lon_to_xindex (- (359 # 2) + inject_Z x) 1 = x).
    { pose proof (inject_Z_le 0 x ltac:(lia)). pose proof (inject_Z_le x 359 ltac:(lia)). change (inject_Z 0) with 0%Q in *. change (inject_Z 359) with 359%Q in *.
      apply (mds_lon_iff 1 90 ltac:(lia) one_90 ltac:(lra)); [lra|lra|]. now apply col_mid. }
    rewrite A, B. destruct W as [_ [_ Wx]]. apply clim_read_in; lia.
  - exists t. cbn [fst snd]. split; [exact S1|]. split; [exact S2|]. split; [exact S3|]. unfold sd_or_1. destruct (cval sd t y x) as [v|]; [|reflexivity].
    destruct (Qltb v 0) eqn:F; qprop; [right|left]; split; try assumption; reflexivity.
Qed.

(* ---- limits ---- *)
Lemma multiplier_ok : forall t lims mults, table_ok lims mults -> 0 < t -> exists q, get_threshold_multiplier t lims mults = Ok q /\ multiplier_for lims mults t q.
Proof.
  intros t lims mults T P. destruct (multiplier_positive t lims mults T P) as [i [l [q [A [B [C [D E]]]]]]]. exists q. split; [exact E|]. now exists i, l.
Qed.

Lemma combine_nth_error : forall A B (a : list A) (b : list B) i x y, nth_error a i = Some x -> nth_error b i = Some y -> nth_error (combine a b) i = Some (x, y).
Proof.
  intros A B a. induction a as [|u a IH]; intros [|w b] [|i] x y H K; try discriminate.
  - injection H as ->. injection K as ->. reflexivity.
  - now apply IH.
Qed.
Lemma combine_nth_inv : forall A B (a : list A) (b : list B) i x y, nth_error (combine a b) i = Some (x, y) -> nth_error a i = Some x /\ nth_error b i = Some y.
Proof.
  intros A B a. induction a as [|u a IH]; intros [|w b] [|i] x y H; try discriminate.
  - injection H as -> ->. split; reflexivity.
  - cbn in *. now apply IH.
Qed.

Lemma limits_loop_spec : forall xspan f t l g c sdv sd limits ths mus, averaged f t l g -> params_ok limits ths mus -> sd_at sd c sdv ->
  forall done rest, limits = done ++ rest ->
  (forall s', In s' (firstn (length done) (steps_of limits ths mus)) -> no_buddies f t l (xspan (fst (fst (fst s'))) (snd (fst c))) (snd (fst (fst s'))) (snd (fst s')) c) ->
  exists bm bsd, limits_loop xspan g c sdv rest ths mus (Z.of_nat (length done)) = Ok (bm, bsd) /\ buddy_limits xspan f t l sd (steps_of limits ths mus) c bm bsd.
Proof.
  intros xspan f t l g c sdv sd limits ths mus A [P1 [P2 P3]] SD done rest. revert done.
  assert (LS : length (steps_of limits ths mus) = length limits).
  { unfold steps_of. pose proof (combine_length limits (combine ths mus)) as L1. pose proof (combine_length ths mus) as L2. unfold search in *. lia. }
  induction rest as [|[[sx sy] sp] rest IH]; intros done EQ D; cbn [limits_loop].
  - exists 0%Q, 500%Q. split; [reflexivity|]. right. split; [|split; reflexivity]. intros s' I. apply D.
    rewrite app_nil_r in EQ. subst done. rewrite <- LS. now rewrite firstn_all.
  - assert (LT : (length done < length limits)%nat) by (rewrite EQ, app_length; cbn [length]; lia).
    assert (NL : nth_error limits (length done) = Some (sx, sy, sp)) by (rewrite EQ, nth_error_app2, Nat.sub_diag by lia; reflexivity).
    destruct (nth_error ths (length done)) as [th|] eqn:NT; [|apply nth_error_None in NT; lia].
    destruct (nth_error mus (length done)) as [mu|] eqn:NM; [|apply nth_error_None in NM; lia].
    assert (NS : nth_error (steps_of limits ths mus) (length done) = Some ((sx, sy, sp), (th, mu))).
    { unfold steps_of. apply combine_nth_error; [exact NL|]. now apply combine_nth_error. }
    pose proof (neigh_cases xspan f t l g sx sy sp c A) as NC. cbv zeta in NC.
    destruct (get_neighbour_anomalies xspan g (sx, sy, sp) c) as [|x found] eqn:Q.
    + specialize (IH (done ++ [(sx, sy, sp)])). rewrite app_length in IH. cbn [length] in IH.
      replace (Z.of_nat (length done) + 1) with (Z.of_nat (length done + 1)) by lia. apply IH.
      * now rewrite <- app_assoc.
      * intros s' I. rewrite <- (firstn_skipn (length done) (steps_of limits ths mus)) in I.
        assert (Z1 : forall u : list search, nth_error u (length done) = Some ((sx, sy, sp), (th, mu)) -> In s' (firstn (length done + 1) u) -> In s' (firstn (length done) u) \/ s' = ((sx, sy, sp), (th, mu))).
        { clear. generalize (length done) as k. intros k u. revert k. induction u as [|a u IHu]; intros [|k] H I; try discriminate; cbn in *.
          - injection H as ->. destruct I as [I|[]]. right. now symmetry.
          - destruct I as [I|I]; [left; now left|]. destruct (IHu k H I) as [J|J]; [left; now right|now right]. }
        rewrite firstn_skipn in I. destruct (Z1 _ NS I) as [J|J]; [now apply D|]. subst s'. cbn [fst snd]. exact NC.
    + destruct NC as [counts [B [S [PS _]]]]. set (w := x :: found) in *.
      rewrite (py_nth_nonneg _ ths _ th) by (rewrite ?Nat2Z.id; auto; lia). cbn [bind].
      rewrite (py_nth_nonneg _ mus _ mu) by (rewrite ?Nat2Z.id; auto; lia). cbn [bind].
      assert (TO : table_ok th mu).
      { rewrite Forall_forall in P3. apply (P3 (th, mu)). eapply nth_error_In. apply combine_nth_error; eauto. }
      destruct (multiplier_ok (sumz (map snd w)) th mu TO PS) as [q [Q1 Q2]]. rewrite Q1. cbn [bind].
      eexists. eexists. split; [reflexivity|]. left. exists (length done), ((sx, sy, sp), (th, mu)), counts, q, sdv. cbn [fst snd].
      split; [exact NS|]. split; [|split; [exact B|split; [now rewrite <- S|split; [exact SD|reflexivity]]]].
      intros j s' J K. apply D. rewrite <- (firstn_skipn (length done) (steps_of limits ths mus)) in K.
      rewrite nth_error_app1 in K by (rewrite firstn_length; lia). eapply nth_error_In. exact K.
Qed.

Lemma cell_limits_spec : forall xspan f t l g sd limits ths mus c, averaged f t l g -> params_ok limits ths mus -> clim_wf sd -> cny sd = 180 -> cell_ok c ->
  exists bm bsd, cell_limits xspan sd limits ths mus g c = Ok (bm, bsd) /\ buddy_limits xspan f t l sd (steps_of limits ths mus) c bm bsd.
Proof.
  intros xspan f t l g sd limits ths mus c A P W N C. destruct (cell_sd sd c W N C) as [m [d [s [E1 [E2 E3]]]]].
  destruct c as [[x y] p]. cbn [fst snd] in *. unfold cell_limits. rewrite E1. cbn [bind]. rewrite E2. cbn [bind].
  apply (limits_loop_spec xspan f t l g (x, y, p) (sd_or_1 s) sd limits ths mus A P E3 [] limits eq_refl). intros s' [].
Qed.

Lemma all_cells_spec : forall one g (R : cell -> Q * Q -> Prop), (forall c, In c (map fst g) -> exists b, one c = Ok b /\ R c b) ->
  exists bs, all_cells one g = Ok bs /\ map fst bs = map fst g /\ forall c b, g_find c bs = Some b -> R c b.
Proof.
  intros one g R. induction g as [|[c v] g IH]; intro H; cbn [all_cells].
  - exists []. split; [reflexivity|]. split; [reflexivity|]. intros c b K. discriminate.
  - destruct (H c (or_introl eq_refl)) as [b [B1 B2]]. rewrite B1. cbn [bind].
    destruct IH as [bs [E1 [E2 E3]]]; [intros c' I; apply H; now right|]. rewrite E1. cbn [bind].
    exists ((c, b) :: bs). split; [reflexivity|]. split; [cbn [map fst]; now rewrite E2|].
    intros c' b' K. cbn [g_find] in K. destruct (cell_eqb c c') eqn:E; [|now apply E3].
    apply cell_eqb_eq in E. subst c'. injection K as <-. exact B2.
Qed.

(* ---- flags ---- *)
Lemma get_buddy_spec : forall r c bs v, in_cell r c -> g_find c bs = Some v -> get_buddy bs (lat r) (lon r) (getint r "MO") (getint r "DY") = Ok v.
Proof.
  intros r c bs v H F. apply cell_of_in_cell in H. destruct H as [E R]. unfold get_buddy. rewrite E. cbn [bind]. destruct c as [[x y] p].
  unfold in_range in R. replace ((x <? 360) && (y <? 180) && (p <? 73)) with true by lia. now rewrite F.
Qed.

(** The cell of a passing report with an anomaly is occupied. *)
Lemma own_cell : forall f t l r c a, In r l -> test_report f r = 0 -> in_cell r c -> getanom r t = Some a -> occupied f t l c.
Proof.
  intros f t l r c a I T C E. destruct (collected_total f t l c) as [out O]. exists out. split; [exact O|].
  revert I out O. induction l as [|r' l IH]; intros I out O; [destruct I|]. destruct I as [->|I].
  - inversion O; subst; try discriminate; try congruence; tauto.
  - inversion O; subst; try discriminate; eauto.
Qed.
Lemma cell_ok_shift : forall c o, cell_ok (shift c o).
Proof. intros [[x y] p] [[dx dy] dp]. unfold cell_ok, shift. cbn [fst snd]. repeat split; try (apply Z.mod_pos_bound; lia). Qed.
