(** * Writing then reading a .lso file. *)
From Coq Require Import ZArith List Lia Bool Ascii String Permutation.
From Verif Require Import Base Text TextFacts GocadModel MeshModel TsModel Spec GocadFacts TsFacts LsoModel LsoFacts LsoRead.
Import ListNotations.
Local Open Scope string_scope.
Local Open Scope list_scope.
Local Open Scope Z_scope.

(** ** What a structural model satisfies *)

(** The two views of the unique vertices agree: [l_uv] gives the block vertices of a unique
    vertex, [k_uv] the unique vertex of a block vertex. *)
Record consistent {F} (m : LModel F) : Prop := {
  cu_ids : NoDup (map k_id (l_blocks m));
  cu_len : Forall (fun b => List.length (k_uv b) = List.length (k_points b)) (l_blocks m);
  cu_inside : Forall (fun b => Forall (fun u => 0 <= u < lenz (l_uv m)) (k_uv b)) (l_blocks m);
  cu_iff : forall u mvs b v, nthz (l_uv m) u = Some mvs -> In b (l_blocks m) ->
             (In (k_id b, v) mvs <-> nthz (k_uv b) v = Some u);
  cu_known : forall mvs mv, In mvs (l_uv m) -> In mv mvs -> exists b, In b (l_blocks m) /\ k_id b = fst mv;
  cu_nodup : Forall (fun mvs => NoDup mvs) (l_uv m)
}.
(** [p] is the position of a block vertex that belongs to unique vertex [u]. *)
Definition at_uv {F} (m : LModel F) (u : Z) (p : point F) : Prop :=
  exists b v, In b (l_blocks m) /\ nthz (k_uv b) v = Some u /\ nthz (k_points b) v = Some p.
(** Vertices of a unique vertex are at the same place. *)
Definition colocated {F} (m : LModel F) : Prop := forall u p q, at_uv m u p -> at_uv m u q -> p = q.
(** Number of block vertices. *)
Definition nb_block_vertices {F} (m : LModel F) : Z := fold_right (fun mvs n => lenz mvs + n) 0 (l_uv m).

Lemma block_of_in {F} (m : LModel F) b : consistent m -> In b (l_blocks m) -> block_of m (k_id b) = Ok b.
Proof.
  intros C Hb. pose proof (cu_ids m C) as ND. unfold block_of. clear C. induction (l_blocks m) as [|c l IH]; [inversion Hb|].
  cbn [find]. inversion_clear ND as [|? ? N1 N2]. destruct Hb as [->|Hb]; [now rewrite Z.eqb_refl|].
  destruct (Z.eqb_spec (k_id c) (k_id b)) as [E|E]; [|now apply IH].
  exfalso. apply N1. rewrite E. now apply in_map.
Qed.
Lemma consistent_point {F} (m : LModel F) b v u : consistent m -> In b (l_blocks m) -> nthz (k_uv b) v = Some u ->
  exists p, nthz (k_points b) v = Some p.
Proof.
  intros C Hb Hv. pose proof (cu_len m C) as L. rewrite Forall_forall in L. specialize (L b Hb).
  apply nthz_range in Hv. apply nthz_in_range. unfold lenz in Hv. lia.
Qed.

(** ** Numbers of the block vertices *)
Section Numbers.
Context {F : Num} (m : LModel F) (C : consistent m) (HN : Forall (fun l => l <> []) (l_uv m)).
Let N := lenz (l_uv m).
Context (fits : N + nb_others (l_uv m) < two32).

Lemma uvs_total : exists ls rws atoms ps, write_uvs m 0 N (l_uv m) = Ok (ls, rws, atoms)
  /\ numbered m 0 N (l_uv m) ps rws atoms /\ ls = lso_vrtx_lines 0 ps.
Proof.
  destruct (write_uvs_total m (l_uv m) 0 N HN) as [[[ls rws] atoms] E].
  - intros mvs mv Hm Hv. destruct (cu_known m C mvs mv Hm Hv) as [b [Hb Hk]]. exists b.
    apply nthz_of_in in Hm. destruct Hm as [u Hu].
    destruct mv as [k v]. cbn [fst snd] in *. subst k.
    destruct (consistent_point m b v u C Hb) as [p Hp]; [apply (cu_iff m C u mvs b v Hu Hb); assumption|].
    exists p. split; [now apply block_of_in|assumption].
  - exists ls, rws, atoms. pose proof (nb_others_nonneg _ HN). pose proof (lenz_nonneg (l_uv m)).
    destruct (write_uvs_spec m 0 N (l_uv m) ls rws atoms HN) as [ps [HA HB]]; try assumption; unfold N in *; try lia.
    exists ps. auto.
Qed.

Variables (ps : list (point F)) (rws : list row) (atoms : list Z).
Hypothesis NUM : numbered m 0 N (l_uv m) ps rws atoms.
(** The unique vertex (from 1) designated by each of the numbers. *)
Let D := rangez 1 (List.length (l_uv m)) ++ atoms.

Lemma in_row_at r mv : In mv (map fst r) -> exists n, row_at r mv = Ok n /\ In (mv, n) r.
Proof.
  intros H. unfold row_at. destruct (find (fun e => same_mv (fst e) mv) r) as [[mv' n]|] eqn:E.
  - apply find_some in E. destruct E as [Hi E]. cbn [fst snd] in *. unfold same_mv in E. apply andb_true_iff in E.
    destruct E as [E1 E2]. apply Z.eqb_eq in E1, E2. exists n. split; [reflexivity|]. destruct mv, mv'. cbn [fst snd] in *. now subst.
  - apply in_map_iff in H. destruct H as [[mv' n] [<- Hi]]. apply (find_none _ _ E) in Hi. cbn [fst] in Hi.
    unfold same_mv in Hi. rewrite !Z.eqb_refl in Hi. discriminate.
Qed.
Lemma row_at_in r mv n : row_at r mv = Ok n -> In (mv, n) r.
Proof.
  unfold row_at. destruct (find (fun e => same_mv (fst e) mv) r) as [[mv' n']|] eqn:E; [|discriminate]. intros [= <-].
  apply find_some in E. destruct E as [Hi E]. cbn [fst snd] in *. unfold same_mv in E. apply andb_true_iff in E.
  destruct E as [E1 E2]. apply Z.eqb_eq in E1, E2. destruct mv, mv'. cbn [fst snd] in *. now subst.
Qed.
Lemma corner_total b v u : In b (l_blocks m) -> nthz (k_uv b) v = Some u ->
  exists n, corner_number rws b v = Ok n.
Proof.
  intros Hb Hv. pose proof (cu_inside m C) as HI. rewrite Forall_forall in HI. specialize (HI b Hb). rewrite Forall_forall in HI.
  specialize (HI u (nthz_in _ _ _ Hv)). destruct (nthz_in_range (l_uv m) u HI) as [mvs Hu].
  destruct (numbered_row m 0 N (l_uv m) ps rws atoms NUM u mvs Hu) as [r [p [mv [ot [Hr [P _]]]]]].
  unfold corner_number. rewrite (proj2 (idxz_ok _ _ _) Hv). cbn [bind]. rewrite (proj2 (atz_ok _ _ _) Hr). cbn [bind].
  destruct (in_row_at r (k_id b, v)) as [n [E _]]; [|eauto].
  eapply Permutation_in; [exact P|]. apply (cu_iff m C u mvs b v Hu Hb). assumption.
Qed.
Lemma corner_entry (b : LBlock F) v n : corner_number rws b v = Ok n ->
  exists u r, nthz (k_uv b) v = Some u /\ nthz rws u = Some r /\ In ((k_id b, v), n) r.
Proof.
  unfold corner_number. intros E. apply bind_ok in E. destruct E as [u [Hu E]]. apply idxz_ok in Hu.
  apply bind_ok in E. destruct E as [r [Hr E]]. apply atz_ok in Hr. exists u, r. auto using row_at_in.
Qed.
Lemma corner_denotes (b : LBlock F) v n : corner_number rws b v = Ok n ->
  exists u, nthz (k_uv b) v = Some u /\ nthz D (n - 1) = Some (u + 1) /\ 1 <= n <= N + nb_others (l_uv m).
Proof.
  intros E. destruct (corner_entry b v n E) as [u [r [Hu [Hr Hi]]]]. exists u. split; [assumption|].
  destruct (numbered_lens m 0 N (l_uv m) ps rws atoms NUM) as [L1 [L2 L3]].
  pose proof (nthz_range _ _ _ Hr) as Hur. pose proof (nb_others_nonneg _ HN) as HO.
  assert (Hur' : 0 <= u < N) by (unfold N, lenz in *; lia).
  destruct (numbered_entry m 0 N (l_uv m) ps rws atoms NUM u r (k_id b, v) n Hr Hi) as [->|[j [Hj ->]]].
  - split; [|lia]. unfold D. apply nthz_app_l. replace (0 + u + 1 - 1) with u by lia. rewrite nthz_rangez by (unfold N, lenz in *; lia).
    f_equal. lia.
  - pose proof (nthz_range _ _ _ Hj). split; [|lia]. unfold D.
    replace (N + j + 1 - 1) with (lenz (rangez 1 (List.length (l_uv m))) + j).
    + rewrite nthz_app_r by lia. rewrite Hj. f_equal.
    + unfold lenz at 1. rewrite rangez_length. unfold N, lenz. lia.
Qed.
Lemma concat_nth {A} (l : list (list A)) i r x : nthz l i = Some r -> In x r -> In x (List.concat l).
Proof. intros H Hi. apply in_concat. exists r. split; [now apply nthz_in in H|assumption]. Qed.
Lemma nodup_snd_inj {A B} (l : list (A * B)) a a' b : NoDup (map snd l) -> In (a, b) l -> In (a', b) l -> a = a'.
Proof.
  induction l as [|[x y] l IH]; intros H; [intros []|]. inversion_clear H as [|? ? H1 H2]. cbn [snd] in H1.
  intros [E|E] [E'|E'].
  - congruence.
  - exfalso. apply H1. assert (y = b) as -> by congruence. apply in_map_iff. exists (a', b). auto.
  - exfalso. apply H1. assert (y = b) as -> by congruence. apply in_map_iff. exists (a, b). auto.
  - auto.
Qed.
Lemma all_numbers_distinct : NoDup (map snd (List.concat rws)).
Proof.
  eapply Permutation_NoDup; [symmetry; apply (numbered_all m 0 N (l_uv m) ps rws atoms NUM)|].
  replace (rangez (N + 1) (List.length atoms)) with (rangez (0 + 1 + Z.of_nat (List.length (l_uv m))) (List.length atoms)).
  - rewrite <- rangez_app. apply rangez_nodup.
  - f_equal. unfold N, lenz. lia.
Qed.
Lemma corner_inj (b : LBlock F) v (b' : LBlock F) v' n : corner_number rws b v = Ok n -> corner_number rws b' v' = Ok n -> (k_id b, v) = (k_id b', v').
Proof.
  intros E E'. destruct (corner_entry b v n E) as [u [r [_ [Hr Hi]]]]. destruct (corner_entry b' v' n E') as [u' [r' [_ [Hr' Hi']]]].
  exact (nodup_snd_inj (List.concat rws) _ _ n all_numbers_distinct (concat_nth rws u r _ Hr Hi) (concat_nth rws u' r' _ Hr' Hi')).
Qed.
(** The points of the VRTX lines. *)
Lemma vrtx_point_at u p : nthz ps u = Some p -> at_uv m u p.
Proof.
  intros Hp. destruct (numbered_lens m 0 N (l_uv m) ps rws atoms NUM) as [L1 _].
  pose proof (nthz_range _ _ _ Hp) as Hu. destruct (nthz_in_range (l_uv m) u) as [mvs Hm]; [unfold lenz in *; lia|].
  destruct (numbered_row m 0 N (l_uv m) ps rws atoms NUM u mvs Hm) as [r [q [mv [ot [Hr [P [HS [Hq [b [Hb Hbp]]]]]]]]]].
  assert (q = p) as -> by congruence.
  pose proof (split_uv_perm _ _ _ HS) as PS.
  assert (Hmv : In mv mvs) by (eapply Permutation_in; [symmetry; exact PS|now left]).
  destruct (cu_known m C mvs mv (nthz_in _ _ _ Hm) Hmv) as [b' [Hb' Hk]].
  rewrite <- Hk, (block_of_in m b' C Hb') in Hb. assert (b = b') as -> by congruence. clear Hb. exists b', (snd mv).
  split; [assumption|]. split; [|assumption]. apply (cu_iff m C u mvs b' (snd mv) Hm Hb'). rewrite Hk.
  destruct mv. assumption.
Qed.
End Numbers.

(** ** Renumbering by first use *)
Section Use.
Context {F : Num} (sv : SolidV F).
Record used_ok (us : Used F) : Prop := {
  uo_nodup : NoDup (us_seen us);
  uo_points : mapM (idxz (sv_points sv)) (us_seen us) = Ok (us_points us);
  uo_uv : mapM (idxz (sv_uid sv)) (us_seen us) = Ok (us_uv us)
}.
Definition grows (us us' : Used F) : Prop := forall i v, nthz (us_seen us) i = Some v -> nthz (us_seen us') i = Some v.
Lemma find_pos_some v l : forall i k, find_pos v i l = Some k -> nthz l (k - i) = Some v /\ i <= k.
Proof.
  induction l as [|x l IH]; intros i k H; [discriminate|]. cbn [find_pos] in H. destruct (Z.eqb_spec x v) as [->|N].
  - injection H as <-. rewrite Z.sub_diag. split; [reflexivity|lia].
  - apply IH in H. destruct H as [H Hk]. split; [|lia]. rewrite nthz_cons. destruct (Z.eqb_spec (k - i) 0); [lia|].
    now replace (k - i - 1) with (k - (i + 1)) by lia.
Qed.
Lemma find_pos_none v l : forall i, find_pos v i l = None -> ~ In v l.
Proof.
  induction l as [|x l IH]; intros i H; [intros []|]. cbn [find_pos] in H. destruct (Z.eqb_spec x v) as [->|N]; [discriminate|].
  intros [->|Hi]; [congruence|]. exact (IH _ H Hi).
Qed.
Lemma mapM_snoc {A B} (f : A -> res B) l a r b : mapM f l = Ok r -> f a = Ok b -> mapM f (l ++ [a]) = Ok (r ++ [b]).
Proof.
  revert r. induction l as [|x l IH]; intros r E Ea; cbn [mapM app] in *.
  - assert (r = []) as -> by congruence. rewrite Ea. reflexivity.
  - apply bind_ok in E. destruct E as [y [Ey E]]. rewrite Ey. cbn [bind]. apply bind_ok in E. destruct E as [ys [Eys E]].
    assert (r = y :: ys) as -> by congruence. rewrite (IH ys Eys Ea). reflexivity.
Qed.
Lemma use_vertex_spec us v p u : used_ok us -> nthz (sv_points sv) v = Some p -> nthz (sv_uid sv) v = Some u ->
  exists us' i, use_vertex F sv us v = Ok (us', i) /\ used_ok us' /\ grows us us' /\ nthz (us_seen us') i = Some v
    /\ (forall w, In w (us_seen us') <-> In w (us_seen us) \/ w = v).
Proof.
  intros [ND P U] Hp Hu. unfold use_vertex. destruct (find_pos v 0 (us_seen us)) as [i|] eqn:E.
  - exists us, i. apply find_pos_some in E. destruct E as [E _]. rewrite Z.sub_0_r in E.
    split; [reflexivity|]. split; [now split|]. split; [intros ? ?; auto|]. split; [assumption|].
    intros w. split; [auto|]. intros [H| ->]; [assumption|]. now apply nthz_in in E.
  - apply find_pos_none in E. rewrite (proj2 (idxz_ok _ _ _) Hp), (proj2 (idxz_ok _ _ _) Hu). cbn [bind].
    eexists _, _. split; [reflexivity|]. cbn [us_seen us_points us_uv]. split.
    + split; cbn [us_seen us_points us_uv].
      * now apply nodup_snoc.
      * apply mapM_snoc; [assumption|]. now apply idxz_ok.
      * apply mapM_snoc; [assumption|]. now apply idxz_ok.
    + split; [intros i w H; now apply nthz_app_l|]. split; [apply nthz_snoc; auto|].
      intros w. rewrite in_app_iff. cbn [In]. split; [intros [H|[H|[]]]; auto|intros [H|H]; auto].
Qed.
Lemma grows_trans a b c : grows a b -> grows b c -> grows a c.
Proof. intros H1 H2 i v H. auto. Qed.
Definition known (v : Z) : Prop := exists p u, nthz (sv_points sv) v = Some p /\ nthz (sv_uid sv) v = Some u.

(** Corners of a cell of the result, through the list of used vertices. *)
Definition tet_at (seen : list Z) (t t' : quad) : Prop :=
  Forall2 (fun v i => nthz seen i = Some v) (quad_list t) (quad_list t').
Lemma use_tet_spec us t : used_ok us -> Forall known (quad_list t) ->
  exists us' t', use_tet F sv us t = Ok (us', t') /\ used_ok us' /\ grows us us' /\ tet_at (us_seen us') t t'
    /\ (forall w, In w (us_seen us') <-> In w (us_seen us) \/ In w (quad_list t)).
Proof.
  destruct t as [[[a b] c] d]. intros H0 HK. cbn [quad_list] in *.
  inversion_clear HK as [|? ? [pa [ua [Ka Ka']]] HK']. inversion_clear HK' as [|? ? [pb [ub [Kb Kb']]] HK].
  inversion_clear HK as [|? ? [pc [uc [Kc Kc']]] HK']. inversion_clear HK' as [|? ? [pd [ud [Kd Kd']]] _].
  unfold use_tet.
  destruct (use_vertex_spec us a pa ua H0 Ka Ka') as [us1 [ia [E1 [H1 [G1 [I1 W1]]]]]]. rewrite E1. cbn [bind].
  destruct (use_vertex_spec us1 b pb ub H1 Kb Kb') as [us2 [ib [E2 [H2 [G2 [I2 W2]]]]]]. rewrite E2. cbn [bind].
  destruct (use_vertex_spec us2 c pc uc H2 Kc Kc') as [us3 [ic [E3 [H3 [G3 [I3 W3]]]]]]. rewrite E3. cbn [bind].
  destruct (use_vertex_spec us3 d pd ud H3 Kd Kd') as [us4 [ix [E4 [H4 [G4 [I4 W4]]]]]]. rewrite E4. cbn [bind].
  eexists _, _. split; [reflexivity|]. split; [assumption|]. split; [eauto using grows_trans|].
  split; [cbn [quad_list]; unfold tet_at; cbn [quad_list]; repeat (constructor; [solve [auto]|]); constructor|].
  intros w. rewrite W4, W3, W2, W1. cbn [quad_list In]. intuition congruence.
Qed.
Lemma tet_at_grows us us' t t' : grows us us' -> tet_at (us_seen us) t t' -> tet_at (us_seen us') t t'.
Proof. intros G H. unfold tet_at in *. revert H. generalize (quad_list t) (quad_list t'). induction 1; constructor; auto. Qed.
Lemma use_tets_spec ts : forall us, used_ok us -> Forall (fun t => Forall known (quad_list t)) ts ->
  exists us' ts', use_tets F sv us ts = Ok (us', ts') /\ used_ok us' /\ grows us us' /\ Forall2 (tet_at (us_seen us')) ts ts'
    /\ (forall w, In w (us_seen us') <-> In w (us_seen us) \/ In w (flat_map quad_list ts)).
Proof.
  induction ts as [|t ts IH]; intros us H0 HK.
  - exists us, []. split; [reflexivity|]. split; [assumption|]. split; [intros ? ?; auto|]. split; [constructor|].
    intros w. cbn [flat_map In]. tauto.
  - inversion_clear HK as [|? ? HK0 HK1]. cbn [use_tets].
    destruct (use_tet_spec us t H0 HK0) as [us1 [t' [E1 [H1 [G1 [T1 W1]]]]]]. rewrite E1. cbn [bind].
    destruct (IH us1 H1 HK1) as [us2 [ts' [E2 [H2 [G2 [T2 W2]]]]]]. rewrite E2. cbn [bind].
    eexists _, _. split; [reflexivity|]. split; [assumption|]. split; [eauto using grows_trans|].
    split; [constructor; [eauto using tet_at_grows|assumption]|].
    intros w. rewrite W2, W1. cbn [flat_map]. rewrite in_app_iff. tauto.
Qed.
Lemma no_vertex_ok : used_ok no_vertex.
Proof. split; [constructor|reflexivity|reflexivity]. Qed.

(** Triangles of a surface *)
Definition tri_at (seen : list Z) (t t' : tri) : Prop :=
  Forall2 (fun v i => nthz seen i = Some v) (tri_list t) (tri_list t').
Lemma tri_step_spec tets s st t : used_ok (ts_used st) -> Forall known (tri_list t) ->
  Forall (fun v => 0 <= v < lenz (sv_map sv)) (tri_list t) ->
  exists us' t' fs bad, tri_step sv tets s st t = Ok (mkTriSt us' (ts_tris st ++ [t']) (rev (map (fun f => (f, s)) fs) ++ ts_facets st) bad)
    /\ facets_from_vertices F sv tets t = Ok fs /\ used_ok us' /\ grows (ts_used st) us' /\ tri_at (us_seen us') t t'
    /\ (forall w, In w (us_seen us') <-> In w (us_seen (ts_used st)) \/ In w (tri_list t)).
Proof.
  destruct t as [[a b] c]. intros H0 HK HM. cbn [tri_list] in *.
  inversion_clear HK as [|? ? [pa [ua [Ka Ka']]] HK']. inversion_clear HK' as [|? ? [pb [ub [Kb Kb']]] HK].
  inversion_clear HK as [|? ? [pc [uc [Kc Kc']]] _].
  inversion_clear HM as [|? ? Ma HM']. inversion_clear HM' as [|? ? Mb HM]. inversion_clear HM as [|? ? Mc _].
  unfold tri_step.
  destruct (use_vertex_spec _ a pa ua H0 Ka Ka') as [us1 [ia [E1 [H1 [G1 [I1 W1]]]]]]. rewrite E1. cbn [bind].
  destruct (use_vertex_spec us1 b pb ub H1 Kb Kb') as [us2 [ib [E2 [H2 [G2 [I2 W2]]]]]]. rewrite E2. cbn [bind].
  destruct (use_vertex_spec us2 c pc uc H2 Kc Kc') as [us3 [ic [E3 [H3 [G3 [I3 W3]]]]]]. rewrite E3. cbn [bind].
  destruct (nthz_in_range (sv_map sv) a Ma) as [la La]. destruct (nthz_in_range (sv_map sv) b Mb) as [lb Lb].
  destruct (nthz_in_range (sv_map sv) c Mc) as [lc Lc]. unfold facets_from_vertices.
  rewrite (proj2 (idxz_ok _ _ _) La), (proj2 (idxz_ok _ _ _) Lb), (proj2 (idxz_ok _ _ _) Lc). cbn [bind].
  eexists _, _, _, _. split; [reflexivity|]. split; [reflexivity|]. split; [assumption|]. split; [eauto using grows_trans|].
  split; [unfold tri_at; cbn [tri_list]; repeat (constructor; [solve [auto]|]); constructor|].
  intros w. rewrite W3, W2, W1. cbn [In]. intuition congruence.
Qed.
Lemma tri_at_grows us us' t t' : grows us us' -> tri_at (us_seen us) t t' -> tri_at (us_seen us') t t'.
Proof. intros G H. unfold tri_at in *. revert H. generalize (tri_list t) (tri_list t'). induction 1; constructor; auto. Qed.
Lemma tri_steps_spec tets s T : forall st, used_ok (ts_used st) -> Forall (fun t => Forall known (tri_list t)) T ->
  Forall (fun t => Forall (fun v => 0 <= v < lenz (sv_map sv)) (tri_list t)) T ->
  exists st' T', foldM (tri_step sv tets s) T st = Ok st' /\ used_ok (ts_used st') /\ grows (ts_used st) (ts_used st')
    /\ ts_tris st' = ts_tris st ++ T' /\ Forall2 (tri_at (us_seen (ts_used st'))) T T'
    /\ (forall w, In w (us_seen (ts_used st')) <-> In w (us_seen (ts_used st)) \/ In w (flat_map tri_list T)).
Proof.
  induction T as [|t T IH]; intros st H0 HK HM.
  - exists st, []. split; [reflexivity|]. split; [assumption|]. split; [intros ? ?; auto|]. rewrite app_nil_r. split; [reflexivity|].
    split; [constructor|]. intros w. cbn [flat_map In]. tauto.
  - inversion_clear HK as [|? ? HK0 HK1]. inversion_clear HM as [|? ? HM0 HM1]. cbn [foldM].
    destruct (tri_step_spec tets s st t H0 HK0 HM0) as [us1 [t' [fs [bad [E1 [_ [H1 [G1 [T1 W1]]]]]]]]]. rewrite E1. cbn [bind].
    edestruct (IH (mkTriSt us1 (ts_tris st ++ [t']) (rev (map (fun f => (f, s)) fs) ++ ts_facets st) bad)) as [st' [T' [E2 [H2 [G2 [TT [T2 W2]]]]]]]; try eassumption.
    cbn [ts_used ts_tris] in *. exists st', (t' :: T'). rewrite E2. split; [reflexivity|]. split; [assumption|].
    split; [eauto using grows_trans|]. split; [rewrite TT, <- app_assoc; reflexivity|].
    split; [constructor; [eauto using tri_at_grows|assumption]|].
    intros w. rewrite W2, W1. cbn [flat_map]. rewrite in_app_iff. tauto.
Qed.
End Use.
