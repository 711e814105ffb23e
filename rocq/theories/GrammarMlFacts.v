(** * Reading of the files specified in GrammarMl.v. *)
From Coq Require Import ZArith List Lia Bool Ascii String Permutation.
From Verif Require Import Base Text TextFacts Spec GocadModel GocadFacts MeshModel TsModel TsFacts MlModel MlFacts MlRound LsoFacts LsoRel BorderLoops Grammar GrammarFacts GrammarMl.
Import ListNotations.
Local Open Scope string_scope.
Local Open Scope list_scope.
Local Open Scope Z_scope.

(** ** Lists of numbers *)
Lemma Forall2_with {A B} (P Q : A -> B -> Prop) (R : B -> Prop) a b : (forall x y, P x y -> R y -> Q x y) -> Forall2 P a b -> Forall R b -> Forall2 Q a b.
Proof. intros H. induction 1 as [|x y a b H1 H2 IH]; intros Hr; [constructor|]. apply Forall_cons_iff in Hr as [Hy Hr]. constructor; auto. Qed.
Lemma take_ids_to_zero (parse : bytes -> res Z) es vs z r : Forall2 (fun e v => parse e = Ok v /\ v <> 0) es vs -> parse z = Ok 0 ->
  take_ids parse (es ++ z :: r) = Ok (vs, true).
Proof.
  intros H Hz. induction H as [|e v es vs [He Hv] H IH]; cbn [app take_ids].
  - rewrite Hz. reflexivity.
  - rewrite He. cbn [bind]. rewrite (proj2 (Z.eqb_neq _ _)) by assumption. rewrite IH. reflexivity.
Qed.
Lemma ids_read (denotes : bytes -> Z -> Prop) (parse : bytes -> res Z) (R : Z -> Prop) ls ns rest :
  (forall t n, denotes t n -> n <> 0 -> R n -> parse t = Ok n) -> (forall t, denotes t 0 -> parse t = Ok 0) ->
  ids_text denotes ls ns -> Forall R ns -> read_ids parse (ls ++ rest) = Ok (ns, rest).
Proof.
  intros P P0 (before & last & texts & zero & more & parts & part & -> & H & Hs & Ht & Hz & -> & Hn) Hr.
  apply Forall_app in Hn as [Hn1 Hn2]. apply Forall_app in Hr as [Hr1 Hr2].
  assert (G : forall ts p, Forall2 denotes ts p -> Forall (fun n => n <> 0) p -> Forall R p -> Forall2 (fun e v => parse e = Ok v /\ v <> 0) ts p).
  { intros ts p F1 F2 F3. assert (F4 : Forall (fun n => n <> 0 /\ R n) p) by (now apply Forall_and).
    eapply Forall2_with; [|exact F1|exact F4]. intros x y Hd [Y1 Y2]. split; auto. }
  rewrite <- app_assoc. cbn [app]. induction H as [|l p before parts H1 H2 IH]; cbn [app List.concat] in *.
  - cbn [read_ids]. rewrite Hs. rewrite (take_ids_to_zero parse texts part) by auto. reflexivity.
  - apply Forall_app in Hn1 as [A1 A2]. apply Forall_app in Hr1 as [B1 B2]. cbn [read_ids].
    rewrite (take_ids_all parse (string_split l) p) by auto. cbn [bind]. rewrite IH by auto. cbn [bind]. now rewrite app_assoc.
Qed.

(** ** Components *)
Lemma tsurfs_app a b : tsurfs (a ++ b) = tsurfs a ++ tsurfs b. Proof. apply flat_map_app. Qed.
Lemma faces_app a b : faces (a ++ b) = faces a ++ faces b. Proof. apply flat_map_app. Qed.
Lemma universe_app a b : universe (a ++ b) = universe a ++ universe b. Proof. apply flat_map_app. Qed.
Lemma regions_app a b : regions (a ++ b) = regions a ++ regions b. Proof. apply flat_map_app. Qed.
Lemma layers_app a b : layers (a ++ b) = layers a ++ layers b. Proof. apply flat_map_app. Qed.
Lemma fault_blocks_app a b : fault_blocks (a ++ b) = fault_blocks a ++ fault_blocks b. Proof. apply flat_map_app. Qed.

Definition last_feature (cs : list component) (n : bytes) : bytes :=
  fold_left (fun acc e => if beq (snd e) n then fst e else acc) (faces cs) [].
Definition tsurf_of (cs : list component) (n : bytes) : TsMl := mkTsMl n (last_feature cs n) (positions cs n).
Record reached (nf : Z) (cs : list component) (st : MlSt) : Prop := {
  rd_tsurfs : i_tsurfs st = map (tsurf_of cs) (tsurfs cs);
  rd_surfaces : i_surfaces st = map snd (faces cs);
  rd_universe : i_universe st = map (fun i => Z.abs i - 1) (universe cs);
  rd_blocks : Forall2 region_is (regions cs) (i_blocks st);
  rd_units : Forall2 (unit_is nf) (layers cs) (i_units st);
  rd_fblocks : Forall2 (unit_is nf) (fault_blocks cs) (i_fblocks st)
}.

Lemma combine_snoc {A B} (a : list A) (b : list B) x y : List.length a = List.length b -> combine (a ++ [x]) (b ++ [y]) = combine a b ++ [(x, y)].
Proof. revert b. induction a as [|u a IH]; intros [|v b] H; cbn in *; try lia; [reflexivity|]. f_equal. apply IH. lia. Qed.
Lemma positions_face cs f n x : positions (cs ++ [Tface f n]) x = positions cs x ++ (if beq n x then [lenz (faces cs)] else []).
Proof.
  unfold positions. rewrite faces_app. cbn [faces flat_map app]. rewrite app_length. cbn [List.length]. rewrite Nat.add_1_r, rangez_S.
  rewrite combine_snoc by (now rewrite rangez_length). rewrite filter_app, map_app. cbn [filter snd]. f_equal. destruct (beq n x); reflexivity.
Qed.

Lemma positions_same cs c x : faces [c] = [] -> positions (cs ++ [c]) x = positions cs x.
Proof. intros H. unfold positions. now rewrite faces_app, H, app_nil_r. Qed.
Lemma last_feature_face cs f n x : last_feature (cs ++ [Tface f n]) x = if beq n x then f else last_feature cs x.
Proof. unfold last_feature. rewrite faces_app, fold_left_app. reflexivity. Qed.
Lemma last_feature_same cs c x : faces [c] = [] -> last_feature (cs ++ [c]) x = last_feature cs x.
Proof. intros H. unfold last_feature. now rewrite faces_app, H, app_nil_r. Qed.
Lemma tsurf_of_same cs c : faces [c] = [] -> forall l, map (tsurf_of (cs ++ [c])) l = map (tsurf_of cs) l.
Proof. intros H l. apply map_ext. intros n. unfold tsurf_of. now rewrite last_feature_same, positions_same. Qed.
Lemma combine_in_r {A B} (a : list A) (b : list B) e : In e (combine a b) -> In (snd e) b.
Proof. destruct e. apply in_combine_r. Qed.
(** A TSURF without face so far. *)
Lemma no_face_yet cs n : (forall f, ~ In (f, n) (faces cs)) -> tsurf_of cs n = mkTsMl n [] [].
Proof.
  intros H. unfold tsurf_of. f_equal.
  - unfold last_feature. generalize (@nil ascii). induction (faces cs) as [|[f m] l IH]; intros acc; [reflexivity|]. cbn [fold_left snd fst].
    rewrite (proj2 (beq_neq _ _)) by (intros ->; apply (H f); now left). apply IH. intros g Hg. apply (H g). now right.
  - unfold positions. rewrite filter_none; [reflexivity|]. intros e He. apply combine_in_r in He. destruct (snd e) as [f m] eqn:E. cbn [snd].
    apply beq_neq. intros ->. now apply (H f).
Qed.
Lemma faces_named cs f n : (forall a f n b, cs = a ++ Tface f n :: b -> In n (tsurfs a)) -> In (f, n) (faces cs) -> In n (tsurfs cs).
Proof.
  intros H Hi. unfold faces in Hi. apply in_flat_map in Hi as (c & Hc & Hi). destruct c; try contradiction. destruct Hi as [[= -> ->]|[]].
  apply in_split in Hc as (a & b & ->). rewrite tsurfs_app. apply in_or_app. left. eapply H. reflexivity.
Qed.

Lemma add_tface_map n f s (g : bytes -> TsMl) names : (forall x, tm_name (g x) = x) -> NoDup names -> In n names ->
  add_tface n f s (map g names) = Some (map (fun x => if beq n x then mkTsMl n f (tm_faces (g x) ++ [s]) else g x) names).
Proof.
  intros Hg. induction names as [|x names IH]; intros Hn Hi; [contradiction|]. apply NoDup_cons_iff in Hn as [Hx Hn]. cbn [map add_tface]. rewrite Hg.
  destruct (beq x n) eqn:E.
  - apply beq_eq in E. subst x. rewrite beq_refl. do 2 f_equal. apply map_ext_in. intros y Hy. now rewrite (proj2 (beq_neq _ _)) by (intros ->; contradiction).
  - destruct Hi as [->|Hi]; [now rewrite beq_refl in E|]. rewrite IH by assumption. cbn [option_map].
    rewrite (proj2 (beq_neq n x)) by (intros ->; now rewrite beq_refl in E). reflexivity.
Qed.

Lemma read_name_named ws n : named ws n -> read_name ws = n.
Proof. intros ->. reflexivity. Qed.
Ltac keyword := repeat match goal with |- context [beq (lit ?a) (lit ?b)] => 
  let v := eval vm_compute in (beq (lit a) (lit b)) in change (beq (lit a) (lit b)) with v end; cbn iota.

Lemma step_tsurf nf cs n ls st r : NoDup (tsurfs (cs ++ [Tsurf n])) -> (forall f, In (f, n) (faces cs) -> In n (tsurfs cs)) ->
  reached nf cs st -> component_text ls (Tsurf n) -> not_next "END" ls ->
  exists st', steps st (ls ++ r) st' r /\ reached nf (cs ++ [Tsurf n]) st'.
Proof.
  intros ND HF [R1 R2 R3 R4 R5 R6] (l & ws & -> & E & N) He. destruct st as [ts ss un bs us fs]. cbn in R1, R2, R3, R4, R5, R6. subst.
  eexists. split.
  - cbn [app]. apply steps_one; [exact He|]. unfold component_line. rewrite E. cbn [bind front tl]. keyword. rewrite (read_name_named ws n N). reflexivity.
  - rewrite tsurfs_app in ND. cbn [tsurfs flat_map app] in ND. apply NoDup_remove_2 in ND. rewrite app_nil_r in ND.
    constructor; cbn; rewrite ?tsurfs_app, ?faces_app, ?universe_app, ?regions_app, ?layers_app, ?fault_blocks_app; cbn [tsurfs faces universe regions layers fault_blocks flat_map app];
      rewrite ?app_nil_r; auto.
    rewrite map_app. rewrite tsurf_of_same by reflexivity. f_equal. cbn [map]. f_equal. symmetry.
    unfold tsurf_of. rewrite last_feature_same, positions_same by reflexivity. apply no_face_yet. intros f Hf. apply ND. now apply (HF f).
Qed.
Lemma step_tface nf cs f n ls st r : NoDup (tsurfs cs) -> In n (tsurfs cs) ->
  reached nf cs st -> component_text ls (Tface f n) -> not_next "END" ls ->
  exists st', steps st (ls ++ r) st' r /\ reached nf (cs ++ [Tface f n]) st'.
Proof.
  intros ND HI [R1 R2 R3 R4 R5 R6] (l & w & ws & -> & E & N) He. destruct st as [ts ss un bs us fs]. cbn in R1, R2, R3, R4, R5, R6. subst.
  eexists. split.
  - cbn [app]. apply steps_one; [exact He|]. unfold component_line. rewrite E. cbn [bind front tl]. keyword. cbn [idx nth_error bind skipn]. rewrite (read_name_named ws n N).
    rewrite add_tface_map by (auto). reflexivity.
  - constructor; cbn; rewrite ?tsurfs_app, ?faces_app, ?universe_app, ?regions_app, ?layers_app, ?fault_blocks_app; cbn [tsurfs faces universe regions layers fault_blocks flat_map app];
      rewrite ?app_nil_r; auto.
    + apply map_ext. intros x. unfold tsurf_of. rewrite last_feature_face, positions_face, lenz_map. destruct (beq n x) eqn:Ex.
      * apply beq_eq in Ex. subst x. reflexivity.
      * now rewrite app_nil_r.
    + now rewrite map_app.
Qed.

Lemma surface_numbers ids m : m < 2147483648 -> Forall (fun i => 1 <= Z.abs i <= m) ids -> mapM surface_number ids = Ok (map (fun i => Z.abs i - 1) ids).
Proof.
  intros Hm. induction 1 as [|i ids Hi H IH]; [reflexivity|]. cbn [mapM map]. unfold surface_number at 1. rewrite (proj2 (Z.eqb_neq _ _)) by lia. cbn [bind].
  rewrite IH. reflexivity.
Qed.
Lemma universe_ids_read m ls ids rest : m < 2147483648 -> ids_text integer ls ids -> Forall (fun i => 1 <= Z.abs i <= m) ids ->
  read_ids (universe_parse m) (ls ++ rest) = Ok (ids, rest).
Proof.
  intros Hm. apply ids_read.
  - intros t n H N R. unfold universe_parse. rewrite H. cbn [bind]. rewrite (proj2 (Z.eqb_neq _ _)) by assumption.
    unfold surface_number. rewrite (proj2 (Z.eqb_neq _ _)) by lia. cbn [bind]. now rewrite (proj2 (Z.ltb_lt _ _)) by lia.
  - intros t H. unfold universe_parse. rewrite H. reflexivity.
Qed.
Lemma block_ids_read m ls ids rest : m < 2147483648 -> ids_text integer ls ids -> Forall (fun i => 1 <= Z.abs i <= m) ids ->
  read_ids block_parse (ls ++ rest) = Ok (ids, rest).
Proof.
  intros Hm. apply ids_read.
  - intros t n H N R. unfold block_parse. rewrite H. cbn [bind]. rewrite (proj2 (Z.eqb_neq _ _)) by assumption.
    unfold surface_number. now rewrite (proj2 (Z.eqb_neq _ _)) by lia.
  - intros t H. unfold block_parse. rewrite H. reflexivity.
Qed.
Lemma unit_ids_read ls ids rest : ids_text number ls ids -> read_ids string_to_index (ls ++ rest) = Ok (ids, rest).
Proof. intros H. apply (ids_read number string_to_index (fun _ => True)) with (ns := ids); auto. apply Forall_forall. auto. Qed.
Lemma times_cnt ids x : cnt (map (fun i => Z.abs i - 1) ids) x = times (x + 1) ids.
Proof.
  induction ids as [|i ids IH]; [reflexivity|]. cbn [map]. rewrite cnt_cons, IH. unfold times. cbn [filter].
  destruct (Z.abs i =? x + 1) eqn:E; [rewrite (proj2 (Z.eqb_eq _ _)) by lia|rewrite (proj2 (Z.eqb_neq _ _)) by lia]; reflexivity.
Qed.
Lemma times_in k ids : (0 < times k ids)%nat -> exists i, In i ids /\ Z.abs i = k.
Proof.
  unfold times. intros H. destruct (filter _ ids) as [|i l] eqn:E; [cbn in H; lia|]. exists i.
  assert (Hi : In i (filter (fun i => Z.abs i =? k) ids)) by (rewrite E; now left). apply filter_In in Hi as [Hi Hk]. split; [assumption|lia].
Qed.

Lemma step_region nf cs n ids ls st r : lenz (faces cs) < 2147483648 -> Forall (fun i => 1 <= Z.abs i <= lenz (faces cs)) ids ->
  (n <> lit "Universe" -> (2 <= List.length ids)%nat /\ forall k, (times k ids <= 2)%nat) ->
  reached nf cs st -> component_text ls (Region n ids) -> not_next "END" ls ->
  exists st', steps st (ls ++ r) st' r /\ reached nf (cs ++ [Region n ids]) st'.
Proof.
  intros HN HI HU [R1 R2 R3 R4 R5 R6] (l & w & ws & li & -> & E & N & T) He. destruct st as [ts ss un bs us fs]. cbn in R1, R2, R3, R4, R5, R6. subst ts ss un.
  assert (HS : map (tsurf_of (cs ++ [Region n ids])) (tsurfs cs) = map (tsurf_of cs) (tsurfs cs)) by (apply tsurf_of_same; reflexivity).
  destruct (beq n "Universe") eqn:EU.
  - eexists. split.
    + cbn [app]. apply steps_one; [exact He|]. unfold component_line. rewrite E. cbn [bind front tl]. keyword. cbn [idx nth_error bind skipn].
      rewrite (read_name_named ws n N), EU, lenz_map. rewrite (universe_ids_read _ _ _ _ HN T HI). cbn [bind].
      rewrite (surface_numbers ids (lenz (faces cs)) HN HI). cbn [bind]. reflexivity.
    + constructor; cbn; rewrite ?tsurfs_app, ?faces_app, ?universe_app, ?regions_app, ?layers_app, ?fault_blocks_app;
        cbn [tsurfs faces universe regions layers fault_blocks flat_map app]; rewrite ?EU; cbn [app]; rewrite ?app_nil_r; auto.
      now rewrite map_app.
  - destruct HU as [HL HT]; [intros ->; discriminate EU|].
    destruct (block_topology_spec (lenz (faces cs)) (map (fun i => Z.abs i - 1) ids)) as (bd & it & B & B1 & B2 & B3 & B4).
    { intros x Hx. apply in_map_iff in Hx as (i & <- & Hi). rewrite Forall_forall in HI. specialize (HI i Hi). cbn beta in HI. lia. }
    { intros x. rewrite times_cnt. apply HT. }
    { now rewrite map_length. }
    eexists. split.
    + cbn [app]. apply steps_one; [exact He|]. unfold component_line. rewrite E. cbn [bind front tl]. keyword. cbn [idx nth_error bind skipn].
      rewrite (read_name_named ws n N), EU, lenz_map. rewrite (block_ids_read _ _ _ _ HN T HI). cbn [bind].
      rewrite (surface_numbers ids (lenz (faces cs)) HN HI). cbn [bind]. rewrite B. cbn [bind]. reflexivity.
    + assert (RI : region_is (n, ids) (mkBlkIn n bd it)).
      { rewrite Forall_forall in HI. split; [reflexivity|]. split; [assumption|]. split; [assumption|]. cbn [bi_boundaries bi_internals snd].
        split; intros s; rewrite ?B3, ?B4, times_cnt; (split; [|tauto]); intros H; (split; [|assumption]);
        (destruct (times_in (s + 1) ids) as (i & Hi & Ei); [lia|]); specialize (HI i Hi); cbn beta in HI; lia. }
      constructor; cbn; rewrite ?tsurfs_app, ?faces_app, ?universe_app, ?regions_app, ?layers_app, ?fault_blocks_app;
        cbn [tsurfs faces universe regions layers fault_blocks flat_map app]; rewrite ?EU; cbn [app]; rewrite ?app_nil_r; auto.
      apply Forall2_app; auto.
Qed.

Lemma unit_read nf nb n ids : 0 <= nf -> nf + 1 + nb < two32 -> Forall (fun i => nf + 1 <= i <= nf + 1 + nb) ids ->
  unit_is nf (n, ids) (n, unit_blocks nf nb ids).
Proof.
  intros H0 HB H. split; [reflexivity|]. cbn [snd]. unfold unit_blocks. induction H as [|i ids Hi H IH]; [constructor|]. cbn [filter flat_map].
  rewrite wrap32_small by lia. destruct (i =? nf + 1) eqn:E; cbn [negb].
  - rewrite (proj2 (Z.eqb_eq _ _)) by lia. exact IH.
  - rewrite (proj2 (Z.eqb_neq _ _)) by lia. rewrite (proj2 (Z.ltb_lt _ _)) by lia. cbn [app]. constructor; [lia|exact IH].
Qed.
Lemma Forall2_lenz {A B} (P : A -> B -> Prop) a b : Forall2 P a b -> lenz a = lenz b.
Proof. intros H. unfold lenz. now rewrite (Forall2_len _ _ _ H). Qed.
Lemma step_unit nf cs c n ids ls st r : c = Layer n ids \/ c = Fault_block n ids -> nf = lenz (faces cs) -> nf + 1 + lenz (regions cs) < two32 ->
  Forall (fun i => nf + 1 <= i <= nf + 1 + lenz (regions cs)) ids ->
  reached nf cs st -> component_text ls c -> not_next "END" ls ->
  exists st', steps st (ls ++ r) st' r /\ reached nf (cs ++ [c]) st'.
Proof.
  intros Hc Hf HN HI [R1 R2 R3 R4 R5 R6] T He. destruct st as [ts ss un bs us fs]. cbn in R1, R2, R3, R4, R5, R6. subst ts ss un.
  assert (HS : map (tsurf_of (cs ++ [c])) (tsurfs cs) = map (tsurf_of cs) (tsurfs cs)) by (apply tsurf_of_same; destruct Hc as [->| ->]; reflexivity).
  assert (U : unit_is nf (n, ids) (n, unit_blocks nf (lenz (regions cs)) ids)).
  { apply unit_read; auto. subst nf. apply lenz_nonneg. }
  assert (EB : lenz bs = lenz (regions cs)) by (symmetry; eapply Forall2_lenz; exact R4).
  destruct Hc as [->| ->]; destruct T as (l & ws & li & -> & E & N & T).
  - eexists. split.
    + cbn [app]. apply steps_one; [exact He|]. unfold component_line. rewrite E. cbn [bind front tl]. keyword.
      rewrite (read_name_named ws n N), lenz_map. rewrite (unit_ids_read _ _ _ T). cbn [bind]. reflexivity.
    + constructor; cbn; rewrite ?tsurfs_app, ?faces_app, ?universe_app, ?regions_app, ?layers_app, ?fault_blocks_app;
        cbn [tsurfs faces universe regions layers fault_blocks flat_map app]; rewrite ?app_nil_r; auto.
      apply Forall2_app; auto. constructor; [|constructor]. rewrite EB, <- Hf. exact U.
  - eexists. split.
    + cbn [app]. apply steps_one; [exact He|]. unfold component_line. rewrite E. cbn [bind front tl]. keyword.
      rewrite (read_name_named ws n N), lenz_map. rewrite (unit_ids_read _ _ _ T). cbn [bind]. reflexivity.
    + constructor; cbn; rewrite ?tsurfs_app, ?faces_app, ?universe_app, ?regions_app, ?layers_app, ?fault_blocks_app;
        cbn [tsurfs faces universe regions layers fault_blocks flat_map app]; rewrite ?app_nil_r; auto.
      apply Forall2_app; auto. constructor; [|constructor]. rewrite EB, <- Hf. exact U.
Qed.
Lemma step_other nf cs l st r : other_line [lit "TSURF"; lit "TFACE"; lit "REGION"; lit "LAYER"; lit "FAULT_BLOCK"] l -> starts_not "END" l ->
  reached nf cs st -> steps st (l :: r) st r.
Proof.
  intros (k & more & E & H) He _. apply steps_one; [exact He|]. apply not_in_beq in H.
  repeat match goal with H : Forall _ (_ :: _) |- _ => apply Forall_cons_iff in H as [? H] end.
  destruct st as [ts ss un bs us fs]. unfold component_line. rewrite E. cbn [bind front].
  repeat match goal with H : beq k _ = false |- _ => rewrite H; clear H end. reflexivity.
Qed.

Lemma components_read full ls cs : consistent full -> lenz (faces full) + 1 + lenz (regions full) < 2147483648 -> components_text ls cs ->
  forall done st r, full = done ++ cs -> reached (lenz (faces full)) done st ->
  exists st', steps st (ls ++ r) st' r /\ reached (lenz (faces full)) full st'.
Proof.
  intros [C1 C2 C3 C4 C5 C6] HN T. induction T as [|a b c cs T He T' IH|l b cs O He T IH]; intros done st r EF R.
  - exists st. rewrite app_nil_r in EF. subst full. split; [constructor|assumption].
  - assert (LF : lenz (faces done) <= lenz (faces full)) by (rewrite EF, faces_app, lenz_app; pose proof (lenz_nonneg (faces (c :: cs))); lia).
    assert (LR : lenz (regions done) <= lenz (regions full)) by (rewrite EF, regions_app, lenz_app; pose proof (lenz_nonneg (regions (c :: cs))); lia).
    pose proof (lenz_nonneg (regions full)) as L0.
    assert (EF' : full = (done ++ [c]) ++ cs) by (rewrite <- app_assoc; exact EF).
    assert (NDd : NoDup (tsurfs (done ++ [c]))).
    { rewrite EF', tsurfs_app in C1. clear -C1. revert C1. generalize (tsurfs (done ++ [c])) (tsurfs cs). intros x y H. induction x as [|e x IH]; [constructor|].
      cbn [app] in H. apply NoDup_cons_iff in H as [H1 H2]. constructor; auto. intros Hi. apply H1. apply in_or_app. now left. }
    assert (ST : exists st1, steps st (a ++ b ++ r) st1 (b ++ r) /\ reached (lenz (faces full)) (done ++ [c]) st1).
    { destruct c as [n|f n|n ids|n ids|n ids].
      - apply step_tsurf; auto. intros f Hf. apply (faces_named done f n); [|assumption]. intros a0 f0 n0 b0 E0. apply (C2 a0 f0 n0 (b0 ++ Tsurf n :: cs)).
        rewrite EF, E0, <- app_assoc. reflexivity.
      - apply step_tface; auto; [|eapply C2; exact EF]. rewrite tsurfs_app in NDd. cbn [tsurfs flat_map] in NDd. now rewrite !app_nil_r in NDd.
      - destruct (C5 _ _ _ _ EF) as [P1 P2]. apply step_region; auto. lia.
      - destruct (C6 done n ids cs (or_introl EF)) as [P1 P2].
        assert (EN : faces full = faces done) by (rewrite EF, faces_app; cbn [faces flat_map app]; fold (faces cs); rewrite P1; apply app_nil_r).
        eapply (step_unit _ _ _ n ids); eauto; rewrite EN in *; auto. unfold two32. lia.
      - destruct (C6 done n ids cs (or_intror EF)) as [P1 P2].
        assert (EN : faces full = faces done) by (rewrite EF, faces_app; cbn [faces flat_map app]; fold (faces cs); rewrite P1; apply app_nil_r).
        eapply (step_unit _ _ _ n ids); eauto; rewrite EN in *; auto. unfold two32. lia. }
    destruct ST as (st1 & S1 & R1). destruct (IH (done ++ [c]) st1 r EF' R1) as (st2 & S2 & R2). exists st2. split; [|assumption].
    rewrite <- app_assoc. eapply steps_trans; eauto.
  - destruct (IH done st r EF R) as (st' & S' & R'). exists st'. split; [|assumption]. cbn [app]. eapply steps_trans; [eapply step_other; eauto|exact S'].
Qed.

(** ** Collections *)
Lemma Forall2_in_r {A B} (P : A -> B -> Prop) a b y : Forall2 P a b -> In y b -> exists x, In x a /\ P x y.
Proof. induction 1 as [|x z a b H1 H2 IH]; [intros []|]. intros [<-|Hi]; [exists x; split; [now left|assumption]|]. destruct (IH Hi) as (w & Hw & Pw). exists w. split; [now right|assumption]. Qed.
Lemma Forall2_in_l {A B} (P : A -> B -> Prop) a b x : Forall2 P a b -> In x a -> exists y, In y b /\ P x y.
Proof. induction 1 as [|z y a b H1 H2 IH]; [intros []|]. intros [<-|Hi]; [exists y; split; [now left|assumption]|]. destruct (IH Hi) as (w & Hw & Pw). exists w. split; [now right|assumption]. Qed.
Lemma positions_in cs n s : In s (positions cs n) <-> exists f, nthz (faces cs) s = Some (f, n).
Proof.
  unfold positions. rewrite in_map_iff. split.
  - intros ([i [f m]] & <- & H). apply filter_In in H as [H E]. cbn [snd] in E. apply beq_eq in E. subst m. apply in_indexed in H. eauto.
  - intros [f H]. exists (s, (f, n)). split; [reflexivity|]. apply filter_In. split; [now apply in_indexed|apply beq_refl].
Qed.
Lemma combine_fst {A B} (a : list A) (b : list B) : List.length a = List.length b -> map fst (combine a b) = a.
Proof. revert b. induction a as [|x a IH]; intros [|y b] H; cbn in *; try lia; [reflexivity|]. f_equal. apply IH. lia. Qed.
Lemma positions_nodup cs n : NoDup (positions cs n).
Proof. unfold positions. apply NoDup_filter_fst. rewrite combine_fst by (now rewrite rangez_length). apply LsoFacts.rangez_nodup. Qed.

Lemma last_feature_is cs f n : (forall f g, In (f, n) (faces cs) -> In (g, n) (faces cs) -> f = g) -> In (f, n) (faces cs) -> last_feature cs n = f.
Proof.
  intros H Hi. assert (G : forall l acc, (forall g, In (g, n) l -> g = f) -> (acc = f \/ In (f, n) l) ->
    fold_left (fun acc e => if beq (snd e) n then fst e else acc) l acc = f).
  { induction l as [|[g m] l IH]; intros acc HL [<-|HI]; cbn [fold_left fst snd]; auto; try contradiction.
    - apply IH; [intros; apply HL; now right|]. left. destruct (beq m n) eqn:E; [|reflexivity]. apply beq_eq in E. subst m. apply HL. now left.
    - apply IH; [intros; apply HL; now right|]. destruct HI as [[= -> ->]|HI]; [left; now rewrite beq_refl|now right]. }
  apply G; [|now right]. intros g Hg. eapply H; eauto.
Qed.
Lemma feature_kind f k : In (f, k) features -> kind_of f = Ok k.
Proof. intros H. repeat (destruct H as [[= <- <-]|H]; [reflexivity|]). contradiction. Qed.
Lemma feature_boundary f k : In (f, k) features -> (k = KBoundary <-> In f [lit "boundary"; lit "lease"]).
Proof.
  intros H. repeat (destruct H as [[= <- <-]|H]; [split; [intros E; first [discriminate E|cbn; tauto]|intros E; first [reflexivity|exfalso; cbn in E; intuition discriminate]]|]). contradiction.
Qed.

Lemma colls_read full st nf : consistent full -> reached nf full st ->
  exists colls extra, create_tsurfs st = Ok (colls ++ extra) /\ Forall2 (collection_is full) (tsurfs full) colls /\ others_are full extra.
Proof.
  intros [C1 C2 C3 C4 C5 C6] [R1 R2 R3 R4 R5 R6]. 
  set (one := fun t => do k <- kind_of (tm_feature t); Ok (mkCollIn k (tm_name t) (tm_faces t))).
  assert (M : exists colls, mapM one (i_tsurfs st) = Ok colls /\ Forall2 (collection_is full) (tsurfs full) colls).
  { rewrite R1. assert (G : forall l, (forall n, In n l -> In n (tsurfs full)) -> exists colls, mapM one (map (tsurf_of full) l) = Ok colls /\ Forall2 (collection_is full) l colls).
    { induction l as [|n l IH]; intros HL; [exists []; split; [reflexivity|constructor]|].
      destruct IH as (colls & E & FA); [intros; apply HL; now right|]. destruct (C4 n) as (f & k & Hf & Hk); [apply HL; now left|].
      exists (mkCollIn k n (positions full n) :: colls). split.
      - cbn [map mapM]. unfold one at 1. unfold tsurf_of at 1 2 3. cbn [tm_feature tm_name tm_faces]. rewrite (last_feature_is full f n) by (eauto).
        rewrite (feature_kind f k Hk). cbn [bind]. rewrite E. reflexivity.
      - constructor; [|assumption]. split; [reflexivity|]. split; [reflexivity|]. exists f. auto. }
    apply G. auto. }
  destruct M as (colls & M & FA). exists colls. unfold create_tsurfs. fold one. rewrite M. cbn [bind]. cbv zeta.
  set (bs := flat_map ci_surfaces (filter is_boundary colls)).
  assert (Hbs : forall s, In s bs <-> exists f n, nthz (faces full) s = Some (f, n) /\ In f [lit "boundary"; lit "lease"]).
  { intros s. unfold bs. rewrite in_flat_map. split.
    - intros (c & Hc & Hs). apply filter_In in Hc as [Hc HB]. destruct (Forall2_in_r _ _ _ _ FA Hc) as (n & Hn & N1 & N2 & f & Hf & Hk).
      rewrite N2 in Hs. apply positions_in in Hs as [g Hg]. exists g, n. split; [assumption|].
      rewrite <- (C3 f g n Hf (nthz_in _ _ _ Hg)). apply (feature_boundary f _ Hk). unfold is_boundary in HB. destruct (ci_kind c); congruence.
    - intros (f & n & Hs & Hf). pose proof (nthz_in _ _ _ Hs) as Hi.
      destruct (Forall2_in_l _ _ _ n FA) as (c & Hc & N1 & N2 & g & Hg & Hk); [eapply faces_named; eauto|]. exists c. split.
      + apply filter_In. split; [assumption|]. rewrite <- (C3 f g n Hi Hg) in Hk. apply (feature_boundary f _ Hk) in Hf. unfold is_boundary. now rewrite Hf.
      + rewrite N2. apply positions_in. eauto. }
  assert (NDb : NoDup bs).
  { unfold bs. clear Hbs bs M one. revert C1 FA. generalize (tsurfs full). intros names ND FA. induction FA as [|n c names colls Hc FA IH]; [constructor|].
    apply NoDup_cons_iff in ND as [N1 N2]. specialize (IH N2). cbn [filter]. destruct (is_boundary c); [|assumption]. cbn [flat_map].
    destruct Hc as (_ & E & _). apply NoDup_app_both; [rewrite E; apply positions_nodup|assumption|].
    intros s Hs Hs'. rewrite E in Hs. apply positions_in in Hs as [f Hf]. apply in_flat_map in Hs' as (c' & Hc' & Hs'). apply filter_In in Hc' as [Hc' _].
    destruct (Forall2_in_r _ _ _ _ FA Hc') as (n' & Hn' & _ & N & _). rewrite N in Hs'. apply positions_in in Hs' as [g Hg]. congruence. }
  set (diff := filter (fun s => negb (existsb (Z.eqb s) (i_universe st))) bs).
  assert (Hd : forall s, In s diff <-> boundary_away full s).
  { intros s. unfold diff, boundary_away. rewrite filter_In, Hbs, R3. split.
    - intros [(f & n & H1 & H2) H]. exists f, n. split; [assumption|]. split; [assumption|]. destruct (times (s + 1) (universe full)) eqn:E; [reflexivity|exfalso].
      destruct (times_in (s + 1) (universe full)) as (i & Hi & Ei); [lia|]. apply negb_true_iff in H.
      assert (X : existsb (Z.eqb s) (map (fun i => Z.abs i - 1) (universe full)) = true); [|congruence].
      apply existsb_exists. exists (Z.abs i - 1). split; [apply in_map_iff; eauto|lia].
    - intros (f & n & H1 & H2 & H). split; [eauto|]. apply negb_true_iff. destruct (existsb _ _) eqn:E; [exfalso|reflexivity].
      apply existsb_exists in E as (x & Hx & E). apply in_map_iff in Hx as (i & <- & Hi).
      assert (X : In i (filter (fun i => Z.abs i =? s + 1) (universe full))) by (apply filter_In; split; [assumption|lia]).
      unfold times in H. apply length_zero_iff_nil in H. rewrite H in X. contradiction. }
  assert (NDd : NoDup diff) by (now apply NoDup_filter).
  destruct diff as [|s0 diff'] eqn:ED.
  - exists []. rewrite app_nil_r. split; [reflexivity|]. split; [assumption|]. left. split; [reflexivity|]. intros s Hs. apply Hd in Hs. contradiction.
  - exists [mkCollIn KBoundary (lit "undefined boundary") (s0 :: diff')]. split; [reflexivity|]. split; [assumption|]. right.
    eexists. split; [reflexivity|]. cbn [ci_kind ci_name ci_surfaces]. repeat (split; [first [reflexivity|assumption|discriminate]|]). assumption.
Qed.

(** ** Meshes *)
Definition section_triangles {F} (ss : list (section F)) : list (Z * Z * Z) := flat_map sn_triangles ss.
Fixpoint offsets (a : Z) (sizes : list Z) : list Z := match sizes with [] => [] | s :: r => a :: offsets (a + s) r end.
Fixpoint sum (l : list Z) : Z := match l with [] => 0 | x :: r => x + sum r end.
Lemma sum_app a b : sum (a ++ b) = sum a + sum b.
Proof. induction a as [|x a IH]; cbn; lia. Qed.
Lemma offsets_app l : forall a l', offsets a (l ++ l') = offsets a l ++ offsets (a + sum l) l'.
Proof. induction l as [|x l IH]; intros a l'; cbn [app offsets sum]; [now rewrite Z.add_0_r|]. rewrite IH. cbn [app]. do 3 f_equal. lia. Qed.
Lemma lenz_flat_map {A B} (f : A -> list B) l : lenz (flat_map f l) = sum (map (fun x => lenz (f x)) l).
Proof. induction l as [|x l IH]; [reflexivity|]. cbn [flat_map map sum]. now rewrite lenz_app, IH. Qed.
Definition nb_v {F} (s : section F) : Z := lenz (sn_vertices s).
Definition nb_t {F} (s : section F) : Z := lenz (sn_triangles s).
Record marked {F} (ss : list (section F)) (st : TSurf F) : Prop := {
  mk_v : t_vert_off st = offsets 0 (map nb_v ss);
  mk_t : t_tri_off st = offsets 0 (map nb_t ss)
}.
Lemma marked_last {F} (ss : list (section F)) s s' st st' : marked (ss ++ [s]) st -> t_vert_off st' = t_vert_off st -> t_tri_off st' = t_tri_off st -> marked (ss ++ [s']) st'.
Proof. intros [H1 H2] E1 E2. constructor; rewrite ?E1, ?E2, ?H1, ?H2, !map_app, !offsets_app; reflexivity. Qed.
Lemma marked_same {F} (ss : list (section F)) st st' : marked ss st -> t_vert_off st' = t_vert_off st -> t_tri_off st' = t_tri_off st -> marked ss st'.
Proof. intros [H1 H2] E1 E2. constructor; congruence. Qed.
Lemma keep_marks F (st st' : TSurf F) l k more b : string_split l = k :: more -> k <> lit "TFACE" -> k <> lit "END" -> tface_line F st l = Ok (st', b) ->
  t_vert_off st' = t_vert_off st /\ t_tri_off st' = t_tri_off st.
Proof.
  intros E H1 H2 H. apply beq_neq in H1. apply beq_neq in H2. destruct st as [off nm c pr pts tris tro vo bst bor vals]. unfold tface_line in H. rewrite E in H. cbn [bind front] in H.
  destruct (is_vrtx k). { do 3 apply bind_ok in H as [? [_ H]]. injection H as <- _. split; reflexivity. }
  destruct (is_atom k). { do 3 apply bind_ok in H as [? [_ H]]. injection H as <- _. split; reflexivity. }
  destruct (beq k "TRGL"). { do 3 apply bind_ok in H as [? [_ H]]. injection H as <- _. split; reflexivity. }
  destruct (beq k "BSTONE"). { apply bind_ok in H as [? [_ H]]. injection H as <- _. split; reflexivity. }
  destruct (beq k "BORDER"). { do 2 apply bind_ok in H as [? [_ H]]. injection H as <- _. split; reflexivity. }
  rewrite H1, H2 in H. injection H as <- _. split; reflexivity.
Qed.
Lemma new_marks F (st st' : TSurf F) l k more b : string_split l = k :: more -> k = lit "TFACE" \/ k = lit "END" -> tface_line F st l = Ok (st', b) ->
  t_vert_off st' = t_vert_off st ++ [lenz (t_points st)] /\ t_tri_off st' = t_tri_off st ++ [lenz (t_triangles st)].
Proof.
  intros E Hk H. destruct st as [off nm c pr pts tris tro vo bst bor vals]. unfold tface_line in H. rewrite E in H. cbn [bind front] in H.
  destruct Hk as [->| ->].
  - change (is_vrtx (lit "TFACE")) with false in H. change (is_atom (lit "TFACE")) with false in H. 
    change (beq (lit "TFACE") (lit "TRGL")) with false in H. change (beq (lit "TFACE") (lit "BSTONE")) with false in H. change (beq (lit "TFACE") (lit "BORDER")) with false in H.
    change (beq (lit "TFACE") (lit "TFACE")) with true in H. injection H as <- _. split; reflexivity.
  - change (is_vrtx (lit "END")) with false in H. change (is_atom (lit "END")) with false in H. 
    change (beq (lit "END") (lit "TRGL")) with false in H. change (beq (lit "END") (lit "BSTONE")) with false in H. change (beq (lit "END") (lit "BORDER")) with false in H.
    change (beq (lit "END") (lit "TFACE")) with false in H. change (beq (lit "END") (lit "END")) with true in H. injection H as <- _. split; reflexivity.
Qed.
Lemma state_sizes {F} name crs (h : PropHeader (num F)) ss st : surface_state name crs h (section_vertices ss) (section_triangles ss) st ->
  lenz (t_points st) = sum (map nb_v ss) /\ lenz (t_triangles st) = sum (map nb_t ss).
Proof. intros [S1 S2 S3 S4 S5 S6 S7]. rewrite S5, S6, !lenz_map. unfold section_vertices, section_triangles. now rewrite !lenz_flat_map. Qed.
Lemma section_vertices_last {F} (ss : list (section F)) vs ts : section_vertices (ss ++ [mkSection vs ts]) = section_vertices ss ++ vs.
Proof. unfold section_vertices. rewrite flat_map_app. cbn. now rewrite app_nil_r. Qed.
Lemma section_triangles_last {F} (ss : list (section F)) vs ts : section_triangles (ss ++ [mkSection vs ts]) = section_triangles ss ++ ts.
Proof. unfold section_triangles. rewrite flat_map_app. cbn. now rewrite app_nil_r. Qed.

Lemma sheet_loop F up ps name crs h : z_sign_positive crs = up -> head_of h ps -> small_sizes ps ->
  forall st0, surface_state name crs h [] [] st0 -> marked [mkSection [] []] st0 -> forall ls ss, sheet_data F up ps ls ss ->
  (section_vertices ss = [] -> section_triangles ss = []) /\ good_numbers (section_vertices ss) /\
  exists st, surface_state name crs h (section_vertices ss) (section_triangles ss) st /\ marked ss st /\ forall r, tfaces_loop F st0 (ls ++ r) = tfaces_loop F st r.
Proof.
  intros Hz Hh Hs st0 S0 M0 ls ss H.
  assert (Step : forall ls st l st' , tface_line F st l = Ok (st', false) -> (forall r, tfaces_loop F st0 (ls ++ r) = tfaces_loop F st r) ->
    forall r, tfaces_loop F st0 ((ls ++ [l]) ++ r) = tfaces_loop F st' r).
  { intros ls0 st l st' E L r. rewrite <- app_assoc. cbn [app]. rewrite L. cbn [tfaces_loop]. rewrite E. reflexivity. }
  induction H as [|ls ss vs ts l v H (IH0 & IHg & st & IHs & IHm & IHl) Hv Hn|ls ss vs ts l o w v H (IH0 & IHg & st & IHs & IHm & IHl) Ha Hn Hw Ho Hp
    |ls ss vs ts l t H (IH0 & IHg & st & IHs & IHm & IHl) Ht Hn|ls ss l more H (IH0 & IHg & st & IHs & IHm & IHl) Ht|ls ss l H (IH0 & IHg & st & IHs & IHm & IHl) Ht
    |ls ss l H (IH0 & IHg & st & IHs & IHm & IHl) Ht]; rewrite ?section_vertices_last, ?section_triangles_last in *.
  - split; [reflexivity|]. split; [apply good_nil|]. exists st0. split; [assumption|]. split; [assumption|reflexivity].
  - split; [intros E; apply app_eq_nil in E as [_ E]; now destruct vs|]. split.
    { rewrite app_assoc. apply good_snoc; auto. destruct Hv as [k [tn [tx [ty [tz [texts [x [y [z [_ [_ [N _]]]]]]]]]]]]. now apply number_range in N. }
    destruct (tface_vertex F up ps name crs h _ _ st l v Hz Hh Hs IHs IH0 Hv) as [st' [E S']]. exists st'.
    destruct Hv as [k [tn [tx [ty [tz [texts [x [y [z [Es [Hk _]]]]]]]]]]].
    destruct (keep_marks F st st' l k _ false Es) with (3 := E) as [K1 K2]; [destruct Hk as [<-|[<-|[]]]; discriminate|destruct Hk as [<-|[<-|[]]]; discriminate|].
    rewrite app_assoc. split; [assumption|]. split; [eapply marked_last; eauto|now apply Step with st].
  - split; [intros E; apply app_eq_nil in E as [_ E]; now destruct vs|]. split.
    { rewrite app_assoc. apply good_snoc; auto. destruct Ha as [k [tn [ti [texts [_ [_ [N _]]]]]]]. now apply number_range in N. }
    destruct (tface_atom F ps name crs h _ _ st l o w v Hh Hs IHs IHg Ha Hw Ho Hp) as [st' [E S']]. exists st'.
    destruct Ha as [k [tn [ti [texts [Es [Hk _]]]]]].
    destruct (keep_marks F st st' l k _ false Es) with (3 := E) as [K1 K2]; [destruct Hk as [<-|[<-|[]]]; discriminate|destruct Hk as [<-|[<-|[]]]; discriminate|].
    rewrite app_assoc. split; [assumption|]. split; [eapply marked_last; eauto|now apply Step with st].
  - split; [intros E; contradiction|]. split; [assumption|].
    destruct (tface_triangle F name crs h _ _ st l t IHs Ht) as [st' [E S']]. exists st'.
    destruct Ht as [ta [tb [tc [more [Es _]]]]].
    destruct (keep_marks F st st' l _ _ false Es) with (3 := E) as [K1 K2]; [discriminate|discriminate|].
    rewrite app_assoc. split; [assumption|]. split; [eapply marked_last; eauto|now apply Step with st].
  - rewrite !app_nil_r. split; [assumption|]. split; [assumption|].
    destruct (tface_section F name crs h _ _ st l more IHs Ht) as [st' [E S']]. exists st'.
    destruct (new_marks F st st' l _ _ _ Ht (or_introl eq_refl) E) as [K1 K2]. destruct (state_sizes _ _ _ _ _ IHs) as [Z1 Z2].
    split; [assumption|]. split; [|now apply Step with st]. destruct IHm as [M1 M2]. constructor; rewrite ?K1, ?K2, ?M1, ?M2, ?Z1, ?Z2, !map_app, !offsets_app; reflexivity.
  - split; [assumption|]. split; [assumption|].
    destruct (tface_stone F name crs h _ _ st l IHs Ht) as [st' [E S']]. exists st'.
    assert (K : t_vert_off st' = t_vert_off st /\ t_tri_off st' = t_tri_off st).
    { destruct Ht as [[ta [more [a [Es _]]]]|[w [ta [tb [more [a [b [Es _]]]]]]]]; eapply (keep_marks F st st' l); try exact Es; try exact E; discriminate. }
    destruct K as [K1 K2]. split; [assumption|]. split; [eapply marked_same; eauto|now apply Step with st].
  - split; [assumption|]. split; [assumption|]. exists st. split; [assumption|]. split; [assumption|]. apply Step with st; [|assumption]. eapply tface_other; eauto.
Qed.

Lemma sheet_read F ls (s : sheet F) rest b : sheet_text F ls s rest ->
  exists st, read_tsurf F (mkStream ls b) = Ok (Some st, mkStream rest b) /\ t_name st = sh_name s /\ good_numbers (section_vertices (sh_sections s)) /\
    t_points st = map vx_point (section_vertices (sh_sections s)) /\
    t_triangles st = map (in_base (base (section_vertices (sh_sections s)))) (section_triangles (sh_sections s)) /\
    t_vert_off st = offsets 0 (map nb_v (sh_sections s)) ++ [sum (map nb_v (sh_sections s))] /\
    t_tri_off st = offsets 0 (map nb_t (sh_sections s)) ++ [sum (map nb_t (sh_sections s))].
Proof.
  intros (up & ps & between & tface & data & last & (block & Ho & Hp & Hnp) & Hb & Ht & Hd & Hl & Hs & Hc).
  set (body := between ++ tface :: data ++ last :: rest) in *.
  assert (Hbody : body <> []) by (unfold body; now destruct between).
  destruct (object_head _ _ _ _ _ b Ho) as (crs & first & r & Hz & E1 & r' & E2 & E3); [destruct block; [assumption|discriminate]|].
  destruct (properties_read F block ps body b Hp Hnp Hbody) as (h & E4 & Hh).
  set (st0 := mkTSurf 1 (sh_name s) crs h [] [] [0] [0] [] [] (map (fun _ => []) (p_names h)) : TSurf F).
  assert (Lh : List.length (p_names h) = List.length ps) by (destruct Hh as [-> _]; apply map_length).
  assert (S0 : surface_state (sh_name s) crs h [] [] st0).
  { constructor; try reflexivity. cbn. rewrite (columns_nil ps) by assumption. now rewrite Lh. }
  assert (M0 : marked [mkSection [] []] st0) by (constructor; reflexivity).
  destruct (sheet_loop F up ps (sh_name s) crs h Hz Hh Hs st0 S0 M0 data _ Hd) as (_ & G & st & St & [M1 M2] & L).
  destruct (tface_end F _ crs h _ _ st last St Hl) as (st' & E5 & S').
  destruct (state_sizes _ _ _ _ _ St) as [Z1 Z2]. destruct Hl as [more Hl].
  destruct (new_marks F st st' last _ _ _ Hl (or_intror eq_refl) E5) as [K1 K2].
  exists st'. split; [|rewrite K1, K2, M1, M2, Z1, Z2; destruct S' as [S1 S2 S3 S4 S5 S6 S7]; auto 10].
  unfold read_tsurf. rewrite E1. rewrite E2. cbn [bind]. rewrite E3. cbn [bind]. rewrite E4. cbn [bind]. cbv zeta. fold st0.
  unfold read_tfaces. unfold body. rewrite goto_keyword_first by assumption. cbn [bind pending nl]. rewrite L. cbn [tfaces_loop]. rewrite E5. reflexivity.
Qed.

Lemma idx_mid {A} (x : list A) v r : idx (x ++ v :: r) (List.length x) = Ok v.
Proof. unfold idx. now rewrite nth_error_app2, Nat.sub_diag by lia. Qed.
Lemma idx_mid_next {A} (x : list A) v w r : idx (x ++ v :: w :: r) (S (List.length x)) = Ok w.
Proof. unfold idx. rewrite nth_error_app2 by lia. replace (S (List.length x) - List.length x)%nat with 1%nat by lia. reflexivity. Qed.
Lemma offsets_head a l : exists t, offsets a l ++ [a + sum l] = a :: t.
Proof. destruct l as [|x l]; cbn [offsets sum app]; [rewrite Z.add_0_r|]; eauto. Qed.
Lemma offsets_length l : forall a, List.length (offsets a l) = List.length l.
Proof. induction l as [|x l IH]; intros a; cbn; [reflexivity|]. now rewrite IH. Qed.
Lemma offsets_idx (l : list Z) x r :
  let o := offsets 0 (l ++ x :: r) ++ [sum (l ++ x :: r)] in
  idx o (List.length l) = Ok (sum l) /\ idx o (S (List.length l)) = Ok (sum l + x).
Proof.
  cbv zeta. rewrite offsets_app. cbn [offsets]. rewrite sum_app. cbn [sum]. rewrite <- app_assoc. cbn [app].
  rewrite Z.add_0_l, Z.add_assoc. destruct (offsets_head (sum l + x) r) as [t ->]. pose proof (offsets_length l 0) as L.
  split; rewrite <- L; [apply idx_mid|apply idx_mid_next].
Qed.
Lemma slice_mid {A} (x y z : list A) : slice (x ++ y ++ z) (lenz x) (lenz x + lenz y) = Ok y.
Proof.
  unfold slice. pose proof (lenz_nonneg x). pose proof (lenz_nonneg y). pose proof (lenz_nonneg z). destruct (Z.leb_spec (lenz x + lenz y) (lenz x)) as [H'|H'].
  { destruct y as [|? y]; [reflexivity|]. unfold lenz in H'. cbn [List.length] in H'. lia. }
  rewrite !lenz_app. replace ((0 <=? lenz x) && _) with true by (symmetry; apply andb_true_iff; split; apply Z.leb_le; lia).
  replace (Z.to_nat (lenz x)) with (List.length x) by (unfold lenz; lia). replace (Z.to_nat (lenz x + lenz y - lenz x)) with (List.length y) by (unfold lenz; lia).
  rewrite skipn_app, skipn_all, Nat.sub_diag. cbn [skipn app]. rewrite firstn_app, firstn_all, Nat.sub_diag. cbn [firstn]. now rewrite app_nil_r.
Qed.
Lemma slice_map_mid {A B} (f : A -> B) (x y z : list A) : slice (map f x ++ map f y ++ map f z) (lenz x) (lenz x + lenz y) = Ok (map f y).
Proof. rewrite <- (lenz_map f x), <- (lenz_map f y). apply slice_mid. Qed.

Lemma corner_local {F} (pre vs post : list (vertex F)) n : good_numbers (pre ++ vs ++ post) -> declared vs n ->
  let j := sub32 (sub32 n (base (pre ++ vs ++ post))) (lenz pre) in numbered vs n j /\ 0 <= j < lenz vs.
Proof.
  intros G (v & Hv & <-). apply in_nthz in Hv as [j Hj]. pose proof (nthz_range _ _ _ Hj) as Rj. cbv zeta. pose proof (lenz_nonneg pre).
  assert (Hp : nthz (pre ++ vs ++ post) (lenz pre + j) = Some v).
  { rewrite nthz_app_r by lia. now apply LsoFacts.nthz_app_l. }
  pose proof (good_position _ _ _ G Hp) as E. assert (R : 0 <= lenz pre + j < two32).
  { rewrite <- E. unfold sub32, wrap32. apply Z.mod_pos_bound. reflexivity. }
  rewrite E, sub32_number by lia. replace (lenz pre + j - lenz pre) with j by lia. split; [|unfold lenz in *; lia]. now exists v.
Qed.
Lemma build_section F (d : TSurf F) (a : list (section F)) s c : good_numbers (section_vertices (a ++ s :: c)) ->
  t_points d = map vx_point (section_vertices (a ++ s :: c)) ->
  t_triangles d = map (in_base (base (section_vertices (a ++ s :: c)))) (section_triangles (a ++ s :: c)) ->
  t_vert_off d = offsets 0 (map nb_v (a ++ s :: c)) ++ [sum (map nb_v (a ++ s :: c))] ->
  t_tri_off d = offsets 0 (map nb_t (a ++ s :: c)) ++ [sum (map nb_t (a ++ s :: c))] ->
  closed_section s ->
  exists m, build_tface d (List.length a) = Ok m /\ m_name m = t_name d /\ m_points m = map vx_point (sn_vertices s) /\
    Forall2 (corners_are (sn_vertices s)) (sn_triangles s) (m_cells m).
Proof.
  intros G H1 H2 H3 H4 H5. rewrite map_app in H3, H4. cbn [map] in H3, H4.
  destruct (offsets_idx (map nb_v a) (nb_v s) (map nb_v c)) as [V1 V2]. destruct (offsets_idx (map nb_t a) (nb_t s) (map nb_t c)) as [T1 T2].
  rewrite map_length in V1, V2, T1, T2. rewrite <- H3 in V1, V2. rewrite <- H4 in T1, T2.
  assert (EV : section_vertices (a ++ s :: c) = section_vertices a ++ sn_vertices s ++ section_vertices c) by (unfold section_vertices; now rewrite flat_map_app).
  assert (ET : section_triangles (a ++ s :: c) = section_triangles a ++ sn_triangles s ++ section_triangles c) by (unfold section_triangles; now rewrite flat_map_app).
  rewrite EV in *. rewrite ET in H2. set (b := base _) in H2. rewrite !map_app in H1, H2.
  assert (LV : sum (map nb_v a) = lenz (section_vertices a)) by (unfold section_vertices; now rewrite lenz_flat_map).
  assert (LT : sum (map nb_t a) = lenz (section_triangles a)) by (unfold section_triangles; now rewrite lenz_flat_map).
  unfold build_tface. rewrite V1, V2, T1, T2, H1, H2, LV, LT. cbn [bind]. unfold nb_v, nb_t.
  rewrite slice_map_mid. cbn [bind]. rewrite slice_map_mid. cbn [bind]. rewrite map_map.
  assert (K : Forall2 (corners_are (sn_vertices s)) (sn_triangles s) (map (fun t => minus_tri (lenz (section_vertices a)) (in_base b t)) (sn_triangles s)) /\
    Forall (tri_in (lenz (sn_vertices s))) (map (fun t => minus_tri (lenz (section_vertices a)) (in_base b t)) (sn_triangles s))).
  { clear -G H5. unfold closed_section in H5. induction H5 as [|[[x y] z] ts (A & B & C) H IH]; cbn [map]; [split; constructor|]. cbn [fst snd] in A, B, C.
    apply (corner_local _ _ _ _ G) in A. apply (corner_local _ _ _ _ G) in B. apply (corner_local _ _ _ _ G) in C. destruct IH as [I1 I2].
    split; constructor; auto; cbn; unfold corners_are; cbn [fst snd]; tauto. }
  destruct K as [K1 K2]. rewrite (set_name_empty F), (create_points_spec F). cbn [m_name m_points m_cells m_attrs app map].
  rewrite create_triangles by (unfold nb_vertices, lenz in *; cbn [m_points]; now rewrite map_length).
  eexists. split; [reflexivity|]. cbn [m_name m_points m_cells app]. auto.
Qed.
Lemma build_sections F (d : TSurf F) : forall (c a : list (section F)), good_numbers (section_vertices (a ++ c)) ->
  t_points d = map vx_point (section_vertices (a ++ c)) ->
  t_triangles d = map (in_base (base (section_vertices (a ++ c)))) (section_triangles (a ++ c)) ->
  t_vert_off d = offsets 0 (map nb_v (a ++ c)) ++ [sum (map nb_v (a ++ c))] ->
  t_tri_off d = offsets 0 (map nb_t (a ++ c)) ++ [sum (map nb_t (a ++ c))] ->
  Forall closed_section c -> forall ids, List.length ids = List.length c ->
  exists ms, mapM (fun p => do m <- build_tface d (fst p); Ok (snd p, m)) (combine (seq (List.length a) (List.length ids)) ids) = Ok ms /\
    Forall2 face_mesh_is (combine ids (map (pair (t_name d)) c)) ms.
Proof.
  induction c as [|s c IH]; intros a G H1 H2 H3 H4 H5 ids Hl; destruct ids as [|i ids]; try discriminate Hl; [exists []; split; [reflexivity|constructor]|].
  destruct (build_section F d a s c G H1 H2 H3 H4 (Forall_inv H5)) as (m & E & M1 & M2 & M3).
  replace (a ++ s :: c) with ((a ++ [s]) ++ c) in * by now rewrite <- app_assoc.
  destruct (IH (a ++ [s]) G H1 H2 H3 H4 (Forall_inv_tail H5) ids) as (ms & Em & Fm); [cbn in Hl; lia|].
  rewrite app_length in Em. cbn [List.length] in Em. rewrite Nat.add_1_r in Em.
  exists ((i, m) :: ms). cbn [List.length seq combine mapM fst snd map]. rewrite E. cbn [bind]. rewrite Em. split; [reflexivity|].
  constructor; [|assumption]. unfold face_mesh_is. cbn [fst snd]. auto.
Qed.
Lemma build_sheets F cs b : forall names (ss : list (sheet F)), Forall2 (fun n s => lenz (positions cs n) = lenz (sh_sections s)) names ss ->
  forall ls, sheets_text F ls ss ->
  exists ms, build_all (map (tsurf_of cs) names) (mkStream ls b) = Ok ms /\ Forall2 face_mesh_is (numbered_sections cs names ss) ms.
Proof.
  induction 1 as [|n s names ss Hn H IH]; intros ls Hl; [exists []; split; [reflexivity|constructor]|].
  destruct Hl as (rest & Hs & Hr). destruct (IH rest Hr) as (ms' & E' & F').
  destruct (sheet_read F ls s rest b Hs) as (d & E & D1 & D2 & D3 & D4 & D5 & D6).
  destruct Hs as (up & ps & between & tface & data & last & _ & _ & _ & _ & _ & _ & Hc).
  destruct (build_sections F d (sh_sections s) [] D2 D3 D4 D5 D6 Hc (positions cs n)) as (ms & Em & Fm); [unfold lenz in Hn; lia|].
  exists (ms ++ ms'). cbn [map build_all numbered_sections]. rewrite E. cbn [bind]. cbn [tsurf_of tm_faces]. unfold build_tfaces. cbn [List.length] in Em. rewrite Em. cbn [bind].
  rewrite E'. split; [reflexivity|]. rewrite D1 in Fm. now apply Forall2_app.
Qed.
