(** * The whole .ml file: writing then reading. *)
From Coq Require Import ZArith List Lia Bool Ascii String Permutation.
From Verif Require Import Base Text TextFacts GocadModel MeshModel TsModel Spec GocadFacts TsFacts
  SignsModel MlModel MlFacts.
Import ListNotations.
Local Open Scope string_scope.
Local Open Scope list_scope.
Local Open Scope Z_scope.

(** ** The whole file *)
Section Whole.
Context {F : Num} (HF : num_ok F) (HK : coords_not_keywords F).
Variable uuid_text : Z -> bytes.
Notation sec := (bytes * bytes * list (MSurf F))%type.

Definition object_lines (secs : list sec) : list bytes :=
  flat_map (fun s : sec => surface_object (fst (fst s)) (snd (fst s)) (snd s)) secs.
Lemma surfaces_of m (ss : list (MSurf F)) : (forall s, In s ss -> surface_of m (s_id s) = Ok s) ->
  mapM (surface_of m) (map s_id ss) = Ok ss.
Proof.
  intros H. rewrite mapM_map. rewrite (mapM_ok_map _ (fun s => s)); [now rewrite map_id|auto].
Qed.
Lemma write_model_surfaces_ok m secs : sections_are uuid_text m secs ->
  write_model_surfaces uuid_text m = Ok (object_lines secs).
Proof.
  intros [E Hs _]. unfold write_model_surfaces. rewrite E, mapM_map.
  rewrite (mapM_ok_map _ (fun s : sec => surface_object (fst (fst s)) (snd (fst s)) (snd s))).
  - cbn [bind]. unfold object_lines. now rewrite flat_map_concat_map.
  - intros s Hi. cbn [bind]. rewrite surfaces_of; [reflexivity|].
    intros x Hx. apply Hs. apply in_flat_map. eauto.
Qed.

Fixpoint all_meshes (c : Z) (secs : list sec) : list (Z * mesh F tri) :=
  match secs with
  | [] => []
  | (k, n, ss) :: r => combine (rangez c (List.length ss)) (map (mesh_of n) ss) ++ all_meshes (c + lenz ss) r
  end.
Lemma build_tfaces_from n pre ss c : Forall good_surf (pre ++ ss) -> npts (pre ++ ss) <= two32 ->
  mapM (fun p => do m <- build_tface (parsed_object n (pre ++ ss)) (fst p); Ok (snd p, m))
    (combine (seq (List.length pre) (List.length ss)) (rangez c (List.length ss)))
  = Ok (combine (rangez c (List.length ss)) (map (mesh_of (F:=F) n) ss)).
Proof.
  revert pre c. induction ss as [|s ss IH]; intros pre c Hg Hb; [reflexivity|].
  cbn [List.length seq rangez combine mapM map fst snd].
  rewrite build_tface_ok by assumption. cbn [bind].
  specialize (IH (pre ++ [s]) (c + 1)). rewrite <- app_assoc in IH. cbn [app] in IH.
  rewrite app_length in IH. cbn [List.length] in IH. rewrite Nat.add_1_r in IH.
  rewrite IH by assumption. reflexivity.
Qed.
Lemma build_all_ok secs c rest b : Forall good_sec secs ->
  (forall s, In s secs -> 1 + npts (snd s) <= two32) ->
  build_all (filled c secs) (mkStream (object_lines secs ++ rest) b) = Ok (all_meshes c secs).
Proof.
  intros H. revert c. induction H as [|[[k n] ss] secs [Hk Hn Hg Hs] H IH]; intros c Hb; [reflexivity|].
  cbn [fst snd] in *. unfold object_lines. cbn [flat_map filled build_all fst snd]. rewrite <- app_assoc.
  pose proof (Hb _ ltac:(now left)) as Hb0. cbn [snd] in Hb0.
  rewrite read_object by assumption. cbn [bind tm_faces].
  unfold build_tfaces. rewrite rangez_length.
  pose proof (build_tfaces_from n [] ss c Hg ltac:(cbn [app]; lia)) as E. cbn [app List.length] in E.
  etransitivity; [exact (bind_eq _ _ _ E)|]. cbn beta.
  fold (object_lines secs). rewrite IH by (intros; apply Hb; now right). reflexivity.
Qed.

(** Collections *)
Definition colls_of (ids : list Z) (kd : sec -> kind_in) (secs : list sec) : list CollIn :=
  map (fun s => mkCollIn (kd s) (snd (fst s)) (map (pos ids) (map s_id (snd s)))) secs.
Lemma filled_pos done secs post : NoDup (done ++ sec_ids secs ++ post) ->
  filled (lenz done) secs
  = map (fun s : sec => mkTsMl (snd (fst s)) (fst (fst s)) (map (pos (done ++ sec_ids secs ++ post)) (map s_id (snd s)))) secs.
Proof.
  revert done. induction secs as [|[[k n] ss] secs IH]; intros done H; [reflexivity|].
  cbn [filled map fst snd]. unfold sec_ids in *. cbn [flat_map snd] in *.
  specialize (IH (done ++ map s_id ss)). rewrite lenz_app, lenz_map in IH.
  rewrite <- !app_assoc in *. rewrite IH by exact H. f_equal. f_equal.
  rewrite map_pos_mid by exact H. now rewrite map_length.
Qed.
Lemma filled_pos0 secs : NoDup (sec_ids secs) ->
  filled 0 secs = map (fun s : sec => mkTsMl (snd (fst s)) (fst (fst s)) (map (pos (sec_ids secs)) (map s_id (snd s)))) secs.
Proof.
  intros H. pose proof (filled_pos [] secs []) as E. cbn [app] in E. rewrite app_nil_r in E. exact (E H).
Qed.

Lemma all_meshes_fst c secs : map fst (all_meshes c secs) = rangez c (List.length (sec_ids secs)).
Proof.
  revert c. induction secs as [|[[k n] ss] secs IH]; intros c; [reflexivity|].
  cbn [all_meshes]. unfold sec_ids in *. cbn [flat_map snd]. rewrite map_app, IH, app_length, map_length, rangez_app. f_equal.
  clear. revert c. induction ss as [|s ss IH]; intros c; [reflexivity|]. cbn [List.length rangez map combine fst]. now rewrite IH.
Qed.
Lemma all_meshes_in done secs post s : NoDup (done ++ sec_ids secs ++ post) ->
  In s (flat_map snd secs) ->
  exists n, In (pos (done ++ sec_ids secs ++ post) (s_id s), mesh_of n s) (all_meshes (lenz done) secs)
    /\ In n (map (fun s : sec => snd (fst s)) secs).
Proof.
  revert done. induction secs as [|[[k n] ss] secs IH]; intros done H Hi; [inversion Hi|].
  cbn [flat_map snd] in Hi. cbn [all_meshes map fst snd]. unfold sec_ids in *. cbn [flat_map snd] in *.
  apply in_app_or in Hi. destruct Hi as [Hi|Hi].
  - exists n. split; [|now left]. apply in_or_app. left.
    rewrite <- app_assoc in *.
    pose proof (map_pos_mid done (map s_id ss) (flat_map (fun s : sec => map s_id (snd s)) secs ++ post) H) as E.
    rewrite map_length in E. rewrite <- E. rewrite map_map.
    clear -Hi. set (f := fun x => pos _ (s_id x)). change (pos _ (s_id s)) with (f s). clearbody f.
    induction ss as [|x ss IH]; [inversion Hi|]. destruct Hi as [->|Hi]; [now left|]. right. apply IH. exact Hi.
  - specialize (IH (done ++ map s_id ss)). rewrite lenz_app, lenz_map in IH.
    rewrite <- !app_assoc in *. destruct (IH H Hi) as [n' [H1 H2]]. exists n'. split; [|now right].
    apply in_or_app. now right.
Qed.

(** Lines *)
Lemma point_string_line (p : point F) : is_line (point_string p).
Proof.
  destruct p as [[x y] z]. unfold point_string.
  repeat (apply is_line_app; [apply token_line, HF|]; apply is_line_cons; [discriminate|]). apply token_line, HF.
Qed.
Lemma show_line n : 0 <= n -> is_line (show n).
Proof. intros. apply token_line, show_token. lia. Qed.
Lemma face_lines_lines i k n (ss : list (MSurf F)) : 0 <= i -> token k -> clean n -> Forall good_surf ss -> Forall is_line (face_lines i k n ss).
Proof.
  intros Hi Hk Hn H. revert i Hi. induction H as [|s ss Hg H IH]; intros i Hi; [constructor|].
  cbn [face_lines]. constructor.
  - unfold tface_line_of. apply is_line_app; [isl|]. apply is_line_app; [apply show_line; lia|].
    apply is_line_cons; [discriminate|]. apply is_line_app; [now apply token_line|].
    apply is_line_cons; [discriminate|]. now apply clean_line.
  - apply Forall_app. split; [|apply IH; lia]. destruct (key_lines_ok s Hg) as [_ Hks].
    eapply Forall_impl; [|exact Hks]. intros l [p ->]. do 2 (apply is_line_cons; [discriminate|]). apply point_string_line.
Qed.
Lemma all_faces_lines i (secs : list sec) : 0 <= i -> Forall good_sec secs -> Forall is_line (all_faces i secs).
Proof.
  intros Hi H. revert i Hi. induction H as [|[[k n] ss] secs [Hk Hn Hg Hs] H IH]; intros i Hi; [constructor|].
  cbn [all_faces fst snd] in *. apply Forall_app. split; [now apply face_lines_lines|]. apply IH.
  pose proof (lenz_nonneg ss). lia.
Qed.
Lemma vrtx_lines_are_lines v (ps : list (point F)) : 0 <= v -> Forall is_line (ml_vrtx_lines v ps).
Proof.
  revert v. induction ps as [|p ps IH]; intros v Hv; [constructor|]. cbn [ml_vrtx_lines]. constructor; [|apply IH; lia].
  apply is_line_app; [isl|]. apply is_line_app; [apply show_line; lia|]. apply is_line_cons; [discriminate|]. apply point_string_line.
Qed.
Lemma surface_lines (s : MSurf F) o : good_surf s -> 0 <= o -> Forall is_line (write_surface s o).
Proof.
  intros Hg Ho. unfold write_surface. apply Forall_app. split; [now apply vrtx_lines_are_lines|].
  apply (trgl_lines_lines (o + lenz (s_points s))). apply Forall_map. eapply Forall_impl; [|apply (gs_tri_in s Hg)].
  intros [[x y] z] [Hx [Hy Hz]]. cbn [plus_tri tri_in]. lia.
Qed.
Lemma with_offsets_lines (ss : list (MSurf F)) o : Forall good_surf ss -> 0 <= o ->
  Forall is_line (flat_map (fun x => lit "TFACE" :: write_surface (snd x) (fst x)) (with_offsets o ss)).
Proof.
  intros H. revert o. induction H as [|s ss Hg H IH]; intros o Ho; [constructor|].
  cbn [with_offsets flat_map fst snd]. pose proof (lenz_nonneg (s_points s)).
  apply Forall_app. split; [constructor; [isl|]; now apply surface_lines|]. apply IH. lia.
Qed.
Lemma object_is_lines k n (ss : list (MSurf F)) : token k -> clean n -> Forall good_surf ss -> 1 + npts ss <= two32 ->
  Forall is_line (surface_object k n ss).
Proof.
  intros Hk Hn Hg Hb. unfold surface_object. cbn zeta. fold (starts 1 ss). fold (npts ss).
  pose proof (starts_range 1 ss Hg ltac:(lia) ltac:(lia)) as HS. pose proof (npts_nonneg ss).
  apply Forall_app; split; [constructor; [isl|constructor]|].
  apply Forall_app; split; [apply write_header_lines; intros q [= <-]; now apply clean_line|].
  apply Forall_app; split; [repeat (apply Forall_cons; [isl|]); constructor|].
  apply Forall_app; split.
  { repeat (apply Forall_cons; [apply is_line_app; [isl|]|]); [now apply clean_line|now apply token_line|constructor]. }
  apply Forall_app; split; [apply with_offsets_lines; [assumption|lia]|].
  apply Forall_app; split.
  { apply Forall_map. eapply Forall_impl; [|exact HS]. intros e He. cbn beta in He. unfold bstone_line.
    apply is_line_app; [isl|apply show_line; lia]. }
  apply Forall_app; split; [|constructor; [isl|constructor]].
  assert (Ho : 0 <= 1 + npts ss) by lia. revert Ho. generalize (1 + npts ss). clear -HS.
  induction HS as [|e es He HS IH]; intros o Ho; [constructor|]. cbn [border_lines]. constructor; [|apply IH; lia].
  apply is_line_app; [isl|]. apply is_line_app; [apply show_line; lia|]. apply is_line_cons; [discriminate|].
  apply is_line_app; [apply show_line; lia|]. apply is_line_cons; [discriminate|]. apply show_line; lia.
Qed.
Lemma component_is_lines (m : SModel F) usides rsides secs : good_model uuid_text m usides rsides secs ->
  Forall is_line (component_lines uuid_text m usides rsides secs).
Proof.
  intros G. unfold component_lines. cbn zeta. pose proof (lenz_nonneg (sec_ids secs)) as Hn.
  repeat (apply Forall_app; split).
  - rewrite map_map. apply Forall_map. eapply Forall_impl; [|apply (gm_secs _ _ _ _ _ G)].
    intros s Hs. unfold tsurf_line. apply is_line_app; [isl|]. apply clean_line, Hs.
  - apply all_faces_lines; [lia|apply G].
  - constructor.
    + unfold universe_line. apply is_line_app; [isl|]. apply is_line_app; [apply show_line; lia|isl].
    + apply id_lines_lines. apply (entries_tokens (lenz (sec_ids secs))). unfold entries_ok, universe_entries.
      apply Forall_map, Forall_forall. intros s Hs. cbn [snd].
      destruct (gm_universe _ _ _ _ _ G s Hs) as [Hi _]. pose proof (pos_range _ s Hi). lia.
  - pose proof (gm_blocks _ _ _ _ _ G) as HB.
    assert (Hk : 0 <= 2 + lenz (sec_ids secs)) by lia. revert Hk. generalize (2 + lenz (sec_ids secs)).
    induction HB as [|b bs Hb HB IH]; intros k Hk; [constructor|]. cbn [region_lines]. constructor.
    + unfold region_line. apply is_line_app; [isl|]. apply is_line_app; [apply show_line; lia|].
      apply is_line_cons; [discriminate|]. apply clean_line, Hb.
    + apply Forall_app. split; [|apply IH; lia]. apply id_lines_lines.
      apply (entries_tokens (lenz (sec_ids secs))). now apply (region_entries_ok uuid_text).
  - pose proof (gm_units _ _ _ _ _ G) as HU. induction HU as [|u us Hu HU IH]; [constructor|].
    cbn [flat_map]. apply Forall_app. split; [|exact IH]. unfold unit_lines. constructor.
    + apply is_line_app; [isl|]. apply clean_line, Hu.
    + apply id_lines_lines. apply Forall_map, Forall_forall. intros b _. apply show_token.
      pose proof (pos_nonneg (map b_id (m_blocks m)) b). lia.
  - pose proof (gm_fblocks _ _ _ _ _ G) as HU. induction HU as [|u us Hu HU IH]; [constructor|].
    cbn [flat_map]. apply Forall_app. split; [|exact IH]. unfold unit_lines. constructor.
    + apply is_line_app; [isl|]. apply clean_line, Hu.
    + apply id_lines_lines. apply Forall_map, Forall_forall. intros b _. apply show_token.
      pose proof (pos_nonneg (map b_id (m_blocks m)) b). lia.
  - constructor; [isl|constructor].
Qed.

Lemma write_ml_ok (m : SModel F) usides rsides secs : good_model uuid_text m usides rsides secs ->
  ml_lines uuid_text m usides rsides
  = Ok ([lit "GOCAD Model3d 1"] ++ write_header (m_title m) ++ write_CRS default_crs ++
        component_lines uuid_text m usides rsides secs ++ object_lines secs).
Proof.
  intros G. unfold ml_lines. rewrite (write_components_ok uuid_text m usides rsides secs) by assumption. cbn [bind].
  rewrite (write_model_surfaces_ok m secs) by apply G. reflexivity.
Qed.

Lemma read_ml_ok (m : SModel F) usides rsides secs text : good_model uuid_text m usides rsides secs ->
  (forall n, m_title m = Some n -> is_line n) ->
  (forall s, In s secs -> 1 + npts (snd s) <= two32) ->
  write_ml uuid_text m usides rsides = Ok text ->
  exists bls, Forall2 (block_like uuid_text (sec_ids secs)) (m_blocks m) bls /\
  forall cs, create_tsurfs (mkMlSt (filled 0 secs) (sec_names secs)
          (map (pos (sec_ids secs)) (flat_map c_items (m_bounds m))) bls
          (map (unit_like (map b_id (m_blocks m))) (m_units m))
          (map (unit_like (map b_id (m_blocks m))) (m_fblocks m))) = Ok cs ->
  read_ml F text = Ok (mkMlIn (option_map normalise (m_title m)) (sec_names secs) (all_meshes 0 secs) cs bls
          (map (unit_like (map b_id (m_blocks m))) (m_units m))
          (map (unit_like (map b_id (m_blocks m))) (m_fblocks m))).
Proof.
  intros G Ht Hb E. unfold write_ml in E. rewrite (write_ml_ok m usides rsides secs G) in E.
  unfold rmap in E. cbn [bind] in E. apply (f_equal (fun r => match r with Ok t => t | _ => text end)) in E.
  cbv beta iota in E. rewrite <- E. clear E.
  destruct (read_components_ok HF HK uuid_text m usides rsides secs (object_lines secs) G) as [bls [F2 E]].
  exists bls. split; [assumption|]. intros cs Hcs. unfold read_ml.
  rewrite open_unlines.
  2:{ apply Forall_app; split; [constructor; [isl|constructor]|].
      apply Forall_app; split; [now apply write_header_lines|].
      apply Forall_app; split; [repeat (apply Forall_cons; [isl|]); constructor|].
      apply Forall_app; split; [now apply component_is_lines|].
      unfold object_lines. apply Forall_flat_map. pose proof (gm_secs _ _ _ _ _ G) as GS.
      rewrite Forall_forall in *. intros s Hs. destruct (GS s Hs). now apply object_is_lines; auto. }
  cbn [app]. rewrite goto_if_next by reflexivity.
  rewrite read_header_written. cbn [bind]. rewrite read_CRS_default. cbn [bind pending nl].
  rewrite E. cbn [bind]. rewrite Hcs. cbn [bind i_tsurfs].
  pose proof (build_all_ok secs 0 [] true (gm_secs _ _ _ _ _ G) Hb) as EB. rewrite app_nil_r in EB. rewrite EB. reflexivity.
Qed.
End Whole.
