(** * The blocks of a loaded .lso file, for any file made of complete lines. *)
From Coq Require Import ZArith List Lia Bool Ascii String Permutation.
From Verif Require Import Base Text TextFacts GocadModel MeshModel TsModel Spec GocadFacts TsFacts LsoModel LsoFacts LsoRead LsoRound LsoFile LsoWhole LsoTrip StreamFacts LsoRel LsoEnds LsoAttrs PropsGocad.
Import ListNotations.
Local Open Scope string_scope.
Local Open Scope list_scope.
Local Open Scope Z_scope.

(** ** The blocks *)
Section Blocks.
Context {F : Num}.
(** The coordinate system and the property headers of a file. *)
Definition lso_headers (text : bytes) : res (CRS * PropHeader (num F) * PropHeader (num F)) :=
  match goto_if "GOCAD LightTSolid" (open_text text) with
  | (None, _) => Throw ExData
  | (Some _, s0) =>
      do '(_, s1) <- read_header s0;
      do '(crs, s2) <- read_CRS s1;
      do '(vprops, s3) <- read_prop_header F [] s2;
      do '(tprops, _) <- read_prop_header F "TETRA_" s3;
      Ok (crs, vprops, tprops)
  end.

(** What a block holds: [src] gives for each of its vertices the number of the vertex line it comes from. *)
Record block_holds (pts : list (point F)) (vp tp : PropHeader (num F)) (vrows trows : list (list (list (num F))))
    (tets : list (quad * bytes)) (src : list Z) (r : LBlockR F) : Prop := {
  bh_nodup : NoDup src;
  bh_used : forall v, In v src <-> exists t, In (t, r_name r) tets /\ In v (quad_list t);
  bh_points : Forall2 (fun v p => nthz pts v = Some p) src (r_points r);
  bh_tets : Forall2 (fun t t' => Forall2 (fun v i => nthz src i = Some v) (quad_list t) (quad_list t'))
              (map fst (filter (fun e => beq (snd e) (r_name r)) tets)) (r_tets r);
  bh_values : forall j n, nth_error (p_names vp) j = Some n -> exists a, find_attr n (r_vattrs r) = Some a /\
    Forall2 (fun v vals => exists row, nthz vrows v = Some row /\ nth_error row j = Some vals) src (a_vals a);
  bh_tvalues : forall j n, nth_error (p_names tp) j = Some n -> exists e d a,
    nth_error (p_esizes tp) j = Some e /\ nth_error (p_ndv tp) j = Some d /\ find_attr n (r_tattrs r) = Some a /\
    List.length (a_vals a) = List.length (r_tets r) /\ (List.length src <= List.length (r_tets r))%nat /\
    (forall i v, nth_error src i = Some v -> exists row vals, nthz trows v = Some row /\ nth_error row j = Some vals /\ nth_error (a_vals a) i = Some vals) /\
    (forall i, (List.length src <= i < List.length (r_tets r))%nat -> nth_error (a_vals a) i = Some (repeat d (Z.to_nat e)))
}.

Lemma column_row (h : PropHeader (num F)) pos lines rows j e d k row : good_header h -> nth_error (p_esizes h) j = Some e -> List.length d = Z.to_nat e ->
  Forall2 (fun line r => line_values h (pos line) line r) lines rows ->
  attr_row (column rows j) e d k = Ok row -> exists r, nth_error rows k = Some r /\ nth_error r j = Some row.
Proof.
  intros G He Ld HR E. unfold column in E. rewrite flat_map_concat_map in E.
  assert (HE : 1 <= e < 256) by (pose proof (gh_range h G) as X; rewrite Forall_forall in X; apply X; eapply nth_error_In; exact He).
  assert (HC : Forall (fun r => exists xs, List.length xs = Z.to_nat (sum (p_esizes h)) /\ r = chunks (p_esizes h) xs) rows).
  { clear -HR. induction HR as [|l r ls rs [xs [_ [H1 H2]]] _ IH]; constructor; eauto. }
  apply attr_row_chunk in E; [|assumption|assumption|].
  - rewrite nth_error_map in E. destruct (nth_error rows k) as [r|] eqn:Er; [|discriminate]. cbn [option_map] in E. exists r. split; [reflexivity|].
    assert (nth j r [] = row) as <- by congruence. rewrite Forall_forall in HC. destruct (HC r (nth_error_In _ _ Er)) as [xs [_ ->]].
    apply nth_error_nth'. rewrite chunks_length. apply nth_error_Some. congruence.
  - apply Forall_map. eapply Forall_impl; [|exact HC]. intros r [xs [L ->]]. eapply chunk_length; [apply (gh_range h G)|exact L|exact He].
Qed.
Lemma Forall2_nth_error {A B} (R : A -> B -> Prop) : forall (a : list A) (b : list B), List.length a = List.length b ->
  (forall i x, nth_error a i = Some x -> exists y, nth_error b i = Some y /\ R x y) -> Forall2 R a b.
Proof.
  induction a as [|x a IH]; intros [|y b] L H; try discriminate; constructor.
  - destruct (H 0%nat x eq_refl) as [y' [E HR]]. cbn [nth_error] in E. congruence.
  - apply IH; [cbn [List.length] in L; lia|]. intros i z Hz. exact (H (S i) z Hz).
Qed.

Lemma build_block_holds crs vp tp vl tl sv st ss vrows trows name r bad : good_header vp -> good_header tp ->
  vertices_of crs vp vl sv vrows -> solid_inv sv -> tetras_of (lenz (sv_points sv)) tp tl st trows ->
  build_block F vp tp sv st ss name = Ok (r, bad) ->
  r_name r = name /\ exists src, block_holds (sv_points sv) vp tp vrows trows (st_tets st) src r.
Proof.
  intros GV GT VO SI TO E. unfold build_block in E.
  assert (TI : Forall (fun e => quad_in (lenz (sv_points sv)) (fst e)) (st_tets st)).
  { pose proof (to_tets _ _ _ _ _ TO) as X. clear -X. induction X as [|ll [[[[a b] c] d] nm] tl ts [_ [_ [_ [_ [Hq _]]]]] _ IH]; constructor; auto. }
  assert (HK : Forall (fun t => Forall (known sv) (quad_list t)) (block_tets (st_tets st) name)).
  { unfold block_tets. apply Forall_map, Forall_forall. intros e He. apply filter_In in He. destruct He as [He _].
    rewrite Forall_forall in TI. specialize (TI e He). unfold quad_in in TI. eapply Forall_impl; [|exact TI]. intros v Hv. cbn beta in Hv.
    destruct (nthz_in_range (sv_points sv) v Hv) as [p Hp]. exists p, (at_ (sv_uid sv) v). split; [assumption|now apply uid_defined]. }
  destruct (use_tets_spec sv (block_tets (st_tets st) name) no_vertex (no_vertex_ok sv) HK) as [us [ts' [EU [[U1 U2 U3] [_ [HT HW]]]]]].
  rewrite EU in E. cbn [bind] in E. apply bind_ok in E. destruct E as [va [Eva E]]. apply bind_ok in E. destruct E as [ta [Eta E]].
  match type of E with Ok (?x, ?y) = _ => assert (r = x) as -> by congruence end. clear E.
  apply mapM_ok in U2, U3.
  assert (LS : List.length (us_points us) = List.length (us_seen us)) by (clear -U2; induction U2; cbn [List.length]; congruence).
  assert (HP : Forall2 (fun v p => nthz (sv_points sv) v = Some p) (us_seen us) (us_points us)).
  { clear -U2. induction U2 as [|v p l l' H _ IH]; constructor; [now apply idxz_ok|assumption]. }
  assert (HR : forall i v, nth_error (us_seen us) i = Some v -> 0 <= v).
  { intros i v Hi. rewrite <- nthz_nat in Hi. destruct (Forall2_nthz _ _ _ HP _ _ Hi) as [p [_ Hp]]. apply nthz_range in Hp. lia. }
  cbn [r_name]. split; [reflexivity|]. exists (us_seen us). rewrite LS in *. split; cbn [r_name r_points r_tets r_vattrs r_tattrs].
  - assumption.
  - intros v. rewrite HW. cbn [no_vertex us_seen In]. rewrite in_flat_map. unfold block_tets. split.
    + intros [[]|[t [Ht Hv]]]. apply in_map_iff in Ht. destruct Ht as [[t0 nm] [Et Ht]]. cbn [fst] in Et. subst t0. apply filter_In in Ht. destruct Ht as [Ht En].
      cbn [snd] in En. apply beq_eq in En. subst nm. eauto.
    + intros [t [Ht Hv]]. right. exists t. split; [|assumption]. apply in_map_iff. exists (t, name). split; [reflexivity|]. apply filter_In. split; [assumption|]. apply beq_refl.
  - exact HP.
  - exact HT.
  - intros j n Hj. destruct (make_attributes_spec _ _ _ (gh_names vp GV) _ _ _ _ _ [] _ (fun _ _ => eq_refl) Eva j n Hj) as [e [d [col [a [He [Hd [Hc [Ha Ef]]]]]]]].
    exists a. split; [assumption|]. destruct (fill_attr_spec _ _ _ _ _ _ _ _ Ef) as [L [_ [H1 _]]]. rewrite repeat_length in L.
    rewrite (vo_vals _ _ _ _ _ VO) in Hc. rewrite nth_column in Hc by (apply nth_error_Some; congruence). assert (col = column vrows j) as -> by congruence.
    apply Forall2_nth_error; [now rewrite L|]. intros i v Hi. assert (Hl : (i < List.length (us_seen us))%nat) by (apply nth_error_Some; congruence).
    destruct (H1 i ltac:(lia)) as [k [row [Hk [Hrow Hr]]]]. rewrite nth_error_map, Hi in Hk. cbn [option_map] in Hk. assert (k = Z.to_nat v) as -> by congruence.
    exists row. split; [assumption|]. destruct (column_row vp value_pos vl vrows j e _ _ _ GV He (repeat_length _ _) (vo_rows _ _ _ _ _ VO) Hrow) as [r [Hr1 Hr2]].
    exists r. split; [|assumption]. rewrite <- nthz_nat, Z2Nat.id in Hr1 by (eapply HR; exact Hi). exact Hr1.
  - intros j n Hj. destruct (make_attributes_spec _ _ _ (gh_names tp GT) _ _ _ _ _ [] _ (fun _ _ => eq_refl) Eta j n Hj) as [e [d [col [a [He [Hd [Hc [Ha Ef]]]]]]]].
    exists e, d, a. split; [assumption|]. split; [assumption|]. split; [assumption|]. destruct (fill_attr_spec _ _ _ _ _ _ _ _ Ef) as [L [B [H1 H2]]]. rewrite repeat_length in L, B.
    split; [assumption|]. split; [destruct (List.length (us_seen us)); [lia|apply B; congruence]|].
    rewrite (to_vals _ _ _ _ _ TO) in Hc. rewrite nth_column in Hc by (apply nth_error_Some; congruence). assert (col = column trows j) as -> by congruence. split.
    + intros i v Hi. assert (Hl : (i < List.length (us_seen us))%nat) by (apply nth_error_Some; congruence).
      destruct (H1 i ltac:(lia)) as [k [row [Hk [Hrow Hr]]]]. rewrite nth_error_map, Hi in Hk. cbn [option_map] in Hk. assert (k = Z.to_nat v) as -> by congruence.
      assert (HR' : Forall2 (fun line r => line_values tp 5 line r) (map fst tl) trows).
      { pose proof (to_rows _ _ _ _ _ TO) as X. clear -X. induction X; constructor; auto. }
      destruct (column_row tp (fun _ => 5%nat) (map fst tl) trows j e _ _ _ GT He (repeat_length _ _) HR' Hrow) as [r [Hr1 Hr2]].
      exists r, row. split; [|auto]. rewrite <- nthz_nat, Z2Nat.id in Hr1 by (eapply HR; exact Hi). exact Hr1.
    + intros i Hi. rewrite H2 by lia. rewrite nth_error_repeat by lia. reflexivity.
Qed.

Lemma vertices_solid crs h ls : forall sv line b sv' l' s', solid_inv sv -> lso_vertices F crs h sv line b ls = Ok (sv', l', s') -> solid_inv sv'.
Proof.
  induction ls as [|l ls IH]; intros sv line b sv' l' s' SI E; cbn [lso_vertices] in E; apply bind_ok in E; destruct E as [sv1 [E1 E]];
    pose proof (lso_vertex_inv crs h sv line sv1 SI E1) as SI1; [congruence|].
  destruct (contains l "VRTX"); [eapply IH; eassumption|congruence].
Qed.
Lemma start_columns (h : PropHeader (num F)) : map (fun _ => []) (p_names h) = columns (F := F) (List.length (p_names h)) [].
Proof. unfold columns, column. cbn [flat_map]. generalize 0%nat. induction (p_names h) as [|x l IH]; intros s; [reflexivity|]. cbn [map List.length seq]. now rewrite (IH (S s)). Qed.

(** The loaded blocks of any file. *)
Lemma lso_content text m' crs vp tp : nl (open_text text) = true -> read_lso F text = Ok m' -> lso_headers text = Ok (crs, vp, tp) -> good_header vp -> good_header tp ->
  exists before vl mid tl after pts vrows tets trows,
    pending (open_text text) = before ++ vl ++ mid ++ flat_pairs tl ++ after /\
    lenz pts = lenz vl /\ (forall v line, nthz vl v = Some line -> vertex_point crs pts line v) /\
    Forall2 (fun line row => line_values vp (value_pos line) line row) vl vrows /\
    Forall2 (tetra_of (lenz pts)) tl tets /\ Forall2 (fun ll row => line_values tp 5 (fst ll) row) tl trows /\
    Forall (fun r => exists src, block_holds pts vp tp vrows trows tets src r) (i_blocks m').
Proof.
  intros NL E EH GV GT. unfold read_lso in E. unfold lso_headers in EH. destruct (goto_if _ (open_text text)) as [[l0|] s0] eqn:E0; [|discriminate].
  apply bind_ok in E. destruct E as [[title s1] [E1 E]]. rewrite E1 in EH. cbn [bind] in EH.
  apply bind_ok in E. destruct E as [[crs' s2] [E2 E]]. rewrite E2 in EH. cbn [bind] in EH.
  apply bind_ok in E. destruct E as [[vp' s3] [E3 E]]. rewrite E3 in EH. cbn [bind] in EH.
  apply bind_ok in E. destruct E as [[tp' s4] [E4 E]]. rewrite E4 in EH. cbn [bind] in EH.
  assert (crs' = crs /\ vp' = vp /\ tp' = tp) as [-> [-> ->]] by (repeat split; congruence). clear EH.
  unfold lso_body in E. apply bind_ok in E. destruct E as [[line s5] [E5 E]].
  destruct (lso_start text NL _ _ _ _ _ _ _ _ _ _ _ _ E0 E1 E2 E3 E4 E5) as [N5 SX].
  clear E0 E1 E2 E3 E4 E5.
  apply bind_ok in E. destruct E as [[[sv line2] s6] [E6 E]].
  assert (SI : solid_inv sv) by (eapply vertices_solid; [|exact E6]; apply empty_inv).
  destruct (vertices_steps crs vp (pending s5) GV [] (mkSolidV [] [] [] (map (fun _ => []) (p_names vp))) [] line (nl s5) sv line2 s6) as [vl [rest [vrows [EV [VO R6]]]]]; [|exact E6|].
  { split; cbn [sv_points sv_vals]; [reflexivity| |constructor|apply start_columns]. intros v ln H. apply nthz_in in H. destruct H. }
  cbn [app] in VO. specialize (R6 N5). clear E6. apply bind_ok in E. destruct E as [[line3 s7] [E7' E]].
  pose proof (skip_reached _ _ _ _ _ _ R6 E7') as R7.
  apply bind_ok in E. destruct E as [[[st line4] s8] [E7 E]].
  destruct (tetras_steps (lenz (sv_points sv)) tp GT _ (pending s7) (le_n _) [] (mkSolidT [] (map (fun _ => []) (p_names tp))) [] line3 (nl s7) st line4 s8) as [tl [trows [[rest' LI] TO]]]; [|exact E7|].
  { split; cbn [st_tets st_vals]; [constructor|constructor|apply start_columns]. }
  cbn [app] in TO.
  assert (SR : exists mid, rest = mid ++ flat_pairs tl ++ rest').
  { destruct R7 as [[N7 [mid H7]]|[L7 P7]].
    - rewrite N7 in LI. destruct LI as [LI|[LI _]]; [|discriminate]. exists mid. now rewrite H7, LI.
    - exfalso. rewrite L7, P7 in E7. cbn [lso_tetras] in E7. apply bind_ok in E7. destruct E7 as [st1 [E7 _]]. exact (tetra_empty _ _ _ _ _ E7). }
  clear E7. apply bind_ok in E. destruct E as [[line5 s9] [_ E]]. apply bind_ok in E. destruct E as [[line5' s10] [_ E]].
  destruct (getline line5' s10) as [[g line6] s11]. apply bind_ok in E. destruct E as [[[[ss hs] line7] s12] [_ E]].
  apply bind_ok in E. destruct E as [[bs bad] [E9 E]].
  match type of E with Ok ?x = _ => assert (m' = x) as -> by congruence end. clear E. cbn [i_blocks].
  destruct SX as [before SX]. destruct SR as [mid ->].
  exists before, vl, mid, tl, rest', (sv_points sv), vrows, (st_tets st), trows. split; [now rewrite SX, EV|].
  split; [exact (vo_len _ _ _ _ _ VO)|]. split; [exact (vo_points _ _ _ _ _ VO)|]. split; [exact (vo_rows _ _ _ _ _ VO)|].
  split; [exact (to_tets _ _ _ _ _ TO)|]. split; [exact (to_rows _ _ _ _ _ TO)|].
  apply blocks_from in E9. eapply Forall_impl; [|exact E9]. intros r [name [bd EB]].
  destruct (build_block_holds crs vp tp vl tl sv st ss vrows trows name r bd GV GT VO SI TO EB) as [_ H]. exact H.
Qed.
End Blocks.
