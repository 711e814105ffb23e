(** * The .lso reader on written lines: from the text to operations on the solid. *)
From Coq Require Import ZArith List Lia Bool Ascii String Permutation.
From Verif Require Import Base Text TextFacts GocadModel MeshModel TsModel Spec GocadFacts TsFacts LsoModel LsoFacts.
Import ListNotations.
Local Open Scope string_scope.
Local Open Scope list_scope.
Local Open Scope Z_scope.

Lemma starts_with_in p c l : starts_with l (c :: p) = true -> In c l.
Proof.
  destruct l as [|d l]; cbn [starts_with]; [discriminate|]. intros H. apply andb_true_iff in H. destruct H as [H _].
  apply Ascii.eqb_eq in H. subst. now left.
Qed.
Lemma after_first_in p c l x : after_first (c :: p) l = Some x -> In c l.
Proof.
  revert x. induction l as [|d l IH]; intros x; cbn [after_first].
  - destruct (starts_with [] (c :: p)) eqn:E; [apply starts_with_in in E; auto|discriminate].
  - destruct (starts_with (d :: l) (c :: p)) eqn:E; [intros _; now apply starts_with_in in E|].
    intros H. right. eapply IH. exact H.
Qed.
Lemma not_contains c p l : ~ In c l -> contains l (c :: p) = false.
Proof.
  intros H. unfold contains. destruct (after_first (c :: p) l) eqn:E; [|reflexivity]. apply after_first_in in E. contradiction.
Qed.
Lemma digits_no c n : 0 <= n -> is_digit c = false -> ~ In c (show n).
Proof.
  intros Hn Hc Hi. pose proof (show_digits n Hn) as H. rewrite Forall_forall in H. apply H in Hi. congruence.
Qed.
Lemma spaced_no c ts : c <> SP -> Forall (fun t => ~ In c t) ts -> ~ In c (spaced ts).
Proof.
  intros Hc. induction 1 as [|t r Ht Hr IH]; [intros []|]. rewrite spaced_cons. intros [H|H]; [congruence|].
  apply in_app_or in H. tauto.
Qed.

Lemma tok_index1 (kw : bytes) (l : list bytes) i a : idx l i = Ok (show (a + 1)) -> 0 <= a -> a + 1 < two32 ->
  tok_index 1 (kw :: l) (S i) = Ok a.
Proof.
  intros H Ha Hb. unfold tok_index. rewrite idx_S, H. cbn [bind].
  rewrite string_to_index_show by lia. cbn [bind]. rewrite sub32_small by lia. f_equal. lia.
Qed.

Section Read.
Context {F : Num} (HF : num_ok F).
Notation np := (@empty_prop (num F)).
Notation read_vertex := (lso_vertex F default_crs np).

(** ** Vertices *)
Lemma lso_vertices_fold sv l b L stop r :
  Forall (fun x => contains x "VRTX" = true) L -> contains stop "VRTX" = false ->
  lso_vertices F default_crs np sv l b (L ++ stop :: r)
  = do sv' <- foldM read_vertex (l :: L) sv; Ok (sv', stop, mkStream r b).
Proof.
  intros H Hs. revert sv l. induction H as [|x L Hx HL IH]; intros sv l.
  - cbn [app lso_vertices foldM]. rewrite Hs. destruct (read_vertex sv l); reflexivity.
  - cbn [app lso_vertices]. rewrite Hx. cbn [foldM]. rewrite bind_assoc. apply bind_ext. intros sv' _. apply IH.
Qed.
Lemma contains_prefix p l : contains (p ++ l) p = true.
Proof. unfold contains. now rewrite after_first_prefix. Qed.
Lemma vrtx_line_contains x : contains (lit "VRTX " ++ x) "VRTX" = true.
Proof. exact (contains_prefix (lit "VRTX") (SP :: x)). Qed.
Lemma contains_skip c l p : contains l p = true -> contains (c :: l) p = true.
Proof.
  unfold contains. cbn [after_first]. destruct (starts_with (c :: l) p); [reflexivity|]. auto.
Qed.
Lemma shared_line_contains x : contains (lit "SHAREDVRTX " ++ x) "VRTX" = true.
Proof. change (lit "SHAREDVRTX " ++ x) with (("S"%char :: "H"%char :: "A"%char :: "R"%char :: "E"%char :: "D"%char :: lit "VRTX" ++ SP :: x)).
  do 6 apply contains_skip. apply contains_prefix.
Qed.
Lemma vrtx_lines_contain v (ps : list (point F)) : Forall (fun x => contains x "VRTX" = true) (lso_vrtx_lines v ps).
Proof. revert v. induction ps as [|p ps IH]; intros v; cbn [lso_vrtx_lines]; constructor; [apply vrtx_line_contains|apply IH]. Qed.
Lemma shared_lines_contain c atoms : Forall (fun x => contains x "VRTX" = true) (shared_lines c atoms).
Proof. revert c. induction atoms as [|p ps IH]; intros v; cbn [shared_lines]; constructor; [apply shared_line_contains|apply IH]. Qed.

Definition start_solid (ps : list (point F)) : SolidV F :=
  mkSolidV ps (rangez 0 (List.length ps)) (map (fun i => [i]) (rangez 0 (List.length ps))) [].
Lemma vrtx_tokens n (x y z : num F) : 0 <= n ->
  string_split (lit "VRTX " ++ show n ++ SP :: point_string (x, y, z)) = [lit "VRTX"; show n; pt_text F x; pt_text F y; pt_text F z].
Proof.
  intros Hn. transitivity (string_split (lit "VRTX" ++ spaced [show n; pt_text F x; pt_text F y; pt_text F z])).
  - f_equal. unfold point_string. rewrite !spaced_cons. cbn [spaced map List.concat app]. rewrite app_nil_r. reflexivity.
  - apply split_spaced_tokens; [tok|]. destruct HF. repeat (apply Forall_cons; [auto using show_token|]). constructor.
Qed.
Lemma rp_xyz (x y z : num F) : rp F (x, y, z) = (rc F x, rc F y, rc F z). Proof. reflexivity. Qed.
Lemma read_vrtx_lines ps : forall done v, 0 <= v -> v = lenz done ->
  foldM read_vertex (lso_vrtx_lines v ps) (start_solid done) = Ok (start_solid (done ++ map (rp F) ps)).
Proof.
  induction ps as [|[[x y] z] ps IH]; intros done v Hv ->.
  - cbn [lso_vrtx_lines foldM map]. now rewrite app_nil_r.
  - cbn [lso_vrtx_lines foldM map]. unfold lso_vertex at 1.
    change (starts_with (lit "VRTX " ++ show (lenz done + 1) ++ SP :: point_string (x, y, z)) "SHARED") with false. cbv iota.
    rewrite vrtx_tokens by lia. rewrite vrtx_point_written by assumption. cbn [bind].
    cbn [p_names p_esizes empty_prop read_properties]. cbn [bind]. unfold start_solid at 1 2 3 4 5.
    cbn [sv_points sv_uid sv_map sv_vals].
    replace (signed F default_crs (rc F z)) with (rc F z) by reflexivity. rewrite <- rp_xyz.
    specialize (IH (done ++ [rp F (x, y, z)]) (lenz done + 1)). rewrite <- app_assoc in IH. cbn [app] in IH.
    rewrite <- IH; [|lia|rewrite lenz_app; reflexivity]. f_equal. unfold start_solid.
    rewrite app_length. cbn [List.length]. rewrite Nat.add_1_r, rangez_S, map_app. cbn [map].
    rewrite lenz_map. unfold lenz. rewrite rangez_length. reflexivity.
Qed.

(** What holds of the solid whatever the file: the vertices of a unique vertex are those that
    refer to it. *)
Record solid_inv (sv : SolidV F) : Prop := {
  si_len : lenz (sv_uid sv) = lenz (sv_points sv);
  si_uid : Forall (fun u => 0 <= u < lenz (sv_map sv)) (sv_uid sv);
  si_map : forall u l, nthz (sv_map sv) u = Some l -> NoDup l /\ forall x, In x l <-> nthz (sv_uid sv) x = Some u
}.
Lemma nthz_snoc {A} (a : list A) b i x : nthz (a ++ [b]) i = Some x <-> nthz a i = Some x \/ (i = lenz a /\ x = b).
Proof.
  split.
  - intros H. pose proof (nthz_range _ _ _ H) as Hr. rewrite lenz_app in Hr. change (lenz [b]) with 1 in Hr.
    destruct (Z.eq_dec i (lenz a)) as [->|N].
    + right. split; [reflexivity|]. replace (lenz a) with (lenz a + 0) in H by lia. rewrite nthz_app_r in H by lia.
      cbn in H. congruence.
    + left. destruct (nthz_in_range a i ltac:(unfold lenz in *; lia)) as [y Hy]. pose proof (nthz_app_l a [b] i y Hy). congruence.
  - intros [H|[-> ->]]; [now apply nthz_app_l|]. replace (lenz a) with (lenz a + 0) by lia.
    rewrite nthz_app_r by lia. reflexivity.
Qed.
Lemma setz_nthz {A} (l : list A) i x l' : setz l i x = Ok l' ->
  lenz l' = lenz l /\ nthz l' i = Some x /\ forall j, j <> i -> nthz l' j = nthz l j.
Proof.
  unfold setz. destruct ((0 <=? i) && (i <? Z.of_nat (List.length l))) eqn:B; [|discriminate]. intros [= <-].
  apply andb_true_iff in B. destruct B as [B1 B2]. apply Z.leb_le in B1. apply Z.ltb_lt in B2.
  split; [unfold lenz; now rewrite upd_length|]. unfold nthz. rewrite upd_length.
  rewrite (proj2 (Z.leb_le 0 i) B1), (proj2 (Z.ltb_lt _ _) B2). cbn [andb].
  split.
  - rewrite nth_error_upd. rewrite Nat.eqb_refl. destruct (Nat.ltb_spec (Z.to_nat i) (List.length l)); [reflexivity|lia].
  - intros j Hj. destruct ((0 <=? j) && (j <? Z.of_nat (List.length l))) eqn:Bj; [|reflexivity].
    apply andb_true_iff in Bj. destruct Bj as [Bj _]. apply Z.leb_le in Bj.
    rewrite nth_error_upd. destruct (Nat.eqb_spec (Z.to_nat j) (Z.to_nat i)); [lia|]. destruct (Nat.eqb_spec (Z.to_nat i) (Z.to_nat j)); [lia|reflexivity].
Qed.
Lemma nodup_snoc {A} (l : list A) x : NoDup l -> ~ In x l -> NoDup (l ++ [x]).
Proof. intros H Hx. apply NoDup_rev in H. rewrite <- (rev_involutive (l ++ [x])). apply NoDup_rev. rewrite rev_app_distr. cbn. constructor; [|assumption]. now rewrite <- in_rev. Qed.
Lemma lso_vertex_inv crs h sv line sv' : solid_inv sv -> lso_vertex F crs h sv line = Ok sv' -> solid_inv sv'.
Proof.
  intros [L U M] E. unfold lso_vertex in E. destruct (starts_with line "SHARED").
  - apply bind_ok in E. destruct E as [u [_ E]]. apply bind_ok in E. destruct E as [p [_ E]].
    apply bind_ok in E. destruct E as [vals [_ E]]. apply bind_ok in E. destruct E as [l [El E]].
    apply bind_ok in E. destruct E as [mp [Em E]]. assert (sv' = mkSolidV (sv_points sv ++ [p]) (sv_uid sv ++ [u]) mp vals) as -> by congruence.
    clear E. apply idxz_ok in El. apply setz_nthz in Em. destruct Em as [Lm [Mu Mo]]. pose proof (nthz_range _ _ _ El) as Hu.
    split; cbn [sv_points sv_uid sv_map].
    + rewrite !lenz_app, L. reflexivity.
    + rewrite Lm. apply Forall_app. split; [assumption|]. constructor; [assumption|constructor].
    + intros w lw Hw. destruct (Z.eq_dec w u) as [->|N].
      * assert (lw = l ++ [lenz (sv_points sv)]) as -> by congruence. destruct (M u l El) as [ND HI].
        split.
        -- apply nodup_snoc; [assumption|]. intros Hi. apply HI in Hi. apply nthz_range in Hi. lia.
        -- intros x. rewrite in_app_iff, nthz_snoc, HI, L. cbn [In]. split.
           ++ intros [H|[H|[]]]; auto.
           ++ intros [H|[-> _]]; auto.
      * rewrite Mo in Hw by assumption. destruct (M w lw Hw) as [ND HI]. split; [assumption|].
        intros x. rewrite nthz_snoc, HI. split; [auto|]. intros [H|[_ H]]; [assumption|congruence].
  - apply bind_ok in E. destruct E as [p [_ E]]. apply bind_ok in E. destruct E as [vals [_ E]].
    assert (sv' = mkSolidV (sv_points sv ++ [p]) (sv_uid sv ++ [lenz (sv_map sv)]) (sv_map sv ++ [[lenz (sv_points sv)]]) vals) as -> by congruence.
    clear E. split; cbn [sv_points sv_uid sv_map].
    + rewrite !lenz_app, L. reflexivity.
    + rewrite lenz_app. change (lenz [[lenz (sv_points sv)]]) with 1. apply Forall_app. split.
      * eapply Forall_impl; [|exact U]. cbn beta. lia.
      * constructor; [pose proof (lenz_nonneg (sv_map sv)); lia|constructor].
    + intros w lw Hw. apply nthz_snoc in Hw. destruct Hw as [Hw|[-> ->]].
      * destruct (M w lw Hw) as [ND HI]. split; [assumption|]. intros x. rewrite nthz_snoc, HI.
        split; [auto|]. intros [H|[_ H]]; [assumption|]. apply nthz_range in Hw. lia.
      * split; [constructor; [intros []|constructor]|]. intros x. rewrite nthz_snoc, L. cbn [In]. split.
        -- intros [<-|[]]. auto.
        -- intros [H|[-> _]]; [|auto]. apply nthz_in in H. rewrite Forall_forall in U. apply U in H. lia.
Qed.
Lemma empty_inv vals : solid_inv (mkSolidV [] [] [] vals).
Proof. split; cbn [sv_points sv_uid sv_map]; auto. intros u l H. apply nthz_in in H. destruct H. Qed.
Lemma lso_fold_inv crs h L : forall sv sv', solid_inv sv -> foldM (lso_vertex F crs h) L sv = Ok sv' -> solid_inv sv'.
Proof.
  induction L as [|l L IH]; intros sv sv' HI E; cbn [foldM] in E; [congruence|].
  apply bind_ok in E. destruct E as [s1 [E1 E]]. eapply IH; [|exact E]. eapply lso_vertex_inv; eassumption.
Qed.

Lemma shared_tokens c a : 0 <= c -> 0 <= a ->
  string_split (lit "SHAREDVRTX " ++ show c ++ SP :: show a) = [lit "SHAREDVRTX"; show c; show a].
Proof.
  intros. transitivity (string_split (lit "SHAREDVRTX" ++ spaced [show c; show a])).
  - f_equal. rewrite !spaced_cons. cbn [spaced map List.concat app]. rewrite app_nil_r. reflexivity.
  - apply split_spaced_tokens; [tok|]. repeat (apply Forall_cons; [auto using show_token|]). constructor.
Qed.
Lemma setz_total {A} (l : list A) i x : 0 <= i < lenz l -> exists l', setz l i x = Ok l'.
Proof. intros H. unfold setz. destruct (Z.leb_spec 0 i), (Z.ltb_spec i (Z.of_nat (List.length l))); unfold lenz in *; try lia. eexists. reflexivity. Qed.
Lemma read_shared_lines atoms : forall c sv N, 0 <= c -> c + lenz atoms <= two32 -> N < two32 ->
  lenz (sv_map sv) = N -> N <= lenz (sv_points sv) ->
  Forall (fun a => 1 <= a <= N) atoms ->
  exists new mp, Forall2 (fun a p => nthz (sv_points sv) (a - 1) = Some p) atoms new /\ lenz mp = N /\
   foldM read_vertex (shared_lines c atoms) sv
   = Ok (mkSolidV (sv_points sv ++ new) (sv_uid sv ++ map (fun a => a - 1) atoms) mp (sv_vals sv)).
Proof.
  induction atoms as [|a atoms IH]; intros c sv N Hc Hb HN HM HP HA.
  - exists [], (sv_map sv). split; [constructor|]. split; [assumption|]. cbn [shared_lines foldM map]. rewrite !app_nil_r.
    destruct sv; reflexivity.
  - inversion_clear HA as [|? ? Ha HA']. rewrite lenz_cons in Hb. pose proof (lenz_nonneg atoms).
    cbn [shared_lines foldM]. unfold lso_vertex at 1.
    change (starts_with (lit "SHAREDVRTX " ++ show c ++ SP :: show a) "SHARED") with true. cbv iota.
    rewrite shared_tokens by lia.
    rewrite (tok_index1 _ _ 1 (a - 1)); [|rewrite idx_S, idx_0; f_equal; f_equal; lia|lia|lia]. cbn [bind].
    destruct (nthz_in_range (sv_points sv) (a - 1)) as [p Hp]; [unfold lenz in *; lia|].
    rewrite (proj2 (idxz_ok _ _ _) Hp). cbn [bind p_names p_esizes empty_prop read_properties].
    destruct (nthz_in_range (sv_map sv) (a - 1)) as [l Hl]; [unfold lenz in *; lia|].
    rewrite (proj2 (idxz_ok _ _ _) Hl). cbn [bind].
    destruct (setz_total (sv_map sv) (a - 1) (l ++ [lenz (sv_points sv)])) as [mp0 Hm]; [lia|]. rewrite Hm. cbn [bind].
    apply setz_nthz in Hm. destruct Hm as [Lm _].
    assert (Hcc : add32 c 1 = c + 1 \/ atoms = []).
    { destruct atoms as [|a' at']; [now right|left]. rewrite lenz_cons in Hb. pose proof (lenz_nonneg at'). apply add32_small; lia. }
    destruct Hcc as [Ec|En].
    + destruct (IH (c + 1) (mkSolidV (sv_points sv ++ [p]) (sv_uid sv ++ [a - 1]) mp0 (sv_vals sv)) N) as [new [mp [F2 [LM E]]]];
        cbn [sv_points sv_uid sv_map sv_vals] in *; try lia; auto.
      { rewrite lenz_app. change (lenz [p]) with 1. lia. }
      exists (p :: new), mp. split.
      * constructor; [assumption|]. clear -F2 HA' HP. revert new F2. induction HA' as [|x r Hx HA' IH]; intros new F2; inversion_clear F2; constructor; auto.
        apply nthz_snoc in H. destruct H as [H|[H _]]; [assumption|lia].
      * split; [assumption|]. rewrite Ec, E. rewrite <- !app_assoc. reflexivity.
    + subst atoms. exists [p], mp0. split; [constructor; [assumption|constructor]|]. split; [lia|]. reflexivity.
Qed.

(** ** Tetrahedra *)
Definition num_line (kw : bytes) (ns : list Z) : bytes := kw ++ spaced (map (fun n => show (n + 1)) ns).
Lemma num_line_tokens kw ns : token kw -> Forall (fun n => 0 <= n) ns ->
  string_split (num_line kw ns) = kw :: map (fun n => show (n + 1)) ns.
Proof.
  intros Hk H. unfold num_line. apply split_spaced_tokens; [assumption|]. apply Forall_map. eapply Forall_impl; [|exact H].
  intros n Hn. cbn beta in Hn. apply show_token. lia.
Qed.
Definition quad_list (t : quad) : list Z := let '(a, b, c, d) := t in [a; b; c; d].
Definition ctetra_line (name : bytes) : bytes := lit "# CTETRA " ++ name ++ lit " none none none none".
Lemma ctetra_tokens name : token name ->
  string_split (ctetra_line name) = map lit ["#"; "CTETRA"] ++ name :: map lit ["none"; "none"; "none"; "none"].
Proof.
  intros H. transitivity (string_split (lit "#" ++ spaced (lit "CTETRA" :: name :: map lit ["none"; "none"; "none"; "none"]))).
  - reflexivity.
  - rewrite split_spaced_tokens; [reflexivity|tok|]. repeat (apply Forall_cons; [first [assumption|tok]|]). constructor.
Qed.
Lemma idx_map_nth {A B} (f : A -> B) (l : list A) i a : nth_error l i = Some a -> idx (map f l) i = Ok (f a).
Proof. intros H. unfold idx. rewrite nth_error_map, H. reflexivity. Qed.
Definition quad_in (n : Z) (t : quad) : Prop := Forall (fun v => 0 <= v < n) (quad_list t).
Lemma lso_tetra_written n st t name : n < two32 -> quad_in n t -> token name ->
  lso_tetra F np n st (num_line "TETRA" (quad_list t)) (ctetra_line name)
  = Ok (mkSolidT (st_tets st ++ [(t, name)]) (st_vals st)).
Proof.
  intros Hn Ht Hk. destruct t as [[[a b] c] d]. unfold quad_in in Ht. cbn [quad_list] in *.
  unfold lso_tetra. rewrite num_line_tokens; [|tok|eapply Forall_impl; [|exact Ht]; cbn beta; lia].
  inversion_clear Ht as [|? ? Ha Ht']. inversion_clear Ht' as [|? ? Hb Ht]. inversion_clear Ht as [|? ? Hc Ht'].
  inversion_clear Ht' as [|? ? Hd _].
  rewrite (tok_index1 _ _ 0 a) by (reflexivity || lia). cbn [bind].
  rewrite (tok_index1 _ _ 1 b) by (reflexivity || lia). cbn [bind].
  rewrite (tok_index1 _ _ 2 c) by (reflexivity || lia). cbn [bind].
  rewrite (tok_index1 _ _ 3 d) by (reflexivity || lia). cbn [bind].
  destruct (Z.ltb_spec a n), (Z.ltb_spec b n), (Z.ltb_spec c n), (Z.ltb_spec d n); try lia. cbn [andb].
  cbn [p_names p_esizes empty_prop read_properties bind]. rewrite ctetra_tokens by assumption. reflexivity.
Qed.
Definition tet_lines (e : quad * bytes) : list bytes := [num_line "TETRA" (quad_list (fst e)); ctetra_line (snd e)].
Lemma lso_tetras_written n es : forall st e b stop r, n < two32 -> starts_with stop "TETRA" = false ->
  Forall (fun e => quad_in n (fst e) /\ token (snd e)) (e :: es) ->
  lso_tetras F np n st (num_line "TETRA" (quad_list (fst e))) b (ctetra_line (snd e) :: flat_map tet_lines es ++ stop :: r)
  = Ok (mkSolidT (st_tets st ++ e :: es) (st_vals st), stop, mkStream r b).
Proof.
  induction es as [|e' es IH]; intros st [t name] b stop r Hn Hs H; inversion_clear H as [|? ? [Ht Hk] H'].
  - cbn [flat_map app lso_tetras fst snd] in *. rewrite lso_tetra_written by assumption. cbn [bind]. rewrite Hs. reflexivity.
  - cbn [flat_map tet_lines app lso_tetras fst snd] in *. rewrite lso_tetra_written by assumption. cbn [bind].
    replace (starts_with (num_line "TETRA" (quad_list (fst e'))) "TETRA") with true by (symmetry; apply starts_with_app). cbv iota.
    rewrite IH by assumption. cbn [st_tets st_vals]. rewrite <- app_assoc. reflexivity.
Qed.

(** ** Surfaces *)
Definition tri_list (t : tri) : list Z := let '(a, b, c) := t in [a; b; c].
(** A TRGL line without its text. *)
Definition tri_step (sv : SolidV F) (tets : list (quad * bytes)) (s : Z) (st : TriSt F) (t : tri) : res (TriSt F) :=
  let '(a, b, c) := t in
  do '(us1, ia) <- use_vertex F sv (ts_used st) a;
  do '(us2, ib) <- use_vertex F sv us1 b;
  do '(us3, ic) <- use_vertex F sv us2 c;
  do fs <- facets_from_vertices F sv tets (a, b, c);
  Ok (mkTriSt us3 (ts_tris st ++ [(ia, ib, ic)])
        (rev (map (fun f => (f, s)) fs) ++ ts_facets st)
        (ts_inspect st || match fs with [] => true | _ => false end)).
Lemma lso_trgl_written sv tets s st t : Forall (fun v => 0 <= v < two32 - 1) (tri_list t) ->
  lso_trgl F sv tets s st (num_line "TRGL" (tri_list t)) = tri_step sv tets s st t.
Proof.
  intros H. destruct t as [[a b] c]. cbn [tri_list] in *. unfold lso_trgl.
  rewrite num_line_tokens; [|tok|eapply Forall_impl; [|exact H]; cbn beta; lia].
  inversion_clear H as [|? ? Ha H']. inversion_clear H' as [|? ? Hb H]. inversion_clear H as [|? ? Hc _].
  rewrite (tok_index1 _ _ 0 a) by (reflexivity || lia). cbn [bind].
  rewrite (tok_index1 _ _ 1 b) by (reflexivity || lia). cbn [bind].
  rewrite (tok_index1 _ _ 2 c) by (reflexivity || lia). cbn [bind].
  reflexivity.
Qed.
Lemma lso_triangles_written sv tets s T : forall st line b stop r,
  Forall (fun t => Forall (fun v => 0 <= v < two32 - 1) (tri_list t)) T -> starts_with stop "TRGL" = false ->
  lso_triangles F sv tets s st line b (map (fun t => num_line "TRGL" (tri_list t)) T ++ stop :: r)
  = do st' <- foldM (tri_step sv tets s) T st; Ok (st', stop, mkStream r b).
Proof.
  induction T as [|t T IH]; intros st line b stop r H Hs.
  - cbn [map app lso_triangles foldM bind]. now rewrite Hs.
  - inversion_clear H as [|? ? Ht HT]. cbn [map app lso_triangles foldM].
    replace (starts_with (num_line "TRGL" (tri_list t)) "TRGL") with true by (symmetry; apply starts_with_app). cbv iota.
    rewrite lso_trgl_written by assumption. rewrite bind_assoc. apply bind_ext. intros st' _. now apply IH.
Qed.

(** A TFACE: its number and its triangles. *)
Definition load_face (sv : SolidV F) (tets : list (quad * bytes)) (name : bytes) (st : SurfSt F) (T : list tri) : res (SurfSt F) :=
  do ts <- foldM (tri_step sv tets (lenz (ss_surfs st))) T (mkTriSt no_vertex [] (ss_facets st) (ss_inspect st));
  Ok (mkSurfSt (ss_surfs st ++ [mkLSurfR name (us_points (ts_used ts)) (ts_tris ts) (us_uv (ts_used ts))])
               (ts_facets ts) (ts_inspect ts)).
Definition face_lines (e : Z * list tri) : list bytes :=
  (lit "TFACE " ++ show (fst e)) ::
  num_line "KEYVERTICES" (match snd e with t :: _ => tri_list t | [] => [] end) ::
  map (fun t => num_line "TRGL" (tri_list t)) (snd e).
Definition small_tri (t : tri) : Prop := Forall (fun v => 0 <= v < two32 - 1) (tri_list t).
Lemma lso_tfaces_written sv tets name faces : forall fuel st line ls b stop r,
  (List.length faces < fuel)%nat ->
  line :: ls = flat_map face_lines faces ++ stop :: r ->
  Forall (fun e => Forall small_tri (snd e)) faces ->
  starts_with stop "TFACE" = false -> starts_with stop "TRGL" = false ->
  lso_tfaces F fuel sv tets name st line (mkStream ls b)
  = do st' <- foldM (load_face sv tets name) (map snd faces) st; Ok (st', stop, mkStream r b).
Proof.
  induction faces as [|[n T] faces IH]; intros fuel st line ls b stop r Hf E HT H1 H2; (destruct fuel as [|fuel]; [lia|]).
  - cbn [flat_map app] in E. injection E as -> ->. cbn [lso_tfaces map foldM bind]. now rewrite H1.
  - inversion_clear HT as [|? ? HT0 HT1]. cbn [flat_map face_lines fst snd app] in E.
    assert (line = lit "TFACE " ++ show n) as -> by congruence.
    assert (ls = num_line "KEYVERTICES" (match T with t :: _ => tri_list t | [] => [] end) ::
       (map (fun t => num_line "TRGL" (tri_list t)) T ++ flat_map face_lines faces) ++ stop :: r) as -> by congruence.
    clear E. cbn [lso_tfaces]. change (starts_with (lit "TFACE " ++ show n) "TFACE") with true. cbv iota.
    unfold getline. cbn [pending nl]. cbv iota beta. cbn [pending nl]. rewrite <- app_assoc.
    assert (exists l0 r0, flat_map face_lines faces ++ stop :: r = l0 :: r0 /\ starts_with l0 "TRGL" = false) as [l0 [r0 [E0 H0]]].
    { destruct faces as [|[n' T'] fs]; [exists stop, r; split; [reflexivity|assumption]|].
      cbn [flat_map face_lines fst snd app]. eexists _, _. split; reflexivity. }
    rewrite E0. rewrite lso_triangles_written by assumption. cbn [map foldM snd]. unfold load_face at 1. rewrite !bind_assoc.
    apply bind_ext. intros ts _. cbn [bind]. cbn [List.length] in Hf.
    rewrite (IH fuel _ l0 r0 b stop r); [reflexivity|lia|now symmetry|assumption|assumption|assumption].
Qed.

(** A SURFACE: its name as written and its faces. *)
Notation sect := (bytes * list (Z * list tri))%type.
Notation hor := (list (bytes * Z * Z)).
Definition sect_lines (e : sect) : list bytes := (lit "SURFACE " ++ fst e) :: flat_map face_lines (snd e).
Definition load_sect (sv : SolidV F) (tets : list (quad * bytes)) (x : SurfSt F * hor) (e : sect) : res (SurfSt F * hor) :=
  do st' <- foldM (load_face sv tets (normalise (fst e))) (map snd (snd e)) (fst x);
  Ok (st', snd x ++ [(normalise (fst e), lenz (ss_surfs (fst x)), lenz (ss_surfs st'))]).
Lemma read_name_normalise n : read_name (string_split n) = normalise n.
Proof. reflexivity. Qed.
Lemma split_kw kw n : token kw -> plain n -> string_split (kw ++ SP :: n) = kw :: string_split n.
Proof.
  intros Hk Hn. rewrite !string_split_plain; auto.
  - apply words_tok_sep; [assumption|reflexivity].
  - apply plain_app; [now apply plain_token|]. apply plain_cons; [reflexivity|assumption].
Qed.
Lemma lso_surfaces_written sv tets secs : forall fuel st hs line ls b stop r,
  (List.length secs < fuel)%nat ->
  line :: ls = flat_map sect_lines secs ++ stop :: r ->
  Forall (fun e => plain (fst e)) secs ->
  Forall (fun e => Forall (fun f => Forall small_tri (snd f)) (snd e)) secs ->
  starts_with stop "SURFACE" = false -> starts_with stop "TFACE" = false -> starts_with stop "TRGL" = false ->
  lso_surfaces F fuel sv tets st hs line (mkStream ls b)
  = do '(st', hs') <- foldM (load_sect sv tets) secs (st, hs); Ok (st', hs', stop, mkStream r b).
Proof.
  induction secs as [|[n fs] secs IH]; intros fuel st hs line ls b stop r Hf E HP HT H1 H2 H3; (destruct fuel as [|fuel]; [lia|]).
  - cbn [flat_map app] in E. injection E as -> ->. cbn [lso_surfaces foldM bind]. now rewrite H1.
  - inversion_clear HP as [|? ? HP0 HP1]. inversion_clear HT as [|? ? HT0 HT1]. cbn [flat_map sect_lines fst snd app] in E, HP0, HT0.
    assert (line = lit "SURFACE " ++ n) as -> by congruence.
    assert (ls = (flat_map face_lines fs ++ flat_map sect_lines secs) ++ stop :: r) as -> by congruence. clear E.
    cbn [lso_surfaces]. change (starts_with (lit "SURFACE " ++ n) "SURFACE") with true. cbv iota.
    replace (read_name (tl (string_split (lit "SURFACE " ++ n)))) with (normalise n).
    2:{ change (lit "SURFACE " ++ n) with (lit "SURFACE" ++ SP :: n). rewrite split_kw; [reflexivity|tok|assumption]. }
    assert (exists l0 r0, flat_map sect_lines secs ++ stop :: r = l0 :: r0 /\ starts_with l0 "TRGL" = false /\ starts_with l0 "TFACE" = false)
      as [l0 [r0 [E0 [HA HB]]]].
    { destruct secs as [|[n' T'] ss]; [exists stop, r; auto|].
      cbn [flat_map sect_lines fst snd app]. eexists _, _. split; [reflexivity|]. split; reflexivity. }
    rewrite <- app_assoc, E0.
    assert (exists l1 r1, flat_map face_lines fs ++ l0 :: r0 = l1 :: r1) as [l1 [r1 E1]].
    { destruct fs as [|f fs]; cbn [flat_map face_lines app]; eauto. }
    rewrite E1. unfold getline. cbn [pending nl]. cbv iota beta.
    rewrite (lso_tfaces_written sv tets (normalise n) fs _ st l1 r1 b l0 r0); [|cbn [pending]|now symmetry|assumption|assumption|assumption].
    2:{ apply (f_equal (@List.length _)) in E1. rewrite app_length in E1. cbn [List.length] in E1.
        assert (List.length fs <= List.length (flat_map face_lines fs))%nat; [|lia].
        clear. induction fs as [|f fs IH]; cbn [flat_map face_lines List.length app]; [lia|]. rewrite app_length. lia. }
    cbn [foldM]. unfold load_sect at 1. cbn [fst snd]. rewrite !bind_assoc. apply bind_ext. intros st' _. cbn [bind].
    cbn [List.length] in Hf. rewrite (IH fuel st' _ l0 r0 b stop r); [reflexivity|lia|now symmetry|assumption|assumption|assumption|assumption|assumption].
Qed.

(** ** Blocks *)
Fixpoint build_blocks (sv : SolidV F) (st : SolidT F) (ss : SurfSt F) (names : list bytes) : res (list (LBlockR F) * bool) :=
  match names with
  | [] => Ok ([], false)
  | n :: r =>
      do '(b, bad) <- build_block F np np sv st ss n;
      do '(bs, bad') <- build_blocks sv st ss r;
      Ok (b :: bs, bad || bad')
  end.
Definition region_text (e : bytes * bytes) : bytes := lit "MODEL_REGION " ++ fst e ++ SP :: snd e.
Lemma lso_blocks_written sv st ss regs : forall fuel line ls b stop r,
  (List.length regs < fuel)%nat ->
  line :: ls = map region_text regs ++ stop :: r ->
  Forall (fun e => token (fst e) /\ token (snd e)) regs ->
  starts_with stop "MODEL_REGION" = false ->
  lso_blocks F np np fuel sv st ss line (mkStream ls b) = build_blocks sv st ss (map fst regs).
Proof.
  induction regs as [|[n x] regs IH]; intros fuel line ls b stop r Hf E HT Hs; (destruct fuel as [|fuel]; [lia|]).
  - cbn [map app] in E. injection E as -> ->. cbn [lso_blocks map build_blocks]. now rewrite Hs.
  - inversion_clear HT as [|? ? [HT0 HT1] HT2]. cbn [map app fst snd] in *.
    assert (line = region_text (n, x)) as -> by congruence.
    assert (ls = map region_text regs ++ stop :: r) as -> by congruence. clear E.
    cbn [lso_blocks build_blocks]. change (starts_with (region_text (n, x)) "MODEL_REGION") with true. cbv iota.
    replace (string_split (region_text (n, x))) with [lit "MODEL_REGION"; n; x].
    2:{ symmetry. transitivity (string_split (lit "MODEL_REGION" ++ spaced [n; x])).
        - f_equal. unfold region_text. cbn [fst snd]. rewrite !spaced_cons. cbn [spaced map List.concat app]. now rewrite app_nil_r.
        - apply split_spaced_tokens; [tok|]. repeat (apply Forall_cons; [assumption|]). constructor. }
    rewrite idx_S, idx_0. cbn [bind]. apply bind_ext. intros [bl bad] _.
    assert (exists l0 r0, map region_text regs ++ stop :: r = l0 :: r0) as [l0 [r0 E0]] by (destruct regs; cbn [map app]; eauto).
    rewrite E0. unfold getline. cbn [pending nl]. cbv iota beta. cbn [List.length] in Hf.
    rewrite (IH fuel l0 r0 b stop r); [reflexivity|lia|now symmetry|assumption|assumption].
Qed.
End Read.
