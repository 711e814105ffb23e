(** * How loading a structural model (.ml) ends (C113). *)
From Coq Require Import ZArith List Lia Bool Ascii String.
From Verif Require Import Base Text TextFacts Spec GocadModel GocadFacts MeshModel TsModel TsFacts StreamFacts MultiFacts PropsGocad GocadSafe
  PropsGocadSafe MlModel MlFacts LsoRead Grammar GrammarFacts GrammarMl MlOut ExNum ExCheck PropsGrammarMl.
Import ListNotations.
Local Open Scope string_scope.
Local Open Scope list_scope.
Local Open Scope Z_scope.

(** ** Specification *)

(** The object has at least [n] TFACE sections, and the triangles of each of the first [n] join vertices of their section.  Section
    [i] has the vertices from offset [i] to offset [i + 1]. *)
Definition in_section (a b : Z) (t : tri) : Prop := let '(x, y, z) := t in a <= x < b /\ a <= y < b /\ a <= z < b.
Definition sections_fit {F} (d : TSurf F) (n : nat) : Prop :=
  (n < List.length (t_vert_off d))%nat /\
  forall i a b u v, (i < n)%nat -> nth_error (t_vert_off d) i = Some a -> nth_error (t_vert_off d) (S i) = Some b ->
    nth_error (t_tri_off d) i = Some u -> nth_error (t_tri_off d) (S i) = Some v ->
    forall j t, u <= j < v -> nthz (t_triangles d) j = Some t -> in_section a b t.
(** The objects that are read one after the other have the sections of the surfaces declared. *)
Fixpoint objects_fit (F : Num) (counts : list nat) (s : istream) : Prop :=
  match counts with
  | [] => True
  | n :: r => forall d s', read_tsurf F s = Ok (Some d, s') -> sections_fit d n /\ objects_fit F r s'
  end.
(** What follows the coordinate system has a meaning: its components are defined and, when they are accepted, the objects that follow fit
    them.  [b]: the last line of the file is ended. *)
Definition body_fits (F : Num) (body : list bytes) (b : bool) : Prop :=
  exists o, comps [] [] body o /\
    match o with
    | Ends names faces post => kinds_known names faces -> objects_fit F (face_counts names faces) (mkStream post b)
    | Refused => True
    end.

(** ** The beginning of the file *)
Lemma scan_inv (p : bytes -> bool) ls l r : scan p ls = Some (l, r) -> exists pre, ls = pre ++ l :: r /\ Forall (fun x => p x = false) pre /\ p l = true.
Proof.
  induction ls as [|x ls IH]; cbn [scan]; [discriminate|]. destruct (p x) eqn:E.
  - intros H. injection H as -> ->. exists []. split; [reflexivity|]. split; [constructor|assumption].
  - intros H. destruct (IH H) as (pre & -> & H1 & H2). exists (x :: pre). split; [reflexivity|]. split; [now constructor|assumption].
Qed.
Lemma header_loop_inv ls : forall n name r, header_loop n ls = Ok (name, r) -> exists inner last, ls = inner ++ last :: r /\
  Forall (starts_not "}") inner /\ starts "}" last /\
  ((name = n /\ Forall (fun l => after_first "name:" l = None) inner) \/
   (exists a l b text, inner = a ++ l :: b /\ after_first "name:" l = Some text /\ name = Some (normalise text) /\
      Forall (fun l => after_first "name:" l = None) b)).
Proof.
  induction ls as [|l ls IH]; intros n name r; cbn [header_loop]; [discriminate|]. destruct (starts_with l "}") eqn:El.
  - intros H. injection H as <- <-. exists [], l. split; [reflexivity|]. split; [constructor|]. split; [exact El|]. left. split; [reflexivity|constructor].
  - destruct (after_first "name:" l) as [t|] eqn:Ea; intros H; apply IH in H as (inner & last & -> & H1 & H2 & H3);
      exists (l :: inner), last; (split; [reflexivity|]); (split; [now constructor|]); (split; [assumption|]).
    + right. destruct H3 as [[-> H3]|(a & l' & b & t' & -> & E1 & E2 & E3)].
      * exists [], l, inner, t. rewrite read_name_normalise. auto.
      * exists (l :: a), l', b, t'. auto.
    + destruct H3 as [[-> H3]|(a & l' & b & t' & -> & E1 & E2 & E3)].
      * left. split; [reflexivity|now constructor].
      * right. exists (l :: a), l', b, t'. auto.
Qed.
Lemma read_header_inv s name s' : read_header s = Ok (name, s') -> exists hs, pending s = hs ++ pending s' /\ header_text hs name.
Proof.
  unfold read_header. intros H. apply bind_ok in H as [s1 [H1 H]]. apply bind_ok in H as [[n r] [H2 H]]. injection H as -> <-.
  unfold check_keyword in H1. destruct (pending s) as [|l q] eqn:Es; [discriminate|]. destruct (starts_with l "HEADER") eqn:El; [|discriminate].
  injection H1 as <-. cbn [pending nl] in *. apply header_loop_inv in H2 as (inner & last & -> & A & B & C).
  exists (l :: inner ++ [last]). split; [cbn [app]; now rewrite <- app_assoc|]. exists l, inner, last. auto 10.
Qed.
Lemma crs_line_inv c l c' : crs_line c l = Ok c' -> crs_entry l /\ z_sign_positive c' = z_step (z_sign_positive c) l.
Proof.
  intros H. assert (E : crs_entry l).
  { unfold crs_line in H. apply bind_ok in H as [tk [E H]]. apply bind_ok in H as [k [Ek H]]. destruct tk as [|k' args]; [discriminate|]. injection Ek as ->.
    exists k, args. split; [exact E|]. intros Hk ->.
    destruct Hk as [<-|[<-|[<-|[<-|[]]]]]; discriminate. }
  split; [exact E|]. destruct (crs_line_entry c l E) as (c2 & E2 & Hz). rewrite E2 in H. injection H as <-. exact Hz.
Qed.
Lemma crs_loop_inv ls : forall c c' r, crs_loop c ls = Ok (c', r) -> exists inner last, ls = inner ++ last :: r /\
  Forall (starts_not "END_ORIGINAL_COORDINATE_SYSTEM") inner /\ Forall crs_entry inner /\ starts "END_ORIGINAL_COORDINATE_SYSTEM" last /\
  z_sign_positive c' = fold_left z_step inner (z_sign_positive c).
Proof.
  induction ls as [|l ls IH]; intros c c' r; cbn [crs_loop]; [discriminate|]. destruct (starts_with l "END_ORIGINAL_COORDINATE_SYSTEM") eqn:El.
  - intros H. injection H as <- <-. exists [], l. split; [reflexivity|]. split; [constructor|]. split; [constructor|]. split; [exact El|reflexivity].
  - intros H. apply bind_ok in H as [c1 [E H]]. apply crs_line_inv in E as [E1 E2]. apply IH in H as (inner & last & -> & H1 & H2 & H3 & H4).
    exists (l :: inner), last. split; [reflexivity|]. split; [now constructor|]. split; [now constructor|]. split; [exact H3|]. cbn [fold_left]. now rewrite <- E2.
Qed.
Lemma says_z_dec l : crs_entry l -> {arg : bytes & {args | split_quotes l = Ok (lit "ZPOSITIVE" :: arg :: args)}} + {~ says_z l}.
Proof.
  intros H. destruct (split_quotes l) as [[|k [|a args]]| | |] eqn:E; try (right; intros (args0 & E0); congruence).
  - destruct (beq k "ZPOSITIVE") eqn:K; [|right; intros (args0 & E0); rewrite E0 in E; injection E as <-; rewrite beq_refl in K; discriminate].
    right. intros (args0 & E0). destruct H as (k' & args' & E1 & Hk). rewrite E1 in E. injection E as -> ->. apply beq_eq in K. subst k.
    apply Hk; [now left|reflexivity].
  - destruct (beq k "ZPOSITIVE") eqn:K.
    + apply beq_eq in K. subst k. left. now exists a, args.
    + right. intros (args0 & E0). rewrite E0 in E. injection E as <- _. rewrite beq_refl in K. discriminate.
Qed.
Lemma z_fold_upwards inner : Forall crs_entry inner -> z_upwards inner (fold_left z_step inner true).
Proof.
  induction inner as [|l inner IH] using rev_ind; intros H; [left; split; [reflexivity|constructor]|]. apply Forall_app in H as [H1 H2]. apply Forall_inv in H2.
  rewrite fold_left_app. cbn [fold_left]. destruct (says_z_dec l H2) as [(arg & args & E)|N].
  - right. exists inner, l, [], arg, args. split; [reflexivity|]. split; [exact E|]. split; [|constructor]. unfold z_step. rewrite E.
    change (beq (lit "ZPOSITIVE") (lit "ZPOSITIVE")) with true. cbn iota. apply beq_eq.
  - rewrite z_step_not by exact N. destruct (IH H1) as [[E I]|(a & l' & b & arg & args & -> & E & Hu & I)].
    + left. split; [exact E|]. apply Forall_app. split; [exact I|]. now constructor.
    + right. exists a, l', (b ++ [l]), arg, args. split; [now rewrite <- app_assoc|]. split; [exact E|]. split; [exact Hu|]. apply Forall_app. split; [exact I|]. now constructor.
Qed.
Lemma read_CRS_inv s c s' : read_CRS s = Ok (c, s') -> exists cs, pending s = cs ++ pending s' /\ crs_text cs (z_sign_positive c) /\
  (cs = [] -> not_next "GOCAD_ORIGINAL_COORDINATE_SYSTEM" (pending s')).
Proof.
  unfold read_CRS, next_if. destruct (pending s) as [|l q] eqn:Es.
  - intros H. injection H as <- <-. exists []. split; [reflexivity|]. split; [left; split; reflexivity|]. intros _. exact I.
  - destruct (starts_with l "GOCAD_ORIGINAL_COORDINATE_SYSTEM") eqn:El.
    + intros H. apply bind_ok in H as [[c1 r] [H1 H]]. injection H as -> <-. cbn [pending] in *. apply crs_loop_inv in H1 as (inner & last & -> & A & B & C & D).
      exists (l :: inner ++ [last]). split; [cbn [app]; now rewrite <- app_assoc|]. split; [|discriminate]. right. exists l, inner, last. repeat (split; auto).
      rewrite D. now apply z_fold_upwards.
    + intros H. injection H as <- <-. exists []. split; [symmetry; exact Es|]. split; [left; split; reflexivity|]. intros _. rewrite Es. exact El.
Qed.
Lemma object_text_inv kw s l s1 name s2 c s3 : goto_if kw s = (Some l, s1) -> read_header s1 = Ok (name, s2) -> read_CRS s2 = Ok (c, s3) ->
  object_text kw (pending s) name (z_sign_positive c) (pending s3).
Proof.
  intros H1 H2 H3. unfold goto_if in H1. destruct (scan _ (pending s)) as [[l0 r]|] eqn:E; [|discriminate]. injection H1 as -> <-.
  apply scan_inv in E as (pre & E & P1 & P2). apply read_header_inv in H2 as (hs & E2 & Hh). cbn [pending] in E2. apply read_CRS_inv in H3 as (cs & E3 & Hc & Hn).
  exists pre, l, hs, cs. rewrite <- E3, <- E2. auto 10.
Qed.

(** ** The sections of an object *)
Definition offsets_in {F} (d : TSurf F) : Prop :=
  List.length (t_vert_off d) = List.length (t_tri_off d) /\ Forall (fun x => 0 <= x <= lenz (t_points d)) (t_vert_off d) /\
  Forall (fun x => 0 <= x <= lenz (t_triangles d)) (t_tri_off d).
Lemma tface_line_offsets F (ts : TSurf F) l x : tface_line F ts l = Ok x -> offsets_in ts -> offsets_in (fst x).
Proof.
  intros H. unfold tface_line in H. apply bind_ok in H as [k [_ H]]. destruct ts as [off name crs props pts tris tro vo bst bor vals].
  unfold offsets_in. cbn [t_vert_off t_tri_off t_points t_triangles]. intros (L & V & T).
  assert (G : forall p, Forall (fun x => 0 <= x <= lenz (pts ++ [p])) vo).
  { intros p. eapply Forall_impl; [|exact V]. intros a Ha. cbn beta in *. rewrite lenz_app. unfold lenz at 2. cbn [List.length]. lia. }
  assert (G2 : forall t, Forall (fun x => 0 <= x <= lenz (tris ++ [t])) tro).
  { intros p. eapply Forall_impl; [|exact T]. intros a Ha. cbn beta in *. rewrite lenz_app. unfold lenz at 2. cbn [List.length]. lia. }
  assert (G3 : List.length (vo ++ [lenz pts]) = List.length (tro ++ [lenz tris]) /\ Forall (fun x => 0 <= x <= lenz pts) (vo ++ [lenz pts]) /\
    Forall (fun x => 0 <= x <= lenz tris) (tro ++ [lenz tris])).
  { rewrite !app_length. split; [cbn [List.length]; lia|]. split; (apply Forall_app; split; [assumption|]; constructor; [|constructor]); unfold lenz; lia. }
  destruct (is_vrtx k); [repeat (apply bind_ok in H as [? [_ H]]); injection H as <-; cbn; auto|].
  destruct (is_atom k); [repeat (apply bind_ok in H as [? [_ H]]); injection H as <-; cbn; auto|].
  destruct (beq k "TRGL"); [repeat (apply bind_ok in H as [? [_ H]]); injection H as <-; cbn; auto|].
  destruct (beq k "BSTONE"); [repeat (apply bind_ok in H as [? [_ H]]); injection H as <-; cbn; auto|].
  destruct (beq k "BORDER"); [repeat (apply bind_ok in H as [? [_ H]]); injection H as <-; cbn; auto|].
  destruct (beq k "TFACE"); [injection H as <-; exact G3|]. destruct (beq k "END"); injection H as <-; [exact G3|]. cbn. auto.
Qed.
Lemma tfaces_loop_offsets F ls : forall (ts : TSurf F) x, tfaces_loop F ts ls = Ok x -> offsets_in ts -> offsets_in (fst x).
Proof.
  induction ls as [|l ls IH]; intros ts x; cbn [tfaces_loop]; [discriminate|]. intros H D. apply bind_ok in H as [[ts' stop] [E H]].
  apply tface_line_offsets in E; [|exact D]. cbn [fst] in E. destruct stop; [injection H as <-; exact E|]. now apply (IH ts').
Qed.
Lemma read_tsurf_offsets F s d s' : read_tsurf F s = Ok (Some d, s') -> offsets_in d.
Proof.
  unfold read_tsurf. destruct (goto_if _ s) as [[l|] s1]; [|discriminate]. intros H. do 3 (apply bind_ok in H as [[? ?] [_ H]]).
  apply bind_ok in H as [[ts s5] [H1 H]]. injection H as -> ->. unfold read_tfaces in H1. apply bind_ok in H1 as [[? ?] [_ H1]].
  apply bind_ok in H1 as [[ts' r] [H1 H]]. injection H as -> <-. apply (tfaces_loop_offsets F _ _ _ H1). unfold offsets_in. cbn.
  split; [reflexivity|]. split; constructor; try constructor; lia.
Qed.
Lemma nth_skip {A} (l : list A) m k : nth_error l (m + k) = nth_error (skipn m l) k.
Proof. revert l. induction m as [|m IH]; intros [|z l]; cbn [skipn Nat.add nth_error]; auto. now destruct k. Qed.
Lemma nth_firstn_some {A} (l : list A) m k : (k < m)%nat -> nth_error (firstn m l) k = nth_error l k.
Proof. revert l k. induction m as [|m IH]; intros [|z l] [|k] H; cbn; auto; try lia. apply IH. lia. Qed.
Lemma slice_in {A} (l : list A) a b : 0 <= a <= lenz l -> 0 <= b <= lenz l -> exists x, slice l a b = Ok x /\ lenz x = Z.max 0 (b - a) /\
  forall k y, nth_error x k = Some y -> nthz l (a + Z.of_nat k) = Some y /\ a + Z.of_nat k < b.
Proof.
  intros Ha Hb. unfold slice. destruct (Z.leb_spec b a) as [H|H].
  - exists []. split; [reflexivity|]. split; [unfold lenz; cbn; lia|]. intros [|k] y; discriminate.
  - rewrite (proj2 (Z.leb_le 0 a)), (proj2 (Z.leb_le b (lenz l))) by lia. cbn [andb]. eexists. split; [reflexivity|].
    assert (L : lenz (firstn (Z.to_nat (b - a)) (skipn (Z.to_nat a) l)) = b - a).
    { unfold lenz in *. rewrite firstn_length, skipn_length. lia. }
    split; [rewrite L; lia|]. intros k y Hk. assert (Kl : (k < Z.to_nat (b - a))%nat).
    { assert (k < List.length (firstn (Z.to_nat (b - a)) (skipn (Z.to_nat a) l)))%nat by (apply nth_error_Some; congruence). unfold lenz in L. lia. }
    split; [|lia]. rewrite nth_firstn_some in Hk by exact Kl. unfold nthz. rewrite (proj2 (Z.leb_le 0 _)), (proj2 (Z.ltb_lt _ _)) by (unfold lenz in *; lia). cbn [andb].
    replace (Z.to_nat (a + Z.of_nat k)) with (Z.to_nat a + k)%nat by lia. now rewrite nth_skip.
Qed.
Lemma build_tface_defined F (d : TSurf F) n i : offsets_in d -> lenz (t_points d) < two32 -> sections_fit d n -> (i < n)%nat -> exists m, build_tface d i = Ok m.
Proof.
  intros (L & V & T) B (Hn & Hs) Hi. unfold build_tface.
  destruct (nth_error (t_vert_off d) i) as [a|] eqn:Ea; [|apply nth_error_None in Ea; lia].
  destruct (nth_error (t_vert_off d) (S i)) as [b|] eqn:Eb; [|apply nth_error_None in Eb; lia].
  destruct (nth_error (t_tri_off d) i) as [u|] eqn:Eu; [|apply nth_error_None in Eu; lia].
  destruct (nth_error (t_tri_off d) (S i)) as [v|] eqn:Ev; [|apply nth_error_None in Ev; lia].
  unfold idx. rewrite Ea, Eb, Eu, Ev. cbn [bind].
  rewrite Forall_forall in V, T. apply nth_error_In in Ea as Ia, Eb as Ib, Eu as Iu, Ev as Iv. apply V in Ia, Ib. apply T in Iu, Iv.
  destruct (slice_in (t_points d) a b Ia Ib) as (pts & -> & Lp & _). cbn [bind].
  destruct (slice_in (t_triangles d) u v Iu Iv) as (tris & -> & _ & Ht). cbn [bind].
  apply create_triangles_ok. apply Forall_map, Forall_forall. intros [[x y] z] Hx. apply In_nth_error in Hx as [k Hk]. apply Ht in Hk as [Hk Hk2].
  assert (S0 : in_section a b (x, y, z)) by (eapply (Hs i a b u v Hi Ea Eb Eu Ev); [|exact Hk]; lia).
  assert (Q : nb_vertices (create_points pts (set_name (t_name d) (@empty_mesh F tri))) = Z.max 0 (b - a)).
  { destruct (create_points_fields F pts (set_name (t_name d) (@empty_mesh F tri))) as (_ & P & _).
    destruct (set_name_fields F (t_name d) (@empty_mesh F tri)) as (P1 & _). unfold nb_vertices. rewrite P, P1. cbn [app m_points empty_mesh]. exact Lp. }
  rewrite Q. unfold in_section in S0. unfold minus_tri, cell_in, sub32, wrap32. unfold two32 in *. rewrite !Z.mod_small by lia. lia.
Qed.
Definition corner_ok (t : tri) : Prop := let '(x, y, z) := t in 0 <= x < two32 /\ 0 <= y < two32 /\ 0 <= z < two32.
Lemma tok_index_range o tk i x : tok_index o tk i = Ok x -> 0 <= x < two32.
Proof.
  unfold tok_index. intros H. apply bind_ok in H as [t [_ H]]. apply bind_ok in H as [v [_ H]]. injection H as <-. unfold sub32, wrap32. apply Z.mod_pos_bound. reflexivity.
Qed.
Lemma tface_line_corners F (ts : TSurf F) l x : tface_line F ts l = Ok x -> Forall corner_ok (t_triangles ts) -> t_vert_off ts <> [] ->
  Forall corner_ok (t_triangles (fst x)) /\ t_vert_off (fst x) <> [].
Proof.
  intros H. unfold tface_line in H. apply bind_ok in H as [k [_ H]]. destruct ts as [off name crs props pts tris tro vo bst bor vals].
  cbn [t_triangles t_vert_off]. intros T N.
  assert (N2 : forall z, vo ++ [z] <> []) by (intros z Hz; now apply app_eq_nil in Hz).
  destruct (is_vrtx k); [repeat (apply bind_ok in H as [? [_ H]]); injection H as <-; cbn; auto|].
  destruct (is_atom k); [repeat (apply bind_ok in H as [? [_ H]]); injection H as <-; cbn; auto|].
  destruct (beq k "TRGL").
  { apply bind_ok in H as [a [Ea H]]. apply bind_ok in H as [b [Eb H]]. apply bind_ok in H as [c [Ec H]]. apply tok_index_range in Ea, Eb, Ec.
    injection H as <-. cbn [fst t_triangles t_vert_off]. split; [|exact N]. apply Forall_app. split; [exact T|]. constructor; [|constructor]. now split. }
  destruct (beq k "BSTONE"); [repeat (apply bind_ok in H as [? [_ H]]); injection H as <-; cbn; auto|].
  destruct (beq k "BORDER"); [repeat (apply bind_ok in H as [? [_ H]]); injection H as <-; cbn; auto|].
  destruct (beq k "TFACE"); [injection H as <-; cbn; auto|]. destruct (beq k "END"); injection H as <-; cbn; auto.
Qed.
Lemma tfaces_loop_corners F ls : forall (ts : TSurf F) x, tfaces_loop F ts ls = Ok x -> Forall corner_ok (t_triangles ts) -> t_vert_off ts <> [] ->
  Forall corner_ok (t_triangles (fst x)) /\ t_vert_off (fst x) <> [].
Proof.
  induction ls as [|l ls IH]; intros ts x; cbn [tfaces_loop]; [discriminate|]. intros H T N. apply bind_ok in H as [[ts' stop] [E H]].
  destruct (tface_line_corners F _ _ _ E T N) as [T' N']. cbn [fst] in *. destruct stop; [injection H as <-; auto|]. now apply (IH ts').
Qed.
Lemma read_tsurf_corners F s d s' : read_tsurf F s = Ok (Some d, s') -> Forall corner_ok (t_triangles d) /\ t_vert_off d <> [].
Proof.
  unfold read_tsurf. destruct (goto_if _ s) as [[l|] s1]; [|discriminate]. intros H. do 3 (apply bind_ok in H as [[? ?] [_ H]]).
  apply bind_ok in H as [[ts s5] [H1 H]]. injection H as -> ->. unfold read_tfaces in H1. apply bind_ok in H1 as [[? ?] [_ H1]].
  apply bind_ok in H1 as [[ts' r] [H1 H]]. injection H as -> <-. apply (tfaces_loop_corners F _ _ _ H1); [constructor|discriminate].
Qed.
Lemma triangles_valid F ts : forall (m m' : mesh F tri), foldM create_triangle ts m = Ok m' -> Forall (cell_in (nb_vertices m)) ts.
Proof.
  induction ts as [|[[a b] c] ts IH]; intros m m'; cbn [foldM]; [constructor|]. intros H. apply bind_ok in H as [m1 [E H]]. unfold create_triangle in E.
  destruct (valid_vertex m a && valid_vertex m b && valid_vertex m c) eqn:V; [|discriminate]. injection E as <-.
  apply andb_true_iff in V as [V Vc]. apply andb_true_iff in V as [Va Vb]. constructor.
  - unfold valid_vertex in Va, Vb, Vc. apply andb_true_iff in Va as [A1 A2], Vb as [B1 B2], Vc as [C1 C2].
    apply Z.leb_le in A1, B1, C1. apply Z.ltb_lt in A2, B2, C2. unfold cell_in. lia.
  - apply IH in H. exact H.
Qed.
Lemma slice_all {A} (l : list A) a b x : slice l a b = Ok x -> 0 <= a -> forall j y, a <= j < b -> nthz l j = Some y -> In y x.
Proof.
  unfold slice. destruct (Z.leb_spec b a) as [H|H]; [intros _ _ j y Hj; lia|]. destruct (_ && _) eqn:E; [|discriminate].
  apply andb_true_iff in E as [E1 E2]. apply Z.leb_le in E1, E2. intros Hx Ha j y Hj Hy. injection Hx as <-. unfold nthz in Hy.
  destruct (_ && _); [|discriminate]. apply (nth_error_In _ (Z.to_nat (j - a))). rewrite nth_firstn_some by lia. rewrite <- nth_skip.
  now replace (Z.to_nat a + Z.to_nat (j - a))%nat with (Z.to_nat j) by lia.
Qed.
Lemma build_tface_needs F (d : TSurf F) i m : build_tface d i = Ok m -> offsets_in d -> Forall corner_ok (t_triangles d) -> lenz (t_points d) < two32 ->
  (S i < List.length (t_vert_off d))%nat /\ forall a b u v, nth_error (t_vert_off d) i = Some a -> nth_error (t_vert_off d) (S i) = Some b ->
    nth_error (t_tri_off d) i = Some u -> nth_error (t_tri_off d) (S i) = Some v ->
    forall j t, u <= j < v -> nthz (t_triangles d) j = Some t -> in_section a b t.
Proof.
  intros H (L & V & T) C B. unfold build_tface, idx in H.
  destruct (nth_error (t_vert_off d) i) as [a|] eqn:Ea; [|discriminate]. destruct (nth_error (t_vert_off d) (S i)) as [b|] eqn:Eb; [|discriminate].
  split; [apply nth_error_Some; congruence|]. intros a' b' u v Ha' Hb' Eu Ev. injection Ha' as <-. injection Hb' as <-. rewrite Eu, Ev in H. cbn [bind] in H.
  intros j t Hj Ht. rewrite Forall_forall in V, T. apply nth_error_In in Ea as Ia, Eb as Ib, Eu as Iu, Ev as Iv. apply V in Ia, Ib. apply T in Iu, Iv.
  destruct (slice_in (t_points d) a b Ia Ib) as (pts & Ep & Lp & _). rewrite Ep in H. cbn [bind] in H.
  apply bind_ok in H as [tris [Es H]]. pose proof (slice_all _ _ _ _ Es (proj1 Iu) j t Hj Ht) as Hi. apply triangles_valid in H.
  assert (Q : nb_vertices (create_points pts (set_name (t_name d) (@empty_mesh F tri))) = Z.max 0 (b - a)).
  { destruct (create_points_fields F pts (set_name (t_name d) (@empty_mesh F tri))) as (_ & P & _).
    destruct (set_name_fields F (t_name d) (@empty_mesh F tri)) as (P1 & _). unfold nb_vertices. rewrite P, P1. cbn [app m_points empty_mesh]. exact Lp. }
  rewrite Q in H. apply (proj1 (Forall_map _ _ _)) in H. rewrite Forall_forall in H. specialize (H t Hi).
  assert (K : corner_ok t).
  { rewrite Forall_forall in C. apply C. unfold nthz in Ht. destruct (_ && _); [|discriminate]. eapply nth_error_In. exact Ht. }
  destruct t as [[x y] z]. unfold corner_ok in K. unfold minus_tri, cell_in in H. unfold in_section.
  assert (G : forall q, 0 <= q < two32 -> 0 <= sub32 q a < Z.max 0 (b - a) -> a <= q < b).
  { intros q Hq Hw. unfold sub32, wrap32 in Hw. destruct (Z_lt_le_dec q a) as [Hlt|Hge].
    - replace (q - a) with (q - a + two32 + (-1) * two32) in Hw by lia. rewrite Z.mod_add, Z.mod_small in Hw by (unfold two32 in *; lia). lia.
    - rewrite Z.mod_small in Hw by lia. lia. }
  destruct K as (K1 & K2 & K3), H as (H1 & H2 & H3). auto.
Qed.
Lemma build_tface_cases F (d : TSurf F) i : (exists m, build_tface d i = Ok m) \/ build_tface d i = UB.
Proof.
  unfold build_tface, idx, slice. do 2 (destruct (nth_error _ _); cbn [bind]; auto).
  assert (G : forall ts (m : mesh F tri), (exists m', foldM create_triangle ts m = Ok m') \/ foldM create_triangle ts m = UB).
  { induction ts as [|[[x y] w] ts IH]; intros m; cbn [foldM]; [eauto|]. unfold create_triangle at 1 3. destruct (_ && _); cbn [bind]; auto. }
  destruct (_ <=? _); cbn [bind].
  - do 2 (destruct (nth_error _ _); cbn [bind]; auto). destruct (_ <=? _); cbn [bind]; [apply G|]. destruct (_ && _); cbn [bind]; [apply G|auto].
  - destruct (_ && _); cbn [bind]; [|auto]. do 2 (destruct (nth_error _ _); cbn [bind]; auto). destruct (_ <=? _); cbn [bind]; [apply G|].
    destruct (_ && _); cbn [bind]; [apply G|auto].
Qed.
Lemma build_tfaces_defined F (d : TSurf F) faces : offsets_in d -> Forall corner_ok (t_triangles d) -> t_vert_off d <> [] -> lenz (t_points d) < two32 ->
  sections_fit d (List.length faces) <-> exists ms, build_tfaces d faces = Ok ms.
Proof.
  intros Od Hc Hn Hl. unfold build_tfaces. split.
  - intros Hd. assert (A : forall p, In p (combine (seq 0 (List.length faces)) faces) -> (fst p < List.length faces)%nat).
    { intros [i x] Hp. apply in_combine_l, in_seq in Hp. cbn [fst]. lia. }
    revert A. generalize (combine (seq 0 (List.length faces)) faces) as ps. induction ps as [|p ps IHp]; intros A; cbn [mapM]; [eauto|].
    destruct (build_tface_defined F d (List.length faces) (fst p) Od Hl Hd (A p (or_introl eq_refl))) as [m Em].
    rewrite Em. cbn [bind]. destruct (IHp (fun q Hq => A q (or_intror Hq))) as [ms Ems]. rewrite Ems. cbn [bind]. eauto.
  - intros [ms Ems].
    assert (G : forall ps ms, mapM (fun p : nat * Z => do m <- build_tface d (fst p); Ok (snd p, m)) ps = Ok ms ->
        Forall (fun p => exists m, build_tface d (fst p) = Ok m) ps).
    { induction ps as [|p ps IHp]; intros ms0 E0; cbn [mapM] in E0; [constructor|]. apply bind_ok in E0 as [x [Ex E0]]. apply bind_ok in Ex as [m [Em _]].
      apply bind_ok in E0 as [xs [Exs _]]. constructor; eauto. }
    pose proof (G _ _ Ems) as Hf.
    assert (A : forall i, (i < List.length faces)%nat -> exists m, build_tface d i = Ok m).
    { intros i Hi. destruct (nth_error faces i) as [x|] eqn:Ex; [|apply nth_error_None in Ex; lia].
      rewrite Forall_forall in Hf. apply (Hf (i, x)). assert (Ec : nth_error (combine (seq 0 (List.length faces)) faces) i = Some (i, x)); [|eapply nth_error_In; exact Ec].
      clear - Ex Hi. assert (Q : forall (l : list Z) c i x, nth_error l i = Some x -> nth_error (combine (seq c (List.length l)) l) i = Some (c + i, x)%nat).
      { clear. induction l as [|y l IH]; intros c [|i] x Ex; cbn in *; try discriminate; [injection Ex as ->; now rewrite Nat.add_0_r|]. rewrite (IH (S c) i x Ex). f_equal. f_equal. lia. }
      rewrite (Q faces 0%nat i x Ex). reflexivity. }
    split.
    + destruct (List.length faces) as [|n] eqn:El; [destruct (t_vert_off d); [congruence|cbn; lia]|]. destruct (A n ltac:(lia)) as [m Em].
      now apply (build_tface_needs F d n m Em Od Hc Hl).
    + intros i a b u v Hi. destruct (A i Hi) as [m Em]. now apply (build_tface_needs F d i m Em Od Hc Hl).
Qed.
Lemma build_all_safe F ts : forall s, file_ok (pending s) -> Z.of_nat (List.length (pending s)) < two32 ->
  @build_all F ts s <> Hang /\ (objects_fit F (map (fun t => List.length (tm_faces t)) ts) s <-> @build_all F ts s <> UB).
Proof.
  induction ts as [|t ts IH]; intros s Hf Hl; cbn [build_all map objects_fit] in *; [split; [discriminate|split; [discriminate|trivial]]|].
  destruct (read_tsurf_safe F s Hf) as [N P]. pose proof (read_tsurf_nohang F s) as N2.
  destruct (read_tsurf F s) as [[[d|] s1]| | |] eqn:E; try congruence; cbn [bind]; try (split; [discriminate|split; [discriminate|intros _ d0 s0 Hd0; discriminate]]).
  destruct (P _ _ eq_refl) as (_ & _ & P3). pose proof (read_tsurf_offsets F _ _ _ E) as Od. destruct (read_tsurf_corners F _ _ _ E) as [Cd Nd].
  apply read_tsurf_suffix in E as [l S1]. apply suffix_tl in S1.
  assert (F1 : file_ok (pending s1)) by (eapply file_ok_suffix; eassumption). assert (L1 : Z.of_nat (List.length (pending s1)) < two32) by lia.
  destruct (IH s1 F1 L1) as [I1 I2]. destruct (build_tfaces_defined F d (tm_faces t) Od Cd Nd ltac:(unfold lenz; lia)) as [B1 B2].
  assert (M : forall X : Prop, ((forall d0 s0, Ok (Some d, s1) = Ok (Some d0, s0) -> sections_fit d0 (List.length (tm_faces t)) /\
      objects_fit F (map (fun t => List.length (tm_faces t)) ts) s0) <-> X) <->
    (sections_fit d (List.length (tm_faces t)) /\ objects_fit F (map (fun t => List.length (tm_faces t)) ts) s1 <-> X)).
  { intros X. split; intros H; split.
    - intros HH. apply H. intros d0 s0 E0. injection E0 as <- <-. exact HH.
    - intros HX. apply (proj2 H HX d s1 eq_refl).
    - intros HH. apply H. apply (HH d s1 eq_refl).
    - intros HX d0 s0 E0. injection E0 as <- <-. now apply H. }
  assert (Dec : (exists ms, build_tfaces d (tm_faces t) = Ok ms) \/ build_tfaces d (tm_faces t) = UB).
  { unfold build_tfaces. generalize (combine (seq 0 (List.length (tm_faces t))) (tm_faces t)). induction l0 as [|p ps IHp]; cbn [mapM]; [eauto|].
    destruct (build_tface_cases F d (fst p)) as [[m Em]|Em]; rewrite Em; cbn [bind]; auto. destruct IHp as [[ms ->]| ->]; cbn [bind]; eauto. }
  split.
  - destruct Dec as [[ms ->]| ->]; cbn [bind]; [|discriminate]. destruct (build_all ts s1); cbn [bind]; congruence.
  - apply M. destruct Dec as [[ms Ems]|Ems]; rewrite Ems; cbn [bind].
    + split.
      * intros [_ Hr]. apply I2 in Hr. destruct (build_all ts s1); cbn [bind]; congruence.
      * intros Hx. split; [|apply I2; intros Eb; rewrite Eb in Hx; now apply Hx].
        apply B2. eauto.
    + split; [|congruence]. intros [Hd _]. destruct (B1 Hd) as [ms Ems']. congruence.
Qed.
Lemma create_tsurfs_safe st : create_tsurfs st <> UB /\ create_tsurfs st <> Hang.
Proof.
  assert (K : forall f, kind_of f <> UB /\ kind_of f <> Hang).
  { intros f. unfold kind_of, fault_of, horizon_of. destruct (contains f "fault").
    - destruct (beq f "fault"); [split; discriminate|]. destruct (beq f "reverse_fault"); [split; discriminate|]. destruct (beq f "normal_fault"); split; discriminate.
    - destruct (_ || _); [split; discriminate|]. destruct (beq f "top"); [split; discriminate|]. destruct (beq f "none"); [split; discriminate|].
      destruct (beq f "topographic"); [split; discriminate|]. destruct (beq f "intrusive"); [split; discriminate|]. destruct (beq f "unconformity"); split; discriminate. }
  unfold create_tsurfs. split.
  - apply bind_noub; [|intros cs _; cbv zeta; destruct (filter _ _); discriminate]. apply GocadSafe.mapM_noub. intros t _. apply bind_noub; [apply K|discriminate].
  - apply bind_nohang; [|intros cs _; cbv zeta; destruct (filter _ _); discriminate]. apply mapM_nohang. intros t. apply bind_nohang; [apply K|discriminate].
Qed.

Lemma kind_known f : (exists k, kind_of f = Ok k) <-> exists k, In (f, k) features.
Proof.
  split.
  - intros [k H]. unfold kind_of in H. destruct (contains f "fault").
    + unfold fault_of in H. destruct (beq f "fault") eqn:E1; [apply beq_eq in E1; subst f; eexists; now left|].
      destruct (beq f "reverse_fault") eqn:E2; [apply beq_eq in E2; subst f; eexists; right; now left|].
      destruct (beq f "normal_fault") eqn:E3; [apply beq_eq in E3; subst f; eexists; do 2 right; now left|discriminate].
    + destruct (beq f "boundary") eqn:E1; [apply beq_eq in E1; subst f; eexists; do 3 right; now left|].
      destruct (beq f "lease") eqn:E2; [apply beq_eq in E2; subst f; eexists; do 4 right; now left|]. cbn [orb] in H. unfold horizon_of in H.
      destruct (beq f "top") eqn:E3; [apply beq_eq in E3; subst f; eexists; do 5 right; now left|].
      destruct (beq f "none") eqn:E4; [apply beq_eq in E4; subst f; eexists; do 6 right; now left|].
      destruct (beq f "topographic") eqn:E5; [apply beq_eq in E5; subst f; eexists; do 7 right; now left|].
      destruct (beq f "intrusive") eqn:E6; [apply beq_eq in E6; subst f; eexists; do 8 right; now left|].
      destruct (beq f "unconformity") eqn:E7; [apply beq_eq in E7; subst f; eexists; do 9 right; now left|discriminate].
  - intros [k H]. unfold features in H. cbn [In] in H.
    repeat match type of H with _ \/ _ => destruct H as [H|H] end; try contradiction; injection H as <- <-; eexists; vm_compute; reflexivity.
Qed.
Lemma last_of_snoc faces f x n : last_of (faces ++ [(f, x)]) n = if beq x n then f else last_of faces n.
Proof. unfold last_of. rewrite fold_left_app. reflexivity. Qed.
Lemma last_of_known faces n : (exists k, In (last_of faces n, k) features) <-> exists a f b k, faces = a ++ (f, n) :: b /\ ~ In n (map snd b) /\ In (f, k) features.
Proof.
  induction faces as [|[f x] faces IH] using rev_ind.
  - split.
    + intros [k H]. exfalso. cbn in H. repeat (destruct H as [H|H]; [discriminate|]). exact H.
    + intros (a & f & b & k & E & _). now destruct a.
  - rewrite last_of_snoc. destruct (beq x n) eqn:E.
    + apply beq_eq in E. subst x. split.
      * intros [k H]. exists faces, f, [], k. auto.
      * intros (a & g & b & k & E & Nb & H). exists k. destruct b as [|e b] using rev_ind.
        -- apply app_inj_tail in E as [_ E]. now injection E as ->.
        -- clear IHb. change (a ++ (g, n) :: b ++ [e]) with (a ++ ((g, n) :: b) ++ [e]) in E. rewrite app_assoc in E. apply app_inj_tail in E as [_ <-].
           exfalso. apply Nb. rewrite map_app. apply in_or_app. right. now left.
    + rewrite IH. split.
      * intros (a & g & b & k & -> & Nb & H). exists a, g, (b ++ [(f, x)]), k. split; [now rewrite <- app_assoc|]. split; [|exact H].
        rewrite map_app. intros Hi. apply in_app_or in Hi as [Hi|[Hi|[]]]; [contradiction|]. cbn [snd] in Hi. subst x. rewrite beq_refl in E. discriminate.
      * intros (a & g & b & k & E2 & Nb & H). destruct b as [|e b] using rev_ind.
        -- apply app_inj_tail in E2 as [_ E2]. injection E2 as <- <-. rewrite beq_refl in E. discriminate.
        -- clear IHb. change (a ++ (g, n) :: b ++ [e]) with (a ++ ((g, n) :: b) ++ [e]) in E2. rewrite app_assoc in E2. apply app_inj_tail in E2 as [-> <-].
           exists a, g, b, k. split; [reflexivity|]. split; [|exact H]. intros Hi. apply Nb. rewrite map_app. apply in_or_app. now left.
Qed.
Lemma create_tsurfs_known names faces st : declares names faces st -> (exists cs, create_tsurfs st = Ok cs) <-> kinds_known names faces.
Proof.
  intros D. unfold create_tsurfs.
  assert (A : (exists cs, create_tsurfs st = Ok cs) <-> Forall (fun t => exists k, kind_of (tm_feature t) = Ok k) (i_tsurfs st)).
  { unfold create_tsurfs. generalize (i_tsurfs st) as ts. intros ts.
    assert (B : (exists cs, mapM (fun t => do k <- kind_of (tm_feature t); Ok (mkCollIn k (tm_name t) (tm_faces t))) ts = Ok cs) <->
      Forall (fun t => exists k, kind_of (tm_feature t) = Ok k) ts).
    { induction ts as [|t ts IH]; cbn [mapM]; [split; [constructor|eauto]|]. split.
      - intros [cs H]. apply bind_ok in H as [c [Ec H]]. apply bind_ok in H as [cs' [Ecs _]]. apply bind_ok in Ec as [k [Ek _]]. constructor; [eauto|]. apply IH. eauto.
      - intros H. inversion H as [|? ? [k Hk] Hr]; subst. rewrite Hk. cbn [bind]. apply IH in Hr as [cs ->]. cbn [bind]. eauto. }
    rewrite <- B. split.
    - intros [cs H]. apply bind_ok in H as [cs' [E _]]. eauto.
    - intros [cs ->]. cbn [bind]. cbv zeta. destruct (filter _ _); eauto. }
  unfold create_tsurfs in A. rewrite A. clear A.
  assert (A : Forall (fun t => exists k, kind_of (tm_feature t) = Ok k) (i_tsurfs st) <-> Forall (fun e => exists k, In (fst e, k) features) (map shown (i_tsurfs st))).
  { rewrite Forall_map. split; intros H; (eapply Forall_impl; [|exact H]); intros t Ht; cbn [shown fst] in *; now apply kind_known. }
  rewrite A, (dc_shown _ _ _ D). clear A D st. unfold kinds_known.
  assert (G : forall before, Forall (fun e => exists k, In (fst e, k) features) (per_tsurf (both faces) ([], 0%nat) before names) <->
    (NoDup names /\ (forall n, In n names -> ~ In n before)) /\ forall n, In n names -> exists k, In (last_of faces n, k) features).
  { induction names as [|n names IH]; intros before; cbn [per_tsurf].
    - split; [|constructor]. intros _. repeat split; try constructor; intros ? [].
    - split.
      + intros H. inversion H as [|? ? H1 H2]; subst. apply IH in H2 as [[H2 H3] H4]. destruct (existsb (beq n) before) eqn:E.
        { exfalso. destruct H1 as [k H1]. cbn in H1. repeat (destruct H1 as [H1|H1]; [discriminate|]). exact H1. }
        assert (Nb : ~ In n before) by (rewrite <- existsb_beq, E; discriminate). split; [split|].
        * constructor; [|assumption]. intros Hi. apply (H3 n Hi). apply in_or_app. right. now left.
        * intros m [<-|Hm]; [exact Nb|]. intros Hb. apply (H3 m Hm). apply in_or_app. now left.
        * intros m [<-|Hm]; [exact H1|now apply H4].
      + intros [[H1 H2] H3]. inversion H1 as [|? ? H4 H5]; subst. rewrite existsb_beq_false by (apply H2; now left). constructor; [apply H3; now left|].
        apply IH. split; [split; [assumption|]|intros m Hm; apply H3; now right].
        intros m Hm Hb. apply in_app_or in Hb as [Hb|[<-|[]]]; [|contradiction]. apply (H2 m); [now right|assumption]. }
  rewrite (G []). split.
  - intros [[H1 _] H2]. split; [assumption|]. intros n Hn. apply last_of_known. now apply H2.
  - intros [H1 H2]. split; [split; [assumption|intros n _ []]|]. intros n Hn. apply last_of_known. now apply H2.
Qed.
Lemma comps_suffix n f ls o : comps n f ls o -> forall names faces post, o = Ends names faces post -> suffix post ls /\ ls <> [].
Proof.
  assert (C : forall good ls ns w p, first_other good ls ns w p -> forall l, suffix p (l :: ls)).
  { intros good ls0 ns w p (before & l0 & _ & _ & _ & _ & -> & _) l. exists (l :: before ++ [l0]). cbn [app]. now rewrite <- app_assoc. }
  induction 1; intros ? ? ? E; try discriminate; (split; [|discriminate]); try (injection E as <- <- <-);
    try (apply suffix_cons; (apply suffix_refl || (eapply IHcomps; eassumption))).
  - match goal with H : list_ends _ _ _ _ _ |- _ => destruct H as (w' & Hw & _) end. eapply suffix_trans; [eapply IHcomps; eassumption|eapply C; eassumption].
  - match goal with H : list_ends _ _ _ _ _ |- _ => destruct H as (w' & Hw & _) end. eapply suffix_trans; [eapply IHcomps; eassumption|eapply C; eassumption].
  - match goal with H : list_ends _ _ _ _ _ |- _ => destruct H as (w' & Hw & _) end. eapply suffix_trans; [eapply IHcomps; eassumption|eapply C; eassumption].
Qed.
Lemma read_ml_body F text title up body : object_text "GOCAD Model3d" (pending (open_text text)) title up body -> body <> [] ->
  read_ml F text = do '(st, r) <- read_components body; do cs <- create_tsurfs st;
    do ms <- build_all (i_tsurfs st) (mkStream r (nl (open_text text))); Ok (mkMlIn title (i_surfaces st) ms cs (i_blocks st) (i_units st) (i_fblocks st)).
Proof.
  intros Ho Hb. destruct (object_head _ _ _ _ _ (nl (open_text text)) Ho Hb) as (crs & first & r & _ & E1 & r' & E2 & E3).
  unfold read_ml. replace (open_text text) with (mkStream (pending (open_text text)) (nl (open_text text))) at 1 by (now destruct (open_text text)).
  rewrite E1, E2. cbn [bind]. rewrite E3. reflexivity.
Qed.

(** ** Theorems *)
(** What the model keeps of the TSURF and TFACE lines: the names, the surfaces in the order of the file with the name of their TSURF and,
    for each TSURF, as many surfaces as TFACE lines have its name. *)
Definition stored (names : list bytes) (faces : list (bytes * bytes)) (st : MlSt) : Prop :=
  map tm_name (i_tsurfs st) = names /\ i_surfaces st = map snd faces /\ map (fun t => List.length (tm_faces t)) (i_tsurfs st) = face_counts names faces.
(** The component section is read, refused by an exception, or neither, as its text says. *)
Theorem C113_components :
  forall ls : list bytes,
    (forall names faces post, comps [] [] ls (Ends names faces post) -> exists st, read_components ls = Ok (st, post) /\ stored names faces st) /\
    (forall st post, read_components ls = Ok (st, post) -> exists names faces, comps [] [] ls (Ends names faces post) /\ stored names faces st) /\
    (comps [] [] ls Refused <-> exists e, read_components ls = Throw e) /\
    ((forall o, ~ comps [] [] ls o) <-> read_components ls = UB \/ read_components ls = Hang).
Proof.
  intros ls. pose proof (read_components_comps ls) as H.
  assert (L : forall o, comps [] [] ls o -> leads o (read_components ls)) by (intros o Ho; apply comps_loop with (1 := Ho); [apply empty_declares|lia]).
  assert (T : forall names faces st, declares names faces st -> stored names faces st).
  { intros names faces st D. split; [apply D|]. split; [apply D|now apply declares_counts]. }
  split; [|split; [|split]].
  - intros names faces post Hc. apply L in Hc as (st & E & D). exists st. auto.
  - intros st post E. rewrite E in H. destruct H as (n & f & H & D). exists n, f. auto.
  - split.
    + intros Hc. apply L in Hc. exact Hc.
    + intros [e E]. now rewrite E in H.
  - split.
    + intros N. destruct (read_components ls) as [[st post]| | |]; auto.
      * destruct H as (n & f & H & _). now apply N in H.
      * now apply N in H.
    + intros [E|E]; now rewrite E in H.
Qed.
Print Assumptions C113_components.

(** Exactly which files, among those whose lines have the words the readers of the objects need, are undefined behaviour or an endless
    loop: the ones with a model whose components are not defined, or whose components are accepted but whose objects do not have the
    sections of the surfaces declared. *)
Theorem C113_outcome :
  forall (F : Num) (text : bytes),
    file_ok (pending (open_text text)) -> Z.of_nat (List.length (pending (open_text text))) < 2 ^ 32 ->
    ((forall title up body, object_text "GOCAD Model3d" (pending (open_text text)) title up body -> body_fits F body (nl (open_text text))) <->
     read_ml F text <> UB /\ read_ml F text <> Hang).
Proof.
  intros F text Hf Hl. split.
  - intros Hb. assert (Hb' := Hb).
    destruct (goto_if (lit "GOCAD Model3d") (open_text text)) as [[l|] s1] eqn:E1; [|unfold read_ml; rewrite E1; split; discriminate].
    pose proof (goto_if_ok _ _ _ _ E1 Hf) as [F1 L1].
    destruct (read_header s1) as [[title s2]| | |] eqn:E2; try (unfold read_ml; rewrite E1, E2; cbn [bind]; split; discriminate);
      [|now apply read_header_noub in E2|now apply read_header_nohang in E2].
    pose proof (read_header_suffix _ _ E2) as S2. cbn [snd] in S2. assert (F2 : file_ok (pending s2)) by (eapply file_ok_suffix; eassumption).
    destruct (read_CRS s2) as [[crs s3]| | |] eqn:E3; try (unfold read_ml; rewrite E1, E2; cbn [bind]; rewrite E3; cbn [bind]; split; discriminate);
      [|apply read_CRS_safe in E3; [contradiction|apply F2]|now apply read_CRS_nohang in E3].
    pose proof (read_CRS_suffix _ _ E3) as S3. cbn [snd] in S3. assert (F3 : file_ok (pending s3)) by (eapply file_ok_suffix; eassumption).
    pose proof (object_text_inv _ _ _ _ _ _ _ _ E1 E2 E3) as Ht. destruct (Hb _ _ _ Ht) as (o & Ho & Hfit).
    assert (Q : leads o (read_components (pending s3))) by (apply comps_loop with (1 := Ho); [apply empty_declares|lia]).
    destruct o as [names faces post|]; cbn [leads] in Q.
    2:{ destruct Q as [e Q]. unfold read_ml. rewrite E1, E2. cbn [bind]. rewrite E3. cbn [bind]. rewrite Q. cbn [bind]. split; discriminate. }
    destruct Q as (st & Ec & D). destruct (comps_suffix _ _ _ _ Ho _ _ _ eq_refl) as [S4 Hne].
    rewrite (read_ml_body F text _ _ _ Ht Hne), Ec. cbn [bind]. destruct (create_tsurfs_safe st) as [T1 T2].
    destruct (create_tsurfs st) as [cs| | |] eqn:Et; cbn [bind]; try congruence; try (split; discriminate).
    assert (K : kinds_known names faces) by (apply (create_tsurfs_known _ _ _ D); eauto). specialize (Hfit K). rewrite <- (declares_counts _ _ _ D) in Hfit.
    destruct (build_all_safe F (i_tsurfs st) (mkStream post (nl (open_text text)))) as [B1 B2].
    { cbn [pending]. eapply file_ok_suffix; eassumption. }
    { cbn [pending]. apply suffix_length in S2, S3, S4. unfold two32. lia. }
    apply B2 in Hfit. destruct (build_all _ _); cbn [bind]; try congruence; split; discriminate.
  - intros [N1 N2] title up body Ht. destruct body as [|l0 body0]; [exists Refused; split; [constructor|exact I]|]. remember (l0 :: body0) as body eqn:Eb.
    assert (Hne : body <> []) by (now subst). clear l0 body0 Eb. rewrite (read_ml_body F text _ _ _ Ht Hne) in N1, N2.
    pose proof (read_components_comps body) as R. destruct (read_components body) as [[st post]| | |]; cbn [bind] in N1, N2; try congruence.
    2:{ exists Refused. split; [exact R|exact I]. }
    destruct R as (names & faces & Hc & D). exists (Ends names faces post). split; [exact Hc|]. intros K. apply (create_tsurfs_known _ _ _ D) in K as [cs Et].
    rewrite Et in N1, N2. cbn [bind] in N1, N2. rewrite <- (declares_counts _ _ _ D). destruct (comps_suffix _ _ _ _ Hc _ _ _ eq_refl) as [S4 _].
    assert (S3 : suffix body (pending (open_text text))).
    { destruct Ht as (pre & first & hs & cs0 & -> & _). exists (pre ++ first :: hs ++ cs0). rewrite <- app_assoc. cbn [app]. now rewrite <- app_assoc. }
    destruct (build_all_safe F (i_tsurfs st) (mkStream post (nl (open_text text)))) as [B1 B2].
    { cbn [pending]. eapply file_ok_suffix; [|exact Hf]. eapply suffix_trans; eassumption. }
    { cbn [pending]. apply suffix_length in S3, S4. unfold two32. lia. }
    apply B2. intros Ebu. rewrite Ebu in N1. now apply N1.
Qed.
Print Assumptions C113_outcome.

(** Without any condition on the lines: a component section that the specification refuses is refused; one it gives no meaning to is
    undefined behaviour or an endless loop. *)
Theorem C113_any_file :
  forall (F : Num) (text : bytes) title up body, object_text "GOCAD Model3d" (pending (open_text text)) title up body -> body <> [] ->
    (comps [] [] body Refused -> exists e, read_ml F text = Throw e) /\
    ((forall o, ~ comps [] [] body o) -> read_ml F text = UB \/ read_ml F text = Hang) /\
    (forall names faces post, comps [] [] body (Ends names faces post) -> ~ kinds_known names faces -> exists e, read_ml F text = Throw e).
Proof.
  intros F text title up body Ho Hb. rewrite (read_ml_body F text _ _ _ Ho Hb). destruct (C113_components body) as (_ & _ & C & C').
  split; [|split].
  - intros Hc. apply C in Hc as [e ->]. exists e. reflexivity.
  - intros Hn. apply C' in Hn as [-> | ->]; auto.
  - intros names faces post Hc Hk. pose proof (comps_loop _ _ _ _ Hc empty_st (S (List.length body)) empty_declares (Nat.lt_succ_diag_r _)) as (st & Es & D).
    unfold read_components. rewrite Es. cbn [bind]. destruct (create_tsurfs_safe st) as [T1 T2]. destruct (create_tsurfs st) as [cs|e| |] eqn:Et; try congruence.
    + exfalso. apply Hk. apply (create_tsurfs_known _ _ _ D). eauto.
    + exists e. reflexivity.
Qed.
Print Assumptions C113_any_file.

(** ** Findings: files whose lines have the words they need, with which loading is undefined behaviour or does not end. *)
Definition ml_with (body post : list bytes) : bytes :=
  unlines ([lit "GOCAD Model3d 1"; lit "HEADER {"; lit "}"] ++ body ++ lit "END" :: post).
Definition ml_object (data : list bytes) : list bytes := [lit "GOCAD TSurf 1"; lit "HEADER {"; lit "}"; lit "TFACE"] ++ data ++ [lit "END"].
Definition one_face : list bytes := [lit "TSURF s"; lit "TFACE 1 top s"].
Definition two_faces : list bytes := [lit "TSURF s"; lit "TFACE 1 top s"; lit "TFACE 2 top s"].
Definition ml_triangle : list bytes := [lit "VRTX 1 0 0 0"; lit "VRTX 2 1 0 0"; lit "VRTX 3 0 1 0"; lit "TRGL 1 2 3"].
Definition short_tface : bytes := ml_with (one_face ++ [lit "TFACE 2"]) (ml_object ml_triangle).
Definition one_sided : bytes := ml_with (one_face ++ [lit "REGION 2 b"; lit "1 0"]) (ml_object ml_triangle).
Definition unknown_face : bytes := ml_with (one_face ++ [lit "REGION 2 b"; lit "1 7 0"]) (ml_object ml_triangle).
Definition extreme_face : bytes := ml_with (one_face ++ [lit "REGION 2 Universe"; lit "-2147483648 0"]) (ml_object ml_triangle).
Definition few_sections : bytes := ml_with two_faces (ml_object ml_triangle).
Definition across_sections : bytes := ml_with two_faces (ml_object (ml_triangle ++ [lit "TFACE"; lit "TRGL 1 2 3"])).
Definition open_list : bytes := unlines ([lit "GOCAD Model3d 1"; lit "HEADER {"; lit "}"] ++ one_face ++ [lit "LAYER l"; lit "2 3"]).
Definition is_Hang {A} (r : res A) : bool := match r with Hang => true | _ => false end.
Lemma is_Hang_ok {A} (r : res A) : is_Hang r = true -> r = Hang.
Proof. now destruct r. Qed.
Theorem C113_undefined_refuted :
  exists texts : list bytes, List.length texts = 6%nat /\ Forall (fun t => file_ok (pending (open_text t)) /\ read_ml ExNum t = UB) texts.
Proof.
  exists [short_tface; one_sided; unknown_face; extreme_face; few_sections; across_sections]. split; [reflexivity|].
  assert (G : forall t, forallb plainb (pending (open_text t)) && propertiesb (pending (open_text t)) && sizesb (pending (open_text t)) && is_UB (read_ml ExNum t) = true ->
    file_ok (pending (open_text t)) /\ read_ml ExNum t = UB).
  { intros t H. apply andb_true_iff in H as [H1 H2]. split; [now apply file_okb|now apply is_UB_ok]. }
  apply Forall_cons; [apply G; vm_compute; reflexivity|]. apply Forall_cons; [apply G; vm_compute; reflexivity|]. apply Forall_cons; [apply G; vm_compute; reflexivity|].
  apply Forall_cons; [apply G; vm_compute; reflexivity|]. apply Forall_cons; [apply G; vm_compute; reflexivity|]. apply Forall_cons; [apply G; vm_compute; reflexivity|].
  apply Forall_nil.
Qed.
Print Assumptions C113_undefined_refuted.
(** An empty line among the components. *)
Theorem C113_blank_line_refuted : exists a b : list bytes, read_ml ExNum (ml_with (a ++ [lit ""] ++ b) (ml_object ml_triangle)) = UB /\
  exists m, read_ml ExNum (ml_with (a ++ b) (ml_object ml_triangle)) = Ok m.
Proof.
  exists one_face, [lit "LAYER l"; lit "2 0"]. split; [apply is_UB_ok; vm_compute; reflexivity|].
  assert (H : match read_ml ExNum (ml_with (one_face ++ [lit "LAYER l"; lit "2 0"]) (ml_object ml_triangle)) with Ok _ => true | _ => false end = true) by (vm_compute; reflexivity).
  destruct (read_ml _ _) as [m| | |]; try discriminate. now exists m.
Qed.
Print Assumptions C113_blank_line_refuted.
Theorem C113_ends_refuted : exists t, file_ok (pending (open_text t)) /\ read_ml ExNum t = Hang.
Proof. exists open_list. split; [apply file_okb; vm_compute; reflexivity|apply is_Hang_ok; vm_compute; reflexivity]. Qed.
Print Assumptions C113_ends_refuted.

(** A file that meets the conditions: it is loaded (C106_example), so that the right-hand side of C113_outcome holds. *)
Example C113_example : file_ok (pending (open_text (unlines ex_ml))) /\
  (forall title up body, object_text "GOCAD Model3d" (pending (open_text (unlines ex_ml))) title up body -> body_fits ExNum body (nl (open_text (unlines ex_ml)))).
Proof.
  assert (Hf : file_ok (pending (open_text (unlines ex_ml)))) by (apply file_okb; vm_compute; reflexivity). split; [exact Hf|].
  apply (C113_outcome ExNum (unlines ex_ml) Hf); [vm_compute; reflexivity|]. destruct C106_example_says as (m & -> & _). split; discriminate.
Qed.
(** Its components, as the specification reads them. *)
Example C113_example_components : exists names faces post, comps [] [] (ex_ml_body ++ lit "END" :: ex_ml_rest) (Ends names faces post) /\
  names = [lit "h one"; lit "box"] /\ face_counts names faces = [2; 2]%nat /\ post = ex_ml_rest.
Proof.
  pose proof (C113_components (ex_ml_body ++ lit "END" :: ex_ml_rest)) as (_ & H & _).
  destruct (read_components (ex_ml_body ++ lit "END" :: ex_ml_rest)) as [[st post]| | |] eqn:E; [|vm_compute in E; discriminate..].
  destruct (H _ _ eq_refl) as (names & faces & Hc & S1 & _ & S3). exists names, faces, post. split; [exact Hc|].
  vm_compute in E. injection E as <- <-. cbn in S1, S3. subst names. rewrite <- S3. repeat split; reflexivity.
Qed.
(** Refused: the TFACE of a TSURF that is not declared, and a TSURF without TFACE. *)
Example C113_example_refused :
  comps [] [] [lit "TSURF a"; lit "TFACE 1 top b"; lit "END"] Refused /\ ~ kinds_known [lit "a"] [] /\
  is_Throw (read_ml ExNum (ml_with [lit "TSURF a"; lit "TFACE 1 top b"] [])) = true /\ is_Throw (read_ml ExNum (ml_with [lit "TSURF a"] [])) = true.
Proof.
  split; [|split; [|split; vm_compute; reflexivity]].
  - apply C113_components. exists ExOutOfRange. vm_compute. reflexivity.
  - intros [_ H]. destruct (H _ (or_introl eq_refl)) as (a & f & b & k & E & _). now destruct a.
Qed.
