(** * The PLine writer (C11-C14). *)
From Coq Require Import ZArith List Lia Bool Ascii String Permutation.
From Verif Require Import Base Text TextFacts GocadModel MeshModel TsModel Spec GocadFacts TsFacts PlModel PlFacts ExNum ExCheck.
Import ListNotations.
Local Open Scope string_scope.
Local Open Scope list_scope.
Local Open Scope Z_scope.

(** ** Specification *)

(** The vertex lines and the segment lines of a file. *)
Definition is_vertex_line (l : bytes) : bool := starts_with l "VRTX" || starts_with l "PVRTX".
Definition is_seg_line (l : bytes) : bool := starts_with l "SEG".
(** The line gives the number [n] and the three printed coordinates of the vertex [v] of the curve. *)
Definition shows {F} (m : wmesh F (Z * Z)) (n : nat) (v : Z) (l : bytes) : Prop :=
  exists kw x y z values, (kw = lit "VRTX" \/ kw = lit "PVRTX") /\ 0 <= v /\
    nth_error (wm_points m) (Z.to_nat v) = Some (x, y, z) /\
    string_split l = kw :: show (Z.of_nat n) :: os_text F x :: os_text F y :: os_text F z :: values.
(** The segment line draws the edge [e]: its numbers are those, in the file, of vertex lines for the two ends of
    the edge.  The second number may also be one plus the number in the curve of the other end, which is what closes a loop. *)
Definition draws (es : list (Z * Z)) (vs : list Z) (l : bytes) (e : nat) : Prop :=
  exists a b v w, string_split l = [lit "SEG"; show a; show b] /\
    (nth_error es e = Some (v, w) \/ nth_error es e = Some (w, v)) /\
    1 <= a /\ nth_error vs (Z.to_nat (a - 1)) = Some v /\
    ((1 <= b /\ nth_error vs (Z.to_nat (b - 1)) = Some w) \/ b = (w + 1) mod 2 ^ 32).
(** The points found by printing (with the stream operator) and reading the coordinates. *)
Definition reprinted (F : Num) (p p' : num F * num F * num F) : Prop :=
  let '(x, y, z) := p in let '(x', y', z') := p' in reread_value F x x' /\ reread_value F y y' /\ reread_value F z z'.
(** The loaded edge [c] has the same two end points, in one order or the other, as the edge [e] of the saved curve. *)
Definition same_segment {F} (m : wmesh F (Z * Z)) (m' : mesh F (Z * Z)) (c : Z * Z) (e : nat) : Prop :=
  exists v w p q p' q', (nth_error (wm_cells m) e = Some (v, w) \/ nth_error (wm_cells m) e = Some (w, v)) /\
    nth_error (wm_points m) (Z.to_nat v) = Some p /\ nth_error (wm_points m) (Z.to_nat w) = Some q /\
    reprinted F p p' /\ reprinted F q q' /\
    nth_error (m_points m') (Z.to_nat (fst c)) = Some p' /\ nth_error (m_points m') (Z.to_nat (snd c)) = Some q'.
(** Names of attributes that can be written, and a number of edges that can be numbered. *)
Definition savable {F} (m : wmesh F (Z * Z)) : Prop :=
  Forall (fun w => clean (w_name w)) (wm_attrs m) /\ 2 * Z.of_nat (List.length (wm_cells m)) + 1 < 2 ^ 32.

(** ** Text of the file *)
Section Text.
Context (F : Num) (HF : num_ok F).
Lemma pvrtx_tokens kw (ws : list (wattr F)) n v x y z : token kw -> 0 <= n ->
  string_split (pvrtx_line kw ws n v (x, y, z)) =
  kw :: show n :: os_text F x :: os_text F y :: os_text F z :: map (fun w => os_text F (w_val w (Z.to_nat v))) ws.
Proof.
  intros Hk Hn.
  replace (pvrtx_line kw ws n v (x, y, z)) with
    (kw ++ spaced (show n :: os_text F x :: os_text F y :: os_text F z :: map (fun w => os_text F (w_val w (Z.to_nat v))) ws)).
  - apply split_spaced_tokens; [exact Hk|]. constructor; [now apply show_token|]. destruct HF.
    do 3 (constructor; [auto|]). apply Forall_map, Forall_forall. auto.
  - unfold pvrtx_line. rewrite !spaced_cons. cbn [app]. rewrite <- ?app_assoc. cbn [app]. rewrite <- ?app_assoc. reflexivity.
Qed.
Lemma seg_tokens a b : 0 <= a -> 0 <= b -> string_split (seg_line a b) = [lit "SEG"; show a; show b].
Proof.
  intros Ha Hb. replace (seg_line a b) with (lit "SEG" ++ spaced [show a; show b]).
  - apply split_spaced_tokens; [apply tokenb_ok; reflexivity|]. repeat (constructor; [now apply show_token|]). constructor.
  - unfold seg_line. rewrite !spaced_cons. cbn [spaced map List.concat app]. rewrite app_nil_r. reflexivity.
Qed.
Definition segl (ab : Z * Z) : bytes := seg_line (fst ab) (snd ab).
Lemma block_lines_eq kw (ws : list (wattr F)) pt b : 0 <= b_off b -> b_vs b <> [] -> b_off b + lenz (b_vs b) < two32 ->
  block_lines kw ws pt b = lit "ILINE" :: pvrtx_lines kw ws pt (b_off b) (b_vs b) ++ map segl (segs b).
Proof.
  intros H0 Hn H1. unfold block_lines, segs. cbn [app]. do 2 f_equal. rewrite map_app, map_map. f_equal.
  - unfold seg_lines. apply map_ext_in. intros s Hs. apply in_rangez in Hs. unfold segl, lenz in *. cbn [fst snd].
    now rewrite !add32_small by (rewrite ?add32_small by lia; lia).
  - destruct (b_close b); [|reflexivity]. cbn [map]. unfold segl. cbn [fst snd]. do 2 f_equal.
    assert (0 < lenz (b_vs b)) by (unfold lenz; destruct (b_vs b); [congruence|cbn [List.length]; lia]).
    rewrite add32_small by lia. now rewrite sub32_small by lia.
Qed.
(** Reading the vertices, then the segments, of an ILINE. *)
Definition rvp (p : point F) : point F := let '(x, y, z) := p in (rv F x, rv F y, rv F z).
Lemma ilines_pvrtx kw (ws : list (wattr F)) pt name rest : token kw -> is_vrtx kw = true ->
  forall vs n pts edges, 0 <= n -> n + lenz vs <= two32 -> (pts = [] -> n = 1) ->
  ilines_loop F (mkECurve 1 name default_crs pts edges) (pvrtx_lines kw ws pt n vs ++ rest)
  = ilines_loop F (mkECurve 1 name default_crs (pts ++ map (fun v => rvp (pt v)) vs) edges) rest.
Proof.
  intros Hk Hv. induction vs as [|v vs IH]; intros n pts edges H0 H1 H2; [cbn; now rewrite app_nil_r|].
  cbn [pvrtx_lines app ilines_loop map]. unfold iline_line. destruct (pt v) as [[x y] z] eqn:Ep.
  assert (Hl : n + 1 + lenz vs <= two32) by (unfold lenz in *; cbn [List.length] in H1; lia). unfold lenz in H1. cbn [List.length] in H1.
  rewrite pvrtx_tokens by assumption. cbn [front hd_error bind]. rewrite Hv.
  assert (Eo : vrtx_offset (match pts with [] => true | _ => false end) 1
      (kw :: show n :: os_text F x :: os_text F y :: os_text F z :: map (fun w => os_text F (w_val w (Z.to_nat v))) ws) = Ok 1).
  { unfold vrtx_offset. destruct pts; [|reflexivity]. rewrite idx_S, idx_0. cbn [bind]. rewrite (H2 eq_refl).
    apply string_to_index_show. unfold two32. lia. }
  rewrite Eo. cbn [bind]. unfold vrtx_point. rewrite !idx_S, !idx_0. cbn [bind]. rewrite !std_rv by exact HF. cbn [bind].
  change (signed F default_crs (rv F z)) with (rv F z).
  destruct vs as [|v2 vs].
  - cbn [pvrtx_lines map app]. reflexivity.
  - rewrite IH; [|unfold add32; apply Z.mod_pos_bound; reflexivity| |].
    + cbn [map]. rewrite <- !app_assoc. cbn [app]. reflexivity.
    + unfold lenz in *. cbn [List.length] in *. rewrite add32_small by lia. lia.
    + intros E. destruct pts; discriminate.
Qed.
Lemma tok_index_off kw (l : list bytes) i a : idx l i = Ok (show a) -> 1 <= a < two32 -> tok_index 1 (kw :: l) (S i) = Ok (a - 1).
Proof.
  intros H Ha. unfold tok_index. rewrite idx_S, H. cbn [bind]. rewrite string_to_index_show by lia. cbn [bind].
  now rewrite sub32_small by lia.
Qed.
Lemma ilines_segs name pts rest : forall l edges, Forall (fun ab => 1 <= fst ab < two32 /\ 1 <= snd ab < two32) l ->
  ilines_loop F (mkECurve 1 name default_crs pts edges) (map segl l ++ rest)
  = ilines_loop F (mkECurve 1 name default_crs pts (edges ++ map (fun ab => (fst ab - 1, snd ab - 1)) l)) rest.
Proof.
  induction l as [|[a b] l IH]; intros edges H; [cbn; now rewrite app_nil_r|]. inversion H as [|? ? [Ha Hb] Hl]; subst.
  cbn [map app ilines_loop fst snd] in *. unfold iline_line. change (segl (a, b)) with (seg_line a b). rewrite seg_tokens by lia. cbn [front hd_error bind].
  replace (is_vrtx (lit "SEG")) with false by reflexivity. replace (beq (lit "SEG") (lit "SEG")) with true by reflexivity.
  rewrite (tok_index_off _ [show a; show b] 0 a eq_refl Ha). cbn [bind].
  rewrite (tok_index_off _ [show a; show b] 1 b eq_refl Hb). cbn [bind]. rewrite IH by assumption. rewrite <- app_assoc. reflexivity.
Qed.

Lemma ilines_blocks kw (ws : list (wattr F)) pt name rest : token kw -> is_vrtx kw = true ->
  forall bs n pts edges, numbered n bs -> n = 1 + lenz pts -> Forall (fun b => b_vs b <> []) bs -> n + lenz (all_vs bs) < two32 ->
  Forall (fun ab => 1 <= fst ab < two32 /\ 1 <= snd ab < two32) (flat_map segs bs) ->
  ilines_loop F (mkECurve 1 name default_crs pts edges) (flat_map (block_lines kw ws pt) bs ++ rest)
  = ilines_loop F (mkECurve 1 name default_crs (pts ++ map (fun v => rvp (pt v)) (all_vs bs))
      (edges ++ map (fun ab => (fst ab - 1, snd ab - 1)) (flat_map segs bs))) rest.
Proof.
  intros Hk Hv. induction bs as [|b bs IH]; intros n pts edges Hnum Hn Hne Hs Hseg.
  - cbn [flat_map app map all_vs]. cbn. now rewrite !app_nil_r.
  - destruct Hnum as [Ho Hnum]. apply Forall_cons_iff in Hne as [Hb Hne']. unfold lenz, all_vs in *. cbn [flat_map] in *.
    rewrite app_length in Hs. apply Forall_app in Hseg as [Hseg1 Hseg2].
    rewrite block_lines_eq by (unfold lenz; (assumption || lia)). rewrite <- app_assoc. cbn [app ilines_loop].
    change (iline_line F ?ec (lit "ILINE")) with (@Ok (ECurve F * bool) (ec, false)). cbn [bind]. rewrite <- app_assoc.
    rewrite ilines_pvrtx; [|assumption|assumption|lia|unfold lenz; lia|intros ->; cbn in Hn; lia].
    rewrite ilines_segs by assumption. rewrite (IH (n + Z.of_nat (List.length (b_vs b)))).
    + rewrite !map_app, <- !app_assoc. reflexivity.
    + exact Hnum.
    + rewrite app_length, map_length. lia.
    + exact Hne'.
    + lia.
    + exact Hseg2.
Qed.
(** ** The segment lines and the vertex lines *)
Lemma head_lines ws : 
  Forall (fun l => is_seg_line l = false /\ is_vertex_line l = false /\ starts_with l "ILINE" = false)
    ([lit "GOCAD PLine 1"] ++ write_header (Some (lit "edged_curve_name")) ++ write_CRS default_crs ++ prop_lines (F:=F) ws).
Proof.
  apply Forall_app; split; [repeat (constructor; [repeat split; reflexivity|]); constructor|].
  apply Forall_app; split; [repeat (constructor; [repeat split; reflexivity|]); constructor|].
  apply Forall_app; split; [repeat (constructor; [repeat split; reflexivity|]); constructor|].
  unfold prop_lines. apply Forall_app; split; [destruct ws; [constructor|]; repeat (constructor; [repeat split; reflexivity|]); constructor|].
  apply Forall_app; split; [repeat (constructor; [repeat split; reflexivity|]); constructor|].
  induction ws as [|w ws IH]; [constructor|]. cbn [flat_map]. apply Forall_app; split; [|exact IH].
  repeat (constructor; [repeat split; reflexivity|]); constructor.
Qed.
Lemma filter_none {A} (f : A -> bool) l : Forall (fun x => f x = false) l -> filter f l = [].
Proof. induction 1 as [|x l Hx Hl IH]; [reflexivity|]. cbn. now rewrite Hx. Qed.
Lemma filter_all {A} (f : A -> bool) l : Forall (fun x => f x = true) l -> filter f l = l.
Proof. induction 1 as [|x l Hx Hl IH]; [reflexivity|]. cbn. now rewrite Hx, IH. Qed.
Lemma pvrtx_kinds kw (ws : list (wattr F)) pt : kw = lit "VRTX" \/ kw = lit "PVRTX" -> forall vs n,
  Forall (fun l => is_seg_line l = false /\ is_vertex_line l = true) (pvrtx_lines kw ws pt n vs).
Proof.
  intros Hk. induction vs as [|v vs IH]; intros n; [constructor|]. cbn [pvrtx_lines]. constructor; [|apply IH].
  unfold pvrtx_line. destruct (pt v) as [[x y] z]. destruct Hk as [-> | ->]; split; reflexivity.
Qed.
Lemma segl_kinds l : Forall (fun l => is_seg_line l = true /\ is_vertex_line l = false) (map segl l).
Proof. apply Forall_map, Forall_forall. intros [a b] _. split; reflexivity. Qed.
Lemma block_filter kw (ws : list (wattr F)) pt : kw = lit "VRTX" \/ kw = lit "PVRTX" ->
  forall bs n, numbered n bs -> 0 <= n -> Forall (fun b => b_vs b <> []) bs -> n + lenz (all_vs bs) < two32 ->
  filter is_seg_line (flat_map (block_lines kw ws pt) bs) = map segl (flat_map segs bs) /\
  filter is_vertex_line (flat_map (block_lines kw ws pt) bs) = flat_map (fun b => pvrtx_lines kw ws pt (b_off b) (b_vs b)) bs.
Proof.
  intros Hk. induction bs as [|b bs IH]; intros n Hnum Hn Hne Hs; [split; reflexivity|].
  destruct Hnum as [Ho Hnum]. apply Forall_cons_iff in Hne as [Hb Hne']. unfold lenz, all_vs in *. cbn [flat_map] in *. rewrite app_length in Hs.
  rewrite block_lines_eq by (unfold lenz; (assumption || lia)).
  destruct (IH (n + Z.of_nat (List.length (b_vs b)))) as [I1 I2]; [exact Hnum|lia|exact Hne'|lia|].
  rewrite !filter_app, I1, I2, map_app. cbn [filter].
  replace (is_seg_line (lit "ILINE")) with false by reflexivity. replace (is_vertex_line (lit "ILINE")) with false by reflexivity.
  rewrite !filter_app. split; f_equal.
  - rewrite filter_none, filter_all; [reflexivity| |].
    + eapply Forall_impl; [|apply segl_kinds]. intros l H. apply H.
    + eapply Forall_impl; [|apply pvrtx_kinds, Hk]. intros l H. apply H.
  - rewrite filter_all, filter_none; [apply app_nil_r| |].
    + eapply Forall_impl; [|apply segl_kinds]. intros l H. apply H.
    + eapply Forall_impl; [|apply pvrtx_kinds, Hk]. intros l H. apply H.
Qed.
(** The vertex lines are numbered from one in the order of the file. *)
Lemma numbered_lines kw (ws : list (wattr F)) pt : forall bs n, numbered n bs -> 0 <= n -> n + lenz (all_vs bs) < two32 ->
  flat_map (fun b => pvrtx_lines kw ws pt (b_off b) (b_vs b)) bs =
  map (fun nv => pvrtx_line kw ws (fst nv) (snd nv) (pt (snd nv))) (combine (rangez n (List.length (all_vs bs))) (all_vs bs)).
Proof.
  assert (P : forall vs n, 0 <= n -> n + lenz vs < two32 -> pvrtx_lines kw ws pt n vs =
    map (fun nv => pvrtx_line kw ws (fst nv) (snd nv) (pt (snd nv))) (combine (rangez n (List.length vs)) vs)).
  { induction vs as [|v vs IH]; intros n H0 H1; [reflexivity|]. unfold lenz in *. cbn [List.length] in H1.
    cbn [pvrtx_lines List.length rangez combine map fst snd]. rewrite add32_small by lia. rewrite IH by lia. reflexivity. }
  assert (C : forall (A B : Type) (l l2 : list A) (k k2 : list B), List.length l = List.length k -> combine (l ++ l2) (k ++ k2) = combine l k ++ combine l2 k2).
  { induction l as [|a l IH]; intros l2 [|b k] k2 E; try discriminate; [reflexivity|]. cbn. f_equal. apply IH. now injection E. }
  induction bs as [|b bs IH]; intros n Hnum H0 H1; [reflexivity|]. destruct Hnum as [Ho Hnum]. unfold lenz, all_vs in *. cbn [flat_map] in *.
  rewrite app_length in *. rewrite rangez_app, C by apply rangez_length. rewrite map_app, Ho. f_equal; [apply P; unfold lenz; lia|].
  apply (IH _ Hnum); lia.
Qed.
End Text.
Lemma drawn_nonempty es around path b : drawn es around path b -> b_vs b <> [].
Proof.
  intros [lst _ H E _ _|ev lst _ H _ _ E _ _]; rewrite E; [destruct path; discriminate|]. destruct path; [discriminate|]. discriminate.
Qed.
Lemma ends_of_event es ev : (fst ev < List.length es)%nat ->
  nth_error es (fst ev) = Some (vert es ev, vert es (flip ev)) \/ nth_error es (fst ev) = Some (vert es (flip ev), vert es ev).
Proof.
  destruct ev as [e s]. cbn [fst]. intros H. unfold vert, flip. cbn [fst snd]. rewrite (nth_error_nth' es (0, 0) H).
  destruct (nth e es (0, 0)) as [a b], s; cbn; auto.
Qed.
(** What the writer produces, in terms of lists. *)
Lemma pl_written_blocks F (m : wmesh F (Z * Z)) around : num_ok F -> curve_ok (wm_cells m) around (List.length (wm_points m)) -> savable m ->
  let es := wm_cells m in
  let ws := filter w_generic (wm_attrs m) in
  let pt := fun v => nth (Z.to_nat v) (wm_points m) (zero F, zero F, zero F) in
  exists paths bs, write_ilines es around (List.length (wm_points m)) = Ok bs /\
    pl_lines around m = Ok (([lit "GOCAD PLine 1"] ++ write_header (Some (lit "edged_curve_name")) ++ write_CRS default_crs ++ prop_lines ws) ++
      flat_map (block_lines (vrtx_keyword (wm_attrs m)) ws pt) bs ++ [lit "END"]) /\
    Forall2 (drawn es around) paths bs /\ numbered 1 bs /\ Forall (fun b => b_vs b <> []) bs /\
    1 + lenz (all_vs bs) < two32 /\
    Permutation (edges_of paths) (seq 0 (List.length es)) /\
    Forall2 (seg_ok es (all_vs bs) (Exists (fun b => ~ own_close b) bs)) (flat_map segs bs) (List.concat paths) /\
    Forall (fun ev => (fst ev < List.length es)%nat) (List.concat paths) /\
    Forall (fun v => 0 <= v < lenz (wm_points m)) (all_vs bs) /\
    (no_loop es around \/ tidy_loops es around -> Forall own_close bs).
Proof.
  intros HF G [Hc Hs] es ws pt. destruct (write_ilines_ok es around _ G Hs) as (paths & bs & R & Hd & Hn & Hp & Hl & Hno0 & Htidy).
  assert (Hno : no_loop es around \/ tidy_loops es around -> Forall own_close bs).
  { intros [H|H]; [|exact (Htidy H)]. eapply Forall_impl; [|exact (Hno0 H)]. intros b Hb. now left. }
  assert (Hlt : Forall (fun ev => (fst ev < List.length es)%nat) (List.concat paths)).
  { apply Forall_forall. intros ev Hin. apply (in_map fst) in Hin. apply (Permutation_in _ Hp) in Hin. apply in_seq in Hin. lia. }
  exists paths, bs. split; [exact R|]. split.
  { unfold pl_lines. fold es. rewrite R. cbn [bind]. rewrite <- !app_assoc. reflexivity. }
  split; [exact Hd|]. split; [exact Hn|]. split.
  { clear - Hd. induction Hd as [|p b ps bs H _ IH]; constructor; [now apply drawn_nonempty in H|exact IH]. }
  assert (Hs2 : 2 * Z.of_nat (List.length es) + 1 < two32) by exact Hs. split; [lia|]. split; [exact Hp|]. split.
  { pose proof (blocks_segs es around paths bs [] [] Hd Hn) as H. cbn [app] in H. now rewrite app_nil_r in H. }
  split; [exact Hlt|]. split; [|exact Hno].
  assert (Hv : forall ev, (fst ev < List.length es)%nat -> 0 <= vert es ev < lenz (wm_points m)).
  { intros [e s] He. exact (co_ends _ _ _ G e s _ (end_vert es e s He)). }
  assert (Hf : forall ev, (fst ev < List.length es)%nat -> 0 <= vert es (flip ev) < lenz (wm_points m)) by (intros [e s] He; now apply Hv).
  clear - Hd Hlt Hv Hf. induction Hd as [|p b ps bs H _ IH]; [constructor|]. cbn [List.concat] in Hlt. apply Forall_app in Hlt as [H1 H2].
  unfold all_vs. cbn [flat_map]. apply Forall_app. split; [|now apply IH].
  rewrite Forall_forall in H1. destruct H as [lst _ Hl E _ _|ev lst _ Hl _ _ E _ _]; rewrite E.
  - rewrite map_app. apply Forall_app. split; [apply Forall_map, Forall_forall; auto|]. constructor; [|constructor].
    apply Hf, H1. now apply nth_error_In in Hl.
  - apply Forall_map, Forall_forall. auto.
Qed.
Lemma pl_written F (m : wmesh F (Z * Z)) around : num_ok F -> curve_ok (wm_cells m) around (List.length (wm_points m)) -> savable m ->
  let es := wm_cells m in
  let ws := filter w_generic (wm_attrs m) in
  let pt := fun v => nth (Z.to_nat v) (wm_points m) (zero F, zero F, zero F) in
  exists paths bs,
    pl_lines around m = Ok (([lit "GOCAD PLine 1"] ++ write_header (Some (lit "edged_curve_name")) ++ write_CRS default_crs ++ prop_lines ws) ++
      flat_map (block_lines (vrtx_keyword (wm_attrs m)) ws pt) bs ++ [lit "END"]) /\
    Forall2 (drawn es around) paths bs /\ numbered 1 bs /\ Forall (fun b => b_vs b <> []) bs /\
    1 + lenz (all_vs bs) < two32 /\
    Permutation (edges_of paths) (seq 0 (List.length es)) /\
    Forall2 (seg_ok es (all_vs bs) (Exists (fun b => ~ own_close b) bs)) (flat_map segs bs) (List.concat paths) /\
    Forall (fun ev => (fst ev < List.length es)%nat) (List.concat paths) /\
    Forall (fun v => 0 <= v < lenz (wm_points m)) (all_vs bs) /\
    (no_loop es around \/ tidy_loops es around -> Forall own_close bs).
Proof.
  intros HF G Hsv es ws pt. destruct (pl_written_blocks F m around HF G Hsv) as (paths & bs & _ & H). exists paths, bs. exact H.
Qed.
Lemma Forall2_map2 {A B C D} (R : A -> B -> Prop) (Q : C -> D -> Prop) (f : A -> C) (g : B -> D) l k :
  (forall a b, In b k -> R a b -> Q (f a) (g b)) -> Forall2 R l k -> Forall2 Q (map f l) (map g k).
Proof.
  intros H. induction 1 as [|a b l k Hab _ IH]; [constructor|]. cbn. constructor; [apply H; [now left|exact Hab]|].
  apply IH. intros x y Hy. apply H. now right.
Qed.

Lemma create_edge_list F (l : list edge) : forall (m : mesh F edge), Forall (fun e => 0 <= fst e < lenz (m_points m) /\ 0 <= snd e < lenz (m_points m)) l ->
  foldM create_edge l m = Ok (mkMesh (m_name m) (m_points m) (m_cells m ++ l) (m_attrs m)).
Proof.
  induction l as [|[a b] l IH]; intros m H.
  - cbn. rewrite app_nil_r. now destruct m.
  - apply Forall_cons_iff in H as [[Ha Hb] H]. cbn [fst snd] in *. cbn [foldM]. unfold create_edge, valid_vertex, nb_vertices.
    rewrite !(proj2 (Z.leb_le _ _)), !(proj2 (Z.ltb_lt _ _)) by lia. cbn [andb bind]. rewrite IH by exact H. unfold add_cell. cbn. now rewrite <- app_assoc.
Qed.
Lemma reprinted_rvp F p : num_ok F -> reprinted F p (rvp F p).
Proof. intros HF. destruct p as [[x y] z]. cbn. unfold reread_value. repeat split; now apply rv_ok. Qed.
(** The vertex lines of the file. *)
Lemma pl_vertex_lines F (m : wmesh F (Z * Z)) bs : num_ok F -> numbered 1 bs -> Forall (fun b => b_vs b <> []) bs ->
  1 + lenz (all_vs bs) < two32 -> Forall (fun v => 0 <= v < lenz (wm_points m)) (all_vs bs) ->
  let ws := filter w_generic (wm_attrs m) in
  let pt := fun v => nth (Z.to_nat v) (wm_points m) (zero F, zero F, zero F) in
  let ls := ([lit "GOCAD PLine 1"] ++ write_header (Some (lit "edged_curve_name")) ++ write_CRS default_crs ++ prop_lines ws) ++
    flat_map (block_lines (vrtx_keyword (wm_attrs m)) ws pt) bs ++ [lit "END"] in
  filter is_seg_line ls = map segl (flat_map segs bs) /\
  List.length (filter is_vertex_line ls) = List.length (all_vs bs) /\
  (forall i v, nth_error (all_vs bs) i = Some v -> exists l, nth_error (filter is_vertex_line ls) i = Some l /\ shows m (S i) v l).
Proof.
  intros HF Hn Hne Hsz Hvs ws pt.
  set (head := [lit "GOCAD PLine 1"] ++ write_header (Some (lit "edged_curve_name")) ++ write_CRS default_crs ++ prop_lines ws) in *.
  set (kw := vrtx_keyword (wm_attrs m)) in *.
  assert (Hk : kw = lit "VRTX" \/ kw = lit "PVRTX") by (unfold kw, vrtx_keyword; destruct (wm_attrs m); auto).
  destruct (block_filter F kw ws pt Hk bs 1 Hn ltac:(lia) Hne Hsz) as [F1 F2].
  pose proof (head_lines F ws) as Hh. fold head in Hh.
  assert (FS : filter is_seg_line (head ++ flat_map (block_lines kw ws pt) bs ++ [lit "END"]) = map segl (flat_map segs bs)).
  { rewrite !filter_app, F1. rewrite filter_none by (eapply Forall_impl; [|exact Hh]; intros l H; apply H). cbn [app filter].
    replace (is_seg_line (lit "END")) with false by reflexivity. apply app_nil_r. }
  assert (FV : filter is_vertex_line (head ++ flat_map (block_lines kw ws pt) bs ++ [lit "END"]) =
    map (fun nv => pvrtx_line kw ws (fst nv) (snd nv) (pt (snd nv))) (combine (rangez 1 (List.length (all_vs bs))) (all_vs bs))).
  { rewrite !filter_app, F2. rewrite filter_none by (eapply Forall_impl; [|exact Hh]; intros l H; apply H). cbn [app filter].
    replace (is_vertex_line (lit "END")) with false by reflexivity. rewrite app_nil_r. now apply numbered_lines. }
  intros ls. unfold ls. rewrite FS, FV. split; [reflexivity|]. split.
  { rewrite map_length, combine_length, rangez_length. apply Nat.min_id. }
  intros i v Hi. assert (Hil : (i < List.length (all_vs bs))%nat) by (apply nth_error_Some; congruence).
    assert (Hc : nth_error (combine (rangez 1 (List.length (all_vs bs))) (all_vs bs)) i = Some (1 + Z.of_nat i, v)).
    { clear - Hi Hil. pose proof (rangez_nth 1 _ _ Hil) as Hr. revert Hr Hi. generalize (rangez 1 (List.length (all_vs bs))) as l.
      generalize (all_vs bs) as k. generalize (1 + Z.of_nat i) as n. clear Hil. revert v.
      induction i as [|i IH]; intros v n [|y k] [|x l] H1 H2; try discriminate; cbn in *; [congruence|]. now apply IH. }
    exists (pvrtx_line kw ws (1 + Z.of_nat i) v (pt v)). split; [rewrite nth_error_map, Hc; reflexivity|].
    rewrite Forall_forall in Hvs. specialize (Hvs v (nth_error_In _ _ Hi)). assert (Hvl : (Z.to_nat v < List.length (wm_points m))%nat) by (unfold lenz in Hvs; lia).
    destruct (pt v) as [[x y] z] eqn:Ep. exists kw, x, y, z, (map (fun w => os_text F (w_val w (Z.to_nat v))) ws).
    split; [exact Hk|]. split; [lia|]. split; [rewrite <- Ep; exact (nth_error_nth' _ _ Hvl)|].
    rewrite pvrtx_tokens; [|exact HF|destruct Hk as [-> | ->]; apply tokenb_ok; reflexivity|lia]. do 3 f_equal. lia.
Qed.
(** C11.  Whatever the curve, the writer ends, numbers the vertex lines from one, and there is exactly one segment
    line for every edge. *)
Theorem C11_pl_every_edge_once :
  forall (F : Num) (m : wmesh F (Z * Z)) (around : Z -> list (nat * bool)),
    num_ok F -> curve_ok (wm_cells m) around (List.length (wm_points m)) -> savable m ->
    exists ls vs order,
      write_pl around m = Ok (unlines ls) /\
      Permutation order (seq 0 (List.length (wm_cells m))) /\
      List.length (filter is_vertex_line ls) = List.length vs /\
      (forall i v, nth_error vs i = Some v -> exists l, nth_error (filter is_vertex_line ls) i = Some l /\ shows m (S i) v l) /\
      Forall2 (draws (wm_cells m) vs) (filter is_seg_line ls) order.
Proof.
  intros F m around HF G Hsv. destruct (pl_written F m around HF G Hsv) as (paths & bs & R & Hd & Hn & Hne & Hsz & Hp & Hseg & Hlt & Hvs & _).
  set (es := wm_cells m) in *. set (ws := filter w_generic (wm_attrs m)) in *.
  set (pt := fun v => nth (Z.to_nat v) (wm_points m) (zero F, zero F, zero F)) in *.
  destruct (pl_vertex_lines F m bs HF Hn Hne Hsz Hvs) as (FS & FL & FV). fold ws pt in FS, FL, FV.
  eexists _, (all_vs bs), (edges_of paths). split; [unfold write_pl; rewrite R; reflexivity|]. split; [exact Hp|]. split; [exact FL|]. split; [exact FV|]. rewrite FS.
  apply (Forall2_map2 (seg_ok es (all_vs bs) (Exists (fun b => ~ own_close b) bs))); [|exact Hseg].
    intros [a b] ev Hin (H1 & H2 & H3). cbn [fst snd] in *. rewrite Forall_forall in Hlt. specialize (Hlt ev Hin).
    exists a, b, (vert es ev), (vert es (flip ev)). split.
    { apply seg_tokens; [lia|]. destruct H3 as [[H3 _]|[_ ->]]; [lia|]. unfold add32, wrap32. apply Z.mod_pos_bound. reflexivity. }
    split; [now apply ends_of_event|]. split; [exact H1|]. split; [exact H2|]. destruct H3 as [H3|[_ H3]]; [now left|right; exact H3].
Qed.
Print Assumptions C11_pl_every_edge_once.

(** The curve found in the file, and how it is read back. *)
Definition pl_read_back_curve (F : Num) (m : wmesh F (Z * Z)) (bs : list block) : ECurve F :=
  mkECurve 1 (Some (lit "edged_curve_name")) default_crs
    (map (fun v => rvp F (nth (Z.to_nat v) (wm_points m) (zero F, zero F, zero F))) (all_vs bs))
    (map (fun ab => (fst ab - 1, snd ab - 1)) (flat_map segs bs)).
Lemma pl_read_back :
  forall (F : Num) (m : wmesh F (Z * Z)) (around : Z -> list (nat * bool)) (bs : list block),
    num_ok F -> savable m ->
    pl_lines around m = Ok (([lit "GOCAD PLine 1"] ++ write_header (Some (lit "edged_curve_name")) ++ write_CRS default_crs ++ prop_lines (filter w_generic (wm_attrs m))) ++
      flat_map (block_lines (vrtx_keyword (wm_attrs m)) (filter w_generic (wm_attrs m)) (fun v => nth (Z.to_nat v) (wm_points m) (zero F, zero F, zero F))) bs ++ [lit "END"]) ->
    bs <> [] -> numbered 1 bs -> Forall (fun b => b_vs b <> []) bs -> 1 + lenz (all_vs bs) < two32 ->
    Forall (fun ab => 1 <= fst ab < two32 /\ 1 <= snd ab < two32) (flat_map segs bs) ->
    exists text, write_pl around m = Ok text /\ read_pl F text = build_curve empty_mesh (pl_read_back_curve F m bs).
Proof.
  intros F m around bs0 HF Hsv R Hbs Hn Hne Hsz Hb32. unfold pl_read_back_curve.
  set (ws := filter w_generic (wm_attrs m)) in *.
  set (pt := fun v => nth (Z.to_nat v) (wm_points m) (zero F, zero F, zero F)) in *.
  set (kw := vrtx_keyword (wm_attrs m)) in *.
  assert (Hk : token kw /\ is_vrtx kw = true) by apply vrtx_keyword_ok. destruct Hk as [Hk1 Hk2].
  destruct Hsv as [Hclean _].
  assert (Hcw : Forall (fun w => clean (w_name w)) ws).
  { apply Forall_forall. intros w Hw. apply filter_In in Hw as [Hw _]. rewrite Forall_forall in Hclean. auto. }
  destruct bs0 as [|b bs]; [congruence|].
  set (head := [lit "GOCAD PLine 1"] ++ write_header (Some (lit "edged_curve_name")) ++ write_CRS default_crs ++ prop_lines ws) in *.
  set (V := all_vs (b :: bs)) in *. set (S := flat_map segs (b :: bs)) in *.
  set (ls := head ++ flat_map (block_lines kw ws pt) (b :: bs) ++ [lit "END"]) in *.
  set (ec := mkECurve 1 (Some (lit "edged_curve_name")) default_crs (map (fun v => rvp F (pt v)) V) (map (fun ab => (fst ab - 1, snd ab - 1)) S)).
  assert (Rd : forall tl, read_ecurve F (mkStream ls tl) = Ok (Some ec, mkStream [] tl)).
  { intros tl. unfold read_ecurve, ls, head. rewrite <- !app_assoc. change ([lit "GOCAD PLine 1"] ++ ?x) with (lit "GOCAD PLine 1" :: x).
    rewrite goto_if_next by reflexivity. rewrite read_header_written. cbn [bind]. rewrite read_CRS_default. cbn [bind].
    unfold read_ilines.
    assert (Eb : flat_map (block_lines kw ws pt) (b :: bs) ++ [lit "END"] =
      lit "ILINE" :: (pvrtx_lines kw ws pt (b_off b) (b_vs b) ++ map segl (segs b)) ++ flat_map (block_lines kw ws pt) bs ++ [lit "END"]).
    { destruct Hn as [Hn _]. apply Forall_cons_iff in Hne as [Hne _]. cbn [flat_map]. rewrite <- app_assoc.
      rewrite block_lines_eq; [|lia|exact Hne|rewrite Hn; unfold V, lenz, all_vs in *; cbn [flat_map] in Hsz; rewrite app_length in Hsz; lia].
      reflexivity. }
    rewrite Eb. rewrite goto_keyword_hit; [|pose proof (head_lines F ws) as Hh; apply Forall_app in Hh as [_ Hh]; apply Forall_app in Hh as [_ Hh];
      apply Forall_app in Hh as [_ Hh]; eapply Forall_impl; [|exact Hh]; intros l H; apply H|reflexivity].
    cbn [bind pending nl].
    pose proof (ilines_blocks F HF kw ws pt (Some (lit "edged_curve_name")) [lit "END"] Hk1 Hk2 (b :: bs) 1 [] [] Hn eq_refl Hne Hsz Hb32) as E.
    rewrite Eb in E. cbn [ilines_loop] in E. change (iline_line F ?ec (lit "ILINE")) with (@Ok (ECurve F * bool) (ec, false)) in E. cbn [bind] in E.
    change (option_map normalise (Some (lit "edged_curve_name"))) with (Some (lit "edged_curve_name")).
    rewrite E. change (iline_line F ?ec (lit "END")) with (@Ok (ECurve F * bool) (ec, true)). cbn [bind app]. reflexivity. }
  assert (Hlines : Forall is_line ls).
  { unfold ls, head. rewrite <- !app_assoc.
    apply Forall_app; split; [repeat (apply Forall_cons; [isl|]); constructor|].
    apply Forall_app; split; [apply write_header_lines; intros n E; injection E as <-; isl|].
    apply Forall_app; split; [unfold write_CRS; cbn [axis_names axis_units default_crs]; repeat (apply Forall_cons; [isl|]); constructor|].
    apply Forall_app; split; [now apply prop_lines_lines|].
    apply Forall_app; split; [|repeat (apply Forall_cons; [isl|]); constructor].
    assert (PL : forall vs n, 0 <= n -> Forall is_line (pvrtx_lines kw ws pt n vs)).
    { induction vs as [|v vs IH]; intros n Hn0; [constructor|]. cbn [pvrtx_lines]. constructor; [|apply IH; unfold add32, wrap32; apply Z.mod_pos_bound; reflexivity].
      unfold pvrtx_line. destruct (pt v) as [[x y] z]. 
      apply is_line_app; [now apply token_line|]. apply is_line_cons; [discriminate|]. apply is_line_app; [now apply token_line, show_token|].
      do 3 (apply is_line_cons; [discriminate|]; apply is_line_app; [apply token_line; now apply os_token|]).
      apply is_line_spaced. apply Forall_map, Forall_forall. intros w _. apply token_line. now apply os_token. }
    assert (SL : forall x, 0 <= fst x -> 0 <= snd x -> is_line (segl x)).
    { intros [x y] Hx0 Hy0. unfold segl, seg_line. cbn [fst snd] in *. apply is_line_app; [isl|]. apply is_line_app; [now apply token_line, show_token|].
      apply is_line_cons; [discriminate|]. now apply token_line, show_token. }
    clear - Hn Hne Hsz Hb32 PL SL. unfold V, S in *. assert (H0 : 0 <= 1) by lia. revert H0 Hn Hsz. generalize 1 as n.
    induction (b :: bs) as [|c cs IH]; intros n H0 Hn Hsz; [constructor|].
    unfold all_vs, lenz in *. cbn [flat_map] in *. rewrite app_length in Hsz. destruct Hn as [Ho Hn]. apply Forall_cons_iff in Hne as [Hc Hne].
    apply Forall_app in Hb32 as [Hb1 Hb2]. apply Forall_app. split.
    - rewrite block_lines_eq; [|lia|exact Hc|unfold lenz; lia]. constructor; [isl|]. apply Forall_app. split; [apply PL; lia|].
      apply Forall_map. eapply Forall_impl; [|exact Hb1]. intros x Hx1. cbn beta in Hx1. apply SL; lia.
    - apply (IH Hne Hb2 (n + Z.of_nat (List.length (b_vs c)))); [lia|exact Hn|lia]. }
  exists (unlines ls). split; [unfold write_pl; rewrite R; reflexivity|].
  change (mkECurve 1 _ _ _ _) with ec. unfold read_pl. rewrite open_unlines by exact Hlines. cbn [pending].
  assert (L : exists k, List.length ls = Datatypes.S k) by (eexists; reflexivity). destruct L as [k Hkl]. rewrite Hkl. cbn [read_pl_loop].
  rewrite Rd. cbn [bind]. destruct (build_curve empty_mesh ec); reflexivity.
Qed.
(** What is loaded from the file of a curve without loop, or of tidy loops. *)
Lemma pl_roundtrip :
  forall (F : Num) (m : wmesh F (Z * Z)) (around : Z -> list (nat * bool)),
    num_ok F -> curve_ok (wm_cells m) around (List.length (wm_points m)) -> savable m ->
    no_loop (wm_cells m) around \/ tidy_loops (wm_cells m) around -> wm_cells m <> [] ->
    exists text m' order,
      write_pl around m = Ok text /\ read_pl F text = Ok m' /\
      Permutation order (seq 0 (List.length (wm_cells m))) /\
      Forall2 (same_segment m m') (m_cells m') order /\
      (forall p', In p' (m_points m') -> exists p, In p (wm_points m) /\ reprinted F p p') /\
      m_name m' = Some (lit "edged_curve_name") /\ m_attrs m' = [].
Proof.
  intros F m around HF G Hsv Hno Hnil. destruct (pl_written F m around HF G Hsv) as (paths & bs & R & Hd & Hn & Hne & Hsz & Hp & Hseg & Hlt & Hvs & Hop).
  specialize (Hop Hno). set (es := wm_cells m) in *. set (ws := filter w_generic (wm_attrs m)) in *.
  set (pt := fun v => nth (Z.to_nat v) (wm_points m) (zero F, zero F, zero F)) in *.
  set (kw := vrtx_keyword (wm_attrs m)) in *.
  assert (Hx : ~ Exists (fun b => ~ own_close b) bs).
  { intros H. apply Exists_exists in H as (b & Hb & Hc). rewrite Forall_forall in Hop. auto. }
  assert (Hseg' : Forall2 (fun ab ev => (1 <= fst ab < two32 /\ 1 <= snd ab < two32) /\
      nth_error (all_vs bs) (Z.to_nat (fst ab - 1)) = Some (vert es ev) /\ nth_error (all_vs bs) (Z.to_nat (snd ab - 1)) = Some (vert es (flip ev)))
      (flat_map segs bs) (List.concat paths)).
  { eapply Forall2_imp; [|exact Hseg]. intros ab ev (H1 & H2 & [[H3 H4]|[H3 _]]); [|contradiction].
    assert (B : forall k v, 1 <= k -> nth_error (all_vs bs) (Z.to_nat (k - 1)) = Some v -> k < two32).
    { intros k v Hk3 E. assert (Z.to_nat (k - 1) < List.length (all_vs bs))%nat by (apply nth_error_Some; congruence). unfold lenz in Hsz. lia. }
    split; [split; split; eauto|]. auto. }
  destruct bs as [|b bs].
  { exfalso. inversion Hd; subst. unfold edges_of in Hp. cbn in Hp. apply Permutation_nil in Hp. apply Hnil. now destruct es. }
  set (V := all_vs (b :: bs)) in *. set (S := flat_map segs (b :: bs)) in *.
  assert (Hb32 : Forall (fun ab => 1 <= fst ab < two32 /\ 1 <= snd ab < two32) S).
  { clear - Hseg'. induction Hseg' as [|ab ev l k H _ IH]; constructor; [apply H|exact IH]. }
  set (ec := mkECurve 1 (Some (lit "edged_curve_name")) default_crs (map (fun v => rvp F (pt v)) V) (map (fun ab => (fst ab - 1, snd ab - 1)) S)).
  assert (Bd : build_curve empty_mesh ec = Ok (mkMesh (Some (lit "edged_curve_name")) (e_points ec) (e_edges ec) [])).
  { unfold build_curve, ec. cbn [e_points e_name e_edges]. rewrite set_name_empty, create_points_spec. cbn [m_name m_points m_cells m_attrs app map].
    change (nb_vertices empty_mesh) with 0. rewrite map_map.
    replace (map _ S) with (map (fun ab : Z * Z => (fst ab - 1, snd ab - 1)) S).
    - apply create_edge_list. cbn [m_points]. unfold lenz. rewrite map_length. clear - Hseg'.
      induction Hseg' as [|ab ev l k (H1 & H2 & H3) _ IH]; constructor; [|exact IH]. cbn [fst snd].
      assert (Z.to_nat (fst ab - 1) < List.length V)%nat by (apply nth_error_Some; congruence).
      assert (Z.to_nat (snd ab - 1) < List.length V)%nat by (apply nth_error_Some; congruence). lia.
    - apply map_ext_in. intros ab Hab. rewrite Forall_forall in Hb32. specialize (Hb32 ab Hab). cbn [fst snd].
      now rewrite !add32_small, !Z.add_0_r by lia. }
  destruct (pl_read_back F m around (b :: bs) HF Hsv R ltac:(discriminate) Hn Hne Hsz Hb32) as (text & W & Rb).
  exists text, (mkMesh (Some (lit "edged_curve_name")) (e_points ec) (e_edges ec) []), (edges_of paths).
  split; [exact W|]. split; [rewrite Rb; exact Bd|].
  split; [exact Hp|]. cbn [m_cells m_points e_edges e_points ec]. split; [|split; [|split; reflexivity]].
  - apply (Forall2_map2 _ (same_segment m _) _ fst _ _) with (2 := Hseg').
    intros ab ev Hin ((H1 & H1') & H2 & H3). rewrite Forall_forall in Hlt. specialize (Hlt ev Hin).
    rewrite Forall_forall in Hvs. pose proof (Hvs _ (nth_error_In _ _ H2)) as B2. pose proof (Hvs _ (nth_error_In _ _ H3)) as B3. unfold lenz in B2, B3.
    exists (vert es ev), (vert es (flip ev)), (pt (vert es ev)), (pt (vert es (flip ev))), (rvp F (pt (vert es ev))), (rvp F (pt (vert es (flip ev)))).
    cbn [fst snd m_points]. split; [exact (ends_of_event es ev Hlt)|]. split; [apply nth_error_nth'; lia|]. split; [apply nth_error_nth'; lia|].
    split; [apply reprinted_rvp, HF|]. split; [apply reprinted_rvp, HF|]. rewrite !nth_error_map, H2, H3. split; reflexivity.
  - intros p' Hp'. apply in_map_iff in Hp' as (v & <- & Hv). rewrite Forall_forall in Hvs. specialize (Hvs v Hv). unfold lenz in Hvs.
    exists (pt v). split; [unfold pt; apply nth_In; lia|apply reprinted_rvp, HF].
Qed.

(** C12.  A curve with at least one edge, all of whose parts reach a vertex that has not two edges, is loaded with
    exactly its segments, and with no other points than those of the curve.  Missing from the full statement: the curve
    without edge, see [C12_pl_no_edge_refuted]. *)
Theorem C12_pl_open_roundtrip_partial :
  forall (F : Num) (m : wmesh F (Z * Z)) (around : Z -> list (nat * bool)),
    num_ok F -> curve_ok (wm_cells m) around (List.length (wm_points m)) -> savable m ->
    no_loop (wm_cells m) around -> wm_cells m <> [] ->
    exists text m' order,
      write_pl around m = Ok text /\ read_pl F text = Ok m' /\
      Permutation order (seq 0 (List.length (wm_cells m))) /\
      Forall2 (same_segment m m') (m_cells m') order /\
      (forall p', In p' (m_points m') -> exists p, In p (wm_points m) /\ reprinted F p p').
Proof.
  intros F m around H1 H2 H3 H4 H5. destruct (pl_roundtrip F m around H1 H2 H3 (or_introl H4) H5) as (t & m' & o & P1 & P2 & P3 & P4 & P5 & _).
  exists t, m', o. auto.
Qed.
Print Assumptions C12_pl_open_roundtrip_partial.

(** The ends of edges at every vertex, in the order of the edges. *)
Definition by_edge (es : list (Z * Z)) (v : Z) : list (nat * bool) :=
  filter (fun ev => Z.eqb (vert es ev) v) (flat_map (fun e => [(e, false); (e, true)]) (seq 0 (List.length es))).
Lemma by_edge_ok es nv : Forall (fun e => 0 <= fst e < Z.of_nat nv /\ 0 <= snd e < Z.of_nat nv) es -> curve_ok es (by_edge es) nv.
Proof.
  intros H. constructor.
  - intros e s v. unfold end_of. destruct (nth_error es e) as [[a b]|] eqn:E; [|discriminate]. intros Hx. injection Hx as <-.
    apply nth_error_In in E. rewrite Forall_forall in H. specialize (H _ E). cbn [fst snd] in H. destruct s; lia.
  - intros v. apply NoDup_filter. generalize 0%nat as k. induction (List.length es) as [|n IH]; intros k; [constructor|].
    cbn [seq flat_map app]. assert (N : forall s, ~ In (k, s) (flat_map (fun e => [(e, false); (e, true)]) (seq (S k) n))).
    { intros s Hin. apply in_flat_map in Hin as (x & Hx & [Hy|[Hy|[]]]); apply in_seq in Hx; injection Hy as -> _; lia. }
    constructor; [|constructor; [apply N|apply IH]]. intros [Hx|Hx]; [discriminate|]. now apply N in Hx.
  - intros v e s. unfold by_edge. rewrite filter_In, in_flat_map. split.
    + intros [(x & Hx & Hy) E]. apply in_seq in Hx. apply Z.eqb_eq in E. assert (x = e) by (destruct Hy as [Hy|[Hy|[]]]; now injection Hy). subst x.
      rewrite (end_vert es e s) by lia. now rewrite E.
    + intros E. destruct (end_of_lt es e s v E) as [Hlt Hv]. split; [|now apply Z.eqb_eq].
      exists e. split; [apply in_seq; lia|]. destruct s; cbn; auto.
Qed.
(** A branching curve with a double edge, a loop away from it, an isolated vertex and an attribute. *)
Definition ex_curve : wmesh ExNum (Z * Z) :=
  mkWmesh (F:=ExNum) (Some (lit "my curve")) [(0, 0, 0); (10, 0, 0); (20, 0, 0); (20, 5, 0); (20, -5, 0); (7, 7, 7); (1, 1, 1); (2, 1, 1); (1, 2, 1)]
    [(2, 1); (0, 1); (2, 3); (4, 2); (6, 7); (7, 8); (8, 6); (3, 2)]
    [mkWattr (F:=ExNum) (lit "points") false (fun _ => 0); mkWattr (F:=ExNum) (lit "age") true (fun v => Z.of_nat v)].
Example C11_instance :
  curve_ok (wm_cells ex_curve) (by_edge (wm_cells ex_curve)) (List.length (wm_points ex_curve)) /\ savable ex_curve /\
  match write_pl (by_edge (wm_cells ex_curve)) ex_curve with
  | Ok t => leqb beq (filter is_seg_line (pending (open_text t)))
      (map lit ["SEG 1 2"; "SEG 2 3"; "SEG 4 5"; "SEG 5 6"; "SEG 7 8"; "SEG 9 10"; "SEG 10 11"; "SEG 11 7"])
  | _ => false
  end = true.
Proof.
  split; [|split].
  - apply by_edge_ok. repeat (apply Forall_cons; [cbn; lia|]). constructor.
  - split; [repeat (apply Forall_cons; [apply cleanb_ok; reflexivity|]); constructor|cbn; lia].
  - vm_compute. reflexivity.
Qed.
(** A curve without loop: three branches that meet. *)
Definition ex_open : wmesh ExNum (Z * Z) :=
  mkWmesh (F:=ExNum) (Some (lit "my curve")) [(0, 0, 0); (10, 0, 0); (20, 0, 0); (20, 5, 0); (20, -5, 0); (7, 7, 7)]
    [(2, 1); (0, 1); (2, 3); (4, 2)] [mkWattr (F:=ExNum) (lit "age") true (fun v => Z.of_nat v)].
Lemma ex_open_ok : curve_ok (wm_cells ex_open) (by_edge (wm_cells ex_open)) (List.length (wm_points ex_open)) /\ savable ex_open /\
  no_loop (wm_cells ex_open) (by_edge (wm_cells ex_open)).
Proof.
  split; [|split].
  - apply by_edge_ok. repeat (apply Forall_cons; [cbn; lia|]). constructor.
  - split; [repeat (apply Forall_cons; [apply cleanb_ok; reflexivity|]); constructor|cbn; lia].
  - intros e s v Hv. exists 2.
    assert (D2 : deg (by_edge (wm_cells ex_open)) 2 <> 2%nat) by (vm_compute; discriminate). split; [|exact D2].
    assert (L2 : linked (wm_cells ex_open) 2 2) by constructor.
    assert (L1 : linked (wm_cells ex_open) 1 2) by (apply (linked_step _ 1 2 2 0 true); [reflexivity|reflexivity|exact L2]).
    assert (L0 : linked (wm_cells ex_open) 0 2) by (apply (linked_step _ 0 1 2 1 false); [reflexivity|reflexivity|exact L1]).
    assert (L3 : linked (wm_cells ex_open) 3 2) by (apply (linked_step _ 3 2 2 2 true); [reflexivity|reflexivity|exact L2]).
    assert (L4 : linked (wm_cells ex_open) 4 2) by (apply (linked_step _ 4 2 2 3 false); [reflexivity|reflexivity|exact L2]).
    unfold end_of in Hv. destruct e as [|[|[|[|e]]]]; cbn [nth_error wm_cells ex_open] in Hv; try (destruct e; discriminate Hv);
      injection Hv as <-; destruct s; assumption.
Qed.
Example C12_instance :
  (exists m : wmesh ExNum (Z * Z), curve_ok (wm_cells m) (by_edge (wm_cells m)) (List.length (wm_points m)) /\ savable m /\
    no_loop (wm_cells m) (by_edge (wm_cells m)) /\ wm_cells m <> []) /\
  match write_pl (by_edge (wm_cells ex_open)) ex_open with
  | Ok t => mesh_is zz_eqb (read_pl ExNum t) (Some (lit "edged_curve_name"))
      [(0, 0, 0); (10, 0, 0); (20, 0, 0); (20, 0, 0); (20, 5, 0); (20, 0, 0); (20, -5, 0)] [(0, 1); (1, 2); (3, 4); (5, 6)] []
  | _ => false
  end = true.
Proof.
  split; [|vm_compute; reflexivity]. exists ex_open. destruct ex_open_ok as (H1 & H2 & H3). split; [exact H1|]. split; [exact H2|].
  split; [exact H3|discriminate].
Qed.

(** C12 is false of a curve without edge: the file has no ILINE and cannot be loaded. *)
Theorem C12_pl_no_edge_refuted :
  exists (m : wmesh ExNum (Z * Z)) (around : Z -> list (nat * bool)) text,
    curve_ok (wm_cells m) around (List.length (wm_points m)) /\ savable m /\ no_loop (wm_cells m) around /\
    write_pl around m = Ok text /\ exists e, read_pl ExNum text = Throw e.
Proof.
  exists (mkWmesh (F:=ExNum) None [(1, 2, 3)] [] []), (by_edge []). eexists. split; [apply by_edge_ok; constructor|].
  split; [split; [constructor|cbn; lia]|]. split; [intros e s v H; unfold end_of in H; cbn in H; destruct e; discriminate|].
  split; [reflexivity|]. apply is_Throw_ok. vm_compute. reflexivity.
Qed.
Print Assumptions C12_pl_no_edge_refuted.

(** ** C13 *)

(** The loaded curve has the same segments as the saved one. *)
Definition same_segments {F} (m : wmesh F (Z * Z)) (m' : mesh F (Z * Z)) : Prop :=
  exists order, Permutation order (seq 0 (List.length (wm_cells m))) /\ Forall2 (same_segment m m') (m_cells m') order.
(** A triangle whose first edge does not begin at vertex 0. *)
Definition ex_triangle : wmesh ExNum (Z * Z) :=
  mkWmesh (F:=ExNum) None [(0, 0, 0); (1, 0, 0); (0, 1, 0)] [(1, 2); (2, 0); (0, 1)] [].
(** C13 is false: the segment that closes a loop ends at the vertex line whose number is one plus the number of the first
    vertex in the curve.  The triangle is loaded without its edge between vertices 0 and 1, the edge between 2 and 0 being there twice. *)
Theorem C13_pl_loop_refuted :
  exists (m : wmesh ExNum (Z * Z)) (around : Z -> list (nat * bool)) text m',
    curve_ok (wm_cells m) around (List.length (wm_points m)) /\ savable m /\
    write_pl around m = Ok text /\ read_pl ExNum text = Ok m' /\ ~ same_segments m m'.
Proof.
  exists ex_triangle, (by_edge (wm_cells ex_triangle)). eexists.
  exists (mkMesh (F:=ExNum) (Some (lit "edged_curve_name")) [(1, 0, 0); (0, 1, 0); (0, 0, 0)] [(0, 1); (1, 2); (2, 1)] []).
  split; [apply by_edge_ok; repeat (apply Forall_cons; [cbn; lia|]); constructor|].
  split; [split; [constructor|cbn; lia]|]. split; [reflexivity|]. split.
  { assert (E : mesh_is zz_eqb (read_pl ExNum (unlines (match pl_lines (by_edge (wm_cells ex_triangle)) ex_triangle with Ok l => l | _ => [] end)))
        (Some (lit "edged_curve_name")) [(1, 0, 0); (0, 1, 0); (0, 0, 0)] [(0, 1); (1, 2); (2, 1)] [] = true) by (vm_compute; reflexivity).
    apply mesh_is_ok in E; [|exact zz_eqb_ok]. destruct E as ([n ps cs ats] & E & E1 & E2 & E3 & E4). cbn [m_name m_points m_cells] in *. subst n ps cs.
    unfold attrs_of in E4. cbn [m_attrs] in E4. destruct ats; [|discriminate]. exact E. }
  intros (order & Hp & H2). assert (Hin : In 2%nat order) by (apply (Permutation_in _ (Permutation_sym Hp)); cbn; auto).
  assert (K : exists c, In c [(0, 1); (1, 2); (2, 1)] /\ same_segment ex_triangle (mkMesh (F:=ExNum) (Some (lit "edged_curve_name")) [(1, 0, 0); (0, 1, 0); (0, 0, 0)] [(0, 1); (1, 2); (2, 1)] []) c 2).
  { clear Hp. cbn [m_cells] in H2. induction H2 as [|c e l k H _ IH]; [destruct Hin|]. destruct Hin as [-> |Hin].
    - exists c. split; [now left|exact H].
    - destruct (IH Hin) as (x & Hx & Hs). exists x. split; [now right|exact Hs]. }
  destruct K as (c & Hc & v & w & p & q & p' & q' & He & Hp1 & Hq1 & Hp2 & Hq2 & Hp3 & Hq3).
  cbn [wm_cells ex_triangle nth_error wm_points m_points] in *.
  assert (V : (v = 0 /\ w = 1) \/ (v = 1 /\ w = 0)) by (destruct He as [He|He]; injection He as <- <-; auto).
  assert (R : forall a a' : num ExNum * num ExNum * num ExNum, reprinted ExNum a a' -> a = a').
  { intros [[x y] z] [[x' y'] z'] (R1 & R2 & R3). unfold reread_value in *. cbn [atod os_text ExNum] in *.
    rewrite zread_zshow in R1, R2, R3. congruence. }
  apply R in Hp2, Hq2. subst p' q'.
  destruct V as [[-> ->]|[-> ->]]; cbn in Hp1, Hq1; injection Hp1 as <-; injection Hq1 as <-;
    destruct Hc as [<- |[<- |[<- |[]]]]; cbn in Hp3, Hq3; discriminate.
Qed.
Print Assumptions C13_pl_loop_refuted.
(** C13, curves made of loops only, whose edges are numbered loop after loop, the first edge of every loop beginning at
    the vertex that has the number of this edge: the loops are loaded as loops, with exactly their segments.  Missing: every
    other numbering (false in general, see the two refutations), and curves with both loops and open lines. *)
Theorem C13_tidy_loops_partial :
  forall (F : Num) (m : wmesh F (Z * Z)) (around : Z -> list (nat * bool)),
    num_ok F -> curve_ok (wm_cells m) around (List.length (wm_points m)) -> savable m ->
    tidy_loops (wm_cells m) around -> wm_cells m <> [] ->
    exists text m', write_pl around m = Ok text /\ read_pl F text = Ok m' /\ same_segments m m' /\
      (forall p', In p' (m_points m') -> exists p, In p (wm_points m) /\ reprinted F p p').
Proof.
  intros F m around H1 H2 H3 H4 H5. destruct (pl_roundtrip F m around H1 H2 H3 (or_intror H4) H5) as (t & m' & o & P1 & P2 & P3 & P4 & P5 & _).
  exists t, m'. split; [exact P1|]. split; [exact P2|]. split; [exists o; auto|exact P5].
Qed.
Print Assumptions C13_tidy_loops_partial.
(** C13, a single loop: enough that its first edge begins at vertex 0. *)
Theorem C13_single_loop_partial :
  forall (F : Num) (m : wmesh F (Z * Z)) (around : Z -> list (nat * bool)) (w : Z),
    num_ok F -> curve_ok (wm_cells m) around (List.length (wm_points m)) -> savable m ->
    (forall e s v, end_of (wm_cells m) e s = Some v -> List.length (around v) = 2%nat) ->
    (forall e v, end_of (wm_cells m) e false = Some v -> linked (wm_cells m) 0 v) ->
    nth_error (wm_cells m) 0 = Some (0, w) ->
    exists text m', write_pl around m = Ok text /\ read_pl F text = Ok m' /\ same_segments m m'.
Proof.
  intros F m around w H1 H2 H3 H4 H5 H6. assert (E0 : end_of (wm_cells m) 0 false = Some 0) by (unfold end_of; now rewrite H6).
  assert (Sym : forall v x, linked (wm_cells m) v x -> linked (wm_cells m) x v).
  { induction 1 as [|v x y e s Hv Hx _ IH]; [constructor|]. apply linked_trans with x; [exact IH|].
    apply (linked_step _ _ v _ e (negb s)); [exact Hx|now rewrite negb_involutive|constructor]. }
  destruct (C13_tidy_loops_partial F m around H1 H2 H3) as (t & m' & P1 & P2 & P3 & _).
  - split; [exact H4|]. split.
    + intros e1 e2 e3 Hlt (v & x & Hv & Hx & Hl). assert (e2 < List.length (wm_cells m))%nat as L2 by (apply end_of_lt in Hx; lia).
      exists v, (vert (wm_cells m) (e2, false)). split; [exact Hv|]. pose proof (end_vert (wm_cells m) e2 false L2) as E2. split; [exact E2|].
      apply linked_trans with 0; [apply Sym; exact (H5 _ _ Hv)|exact (H5 _ _ E2)].
    + intros e v Hv Hmin. assert (e <= 0)%nat as Hz.
      { apply Hmin. exists v, 0. split; [exact Hv|]. split; [exact E0|]. apply Sym. exact (H5 _ _ Hv). }
      assert (e = 0)%nat as -> by lia. rewrite E0 in Hv. now injection Hv as <-.
  - intros E. rewrite E in H6. discriminate.
  - exists t, m'. auto.
Qed.
Print Assumptions C13_single_loop_partial.
(** Two loops numbered one after the other, an edge drawn backwards in the first one, and an isolated vertex. *)
Definition ex_loops : wmesh ExNum (Z * Z) :=
  mkWmesh (F:=ExNum) None [(0, 0, 0); (1, 0, 0); (0, 1, 0); (5, 0, 0); (6, 0, 0); (6, 6, 0); (5, 6, 0); (9, 9, 9)]
    [(0, 1); (2, 1); (2, 0); (3, 4); (4, 5); (5, 6); (6, 3)] [].
Lemma linked_colour es (c : Z -> bool) : Forall (fun e => c (fst e) = c (snd e)) es -> forall v x, linked es v x -> c v = c x.
Proof.
  intros H v x Hl. induction Hl as [|v w x e s Hv Hw _ IH]; [reflexivity|]. rewrite <- IH. unfold end_of in Hv, Hw.
  destruct (nth_error es e) as [[a b]|] eqn:E; [|discriminate]. apply nth_error_In in E. rewrite Forall_forall in H. specialize (H _ E).
  cbn [fst snd] in H. injection Hv as <-. injection Hw as <-. destruct s; cbn; congruence.
Qed.
Example C13_tidy_instance :
  curve_ok (wm_cells ex_loops) (by_edge (wm_cells ex_loops)) (List.length (wm_points ex_loops)) /\ savable ex_loops /\
  tidy_loops (wm_cells ex_loops) (by_edge (wm_cells ex_loops)) /\
  match write_pl (by_edge (wm_cells ex_loops)) ex_loops with
  | Ok t => mesh_is zz_eqb (read_pl ExNum t) (Some (lit "edged_curve_name"))
      [(0, 0, 0); (1, 0, 0); (0, 1, 0); (5, 0, 0); (6, 0, 0); (6, 6, 0); (5, 6, 0)] [(0, 1); (1, 2); (2, 0); (3, 4); (4, 5); (5, 6); (6, 3)] []
  | _ => false
  end = true.
Proof.
  assert (Col : forall v x, linked (wm_cells ex_loops) v x -> (v <? 3) = (x <? 3)).
  { apply (linked_colour _ (fun v => v <? 3)). repeat (apply Forall_cons; [reflexivity|]). constructor. }
  split; [apply by_edge_ok; repeat (apply Forall_cons; [cbn; lia|]); constructor|].
  split; [split; [constructor|cbn; lia]|]. split; [|vm_compute; reflexivity].
  assert (A : forall v x e s, end_of (wm_cells ex_loops) e s = Some v -> end_of (wm_cells ex_loops) e (negb s) = Some x -> linked (wm_cells ex_loops) v x).
  { intros v x e s H1 H2. exact (linked_step _ v x x e s H1 H2 (linked_refl _ x)). }
  assert (L01 : linked (wm_cells ex_loops) 0 2) by (apply (A _ _ 2%nat true); reflexivity).
  assert (L34 : linked (wm_cells ex_loops) 3 4) by (apply (A _ _ 3%nat false); reflexivity).
  assert (L45 : linked (wm_cells ex_loops) 4 5) by (apply (A _ _ 4%nat false); reflexivity).
  assert (L35 : linked (wm_cells ex_loops) 3 5) by (eapply linked_trans; eassumption).
  split; [|split].
  - intros e s v Hv. unfold end_of in Hv. do 7 (destruct e as [|e]; [cbn in Hv; injection Hv as <-; destruct s; reflexivity|]).
    cbn in Hv. destruct e; discriminate.
  - intros e1 e2 e3 Hlt (v & x & Hv & Hx & Hl). apply Col in Hl.
    assert (e3 < 7)%nat as L3 by (apply end_of_lt in Hx as [Hx _]; exact Hx).
    assert (B : forall e, (e < 7)%nat -> exists y, end_of (wm_cells ex_loops) e false = Some y /\ (y <? 3) = (e <? 3)%nat /\
       let r := if (e <? 3)%nat then 0 else 3 in linked (wm_cells ex_loops) r y /\ linked (wm_cells ex_loops) y r).
    { assert (Q : forall k, linked (wm_cells ex_loops) k k) by constructor.
      assert (L20 : linked (wm_cells ex_loops) 2 0) by (apply (A _ _ 2%nat false); reflexivity).
      assert (L43 : linked (wm_cells ex_loops) 4 3) by (apply (A _ _ 3%nat true); reflexivity).
      assert (L63 : linked (wm_cells ex_loops) 6 3) by (apply (A _ _ 6%nat false); reflexivity).
      assert (L36 : linked (wm_cells ex_loops) 3 6) by (apply (A _ _ 6%nat true); reflexivity).
      assert (L56 : linked (wm_cells ex_loops) 5 6) by (apply (A _ _ 5%nat false); reflexivity).
      assert (L53 : linked (wm_cells ex_loops) 5 3) by (eapply linked_trans; eassumption).
      intros e He. do 7 (destruct e as [|e]; [eexists; split; [reflexivity|split; [reflexivity|cbn; auto]]|]). lia. }
    destruct (B e1 ltac:(lia)) as (v1 & E1 & C1 & R1). destruct (B e2 ltac:(lia)) as (v2 & E2 & C2 & R2).
    destruct (B e3 ltac:(lia)) as (v3 & E3 & C3 & _).
    assert (v1 = v) as -> by congruence. assert (v3 = x) as -> by congruence.
    exists v, v2. split; [exact Hv|]. split; [exact E2|]. rewrite C1, C3 in Hl. cbv zeta in R1, R2.
    destruct (Nat.ltb_spec e1 3), (Nat.ltb_spec e2 3), (Nat.ltb_spec e3 3); try discriminate; try lia;
      (eapply linked_trans; [apply R1|apply R2]).
  - intros e v Hv Hmin.
    assert (S01 : same_loop (wm_cells ex_loops) 1 0) by (exists 2, 0; split; [reflexivity|split; [reflexivity|apply (A _ _ 2%nat false); reflexivity]]).
    destruct e as [|[|[|[|[|[|[|e]]]]]]].
    all: try (cbn in Hv; injection Hv as <-; reflexivity).
    1: apply Hmin in S01; lia.
    unfold end_of in Hv. cbn in Hv. destruct e; discriminate.
Qed.
(** A loop whose vertices are not in order, with an isolated vertex. *)
Example C13_single_instance :
  let m := mkWmesh (F:=ExNum) None [(0, 0, 0); (9, 9, 9); (0, 1, 0); (1, 0, 0)] [(0, 3); (2, 3); (2, 0)] [] in
  curve_ok (wm_cells m) (by_edge (wm_cells m)) (List.length (wm_points m)) /\ savable m /\
  (forall e s v, end_of (wm_cells m) e s = Some v -> List.length (by_edge (wm_cells m) v) = 2%nat) /\
  (forall e v, end_of (wm_cells m) e false = Some v -> linked (wm_cells m) 0 v) /\
  nth_error (wm_cells m) 0 = Some (0, 3).
Proof.
  intros m. split; [apply by_edge_ok; repeat (apply Forall_cons; [cbn; lia|]); constructor|].
  split; [split; [constructor|cbn; lia]|]. split; [|split; [|reflexivity]].
  - intros e s v Hv. unfold end_of in Hv. do 3 (destruct e as [|e]; [cbn in Hv; injection Hv as <-; destruct s; reflexivity|]).
    cbn in Hv. destruct e; discriminate.
  - assert (L2 : linked (wm_cells m) 0 2) by (apply (linked_step _ 0 2 2 2%nat true); [reflexivity|reflexivity|constructor]).
    intros e v Hv. unfold end_of in Hv. do 3 (destruct e as [|e]; [cbn in Hv; injection Hv as <-; first [exact L2|constructor]|]).
    cbn in Hv. destruct e; discriminate.
Qed.
(** The number that closes a loop may be that of no vertex line: an edge to a missing vertex is then created. *)
Theorem C13_pl_loop_missing_vertex_refuted :
  exists (m : wmesh ExNum (Z * Z)) (around : Z -> list (nat * bool)) text,
    curve_ok (wm_cells m) around (List.length (wm_points m)) /\ savable m /\
    write_pl around m = Ok text /\ read_pl ExNum text = UB.
Proof.
  exists (mkWmesh (F:=ExNum) None [(9, 9, 9); (0, 0, 0); (1, 0, 0); (0, 1, 0)] [(3, 1); (1, 2); (2, 3)] []), (by_edge [(3, 1); (1, 2); (2, 3)]). eexists.
  split; [apply by_edge_ok; repeat (apply Forall_cons; [cbn; lia|]); constructor|].
  split; [split; [constructor|cbn; lia]|]. split; [reflexivity|]. apply is_UB_ok. vm_compute. reflexivity.
Qed.
Print Assumptions C13_pl_loop_missing_vertex_refuted.

(** ** C14 *)

(** The name and the attributes are never kept: this holds of every curve that C12 covers. *)
Theorem C14_pl_name_attributes_lost :
  forall (F : Num) (m : wmesh F (Z * Z)) (around : Z -> list (nat * bool)),
    num_ok F -> curve_ok (wm_cells m) around (List.length (wm_points m)) -> savable m ->
    no_loop (wm_cells m) around -> wm_cells m <> [] ->
    exists text m', write_pl around m = Ok text /\ read_pl F text = Ok m' /\
      m_name m' = Some (lit "edged_curve_name") /\ m_attrs m' = [].
Proof.
  intros F m around H1 H2 H3 H4 H5. destruct (pl_roundtrip F m around H1 H2 H3 (or_introl H4) H5) as (t & m' & o & P1 & P2 & _ & _ & _ & P6 & P7).
  exists t, m'. auto.
Qed.
Print Assumptions C14_pl_name_attributes_lost.
(** C14 is false: a name, an attribute and a vertex without edge are lost. *)
Theorem C14_pl_vertices_refuted :
  exists (m : wmesh ExNum (Z * Z)) (around : Z -> list (nat * bool)) text m' p n,
    curve_ok (wm_cells m) around (List.length (wm_points m)) /\ savable m /\
    write_pl around m = Ok text /\ read_pl ExNum text = Ok m' /\
    In p (wm_points m) /\ (forall p', reprinted ExNum p p' -> ~ In p' (m_points m')) /\
    wm_name m = Some n /\ m_name m' <> Some n /\
    (exists w, In w (wm_attrs m) /\ w_generic w = true) /\ m_attrs m' = [].
Proof.
  exists ex_open, (by_edge (wm_cells ex_open)).
  assert (E : match write_pl (by_edge (wm_cells ex_open)) ex_open with
    | Ok t => mesh_is zz_eqb (read_pl ExNum t) (Some (lit "edged_curve_name"))
        [(0, 0, 0); (10, 0, 0); (20, 0, 0); (20, 0, 0); (20, 5, 0); (20, 0, 0); (20, -5, 0)] [(0, 1); (1, 2); (3, 4); (5, 6)] []
    | _ => false end = true) by (vm_compute; reflexivity).
  destruct (write_pl (by_edge (wm_cells ex_open)) ex_open) as [t| | |]; try discriminate. apply mesh_is_ok in E; [|exact zz_eqb_ok].
  destruct E as (m' & E & E1 & E2 & E3 & E4). exists t, m', (7, 7, 7), (lit "my curve"). destruct ex_open_ok as (H1 & H2 & _).
  split; [exact H1|]. split; [exact H2|]. split; [reflexivity|]. split; [exact E|]. split; [cbn; auto 8|]. split.
  { intros [[x y] z] (R1 & R2 & R3). unfold reread_value in *. cbn [atod os_text ExNum] in *. rewrite zread_zshow in R1, R2, R3.
    injection R1 as <-. injection R2 as <-. injection R3 as <-. rewrite E2. cbn. intuition discriminate. }
  split; [reflexivity|]. split; [rewrite E1; discriminate|]. split; [eexists; split; [cbn; left; reflexivity|reflexivity]|].
  unfold attrs_of in E4. now destruct (m_attrs m').
Qed.
Print Assumptions C14_pl_vertices_refuted.
