(** * The .lso reader on the files of GrammarLso.v. *)
From Coq Require Import ZArith List Lia Bool Ascii String.
From Verif Require Import Base Text TextFacts Spec GocadModel GocadFacts MeshModel TsModel TsFacts LsoModel LsoFacts LsoRead LsoRound Grammar GrammarFacts GrammarLso.
Import ListNotations.
Local Open Scope string_scope.
Local Open Scope list_scope.
Local Open Scope Z_scope.

(** ** Rows of values *)
Definition col {A} (rows : list (list (list A))) (j : nat) : list A := List.concat (map (fun r => nth j r []) rows).
Definition cols {A} (n : nat) (rows : list (list (list A))) : list (list A) := map (col rows) (seq 0 n).
Lemma cols_length {A} n (rows : list (list (list A))) : List.length (cols n rows) = n.
Proof. unfold cols. now rewrite map_length, seq_length. Qed.
Lemma cols_snoc {A} n (rows : list (list (list A))) r : List.length r = n -> add_row (cols n rows) r = cols n (rows ++ [r]).
Proof.
  intros H. unfold cols, add_row.
  assert (E : r = map (fun j => nth j r []) (seq 0 n)).
  { rewrite <- H. clear. induction r as [|a l IH]; [reflexivity|]. cbn [List.length seq map nth]. f_equal. rewrite IH at 1.
    rewrite <- seq_shift, map_map. reflexivity. }
  rewrite E at 1. clear. induction (seq 0 n) as [|j l IH]; cbn [map combine]; [reflexivity|]. rewrite IH. cbn [fst snd].
  f_equal. unfold col. rewrite map_app, concat_app. cbn. now rewrite app_nil_r.
Qed.
Lemma cols_nil {A} n (names : list bytes) : List.length names = n -> map (fun _ => []) names = cols (A := A) n [].
Proof.
  intros <-. unfold cols, col. cbn [map List.concat]. generalize 0%nat. induction names as [|x t IH]; intros k; cbn; [reflexivity|].
  f_equal. apply IH.
Qed.

(** ** Attributes with any mapping *)
Lemma upd_mid {A} (a : list A) x b y : upd (a ++ x :: b) (List.length a) y = a ++ y :: b.
Proof. induction a as [|z a IH]; cbn; [reflexivity|]. now rewrite IH. Qed.
Lemma fill_attr_map {V} (vals : list V) e d mapping rows : forall done old rest,
  Forall2 (fun k row => attr_row vals e d k = Ok row) (skipn (List.length done) mapping) rows -> List.length old = List.length rows ->
  fill_attr vals e d mapping (List.length done) (List.length rows) (done ++ old ++ rest) = Ok (done ++ rows ++ rest).
Proof.
  induction rows as [|row rows IH]; intros done old rest H Hl.
  - destruct old; [reflexivity|discriminate].
  - destruct old as [|x old]; [discriminate|]. inversion H as [|k row' ks rows' H1 H2 Ek]; subst. cbn [List.length fill_attr].
    assert (N : nth_error mapping (List.length done) = Some k).
    { clear -Ek. revert Ek. generalize (List.length done). induction mapping as [|m mapping IH]; intros [|n] E; cbn in *; try discriminate; [congruence|now apply IH]. }
    unfold idx. rewrite N. cbn [bind]. rewrite H1. cbn [bind app]. rewrite setz_len by (rewrite app_length; cbn [List.length]; lia).
    rewrite Nat2Z.id, upd_mid. cbn [bind].
    specialize (IH (done ++ [row]) old rest). rewrite app_length in IH. cbn [List.length] in IH. rewrite Nat.add_1_r in IH.
    rewrite <- !app_assoc in IH. cbn [app] in IH. rewrite IH; [reflexivity| |].
    + clear -H2 Ek. replace (skipn (S (List.length done)) mapping) with ks; [assumption|].
      revert Ek. generalize (List.length done). induction mapping as [|m mapping IH]; intros [|n] E; cbn in *; try discriminate; [congruence|now apply IH].
    + cbn in Hl. lia.
Qed.
(** Values of property [k] for the elements of [mapping], then the default. *)
Definition mapped {F} (rows : list (list (list (num F)))) (k : nat) (mapping : list nat) : list (list (num F)) :=
  map (fun i => nth k (nth i rows []) []) mapping.
Fixpoint attrs_mapped {F} (rows : list (list (list (num F)))) (mapping : list nat) (count : nat) (k : nat) (ps : list (property F)) : list (bytes * attr (num F)) :=
  match ps with
  | [] => []
  | p :: r => let d := repeat (pr_none p) (Z.to_nat (pr_size p)) in
              (pr_name p, mkAttr (attr_type (pr_size p)) d (mapped rows k mapping ++ repeat d (count - List.length mapping)))
              :: attrs_mapped rows mapping count (S k) r
  end.
Lemma attrs_mapped_names {F} (rows : list (list (list (num F)))) mapping count ps : forall k, map fst (attrs_mapped rows mapping count k ps) = map pr_name ps.
Proof. induction ps as [|p r IH]; intros k; cbn [attrs_mapped map fst]; [reflexivity|]. now rewrite IH. Qed.
Lemma attrs_mapped_nth {F} (rows : list (list (list (num F)))) mapping count ps : forall k j p, nth_error ps j = Some p ->
  exists d, In (pr_name p, mkAttr (attr_type (pr_size p)) d (mapped rows (k + j) mapping ++ repeat d (count - List.length mapping))) (attrs_mapped rows mapping count k ps).
Proof.
  induction ps as [|q r IH]; intros k j p H; [now destruct j|]. destruct j as [|j]; cbn [nth_error attrs_mapped] in *.
  - injection H as ->. rewrite Nat.add_0_r. eexists. left. reflexivity.
  - replace (k + S j)%nat with (S k + j)%nat by lia. destruct (IH (S k) j p H) as [d Hd]. exists d. now right.
Qed.
(** The rows have values for the properties [ps] at the ranks [k], [k + 1]... *)
Definition rows_valued {F} (rows : list (list (list (num F)))) (k : nat) (ps : list (property F)) : Prop :=
  forall j p, nth_error ps j = Some p -> Forall (fun r => Z.of_nat (List.length (nth (k + j) r [])) = pr_size p) rows.
Lemma make_columns {F} vertices (rows : list (list (list (num F)))) ps count nb mapping : small_sizes ps ->
  (List.length mapping <= count)%nat -> List.length mapping = nb -> Forall (fun i => i < List.length rows)%nat mapping ->
  forall k done, NoDup (map fst done ++ map pr_name ps) ->
  (vertices = true -> Forall (fun p => pr_name p <> lit "points") ps) -> rows_valued rows k ps ->
  make_attributes vertices count (map pr_name ps) (map pr_size ps) (map pr_none ps) (map (col rows) (seq k (List.length ps)))
    nb mapping done = Ok (done ++ attrs_mapped rows mapping count k ps).
Proof.
  intros Hs Hc Hnb Hm. induction Hs as [|p ps Hs1 Hs IH]; intros k done Hn Hw Hv.
  - cbn [map make_attributes attrs_mapped]. now rewrite app_nil_r.
  - cbn [map] in Hn.
    assert (Hnin : ~ In (pr_name p) (map fst done)).
    { apply NoDup_remove_2 in Hn. intros Hi. apply Hn. apply in_or_app. auto. }
    cbn [map List.length seq make_attributes]. cbv zeta. unfold find_or_create_in.
    assert (W : vertices && beq (pr_name p) (lit "points") = false).
    { destruct vertices; [|reflexivity]. cbn [andb]. apply beq_neq. exact (Forall_inv (Hw eq_refl)). }
    rewrite W. rewrite find_attr_none by assumption. cbn [bind a_vals a_type a_def].
    pose proof (Hv 0%nat p eq_refl) as Hv0. rewrite Nat.add_0_r in Hv0.
    pose proof (fill_attr_map (col rows k) (pr_size p) (repeat (pr_none p) (Z.to_nat (pr_size p))) mapping (mapped rows k mapping) []
      (repeat (repeat (pr_none p) (Z.to_nat (pr_size p))) (List.length mapping))
      (repeat (repeat (pr_none p) (Z.to_nat (pr_size p))) (count - List.length mapping))) as E.
    cbn [List.length app skipn] in E. rewrite <- repeat_app in E. replace (List.length mapping + (count - List.length mapping))%nat with count in E by lia.
    assert (LM : List.length (mapped rows k mapping) = nb) by (unfold mapped; rewrite map_length; exact Hnb). rewrite LM in E. rewrite E.
    2:{ clear E LM Hnb Hc IH. unfold mapped. induction Hm as [|i m Hi Hm IHm]; cbn [map]; constructor; auto.
        unfold col. apply attr_row_chunk; auto.
        - apply Forall_map. exact Hv0.
        - apply repeat_length.
        - rewrite nth_error_map, (nth_error_nth' rows [] Hi). reflexivity. }
    2:{ rewrite repeat_length. exact Hnb. }
    cbn [bind]. rewrite replace_attr_new by assumption.
    rewrite IH.
    + cbn [attrs_mapped]. rewrite <- app_assoc. reflexivity.
    + rewrite map_app, <- app_assoc. exact Hn.
    + intros V. exact (Forall_inv_tail (Hw V)).
    + intros j q Hj. specialize (Hv (S j) q Hj). replace (S k + j)%nat with (k + S j)%nat by lia. exact Hv.
Qed.

(** ** Vertices *)
Section Vertices.
Context {F : Num} (up : bool) (crs : CRS) (h : PropHeader (num F)) (ps : list (property F)).
Hypothesis Hz : z_sign_positive crs = up.
Hypothesis Hh : head_of h ps.
Hypothesis Hs : small_sizes ps.

Lemma vertices_fold sv l b L stop r :
  Forall (fun x => contains x "VRTX" = true) L -> contains stop "VRTX" = false ->
  lso_vertices F crs h sv l b (L ++ stop :: r)
  = do sv' <- foldM (lso_vertex F crs h) (l :: L) sv; Ok (sv', stop, mkStream r b).
Proof.
  intros H Hst. revert sv l. induction H as [|x L Hx HL IH]; intros sv l.
  - cbn [app lso_vertices foldM]. rewrite Hst. destruct (lso_vertex F crs h sv l); reflexivity.
  - cbn [app lso_vertices]. rewrite Hx. cbn [foldM]. rewrite bind_assoc. apply bind_ext. intros sv' _. apply IH.
Qed.

(** The solid after the vertices [vs] and the copies [cs]. *)
Record solid_state (vs : list (vertex F)) (cs : list (Z * vertex F)) (sv : SolidV F) : Prop := {
  so_points : sv_points sv = map vx_point (vs ++ map snd cs);
  so_uid : sv_uid sv = rangez 0 (List.length vs) ++ map (fun c => fst c - 1) cs;
  so_map : lenz (sv_map sv) = lenz vs;
  so_vals : sv_vals sv = cols (List.length ps) (map vx_values (vs ++ map snd cs))
}.
Lemma original_not_shared l : starts "VRTX" l \/ starts "PVRTX" l -> starts_with l "SHARED" = false.
Proof.
  destruct l as [|c l]; [intros [H|H]; discriminate H|]. intros [H|H]; cbn [starts starts_with] in H; unfold starts in H; cbn [starts_with lit list_ascii_of_string] in H |- *;
  apply andb_true_iff in H as [H _]; apply Ascii.eqb_eq in H; subst c; reflexivity.
Qed.
Lemma vertex_step vs sv l v : solid_state vs [] sv -> original_line F up ps l v ->
  exists sv', lso_vertex F crs h sv l = Ok sv' /\ solid_state (vs ++ [v]) [] sv'.
Proof.
  intros [S1 S2 S3 S4] [Hst (k & tn & tx & ty & tz & texts & x & y & z & E & Hk & N & X & Y & Z0 & P & V)].
  destruct Hh as (Hn & He & Hd). unfold lso_vertex. rewrite original_not_shared by assumption. rewrite E.
  unfold vrtx_point. cbn [idx nth_error bind]. rewrite X, Y, Z0. cbn [bind]. rewrite S4.
  rewrite (values_read F ps _ _ _ 5 texts (vx_values v)) by (auto; rewrite cols_length; reflexivity).
  cbn [bind]. eexists. split; [reflexivity|]. cbn [map] in *. rewrite app_nil_r in *. constructor; cbn [sv_points sv_uid sv_map sv_vals map]; rewrite ?app_nil_r.
  - rewrite S1, map_app. cbn. rewrite P. unfold signed. rewrite Hz. reflexivity.
  - rewrite S2, S3, app_length. cbn [List.length]. rewrite Nat.add_1_r, rangez_S. reflexivity.
  - rewrite !lenz_app, S3. reflexivity.
  - rewrite map_app. cbn [map]. apply cols_snoc. apply (values_length F ps texts _ V).
Qed.
Lemma copy_step vs cs sv l o v : solid_state vs cs sv -> copy_line F ps l o v ->
  map vx_number vs = rangez 1 (List.length vs) ->
  (exists w, In w vs /\ vx_number w = o /\ vx_point v = vx_point w) ->
  exists sv', lso_vertex F crs h sv l = Ok sv' /\ solid_state vs (cs ++ [(o, v)]) sv'.
Proof.
  intros [S1 S2 S3 S4] [Hst (k & tn & ti & texts & E & N & I & V)] R (w & Hw & Ho & P).
  destruct Hh as (Hn & He & Hd). unfold lso_vertex.
  replace (starts_with l "SHARED") with true.
  2:{ symmetry. clear -Hst. unfold starts in Hst. 
      assert (G : forall a b, starts_with l (a ++ b) = true -> starts_with l a = true).
      { clear. revert l. intros l a. revert l. induction a as [|x a IH]; intros l b H; [destruct l; reflexivity|].
        destruct l as [|y l]; [discriminate|]. cbn [app starts_with] in *. apply andb_true_iff in H as [H1 H2]. rewrite H1. cbn. eapply IH; eassumption. }
      destruct Hst as [H|H]; [exact (G (lit "SHARED") (lit "VRTX") H)|exact (G (lit "SHARED") (lit "PVRTX") H)]. }
  apply in_nthz in Hw as [i Hi]. pose proof (nthz_range _ _ _ Hi) as Ri.
  assert (Eo : o = i + 1).
  { assert (H : nthz (map vx_number vs) i = Some o) by (rewrite LsoFacts.nthz_map, Hi; cbn; now rewrite Ho).
    rewrite R, nthz_rangez in H by (unfold lenz in Ri; lia). assert (1 + i = o) by congruence. lia. }
  pose proof (number_range _ _ I) as Ro.
  rewrite E. rewrite (tok_index_number 1 _ 2 ti o) by (first [reflexivity|exact I]). rewrite sub32_number by lia. cbn [bind].
  assert (Hp : nthz (sv_points sv) (o - 1) = Some (vx_point v)).
  { rewrite S1, map_app. apply GrammarFacts.nthz_app_l. rewrite LsoFacts.nthz_map. replace (o - 1) with i by lia. rewrite Hi. cbn. now rewrite P. }
  rewrite (proj2 (idxz_ok _ _ _) Hp). cbn [bind]. rewrite S4.
  rewrite (values_read F ps _ _ _ 3 texts (vx_values v)) by (auto; rewrite cols_length; reflexivity). cbn [bind].
  destruct (nthz_in_range (sv_map sv) (o - 1)) as [lm Hl]; [unfold lenz in *; lia|]. rewrite (proj2 (idxz_ok _ _ _) Hl). cbn [bind].
  destruct (setz_total (sv_map sv) (o - 1) (lm ++ [lenz (sv_points sv)])) as [mp Hm]; [lia|]. rewrite Hm. cbn [bind].
  apply setz_nthz in Hm as (Lm & _). eexists. split; [reflexivity|]. constructor; cbn [sv_points sv_uid sv_map sv_vals].
  - rewrite S1, !map_app, app_assoc. reflexivity.
  - rewrite S2, !map_app, app_assoc. reflexivity.
  - lia.
  - rewrite cols_snoc by apply (values_length F ps texts _ V). rewrite !map_app, <- !app_assoc. reflexivity.
Qed.
Lemma foldM_app {A B} (f : B -> A -> res B) a b s : foldM f (a ++ b) s = do s' <- foldM f a s; foldM f b s'.
Proof. revert s. induction a as [|x a IH]; intros s; cbn [app foldM bind]; [reflexivity|]. rewrite bind_assoc. apply bind_ext. intros s' _. apply IH. Qed.
Lemma originals_fold L new : Forall2 (original_line F up ps) L new -> forall vs sv, solid_state vs [] sv ->
  exists sv', foldM (lso_vertex F crs h) L sv = Ok sv' /\ solid_state (vs ++ new) [] sv'.
Proof.
  induction 1 as [|l v L new H1 H2 IH]; intros vs sv H0; cbn [foldM].
  - exists sv. rewrite app_nil_r. auto.
  - destruct (vertex_step vs sv l v H0 H1) as (s1 & E1 & S1). rewrite E1. cbn [bind].
    destruct (IH (vs ++ [v]) s1 S1) as (s2 & E2 & S2). exists s2. rewrite <- app_assoc in S2. auto.
Qed.
Lemma copies_fold vs : map vx_number vs = rangez 1 (List.length vs) -> forall L new, Forall2 (fun l c => copy_line F ps l (fst c) (snd c)) L new ->
  Forall (fun c => exists v, In v vs /\ vx_number v = fst c /\ vx_point (snd c) = vx_point v) new -> forall cs sv, solid_state vs cs sv ->
  exists sv', foldM (lso_vertex F crs h) L sv = Ok sv' /\ solid_state vs (cs ++ new) sv'.
Proof.
  intros R. induction 1 as [|l [o v] L new H1 H2 IH]; intros HC cs sv H0; cbn [foldM].
  - exists sv. rewrite app_nil_r. auto.
  - inversion_clear HC as [|? ? HC1 HC2]. cbn [fst snd] in *.
    destruct (copy_step vs cs sv l o v H0 H1 R HC1) as (s1 & E1 & S1). rewrite E1. cbn [bind].
    destruct (IH HC2 (cs ++ [(o, v)]) s1 S1) as (s2 & E2 & S2). exists s2. rewrite <- app_assoc in S2. auto.
Qed.
Lemma rangez_prefix a n k : firstn n (rangez a (n + k)) = rangez a n.
Proof. rewrite rangez_app, firstn_app, rangez_length, Nat.sub_diag. cbn [firstn]. rewrite app_nil_r, <- (rangez_length a n) at 1. apply firstn_all. Qed.
Lemma numbers_prefix (vs : list (vertex F)) w : map vx_number (vs ++ w) = rangez 1 (List.length (vs ++ w)) ->
  map vx_number vs = rangez 1 (List.length vs).
Proof.
  intros H. apply (f_equal (firstn (List.length vs))) in H. rewrite map_app, firstn_app, map_length, Nat.sub_diag in H. cbn [firstn] in H.
  rewrite app_nil_r, app_length, rangez_prefix in H. rewrite <- H. rewrite <- (map_length vx_number vs). symmetry. apply firstn_all.
Qed.
Lemma starts_contains l kw : starts kw l -> contains l kw = true.
Proof. intros H. unfold contains. destruct l; cbn [after_first]; unfold starts in H; rewrite H; reflexivity. Qed.
Lemma starts_split kw : forall l, starts kw l -> exists r, l = kw ++ r.
Proof.
  unfold starts. induction kw as [|c kw IH]; intros l H; [now exists l|]. destruct l as [|d l]; [discriminate|]. cbn [starts_with] in H.
  apply andb_true_iff in H as [H1 H2]. apply Ascii.eqb_eq in H1. subst d. destruct (IH l H2) as [r ->]. now exists r.
Qed.
Lemma vertex_section b ls vs cs r stop : solid_vertices F up ps ls vs cs -> contains stop "VRTX" = false ->
  exists l L sv, ls = l :: L /\ (starts "VRTX" l \/ starts "PVRTX" l) /\ solid_state vs cs sv /\ solid_inv sv /\
    lso_vertices F crs h (mkSolidV [] [] [] (map (fun _ => []) (p_names h))) l b (L ++ stop :: r) = Ok (sv, stop, mkStream r b).
Proof.
  intros (l1 & l2 & -> & Hne & H1 & H2 & H3 & H4) Hst.
  set (sv0 := mkSolidV [] [] [] (map (fun _ => []) (p_names h)) : SolidV F).
  assert (S0 : solid_state [] [] sv0).
  { constructor; try reflexivity. cbn. destruct Hh as (-> & _). apply cols_nil. apply map_length. }
  destruct (originals_fold l1 vs H1 [] sv0 S0) as (s1 & E1 & S1). cbn [app] in S1.
  destruct (copies_fold vs (numbers_prefix vs _ H4) l2 cs H2 H3 [] s1 S1) as (s2 & E2 & S2). cbn [app] in S2.
  assert (HC : Forall (fun x => contains x "VRTX" = true) (l1 ++ l2)).
  { assert (G : forall a (l : bytes), contains l "VRTX" = true -> contains (a ++ l) "VRTX" = true) by (induction a; intros; cbn [app]; auto using contains_skip).
    assert (K : forall x, starts "VRTX" x \/ starts "PVRTX" x \/ starts "SHAREDVRTX" x \/ starts "SHAREDPVRTX" x -> contains x "VRTX" = true).
    { intros x [H|[H|[H|H]]]; apply starts_split in H as [t ->].
      - apply contains_prefix.
      - exact (G (lit "P") _ (contains_prefix (lit "VRTX") t)).
      - exact (G (lit "SHARED") _ (contains_prefix (lit "VRTX") t)).
      - exact (G (lit "SHAREDP") _ (contains_prefix (lit "VRTX") t)). }
    apply Forall_app. split.
    - clear -H1 K. induction H1 as [|x v l vs [Hx _] H IH]; constructor; [apply K; tauto|assumption].
    - clear -H2 K. induction H2 as [|x v l vs [Hx _] H IH]; constructor; [apply K; tauto|assumption]. }
  destruct H1 as [|l v L vs' Hl HL]; [congruence|]. exists l, (L ++ l2), s2. split; [reflexivity|]. split; [exact (proj1 Hl)|]. split; [assumption|].
  assert (E : foldM (lso_vertex F crs h) (l :: L ++ l2) sv0 = Ok s2).
  { change (l :: L ++ l2) with ((l :: L) ++ l2). rewrite foldM_app, E1. exact E2. }
  split; [eapply lso_fold_inv; [|exact E]; apply empty_inv|].
  rewrite vertices_fold; [|now inversion HC|assumption]. fold sv0. rewrite E. reflexivity.
Qed.
End Vertices.

(** ** Indicators *)
Lemma indicators_read kind ls line r b : indicators kind ls -> starts_not (lit "BEGIN_" ++ kind ++ lit "_REGION_INDICATORS") line \/ ls <> [] ->
  exists l0 s0, ls ++ line :: r = l0 :: s0 /\ skip_indicators kind l0 (mkStream s0 b) = Ok (line, mkStream r b).
Proof.
  intros [->|(first & inner & last & -> & H1 & H2 & H3)] H.
  - destruct H as [H|H]; [|congruence]. exists line, r. split; [reflexivity|]. unfold skip_indicators. rewrite H. reflexivity.
  - eexists first, _. split; [cbn [app]; rewrite <- app_assoc; reflexivity|]. unfold skip_indicators. rewrite H1.
    cbn [app]. rewrite goto_keyword_first by assumption. reflexivity.
Qed.

(** ** Tetrahedra *)
Definition in_zero (t : quad) : quad := let '(a, b, c, d) := t in (a - 1, b - 1, c - 1, d - 1).
Definition tet_of {F} (c : cell F) : quad * bytes := (in_zero (c_corners c), c_block c).
Section Tetrahedra.
Context {F : Num} (h : PropHeader (num F)) (ps : list (property F)) (n : Z).
Hypothesis Hh : head_of h ps.
Hypothesis Hs : small_sizes ps.
Definition cells_state (cs : list (cell F)) : SolidT F := mkSolidT (map tet_of cs) (cols (List.length ps) (map c_values cs)).
Lemma cell_step cs l1 l2 c : cell_lines F ps [l1; l2] c -> Forall (fun v => 1 <= v <= n) (quad_list (c_corners c)) ->
  lso_tetra F h n (cells_state cs) l1 l2 = Ok (cells_state (cs ++ [c])).
Proof.
  intros (x1 & x2 & [= <- <-] & _ & (k & ta & tb & tc & td & texts & E & N & V) & w1 & w2 & more & E2) R.
  destruct c as [[[[a b] c] d] name vals]. cbn [c_corners c_block c_values quad_list] in *.
  inversion N as [|? ? ? ? Na N1]; subst. inversion N1 as [|? ? ? ? Nb N2]; subst. inversion N2 as [|? ? ? ? Nc N3]; subst. inversion N3 as [|? ? ? ? Nd N4]; subst.
  repeat match goal with H : Forall _ (_ :: _) |- _ => apply Forall_cons_iff in H as [? H] end.
  pose proof (number_range _ _ Na). pose proof (number_range _ _ Nb). pose proof (number_range _ _ Nc). pose proof (number_range _ _ Nd).
  destruct Hh as (Hn & He & Hd). unfold lso_tetra. rewrite E.
  rewrite (tok_index_number 1 _ 1 ta a) by (first [reflexivity|exact Na]). rewrite (tok_index_number 1 _ 2 tb b) by (first [reflexivity|exact Nb]).
  rewrite (tok_index_number 1 _ 3 tc c) by (first [reflexivity|exact Nc]). rewrite (tok_index_number 1 _ 4 td d) by (first [reflexivity|exact Nd]).
  rewrite !sub32_number by lia. cbn [bind].
  rewrite !(proj2 (Z.ltb_lt _ _)) by lia. cbn [andb]. unfold cells_state. cbn [st_vals st_tets].
  rewrite (values_read F ps _ _ _ 5 texts vals) by (auto; rewrite cols_length; reflexivity). cbn [bind].
  rewrite E2. cbn [idx nth_error bind]. f_equal. f_equal.
  - rewrite map_app. reflexivity.
  - rewrite map_app. cbn [map c_values]. apply cols_snoc. apply (values_length F ps texts _ V).
Qed.
Lemma cells_section b stop r : starts_not "TETRA" stop -> forall cl cs, Forall2 (cell_lines F ps) cl cs ->
  Forall (fun c => Forall (fun v => 1 <= v <= n) (quad_list (c_corners c))) cs -> cs <> [] ->
  forall done, exists l L, List.concat cl = l :: L /\ starts "TETRA" l /\
    lso_tetras F h n (cells_state done) l b (L ++ stop :: r) = Ok (cells_state (done ++ cs), stop, mkStream r b).
Proof.
  intros Hst cl cs H. induction H as [|x c cl cs Hx H IH]; intros HR Hne done; [congruence|].
  inversion_clear HR as [|? ? R1 R2]. pose proof Hx as (l1 & l2 & -> & S1 & _). exists l1, (l2 :: List.concat cl). split; [reflexivity|]. split; [assumption|].
  cbn [app lso_tetras]. rewrite (cell_step done l1 l2 c Hx R1). cbn [bind]. destruct cs as [|c' cs].
  - inversion H; subst. cbn [List.concat app]. rewrite Hst. reflexivity.
  - destruct (IH R2 ltac:(discriminate) (done ++ [c])) as (l & L & E & Sl & E2). rewrite E. cbn [app]. rewrite Sl. rewrite E2, <- app_assoc. reflexivity.
Qed.
End Tetrahedra.

(** ** Surfaces *)
Definition tri_zero (t : tri) : tri := let '(a, b, c) := t in (a - 1, b - 1, c - 1).
Section Surfaces.
Context {F : Num} (sv : SolidV F) (tets : list (quad * bytes)).
Definition positive_tri (t : tri) : Prop := Forall (fun v => 1 <= v) (tri_list t).
Lemma trgl_read s st l t : trgl_words l t -> positive_tri t -> lso_trgl F sv tets s st l = tri_step sv tets s st (tri_zero t).
Proof.
  destruct t as [[a b] c]. intros (ta & tb & tc & more & E & Na & Nb & Nc) R. cbn [fst snd] in *. unfold positive_tri in R. cbn [tri_list] in R.
  repeat match goal with H : Forall _ (_ :: _) |- _ => apply Forall_cons_iff in H as [? H] end.
  pose proof (number_range _ _ Na). pose proof (number_range _ _ Nb). pose proof (number_range _ _ Nc). unfold lso_trgl. rewrite E.
  rewrite (tok_index_number 1 _ 1 ta a) by (first [reflexivity|exact Na]). rewrite (tok_index_number 1 _ 2 tb b) by (first [reflexivity|exact Nb]).
  rewrite (tok_index_number 1 _ 3 tc c) by (first [reflexivity|exact Nc]). rewrite !sub32_number by lia. cbn [bind]. reflexivity.
Qed.
Lemma triangles_read s stop r b : starts_not "TRGL" stop -> forall lt T, Forall2 (fun l t => starts "TRGL" l /\ trgl_words l t) lt T -> Forall positive_tri T ->
  forall st line, lso_triangles F sv tets s st line b (lt ++ stop :: r)
  = do st' <- foldM (tri_step sv tets s) (map tri_zero T) st; Ok (st', stop, mkStream r b).
Proof.
  intros Hst lt T H. induction H as [|l t lt T [H1 H2] H IH]; intros HP st line; cbn [app lso_triangles map foldM bind]; [now rewrite Hst|].
  inversion_clear HP as [|? ? P1 P2]. rewrite H1. rewrite (trgl_read s st l t) by assumption. rewrite bind_assoc. apply bind_ext. intros st' _. now apply IH.
Qed.
Lemma starts_both kw kw' l : starts kw l -> starts_with kw' kw = false -> starts_with kw kw' = false -> starts_not kw' l.
Proof.
  unfold starts, starts_not. revert kw kw'. induction l as [|c l IH]; intros kw kw' H H1 H2.
  - destruct kw; [|discriminate]. destruct kw'; discriminate.
  - destruct kw as [|d kw]; [destruct kw'; discriminate|]. destruct kw' as [|e kw']; [discriminate|]. cbn [starts_with] in *.
    apply andb_true_iff in H as [Hd H]. apply Ascii.eqb_eq in Hd. subst d.
    destruct (Ascii.eqb e c) eqn:E; [|reflexivity]. cbn [andb]. apply Ascii.eqb_eq in E. subst e. rewrite Ascii.eqb_refl in H1. cbn [andb] in H1, H2. eapply IH; eassumption.
Qed.
Lemma faces_read name stop r b : starts_not "TFACE" stop -> starts_not "TRGL" stop -> forall fl fs, Forall2 face_text fl fs -> Forall (Forall positive_tri) fs ->
  forall fuel st, (List.length fs < fuel)%nat -> exists line ls, List.concat fl ++ stop :: r = line :: ls /\ starts_not "TRGL" line /\
  lso_tfaces F fuel sv tets name st line (mkStream ls b)
  = do st' <- foldM (load_face sv tets name) (map (map tri_zero) fs) st; Ok (st', stop, mkStream r b).
Proof.
  intros H1 H2 fl fs H. induction H as [|x T fl fs Hx H IH]; intros HP fuel st Hf; (destruct fuel as [|fuel]; [cbn in Hf; lia|]).
  - exists stop, r. split; [reflexivity|]. split; [assumption|]. cbn [lso_tfaces map foldM bind]. now rewrite H1.
  - inversion_clear HP as [|? ? P1 P2]. destruct Hx as (l0 & l1 & lt & -> & S0 & ST).
    assert (SN : starts_not "TRGL" l0) by (eapply starts_both; [exact S0| |]; reflexivity).
    exists l0, (l1 :: lt ++ List.concat fl ++ stop :: r). split; [cbn [List.concat app]; now rewrite <- app_assoc|]. split; [assumption|]. cbn [lso_tfaces]. rewrite S0. unfold getline. cbn [pending nl]. cbv iota beta. cbn [pending nl].
    cbn [List.length] in Hf. assert (Hf' : (List.length fs < fuel)%nat) by lia.
    cbn [map foldM]. unfold load_face at 1.
    assert (exists line ls, List.concat fl ++ stop :: r = line :: ls /\ starts_not "TRGL" line) as (line & ls & E & SL).
    { destruct (IH P2 fuel st Hf') as (line & ls & E & SL & _). eauto. }
    rewrite E.
    rewrite (triangles_read _ line ls b SL lt T ST P1). rewrite !bind_assoc. apply bind_ext. intros ts _. cbn [bind].
    match goal with |- lso_tfaces _ _ _ _ _ ?s _ _ = _ => destruct (IH P2 fuel s Hf') as (line' & ls' & E' & _ & E2) end.
    rewrite E in E'. injection E' as <- <-. exact E2.
Qed.
(** A horizon of the file, its vertices from 0. *)
Notation hor := (list (bytes * Z * Z)).
Definition load_horizon (x : SurfSt F * hor) (e : bytes * list (list tri)) : res (SurfSt F * hor) :=
  do st' <- foldM (load_face sv tets (fst e)) (map (map tri_zero) (snd e)) (fst x);
  Ok (st', snd x ++ [(fst e, lenz (ss_surfs (fst x)), lenz (ss_surfs st'))]).
Lemma horizons_read stop r b : starts_not "SURFACE" stop -> starts_not "TFACE" stop -> starts_not "TRGL" stop ->
  forall hl hs, Forall2 horizon_text hl hs -> Forall (fun h => Forall (Forall positive_tri) (snd h)) hs ->
  forall fuel st hs0, (List.length hs < fuel)%nat -> exists line ls, List.concat hl ++ stop :: r = line :: ls /\ starts_not "TRGL" line /\ starts_not "TFACE" line /\
  lso_surfaces F fuel sv tets st hs0 line (mkStream ls b)
  = do '(st', hs') <- foldM load_horizon hs (st, hs0); Ok (st', hs', stop, mkStream r b).
Proof.
  intros H0 H1 H2 hl hs H. induction H as [|x e hl hs Hx H IH]; intros HP fuel st hs0 Hf; (destruct fuel as [|fuel]; [cbn in Hf; lia|]).
  - exists stop, r. split; [reflexivity|]. split; [assumption|]. split; [assumption|]. cbn [lso_surfaces foldM bind]. now rewrite H0.
  - inversion_clear HP as [|? ? P1 P2]. destruct Hx as (l0 & fl & k & text & -> & S0 & E & En & HF).
    exists l0, (List.concat fl ++ List.concat hl ++ stop :: r). split; [cbn [List.concat app]; now rewrite <- app_assoc|].
    split; [eapply starts_both; [exact S0| |]; reflexivity|]. split; [eapply starts_both; [exact S0| |]; reflexivity|].
    cbn [List.length] in Hf. assert (Hf' : (List.length hs < fuel)%nat) by lia.
    assert (exists line ls, List.concat hl ++ stop :: r = line :: ls /\ starts_not "TRGL" line /\ starts_not "TFACE" line) as (line & ls & El & SL1 & SL2).
    { destruct (IH P2 fuel st hs0 Hf') as (line & ls & ? & ? & ? & _). eauto. }
    cbn [app lso_surfaces]. rewrite S0. rewrite E. cbn [tl]. rewrite read_name_normalise, <- En.
    rewrite El.
    assert (LF : (List.length (snd e) <= List.length (List.concat fl))%nat).
    { clear -HF. induction HF as [|y T fl fs Hy HF IH]; cbn; [lia|]. destruct Hy as (? & ? & ? & -> & _). rewrite app_length. cbn [List.length]. lia. }
    assert (exists l1 r1, List.concat fl ++ line :: ls = l1 :: r1) as [l1 [r1 E1]] by (destruct (List.concat fl); cbn [app]; eauto).
    rewrite E1. unfold getline. cbn [pending nl]. cbv iota beta. cbn [pending].
    destruct (faces_read (fst e) line ls b SL2 SL1 fl (snd e) HF P1 (S (S (List.length r1))) st) as (l2 & r2 & E2 & _ & E3).
    { apply (f_equal (@List.length _)) in E1. rewrite app_length in E1. cbn [List.length] in E1. lia. }
    rewrite E1 in E2. injection E2 as <- <-. rewrite E3. cbn [foldM]. unfold load_horizon at 1. cbn [fst snd]. rewrite !bind_assoc. apply bind_ext. intros st' _. cbn [bind].
    match goal with |- lso_surfaces _ _ _ _ ?s ?h _ _ = _ => destruct (IH P2 fuel s h Hf') as (line' & ls' & E' & _ & _ & E4) end.
    rewrite El in E'. injection E' as <- <-. exact E4.
Qed.
End Surfaces.

(** ** Blocks *)
Section Blocks.
Context {F : Num} (vh th : PropHeader (num F)) (sv : SolidV F) (st : SolidT F) (ss : SurfSt F).
Fixpoint make_blocks (names : list bytes) : res (list (LBlockR F) * bool) :=
  match names with
  | [] => Ok ([], false)
  | n :: r => do '(b, bad) <- build_block F vh th sv st ss n; do '(bs, bad') <- make_blocks r; Ok (b :: bs, bad || bad')
  end.
Lemma regions_read stop r b : starts_not "MODEL_REGION" stop -> forall rl names, Forall2 region_line rl names ->
  forall fuel, (List.length names < fuel)%nat -> exists line ls, rl ++ stop :: r = line :: ls /\
  lso_blocks F vh th fuel sv st ss line (mkStream ls b) = make_blocks names.
Proof.
  intros Hst rl names H. induction H as [|l n rl names [H1 (k & more & E)] H IH]; intros fuel Hf; (destruct fuel as [|fuel]; [cbn in Hf; lia|]).
  - exists stop, r. split; [reflexivity|]. cbn [lso_blocks make_blocks]. now rewrite Hst.
  - exists l, (rl ++ stop :: r). split; [reflexivity|]. cbn [List.length] in Hf. destruct (IH fuel ltac:(lia)) as (line & ls & El & E2).
    cbn [app lso_blocks make_blocks]. rewrite H1, E. cbn [idx nth_error bind]. apply bind_ext. intros [bl bad] _.
    rewrite El. unfold getline. cbn [pending nl]. cbv iota beta. rewrite E2. reflexivity.
Qed.
End Blocks.
