(** * A loaded structural model (.ml) is consistent (C116). *)
From Coq Require Import ZArith List Lia Bool Ascii String Permutation.
From Verif Require Import Base Text GocadModel MeshModel TsModel MlModel MultiFacts ExNum ExCheck PropsGrammarMl PropsMlOut.
Import ListNotations.
Local Open Scope string_scope.
Local Open Scope list_scope.
Local Open Scope Z_scope.

(** ** Specification *)

(** The list has each of the numbers [0 .. n-1] exactly once and nothing else. *)
Definition each_once (l : list Z) (n : Z) : Prop := NoDup l /\ forall i, In i l <-> 0 <= i < n.
(** Every number of the list designates one of [n] components. *)
Definition designate (l : list Z) (n : Z) : Prop := forall i, In i l -> 0 <= i < n.
(** Every triangle joins vertices of the mesh. *)
Definition closed_mesh {F} (m : mesh F tri) : Prop :=
  forall a b c, In (a, b, c) (m_cells m) -> 0 <= a < lenz (m_points m) /\ 0 <= b < lenz (m_points m) /\ 0 <= c < lenz (m_points m).

(** ** Components *)
Definition faces_of (st : MlSt) : list Z := flat_map tm_faces (i_tsurfs st).
Record sound (st : MlSt) : Prop := mkSound {
  so_faces : Permutation (faces_of st) (rangez 0 (List.length (i_surfaces st)));
  so_blocks : forall b, In b (i_blocks st) -> designate (bi_boundaries b) (lenz (i_surfaces st)) /\ designate (bi_internals b) (lenz (i_surfaces st));
  so_units : forall u, In u (i_units st ++ i_fblocks st) -> designate (snd u) (lenz (i_blocks st))
}.

Lemma lenz_app {A} (a b : list A) : lenz (a ++ b) = lenz a + lenz b.
Proof. unfold lenz. rewrite app_length. lia. Qed.
Lemma designate_more l n m : designate l n -> n <= m -> designate l m.
Proof. intros H L i I. apply H in I. lia. Qed.
Lemma add_tface_faces name f s ts : forall ts', add_tface name f s ts = Some ts' ->
  Permutation (flat_map tm_faces ts') (s :: flat_map tm_faces ts).
Proof.
  induction ts as [|t r IH]; intros ts'; cbn [add_tface]; [discriminate|]. destruct (beq (tm_name t) name).
  - intros H. injection H as <-. cbn [flat_map tm_faces]. rewrite <- app_assoc. cbn [app]. apply Permutation_sym, Permutation_middle.
  - destruct (add_tface name f s r) as [r'|]; [|discriminate]. cbn [option_map]. intros H. injection H as <-. cbn [flat_map].
    rewrite (IH _ eq_refl). apply Permutation_sym, Permutation_middle.
Qed.
Lemma topology_designates n numbers bd it : block_topology n numbers = Ok (bd, it) -> designate bd n /\ designate it n.
Proof.
  unfold block_topology. intros H. apply bind_ok in H as [la [_ H]]. destruct (forallb _ _) eqn:E; [|discriminate]. injection H as <- <-.
  rewrite forallb_forall in E. split; intros i I; apply in_map_iff in I as (e & <- & I); apply filter_In in I as [I _]; apply E in I;
    apply andb_true_iff in I as [I1 I2]; apply Z.leb_le in I1; apply Z.ltb_lt in I2; lia.
Qed.
Lemma unit_designates ns nb vs : designate (unit_blocks ns nb vs) nb.
Proof.
  intros i I. unfold unit_blocks in I. apply in_flat_map in I as (x & _ & I). cbv zeta in I. unfold wrap32 in I.
  destruct (_ =? 0) eqn:E1; [destruct I|]. destruct (_ <? nb) eqn:E2; [|destruct I]. destruct I as [<-|[]].
  apply Z.eqb_neq in E1. apply Z.ltb_lt in E2. pose proof (Z.mod_pos_bound (x - (1 + ns)) two32 ltac:(unfold two32; lia)). lia.
Qed.

Lemma component_line_sound st line rest st' r : sound st -> component_line st line rest = Ok (st', r) -> sound st'.
Proof.
  intros H E. destruct st as [ts ss un bs us fs]. unfold component_line in E. cbv zeta in E. apply bind_ok in E as [kw [_ E]].
  destruct H as [Hf Hb Hu]. unfold faces_of in Hf. cbn [i_tsurfs i_surfaces i_blocks i_units i_fblocks] in Hf, Hb, Hu.
  destruct (beq kw "TSURF").
  { injection E as <- <-. constructor; cbn; auto. unfold faces_of. cbn [i_tsurfs]. rewrite flat_map_app. cbn. rewrite app_nil_r. exact Hf. }
  destruct (beq kw "TFACE").
  { apply bind_ok in E as [f [_ E]]. destruct (add_tface _ _ _ _) as [ts'|] eqn:Et; [|discriminate]. injection E as <- <-.
    constructor; cbn [i_tsurfs i_surfaces i_blocks i_units i_fblocks].
    - unfold faces_of. cbn [i_tsurfs]. rewrite (add_tface_faces _ _ _ _ _ Et), app_length, Hf. cbn [List.length].
      rewrite Nat.add_1_r, rangez_S. apply Permutation_cons_append.
    - intros b I. destruct (Hb b I). split; (eapply designate_more; [eassumption|]); rewrite lenz_app; unfold lenz; lia.
    - exact Hu. }
  destruct (beq kw "REGION").
  { apply bind_ok in E as [a0 [_ E]]. destruct (beq _ "Universe").
    - apply bind_ok in E as [[vs r0] [_ E]]. apply bind_ok in E as [ns [_ E]]. injection E as <- <-. now constructor.
    - apply bind_ok in E as [[vs r0] [_ E]]. apply bind_ok in E as [ns [_ E]]. apply bind_ok in E as [[bd it] [Et E]]. injection E as <- <-.
      constructor; cbn [i_tsurfs i_surfaces i_blocks i_units i_fblocks].
      + exact Hf.
      + intros b I. apply in_app_iff in I as [I|[<-|[]]]; [now apply Hb|]. cbn. now apply topology_designates in Et.
      + intros u I. apply Hu in I. eapply designate_more; [exact I|]. rewrite lenz_app. unfold lenz. cbn. lia. }
  destruct (beq kw "LAYER").
  { apply bind_ok in E as [[vs r0] [_ E]]. injection E as <- <-. constructor; cbn [i_tsurfs i_surfaces i_blocks i_units i_fblocks]; auto.
    intros u I. rewrite <- app_assoc in I. apply in_app_iff in I as [I|[<-|I]]; [apply Hu; apply in_app_iff; auto|cbn; apply unit_designates|apply Hu; apply in_app_iff; auto]. }
  destruct (beq kw "FAULT_BLOCK").
  { apply bind_ok in E as [[vs r0] [_ E]]. injection E as <- <-. constructor; cbn [i_tsurfs i_surfaces i_blocks i_units i_fblocks]; auto.
    intros u I. rewrite app_assoc in I. apply in_app_iff in I as [I|[<-|[]]]; [now apply Hu|cbn; apply unit_designates]. }
  injection E as <- <-. now constructor.
Qed.
Lemma components_sound fuel : forall st ls st' r, sound st -> components_loop fuel st ls = Ok (st', r) -> sound st'.
Proof.
  induction fuel as [|fuel IH]; intros st ls st' r H E; [discriminate|]. cbn [components_loop] in E. destruct ls as [|l ls]; [discriminate|].
  destruct (starts_with l "END"); [now injection E as <- <-|]. apply bind_ok in E as [[st1 r1] [E1 E]].
  eapply IH; [|exact E]. eapply component_line_sound; eassumption.
Qed.
Lemma empty_sound : sound empty_st.
Proof. constructor; cbn; [constructor|tauto|tauto]. Qed.

(** ** Meshes *)
Lemma mapM_fsts {A B} (f : A -> res B) (g : A -> Z) (h : B -> Z) l : (forall a b, f a = Ok b -> h b = g a) ->
  forall bs, mapM f l = Ok bs -> map h bs = map g l.
Proof.
  intros H. induction l as [|a l IH]; intros bs E; cbn [mapM] in E; [injection E as <-; reflexivity|].
  apply bind_ok in E as [b [E1 E]]. apply bind_ok in E as [bs' [E2 E]]. injection E as <-. cbn [map]. now rewrite (H _ _ E1), (IH _ E2).
Qed.
Lemma build_tfaces_numbers {F} (d : TSurf F) faces ms : build_tfaces d faces = Ok ms -> map fst ms = faces.
Proof.
  unfold build_tfaces. intros E. apply (mapM_fsts _ snd fst) in E; [|intros a b Ea; apply bind_ok in Ea as [m [_ Ea]]; now injection Ea as <-]. rewrite E. clear E.
  generalize 0%nat. clear. induction faces as [|f faces IH]; intros k; [reflexivity|]. cbn [List.length seq combine map snd]. now rewrite IH.
Qed.
Lemma build_all_numbers {F} ts : forall s (ms : list (Z * mesh F tri)), build_all ts s = Ok ms -> map fst ms = flat_map tm_faces ts.
Proof.
  induction ts as [|t ts IH]; intros s ms E; cbn [build_all] in E; [now injection E as <-|]. apply bind_ok in E as [[o s1] [_ E]].
  destruct o as [d|]; [|discriminate]. apply bind_ok in E as [m1 [E1 E]]. apply bind_ok in E as [m2 [E2 E]]. injection E as <-.
  rewrite map_app. cbn [flat_map]. now rewrite (build_tfaces_numbers _ _ _ E1), (IH _ _ E2).
Qed.
Lemma create_triangle_closed {F} ts : forall (m m' : mesh F tri), closed_mesh m -> foldM create_triangle ts m = Ok m' -> closed_mesh m'.
Proof.
  induction ts as [|[[a b] c] ts IH]; intros m m' H E; cbn [foldM] in E; [now injection E as <-|]. apply bind_ok in E as [m1 [E1 E]].
  apply (IH m1 m'); [|exact E]. unfold create_triangle in E1. destruct (_ && _ && _) eqn:V; [|discriminate]. injection E1 as <-.
  unfold valid_vertex, nb_vertices in V. repeat (apply andb_true_iff in V as [V ?]). unfold closed_mesh, add_cell. cbn [m_points m_cells].
  intros x y z I. apply in_app_iff in I as [I|[I|[]]]; [now apply H|]. injection I as -> -> ->.
  repeat match goal with K : (_ && _) = true |- _ => apply andb_true_iff in K as [? K] end.
  repeat match goal with K : (_ <=? _) = true |- _ => apply Z.leb_le in K | K : (_ <? _) = true |- _ => apply Z.ltb_lt in K end. lia.
Qed.
Lemma create_points_cells {F C} ps : forall (m : mesh F C), m_cells (create_points ps m) = m_cells m.
Proof. unfold create_points. induction ps as [|p ps IH]; intros m; [reflexivity|]. cbn [fold_left]. now rewrite IH. Qed.
Lemma build_tface_closed {F} (d : TSurf F) i m : build_tface d i = Ok m -> closed_mesh m.
Proof.
  unfold build_tface. intros E. repeat (apply bind_ok in E as [? [_ E]]). apply create_triangle_closed in E; [exact E|].
  intros a b c I. rewrite create_points_cells in I. destruct (t_name d); destruct I.
Qed.
Lemma mapM_all {A B} (f : A -> res B) (P : B -> Prop) l : (forall a b, f a = Ok b -> P b) -> forall bs, mapM f l = Ok bs -> forall b, In b bs -> P b.
Proof.
  intros H. induction l as [|a l IH]; intros bs E b I; cbn [mapM] in E; [injection E as <-; destruct I|].
  apply bind_ok in E as [b' [E1 E]]. apply bind_ok in E as [bs' [E2 E]]. injection E as <-. destruct I as [<-|I]; [now apply (H a)|now apply (IH _ E2)].
Qed.
Lemma build_all_closed {F} ts : forall s (ms : list (Z * mesh F tri)), build_all ts s = Ok ms -> forall p, In p ms -> closed_mesh (snd p).
Proof.
  induction ts as [|t ts IH]; intros s ms E p I; cbn [build_all] in E; [injection E as <-; destruct I|]. apply bind_ok in E as [[o s1] [_ E]].
  destruct o as [d|]; [|discriminate]. apply bind_ok in E as [m1 [E1 E]]. apply bind_ok in E as [m2 [E2 E]]. injection E as <-.
  apply in_app_iff in I as [I|I]; [|now apply (IH _ _ E2)]. unfold build_tfaces in E1. revert p I.
  eapply (mapM_all _ (fun p => closed_mesh (snd p))); [|exact E1]. intros a b Ea. apply bind_ok in Ea as [m [Em Ea]]. injection Ea as <-. exact (build_tface_closed _ _ _ Em).
Qed.

(** ** Collections *)
Lemma create_tsurfs_parts st cs : create_tsurfs st = Ok cs -> exists tsurfs extra, cs = tsurfs ++ extra /\
  flat_map ci_surfaces tsurfs = faces_of st /\ map ci_name tsurfs = map tm_name (i_tsurfs st) /\
  (extra = [] \/ exists ss, extra = [mkCollIn KBoundary (lit "undefined boundary") ss] /\ ss <> [] /\
    ss = filter (fun s => negb (existsb (Z.eqb s) (i_universe st))) (flat_map ci_surfaces (filter is_boundary tsurfs))) /\
  (forall s, In s (flat_map ci_surfaces extra) <-> ~ In s (i_universe st) /\ exists c, In c tsurfs /\ ci_kind c = KBoundary /\ In s (ci_surfaces c)).
Proof.
  unfold create_tsurfs. intros E. apply bind_ok in E as [ts [E1 E]]. cbv zeta in E.
  assert (D : forall s, In s (filter (fun s => negb (existsb (Z.eqb s) (i_universe st))) (flat_map ci_surfaces (filter is_boundary ts))) <->
    ~ In s (i_universe st) /\ exists c, In c ts /\ ci_kind c = KBoundary /\ In s (ci_surfaces c)).
  { intros s. rewrite filter_In, in_flat_map, negb_true_iff. rewrite <- not_true_iff_false, existsb_exists. split.
    - intros [(c & Ic & Is) N]. apply filter_In in Ic as [Ic K]. split; [intros U; apply N; exists s; split; [exact U|apply Z.eqb_refl]|].
      exists c. split; [exact Ic|]. split; [|exact Is]. unfold is_boundary in K. destruct (ci_kind c); congruence.
    - intros [N (c & Ic & K & Is)]. split; [exists c; split; [|exact Is]; apply filter_In; split; [exact Ic|]; unfold is_boundary; now rewrite K|].
      intros (x & U & X). apply Z.eqb_eq in X as ->. now apply N. }
  assert (G : forall l (r : list CollIn), mapM (fun t => do k <- kind_of (tm_feature t); Ok (mkCollIn k (tm_name t) (tm_faces t))) l = Ok r ->
    flat_map ci_surfaces r = flat_map tm_faces l /\ map ci_name r = map tm_name l).
  { clear. induction l as [|t l IH]; intros r E; cbn [mapM] in E; [injection E as <-; split; reflexivity|]. apply bind_ok in E as [b [E1 E]]. apply bind_ok in E as [bs [E2 E]].
    injection E as <-. apply bind_ok in E1 as [k [_ E1]]. injection E1 as <-. destruct (IH _ E2) as [I1 I2]. cbn. rewrite I1, I2. auto. }
  destruct (G _ _ E1) as [G1 G2]. destruct (filter _ (flat_map _ _)) as [|x l] eqn:Ef.
  - injection E as <-. exists ts, []. rewrite app_nil_r. repeat (split; [auto; fail|]). exact D.
  - injection E as <-. exists ts, [mkCollIn KBoundary (lit "undefined boundary") (x :: l)]. repeat (split; [auto; fail|]). split.
    + right. exists (x :: l). split; [reflexivity|]. split; [discriminate|]. now rewrite Ef.
    + intros s. cbn [flat_map ci_surfaces]. rewrite app_nil_r. apply D.
Qed.

Lemma nodup_app_iff {A} (a b : list A) : NoDup (a ++ b) <-> NoDup a /\ NoDup b /\ forall x, In x a -> ~ In x b.
Proof.
  induction a as [|y a IH]; cbn [app].
  - split; [intros H; repeat split; [constructor|assumption|intros x []]|tauto].
  - rewrite !NoDup_cons_iff, IH, in_app_iff. cbn [In]. split.
    + intros (N & Ha & Hb & D). repeat split; [tauto|assumption..|]. intros x [<-|I]; [tauto|now apply D].
    + intros ((N & Ha) & Hb & D). repeat split; [|assumption..|]; [|intros x I; apply D; auto]. intros [I|I]; [tauto|]. now apply (D y); auto.
Qed.
Lemma nodup_part {A B} (g : A -> list B) (p : A -> bool) l : NoDup (flat_map g l) -> NoDup (flat_map g (filter p l)).
Proof.
  induction l as [|x l IH]; [auto|]. cbn [flat_map filter]. rewrite nodup_app_iff. intros (Ha & Hb & D). destruct (p x); [|auto].
  cbn [flat_map]. rewrite nodup_app_iff. split; [assumption|]. split; [auto|]. intros y I J. apply (D y I).
  apply in_flat_map in J as (k & K & J). apply filter_In in K as [K _]. apply in_flat_map. eauto.
Qed.
Lemma permuted_once l n : Permutation l (rangez 0 n) -> each_once l (Z.of_nat n).
Proof.
  intros H. split.
  - apply (Permutation_NoDup (Permutation_sym H)). clear H. generalize 0. induction n as [|n IH]; intros z; cbn [rangez]; constructor; [|apply IH].
    rewrite in_rangez. lia.
  - intros i. rewrite H, in_rangez. lia.
Qed.

(** ** The theorems.  [read_ml F text = Ok out] for any file whatsoever. *)
Section Loaded.
Context (F : Num) (text : bytes) (out : MlIn F) (L : read_ml F text = Ok out).

Lemma loaded_state : exists st s3, sound st /\ o_surfaces out = i_surfaces st /\ o_blocks out = i_blocks st /\ o_units out = i_units st /\ o_fblocks out = i_fblocks st /\
  create_tsurfs st = Ok (o_colls out) /\ build_all (i_tsurfs st) s3 = Ok (o_meshes out).
Proof.
  unfold read_ml in L. destruct (goto_if _ _) as [[l|] s1]; [|discriminate]. apply bind_ok in L as [[title s2] [_ E]]. apply bind_ok in E as [[c s3] [_ E]].
  apply bind_ok in E as [[st r] [Es E]]. apply bind_ok in E as [cs [Ec E]]. apply bind_ok in E as [ms [Em E]]. injection E as <-.
  exists st, (mkStream r (nl s3)). cbn. repeat (split; [auto; fail|]). split; [|auto 10]. eapply components_sound; [exact empty_sound|exact Es].
Qed.

(** Every surface has exactly one mesh, whose triangles join its vertices, and is in exactly one of the collections made from the TSURF
    lines.  The only other collection is the undefined boundary; its surfaces are already in a boundary. *)
Theorem C116_surfaces :
  each_once (map fst (o_meshes out)) (lenz (o_surfaces out)) /\
  (forall s m, In (s, m) (o_meshes out) -> closed_mesh m) /\
  exists tsurfs extra, o_colls out = tsurfs ++ extra /\ each_once (flat_map ci_surfaces tsurfs) (lenz (o_surfaces out)) /\
    map fst (o_meshes out) = flat_map ci_surfaces tsurfs /\
    (extra = [] \/ exists ss, extra = [mkCollIn KBoundary (lit "undefined boundary") ss] /\ ss <> [] /\ NoDup ss /\
       forall s, In s ss -> exists c, In c tsurfs /\ ci_kind c = KBoundary /\ In s (ci_surfaces c)).
Proof.
  destruct loaded_state as (st & s3 & [Hf _ _] & E1 & _ & _ & _ & Ec & Em). pose proof (build_all_numbers _ _ _ Em) as N. fold (faces_of st) in N.
  pose proof (permuted_once _ _ Hf) as O. rewrite E1. split; [rewrite N; exact O|]. split; [intros s m I; exact (build_all_closed _ _ _ Em _ I)|].
  pose proof (create_tsurfs_parts _ _ Ec) as (tsurfs & extra & Eo & P1 & _ & P2 & P3). exists tsurfs, extra. split; [exact Eo|]. split; [rewrite P1; exact O|].
  split; [congruence|]. destruct P2 as [->|(ss & -> & Hn & S0)]; [now left|]. right. exists ss. split; [reflexivity|]. split; [exact Hn|]. split.
  - rewrite S0. apply NoDup_filter. assert (ND : NoDup (flat_map ci_surfaces tsurfs)) by (rewrite P1; apply O). clear - ND.
    now apply nodup_part.
  - intros s I. destruct (P3 s) as [P3' _]. destruct P3' as [_ P3']; [cbn; rewrite app_nil_r; exact I|]. exact P3'.
Qed.

(** The surfaces of the blocks and of the collections and the blocks of the units and fault blocks exist. *)
Theorem C116_relations :
  (forall c, In c (o_colls out) -> designate (ci_surfaces c) (lenz (o_surfaces out))) /\
  (forall b, In b (o_blocks out) -> designate (bi_boundaries b) (lenz (o_surfaces out)) /\ designate (bi_internals b) (lenz (o_surfaces out))) /\
  (forall u, In u (o_units out) -> designate (snd u) (lenz (o_blocks out))) /\
  (forall u, In u (o_fblocks out) -> designate (snd u) (lenz (o_blocks out))).
Proof.
  destruct C116_surfaces as (_ & _ & tsurfs & extra & Ec & [_ O] & _ & X).
  destruct loaded_state as (st & s3 & [_ Hb Hu] & E1 & E2 & E3 & E4 & _). split; [|split; [|split]].
  - assert (T : forall c, In c tsurfs -> designate (ci_surfaces c) (lenz (o_surfaces out))).
    { intros c I i J. apply O. apply in_flat_map. eauto. }
    intros c I. rewrite Ec in I. apply in_app_iff in I as [I|I]; [now apply T|]. destruct X as [->|(ss & -> & _ & _ & X)]; [destruct I|].
    destruct I as [<-|[]]. cbn [ci_surfaces]. intros i J. destruct (X _ J) as (c & Ic & _ & Ii). exact (T c Ic i Ii).
  - rewrite E2, E1. exact Hb.
  - rewrite E3, E2. intros u I. apply Hu, in_app_iff. now left.
  - rewrite E4, E2. intros u I. apply Hu, in_app_iff. now right.
Qed.
End Loaded.
Print Assumptions C116_surfaces.
Print Assumptions C116_relations.

(** A surface may be at the same time on the boundary of a block and inside it: its number is given three times. *)
Definition thrice : bytes := ml_with (two_faces ++ [lit "REGION 3 b"; lit "1 1 1 2 0"]) (ml_object (ml_triangle ++ [lit "TFACE"; lit "VRTX 4 0 0 0"])).
Theorem C116_disjoint_refuted : exists text out b s, read_ml ExNum text = Ok out /\ In b (o_blocks out) /\ In s (bi_boundaries b) /\ In s (bi_internals b).
Proof.
  assert (H : match read_ml ExNum thrice with Ok m => leqb (leqb Z.eqb) (map bi_boundaries (o_blocks m)) [[0; 1]] && leqb (leqb Z.eqb) (map bi_internals (o_blocks m)) [[0]] | _ => false end = true) by (vm_compute; reflexivity).
  exists thrice. destruct (read_ml ExNum thrice) as [m| | |]; try discriminate. apply andb_true_iff in H as [H1 H2].
  pose proof (fun a b => leqb_ok (leqb Z.eqb) (fun x y => leqb_ok Z.eqb (fun u v => proj1 (Z.eqb_eq u v)) x y) a b) as K. apply K in H1, H2.
  destruct (o_blocks m) as [|b r] eqn:E; [discriminate|]. exists m, b, 0. cbn [map] in H1, H2. inversion H1 as [[H3 H4]]. inversion H2 as [[H5 H6]].
  split; [reflexivity|]. rewrite E, H3, H5. cbn. auto.
Qed.
Print Assumptions C116_disjoint_refuted.

(** A file with two TSURF of two surfaces, an undefined boundary, a block, a unit and a fault block. *)
Example C116_example : exists out, read_ml ExNum (unlines ex_ml) = Ok out /\ lenz (o_surfaces out) = 4 /\ List.length (o_blocks out) = 1%nat /\
  map ci_surfaces (o_colls out) = [[0; 1]; [2; 3]; [3]] /\ map snd (o_units out) = [[0]].
Proof.
  assert (H : match read_ml ExNum (unlines ex_ml) with Ok m => (lenz (o_surfaces m) =? 4) && Nat.eqb (List.length (o_blocks m)) 1 &&
    leqb (leqb Z.eqb) (map ci_surfaces (o_colls m)) [[0; 1]; [2; 3]; [3]] && leqb (leqb Z.eqb) (map snd (o_units m)) [[0]] | _ => false end = true) by (vm_compute; reflexivity).
  destruct (read_ml ExNum (unlines ex_ml)) as [m| | |]; try discriminate. exists m.
  apply andb_true_iff in H as [H H4]. apply andb_true_iff in H as [H H3]. apply andb_true_iff in H as [H1 H2].
  pose proof (fun a b => leqb_ok (leqb Z.eqb) (fun x y => leqb_ok Z.eqb (fun u v => proj1 (Z.eqb_eq u v)) x y) a b) as K. apply K in H3, H4.
  apply Z.eqb_eq in H1. apply Nat.eqb_eq in H2. auto.
Qed.
