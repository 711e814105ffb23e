(** * A loaded solid (.lso) is consistent (C117). *)
From Coq Require Import ZArith List Lia Bool Ascii String.
From Verif Require Import Base Text TextFacts GocadModel MeshModel TsModel Spec GocadFacts TsFacts StreamFacts MultiFacts LsoModel LsoFacts LsoRead LsoRound LsoWhole LsoOut
  ExNum ExCheck PropsLso PropsLsoOut PropsLsoLines.
From Verif Require LsoRel LsoCount LsoTrip.
Import ListNotations.
Local Open Scope string_scope.
Local Open Scope list_scope.
Local Open Scope Z_scope.

(** ** Specification *)

(** A mesh of a surface or of a block: its points, the unique vertices of its vertices and all the corners of its cells.  Every vertex has
    a unique vertex of the model, every corner is a vertex and every vertex is a corner. *)
Definition sound_mesh {F} (nuv : Z) (points : list (point F)) (uv corners : list Z) : Prop :=
  List.length uv = List.length points /\ (forall u, In u uv -> 0 <= u < nuv) /\ (forall i, In i corners <-> 0 <= i < lenz points).
(** The horizons are consecutive intervals of surfaces from [a] to [b], whose surfaces bear their name. *)
Fixpoint tile {F} (surfs : list (LSurfR F)) (hs : list (bytes * Z * Z)) (a b : Z) : Prop :=
  match hs with
  | [] => a = b
  | (name, x, y) :: r => x = a /\ x <= y /\ (forall i s, x <= i < y -> nthz surfs i = Some s -> h_name s = name) /\ tile surfs r y b
  end.
(** In a run of vertex lines, the lines that copy another vertex come after those that give a point. *)
Definition copies_last (ls : list bytes) : Prop :=
  forall a l run x b, ls = a ++ l :: run ++ x :: b -> starts_with l "SHARED" = true -> Forall (fun y => contains y "VRTX" = true) run ->
    contains x "VRTX" = true -> starts_with x "SHARED" = true.
(** Every vertex of the mesh is at the position of its unique vertex. *)
Definition placed {F} (positions points : list (point F)) (uv : list Z) : Prop :=
  forall k u p, nth_error uv k = Some u -> nth_error points k = Some p -> nthz positions u = Some p.

(** ** Meshes *)
Section Meshes.
Context {F : Num} (sv : SolidV F).
Record tight (us : Used F) (corners : list Z) : Prop := mkTight {
  tg_points : List.length (us_points us) = List.length (us_seen us);
  tg_uv : List.length (us_uv us) = List.length (us_seen us);
  tg_corners : forall i, In i corners <-> 0 <= i < lenz (us_seen us);
  tg_pairs : forall u p, In (u, p) (combine (us_uv us) (us_points us)) -> In (u, p) (combine (sv_uid sv) (sv_points sv))
}.
Lemma combine_last {A B} (a : list A) (b : list B) x y : List.length a = List.length b -> combine (a ++ [x]) (b ++ [y]) = combine a b ++ [(x, y)].
Proof. revert b. induction a as [|z a IH]; destruct b as [|w b]; cbn; intros H; try discriminate; [reflexivity|]. rewrite IH by lia. reflexivity. Qed.
Lemma tight_none : tight no_vertex [].
Proof. constructor; cbn; try reflexivity; [|tauto]. unfold lenz. cbn. intros i. split; [tauto|lia]. Qed.
Lemma tight_use us c v us' i : tight us c -> use_vertex F sv us v = Ok (us', i) -> tight us' (c ++ [i]).
Proof.
  intros [H1 H2 H3 H4] E. unfold use_vertex in E. destruct (find_pos v 0 (us_seen us)) as [k|] eqn:Ef.
  - injection E as <- <-. apply find_pos_some in Ef as [Ef _]. rewrite Z.sub_0_r in Ef. apply nthz_range in Ef. constructor; auto.
    intros j. rewrite in_app_iff, H3. cbn [In]. split; [intros [?|[<-|[]]]; assumption|auto].
  - apply bind_ok in E as [p [Ep E]]. apply bind_ok in E as [u [Eu E]]. injection E as <- <-. apply idxz_ok in Ep, Eu.
    constructor; cbn [us_seen us_points us_uv].
    + rewrite !app_length. cbn. lia.
    + rewrite !app_length. cbn. lia.
    + intros j. rewrite in_app_iff, H3, lenz_app. change (lenz [v]) with 1. cbn [In]. pose proof (lenz_nonneg (us_seen us)). lia.
    + intros w q. rewrite combine_last by congruence. rewrite in_app_iff. intros [I|[I|[]]]; [auto|]. injection I as <- <-.
      unfold nthz in Ep, Eu. destruct (_ && _) in Ep; [|discriminate]. destruct (_ && _) in Eu; [|discriminate]. apply nth_error_In with (n := Z.to_nat v).
      revert Ep Eu. generalize (Z.to_nat v) as n, (sv_uid sv) as a, (sv_points sv) as b. clear.
      induction n as [|n IH]; intros [|x a] [|y b] Hp Hu; try discriminate; cbn in *; [congruence|auto].
Qed.
Lemma tight_tet us c t us' t' : tight us c -> use_tet F sv us t = Ok (us', t') -> tight us' (c ++ quad_list t').
Proof.
  intros H E. destruct t as [[[a b] d] e]. unfold use_tet in E. apply bind_ok in E as [[u1 i1] [E1 E]]. apply bind_ok in E as [[u2 i2] [E2 E]].
  apply bind_ok in E as [[u3 i3] [E3 E]]. apply bind_ok in E as [[u4 i4] [E4 E]]. injection E as <- <-.
  pose proof (tight_use _ _ _ _ _ (tight_use _ _ _ _ _ (tight_use _ _ _ _ _ (tight_use _ _ _ _ _ H E1) E2) E3) E4) as T. rewrite <- !app_assoc in T. exact T.
Qed.
Lemma tight_tets ts : forall us c us' ts', tight us c -> use_tets F sv us ts = Ok (us', ts') -> tight us' (c ++ flat_map quad_list ts').
Proof.
  induction ts as [|t ts IH]; intros us c us' ts' H E; cbn [use_tets] in E; [injection E as <- <-; cbn; now rewrite app_nil_r|].
  apply bind_ok in E as [[u1 t1] [E1 E]]. apply bind_ok in E as [[u2 r2] [E2 E]]. injection E as <- <-. cbn [flat_map]. rewrite app_assoc.
  eapply IH; [|exact E2]. eapply tight_tet; eassumption.
Qed.
Lemma tight_trgl tets s st l st' : tight (ts_used st) (flat_map tri_list (ts_tris st)) -> lso_trgl F sv tets s st l = Ok st' ->
  tight (ts_used st') (flat_map tri_list (ts_tris st')).
Proof.
  intros H E. unfold lso_trgl in E. apply bind_ok in E as [a [_ E]]. apply bind_ok in E as [[u1 i1] [E1 E]]. apply bind_ok in E as [b [_ E]].
  apply bind_ok in E as [[u2 i2] [E2 E]]. apply bind_ok in E as [c [_ E]]. apply bind_ok in E as [[u3 i3] [E3 E]]. apply bind_ok in E as [fs [_ E]].
  injection E as <-. cbn [ts_used ts_tris]. rewrite flat_map_app. cbn [flat_map tri_list app].
  pose proof (tight_use _ _ _ _ _ (tight_use _ _ _ _ _ (tight_use _ _ _ _ _ H E1) E2) E3) as T. rewrite <- !app_assoc in T. exact T.
Qed.
Lemma tight_triangles tets s ls : forall st line b st' line' s', tight (ts_used st) (flat_map tri_list (ts_tris st)) ->
  lso_triangles F sv tets s st line b ls = Ok (st', line', s') -> tight (ts_used st') (flat_map tri_list (ts_tris st')).
Proof.
  induction ls as [|l ls IH]; intros st line b st' line' s' H E; cbn [lso_triangles] in E; [now injection E as <- <- <-|].
  destruct (starts_with l "TRGL"); [|now injection E as <- <- <-]. apply bind_ok in E as [st1 [E1 E]]. eapply IH; [|exact E]. eapply tight_trgl; eassumption.
Qed.

(** What is known of the mesh of a surface or block. *)
Definition mesh_of (points : list (point F)) (uv corners : list Z) : Prop :=
  List.length uv = List.length points /\ (forall i, In i corners <-> 0 <= i < lenz points) /\
  forall u p, In (u, p) (combine uv points) -> In (u, p) (combine (sv_uid sv) (sv_points sv)).
Lemma tight_mesh us c : tight us c -> mesh_of (us_points us) (us_uv us) c.
Proof. intros [H1 H2 H3 H4]. split; [congruence|]. split; [|exact H4]. intros i. rewrite H3. unfold lenz. now rewrite H1. Qed.

(** ** Surfaces *)
Definition surf_ok (s : LSurfR F) : Prop := mesh_of (h_points s) (h_uv s) (flat_map tri_list (h_tris s)).
Lemma tfaces_sound tets name fuel : forall st line s st' line' s', lso_tfaces F fuel sv tets name st line s = Ok (st', line', s') ->
  Forall surf_ok (ss_surfs st) -> Forall surf_ok (ss_surfs st') /\ exists more, ss_surfs st' = ss_surfs st ++ more /\ Forall (fun x => h_name x = name) more.
Proof.
  induction fuel as [|fuel IH]; intros st line s st' line' s' E H; cbn [lso_tfaces] in E; [discriminate|].
  destruct (starts_with line "TFACE"); [|injection E as <- <- <-; split; [exact H|exists []; rewrite app_nil_r; auto]].
  destruct (getline line s) as [[g line1] s1]. apply bind_ok in E as [[[ts line2] s2] [E1 E]]. apply tight_triangles in E1; [|exact tight_none].
  apply IH in E.
  - destruct E as [E (more & Em & Hm)]. split; [exact E|]. cbn [ss_surfs] in Em. rewrite <- app_assoc in Em. eexists. split; [exact Em|]. cbn [app]. constructor; [reflexivity|exact Hm].
  - cbn [ss_surfs]. apply Forall_app. split; [exact H|]. constructor; [|constructor]. exact (tight_mesh _ _ E1).
Qed.
Lemma tile_more (surfs more : list (LSurfR F)) hs : forall a b, 0 <= a -> b <= lenz surfs -> tile surfs hs a b -> tile (surfs ++ more) hs a b /\ a <= b.
Proof.
  induction hs as [|[[n x] y] hs IH]; intros a b Ha L H; cbn [tile] in *; [split; [assumption|lia]|]. destruct H as (-> & Hxy & Hn & H).
  assert (Hy : y <= b) by (apply (IH y b); [lia|assumption|assumption]). destruct (IH y b ltac:(lia) L H) as [T _]. split; [|lia]. repeat split; auto.
  intros i s Hi Hs. apply (Hn i s Hi). destruct (nthz_in_range surfs i) as [s' Hs']; [unfold lenz in *; lia|]. pose proof (LsoFacts.nthz_app_l _ more _ _ Hs'). congruence.
Qed.
Lemma tile_snoc (surfs : list (LSurfR F)) hs name : forall a b c, 0 <= a -> tile surfs hs a b -> b <= c -> (forall i s, b <= i < c -> nthz surfs i = Some s -> h_name s = name) ->
  tile surfs (hs ++ [(name, b, c)]) a c.
Proof.
  induction hs as [|[[n x] y] hs IH]; intros a b c Ha H L Hn; cbn [tile app] in *; [subst; auto|]. destruct H as (-> & Hxy & Hn' & H). repeat split; auto. apply IH; auto. lia.
Qed.
Lemma surfaces_sound tets fuel : forall st hs line s st' hs' line' s', lso_surfaces F fuel sv tets st hs line s = Ok (st', hs', line', s') ->
  Forall surf_ok (ss_surfs st) -> tile (ss_surfs st) hs 0 (lenz (ss_surfs st)) ->
  Forall surf_ok (ss_surfs st') /\ tile (ss_surfs st') hs' 0 (lenz (ss_surfs st')).
Proof.
  induction fuel as [|fuel IH]; intros st hs line s st' hs' line' s' E H T; cbn [lso_surfaces] in E; [discriminate|].
  destruct (starts_with line "SURFACE"); [|injection E as <- <- <- <-; auto]. destruct (getline line s) as [[g line1] s1].
  apply bind_ok in E as [[[st1 line2] s2] [E1 E]]. apply tfaces_sound in E1 as [H1 (more & Em & Hm)]; [|exact H]. apply IH in E; auto.
  apply tile_snoc; [lia| |rewrite Em, lenz_app; pose proof (lenz_nonneg more); lia|].
  - rewrite Em. apply tile_more; auto; lia.
  - intros i x Hi Hx. rewrite Em in Hx. apply LsoWhole.nthz_app_inv in Hx. destruct Hx as [Hx|(j & _ & _ & Hx)]; [apply nthz_range in Hx; lia|]. apply nthz_in in Hx. rewrite Forall_forall in Hm. auto.
Qed.
End Meshes.

(** ** Vertices *)
Section Vertices.
Context {F : Num} (crs : CRS) (h : PropHeader (num F)).
(** Every vertex is where the vertex with the number of its unique vertex is. *)
Record stacked (sv : SolidV F) : Prop := mkStacked {
  sk_le : lenz (sv_map sv) <= lenz (sv_points sv);
  sk_at : forall k u p, nthz (sv_uid sv) k = Some u -> nthz (sv_points sv) k = Some p -> nthz (sv_points sv) u = Some p
}.
Lemma shared_stacked sv line sv' : solid_inv sv -> stacked sv -> starts_with line "SHARED" = true -> lso_vertex F crs h sv line = Ok sv' -> stacked sv'.
Proof.
  intros [L _ _] [H1 H2] Hs E. unfold lso_vertex in E. rewrite Hs in E. apply bind_ok in E as [u [_ E]]. apply bind_ok in E as [p [Ep E]].
  apply bind_ok in E as [vals [_ E]]. apply bind_ok in E as [l [_ E]]. apply bind_ok in E as [mp [Em E]]. injection E as <-. apply idxz_ok in Ep.
  apply setz_nthz in Em as [Em _]. constructor; cbn [sv_map sv_points sv_uid].
  - rewrite lenz_app, Em. change (lenz [p]) with 1. lia.
  - intros k w q Hk Hq. apply nthz_snoc in Hk as [Hk|[Hk ->]]; apply nthz_snoc in Hq as [Hq|[Hq1 Hq']].
    + apply LsoFacts.nthz_app_l. now apply (H2 k).
    + apply nthz_range in Hk. lia.
    + apply nthz_range in Hq. lia.
    + subst q. now apply LsoFacts.nthz_app_l.
Qed.
Lemma plain_stacked sv line sv' : solid_inv sv -> stacked sv -> lenz (sv_map sv) = lenz (sv_points sv) -> starts_with line "SHARED" = false ->
  lso_vertex F crs h sv line = Ok sv' -> stacked sv' /\ lenz (sv_map sv') = lenz (sv_points sv').
Proof.
  intros [L _ _] [H1 H2] HE Hs E. unfold lso_vertex in E. rewrite Hs in E. apply bind_ok in E as [p [_ E]]. apply bind_ok in E as [vals [_ E]]. injection E as <-.
  cbn [sv_map sv_points sv_uid]. split; [constructor; cbn [sv_map sv_points sv_uid]|].
  - rewrite !lenz_app. unfold lenz in *. cbn. lia.
  - intros k w q Hk Hq. apply nthz_snoc in Hk as [Hk|[Hk ->]]; apply nthz_snoc in Hq as [Hq|[Hq1 Hq']].
    + apply LsoFacts.nthz_app_l. now apply (H2 k).
    + apply nthz_range in Hk. lia.
    + apply nthz_range in Hq. lia.
    + subst q. rewrite HE. apply nthz_snoc. auto.
  - rewrite !lenz_app. unfold lenz in *. cbn. lia.
Qed.
Lemma vertices_inv ls : forall sv line b sv' line' s', lso_vertices F crs h sv line b ls = Ok (sv', line', s') -> solid_inv sv -> solid_inv sv'.
Proof.
  induction ls as [|l ls IH]; intros sv line b sv' line' s' E H; cbn [lso_vertices] in E; apply bind_ok in E as [s1 [E1 E]]; pose proof (lso_vertex_inv _ _ _ _ _ H E1) as H'.
  - now injection E as <- _ _.
  - destruct (contains l "VRTX"); [|now injection E as <- _ _]. eapply IH; eassumption.
Qed.
Lemma copies_stacked ls : forall sv line b sv' line' s', lso_vertices F crs h sv line b ls = Ok (sv', line', s') -> solid_inv sv -> stacked sv ->
  starts_with line "SHARED" = true -> copies_last (line :: ls) -> stacked sv'.
Proof.
  induction ls as [|l ls IH]; intros sv line b sv' line' s' E H K Hs HF; cbn [lso_vertices] in E; apply bind_ok in E as [s1 [E1 E]];
    pose proof (lso_vertex_inv _ _ _ _ _ H E1) as H'; pose proof (shared_stacked _ _ _ H K Hs E1) as K'.
  - now injection E as <- _ _.
  - destruct (contains l "VRTX") eqn:El; [|now injection E as <- _ _]. eapply IH; try eassumption; [exact (HF [] line [] l ls eq_refl Hs (Forall_nil _) El)|].
    intros a x run y c Ex. apply (HF (line :: a) x run y c). cbn. now rewrite Ex.
Qed.
Lemma vertices_stacked ls : forall sv line b sv' line' s', lso_vertices F crs h sv line b ls = Ok (sv', line', s') -> solid_inv sv -> stacked sv ->
  lenz (sv_map sv) = lenz (sv_points sv) -> copies_last (line :: ls) -> stacked sv'.
Proof.
  induction ls as [|l ls IH]; intros sv line b sv' line' s' E H K HE HC; destruct (starts_with line "SHARED") eqn:Hs.
  1,3: eapply copies_stacked; eassumption.
  - cbn [lso_vertices] in E. apply bind_ok in E as [s1 [E1 E]]. destruct (plain_stacked _ _ _ H K HE Hs E1) as [K' _]. now injection E as <- _ _.
  - cbn [lso_vertices] in E. apply bind_ok in E as [s1 [E1 E]]. destruct (plain_stacked _ _ _ H K HE Hs E1) as [K' HE'].
    pose proof (lso_vertex_inv _ _ _ _ _ H E1) as H'. destruct (contains l "VRTX"); [|now injection E as <- _ _]. eapply IH; try eassumption.
    intros a x run y c Ex. apply (HC (line :: a) x run y c). cbn. now rewrite Ex.
Qed.
End Vertices.
Lemma copies_suffix a b : suffix b a -> copies_last a -> copies_last b.
Proof. intros [pre ->] H x l run y c ->. apply (H (pre ++ x) l run y c). now rewrite <- app_assoc. Qed.

(** ** Blocks *)
Section Blocks.
Context {F : Num} (vp tp : PropHeader (num F)) (sv : SolidV F).
Definition sized {V} (n : nat) (l : list (bytes * attr V)) : Prop := forall x a, In (x, a) l -> List.length (a_vals a) = n.
Lemma replace_in {V} n (a : attr V) l x b : In (x, b) (replace_attr n a l) -> b = a \/ In (x, b) l.
Proof.
  induction l as [|[m c] l IH]; cbn [replace_attr]; [intros [I|[]]; left; congruence|]. destruct (beq m n); intros [I|I]; [left; congruence|right; now right|right; now left|].
  destruct (IH I); [now left|right; now right].
Qed.
Lemma make_sized {V} vt count names : forall es ds vs nb mapping (l l' : list (bytes * attr V)),
  make_attributes vt count names es ds vs nb mapping l = Ok l' -> sized count l -> sized count l'.
Proof.
  induction names as [|n ns IH]; intros es ds vs nb mapping l l' E H; cbn [make_attributes] in E; [now injection E as <-|].
  destruct es as [|e es], ds as [|d ds], vs as [|v vs]; try discriminate. apply bind_ok in E as [a [Ea E]]. apply bind_ok in E as [vals [Ev E]].
  apply (IH _ _ _ _ _ _ _ E). intros x b I. apply replace_in in I as [->|I]; [|now apply (H x)]. cbn [a_vals]. rewrite (fill_attr_length _ _ _ _ _ _ _ _ Ev).
  unfold find_or_create_in in Ea. destruct (vt && _); [discriminate|]. destruct (find_attr n l) as [a0|] eqn:Ef.
  - destruct (_ =? _); [|discriminate]. injection Ea as <-. apply find_attr_in in Ef as [n' Ef]. now apply (H n').
  - injection Ea as <-. cbn. apply repeat_length.
Qed.
Lemma related_in fm ts (surfs : list (LSurfR F)) k s : In s (related F fm ts surfs k) <->
  exists sf, nthz surfs s = Some sf /\ 0 < facets_on fm ts s /\ relation_count F fm ts s sf = k.
Proof.
  unfold related. rewrite in_map_iff. split.
  - intros ([x sf] & <- & I). apply filter_In in I as [I C]. cbn [fst snd] in *. apply andb_true_iff in C as [C1 C2]. apply Z.ltb_lt in C1. apply Z.eqb_eq in C2.
    exists sf. split; [|auto]. apply (In_nth_error) in I as [i I]. assert (I' : nthz (combine (rangez 0 (List.length surfs)) surfs) (Z.of_nat i) = Some (x, sf)) by (rewrite nthz_nat; exact I).
    apply PropsLsoLines.nthz_combine_inv in I' as [I1 I2]. pose proof (nthz_range _ _ _ I2) as R. rewrite nthz_rangez in I1 by (unfold lenz in R; lia).
    assert (x = Z.of_nat i) as -> by (injection I1; lia). exact I2.
  - intros (sf & Hs & H1 & H2). exists (s, sf). split; [reflexivity|]. apply filter_In. cbn [fst snd]. split.
    + pose proof (nthz_range _ _ _ Hs) as R. eapply nthz_in, PropsLsoLines.nthz_combine; [|exact Hs]. now rewrite nthz_rangez by (unfold lenz in R; lia).
    + apply andb_true_iff. split; [now apply Z.ltb_lt|now apply Z.eqb_eq].
Qed.
Lemma related_nodup fm ts (surfs : list (LSurfR F)) k : NoDup (related F fm ts surfs k).
Proof.
  unfold related. assert (G : forall (l : list (LSurfR F)) z p, NoDup (map fst (filter p (combine (rangez z (List.length l)) l))) /\
    forall x, In x (map fst (filter p (combine (rangez z (List.length l)) l))) -> z <= x).
  { clear. induction l as [|a l IH]; intros z p; [split; [constructor|intros x []]|]. cbn [List.length rangez combine filter]. destruct (IH (z + 1) p) as [I1 I2].
    destruct (p (z, a)); cbn [map fst]; (split; [|]); try constructor; auto.
    - intros I. apply I2 in I. lia.
    - intros x [<-|I]; [lia|]. apply I2 in I. lia.
    - intros x I. apply I2 in I. lia. }
  apply G.
Qed.
Record block_ok (surfs : list (LSurfR F)) (b : LBlockR F) : Prop := mkBlockOk {
  bk_mesh : mesh_of sv (r_points b) (r_uv b) (flat_map quad_list (r_tets b));
  bk_vattrs : sized (List.length (r_points b)) (r_vattrs b);
  bk_tattrs : sized (List.length (r_tets b)) (r_tattrs b);
  bk_bounds : NoDup (r_bounds b) /\ forall s, In s (r_bounds b) -> 0 <= s < lenz surfs;
  bk_internals : NoDup (r_internals b) /\ forall s, In s (r_internals b) -> 0 <= s < lenz surfs;
  bk_disjoint : forall s, In s (r_bounds b) -> ~ In s (r_internals b)
}.
Lemma build_sound st ss name b bad : build_block F vp tp sv st ss name = Ok (b, bad) -> block_ok (ss_surfs ss) b.
Proof.
  unfold build_block. intros E. apply bind_ok in E as [[us tets] [Eu E]]. cbv zeta in E. apply bind_ok in E as [va [Ev E]]. apply bind_ok in E as [ta [Et E]]. injection E as <- _.
  assert (S0 : forall n, sized (V := num F) n []) by (intros n x a []).
  constructor; cbn [r_points r_uv r_tets r_vattrs r_tattrs r_bounds r_internals].
  - apply tight_mesh. exact (tight_tets sv _ _ [] _ _ (tight_none sv) Eu).
  - exact (make_sized _ _ _ _ _ _ _ _ _ _ Ev (S0 _)).
  - exact (make_sized _ _ _ _ _ _ _ _ _ _ Et (S0 _)).
  - split; [apply related_nodup|]. intros s I. apply related_in in I as (sf & I & _). now apply nthz_range in I.
  - split; [apply related_nodup|]. intros s I. apply related_in in I as (sf & I & _). now apply nthz_range in I.
  - intros s I J. apply related_in in I as (sf & I & _ & R1). apply related_in in J as (sf' & J & _ & R2). assert (sf' = sf) as -> by congruence. congruence.
Qed.
Lemma blocks_sound st ss fuel : forall line s bs bad, lso_blocks F vp tp fuel sv st ss line s = Ok (bs, bad) -> Forall (block_ok (ss_surfs ss)) bs.
Proof.
  induction fuel as [|fuel IH]; intros line s bs bad E; cbn [lso_blocks] in E; [discriminate|]. destruct (starts_with line "MODEL_REGION"); [|injection E as <- _; constructor].
  apply bind_ok in E as [name [_ E]]. apply bind_ok in E as [[b bad1] [Eb E]]. destruct (getline line s) as [[g line1] s1]. apply bind_ok in E as [[bs' bad'] [Er E]].
  injection E as <- _. constructor; [now apply build_sound in Eb|now apply IH in Er].
Qed.
End Blocks.

(** ** The theorems, for any file that is loaded *)
Section Loaded.
Context (F : Num) (text : bytes) (out : LsoIn F) (L : read_lso F text = Ok out).
Lemma loaded_solid : exists sv : SolidV F, solid_inv sv /\ (copies_last (pending (open_text text)) -> stacked sv) /\ i_nuv out = lenz (sv_map sv) /\
  Forall (surf_ok sv) (i_surfs out) /\ tile (i_surfs out) (i_horizons out) 0 (lenz (i_surfs out)) /\ Forall (block_ok sv (i_surfs out)) (i_blocks out).
Proof.
  unfold read_lso in L. destruct (goto_if _ _) as [[l0|] s0] eqn:E0; [|discriminate]. apply bind_ok in L as [[title s1] [E1 E]]. apply bind_ok in E as [[crs s2] [E2 E]].
  apply bind_ok in E as [[vp s3] [E3 E]]. apply bind_ok in E as [[tp s4] [E4 E]].
  apply goto_if_suffix in E0. apply suffix_tl in E0. apply read_header_suffix in E1. apply read_CRS_suffix in E2. apply read_prop_header_suffix in E3, E4. cbn [snd] in *.
  assert (SX : suffix (pending s4) (pending (open_text text))) by eauto using suffix_trans.
  unfold lso_body in E. apply bind_ok in E as [[line s5] [E5 E]]. apply goto_keywords_suffix in E5. apply bind_ok in E as [[[sv line2] s6] [Ev E]].
  apply bind_ok in E as [[line3 s7] [_ E]]. apply bind_ok in E as [[[st line4] s8] [_ E]]. apply bind_ok in E as [[line5 s9] [_ E]]. apply bind_ok in E as [[line5' s10] [_ E]].
  destruct (getline line5' s10) as [[g line6] s11]. apply bind_ok in E as [[[[ss hs] line7] s12] [Es E]]. apply bind_ok in E as [[bs bad] [Eb E]]. injection E as <-.
  exists sv. cbn [i_nuv i_surfs i_horizons i_blocks]. split; [exact (vertices_inv _ _ _ _ _ _ _ _ _ Ev (empty_inv _))|]. split.
  { intros HC. apply (vertices_stacked _ _ _ _ _ _ _ _ _ Ev (empty_inv _)); [|reflexivity|].
    - constructor; cbn [sv_map sv_points sv_uid]; [unfold lenz; cbn; lia|]. intros k u p Hk. apply nthz_in in Hk. destruct Hk.
    - eapply copies_suffix; [|exact HC]. eauto using suffix_trans. }
  split; [reflexivity|]. apply surfaces_sound in Es as [S1 S2]; [|constructor|reflexivity]. split; [exact S1|]. split; [exact S2|].
  now apply blocks_sound in Eb.
Qed.
Lemma mesh_sound (sv : SolidV F) points uv corners : solid_inv sv -> mesh_of sv points uv corners -> sound_mesh (lenz (sv_map sv)) points uv corners.
Proof.
  intros [_ U _] (H1 & H2 & H3). split; [exact H1|]. split; [|exact H2]. intros u I. rewrite Forall_forall in U. apply U.
  assert (exists p, In (u, p) (combine uv points)) as [p Ip].
  { clear - H1 I. revert points H1. induction uv as [|x uv IH]; [destruct I|]. intros [|q ps] H1; [discriminate|]. destruct I as [<-|I]; [exists q; now left|].
    destruct (IH I ps) as [p Ip]; [cbn in H1; lia|]. exists p. now right. }
  apply H3 in Ip. now apply in_combine_l in Ip.
Qed.

(** The meshes of the surfaces and of the blocks. *)
Theorem C117_meshes :
  (forall s, In s (i_surfs out) -> sound_mesh (i_nuv out) (h_points s) (h_uv s) (flat_map tri_list (h_tris s))) /\
  (forall b, In b (i_blocks out) -> sound_mesh (i_nuv out) (r_points b) (r_uv b) (flat_map quad_list (r_tets b))).
Proof.
  destruct loaded_solid as (sv & V & _ & -> & H1 & _ & H3). rewrite Forall_forall in H1, H3.
  split; intros x I; apply mesh_sound; auto; [now apply H1|]. apply (bk_mesh _ _ _ (H3 x I)).
Qed.
(** The surfaces of the horizons and of the blocks. *)
Theorem C117_relations :
  tile (i_surfs out) (i_horizons out) 0 (lenz (i_surfs out)) /\
  (forall b, In b (i_blocks out) -> NoDup (r_bounds b) /\ NoDup (r_internals b) /\ (forall s, In s (r_bounds b) -> ~ In s (r_internals b)) /\
    (forall s, In s (r_bounds b) \/ In s (r_internals b) -> 0 <= s < lenz (i_surfs out))).
Proof.
  destruct loaded_solid as (sv & _ & _ & _ & _ & H2 & H3). split; [exact H2|]. rewrite Forall_forall in H3. intros b I. destruct (H3 b I) as [_ _ _ [N1 B1] [N2 B2] D].
  repeat split; auto; destruct H as [H|H]; try apply (B1 _ H); apply (B2 _ H).
Qed.
(** One value of every attribute for each vertex, for each cell. *)
Theorem C117_attributes : forall b, In b (i_blocks out) ->
  (forall n a, In (n, a) (r_vattrs b) -> List.length (a_vals a) = List.length (r_points b)) /\
  (forall n a, In (n, a) (r_tattrs b) -> List.length (a_vals a) = List.length (r_tets b)).
Proof. destruct loaded_solid as (sv & _ & _ & _ & _ & _ & H3). rewrite Forall_forall in H3. intros b I. destruct (H3 b I) as [_ A B _ _ _]. split; [exact A|exact B]. Qed.
(** When the copies come last, a unique vertex has one position. *)
Theorem C117_positions_partial : copies_last (pending (open_text text)) -> exists positions : list (point F), lenz positions = i_nuv out /\
  (forall s, In s (i_surfs out) -> placed positions (h_points s) (h_uv s)) /\ (forall b, In b (i_blocks out) -> placed positions (r_points b) (r_uv b)).
Proof.
  intros HC. destruct loaded_solid as (sv & [VL U _] & K & -> & H1 & _ & H3). specialize (K HC). destruct K as [K1 K2]. rewrite Forall_forall in H1, H3.
  exists (firstn (List.length (sv_map sv)) (sv_points sv)). split; [unfold lenz in *; rewrite firstn_length; lia|].
  assert (G : forall points uv corners, mesh_of sv points uv corners -> placed (firstn (List.length (sv_map sv)) (sv_points sv)) points uv).
  { intros points uv corners (M1 & _ & M3) k u p Hu Hp. assert (I : In (u, p) (combine uv points)).
    { eapply nthz_in with (i := Z.of_nat k), PropsLsoLines.nthz_combine; rewrite nthz_nat; assumption. }
    apply M3 in I. pose proof (in_combine_l _ _ _ _ I) as Iu. rewrite Forall_forall in U. apply U in Iu. apply nthz_of_in in I as [j I].
    apply PropsLsoLines.nthz_combine_inv in I as [I1 I2]. pose proof (K2 _ _ _ I1 I2) as P.
    rewrite <- (firstn_skipn (List.length (sv_map sv)) (sv_points sv)) in P. apply nthz_app_inv in P as [P|(x & -> & Hx & _)]; [exact P|].
    unfold lenz in *. rewrite firstn_length in Iu. lia. }
  split; [intros s I; exact (G _ _ _ (H1 s I))|intros b I; exact (G _ _ _ (bk_mesh _ _ _ (H3 b I)))].
Qed.
End Loaded.
Print Assumptions C117_meshes.
Print Assumptions C117_relations.
Print Assumptions C117_attributes.
Print Assumptions C117_positions_partial.

(** ** Finding: a copy before a vertex.  The number after SHAREDVRTX is used as the number of a vertex and as the number of a unique vertex; after a copy
    the two differ.  In this file vertex 2 is a copy of vertex 1 and vertex 6 a copy of vertex 2, at (0, 0, 0); it gets the unique vertex of vertex 3,
    which is at (1, 0, 0), and the cell has both. *)
Definition copy_first : bytes :=
  plain_solid (map lit ["VRTX 1 0 0 0"; "SHAREDVRTX 2 1"; "VRTX 3 1 0 0"; "VRTX 4 0 1 0"; "VRTX 5 0 0 1"; "SHAREDVRTX 6 2"])
    (map lit ["TETRA 6 3 4 5"; "# CTETRA B none none none none"]) (map lit ["MODEL"; "SURFACE s"; "TFACE 1"; "KEYVERTICES 1 3 4"; "TRGL 1 3 4"; "MODEL_REGION B +1"; "END"]).
Theorem C117_positions_refuted : exists text out b u p q, read_lso ExNum text = Ok out /\ In b (i_blocks out) /\
  p <> q /\ In (u, p) (combine (r_uv b) (r_points b)) /\ In (u, q) (combine (r_uv b) (r_points b)).
Proof.
  assert (H : match read_lso ExNum copy_first with Ok m => match i_blocks m with b :: _ => leqb zzz_eqb (r_points b) [(0, 0, 0); (1, 0, 0); (0, 1, 0); (0, 0, 1)] && leqb Z.eqb (r_uv b) [1; 1; 2; 3] | _ => false end | _ => false end = true)
    by (vm_compute; reflexivity).
  exists copy_first. destruct (read_lso ExNum copy_first) as [m| | |]; try discriminate. destruct (i_blocks m) as [|b r] eqn:E; [discriminate|].
  apply andb_true_iff in H as [H1 H2]. apply (leqb_ok zzz_eqb zzz_eqb_ok) in H1. apply (leqb_ok Z.eqb (fun x y => proj1 (Z.eqb_eq x y))) in H2.
  exists m, b, 1, (0, 0, 0), (1, 0, 0). rewrite E. split; [reflexivity|]. split; [now left|]. split; [discriminate|]. change (point ExNum) with (Z * Z * Z)%type in *. rewrite H1, H2. cbn. auto.
Qed.
Print Assumptions C117_positions_refuted.
(** In particular in every file that was saved. *)
Theorem C117_positions_saved (F : Num) (m : LModel F) sides text out : num_ok F -> LsoTrip.lso_ok m sides -> write_lso m sides = Ok text -> read_lso F text = Ok out ->
  exists positions : list (point F), lenz positions = i_nuv out /\ (forall s, In s (i_surfs out) -> placed positions (h_points s) (h_uv s)) /\ (forall b, In b (i_blocks out) -> placed positions (r_points b) (r_uv b)).
Proof.
  intros HF O W L. apply (C117_positions_partial F text out L). intros a l run x b E Hl HR Hx.
  exact (LsoCount.written_copies_last HF m sides O text W a l (run ++ x :: b) E Hl run x b eq_refl HR Hx).
Qed.
Print Assumptions C117_positions_saved.

(** A file with a copy, two blocks and a surface between two horizons. *)
Definition two_blocks : bytes :=
  plain_solid (four_vertices ++ map lit ["VRTX 5 0 0 -1"; "SHAREDVRTX 6 1"; "SHAREDVRTX 7 2"; "SHAREDVRTX 8 3"])
    (one_cell ++ map lit ["TETRA 6 7 8 5"; "# CTETRA C none none none none"])
    (map lit ["MODEL"; "SURFACE s"; "TFACE 1"; "KEYVERTICES 1 2 3"; "TRGL 1 2 3"; "SURFACE t"; "TFACE 2"; "KEYVERTICES 1 2 4"; "TRGL 1 2 4"; "TFACE 3"; "KEYVERTICES 1 2 5"; "TRGL 2 1 5";
      "MODEL_REGION B +1"; "MODEL_REGION C +1"; "END"]).
Fixpoint copies_lastb (ls : list bytes) : bool :=
  match ls with
  | [] => true
  | l :: r => (if starts_with l "SHARED" then forallb (fun x => negb (contains x "VRTX") || starts_with x "SHARED") r else true) && copies_lastb r
  end.
Lemma copies_lastb_ok ls : copies_lastb ls = true -> copies_last ls.
Proof.
  induction ls as [|l ls IH]; intros H a x run z b E Hx HR C; [destruct a; discriminate|]. cbn [copies_lastb] in H. apply andb_true_iff in H as [H1 H2].
  destruct a as [|y a]; cbn [app] in E; injection E as -> ->; [|now apply (IH H2 a x run z b)]. rewrite Hx in H1. rewrite forallb_forall in H1.
  assert (I : In z (run ++ z :: b)) by (apply in_or_app; right; now left). apply H1 in I. rewrite C in I. exact I.
Qed.
Definition b_summary (r : res (LsoIn ExNum)) :=
  match r with
  | Ok m => Some (i_nuv m, i_horizons m, map (fun s => (h_uv s, h_tris s)) (i_surfs m), map (fun b => (r_uv b, r_tets b)) (i_blocks m), map (fun b => (r_bounds b, r_internals b)) (i_blocks m))
  | _ => None
  end.
Example C117_example : copies_last (pending (open_text two_blocks)) /\ b_summary (read_lso ExNum two_blocks) =
  Some (5, [(lit "s", 0, 1); (lit "t", 1, 3)], [([0; 1; 2], [(0, 1, 2)]); ([0; 1; 3], [(0, 1, 2)]); ([1; 0; 4], [(0, 1, 2)])],
    [([0; 1; 2; 3], [(0, 1, 2, 3)]); ([0; 1; 2; 4], [(0, 1, 2, 3)])], [([0; 1], []); ([0; 2], [])]).
Proof. split; [apply copies_lastb_ok; vm_compute; reflexivity|vm_compute; reflexivity]. Qed.
(** A saved model with two blocks that share vertices is loaded; the copies follow the vertices. *)
Example C117_saved_case : num_ok ExNum /\ LsoTrip.lso_ok ex_lso ex_lsides /\
  match write_lso ex_lso ex_lsides with Ok t => match read_lso ExNum t with Ok m => (2 <=? lenz (i_blocks m)) && (4 <? i_nuv m) | _ => false end | _ => false end = true.
Proof. split; [exact ExNum_ok|]. split; [exact ex_lso_ok|vm_compute; reflexivity]. Qed.
