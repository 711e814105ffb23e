(** * The whole .lso file: the lines written, then what is read from them. *)
From Coq Require Import ZArith List Lia Bool Ascii String Permutation.
From Verif Require Import Base Text TextFacts GocadModel MeshModel TsModel Spec GocadFacts TsFacts LsoModel LsoFacts LsoRead LsoRound.
Import ListNotations.
Local Open Scope string_scope.
Local Open Scope list_scope.
Local Open Scope Z_scope.

(** The elements of a list not met before, in the order of their first occurrence. *)
Fixpoint fresh (seen l : list Z) : list Z :=
  match l with
  | [] => []
  | i :: r => if existsb (Z.eqb i) seen then fresh seen r else i :: fresh (seen ++ [i]) r
  end.
Lemma existsb_in i l : existsb (Z.eqb i) l = true <-> In i l.
Proof.
  rewrite existsb_exists. split; [intros [x [H E]]; apply Z.eqb_eq in E; now subst|]. intros H. exists i. split; [assumption|apply Z.eqb_refl].
Qed.
Lemma existsb_notin i l : existsb (Z.eqb i) l = false <-> ~ In i l.
Proof. rewrite <- existsb_in. destruct (existsb (Z.eqb i) l); split; congruence. Qed.
Lemma fresh_in seen l i : In i (fresh seen l) <-> In i l /\ ~ In i seen.
Proof.
  revert seen. induction l as [|x l IH]; intros seen; cbn [fresh]; [cbn [In]; tauto|].
  destruct (existsb (Z.eqb x) seen) eqn:E.
  - apply existsb_in in E. rewrite IH. cbn [In]. split; [tauto|]. intros [[->|H] N]; tauto.
  - apply existsb_notin in E. cbn [In]. rewrite IH, in_app_iff. cbn [In]. split.
    + intros [->|[H N]]; tauto.
    + intros [[->|H] N]; [tauto|]. destruct (Z.eq_dec x i) as [->|Nx]; [tauto|]. right. tauto.
Qed.
Lemma fresh_app seen a b : fresh seen (a ++ b) = fresh seen a ++ fresh (seen ++ fresh seen a) b.
Proof.
  revert seen. induction a as [|x a IH]; intros seen; cbn [fresh app]; [now rewrite app_nil_r|].
  destruct (existsb (Z.eqb x) seen); [apply IH|]. cbn [app]. f_equal. rewrite IH. now rewrite <- app_assoc.
Qed.
Lemma fresh_nodup seen l : NoDup (fresh seen l).
Proof.
  revert seen. induction l as [|x l IH]; intros seen; cbn [fresh]; [constructor|].
  destruct (existsb (Z.eqb x) seen); [apply IH|]. constructor; [|apply IH]. rewrite fresh_in, in_app_iff. cbn [In]. tauto.
Qed.
Lemma fresh_none seen l : forallb (fun i => existsb (Z.eqb i) seen) l = match fresh seen l with [] => true | _ => false end.
Proof.
  destruct (fresh seen l) as [|y r] eqn:E.
  - apply forallb_forall. intros i Hi. destruct (existsb (Z.eqb i) seen) eqn:X; [reflexivity|]. apply existsb_notin in X.
    assert (In i (fresh seen l)) as H by (rewrite fresh_in; auto). rewrite E in H. destruct H.
  - destruct (forallb (fun i => existsb (Z.eqb i) seen) l) eqn:X; [|reflexivity].
    assert (In y (fresh seen l)) as H by (rewrite E; now left). apply fresh_in in H. destruct H as [H N].
    rewrite forallb_forall in X. apply X in H. apply existsb_in in H. contradiction.
Qed.

(** ** Surfaces written *)
Definition uvz (s : LSurfW) (v : Z) : Z := match nthz (f_uv s) v with Some u => u | None => 0 end.
Definition uvt (s : LSurfW) (t : tri) : tri := let '(a, b, c) := t in (uvz s a, uvz s b, uvz s c).
(** A triangulated surface: at least one triangle, existing vertices, existing unique vertices. *)
Record good_lsurf (N : Z) (s : LSurfW) : Prop := {
  gl_some : f_tris s <> [];
  gl_in : Forall (fun t => Forall (fun v => 0 <= v < lenz (f_uv s)) (tri_list t)) (f_tris s);
  gl_uv : Forall (fun u => 0 <= u < N) (f_uv s)
}.
Lemma uvz_range N s v : good_lsurf N s -> 0 <= v < lenz (f_uv s) -> nthz (f_uv s) v = Some (uvz s v) /\ 0 <= uvz s v < N.
Proof.
  intros G H. unfold uvz. destruct (nthz_in_range (f_uv s) v H) as [u Hu]. rewrite Hu. split; [reflexivity|].
  pose proof (gl_uv N s G) as HU. rewrite Forall_forall in HU. apply HU. now apply nthz_in in Hu.
Qed.
Lemma tri_text_ok N s t : good_lsurf N s -> N < two32 -> Forall (fun v => 0 <= v < lenz (f_uv s)) (tri_list t) ->
  tri_text s t = Ok (spaced (map (fun n => show (n + 1)) (tri_list (uvt s t)))) /\ Forall (fun v => 0 <= v < N) (tri_list (uvt s t)).
Proof.
  intros G HN. destruct t as [[a b] c]. cbn [tri_list uvt]. intros H. inversion_clear H as [|? ? Ha H']. inversion_clear H' as [|? ? Hb H].
  inversion_clear H as [|? ? Hc _]. unfold tri_text.
  destruct (uvz_range N s a G Ha) as [Ea Ra]. destruct (uvz_range N s b G Hb) as [Eb Rb]. destruct (uvz_range N s c G Hc) as [Ec Rc].
  rewrite (proj2 (idxz_ok _ _ _) Ea), (proj2 (idxz_ok _ _ _) Eb), (proj2 (idxz_ok _ _ _) Ec). cbn [bind].
  rewrite !add32_small by lia. split; [reflexivity|]. repeat (apply Forall_cons; [lia|]). constructor.
Qed.
Lemma tface_lines_ok N s n : good_lsurf N s -> N < two32 ->
  tface_lines s n = Ok (face_lines (n, map (uvt s) (f_tris s)))
  /\ Forall (fun t => Forall (fun v => 0 <= v < N) (tri_list t)) (map (uvt s) (f_tris s)).
Proof.
  intros G HN. pose proof (gl_in N s G) as HI. unfold tface_lines, face_lines. cbn [fst snd].
  destruct (f_tris s) as [|t0 T] eqn:ET; [exfalso; exact (gl_some N s G ET)|]. rewrite idx_0. cbn [bind].
  rewrite Forall_forall in HI.
  assert (HT : forall t, In t (t0 :: T) -> tri_text s t = Ok (spaced (map (fun n => show (n + 1)) (tri_list (uvt s t)))) /\ Forall (fun v => 0 <= v < N) (tri_list (uvt s t)))
    by (intros; apply (tri_text_ok N); auto).
  rewrite (proj1 (HT t0 (or_introl eq_refl))). cbn [bind].
  rewrite (mapM_ok_map _ (fun t => spaced (map (fun n => show (n + 1)) (tri_list (uvt s t))))) by (intros; now apply HT).
  cbn [bind]. split.
  - rewrite !map_map. reflexivity.
  - apply Forall_map, Forall_forall. intros t Ht. now apply HT.
Qed.

Section Surfaces.
Context {F : Num} (m : LModel F).
Let N := lenz (l_uv m).
Context (HN : N < two32).
(** Every item of a collection is a surface of the model. *)
Definition good_item (i : Z) : Prop := exists s, lsurf_of m i = Ok s /\ good_lsurf N s.
Definition sfun (i : Z) : LSurfW := match lsurf_of m i with Ok s => s | _ => mkLSurfW 0 [] [] end.
Definition stris (i : Z) : list tri := map (uvt (sfun i)) (f_tris (sfun i)).
Fixpoint nums (n : Z) (ids : list Z) : list (Z * Z) :=
  match ids with [] => [] | i :: r => (i, n) :: nums (add32 n 1) r end.
Definition after (n : Z) (ids : list Z) : Z := fold_left (fun n _ => add32 n 1) ids n.
Definition faces (n : Z) (ids : list Z) : list (Z * list tri) := map (fun e => (snd e, stris (fst e))) (nums n ids).
Lemma nums_fst n ids : map fst (nums n ids) = ids.
Proof. revert n. induction ids; intros n; cbn [nums map fst]; congruence. Qed.
Lemma nums_app n a b : nums n (a ++ b) = nums n a ++ nums (after n a) b.
Proof. revert n. induction a as [|x a IH]; intros n; cbn [nums app after fold_left]; [reflexivity|]. f_equal. apply IH. Qed.
Lemma after_app n a b : after n (a ++ b) = after (after n a) b.
Proof. unfold after. apply fold_left_app. Qed.
Lemma is_exported_existsb ex i : is_exported ex i = existsb (Z.eqb i) (map fst ex).
Proof. unfold is_exported. induction ex as [|e ex IH]; [reflexivity|]. cbn [existsb map]. now rewrite IH, Z.eqb_sym. Qed.
Lemma write_items_ok items : forall ex n, Forall good_item items ->
  write_items m items ex n
  = let ids := fresh (map fst ex) items in Ok (flat_map face_lines (faces n ids), ex ++ nums n ids, after n ids).
Proof.
  induction items as [|i items IH]; intros ex n H; cbn [write_items fresh].
  - cbn [nums after fold_left faces map flat_map]. now rewrite app_nil_r.
  - inversion_clear H as [|? ? [s [Hs Gs]] H']. rewrite is_exported_existsb. destruct (existsb (Z.eqb i) (map fst ex)); [now apply IH|].
    rewrite Hs. cbn [bind]. destruct (tface_lines_ok N s n Gs HN) as [-> _]. cbn [bind]. rewrite IH by assumption. cbn zeta.
    cbn [bind]. rewrite map_app. cbn [map fst nums faces after fold_left flat_map snd]. f_equal. f_equal. f_equal.
    + unfold stris, sfun. rewrite Hs. reflexivity.
    + now rewrite <- app_assoc.
Qed.
Fixpoint secs_of (cs : list LColl) (seen : list Z) (n : Z) : list (bytes * list (Z * list tri)) :=
  match cs with
  | [] => []
  | c :: r =>
      let ids := fresh seen (g_items c) in
      match ids with
      | [] => secs_of r seen n
      | _ => (g_name c, faces n ids) :: secs_of r (seen ++ ids) (after n ids)
      end
  end.
Lemma forallb_ext' {A} (f g : A -> bool) l : (forall x, f x = g x) -> forallb f l = forallb g l.
Proof. intros H. induction l; cbn [forallb]; congruence. Qed.
Lemma write_surfaces_ok cs : forall ex n, Forall (fun c => Forall good_item (g_items c)) cs ->
  write_surfaces m cs ex n
  = let ids := fresh (map fst ex) (flat_map g_items cs) in
    Ok (flat_map sect_lines (secs_of cs (map fst ex) n), ex ++ nums n ids, after n ids).
Proof.
  induction cs as [|c cs IH]; intros ex n H; cbn [write_surfaces secs_of flat_map].
  - cbn [fresh nums after fold_left]. cbn zeta. now rewrite app_nil_r.
  - inversion_clear H as [|? ? Hc Hcs]. rewrite (forallb_ext' _ (fun i => existsb (Z.eqb i) (map fst ex))) by apply is_exported_existsb.
    rewrite fresh_none, fresh_app. cbn zeta. destruct (fresh (map fst ex) (g_items c)) as [|i ids] eqn:E.
    + cbn [app]. rewrite app_nil_r. now apply IH.
    + rewrite write_items_ok by assumption. rewrite E. cbn [bind]. rewrite IH by assumption.
      cbn zeta. cbn [bind]. rewrite map_app, nums_fst. rewrite nums_app, after_app, <- app_assoc. reflexivity.
Qed.
Lemma write_surfaces_app a b ex n :
  (do '(l1, e1, n1) <- write_surfaces m a ex n; do '(l2, e2, n2) <- write_surfaces m b e1 n1; Ok (l1 ++ l2, e2, n2))
  = write_surfaces m (a ++ b) ex n.
Proof.
  revert ex n. induction a as [|c a IH]; intros ex n; cbn [write_surfaces app bind].
  - destruct (write_surfaces m b ex n) as [[[l e] k]| | |]; reflexivity.
  - destruct (forallb (is_exported ex) (g_items c)); [apply IH|].
    rewrite bind_assoc. apply bind_ext. intros [[l e] k] _. rewrite <- IH. rewrite !bind_assoc. apply bind_ext.
    intros [[l' e'] k'] _. cbn [bind]. rewrite !bind_assoc. apply bind_ext. intros [[l2 e2] k2] _. cbn [bind].
    rewrite ?app_comm_cons, ?app_assoc. reflexivity.
Qed.

(** The surfaces of the sections with the name of their section. *)
Definition named_faces (secs : list (bytes * list (Z * list tri))) : list (bytes * list tri) :=
  flat_map (fun e => map (fun f => (fst e, snd f)) (snd e)) secs.
(** Collection that names a surface: the first one that contains it. *)
Definition named_by (cs : list LColl) (i : Z) (name : bytes) : Prop :=
  exists pre c post, cs = pre ++ c :: post /\ In i (g_items c) /\ (forall c', In c' pre -> ~ In i (g_items c')) /\ name = g_name c.
Lemma faces_snd n ids : map snd (faces n ids) = map stris ids.
Proof. unfold faces. rewrite map_map. cbn [snd]. rewrite <- (nums_fst n ids) at 2. now rewrite map_map. Qed.
Lemma named_faces_ok cs : forall seen n,
  Forall2 (fun i e => snd e = stris i /\ exists pre c post, cs = pre ++ c :: post /\ In i (g_items c)
              /\ (forall c', In c' pre -> ~ In i (g_items c')) /\ fst e = g_name c)
          (fresh seen (flat_map g_items cs)) (named_faces (secs_of cs seen n)).
Proof.
  induction cs as [|c cs IH]; intros seen n; cbn [flat_map secs_of]; [constructor|]. rewrite fresh_app. cbn zeta.
  assert (HR : forall k, let l := fresh (seen ++ fresh seen (g_items c)) (flat_map g_items cs) in
     Forall2 (fun i e => snd e = stris i /\ exists pre c0 post, c :: cs = pre ++ c0 :: post /\ In i (g_items c0)
              /\ (forall c', In c' pre -> ~ In i (g_items c')) /\ fst e = g_name c0) l
       (named_faces (secs_of cs (seen ++ fresh seen (g_items c)) k))).
  { intros k. cbn zeta. specialize (IH (seen ++ fresh seen (g_items c)) k).
    assert (HA : Forall (fun i => ~ In i (g_items c)) (fresh (seen ++ fresh seen (g_items c)) (flat_map g_items cs))).
    { apply Forall_forall. intros i Hi Hc. apply fresh_in in Hi. destruct Hi as [_ Hi]. apply Hi. rewrite in_app_iff, fresh_in.
      destruct (in_dec Z.eq_dec i seen); tauto. }
    induction IH as [|i e l l' [H1 [pre [c0 [post [E [Hi [Hp Hn]]]]]]] H2 IH2]; [constructor|].
    inversion_clear HA as [|? ? HA0 HA1]. constructor; [|now apply IH2]. split; [assumption|].
    exists (c :: pre), c0, post. rewrite E. split; [reflexivity|]. split; [assumption|]. split; [|assumption].
    intros c' [<-|Hc']; [assumption|now apply Hp]. }
  destruct (fresh seen (g_items c)) as [|i ids] eqn:E.
  - cbn [app]. specialize (HR n). cbn zeta in HR. rewrite app_nil_r in HR. exact (eq_ind _ (fun l => Forall2 _ l _) HR _ (f_equal (fun s => fresh s _) (eq_sym (app_nil_r seen)))).
  - rewrite <- E in *. unfold named_faces in *. cbn [flat_map fst snd]. apply Forall2_app; [|apply HR].
    assert (HI : Forall (fun i => In i (g_items c)) (fresh seen (g_items c))) by (apply Forall_forall; intros j Hj; now apply fresh_in in Hj).
    clear -HI. unfold faces. revert n. induction HI as [|j l Hj HI IH]; intros n; cbn [nums map]; constructor; [|apply IH].
    cbn [fst snd]. split; [reflexivity|]. exists [], c, cs. repeat split; auto.
Qed.
Lemma secs_plain cs : forall seen n, Forall (fun c => plain (g_name c)) cs -> Forall (fun e => plain (fst e)) (secs_of cs seen n).
Proof.
  induction cs as [|c cs IH]; intros seen n H; cbn [secs_of]; [constructor|]. inversion_clear H. cbn zeta.
  destruct (fresh seen (g_items c)); [now apply IH|]. constructor; [assumption|]. now apply IH.
Qed.
Lemma secs_small cs : forall seen n, Forall (fun c => Forall good_item (g_items c)) cs ->
  Forall (fun e => Forall (fun f => Forall (fun t => Forall (fun v => 0 <= v < N) (tri_list t)) (snd f)) (snd e)) (secs_of cs seen n).
Proof.
  induction cs as [|c cs IH]; intros seen n H; cbn [secs_of]; [constructor|]. inversion_clear H as [|? ? Hc Hcs]. cbn zeta.
  destruct (fresh seen (g_items c)) as [|i ids] eqn:E; [now apply IH|]. constructor; [|now apply IH]. cbn [snd].
  assert (HG : Forall good_item (i :: ids)).
  { rewrite <- E. apply Forall_forall. intros j Hj. apply fresh_in in Hj. rewrite Forall_forall in Hc. now apply Hc. }
  clear -HG HN. revert n. induction HG as [|j l [s [Hs Gs]] HG IH]; intros n; [constructor|].
  unfold faces in *. cbn [nums map fst snd]. constructor; [|apply IH]. cbn [snd]. unfold stris, sfun. rewrite Hs. now apply tface_lines_ok.
Qed.
End Surfaces.
