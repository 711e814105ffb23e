(** * Grid files cut short: Voxet and GRDECL (C140). *)
From Coq Require Import ZArith List Lia Bool Ascii String.
From Verif Require Import Base Text TextFacts GocadModel MeshModel WellModel VoModel GrdeclModel GocadFacts
  StreamFacts LsoAttrs ExNum ExCheck PropsComments PropsCut PropsCutWell PropsVo PropsGrdecl.
Import ListNotations.
Local Open Scope string_scope.
Local Open Scope list_scope.
Local Open Scope Z_scope.

(** ** Specification *)

(** The line is a row for cell number [c] of the grid *)
Definition row_for (n : Z * Z * Z) (c : Z) (l : bytes) : Prop :=
  exists ti tj tk rest i j k, string_split l = ti :: tj :: tk :: rest /\
    string_to_index ti = Ok i /\ string_to_index tj = Ok j /\ string_to_index tk = Ok k /\
    c = (i + fst (fst n) * (j + snd (fst n) * k)) mod 2 ^ 32.
(** The value of a property on cell number [c] *)
Definition cell_value {F} (m : Voxet F) (name : bytes) (c : Z) : option (list (num F)) :=
  match find_attr name (v_attrs F m) with Some a => nth_error (a_vals a) (Z.to_nat c) | None => None end.
Definition same_grid {F} (m' m : Voxet F) : Prop :=
  v_name F m' = v_name F m /\ v_origin F m' = v_origin F m /\ v_n F m' = v_n F m /\ v_len F m' = v_len F m /\
  map fst (v_attrs F m') = map fst (v_attrs F m).
(** The files of the disk, one of them with this text *)
Definition with_file (files : bytes -> option bytes) (name text f : bytes) : option bytes := if beq f name then Some text else files f.
(** The last line has three words *)
Definition half_pillar (a : list bytes) : Prop := exists a0 l, a = a0 ++ [l] /\ List.length (string_split l) = 3%nat.

(** ** Proofs *)
Lemma ok_eq {A} (x y : A) : Ok x = Ok y -> x = y.
Proof. congruence. Qed.
Lemma same_grid_refl {F} (m : Voxet F) : same_grid m m.
Proof. repeat split. Qed.
Lemma same_grid_trans {F} (x y z : Voxet F) : same_grid x y -> same_grid y z -> same_grid x z.
Proof. intros (A & B & C & D & E) (A' & B' & C' & D' & E'). repeat split; congruence. Qed.
Lemma vo_set_other F (m m' : Voxet F) n c x : vo_set F m n c x = Ok m' -> same_grid m m' /\ forall p d, 0 <= c -> 0 <= d -> d <> c -> cell_value m' p d = cell_value m p d.
Proof.
  unfold vo_set. destruct (find_attr n (v_attrs F m)) as [a|] eqn:Ef; [|discriminate]. intros E. apply bind_ok in E as [vals [Es E]]. apply ok_eq in E. subst m'.
  split; [repeat split; cbn [v_attrs]; symmetry; eapply names_replace; exact Ef|]. intros p d Hc Hd N. unfold cell_value. cbn [v_attrs].
  unfold setz in Es. destruct (_ && _); [|discriminate]. apply ok_eq in Es. subst vals. destruct (beq n p) eqn:Q.
  - apply beq_eq in Q as <-. rewrite find_replace_same, Ef. cbn [a_vals]. apply upd_other. lia.
  - rewrite find_replace_other; [reflexivity|]. intros ->. rewrite beq_refl in Q. discriminate.
Qed.
Lemma vo_row_other F names (m m' : Voxet F) l : vo_row F names m l = Ok m' ->
  same_grid m m' /\ exists c, row_for (v_n F m) c l /\ forall p d, 0 <= d -> d <> c -> cell_value m' p d = cell_value m p d.
Proof.
  unfold vo_row. cbv zeta. intros E. apply bind_ok in E as [u0 [_ E]]. apply bind_ok in E as [ti [Ei E]]. apply bind_ok in E as [i [Pi E]].
  apply bind_ok in E as [tj [Ej E]]. apply bind_ok in E as [j [Pj E]]. apply bind_ok in E as [tk [Ek E]]. apply bind_ok in E as [k [Pk E]].
  set (c := cell_index (v_n F m) (i, j, k)) in *.
  assert (C : row_for (v_n F m) c l).
  { destruct (string_split l) as [|x0 [|x1 [|x2 r]]] eqn:Sp; cbn in Ei, Ej, Ek; try discriminate. exists x0, x1, x2, r, i, j, k.
    assert (x0 = ti /\ x1 = tj /\ x2 = tk) as (-> & -> & ->) by (repeat split; congruence). repeat split; auto. subst c. destruct (v_n F m) as [[nx ny] nz]. reflexivity. }
  assert (Pos : 0 <= c) by (subst c; destruct (v_n F m) as [[nx ny] nz]; unfold cell_index, wrap32; apply Z.mod_pos_bound; reflexivity).
  clearbody c. assert (G : same_grid m m' /\ forall p d, 0 <= d -> d <> c -> cell_value m' p d = cell_value m p d); [|destruct G as [G1 G2]; eauto].
  clear C Ei Ej Ek. revert m m' E. generalize (combine (seq 0 (List.length names)) names). intros L. induction L as [|[a n] L IH]; intros m m' E; cbn [foldM] in E.
  - apply ok_eq in E. subst m'. split; [apply same_grid_refl|reflexivity].
  - apply bind_ok in E as [m1 [E1 E]]. apply bind_ok in E1 as [t [_ E1]]. apply bind_ok in E1 as [x [_ E1]]. apply vo_set_other in E1 as [G1 G2]. apply IH in E as [G3 G4].
    split; [eapply same_grid_trans; eassumption|]. intros p d Hd N. rewrite G4 by assumption. now apply G2.
Qed.
Lemma vo_rows_other F names ls : forall m m' : Voxet F, foldM (vo_row F names) ls m = Ok m' ->
  same_grid m m' /\ forall c, 0 <= c -> (forall l, In l ls -> ~ row_for (v_n F m) c l) -> forall p, cell_value m' p c = cell_value m p c.
Proof.
  induction ls as [|l ls IH]; intros m m' E; cbn [foldM] in E.
  - apply ok_eq in E. subst m'. split; [apply same_grid_refl|reflexivity].
  - apply bind_ok in E as [m1 [E1 E]]. apply vo_row_other in E1 as (G1 & d & R & G2). apply IH in E as [G3 G4]. split; [eapply same_grid_trans; eassumption|].
    destruct G1 as (_ & _ & Gn & _). intros c Hc N p. rewrite G4; auto.
    + apply G2; auto. intros ->. apply (N l); [now left|exact R].
    + intros x Hx. rewrite <- Gn. apply N. now right.
Qed.

(** *** Voxet header *)
Lemma coord_cut F b kw t : forall s, pending s = pending t ++ b ->
  tight b (do '(line, s) <- goto_keyword kw s; do p <- read_coord F line 1; Ok (p, s)) (do '(line, s) <- goto_keyword kw t; do p <- read_coord F line 1; Ok (p, s)).
Proof.
  intros s H. apply tight_bind; [now apply goto_cut|]. intros x s1 s2 P. apply tight_same. intros p. now apply tight_ok.
Qed.
Lemma grid_cut F dist divn name b s t : pending s = pending t ++ b -> tight b (initialize_grid F dist divn name s) (initialize_grid F dist divn name t).
Proof.
  intros H. unfold initialize_grid.
  apply tight_bind; [now apply goto_cut|]. intros l1 s1 t1 P1. apply tight_same. intros o.
  apply tight_bind; [now apply goto_cut|]. intros l2 s2 t2 P2. apply tight_same. intros u.
  apply tight_bind; [now apply goto_cut|]. intros l3 s3 t3 P3. apply tight_same. intros v.
  apply tight_bind; [now apply goto_cut|]. intros l4 s4 t4 P4. apply tight_same. intros w.
  apply tight_bind.
  - unfold read_cells_number. apply tight_bind; [now apply goto_cut|]. intros l5 s5 t5 P5. cbv zeta. do 6 (apply tight_same; intros ?). now apply tight_ok.
  - intros [[nx ny] nz] s5 t5 P5. now apply tight_ok.
Qed.
Lemma data_cut F files folder m b s t r : pending s = pending t ++ b -> read_data_file F files folder m s = Ok r ->
  read_data_file F files folder m t = Ok r \/ read_data_file F files folder m t = Throw ExData.
Proof.
  intros H E. unfold read_data_file, get_data_file, goto_if in *. rewrite H, scan_cut in E. destruct (scan _ (pending t)) as [[l q]|]; auto.
Qed.

(** ** Theorems *)

(** A Voxet file cut between two lines is loaded as before (only lines after the name of the data
    file are lost) or refused. *)
Theorem C140_voxet F dist divn files folder a b m : Forall is_line (a ++ b) ->
  read_vo F dist divn files folder (unlines (a ++ b)) = Ok m ->
  read_vo F dist divn files folder (unlines a) = Ok m \/ read_vo F dist divn files folder (unlines a) = Throw ExData.
Proof.
  intros L E. assert (La : Forall is_line a) by (apply Forall_app in L; tauto).
  unfold read_vo in *. rewrite open_unlines in * by assumption. unfold goto_if in *. cbn [pending nl] in *. rewrite scan_cut in E.
  destruct (scan _ a) as [[l r]|]; [|now right].
  apply bind_ok in E as [[name s1] [E1 E]]. pose proof (header_cut b (mkStream (r ++ b) true) (mkStream r true) eq_refl) as K1. rewrite E1 in K1.
  destruct K1 as [(t1 & K1 & P1)|K1]; rewrite K1; [|now right]. cbn [bind].
  assert (End : forall t2, pending t2 = [] -> (do '(m, s) <- initialize_grid F dist divn name t2; read_data_file F files folder m s) = Throw ExData).
  { intros t2 P. unfold initialize_grid. rewrite goto_stuck by exact P. reflexivity. }
  apply bind_ok in E as [[crs s2] [E2 E]]. pose proof (crs_cut b s1 t1 P1) as K2. rewrite E2 in K2.
  destruct K2 as [(t2 & K2 & P2)|[(y & t2 & K2 & P2)|K2]]; rewrite K2; cbn [bind]; [|right; now apply End|now right].
  apply bind_ok in E as [[g s3] [E3 E]]. pose proof (grid_cut F dist divn name b s2 t2 P2) as K3. rewrite E3 in K3.
  destruct K3 as [(t3 & K3 & P3)|K3]; rewrite K3; cbn [bind]; [|now right]. now apply (data_cut F files folder g b s3 t3).
Qed.

(** When its data file is cut between two lines, the grid is the same, and the values are those
    of the whole file but on the cells of the lost rows. *)
Theorem C140_voxet_data F dist divn files folder text file a b m : Forall is_line (a ++ b) ->
  read_vo F dist divn (with_file files file (unlines (a ++ b))) folder text = Ok m ->
  read_vo F dist divn (with_file files file (unlines a)) folder text = Throw ExBadAlloc \/
  exists m', read_vo F dist divn (with_file files file (unlines a)) folder text = Ok m' /\ same_grid m' m /\
    forall c, 0 <= c -> (forall l, In l b -> ~ row_for (v_n F m) c l) -> forall p, cell_value m' p c = cell_value m p c.
Proof.
  intros L E. assert (La : Forall is_line a) by (apply Forall_app in L; tauto).
  unfold read_vo in *. destruct (goto_if _ _) as [[l|] s0]; [|discriminate].
  apply bind_ok in E as [[name s1] [-> E]]. cbn [bind]. apply bind_ok in E as [[crs s2] [-> E]]. cbn [bind]. apply bind_ok in E as [[g s3] [-> E]]. cbn [bind].
  unfold read_data_file in *. destruct (get_data_file s3) as [[f|] s4]; [|discriminate]. unfold with_file in *. destruct (beq _ file).
  2: { right. exists m. split; [exact E|]. split; [apply same_grid_refl|reflexivity]. }
  rewrite open_unlines in * by assumption. cbn [pending nl] in *.
  destruct a as [|a0 [|a1 a]]; [left; reflexivity|left; reflexivity|]. change (nth 1 ((a0 :: a1 :: a) ++ b) []) with a1 in E. change (nth 1 (a0 :: a1 :: a) []) with a1.
  destruct (Nat.ltb _ 4); [discriminate|]. right. rewrite skipn_app, foldM_app in E. apply bind_ok in E as [m' [E1 E]]. exists m'. split; [exact E1|].
  apply vo_rows_other in E as [G1 G2]. split; [exact G1|]. destruct G1 as (_ & _ & Gn & _). intros c Hc N p. symmetry. apply G2; [exact Hc|].
  intros x Hx. rewrite Gn. apply N. rewrite <- (firstn_skipn (3 - List.length (a0 :: a1 :: a)) b). apply in_or_app. now right.
Qed.

(** *** GRDECL *)
Lemma until_F_cut b a : forall cur l r, until_F cur (a ++ b) = Ok (l, r) ->
  (exists r2, until_F cur a = Ok (l, r2) /\ r = r2 ++ b /\ exists q, a = q ++ r2) \/ until_F cur a = Hang.
Proof.
  induction a as [|x a IH]; intros cur l r E.
  - cbn [app] in E. destruct b as [|x b]; cbn [until_F] in *; destruct (contains cur "F"); auto; left; apply ok_eq in E; exists [];
      (split; [congruence|]; split; [cbn [app]; congruence|now exists []]).
  - cbn [app until_F] in *. destruct (contains cur "F").
    + left. apply ok_eq in E. exists (x :: a). split; [congruence|]. split; [cbn [app]; congruence|now exists []].
    + destruct (IH _ _ _ E) as [(r2 & K1 & K2 & q & K3)|K]; [|auto]. left. exists r2. split; [exact K1|]. split; [exact K2|]. exists (x :: q). now rewrite K3.
Qed.
Lemma no_include fl ls : (forall l, In l ls -> starts_with l "INCLUDE" = false) -> forall back m, includes fl ls back m = Ok (m, back).
Proof.
  induction ls as [|l ls IH]; intros H back m; cbn [includes]; [reflexivity|]. rewrite (H l) by now left. apply IH. intros x Hx. apply H. now right.
Qed.
Lemma half_app q a : half_pillar a -> half_pillar (q ++ a).
Proof. intros (a0 & l & -> & H). exists (q ++ a0), l. split; [now rewrite app_assoc|exact H]. Qed.
Section Loops.
Context (F : Num) (b : list bytes) (cap : Z).
Lemma pillars_cut : forall k a, (List.length a <= k)%nat -> forall cur acc ps r, pillars_loop F true cap cur (a ++ b) acc = Ok (ps, r) ->
  (exists r2, pillars_loop F true cap cur a acc = Ok (ps, r2) /\ r = r2 ++ b /\ exists q, a = q ++ r2) \/
  pillars_loop F true cap cur a acc = Hang \/ (pillars_loop F true cap cur a acc = UB /\ half_pillar (cur :: a)).
Proof.
  assert (Eq : forall bb cur ls acc, pillars_loop F bb cap cur ls acc =
    if starts_with cur "/" then Ok (acc, ls) else
    match string_split cur with
    | [] => match ls with [] => Hang | l :: r => pillars_loop F bb cap l r acc end
    | [_; _; _; _; _; _] as ts =>
      do vs <- mapM (string_to_double F) ts;
      do t <- three F vs; do bt <- three F (skipn 3 vs);
      do acc' <- store cap acc (mkPillar F t bt);
      match ls with [] => if bb then Hang else UB | l :: r => pillars_loop F bb cap l r acc' end
    | [_; _; _] as ts =>
      do vs <- mapM (string_to_double F) ts;
      do t <- three F vs;
      match ls with
      | [] => UB
      | l2 :: r2 =>
        let ts2 := string_split l2 in
        do x <- idx ts2 0; do vx <- string_to_double F x;
        do y <- idx ts2 1; do vy <- string_to_double F y;
        do z <- idx ts2 2; do vz <- string_to_double F z;
        do acc' <- store cap acc (mkPillar F t (vx, vy, vz));
        match r2 with [] => if bb then Hang else UB | l :: r => pillars_loop F bb cap l r acc' end
      end
    | _ => Throw ExData
    end) by (intros bb cur [|l ls] acc; reflexivity).
  induction k as [|k IH]; intros a L cur acc ps r E; rewrite Eq in E; rewrite !Eq.
  (* the lines go on *)
  - destruct a; [|cbn in L; lia]. cbn [app] in E. destruct (starts_with cur "/").
    { left. apply ok_eq in E. exists []. split; [congruence|]. split; [cbn [app]; congruence|now exists []]. }
    destruct (string_split cur) as [|w1 [|w2 [|w3 [|w4 [|w5 [|w6 [|w7 ws]]]]]]] eqn:W; try discriminate; [auto| |].
    + apply bind_ok in E as [vs [-> E]]. cbn [bind]. apply bind_ok in E as [t [-> E]]. cbn [bind]. right. right. split; [reflexivity|]. exists [], cur. split; [reflexivity|]. rewrite W. reflexivity.
    + apply bind_ok in E as [vs [-> E]]. cbn [bind]. apply bind_ok in E as [t [-> E]]. cbn [bind]. apply bind_ok in E as [bt [-> E]]. cbn [bind]. apply bind_ok in E as [acc' [-> E]]. cbn [bind]. auto.
  - assert (Next : forall a', (List.length a' <= k)%nat -> forall q, a = q ++ a' -> forall cur' acc', (exists q', cur :: a = q' ++ cur' :: a') ->
      pillars_loop F true cap cur' (a' ++ b) acc' = Ok (ps, r) ->
      (exists r2, pillars_loop F true cap cur' a' acc' = Ok (ps, r2) /\ r = r2 ++ b /\ exists q, a = q ++ r2) \/
      pillars_loop F true cap cur' a' acc' = Hang \/ (pillars_loop F true cap cur' a' acc' = UB /\ half_pillar (cur :: a))).
    { intros a' L' q Hq cur' acc' [q' Hq'] E'. destruct (IH a' L' _ _ _ _ E') as [(r2 & K1 & K2 & q2 & K3)|[K|[K1 K2]]]; [left|auto|right; right].
      - exists r2. split; [exact K1|]. split; [exact K2|]. exists (q ++ q2). rewrite Hq, K3, app_assoc. reflexivity.
      - split; [exact K1|]. rewrite Hq'. now apply half_app. }
    destruct (starts_with cur "/").
    { left. apply ok_eq in E. exists a. split; [congruence|]. split; [congruence|now exists []]. }
    destruct (string_split cur) as [|w1 [|w2 [|w3 [|w4 [|w5 [|w6 [|w7 ws]]]]]]] eqn:W; try discriminate.
    + destruct a as [|l a]; [auto|]. cbn [app] in E. apply (Next a) with (q := [l]); auto; [cbn in L; lia|]. now exists [cur].
    + apply bind_ok in E as [vs [-> E]]. cbn [bind]. apply bind_ok in E as [t [-> E]]. cbn [bind]. destruct a as [|l2 a].
      { right. right. split; [reflexivity|]. exists [], cur. split; [reflexivity|]. rewrite W. reflexivity. }
      cbn [app] in E. cbv zeta in *. do 7 (apply bind_ok in E as [? [-> E]]; cbn [bind]). destruct a as [|l a]; [auto|]. cbn [app] in E.
      apply (Next a) with (q := [l2; l]); auto; [cbn in L; lia|]. now exists [cur; l2].
    + apply bind_ok in E as [vs [-> E]]. cbn [bind]. apply bind_ok in E as [t [-> E]]. cbn [bind]. apply bind_ok in E as [bt [-> E]]. cbn [bind]. apply bind_ok in E as [acc' [-> E]]. cbn [bind].
      destruct a as [|l a]; [auto|]. cbn [app] in E. apply (Next a) with (q := [l]); auto; [cbn in L; lia|]. now exists [cur].
Qed.
Lemma depths_cut : forall a cur acc ds r, depths_loop F true cap cur (a ++ b) acc = Ok (ds, r) ->
  (exists r2, depths_loop F true cap cur a acc = Ok (ds, r2)) \/ depths_loop F true cap cur a acc = Hang.
Proof.
  assert (Eq : forall bb cur ls acc, depths_loop F bb cap cur ls acc =
    if starts_with cur "/" then Ok (acc, ls) else
    do acc' <- foldM (store_depth F cap) (string_split cur) acc;
    match ls with
    | [] => match string_split cur with [] => Hang | _ => if bb then Hang else UB end
    | l :: r => depths_loop F bb cap l r acc'
    end) by (intros bb cur [|l ls] acc; reflexivity).
  induction a as [|l a IH]; intros cur acc ds r E; rewrite Eq in E; rewrite !Eq; (destruct (starts_with cur "/"); [left; apply ok_eq in E; assert (ds = acc) as -> by congruence; eexists; reflexivity|]);
    apply bind_ok in E as [acc' [-> E]]; cbn [bind].
  - right. now destruct (string_split cur).
  - cbn [app] in E. eauto.
Qed.
End Loops.

(** A GRDECL file without INCLUDE cut between two lines never gives another grid; but the reader
    may loop for ever, or read the words of a missing line (only when the last line has three words). *)
Theorem C140_grdecl F A coloc files a b g : Forall is_line (a ++ b) ->
  (forall l, In l (a ++ b) -> starts_with l "INCLUDE" = false) ->
  read_grdecl F A coloc files (unlines (a ++ b)) = Ok g ->
  read_grdecl F A coloc files (unlines a) = Ok g \/ read_grdecl F A coloc files (unlines a) = Throw ExData \/
  read_grdecl F A coloc files (unlines a) = Hang \/ (read_grdecl F A coloc files (unlines a) = UB /\ half_pillar a).
Proof.
  intros L NI E. assert (La : Forall is_line a) by (apply Forall_app in L; tauto).
  unfold read_grdecl in *. rewrite open_unlines in * by assumption. apply bind_ok in E as [[[[nx ny] nz] s] [E0 E]].
  unfold read_dimensions, goto_keyword, goto_if in E0 |- *. cbn [pending nl] in *. rewrite scan_cut in E0.
  destruct (scan _ a) as [[l r]|] eqn:Sc; [|right; left; reflexivity]. cbn [bind pending nl] in *.
  assert (Sq : exists q, a = q ++ r).
  { clear -Sc. revert Sc. induction a as [|x a IH]; cbn [scan]; [discriminate|]. destruct (starts_with x _); intros Sc; [injection Sc as <- <-; now exists [x]|].
    destruct (IH Sc) as (q & ->). now exists (x :: q). }
  destruct Sq as (q & Hq). apply bind_ok in E0 as [[l1 r1] [E1 E0]]. destruct (until_F_cut b r _ _ _ E1) as [(r2 & K1 & -> & q2 & K2)|K1]; rewrite K1; [|right; right; left; reflexivity].
  cbn [bind]. apply bind_ok in E0 as [t0 [-> E0]]. cbn [bind]. apply bind_ok in E0 as [i0 [-> E0]]. cbn [bind]. apply bind_ok in E0 as [t1 [-> E0]]. cbn [bind].
  apply bind_ok in E0 as [i1 [-> E0]]. cbn [bind]. apply bind_ok in E0 as [t2 [-> E0]]. cbn [bind]. apply bind_ok in E0 as [i2 [-> E0]]. cbn [bind]. apply ok_eq in E0.
  assert (i0 = nx /\ i1 = ny /\ i2 = nz /\ s = mkStream (r2 ++ b) true) as (-> & -> & -> & ->) by (repeat split; congruence). clear E0. cbn [pending nl] in *.
  assert (N1 : forall x, In x (r2 ++ b) -> starts_with x "INCLUDE" = false).
  { intros x Hx. apply NI. rewrite Hq, K2, <- !app_assoc. do 2 (apply in_or_app; right). exact Hx. }
  rewrite (no_include true (r2 ++ b)) in E by exact N1. rewrite (no_include true r2) by (intros x Hx; apply N1, in_or_app; now left). cbn [bind lookup] in *.
  (* pillars *)
  apply bind_ok in E as [[ps s1] [E2 E]]. unfold read_pillars, goto_keyword, goto_if in E2 |- *. cbn [pending nl] in *. rewrite scan_cut in E2.
  destruct (scan _ r2) as [[l3 r3]|] eqn:Sc3; [|right; left; reflexivity]. cbn [bind pending nl] in *.
  assert (Sq3 : exists q, r2 = q ++ r3).
  { clear -Sc3. revert Sc3. induction r2 as [|x a IH]; cbn [scan]; [discriminate|]. destruct (starts_with x _); intros Sc; [injection Sc as <- <-; now exists [x]|].
    destruct (IH Sc) as (q & ->). now exists (x :: q). }
  destruct Sq3 as (q3 & Hq3). unfold getline in *. cbn [pending nl] in *. destruct r3 as [|cur r3]; [right; right; left; reflexivity|]. cbn [app pending nl] in *.
  apply bind_ok in E2 as [[ps' r4] [E2 E3]]. apply ok_eq in E3. assert (ps' = ps /\ s1 = mkStream r4 true) as [-> ->] by (split; congruence). clear E3.
  destruct (pillars_cut F b _ _ r3 (le_n _) _ _ _ _ E2) as [(r5 & K3 & -> & _)|[K3|[K3 K4]]]; rewrite K3; cbn [bind]; [|auto|].
  2: { right. right. right. split; [reflexivity|]. rewrite Hq, K2, Hq3. do 3 apply half_app. exact K4. }
  (* depths *)
  apply bind_ok in E as [[ds s2] [E4 E]]. unfold read_depths, goto_keyword, goto_if in E4 |- *. cbn [pending nl] in *. rewrite scan_cut in E4.
  destruct (scan _ r5) as [[l6 r6]|]; [|right; left; reflexivity]. cbn [bind pending nl] in *.
  unfold getline in *. cbn [pending nl] in *. destruct r6 as [|cur6 r6]; [right; right; left; reflexivity|]. cbn [app pending nl] in *.
  apply bind_ok in E4 as [[ds' r7] [E4 E5]]. apply ok_eq in E5. assert (ds' = ds) as -> by congruence. clear E5.
  destruct (depths_cut F b _ _ _ _ _ _ E4) as [(r8 & K5)|K5]; rewrite K5; cbn [bind]; auto.
Qed.

(** What a truncated grid file should be: refused, or read in full. *)
Definition ex_load (data : list bytes) : res (Voxet ExNum) :=
  read_vo ExNum ex_dist Z.div (with_file (fun _ => None) (lit "dir/box.data") (unlines data)) (lit "dir/") (unlines (ex_vo "AXIS_U 4 0 0" "AXIS_V 0 9 0" "AXIS_N 2 3 1")).
Definition ex_data : list bytes := map lit ["*"; "* I J K por perm"; "*"; "0 0 0 1 2"; "1 2 0 3 4"].
Theorem C140_data_noticed_refuted : exists a b, Forall is_line (a ++ b) /\
  vo_is (ex_load (a ++ b)) (0, 0, 0) (2, 3, 1) (2, 3, 5)
    [(lit "por", [[1]; [0]; [0]; [0]; [0]; [3]]); (lit "perm", [[2]; [0]; [0]; [0]; [0]; [4]])] = true /\
  vo_is (ex_load a) (0, 0, 0) (2, 3, 1) (2, 3, 5)
    [(lit "por", [[1]; [0]; [0]; [0]; [0]; [0]]); (lit "perm", [[2]; [0]; [0]; [0]; [0]; [0]])] = true.
Proof.
  exists (firstn 4 ex_data), (skipn 4 ex_data). rewrite firstn_skipn. split; [|split; vm_compute; reflexivity].
  apply Forall_forall. intros l H. apply lineb_ok. revert l H. apply forallb_forall. vm_compute. reflexivity.
Qed.
Definition ex_cells (ls : list bytes) : res (list (gpoint ExNum) * list (list Z)) := read_grdecl ExNum ZArith_ops no_colocation no_files (unlines ls).
Definition is_loaded {A} (r : res A) : bool := match r with Ok _ => true | _ => false end.
Definition is_endless {A} (r : res A) : bool := match r with Hang => true | _ => false end.
Definition is_undefined {A} (r : res A) : bool := match r with UB => true | _ => false end.
Lemma loaded_ok {A} (r : res A) : is_loaded r = true -> exists x, r = Ok x. Proof. destruct r; [eauto|discriminate..]. Qed.
Lemma endless_ok {A} (r : res A) : is_endless r = true -> r = Hang. Proof. destruct r; [discriminate..|reflexivity]. Qed.
Lemma undefined_ok {A} (r : res A) : is_undefined r = true -> r = UB. Proof. destruct r; [discriminate|discriminate|reflexivity|discriminate]. Qed.
Theorem C140_grdecl_ends_refuted :
  exists a b g, Forall is_line (a ++ b) /\ ex_cells (a ++ b) = Ok g /\ ex_cells a = Hang.
Proof.
  assert (T : is_loaded (ex_cells ex_grid) = true) by (vm_compute; reflexivity). apply loaded_ok in T as [g T].
  exists (firstn 11 ex_grid), (skipn 11 ex_grid), g. rewrite firstn_skipn. split; [|split; [exact T|apply endless_ok; vm_compute; reflexivity]].
  apply Forall_forall. intros l H. apply lineb_ok. revert l H. apply forallb_forall. vm_compute. reflexivity.
Qed.
Theorem C140_grdecl_safe_refuted :
  exists a b g, Forall is_line (a ++ b) /\ ex_cells (a ++ b) = Ok g /\ ex_cells a = UB.
Proof.
  assert (T : is_loaded (ex_cells ex_grid) = true) by (vm_compute; reflexivity). apply loaded_ok in T as [g T].
  exists (firstn 8 ex_grid), (skipn 8 ex_grid), g. rewrite firstn_skipn. split; [|split; [exact T|apply undefined_ok; vm_compute; reflexivity]].
  apply Forall_forall. intros l H. apply lineb_ok. revert l H. apply forallb_forall. vm_compute. reflexivity.
Qed.

Print Assumptions C140_voxet.
Print Assumptions C140_voxet_data.
Print Assumptions C140_grdecl.
Print Assumptions C140_data_noticed_refuted.
Print Assumptions C140_grdecl_ends_refuted.
Print Assumptions C140_grdecl_safe_refuted.

(** The hypotheses of the three theorems hold, for the last lines of these files *)
Example C140_case : exists g m v,
  (forall l, In l (firstn 17 ex_grid ++ skipn 17 ex_grid) -> starts_with l "INCLUDE" = false) /\
  ex_cells (firstn 17 ex_grid ++ skipn 17 ex_grid) = Ok g /\ ex_cells (firstn 18 ex_grid) = Ok g /\
  ex_load (firstn 4 ex_data ++ skipn 4 ex_data) = Ok m /\ ex_load (firstn 4 ex_data) = Ok v /\
  same_grid v m /\ cell_value v (lit "por") 0 = cell_value m (lit "por") 0.
Proof.
  assert (Lg : Forall is_line ex_grid) by (apply Forall_forall; intros l H; apply lineb_ok; revert l H; apply forallb_forall; vm_compute; reflexivity).
  assert (Ld : Forall is_line ex_data) by (apply Forall_forall; intros l H; apply lineb_ok; revert l H; apply forallb_forall; vm_compute; reflexivity).
  assert (Ni : forall l, In l ex_grid -> starts_with l "INCLUDE" = false).
  { intros l H. apply negb_true_iff. revert l H. apply forallb_forall. vm_compute. reflexivity. }
  assert (T : is_loaded (ex_cells ex_grid) = true) by (vm_compute; reflexivity). apply loaded_ok in T as [g T].
  assert (D : is_loaded (ex_load ex_data) = true) by (vm_compute; reflexivity). apply loaded_ok in D as [m D].
  rewrite !firstn_skipn. exists g, m.
  assert (T' : ex_cells (firstn 18 ex_grid ++ skipn 18 ex_grid) = Ok g) by (rewrite firstn_skipn; exact T).
  assert (D' : ex_load (firstn 4 ex_data ++ skipn 4 ex_data) = Ok m) by (rewrite firstn_skipn; exact D).
  assert (V : is_loaded (ex_load (firstn 4 ex_data)) = true) by (vm_compute; reflexivity). apply loaded_ok in V as [v V]. exists v.
  split; [exact Ni|]. split; [exact T|]. split.
  - assert (Q : is_loaded (ex_cells (firstn 18 ex_grid)) = true) by (vm_compute; reflexivity). apply loaded_ok in Q as [g' Q].
    destruct (C140_grdecl _ _ _ _ _ _ _ ltac:(rewrite firstn_skipn; exact Lg) ltac:(rewrite firstn_skipn; exact Ni) T') as [K|[K|[K|[K _]]]]; [exact K|exfalso; refine (_ (eq_trans (eq_sym Q) K)); intros C; discriminate C..].
  - split; [exact D|]. split; [exact V|].
    destruct (C140_voxet_data _ _ _ _ _ _ _ _ _ _ ltac:(rewrite firstn_skipn; exact Ld) D') as [K|(v' & K & G1 & G2)]; [exfalso; refine (_ (eq_trans (eq_sym V) K)); intros C; discriminate C|].
    assert (v' = v) as -> by (apply ok_eq; exact (eq_trans (eq_sym K) V)). split; [exact G1|]. apply G2; [lia|]. cbn [In skipn ex_data map].
    intros l [<-|[]] (ti & tj & tk & rest & i & j & k & Sp & Pi & Pj & Pk & C).
    assert (W : string_split (lit "1 2 0 3 4") = map lit ["1"; "2"; "0"; "3"; "4"]) by (vm_compute; reflexivity). rewrite W in Sp. cbn [map] in Sp. inversion Sp; subst.
    vm_compute in Pi, Pj, Pk. inversion Pi. inversion Pj. inversion Pk. subst.
    assert (Nv : v_n ExNum m = (2, 3, 1)).
    { assert (X : vo_is (ex_load ex_data) (0, 0, 0) (2, 3, 1) (2, 3, 5) [(lit "por", [[1]; [0]; [0]; [0]; [0]; [3]]); (lit "perm", [[2]; [0]; [0]; [0]; [0]; [4]])] = true) by (vm_compute; reflexivity).
      rewrite D in X. unfold vo_is in X. apply andb_prop in X as [X _]. apply andb_prop in X as [X _]. apply andb_prop in X as [_ X]. destruct (v_n ExNum m) as [[x y] z]. unfold zzz_eqb in X.
      apply andb_prop in X as [X1 X3]. apply andb_prop in X1 as [X1 X2]. apply Z.eqb_eq in X1, X2, X3. now subst. }
    rewrite Nv in C. vm_compute in C. discriminate C.
Qed.
