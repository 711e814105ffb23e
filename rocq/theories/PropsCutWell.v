(** * Well files cut short (C137).
    The three readers of wells on the beginning of a file that can be loaded. *)
From Coq Require Import ZArith List Lia Bool Ascii String.
From Verif Require Import Base Text TextFacts GocadModel MeshModel TsModel WellModel Spec GocadFacts TsFacts
  StreamFacts LsoAttrs ExNum ExCheck PropsTsVs PropsWell PropsValid PropsCut.
Import ListNotations.
Local Open Scope string_scope.
Local Open Scope list_scope.
Local Open Scope Z_scope.

(** ** Specification *)

(** [m'] is the beginning of the well [m]: same name, the first points of [m], at least one, joined by the segments between
    consecutive points, the same attributes, with the values of [m] on these points. *)
Definition beginning {F} (m' m : mesh F edge) : Prop :=
  m_name m' = m_name m /\
  (exists rest, m_points m = m_points m' ++ rest) /\ m_points m' <> [] /\ one_line m' /\
  map fst (m_attrs m') = map fst (m_attrs m) /\
  (forall n v x, (v < List.length (m_points m'))%nat -> attr_value m' n v = Some x -> attr_value m n v = Some x).

(** ** Proofs *)
Lemma ok_eq {A} (x y : A) : Ok x = Ok y -> x = y.
Proof. congruence. Qed.

(** What grows while the rows are read *)
Definition grows {F} (m m1 : mesh F edge) : Prop :=
  m_name m = m_name m1 /\ (exists rest, m_points m1 = m_points m ++ rest) /\ map fst (m_attrs m) = map fst (m_attrs m1) /\
  (forall n v x, (v < List.length (m_points m))%nat -> attr_value m n v = Some x -> attr_value m1 n v = Some x).
Lemma grows_refl {F} (m : mesh F edge) : grows m m.
Proof. repeat split; auto. exists []. now rewrite app_nil_r. Qed.
Lemma grows_trans {F} (a b c : mesh F edge) : grows a b -> grows b c -> grows a c.
Proof.
  intros (A1 & [r1 A2] & A3 & A4) (B1 & [r2 B2] & B3 & B4). split; [congruence|]. split; [exists (r1 ++ r2); rewrite B2, A2, app_assoc; reflexivity|].
  split; [congruence|]. intros n v x Hv E. apply B4; [rewrite A2, app_length; lia|]. now apply A4.
Qed.
Lemma find_attr_map {V} (f : attr V -> attr V) n l :
  find_attr n (map (fun na => (fst na, f (snd na))) l) = option_map f (find_attr n l).
Proof. unfold find_attr. induction l as [|[k b] l IH]; cbn [map find fst snd]; [reflexivity|]. destruct (beq k n); [reflexivity|exact IH]. Qed.
Lemma grows_point {F} (m : mesh F edge) p : grows m (create_point m p).
Proof.
  unfold grows, create_point. cbn [m_name m_points m_attrs]. split; [reflexivity|]. split; [eauto|]. split.
  - rewrite map_map. reflexivity.
  - intros n v x _ E. unfold attr_value in *. cbn [m_attrs].
    rewrite (find_attr_map (fun a => mkAttr (a_type a) (a_def a) (a_vals a ++ [a_def a]))). destruct (find_attr n (m_attrs m)) as [a|]; [|discriminate].
    cbn [option_map a_vals]. rewrite nth_error_app1; [exact E|]. apply nth_error_Some. congruence.
Qed.
Lemma grows_cells {F} (m : mesh F edge) m1 : m_name m = m_name m1 -> m_points m = m_points m1 -> m_attrs m = m_attrs m1 -> grows m m1.
Proof.
  intros E1 E2 E3. split; [exact E1|]. split; [exists []; rewrite app_nil_r; now symmetry|]. split; [now rewrite E3|]. intros n v x _. unfold attr_value. now rewrite E3.
Qed.
Lemma names_replace {V} n (a b : attr V) l : find_attr n l = Some b -> map fst (replace_attr n a l) = map fst l.
Proof.
  unfold find_attr. induction l as [|[k c] l IH]; cbn [find fst replace_attr map]; [discriminate|]. destruct (beq k n) eqn:E; cbn [map fst].
  - apply beq_eq in E as ->. reflexivity.
  - intros H. now rewrite (IH H).
Qed.
Lemma upd_other {A} (l : list A) i a j : i <> j -> nth_error (upd l i a) j = nth_error l j.
Proof. revert i j. induction l as [|y l IH]; intros [|i] [|j] H; cbn; auto; try congruence. Qed.

(** Values written on a vertex after the points of [m] *)
Lemma grows_value {F} (m m1 m2 : mesh F edge) n v x : grows m m1 -> lenz (m_points m) <= v -> set_value F m1 n v x = Ok m2 ->
  grows m m2 /\ m_points m2 = m_points m1 /\ m_cells m2 = m_cells m1.
Proof.
  intros (G1 & [r G2] & G3 & G4) Hv E. unfold set_value in E. destruct (find_attr n (m_attrs m1)) as [a|] eqn:Ef; [|discriminate].
  apply bind_ok in E as [vals [Es E]]. injection E as <-. split; [|auto]. unfold setz in Es. destruct (_ && _); [|discriminate]. injection Es as <-.
  split; [exact G1|]. split; [exists r; exact G2|]. split.
  - cbn [set_attr_list m_attrs]. now rewrite (names_replace _ _ _ _ Ef).
  - intros k w y Hw Ey. specialize (G4 k w y Hw Ey). unfold attr_value in *. cbn [set_attr_list m_attrs].
    destruct (beq n k) eqn:Q.
    + apply beq_eq in Q as <-. rewrite find_replace_same. cbn [a_vals]. rewrite Ef in G4. rewrite upd_other; [exact G4|]. unfold lenz in Hv. lia.
    + rewrite find_replace_other; [exact G4|]. intros ->. rewrite beq_refl in Q. discriminate.
Qed.
Lemma dev_row_grows {F} h (m m' : mesh F edge) l : dev_row F h m l = Ok m' -> m_cells m = [] -> grows m m' /\ m_cells m' = [] /\ m_points m' <> [].
Proof.
  intros E C. unfold dev_row in E. cbv zeta in E.
  apply bind_ok in E as [u [_ E]]. apply bind_ok in E as [x [_ E]]. apply bind_ok in E as [y [_ E]]. apply bind_ok in E as [z [_ E]].
  apply bind_ok in E as [[m1 k] [E1 E]]. injection E as <-.
  apply (foldM_keeps _ (fun st => grows m (fst st) /\ m_cells (fst st) = [] /\ m_points (fst st) <> [])) in E1; [exact E1| |].
  - clear. intros [m0 c] [i t] [m0' c'] (G & C & N) E. unfold dev_assign in E. destruct (_ || _ || _); [injection E as <- <-; auto|].
    apply bind_ok in E as [x [_ E]]. apply bind_ok in E as [n [_ E]]. apply bind_ok in E as [m1 [E1 E]]. injection E as <- <-. cbn [fst] in *.
    apply (grows_value m) in E1 as (G' & P & Q); [|exact G|unfold nb_vertices; lia]. rewrite P, Q. auto.
  - cbn [fst]. split; [apply grows_point|]. split; [exact C|]. cbn [create_point m_points]. intros X. now apply app_eq_nil in X.
Qed.
(** Rows read one after the other *)
Lemma rows_grow {F} (f : mesh F edge -> bytes -> res (mesh F edge)) :
  (forall m m' l, f m l = Ok m' -> m_cells m = [] -> grows m m' /\ m_cells m' = [] /\ m_points m' <> []) ->
  forall ls (m m' : mesh F edge), foldM f ls m = Ok m' -> m_cells m = [] -> grows m m' /\ m_cells m' = [] /\ (m_points m <> [] \/ ls <> [] -> m_points m' <> []).
Proof.
  intros H. induction ls as [|l ls IH]; intros m m' E C; cbn [foldM] in E.
  - injection E as <-. split; [apply grows_refl|]. split; [exact C|]. tauto.
  - apply bind_ok in E as [m1 [E1 E]]. destruct (H _ _ _ E1 C) as (G & C1 & N1). destruct (IH _ _ E C1) as (G' & C' & N').
    split; [eapply grows_trans; eassumption|]. split; [exact C'|]. intros _. apply N'. now left.
Qed.
Lemma chain_one {F} (m : mesh F edge) n : n = List.length (m_points m) -> m_cells m = chain n -> one_line m.
Proof.
  intros -> E. unfold one_line. rewrite E. unfold chain. generalize (List.length (m_points m) - 1)%nat. intros k.
  assert (R : forall s k, rangez (Z.of_nat s) k = map Z.of_nat (seq s k)).
  { intros s j. revert s. induction j as [|j IH]; intros s; cbn [rangez seq map]; [reflexivity|]. f_equal. rewrite <- IH. f_equal. lia. }
  change 0 with (Z.of_nat 0). rewrite R, map_map. reflexivity.
Qed.
(** The edges made after the rows *)
Lemma edges_after {F} (m1 m2 m : mesh F edge) : grows m1 m2 -> m_cells m1 = [] -> create_edges F m2 = Ok m -> m_points m1 <> [] -> lenz (m_points m) < two32 ->
  exists m', create_edges F m1 = Ok m' /\ beginning m' m.
Proof.
  intros (G1 & [r G2] & G3 & G4) C E N L.
  assert (K : m_points m = m_points m2 /\ m_name m = m_name m2 /\ m_attrs m = m_attrs m2).
  { unfold create_edges in E. revert E. generalize (rangez 0 (Z.to_nat (sub32 (nb_vertices m2) 1))). clear. intros l. revert m2.
    induction l as [|i l IH]; intros m2 E; cbn [foldM] in E; [injection E as <-; auto|]. apply bind_ok in E as [m3 [E3 E]].
    unfold create_edge in E3. destruct (_ && _); [|discriminate]. injection E3 as <-. apply IH in E. exact E. }
  destruct K as (K1 & K2 & K3). destruct m1 as [n1 p1 c1 a1]. cbn [m_name m_points m_cells m_attrs] in *. subst c1.
  assert (L1 : lenz p1 < two32) by (rewrite K1, G2 in L; unfold lenz in *; rewrite app_length in L; lia).
  exists (mkMesh n1 p1 (chain (List.length p1)) a1). split; [now apply create_edges_ok|]. unfold beginning. cbn [m_name m_points m_attrs].
  split; [congruence|]. split; [exists r; congruence|]. split; [exact N|]. split; [eapply chain_one; reflexivity|]. split; [congruence|].
  intros n v x Hv Ex. unfold attr_value at 1. rewrite K3. change (attr_value m2 n v = Some x). now apply G4.
Qed.

(** ** .dat and .txt files: one point for each line that is left *)
Theorem C137_rows : forall (F : Num) (name : bytes) (a b : list bytes) (m : mesh F edge),
  Forall is_line (a ++ b) -> lenz (a ++ b) < two32 -> a <> [] ->
  read_well F name (unlines (a ++ b)) = Ok m ->
  exists m', read_well F name (unlines a) = Ok m' /\ beginning m' m /\ List.length (m_points m') = List.length a.
Proof.
  intros F name a b m Hf Hl Na E. unfold read_well in *. pose proof (proj1 (proj1 (Forall_app _ _ _) Hf)) as Ha.
  rewrite open_unlines in * by assumption. cbn [pending] in *.
  apply bind_ok in E as [m2 [E2 E]]. unfold read_rows in *. rewrite foldM_app in E2. apply bind_ok in E2 as [m1 [E1 E2]].
  assert (St : forall (m m' : mesh F edge) l, (do p <- read_coord F l 0; Ok (create_point m p)) = Ok m' -> m_cells m = [] -> grows m m' /\ m_cells m' = [] /\ m_points m' <> []).
  { clear. intros m m' l E C. apply bind_ok in E as [p [_ E]]. injection E as <-. split; [apply grows_point|]. split; [exact C|]. cbn [create_point m_points]. intros X. now apply app_eq_nil in X. }
  assert (Ct : forall ls (m m' : mesh F edge), foldM (fun m l => do p <- read_coord F l 0; Ok (create_point m p)) ls m = Ok m' -> List.length (m_points m') = (List.length (m_points m) + List.length ls)%nat).
  { clear. induction ls as [|l ls IH]; intros m m' E; cbn [foldM] in E; [injection E as <-; cbn; lia|]. apply bind_ok in E as [m1 [E1 E]]. apply bind_ok in E1 as [p [_ E1]]. injection E1 as <-.
    rewrite (IH _ _ E). cbn [create_point m_points]. rewrite app_length. cbn [List.length]. lia. }
  rewrite E1. cbn [bind].
  destruct (rows_grow _ St _ _ _ E1 eq_refl) as (G1 & C1 & N1). destruct (rows_grow _ St _ _ _ E2 C1) as (G2 & _ & _).
  destruct (edges_after m1 m2 m G2 C1 E) as (m' & Em & Bm).
  - apply N1. now right.
  - assert (P : m_points m = m_points m2) by (unfold create_edges in E; apply edges_done in E as (P & _); exact P).
    rewrite P. apply Ct in E1, E2. cbn in E1. unfold lenz in *. rewrite app_length in Hl. lia.
  - exists m'. split; [exact Em|]. split; [exact Bm|]. unfold create_edges in Em. apply edges_done in Em as (P & _). rewrite P. apply Ct in E1. exact E1.
Qed.
Print Assumptions C137_rows.

(** ** .dev files *)
Lemma dev_header_cut a b : forall fp h h1 r1, dev_header_loop fp h (a ++ b) = Ok (h1, r1) ->
  dev_header_loop fp h a = Throw ExData \/
  (exists r2, dev_header_loop fp h a = Ok (h1, r2) /\ r1 = r2 ++ b /\ exists a0 l, a = a0 ++ l :: r2 /\ starts_with l "#===" = true).
Proof.
  induction a as [|l a IH]; intros fp h h1 r1 E; [now left|]. cbn [app dev_header_loop] in *.
  assert (W : forall fp h, dev_header_loop fp h (a ++ b) = Ok (h1, r1) -> dev_header_loop fp h a = Throw ExData \/
    (exists r2, dev_header_loop fp h a = Ok (h1, r2) /\ r1 = r2 ++ b /\ exists a0 l0, l :: a = a0 ++ l0 :: r2 /\ starts_with l0 "#===" = true)).
  { intros fp0 h0 E0. destruct (IH _ _ _ _ E0) as [K|(r2 & K1 & K2 & a0 & l0 & K3 & K4)]; [now left|]. right. exists r2. repeat split; auto. exists (l :: a0), l0. rewrite K3. auto. }
  destruct (starts_with l "#===") eqn:Q.
  - destruct fp; [now apply W|]. apply ok_eq in E. right. exists a. injection E as E1 E2. subst. split; [reflexivity|]. split; [reflexivity|]. exists [], l. auto.
  - destruct (starts_with l "# WELL NAME:").
    + apply bind_ok in E as [n [En E]]. rewrite En. cbn [bind]. now apply W.
    + destruct fp; [now apply W|]. apply bind_ok in E as [n [En E]]. rewrite En. cbn [bind]. now apply W.
Qed.
Lemma attributes_empty {F} ns : forall m m' : mesh F edge, dev_create_attributes F ns m = Ok m' -> m_points m' = m_points m /\ m_cells m' = m_cells m.
Proof.
  unfold dev_create_attributes. induction ns as [|n ns IH]; intros m m' E; cbn [foldM] in E; [injection E as <-; auto|]. apply bind_ok in E as [m1 [E1 E]].
  apply bind_ok in E1 as [x [_ E1]]. injection E1 as <-. apply IH in E. exact E.
Qed.
(** Undefined behaviour (the finding of C21) is met only when nothing is left after the header. *)
Theorem C137_dev : forall (F : Num) (a b : list bytes) (m : mesh F edge),
  Forall is_line (a ++ b) -> lenz (m_points m) < two32 ->
  read_dev F (unlines (a ++ b)) = Ok m ->
  read_dev F (unlines a) = Throw ExData \/
  (exists m', read_dev F (unlines a) = Ok m' /\ beginning m' m) \/
  (read_dev F (unlines a) = UB /\ exists a0 l, a = a0 ++ [l] /\ starts_with l "#===" = true).
Proof.
  intros F a b m Hf Hl E. pose proof (proj1 (proj1 (Forall_app _ _ _) Hf)) as Ha. unfold read_dev in *. rewrite open_unlines in * by assumption.
  unfold check_keyword in *. cbn [pending] in *. destruct a as [|l a]; [now left|]. cbn [app] in E.
  destruct (starts_with l _); [|discriminate]. cbn [bind pending] in *. apply bind_ok in E as [[h r1] [E1 E]].
  destruct (dev_header_cut a b _ _ _ _ E1) as [K|(r2 & K1 & K2 & a0 & l0 & K3 & K4)]; [left; rewrite K; reflexivity|].
  rewrite K1. cbn [bind]. apply bind_ok in E as [m1 [E2 E]]. rewrite E2. cbn [bind]. rewrite K2, foldM_app in E.
  rewrite bind_assoc in E. apply bind_ok in E as [m2 [E3 E]]. apply bind_ok in E as [m3 [E4 E]].
  rewrite E3. cbn [bind]. destruct (attributes_empty _ _ _ E2) as [P1 C1].
  assert (C1' : m_cells m1 = []) by (rewrite C1; reflexivity). assert (P1' : m_points m1 = []) by (rewrite P1; reflexivity).
  destruct (rows_grow _ (fun m m' l => dev_row_grows h m m' l) _ _ _ E3 C1') as (_ & C2 & N2).
  destruct (rows_grow _ (fun m m' l => dev_row_grows h m m' l) _ _ _ E4 C2) as (G & _ & _).
  destruct r2 as [|x r2].
  - right. right. cbn [foldM] in E3. injection E3 as <-. split.
    + destruct m1 as [n p c t]. cbn [m_points m_cells] in *. subst. apply create_edges_nothing.
    + exists (l :: a0), l0. rewrite K3. auto.
  - right. left. destruct (edges_after m2 m3 m G C2 E) as (m' & Em & Bm); [apply N2; right; discriminate|exact Hl|]. eauto.
Qed.
Print Assumptions C137_dev.

(** ** .wl files *)
Lemma paths_grow {F} crs ref b a : forall m m' : mesh F edge, paths_loop F crs ref (a ++ b) m = Ok m' -> exists m1, paths_loop F crs ref a m = Ok m1 /\ grows m1 m' /\ lenz (m_points m) <= lenz (m_points m1) <= lenz (m_points m').
Proof.
  assert (W : forall ls (m m' : mesh F edge), paths_loop F crs ref ls m = Ok m' -> grows m m').
  { induction ls as [|l ls IH]; intros m m' E; cbn [paths_loop] in E; [injection E as <-; apply grows_refl|]. destruct (starts_with l "PATH"); [|injection E as <-; apply grows_refl].
    apply bind_ok in E as [[[t0 t1] t2] [_ E]]. destruct ref as [[rx ry] rz]. cbv zeta in E. apply bind_ok in E as [m2 [E2 E]]. unfold create_edge in E2. destruct (_ && _); [|discriminate].
    injection E2 as <-. eapply grows_trans; [|apply (IH _ _ E)]. eapply grows_trans; [apply grows_point|]. apply grows_cells; reflexivity. }
  assert (Le : forall m m' : mesh F edge, grows m m' -> lenz (m_points m) <= lenz (m_points m')).
  { intros m m' (_ & [r H] & _). rewrite H. unfold lenz. rewrite app_length. lia. }
  induction a as [|l a IH]; intros m m' E.
  - exists m. split; [reflexivity|]. split; [exact (W _ _ _ E)|]. split; [lia|]. apply Le. exact (W _ _ _ E).
  - cbn [app paths_loop] in *. destruct (starts_with l "PATH").
    2: { injection E as <-. exists m. split; [reflexivity|]. split; [apply grows_refl|lia]. }
    apply bind_ok in E as [[[t0 t1] t2] [E0 E]]. rewrite E0. cbn [bind]. destruct ref as [[rx ry] rz]. cbv zeta in *. apply bind_ok in E as [m2 [E2 E]]. rewrite E2. cbn [bind].
    destruct (IH _ _ E) as (m1 & K1 & K2 & K3). exists m1. split; [exact K1|]. split; [exact K2|]. split; [|apply K3].
    unfold create_edge in E2. destruct (_ && _); [|discriminate]. injection E2 as <-. cbn [add_cell create_point m_points] in K3. unfold lenz in *. rewrite app_length in K3. lia.
Qed.
Theorem C137_wl : forall (F : Num) (a b : list bytes) (m : mesh F edge),
  Forall is_line (a ++ b) -> lenz (m_points m) <= two32 ->
  read_wl F (unlines (a ++ b)) = Ok m ->
  read_wl F (unlines a) = Throw ExData \/ exists m', read_wl F (unlines a) = Ok m' /\ beginning m' m.
Proof.
  intros F a b m Hf Hl E. pose proof (proj1 (proj1 (Forall_app _ _ _) Hf)) as Ha. pose proof E as E0.
  assert (Q : read_wl F (unlines a) = Throw ExData \/ exists m', read_wl F (unlines a) = Ok m' /\ grows m' m).
  { unfold read_wl in *. unfold goto_if in *. rewrite open_unlines in * by assumption. cbn [pending] in *. rewrite scan_cut in E.
    destruct (scan _ a) as [[l r]|]; [|now left].
    set (s := mkStream (r ++ b) _) in E. set (t := mkStream r _).
    assert (P : pending s = pending t ++ b) by reflexivity.
    apply bind_ok in E as [[name s1] [E1 E]]. pose proof (header_cut b s t P) as K1. rewrite E1 in K1. destruct K1 as [(t1 & K1 & P1)|K1]; rewrite K1; cbn [bind]; [|now left].
    cbv zeta in *. apply bind_ok in E as [[crs s2] [E2 E]]. apply bind_ok in E as [[ref s3] [E3 E]]. apply bind_ok in E as [[k s4] [E4 E]].
    unfold read_ref in *.
    pose proof (crs_cut b s1 t1 P1) as K2. rewrite E2 in K2. destruct K2 as [(t2 & K2 & P2)|[(y & t2 & K2 & P2)|K2]]; rewrite K2; cbn [bind].
    2: { left. rewrite (goto_stuck _ _ P2). reflexivity. }
    2: now left.
    apply bind_ok in E3 as [[wl s5] [E5 E3]]. pose proof (goto_cut "WREF" b s2 t2 P2) as K3. rewrite E5 in K3. destruct K3 as [(t3 & K3 & P3)|K3]; rewrite K3; cbn [bind]; [|now left].
    apply bind_ok in E3 as [[[x y] z] [E6 E3]]. rewrite E6. cbn [bind]. apply ok_eq in E3. assert (ref = (x, y, signed F crs z) /\ s3 = s5) as [-> ->] by (split; congruence).
    pose proof (goto_cut "PATH" b s5 t3 P3) as K4. rewrite E4 in K4. destruct K4 as [(t4 & K4 & P4)|K4]; rewrite K4; cbn [bind]; [|now left].
    right. rewrite P4 in E. destruct (paths_grow _ _ _ _ _ _ E) as (m1 & Q1 & Q2 & _). eauto. }
  destruct Q as [Q|(m' & Q & G1 & [r G2] & G3 & G4)]; [now left|]. right. exists m'. split; [exact Q|].
  assert (L' : lenz (m_points m') <= two32) by (rewrite G2 in Hl; unfold lenz in *; rewrite app_length in Hl; lia).
  destruct (C118_wl F _ _ Q L') as (_ & O & N). unfold beginning. repeat split; eauto.
Qed.
Print Assumptions C137_wl.

(** ** Refuted: a well cut short is told from a whole one.  All three formats load a shorter trajectory silently, even without
    the END line of GOCAD. *)
Theorem C137_noticed_refuted :
  exists a b m m', Forall is_line (a ++ b) /\ end_line (last b []) /\ (forall l, In l a -> ~ end_line l) /\
    read_wl ExNum (unlines (a ++ b)) = Ok m /\ read_wl ExNum (unlines a) = Ok m' /\ (List.length (m_points m') < List.length (m_points m))%nat.
Proof.
  exists (firstn 11 ex_wl), (skipn 11 ex_wl). rewrite firstn_skipn.
  assert (T : match read_wl ExNum (unlines ex_wl), read_wl ExNum (unlines (firstn 11 ex_wl)) with
      | Ok x, Ok y => Nat.ltb (List.length (m_points y)) (List.length (m_points x)) | _, _ => false end = true) by (vm_compute; reflexivity).
  destruct (read_wl ExNum (unlines ex_wl)) as [m| | |]; [|discriminate T..].
  destruct (read_wl ExNum (unlines (firstn 11 ex_wl))) as [m'| | |]; [|discriminate T..].
  exists m, m'. split; [repeat (apply Forall_cons; [apply lineb_ok; reflexivity|]); constructor|]. split; [exists []; vm_compute; reflexivity|]. split.
  - assert (B : forallb (fun l => match string_split l with k :: _ => negb (beq k "END") | [] => true end) (firstn 11 ex_wl) = true) by (vm_compute; reflexivity).
    rewrite forallb_forall in B. intros l Hl [ts Hs]. apply B in Hl. rewrite Hs in Hl. discriminate.
  - split; [reflexivity|]. split; [reflexivity|].
    now apply Nat.ltb_lt.
Qed.
Print Assumptions C137_noticed_refuted.

(** A case for each theorem *)
Example C137_case :
  (mesh_is zz_eqb (read_wl ExNum (unlines (firstn 11 ex_wl))) (Some (lit "my well")) [(100, 200, -7); (101, 202, -10)] [(0, 1)] [] = true /\
   is_Throw (read_wl ExNum (unlines (firstn 9 ex_wl))) = true) /\
  (let rows := map lit ["1 2 3"; "  4 5   6"; "7 8 -9"] in
   mesh_is zz_eqb (read_well ExNum "w" (unlines (firstn 2 rows))) (Some (lit "w")) [(1, 2, 3); (4, 5, 6)] [(0, 1)] [] = true) /\
  (let dev := ex_dev ["1 2 3 4 5"; "10 20 30 40 50"] in
   mesh_is zz_eqb (read_dev ExNum (unlines (firstn 7 dev))) (Some (lit "my")) [(3, 5, 2)] [] [(lit "MD", [[1]]); (lit "GR", [[4]])] = true /\
   is_Throw (read_dev ExNum (unlines (firstn 5 dev))) = true).
Proof. repeat split; vm_compute; reflexivity. Qed.
