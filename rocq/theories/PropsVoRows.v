(** * The rows of a Voxet data file may come in any order (C152). *)
From Coq Require Import ZArith List Lia Bool Ascii String Permutation.
From Verif Require Import Base Text TextFacts GocadModel MeshModel TsModel WellModel VoModel Spec GocadFacts TsFacts
  StreamFacts PropsWellOut PropsVo PropsVoOut ExNum ExCheck.
Import ListNotations.
Local Open Scope string_scope.
Local Open Scope list_scope.
Local Open Scope Z_scope.

(** ** Specification *)
(** The three numbers a row begins with. *)
Definition row_numbers (l : bytes) : list (res Z) := map string_to_index (firstn 3 (string_split l)).
(** The same files, but for the rows (the lines from the fourth one on) of one of them, which come in another order. *)
Definition rows_moved (files files' : bytes -> option bytes) (rows : list bytes) : Prop :=
  exists p d0 d1 d2 rows', Permutation rows rows' /\ Forall is_line (d0 :: d1 :: d2 :: rows) /\
    files p = Some (unlines (d0 :: d1 :: d2 :: rows)) /\ files' p = Some (unlines (d0 :: d1 :: d2 :: rows')) /\
    forall f, f <> p -> files' f = files f.

(** ** Steps that commute *)
Lemma bind_ok {A B} (x : res A) (f : A -> res B) y : bind x f = Ok y -> exists a, x = Ok a /\ f a = Ok y.
Proof. destruct x; try discriminate. cbn. eauto. Qed.
Section Swap.
Context {M A : Type} (f : M -> A -> res M) (Inv : M -> Prop) (Hinv : forall m a m', Inv m -> f m a = Ok m' -> Inv m').
Definition swaps (x y : A) : Prop := forall m m1 m2, Inv m -> f m x = Ok m1 -> f m1 y = Ok m2 -> exists m1', f m y = Ok m1' /\ f m1' x = Ok m2.
Lemma foldM_inv l : forall m m', Inv m -> foldM f l m = Ok m' -> Inv m'.
Proof.
  induction l as [|a l IH]; intros m m' I H; cbn [foldM] in H; [injection H as <-; exact I|].
  apply bind_ok in H as (m1 & H1 & H2). eapply IH; [|exact H2]. eapply Hinv; eauto.
Qed.
Lemma foldM_past x l : Forall (swaps x) l -> forall m m1 m2, Inv m -> f m x = Ok m1 -> foldM f l m1 = Ok m2 ->
  exists m1', foldM f l m = Ok m1' /\ f m1' x = Ok m2.
Proof.
  induction 1 as [|y l H _ IH]; intros m m1 m2 I H1 H2; cbn [foldM] in *.
  - injection H2 as <-. eauto.
  - apply bind_ok in H2 as (m3 & H3 & H4). destruct (H m m1 m3 I H1 H3) as (m1' & E1 & E2). rewrite E1. cbn [bind].
    eapply IH; [eapply Hinv; eauto|exact E2|exact H4].
Qed.
(** Two lists of steps. *)
Lemma foldM_swap l1 l2 : (forall x y, In x l1 -> In y l2 -> swaps x y) -> forall m m1 m2, Inv m -> foldM f l1 m = Ok m1 -> foldM f l2 m1 = Ok m2 ->
  exists m1', foldM f l2 m = Ok m1' /\ foldM f l1 m1' = Ok m2.
Proof.
  induction l1 as [|x l1 IH]; intros Hs m m1 m2 I H1 H2; cbn [foldM] in *.
  - injection H1 as <-. eauto.
  - apply bind_ok in H1 as (m3 & H3 & H4).
    destruct (IH (fun a b Ha Hb => Hs a b (or_intror Ha) Hb) m3 m1 m2 (Hinv _ _ _ I H3) H4 H2) as (m4 & E1 & E2).
    destruct (foldM_past x l2) with (m := m) (m1 := m3) (m2 := m4) as (m5 & E3 & E4); auto.
    + apply Forall_forall. intros y Hy. apply Hs; [now left|exact Hy].
    + exists m5. split; [exact E3|]. rewrite E4. exact E2.
Qed.
(** A list of steps with different keys, in another order. *)
Lemma foldM_permuted {K} (key : A -> K) (P : A -> Prop) : (forall x y, P x -> P y -> key x <> key y -> swaps x y) ->
  forall l l', Permutation l l' -> Forall P l -> NoDup (map key l) -> forall m m', Inv m -> foldM f l m = Ok m' -> foldM f l' m = Ok m'.
Proof.
  intros Hs l l' Hp. induction Hp as [|x l l' Hp IH|x y l|l l1 l2 H1 IH1 H2 IH2]; intros HP Hk m m' I H.
  - exact H.
  - cbn [foldM map] in *. inversion HP; inversion Hk; subst. apply bind_ok in H as (m1 & E1 & E2). rewrite E1. cbn [bind].
    eapply IH; eauto.
  - cbn [foldM map] in *. inversion HP as [|? ? Py HP1]; subst. inversion HP1 as [|? ? Px HP2]; subst. inversion Hk as [|? ? N1 _]; subst.
    apply bind_ok in H as (m1 & E1 & E). apply bind_ok in E as (m2 & E2 & E3).
    destruct (Hs y x Py Px) with (m := m) (m1 := m1) (m2 := m2) as (m1' & S1 & S2); auto.
    { intros E. apply N1. left. now symmetry. }
    rewrite S1. cbn [bind]. rewrite S2. exact E3.
  - apply IH2; auto.
    + eapply Permutation_Forall; eauto.
    + eapply Permutation_NoDup; [apply Permutation_map; exact H1|exact Hk].
Qed.
End Swap.

(** ** Writing in two cells *)
Lemma upd_swap {A} (l : list A) : forall i j (a b : A), i <> j -> upd (upd l i a) j b = upd (upd l j b) i a.
Proof.
  induction l as [|x l IH]; intros [|i] [|j] a b H; try reflexivity; [congruence|]. cbn [upd]. f_equal. apply IH. congruence.
Qed.
Lemma setz_swap {A} (l l1 l2 : list A) i j a b : i <> j -> setz l i a = Ok l1 -> setz l1 j b = Ok l2 ->
  exists l1', setz l j b = Ok l1' /\ setz l1' i a = Ok l2.
Proof.
  unfold setz. intros N H1 H2. destruct (_ && _) eqn:Ei in H1; [|discriminate]. injection H1 as <-.
  rewrite upd_length in H2. destruct (_ && _) eqn:Ej in H2; [|discriminate]. injection H2 as <-. rewrite Ej. eexists. split; [reflexivity|].
  rewrite upd_length, Ei. f_equal. apply upd_swap.
  apply andb_true_iff in Ei as [Ei _], Ej as [Ej _]. apply Z.leb_le in Ei, Ej. intros E. apply N. now apply Z2Nat.inj.
Qed.
Section Attrs.
Context {V : Type}.
Lemma find_replace_same n (a : attr V) l : find_attr n (replace_attr n a l) = Some a.
Proof.
  unfold find_attr. induction l as [|[k b] l IH]; cbn [replace_attr find fst]; [now rewrite beq_refl|].
  destruct (beq k n) eqn:E; cbn [find fst]; [now rewrite beq_refl|]. now rewrite E.
Qed.
Lemma find_replace_other n k (a : attr V) l : n <> k -> find_attr k (replace_attr n a l) = find_attr k l.
Proof.
  intros N. unfold find_attr. induction l as [|[p b] l IH]; cbn [replace_attr find fst].
  - now rewrite (proj2 (beq_neq n k) N).
  - destruct (beq p n) eqn:E; cbn [find fst].
    + apply beq_eq in E as ->. now rewrite (proj2 (beq_neq n k) N).
    + destruct (beq p k); [reflexivity|exact IH].
Qed.
Lemma replace_same n (a b : attr V) l : replace_attr n b (replace_attr n a l) = replace_attr n b l.
Proof.
  induction l as [|[k c] l IH]; cbn [replace_attr]; [now rewrite beq_refl|].
  destruct (beq k n) eqn:E; cbn [replace_attr]; [now rewrite beq_refl|]. now rewrite E, IH.
Qed.
Lemma replace_swap n k (a b : attr V) l : n <> k -> find_attr n l <> None -> find_attr k l <> None ->
  replace_attr k b (replace_attr n a l) = replace_attr n a (replace_attr k b l).
Proof.
  intros N. unfold find_attr. induction l as [|[p c] l IH]; cbn [find fst option_map]; intros H1 H2; [congruence|].
  cbn [replace_attr]. destruct (beq p n) eqn:E1, (beq p k) eqn:E2; cbn [replace_attr].
  - apply beq_eq in E1, E2. congruence.
  - rewrite (proj2 (beq_neq n k) N), E1. reflexivity.
  - rewrite E2, (proj2 (beq_neq k n)) by congruence. reflexivity.
  - rewrite E1, E2. f_equal. apply IH; assumption.
Qed.
End Attrs.
Section Rows.
Context (F : Num).
Lemma vo_set_n m n c x m' : vo_set F m n c x = Ok m' -> v_n F m' = v_n F m.
Proof. unfold vo_set. destruct (find_attr _ _); [|discriminate]. intros H. apply bind_ok in H as (v & _ & H). now injection H as <-. Qed.
Lemma vo_set_swap m m1 m2 n c x n' c' x' : c <> c' -> vo_set F m n c x = Ok m1 -> vo_set F m1 n' c' x' = Ok m2 ->
  exists m1', vo_set F m n' c' x' = Ok m1' /\ vo_set F m1' n c x = Ok m2.
Proof.
  intros N. unfold vo_set. destruct (find_attr n (v_attrs F m)) as [a|] eqn:Ea; [|discriminate]. intros H.
  apply bind_ok in H as (v & Ev & H). injection H as <-. cbn [v_attrs v_name v_origin v_n v_len].
  destruct (beq n n') eqn:E.
  - apply beq_eq in E as <-. rewrite find_replace_same. cbn [a_vals a_type a_def]. intros H. apply bind_ok in H as (w & Ew & H). injection H as <-.
    rewrite Ea. destruct (setz_swap _ _ _ _ _ _ _ N Ev Ew) as (v' & E1 & E2). rewrite E1. cbn [bind]. eexists. split; [reflexivity|].
    cbn [v_attrs v_name v_origin v_n v_len]. rewrite find_replace_same. cbn [a_vals a_type a_def]. rewrite E2. cbn [bind]. now rewrite !replace_same.
  - apply beq_neq in E. rewrite find_replace_other by exact E. destruct (find_attr n' (v_attrs F m)) as [b|] eqn:Eb; [|discriminate].
    intros H. apply bind_ok in H as (w & Ew & H). injection H as <-. rewrite Ew. cbn [bind]. eexists. split; [reflexivity|].
    cbn [v_attrs v_name v_origin v_n v_len]. rewrite find_replace_other by congruence. rewrite Ea, Ev. cbn [bind].
    rewrite replace_swap by congruence. reflexivity.
Qed.
(** The steps of a row that has been recognised. *)
Definition value_step (tokens : list bytes) (c : Z) (m : Voxet F) (an : nat * bytes) : res (Voxet F) :=
  let '(a, n) := an in do t <- idx tokens (3 + a); do x <- string_to_double F t; vo_set F m n c x.
Lemma vo_row_ok names m l m' : vo_row F names m l = Ok m' -> exists i j k, index_line 0 l i j k /\ row_numbers l = [Ok i; Ok j; Ok k] /\
  foldM (value_step (string_split l) (cell_index (v_n F m) (i, j, k))) (combine (seq 0 (List.length names)) names) m = Ok m' /\
  forall m2 m2', v_n F m2 = v_n F m ->
    foldM (value_step (string_split l) (cell_index (v_n F m) (i, j, k))) (combine (seq 0 (List.length names)) names) m2 = Ok m2' ->
    vo_row F names m2 l = Ok m2'.
Proof.
  unfold vo_row. cbv zeta. intros H. apply bind_ok in H as (u & C & H). rewrite C. cbn [bind].
  apply bind_ok in H as (ti & Ti & H). apply bind_ok in H as (i & I & H). apply bind_ok in H as (tj & Tj & H). apply bind_ok in H as (j & J & H).
  apply bind_ok in H as (tk & Tk & H). apply bind_ok in H as (k & K & H). rewrite Ti, Tj, Tk. cbn [bind]. rewrite I. cbn [bind]. rewrite J. cbn [bind]. rewrite K. cbn [bind].
  exists i, j, k. unfold idx in Ti, Tj, Tk. unfold row_numbers.
  destruct (string_split l) as [|a [|b [|c r]]] eqn:Sp; cbn [nth_error] in *; try discriminate. injection Ti as <-. injection Tj as <-. injection Tk as <-.
  split; [|split; [|split]].
  - exists [], a, b, c, r. split; [exact Sp|]. split; [reflexivity|]. split; [now apply sti_is_index|]. split; now apply sti_is_index.
  - cbn [firstn map]. now rewrite I, J, K.
  - exact H.
  - intros m2 m2' En E. rewrite En. exact E.
Qed.
Lemma value_steps_n tokens c l : forall m m', foldM (value_step tokens c) l m = Ok m' -> v_n F m' = v_n F m.
Proof.
  induction l as [|[a n] l IH]; intros m m' H; cbn [foldM] in H; [now injection H as <-|].
  apply bind_ok in H as (m1 & H1 & H2). rewrite (IH _ _ H2). unfold value_step in H1. apply bind_ok in H1 as (t & _ & H1). apply bind_ok in H1 as (x & _ & H1).
  eapply vo_set_n; exact H1.
Qed.
Lemma value_steps_swap t t' c c' l l' : c <> c' -> forall m m1 m2, foldM (value_step t c) l m = Ok m1 -> foldM (value_step t' c') l' m1 = Ok m2 ->
  exists m1', foldM (value_step t' c') l' m = Ok m1' /\ foldM (value_step t c) l m1' = Ok m2.
Proof.
  intros N m m1 m2 H1 H2.
  pose (g (m : Voxet F) (s : bool * (nat * bytes)) := if fst s then value_step t c m (snd s) else value_step t' c' m (snd s)).
  assert (G1 : forall l m, foldM g (map (fun a => (true, a)) l) m = foldM (value_step t c) l m).
  { induction l0 as [|a r IH]; intros; cbn [map foldM]; [reflexivity|]. unfold g at 1. cbn [fst snd]. apply bind_ext. intros; apply IH. }
  assert (G2 : forall l m, foldM g (map (fun a => (false, a)) l) m = foldM (value_step t' c') l m).
  { induction l0 as [|a r IH]; intros; cbn [map foldM]; [reflexivity|]. unfold g at 1. cbn [fst snd]. apply bind_ext. intros; apply IH. }
  destruct (foldM_swap g (fun _ => True) (fun _ _ _ _ _ => I) (map (fun a => (true, a)) l) (map (fun a => (false, a)) l')) with (m := m) (m1 := m1) (m2 := m2) as (m1' & E1 & E2); auto.
  - intros x y Hx Hy. apply in_map_iff in Hx as (a & <- & _), Hy as (b & <- & _). intros w w1 w2 _ W1 W2. unfold g in *. cbn [fst snd] in *.
    destruct a as [a n], b as [b k]. unfold value_step in *.
    destruct (idx t (3 + a)); try discriminate. destruct (idx t' (3 + b)); try discriminate. cbn [bind] in *.
    destruct (string_to_double F a0); try discriminate. destruct (string_to_double F a1); try discriminate. cbn [bind] in *.
    eapply vo_set_swap; eassumption.
  - now rewrite G1.
  - now rewrite G2.
  - exists m1'. now rewrite <- G1, <- G2.
Qed.
Lemma vo_row_n names m l m' : vo_row F names m l = Ok m' -> v_n F m' = v_n F m.
Proof. intros H. apply vo_row_ok in H as (i & j & k & _ & _ & H & _). now apply value_steps_n in H. Qed.
Lemma vo_row_swaps names n x y : small_grid n -> about_grid n x -> about_grid n y -> row_numbers x <> row_numbers y ->
  swaps (vo_row F names) (fun m => v_n F m = n) x y.
Proof.
  intros Hs Hx Hy N m m1 m2 En H1 H2. pose proof (vo_row_n _ _ _ _ H1) as En1.
  apply vo_row_ok in H1 as (i & j & k & I1 & R1 & S1 & B1). apply vo_row_ok in H2 as (i' & j' & k' & I2 & R2 & S2 & B2).
  rewrite En1, En in *.
  assert (Nc : cell_index n (i, j, k) <> cell_index n (i', j', k')).
  { intros E. apply (cell_index_inj n) in E; [|now apply Hx|now apply Hy|exact Hs]. injection E as -> -> ->. congruence. }
  destruct (value_steps_swap _ _ _ _ _ _ Nc m m1 m2 S1 S2) as (m1' & E1 & E2). exists m1'. split.
  - apply B2; [congruence|exact E1].
  - apply B1; [|exact E2]. apply value_steps_n in E1. congruence.
Qed.
End Rows.
Lemma vo_attributes_n F names : forall m, v_n F (fold_left (vo_attribute F) names m) = v_n F m.
Proof. induction names as [|k names IH]; intros m; [reflexivity|]. cbn [fold_left]. rewrite IH. unfold vo_attribute. now destruct (find_attr _ _). Qed.
Lemma rows_n F names rows : forall m m', foldM (vo_row F names) rows m = Ok m' -> v_n F m' = v_n F m.
Proof.
  induction rows as [|l rows IH]; intros m m' H; cbn [foldM] in H; [now injection H as <-|].
  apply bind_ok in H as (m1 & H1 & H2). rewrite (IH _ _ H2). eapply vo_row_n; exact H1.
Qed.

(** C152.  A Voxet that is loaded, with one row for each cell that has values: the rows in any other order give the same Voxet. *)
Theorem C152_rows_in_any_order (F : Num) dist divn files files' folder text m rows :
  read_vo F dist divn files folder text = Ok m -> rows_moved files files' rows ->
  small_grid (v_n F m) -> Forall (about_grid (v_n F m)) rows -> NoDup (map row_numbers rows) ->
  read_vo F dist divn files' folder text = Ok m.
Proof.
  intros H (p & d0 & d1 & d2 & rows' & Hp & Hl & E & E' & Eo) Hs Ha Hk.
  assert (Hl' : Forall is_line (d0 :: d1 :: d2 :: rows')).
  { eapply Permutation_Forall; [|exact Hl]. now do 3 constructor. }
  revert H. unfold read_vo. destruct (goto_if _ _) as [[l|] s]; [|discriminate].
  intros H. apply bind_ok in H as ([nm s1] & E1 & H). rewrite E1. cbn [bind]. clear E1.
  apply bind_ok in H as ([crs s2] & E2 & H). rewrite E2. cbn [bind]. clear E2.
  apply bind_ok in H as ([g s3] & E3 & H). rewrite E3. cbn [bind]. clear E3. revert H.
  unfold read_data_file. destruct (get_data_file s3) as [[f|] s4]; [|discriminate].
  destruct (beq (folder ++ strip_cr f) p) eqn:B.
  - apply beq_eq in B. rewrite B, E, E'. rewrite !open_unlines by assumption. cbn [pending nl nth skipn].
    destruct (Nat.ltb _ 4); [discriminate|]. cbv zeta. intros H. pose proof (rows_n _ _ _ _ _ H) as En. rewrite vo_attributes_n in En.
    eapply (foldM_permuted (vo_row F _) (fun m0 => v_n F m0 = v_n F m)) with (key := row_numbers) (P := about_grid (v_n F m)); try eassumption.
    + intros a b c Ea Eb. rewrite <- Ea. eapply vo_row_n; exact Eb.
    + intros x y Px Py N. apply vo_row_swaps; assumption.
    + cbv beta. rewrite vo_attributes_n. now symmetry.
  - apply beq_neq in B. rewrite (Eo _ B). auto.
Qed.
Print Assumptions C152_rows_in_any_order.

(** A row that is refused is refused wherever it is: for a Voxet as in C109, the outcome does not depend on the order. *)
Theorem C152_same_outcome (F : Num) dist divn files files' folder (ls : list bytes) name o u v w n rest file data d0 d1 d2 rows rows' :
  Forall is_line ls -> vo_text F ls name o u v w n rest -> data_record rest file ->
  Forall is_line (d0 :: d1 :: d2 :: rows) -> data = unlines (d0 :: d1 :: d2 :: rows) ->
  Permutation rows rows' -> small_grid n -> Forall (about_grid n) rows -> NoDup (map row_numbers rows) ->
  files (folder ++ file) = Some data -> files' (folder ++ file) = Some (unlines (d0 :: d1 :: d2 :: rows')) -> (forall f, f <> folder ++ file -> files' f = files f) ->
  read_vo F dist divn files' folder (unlines ls) = read_vo F dist divn files folder (unlines ls).
Proof.
  intros Hl Ht Hr Hd -> Hp Hs Ha Hk E E' Eo.
  assert (Hd' : Forall is_line (d0 :: d1 :: d2 :: rows')) by (eapply Permutation_Forall; [|exact Hd]; now do 3 constructor).
  pose proof (C109_vo_outcome F dist divn files folder ls name o u v w n rest file _ d0 d1 (d2 :: rows) Hl Ht Hr E) as O.
  pose proof (C109_vo_outcome F dist divn files' folder ls name o u v w n rest file _ d0 d1 (d2 :: rows') Hl Ht Hr E') as O'.
  unfold text_lines in O, O'. rewrite open_unlines in O, O' by assumption. cbn [pending tl] in O, O'. specialize (O eq_refl Hs Ha). specialize (O' eq_refl Hs (Permutation_Forall Hp Ha)).
  cbv zeta in O, O'. destruct O as [O1 O2], O' as [O1' O2'].
  destruct (Nat.lt_ge_cases (List.length (string_split d1)) 4) as [L|L]; [now rewrite O1, O1'|].
  specialize (O2 L) as [O2 O3]. specialize (O2' L) as [O2' O3'].
  set (names := skipn 4 (string_split d1)) in *.
  set (g := described F dist divn name o u v w n).
  assert (R : vo_ready F n names (fold_left (vo_attribute F) names g)).
  { apply (vo_attributes_ready F n names []). split; [unfold g; destruct n as [[nx ny] nz]; reflexivity|].
    replace (v_attrs F g) with (@nil (bytes * attr (num F))) by (unfold g; destruct n as [[nx ny] nz]; reflexivity). split; constructor. }
  assert (D : Forall (good_row F (List.length names)) rows \/ Exists (fun l => ~ good_row F (List.length names) l) rows).
  { clear - Ha R Hs. induction Ha as [|l rows Hl _ IH]; [left; constructor|].
    destruct (vo_row_outcome F n names _ l Hs Hl R) as [[G _]|[G _]]; [|right; now left].
    destruct IH as [IH|IH]; [left; now constructor|right; now right]. }
  destruct D as [D|D].
  - destruct (O2 D) as (m & Em & En). rewrite Em. apply (C152_rows_in_any_order F dist divn files files' folder _ m rows); [exact Em| |now rewrite En|now rewrite En|exact Hk].
    exists (folder ++ file), d0, d1, d2, rows'. auto.
  - rewrite (O3 D). apply O3'. eapply Permutation_Exists; eassumption.
Qed.
Print Assumptions C152_same_outcome.

Lemma about_by n l i j k : row_numbers l = [Ok i; Ok j; Ok k] -> in_grid n (i, j, k) -> about_grid n l.
Proof.
  intros R G i' j' k' (ws & ta & tb & tc & r & E & L & (_ & A) & (_ & B) & (_ & C)). destruct ws; [|discriminate L].
  unfold row_numbers in R. rewrite E in R. cbn [app firstn map] in R. rewrite A, B, C in R. now injection R as -> -> ->.
Qed.

(** Two rows for the same cell: the order of the rows is part of the file (C22: the last one counts). *)
Theorem C152_two_rows_for_a_cell_refuted : exists files files' text rows, rows_moved files files' rows /\
  Forall (about_grid (2, 3, 1)) rows /\
  vo_is (read_vo ExNum ex_dist Z.div files "dir/" text) (0, 0, 0) (2, 3, 1) (2, 3, 5)
    [(lit "por", [[0]; [0]; [0]; [0]; [0]; [5]]); (lit "perm", [[0]; [0]; [0]; [0]; [0]; [6]])] = true /\
  vo_is (read_vo ExNum ex_dist Z.div files' "dir/" text) (0, 0, 0) (2, 3, 1) (2, 3, 5)
    [(lit "por", [[0]; [0]; [0]; [0]; [0]; [3]]); (lit "perm", [[0]; [0]; [0]; [0]; [0]; [4]])] = true.
Proof.
  exists (ex_files ["1 2 0 3 4"; "1 2 0 5 6"]), (ex_files ["1 2 0 5 6"; "1 2 0 3 4"]), (unlines (ex_vo "AXIS_U 4 0 0" "AXIS_V 0 9 0" "AXIS_N 2 3 1")), (map lit ["1 2 0 3 4"; "1 2 0 5 6"]).
  split; [|split; [|split; vm_compute; reflexivity]].
  - exists (lit "dir/box.data"), (lit "*"), (lit "* I J K por perm"), (lit "*"), (map lit ["1 2 0 5 6"; "1 2 0 3 4"]).
    split; [apply perm_swap|]. split; [repeat constructor; apply lineb_ok; vm_compute; reflexivity|]. split; [reflexivity|]. split; [reflexivity|].
    intros f N. apply beq_neq in N. unfold ex_files. now rewrite N.
  - repeat (apply Forall_cons; [eapply about_by; [vm_compute; reflexivity|cbn; lia]|]). constructor.
Qed.
Print Assumptions C152_two_rows_for_a_cell_refuted.

(** ** Instance *)
Example C152_case : let rows := map lit ["0 0 0 1 2"; "1 2 0 3 4"; "0 1 0 5 6"] in
  let files := ex_files ["0 0 0 1 2"; "1 2 0 3 4"; "0 1 0 5 6"] in let files' := ex_files ["0 1 0 5 6"; "0 0 0 1 2"; "1 2 0 3 4"] in
  rows_moved files files' rows /\ NoDup (map row_numbers rows) /\ Forall (about_grid (2, 3, 1)) rows /\ small_grid (2, 3, 1) /\
  vo_is (read_vo ExNum ex_dist Z.div files "dir/" (unlines (ex_vo "AXIS_U 4 0 0" "AXIS_V 0 9 0" "AXIS_N 2 3 1"))) (0, 0, 0) (2, 3, 1) (2, 3, 5)
    [(lit "por", [[1]; [0]; [5]; [0]; [0]; [3]]); (lit "perm", [[2]; [0]; [6]; [0]; [0]; [4]])] = true.
Proof.
  cbv zeta. split; [|split; [|split; [|split; [|vm_compute; reflexivity]]]].
  - exists (lit "dir/box.data"), (lit "*"), (lit "* I J K por perm"), (lit "*"), (map lit ["0 1 0 5 6"; "0 0 0 1 2"; "1 2 0 3 4"]).
    split; [apply Permutation_sym, (Permutation_middle (map lit ["0 0 0 1 2"; "1 2 0 3 4"]) [])|]. split; [repeat constructor; apply lineb_ok; vm_compute; reflexivity|].
    split; [reflexivity|]. split; [reflexivity|]. intros f N. apply beq_neq in N. unfold ex_files. now rewrite N.
  - repeat constructor; vm_compute; intuition discriminate.
  - repeat (apply Forall_cons; [eapply about_by; [vm_compute; reflexivity|cbn; lia]|]). constructor.
  - unfold small_grid, two32. cbn. lia.
Qed.
