(** * Voxets: cell values (C22, C23), geometry (C67), loadable and data files (C68). *)
From Coq Require Import ZArith List Lia Bool Ascii String.
From Verif Require Import Base Text TextFacts GocadModel MeshModel TsModel WellModel VoModel Spec GocadFacts TsFacts Sections
  PropsGocad PropsWell ExNum ExCheck.
Import ListNotations.
Local Open Scope string_scope.
Local Open Scope list_scope.
Local Open Scope Z_scope.

(** ** Specification *)
Definition in_grid (n ijk : Z * Z * Z) : Prop :=
  let '(nx, ny, nz) := n in let '(i, j, k) := ijk in 0 <= i < nx /\ 0 <= j < ny /\ 0 <= k < nz.
Definition is_index (t : bytes) (v : Z) : Prop := 0 <= v < two32 /\ string_to_index t = Ok v.
Definition index_line (k : nat) (l : bytes) (a b c : Z) : Prop :=
  exists ws ta tb tc r, string_split l = ws ++ ta :: tb :: tc :: r /\ List.length ws = k /\
    is_index ta a /\ is_index tb b /\ is_index tc c.
Section Spec.
Context (F : Num).
(** The lines of a .vo file up to the number of cells. *)
Record vo_text (ls : list bytes) (name : option bytes) (o u v w : point F) (n : Z * Z * Z) (rest : list bytes) : Prop := VT {
  vt : exists pre l0 hs cs up p1 lo p2 lu p3 lv p4 lw p5 ln,
    let after := p1 ++ lo :: p2 ++ lu :: p3 ++ lv :: p4 ++ lw :: p5 ++ ln :: rest in
    ls = pre ++ l0 :: hs ++ cs ++ after /\
    without "GOCAD Voxet" pre /\ starts_with l0 "GOCAD Voxet" = true /\
    header_section hs name /\ crs_section cs up after /\
    without "AXIS_O" p1 /\ starts_with lo "AXIS_O" = true /\ number_line F 1 lo [fst (fst o); snd (fst o); snd o] /\
    without "AXIS_U" p2 /\ starts_with lu "AXIS_U" = true /\ number_line F 1 lu [fst (fst u); snd (fst u); snd u] /\
    without "AXIS_V" p3 /\ starts_with lv "AXIS_V" = true /\ number_line F 1 lv [fst (fst v); snd (fst v); snd v] /\
    without "AXIS_W" p4 /\ starts_with lw "AXIS_W" = true /\ number_line F 1 lw [fst (fst w); snd (fst w); snd w] /\
    without "AXIS_N" p5 /\ starts_with ln "AXIS_N" = true /\ index_line 1 ln (fst (fst n)) (snd (fst n)) (snd n) }.
(** A row of the data file: the indices of a cell, then a number for each property. *)
Definition data_row (nb : nat) (l : bytes) (r : Z * Z * Z * list (num F)) : Prop :=
  let '((i, j, k), vs) := r in
  exists ti tj tk ts, string_split l = ti :: tj :: tk :: ts /\ is_index ti i /\ is_index tj j /\ is_index tk k /\
    numbers F ts vs /\ List.length vs = nb.
(** The data file: three lines of header, the second one ends with the names; then the rows. *)
Definition data_text (ls : list bytes) (names : list bytes) (rows : list (Z * Z * Z * list (num F))) : Prop :=
  exists d0 d1 d2 ds w0 w1 w2 w3, ls = d0 :: d1 :: d2 :: ds /\ Forall is_line ls /\
    string_split d1 = w0 :: w1 :: w2 :: w3 :: names /\ Forall2 (data_row (List.length names)) ds rows.
(** The values of the last row for a cell. *)
Fixpoint latest (rows : list (Z * Z * Z * list (num F))) (c : Z * Z * Z) : option (list (num F)) :=
  match rows with
  | [] => None
  | (c', vs) :: r =>
    match latest r c with
    | Some w => Some w
    | None => if zzz_eqb c' c then Some vs else None
    end
  end.
(** The value of a property on a cell. *)
Definition vo_value (m : Voxet F) (name : bytes) (ijk : Z * Z * Z) : option (list (num F)) :=
  match find_attr name (v_attrs F m) with
  | Some a => nthz (a_vals a) (cell_index (v_n F m) ijk)
  | None => None
  end.
(** The file whose name ends the data file record. *)
Definition data_record (rest : list bytes) (name : bytes) : Prop :=
  exists pre l r, rest = pre ++ l :: r /\ without "ASCII_DATA_FILE" pre /\
    (l = lit "ASCII_DATA_FILE " ++ name \/ l = lit "ASCII_DATA_FILE " ++ QUOTE :: name ++ [QUOTE] \/
     l = lit "ASCII_DATA_FILE " ++ name ++ [ascii_of_nat 13]) /\
    (forall a b, name = a ++ b -> starts_with b "ASCII_DATA_FILE " = false) /\
    Forall (fun c => c <> QUOTE /\ c <> ascii_of_nat 13) name.
End Spec.

(** ** Facts *)
Lemma clean_name_plain name t : Forall (fun c => c <> QUOTE) name ->
  (forall a b, name = a ++ b -> starts_with b "ASCII_DATA_FILE " = false) ->
  (t = [] \/ t = [QUOTE] \/ t = [ascii_of_nat 13]) ->
  clean_name 0 (name ++ t) = name ++ match t with [c] => if Ascii.eqb c QUOTE then [] else t | _ => t end.
Proof.
  intros H Hn Ht. induction H as [|c name Hc _ IH]; cbn [app].
  - destruct Ht as [-> |[-> | ->]]; reflexivity.
  - cbn [clean_name].
    assert (E : starts_with (c :: name ++ t) "ASCII_DATA_FILE " = false).
    { pose proof (Hn [] (c :: name) eq_refl) as P. clear - P Ht.
      (* if the keyword started here it would be inside the name, as it contains neither quote nor carriage return *)
      assert (G : forall (k l : bytes), (forall c, In c k -> c <> QUOTE /\ c <> ascii_of_nat 13) -> starts_with l k = false ->
         starts_with (l ++ t) k = false).
      { induction k as [|x k IH]; intros l Hk Hl; [now destruct l|]. destruct l as [|y l].
        - cbn [app]. destruct Ht as [-> |[-> | ->]]; [reflexivity| |]; cbn [starts_with].
          + rewrite (proj2 (Ascii.eqb_neq x QUOTE)) by (apply Hk; now left). reflexivity.
          + rewrite (proj2 (Ascii.eqb_neq x (ascii_of_nat 13))) by (apply Hk; now left). reflexivity.
        - cbn [app starts_with] in *. destruct (Ascii.eqb x y); [|reflexivity]. cbn [andb] in *. apply IH; [|assumption].
          intros c' Hc'. apply Hk. now right. }
      apply (G _ (c :: name)); [|exact P]. intros c'. cbn [lit list_ascii_of_string In]. intros K.
      repeat (destruct K as [<-|K]; [split; discriminate|]). contradiction. }
    change (c :: name ++ t) with (c :: (name ++ t)) in E.
    rewrite E. rewrite (proj2 (Ascii.eqb_neq c QUOTE)) by assumption. f_equal. apply IH.
    intros a b ->. apply (Hn (c :: a)). reflexivity.
Qed.
Lemma clean_skip k l : (List.length k = 15)%nat -> clean_name 15 (k ++ l) = clean_name 0 l.
Proof. intros H. do 15 (destruct k as [|? k]; [discriminate|]). destruct k; [|discriminate]. reflexivity. Qed.
Lemma clean_keyword l : clean_name 0 (lit "ASCII_DATA_FILE " ++ l) = clean_name 0 l.
Proof.
  change (lit "ASCII_DATA_FILE ") with ("A"%char :: lit "SCII_DATA_FILE "). cbn [app clean_name].
  replace (starts_with ("A"%char :: lit "SCII_DATA_FILE " ++ l) "ASCII_DATA_FILE ") with true by (destruct l; reflexivity).
  now apply clean_skip.
Qed.
Lemma strip_cr_id name : Forall (fun c => c <> ascii_of_nat 13) name -> strip_cr name = name.
Proof.
  intros H. unfold strip_cr. apply Forall_rev in H. destruct (rev name) as [|c t]; [reflexivity|].
  inversion H; subst. now rewrite (proj2 (Ascii.eqb_neq c (ascii_of_nat 13))).
Qed.
Lemma strip_cr_one name : strip_cr (name ++ [ascii_of_nat 13]) = name.
Proof. unfold strip_cr. rewrite rev_app_distr. cbn [rev app]. rewrite Ascii.eqb_refl. apply rev_involutive. Qed.
Lemma get_data_file_ok rest name b : data_record rest name ->
  exists n s, get_data_file (mkStream rest b) = (Some n, s) /\ strip_cr n = name.
Proof.
  intros (pre & l & r & -> & Hp & Hl & Hk & Hn).
  assert (H1 : Forall (fun c => c <> QUOTE) name) by (eapply Forall_impl; [|exact Hn]; tauto).
  assert (H2 : Forall (fun c => c <> ascii_of_nat 13) name) by (eapply Forall_impl; [|exact Hn]; tauto).
  assert (Hs : starts_with l "ASCII_DATA_FILE" = true).
  { destruct Hl as [-> |[-> | ->]]; reflexivity. }
  unfold get_data_file. rewrite goto_if_hit by assumption.
  destruct Hl as [-> |[-> | ->]]; (eexists; eexists; split; [reflexivity|]); rewrite clean_keyword.
  - rewrite <- (app_nil_r name) at 1. rewrite clean_name_plain by auto. rewrite app_nil_r. now apply strip_cr_id.
  - replace (clean_name 0 (QUOTE :: name ++ [QUOTE])) with (clean_name 0 (name ++ [QUOTE])) by reflexivity.
    rewrite clean_name_plain by auto. cbn [Ascii.eqb]. rewrite app_nil_r. now apply strip_cr_id.
  - rewrite clean_name_plain by auto. apply strip_cr_one.
Qed.
Lemma index_line_ok {B} k l a b c (f : Z -> Z -> Z -> res B) : index_line k l a b c ->
  (do t <- idx (string_split l) k; do x <- string_to_index t;
   do t <- idx (string_split l) (S k); do y <- string_to_index t;
   do t <- idx (string_split l) (S (S k)); do z <- string_to_index t; f x y z) = f a b c.
Proof.
  intros (ws & ta & tb & tc & r & E & L & [_ Ha] & [_ Hb] & [_ Hc]). rewrite E. subst k.
  assert (I : forall n, idx (ws ++ ta :: tb :: tc :: r) (n + List.length ws) = idx (ta :: tb :: tc :: r) n).
  { intros n. rewrite (Nat.add_comm n). apply idx_app. }
  pose proof (I 0%nat) as I0. pose proof (I 1%nat) as I1. pose proof (I 2%nat) as I2. cbn [Nat.add] in I0, I1, I2.
  rewrite I0. cbn [idx nth_error bind]. rewrite Ha. cbn [bind]. rewrite I1. cbn [idx nth_error bind]. rewrite Hb. cbn [bind].
  rewrite I2. cbn [idx nth_error bind]. rewrite Hc. reflexivity.
Qed.
Lemma cell_index_range n ijk : in_grid n ijk -> snd n * (snd (fst n) * fst (fst n)) < two32 ->
  cell_index n ijk = fst (fst ijk) + fst (fst n) * (snd (fst ijk) + snd (fst n) * snd ijk) /\
  0 <= cell_index n ijk < nb_cells n.
Proof.
  destruct n as [[nx ny] nz], ijk as [[i j] k]. unfold in_grid, cell_index, nb_cells. cbn [fst snd]. intros (Hi & Hj & Hk) Hb.
  assert (B0 : 0 <= j + ny * k <= ny * nz - 1) by nia.
  assert (B1 : 0 <= nx * (j + ny * k) <= nx * (ny * nz - 1)) by (split; [|apply Z.mul_le_mono_nonneg_l]; nia).
  assert (B : 0 <= i + nx * (j + ny * k) < nx * ny * nz) by lia.
  rewrite !wrap32_small by lia. lia.
Qed.
Lemma cell_index_inj n a b : in_grid n a -> in_grid n b -> snd n * (snd (fst n) * fst (fst n)) < two32 ->
  cell_index n a = cell_index n b -> a = b.
Proof.
  intros Ha Hb Hn E. rewrite (proj1 (cell_index_range n a Ha Hn)), (proj1 (cell_index_range n b Hb Hn)) in E.
  destruct n as [[nx ny] nz], a as [[i j] k], b as [[i' j'] k']. unfold in_grid in *. cbn [fst snd] in *.
  destruct Ha as (? & ? & ?), Hb as (? & ? & ?).
  assert (Q1 : i = i').
  { rewrite <- (Z.mod_small i nx), <- (Z.mod_small i' nx) by lia.
    rewrite <- (Z_mod_plus_full i (j + ny * k) nx), <- (Z_mod_plus_full i' (j' + ny * k') nx). f_equal. lia. }
  assert (Q : j + ny * k = j' + ny * k') by nia.
  assert (Q2 : j = j').
  { rewrite <- (Z.mod_small j ny), <- (Z.mod_small j' ny) by lia.
    rewrite <- (Z_mod_plus_full j k ny), <- (Z_mod_plus_full j' k' ny). f_equal. lia. }
  assert (k = k') by nia. subst. congruence.
Qed.
(** Every index under the number of cells is the index of a cell of the grid. *)
Lemma cell_index_onto n c : 0 <= fst (fst n) -> 0 <= snd (fst n) -> 0 <= snd n -> snd n * (snd (fst n) * fst (fst n)) < two32 ->
  0 <= c < nb_cells n -> exists ijk, in_grid n ijk /\ cell_index n ijk = c.
Proof.
  destruct n as [[nx ny] nz]. cbn [fst snd]. intros Hx Hy Hz Hn Hc.
  assert (Hc' : 0 <= c < nx * ny * nz) by (unfold nb_cells in Hc; rewrite wrap32_small in Hc by nia; exact Hc). clear Hc.
  assert (0 < nx) by nia. assert (0 < ny) by nia. assert (0 < nz) by nia.
  pose proof (Z.mod_pos_bound c nx ltac:(lia)). pose proof (Z.mod_pos_bound (c / nx) ny ltac:(lia)).
  pose proof (Z.div_mod c nx ltac:(lia)) as D1. pose proof (Z.div_mod (c / nx) ny ltac:(lia)) as D2.
  assert (Hk : 0 <= c / nx / ny < nz).
  { split; [apply Z.div_pos; [apply Z.div_pos; lia|lia]|]. apply Z.div_lt_upper_bound; [lia|]. apply Z.div_lt_upper_bound; lia. }
  assert (G : in_grid (nx, ny, nz) (c mod nx, (c / nx) mod ny, c / nx / ny)) by (unfold in_grid; lia).
  exists (c mod nx, (c / nx) mod ny, c / nx / ny). split; [exact G|].
  rewrite (proj1 (cell_index_range _ _ G ltac:(cbn [fst snd]; lia))). cbn [fst snd]. nia.
Qed.

Section Rows.
Context (F : Num).
Notation columns := (list (bytes * list (list (num F)))).
Definition vo_of (m : Voxet F) (nc : columns) : Voxet F :=
  mkVo F (v_name F m) (v_origin F m) (v_n F m) (v_len F m) (at_attrs F nc).
Definition put (c : Z) (nc : columns) (vs : list (num F)) : columns :=
  map (fun cv => (fst (fst cv), upd (snd (fst cv)) (Z.to_nat c) [snd cv])) (combine nc vs).
Lemma put_names c nc : forall vs, List.length vs = List.length nc -> map fst (put c nc vs) = map fst nc.
Proof.
  induction nc as [|[n col] nc IH]; intros [|v vs] H; try discriminate; [reflexivity|]. unfold put in *. cbn [combine map fst snd].
  now rewrite IH by (cbn in H; lia).
Qed.
Lemma put_lengths c nc n : forall vs, Forall (fun k => List.length (snd k) = n) nc -> Forall (fun k => List.length (snd k) = n) (put c nc vs).
Proof.
  induction nc as [|[k col] nc IH]; intros [|v vs] H; try constructor; inversion H; subst; cbn [fst snd] in *.
  - rewrite upd_length. reflexivity.
  - now apply IH.
Qed.
Lemma put_nth c nc : forall vs a n col v, nth_error nc a = Some (n, col) -> nth_error vs a = Some v ->
  nth_error (put c nc vs) a = Some (n, upd col (Z.to_nat c) [v]).
Proof.
  induction nc as [|[k0 c0] nc IH]; intros [|w vs] [|a] n col v H E; try discriminate.
  - cbn in H, E. injection H as -> ->. injection E as ->. reflexivity.
  - cbn [nth_error] in H, E. unfold put. cbn [combine map nth_error]. now apply IH.
Qed.
Lemma vo_set_mid m a n col b c x : ~ In n (map fst a) -> 0 <= c < lenz col ->
  vo_set F (vo_of m (a ++ (n, col) :: b)) n c x = Ok (vo_of m (a ++ (n, upd col (Z.to_nat c) [x]) :: b)).
Proof.
  intros H Hc. unfold vo_set, vo_of. cbn [v_attrs v_name v_origin v_n v_len]. rewrite !at_attrs_app. cbn [at_attrs map fst snd].
  rewrite find_attr_mid by (now rewrite at_attrs_names). cbn [a_vals a_type a_def].
  unfold setz. unfold lenz in Hc. rewrite (proj2 (Z.leb_le _ _)), (proj2 (Z.ltb_lt _ _)) by lia. cbn [andb bind].
  rewrite replace_attr_mid by (now rewrite at_attrs_names). reflexivity.
Qed.
Lemma vo_row_ok m nc line ijk vs c : data_row F (List.length nc) line (ijk, vs) ->
  NoDup (map fst nc) -> cell_index (v_n F m) ijk = c -> Forall (fun k => 0 <= c < lenz (snd k)) nc ->
  vo_row F (map fst nc) (vo_of m nc) line = Ok (vo_of m (put c nc vs)).
Proof.
  destruct ijk as [[i j] k]. intros (ti & tj & tk & ts & E & [_ Hi] & [_ Hj] & [_ Hk] & Hv & Hl) Hnd Hc Hr.
  assert (Lt : List.length ts = List.length vs) by (clear - Hv; induction Hv; cbn; congruence).
  unfold vo_row. rewrite E. cbn [List.length]. rewrite map_length, Lt, Hl, Nat.add_comm. cbn [Nat.add]. rewrite Nat.eqb_refl.
  cbn [check bind idx nth_error]. rewrite Hi. cbn [bind]. rewrite Hj. cbn [bind]. rewrite Hk. cbn [bind].
  replace (v_n F (vo_of m nc)) with (v_n F m) by reflexivity. rewrite Hc.
  assert (G : forall done todo ts' vs',
    numbers F ts' vs' -> List.length vs' = List.length todo -> NoDup (map fst (done ++ todo)) ->
    Forall (fun k => 0 <= c < lenz (snd k)) todo ->
    (forall a t, nth_error ts' a = Some t -> nth_error ts (List.length done + a) = Some t) ->
    foldM (fun m an => let '(a, n) := an in
           do t <- idx (ti :: tj :: tk :: ts) (3 + a); do x <- string_to_double F t; vo_set F m n c x)
      (combine (seq (List.length done) (List.length todo)) (map fst todo)) (vo_of m (done ++ todo))
    = Ok (vo_of m (done ++ put c todo vs'))).
  { clear Hc. intros done todo. revert done. induction todo as [|[n col] todo IH]; intros done ts' vs' Hn' Hl' Hd' Hr' Ht'.
    - destruct vs'; [|discriminate]. reflexivity.
    - destruct vs' as [|v vs']; [discriminate|]. inversion Hn' as [|t ? ts'' ? Ht Hn'']; subst.
      cbn [List.length seq map fst combine foldM].
      pose proof (Ht' 0%nat t eq_refl) as T0. rewrite Nat.add_0_r in T0.
      rewrite (idx_nth (ti :: tj :: tk :: ts) (3 + List.length done) t) by (cbn [Nat.add nth_error]; exact T0). cbn [bind].
      rewrite (std_num F t v Ht). cbn [bind].
      rewrite vo_set_mid; [|rewrite map_app in Hd'; cbn [map fst] in Hd'; apply NoDup_remove_2 in Hd'; intros Q; apply Hd', in_app_iff; now left|exact (Forall_inv Hr')].
      cbn [bind].
      specialize (IH (done ++ [(n, upd col (Z.to_nat c) [v])]) ts'' vs').
      rewrite app_length, Nat.add_1_r, <- !app_assoc in IH. cbn [app] in IH.
      rewrite IH; [reflexivity|assumption|cbn in Hl'; lia| |now apply Forall_inv_tail in Hr'|].
      + rewrite map_app in *. cbn [map fst] in *. exact Hd'.
      + intros a t' Ha. specialize (Ht' (S a) t' Ha). now replace (S (List.length done) + a)%nat with (List.length done + S a)%nat by lia. }
  specialize (G [] nc ts vs Hv Hl Hnd Hr). cbn [List.length app] in G. apply G. intros a t Ha. exact Ha.
Qed.
Definition col_step (n : Z * Z * Z) (a : nat) (col : list (list (num F))) (r : Z * Z * Z * list (num F)) : list (list (num F)) :=
  match nth_error (snd r) a with Some v => upd col (Z.to_nat (cell_index n (fst r))) [v] | None => col end.
Lemma vo_rows_ok m names rows : forall ds nc N, Forall2 (data_row F (List.length names)) ds rows ->
  map fst nc = names -> NoDup names -> Forall (fun r => 0 <= cell_index (v_n F m) (fst r) < N) rows ->
  Forall (fun k => lenz (snd k) = N) nc ->
  exists nc', foldM (vo_row F names) ds (vo_of m nc) = Ok (vo_of m nc') /\ map fst nc' = names /\
    forall a n col, nth_error nc a = Some (n, col) -> nth_error nc' a = Some (n, fold_left (col_step (v_n F m) a) rows col).
Proof.
  induction rows as [|[ijk vs] rows IH]; intros ds nc N H Hn Hd Hr Hl; inversion H as [|line ? ds' ? Hline H']; subst ds.
  - exists nc. auto.
  - cbn [foldM].
    assert (Ln : List.length nc = List.length names) by (rewrite <- Hn; symmetry; apply map_length).
    pose proof (Forall_inv Hr) as Hc. cbn [fst] in Hc.
    assert (Lv : List.length vs = List.length nc).
    { rewrite Ln. clear - Hline. destruct ijk as [[i j] k]. destruct Hline as (? & ? & ? & ? & ? & ? & ? & ? & ? & ?). assumption. }
    assert (Er : vo_row F names (vo_of m nc) line = Ok (vo_of m (put (cell_index (v_n F m) ijk) nc vs))).
    { rewrite <- Hn. apply (vo_row_ok m nc line ijk vs); [now rewrite Ln|now rewrite Hn|reflexivity|].
      eapply Forall_impl; [|exact Hl]. cbn beta. intros k ->. exact Hc. }
    rewrite Er. cbn [bind].
    destruct (IH ds' (put (cell_index (v_n F m) ijk) nc vs) N) as (nc' & E & En & Hk); try assumption.
    + rewrite put_names by assumption. exact Hn.
    + now apply Forall_inv_tail in Hr.
    + unfold lenz in *. assert (Hl' : Forall (fun k => List.length (snd k) = Z.to_nat N) nc).
      { eapply Forall_impl; [|exact Hl]. cbn beta. intros k <-. now rewrite Nat2Z.id. }
      apply (put_lengths (cell_index (v_n F m) ijk) nc _ vs) in Hl'. eapply Forall_impl; [|exact Hl']. cbn beta. intros k ->.
      apply Z2Nat.id. lia.
    + exists nc'. split; [exact E|]. split; [exact En|]. intros a n col Ha. cbn [fold_left].
      assert (Av : exists v, nth_error vs a = Some v).
      { destruct (nth_error vs a) eqn:Ev; [eauto|]. apply nth_error_None in Ev. assert (a < List.length nc)%nat by (apply nth_error_Some; congruence). lia. }
      destruct Av as [v Ev]. unfold col_step at 2. cbn [fst snd]. rewrite Ev. apply Hk. now apply put_nth.
Qed.
(** What the sequence of rows leaves in a cell. *)
Lemma col_steps n a c : in_grid n c -> snd n * (snd (fst n) * fst (fst n)) < two32 ->
  forall rows col d, Forall (fun r => in_grid n (fst r)) rows -> Forall (fun r => (a < List.length (snd r))%nat) rows ->
  lenz col = nb_cells n -> nthz col (cell_index n c) = Some d ->
  nthz (fold_left (col_step n a) rows col) (cell_index n c)
  = match latest F rows c with Some vs => option_map (fun v => [v]) (nth_error vs a) | None => Some d end.
Proof.
  intros Hc Hn. destruct (cell_index_range n c Hc Hn) as [_ Rc].
  assert (U : forall (col : list (list (num F))) x v, in_grid n x -> lenz col = nb_cells n ->
     nthz (upd col (Z.to_nat (cell_index n x)) v) (cell_index n c) = if zzz_eqb x c then Some v else nthz col (cell_index n c)).
  { intros col x v Hx Hl. destruct (cell_index_range n x Hx Hn) as [_ Rx].
    rewrite <- (Z2Nat.id (cell_index n c)) by lia. rewrite !nthz_nat. rewrite nth_error_upd.
    destruct (zzz_eqb x c) eqn:E.
    - apply zzz_eqb_ok in E. subst x. rewrite Nat.eqb_refl. unfold lenz in Hl.
      rewrite (proj2 (Nat.ltb_lt _ _)) by lia. reflexivity.
    - destruct (Nat.eqb (Z.to_nat (cell_index n x)) (Z.to_nat (cell_index n c))) eqn:E2; [|reflexivity]. exfalso.
      apply Nat.eqb_eq in E2. assert (x = c) as ->.
      { apply (cell_index_inj n); try assumption. lia. }
      destruct c as [[i j] k]. unfold zzz_eqb in E. rewrite !Z.eqb_refl in E. discriminate. }
  induction rows as [|[x vs] rows IH]; intros col d Hg Ha Hl Hd; cbn [fold_left latest]; [exact Hd|].
  pose proof (Forall_inv Hg) as Hx. pose proof (Forall_inv Ha) as Hva. cbn [fst snd] in Hx, Hva. apply Forall_inv_tail in Hg, Ha.
  destruct (nth_error vs a) as [v|] eqn:Ev; [|apply nth_error_None in Ev; lia].
  unfold col_step at 2. cbn [fst snd]. rewrite Ev.
  rewrite (IH _ (if zzz_eqb x c then [v] else d)); [|assumption|assumption|unfold lenz in *; now rewrite upd_length|].
  - destruct (latest F rows c) as [w|]; [reflexivity|]. destruct (zzz_eqb x c); [now rewrite Ev|reflexivity].
  - rewrite U by assumption. destruct (zzz_eqb x c); [reflexivity|exact Hd].
Qed.
Lemma vo_attributes m names : forall done, NoDup (done ++ names) ->
  let c0 := repeat [zero F] (Z.to_nat (nb_cells (v_n F m))) in
  fold_left (vo_attribute F) names (vo_of m (map (fun n => (n, c0)) done)) = vo_of m (map (fun n => (n, c0)) (done ++ names)).
Proof.
  induction names as [|n names IH]; intros done Hnd c0; [now rewrite app_nil_r|]. cbn [fold_left].
  assert (Hn : ~ In n (map fst (at_attrs F (map (fun n => (n, c0)) done)))).
  { rewrite at_attrs_names, map_map. cbn [fst]. rewrite map_id. apply NoDup_remove_2 in Hnd. intros Hi. apply Hnd, in_app_iff. now left. }
  assert (Ea : vo_attribute F (vo_of m (map (fun n => (n, c0)) done)) n = vo_of m (map (fun n => (n, c0)) (done ++ [n]))).
  { unfold vo_attribute, vo_of. cbn [v_attrs v_name v_origin v_n v_len]. rewrite find_attr_none by exact Hn.
    rewrite replace_attr_new by exact Hn. rewrite map_app, at_attrs_app. reflexivity. }
  rewrite Ea. specialize (IH (done ++ [n])). rewrite <- app_assoc in IH. cbn [app] in IH. now apply IH.
Qed.
End Rows.
Section Read.
Context (F : Num) (dist : point F -> point F -> num F) (divn : num F -> Z -> num F) (files : bytes -> option bytes).
(** The empty grid described by a file. *)
Definition described (name : option bytes) (o u v w : point F) (n : Z * Z * Z) : Voxet F :=
  let '(nx, ny, nz) := n in
  mkVo F name o n (divn (dist o u) nx, divn (dist o v) ny, divn (dist o w) nz) [].
Lemma read_vo_text folder ls name o u v w n rest : Forall is_line ls -> vo_text F ls name o u v w n rest ->
  exists b, read_vo F dist divn files folder (unlines ls)
    = read_data_file F files folder (described name o u v w n) (mkStream rest b).
Proof.
  intros Hl [H]. destruct H as (pre & l0 & hs & cs & up & p1 & lo & p2 & lu & p3 & lv & p4 & lw & p5 & ln & H). cbv zeta in H.
  destruct H as (-> & H1 & H2 & H3 & H4 & H5 & H6 & H7 & H8 & H9 & H10 & H11 & H12 & H13 & H14 & H15 & H16 & H17 & H18 & H19).
  destruct o as [[ox oy] oz], u as [[ux uy] uz], v as [[vx vy] vz], w as [[wx wy] wz], n as [[nx ny] nz]. cbn [fst snd] in *.
  unfold read_vo. rewrite open_unlines by exact Hl. rewrite goto_if_hit by assumption.
  rewrite (read_header_section hs name) by assumption. cbn [bind].
  edestruct (read_CRS_section cs up) as (crs & Ecrs & _); [exact H4|]. rewrite Ecrs. cbn [bind].
  exists true. unfold initialize_grid.
  rewrite goto_keyword_hit by assumption. cbn [bind]. rewrite (read_coord_ok F 1 lo ox oy oz) by assumption. cbn [bind].
  rewrite goto_keyword_hit by assumption. cbn [bind]. rewrite (read_coord_ok F 1 lu ux uy uz) by assumption. cbn [bind].
  rewrite goto_keyword_hit by assumption. cbn [bind]. rewrite (read_coord_ok F 1 lv vx vy vz) by assumption. cbn [bind].
  rewrite goto_keyword_hit by assumption. cbn [bind]. rewrite (read_coord_ok F 1 lw wx wy wz) by assumption. cbn [bind].
  unfold read_cells_number. rewrite goto_keyword_hit by assumption. cbn [bind].
  rewrite (index_line_ok 1 ln nx ny nz (fun x y z => Ok ((x, y, z), mkStream rest true))) by assumption. reflexivity.
Qed.
Lemma read_data_text folder m rest b file data names rows :
  v_attrs F m = [] -> data_record rest file -> files (folder ++ file) = Some (unlines data) -> data_text F data names rows ->
  NoDup names -> exists ds, Forall2 (data_row F (List.length names)) ds rows /\
  read_data_file F files folder m (mkStream rest b)
  = foldM (vo_row F names) ds (vo_of F m (map (fun n => (n, repeat [zero F] (Z.to_nat (nb_cells (v_n F m))))) names)).
Proof.
  intros Hm Hrec Hf (d0 & d1 & d2 & ds & w0 & w1 & w2 & w3 & -> & Hl & E & Hr) Hnd. exists ds. split; [exact Hr|].
  unfold read_data_file. destruct (get_data_file_ok rest file b Hrec) as (fn & s & Eg & Es). rewrite Eg, Es, Hf.
  rewrite open_unlines by exact Hl. cbn [pending nth]. rewrite E. cbn [List.length Nat.ltb Nat.leb skipn].
  pose proof (vo_attributes F m names [] Hnd) as A. cbn [map app] in A.
  replace (vo_of F m []) with m in A by (destruct m; cbn in *; unfold vo_of; cbn; now rewrite Hm).
  f_equal. exact A.
Qed.
End Read.

(** ** C22 *)

(** Each cell of the grid holds the values of the last row for its indices, and 0 when there is none. *)
Theorem C22_vo_values :
  forall (F : Num) (dist : point F -> point F -> num F) (divn : num F -> Z -> num F) (files : bytes -> option bytes)
         (folder : bytes) (ls : list bytes) (name : option bytes) (o u v w : point F) (n : Z * Z * Z) (rest : list bytes)
         (file : bytes) (data names : list bytes) (rows : list (Z * Z * Z * list (num F))),
    Forall is_line ls -> vo_text F ls name o u v w n rest -> data_record rest file ->
    files (folder ++ file) = Some (unlines data) -> data_text F data names rows -> NoDup names ->
    snd n * (snd (fst n) * fst (fst n)) < two32 ->
    Forall (fun r => in_grid n (fst r)) rows ->
    exists m, read_vo F dist divn files folder (unlines ls) = Ok m /\ v_n F m = n /\ map fst (v_attrs F m) = names /\
      forall a c p, nth_error names a = Some p -> in_grid n c ->
        vo_value F m p c = match latest F rows c with Some vs => option_map (fun x => [x]) (nth_error vs a) | None => Some [zero F] end.
Proof.
  intros F dist divn files folder ls name o u v w n rest file data names rows Hl Ht Hrec Hf Hd Hnd Hn Hg.
  destruct (read_vo_text F dist divn files folder ls name o u v w n rest Hl Ht) as [b E]. rewrite E.
  set (g := described F dist divn name o u v w n).
  assert (Gn : v_n F g = n) by (destruct n as [[nx ny] nz]; reflexivity).
  assert (Ga : v_attrs F g = []) by (unfold g; destruct n as [[nx ny] nz]; reflexivity).
  destruct (read_data_text F files folder g rest b file data names rows Ga Hrec Hf Hd Hnd) as (ds & Hr & E2). rewrite E2, Gn.
  assert (N0 : 0 <= nb_cells n).
  { destruct n as [[nx ny] nz]. unfold nb_cells, wrap32. apply Z.mod_pos_bound. reflexivity. }
  destruct (vo_rows_ok F g names rows ds (map (fun k => (k, repeat [zero F] (Z.to_nat (nb_cells n)))) names) (nb_cells n))
    as (nc' & E3 & En & Hk).
  - exact Hr.
  - rewrite map_map. cbn [fst]. apply map_id.
  - exact Hnd.
  - rewrite Gn. eapply Forall_impl; [|exact Hg]. cbn beta. intros r Hrg. now apply cell_index_range.
  - apply Forall_forall. intros k Hk. apply in_map_iff in Hk as (p & <- & _). cbn [snd]. unfold lenz. rewrite repeat_length. lia.
  - rewrite E3. eexists. split; [reflexivity|]. split; [exact Gn|].
    split; [unfold vo_of; cbn [v_attrs]; rewrite at_attrs_names; exact En|].
    intros a c p Hp Hc. unfold vo_value, vo_of. cbn [v_attrs v_n]. rewrite Gn in *.
    specialize (Hk a p (repeat [zero F] (Z.to_nat (nb_cells n)))). rewrite nth_error_map, Hp in Hk. specialize (Hk eq_refl).
    apply nth_error_In in Hk.
    rewrite (find_attr_in p (mkAttr 1 [zero F] (fold_left (col_step F n a) rows (repeat [zero F] (Z.to_nat (nb_cells n)))))).
    + cbn [a_vals]. destruct (cell_index_range n c Hc Hn) as [_ Rc].
      rewrite (col_steps F n a c Hc Hn rows _ [zero F]); [reflexivity|assumption| | |].
      * assert (a < List.length names)%nat by (apply nth_error_Some; congruence). clear - Hr H.
        induction Hr as [|l [[[i j] k] vs] ds rows Hl _ IH]; constructor; [|assumption]. cbn [snd].
        destruct Hl as (? & ? & ? & ? & ? & ? & ? & ? & ? & ?). lia.
      * unfold lenz. rewrite repeat_length. lia.
      * rewrite <- (Z2Nat.id (cell_index n c)) by lia. rewrite nthz_nat. apply nth_error_repeat. lia.
    + rewrite at_attrs_names, En. exact Hnd.
    + unfold at_attrs. apply in_map_iff. eexists. split; [|exact Hk]. reflexivity.
Qed.
Print Assumptions C22_vo_values.

(** ** C67 *)
Theorem C67_vo_geometry :
  forall (F : Num) (dist : point F -> point F -> num F) (divn : num F -> Z -> num F) (files : bytes -> option bytes)
         (folder : bytes) (ls : list bytes) (name : option bytes) (o u v w : point F) (n : Z * Z * Z) (rest : list bytes) m,
    Forall is_line ls -> vo_text F ls name o u v w n rest ->
    read_vo F dist divn files folder (unlines ls) = Ok m ->
    v_name F m = name /\ v_origin F m = o /\ v_n F m = n /\
    v_len F m = (divn (dist o u) (fst (fst n)), divn (dist o v) (snd (fst n)), divn (dist o w) (snd n)).
Proof.
  intros F dist divn files folder ls name o u v w n rest m Hl Ht E.
  destruct (read_vo_text F dist divn files folder ls name o u v w n rest Hl Ht) as [b E']. rewrite E' in E. clear E'.
  assert (S : forall m m' : Voxet F, (exists p c x, vo_set F m p c x = Ok m') ->
     v_name F m' = v_name F m /\ v_origin F m' = v_origin F m /\ v_n F m' = v_n F m /\ v_len F m' = v_len F m).
  { intros m0 m' (p & c & x & H). unfold vo_set in H. destruct (find_attr p (v_attrs F m0)); [|discriminate].
    apply bind_ok in H as (vals & _ & H). injection H as <-. cbn. auto. }
  assert (A : forall names m0, let m' := fold_left (vo_attribute F) names m0 in
     v_name F m' = v_name F m0 /\ v_origin F m' = v_origin F m0 /\ v_n F m' = v_n F m0 /\ v_len F m' = v_len F m0).
  { induction names as [|p names IH]; intros m0; cbn [fold_left]; [auto|]. destruct (IH (vo_attribute F m0 p)) as (-> & -> & -> & ->).
    unfold vo_attribute. destruct (find_attr p (v_attrs F m0)); auto. }
  assert (R : forall names line m0 m', vo_row F names m0 line = Ok m' ->
     v_name F m' = v_name F m0 /\ v_origin F m' = v_origin F m0 /\ v_n F m' = v_n F m0 /\ v_len F m' = v_len F m0).
  { intros names line m0 m' H. unfold vo_row in H.
    apply bind_ok in H as (u0 & _ & H). apply bind_ok in H as (t1 & _ & H). apply bind_ok in H as (i & _ & H).
    apply bind_ok in H as (t2 & _ & H). apply bind_ok in H as (j & _ & H). apply bind_ok in H as (t3 & _ & H). apply bind_ok in H as (k & _ & H).
    revert H. generalize (cell_index (v_n F m0) (i, j, k)) as c. generalize (combine (seq 0 (List.length names)) names) as l.
    intros l c. revert m0. induction l as [|[a p] l IH]; intros m0 H; cbn [foldM] in H; [injection H as <-; auto|].
    apply bind_ok in H as (m1 & H1 & H). apply bind_ok in H1 as (t & _ & H1). apply bind_ok in H1 as (x & _ & H1).
    destruct (S m0 m1) as (E1 & E2 & E3 & E4); [eauto|]. destruct (IH m1 H) as (-> & -> & -> & ->). auto. }
  assert (Q : forall names ds m0 m', foldM (vo_row F names) ds m0 = Ok m' ->
     v_name F m' = v_name F m0 /\ v_origin F m' = v_origin F m0 /\ v_n F m' = v_n F m0 /\ v_len F m' = v_len F m0).
  { intros names. induction ds as [|l ds IH]; intros m0 m' H; cbn [foldM] in H; [injection H as <-; auto|].
    apply bind_ok in H as (m1 & H1 & H). destruct (R names l m0 m1 H1) as (E1 & E2 & E3 & E4). destruct (IH m1 m' H) as (-> & -> & -> & ->). auto. }
  unfold read_data_file in E. destruct (get_data_file _) as [[fn|] s]; [|discriminate].
  destruct (files (folder ++ strip_cr fn)) as [data|]; [|discriminate].
  destruct (Nat.ltb _ 4); [discriminate|].
  apply Q in E as (-> & -> & -> & ->).
  match goal with |- context [fold_left (vo_attribute F) ?ns ?g] => destruct (A ns g) as (-> & -> & -> & ->) end.
  destruct n as [[nx ny] nz]. cbn. auto.
Qed.
Print Assumptions C67_vo_geometry.
(** An example: integers, with the integer part of the distance. *)
Definition ex_dist (p q : Z * Z * Z) : Z :=
  let '(x, y, z) := p in let '(a, b, c) := q in Z.sqrt ((a - x) * (a - x) + (b - y) * (b - y) + (c - z) * (c - z)).
Definition ex_vo (u v : string) (n : string) : list bytes := map lit
  ["GOCAD Voxet 1"; "HEADER {"; "name:box"; "}"; "AXIS_O 0 0 0"; u; v; "AXIS_W 0 0 5"; "AXIS_MIN 0 0 0"; n; "ASCII_DATA_FILE box.data"; "END"].
Definition ex_files (rows : list string) (f : bytes) : option bytes :=
  if beq f "dir/box.data" then Some (unlines (map lit (["*"; "* I J K por perm"; "*"] ++ rows)%list)) else None.
Definition ex_read (u v n : string) (rows : list string) : res (Voxet ExNum) :=
  read_vo ExNum ex_dist Z.div (ex_files rows) "dir/" (unlines (ex_vo u v n)).
Definition vo_is (r : res (Voxet ExNum)) (o n len : Z * Z * Z) (ats : list (bytes * list (list Z))) : bool :=
  match r with
  | Ok m => zzz_eqb (v_origin _ m) o && zzz_eqb (v_n _ m) n && zzz_eqb (v_len _ m) len
     && leqb (fun a b => beq (fst a) (fst b) && leqb (leqb Z.eqb) (snd a) (snd b))
             (map (fun na => (fst na, a_vals (snd na))) (v_attrs _ m)) ats
  | _ => false
  end.
Example C22_instance :
  vo_is (ex_read "AXIS_U 4 0 0" "AXIS_V 0 9 0" "AXIS_N 2 3 1" ["0 0 0 1 2"; "1 2 0 3 4"; "0 1 0 5 6"; "0 0 0 7 8"])
    (0, 0, 0) (2, 3, 1) (2, 3, 5)
    [(lit "por", [[7]; [0]; [5]; [0]; [0]; [3]]); (lit "perm", [[8]; [0]; [6]; [0]; [0]; [4]])] = true.
Proof. vm_compute. reflexivity. Qed.
Ltac row_tac := repeat match goal with |- _ /\ _ => split | |- is_index _ _ => split end; try reflexivity; try (unfold two32; lia); repeat constructor.
Example C22_hypotheses :
  let ls := ex_vo "AXIS_U 4 0 0" "AXIS_V 0 9 0" "AXIS_N 2 3 1" in
  vo_text ExNum ls (Some (lit "box")) (0, 0, 0) (4, 0, 0) (0, 9, 0) (0, 0, 5) (2, 3, 1) (skipn 10 ls) /\
  data_record (skipn 10 ls) (lit "box.data") /\
  data_text ExNum (map lit ["*"; "* I J K por perm"; "*"; "0 1 0 5 6"]) (map lit ["por"; "perm"]) [((0, 1, 0), [5; 6])].
Proof.
  cbv zeta. split; [|split].
  - constructor. exists [], (lit "GOCAD Voxet 1"), (map lit ["HEADER {"; "name:box"; "}"]), [], true, [], (lit "AXIS_O 0 0 0"), [],
      (lit "AXIS_U 4 0 0"), [], (lit "AXIS_V 0 9 0"), [], (lit "AXIS_W 0 0 5"), [lit "AXIS_MIN 0 0 0"], (lit "AXIS_N 2 3 1").
    cbv zeta. assert (NL : forall k (l x y z : bytes) a b c, string_split l = [k; x; y; z] -> atod ExNum x = Some a -> atod ExNum y = Some b -> atod ExNum z = Some c ->
      number_line ExNum 1 l [a; b; c]).
    { intros k l x y z a b c E Ha Hb Hc. exists [k], [x; y; z]. split; [exact E|]. split; [reflexivity|]. repeat constructor; assumption. }
    repeat match goal with |- _ /\ _ => split end; try reflexivity; try solve [repeat constructor]; try (eapply NL; reflexivity).
    + exists (lit "HEADER {"), [lit "name:box"], (lit "}"). repeat split; repeat constructor.
    + exists [lit "AXIS_N"], (lit "2"), (lit "3"), (lit "1"), []. cbn [fst snd]. repeat match goal with |- _ /\ _ => split | |- is_index _ _ => split end; try reflexivity; try (unfold two32; lia).
  - exists [], (lit "ASCII_DATA_FILE box.data"), [lit "END"]. split; [reflexivity|]. split; [constructor|]. split; [now left|]. split.
    + intros a b E. assert (L : (List.length b <= 8)%nat).
      { assert (Q : List.length (lit "box.data") = List.length (a ++ b)) by now rewrite E. rewrite app_length in Q. cbn in Q. lia. }
      do 9 (destruct b as [|? b]; [cbn [starts_with lit list_ascii_of_string]; rewrite ?andb_false_r; reflexivity|cbn [List.length] in L]). lia.
    + repeat constructor; discriminate.
  - exists (lit "*"), (lit "* I J K por perm"), (lit "*"), [lit "0 1 0 5 6"], (lit "*"), (lit "I"), (lit "J"), (lit "K").
    split; [reflexivity|]. split; [repeat (apply Forall_cons; [apply lineb_ok; reflexivity|]); constructor|]. split; [reflexivity|].
    constructor; [|constructor]. exists (lit "0"), (lit "1"), (lit "0"), (map lit ["5"; "6"]). row_tac.
Qed.
(** The directions of the axes are lost: a turned grid is loaded as the same grid along x, y and z. *)
Theorem C67_vo_directions_refuted :
  exists (u v u' v' : string), u <> u' /\
    vo_is (ex_read u v "AXIS_N 2 3 1" []) (0, 0, 0) (2, 3, 1) (2, 3, 5) [(lit "por", repeat [0] 6); (lit "perm", repeat [0] 6)] = true /\
    vo_is (ex_read u' v' "AXIS_N 2 3 1" []) (0, 0, 0) (2, 3, 1) (2, 3, 5) [(lit "por", repeat [0] 6); (lit "perm", repeat [0] 6)] = true.
Proof.
  exists "AXIS_U 4 0 0"%string, "AXIS_V 0 9 0"%string, "AXIS_U 0 4 0"%string, "AXIS_V -9 0 0"%string.
  split; [discriminate|]. split; vm_compute; reflexivity.
Qed.
Print Assumptions C67_vo_directions_refuted.

(** ** C23 *)

(** No row outside the grid is ever rejected: it changes another cell, or writes outside the values. *)
Theorem C23_vo_outside_never_rejected :
  forall (F : Num) (dist : point F -> point F -> num F) (divn : num F -> Z -> num F) (files : bytes -> option bytes)
         (folder : bytes) (ls : list bytes) (name : option bytes) (o u v w : point F) (n : Z * Z * Z) (rest : list bytes)
         (file : bytes) (data names : list bytes) (c : Z * Z * Z) (vs : list (num F)),
    Forall is_line ls -> vo_text F ls name o u v w n rest -> data_record rest file ->
    files (folder ++ file) = Some (unlines data) -> data_text F data names [(c, vs)] -> NoDup names -> names <> [] ->
    snd n * (snd (fst n) * fst (fst n)) < two32 -> ~ in_grid n c ->
    read_vo F dist divn files folder (unlines ls) = UB \/
    exists m c', read_vo F dist divn files folder (unlines ls) = Ok m /\ in_grid n c' /\
      forall a p x, nth_error names a = Some p -> nth_error vs a = Some x -> vo_value F m p c' = Some [x].
Proof.
  intros F dist divn files folder ls name o u v w n rest file data names c vs Hl Ht Hrec Hf Hd Hnd Hne Hn Hc.
  destruct (read_vo_text F dist divn files folder ls name o u v w n rest Hl Ht) as [b E]. rewrite E.
  set (g := described F dist divn name o u v w n).
  assert (Gn : v_n F g = n) by (destruct n as [[nx ny] nz]; reflexivity).
  assert (Ga : v_attrs F g = []) by (unfold g; destruct n as [[nx ny] nz]; reflexivity).
  destruct (read_data_text F files folder g rest b file data names _ Ga Hrec Hf Hd Hnd) as (ds & Hr & E2). rewrite E2, Gn.
  assert (Npos : 0 <= fst (fst n) /\ 0 <= snd (fst n) /\ 0 <= snd n).
  { destruct Ht as [(? & ? & ? & ? & ? & ? & ? & ? & ? & ? & ? & ? & ? & ? & ? & Q)]. cbv zeta in Q.
    repeat (destruct Q as [_ Q]). destruct Q as (? & ? & ? & ? & ? & _ & _ & [A _] & [B _] & [C _]). lia. }
  assert (C0 : 0 <= cell_index n c).
  { destruct n as [[nx ny] nz], c as [[i j] k]. unfold cell_index, wrap32. apply Z.mod_pos_bound. reflexivity. }
  assert (N0 : 0 <= nb_cells n).
  { destruct n as [[nx ny] nz]. unfold nb_cells, wrap32. apply Z.mod_pos_bound. reflexivity. }
  set (z0 := repeat [zero F] (Z.to_nat (nb_cells n))). assert (Lz : lenz z0 = nb_cells n) by (unfold lenz, z0; rewrite repeat_length; lia).
  destruct (Z_lt_ge_dec (cell_index n c) (nb_cells n)) as [Hlt|Hge]; [right|left].
  - destruct (cell_index_onto n (cell_index n c)) as (c' & Hin & Ec); try tauto; try lia.
    destruct (vo_rows_ok F g names [(c, vs)] ds (map (fun k => (k, z0)) names) (nb_cells n)) as (nc' & E3 & En & Hk); try assumption.
    + rewrite map_map. cbn [fst]. apply map_id.
    + constructor; [|constructor]. cbn [fst]. rewrite Gn. lia.
    + apply Forall_forall. intros k Hk. apply in_map_iff in Hk as (p & <- & _). exact Lz.
    + rewrite E3. exists (vo_of F g nc'), c'. split; [reflexivity|]. split; [exact Hin|].
      intros a p x Hp Hx. unfold vo_value, vo_of. cbn [v_attrs v_n]. rewrite Gn in *.
      specialize (Hk a p z0). rewrite nth_error_map, Hp in Hk. specialize (Hk eq_refl). cbn [fold_left] in Hk.
      unfold col_step in Hk. cbn [fst snd] in Hk. rewrite Hx in Hk.
      apply nth_error_In in Hk.
      rewrite (find_attr_in p (mkAttr 1 [zero F] (upd z0 (Z.to_nat (cell_index n c)) [x]))).
      * cbn [a_vals]. rewrite Ec. rewrite <- (Z2Nat.id (cell_index n c)) at 2 by lia. rewrite nthz_nat, nth_error_upd, Nat.eqb_refl.
        unfold lenz in Lz. rewrite (proj2 (Nat.ltb_lt _ _)) by lia. reflexivity.
      * rewrite at_attrs_names, En. exact Hnd.
      * unfold at_attrs. apply in_map_iff. eexists. split; [|exact Hk]. reflexivity.
  - inversion Hr as [|line ? ds' ? Hline Hr']; subst ds. inversion Hr'; subst ds'. cbn [foldM].
    destruct c as [[i j] k]. destruct Hline as (ti & tj & tk & ts & Es & [_ Hi] & [_ Hj] & [_ Hk] & Hv & Hlv).
    destruct names as [|p names]; [congruence|].
    destruct vs as [|x vs]; [discriminate|]. inversion Hv as [|t ? ts' ? Htx Hv']; subst ts.
    assert (Lt : List.length ts' = List.length vs) by (clear - Hv'; induction Hv'; cbn; congruence).
    unfold vo_row. rewrite Es. cbn [List.length]. cbn [List.length] in Hlv. rewrite Lt.
    replace (Nat.eqb (S (S (S (S (List.length vs))))) (S (List.length names) + 3)) with true by (symmetry; apply Nat.eqb_eq; lia).
    cbn [check bind idx nth_error]. rewrite Hi. cbn [bind]. rewrite Hj. cbn [bind]. rewrite Hk. cbn [bind].
    cbn [seq combine foldM Nat.add idx nth_error bind]. rewrite (std_num F t x Htx). cbn [bind].
    unfold vo_set at 1. unfold vo_of at 1. cbn [map v_attrs at_attrs fst snd]. unfold find_attr at 1. cbn [find fst]. rewrite beq_refl.
    cbn [option_map snd a_vals]. unfold vo_of at 1. cbn [v_n]. rewrite Gn. unfold setz. fold z0. unfold lenz in Lz. rewrite Lz.
    rewrite (proj2 (Z.ltb_ge _ _)) by lia. rewrite andb_false_r. reflexivity.
Qed.
Print Assumptions C23_vo_outside_never_rejected.
(** Two reachable cases: a row for i = 2 in a grid of two columns changes the first cell of the next line; a row
    further away writes outside the values. *)
Theorem C23_vo_outside_refuted :
  exists (row row' : string),
    vo_is (ex_read "AXIS_U 4 0 0" "AXIS_V 0 9 0" "AXIS_N 2 3 1" [row]) (0, 0, 0) (2, 3, 1) (2, 3, 5)
      [(lit "por", [[0]; [0]; [1]; [0]; [0]; [0]]); (lit "perm", [[0]; [0]; [2]; [0]; [0]; [0]])] = true /\
    data_row ExNum 2 (lit row) ((2, 0, 0), [1; 2]) /\ ~ in_grid (2, 3, 1) (2, 0, 0) /\
    is_UB (ex_read "AXIS_U 4 0 0" "AXIS_V 0 9 0" "AXIS_N 2 3 1" [row']) = true /\
    data_row ExNum 2 (lit row') ((0, 3, 0), [1; 2]) /\ ~ in_grid (2, 3, 1) (0, 3, 0).
Proof.
  exists "2 0 0 1 2"%string, "0 3 0 1 2"%string.
  split; [vm_compute; reflexivity|]. split; [|split; [unfold in_grid; lia|split; [vm_compute; reflexivity|split; [|unfold in_grid; lia]]]].
  - exists (lit "2"), (lit "0"), (lit "0"), (map lit ["1"; "2"]). row_tac.
  - exists (lit "0"), (lit "3"), (lit "0"), (map lit ["1"; "2"]). row_tac.
Qed.
Print Assumptions C23_vo_outside_refuted.

(** ** C68: what is announced *)
Theorem C68_vo_loadable :
  forall (F : Num) dist divn files folder text,
    (loadable "GOCAD Voxet" text = true <->
       exists l, In l (pending (open_text text)) /\ starts_with l "GOCAD Voxet" = true) /\
    (loadable "GOCAD Voxet" text = false -> read_vo F dist divn files folder text = Throw ExData).
Proof.
  intros. split; [apply loadable_iff|]. intros H. apply loadable_goto_none in H as [s E]. unfold read_vo. now rewrite E.
Qed.
Print Assumptions C68_vo_loadable.
(** The announced data file is looked for in the working directory and with its carriage return, unlike the
    reader does: a file that the reader opens is announced missing, and the other way round. *)
Theorem C68_vo_data_file_refuted :
  (exists (ls : list bytes) files folder, vo_additional_files files (unlines ls) = [(lit "box.data", false)] /\
     match read_vo ExNum ex_dist Z.div files folder (unlines ls) with Ok _ => True | _ => False end) /\
  (exists (ls : list bytes) files folder, vo_additional_files files (unlines ls) = [(lit "box.data", true)] /\
     is_Throw (read_vo ExNum ex_dist Z.div files folder (unlines ls)) = true) /\
  (exists (ls : list bytes) files, vo_additional_files files (unlines ls) = [(lit "box.data" ++ [ascii_of_nat 13], false)] /\
     match read_vo ExNum ex_dist Z.div files [] (unlines ls) with Ok _ => True | _ => False end).
Proof.
  set (txt := ex_vo "AXIS_U 4 0 0" "AXIS_V 0 9 0" "AXIS_N 2 3 1").
  split; [|split].
  - exists txt, (ex_files []), (lit "dir/"). split; [vm_compute; reflexivity|]. vm_compute. exact I.
  - exists txt, (fun f => if beq f "box.data" then Some [] else None), (lit "dir/"). split; vm_compute; reflexivity.
  - exists (map (fun l => l ++ [ascii_of_nat 13]) txt), (fun f => if beq f "box.data" then ex_files [] "dir/box.data" else None).
    split; [vm_compute; reflexivity|]. vm_compute. exact I.
Qed.
Print Assumptions C68_vo_data_file_refuted.
