(** * Outcome of loading a Voxet (C109). *)
From Coq Require Import ZArith List Lia Bool Ascii String.
From Verif Require Import Base Text TextFacts GocadModel MeshModel TsModel WellModel VoModel Spec GocadFacts TsFacts Sections
  StreamFacts MultiFacts MultiMore MultiAttrs PropsGocad GocadSafe PropsWell PropsWellOut PropsVo ExNum ExCheck.
Import ListNotations.
Local Open Scope string_scope.
Local Open Scope list_scope.
Local Open Scope Z_scope.

(** ** Specification *)

(** A line that begins by the indices of a cell is about a cell of the grid. *)
Definition about_grid (n : Z * Z * Z) (l : bytes) : Prop := forall i j k, index_line 0 l i j k -> in_grid n (i, j, k).
(** The grid has fewer than 2^32 cells. *)
Definition small_grid (n : Z * Z * Z) : Prop := snd n * (snd (fst n) * fst (fst n)) < two32.
(** A row of the data file: three indices and a number for each property. *)
Definition good_row (F : Num) (nb : nat) (l : bytes) : Prop := exists r, data_row F nb l r.

(** ** Facts *)
Lemma digits_val_pos l : forall acc v, 0 <= acc -> digits_val acc l = Some v -> 0 <= v.
Proof.
  induction l as [|c l IH]; intros acc v Ha H; cbn [digits_val] in H; [injection H as <-; assumption|].
  destruct (is_digit c) eqn:D; [|discriminate]. apply IH in H; [assumption|]. unfold is_digit in D. cbv zeta in D.
  apply andb_true_iff in D as [D _]. apply Nat.leb_le in D. unfold digit_val. lia.
Qed.
Lemma sti_is_index t v : string_to_index t = Ok v -> is_index t v.
Proof.
  intros H. split; [|exact H]. unfold string_to_index, parse_index in H. cbv zeta in H.
  destruct (parse_digits _) as [w|] eqn:E; [|discriminate]. destruct (w <? two32) eqn:L; [|discriminate]. injection H as <-.
  apply Z.ltb_lt in L. split; [|exact L]. unfold parse_digits in E. destruct (match strip t with [] => _ | _ => _ end); [discriminate|].
  eapply digits_val_pos; [|exact E]. lia.
Qed.
Lemma sti_cases t : (exists v, is_index t v /\ string_to_index t = Ok v) \/ ((forall v, ~ is_index t v) /\ string_to_index t = Throw ExData).
Proof.
  destruct (string_to_index t) as [v| | |] eqn:E.
  - left. exists v. split; [now apply sti_is_index|reflexivity].
  - right. unfold string_to_index in E. destruct (parse_index t) eqn:P; [discriminate|]. injection E as <-. split; [|reflexivity].
    intros v [_ H]. unfold string_to_index in H. rewrite P in H. discriminate.
  - unfold string_to_index in E. destruct (parse_index t); discriminate.
  - unfold string_to_index in E. destruct (parse_index t); discriminate.
Qed.
Section Rows.
Context (F : Num).
(** The attributes exist, with a value for each of the [N] cells. *)
Definition vo_ready (n : Z * Z * Z) (names : list bytes) (m : Voxet F) : Prop :=
  v_n F m = n /\ Forall (fun na => lenz (a_vals (snd na)) = nb_cells n) (v_attrs F m) /\
  Forall (fun k => find_attr k (v_attrs F m) <> None) names.
Lemma vo_set_ready n names m k c x : vo_ready n names m -> In k names -> 0 <= c < nb_cells n ->
  exists m', vo_set F m k c x = Ok m' /\ vo_ready n names m'.
Proof.
  intros (V & W & N) Hk Hc. unfold vo_set. rewrite Forall_forall in N. specialize (N k Hk) as Nk.
  destruct (find_attr k (v_attrs F m)) as [a|] eqn:E; [|congruence].
  assert (La : lenz (a_vals a) = nb_cells n).
  { rewrite Forall_forall in W. apply find_attr_some in E. now apply (W _ E). }
  unfold setz. unfold lenz in La. rewrite La, (proj2 (Z.leb_le _ _)), (proj2 (Z.ltb_lt _ _)) by lia. cbn [andb bind].
  eexists. split; [reflexivity|]. split; [exact V|]. cbn [v_attrs]. split.
  - clear - W La. induction W as [|[k' b] l H Hr IH]; cbn [replace_attr].
    + constructor; [|constructor]. cbn [snd a_vals]. unfold lenz. rewrite upd_length. lia.
    + destruct (beq k' k); (constructor; [|assumption]); [|assumption]. cbn [snd a_vals]. unfold lenz. rewrite upd_length. lia.
  - apply Forall_forall. intros k' Hk'. rewrite find_attr_replace. destruct (beq k k'); [discriminate|now apply N].
Qed.
Lemma vo_sets_outcome n names c all : 0 <= c < nb_cells n -> forall s done ts m, vo_ready n all m -> (forall k, In k names -> In k all) ->
  List.length ts = List.length names -> List.length done = (3 + s)%nat ->
  let r := foldM (fun m an => let '(a, k) := an in
     do t <- idx (done ++ ts) (3 + a); do x <- string_to_double F t; vo_set F m k c x)
     (combine (seq s (List.length names)) names) m in
  ((exists vs, numbers F ts vs) /\ exists m', r = Ok m' /\ vo_ready n all m') \/ ((forall vs, ~ numbers F ts vs) /\ r = Throw ExData).
Proof.
  intros Hc. induction names as [|k names IH]; intros s done [|t ts] m R Hin Hl Hd; try discriminate; cbn zeta.
  - left. split; [exists []; constructor|]. exists m. split; [reflexivity|exact R].
  - cbn [List.length seq combine foldM].
    assert (E : idx (done ++ t :: ts) (3 + s) = Ok t).
    { rewrite <- Hd. unfold idx. rewrite nth_error_app2, Nat.sub_diag by lia. reflexivity. }
    rewrite E. cbn [bind]. unfold string_to_double at 1 3. destruct (atod F t) as [x|] eqn:Et.
    2:{ right. split; [|reflexivity]. intros vs H. inversion H; congruence. }
    cbn [bind]. destruct (vo_set_ready n all m k c x R (Hin k (or_introl eq_refl)) Hc) as (m1 & E1 & R1). rewrite E1. cbn [bind].
    specialize (IH (S s) (done ++ [t]) ts m1 R1 (fun k' H => Hin k' (or_intror H)) ltac:(cbn in Hl; lia) ltac:(rewrite app_length; cbn; lia)). cbn zeta in IH.
    rewrite <- app_assoc in IH. cbn [app] in IH.
    destruct IH as [[[vs N] (m' & E' & R')]|[N E']].
    + left. split; [exists (x :: vs); now constructor|]. eauto.
    + right. split; [|exact E']. intros vs H. inversion H; subst. eapply N. eassumption.
Qed.
Lemma vo_row_outcome n names m l : small_grid n -> about_grid n l -> vo_ready n names m ->
  (good_row F (List.length names) l /\ exists m', vo_row F names m l = Ok m' /\ vo_ready n names m') \/
  (~ good_row F (List.length names) l /\ vo_row F names m l = Throw ExData).
Proof.
  intros Hs Ha R. unfold vo_row. cbv zeta. unfold good_row, data_row.
  destruct (Nat.eqb (List.length (string_split l)) (List.length names + 3)) eqn:E; cbn [check bind].
  2:{ right. split; [|reflexivity]. intros ([[[i j] k] vs] & ti & tj & tk & ts & E1 & _ & _ & _ & N & L).
      apply Nat.eqb_neq in E. apply E. rewrite E1. cbn [List.length]. apply numbers_len in N. lia. }
  apply Nat.eqb_eq in E. destruct (string_split l) as [|ti [|tj [|tk ts]]] eqn:Es; cbn [List.length] in E; try lia.
  cbn [idx nth_error bind].
  destruct (sti_cases ti) as [(i & Hi & ->)|(Hi & ->)]; cbn [bind].
  2:{ right. split; [|reflexivity]. intros ([[[i j] k] vs] & ti' & tj' & tk' & ts' & E1 & I1 & _). injection E1 as -> _ _ _. now apply (Hi i). }
  destruct (sti_cases tj) as [(j & Hj & ->)|(Hj & ->)]; cbn [bind].
  2:{ right. split; [|reflexivity]. intros ([[[i' j] k] vs] & ti' & tj' & tk' & ts' & E1 & _ & I1 & _). injection E1 as _ -> _ _. now apply (Hj j). }
  destruct (sti_cases tk) as [(k & Hk & ->)|(Hk & ->)]; cbn [bind].
  2:{ right. split; [|reflexivity]. intros ([[[i' j'] k] vs] & ti' & tj' & tk' & ts' & E1 & _ & _ & I1 & _). injection E1 as _ _ -> _. now apply (Hk k). }
  assert (G : in_grid n (i, j, k)) by (apply Ha; exists [], ti, tj, tk, ts; auto).
  destruct (cell_index_range n (i, j, k) G Hs) as [_ C].
  destruct R as (V & RR). rewrite V.
  destruct (vo_sets_outcome n names (cell_index n (i, j, k)) names C 0%nat [ti; tj; tk] ts m (conj V RR) (fun _ H => H) ltac:(lia) eq_refl) as
    [[[vs N] (m' & E' & R')]|[N E']]; cbn zeta in E'; cbn [app] in E'.
  - left. split.
    + exists ((i, j, k), vs), ti, tj, tk, ts. apply numbers_len in N as L. repeat split; try apply Hi; try apply Hj; try apply Hk; try assumption. lia.
    + exists m'. split; [exact E'|exact R'].
  - right. split; [|exact E']. intros ([[[i' j'] k'] vs] & ti' & tj' & tk' & ts' & E1 & _ & _ & _ & N' & _). injection E1 as _ _ _ ->. now apply (N vs).
Qed.
Lemma vo_rows_outcome n names ls : small_grid n -> Forall (about_grid n) ls -> forall m, vo_ready n names m ->
  (Forall (good_row F (List.length names)) ls -> exists m', foldM (vo_row F names) ls m = Ok m' /\ vo_ready n names m') /\
  (Exists (fun l => ~ good_row F (List.length names) l) ls -> foldM (vo_row F names) ls m = Throw ExData) /\
  foldM (vo_row F names) ls m <> UB.
Proof.
  intros Hs. induction 1 as [|l ls Ha _ IH]; intros m R; cbn [foldM].
  - split; [eauto|]. split; [intros H; inversion H|discriminate].
  - destruct (vo_row_outcome n names m l Hs Ha R) as [[G (m1 & -> & R1)]|[G ->]]; cbn [bind].
    + destruct (IH m1 R1) as (I1 & I2 & I3). split; [intros H; apply I1; now inversion H|]. split; [|exact I3].
      intros H. apply I2. inversion H; subst; [contradiction|assumption].
    + split; [intros H; inversion H; contradiction|]. split; [reflexivity|discriminate].
Qed.
Lemma vo_attributes_ready n names : forall done m, vo_ready n done m -> vo_ready n (done ++ names) (fold_left (vo_attribute F) names m).
Proof.
  induction names as [|k names IH]; intros done m R; [now rewrite app_nil_r|]. cbn [fold_left].
  replace (done ++ k :: names) with ((done ++ [k]) ++ names) by (now rewrite <- app_assoc). apply IH. destruct R as (V & W & N).
  unfold vo_attribute. destruct (find_attr k (v_attrs F m)) as [a|] eqn:E.
  - split; [exact V|]. split; [exact W|]. apply Forall_app. split; [exact N|]. constructor; [congruence|constructor].
  - assert (P : 0 <= nb_cells n) by (destruct n as [[nx ny] nz]; unfold nb_cells, wrap32; apply Z.mod_pos_bound; reflexivity).
    split; [exact V|]. cbn [v_attrs]. rewrite V. split.
    + assert (L : lenz (repeat [zero F] (Z.to_nat (nb_cells n))) = nb_cells n) by (unfold lenz; rewrite repeat_length; lia).
      clear - W L. induction W as [|[k' b] l H Hr IH]; cbn [replace_attr].
      * constructor; [exact L|constructor].
      * destruct (beq k' k); (constructor; [|assumption]); [exact L|assumption].
    + apply Forall_app. split; [|constructor; [|constructor]].
      * eapply Forall_impl; [|exact N]. intros k' Hk'. cbn beta in *. rewrite find_attr_replace. now destruct (beq k k').
      * rewrite find_attr_replace, beq_refl. discriminate.
Qed.
Context (dist : point F -> point F -> num F) (divn : num F -> Z -> num F) (files : bytes -> option bytes).
Lemma data_file_safe folder m s : v_attrs F m = [] -> small_grid (v_n F m) ->
  (forall f data, files (folder ++ f) = Some data -> Forall (about_grid (v_n F m)) (skipn 3 (text_lines data))) ->
  read_data_file F files folder m s <> UB.
Proof.
  intros Ha Hs Hd. unfold read_data_file. destruct (get_data_file s) as [[name|] s']; [|discriminate].
  destruct (files (folder ++ strip_cr name)) as [data|] eqn:E; [|discriminate]. cbv zeta.
  destruct (Nat.ltb _ _); [discriminate|]. apply (vo_rows_outcome (v_n F m)); [exact Hs|exact (Hd _ _ E)|].
  apply (vo_attributes_ready (v_n F m) _ []). split; [reflexivity|]. rewrite Ha. split; constructor.
Qed.
Lemma cells_number_safe s : (forall l, In l (pending s) -> starts_with l "AXIS_N" = true -> (4 <= List.length (string_split l))%nat) ->
  read_cells_number s <> UB /\ forall n s', read_cells_number s = Ok (n, s') ->
    exists l, In l (pending s) /\ starts_with l "AXIS_N" = true /\ index_line 1 l (fst (fst n)) (snd (fst n)) (snd n).
Proof.
  intros H. unfold read_cells_number. destruct (goto_keyword "AXIS_N" s) as [[l s1]| | |] eqn:E; cbn [bind];
    try (split; [discriminate|intros n s' Hn; discriminate]); [|exfalso; revert E; apply goto_keyword_noub].
  apply scan_first in E as (pre & E & Hl & _). assert (In l (pending s)) as Hi by (rewrite E; apply in_elt). specialize (H l Hi Hl).
  destruct (string_split l) as [|w [|ta [|tb [|tc r]]]] eqn:Es; cbn [List.length] in H; try lia. cbn [idx nth_error bind].
  destruct (sti_cases ta) as [(a & Ia & ->)|(_ & ->)]; cbn [bind]; [|split; [discriminate|intros n s' Hn; discriminate]].
  destruct (sti_cases tb) as [(b & Ib & ->)|(_ & ->)]; cbn [bind]; [|split; [discriminate|intros n s' Hn; discriminate]].
  destruct (sti_cases tc) as [(c & Ic & ->)|(_ & ->)]; cbn [bind]; [|split; [discriminate|intros n s' Hn; discriminate]].
  split; [discriminate|]. intros n s' Hn. injection Hn as <- <-. exists l. split; [exact Hi|]. split; [exact Hl|].
  exists [w], ta, tb, tc, r. auto.
Qed.
End Rows.

(** ** C109 *)
Theorem C109_terminates :
  forall (F : Num) dist divn files folder text, read_vo F dist divn files folder text <> Hang.
Proof.
  intros F dist divn files folder text. unfold read_vo. destruct (goto_if _ _) as [[l|] s]; [|discriminate].
  apply bind_nohang; [apply read_header_nohang|]. intros [n s1] _. apply bind_nohang; [apply read_CRS_nohang|]. intros [crs s2] _.
  assert (C : forall l k, read_coord F l k <> Hang) by (intros; apply read_coord_nine).
  apply bind_nohang.
  { unfold initialize_grid. do 4 (apply bind_nohang; [apply goto_keyword_nohang|intros [? ?] _]; apply bind_nohang; [apply C|intros ? _]).
    apply bind_nohang; [|intros [[[? ?] ?] ?] _; discriminate]. unfold read_cells_number.
    apply bind_nohang; [apply goto_keyword_nohang|intros [? ?] _].
    do 3 (apply bind_nohang; [apply idx_nohang|intros ? _]; apply bind_nohang; [apply sti_nohang|intros ? _]). discriminate. }
  intros [m s3] _. unfold read_data_file. destruct (get_data_file s3) as [[nm|] s4]; [|discriminate].
  destruct (files _) as [data|]; [|discriminate]. cbv zeta. destruct (Nat.ltb _ _); [discriminate|].
  apply foldM_nohang. intros m' l'. unfold vo_row. cbv zeta. apply bind_nohang; [apply check_nohang|intros _ _].
  do 3 (apply bind_nohang; [apply idx_nohang|intros ? _]; apply bind_nohang; [apply sti_nohang|intros ? _]).
  apply foldM_nohang. intros m2 [at0 kt0]. apply bind_nohang; [apply idx_nohang|intros ? _]. apply bind_nohang; [apply std_nohang|intros ? _].
  unfold vo_set. destruct (find_attr _ _); [|discriminate]. apply bind_nohang; [apply setz_nohang|discriminate].
Qed.
Print Assumptions C109_terminates.

(** Any text and any data file: no read or write out of bounds when the lines of the coordinate system section are well formed, each
    line that gives the number of cells has the three numbers, they describe fewer than 2^32 cells, and the rows are about cells of
    the grid. *)
Theorem C109_vo_safe :
  forall (F : Num) dist divn files folder text,
    crs_lines_ok (text_lines text) ->
    (forall l, In l (text_lines text) -> starts_with l "AXIS_N" = true -> (4 <= List.length (string_split l))%nat) ->
    (forall l nx ny nz, In l (text_lines text) -> starts_with l "AXIS_N" = true -> index_line 1 l nx ny nz ->
       small_grid (nx, ny, nz) /\
       forall f data, files (folder ++ f) = Some data -> Forall (about_grid (nx, ny, nz)) (skipn 3 (text_lines data))) ->
    read_vo F dist divn files folder text <> UB.
Proof.
  intros F dist divn files folder text Hc Hn Hg. unfold read_vo. destruct (goto_if _ _) as [[l|] s] eqn:E; [|discriminate].
  apply goto_if_suffix, suffix_tl in E. fold (text_lines text) in E.
  apply bind_noub; [apply read_header_noub|]. intros [n s1] E1. apply read_header_suffix in E1. cbn [snd] in E1.
  assert (X1 := suffix_trans _ _ _ E1 E). clear E E1.
  apply bind_noub; [apply read_CRS_inside; eapply crs_lines_ok_suffix; eassumption|]. intros [crs s2] E2. apply read_CRS_suffix in E2. cbn [snd] in E2.
  assert (X2 := suffix_trans _ _ _ E2 X1). clear E2 X1.
  assert (I : initialize_grid F dist divn n s2 <> UB /\ forall m s', initialize_grid F dist divn n s2 = Ok (m, s') ->
     v_attrs F m = [] /\ exists l nx ny nz, In l (text_lines text) /\ starts_with l "AXIS_N" = true /\ index_line 1 l nx ny nz /\ v_n F m = (nx, ny, nz)).
  { unfold initialize_grid. generalize dependent s2.
    assert (K : forall (B : Type) kw (P : B -> Prop) (f : point F -> istream -> res B), (forall p s, suffix (pending s) (text_lines text) -> f p s <> UB /\ forall b, f p s = Ok b -> P b) ->
       forall s, suffix (pending s) (text_lines text) ->
       let r := (do '(line, s) <- goto_keyword kw s; do p <- read_coord F line 1; f p s) in r <> UB /\ forall b, r = Ok b -> P b).
    { intros B kw P f Hf s0 Hs0. cbv zeta. destruct (goto_keyword kw s0) as [[l0 s0']| | |] eqn:Eg; cbn [bind];
        try (split; [discriminate|intros; discriminate]); [|exfalso; revert Eg; apply goto_keyword_noub].
      apply goto_keyword_suffix, suffix_tl in Eg.
      destruct (read_coord F l0 1) as [p| | |] eqn:Er; cbn [bind]; try (split; [discriminate|intros; discriminate]);
        [|exfalso; revert Er; apply read_coord_nine].
      apply Hf. eapply suffix_trans; eassumption. }
    set (P := fun b : Voxet F * istream => v_attrs F (fst b) = [] /\ exists l nx ny nz, In l (text_lines text) /\
       starts_with l "AXIS_N" = true /\ index_line 1 l nx ny nz /\ v_n F (fst b) = (nx, ny, nz)).
    intros s2 X2.
    enough (G : forall r, r = initialize_grid F dist divn n s2 -> r <> UB /\ forall b, r = Ok b -> P b).
    { destruct (G _ eq_refl) as [G1 G2]. split; [exact G1|]. intros m s' Em. exact (G2 (m, s') Em). }
    intros r ->. unfold initialize_grid.
    apply (K _ _ P); [|exact X2]. intros o t1 X3. apply (K _ _ P); [|exact X3]. intros u t2 X4. apply (K _ _ P); [|exact X4]. intros v t3 X5.
    apply (K _ _ P); [|exact X5]. intros w t4 X6.
    destruct (cells_number_safe t4) as [C1 C2].
    { intros l0 Hi. apply Hn. destruct X6 as [p ->]. apply in_or_app. now right. }
    destruct (read_cells_number t4) as [[[[nx ny] nz] t5]| | |] eqn:Ec; cbn [bind]; try (split; [discriminate|intros; discriminate]); [|congruence].
    split; [discriminate|]. intros b Eb. injection Eb as <-. split; [reflexivity|].
    destruct (C2 _ _ eq_refl) as (l0 & Hi & Hl & Hx). cbn [fst snd] in Hx. exists l0, nx, ny, nz.
    split; [destruct X6 as [p ->]; apply in_or_app; now right|]. auto. }
  destruct I as [I1 I2]. apply bind_noub; [exact I1|]. intros [m s3] Em. destruct (I2 m s3 Em) as (Ha & l0 & nx & ny & nz & Hi & Hl & Hx & Hv).
  destruct (Hg l0 nx ny nz Hi Hl Hx) as [G1 G2]. apply data_file_safe; [exact Ha|now rewrite Hv|]. rewrite Hv. exact G2.
Qed.
Print Assumptions C109_vo_safe.

(** A described grid and its data file: the file loads exactly when every row from the fourth line on is good; any other row throws;
    so does a second line of fewer than four words. *)
Theorem C109_vo_outcome :
  forall (F : Num) dist divn files (folder : bytes) (ls : list bytes) (name : option bytes) (o u v w : point F) (n : Z * Z * Z)
         (rest : list bytes) (file data d0 d1 : bytes) (ds : list bytes),
    Forall is_line ls -> vo_text F ls name o u v w n rest -> data_record rest file -> files (folder ++ file) = Some data ->
    text_lines data = d0 :: d1 :: ds -> small_grid n -> Forall (about_grid n) (tl ds) ->
    let load := read_vo F dist divn files folder (unlines ls) in
    let good := good_row F (List.length (skipn 4 (string_split d1))) in
    ((List.length (string_split d1) < 4)%nat -> load = Throw ExBadAlloc) /\
    ((4 <= List.length (string_split d1))%nat ->
       (Forall good (tl ds) -> exists m, load = Ok m /\ v_n F m = n) /\ (Exists (fun l => ~ good l) (tl ds) -> load = Throw ExData)).
Proof.
  intros F dist divn files folder ls name o u v w n rest file data d0 d1 ds Hl Ht Hrec Hf Hd Hs Ha load good.
  destruct (read_vo_text F dist divn files folder ls name o u v w n rest Hl Ht) as [b E]. unfold load, good. rewrite E.
  set (g := described F dist divn name o u v w n).
  assert (Gn : v_n F g = n) by (destruct n as [[nx ny] nz]; reflexivity).
  assert (Ga : v_attrs F g = []) by (unfold g; destruct n as [[nx ny] nz]; reflexivity).
  unfold read_data_file. destruct (get_data_file_ok rest file b Hrec) as (fn & s & Eg & Es). rewrite Eg, Es, Hf.
  fold (text_lines data). rewrite Hd. cbn [nth]. split.
  - intros H. now rewrite (proj2 (Nat.ltb_lt _ _) H).
  - intros H. rewrite (proj2 (Nat.ltb_ge _ _) H).
    replace (skipn 3 (d0 :: d1 :: ds)) with (tl ds) by (destruct ds; reflexivity).
    set (names := skipn 4 (string_split d1)).
    assert (R : vo_ready F n names (fold_left (vo_attribute F) names g)).
    { apply (vo_attributes_ready F n names []). split; [exact Gn|]. rewrite Ga. split; constructor. }
    destruct (vo_rows_outcome F n names (tl ds) Hs Ha _ R) as (O1 & O2 & _). split; [|exact O2].
    intros HF. destruct (O1 HF) as (m & Em & Rm). exists m. split; [exact Em|]. apply Rm.
Qed.
Print Assumptions C109_vo_outcome.
Example C109_instance :
  about_grid (2, 3, 1) (lit "1 2 0 3 4") /\ good_row ExNum 2 (lit "1 2 0 3 4") /\ ~ good_row ExNum 2 (lit "1 2 0 3").
Proof.
  split; [|split].
  - intros i j k (ws & ta & tb & tc & r & E & L & [_ Ha] & [_ Hb] & [_ Hc]). destruct ws; [|discriminate].
    change (string_split (lit "1 2 0 3 4")) with (map lit ["1"; "2"; "0"; "3"; "4"]) in E. cbn [app map] in E.
    injection E as <- <- <- _. vm_compute in Ha, Hb, Hc. injection Ha as <-. injection Hb as <-. injection Hc as <-. unfold in_grid. lia.
  - exists ((1, 2, 0), [3; 4]), (lit "1"), (lit "2"), (lit "0"), (map lit ["3"; "4"]). row_tac.
  - intros ([[[i j] k] vs] & ti & tj & tk & ts & E & _ & _ & _ & N & L).
    change (string_split (lit "1 2 0 3")) with (map lit ["1"; "2"; "0"; "3"]) in E. cbn [map] in E. injection E as _ _ _ <-.
    apply numbers_len in N. rewrite L in N. discriminate.
Qed.
(** An "AXIS_N" line with two numbers reads past its words. *)
Theorem C109_vo_cells_refuted :
  exists ls : list bytes, Forall is_line ls /\ loadable "GOCAD Voxet" (unlines ls) = true /\
    is_UB (read_vo ExNum ex_dist Z.div (ex_files []) "dir/" (unlines ls)) = true.
Proof.
  exists (ex_vo "AXIS_U 4 0 0" "AXIS_V 0 9 0" "AXIS_N 2 3").
  split; [repeat (apply Forall_cons; [apply lineb_ok; reflexivity|]); constructor|]. split; vm_compute; reflexivity.
Qed.
Print Assumptions C109_vo_cells_refuted.
(** A data file that has only a first line, without line feed: this line is also taken as the second one, and its words give
    properties (instead of an exception). *)
Theorem C109_vo_one_line_refuted :
  exists data : bytes, text_lines data = [data] /\
    vo_is (read_vo ExNum ex_dist Z.div (fun f => if beq f "dir/box.data" then Some data else None) "dir/"
      (unlines (ex_vo "AXIS_U 4 0 0" "AXIS_V 0 9 0" "AXIS_N 1 2 1"))) (0, 0, 0) (1, 2, 1) (4, 4, 5)
      [(lit "box", [[0]; [0]])] = true.
Proof. exists (lit "# Data file of box"). split; vm_compute; reflexivity. Qed.
Print Assumptions C109_vo_one_line_refuted.
