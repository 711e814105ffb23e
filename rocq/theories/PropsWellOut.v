(** * Outcome of loading any well file (C108). *)
From Coq Require Import ZArith List Lia Bool Ascii String.
From Verif Require Import Base Text TextFacts GocadModel MeshModel TsModel WellModel Spec GocadFacts TsFacts Sections
  StreamFacts MultiFacts MultiMore MultiAttrs PropsGocad GocadSafe PropsWell ExNum ExCheck.
Import ListNotations.
Local Open Scope string_scope.
Local Open Scope list_scope.
Local Open Scope Z_scope.

(** ** Specification *)

(** The lines of a text. *)
Definition text_lines (text : bytes) : list bytes := pending (open_text text).
(** A line of exactly three numbers. *)
Definition three_numbers (F : Num) (l : bytes) : Prop := exists x y z, number_line F 0 l [x; y; z].
(** Every line of a coordinate system section, closed or not, has words, closed quotes and the value its keyword announces. *)
Definition crs_lines_ok (ls : list bytes) : Prop :=
  forall pre b inside post, ls = pre ++ b :: inside ++ post -> starts_with b "GOCAD_ORIGINAL_COORDINATE_SYSTEM" = true ->
    Forall (fun l => starts_with l "END_ORIGINAL_COORDINATE_SYSTEM" = false) inside -> Forall shaped inside.
(** The word [c] is exactly once in the list. *)
Definition once (c : bytes) (l : list bytes) : Prop := count_occ (list_eq_dec ascii_dec) l c = 1%nat.
Definition name_line (l : bytes) : bool := starts_with l "# WELL NAME:".
Definition separator (l : bytes) : bool := starts_with l "#===".
(** The columns other than X, Y and Z of all the lines of column names. *)
Definition dev_attrs (mid : list bytes) : list bytes :=
  List.concat (map (fun l => if name_line l then [] else others (string_split l)) mid).
(** A header: the lines before the first separator and those up to the second one.  A line that gives a name has a fourth word;
    there is a line of column names; X, Y and Z are each exactly once in every such line. *)
Record dev_header_ok (pre : list bytes) (sep1 : bytes) (mid : list bytes) (sep2 : bytes) : Prop := {
  dho_sep1 : separator sep1 = true;
  dho_sep2 : separator sep2 = true;
  dho_pre : Forall (fun l => separator l = false) pre;
  dho_mid : Forall (fun l => separator l = false) mid;
  dho_names : Forall (fun l => name_line l = true -> (4 <= List.length (string_split l))%nat) (pre ++ mid);
  dho_some : Exists (fun l => name_line l = false) mid;
  dho_xyz : Forall (fun l => name_line l = false ->
    once (lit "X") (string_split l) /\ once (lit "Y") (string_split l) /\ once (lit "Z") (string_split l)) mid
}.
(** A row with as many numbers as there are columns. *)
Definition full_row (F : Num) (width : nat) (l : bytes) : Prop :=
  exists vs, numbers F (string_split l) vs /\ List.length vs = width.

(** ** Facts *)
Section Rows.
Context (F : Num).
Lemma read_coord_nine k l : read_coord F l k <> UB /\ read_coord F l k <> Hang.
Proof.
  unfold read_coord. destruct (Nat.eqb _ _) eqn:E; cbn [check bind]; [|split; discriminate]. apply Nat.eqb_eq in E.
  split; repeat first [apply bind_noub; [first [apply idx_noub; lia|apply std_noub]|intros]
                      |apply bind_nohang; [first [apply idx_nohang|apply std_nohang]|intros]]; discriminate.
Qed.
Lemma read_coord_cases k l : (exists x y z, number_line F k l [x; y; z] /\ read_coord F l k = Ok (x, y, z)) \/
  ((forall x y z, ~ number_line F k l [x; y; z]) /\ read_coord F l k = Throw ExData).
Proof.
  assert (T : read_coord F l k = Throw ExData \/ exists x y z, number_line F k l [x; y; z]).
  { unfold read_coord. destruct (Nat.eqb (List.length (string_split l)) (3 + k)) eqn:E; [|now left].
    apply Nat.eqb_eq in E. cbn [check bind].
    assert (D : exists ws t0 t1 t2, string_split l = ws ++ [t0; t1; t2] /\ List.length ws = k).
    { exists (firstn k (string_split l)). assert (L : List.length (skipn k (string_split l)) = 3%nat) by (rewrite skipn_length; lia).
      destruct (skipn k (string_split l)) as [|t0 [|t1 [|t2 [|]]]] eqn:Es; try discriminate. exists t0, t1, t2.
      split; [now rewrite <- Es, firstn_skipn|]. rewrite firstn_length. lia. }
    destruct D as (ws & t0 & t1 & t2 & Es & Lk). rewrite Es.
    assert (I : forall n, idx (ws ++ [t0; t1; t2]) (n + k) = idx [t0; t1; t2] n) by (intros n; rewrite <- Lk, (Nat.add_comm n); apply idx_app).
    pose proof (I 0%nat) as I0. pose proof (I 1%nat) as I1. pose proof (I 2%nat) as I2.
    change (0 + k)%nat with k in I0. rewrite I0. cbn [idx nth_error bind].
    unfold string_to_double at 1. destruct (atod F t0) as [x|] eqn:A0; [|now left]. cbn [bind].
    rewrite I1. cbn [idx nth_error bind]. unfold string_to_double at 1. destruct (atod F t1) as [y|] eqn:A1; [|now left]. cbn [bind].
    rewrite I2. cbn [idx nth_error bind]. unfold string_to_double at 1. destruct (atod F t2) as [z|] eqn:A2; [|now left].
    right. exists x, y, z, ws, [t0; t1; t2]. split; [assumption|]. split; [assumption|]. repeat constructor; assumption. }
  destruct T as [T|(x & y & z & T)].
  - right. split; [|assumption]. intros x y z N. apply read_coord_ok in N. congruence.
  - left. exists x, y, z. split; [assumption|now apply read_coord_ok].
Qed.
Lemma create_edges_nohang m : create_edges F m <> Hang.
Proof. apply foldM_nohang. intros s a. unfold create_edge. destruct (_ && _); discriminate. Qed.

(** *** .wl *)
Lemma paths_loop_noub crs ref ls : forall m, 1 <= nb_vertices m -> nb_vertices m + lenz ls < two32 -> paths_loop F crs ref ls m <> UB.
Proof.
  induction ls as [|l ls IH]; intros m H1 H2; cbn [paths_loop]; [discriminate|]. destruct (starts_with _ _); [|discriminate].
  apply bind_noub; [apply read_coord_nine|]. intros [[t0 t1] t2] _. destruct ref as [[rx ry] rz].
  unfold lenz in H2. cbn [List.length] in H2. rewrite sub32_small by lia.
  assert (N : forall p : point F, nb_vertices (create_point m p) = nb_vertices m + 1).
  { intros p. unfold nb_vertices, create_point, lenz. cbn [m_points]. rewrite app_length. cbn. lia. }
  rewrite create_edge_ok by (rewrite N; lia). cbn [bind]. apply IH; unfold nb_vertices in *; cbn [m_points]; rewrite ?N; unfold lenz in *;
    cbn [create_point m_points] in *; rewrite ?app_length in *; cbn [List.length] in *; lia.
Qed.
Lemma paths_loop_nohang crs ref ls : forall m, paths_loop F crs ref ls m <> Hang.
Proof.
  induction ls as [|l ls IH]; intros m; cbn [paths_loop]; [discriminate|]. destruct (starts_with _ _); [|discriminate].
  apply bind_nohang; [apply read_coord_nine|]. intros [[t0 t1] t2] _. destruct ref as [[rx ry] rz].
  apply bind_nohang; [unfold create_edge; destruct (_ && _); discriminate|]. intros; apply IH.
Qed.
End Rows.
Lemma crs_lines_ok_suffix a b : suffix b a -> crs_lines_ok a -> crs_lines_ok b.
Proof. intros [p ->] H pre x inside post E. apply (H (p ++ pre) x inside post). now rewrite E, app_assoc. Qed.
Lemma crs_loop_inside c ls : (forall inside post, ls = inside ++ post ->
    Forall (fun l => starts_with l "END_ORIGINAL_COORDINATE_SYSTEM" = false) inside -> Forall shaped inside) -> crs_loop c ls <> UB.
Proof.
  revert c. induction ls as [|l ls IH]; intros c H; [discriminate|]. cbn [crs_loop].
  destruct (starts_with l "END_ORIGINAL_COORDINATE_SYSTEM") eqn:E; [discriminate|].
  apply bind_noub.
  - apply crs_line_safe. specialize (H [l] ls eq_refl). apply Forall_inv in H; [assumption|]. now constructor.
  - intros c' _. apply IH. intros inside post -> Hi. specialize (H (l :: inside) post eq_refl). eapply Forall_inv_tail, H. now constructor.
Qed.
Lemma next_if_some kw s l s' : next_if kw s = (Some l, s') -> pending s = l :: pending s' /\ starts_with l kw = true.
Proof.
  unfold next_if. destruct (pending s) as [|x r]; [discriminate|]. destruct (starts_with x kw) eqn:E; [|discriminate].
  intros H. injection H as <- <-. auto.
Qed.
Lemma read_CRS_inside s : crs_lines_ok (pending s) -> read_CRS s <> UB.
Proof.
  intros H. unfold read_CRS. destruct (next_if _ s) as [[l|] s1] eqn:E; [|discriminate]. apply next_if_some in E as [E1 E2].
  apply bind_noub; [|intros [c r] _; discriminate]. apply crs_loop_inside. intros inside post E3 Hi.
  apply (H [] l inside post); [rewrite E1, E3; reflexivity|assumption|assumption].
Qed.

(** ** C108 *)

(** None of the three readers runs for ever. *)
Theorem C108_terminates :
  forall (F : Num) (name text : bytes), read_wl F text <> Hang /\ read_well F name text <> Hang /\ read_dev F text <> Hang.
Proof.
  intros F name text. split; [|split].
  - unfold read_wl. destruct (goto_if _ _) as [[l|] s]; [|discriminate].
    apply bind_nohang; [apply read_header_nohang|]. intros [n s1] _. apply bind_nohang; [apply read_CRS_nohang|]. intros [crs s2] _.
    apply bind_nohang.
    { unfold read_ref. apply bind_nohang; [apply goto_keyword_nohang|]. intros [l' s3] _.
      apply bind_nohang; [apply read_coord_nine|]. intros [[x y] z] _. discriminate. }
    intros [ref s3] _. apply bind_nohang; [apply goto_keyword_nohang|]. intros [l' s4] _. apply paths_loop_nohang.
  - unfold read_well. apply bind_nohang; [|intros; apply create_edges_nohang]. apply foldM_nohang. intros m l.
    apply bind_nohang; [apply read_coord_nine|discriminate].
  - unfold read_dev. apply bind_nohang; [apply check_keyword_nohang|]. intros s _.
    assert (C : forall h l, dev_columns h l <> Hang).
    { intros h l. unfold dev_columns. apply bind_nohang; [apply check_nohang|]. intros _ _. apply bind_nohang; [|discriminate].
      assert (Df : forall a b, differ a b <> Hang) by (intros [a|] [b|]; discriminate).
      unfold dev_check. apply bind_nohang; [apply Df|]. intros [|] _; [|discriminate].
      apply bind_nohang; [apply Df|]. intros [|] _; [|discriminate]. apply bind_nohang; [apply Df|]. intros; apply check_nohang. }
    apply bind_nohang.
    { generalize true, (mkDev [] [] None None None). induction (pending s) as [|l ls IH]; intros b h; cbn [dev_header_loop]; [discriminate|].
      destruct (starts_with l "#==="); [destruct b; [apply IH|discriminate]|].
      destruct (starts_with l "# WELL NAME:"); [apply bind_nohang; [apply idx_nohang|intros; apply IH]|].
      destruct b; [apply IH|]. apply bind_nohang; [apply C|intros; apply IH]. }
    intros [h rows] _. apply bind_nohang.
    { apply foldM_nohang. intros m n. apply bind_nohang; [|discriminate]. unfold find_or_create. destruct (beq _ _); [discriminate|].
      cbv zeta. destruct (find_attr _ _) as [b|]; [destruct (_ =? _)|]; discriminate. }
    intros m _. apply bind_nohang; [|intros; apply create_edges_nohang]. apply foldM_nohang. intros m' l. unfold dev_row.
    assert (Dc : forall ts p, dev_coord F ts p <> Hang).
    { intros ts [p|]; [|discriminate]. cbn [dev_coord]. apply bind_nohang; [apply idx_nohang|intros; apply std_nohang]. }
    apply bind_nohang; [apply check_nohang|]. intros _ _. do 3 (apply bind_nohang; [apply Dc|intros ? _]).
    apply bind_nohang; [|intros [? ?] _; discriminate]. apply foldM_nohang. intros [m2 c] [i t]. unfold dev_assign.
    destruct (_ || _); [discriminate|]. apply bind_nohang; [apply std_nohang|]. intros x0 _. apply bind_nohang; [apply idx_nohang|]. intros n _.
    apply bind_nohang; [|discriminate]. unfold set_value. destruct (find_attr _ _); [|discriminate].
    apply bind_nohang; [apply setz_nohang|discriminate].
Qed.
Print Assumptions C108_terminates.

(** .dat and .txt: a well for every nonempty list of lines of three numbers, an exception as soon as one line is something else
    (a blank line included), undefined behaviour for the file without lines. *)
Theorem C108_rows_outcome :
  forall (F : Num) (name text : bytes), lenz (text_lines text) < two32 ->
    (text_lines text = [] -> read_well F name text = UB) /\
    (Exists (fun l => ~ three_numbers F l) (text_lines text) -> read_well F name text = Throw ExData) /\
    (text_lines text <> [] -> Forall (three_numbers F) (text_lines text) ->
       exists m, read_well F name text = Ok m /\ lenz (m_points m) = lenz (text_lines text)).
Proof.
  intros F name text. unfold read_well. fold (text_lines text). generalize (text_lines text) as ls. intros ls Hl.
  change (set_name (Some name) empty_mesh) with (mkMesh (F:=F) (C:=edge) (Some name) [] [] []).
  split; [|split].
  - intros ->. unfold read_rows. cbn [foldM bind]. apply create_edges_nothing.
  - intros H. enough (G : forall m, read_rows F ls m = Throw ExData) by now rewrite G. clear Hl. unfold read_rows.
    induction H as [l ls H|l ls H IH]; intros m; cbn [foldM].
    + destruct (read_coord_cases F 0 l) as [(x & y & z & N & _)|(_ & E)]; [|now rewrite E].
      exfalso. apply H. now exists x, y, z.
    + destruct (read_coord_cases F 0 l) as [(x & y & z & N & E)|(_ & E)]; rewrite E; [|reflexivity]. apply IH.
  - intros Hn H.
    assert (G : forall done, exists pts, read_rows F ls (mkMesh (Some name) done [] []) = Ok (mkMesh (Some name) (done ++ pts) [] []) /\
       List.length pts = List.length ls).
    { clear - H. unfold read_rows. induction H as [|l ls (x & y & z & N) _ IH]; intros done.
      - exists []. now rewrite app_nil_r.
      - cbn [foldM]. rewrite (read_coord_ok F 0 l x y z N). cbn [bind]. change (create_point (mkMesh (Some name) done [] []) (x, y, z)) with (mkMesh (F := F) (C := edge) (Some name) (done ++ [(x, y, z)]) [] []).
        destruct (IH (done ++ [(x, y, z)])) as (pts & E & L). exists ((x, y, z) :: pts). rewrite E, <- app_assoc. split; [reflexivity|].
        cbn. now rewrite L. }
    destruct (G []) as (pts & E & L). rewrite E. cbn [bind app].
    rewrite create_edges_ok; [| |unfold lenz in *; lia]; [|destruct pts; [destruct ls; [congruence|discriminate]|discriminate]].
    eexists. split; [reflexivity|]. cbn [m_points]. unfold lenz. now rewrite L.
Qed.
Print Assumptions C108_rows_outcome.
Example C108_rows_instance :
  Forall (three_numbers ExNum) (map lit ["1 2 3"; "  4 5   6"]) /\ Exists (fun l => ~ three_numbers ExNum l) (map lit ["1 2 3"; ""]) /\
  is_Throw (read_well ExNum "w" (unlines (map lit ["1 2 3"; ""]))) = true.
Proof.
  split; [|split].
  - constructor; [|constructor; [|constructor]].
    + exists 1, 2, 3, [], (map lit ["1"; "2"; "3"]). repeat split; repeat constructor.
    + exists 4, 5, 6, [], (map lit ["4"; "5"; "6"]). repeat split; repeat constructor.
  - apply Exists_cons_tl, Exists_cons_hd. intros (x & y & z & ws & ts & E & L & N). destruct ws; [|discriminate]. cbn in E. subst ts. inversion N.
  - vm_compute. reflexivity.
Qed.

(** .wl: only an ill-formed line of the coordinate system section reads out of bounds. *)
Theorem C108_wl_safe :
  forall (F : Num) (text : bytes), crs_lines_ok (text_lines text) -> lenz (text_lines text) + 1 < two32 -> read_wl F text <> UB.
Proof.
  intros F text H Hl. unfold read_wl. destruct (goto_if _ _) as [[l|] s] eqn:E; [|discriminate].
  apply goto_if_suffix, suffix_tl in E. fold (text_lines text) in E.
  apply bind_noub; [apply read_header_noub|]. intros [n s1] E1. apply read_header_suffix in E1. cbn [snd] in E1.
  assert (X1 := suffix_trans _ _ _ E1 E).
  apply bind_noub; [apply read_CRS_inside; eapply crs_lines_ok_suffix; eassumption|]. intros [crs s2] E2. apply read_CRS_suffix in E2. cbn [snd] in E2.
  assert (X2 := suffix_trans _ _ _ E2 X1).
  apply bind_noub.
  { unfold read_ref. apply bind_noub; [apply goto_keyword_noub|]. intros [l' s3] _. apply bind_noub; [apply read_coord_nine|]. intros [[x y] z] _. discriminate. }
  intros [ref s3] E3.
  assert (X3 : suffix (pending s3) (pending s2)).
  { unfold read_ref in E3. apply bind_ok in E3 as [[l' s'] [E3 E4]]. apply bind_ok in E4 as [[[x y] z] [_ E4]]. injection E4 as <- <-.
    now apply goto_keyword_suffix, suffix_tl in E3. }
  apply bind_noub; [apply goto_keyword_noub|]. intros [l' s4] E4. apply goto_keyword_suffix, suffix_tl in E4.
  assert (X4 := suffix_length _ _ (suffix_trans _ _ _ E4 (suffix_trans _ _ _ X3 X2))).
  assert (P : nb_vertices (create_point (set_name n (empty_mesh (F := F) (C := edge))) ref) = 1) by (destruct n; reflexivity).
  apply paths_loop_noub; rewrite P; unfold lenz in *; lia.
Qed.
Print Assumptions C108_wl_safe.
(** Such a line: no words at all, or a keyword without its value. *)
Theorem C108_wl_blank_line_refuted :
  exists ls : list bytes, Forall is_line ls /\ loadable "GOCAD Well" (unlines ls) = true /\ forall F : Num, read_wl F (unlines ls) = UB.
Proof.
  exists (map lit ["GOCAD Well 1"; "HEADER {"; "name:w"; "}"; "GOCAD_ORIGINAL_COORDINATE_SYSTEM"; "NAME Default"; "";
    "END_ORIGINAL_COORDINATE_SYSTEM"; "WREF 100 200 7"; "PATH 0 0 0 0"; "PATH 1 10 1 2"; "END"]).
  split; [repeat (apply Forall_cons; [apply lineb_ok; reflexivity|]); constructor|]. split; [vm_compute; reflexivity|]. intros F. reflexivity.
Qed.
Print Assumptions C108_wl_blank_line_refuted.
Lemma shaped_crs ls : Forall shaped ls -> crs_lines_ok ls.
Proof.
  intros H pre b inside post -> _ _. apply Forall_app in H as [_ H]. apply Forall_inv_tail in H. now apply Forall_app in H.
Qed.
Lemma well_shaped_shaped l : well_shaped l -> shaped l.
Proof. intros (k & r & E & H1 & H2 & H3 & _). now exists k, r. Qed.
Example C108_wl_instance : crs_lines_ok (text_lines (unlines ex_wl)).
Proof.
  apply shaped_crs, Forall_forall. intros l Hl. apply well_shaped_shaped, shapedb_ok.
  assert (B : forallb shapedb (text_lines (unlines ex_wl)) = true) by (vm_compute; reflexivity).
  rewrite forallb_forall in B. now apply B.
Qed.

(** *** .dev *)
Lemma once_in c l : once c l -> In c l.
Proof. unfold once. intros H. apply (count_occ_In (list_eq_dec ascii_dec)). lia. Qed.
(** The columns that are not coordinates, and one for each coordinate. *)
Lemma once_width cols : once (lit "X") cols -> once (lit "Y") cols -> once (lit "Z") cols ->
  List.length cols = (List.length (others cols) + 3)%nat.
Proof.
  unfold once.
  assert (G : List.length cols = (List.length (others cols) + (count_occ (list_eq_dec ascii_dec) cols (lit "X") +
    count_occ (list_eq_dec ascii_dec) cols (lit "Y") + count_occ (list_eq_dec ascii_dec) cols (lit "Z")))%nat).
  { induction cols as [|c cols IH]; [reflexivity|]. cbn [List.length count_occ].
    change (others (c :: cols)) with (if negb (coordinate c) then c :: others cols else others cols).
    assert (D : forall (k : bytes) n, (if list_eq_dec ascii_dec c k then S n else n) = ((if beq c k then 1 else 0) + n)%nat).
    { intros k n. destruct (list_eq_dec ascii_dec c k) as [->|N]; [now rewrite beq_refl|]. now rewrite (proj2 (beq_neq c k)). }
    rewrite !D. unfold coordinate at 1.
    assert (X : forall k j : bytes, k <> j -> beq c k = true -> beq c j = false).
    { intros k j N E. apply beq_eq in E. subst. now apply beq_neq. }
    destruct (beq c "X") eqn:EX.
    - rewrite (X (lit "X") (lit "Y")), (X (lit "X") (lit "Z")) by (assumption || discriminate). cbn [orb negb List.length]. lia.
    - destruct (beq c "Y") eqn:EY.
      + rewrite (X (lit "Y") (lit "Z")) by (assumption || discriminate). cbn [orb negb List.length]. lia.
      + destruct (beq c "Z"); cbn [orb negb List.length]; lia. }
  lia.
Qed.
Lemma column_last cols : forall s h, let h' := fold_left dev_column (combine (seq s (List.length cols)) cols) h in
  (In (lit "X") cols -> exists p, nth_error cols p = Some (lit "X") /\ d_x h' = Some (s + p)%nat) /\
  (In (lit "Y") cols -> exists p, nth_error cols p = Some (lit "Y") /\ d_y h' = Some (s + p)%nat) /\
  (In (lit "Z") cols -> exists p, nth_error cols p = Some (lit "Z") /\ d_z h' = Some (s + p)%nat).
Proof.
  induction cols as [|c cols IH]; intros s h; cbn [List.length seq combine fold_left]; [split; [|split]; intros []|].
  destruct (IH (S s) (dev_column h (s, c))) as (A & B & C). destruct (dev_column_xyz cols (S s) (dev_column h (s, c))) as (NA & NB & NC & _).
  cbn zeta in *.
  split; [|split]; intros Hi.
  - destruct (in_dec (list_eq_dec ascii_dec) (lit "X") cols) as [H|H].
    + destruct (A H) as (p & E1 & E2). exists (S p). split; [exact E1|]. rewrite E2. f_equal. lia.
    + destruct Hi as [->|Hi]; [|contradiction]. exists O. split; [reflexivity|]. rewrite NA by assumption. cbn. f_equal. lia.
  - destruct (in_dec (list_eq_dec ascii_dec) (lit "Y") cols) as [H|H].
    + destruct (B H) as (p & E1 & E2). exists (S p). split; [exact E1|]. rewrite E2. f_equal. lia.
    + destruct Hi as [->|Hi]; [|contradiction]. exists O. split; [reflexivity|]. rewrite NB by assumption. cbn. f_equal. lia.
  - destruct (in_dec (list_eq_dec ascii_dec) (lit "Z") cols) as [H|H].
    + destruct (C H) as (p & E1 & E2). exists (S p). split; [exact E1|]. rewrite E2. f_equal. lia.
    + destruct Hi as [->|Hi]; [|contradiction]. exists O. split; [reflexivity|]. rewrite NC by assumption. cbn. f_equal. lia.
Qed.
(** The three positions are set, distinct, and smaller than the width of a row. *)
Definition positioned (h : DevHeader) : Prop := exists px py pz, d_x h = Some px /\ d_y h = Some py /\ d_z h = Some pz /\
  px <> py /\ px <> pz /\ py <> pz /\ (px < List.length (d_attrs h) + 3)%nat /\ (py < List.length (d_attrs h) + 3)%nat /\
  (pz < List.length (d_attrs h) + 3)%nat.
Lemma columns_ok h l : once (lit "X") (string_split l) -> once (lit "Y") (string_split l) -> once (lit "Z") (string_split l) ->
  exists h', dev_columns h l = Ok h' /\ d_attrs h' = d_attrs h ++ others (string_split l) /\ d_name h' = d_name h /\ positioned h'.
Proof.
  intros HX HY HZ. unfold dev_columns. set (cols := string_split l) in *.
  assert (W := once_width cols HX HY HZ). rewrite (proj2 (Nat.leb_le 3 (List.length cols))) by lia. cbn [check bind].
  set (h' := fold_left dev_column _ h).
  destruct (column_last cols 0 h) as (A & B & C). destruct (dev_column_attrs cols 0 h) as [E1 E2]. fold h' in A, B, C, E1, E2.
  destruct (A (once_in _ _ HX)) as (px & X1 & X2). destruct (B (once_in _ _ HY)) as (py & Y1 & Y2). destruct (C (once_in _ _ HZ)) as (pz & Z1 & Z2).
  cbn [Nat.add] in X2, Y2, Z2.
  assert (Dif : forall p q (a b : bytes), nth_error cols p = Some a -> nth_error cols q = Some b -> a <> b -> p <> q) by (intros; congruence).
  assert (Lt : forall p (a : bytes), nth_error cols p = Some a -> (p < List.length (d_attrs h') + 3)%nat).
  { intros p a E. assert (p < List.length cols)%nat by (apply nth_error_Some; congruence). rewrite E2, app_length. lia. }
  assert (D1 : px <> py) by (eapply Dif; [eassumption|eassumption|discriminate]).
  assert (D2 : px <> pz) by (eapply Dif; [eassumption|eassumption|discriminate]).
  assert (D3 : py <> pz) by (eapply Dif; [eassumption|eassumption|discriminate]).
  rewrite (dev_check_ok h' px py pz) by assumption. cbn [bind]. exists h'. split; [reflexivity|]. split; [assumption|]. split; [assumption|].
  exists px, py, pz. repeat split; eauto.
Qed.
Lemma sep_not_name l : separator l = true -> name_line l = false.
Proof.
  unfold separator, name_line. intros E. destruct (starts_with l "# WELL NAME:") eqn:Hl; [|reflexivity]. exfalso.
  destruct l as [|a [|b l]]; [discriminate|cbn [starts_with lit list_ascii_of_string] in E; now rewrite andb_false_r in E|].
  cbn [starts_with lit list_ascii_of_string] in E, Hl. apply andb_true_iff in E as [_ E]. apply andb_true_iff in E as [E _].
  apply andb_true_iff in Hl as [_ Hl]. apply andb_true_iff in Hl as [Hl _]. apply Ascii.eqb_eq in E, Hl. congruence.
Qed.
Lemma fourth (l : list bytes) : (4 <= List.length l)%nat -> exists w, idx l 3 = Ok w.
Proof. destruct l as [|a [|b [|c [|d l]]]]; cbn; try lia. eauto. Qed.
Lemma pre_ok pre rest : Forall (fun l => separator l = false) pre ->
  Forall (fun l => name_line l = true -> (4 <= List.length (string_split l))%nat) pre ->
  forall h, exists n, dev_header_loop true h (pre ++ rest) = dev_header_loop true (mkDev n (d_attrs h) (d_x h) (d_y h) (d_z h)) rest.
Proof.
  induction 1 as [|l pre H _ IH]; intros Hn h; [exists (d_name h); now destruct h|]. cbn [app dev_header_loop].
  unfold separator in H. rewrite H. pose proof (Forall_inv Hn) as N1. cbn beta in N1. apply Forall_inv_tail in Hn. unfold name_line in N1.
  destruct (starts_with l "# WELL NAME:"); [|now apply IH].
  destruct (fourth _ (N1 eq_refl)) as [w ->]. cbn [bind].
  destruct (IH Hn (mkDev w (d_attrs h) (d_x h) (d_y h) (d_z h))) as [n E]. exists n. exact E.
Qed.
Lemma mid_ok sep2 rows mid : separator sep2 = true -> Forall (fun l => separator l = false) mid ->
  Forall (fun l => name_line l = true -> (4 <= List.length (string_split l))%nat) mid ->
  Forall (fun l => name_line l = false ->
    once (lit "X") (string_split l) /\ once (lit "Y") (string_split l) /\ once (lit "Z") (string_split l)) mid ->
  forall h, positioned h \/ Exists (fun l => name_line l = false) mid ->
  exists h', dev_header_loop false h (mid ++ sep2 :: rows) = Ok (h', rows) /\ d_attrs h' = d_attrs h ++ dev_attrs mid /\ positioned h'.
Proof.
  intros Hs. induction 1 as [|l mid H _ IH]; intros Hn Hx h Hp.
  - cbn [app dev_header_loop]. unfold separator in Hs. rewrite Hs. exists h. split; [reflexivity|]. cbn. rewrite app_nil_r. split; [reflexivity|].
    destruct Hp as [Hp|Hp]; [assumption|inversion Hp].
  - cbn [app dev_header_loop]. unfold separator in H. rewrite H. pose proof (Forall_inv Hn) as N1. pose proof (Forall_inv Hx) as X1. cbn beta in N1, X1.
    apply Forall_inv_tail in Hn, Hx. unfold dev_attrs. cbn [map List.concat]. fold (dev_attrs mid).
    fold (name_line l). destruct (name_line l) eqn:E.
    + destruct (fourth _ (N1 eq_refl)) as [w ->]. cbn [bind app].
      apply (IH Hn Hx (mkDev w (d_attrs h) (d_x h) (d_y h) (d_z h))).
      destruct Hp as [(px & py & pz & Hp)|Hp]; [left; exists px, py, pz; exact Hp|]. inversion Hp; subst; [congruence|now right].
    + destruct (X1 eq_refl) as (A & B & C). destruct (columns_ok h l A B C) as (h1 & E1 & E2 & _ & P). rewrite E1. cbn [bind].
      destruct (IH Hn Hx h1 (or_introl P)) as (h' & E3 & E4 & P'). exists h'. split; [exact E3|]. split; [|exact P']. now rewrite E4, E2, app_assoc.
Qed.
(** Number of positions kept in a row. *)
Lemma sel_count {A} px py pz (l : list A) : px <> py -> px <> pz -> py <> pz -> forall s,
  let inr p := (if Nat.leb s p && Nat.ltb p (s + List.length l) then 1 else 0)%nat in
  (List.length (sel px py pz s l) + inr px + inr py + inr pz)%nat = List.length l.
Proof.
  intros D1 D2 D3. induction l as [|x l IH]; intros s; cbn zeta.
  - cbn [sel List.length]. rewrite Nat.add_0_r.
    assert (G : forall p, Nat.leb s p && Nat.ltb p s = false).
    { intros p. destruct (Nat.leb s p) eqn:E; [|reflexivity]. apply Nat.leb_le in E. apply Nat.ltb_ge. lia. }
    now rewrite !G.
  - specialize (IH (S s)). cbn zeta in IH. cbn [List.length].
    assert (G : forall p, (if Nat.leb s p && Nat.ltb p (s + S (List.length l)) then 1 else 0)%nat
       = ((if Nat.leb (S s) p && Nat.ltb p (S s + List.length l) then 1 else 0) + (if Nat.eqb s p then 1 else 0))%nat).
    { intros p. destruct (Nat.leb s p) eqn:E1, (Nat.ltb p (s + S (List.length l))) eqn:E2, (Nat.leb (S s) p) eqn:E3, (Nat.ltb p (S s + List.length l)) eqn:E4,
        (Nat.eqb s p) eqn:E5; try reflexivity; exfalso;
        rewrite ?Nat.leb_le, ?Nat.leb_gt, ?Nat.ltb_lt, ?Nat.ltb_ge, ?Nat.eqb_eq, ?Nat.eqb_neq in *; lia. }
    rewrite !G. cbn [sel]. unfold skipped.
    destruct (Nat.eqb s px) eqn:E1, (Nat.eqb s py) eqn:E2, (Nat.eqb s pz) eqn:E3; cbn [orb List.length];
      rewrite ?Nat.eqb_eq, ?Nat.eqb_neq in *; try lia.
Qed.
Lemma sel_three {A} px py pz (l : list A) n : px <> py -> px <> pz -> py <> pz -> List.length l = (n + 3)%nat ->
  (px < n + 3)%nat -> (py < n + 3)%nat -> (pz < n + 3)%nat -> List.length (sel px py pz 0 l) = n.
Proof.
  intros D1 D2 D3 L X Y Z. pose proof (sel_count px py pz l D1 D2 D3 0) as H. cbn zeta in H. rewrite L in H. cbn [Nat.leb andb Nat.add] in H.
  rewrite !(proj2 (Nat.ltb_lt _ _)) in H by assumption. lia.
Qed.

Section DevRows.
Context (F : Num).
Definition isnum (t : bytes) : Prop := exists v, atod F t = Some v.
Lemma numbers_all ts : (exists vs, numbers F ts vs) <-> Forall isnum ts.
Proof.
  split.
  - intros [vs H]. induction H as [|t v ts vs H _ IH]; constructor; [now exists v|assumption].
  - induction 1 as [|t ts [v H] _ [vs IH]]; [exists []; constructor|]. exists (v :: vs). now constructor.
Qed.
Lemma numbers_len ts vs : numbers F ts vs -> List.length vs = List.length ts.
Proof. induction 1; cbn; congruence. Qed.
Lemma full_row_iff w l : full_row F w l <-> List.length (string_split l) = w /\ Forall isnum (string_split l).
Proof.
  split.
  - intros (vs & N & L). split; [rewrite <- L; symmetry; now apply numbers_len|]. apply numbers_all. now exists vs.
  - intros [L N]. apply numbers_all in N as [vs N]. exists vs. split; [assumption|]. rewrite <- L. now apply numbers_len.
Qed.
Lemma isnum_dec t : {v | atod F t = Some v} + {~ isnum t}.
Proof. unfold isnum. destruct (atod F t) as [v|]; [left; now exists v|right; intros [v H]; discriminate]. Qed.
Lemma std_not t : ~ isnum t -> string_to_double F t = Throw ExData.
Proof. unfold isnum, string_to_double. destruct (atod F t) as [v|]; [intros H; exfalso; apply H; now exists v|reflexivity]. Qed.
(** The attributes exist, with a value for each of the [n] vertices. *)
Definition ready (h : DevHeader) (n : nat) (m : mesh F edge) : Prop :=
  m_cells m = [] /\ List.length (m_points m) = n /\ wf_attrs F m /\ Forall (fun k => find_attr k (m_attrs m) <> None) (d_attrs h).
Lemma set_value_ready h n m k v x : ready h n m -> find_attr k (m_attrs m) <> None -> 0 <= v < Z.of_nat n ->
  exists m', set_value F m k v x = Ok m' /\ ready h n m'.
Proof.
  intros (C & L & W & N) Hk Hv. unfold set_value. destruct (find_attr k (m_attrs m)) as [a|] eqn:E; [|congruence].
  assert (La : List.length (a_vals a) = n).
  { unfold wf_attrs in W. rewrite Forall_forall in W. apply MultiAttrs.find_attr_some in E. rewrite <- L. now apply (W _ E). }
  unfold setz. rewrite La, (proj2 (Z.leb_le _ _)), (proj2 (Z.ltb_lt _ _)) by lia. cbn [andb bind]. eexists. split; [reflexivity|].
  split; [exact C|]. split; [exact L|]. split.
  - unfold wf_attrs. cbn [set_attr_list m_attrs m_points]. apply replace_attr_wf; [|exact W]. cbn [a_vals]. rewrite upd_length. lia.
  - cbn [set_attr_list m_attrs]. eapply Forall_impl; [|exact N]. intros k' Hk'. cbn beta in *. rewrite find_attr_replace. now destruct (beq k k').
Qed.
Lemma assign_outcome h px py pz v n tokens : d_x h = Some px -> d_y h = Some py -> d_z h = Some pz -> 0 <= v < Z.of_nat n ->
  forall s c m, ready h n m -> (c + List.length (sel px py pz s tokens) <= List.length (d_attrs h))%nat ->
  let r := foldM (dev_assign F h v) (combine (seq s (List.length tokens)) tokens) (m, c) in
  (Forall isnum (sel px py pz s tokens) -> exists m' c', r = Ok (m', c') /\ ready h n m') /\
  (~ Forall isnum (sel px py pz s tokens) -> r = Throw ExData).
Proof.
  intros Hx Hy Hz Hv. induction tokens as [|t tokens IH]; intros s c m R Hc; cbn zeta.
  - cbn. split; [eauto|]. intros H. exfalso. apply H. constructor.
  - cbn [List.length seq combine foldM]. unfold dev_assign at 1 3. rewrite Hx, Hy, Hz. cbn [is_pos].
    cbn [sel] in *. unfold skipped in *. destruct (Nat.eqb s px || Nat.eqb s py || Nat.eqb s pz).
    + cbn [bind]. now apply IH.
    + cbn [List.length] in Hc. destruct (isnum_dec t) as [[x Hx']|Hx'].
      2:{ split; [intros H; inversion H; contradiction|]. intros _. now rewrite std_not. }
      rewrite (std_num F t x Hx'). cbn [bind].
      destruct (nth_error (d_attrs h) c) as [k|] eqn:Ek; [|apply nth_error_None in Ek; lia].
      rewrite (idx_nth _ _ _ Ek). cbn [bind].
      assert (Hk : find_attr k (m_attrs m) <> None) by (destruct R as (_ & _ & _ & N); rewrite Forall_forall in N; apply N; eapply nth_error_In; eassumption).
      destruct (set_value_ready h n m k v x R Hk Hv) as (m1 & E1 & R1). rewrite E1. cbn [bind].
      destruct (IH (S s) (S c) m1 R1 ltac:(lia)) as [I1 I2]. split.
      * intros H. apply I1. now inversion H.
      * intros H. apply I2. intros H'. apply H. constructor; [now exists x|assumption].
Qed.
Lemma create_point_ready h n m p : ready h n m -> ready h (S n) (create_point m p).
Proof.
  intros (C & L & W & N). split; [exact C|]. split; [unfold create_point; cbn [m_points]; rewrite app_length; cbn; lia|]. split.
  - unfold wf_attrs, create_point in *. cbn [m_attrs m_points]. apply Forall_forall. intros na Hi. apply in_map_iff in Hi as (x & <- & Hi).
    rewrite Forall_forall in W. cbn [snd a_vals]. rewrite !app_length. now rewrite (W _ Hi).
  - unfold create_point. cbn [m_attrs]. eapply Forall_impl; [|exact N]. intros k Hk. cbn beta in *.
    revert Hk. clear. unfold find_attr. induction (m_attrs m) as [|[k' a] l IH]; [auto|]. cbn [map find fst snd]. destruct (beq k' k); [discriminate|exact IH].
Qed.
(** A row that is not full throws; a full one adds a vertex. *)
Lemma row_outcome h n m l : positioned h -> ready h n m ->
  (full_row F (List.length (d_attrs h) + 3) l -> exists m', dev_row F h m l = Ok m' /\ ready h (S n) m') /\
  (~ full_row F (List.length (d_attrs h) + 3) l -> dev_row F h m l = Throw ExData).
Proof.
  intros (px & py & pz & Hx & Hy & Hz & D1 & D2 & D3 & Lx & Ly & Lz) R. rewrite full_row_iff. unfold dev_row. cbv zeta.
  destruct (Nat.eqb (List.length (string_split l)) (List.length (d_attrs h) + 3)) eqn:E; cbn [check bind].
  2:{ apply Nat.eqb_neq in E. split; [tauto|reflexivity]. }
  apply Nat.eqb_eq in E. rewrite Hx, Hy, Hz.
  assert (Cd : forall p, (p < List.length (d_attrs h) + 3)%nat ->
     (exists x, dev_coord F (string_split l) (Some p) = Ok x /\ exists t, nth_error (string_split l) p = Some t /\ isnum t) \/
     (dev_coord F (string_split l) (Some p) = Throw ExData /\ ~ Forall isnum (string_split l))).
  { intros p Lp. rewrite <- E in Lp. destruct (nth_error (string_split l) p) as [t|] eqn:Et; [|apply nth_error_None in Et; lia].
    unfold dev_coord. rewrite (idx_nth _ _ _ Et). cbn [bind]. destruct (isnum_dec t) as [[x Hx']|Hx'].
    - left. exists x. split; [now apply std_num|]. exists t. split; [reflexivity|now exists x].
    - right. split; [now apply std_not|]. intros H. apply Hx'. rewrite Forall_forall in H. apply H. eapply nth_error_In; eassumption. }
  destruct (Cd px Lx) as [(x & Ex & tx & Tx & Nx)|[Ex Nx]]; rewrite Ex; cbn [bind]; [|tauto].
  destruct (Cd py Ly) as [(y & Ey & ty & Ty & Ny)|[Ey Ny]]; rewrite Ey; cbn [bind]; [|tauto].
  destruct (Cd pz Lz) as [(z & Ez & tz & Tz & Nz)|[Ez Nz]]; rewrite Ez; cbn [bind]; [|tauto].
  assert (V : 0 <= nb_vertices m < Z.of_nat (S n)) by (destruct R as (_ & Ln & _); unfold nb_vertices, lenz; lia).
  destruct (assign_outcome h px py pz (nb_vertices m) (S n) (string_split l) Hx Hy Hz V 0 0 (create_point m (x, y, z))
    (create_point_ready h n m (x, y, z) R)) as [I1 I2].
  { rewrite (sel_three px py pz _ (List.length (d_attrs h))) by assumption. lia. }
  assert (Sel : Forall isnum (sel px py pz 0 (string_split l)) <-> Forall isnum (string_split l)).
  { assert (G : forall ts s, Forall isnum ts -> Forall isnum (sel px py pz s ts)).
    { induction ts as [|t ts IH]; intros s H; [constructor|]. inversion H; subst. cbn [sel]. destruct (skipped px py pz s); auto. }
    split; [|apply G]. intros H. apply Forall_forall. intros t Ht. apply In_nth_error in Ht as [p Hp].
    destruct (skipped px py pz p) eqn:Sk.
    - unfold skipped in Sk. apply orb_true_iff in Sk as [Sk|Sk]; [apply orb_true_iff in Sk as [Sk|Sk]|]; apply Nat.eqb_eq in Sk; subst p; congruence.
    - rewrite Forall_forall in H. apply H. eapply nth_error_In. rewrite (sel_nth px py pz (string_split l) 0 p) by exact Sk. exact Hp. }
  rewrite <- Sel. split.
  - intros [_ H]. destruct (I1 H) as (m' & c' & -> & R'). cbn [bind]. eauto.
  - intros H. rewrite I2; [reflexivity|]. intros H'. apply H. now split.
Qed.
Lemma attributes_outcome names : forall m, m_cells m = [] -> m_points m = [] -> wf_attrs F m ->
  (forall k t, MultiFacts.kind F (m_attrs m) k = Some t -> t = 1) ->
  (In (lit "points") names -> dev_create_attributes F names m = Throw ExData) /\
  (~ In (lit "points") names -> exists m', dev_create_attributes F names m = Ok m' /\ m_cells m' = [] /\ m_points m' = [] /\ wf_attrs F m' /\
     Forall (fun k => find_attr k (m_attrs m') <> None) names /\ (forall k, find_attr k (m_attrs m) <> None -> find_attr k (m_attrs m') <> None)).
Proof.
  unfold dev_create_attributes. induction names as [|n names IH]; intros m C P W T; cbn [foldM In].
  - split; [tauto|]. intros _. exists m. repeat split; auto.
  - destruct (find_or_create m n 1 [zero F]) as [a|e| |] eqn:E.
    2-4: unfold find_or_create in E; destruct (beq n "points") eqn:En; 
      [|cbv zeta in E; destruct (find_attr n (m_attrs m)) as [b|] eqn:Eb; [|discriminate];
        rewrite (T n (a_type b)) in E by (unfold MultiFacts.kind; now rewrite Eb); discriminate].
    2:{ injection E as <-. apply beq_eq in En. split; [reflexivity|tauto]. }
    2-3: discriminate.
    assert (Hn : n <> lit "points") by (intros ->; discriminate).
    pose proof (find_or_create_wf F m n 1 _ a W E) as La. cbn [bind].
    destruct (IH (set_attr_list m (replace_attr n a (m_attrs m))) C P) as [I1 I2].
    { unfold wf_attrs. cbn [set_attr_list m_attrs m_points]. now apply replace_attr_wf. }
    { intros k t. cbn [set_attr_list m_attrs]. rewrite kind_replace. apply find_or_create_kind in E as [E _].
      destruct (beq n k); [|apply T]. rewrite E. intros Ht. now injection Ht as <-. }
    split; [intros [H|H]; [congruence|now apply I1]|]. intros H. destruct I2 as (m' & E' & C' & P' & W' & N' & K'); [tauto|].
    exists m'. cbn [set_attr_list m_attrs] in K'. repeat split; auto.
    + constructor; [|assumption]. apply K'. rewrite find_attr_replace, beq_refl. discriminate.
    + intros k Hk. apply K'. rewrite find_attr_replace. now destruct (beq n k).
Qed.
Lemma full_row_dec w l : {full_row F w l} + {~ full_row F w l}.
Proof.
  destruct (Nat.eq_dec (List.length (string_split l)) w) as [E|E]; [|right; rewrite full_row_iff; tauto].
  assert (D : {Forall isnum (string_split l)} + {~ Forall isnum (string_split l)}).
  { apply Forall_dec. intros t. destruct (isnum_dec t) as [[v H]|H]; [left; now exists v|now right]. }
  destruct D; [left|right]; rewrite full_row_iff; tauto.
Qed.
Lemma rows_outcome h rows : positioned h -> forall n m, ready h n m ->
  (Forall (full_row F (List.length (d_attrs h) + 3)) rows -> exists m', foldM (dev_row F h) rows m = Ok m' /\ ready h (n + List.length rows) m') /\
  (Exists (fun l => ~ full_row F (List.length (d_attrs h) + 3) l) rows -> foldM (dev_row F h) rows m = Throw ExData).
Proof.
  intros Hp. induction rows as [|l rows IH]; intros n m R; cbn [foldM List.length].
  - split; [|intros H; inversion H]. intros _. exists m. rewrite Nat.add_0_r. auto.
  - destruct (row_outcome h n m l Hp R) as [A B]. destruct (full_row_dec (List.length (d_attrs h) + 3) l) as [Hl|Hl].
    + destruct (A Hl) as (m1 & E1 & R1). rewrite E1. cbn [bind]. destruct (IH (S n) m1 R1) as [I1 I2]. split.
      * intros H. apply Forall_inv_tail in H. rewrite Nat.add_succ_r. now apply I1.
      * intros H. apply I2. inversion H; subst; [contradiction|assumption].
    + rewrite (B Hl). split; [intros H; apply Forall_inv in H; contradiction|reflexivity].
Qed.
End DevRows.

(** .dev with a good header: a column named "points" throws; no row is undefined behaviour; a row that does not have a number for
    each column throws; everything else loads with a vertex for each row and an edge between consecutive rows. *)
Theorem C108_dev_outcome :
  forall (F : Num) (text l0 : bytes) (pre : list bytes) (sep1 : bytes) (mid : list bytes) (sep2 : bytes) (rows : list bytes),
    text_lines text = l0 :: pre ++ sep1 :: mid ++ sep2 :: rows -> lenz rows < two32 ->
    starts_with l0 "# WELL TRACE FROM PETREL" = true -> dev_header_ok pre sep1 mid sep2 ->
    let full := full_row F (List.length (dev_attrs mid) + 3) in
    (In (lit "points") (dev_attrs mid) -> read_dev F text = Throw ExData) /\
    (~ In (lit "points") (dev_attrs mid) ->
      (rows = [] -> read_dev F text = UB) /\
      (Exists (fun l => ~ full l) rows -> read_dev F text = Throw ExData) /\
      (rows <> [] -> Forall full rows -> exists m, read_dev F text = Ok m /\
         List.length (m_points m) = List.length rows /\ m_cells m = chain (List.length rows))).
Proof.
  intros F text l0 pre sep1 mid sep2 rows E Hl H0 [S1 S2 Hp Hm Hn Hs Hx] full.
  apply Forall_app in Hn as [Hn1 Hn2]. unfold read_dev, check_keyword. fold (text_lines text). rewrite E, H0. cbn [bind pending].
  destruct (pre_ok pre (sep1 :: mid ++ sep2 :: rows) Hp Hn1 (mkDev [] [] None None None)) as [n ->]. cbn [dev_header_loop d_attrs d_x d_y d_z].
  unfold separator in S1. rewrite S1.
  destruct (mid_ok sep2 rows mid S2 Hm Hn2 Hx (mkDev n [] None None None) (or_intror Hs)) as (h & -> & Ea & P). cbn [bind]. cbn [d_attrs app] in Ea.
  set (m0 := set_name (Some (d_name h)) empty_mesh : mesh F edge).
  destruct (attributes_outcome F (d_attrs h) m0 eq_refl eq_refl ltac:(constructor) ltac:(discriminate)) as [A1 A2]. unfold full. rewrite <- Ea.
  split; [intros H; now rewrite (A1 H)|]. intros H. destruct (A2 H) as (m1 & -> & C1 & P1 & W1 & N1 & _). cbn [bind].
  assert (R : ready F h 0 m1) by (split; [exact C1|]; split; [now rewrite P1|]; split; [exact W1|exact N1]).
  destruct (rows_outcome F h rows P 0 m1 R) as [O1 O2]. split; [|split].
  - intros ->. cbn [foldM bind]. destruct m1 as [nm pts cs at1]. cbn [m_cells m_points] in C1, P1. subst cs pts. apply create_edges_nothing.
  - intros HE. now rewrite (O2 HE).
  - intros Hr HF. destruct (O1 HF) as (m2 & -> & (C2 & L2 & _)). cbn [bind Nat.add] in *.
    destruct m2 as [nm pts cs at2]. cbn [m_cells m_points] in C2, L2. subst cs.
    rewrite create_edges_ok; [| |unfold lenz in *; lia]; [|destruct pts; [destruct rows; [congruence|discriminate]|discriminate]].
    eexists. split; [reflexivity|]. cbn [m_points m_cells]. rewrite L2. auto.
Qed.
Print Assumptions C108_dev_outcome.
Example C108_dev_instance :
  dev_header_ok [lit "# WELL NAME: my well"] (lit "#====") [lit "A X B Y Z"; lit "X Y Z A"] (lit "#===") /\
  dev_attrs [lit "A X B Y Z"; lit "X Y Z A"] = map lit ["A"; "B"; "A"] /\
  full_row ExNum 6 (lit "1 2 3 4 5 6").
Proof.
  split; [|split; [reflexivity|]].
  - constructor; [reflexivity|reflexivity|repeat constructor|repeat constructor| |apply Exists_cons_hd; reflexivity|repeat constructor].
    repeat apply Forall_cons; [| | |constructor]; intros H; try discriminate H. vm_compute. lia.
  - exists [1; 2; 3; 4; 5; 6]. split; [repeat constructor|reflexivity].
Qed.

(** A column name given several times makes the row narrower than the positions: X four times, Y and Z, and a row of three words.
    A header without a line of column names uses positions never set. *)
Theorem C108_dev_columns_refuted :
  exists twice none : list bytes, Forall is_line twice /\ Forall is_line none /\
    loadable "# WELL TRACE" (unlines twice) = true /\ loadable "# WELL TRACE" (unlines none) = true /\
    nth_error twice 2 = Some (lit "X X X X Y Z") /\ nth_error none 2 = Some (lit "#===") /\
    forall F : Num, read_dev F (unlines twice) = UB /\ read_dev F (unlines none) = UB.
Proof.
  exists (map lit ["# WELL TRACE FROM PETREL"; "#==="; "X X X X Y Z"; "#==="; "1 2 3"]),
         (map lit ["# WELL TRACE FROM PETREL"; "#==="; "#==="; "1 2 3"]).
  split; [repeat (apply Forall_cons; [apply lineb_ok; reflexivity|]); constructor|].
  split; [repeat (apply Forall_cons; [apply lineb_ok; reflexivity|]); constructor|].
  split; [vm_compute; reflexivity|]. split; [vm_compute; reflexivity|]. split; [reflexivity|]. split; [reflexivity|].
  intros F. split; reflexivity.
Qed.
Print Assumptions C108_dev_columns_refuted.
