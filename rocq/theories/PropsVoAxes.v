(** * The place of a Voxet (C154), and the lines of its file that count (C155). *)
From Coq Require Import ZArith List Lia Bool Ascii String.
From Verif Require Import Base Text TextFacts GocadModel MeshModel TsModel WellModel VoModel Spec GocadFacts PropsWell PropsVo ExNum ExCheck.
Import ListNotations.
Local Open Scope string_scope.
Local Open Scope list_scope.
Local Open Scope Z_scope.

(** ** Specification *)
(** The same grid with its origin at [o]. *)
Definition placed_at {F} (o : point F) (m : Voxet F) : Voxet F := mkVo F (v_name F m) o (v_n F m) (v_len F m) (v_attrs F m).
(** Two loadings that end in the same way, the second one with the grid at [o]. *)
Definition same_but_placed_at {F} (o : point F) (r r' : res (Voxet F)) : Prop :=
  match r with
  | Ok m => r' = Ok (placed_at o m)
  | Throw e => r' = Throw e
  | UB => r' = UB
  | Hang => r' = Hang
  end.

(** ** Facts *)
Section Facts.
Context {F : Num} (o : point F).
Notation same := (@same_but_placed_at F o).
Lemma placed_bind (r r' : res (Voxet F)) f f' : same r r' -> (forall m, same (f m) (f' (placed_at o m))) -> same (bind r f) (bind r' f').
Proof. intros H Hf. destruct r; cbn in H |- *; subst r'; cbn; auto. Qed.
Lemma placed_foldM {A} (f f' : Voxet F -> A -> res (Voxet F)) : (forall m x, same (f m x) (f' (placed_at o m) x)) ->
  forall l m, same (foldM f l m) (foldM f' l (placed_at o m)).
Proof.
  intros Hf. induction l as [|x l IH]; intros m; cbn [foldM]; [reflexivity|]. apply placed_bind; [apply Hf|exact IH].
Qed.
Lemma placed_same {A} (r : res A) (f f' : A -> res (Voxet F)) : (forall a, same (f a) (f' a)) -> same (bind r f) (bind r f').
Proof. intros H. destruct r; try reflexivity. apply H. Qed.
Lemma placed_set m name c x : same (vo_set F m name c x) (vo_set F (placed_at o m) name c x).
Proof.
  unfold vo_set. cbn [placed_at v_attrs]. destruct (find_attr name (v_attrs F m)) as [a|]; [|reflexivity]. apply placed_same. reflexivity.
Qed.
Lemma placed_row names m l : same (vo_row F names m l) (vo_row F names (placed_at o m) l).
Proof.
  unfold vo_row. repeat (apply placed_same; intros ?). cbn [placed_at v_n]. apply placed_foldM.
  intros m0 [an nn]. repeat (apply placed_same; intros ?). apply placed_set.
Qed.
Lemma placed_attribute m n : vo_attribute F (placed_at o m) n = placed_at o (vo_attribute F m n).
Proof. unfold vo_attribute. cbn [placed_at v_attrs]. destruct (find_attr n (v_attrs F m)); reflexivity. Qed.
Lemma placed_attributes names : forall m, fold_left (vo_attribute F) names (placed_at o m) = placed_at o (fold_left (vo_attribute F) names m).
Proof. induction names as [|n names IH]; intros m; cbn [fold_left]; [reflexivity|]. rewrite placed_attribute. apply IH. Qed.
Lemma placed_data files folder m s : same (read_data_file F files folder m s) (read_data_file F files folder (placed_at o m) s).
Proof.
  unfold read_data_file. destruct (get_data_file s) as [[n|] t]; [|reflexivity]. destruct (files _) as [data|]; [|reflexivity]. cbv zeta.
  destruct (Nat.ltb _ 4); [reflexivity|]. rewrite placed_attributes. apply placed_foldM. apply placed_row.
Qed.
End Facts.
Lemma data_record_only F files folder m rest rest' b b' file : data_record rest file -> data_record rest' file ->
  read_data_file F files folder m (mkStream rest b) = read_data_file F files folder m (mkStream rest' b').
Proof.
  intros H H'. unfold read_data_file. destruct (get_data_file_ok rest file b H) as (fn & s & -> & ->).
  destruct (get_data_file_ok rest' file b' H') as (fn' & s' & -> & ->). reflexivity.
Qed.

(** ** C155 *)
(** Only the name, the origin, the three axis points, the numbers of cells and the name of the data file count: with other
    lines, another coordinate system or none, the outcome is the same. *)
Theorem C155_what_counts (F : Num) dist divn files folder ls ls' name o u v w n rest rest' file :
  Forall is_line ls -> Forall is_line ls' -> vo_text F ls name o u v w n rest -> vo_text F ls' name o u v w n rest' ->
  data_record rest file -> data_record rest' file ->
  read_vo F dist divn files folder (unlines ls') = read_vo F dist divn files folder (unlines ls).
Proof.
  intros L L' T T' D D'. destruct (read_vo_text F dist divn files folder ls name o u v w n rest L T) as [b ->].
  destruct (read_vo_text F dist divn files folder ls' name o u v w n rest' L' T') as [b' ->]. exact (data_record_only F files folder _ rest' rest b' b file D' D).
Qed.
Print Assumptions C155_what_counts.

(** ** C154 *)
(** When the origin and the three axis points are moved together, the grid is moved and nothing else changes. *)
Theorem C154_moved (F : Num) dist divn (move : point F -> point F) files folder ls ls' name o u v w n rest rest' file :
  (forall p q, dist (move p) (move q) = dist p q) ->
  Forall is_line ls -> Forall is_line ls' -> vo_text F ls name o u v w n rest -> vo_text F ls' name (move o) (move u) (move v) (move w) n rest' ->
  data_record rest file -> data_record rest' file ->
  same_but_placed_at (move o) (read_vo F dist divn files folder (unlines ls)) (read_vo F dist divn files folder (unlines ls')).
Proof.
  intros Hd L L' T T' D D'. destruct (read_vo_text F dist divn files folder ls name o u v w n rest L T) as [b ->].
  destruct (read_vo_text F dist divn files folder ls' _ _ _ _ _ n rest' L' T') as [b' ->].
  rewrite (data_record_only F files folder _ rest' rest b' b file D' D).
  replace (described F dist divn name (move o) (move u) (move v) (move w) n) with (placed_at (move o) (described F dist divn name o u v w n))
    by (unfold described; destruct n as [[nx ny] nz]; unfold placed_at; cbn; now rewrite !Hd).
  apply placed_data.
Qed.
Print Assumptions C154_moved.

(** ** What does not hold *)
(** A file of the form written by GOCAD: the vectors of the three axes, their range and the number of cells. *)
Definition axes (z o m nx : list string) : list bytes := map lit
  (["GOCAD Voxet 1"; "HEADER {"; "name:box"; "}"; "GOCAD_ORIGINAL_COORDINATE_SYSTEM"; "NAME Default"] ++ z ++ ["END_ORIGINAL_COORDINATE_SYSTEM"] ++
   o ++ ["AXIS_U 4 0 0"; "AXIS_V 0 9 0"; "AXIS_W 0 0 5"; "AXIS_MIN 0 0 0"] ++ m ++ nx ++ ["ASCII_DATA_FILE box.data"; "END"])%list.
Definition load_axes (z o m nx : list string) : res (Voxet ExNum) :=
  read_vo ExNum ex_dist Z.div (ex_files ["1 2 0 3 4"]) "dir/" (unlines (axes z o m nx)).
Definition one_row : list (bytes * list (list Z)) := [(lit "por", [[0]; [0]; [0]; [0]; [0]; [3]]); (lit "perm", [[0]; [0]; [0]; [0]; [0]; [4]])].
(** The axes of a GOCAD file are vectors, the reader takes them as points: when only the origin is changed, the cells change
    their sizes.  Here the origin moves by 1000 along x and the cells go from 2 x 3 x 5 to 498 x 333 x 1000; with the origin at the end of
    the first axis, the cells have no length. *)
Theorem C154_origin_refuted : exists z m nx,
  vo_is (load_axes z ["AXIS_O 0 0 0"] m nx) (0, 0, 0) (2, 3, 1) (2, 3, 5) one_row = true /\
  vo_is (load_axes z ["AXIS_O 1000 0 0"] m nx) (1000, 0, 0) (2, 3, 1) (498, 333, 1000) one_row = true /\
  vo_is (load_axes z ["AXIS_O 4 0 0"] m nx) (4, 0, 0) (2, 3, 1) (0, 3, 6) one_row = true.
Proof. exists ["ZPOSITIVE Elevation"%string], ["AXIS_MAX 1 1 1"%string], ["AXIS_N 2 3 1"%string]. repeat split; vm_compute; reflexivity. Qed.
Print Assumptions C154_origin_refuted.
(** Depths are loaded as elevations: the same grid in both cases. *)
Theorem C155_depth_refuted : exists o m nx,
  vo_is (load_axes ["ZPOSITIVE Elevation"] o m nx) (0, 0, 7) (2, 3, 1) (4, 3, 2) one_row = true /\
  vo_is (load_axes ["ZPOSITIVE Depth"] o m nx) (0, 0, 7) (2, 3, 1) (4, 3, 2) one_row = true.
Proof. exists ["AXIS_O 0 0 7"%string], ["AXIS_MAX 1 1 1"%string], ["AXIS_N 2 3 1"%string]. split; vm_compute; reflexivity. Qed.
Print Assumptions C155_depth_refuted.
(** The range of the axes is not read: a grid from 0 to 2 along each axis is loaded as the one from 0 to 1. *)
Theorem C155_range_refuted : exists z o nx,
  vo_is (load_axes z o ["AXIS_MAX 1 1 1"] nx) (0, 0, 0) (2, 3, 1) (2, 3, 5) one_row = true /\
  vo_is (load_axes z o ["AXIS_MAX 2 2 2"] nx) (0, 0, 0) (2, 3, 1) (2, 3, 5) one_row = true.
Proof. exists ["ZPOSITIVE Elevation"%string], ["AXIS_O 0 0 0"%string], ["AXIS_N 2 3 1"%string]. split; vm_compute; reflexivity. Qed.
Print Assumptions C155_range_refuted.
(** The names of the axes before the numbers of cells: AXIS_NAME begins with AXIS_N and the file is refused. *)
Theorem C155_names_first_refuted : exists z o m,
  vo_is (load_axes z o m ["AXIS_N 2 3 1"; "AXIS_NAME a b c"]) (0, 0, 0) (2, 3, 1) (2, 3, 5) one_row = true /\
  load_axes z o m ["AXIS_NAME a b c"; "AXIS_N 2 3 1"] = Throw ExData.
Proof. exists ["ZPOSITIVE Elevation"%string], ["AXIS_O 0 0 0"%string], ["AXIS_MAX 1 1 1"%string]. split; vm_compute; reflexivity. Qed.
Print Assumptions C155_names_first_refuted.

(** ** Instances *)
Definition ex_move (p : Z * Z * Z) : Z * Z * Z := let '(x, y, z) := p in (x + 10, y + 20, z + 30).
Lemma ex_move_dist p q : ex_dist (ex_move p) (ex_move q) = ex_dist p q.
Proof. destruct p as [[a b] c], q as [[x y] z]. cbn. f_equal. lia. Qed.
Ltac vo_lines o u v w p5 :=
  let NL := fresh in
  assert (NL : forall k (l x y z : bytes) a b c, string_split l = [k; x; y; z] -> atod ExNum x = Some a -> atod ExNum y = Some b -> atod ExNum z = Some c ->
      number_line ExNum 1 l [a; b; c])
    by (intros ? ? ? ? ? ? ? ? E ? ? ?; eexists [_], [_; _; _]; split; [exact E|]; split; [reflexivity|]; repeat constructor; assumption);
  constructor; exists [], (lit "GOCAD Voxet 1"), (map lit ["HEADER {"; "name:box"; "}"]), [], true, [], (lit o), [],
      (lit u), [], (lit v), [], (lit w), p5, (lit "AXIS_N 2 3 1");
  cbv zeta; repeat match goal with |- _ /\ _ => split end; try reflexivity; try solve [repeat constructor]; try (eapply NL; reflexivity);
  [exists (lit "HEADER {"), [lit "name:box"], (lit "}"); repeat split; repeat constructor
  |exists [lit "AXIS_N"], (lit "2"), (lit "3"), (lit "1"), []; cbn [fst snd]; repeat match goal with |- _ /\ _ => split | |- is_index _ _ => split end; try reflexivity; try (unfold two32; lia)].
Definition here : list bytes := map lit
  ["GOCAD Voxet 1"; "HEADER {"; "name:box"; "}"; "AXIS_O 0 0 0"; "AXIS_U 4 0 0"; "AXIS_V 0 9 0"; "AXIS_W 0 0 5"; "AXIS_MIN 0 0 0"; "AXIS_N 2 3 1"; "ASCII_DATA_FILE box.data"; "END"].
Definition there : list bytes := map lit
  ["GOCAD Voxet 1"; "HEADER {"; "name:box"; "}"; "AXIS_O 10 20 30"; "AXIS_U 14 20 30"; "AXIS_V 10 29 30"; "AXIS_W 10 20 35"; "AXIS_N 2 3 1"; "ASCII_DATA_FILE box.data"; "END"].
Lemma ex_record pre r : Forall (fun l => starts_with l "ASCII_DATA_FILE" = false) pre -> data_record (pre ++ lit "ASCII_DATA_FILE box.data" :: r) (lit "box.data").
Proof.
  intros Hp. exists pre, (lit "ASCII_DATA_FILE box.data"), r. split; [reflexivity|]. split; [exact Hp|]. split; [now left|]. split.
  - intros a b E. assert (L : (List.length b <= 8)%nat).
    { assert (Q : List.length (lit "box.data") = List.length (a ++ b)) by now rewrite E. rewrite app_length in Q. cbn in Q. lia. }
    do 9 (destruct b as [|? b]; [cbn [starts_with lit list_ascii_of_string]; rewrite ?andb_false_r; reflexivity|cbn [List.length] in L]). lia.
  - repeat constructor; discriminate.
Qed.
Example C154_case :
  vo_text ExNum here (Some (lit "box")) (0, 0, 0) (4, 0, 0) (0, 9, 0) (0, 0, 5) (2, 3, 1) (skipn 10 here) /\
  vo_text ExNum there (Some (lit "box")) (ex_move (0, 0, 0)) (ex_move (4, 0, 0)) (ex_move (0, 9, 0)) (ex_move (0, 0, 5)) (2, 3, 1) (skipn 9 there) /\
  data_record (skipn 10 here) (lit "box.data") /\ data_record (skipn 9 there) (lit "box.data") /\
  vo_is (read_vo ExNum ex_dist Z.div (ex_files ["1 2 0 3 4"]) "dir/" (unlines there)) (10, 20, 30) (2, 3, 1) (2, 3, 5) one_row = true.
Proof.
  split; [|split; [|split; [|split]]].
  - vo_lines "AXIS_O 0 0 0"%string "AXIS_U 4 0 0"%string "AXIS_V 0 9 0"%string "AXIS_W 0 0 5"%string [lit "AXIS_MIN 0 0 0"].
  - vo_lines "AXIS_O 10 20 30"%string "AXIS_U 14 20 30"%string "AXIS_V 10 29 30"%string "AXIS_W 10 20 35"%string (@nil bytes).
  - apply (ex_record []). constructor.
  - apply (ex_record []). constructor.
  - vm_compute. reflexivity.
Qed.
Definition more_lines : list bytes := map lit
  ["GOCAD Voxet 1"; "HEADER {"; "name:box"; "}"; "AXIS_O 0 0 0"; "AXIS_U 4 0 0"; "AXIS_V 0 9 0"; "AXIS_W 0 0 5"; "AXIS_MIN 0 0 0"; "AXIS_MAX 1 1 1"; "AXIS_N 2 3 1";
   "AXIS_NAME a b c"; "AXIS_TYPE even even even"; ""; "ASCII_DATA_FILE box.data"; "PROPERTY 1 por"; "END"].
Example C155_case :
  vo_text ExNum more_lines (Some (lit "box")) (0, 0, 0) (4, 0, 0) (0, 9, 0) (0, 0, 5) (2, 3, 1) (skipn 11 more_lines) /\
  data_record (skipn 11 more_lines) (lit "box.data") /\ Forall is_line more_lines /\
  read_vo ExNum ex_dist Z.div (ex_files ["1 2 0 3 4"]) "dir/" (unlines more_lines) = read_vo ExNum ex_dist Z.div (ex_files ["1 2 0 3 4"]) "dir/" (unlines here).
Proof.
  assert (T : vo_text ExNum more_lines (Some (lit "box")) (0, 0, 0) (4, 0, 0) (0, 9, 0) (0, 0, 5) (2, 3, 1) (skipn 11 more_lines)).
  { vo_lines "AXIS_O 0 0 0"%string "AXIS_U 4 0 0"%string "AXIS_V 0 9 0"%string "AXIS_W 0 0 5"%string (map lit ["AXIS_MIN 0 0 0"; "AXIS_MAX 1 1 1"]). }
  assert (D : data_record (skipn 11 more_lines) (lit "box.data")).
  { apply (ex_record (map lit ["AXIS_NAME a b c"; "AXIS_TYPE even even even"; ""])). repeat constructor. }
  assert (L : Forall is_line more_lines) by (repeat (apply Forall_cons; [apply lineb_ok; reflexivity|]); constructor).
  split; [exact T|]. split; [exact D|]. split; [exact L|].
  destruct C154_case as (T0 & _ & D0 & _). eapply C155_what_counts; [|exact L|exact T0|exact T|exact D0|exact D].
  repeat (apply Forall_cons; [apply lineb_ok; reflexivity|]); constructor.
Qed.
