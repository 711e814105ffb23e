(** * Wells: .wl (C19), .dat and .txt (C20), .dev (C21, C66), and when they are announced loadable (C54). *)
From Coq Require Import ZArith List Lia Bool Ascii String.
From Verif Require Import Base Text TextFacts GocadModel MeshModel TsModel WellModel Spec GocadFacts TsFacts Sections
  PropsGocad ExNum ExCheck.
Import ListNotations.
Local Open Scope string_scope.
Local Open Scope list_scope.
Local Open Scope Z_scope.

(** ** Specification *)
Section Spec.
Context (F : Num).
(** The values of a list of tokens. *)
Definition numbers (ts : list bytes) (vs : list (num F)) : Prop := Forall2 (fun t v => atod F t = Some v) ts vs.
(** Edges joining each vertex to the next one. *)
Definition chain (n : nat) : list edge := map (fun i => (Z.of_nat i, Z.of_nat i + 1)) (seq 0 (n - 1)).
(** A line made of some words, then numbers. *)
Definition number_line (k : nat) (l : bytes) (vs : list (num F)) : Prop :=
  exists ws ts, string_split l = ws ++ ts /\ List.length ws = k /\ numbers ts vs.
End Spec.

(** ** Facts *)
Section Facts.
Context (F : Num).
Lemma idx_nth {A} (l : list A) i a : nth_error l i = Some a -> idx l i = Ok a.
Proof. unfold idx. now intros ->. Qed.
Lemma std_num t v : atod F t = Some v -> string_to_double F t = Ok v.
Proof. unfold string_to_double. now intros ->. Qed.
Lemma read_coord_ok k l x y z : number_line F k l [x; y; z] -> read_coord F l k = Ok (x, y, z).
Proof.
  intros (ws & ts & E & L & N). unfold read_coord. rewrite E.
  inversion N as [|t0 ? r0 ? A0 N0]; subst. inversion N0 as [|t1 ? r1 ? A1 N1]; subst.
  inversion N1 as [|t2 ? r2 ? A2 N2]; subst. inversion N2; subst.
  rewrite app_length. cbn [List.length]. rewrite (Nat.add_comm _ 3), Nat.eqb_refl. cbn [check bind].
  assert (I : forall n, idx (ws ++ [t0; t1; t2]) (n + List.length ws) = idx [t0; t1; t2] n).
  { intros n. rewrite (Nat.add_comm n). apply idx_app. }
  pose proof (I 0%nat) as I0. pose proof (I 1%nat) as I1. pose proof (I 2%nat) as I2. cbn [Nat.add] in I0, I1, I2.
  rewrite I0. cbn [idx nth_error bind]. rewrite (std_num _ _ A0). cbn [bind].
  change (1 + List.length ws)%nat with (S (List.length ws)). rewrite I1. cbn [idx nth_error bind]. rewrite (std_num _ _ A1). cbn [bind].
  change (2 + List.length ws)%nat with (S (S (List.length ws))). rewrite I2. cbn [idx nth_error bind]. rewrite (std_num _ _ A2). reflexivity.
Qed.
Lemma chain_S n : chain (S (S n)) = chain (S n) ++ [(Z.of_nat n, Z.of_nat n + 1) : edge].
Proof. unfold chain. cbn [Nat.sub]. rewrite Nat.sub_0_r, seq_S, map_app. reflexivity. Qed.
Lemma valid_range (m : mesh F edge) v : 0 <= v < nb_vertices m -> valid_vertex m v = true.
Proof. intros H. unfold valid_vertex. now rewrite (proj2 (Z.leb_le _ _)), (proj2 (Z.ltb_lt _ _)). Qed.
Lemma create_edge_ok (m : mesh F edge) a b : 0 <= a < nb_vertices m -> 0 <= b < nb_vertices m ->
  create_edge m (a, b) = Ok (mkMesh (m_name m) (m_points m) (m_cells m ++ [(a, b) : edge]) (m_attrs m)).
Proof. intros. unfold create_edge. now rewrite !valid_range. Qed.
Lemma create_edges_ok name pts attrs : pts <> [] -> lenz pts < two32 ->
  create_edges F (mkMesh name pts [] attrs) = Ok (mkMesh name pts (chain (List.length pts)) attrs).
Proof.
  intros Hp Hl. unfold create_edges, nb_vertices. cbn [m_points]. unfold lenz in *.
  assert (N : (0 < List.length pts)%nat) by (destruct pts; [congruence|cbn; lia]).
  rewrite sub32_small by lia.
  assert (G : forall k n c, (n + k = List.length pts - 1)%nat -> c = chain (S n) ->
     foldM (fun m pt => create_edge m (pt, add32 pt 1)) (rangez (Z.of_nat n) k) (mkMesh name pts c attrs)
     = Ok (mkMesh name pts (chain (S (n + k))) attrs)).
  { induction k as [|k IH]; intros n c E ->; [now rewrite Nat.add_0_r|].
    cbn [rangez foldM]. rewrite add32_small by lia.
    rewrite create_edge_ok by (unfold nb_vertices, lenz; cbn [m_points]; lia). cbn [bind add_cell m_name m_points m_cells m_attrs].
    replace (Z.of_nat n + 1) with (Z.of_nat (S n)) at 1 by lia.
    replace (S (n + S k)) with (S (S n + k)) by lia. apply IH; [lia|]. rewrite chain_S. do 3 f_equal. }
  replace (Z.to_nat (Z.of_nat (List.length pts) - 1)) with (List.length pts - 1)%nat by lia.
  etransitivity; [apply (G (List.length pts - 1)%nat 0%nat []); [lia|reflexivity]|].
  do 3 f_equal. lia.
Qed.
Lemma create_edges_nothing name attrs : create_edges F (mkMesh name [] [] attrs) = UB.
Proof.
  unfold create_edges, nb_vertices, lenz. cbn [m_points List.length].
  assert (P : exists n, Z.to_nat (sub32 (Z.of_nat 0) 1) = S n).
  { replace (sub32 (Z.of_nat 0) 1) with (Z.succ 4294967294) by reflexivity. rewrite Z2Nat.inj_succ by lia. eauto. }
  destruct P as [n ->]. cbn [rangez foldM]. reflexivity.
Qed.
End Facts.

(** ** C20 *)

(** Every file with at least one row: a vertex for each row, an edge between consecutive rows. *)
Theorem C20_well_rows_partial :
  forall (F : Num) (name : bytes) (ls : list bytes) (pts : list (point F)),
    ls <> [] -> Z.of_nat (List.length ls) < two32 -> Forall is_line ls ->
    Forall2 (fun l p => number_line F 0 l [fst (fst p); snd (fst p); snd p]) ls pts ->
    read_well F name (unlines ls) = Ok (mkMesh (Some name) pts (chain (List.length ls)) []).
Proof.
  intros F name ls pts Hn Hl Hf H. unfold read_well. rewrite open_unlines by assumption. cbn [pending].
  assert (G : forall done, read_rows F ls (mkMesh (Some name) done [] []) = Ok (mkMesh (Some name) (done ++ pts) [] [])).
  { clear - H. unfold read_rows. induction H as [|l p ls pts Hlp _ IH]; intros done; [now rewrite app_nil_r|].
    destruct p as [[x y] z]. cbn [fst snd] in Hlp. cbn [foldM]. rewrite (read_coord_ok F 0 l x y z Hlp). cbn [bind].
    unfold create_point. cbn [m_name m_points m_cells m_attrs map]. rewrite IH, <- app_assoc. reflexivity. }
  change (set_name (Some name) empty_mesh) with (mkMesh (F:=F) (C:=edge) (Some name) [] [] []).
  rewrite (G []). cbn [bind app].
  assert (E : List.length ls = List.length pts) by (clear - H; induction H; cbn; congruence).
  rewrite E in *. apply create_edges_ok; [|exact Hl]. destruct pts; [destruct ls; [congruence|discriminate]|discriminate].
Qed.
Print Assumptions C20_well_rows_partial.
(** A row that is not made of three tokens makes the reading fail with an exception, whatever the others. *)
Theorem C20_wrong_row_throws :
  forall (F : Num) (name : bytes) (ls : list bytes),
    Forall is_line ls -> (exists l, In l ls /\ List.length (string_split l) <> 3%nat) ->
    read_well F name (unlines ls) = Throw ExData.
Proof.
  intros F name ls Hf (l & Hin & Hl). unfold read_well. rewrite open_unlines by assumption. cbn [pending].
  enough (G : forall m, read_rows F ls m = Throw ExData) by now rewrite G.
  clear Hf. unfold read_rows. induction ls as [|x ls IH]; [contradiction|]. intros m. cbn [foldM].
  assert (R : read_coord F x 0 = Throw ExData \/ exists p, read_coord F x 0 = Ok p /\ List.length (string_split x) = 3%nat).
  { unfold read_coord. destruct (Nat.eqb (List.length (string_split x)) (3 + 0)) eqn:E; [|now left]. apply Nat.eqb_eq in E.
    destruct (string_split x) as [|t0 [|t1 [|t2 [|t3 r]]]]; try discriminate. cbn [check bind idx nth_error Nat.add].
    unfold string_to_double. destruct (atod F t0); [|now left]. cbn [bind]. destruct (atod F t1); [|now left]. cbn [bind].
    destruct (atod F t2); [|now left]. right. cbn [bind]. eauto. }
  destruct R as [-> |(p & E & L)]; [reflexivity|]. rewrite E. cbn [bind]. destruct Hin as [-> |Hin]; [congruence|].
  apply IH. exact Hin.
Qed.
Print Assumptions C20_wrong_row_throws.
(** The claim covers zero rows, where it is false: [0 - 1] wraps and the reader creates edges between
    vertices that do not exist. *)
Theorem C20_no_row_refuted :
  forall (F : Num) (name : bytes), read_well F name [] = UB.
Proof. intros. apply create_edges_nothing. Qed.
Print Assumptions C20_no_row_refuted.
Example C20_instance :
  mesh_is zz_eqb (read_well ExNum "w" (unlines (map lit ["1 2 3"; "  4 5   6"; "7 8 -9"]))) (Some (lit "w"))
    [(1, 2, 3); (4, 5, 6); (7, 8, -9)] [(0, 1); (1, 2)] [] = true /\
  is_Throw (read_well ExNum "w" (unlines (map lit ["1 2 3"; "4 5"]))) = true.
Proof. split; vm_compute; reflexivity. Qed.

(** ** C19 *)
Theorem C19_wl_trajectory :
  forall (F : Num) (pre : list bytes) (well : bytes) (hs cs mid1 : list bytes) (wref : bytes) (mid2 : list bytes)
         (path0 : bytes) (paths tail : list bytes) (name : option bytes) (up : bool)
         (rx ry rz : num F) (stations : list (num F * num F * num F)),
    let after_crs := mid1 ++ wref :: mid2 ++ path0 :: paths ++ tail in
    let ls := pre ++ well :: hs ++ cs ++ after_crs in
    Forall is_line ls -> lenz paths + 1 < two32 ->
    without "GOCAD Well" pre -> starts_with well "GOCAD Well" = true ->
    header_section hs name -> crs_section cs up after_crs ->
    without "WREF" mid1 -> starts_with wref "WREF" = true -> number_line F 1 wref [rx; ry; rz] ->
    without "PATH" mid2 -> starts_with path0 "PATH" = true ->
    Forall2 (fun l s => starts_with l "PATH" = true /\ number_line F 2 l [snd s; fst (fst s); snd (fst s)]) paths stations ->
    match tail with l :: _ => starts_with l "PATH" = false | [] => True end ->
    let z v := if up then v else neg F v in
    read_wl F (unlines ls) = Ok (mkMesh name
      ((rx, ry, z rz) :: map (fun s => (plus F (fst (fst s)) rx, plus F (snd (fst s)) ry, z (snd s))) stations)
      (chain (S (List.length stations))) []).
Proof.
  intros F pre well hs cs mid1 wref mid2 path0 paths tail name up rx ry rz stations after_crs ls
    Hl Hn Hpre Hwell Hh Hc Hm1 Hw Hwn Hm2 Hp0 Hp Ht z.
  unfold read_wl. rewrite open_unlines by exact Hl. unfold ls. rewrite goto_if_hit by assumption.
  rewrite (read_header_section hs name) by assumption. cbn [bind].
  destruct (read_CRS_section cs up after_crs true Hc) as (crs & Ecrs & Hz). rewrite Ecrs. cbn [bind].
  unfold read_ref, after_crs. rewrite goto_keyword_hit by assumption. cbn [bind].
  rewrite (read_coord_ok F 1 wref rx ry rz Hwn). cbn [bind].
  rewrite goto_keyword_hit by assumption. cbn [bind pending].
  assert (Sz : forall v, signed F crs v = z v) by (intros v; unfold signed, z; now rewrite Hz).
  rewrite Sz.
  assert (G : forall paths stations done n,
     Forall2 (fun l s => starts_with l "PATH" = true /\ number_line F 2 l [snd s; fst (fst s); snd (fst s)]) paths stations ->
     List.length done = S n -> Z.of_nat n + lenz paths + 1 < two32 ->
     paths_loop F crs (rx, ry, z rz) (paths ++ tail) (mkMesh name done (chain (S n)) [])
     = Ok (mkMesh name (done ++ map (fun s => (plus F (fst (fst s)) rx, plus F (snd (fst s)) ry, z (snd s))) stations)
             (chain (S (n + List.length stations))) [])).
  { clear - Ht Sz. intros paths stations. revert paths. induction stations as [|[[dx dy] dz] stations IH]; intros paths done n Hp Hd Hb;
      inversion Hp as [|l ? paths' ? [Hl Hnl] Hp']; subst.
    - cbn [app map List.length]. rewrite app_nil_r, Nat.add_0_r. destruct tail as [|t tail]; cbn [paths_loop]; [reflexivity|]. now rewrite Ht.
    - cbn [fst snd] in Hnl. cbn [app paths_loop]. rewrite Hl, (read_coord_ok F 2 l dz dx dy Hnl). cbn [bind].
      unfold create_point, nb_vertices. cbn [m_name m_points m_cells m_attrs map]. rewrite Sz.
      assert (E : lenz done = Z.of_nat n + 1) by (unfold lenz; lia). rewrite E.
      unfold lenz in Hb. cbn [List.length] in Hb. rewrite sub32_small by lia.
      rewrite create_edge_ok by (unfold nb_vertices, lenz; cbn [m_points]; rewrite app_length; cbn [List.length]; lia).
      cbn [bind add_cell m_name m_points m_cells m_attrs].
      replace (Z.of_nat n + 1 - 1) with (Z.of_nat n) by lia. rewrite <- chain_S.
      rewrite (IH paths' _ (S n) Hp').
      + rewrite <- app_assoc. cbn [app fst snd List.length]. do 2 f_equal. f_equal. lia.
      + rewrite app_length. cbn. lia.
      + unfold lenz. lia. }
  specialize (G paths stations [(rx, ry, z rz)] 0%nat Hp eq_refl).
  assert (C : create_point (set_name name empty_mesh) (rx, ry, z rz) = mkMesh (F:=F) (C:=edge) name [(rx, ry, z rz)] (chain 1) []).
  { destruct name; reflexivity. }
  rewrite C, G by lia. reflexivity.
Qed.
Print Assumptions C19_wl_trajectory.
Definition ex_wl : list bytes := map lit
  ["GOCAD Well 1"; "HEADER {"; "name:my well"; "}"; "GOCAD_ORIGINAL_COORDINATE_SYSTEM"; "NAME Default"; "ZPOSITIVE Depth";
   "END_ORIGINAL_COORDINATE_SYSTEM"; "WREF 100 200 7"; "PATH 0 0 0 0"; "PATH 1 10 1 2"; "PATH 2 20 3 4"; "MRKR a 1 2"; "PATH 3 30 5 6"; "END"].
Example C19_instance :
  mesh_is zz_eqb (read_wl ExNum (unlines ex_wl)) (Some (lit "my well"))
    [(100, 200, -7); (101, 202, -10); (103, 204, -20)] [(0, 1); (1, 2)] [] = true.
Proof. vm_compute. reflexivity. Qed.
Example C19_hypotheses :
  let hs := firstn 3 (skipn 1 ex_wl) in let cs := firstn 4 (skipn 4 ex_wl) in let rest := skipn 8 ex_wl in
  header_section hs (Some (lit "my well")) /\ crs_section cs false rest /\
  number_line ExNum 1 (nth 0 rest []) [100; 200; 7] /\ number_line ExNum 2 (nth 2 rest []) [10; 1; 2].
Proof.
  cbv zeta. split; [|split; [|split]].
  - exists (lit "HEADER {"), [lit "name:my well"], (lit "}"). repeat split; repeat constructor.
  - right. exists (lit "GOCAD_ORIGINAL_COORDINATE_SYSTEM"), [lit "NAME Default"; lit "ZPOSITIVE Depth"], (lit "END_ORIGINAL_COORDINATE_SYSTEM").
    split; [reflexivity|]. split; [reflexivity|]. split; [reflexivity|].
    eapply CB_other with (t := lit "NAME") (u := lit "Default") (ts := []); [reflexivity|discriminate|discriminate| |reflexivity|].
    { change (string_split (lit "NAME Default")) with [lit "NAME"; lit "Default"].
      apply bal_tok; [discriminate|]. apply bal_tok; [discriminate|]. constructor. }
    eapply CB_z with (w := lit "Depth"); [reflexivity|discriminate|reflexivity|].
    change (beq (lit "Depth") (lit "Elevation")) with false. constructor.
  - exists [lit "WREF"], (map lit ["100"; "200"; "7"]). repeat split; repeat constructor.
  - exists (map lit ["PATH"; "1"]), (map lit ["10"; "1"; "2"]). repeat split; repeat constructor.
Qed.

(** ** C54, wells *)

(** The .wl reader throws on every file that is not announced loadable. *)
Theorem C54_wl_loadable :
  forall (F : Num) (text : bytes),
    (loadable "GOCAD Well" text = true <->
       exists l, In l (pending (open_text text)) /\ starts_with l "GOCAD Well" = true) /\
    (loadable "GOCAD Well" text = false -> read_wl F text = Throw ExData).
Proof.
  intros F text. split; [apply loadable_iff|]. intros H. apply loadable_goto_none in H as [s E]. unfold read_wl. now rewrite E.
Qed.
Print Assumptions C54_wl_loadable.
Example C54_wl_instance : loadable "GOCAD Well" (unlines ex_wl) = true /\ loadable "GOCAD Well" (unlines [lit "GOCAD TSurf 1"]) = false.
Proof. split; vm_compute; reflexivity. Qed.

(** ** C21: .dev files *)

(** The name of a .dev well: the fourth word of the last line that starts with "# WELL NAME:" (which must have one). *)
Inductive dev_intro : bytes -> list bytes -> bytes -> Prop :=
| DI_nil n : dev_intro n [] n
| DI_name n l w r n' : starts_with l "# WELL NAME:" = true -> nth_error (string_split l) 3 = Some w ->
    dev_intro w r n' -> dev_intro n (l :: r) n'
| DI_other n l r n' : starts_with l "#===" = false -> starts_with l "# WELL NAME:" = false ->
    dev_intro n r n' -> dev_intro n (l :: r) n'.
Definition coordinate (c : bytes) : bool := beq c "X" || beq c "Y" || beq c "Z".
Definition others (cols : list bytes) : list bytes := filter (fun c => negb (coordinate c)) cols.

Section Dev.
Context (F : Num).
(** Columns with their values. *)
Definition at_attrs (nc : list (bytes * list (list (num F)))) : list (bytes * attr (num F)) :=
  map (fun p => (fst p, mkAttr 1 [zero F] (snd p))) nc.
Lemma at_attrs_names nc : map fst (at_attrs nc) = map fst nc.
Proof. unfold at_attrs. rewrite map_map. reflexivity. Qed.
Lemma at_attrs_app a b : at_attrs (a ++ b) = at_attrs a ++ at_attrs b.
Proof. apply map_app. Qed.
Lemma replace_attr_mid {V} n (x y : attr V) a b : ~ In n (map fst a) -> replace_attr n y (a ++ (n, x) :: b) = a ++ (n, y) :: b.
Proof.
  induction a as [|[k z] a IH]; cbn [app map fst In replace_attr]; intros H.
  - now rewrite beq_refl.
  - rewrite (proj2 (beq_neq k n)) by tauto. now rewrite IH by tauto.
Qed.
Lemma find_attr_mid {V} n (x : attr V) a b : ~ In n (map fst a) -> find_attr n (a ++ (n, x) :: b) = Some x.
Proof.
  unfold find_attr. induction a as [|[k z] a IH]; cbn [app map fst In find]; intros H.
  - now rewrite beq_refl.
  - rewrite (proj2 (beq_neq k n)) by tauto. now apply IH; tauto.
Qed.
Lemma setz_last {A} (l : list A) d x : setz (l ++ [d]) (Z.of_nat (List.length l)) x = Ok (l ++ [x]).
Proof.
  unfold setz. rewrite app_length. cbn [List.length]. rewrite (proj2 (Z.leb_le _ _)), (proj2 (Z.ltb_lt _ _)) by lia.
  cbn [andb]. rewrite Nat2Z.id. f_equal. induction l as [|a l IH]; [reflexivity|]. cbn. now rewrite IH.
Qed.
Lemma set_value_mid name pts a n col d b x : ~ In n (map fst a) ->
  set_value F (mkMesh name pts [] (at_attrs (a ++ (n, col ++ [d]) :: b))) n (Z.of_nat (List.length col)) x
  = Ok (mkMesh name pts [] (at_attrs (a ++ (n, col ++ [[x]]) :: b))).
Proof.
  intros H. unfold set_value. cbn [m_attrs]. rewrite !at_attrs_app. cbn [at_attrs map fst snd].
  rewrite find_attr_mid by (now rewrite at_attrs_names). cbn [a_vals a_type a_def]. rewrite setz_last. cbn [bind].
  unfold set_attr_list. cbn [m_name m_points m_cells]. rewrite replace_attr_mid by (now rewrite at_attrs_names). reflexivity.
Qed.
Definition skipped (px py pz : nat) (i : nat) : bool := Nat.eqb i px || Nat.eqb i py || Nat.eqb i pz.
(** The elements whose position is not one of the three, positions starting at [s]. *)
Fixpoint sel {A} (px py pz : nat) (s : nat) (l : list A) : list A :=
  match l with
  | [] => []
  | x :: r => if skipped px py pz s then sel px py pz (S s) r else x :: sel px py pz (S s) r
  end.
(** How many positions before [p] are kept. *)
Fixpoint kept (px py pz : nat) (s n : nat) : nat :=
  match n with O => O | S m => ((if skipped px py pz s then 0 else 1) + kept px py pz (S s) m)%nat end.
Lemma sel_nth {A} px py pz (l : list A) : forall s p, skipped px py pz (s + p) = false ->
  nth_error (sel px py pz s l) (kept px py pz s p) = nth_error l p.
Proof.
  induction l as [|x l IH]; intros s p H.
  - assert (N : forall {T} n, nth_error (@nil T) n = None) by (intros T [|n]; reflexivity). cbn [sel]. now rewrite !N.
  - destruct p as [|p]; cbn [sel kept nth_error].
    + rewrite Nat.add_0_r in H. now rewrite H.
    + replace (s + S p)%nat with (S s + p)%nat in H by lia. destruct (skipped px py pz s); cbn [Nat.add nth_error]; now apply IH.
Qed.
Lemma assign_ok h px py pz name pts tokens : d_x h = Some px -> d_y h = Some py -> d_z h = Some pz ->
  forall s a todo vs n,
  numbers F (sel px py pz s tokens) vs ->
  d_attrs h = map fst a ++ map fst todo -> NoDup (d_attrs h) -> List.length vs = List.length todo ->
  Forall (fun c => List.length (snd c) = n) todo ->
  foldM (dev_assign F h (Z.of_nat n)) (combine (seq s (List.length tokens)) tokens)
    (mkMesh name pts [] (at_attrs (a ++ map (fun c => (fst c, snd c ++ [[zero F]])) todo)), List.length a)
  = Ok (mkMesh name pts [] (at_attrs (a ++ map (fun cv => (fst (fst cv), snd (fst cv) ++ [[snd cv]])) (combine todo vs))),
        (List.length a + List.length todo)%nat).
Proof.
  intros Hx Hy Hz. induction tokens as [|t tokens IH]; intros s a todo vs n Hv Hd Hnd Hl Hn.
  - cbn [sel] in Hv. inversion Hv; subst. destruct todo; [|discriminate]. cbn. now rewrite Nat.add_0_r.
  - cbn [List.length seq combine foldM]. unfold dev_assign at 1. rewrite Hx, Hy, Hz. cbn [is_pos].
    cbn [sel] in Hv. unfold skipped in Hv at 1. destruct (Nat.eqb s px || Nat.eqb s py || Nat.eqb s pz).
    + cbn [bind]. apply (IH (S s) a todo); assumption.
    + inversion Hv as [|? v ? vs' Ht Hv']; subst. rewrite (std_num F t v Ht). cbn [bind].
      destruct todo as [|[k col] todo]; [discriminate|]. cbn [map fst snd] in Hd.
      assert (Ei : idx (d_attrs h) (List.length a) = Ok k).
      { rewrite Hd. apply idx_nth. rewrite nth_error_app2 by (rewrite map_length; lia). rewrite map_length, Nat.sub_diag. reflexivity. }
      rewrite Ei. cbn [bind map fst snd].
      assert (Hk : ~ In k (map fst a)).
      { rewrite Hd in Hnd. apply NoDup_remove_2 in Hnd. intros Hi. apply Hnd. apply in_app_iff. now left. }
      pose proof (Forall_inv Hn) as Hc. cbn [snd] in Hc. rewrite <- Hc at 1. rewrite set_value_mid by assumption. cbn [bind combine map fst snd].
      specialize (IH (S s) (a ++ [(k, col ++ [[v]])]) todo vs' n). cbn [List.length].
      rewrite !app_length in IH. cbn [List.length] in IH. rewrite <- !app_assoc in IH. cbn [app] in IH.
      replace (List.length a + 1)%nat with (S (List.length a)) in IH by lia.
      replace (List.length a + S (List.length todo))%nat with (S (List.length a) + List.length todo)%nat by lia.
      apply IH; [assumption| |assumption| |].
      * rewrite map_app, <- app_assoc. exact Hd.
      * cbn in Hl. lia.
      * now apply Forall_inv_tail in Hn.
Qed.

Lemma Forall2_imp' {A B} (P Q : A -> B -> Prop) l l' : (forall a b, P a b -> Q a b) -> Forall2 P l l' -> Forall2 Q l l'.
Proof. intros H. induction 1; constructor; auto. Qed.

(** *** Columns *)
Lemma dev_column_attrs cols : forall s h,
  let h' := fold_left dev_column (combine (seq s (List.length cols)) cols) h in
  d_name h' = d_name h /\ d_attrs h' = d_attrs h ++ others cols.
Proof.
  induction cols as [|c cols IH]; intros s h; cbn [List.length seq combine fold_left others filter].
  - rewrite app_nil_r. auto.
  - destruct (IH (S s) (dev_column h (s, c))) as [E1 E2]. rewrite E1, E2. unfold dev_column, coordinate.
    destruct (beq c "X"); cbn [orb negb]; [auto|]. destruct (beq c "Y"); cbn [orb negb]; [auto|].
    destruct (beq c "Z"); cbn [orb negb]; [auto|]. cbn [d_attrs d_name]. rewrite <- app_assoc. auto.
Qed.
Lemma dev_column_xyz cols : forall s h,
  let h' := fold_left dev_column (combine (seq s (List.length cols)) cols) h in
  (~ In (lit "X") cols -> d_x h' = d_x h) /\ (~ In (lit "Y") cols -> d_y h' = d_y h) /\ (~ In (lit "Z") cols -> d_z h' = d_z h) /\
  (NoDup cols -> forall p, (nth_error cols p = Some (lit "X") -> d_x h' = Some (s + p)%nat) /\
     (nth_error cols p = Some (lit "Y") -> d_y h' = Some (s + p)%nat) /\ (nth_error cols p = Some (lit "Z") -> d_z h' = Some (s + p)%nat)).
Proof.
  induction cols as [|c cols IH]; intros s h; cbn [List.length seq combine fold_left].
  - repeat split; intros; try reflexivity; now destruct p.
  - destruct (IH (S s) (dev_column h (s, c))) as (A & B & C & D). cbn zeta in *. cbn [In].
    assert (NX : c <> lit "X" -> d_x (dev_column h (s, c)) = d_x h).
    { intros E. unfold dev_column. rewrite (proj2 (beq_neq c (lit "X"))) by assumption. now destruct (beq c "Y"), (beq c "Z"). }
    assert (NY : c <> lit "Y" -> d_y (dev_column h (s, c)) = d_y h).
    { intros E. unfold dev_column. rewrite (proj2 (beq_neq c (lit "Y"))) by assumption. now destruct (beq c "X"), (beq c "Z"). }
    assert (NZ : c <> lit "Z" -> d_z (dev_column h (s, c)) = d_z h).
    { intros E. unfold dev_column. rewrite (proj2 (beq_neq c (lit "Z"))) by assumption. now destruct (beq c "X"), (beq c "Y"). }
    split; [intros H; rewrite A by tauto; apply NX; intros ->; apply H; now left|].
    split; [intros H; rewrite B by tauto; apply NY; intros ->; apply H; now left|].
    split; [intros H; rewrite C by tauto; apply NZ; intros ->; apply H; now left|].
    intros Hnd p. inversion Hnd as [|? ? Hc Hnd']; subst. specialize (D Hnd').
    destruct p as [|p].
    + rewrite Nat.add_0_r. cbn [nth_error].
      repeat split; intros E; injection E as ->.
      * now rewrite A.
      * now rewrite B.
      * now rewrite C.
    + replace (s + S p)%nat with (S s + p)%nat by lia. cbn [nth_error]. apply D.
Qed.
Lemma nodup_pos {A} (l : list A) i j a : NoDup l -> nth_error l i = Some a -> nth_error l j = Some a -> i = j.
Proof.
  intros H Hi Hj. apply (proj1 (NoDup_nth_error l) H); [apply nth_error_Some; congruence|congruence].
Qed.
(** With distinct column names, keeping the other columns by name or by position is the same. *)
Lemma sel_others_pos px py pz l : forall s,
  (forall p c, nth_error l p = Some c -> coordinate c = skipped px py pz (s + p)) ->
  sel px py pz s l = others l.
Proof.
  induction l as [|c l IH]; intros s H; [reflexivity|]. cbn [sel others filter].
  pose proof (H 0%nat c eq_refl) as H0. rewrite Nat.add_0_r in H0. rewrite <- H0.
  assert (T : sel px py pz (S s) l = others l).
  { apply IH. intros p c' Hp. specialize (H (S p) c' Hp). now replace (S s + p)%nat with (s + S p)%nat by lia. }
  rewrite T. now destruct (coordinate c).
Qed.
Lemma skipped_cols cols px py pz : NoDup cols -> nth_error cols px = Some (lit "X") -> nth_error cols py = Some (lit "Y") ->
  nth_error cols pz = Some (lit "Z") -> forall p c, nth_error cols p = Some c -> coordinate c = skipped px py pz (0 + p).
Proof.
  intros Hn Hx Hy Hz p c Hp. cbn [Nat.add]. unfold coordinate, skipped.
  assert (G : forall q k, nth_error cols q = Some k -> beq c k = Nat.eqb p q).
  { intros q k Hq. destruct (Nat.eqb p q) eqn:E.
    - apply Nat.eqb_eq in E. subst. assert (c = k) as -> by congruence. apply beq_refl.
    - apply Nat.eqb_neq in E. apply beq_neq. intros ->. apply E. eapply nodup_pos; eassumption. }
  now rewrite (G px _ Hx), (G py _ Hy), (G pz _ Hz).
Qed.
Lemma dev_check_ok h px py pz : d_x h = Some px -> d_y h = Some py -> d_z h = Some pz -> px <> py -> px <> pz -> py <> pz ->
  dev_check h = Ok tt.
Proof.
  intros Ex Ey Ez H1 H2 H3. unfold dev_check, differ. rewrite Ex, Ey, Ez. cbn [bind].
  apply Nat.eqb_neq in H1, H2, H3. rewrite H1. cbn [negb]. rewrite H2. cbn [bind negb]. now rewrite H3.
Qed.
Lemma dev_intro_ok n pre n' : dev_intro n pre n' -> forall rest,
  dev_header_loop true (mkDev n [] None None None) (pre ++ rest) = dev_header_loop true (mkDev n' [] None None None) rest.
Proof.
  induction 1 as [n|n l w r n' Hl Hw _ IH|n l r n' H1 H2 _ IH]; intros rest; [reflexivity| |]; cbn [app dev_header_loop].
  - assert (E : starts_with l "#===" = false).
    { destruct (starts_with l "#===") eqn:E; [|reflexivity]. exfalso.
      destruct l as [|a [|b l]]; [discriminate|cbn [starts_with lit list_ascii_of_string] in E; now rewrite andb_false_r in E|].
      cbn [starts_with lit list_ascii_of_string] in E, Hl. apply andb_true_iff in E as [_ E]. apply andb_true_iff in E as [E _].
      apply andb_true_iff in Hl as [_ Hl]. apply andb_true_iff in Hl as [Hl _]. apply Ascii.eqb_eq in E, Hl. congruence. }
    rewrite E, Hl. rewrite (idx_nth _ _ _ Hw). cbn [bind d_attrs d_x d_y d_z]. apply IH.
  - rewrite H1, H2. apply IH.
Qed.
Lemma create_dev_attributes name names : forall done, NoDup (done ++ names) -> ~ In (lit "points") names ->
  dev_create_attributes F names (mkMesh name [] [] (at_attrs (map (fun n => (n, [])) done)))
  = Ok (mkMesh name [] [] (at_attrs (map (fun n => (n, [])) (done ++ names)))).
Proof.
  unfold dev_create_attributes. induction names as [|n names IH]; intros done Hnd Hp; [now rewrite app_nil_r|].
  cbn [foldM]. unfold find_or_create at 1. cbn [In] in Hp. rewrite (proj2 (beq_neq n (lit "points"))) by tauto.
  assert (Hn : ~ In n (map fst (at_attrs (map (fun n => (n, [])) done)))).
  { rewrite at_attrs_names, map_map. cbn [fst]. rewrite map_id. apply NoDup_remove_2 in Hnd. intros Hi. apply Hnd, in_app_iff. now left. }
  cbn [m_attrs m_points map]. rewrite find_attr_none by exact Hn. cbn [bind]. rewrite replace_attr_new by exact Hn.
  specialize (IH (done ++ [n])). rewrite <- app_assoc in IH. cbn [app] in IH. specialize (IH Hnd ltac:(tauto)).
  rewrite <- IH. unfold set_attr_list. cbn [m_name m_points m_cells]. rewrite map_app, at_attrs_app. reflexivity.
Qed.

(** *** Rows *)
Definition grow (nc : list (bytes * list (list (num F)))) (vs : list (num F)) :=
  map (fun cv => (fst (fst cv), snd (fst cv) ++ [[snd cv]])) (combine nc vs).
Lemma grow_names nc : forall vs, List.length vs = List.length nc -> map fst (grow nc vs) = map fst nc.
Proof.
  induction nc as [|[n c] nc IH]; intros [|v vs] H; try discriminate; [reflexivity|]. unfold grow in *. cbn [combine map fst snd].
  now rewrite IH by (cbn in H; lia).
Qed.
Lemma grow_lengths nc : forall vs n, Forall (fun c => List.length (snd c) = n) nc ->
  Forall (fun c => List.length (snd c) = S n) (grow nc vs).
Proof.
  induction nc as [|[k c] nc IH]; intros [|v vs] n H; try constructor; inversion H; subst; cbn [fst snd] in *.
  - rewrite app_length. cbn. lia.
  - now apply IH.
Qed.
Lemma grow_nth nc : forall vs k n c, nth_error nc k = Some (n, c) -> (k < List.length vs)%nat ->
  nth_error (grow nc vs) k = Some (n, c ++ [[nth k vs (zero F)]]).
Proof.
  induction nc as [|[k0 c0] nc IH]; intros vs [|k] n c H L; try discriminate; destruct vs as [|v vs]; cbn [List.length] in L; try lia.
  - cbn in H. injection H as -> ->. reflexivity.
  - cbn [nth_error] in H. unfold grow. cbn [combine map nth_error nth]. apply IH; [assumption|lia].
Qed.
Lemma sel_numbers px py pz ts vs : numbers F ts vs -> forall s, numbers F (sel px py pz s ts) (sel px py pz s vs).
Proof.
  induction 1 as [|t v ts vs Ht _ IH]; intros s; cbn [sel]; [constructor|]. destruct (skipped px py pz s); [apply IH|].
  constructor; [assumption|apply IH].
Qed.
Lemma sel_length {A B} px py pz (l : list A) (l' : list B) : List.length l = List.length l' -> forall s,
  List.length (sel px py pz s l) = List.length (sel px py pz s l').
Proof.
  revert l'. induction l as [|x l IH]; intros [|y l'] H s; try discriminate; [reflexivity|]. cbn [sel].
  destruct (skipped px py pz s); cbn [List.length]; rewrite (IH l') by (cbn in H; lia); reflexivity.
Qed.
Lemma numbers_nth ts vs p v : numbers F ts vs -> nth_error vs p = Some v -> exists t, nth_error ts p = Some t /\ atod F t = Some v.
Proof.
  intros H. revert p. induction H as [|t w ts vs Ht _ IH]; intros [|p] E; try discriminate.
  - injection E as <-. exists t. auto.
  - now apply IH.
Qed.
Definition row_point (px py pz : nat) (row : list (num F)) : point F :=
  (nth px row (zero F), nth py row (zero F), nth pz row (zero F)).
Lemma dev_row_ok h px py pz name pts nc line vs n :
  d_x h = Some px -> d_y h = Some py -> d_z h = Some pz ->
  numbers F (string_split line) vs -> (px < List.length vs)%nat -> (py < List.length vs)%nat -> (pz < List.length vs)%nat ->
  List.length vs = (List.length (d_attrs h) + 3)%nat ->
  List.length (sel px py pz 0 vs) = List.length (d_attrs h) ->
  d_attrs h = map fst nc -> NoDup (d_attrs h) -> List.length pts = n -> Forall (fun c => List.length (snd c) = n) nc ->
  dev_row F h (mkMesh name pts [] (at_attrs nc)) line
  = Ok (mkMesh name (pts ++ [row_point px py pz vs]) [] (at_attrs (grow nc (sel px py pz 0 vs)))).
Proof.
  intros Hx Hy Hz Hv Lx Ly Lz Hl Hs Hd Hnd Hp Hn. unfold dev_row.
  assert (Lt : List.length (string_split line) = List.length vs) by (clear - Hv; induction Hv; cbn; congruence).
  rewrite Lt, Hl, Nat.eqb_refl. cbn [check bind].
  assert (C : forall p, (p < List.length vs)%nat -> dev_coord F (string_split line) (Some p) = Ok (nth p vs (zero F))).
  { intros p L. destruct (numbers_nth _ _ p (nth p vs (zero F)) Hv (nth_error_nth' vs (zero F) L)) as (t & E & A).
    unfold dev_coord. rewrite (idx_nth _ _ _ E). cbn [bind]. now apply std_num. }
  rewrite Hx, Hy, Hz, !C by assumption. cbn [bind].
  unfold create_point, nb_vertices. cbn [m_name m_points m_cells m_attrs].
  assert (E : map (fun na => (fst na, mkAttr (a_type (snd na)) (a_def (snd na)) (a_vals (snd na) ++ [a_def (snd na)]))) (at_attrs nc)
            = at_attrs ([] ++ map (fun c => (fst c, snd c ++ [[zero F]])) nc)).
  { unfold at_attrs. cbn [app]. rewrite !map_map. reflexivity. }
  rewrite <- Hl, <- Lt. unfold lenz. rewrite Hp.
  pose proof (assign_ok h px py pz name (pts ++ [row_point px py pz vs]) (string_split line) Hx Hy Hz 0 [] nc
    (sel px py pz 0 vs) n (sel_numbers px py pz _ _ Hv 0) Hd Hnd) as A.
  rewrite <- E in A. cbn [List.length Nat.add app] in A. fold (row_point px py pz vs).
  rewrite A; [reflexivity| |assumption]. rewrite Hs, Hd. apply map_length.
Qed.
Lemma dev_rows_ok h px py pz name rows vals :
  d_x h = Some px -> d_y h = Some py -> d_z h = Some pz -> NoDup (d_attrs h) ->
  Forall2 (fun l vs => numbers F (string_split l) vs /\ (px < List.length vs)%nat /\ (py < List.length vs)%nat /\ (pz < List.length vs)%nat /\
     List.length vs = (List.length (d_attrs h) + 3)%nat /\ List.length (sel px py pz 0 vs) = List.length (d_attrs h)) rows vals ->
  forall pts nc, d_attrs h = map fst nc -> Forall (fun c => List.length (snd c) = List.length pts) nc ->
  exists nc', foldM (dev_row F h) rows (mkMesh name pts [] (at_attrs nc))
    = Ok (mkMesh name (pts ++ map (row_point px py pz) vals) [] (at_attrs nc')) /\
    map fst nc' = d_attrs h /\
    forall k n c, nth_error nc k = Some (n, c) ->
      nth_error nc' k = Some (n, c ++ map (fun row => [nth k (sel px py pz 0 row) (zero F)]) vals).
Proof.
  intros Hx Hy Hz Hnd. induction 1 as [|l vs rows vals (Hv & Lx & Ly & Lz & Hl & Hs) _ IH]; intros pts nc Hd Hn.
  - exists nc. cbn [foldM map]. rewrite app_nil_r. split; [reflexivity|]. split; [now symmetry|]. intros. now rewrite app_nil_r.
  - cbn [foldM]. rewrite (dev_row_ok h px py pz name pts nc l vs (List.length pts)) by (assumption || reflexivity). cbn [bind].
    assert (G : List.length (sel px py pz 0 vs) = List.length nc) by (rewrite Hs, Hd; apply map_length).
    destruct (IH (pts ++ [row_point px py pz vs]) (grow nc (sel px py pz 0 vs))) as (nc' & E & Hn' & Hk).
    + rewrite grow_names by exact G. exact Hd.
    + rewrite app_length. cbn [List.length]. rewrite Nat.add_1_r. now apply grow_lengths.
    + exists nc'. rewrite E, <- app_assoc. split; [reflexivity|]. split; [assumption|].
      intros k n c Hkc. cbn [map].
      rewrite (Hk k n (c ++ [[nth k (sel px py pz 0 vs) (zero F)]])).
      * now rewrite <- app_assoc.
      * apply grow_nth; [assumption|]. rewrite G. apply nth_error_Some. congruence.
Qed.
Lemma others_length cols px py pz : NoDup cols -> nth_error cols px = Some (lit "X") -> nth_error cols py = Some (lit "Y") ->
  nth_error cols pz = Some (lit "Z") -> List.length cols = (List.length (others cols) + 3)%nat.
Proof.
  intros Hn Hx Hy Hz.
  assert (P : forall c cols p, NoDup cols -> nth_error cols p = Some c ->
     List.length cols = S (List.length (filter (fun x => negb (beq x c)) cols)) /\
     NoDup (filter (fun x => negb (beq x c)) cols)).
  { clear. intros c cols. induction cols as [|x cols IH]; intros p Hn Hp; [now destruct p|]. inversion Hn; subst. cbn [filter].
    destruct p as [|p].
    - injection Hp as ->. rewrite beq_refl. cbn [negb List.length].
      assert (E : filter (fun x => negb (beq x c)) cols = cols).
      { clear - H1. induction cols as [|y cols IH]; [reflexivity|]. cbn [filter]. cbn [In] in H1.
        rewrite (proj2 (beq_neq y c)) by tauto. cbn [negb]. now rewrite IH by tauto. }
      rewrite E. auto.
    - cbn [nth_error] in Hp. assert (x <> c) by (intros ->; apply H1; now apply nth_error_In in Hp).
      rewrite (proj2 (beq_neq x c)) by assumption. cbn [negb List.length]. destruct (IH p H2 Hp) as [L N].
      split; [congruence|]. constructor; [|assumption]. intros Hi. apply filter_In in Hi. tauto. }
  destruct (P (lit "X") cols px Hn Hx) as [L1 N1].
  assert (I : forall c a l, In c l -> c <> a -> In c (filter (fun x => negb (beq x a)) l)).
  { intros c a l Hi Hd. apply filter_In. split; [assumption|]. now rewrite (proj2 (beq_neq c a)) by assumption. }
  apply nth_error_In in Hy, Hz.
  apply (I _ (lit "X")) in Hy; [|discriminate]. apply (I _ (lit "X")) in Hz; [|discriminate].
  apply (I _ (lit "Y")) in Hz; [|discriminate].
  destruct (In_nth_error _ _ Hy) as [p2 Hp2]. destruct (P (lit "Y") _ p2 N1 Hp2) as [L2 N2].
  destruct (In_nth_error _ _ Hz) as [p3 Hp3]. destruct (P (lit "Z") _ p3 N2 Hp3) as [L3 _].
  rewrite L1, L2, L3. unfold others.
  assert (E : forall l, filter (fun x => negb (beq x "Z")) (filter (fun x => negb (beq x "Y")) (filter (fun x => negb (beq x "X")) l))
     = filter (fun c => negb (coordinate c)) l).
  { clear. induction l as [|x l IH]; [reflexivity|]. cbn [filter]. unfold coordinate at 1.
    destruct (beq x "X"); cbn [negb orb filter]; [exact IH|]. destruct (beq x "Y"); cbn [negb orb filter]; [exact IH|].
    destruct (beq x "Z"); cbn [negb orb filter]; [exact IH|]. now rewrite IH. }
  rewrite E. lia.
Qed.
End Dev.

(** Every vertex of the well is the X, Y, Z of its row, every other column is an attribute holding the value of
    the row, and consecutive rows are joined by an edge. *)
Theorem C21_dev_rows_partial :
  forall (F : Num) (l0 : bytes) (pre : list bytes) (sep1 header sep2 : bytes) (rows : list bytes) (name : bytes)
         (px py pz : nat) (vals : list (list (num F))),
    let cols := string_split header in
    let ls := l0 :: pre ++ sep1 :: header :: sep2 :: rows in
    Forall is_line ls -> rows <> [] -> lenz rows < two32 ->
    starts_with l0 "# WELL TRACE FROM PETREL" = true ->
    dev_intro [] pre name ->
    starts_with sep1 "#===" = true -> starts_with sep2 "#===" = true ->
    starts_with header "#===" = false -> starts_with header "# WELL NAME:" = false ->
    NoDup cols -> ~ In (lit "points") cols ->
    nth_error cols px = Some (lit "X") -> nth_error cols py = Some (lit "Y") -> nth_error cols pz = Some (lit "Z") ->
    Forall2 (fun l vs => numbers F (string_split l) vs /\ List.length vs = List.length cols) rows vals ->
    exists m, read_dev F (unlines ls) = Ok m /\
      m_name m = Some name /\ m_cells m = chain (List.length rows) /\ List.length (m_points m) = List.length rows /\
      map fst (m_attrs m) = others cols /\
      (forall i row x y z, nth_error vals i = Some row -> nth_error row px = Some x -> nth_error row py = Some y ->
         nth_error row pz = Some z -> nth_error (m_points m) i = Some (x, y, z)) /\
      (forall i row p c v, nth_error vals i = Some row -> nth_error cols p = Some c -> In c (others cols) ->
         nth_error row p = Some v -> attr_value m c i = Some [v]).
Proof.
  intros F l0 pre sep1 header sep2 rows name px py pz vals cols ls Hl Hr Hn H0 Hi Hs1 Hs2 Hh1 Hh2 Hnd Hp Hx Hy Hz Hv.
  unfold read_dev. rewrite open_unlines by exact Hl. unfold ls, check_keyword. cbn [pending]. rewrite H0. cbn [bind pending].
  rewrite (dev_intro_ok [] pre name Hi). cbn [dev_header_loop]. rewrite Hs1, Hh1, Hh2. unfold dev_columns. fold cols.
  assert (L3 := others_length cols px py pz Hnd Hx Hy Hz).
  replace (Nat.leb 3 (List.length cols)) with true by (symmetry; apply Nat.leb_le; lia). cbn [check bind].
  set (h := fold_left dev_column (combine (seq 0 (List.length cols)) cols) (mkDev name [] None None None)).
  destruct (dev_column_attrs cols 0 (mkDev name [] None None None)) as [En Ea]. fold h in En, Ea. cbn [d_name d_attrs app] in En, Ea.
  destruct (dev_column_xyz cols 0 (mkDev name [] None None None)) as (_ & _ & _ & Dp). fold h in Dp. specialize (Dp Hnd).
  assert (Dx : d_x h = Some px) by (apply (proj1 (Dp px)); assumption).
  assert (Dy : d_y h = Some py) by (apply (proj1 (proj2 (Dp py))); assumption).
  assert (Dz : d_z h = Some pz) by (apply (proj2 (proj2 (Dp pz))); assumption).
  assert (Dif : forall p q (a b : bytes), nth_error cols p = Some a -> nth_error cols q = Some b -> a <> b -> p <> q) by (intros; congruence).
  rewrite (dev_check_ok h px py pz) by (first [assumption|eapply Dif; [eassumption|eassumption|discriminate]]). cbn [bind]. rewrite Hs2. cbn [bind].
  assert (Hno : NoDup (others cols)) by (apply NoDup_filter; assumption).
  assert (Ecre : dev_create_attributes F (d_attrs h) (set_name (Some (d_name h)) empty_mesh)
     = Ok (mkMesh (Some name) [] [] (at_attrs F (map (fun n => (n, [])) (others cols))))).
  { rewrite Ea, En. apply (create_dev_attributes F (Some name) (others cols) []); [exact Hno|].
    intros Hq. apply Hp. unfold others in Hq. apply filter_In in Hq. tauto. }
  rewrite Ecre. cbn [bind].
  assert (Sk := skipped_cols cols px py pz Hnd Hx Hy Hz).
  assert (So := sel_others_pos px py pz cols 0 Sk).
  assert (Pl : forall p c, nth_error cols p = Some c -> (p < List.length cols)%nat) by (intros p c E; apply nth_error_Some; congruence).
  destruct (dev_rows_ok F h px py pz (Some name) rows vals Dx Dy Dz) with (pts := @nil (point F))
    (nc := map (fun n : bytes => (n, @nil (list (num F)))) (others cols)) as (nc' & E & Hn' & Hk).
  - rewrite Ea. exact Hno.
  - eapply Forall2_imp'; [|exact Hv]. intros l vs [Hq Lq]. cbn beta.
    split; [exact Hq|]. rewrite Lq. split; [eapply Pl; exact Hx|]. split; [eapply Pl; exact Hy|]. split; [eapply Pl; exact Hz|].
    rewrite Ea. split; [exact L3|]. rewrite (sel_length px py pz vs cols Lq 0), So. reflexivity.
  - rewrite map_map. cbn [fst]. rewrite map_id. exact Ea.
  - apply Forall_forall. intros c Hc. apply in_map_iff in Hc as (n & <- & _). reflexivity.
  - rewrite E. cbn [bind app].
    assert (Lv : List.length vals = List.length rows) by (clear - Hv; induction Hv; cbn; congruence).
    rewrite create_edges_ok; [|destruct vals; [destruct rows; [congruence|discriminate]|discriminate]|unfold lenz; rewrite map_length, Lv; exact Hn].
    eexists. split; [reflexivity|]. cbn [m_name m_cells m_points m_attrs].
    rewrite map_length, Lv. split; [reflexivity|]. split; [reflexivity|]. split; [reflexivity|].
    split; [rewrite at_attrs_names, Hn'; exact Ea|]. split.
    + intros i row x y z Hi' Ex Ey Ez. rewrite nth_error_map, Hi'. cbn [option_map]. unfold row_point.
      apply nth_error_nth with (d := zero F) in Ex, Ey, Ez. now rewrite Ex, Ey, Ez.
    + intros i row p c v Hi' Hc Hin Ev. unfold attr_value. cbn [m_attrs].
      assert (Sp : skipped px py pz (0 + p) = false).
      { rewrite <- (Sk p c Hc). unfold others in Hin. apply filter_In in Hin as [_ Hin]. now apply negb_true_iff in Hin. }
      pose proof (sel_nth px py pz cols 0 p Sp) as Kc. rewrite So, Hc in Kc.
      set (k := kept px py pz 0 p) in *.
      specialize (Hk k c []). rewrite nth_error_map, Kc in Hk. specialize (Hk eq_refl). cbn [app] in Hk.
      apply nth_error_In in Hk.
      rewrite (find_attr_in c (mkAttr 1 [zero F] (map (fun row => [nth k (sel px py pz 0 row) (zero F)]) vals))).
      * cbn [a_vals]. rewrite nth_error_map, Hi'. cbn [option_map]. do 2 f_equal. apply nth_error_nth.
        unfold k. now rewrite (sel_nth px py pz row 0 p Sp).
      * rewrite at_attrs_names, Hn', Ea. exact Hno.
      * unfold at_attrs. apply in_map_iff. exists (c, map (fun row => [nth k (sel px py pz 0 row) (zero F)]) vals). auto.
Qed.
Print Assumptions C21_dev_rows_partial.
Definition ex_dev (rows : list string) : list bytes := map lit
  (["# WELL TRACE FROM PETREL"; "# WELL NAME: my well"; "# DATE"; "#======"; "MD Z X GR Y"; "#======"] ++ rows)%list.
Example C21_instance :
  mesh_is zz_eqb (read_dev ExNum (unlines (ex_dev ["1 2 3 4 5"; "10 20 30 40 50"]))) (Some (lit "my"))
    [(3, 5, 2); (30, 50, 20)] [(0, 1)] [(lit "MD", [[1]; [10]]); (lit "GR", [[4]; [40]])] = true.
Proof. vm_compute. reflexivity. Qed.
Example C21_hypotheses :
  dev_intro [] (map lit ["# WELL NAME: my well"; "# DATE"]) (lit "my") /\
  others (string_split (lit "MD Z X GR Y")) = map lit ["MD"; "GR"] /\ NoDup (string_split (lit "MD Z X GR Y")) /\
  numbers ExNum (string_split (lit "1 2 3 4 5")) [1; 2; 3; 4; 5].
Proof.
  split; [|split; [|split]].
  - eapply DI_name; [reflexivity|reflexivity|]. apply DI_other; [reflexivity|reflexivity|]. constructor.
  - reflexivity.
  - change (string_split (lit "MD Z X GR Y")) with (map lit ["MD"; "Z"; "X"; "GR"; "Y"]).
    repeat constructor; cbn [In map]; intros H; repeat (destruct H as [H|H]; [discriminate|]); exact H.
  - repeat constructor.
Qed.
(** The claim covers zero rows, where it is false, whatever the columns. *)
Theorem C21_no_row_refuted :
  exists ls : list bytes, Forall is_line ls /\ loadable "# WELL TRACE" (unlines ls) = true /\
    forall F : Num, read_dev F (unlines ls) = UB.
Proof.
  exists (ex_dev []). split; [repeat (apply Forall_cons; [apply lineb_ok; reflexivity|]); constructor|]. split; [vm_compute; reflexivity|].
  intros F.
  transitivity (create_edges F (mkMesh (Some (lit "my")) [] [] (at_attrs F [(lit "MD", []); (lit "GR", [])]))); [|apply create_edges_nothing].
  unfold read_dev, check_keyword. replace (pending (open_text (unlines (ex_dev [])))) with (ex_dev []) by (vm_compute; reflexivity).
  reflexivity.
Qed.
Print Assumptions C21_no_row_refuted.
(** Two columns with the same header: the last one only is kept. *)
Theorem C21_same_header_refuted :
  exists (ls : list bytes),
    mesh_is zz_eqb (read_dev ExNum (unlines ls)) (Some []) [(1, 2, 3)] [] [(lit "A", [[5]])] = true /\
    nth_error ls 2 = Some (lit "X Y Z A A") /\ nth_error ls 4 = Some (lit "1 2 3 4 5").
Proof.
  exists (map lit ["# WELL TRACE FROM PETREL"; "#===="; "X Y Z A A"; "#===="; "1 2 3 4 5"]).
  split; [vm_compute; reflexivity|]. split; reflexivity.
Qed.
Print Assumptions C21_same_header_refuted.

(** ** C66: announced loadable, name, missing columns *)

(** Every file whose first line does not start as expected is rejected by an exception, even when it is announced loadable. *)
Theorem C66_dev_loadable_refuted :
  exists ls : list bytes, Forall is_line ls /\ loadable "# WELL TRACE" (unlines ls) = true /\
    forall F : Num, read_dev F (unlines ls) = Throw ExData.
Proof.
  exists (map lit ["# comment"; "# WELL TRACE FROM PETREL"; "#==="; "X Y Z"; "#==="; "1 2 3"]).
  split; [repeat (apply Forall_cons; [apply lineb_ok; reflexivity|]); constructor|]. split; [vm_compute; reflexivity|]. intros F. reflexivity.
Qed.
Print Assumptions C66_dev_loadable_refuted.
(** Conversely what is not announced loadable is always rejected. *)
Theorem C66_dev_not_loadable_throws :
  forall (F : Num) (text : bytes), loadable "# WELL TRACE" text = false -> read_dev F text = Throw ExData.
Proof.
  intros F text H. unfold read_dev, check_keyword.
  destruct (pending (open_text text)) as [|l r] eqn:E; [reflexivity|].
  destruct (starts_with l "# WELL TRACE FROM PETREL") eqn:S; [|reflexivity]. exfalso.
  assert (T : loadable "# WELL TRACE" text = true).
  { apply loadable_iff. exists l. rewrite E. split; [now left|]. clear - S.
    change (lit "# WELL TRACE FROM PETREL") with (lit "# WELL TRACE" ++ lit " FROM PETREL") in S.
    revert l S. generalize (lit "# WELL TRACE") as p. induction p as [|c p IH]; intros l S; [now destruct l|].
    destruct l as [|d l]; [discriminate|]. cbn [app starts_with] in *. apply andb_true_iff in S as [-> S]. now apply IH. }
  congruence.
Qed.
Print Assumptions C66_dev_not_loadable_throws.
(** The name of the well is the first word only of what follows WELL NAME. *)
Theorem C66_dev_name_refuted :
  exists ls : list bytes, In (lit "# WELL NAME: my well") ls /\
    mesh_is zz_eqb (read_dev ExNum (unlines ls)) (Some (lit "my")) [(3, 5, 2)] [] [(lit "MD", [[1]]); (lit "GR", [[4]])] = true.
Proof. exists (ex_dev ["1 2 3 4 5"]). split; [right; now left|]. vm_compute. reflexivity. Qed.
Print Assumptions C66_dev_name_refuted.
(** An empty name reads past the end of the words, and a header without X uses a position never set. *)
Theorem C66_dev_malformed_refuted :
  forall F : Num,
    read_dev F (unlines (map lit ["# WELL TRACE FROM PETREL"; "# WELL NAME:"; "#==="; "X Y Z"; "#==="; "1 2 3"])) = UB /\
    read_dev F (unlines (map lit ["# WELL TRACE FROM PETREL"; "#==="; "MD Y Z"; "#==="; "1 2 3"])) = UB.
Proof. intros F. split; reflexivity. Qed.
Print Assumptions C66_dev_malformed_refuted.
