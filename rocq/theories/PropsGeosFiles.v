(** * Properties C111 and C112: the files of a GEOS export and the boxes as they are written. *)
From Coq Require Import ZArith List Lia Bool Ascii String QArith Qabs Lqa.
From Verif Require Import Base Text TextFacts GocadModel LsoFacts ShiftFacts GeosModel GeosFiles PropsGeos NumText DecText PropsDec.
Import ListNotations.
Local Open Scope string_scope.
Local Open Scope list_scope.
Local Open Scope Z_scope.

(** ** Specification: paths *)
(** The path is that of an entry of the directory. *)
Definition entry_of (dir path name : bytes) : Prop := path = dir ++ lit "/" ++ name /\ ~ In "/"%char name.
(** The name of a directory: its last component, up to the last dot that is not its first character (whole when it is two dots). *)
Definition named (dir name : bytes) : Prop :=
  exists last, (dir = last \/ exists before, dir = before ++ lit "/" ++ last) /\ ~ In "/"%char last /\
    ((exists ext, last = name ++ lit "." ++ ext /\ ~ In "."%char ext /\ name <> [] /\ last <> lit "..")
     \/ (name = last /\ (last = lit ".." \/ ~ In "."%char (tl last)))).

Lemma is_slash_in l : existsb is_slash l = true <-> In "/"%char l.
Proof.
  rewrite existsb_exists. split; [intros [c [H1 H2]]; apply Ascii.eqb_eq in H2; now subst|].
  intros H. exists "/"%char. split; [exact H|reflexivity].
Qed.
Lemma filename_spec p : ~ In "/"%char (filename p) /\ (p = filename p \/ exists b, p = b ++ "/"%char :: filename p).
Proof.
  induction p as [|c r [IH1 IH2]]; [split; [intros []|now left]|]. cbn [filename].
  destruct (existsb is_slash r) eqn:E.
  - split; [exact IH1|]. right. destruct IH2 as [IH2|[b IH2]].
    + apply is_slash_in in E. rewrite IH2 in E. contradiction.
    + exists (c :: b). cbn [app]. now rewrite <- IH2.
  - assert (N : ~ In "/"%char r) by (rewrite <- is_slash_in, E; discriminate).
    destruct (is_slash c) eqn:Ec.
    + apply Ascii.eqb_eq in Ec. subst c. split; [exact N|]. right. now exists [].
    + split; [|now left]. intros [H|H]; [subst c; discriminate|contradiction].
Qed.
Lemma before_dot_spec f : match before_dot f with
  | Some s => exists e, f = s ++ "."%char :: e /\ ~ In "."%char e
  | None => ~ In "."%char f
  end.
Proof.
  induction f as [|c r IH]; [intros []|]. cbn [before_dot]. destruct (before_dot r) as [s|].
  - destruct IH as [e [-> H]]. now exists e.
  - destruct (is_dot c) eqn:E; [apply Ascii.eqb_eq in E; subst c; now exists r|].
    intros [H|H]; [subst c; discriminate|contradiction].
Qed.
Lemma last_slash a b x y : ~ In "/"%char x -> ~ In "/"%char y -> a ++ lit "/" ++ x = b ++ lit "/" ++ y -> x = y.
Proof.
  intros Nx Ny. cbn [lit list_ascii_of_string app]. revert b. induction a as [|c a IH]; intros [|d b] E; cbn [app] in E.
  - injection E as E. exact E.
  - injection E as <- E. exfalso. apply Nx. rewrite E. apply in_or_app. right. now left.
  - injection E as -> E. exfalso. apply Ny. rewrite <- E. apply in_or_app. right. now left.
  - injection E as <- E. eauto.
Qed.
Lemma last_dot a b x y : ~ In "."%char x -> ~ In "."%char y -> a ++ lit "." ++ x = b ++ lit "." ++ y -> a = b.
Proof.
  intros Nx Ny. cbn [lit list_ascii_of_string app]. revert b. induction a as [|c a IH]; intros [|d b] E; cbn [app] in E.
  - reflexivity.
  - injection E as <- E. exfalso. apply Nx. rewrite E. apply in_or_app. right. now left.
  - injection E as -> E. exfalso. apply Ny. rewrite <- E. apply in_or_app. right. now left.
  - injection E as <- E. f_equal. eauto.
Qed.
Lemma named_unique dir n m : named dir n -> named dir m -> n = m.
Proof.
  intros [l [Hl [Nl H]]] [k [Hk [Nk K]]]. assert (l = k).
  { assert (S : forall x y b, ~ In "/"%char x -> x = b ++ lit "/" ++ y -> False).
    { intros x y b N ->. apply N. apply in_or_app. right. now left. }
    destruct Hl as [->|[b ->]], Hk as [Hk|[b' Hk]]; [exact Hk|exfalso; eauto|exfalso; symmetry in Hk; eauto|].
    exact (last_slash _ _ _ _ Nl Nk Hk). }
  subst k. clear Hl Hk Nl Nk. destruct H as [[e [E1 [E2 [E3 E4]]]]|[-> H]], K as [[e' [F1 [F2 [F3 F4]]]]|[-> K]].
  - rewrite E1 in F1. exact (last_dot _ _ _ _ E2 F2 F1).
  - destruct K as [K|K]; [contradiction|]. exfalso. apply K. rewrite E1. destruct n; [congruence|]. cbn [app tl]. apply in_or_app. right. now left.
  - destruct H as [H|H]; [contradiction|]. exfalso. apply H. rewrite F1. destruct m; [congruence|]. cbn [app tl]. apply in_or_app. right. now left.
  - reflexivity.
Qed.
Lemma stem_spec f : (exists e, f = stem f ++ lit "." ++ e /\ ~ In "."%char e /\ stem f <> [] /\ f <> lit "..")
  \/ (stem f = f /\ (f = lit ".." \/ ~ In "."%char (tl f))).
Proof.
  unfold stem. destruct (beq f "..") eqn:B; [apply beq_eq in B; auto|].
  assert (B' : f <> lit "..") by (intros ->; discriminate). pose proof (before_dot_spec f) as H.
  destruct (before_dot f) as [[|c s]|].
  - right. split; [reflexivity|]. right. destruct H as [e [-> H]]. exact H.
  - left. destruct H as [e [H1 H2]]. exists e. repeat split; auto; discriminate.
  - right. split; [reflexivity|]. right. intros Hi. apply H. destruct f; [exact Hi|]. now right.
Qed.
Lemma prefix_named dir : named dir (prefix dir).
Proof.
  destruct (filename_spec dir) as [N H]. exists (filename dir). split; [destruct H as [H|[b H]]; [now left|right; now exists b]|].
  split; [exact N|]. destruct (stem_spec (filename dir)) as [K|[K1 K2]]; [left; exact K|right; auto].
Qed.
Lemma named_no_slash dir n : named dir n -> ~ In "/"%char n.
Proof.
  intros [l [_ [H [[e [E _]]|[-> _]]]]] Hi; [|contradiction]. apply H. rewrite E. apply in_or_app. now left.
Qed.
Lemma entry_dir d1 d2 n1 n2 p : entry_of d1 p n1 -> entry_of d2 p n2 -> d1 = d2 /\ n1 = n2.
Proof.
  intros [E1 N1] [E2 N2]. rewrite E1 in E2. clear E1 p. cbn [lit list_ascii_of_string app] in E2. revert d2 E2.
  induction d1 as [|c d1 IH]; intros [|c' d2] E; cbn [app] in E.
  - injection E as E. auto.
  - injection E as <- E2. exfalso. apply N1. rewrite E2. apply in_or_app. right. now left.
  - injection E as -> E2. exfalso. apply N2. rewrite <- E2. apply in_or_app. right. now left.
  - injection E as <- E2. destruct (IH _ E2) as [-> ->]. auto.
Qed.

(** ** Specification: the document *)
Definition tag (x : xml) : bytes := let '(Node n _ _) := x in n.
Definition children (x : xml) : list xml := let '(Node _ _ ks) := x in ks.
Definition attribute (n : bytes) (x : xml) : option bytes :=
  let '(Node _ l _) := x in option_map snd (find (fun a => beq (fst a) n) l).
Definition tagged (n : bytes) (l : list xml) : list xml := filter (fun x => beq (tag x) n) l.

Section Run.
Context {V T : Type} (ltb : T -> T -> bool) (big low : T) (lower_text upper_text : T -> bytes) (can : bytes -> bool) (dir : bytes)
  (mesh : list (list (point T))) (containing : point T -> list Z) (distance : point T -> Z -> T).
Notation run := (geos_run V T ltb big low lower_text upper_text can dir mesh containing distance).
Notation wbox := (well_box T ltb big low mesh containing distance).
Notation file := (bytes * content V T)%type.

Lemma write_boxes_spec ws : forall k ns, write_boxes T ltb big low lower_text upper_text mesh containing distance k ws = Ok ns ->
  List.length ns = List.length ws /\ forall i w, nth_error ws i = Some w ->
    exists b, wbox w = Ok b /\ nth_error ns i = Some (box_node T lower_text upper_text (k + Z.of_nat i) b).
Proof.
  induction ws as [|w ws IH]; intros k ns H; cbn [write_boxes] in H; [injection H as <-; split; [reflexivity|intros [|i]; discriminate]|].
  apply bind_ok in H as [b [Hb H]]. apply bind_ok in H as [ns' [Hn H]]. injection H as <-.
  destruct (IH _ _ Hn) as [L S]. split; [cbn; now rewrite L|]. intros [|i] w' Hw; cbn [nth_error] in *.
  - injection Hw as <-. exists b. rewrite Z.add_0_r. auto.
  - destruct (S i w' Hw) as [b' [B1 B2]]. exists b'. split; [exact B1|]. rewrite B2. do 2 f_equal. lia.
Qed.
Fixpoint well_files (k : Z) (ws : list (list (point T))) : list file :=
  match ws with [] => [] | w :: r => (well_path dir k, WellFile w) :: well_files (k + 1) r end.
Lemma write_wells_spec ws : forall k fs fs', write_wells V T can dir k ws fs = Ok fs' ->
  fs' = fs ++ well_files k ws /\ Forall (fun f : file => can (fst f) = true) (well_files k ws).
Proof.
  induction ws as [|w ws IH]; intros k fs fs' H; cbn [write_wells well_files] in *; [injection H as <-; rewrite app_nil_r; auto|].
  unfold save in H. destruct (can (well_path dir k)) eqn:E; [|discriminate]. cbn [bind] in H.
  destruct (IH _ _ _ H) as [-> H2]. rewrite <- app_assoc. split; [reflexivity|]. now constructor.
Qed.
Lemma write_wells_ok ws : forall k fs, Forall (fun f : file => can (fst f) = true) (well_files k ws) ->
  write_wells V T can dir k ws fs = Ok (fs ++ well_files k ws).
Proof.
  induction ws as [|w ws IH]; intros k fs H; cbn [write_wells well_files] in *; [now rewrite app_nil_r|].
  inversion H as [|? ? H1 H2]; subst. cbn [fst] in H1. unfold save. rewrite H1. cbn [bind]. rewrite (IH _ _ H2), <- app_assoc. reflexivity.
Qed.
Lemma well_files_nth ws : forall k i w, nth_error ws i = Some w -> In (well_path dir (k + Z.of_nat i), WellFile w) (well_files k ws).
Proof.
  induction ws as [|x ws IH]; intros k [|i] w H; cbn [nth_error well_files] in *; try discriminate.
  - injection H as <-. rewrite Z.add_0_r. now left.
  - right. replace (k + Z.of_nat (S i)) with (k + 1 + Z.of_nat i) by lia. now apply IH.
Qed.
Lemma well_files_in ws : forall k f, In f (well_files k ws) -> exists i w, nth_error ws i = Some w /\ f = (well_path dir (k + Z.of_nat i), WellFile w).
Proof.
  induction ws as [|x ws IH]; intros k f H; [destruct H|]. destruct H as [<-|H].
  - exists 0%nat, x. rewrite Z.add_0_r. auto.
  - destruct (IH _ _ H) as [i [w [H1 H2]]]. exists (S i), w. split; [exact H1|]. rewrite H2. do 2 f_equal. lia.
Qed.
Lemma well_files_length k ws : List.length (well_files k ws) = List.length ws.
Proof. revert k. induction ws as [|w ws IH]; intros k; [reflexivity|]. cbn. now rewrite IH. Qed.
Lemma show_eq a b : 0 <= a -> 0 <= b -> show a = show b -> a = b.
Proof.
  intros Ha Hb E. destruct (show_spec a Ha) as [_ [_ A]]. destruct (show_spec b Hb) as [_ [_ B]].
  rewrite E in A. destruct (show b); congruence.
Qed.
Lemma well_path_inj a b : 0 <= a -> 0 <= b -> well_path dir a = well_path dir b -> a = b.
Proof.
  unfold well_path. intros Ha Hb E. do 4 apply app_inv_head in E. apply app_inv_tail in E. now apply show_eq.
Qed.
Lemma well_files_nodup ws : forall k, 0 <= k -> NoDup (map fst (well_files k ws)).
Proof.
  induction ws as [|w ws IH]; intros k Hk; cbn [well_files map fst]; constructor; [|apply IH; lia].
  intros H. apply in_map_iff in H as [f [H1 H2]]. apply well_files_in in H2 as [i [w' [_ ->]]]. cbn [fst] in H1.
  apply well_path_inj in H1; lia.
Qed.
Lemma last_app {A} (l : list A) a d : last (l ++ [a]) d = a.
Proof. induction l as [|x l IH]; [reflexivity|]. cbn [app]. destruct (l ++ [a]) eqn:E; [now destruct l|]. cbn [last]. exact IH. Qed.
Lemma well_path_last k : last (well_path dir k) SP = "p"%char.
Proof. unfold well_path. change (lit ".vtp") with (lit ".vt" ++ ["p"%char]). rewrite !app_assoc. apply last_app. Qed.
Lemma solid_path_last : last (dir ++ lit "/" ++ solid_name dir) SP = "u"%char.
Proof. unfold solid_name. change (lit ".vtu") with (lit ".vt" ++ ["u"%char]). rewrite !app_assoc. apply last_app. Qed.
Lemma xml_path_last : last (xml_path dir) SP = "l"%char.
Proof. unfold xml_path. change (lit "_simulation.xml") with (lit "_simulation.xm" ++ ["l"%char]). rewrite !app_assoc. apply last_app. Qed.
Lemma NoDup_app_one {A} (l : list A) a : NoDup l -> ~ In a l -> NoDup (l ++ [a]).
Proof.
  induction 1 as [|x l H1 H2 IH]; intros N; [constructor; [exact N|constructor]|]. cbn [app]. constructor.
  - intros Hi. apply in_app_or in Hi as [Hi|[<-|[]]]; [contradiction|apply N; now left].
  - apply IH. intros Hi. apply N. now right.
Qed.

(** What a successful run is made of *)
Lemma run_ok region_map blocks cells zero requests known wells fs :
  run region_map blocks cells zero requests known wells = Ok fs ->
  exists regions attributes ns,
    solid_regions region_map cells = Ok regions /\
    transfer_cell_properties blocks cells zero (add_properties blocks requests) = Ok attributes /\
    known = true /\ can (dir ++ lit "/" ++ solid_name dir) = true /\
    write_boxes T ltb big low lower_text upper_text mesh containing distance 0 wells = Ok ns /\
    Forall (fun f : file => can (fst f) = true) (well_files 0 wells) /\
    fs = (dir ++ lit "/" ++ solid_name dir, SolidFile regions attributes) :: well_files 0 wells ++
         (if can (xml_path dir) then
            [(xml_path dir, XmlFile (Node (lit "Problem") []
               (Node (lit "Mesh") [] [vtk_node dir (add_properties blocks requests)] ::
                match wells with [] => [] | _ => [Node (lit "Geometry") [] ns] end)))]
          else []).
Proof.
  intros H. unfold geos_run in H. apply bind_ok in H as [regions [H1 H]]. cbv zeta in H. apply bind_ok in H as [attributes [H2 H]].
  unfold write_files, write_solid_file in H. destruct known; [|discriminate]. unfold save in H.
  destruct (can (dir ++ lit "/" ++ solid_name dir)) eqn:C; [|discriminate]. cbn [bind app] in H.
  apply bind_ok in H as [[g fs2] [H3 H]]. cbv zeta in H. exists regions, attributes.
  destruct wells as [|w ws].
  - injection H3 as <- <-. exists []. repeat (split; [first [assumption|reflexivity|constructor]|]).
    destruct (can (xml_path dir)); injection H as <-; reflexivity.
  - apply bind_ok in H3 as [ns [H3 H4]]. apply bind_ok in H4 as [fs3 [H4 H5]]. injection H5 as <- <-.
    apply write_wells_spec in H4 as [-> H4]. exists ns. repeat (split; [first [assumption|reflexivity]|]).
    destruct (can (xml_path dir)); injection H as <-; [reflexivity|now rewrite app_nil_r].
Qed.
Lemma run_run region_map blocks cells zero requests wells regions attributes ns :
  solid_regions region_map cells = Ok regions ->
  transfer_cell_properties blocks cells zero (add_properties blocks requests) = Ok attributes ->
  can (dir ++ lit "/" ++ solid_name dir) = true ->
  write_boxes T ltb big low lower_text upper_text mesh containing distance 0 wells = Ok ns ->
  Forall (fun f : file => can (fst f) = true) (well_files 0 wells) ->
  exists fs, run region_map blocks cells zero requests true wells = Ok fs.
Proof.
  intros H1 H2 H3 H4 H5. unfold geos_run. rewrite H1. cbn [bind]. cbv zeta. rewrite H2. cbn [bind].
  unfold write_files, write_solid_file, save. rewrite H3. cbn [bind]. destruct wells as [|w ws]; cbn [bind]; [eauto|].
  rewrite H4. cbn [bind]. rewrite write_wells_ok by exact H5. cbn [bind]. eauto.
Qed.
Lemma write_boxes_ok ws : forall k, (forall w, In w ws -> exists b, wbox w = Ok b) ->
  exists ns, write_boxes T ltb big low lower_text upper_text mesh containing distance k ws = Ok ns.
Proof.
  induction ws as [|w ws IH]; intros k H; cbn [write_boxes]; [eauto|].
  destruct (H w (or_introl eq_refl)) as [b ->]. cbn [bind]. destruct (IH (k + 1)) as [ns ->]; [intros x Hx; apply H; now right|].
  cbn [bind]. eauto.
Qed.
End Run.

(** ** C111 *)
Theorem C111_files : forall V T ltb (big low : T) lower_text upper_text can dir mesh containing distance
    region_map (blocks : list (block V)) cells zero requests known wells fs,
  geos_run V T ltb big low lower_text upper_text can dir mesh containing distance region_map blocks cells zero requests known wells = Ok fs ->
  can (xml_path dir) = true ->
  exists name doc vtk solid regions attributes,
    (* the names of the files come from the name of the directory; all of them are in it, no two alike *)
    named dir name /\ NoDup (map fst fs) /\ (forall p c, In (p, c) fs -> exists n, entry_of dir p n) /\
    List.length fs = (2 + List.length wells)%nat /\
    (* one document, whose mesh is the file of the solid *)
    In (dir ++ lit "/" ++ name ++ lit "_simulation.xml", XmlFile doc) fs /\ tag doc = lit "Problem" /\
    (exists m, tagged "Mesh" (children doc) = [m] /\ tagged "VTKMesh" (children m) = [vtk]) /\
    attribute "file" vtk = Some (lit "./" ++ solid) /\ ~ In "/"%char solid /\
    In (dir ++ lit "/" ++ solid, SolidFile regions attributes) fs /\
    solid_regions region_map cells = Ok regions /\
    (* the fields of the document are on the solid, with the values of the blocks *)
    attribute "fieldsToImport" vtk
      = Some (lit "{" ++ commas (accepted blocks 1 requests ++ accepted blocks 2 requests ++ accepted blocks 3 requests) ++ lit "}") /\
    (forall k n, In k [1; 2; 3] -> In n (accepted blocks k requests) -> carries blocks cells attributes k n) /\
    (* one box and one file per well *)
    (wells = [] -> tagged "Geometry" (children doc) = []) /\
    (wells <> [] -> exists g, tagged "Geometry" (children doc) = [g] /\ List.length (children g) = List.length wells /\
       forall i w, nth_error wells i = Some w ->
         exists node b, nth_error (children g) i = Some node /\ tag node = lit "Box" /\
           attribute "name" node = Some (lit "well_" ++ show (Z.of_nat i)) /\
           well_box T ltb big low mesh containing distance w = Ok b /\
           attribute "xMin" node = Some (triple_text T lower_text (x_min T b)) /\
           attribute "xMax" node = Some (triple_text T upper_text (x_max T b)) /\
           In (dir ++ lit "/" ++ name ++ lit "_well" ++ show (Z.of_nat i) ++ lit ".vtp", WellFile w) fs).
Proof.
  intros V T ltb big low lower_text upper_text can dir mesh containing distance region_map blocks cells zero requests known wells fs H Hx.
  apply run_ok in H as [regions [attributes [ns [H1 [H2 [_ [H3 [H4 [H5 ->]]]]]]]]]. rewrite Hx.
  set (doc := Node (lit "Problem") [] _). exists (prefix dir), doc, (vtk_node dir (add_properties blocks requests)), (solid_name dir), regions, attributes.
  pose proof (prefix_named dir) as Np. pose proof (named_no_slash _ _ Np) as Ns.
  assert (Nv : forall s, ~ In "/"%char s -> ~ In "/"%char (prefix dir ++ s)) by (intros s Hs Hi; apply in_app_or in Hi as [Hi|Hi]; auto).
  assert (Nl : forall s, existsb is_slash s = false -> ~ In "/"%char s) by (intros s E; rewrite <- is_slash_in, E; discriminate).
  split; [exact Np|]. repeat match goal with |- _ /\ _ => split end.
  - cbn [map fst]. rewrite map_app. cbn [map fst]. constructor.
    + intros Hi. apply in_app_or in Hi as [Hi|[Hi|[]]].
      * apply in_map_iff in Hi as [f [E Hi]]. apply well_files_in in Hi as [i [w [_ ->]]]. cbn [fst] in E.
        apply (f_equal (fun l => last l SP)) in E. now rewrite well_path_last, solid_path_last in E.
      * apply (f_equal (fun l => last l SP)) in Hi. now rewrite xml_path_last, solid_path_last in Hi.
    + apply NoDup_app_one; [apply well_files_nodup; lia|].
      intros Hi. apply in_map_iff in Hi as [f [E Hi]]. apply well_files_in in Hi as [i [w [_ ->]]]. cbn [fst] in E.
      apply (f_equal (fun l => last l SP)) in E. now rewrite well_path_last, xml_path_last in E.
  - intros p c [E|Hi]; [injection E as <- _; exists (solid_name dir); split; [reflexivity|apply Nv; now apply Nl]|].
    apply in_app_or in Hi as [Hi|[E|[]]].
    + apply well_files_in in Hi as [i [w [_ E]]]. injection E as -> _. eexists. split; [reflexivity|]. apply Nv.
      intros Hi. apply in_app_or in Hi as [Hi|Hi]; [revert Hi; now apply Nl|]. apply in_app_or in Hi as [Hi|Hi]; [|revert Hi; now apply Nl].
      revert Hi. apply show_no_char; [lia|reflexivity].
    + injection E as <- _. eexists. split; [reflexivity|]. apply Nv. now apply Nl.
  - cbn [List.length]. rewrite app_length, well_files_length. cbn [List.length]. lia.
  - right. apply in_or_app. right. now left.
  - reflexivity.
  - exists (Node (lit "Mesh") [] [vtk_node dir (add_properties blocks requests)]). split; [|reflexivity]. subst doc. cbn [children]. now destruct wells.
  - reflexivity.
  - apply Nv. now apply Nl.
  - now left.
  - exact H1.
  - cbn [attribute vtk_node]. rewrite <- C51_fields. reflexivity.
  - intros k n. apply (C85_values V blocks cells zero requests attributes H2).
  - intros ->. reflexivity.
  - intros Nw. exists (Node (lit "Geometry") [] ns). split; [subst doc; cbn [children]; destruct wells; [congruence|reflexivity]|].
    destruct (write_boxes_spec _ _ _ _ _ _ _ _ _ _ _ H4) as [L S]. split; [exact L|]. intros i w Hw.
    destruct (S i w Hw) as [b [B1 B2]]. rewrite Z.add_0_l in B2. eexists _, b. split; [exact B2|].
    repeat (split; [first [reflexivity|exact B1]|]). right. apply in_or_app. left. now apply (well_files_nth dir wells 0 i w).
Qed.
Print Assumptions C111_files.

(** Exporting into another directory never touches the files of the first one. *)
Theorem C111_other_directory : forall V T ltb (big low : T) lower_text upper_text can dir dir' mesh containing distance mesh' containing' distance'
    region_map (blocks : list (block V)) cells zero requests known wells fs region_map' (blocks' : list (block V)) cells' requests' known' wells' fs',
  geos_run V T ltb big low lower_text upper_text can dir mesh containing distance region_map blocks cells zero requests known wells = Ok fs ->
  geos_run V T ltb big low lower_text upper_text can dir' mesh' containing' distance' region_map' blocks' cells' zero requests' known' wells' = Ok fs' ->
  can (xml_path dir) = true -> can (xml_path dir') = true ->
  dir <> dir' -> forall p c c', In (p, c) fs -> In (p, c') fs' -> False.
Proof.
  intros until fs'. intros H H' X X' N p c c' Hi Hi'.
  apply C111_files in H as [n [d [v [s [r [a [_ [_ [E _]]]]]]]]]; [|exact X].
  apply C111_files in H' as [n' [d' [v' [s' [r' [a' [_ [_ [E' _]]]]]]]]]; [|exact X'].
  destruct (E _ _ Hi) as [x Ex]. destruct (E' _ _ Hi') as [y Ey]. destruct (entry_dir _ _ _ _ _ Ex Ey). contradiction.
Qed.
Print Assumptions C111_other_directory.

(** The export of a solid of a known kind ends normally when the properties can be transferred, every well has its box
    and the mesh files can be written; when one of them cannot be written it throws. *)
Theorem C111_completes : forall V T ltb (big low : T) lower_text upper_text can dir mesh containing distance
    region_map (blocks : list (block V)) cells zero requests wells regions attributes name,
  named dir name ->
  solid_regions region_map cells = Ok regions ->
  transfer_cell_properties blocks cells zero (add_properties blocks requests) = Ok attributes ->
  (forall w, In w wells -> exists b, well_box T ltb big low mesh containing distance w = Ok b) ->
  let run := geos_run V T ltb big low lower_text upper_text can dir mesh containing distance region_map blocks cells zero requests true wells in
  let written := can (dir ++ lit "/" ++ name ++ lit ".vtu") = true /\
    forall i, (i < List.length wells)%nat -> can (dir ++ lit "/" ++ name ++ lit "_well" ++ show (Z.of_nat i) ++ lit ".vtp") = true in
  (written -> exists fs, run = Ok fs) /\ (~ written -> run = Throw ExData).
Proof.
  intros V T ltb big low lower_text upper_text can dir mesh containing distance region_map blocks cells zero requests wells regions attributes name
    Hn H1 H2 H3. cbv zeta. rewrite (named_unique _ _ _ Hn (prefix_named dir)) in *. clear name Hn.
  destruct (write_boxes_ok ltb big low lower_text upper_text mesh containing distance wells 0 H3) as [ns H4].
  assert (W : (forall i, (i < List.length wells)%nat -> can (dir ++ lit "/" ++ prefix dir ++ lit "_well" ++ show (Z.of_nat i) ++ lit ".vtp") = true)
    <-> Forall (fun f : bytes * content V T => can (fst f) = true) (well_files dir 0 wells)).
  { split.
    - intros H. apply Forall_forall. intros f Hf. apply well_files_in in Hf as [i [w [Hw ->]]]. apply (H i). apply nth_error_Some. congruence.
    - intros H i Hi. rewrite Forall_forall in H. destruct (nth_error wells i) as [w|] eqn:E; [|apply nth_error_None in E; lia].
      exact (H _ (well_files_nth (V := V) dir wells 0 i w E)). }
  split.
  - intros [C1 C2]. rewrite W in C2. eapply run_run; eassumption.
  - intros N. unfold geos_run. rewrite H1. cbn [bind]. cbv zeta. rewrite H2. cbn [bind]. unfold write_files, write_solid_file, save.
    destruct (can (dir ++ lit "/" ++ solid_name dir)) eqn:C; [|reflexivity]. cbn [bind].
    destruct wells as [|w ws]; [exfalso; apply N; split; [exact C|intros i Hi; cbn in Hi; lia]|]. rewrite H4. cbn [bind].
    assert (E : forall l k fs, ~ Forall (fun f : bytes * content V T => can (fst f) = true) (well_files dir k l) ->
      write_wells V T can dir k l fs = Throw ExData).
    { induction l as [|x l IH]; intros k fs Hf; cbn [write_wells well_files] in *; [exfalso; apply Hf; constructor|].
      unfold save. destruct (can (well_path dir k)) eqn:Ck; [|reflexivity]. cbn [bind]. apply IH. intros Hl. apply Hf. now constructor. }
    rewrite E; [reflexivity|]. intros Hf. apply N. split; [exact C|]. now apply W.
Qed.
Print Assumptions C111_completes.

(** ** A model with two blocks and two wells *)
Definition ex_dir : bytes := lit "/tmp/field.2/case_1".
Definition ex_wells : list (list (point Z)) := [[(1, 1, 2)]; [(1, 1, 2); (3, 0, 0)]].
Definition ex_run (can : bytes -> bool) (dir : bytes) :=
  geos_run (list Z) Z Z.ltb 1000 (-1000) (fun x => show (x + 1000)) (fun x => show (x + 1000)) can dir ex_mesh ex_containing ex_distance
    (brep_regions 0 [4; 5] []) ex_blocks ex_cells [] [Add1 (lit "poro")] true ex_wells.
Definition ex_paths (r : res (list (bytes * content (list Z) Z))) : list bytes := match r with Ok fs => map fst fs | _ => [] end.
Example C111_case : (exists fs, ex_run (fun _ => true) ex_dir = Ok fs) /\
  ex_paths (ex_run (fun _ => true) ex_dir)
  = [lit "/tmp/field.2/case_1/case_1.vtu"; lit "/tmp/field.2/case_1/case_1_well0.vtp"; lit "/tmp/field.2/case_1/case_1_well1.vtp";
     lit "/tmp/field.2/case_1/case_1_simulation.xml"].
Proof. split; [|vm_compute; reflexivity]. destruct (ex_run (fun _ => true) ex_dir) eqn:E; [eauto|exfalso..]; vm_compute in E; discriminate. Qed.
(** A directory whose name ends with a version number gives its files the name without it; one given with a slash at the
    end gives its files an empty name. *)
Example C111_extension : ex_paths (ex_run (fun _ => true) (lit "case_1.5"))
  = [lit "case_1.5/case_1.vtu"; lit "case_1.5/case_1_well0.vtp"; lit "case_1.5/case_1_well1.vtp"; lit "case_1.5/case_1_simulation.xml"].
Proof. vm_compute. reflexivity. Qed.
Theorem C111_trailing_slash_refuted : forall dir, named (dir ++ lit "/") [].
Proof. intros dir. exists []. split; [right; now exists dir|]. split; [intros []|]. right. split; [reflexivity|]. right. intros []. Qed.
Print Assumptions C111_trailing_slash_refuted.
(** When the document cannot be written the export ends normally all the same, without it. *)
Theorem C111_document_refuted : exists can fs, ex_run can ex_dir = Ok fs /\ can (ex_dir ++ lit "/case_1_simulation.xml") = false /\
  forall p doc, ~ In (p, XmlFile doc) fs.
Proof.
  exists (fun p => negb (beq p (ex_dir ++ lit "/case_1_simulation.xml"))).
  destruct (ex_run (fun p => negb (beq p (ex_dir ++ lit "/case_1_simulation.xml"))) ex_dir) as [fs| | |] eqn:E;
    [|exfalso; vm_compute in E; discriminate..]. exists fs. split; [reflexivity|]. split; [reflexivity|].
  assert (K : match ex_run (fun p => negb (beq p (ex_dir ++ lit "/case_1_simulation.xml"))) ex_dir with
    | Ok fs => forallb (fun f => match snd f with XmlFile _ => false | _ => true end) fs | _ => false end = true) by (vm_compute; reflexivity).
  rewrite E in K. intros p doc Hi. rewrite forallb_forall in K. now apply K in Hi.
Qed.
Print Assumptions C111_document_refuted.

(** ** C112: the boxes as they are read back *)
(** The text is that of three numbers between braces. *)
Definition reads (text : bytes) (x : nat -> Q) : Prop :=
  exists a b c, text = lit "{" ++ a ++ lit ", " ++ b ++ lit ", " ++ c ++ lit "}" /\
    read_decimal a = Some (x 0%nat) /\ read_decimal b = Some (x 1%nat) /\ read_decimal c = Some (x 2%nat).
(** The bound minus or plus 100 GLOBAL_EPSILON (geos 232-245), rounded to a double, then printed with six digits. *)
Definition offset : Q := 1 # 10000.
Definition minus_text {T} (rd : Q -> Q) (val : T -> Q) (x : T) : bytes := general6 (rd (val x - offset)%Q).
Definition plus_text {T} (rd : Q -> Q) (val : T -> Q) (x : T) : bytes := general6 (rd (val x + offset)%Q).

Section Texts.
Local Open Scope Q_scope.
Lemma printed rd q : nearest_double rd -> exists x, read_decimal (general6 (rd q)) = Some x /\ Qabs (x - q) <= (5 # 1000000) * Qabs q.
Proof.
  intros R. destruct (C55_six_digits (rd q)) as [x [H1 [H2 _]]]. exists x. split; [exact H1|]. specialize (R q).
  pose proof (Qabs_triangle (x - rd q) (rd q - q)) as T. setoid_replace (x - rd q + (rd q - q)) with (x - q) in T by ring.
  pose proof (Qabs_triangle (rd q - q) q) as U. setoid_replace (rd q - q + q) with (rd q) in U by ring.
  set (a := Qabs (x - q)) in *. set (b := Qabs (x - rd q)) in *. set (c := Qabs (rd q - q)) in *. set (d := Qabs (rd q)) in *.
  pose proof (Qabs_nonneg q) as P. set (e := Qabs q) in *. lra.
Qed.
Definition pick (a b c : Q) (i : nat) : Q := match i with O => a | S O => b | _ => c end.
Lemma triple_reads {T} (f : T -> bytes) (p : point T) (P : T -> Q -> Prop) :
  (forall x, exists q, read_decimal (f x) = Some q /\ P x q) ->
  exists x, reads (triple_text T f p) x /\ forall i, P (coord i p) (x i).
Proof.
  intros H. destruct p as [[a b] c]. destruct (H a) as [x [X1 X2]]. destruct (H b) as [y [Y1 Y2]]. destruct (H c) as [z [Z1 Z2]].
  exists (pick x y z). split; [exists (f a), (f b), (f c); repeat split; assumption|]. intros [|[|i]]; assumption.
Qed.
Lemma below M v q : Qabs v <= M -> Qabs (q - (v - offset)) <= (5 # 1000000) * Qabs (v - offset) ->
  q <= v + (5 # 1000000) * M /\ (M <= 19 -> q <= v).
Proof.
  intros H1 H2. apply Qabs_Qle_condition in H1 as [A1 A2]. apply Qabs_Qle_condition in H2 as [_ B2].
  assert (C : Qabs (v - offset) <= M + offset) by (apply Qabs_Qle_condition; unfold offset; split; lra).
  unfold offset in *. split; intros; lra.
Qed.
Lemma above M v q : Qabs v <= M -> Qabs (q - (v + offset)) <= (5 # 1000000) * Qabs (v + offset) ->
  v - (5 # 1000000) * M <= q /\ (M <= 19 -> v <= q).
Proof.
  intros H1 H2. apply Qabs_Qle_condition in H1 as [A1 A2]. apply Qabs_Qle_condition in H2 as [B1 _].
  assert (C : Qabs (v + offset) <= M + offset) by (apply Qabs_Qle_condition; unfold offset; split; lra).
  unfold offset in *. split; intros; lra.
Qed.
End Texts.

(** The numbers in the box of each well bound its perforations located in a cell to within five millionths of the largest
    coordinate of the cells around the well, and exactly when the coordinates are at most 19. *)
Theorem C112_boxes : forall V T ltb (big low : T) (val : T -> Q) (rd : Q -> Q) can dir mesh containing distance
    region_map (blocks : list (block V)) cells zero requests known wells fs M,
  total_order ltb -> (forall a b, ltb a b = true <-> (val a < val b)%Q) -> nearest_double rd ->
  (forall p c, In c (containing p) -> exists vs, nthz mesh c = Some vs /\ in_bounds ltb p vs) ->
  (forall p c, In c (containing p) -> le ltb (distance p c) big) ->
  (forall w v i, In w wells -> vertex_of_cells mesh containing w v -> (Qabs (val (coord i v)) <= M)%Q) ->
  (val low < - M)%Q -> (M < val big)%Q ->
  geos_run V T ltb big low (minus_text rd val) (plus_text rd val) can dir mesh containing distance
    region_map blocks cells zero requests known wells = Ok fs ->
  forall path doc, In (path, XmlFile doc) fs -> forall k w, nth_error wells k = Some w ->
  exists g node tmin tmax lo hi,
    In g (children doc) /\ tag g = lit "Geometry" /\ nth_error (children g) k = Some node /\
    attribute "xMin" node = Some tmin /\ attribute "xMax" node = Some tmax /\ reads tmin lo /\ reads tmax hi /\
    forall p i, In p w -> containing p <> [] -> (i < 3)%nat ->
      (lo i - (5 # 1000000) * M <= val (coord i p) <= hi i + (5 # 1000000) * M)%Q /\
      ((M <= 19)%Q -> (lo i <= val (coord i p) <= hi i)%Q).
Proof.
  intros V T ltb big low val rd can dir mesh containing distance region_map blocks cells zero requests known wells fs M
    Ho Hv Hr Hc Hd HM Hl Hb Hrun path doc Hdoc k w Hw.
  assert (X : can (xml_path dir) = true).
  { apply run_ok in Hrun as [rg [at' [ns [_ [_ [_ [_ [_ [_ E]]]]]]]]]. rewrite E in Hdoc. destruct Hdoc as [Hd0|Hd0]; [discriminate|].
    apply in_app_or in Hd0 as [Hd0|Hd0]; [apply well_files_in in Hd0 as [i [w' [_ Hd0]]]; discriminate|].
    destruct (can (xml_path dir)); [reflexivity|destruct Hd0]. }
  pose proof Hrun as Hrun'. apply run_ok in Hrun' as [rg [at' [ns [_ [_ [_ [_ [Hns [_ E]]]]]]]]]. rewrite X in E.
  assert (D : exists m, children doc = [m; Node (lit "Geometry") [] ns]).
  { rewrite E in Hdoc. destruct Hdoc as [Hd0|Hd0]; [discriminate|]. apply in_app_or in Hd0 as [Hd0|[Hd0|[]]].
    - apply well_files_in in Hd0 as [i [w' [_ Hd0]]]. discriminate.
    - injection Hd0 as _ Hd0. subst doc. cbn [children]. destruct wells; [now destruct k|]. eauto. }
  destruct D as [m D]. destruct (write_boxes_spec _ _ _ _ _ _ _ _ _ _ _ Hns) as [_ Sb]. destruct (Sb k w Hw) as [b [B1 B2]].
  assert (Rl : forall x, exists q, read_decimal (minus_text rd val x) = Some q /\ (Qabs (q - (val x - offset)) <= (5 # 1000000) * Qabs (val x - offset))%Q)
    by (intros x; now apply printed).
  assert (Rh : forall x, exists q, read_decimal (plus_text rd val x) = Some q /\ (Qabs (q - (val x + offset)) <= (5 # 1000000) * Qabs (val x + offset))%Q)
    by (intros x; now apply printed).
  destruct (triple_reads (minus_text rd val) (x_min T b) _ Rl) as [lo [L1 L2]].
  destruct (triple_reads (plus_text rd val) (x_max T b) _ Rh) as [hi [H1 H2]].
  exists (Node (lit "Geometry") [] ns), (box_node T (minus_text rd val) (plus_text rd val) (0 + Z.of_nat k) b),
    (triple_text T (minus_text rd val) (x_min T b)), (triple_text T (plus_text rd val) (x_max T b)), lo, hi.
  split; [rewrite D; right; now left|]. split; [reflexivity|]. split; [exact B2|]. split; [reflexivity|]. split; [reflexivity|].
  split; [exact L1|]. split; [exact H1|]. intros p i Hp Np _.
  destruct (C86_well_box T ltb big low mesh containing distance w Ho Hc Hd) as [b' [B1' [B3 [B4 _]]]].
  assert (b' = b) by congruence. subst b'. clear B1'. destruct (B3 p Hp Np) as [Hin [c [vs [C1 [C2 [_ C4]]]]]].
  assert (Lv : forall x y, le ltb x y -> (val x <= val y)%Q).
  { intros x y Hxy. apply Qnot_lt_le. intros Hlt. apply Hv in Hlt. unfold le in Hxy. congruence. }
  destruct Hin as [I1 I2]. rewrite le3_coord in I1, I2. specialize (I1 i). specialize (I2 i). apply Lv in I1, I2.
  destruct (Hc p c C1) as [vs' [Ev Hbnd]]. assert (vs' = vs) by congruence. subst vs'.
  destruct (Hbnd i) as [v [_ [Hvi _]]]. destruct (C4 v Hvi) as [J1 J2]. rewrite le3_coord in J1, J2. specialize (J1 i). specialize (J2 i). apply Lv in J1, J2.
  apply nth_error_In in Hw. assert (Vv : vertex_of_cells mesh containing w v) by (exists p, c, vs; auto).
  pose proof (HM w v i Hw Vv) as Mv. apply Qabs_Qle_condition in Mv as [Mv1 Mv2].
  destruct (B4 i) as [Bl Bh].
  assert (Ml : (Qabs (val (coord i (x_min T b))) <= M)%Q).
  { destruct Bl as [Bl|[u [Hu Bl]]]; [rewrite Bl in J1; lra|]. rewrite Bl. eapply HM; eassumption. }
  assert (Mh : (Qabs (val (coord i (x_max T b))) <= M)%Q).
  { destruct Bh as [Bh|[u [Hu Bh]]]; [rewrite Bh in J2; lra|]. rewrite Bh. eapply HM; eassumption. }
  destruct (below M _ _ Ml (L2 i)) as [K1 K2]. destruct (above M _ _ Mh (H2 i)) as [K3 K4].
  split; [lra|]. intros M19. specialize (K2 M19). specialize (K4 M19). lra.
Qed.
Print Assumptions C112_boxes.
(** The cells and wells above, with coordinates in metres. *)
Example C112_case : nearest_double (fun q => q) /\ (forall a b, Z.ltb a b = true <-> (inject_Z a < inject_Z b)%Q) /\
  (forall w v i, In w ex_wells -> vertex_of_cells ex_mesh ex_containing w v -> (Qabs (inject_Z (coord i v)) <= 4)%Q) /\
  (inject_Z (-1000) < - (4))%Q /\ (4 < inject_Z 1000)%Q.
Proof.
  split; [intros x; setoid_replace (x - x)%Q with 0%Q by ring; apply Qmult_le_0_compat; [discriminate|apply Qabs_nonneg]|].
  split; [intros a b; rewrite Z.ltb_lt, <- Zlt_Qlt; reflexivity|]. split; [|split; reflexivity].
  intros w v i _ [p [c [vs [_ [_ [Hn Hi]]]]]].
  assert (K : 0 <= coord i v <= 4).
  { unfold nthz, ex_mesh in Hn. destruct (_ && _); [|discriminate]. destruct (Z.to_nat c) as [|[|n]]; cbn [nth_error] in Hn;
      [injection Hn as <-|injection Hn as <-|destruct n; discriminate];
      destruct Hi as [<-|[<-|[]]]; destruct i as [|[|i]]; cbn [coord]; lia. }
  apply Qabs_Qle_condition. split; [|change 4%Q with (inject_Z 4); rewrite <- Zle_Qle; lia].
  change (- (4))%Q with (inject_Z (-4)). rewrite <- Zle_Qle. lia.
Qed.
(** With usual map coordinates the box does not contain the perforation: coordinates in decimetres, one cell from 451230.2 m
    to 451234.4 m, a perforation at 451234.3 m; the upper bound written is 451234. *)
Definition far_mesh : list (list (point Z)) := [[(4512302, 0, 0); (4512344, 20, 20)]].
Definition far_containing (p : point Z) : list Z := if ex_in p [(4512302, 0, 0); (4512344, 20, 20)] then [0] else [].
Definition tenth (z : Z) : Q := Qmake z 10.
Theorem C112_refuted : exists p b t hi, far_containing p <> [] /\
  well_box Z Z.ltb 100000000 (-100000000) far_mesh far_containing (fun _ _ => 0) [p] = Ok b /\ inside Z.ltb p b /\
  triple_text Z (plus_text (fun q => q) tenth) (x_max Z b) = t /\ reads t hi /\ (hi 0%nat < tenth (coord 0 p))%Q.
Proof.
  exists (4512343, 1, 1), (mkBox Z (4512302, 0, 0) (4512344, 20, 20)), (lit "{451234, 2.0001, 2.0001}"), (pick 451234 (20001 # 10000) (20001 # 10000)).
  split; [vm_compute; discriminate|]. split; [vm_compute; reflexivity|]. split; [vm_compute; repeat split|].
  split; [vm_compute; reflexivity|]. split; [|reflexivity].
  exists (lit "451234"), (lit "2.0001"), (lit "2.0001"). split; [reflexivity|]. repeat split; vm_compute; reflexivity.
Qed.
Print Assumptions C112_refuted.
