(** * Other sections in a GRDECL file, and the order of the sections (C153). *)
From Coq Require Import ZArith List Lia Bool Ascii String.
From Verif Require Import Base Text TextFacts GocadModel MeshModel TsModel WellModel GrdeclModel Spec GocadFacts
  PropsGrdecl PropsGrdeclGrid PropsGrdeclParts ExNum ExCheck.
Import ListNotations.
Local Open Scope string_scope.
Local Open Scope list_scope.
Local Open Scope Z_scope.

(** ** Specification *)
(** Lines of other sections, comments, blank lines: none begins with one of the four keywords of the reader. *)
Definition others (ls : list bytes) : Prop :=
  before "SPECGRID" ls /\ before "COORD" ls /\ before "ZCORN" ls /\ before "INCLUDE" ls.
(** The lines of the three sections of a grid, from their keyword to their end.  No number begins with a keyword. *)
Record sections (F : Num) (nx ny nz : Z) (ps : list (pillar F)) (ds : list (num F)) (size coord zcorn : list bytes) : Prop := Sections {
  sec_size : size_section nx ny nz size [];
  sec_coord : pillar_section F ps coord [];
  sec_zcorn : zcorn_block F ds zcorn [];
  sec_keywords : before "SPECGRID" (coord ++ zcorn) /\ before "COORD" (size ++ zcorn) /\ before "ZCORN" coord /\ before "INCLUDE" (coord ++ zcorn);
  sec_cells : 1 <= nx /\ 1 <= ny /\ 1 <= nz /\ 8 * nx * ny * nz < two32;
  sec_numbers : Z.of_nat (List.length ps) = (nx + 1) * (ny + 1) /\ Z.of_nat (List.length ds) = 8 * nx * ny * nz }.

(** ** Facts *)
Lemma before_app kw a b : before kw (a ++ b) <-> before kw a /\ before kw b.
Proof. apply Forall_app. Qed.
Lemma size_around nx ny nz s o r : size_section nx ny nz s [] -> before "SPECGRID" o -> size_section nx ny nz (o ++ s ++ r) r.
Proof.
  intros (pre & l0 & mid & mid' & dim & a & b & c & ws & -> & B & H) Bo. exists (o ++ pre), l0, mid, mid', dim, a, b, c, ws.
  split; [now rewrite app_nil_r, <- !app_assoc|]. split; [now apply before_app|exact H].
Qed.
Lemma block_around kw P s o r : block kw P s [] -> before kw o -> block kw P (o ++ s ++ r) r.
Proof.
  intros (pre & kl & dl & sl & -> & B & H) Bo. exists (o ++ pre), kl, dl, sl. split; [rewrite <- !app_assoc; cbn [app]; now rewrite <- !app_assoc|].
  split; [now apply before_app|exact H].
Qed.
Lemma nothing_included b ls : before "INCLUDE" ls -> included b ls [] ls.
Proof. apply I_none. Qed.
Lemma nothing_announced key : unannounced [] key.
Proof. intros n f []. Qed.

Section Grid.
Context (F : Num) (A : Arith F) (coloc : list (point F) -> list Z * list (point F)).
Lemma sections_in files text nx ny nz ps ds s c z o1 o2 o3 o4 : sections F nx ny nz ps ds s c z -> others o1 -> others o2 -> others o3 -> others o4 ->
  pending (open_text text) = o1 ++ s ++ o2 ++ c ++ o3 ++ z ++ o4 -> grid_in F files text nx ny nz ps ds.
Proof.
  intros [Ss Sc Sz (_ & _ & _ & Ki) _ _] O1 O2 O3 O4 E. apply before_app in Ki as [Kc Kz]. unfold others in *.
  exists (o2 ++ c ++ o3 ++ z ++ o4), [], (o2 ++ c ++ o3 ++ z ++ o4), (o3 ++ z ++ o4), o4. rewrite E.
  split; [now apply size_around|]. split; [apply nothing_included; rewrite !before_app; tauto|].
  split; right; (split; [apply nothing_announced|]); now apply block_around.
Qed.
End Grid.

(** C153.  What stands between the sections changes nothing: the grid is the one of the three sections. *)
Theorem C153_other_sections (F : Num) (A : Arith F) coloc files text files' text' nx ny nz ps ds s c z o1 o2 o3 o4 p1 p2 p3 p4 :
  (forall pts, List.length (fst (coloc pts)) = List.length pts) ->
  sections F nx ny nz ps ds s c z -> Forall others [o1; o2; o3; o4; p1; p2; p3; p4] ->
  pending (open_text text) = o1 ++ s ++ o2 ++ c ++ o3 ++ z ++ o4 ->
  pending (open_text text') = p1 ++ s ++ p2 ++ c ++ p3 ++ z ++ p4 ->
  read_grdecl F A coloc files' text' = read_grdecl F A coloc files text /\
  exists pts hexas, read_grdecl F A coloc files text = Ok (snd (coloc pts), hexas) /\ cells_of F A nx ny nz ps ds coloc pts hexas.
Proof.
  intros Hc Hs Ho E E'. rewrite !Forall_cons_iff in Ho. destruct Ho as (O1 & O2 & O3 & O4 & P1 & P2 & P3 & P4 & _).
  pose proof (sec_cells _ _ _ _ _ _ _ _ _ Hs) as (Hx & Hy & Hz & Hb). pose proof (sec_numbers _ _ _ _ _ _ _ _ _ Hs) as [Lp Ld].
  assert (G : grid_in F files text nx ny nz ps ds) by (eapply sections_in; [exact Hs|exact O1|exact O2|exact O3|exact O4|exact E]).
  assert (G' : grid_in F files' text' nx ny nz ps ds) by (eapply sections_in; [exact Hs|exact P1|exact P2|exact P3|exact P4|exact E']).
  split; [apply (C148_place_does_not_matter F A coloc files' text' files text nx ny nz ps ds); auto; lia|].
  apply (C148_loaded_as F A coloc files text nx ny nz ps ds); auto.
Qed.
Print Assumptions C153_other_sections.

(** Before the dimensions anything may stand, for every text, loaded or not. *)
Theorem C153_before_the_dimensions (F : Num) (A : Arith F) coloc files x ls : Forall is_line (x ++ ls) -> before "SPECGRID" x ->
  read_grdecl F A coloc files (unlines (x ++ ls)) = read_grdecl F A coloc files (unlines ls).
Proof.
  intros Hl Hx. unfold read_grdecl. rewrite !open_unlines; [|apply Forall_app in Hl; tauto|exact Hl].
  replace (read_dimensions (mkStream (x ++ ls) true)) with (read_dimensions (mkStream ls true)); [reflexivity|].
  unfold read_dimensions, goto_keyword, goto_if. cbn [pending nl]. f_equal.
  replace (scan (fun l => starts_with l "SPECGRID") (x ++ ls)) with (scan (fun l => starts_with l "SPECGRID") ls); [now destruct (scan _ ls) as [[]|]|].
  clear Hl. induction Hx as [|l x Hl _ IH]; [reflexivity|]. cbn [app scan]. now rewrite Hl.
Qed.
Print Assumptions C153_before_the_dimensions.

(** The sections must come in the order dimensions, pillars, depths: the other orders are refused. *)
Theorem C153_order (F : Num) (A : Arith F) coloc files text nx ny nz ps ds s c z o1 o2 o3 o4 :
  sections F nx ny nz ps ds s c z -> Forall others [o1; o2; o3; o4] ->
  In (pending (open_text text))
    [o1 ++ s ++ o2 ++ z ++ o3 ++ c ++ o4; o1 ++ c ++ o2 ++ s ++ o3 ++ z ++ o4; o1 ++ z ++ o2 ++ s ++ o3 ++ c ++ o4;
     o1 ++ c ++ o2 ++ z ++ o3 ++ s ++ o4; o1 ++ z ++ o2 ++ c ++ o3 ++ s ++ o4] ->
  read_grdecl F A coloc files text = Throw ExData.
Proof.
  intros [Ss Sc Sz (Ks & Kc & Kz & Ki) (Hx & Hy & Hz & Hb) [Lp Ld]] Ho E. rewrite !Forall_cons_iff in Ho. unfold others in Ho.
  rewrite before_app in Ks, Kc, Ki.
  assert (Two : forall pre r, before "SPECGRID" pre -> pending (open_text text) = pre ++ s ++ r -> before "INCLUDE" r -> before "COORD" r ->
    read_grdecl F A coloc files text = Throw ExData).
  { intros pre r Bp Et Bi Bc. apply (C148_section_not_found F A coloc files text nx ny nz r [] r).
    - rewrite Et. now apply size_around.
    - now apply nothing_included.
    - left. right. split; [apply nothing_announced|exact Bc]. }
  assert (Three : forall pre r1 r2, before "SPECGRID" pre -> pending (open_text text) = pre ++ s ++ r1 ++ c ++ r2 -> before "INCLUDE" (r1 ++ c ++ r2) ->
    before "COORD" r1 -> before "ZCORN" r2 -> read_grdecl F A coloc files text = Throw ExData).
  { intros pre r1 r2 Bp Et Bi Bc Bz. apply (C148_section_not_found F A coloc files text nx ny nz (r1 ++ c ++ r2) [] (r1 ++ c ++ r2)).
    - rewrite Et. now apply size_around.
    - now apply nothing_included.
    - right. do 4 (split; [assumption|]). exists ps, r2. split; [|split].
      + right. split; [apply nothing_announced|]. now apply block_around.
      + lia.
      + right. split; [apply nothing_announced|exact Bz]. }
  destruct E as [E|[E|[E|[E|[E|[]]]]]]; symmetry in E.
  - apply (Three o1 (o2 ++ z ++ o3) o4); try (rewrite !before_app; tauto); [tauto|now rewrite <- !app_assoc|tauto].
  - apply (Two (o1 ++ c ++ o2) (o3 ++ z ++ o4)); try (rewrite !before_app; tauto). now rewrite <- !app_assoc.
  - apply (Three (o1 ++ z ++ o2) o3 o4); try (rewrite !before_app; tauto); [now rewrite <- !app_assoc|tauto|tauto].
  - apply (Two (o1 ++ c ++ o2 ++ z ++ o3) o4); try (rewrite !before_app; tauto); [now rewrite <- !app_assoc|tauto|tauto].
  - apply (Two (o1 ++ z ++ o2 ++ c ++ o3) o4); try (rewrite !before_app; tauto); [now rewrite <- !app_assoc|tauto|tauto].
Qed.
Print Assumptions C153_order.

(** ** Instances *)
Definition ot_size : list bytes := map lit ["SPECGRID"; "1 1 1 1 F /"].
Definition ot_coord : list bytes := map lit ["COORD"; "0 0 0 0 0 10"; "1 0 0"; "1 0 10"; ""; "0 1 0 0 1 10"; "1 1 0 1 1 10"; "/"].
Definition ot_zcorn : list bytes := map lit ["ZCORN"; "1 2 3 4"; "5 6 7 8"; "/"].
Definition ot_other : list bytes := map lit [""; "-- active cells"; "ACTNUM"; "1*1 /"; "PORO"; "0.25 /"; "FAULTS"; "/"].
Example C153_case : let P a b := mkPillar ExNum (a, b, 0) (a, b, 10) in
  sections ExNum 1 1 1 [P 0 0; P 1 0; P 0 1; P 1 1] [1; 2; 3; 4; 5; 6; 7; 8] ot_size ot_coord ot_zcorn /\ others ot_other /\
  match read_grdecl ExNum (mkArith ExNum Z.sub Z.mul (fun a b => a) 1) no_colocation no_files (unlines (ot_other ++ ot_size ++ ot_other ++ ot_coord ++ ot_other ++ ot_zcorn ++ ot_other)) with
  | Ok (_, hexas) => leqb (leqb Z.eqb) hexas [[0; 1; 2; 3; 4; 5; 6; 7]]
  | _ => false
  end = true.
Proof.
  cbv zeta. split; [|split].
  - constructor.
    + exists [], (lit "SPECGRID"), [lit "1 1 1 1 F /"], [lit "SPECGRID"], (lit "1 1 1 1 F /"),
        (lit "1"), (lit "1"), (lit "1"), (map lit ["1"; "F"; "/"]). repeat split; repeat constructor.
    + exists [], (lit "COORD"), (map lit ["0 0 0 0 0 10"; "1 0 0"; "1 0 10"; ""; "0 1 0 0 1 10"; "1 1 0 1 1 10"]), (lit "/").
      split; [reflexivity|]. split; [repeat constructor|]. split; [reflexivity|]. split; [|reflexivity].
      apply PT_one; [reflexivity|repeat constructor|]. apply PT_two; [reflexivity|repeat constructor|repeat constructor|].
      apply PT_blank; [reflexivity|reflexivity|]. apply PT_one; [reflexivity|repeat constructor|].
      apply PT_one; [reflexivity|repeat constructor|]. apply PT_nil.
    + exists [], (lit "ZCORN"), (map lit ["1 2 3 4"; "5 6 7 8"]), (lit "/").
      split; [reflexivity|]. split; [constructor|]. split; [reflexivity|]. split; [|reflexivity]. split; repeat constructor.
    + repeat split; repeat constructor.
    + unfold two32. lia.
    + cbn. lia.
  - repeat split; repeat constructor.
  - vm_compute. reflexivity.
Qed.
(** The sections in the five other orders: the hypotheses of [C153_order] are those of [C153_case]. *)
Example C153_order_case : read_grdecl ExNum (mkArith ExNum Z.sub Z.mul (fun a b => a) 1) no_colocation no_files
  (unlines (ot_size ++ ot_other ++ ot_zcorn ++ ot_other ++ ot_coord)) = Throw ExData.
Proof.
  apply (C153_order ExNum _ _ _ _ 1 1 1 _ _ ot_size ot_coord ot_zcorn [] ot_other ot_other []
    (proj1 C153_case)); [|left; rewrite open_unlines; [now rewrite !app_nil_r|repeat constructor; apply lineb_ok; vm_compute; reflexivity]].
  assert (O : others ot_other) by exact (proj1 (proj2 C153_case)). assert (O0 : others []) by (repeat split; constructor). repeat constructor; assumption.
Qed.
