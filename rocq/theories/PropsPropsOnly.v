(** * What counts in the properties section of a GOCAD object (C159). *)
From Coq Require Import ZArith List Lia Bool Ascii String.
From Verif Require Import Base Text TextFacts GocadModel MeshModel TsModel Spec GocadFacts StreamFacts Grammar GrammarFacts DepthFacts.
From Verif Require Import SignsModel MlModel LsoModel StratiLso ExNum ExCheck PropsTsVs.
Import ListNotations.
Local Open Scope string_scope.
Local Open Scope list_scope.
Local Open Scope Z_scope.

(** ** Specification *)
(** The lines [a] and [b] both declare the properties [ps]: names, numbers of values and no-data values ([prefixed_properties] is in
    Grammar.v); [rest] follows. *)
Definition both_declare (F : Num) (prefix : bytes) (a b rest rest' : list bytes) : Prop :=
  exists ps, prefixed_properties F prefix a ps /\ prefixed_properties F prefix b ps /\
    (a = [] -> not_next (prefix ++ lit "PROPERTIES") rest) /\ (b = [] -> not_next (prefix ++ lit "PROPERTIES") rest') /\ rest <> [] /\ rest' <> [].
(** Two texts that start in the same way up to the coordinate system of the first object of a kind, included. *)
Definition same_start (kw : bytes) (text text' : bytes) (after after' : list bytes) : Prop :=
  exists pre first hs cs name up,
    pending (open_text text) = pre ++ first :: hs ++ cs ++ after /\ pending (open_text text') = pre ++ first :: hs ++ cs ++ after' /\
    nl (open_text text') = nl (open_text text) /\ Forall (starts_not kw) pre /\ starts kw first /\ header_text hs name /\ crs_text cs up /\
    (cs = [] -> not_next "GOCAD_ORIGINAL_COORDINATE_SYSTEM" after /\ not_next "GOCAD_ORIGINAL_COORDINATE_SYSTEM" after').
(** They differ only by the other lines and words of the properties section: ranges, classes, kinds, subclasses, units. *)
Definition other_properties (F : Num) (kw : bytes) (text text' : bytes) : Prop :=
  exists a b rest, same_start kw text text' (a ++ rest) (b ++ rest) /\ both_declare F [] a b rest rest.
(** Same for the solids, that also have properties on tetrahedra. *)
Definition other_solid_properties (F : Num) (text text' : bytes) : Prop :=
  exists a b c d rest, same_start "GOCAD LightTSolid" text text' (a ++ c ++ rest) (b ++ d ++ rest) /\
    both_declare F [] a b (c ++ rest) (d ++ rest) /\ both_declare F "TETRA_" c d rest rest.

(** ** Facts *)
Definition strip {V} (h : PropHeader V) : PropHeader V := mkProp (p_names h) [] (p_ndv h) [] [] [] (p_esizes h) [].
Definition strip_ts {F} (ts : TSurf F) : TSurf F :=
  mkTSurf (t_offset ts) (t_name ts) (t_crs ts) (strip (t_props ts)) (t_points ts) (t_triangles ts) (t_tri_off ts) (t_vert_off ts) (t_bstones ts) (t_borders ts) (t_values ts).
Definition strip_vs {F} (v : VSet F) : VSet F := mkVSet (v_offset v) (v_name v) (v_crs v) (strip (v_props v)) (v_points v) (v_values v).
Ltac go := repeat (rewrite rmap_bind; apply bind_congr; intros ?).
Section Facts.
Context {F : Num}.
Lemma tface_line_strip (ts : TSurf F) l : tface_line F (strip_ts ts) l = rmap (fun x => (strip_ts (fst x), snd x)) (tface_line F ts l).
Proof.
  destruct ts as [o n d h pts tris tro vo bst bor vals]. unfold tface_line. rewrite rmap_bind. apply bind_congr. intros k.
  cbv [strip_ts]. cbn [t_offset t_name t_crs t_props t_points t_triangles t_tri_off t_vert_off t_bstones t_borders t_values].
  destruct (is_vrtx k); [go; reflexivity|]. destruct (is_atom k); [go; reflexivity|]. do 5 (destruct (beq k _); [go; reflexivity|]). reflexivity.
Qed.
Lemma tfaces_loop_strip ls : forall ts : TSurf F, tfaces_loop F (strip_ts ts) ls = rmap (fun x => (strip_ts (fst x), snd x)) (tfaces_loop F ts ls).
Proof.
  induction ls as [|l r IH]; intros ts; [reflexivity|]. cbn [tfaces_loop]. rewrite tface_line_strip, bind_rmap, rmap_bind.
  apply bind_congr. intros [ts' stop]. cbn [fst snd]. destruct stop; [reflexivity|]. apply IH.
Qed.
Lemma vset_line_strip (vs : VSet F) l : vset_line F (strip_vs vs) l = rmap (fun x => (strip_vs (fst x), snd x)) (vset_line F vs l).
Proof.
  destruct vs as [o n d h pts vals]. unfold vset_line. rewrite rmap_bind. apply bind_congr. intros k.
  cbv [strip_vs]. cbn [v_offset v_name v_crs v_props v_points v_values].
  destruct (beq k _); [reflexivity|]. destruct (negb _); [reflexivity|]. go; reflexivity.
Qed.
Lemma vset_loop_strip ls : forall vs : VSet F, vset_loop F (strip_vs vs) ls = rmap (fun x => (strip_vs (fst x), snd x)) (vset_loop F vs ls).
Proof.
  induction ls as [|l r IH]; intros vs; [reflexivity|]. cbn [vset_loop]. rewrite vset_line_strip, bind_rmap, rmap_bind.
  apply bind_congr. intros [vs' stop]. cbn [fst snd]. destruct stop; [reflexivity|]. apply IH.
Qed.
Lemma lso_body_strip crs (vp tp : PropHeader (num F)) title s : lso_body F crs (strip vp) (strip tp) title s = lso_body F crs vp tp title s.
Proof. reflexivity. Qed.
(** What is done with the result only needs its stripped version. *)
Lemma strip_bind {A B} (f : A -> A) (x y : res (A * list bytes)) (k : A * list bytes -> res B) : (forall a r, k (f a, r) = k (a, r)) ->
  rmap (fun x => (f (fst x), snd x)) x = rmap (fun x => (f (fst x), snd x)) y -> bind x k = bind y k.
Proof.
  intros K E. assert (G : forall z, bind z k = bind (rmap (fun x => (f (fst x), snd x)) z) k) by (intros [[a r]| | |]; cbn; try reflexivity; now rewrite K).
  now rewrite (G x), (G y), E.
Qed.
Lemma declare_step prefix a b rest rest' n : both_declare F prefix a b rest rest' -> exists h h',
  read_prop_header F prefix (mkStream (a ++ rest) n) = Ok (h, mkStream rest n) /\ read_prop_header F prefix (mkStream (b ++ rest') n) = Ok (h', mkStream rest' n) /\ strip h' = strip h.
Proof.
  intros (ps & Ha & Hb & Na & Nb & R & R'). destruct (prefixed_read F prefix a ps rest n Ha Na R) as (h & E & E1 & E2 & E3).
  destruct (prefixed_read F prefix b ps rest' n Hb Nb R') as (h' & E' & E1' & E2' & E3'). exists h, h'. repeat split; try assumption. unfold strip. congruence.
Qed.
End Facts.

Lemma stream_is s ls : pending s = ls -> s = mkStream ls (nl s).
Proof. destruct s; cbn. now intros ->. Qed.
(** The coordinate system that is read does not depend on what follows. *)
Lemma crs_loop_any inner last : Forall (starts_not "END_ORIGINAL_COORDINATE_SYSTEM") inner -> Forall crs_entry inner -> starts "END_ORIGINAL_COORDINATE_SYSTEM" last ->
  forall c, exists c', forall r, crs_loop c (inner ++ last :: r) = Ok (c', r).
Proof.
  intros H He Hl. induction H as [|l t H1 H2 IH]; intros c; [exists c; intros r; cbn [app crs_loop]; now rewrite Hl|].
  inversion He; subst. destruct (crs_line_entry c l H3) as [c1 [E _]]. destruct (IH H4 c1) as [c' E']. exists c'. intros r. cbn [app crs_loop]. rewrite H1, E. cbn [bind]. apply E'.
Qed.
Lemma crs_read_any cs up b : crs_text cs up -> exists c, forall r, (cs = [] -> not_next "GOCAD_ORIGINAL_COORDINATE_SYSTEM" r) -> r <> [] ->
  read_CRS (mkStream (cs ++ r) b) = Ok (c, mkStream r b).
Proof.
  intros [[-> ->]|[first [inner [last [-> [H1 [H2 [H3 [H4 H5]]]]]]]]].
  - exists default_crs. intros r Hn Hr. unfold read_CRS, next_if. specialize (Hn eq_refl). destruct r as [|l r]; [easy|]. cbn [not_next] in Hn. cbn [app pending]. now rewrite Hn.
  - destruct (crs_loop_any inner last H2 H3 H5 default_crs) as [c E]. exists c. intros r _ _. unfold read_CRS, next_if. cbn [app pending]. rewrite H1. cbn [pending nl].
    rewrite <- app_assoc. cbn [app]. now rewrite E.
Qed.
Lemma start_step kw text text' after after' : same_start kw text text' after after' -> after <> [] -> after' <> [] -> exists first name c s s' t t' n,
  goto_if kw (open_text text) = (Some first, s) /\ goto_if kw (open_text text') = (Some first, s') /\
  read_header s = Ok (name, t) /\ read_header s' = Ok (name, t') /\ read_CRS t = Ok (c, mkStream after n) /\ read_CRS t' = Ok (c, mkStream after' n).
Proof.
  intros (pre & first & hs & cs & name & up & E & E' & N & Hp & Hf & H & C & Nx) R R'. set (n := nl (open_text text)) in *.
  destruct (crs_read_any cs up n C) as (c & Ec).
  exists first, name, c, (mkStream (hs ++ cs ++ after) n), (mkStream (hs ++ cs ++ after') n), (mkStream (cs ++ after) n), (mkStream (cs ++ after') n), n.
  split; [rewrite (stream_is _ _ E); now apply goto_if_hit|]. split; [rewrite (stream_is _ _ E'), N; now apply goto_if_hit|].
  split; [now apply header_read|]. split; [now apply header_read|]. split; apply Ec; auto; intros e; now apply Nx.
Qed.

(** ** C159 *)
(** The legal ranges, classes, kinds, subclasses and units of the properties, and the other lines of the section, change nothing. *)
Theorem C159_what_counts (F : Num) text text' :
  (other_properties F "GOCAD TSurf" text text' -> read_ts F text' = read_ts F text) /\
  (other_properties F "GOCAD VSet" text text' -> read_vs F text' = read_vs F text) /\
  (other_solid_properties F text text' -> read_lso F text' = read_lso F text).
Proof.
  set (N := (List.length (pending (open_text text)) + List.length (pending (open_text text')))%nat).
  assert (AN : forall (a r : list bytes), r <> [] -> a ++ r <> []) by (intros [|x a] r Hr; [exact Hr|discriminate]).
  split; [|split].
  - intros (a & b & rest & S1 & D). assert (R : rest <> []) by (destruct D as (ps & _ & _ & _ & _ & R & _); exact R).
    destruct (start_step _ _ _ _ _ S1 (AN _ _ R) (AN _ _ R)) as (first & name & c & s & s' & t & t' & n & G & G' & Eh & Eh' & Ec & Ec').
    destruct (declare_step [] a b rest rest n D) as (h & h' & Ep & Ep' & Es).
    unfold read_ts. cbv zeta.
    rewrite (read_ts_loop_fuel F (S (List.length (pending (open_text text')))) (S N)) by (unfold N; lia).
    rewrite (read_ts_loop_fuel F (S (List.length (pending (open_text text)))) (S N)) by (unfold N; lia). cbn [read_ts_loop].
    unfold read_tsurf. rewrite G, G', Eh, Eh'. cbn [bind]. rewrite Ec, Ec'. cbn [bind]. rewrite Ep, Ep'. cbn [bind].
    unfold read_tfaces. destruct (goto_keyword "TFACE" (mkStream rest n)) as [[l s5]| | |]; cbn [bind]; try reflexivity.
    rewrite !bind_assoc. apply (strip_bind strip_ts); [intros ts r; reflexivity|]. rewrite <- !tfaces_loop_strip. f_equal.
    unfold strip_ts. cbn. rewrite Es. f_equal. now injection Es as -> _ _.
  - intros (a & b & rest & S1 & D). assert (R : rest <> []) by (destruct D as (ps & _ & _ & _ & _ & R & _); exact R).
    destruct (start_step _ _ _ _ _ S1 (AN _ _ R) (AN _ _ R)) as (first & name & c & s & s' & t & t' & n & G & G' & Eh & Eh' & Ec & Ec').
    destruct (declare_step [] a b rest rest n D) as (h & h' & Ep & Ep' & Es).
    unfold read_vs. cbv zeta.
    rewrite (read_vs_loop_fuel F (S (List.length (pending (open_text text')))) (S N)) by (unfold N; lia).
    rewrite (read_vs_loop_fuel F (S (List.length (pending (open_text text)))) (S N)) by (unfold N; lia). cbn [read_vs_loop].
    unfold read_vs_points. rewrite G, G', Eh, Eh'. cbn [bind]. rewrite Ec, Ec'. cbn [bind]. rewrite Ep, Ep'. cbn [bind].
    unfold read_VSet_vertices. destruct (goto_keywords _ (mkStream rest n)) as [[l s5]| | |]; cbn [bind]; try reflexivity.
    rewrite !bind_assoc. apply (strip_bind strip_vs); [intros vs r; reflexivity|]. rewrite <- !vset_loop_strip. f_equal.
    unfold strip_vs. cbn. rewrite Es. f_equal. now injection Es as -> _ _.
  - intros (a & b & cl & d & rest & S1 & D & D2). assert (R : rest <> []) by (destruct D2 as (ps & _ & _ & _ & _ & R & _); exact R).
    destruct (start_step _ _ _ _ _ S1 (AN _ _ (AN _ _ R)) (AN _ _ (AN _ _ R))) as (first & name & c & s & s' & t & t' & n & G & G' & Eh & Eh' & Ec & Ec').
    destruct (declare_step [] a b _ _ n D) as (h & h' & Ep & Ep' & Es). destruct (declare_step "TETRA_" cl d rest rest n D2) as (k & k' & Eq & Eq' & Et).
    unfold read_lso. rewrite G, G', Eh, Eh'. cbn [bind]. rewrite Ec, Ec'. cbn [bind]. rewrite Ep, Ep'. cbn [bind]. rewrite Eq, Eq'. cbn [bind].
    rewrite <- (lso_body_strip c h'), <- (lso_body_strip c h), Es, Et. reflexivity.
Qed.
Print Assumptions C159_what_counts.

(** ** What does not hold *)
Definition pr_lines (sec : list string) : list bytes := map lit
  (["GOCAD VSet 1"; "HEADER {"; "name:s"; "}"] ++ sec ++ ["PVRTX 1 0 0 5 7"; "PVRTX 2 1 0 6 8"; "END"])%list.
Definition pr_section (ranges units : string) : list string :=
  ["PROPERTIES p"; ranges; "NO_DATA_VALUES 8"; "PROPERTY_CLASSES p"; "PROPERTY_KINDS Depth"; "PROPERTY_SUBCLASSES QUANTITY Float"; "ESIZES 1"; units].
Definition pr_values (r : res (mesh ExNum unit)) : option (list (bytes * list (list Z))) :=
  match r with Ok m => Some (map (fun x => (fst x, a_vals (snd x))) (m_attrs m)) | _ => None end.
(** A value outside the legal range, or equal to the value that means no data, is loaded as any other value, whatever its unit. *)
Theorem C159_values_refuted : exists sec,
  In (lit "PROP_LEGAL_RANGES 0 1") (map lit sec) /\ In (lit "NO_DATA_VALUES 8") (map lit sec) /\
  pr_values (read_vs ExNum (unlines (pr_lines sec))) = Some [(lit "p", [[7]; [8]])].
Proof. exists (pr_section "PROP_LEGAL_RANGES 0 1" "UNITS ft"). split; [right; now left|]. split; [do 2 right; now left|vm_compute; reflexivity]. Qed.
Print Assumptions C159_values_refuted.
(** The order of the lines of the section counts: with UNITS before ESIZES the file is refused. *)
Theorem C159_order_refuted : exists sec sec', (forall l, In l sec <-> In l sec') /\ List.length sec = List.length sec' /\
  (exists m, read_vs ExNum (unlines (pr_lines sec)) = Ok m) /\ read_vs ExNum (unlines (pr_lines sec')) = Throw ExData.
Proof.
  exists (pr_section "PROP_LEGAL_RANGES 0 1" "UNITS ft"),
    ["PROPERTIES p"; "PROP_LEGAL_RANGES 0 1"; "NO_DATA_VALUES 8"; "PROPERTY_CLASSES p"; "PROPERTY_KINDS Depth"; "PROPERTY_SUBCLASSES QUANTITY Float"; "UNITS ft"; "ESIZES 1"].
  split; [intros l; unfold pr_section; cbn [In]; tauto|]. split; [reflexivity|]. split; [|vm_compute; reflexivity].
  assert (E : match read_vs ExNum (unlines (pr_lines (pr_section "PROP_LEGAL_RANGES 0 1" "UNITS ft"))) with Ok _ => true | _ => false end = true) by (vm_compute; reflexivity).
  destruct (read_vs ExNum _) as [m| | |]; try discriminate. now exists m.
Qed.
Print Assumptions C159_order_refuted.

(** ** Instance: metres and a wide range, then feet and a narrow one, with a comment in the section. *)
Lemma one_line kw l : starts_with l kw = true -> up_to kw [l] l.
Proof. intros H. exists []. split; [reflexivity|]. split; [constructor|exact H]. Qed.
Lemma ex_declared : both_declare ExNum [] (map lit (pr_section "PROP_LEGAL_RANGES **none** **none**" "UNITS m"))
  (map lit (["PROPERTIES p"; "# comment"] ++ tl (pr_section "PROP_LEGAL_RANGES 0 1" "UNITS ft"))%list)
  (map lit ["PVRTX 1 0 0 5 7"; "PVRTX 2 1 0 6 8"; "END"]) (map lit ["PVRTX 1 0 0 5 7"; "PVRTX 2 1 0 6 8"; "END"]).
Proof.
  exists [mkProperty (F:=ExNum) (lit "p") 1 8]. split; [|split; [|repeat split; discriminate]]; right; right; (split; [discriminate|]).
  - exists (lit "PROPERTIES p"), (lit "PROPERTIES"), [lit "PROP_LEGAL_RANGES **none** **none**"],
      [lit "NO_DATA_VALUES 8"], [lit "PROPERTY_CLASSES p"], [lit "PROPERTY_KINDS Depth"], [lit "PROPERTY_SUBCLASSES QUANTITY Float"], [lit "ESIZES 1"], [lit "UNITS m"].
    split; [reflexivity|]. split; [reflexivity|]. split; [reflexivity|]. split; [|split; [|split; [|split; [|split; [|split]]]]].
    + exists (lit "PROP_LEGAL_RANGES **none** **none**"). split; [apply one_line; reflexivity|vm_compute; exact I].
    + exists (lit "NO_DATA_VALUES 8"), (lit "NO_DATA_VALUES"), [lit "8"], []. split; [apply one_line; reflexivity|]. split; [reflexivity|]. repeat constructor.
    + exists (lit "PROPERTY_CLASSES p"), (lit "PROPERTY_CLASSES"), [lit "p"]. split; [apply one_line; reflexivity|]. split; [reflexivity|cbn; lia].
    + exists (lit "PROPERTY_KINDS Depth"), (lit "PROPERTY_KINDS"), [lit "Depth"]. split; [apply one_line; reflexivity|]. split; [reflexivity|cbn; lia].
    + exists (lit "PROPERTY_SUBCLASSES QUANTITY Float"). split; [apply one_line; reflexivity|vm_compute; exact I].
    + exists (lit "ESIZES 1"), (lit "ESIZES"), [lit "1"], []. split; [apply one_line; reflexivity|]. split; [reflexivity|]. repeat constructor.
    + exists (lit "UNITS m"), (lit "UNITS"), [lit "m"]. split; [apply one_line; reflexivity|]. split; [reflexivity|cbn; lia].
  - exists (lit "PROPERTIES p"), (lit "PROPERTIES"), [lit "# comment"; lit "PROP_LEGAL_RANGES 0 1"],
      [lit "NO_DATA_VALUES 8"], [lit "PROPERTY_CLASSES p"], [lit "PROPERTY_KINDS Depth"], [lit "PROPERTY_SUBCLASSES QUANTITY Float"], [lit "ESIZES 1"], [lit "UNITS ft"].
    split; [reflexivity|]. split; [reflexivity|]. split; [reflexivity|]. split; [|split; [|split; [|split; [|split; [|split]]]]].
    + exists (lit "PROP_LEGAL_RANGES 0 1"). split; [|vm_compute; exact I]. exists [lit "# comment"]. split; [reflexivity|]. split; [repeat constructor|reflexivity].
    + exists (lit "NO_DATA_VALUES 8"), (lit "NO_DATA_VALUES"), [lit "8"], []. split; [apply one_line; reflexivity|]. split; [reflexivity|]. repeat constructor.
    + exists (lit "PROPERTY_CLASSES p"), (lit "PROPERTY_CLASSES"), [lit "p"]. split; [apply one_line; reflexivity|]. split; [reflexivity|cbn; lia].
    + exists (lit "PROPERTY_KINDS Depth"), (lit "PROPERTY_KINDS"), [lit "Depth"]. split; [apply one_line; reflexivity|]. split; [reflexivity|cbn; lia].
    + exists (lit "PROPERTY_SUBCLASSES QUANTITY Float"). split; [apply one_line; reflexivity|vm_compute; exact I].
    + exists (lit "ESIZES 1"), (lit "ESIZES"), [lit "1"], []. split; [apply one_line; reflexivity|]. split; [reflexivity|]. repeat constructor.
    + exists (lit "UNITS ft"), (lit "UNITS"), [lit "ft"]. split; [apply one_line; reflexivity|]. split; [reflexivity|cbn; lia].
Qed.
Example C159_case :
  let text := unlines (pr_lines (pr_section "PROP_LEGAL_RANGES **none** **none**" "UNITS m")) in
  let text' := unlines (pr_lines (["PROPERTIES p"; "# comment"] ++ tl (pr_section "PROP_LEGAL_RANGES 0 1" "UNITS ft"))%list) in
  other_properties ExNum "GOCAD VSet" text text' /\ pr_values (read_vs ExNum text) = Some [(lit "p", [[7]; [8]])] /\ pr_values (read_vs ExNum text') = Some [(lit "p", [[7]; [8]])].
Proof.
  cbv zeta. split; [|split; vm_compute; reflexivity]. do 3 eexists. split; [|exact ex_declared].
  exists [], (lit "GOCAD VSet 1"), (map lit ["HEADER {"; "name:s"; "}"]), [], (Some (lit "s")), true.
  rewrite !open_unlines by (unfold pr_lines, pr_section; cbn [map app tl]; repeat (apply Forall_cons; [apply lineb_ok; vm_compute; reflexivity|]); constructor).
  split; [reflexivity|]. split; [reflexivity|]. split; [reflexivity|]. split; [constructor|]. split; [reflexivity|].
  split; [|split; [left; now split|intros _; split; vm_compute; reflexivity]].
  exists (lit "HEADER {"), [lit "name:s"], (lit "}"). split; [reflexivity|]. split; [reflexivity|]. split; [repeat constructor|]. split; [reflexivity|].
  right. exists [], (lit "name:s"), [], (lit "s"). repeat split; constructor.
Qed.
