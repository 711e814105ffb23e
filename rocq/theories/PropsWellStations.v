(** * The stations of a .wl well file (C156). *)
From Coq Require Import ZArith List Lia Bool Ascii String.
From Verif Require Import Base Text TextFacts GocadModel MeshModel TsModel WellModel Spec GocadFacts TsFacts Sections PropsGocad PropsWell ExNum ExCheck.
Import ListNotations.
Local Open Scope string_scope.
Local Open Scope list_scope.
Local Open Scope Z_scope.

(** ** Specification *)
(** A station: the offsets from the reference along x and y, and its z coordinate. *)
Definition station (F : Num) : Type := num F * num F * num F.
Definition path_line (F : Num) (l : bytes) (s : station F) : Prop :=
  starts_with l "PATH" = true /\ number_line F 2 l [snd s; fst (fst s); snd (fst s)].
(** The place of a station; [up]: elevations. *)
Definition place (F : Num) (up : bool) (rx ry : num F) (s : station F) : point F :=
  (plus F (fst (fst s)) rx, plus F (snd (fst s)) ry, if up then snd s else neg F (snd s)).
(** The lines of a well: reference point (rx, ry, rz), and its stations on successive lines. *)
Definition well_text (F : Num) (ls : list bytes) (name : option bytes) (up : bool) (rx ry rz : num F) (stations : list (station F)) : Prop :=
  exists pre well hs cs mid1 wref mid2 paths tail, let after_crs := mid1 ++ wref :: mid2 ++ paths ++ tail in
    ls = pre ++ well :: hs ++ cs ++ after_crs /\ Forall is_line ls /\ without "GOCAD Well" pre /\ starts_with well "GOCAD Well" = true /\
    header_section hs name /\ crs_section cs up after_crs /\
    without "WREF" mid1 /\ starts_with wref "WREF" = true /\ number_line F 1 wref [rx; ry; rz] /\
    without "PATH" mid2 /\ Forall2 (path_line F) paths stations /\ stations <> [] /\ Z.of_nat (List.length stations) < two32 /\
    match tail with l :: _ => starts_with l "PATH" = false | [] => True end.

(** ** C156 *)
Lemma well_read F ls name up rx ry rz s0 stations : well_text F ls name up rx ry rz (s0 :: stations) ->
  read_wl F (unlines ls) = Ok (mkMesh name ((rx, ry, if up then rz else neg F rz) :: map (place F up rx ry) stations) (chain (S (List.length stations))) []).
Proof.
  intros (pre & well & hs & cs & mid1 & wref & mid2 & paths & tail & H). cbv zeta in H.
  destruct H as (-> & L & H1 & H2 & H3 & H4 & H5 & H6 & H7 & H8 & H9 & _ & H10 & H11).
  inversion H9 as [|p0 ? ps ? [P0 _] Hp]; subst.
  refine (C19_wl_trajectory F pre well hs cs mid1 wref mid2 p0 ps tail name up rx ry rz stations L _ H1 H2 H3 H4 H5 H6 H7 H8 P0 Hp H11).
  assert (E : List.length ps = List.length stations) by (clear - Hp; induction Hp; cbn; congruence). unfold lenz. cbn [List.length] in H10. lia.
Qed.
(** When the first station is the reference point and the stations are on successive lines, all the stations are loaded, in order, and joined. *)
Theorem C156_all_stations (F : Num) ls name up rx ry rz s0 stations : well_text F ls name up rx ry rz (s0 :: stations) ->
  place F up rx ry s0 = (rx, ry, if up then rz else neg F rz) ->
  read_wl F (unlines ls) = Ok (mkMesh name (map (place F up rx ry) (s0 :: stations)) (chain (List.length (s0 :: stations))) []).
Proof. intros H E. rewrite (well_read F ls name up rx ry rz s0 stations H). cbn [map List.length]. now rewrite E. Qed.
Print Assumptions C156_all_stations.
(** Moving the reference point horizontally moves the whole well and changes nothing else. *)
Theorem C156_moved (F : Num) ls ls' name up rx ry rz tx ty stations :
  (forall a b c : num F, plus F a (plus F b c) = plus F (plus F a b) c) ->
  well_text F ls name up rx ry rz stations -> well_text F ls' name up (plus F rx tx) (plus F ry ty) rz stations ->
  exists m, read_wl F (unlines ls) = Ok m /\
    read_wl F (unlines ls') = Ok (mkMesh (m_name m) (map (fun p => (plus F (fst (fst p)) tx, plus F (snd (fst p)) ty, snd p)) (m_points m)) (m_cells m) (m_attrs m)).
Proof.
  intros A H H'. destruct stations as [|s0 stations]; [destruct H as (? & ? & ? & ? & ? & ? & ? & ? & ? & H); cbv zeta in H; decompose [and] H; congruence|].
  eexists. split; [exact (well_read F ls name up rx ry rz s0 stations H)|]. rewrite (well_read F ls' name up _ _ rz s0 stations H'). cbn [m_name m_points m_cells m_attrs map fst snd].
  do 3 f_equal. rewrite map_map. apply map_ext. intros [[a b] c]. unfold place. cbn [fst snd]. now rewrite !A.
Qed.
Print Assumptions C156_moved.

(** ** What does not hold *)
Definition wl_lines (paths : list string) : list bytes := map lit
  (["GOCAD Well 1"; "HEADER {"; "name:w"; "}"; "WREF 100 200 7"] ++ paths ++ ["END"])%list.
(** A first station elsewhere than the reference point is lost, without notice. *)
Theorem C156_first_station_refuted : exists paths,
  paths = ["PATH 1 6 1 2"; "PATH 2 5 3 4"]%string /\
  mesh_is zz_eqb (read_wl ExNum (unlines (wl_lines paths))) (Some (lit "w")) [(100, 200, 7); (103, 204, 5)] [(0, 1)] [] = true.
Proof. eexists. split; [reflexivity|]. vm_compute. reflexivity. Qed.
Print Assumptions C156_first_station_refuted.
(** A comment, a blank line or an indented line between two stations: all the stations that follow are lost, without notice. *)
Theorem C156_interrupted_refuted :
  mesh_is zz_eqb (read_wl ExNum (unlines (wl_lines ["PATH 0 7 0 0"; "PATH 1 6 1 2"; "PATH 2 5 3 4"; "PATH 3 4 5 6"]))) (Some (lit "w"))
    [(100, 200, 7); (101, 202, 6); (103, 204, 5); (105, 206, 4)] [(0, 1); (1, 2); (2, 3)] [] = true /\
  exists between : list string, between = ["# casing"; ""; " PATH 2 5 3 4"]%string /\ forall l, In l between ->
    mesh_is zz_eqb (read_wl ExNum (unlines (wl_lines ["PATH 0 7 0 0"; "PATH 1 6 1 2"; l; "PATH 2 5 3 4"; "PATH 3 4 5 6"]))) (Some (lit "w"))
      [(100, 200, 7); (101, 202, 6)] [(0, 1)] [] = true.
Proof.
  split; [vm_compute; reflexivity|]. eexists. split; [reflexivity|]. intros l [<-|[<-|[<-|[]]]]; vm_compute; reflexivity.
Qed.
Print Assumptions C156_interrupted_refuted.

(** ** Instance *)
Definition one_well (wref : string) : list bytes := map lit ["GOCAD Well 1"; "HEADER {"; "name:w"; "}"; wref; "PATH 0 7 0 0"; "PATH 1 6 1 2"; "END"].
Lemma one_well_text wref x y (tx ty : string) : starts_with (lit wref) "WREF" = true -> lineb (lit wref) = true -> string_split (lit wref) = map lit ["WREF"; tx; ty; "7"]%string ->
  atod ExNum (lit tx) = Some x -> atod ExNum (lit ty) = Some y -> starts_with (lit wref) "GOCAD_ORIGINAL_COORDINATE_SYSTEM" = false ->
  well_text ExNum (one_well wref) (Some (lit "w")) true x y 7 [(0, 0, 7); (1, 2, 6)].
Proof.
  intros Hw Hl E Ex Ey Hc. exists [], (lit "GOCAD Well 1"), (map lit ["HEADER {"; "name:w"; "}"]), [], [], (lit wref), [], (map lit ["PATH 0 7 0 0"; "PATH 1 6 1 2"]), [lit "END"].
  cbv zeta. cbn [app map]. split; [reflexivity|].
  split; [unfold one_well; cbn [map]; repeat (apply Forall_cons; [apply lineb_ok; (exact Hl || reflexivity)|]); constructor|].
  split; [constructor|]. split; [reflexivity|]. split; [exists (lit "HEADER {"), [lit "name:w"], (lit "}"); repeat split; repeat constructor|].
  split; [left; repeat split; assumption|]. split; [constructor|]. split; [exact Hw|].
  split; [exists [lit "WREF"], (map lit [tx; ty; "7"%string]); split; [exact E|]; split; [reflexivity|]; repeat constructor; assumption|].
  split; [constructor|].
  split; [constructor; [split; [reflexivity|]; exists (map lit ["PATH"; "0"]), (map lit ["7"; "0"; "0"]); repeat split; repeat constructor|
    constructor; [split; [reflexivity|]; exists (map lit ["PATH"; "1"]), (map lit ["6"; "1"; "2"]); repeat split; repeat constructor|constructor]]|].
  split; [discriminate|]. split; [reflexivity|]. reflexivity.
Qed.
Example C156_case :
  well_text ExNum (one_well "WREF 100 200 7") (Some (lit "w")) true 100 200 7 [(0, 0, 7); (1, 2, 6)] /\
  place ExNum true 100 200 (0, 0, 7) = (100, 200, 7) /\
  well_text ExNum (one_well "WREF 110 220 7") (Some (lit "w")) true (100 + 10) (200 + 20) 7 [(0, 0, 7); (1, 2, 6)] /\
  mesh_is zz_eqb (read_wl ExNum (unlines (one_well "WREF 110 220 7"))) (Some (lit "w")) [(110, 220, 7); (111, 222, 6)] [(0, 1)] [] = true.
Proof.
  split; [apply (one_well_text "WREF 100 200 7" 100 200 "100" "200"); reflexivity|]. split; [reflexivity|].
  split; [apply (one_well_text "WREF 110 220 7" 110 220 "110" "220"); reflexivity|]. vm_compute. reflexivity.
Qed.
