(** * GEOS export (model/internal/geos_export.cpp, model/helpers/brep_geos_export.cpp,
    model/helpers/structural_model_geos_export.cpp).
    Blocks are known by an identifier (their uuid).  convert_brep_into_solid (OpenGeode) is represented by its result: for
    each polyhedron of the solid, [out2in( p ).front()], the block and the cell it comes from.  Not modelled: the VTU, VTP
    and XML files themselves, directories, logging. *)
From Coq Require Import ZArith List Lia Bool Ascii String.
From Verif Require Import Base Text.
Import ListNotations.
Local Open Scope string_scope.
Local Open Scope list_scope.
Local Open Scope Z_scope.

(** ** Region numbers *)
(** [absl::flat_hash_map< uuid, index_t >]: emplace keeps a value already there; find. *)
Fixpoint find_region (m : list (Z * Z)) (id : Z) : option Z :=
  match m with [] => None | (k, v) :: r => if k =? id then Some v else find_region r id end.
Definition emplace (id v : Z) (m : list (Z * Z)) : list (Z * Z) :=
  match find_region m id with Some _ => m | None => m ++ [(id, v)] end.
(** create_region_attribute_map of a BRep (brep_geos_export.cpp 50-60). *)
Fixpoint brep_regions (k : Z) (blocks : list Z) (m : list (Z * Z)) : list (Z * Z) :=
  match blocks with [] => m | b :: r => brep_regions (k + 1) r (emplace b k m) end.
(** create_region_attribute_map of a structural model (structural_model_geos_export.cpp 55-70): [units] are the items of
    each stratigraphic unit. *)
Fixpoint unit_regions (k : Z) (units : list (list Z)) (m : list (Z * Z)) : list (Z * Z) :=
  match units with
  | [] => m
  | items :: r => unit_regions (k + 1) r (fold_left (fun m b => emplace b k m) items m)
  end.
(** initialize_solid_region_attribute (174-190): [find( ... )->second] of a missing key is undefined. *)
Definition solid_regions (m : list (Z * Z)) (cells : list (Z * Z)) : res (list Z) :=
  mapM (fun c : Z * Z => match find_region m (fst c) with Some r => Ok r | None => UB end) cells.

(** ** Cell properties *)
Section Properties.
Variable V : Type.
(** An attribute: the type of its values (1, 2, 3: double, std::array< double, 2 >, std::array< double, 3 >; anything else:
    another type) and the values. *)
Record attr := mkAttr { a_name : bytes; a_kind : Z; a_values : list V }.
Record block := mkBlock { b_id : Z; b_attrs : list attr }.
Definition find_attr (n : bytes) (l : list attr) : option attr := find (fun a => beq (a_name a) n) l.
(** check_property_name (305-323). *)
Definition check_property_name (blocks : list block) (n : bytes) : bool :=
  forallb (fun b => match find_attr n (b_attrs b) with Some _ => true | None => false end) blocks.
Record names := mkNames { names1 : list bytes; names2 : list bytes; names3 : list bytes }.
(** The calls of add_cell_property1d, 2d and 3d (129-154). *)
Inductive request := Add1 (n : bytes) | Add2 (n : bytes) | Add3 (n : bytes).
Definition add_property (blocks : list block) (s : names) (r : request) : names :=
  match r with
  | Add1 n => if check_property_name blocks n then mkNames (names1 s ++ [n]) (names2 s) (names3 s) else s
  | Add2 n => if check_property_name blocks n then mkNames (names1 s) (names2 s ++ [n]) (names3 s) else s
  | Add3 n => if check_property_name blocks n then mkNames (names1 s) (names2 s) (names3 s ++ [n]) else s
  end.
Definition add_properties (blocks : list block) (l : list request) : names :=
  fold_left (add_property blocks) l (mkNames [] [] []).
(** The text of fieldsToImport (write_mesh_files 259-299). *)
Definition append_names (l : list bytes) (t : bytes * bool) : bytes * bool :=
  fold_left (fun (t : bytes * bool) n => let '(text, first) := t in ((if first then text else text ++ lit ",") ++ n, false)) l t.
Definition fields_to_import (s : names) : bytes :=
  let t := (lit "{", true) in
  let t := append_names (names1 s) t in
  let t := append_names (names2 s) t in
  let t := append_names (names3 s) t in
  fst t ++ lit "}".
(** [find_or_create_attribute< VariableAttribute, T >] on the polyhedra of the solid: an attribute of the name with another
    type raises an exception. *)
Definition find_or_create (n : bytes) (k : Z) (zero : V) (nb : nat) (l : list attr) : res (list attr) :=
  match find_attr n l with
  | Some a => if a_kind a =? k then Ok l else Throw ExData
  | None => Ok (l ++ [mkAttr n k (repeat zero nb)])
  end.
Definition store (n : bytes) (vs : list V) (l : list attr) : list attr :=
  map (fun a => if beq (a_name a) n then mkAttr (a_name a) (a_kind a) vs else a) l.
(** The value read for one polyhedron: [model.block( id )], [find_attribute< T >( name )] (exception if absent or of
    another type), [value( cell )]. *)
Definition cell_value (blocks : list block) (n : bytes) (k : Z) (c : Z * Z) : res V :=
  match find (fun b => b_id b =? fst c) blocks with
  | None => Throw ExData
  | Some b =>
      match find_attr n (b_attrs b) with
      | None => Throw ExData
      | Some a => if a_kind a =? k then idxz (a_values a) (snd c) else Throw ExData
      end
  end.
(** One property of transfer_cell_properties (326-404). *)
Definition transfer (blocks : list block) (cells : list (Z * Z)) (k : Z) (zero : V) (l : list attr) (n : bytes) : res (list attr) :=
  do l <- find_or_create n k zero (List.length cells) l;
  do vs <- mapM (cell_value blocks n k) cells;
  Ok (store n vs l).
(** transfer_cell_properties.  [solid] holds the attributes of the polyhedra of the solid before the call: those created by
    convert_brep_into_solid (none is assumed) and the region attribute, of name "attribute" and type index_t (84-87). *)
Definition region_attr : attr := mkAttr "attribute" 0 [].
Definition transfer_cell_properties (blocks : list block) (cells : list (Z * Z)) (zero : V) (s : names) : res (list attr) :=
  do l <- foldM (transfer blocks cells 1 zero) (names1 s) [region_attr];
  do l <- foldM (transfer blocks cells 2 zero) (names2 s) l;
  foldM (transfer blocks cells 3 zero) (names3 s) l.
End Properties.
Arguments mkAttr {V}. Arguments a_name {V}. Arguments a_kind {V}. Arguments a_values {V}.
Arguments mkBlock {V}. Arguments b_id {V}. Arguments b_attrs {V}.
Arguments find_attr {V}. Arguments check_property_name {V}. Arguments add_property {V}. Arguments add_properties {V}.
Arguments find_or_create {V}. Arguments store {V}. Arguments cell_value {V}. Arguments transfer {V}.
Arguments transfer_cell_properties {V}. Arguments region_attr {V}.

(** ** Boxes of the wells (write_well_perforations_boxes 192-246) *)
Section Boxes.
(** Coordinates and distances: any type with a comparison, [big] is numeric_limits< double >::max(), [low] lowest(). *)
Variable T : Type.
Variable ltb : T -> T -> bool.
Variables big low : T.
Definition point : Type := T * T * T.
Record box := mkBox { x_min : point; x_max : point }.
Definition empty_box : box := mkBox (big, big, big) (low, low, low).
Definition lower (a b : T) : T := if ltb b a then b else a.
Definition upper (a b : T) : T := if ltb a b then b else a.
Definition map3 (f : T -> T -> T) (a b : point) : point :=
  let '(x, y, z) := a in let '(u, v, w) := b in (f x u, f y v, f z w).
(** [BoundingBox::add_point]. *)
Definition add_point (b : box) (p : point) : box := mkBox (map3 lower (x_min b) p) (map3 upper (x_max b) p).
(** The mesh: vertices of each cell; cells whose bounding box contains a point (AABBTree::containing_boxes); distance to the
    barycenter of a cell. *)
Variable cells : list (list point).
Variable containing : point -> list Z.
Variable distance : point -> Z -> T.
(** The cell selected for a point (213-229). *)
Definition nearest (p : point) (l : list Z) : T * Z :=
  fold_left (fun (best : T * Z) c => if ltb (fst best) (distance p c) then best else (distance p c, c)) l (big, NO_ID).
Definition add_perforation (b : box) (p : point) : res box :=
  match containing p with
  | [] => Ok b
  | l => do vs <- idxz cells (snd (nearest p l)); Ok (fold_left add_point vs b)
  end.
(** The box of one well, before the offset. *)
Definition well_box (points : list point) : res box := foldM add_perforation points empty_box.
End Boxes.
