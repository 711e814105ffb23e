(** * The files of a GEOS export (model/internal/geos_export.cpp, "geos"; the run of
    model/helpers/brep_geos_export.cpp 88-92 and structural_model_geos_export.cpp 101-105).

    The contents of the mesh files are what is given to their writers (OpenGeode-IO), the XML document is a tree
    (pugixml writes it).  [can] tells which files can be written: the mesh writers throw when they cannot open their
    file, pugixml returns false, which is ignored (geos 118-119).  The creation of the directory (geos 88-97) is not
    modelled: it succeeded or threw in the constructor. *)
From Coq Require Import ZArith List Lia Bool Ascii String.
From Verif Require Import Base Text GeosModel.
Import ListNotations.
Local Open Scope string_scope.
Local Open Scope list_scope.
Local Open Scope Z_scope.

(** ** Paths *)
Definition is_slash (c : ascii) : bool := Ascii.eqb c "/".
Definition is_dot (c : ascii) : bool := Ascii.eqb c ".".
(** [std::filesystem::path::filename] on POSIX: what follows the last slash. *)
Fixpoint filename (p : bytes) : bytes :=
  match p with
  | [] => []
  | c :: r => if existsb is_slash r then filename r else if is_slash c then r else p
  end.
(** What precedes the last dot, if there is one. *)
Fixpoint before_dot (f : bytes) : option bytes :=
  match f with
  | [] => None
  | c :: r => match before_dot r with
              | Some s => Some (c :: s)
              | None => if is_dot c then Some [] else None
              end
  end.
(** [std::filesystem::path::stem]: a name that begins with its last dot, or is two dots, has no extension. *)
Definition stem (f : bytes) : bytes :=
  if beq f ".." then f
  else match before_dot f with
       | Some [] | None => f
       | Some s => s
       end.
(** filename_without_extension (OpenGeode), used at geos 76 and well_input.hpp 52. *)
Definition filename_without_extension (p : bytes) : bytes := stem (filename p).

(** ** The document *)
Inductive xml := Node (name : bytes) (attributes : list (bytes * bytes)) (children : list xml).

Section Export.
Variable V : Type.
Variable T : Type.
Variable ltb : T -> T -> bool.
Variables big low : T.
(** [absl::StrCat] of a bound of a box minus, plus SAFETY_OFFSET (geos 232-245). *)
Variables lower_text upper_text : T -> bytes.
Variable can : bytes -> bool.
Variable dir : bytes.
(** The cells of the solid, see GeosModel.v *)
Variable mesh : list (list (point T)).
Variable containing : point T -> list Z.
Variable distance : point T -> Z -> T.

Definition prefix : bytes := filename_without_extension dir.

Inductive content :=
| SolidFile (regions : list Z) (attributes : list (attr V))
| WellFile (perforations : list (point T))
| XmlFile (document : xml).
Notation files := (list (bytes * content)).

(** The writers of OpenGeode-IO. *)
Definition save (path : bytes) (c : content) (fs : files) : res files :=
  if can path then Ok (fs ++ [(path, c)]) else Throw ExData.

(** write_solid_file (geos 407-438); [known] tells whether the solid is tetrahedral, hybrid or polyhedral. *)
Definition solid_name : bytes := prefix ++ lit ".vtu".
Definition write_solid_file (known : bool) (c : content) (fs : files) : res files :=
  if known then save (dir ++ lit "/" ++ solid_name) c fs else Throw ExData.

(** write_mesh_files (geos 249-302), the attributes of the node *)
Definition vtk_node (s : names) : xml :=
  Node (lit "VTKMesh")
    [(lit "name", prefix); (lit "file", lit "./" ++ solid_name); (lit "fieldsToImport", fields_to_import s);
     (lit "fieldNamesInGEOSX", lit "{ please enter property name in Geos}")] [].

(** write_well_perforations_boxes (geos 192-246) *)
Definition triple_text (f : T -> bytes) (p : point T) : bytes :=
  let '(x, y, z) := p in lit "{" ++ f x ++ lit ", " ++ f y ++ lit ", " ++ f z ++ lit "}".
Definition box_node (well_id : Z) (b : box T) : xml :=
  Node (lit "Box")
    [(lit "name", lit "well_" ++ show well_id); (lit "xMin", triple_text lower_text (x_min T b));
     (lit "xMax", triple_text upper_text (x_max T b))] [].
Fixpoint write_boxes (well_id : Z) (wells : list (list (point T))) : res (list xml) :=
  match wells with
  | [] => Ok []
  | w :: r =>
      do b <- well_box T ltb big low mesh containing distance w;
      do ns <- write_boxes (well_id + 1) r;
      Ok (box_node well_id b :: ns)
  end.

(** write_well_perforation_file (geos 440-451) *)
Definition well_path (well_id : Z) : bytes :=
  dir ++ lit "/" ++ prefix ++ lit "_well" ++ show well_id ++ lit ".vtp".
Fixpoint write_wells (well_id : Z) (wells : list (list (point T))) (fs : files) : res files :=
  match wells with
  | [] => Ok fs
  | w :: r => do fs' <- save (well_path well_id) (WellFile w) fs; write_wells (well_id + 1) r fs'
  end.

(** write_files (geos 100-120) *)
Definition xml_path : bytes := dir ++ lit "/" ++ prefix ++ lit "_simulation.xml".
Definition write_files (known : bool) (regions : list Z) (attributes : list (attr V)) (s : names)
    (wells : list (list (point T))) : res files :=
  do fs1 <- write_solid_file known (SolidFile regions attributes) [];
  let mesh_node := Node (lit "Mesh") [] [vtk_node s] in
  do '(geometry, fs2) <-
    (match wells with
     | [] => Ok ([], fs1)
     | _ => do ns <- write_boxes 0 wells; do fs <- write_wells 0 wells fs1; Ok ([Node (lit "Geometry") [] ns], fs)
     end);
  let doc := Node (lit "Problem") [] (mesh_node :: geometry) in
  Ok (if can xml_path then fs2 ++ [(xml_path, XmlFile doc)] else fs2).

(** The run: prepare_export (geos 155-160) then write_files. [region_map] is create_region_attribute_map. *)
Definition geos_run (region_map : list (Z * Z)) (blocks : list (block V)) (cells : list (Z * Z)) (zero : V)
    (requests : list request) (known : bool) (wells : list (list (point T))) : res files :=
  do regions <- solid_regions region_map cells;
  let s := add_properties blocks requests in
  do attributes <- transfer_cell_properties blocks cells zero s;
  write_files known regions attributes s wells.
End Export.
Arguments SolidFile {V T}. Arguments WellFile {V T}. Arguments XmlFile {V T}.
