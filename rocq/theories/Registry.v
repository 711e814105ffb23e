(** * Registration of the formats: src/geode/geosciences_io/mesh/common.cpp ("mesh") and model/common.cpp ("model").

    The factories belong to OpenGeode: a factory gives for each key (here the extension of the file) the class that reads or
    writes the file.  register_creator inserts the key in a hash map and keeps an entry already there (it only logs a warning).
    Not modelled: the constructors of the readers and writers, GDALAllRegister, the log messages. *)
From Coq Require Import List Bool Ascii String.
From Verif Require Import Base Text.
Import ListNotations.
Local Open Scope string_scope.
Local Open Scope list_scope.

(** The factories used, named after what they create (mesh 49-144, model 49-96); StratigraphicModelInputFactory is the one of
    load_stratigraphic_model. *)
Inductive factory :=
| TriangulatedSurfaceIn | TriangulatedSurfaceOut | PolygonalSurfaceIn | TetrahedralSolidOut
| EdgedCurveIn | EdgedCurveOut | LightRegularGrid2In | RegularGridIn | HybridSolidIn | PointSetIn | PointSetOut
| StructuralModelIn | StructuralModelOut | SectionIn | BRepOut | HorizonsStack2In | HorizonsStack3In | StratigraphicModelIn.
(** The readers and writers, and those of other libraries. *)
Inductive creator :=
| TSInput | TSOutput | DEMInput | PolyTIFFInput | SolidFemOutput | PLOutput | WLInput | WellDatInput | WellTxtInput
| WellDevInput | PLInput | GEOTIFFInput | VOInput | GRDECLInput | VSInput | VSOutput
| MLInput | LSOInput | MLOutputStructuralModel | LSOOutput | SHPInput | MLOutputBRep | BRepFemOutput
| HorizonStackSKUAInput2 | HorizonStackSKUAInput3 | StratigraphicLSOInput
| Other (n : nat).
Definition factory_eqb (a b : factory) : bool :=
  match a, b with
  | TriangulatedSurfaceIn, TriangulatedSurfaceIn | TriangulatedSurfaceOut, TriangulatedSurfaceOut
  | PolygonalSurfaceIn, PolygonalSurfaceIn | TetrahedralSolidOut, TetrahedralSolidOut | EdgedCurveIn, EdgedCurveIn
  | EdgedCurveOut, EdgedCurveOut | LightRegularGrid2In, LightRegularGrid2In | RegularGridIn, RegularGridIn
  | HybridSolidIn, HybridSolidIn | PointSetIn, PointSetIn | PointSetOut, PointSetOut | StructuralModelIn, StructuralModelIn
  | StructuralModelOut, StructuralModelOut | SectionIn, SectionIn | BRepOut, BRepOut | HorizonsStack2In, HorizonsStack2In
  | HorizonsStack3In, HorizonsStack3In | StratigraphicModelIn, StratigraphicModelIn => true
  | _, _ => false
  end.

(** The stores of all the factories. *)
Notation registry := (list (factory * bytes * creator)).
Definition same_key (f : factory) (e : bytes) (x : factory * bytes * creator) : bool :=
  factory_eqb (fst (fst x)) f && beq (snd (fst x)) e.
(** [Factory::create( key )]: the class registered for the key; without one the call throws. *)
Definition creator_of (r : registry) (f : factory) (e : bytes) : option creator := option_map snd (find (same_key f e) r).
(** [Factory::register_creator< k >( e )]. *)
Definition register (f : factory) (k : creator) (e : bytes) (r : registry) : registry :=
  match creator_of r f e with Some _ => r | None => r ++ [(f, e, k)] end.

(** The extensions given by the classes (IH/mesh/internal/*.hpp and IH/model/internal/*.hpp, functions extension and extensions). *)
Definition extensions (k : creator) : list bytes :=
  match k with
  | TSInput | TSOutput => [lit "ts"]
  | DEMInput => [lit "dem"]
  | PolyTIFFInput | GEOTIFFInput => [lit "tiff"; lit "tif"]
  | SolidFemOutput | BRepFemOutput => [lit "fem"]
  | PLInput | PLOutput => [lit "pl"]
  | WLInput => [lit "wl"]
  | WellDatInput => [lit "dat"]
  | WellTxtInput => [lit "txt"]
  | WellDevInput => [lit "dev"]
  | VOInput => [lit "vo"]
  | GRDECLInput => [lit "grdecl"]
  | VSInput | VSOutput => [lit "vs"]
  | MLInput | MLOutputStructuralModel | MLOutputBRep => [lit "ml"]
  | LSOInput | LSOOutput | StratigraphicLSOInput => [lit "lso"]
  | SHPInput => [lit "shp"; lit "shz"]
  | HorizonStackSKUAInput2 | HorizonStackSKUAInput3 => [lit "xml"]
  | Other _ => []
  end.
Definition register_all (f : factory) (k : creator) (r : registry) : registry :=
  fold_left (fun r e => register f k e r) (extensions k) r.

(** mesh 149-165, after the initialisation of the libraries it depends on. *)
Definition mesh_formats (r : registry) : registry :=
  let r := register_all TriangulatedSurfaceIn TSInput r in          (* 49-54 *)
  let r := register_all TriangulatedSurfaceOut TSOutput r in        (* 56-61 *)
  let r := register_all PolygonalSurfaceIn DEMInput r in            (* 65-67 *)
  let r := register_all PolygonalSurfaceIn PolyTIFFInput r in       (* 68-73 *)
  let r := register_all TetrahedralSolidOut SolidFemOutput r in     (* 76-81 *)
  let r := register_all EdgedCurveIn WLInput r in                   (* 92-94 *)
  let r := register_all EdgedCurveIn WellDatInput r in              (* 95-97 *)
  let r := register_all EdgedCurveIn WellTxtInput r in              (* 98-100 *)
  let r := register_all EdgedCurveIn WellDevInput r in              (* 101-103 *)
  let r := register_all EdgedCurveIn PLInput r in                   (* 104-106 *)
  let r := register_all EdgedCurveOut PLOutput r in                 (* 83-88 *)
  let r := register_all LightRegularGrid2In GEOTIFFInput r in       (* 109-116 *)
  let r := register_all RegularGridIn VOInput r in                  (* 118-123 *)
  let r := register_all HybridSolidIn GRDECLInput r in              (* 125-130 *)
  let r := register_all PointSetIn VSInput r in                     (* 132-137 *)
  register_all PointSetOut VSOutput r.                              (* 139-144 *)
(** model 101-112, after the initialisation of the libraries it depends on. *)
Definition model_formats (r : registry) : registry :=
  let r := register_all StructuralModelIn MLInput r in              (* 51-53 *)
  let r := register_all StructuralModelIn LSOInput r in             (* 54-56 *)
  let r := register_all StructuralModelOut MLOutputStructuralModel r in (* 61-63 *)
  let r := register_all StructuralModelOut LSOOutput r in           (* 64-66 *)
  let r := register_all SectionIn SHPInput r in                     (* 69-76 *)
  let r := register_all BRepOut MLOutputBRep r in                   (* 80-82 *)
  let r := register_all BRepOut BRepFemOutput r in                  (* 83-85 *)
  let r := register_all HorizonsStack2In HorizonStackSKUAInput2 r in (* 90-92 *)
  register_all HorizonsStack3In HorizonStackSKUAInput3 r.           (* 93-95 *)
(** OpenGeodeGeosciencesIOMeshLibrary::initialize and OpenGeodeGeosciencesIOModelLibrary::initialize; [mesh_deps] and
    [model_deps] stand for the initialisation of the libraries of OpenGeode they call first. *)
Definition mesh_library (mesh_deps : registry -> registry) (r : registry) : registry := mesh_formats (mesh_deps r).
Definition model_library (mesh_deps model_deps : registry -> registry) (r : registry) : registry :=
  model_formats (mesh_library mesh_deps (model_deps r)).
