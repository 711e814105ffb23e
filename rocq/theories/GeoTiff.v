(** * The GeoTIFF input of a grid (src/geode/geosciences_io/mesh/geotiff_input.cpp) and the level of the logger, which it
    and the GeoTIFF input of a surface (polytiff_input.cpp) change while they load the image.

    GDAL and OpenGeode are given by what their calls answer: a value or an exception.  They are supposed to leave the level of the logger
    alone, except load_light_regular_grid, which runs the GeoTIFF input of a grid. *)
From Coq Require Import ZArith List Bool.
From Verif Require Import Base.
Import ListNotations.

Section GeoTiff.
(** [L]: levels of the logger (a global variable); [critical]: Logger::LEVEL::critical. *)
Context {L R C G S : Type} (critical : L).
(** A computation that reads and changes the level; an exception keeps the level reached when it is thrown. *)
Definition io (A : Type) : Type := L -> res A * L.
Definition ret {A} (a : A) : io A := fun l => (Ok a, l).
Definition call {A} (r : res A) : io A := fun l => (r, l).
Definition get_level : io L := fun l => (Ok l, l).
Definition set_level (x : L) : io unit := fun _ => (Ok tt, x).
Definition ibind {A B} (a : io A) (f : A -> io B) : io B := fun l =>
  match a l with
  | (Ok x, l') => f x l'
  | (Throw e, l') => (Throw e, l')
  | (UB, l') => (UB, l')
  | (Hang, l') => (Hang, l')
  end.

(** What the libraries answer for a file. *)
Record image := mkImage {
  opened : res unit;          (* GDALFile::GDALFile *)
  raster : res R;             (* load_raster_image *)
  system : res C;             (* GDALFile::read_coordinate_system *)
  converted : R -> C -> res G (* convert_raster_image_into_grid *)
}.
(** GEOTIFFInputImpl::GEOTIFFInputImpl and read_file (48-64), GEOTIFFInput::read (75-79). *)
Definition read_geotiff (f : image) : io G :=
  ibind (call (opened f)) (fun _ =>
  ibind get_level (fun level =>
  ibind (set_level critical) (fun _ =>
  ibind (call (raster f)) (fun r =>
  ibind (set_level level) (fun _ =>
  ibind (call (system f)) (fun c =>
  call (converted f r c))))))).
(** GEOTIFFInput::is_loadable (81-95): [percent] is the answer of is_raster_image_loadable, [system_ok] the one of
    is_coordinate_system_loadable; percentages are integers from 0 to 100. *)
Definition geotiff_loadable (percent : Z) (f : image) (system_ok : bool) : res Z :=
  if Z.eqb percent 100 then do _ <- opened f; Ok (if system_ok then 100%Z else 0%Z) else Ok percent.

(** PolyTIFFInputImpl::PolyTIFFInputImpl and read_file (polytiff_input.cpp 45-56), PolyTIFFInput::read (101-106).  [elevations] is
    what follows line 56 (PolyTiff.v): it does not use the logger. *)
Definition read_polytiff_level (f : image) (elevations : G -> res S) : io S :=
  ibind (call (opened f)) (fun _ =>
  ibind get_level (fun level =>
  ibind (set_level critical) (fun _ =>
  ibind (read_geotiff f) (fun g =>
  ibind (set_level level) (fun _ =>
  call (elevations g)))))).

(** A program that loads files one after the other and goes on after an exception. *)
Inductive load := LoadGrid (f : image) | LoadSurface (f : image) (elevations : G -> res S).
Definition run (x : load) (l : L) : L :=
  match x with
  | LoadGrid f => snd (read_geotiff f l)
  | LoadSurface f e => snd (read_polytiff_level f e l)
  end.
Definition run_all (xs : list load) (l : L) : L := fold_left (fun l x => run x l) xs l.
End GeoTiff.
