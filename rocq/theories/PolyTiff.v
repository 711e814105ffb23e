(** * The GeoTIFF input of a surface (src/geode/geosciences_io/mesh/polytiff_input.cpp).

    GDAL and the conversions of OpenGeode are not modelled but given by what they do.
    - load_light_regular_grid of an image of [width] x [height] pixels is a grid with one *cell* for each pixel
      (tests/mesh/test-polytiff.cpp 45-50: for cea.tiff, 514 x 515 pixels, 264710 = 514 x 515 polygons and 265740 = 515 x 516 vertices).
    - convert_grid_into_polygonal_surface, then convert_polygonal_surface2d_into_3d: the vertices of the grid row by row, vertex
      [i + (width + 1) j] at the corner [i] [j]; the third coordinate is the no-data value.
    - RasterIO writes the pixels row by row, from the beginning of the buffer and with no gap (the two last arguments are 0).
    The elements of absl::FixedArray< float > are not initialised: reading one that nobody wrote is undefined behaviour. *)
From Coq Require Import ZArith List Bool.
From Verif Require Import Base GocadModel.
Import ListNotations.
Local Open Scope Z_scope.

Section PolyTiff.
(** [E]: elevations; [P]: points; [no_data e]: the test of line 80 (a float compared with a double); [corner i j]: the point of a
    vertex of the surface before line 77; [set_z p e]: lines 84-86. *)
Context {E P : Type} (no_data : E -> bool) (corner : Z -> Z -> P) (set_z : P -> E -> P).

(** The points of the surface, in the order of the vertices (57, 73-74). *)
Definition grid_points (width height : Z) : list P :=
  map (fun v => corner (v mod (width + 1)) (v / (width + 1))) (rangez 0 (Z.to_nat ((width + 1) * (height + 1)))).
(** Line 62 and RasterIO (66-67): the buffer, [None] for an element not written. *)
Definition elevation_buffer (nb_vertices : Z) (raster : list E) : res (list (option E)) :=
  if lenz raster <=? nb_vertices then Ok (map Some raster ++ repeat None (Z.to_nat (nb_vertices - lenz raster)))
  else UB.
(** One vertex (77-87). *)
Definition set_elevation (buffer : list (option E)) (points : list P) (v : Z) : res (list P) :=
  do o <- idxz buffer v;
  match o with
  | None => UB
  | Some e =>
      if no_data e then Ok points
      else do p <- idxz points v; setz points v (set_z p e)
  end.
(** read_file (51-89).  [bands]: the number of bands of the image; [raster]: the pixels of the first one, row by row, [None] when RasterIO
    fails.  The result is the list of the points of the surface. *)
Definition read_polytiff (bands width height : Z) (raster : option (list E)) : res (list P) :=
  let points := grid_points width height in
  if bands <=? 0 then Throw ExData
  else match raster with
  | None => Throw ExData
  | Some px =>
      do buffer <- elevation_buffer (lenz points) px;
      foldM (set_elevation buffer) (rangez 0 (List.length points)) points
  end.
End PolyTiff.
