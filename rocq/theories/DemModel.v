(** * The DEM (raster) reader.
    Models /repo/src/geode/geosciences_io/mesh/dem_input.cpp.  GDAL itself (opening the file,
    [GetRasterXSize], [RasterIO], the geographic transform) is not modelled: the raster is given as
    its width, its height and the list of its elevations. *)
From Coq Require Import ZArith List Lia Bool.
From Verif Require Import Base.
Import ListNotations.
Local Open Scope Z_scope.

Section Dem.
(** [E]: elevations; [P]: points; [no_data e]: the test of line 115 ([current_elevation ==
    no_data_value], a [float] compared with a [double]); [point i j e]: lines 109-110 and 119-125, the
    point of row [i], column [j] and elevation [e]. *)
Context {E P : Type} (no_data : E -> bool) (point : Z -> Z -> E -> P).

(** dem_input.cpp 113-126: one pixel.  The state is [vertices] and the points of the builder;
    [create_point] returns the number of points before the call. *)
Definition dem_pixel (width : Z) (elevation : list E) (st : list Z * list P) (ij : Z * Z) : res (list Z * list P) :=
  let '(vertices, points) := st in
  let '(i, j) := ij in
  let vertex := add32 (mul32 i width) j in
  do e <- idxz elevation vertex;
  if no_data e then Ok (vertices, points) else
  do vertices' <- setz vertices vertex (Z.of_nat (List.length points));
  Ok (vertices', points ++ [point i j e]).
(** dem_input.cpp 89-129 ([read_vertices]). *)
Definition dem_vertices (width height : Z) (elevation : list E) : res (list Z * list P) :=
  let nb_vertices := mul32 width height in
  foldM (fun st i => foldM (fun st j => dem_pixel width elevation st (i, j)) (rangez 0 (Z.to_nat width)) st)
    (rangez 0 (Z.to_nat height)) (repeat NO_ID (Z.to_nat nb_vertices), []).

(** dem_input.cpp 70-79: the loop over the four corners, left at the first one without vertex. *)
Fixpoint dem_resolve (vertices : list Z) (polygon : list Z) : res (option (list Z)) :=
  match polygon with
  | [] => Ok (Some [])
  | v :: r =>
    do id <- idxz vertices v;
    if id =? NO_ID then Ok None else
    do o <- dem_resolve vertices r;
    Ok (match o with Some ids => Some (id :: ids) | None => None end)
  end.
(** dem_input.cpp 63-85: one block of pixels. *)
Definition dem_block (width : Z) (vertices : list Z) (polygons : list (list Z)) (ij : Z * Z) : res (list (list Z)) :=
  let '(i, j) := ij in
  let i_offset := mul32 i width in
  let j_offset := add32 j width in
  let polygon := [add32 i_offset j; add32 (add32 i_offset j) 1; add32 i_offset j_offset;
                  add32 (add32 i_offset j_offset) 1] in
  do o <- dem_resolve vertices polygon;
  Ok (match o with Some p => polygons ++ [p] | None => polygons end).
(** dem_input.cpp 59-87 ([create_polygons]); [height_ - 1] and [width_ - 1] on 32 bits. *)
Definition dem_polygons (width height : Z) (vertices : list Z) : res (list (list Z)) :=
  foldM (fun ps i => foldM (fun ps j => dem_block width vertices ps (i, j)) (rangez 0 (Z.to_nat (sub32 width 1))) ps)
    (rangez 0 (Z.to_nat (sub32 height 1))) [].
(** dem_input.cpp 51-56 ([read_file]). *)
Definition read_dem (width height : Z) (elevation : list E) : res (list P * list (list Z)) :=
  do '(vertices, points) <- dem_vertices width height elevation;
  do polygons <- dem_polygons width height vertices;
  Ok (points, polygons).
End Dem.
