(** * The GRDECL (corner-point grid) reader.
    Models /repo/src/geode/geosciences_io/mesh/grdecl_input.cpp. *)
From Coq Require Import ZArith List Lia Bool Ascii String.
From Verif Require Import Base Text.
Import ListNotations.
Local Open Scope string_scope.
Local Open Scope list_scope.
Local Open Scope Z_scope.

(** The operations on doubles used by [interpolate_on_pillar]. *)
Record Arith (F : Num) := mkArith {
  asub : num F -> num F -> num F;
  amul : num F -> num F -> num F;
  adiv : num F -> num F -> num F;
  aone : num F
}.

(** absl::StrSplit( text, one character ): empty pieces are kept. *)
Fixpoint split_char (c : ascii) (cur t : bytes) : list bytes :=
  match t with
  | [] => [cur]
  | x :: r => if Ascii.eqb x c then cur :: split_char c [] r else split_char c (cur ++ [x]) r
  end.

Section Grdecl.
Context (F : Num) (A : Arith F).
Definition gpoint : Type := num F * num F * num F.
(** grdecl_input.cpp 48-52. *)
Record pillar := mkPillar { top : gpoint; bottom : gpoint }.

(** grdecl_input.cpp 54-62 ([interpolate_on_pillar]). *)
Definition interpolate (depth : num F) (p : pillar) : gpoint :=
  let '(tx, ty, tz) := top p in
  let '(bx, by_, bz) := bottom p in
  let lambda := adiv F A (asub F A depth tz) (asub F A bz tz) in
  let mu := asub F A (aone F A) lambda in
  let mix b t := plus F (amul F A b lambda) (amul F A t mu) in
  (mix bx tx, mix by_ ty, mix bz tz).

(** grdecl_input.cpp 120-131 ([read_dimensions]).  When no line contains an F, [getline] keeps
    failing and the loop never ends. *)
Fixpoint until_F (cur : bytes) (ls : list bytes) : res (bytes * list bytes) :=
  if contains cur "F" then Ok (cur, ls) else
  match ls with
  | [] => Hang
  | l :: r => until_F l r
  end.
Definition read_dimensions (s : istream) : res (Z * Z * Z * istream) :=
  do '(line, s1) <- goto_keyword "SPECGRID" s;
  do '(line, r) <- until_F line (pending s1);
  let tokens := string_split line in
  do t0 <- idx tokens 0; do nx <- string_to_index t0;
  do t1 <- idx tokens 1; do ny <- string_to_index t1;
  do t2 <- idx tokens 2; do nz <- string_to_index t2;
  Ok (nx, ny, nz, mkStream r (nl s1)).

(** grdecl_input.cpp 91-118 ([get_filenames_and_keywords]).  The map is an association list, the
    last insertion first. *)
Definition without_ends (w : bytes) : bytes :=
  match w with [] => [] | _ :: t => removelast t end.
Definition include_token (line : bytes) (m : list (bytes * bytes)) (token : bytes) : res (list (bytes * bytes)) :=
  if contains token "." then
    do key <- front (split_char "." [] token);
    do w <- front (string_split line);
    Ok ((key, without_ends w) :: m)
  else Ok m.
Definition include_line (line : bytes) (m : list (bytes * bytes)) : res (list (bytes * bytes)) :=
  foldM (include_token line) (split_char "_" [] line) m.
(** [b]: end of line at the end of the file.  Returns the map and the lines from where the last search
    for INCLUDE started (where the stream is put back). *)
Fixpoint includes (b : bool) (ls : list bytes) (back : list bytes) (m : list (bytes * bytes))
    : res (list (bytes * bytes) * list bytes) :=
  match ls with
  | [] => Ok (m, back)
  | l :: r =>
    if starts_with l "INCLUDE" then
      match r with
      | [] => do m' <- include_line (if b then [] else l) m; Ok (m', [])
      | l2 :: r2 => do m' <- include_line l2 m; includes b r2 r2 m'
      end
    else includes b r back m
  end.
Fixpoint lookup (k : bytes) (m : list (bytes * bytes)) : option bytes :=
  match m with
  | [] => None
  | (k', v) :: r => if beq k k' then Some v else lookup k r
  end.

(** grdecl_input.cpp 151-193 ([read_pillar]): coordinates of one line. *)
Definition three (ts : list (num F)) : res gpoint :=
  do x <- idx ts 0; do y <- idx ts 1; do z <- idx ts 2; Ok (x, y, z).
Definition store {T} (cap : Z) (acc : list T) (x : T) : res (list T) :=
  if Z.of_nat (List.length acc) <? cap then Ok (acc ++ [x]) else UB.
(** grdecl_input.cpp 133-149 ([read_pillars_from_file]): the loop.  [cur] is the current line.  At the
    end of the file [getline] fails: [line] becomes empty (text ended by an end of line) and nothing
    changes any more, or keeps its content, which is stored again and again until the array
    overflows (or, for a 3-token line, the second line is missing). *)
Fixpoint pillars_loop (b : bool) (cap : Z) (cur : bytes) (ls : list bytes) (acc : list pillar)
    : res (list pillar * list bytes) :=
  if starts_with cur "/" then Ok (acc, ls) else
  match string_split cur with
  | [] => match ls with [] => Hang | l :: r => pillars_loop b cap l r acc end
  | [_; _; _; _; _; _] as ts =>
    do vs <- mapM (string_to_double F) ts;
    do t <- three vs; do bt <- three (skipn 3 vs);
    do acc' <- store cap acc (mkPillar t bt);
    match ls with [] => if b then Hang else UB | l :: r => pillars_loop b cap l r acc' end
  | [_; _; _] as ts =>
    do vs <- mapM (string_to_double F) ts;
    do t <- three vs;
    match ls with
    | [] => UB
    | l2 :: r2 =>
      let ts2 := string_split l2 in
      do x <- idx ts2 0; do vx <- string_to_double F x;
      do y <- idx ts2 1; do vy <- string_to_double F y;
      do z <- idx ts2 2; do vz <- string_to_double F z;
      do acc' <- store cap acc (mkPillar t (vx, vy, vz));
      match r2 with [] => if b then Hang else UB | l :: r => pillars_loop b cap l r acc' end
    end
  | _ => Throw ExData
  end.
(** The array of pillars has [(nx + 1) * (ny + 1)] entries; the entries not read are default points. *)
Definition pillars_cap (nx ny : Z) : Z := mul32 (add32 nx 1) (add32 ny 1).
Definition read_pillars (nx ny : Z) (s : istream) : res (list pillar * istream) :=
  do '(line, s1) <- goto_keyword "COORD" s;
  let '(_, cur, s2) := getline line s1 in
  do '(ps, r) <- pillars_loop (nl s2) (pillars_cap nx ny) cur (pending s2) [];
  Ok (ps, mkStream r (nl s2)).

(** grdecl_input.cpp 207-225 ([read_depths_from_file]). *)
Definition store_depth (cap : Z) (acc : list (num F)) (t : bytes) : res (list (num F)) :=
  do v <- string_to_double F t; store cap acc v.
Fixpoint depths_loop (b : bool) (cap : Z) (cur : bytes) (ls : list bytes) (acc : list (num F))
    : res (list (num F) * list bytes) :=
  if starts_with cur "/" then Ok (acc, ls) else
  do acc' <- foldM (store_depth cap) (string_split cur) acc;
  match ls with
  | [] => match string_split cur with [] => Hang | _ => if b then Hang else UB end
  | l :: r => depths_loop b cap l r acc'
  end.
Definition depths_cap (nx ny nz : Z) : Z := wrap32 (8 * nx * ny * nz).
Definition read_depths (nx ny nz : Z) (s : istream) : res (list (num F) * istream) :=
  do '(line, s1) <- goto_keyword "ZCORN" s;
  let '(_, cur, s2) := getline line s1 in
  do '(ds, r) <- depths_loop (nl s2) (depths_cap nx ny nz) cur (pending s2) [];
  Ok (ds, mkStream r (nl s2)).

(** grdecl_input.cpp 239-284 ([cell_points]) and 339-357 ([cell_pillars_id]).  [k2] is twice the layer.
    Unsigned arithmetic wraps once at the end, which is the same as wrapping at each operation.
    Reading an entry of the depths that was not written reads an uninitialised double. *)
Definition default_pillar : pillar := mkPillar (zero F, zero F, zero F) (zero F, zero F, zero F).
Definition pillar_at (cap : Z) (ps : list pillar) (i : Z) : res pillar :=
  if i <? cap then Ok (nth (Z.to_nat i) ps default_pillar) else UB.
Definition depth_at (ds : list (num F)) (i : Z) : res (num F) := idxz ds i.
Definition cell_points (nx ny : Z) (ps : list pillar) (ds : list (num F)) (c : Z * Z * Z) : res (list gpoint) :=
  let '(i, j, k2) := c in
  let cap := pillars_cap nx ny in
  do bl <- pillar_at cap ps (wrap32 (i + (nx + 1) * (j + 1)));
  do tl <- pillar_at cap ps (wrap32 (i + (nx + 1) * j));
  do br <- pillar_at cap ps (wrap32 (i + (nx + 1) * (j + 1) + 1));
  do tr <- pillar_at cap ps (wrap32 (i + (nx + 1) * j + 1));
  do d0 <- depth_at ds (wrap32 (2 * i + 4 * nx * j + 4 * nx * ny * (k2 + 1) + 2 * nx));
  do d1 <- depth_at ds (wrap32 (2 * i + 4 * nx * j + 4 * nx * ny * (k2 + 1) + 2 * nx + 1));
  do d2 <- depth_at ds (wrap32 (2 * i + 4 * nx * j + 4 * nx * ny * (k2 + 1) + 1));
  do d3 <- depth_at ds (wrap32 (2 * i + 4 * nx * j + 4 * nx * ny * (k2 + 1)));
  do d4 <- depth_at ds (wrap32 (2 * i + 4 * nx * j + 2 * nx + 4 * nx * ny * k2));
  do d5 <- depth_at ds (wrap32 (2 * i + 4 * nx * j + 2 * nx + 1 + 4 * nx * ny * k2));
  do d6 <- depth_at ds (wrap32 (2 * i + 4 * nx * j + 1 + 4 * nx * ny * k2));
  do d7 <- depth_at ds (wrap32 (2 * i + 4 * nx * j + 4 * nx * ny * k2));
  Ok [interpolate d0 bl; interpolate d1 br; interpolate d2 tr; interpolate d3 tl;
      interpolate d4 bl; interpolate d5 br; interpolate d6 tr; interpolate d7 tl].

(** grdecl_input.cpp 286-317 ([create_points]): the three nested loops as one list of cells. *)
Definition cells (nx ny nz : Z) : list (Z * Z * Z) :=
  flat_map (fun k => flat_map (fun j => map (fun i => (i, j, wrap32 (2 * k))) (rangez 0 (Z.to_nat nx)))
                       (rangez 0 (Z.to_nat ny))) (rangez 0 (Z.to_nat nz)).
(** [NNSearch3D::colocated_index_mapping] is not in the repository: it is a parameter that gives the
    mapping and the unique points. *)
Context (coloc : list gpoint -> list Z * list gpoint).
(** grdecl_input.cpp 319-337 ([create_cells]). *)
Definition create_cells (nx ny nz : Z) (ps : list pillar) (ds : list (num F)) : res (list gpoint * list (list Z)) :=
  do pss <- mapM (cell_points nx ny ps ds) (cells nx ny nz);
  let '(mapping, unique) := coloc (List.concat pss) in
  do hexas <- mapM (fun c => mapM (fun l => idxz mapping (wrap32 (l + 8 * c))) (rangez 0 8))
                (rangez 0 (Z.to_nat (wrap32 (nx * ny * nz))));
  Ok (unique, hexas).

(** grdecl_input.cpp 78-89 ([read_file]).  [files] gives the content of the other files of the folder; a file
    that cannot be opened is read as an empty one. *)
Definition other_file (files : bytes -> option bytes) (name : bytes) : istream :=
  match files name with Some t => open_text t | None => mkStream [] false end.
Definition read_grdecl (files : bytes -> option bytes) (text : bytes) : res (list gpoint * list (list Z)) :=
  do '(nx, ny, nz, s) <- read_dimensions (open_text text);
  do '(m, r) <- includes (nl s) (pending s) (pending s) [];
  let s := mkStream r (nl s) in
  do '(ps, s) <- match lookup "COORD" m with
                 | Some f => do '(ps, _) <- read_pillars nx ny (other_file files f); Ok (ps, s)
                 | None => read_pillars nx ny s
                 end;
  do '(ds, s) <- match lookup "ZCORN" m with
                 | Some f => do '(ds, _) <- read_depths nx ny nz (other_file files f); Ok (ds, s)
                 | None => read_depths nx ny nz s
                 end;
  create_cells nx ny nz ps ds.
End Grdecl.
