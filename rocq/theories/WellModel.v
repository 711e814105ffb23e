(** * The well readers.
    Models /repo/src/geode/geosciences_io/mesh/wl_input.cpp, well_dev_input.cpp, well_dat_input.cpp,
    well_txt_input.cpp and /repo/include/geode/geosciences_io/mesh/internal/well_input.hpp. *)
From Coq Require Import ZArith List Lia Bool Ascii String.
From Verif Require Import Base Text GocadModel MeshModel TsModel.
Import ListNotations.
Local Open Scope string_scope.
Local Open Scope list_scope.
Local Open Scope Z_scope.

Section Wells.
Context (F : Num).

(** wl_input.cpp 83-95 and vo_input.cpp 143-154 ([read_coord]). *)
Definition read_coord (line : bytes) (offset : nat) : res (point F) :=
  let tokens := string_split line in
  do _ <- check (Nat.eqb (List.length tokens) (3 + offset));
  do t0 <- idx tokens offset; do x <- string_to_double F t0;
  do t1 <- idx tokens (1 + offset); do y <- string_to_double F t1;
  do t2 <- idx tokens (2 + offset); do z <- string_to_double F t2;
  Ok (x, y, z).
(** Multiplication by 1. or -1. *)
Definition signed (crs : CRS) (v : num F) : num F := if z_sign_positive crs then v else neg F v.
(** wl_input.cpp 74-81 ([read_ref]). *)
Definition read_ref (crs : CRS) (s : istream) : res (point F * istream) :=
  do '(line, s1) <- goto_keyword "WREF" s;
  do '(x, y, z) <- read_coord line 1;
  Ok ((x, y, signed crs z), s1).
(** wl_input.cpp 97-115: the loop of [read_paths]. *)
Fixpoint paths_loop (crs : CRS) (ref : point F) (ls : list bytes) (m : mesh F edge) : res (mesh F edge) :=
  match ls with
  | [] => Ok m
  | line :: r =>
    if starts_with line "PATH" then
      do '(t0, t1, t2) <- read_coord line 2;
      let '(rx, ry, _) := ref in
      let id := nb_vertices m in
      let m1 := create_point m (plus F t1 rx, plus F t2 ry, signed crs t0) in
      do m2 <- create_edge m1 (sub32 id 1, id);
      paths_loop crs ref r m2
    else Ok m
  end.
(** wl_input.cpp 52-71 ([read_file]). *)
Definition read_wl (text : bytes) : res (mesh F edge) :=
  match goto_if "GOCAD Well" (open_text text) with
  | (None, _) => Throw ExData
  | (Some _, s) =>
    do '(name, s) <- read_header s;
    let m := set_name name empty_mesh in
    do '(crs, s) <- read_CRS s;
    do '(ref, s) <- read_ref crs s;
    let m := create_point m ref in
    do '(_, s) <- goto_keyword "PATH" s;
    paths_loop crs ref (pending s) m
  end.

(** [for pt_id in Range{ nb_vertices - 1 }: create_edge( pt_id, pt_id + 1 )] (well_input.hpp 63-66 and
    well_dev_input.cpp 81-84); the difference is on 32 bits. *)
Definition create_edges (m : mesh F edge) : res (mesh F edge) :=
  foldM (fun m pt => create_edge m (pt, add32 pt 1)) (rangez 0 (Z.to_nat (sub32 (nb_vertices m) 1))) m.
(** well_input.hpp 54-67 ([read_file]) and 70-80 ([read_coord]).  [name]: the file name without extension
    (44-51). *)
Definition read_rows (ls : list bytes) (m : mesh F edge) : res (mesh F edge) :=
  foldM (fun m line => do p <- read_coord line 0; Ok (create_point m p)) ls m.
Definition read_well (name : bytes) (text : bytes) : res (mesh F edge) :=
  do m <- read_rows (pending (open_text text)) (set_name (Some name) empty_mesh);
  create_edges m.

(** ** .dev files *)

(** well_dev_input.cpp 40-45 ([HeaderData]); a position that was never written is [None]. *)
Record DevHeader := mkDev {
  d_name : bytes;
  d_attrs : list bytes;
  d_x : option nat;
  d_y : option nat;
  d_z : option nat
}.
(** well_dev_input.cpp 120-138: one column name. *)
Definition dev_column (h : DevHeader) (it : nat * bytes) : DevHeader :=
  let '(i, t) := it in
  if beq t "X" then mkDev (d_name h) (d_attrs h) (Some i) (d_y h) (d_z h)
  else if beq t "Y" then mkDev (d_name h) (d_attrs h) (d_x h) (Some i) (d_z h)
  else if beq t "Z" then mkDev (d_name h) (d_attrs h) (d_x h) (d_y h) (Some i)
  else mkDev (d_name h) (d_attrs h ++ [t]) (d_x h) (d_y h) (d_z h).
(** well_dev_input.cpp 139-149: reading a position that was never written is undefined. *)
Definition differ (a b : option nat) : res bool :=
  match a, b with Some i, Some j => Ok (negb (Nat.eqb i j)) | _, _ => UB end.
Definition dev_check (h : DevHeader) : res unit :=
  do a <- differ (d_x h) (d_y h);
  if a then do b <- differ (d_x h) (d_z h);
    if b then do c <- differ (d_y h) (d_z h); check c else Throw ExData
  else Throw ExData.
Definition dev_columns (h : DevHeader) (line : bytes) : res DevHeader :=
  let split_line := string_split line in
  do _ <- check (Nat.leb 3 (List.length split_line));
  let h' := fold_left dev_column (combine (seq 0 (List.length split_line)) split_line) h in
  do _ <- dev_check h';
  Ok h'.
(** well_dev_input.cpp 90-155 ([read_header]), after the first line. *)
Fixpoint dev_header_loop (first_pass : bool) (h : DevHeader) (ls : list bytes) : res (DevHeader * list bytes) :=
  match ls with
  | [] => Throw ExData
  | line :: r =>
    if starts_with line "#===" then
      if first_pass then dev_header_loop false h r else Ok (h, r)
    else if starts_with line "# WELL NAME:" then
      do n <- idx (string_split line) 3;
      dev_header_loop first_pass (mkDev n (d_attrs h) (d_x h) (d_y h) (d_z h)) r
    else if first_pass then dev_header_loop first_pass h r
    else do h' <- dev_columns h line; dev_header_loop first_pass h' r
  end.
(** well_dev_input.cpp 157-168 ([create_attributes]); the pointers are represented by the names. *)
Definition dev_create_attributes (names : list bytes) (m : mesh F edge) : res (mesh F edge) :=
  foldM (fun m n => do a <- find_or_create m n 1 [zero F]; Ok (set_attr_list m (replace_attr n a (m_attrs m)))) names m.
(** [attribute->set_value( vertex, value )]. *)
Definition set_value (m : mesh F edge) (name : bytes) (v : Z) (x : num F) : res (mesh F edge) :=
  match find_attr name (m_attrs m) with
  | Some a => do vals <- setz (a_vals a) v [x];
              Ok (set_attr_list m (replace_attr name (mkAttr (a_type a) (a_def a) vals) (m_attrs m)))
  | None => UB
  end.
Definition is_pos (p : option nat) (i : nat) : bool := match p with Some j => Nat.eqb i j | None => false end.
(** well_dev_input.cpp 182-203 ([assign_point_attributes]); the state is the mesh and the counter. *)
Definition dev_assign (h : DevHeader) (v : Z) (st : mesh F edge * nat) (it : nat * bytes) : res (mesh F edge * nat) :=
  let '(m, counter) := st in
  let '(i, t) := it in
  if is_pos (d_x h) i || is_pos (d_y h) i || is_pos (d_z h) i then Ok st else
  do x <- string_to_double F t;
  do n <- idx (d_attrs h) counter;
  do m' <- set_value m n v x;
  Ok (m', S counter).
(** well_dev_input.cpp 170-180 ([create_point]). *)
Definition dev_coord (split_line : list bytes) (p : option nat) : res (num F) :=
  match p with Some i => do t <- idx split_line i; string_to_double F t | None => UB end.
(** well_dev_input.cpp 67-80: one row. *)
Definition dev_row (h : DevHeader) (m : mesh F edge) (line : bytes) : res (mesh F edge) :=
  let split_line := string_split line in
  do _ <- check (Nat.eqb (List.length split_line) (List.length (d_attrs h) + 3));
  do x <- dev_coord split_line (d_x h);
  do y <- dev_coord split_line (d_y h);
  do z <- dev_coord split_line (d_z h);
  let v := nb_vertices m in
  do '(m', _) <- foldM (dev_assign h v) (combine (seq 0 (List.length split_line)) split_line) (create_point m (x, y, z), O);
  Ok m'.
(** well_dev_input.cpp 61-85 ([read_file]). *)
Definition read_dev (text : bytes) : res (mesh F edge) :=
  do s <- check_keyword "# WELL TRACE FROM PETREL" (open_text text);
  do '(h, rows) <- dev_header_loop true (mkDev [] [] None None None) (pending s);
  do m <- dev_create_attributes (d_attrs h) (set_name (Some (d_name h)) empty_mesh);
  do m <- foldM (dev_row h) rows m;
  create_edges m.
End Wells.
