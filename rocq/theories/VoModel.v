(** * The Voxet reader.
    Models /repo/src/geode/geosciences_io/mesh/vo_input.cpp. *)
From Coq Require Import ZArith List Lia Bool Ascii String.
From Verif Require Import Base Text GocadModel MeshModel WellModel.
Import ListNotations.
Local Open Scope string_scope.
Local Open Scope list_scope.
Local Open Scope Z_scope.

(** [absl::StrReplaceAll( line, { { "ASCII_DATA_FILE ", "" }, { quote, "" } } )] (vo_input.cpp 60-61): scan from
    the left; [skip] counts the characters of a removed keyword still to pass. *)
Fixpoint clean_name (skip : nat) (l : bytes) : bytes :=
  match l with
  | [] => []
  | c :: t =>
    match skip with
    | S n => clean_name n t
    | O => if starts_with l "ASCII_DATA_FILE " then clean_name 15 t
           else if Ascii.eqb c QUOTE then clean_name O t else c :: clean_name O t
    end
  end.
(** [absl::StripSuffix( name, "\r" )]. *)
Definition strip_cr (l : bytes) : bytes :=
  match rev l with c :: t => if Ascii.eqb c (ascii_of_nat 13) then rev t else l | [] => l end.
(** vo_input.cpp 51-62 ([get_data_file]). *)
Definition get_data_file (s : istream) : option bytes * istream :=
  match goto_if "ASCII_DATA_FILE" s with
  | (None, s1) => (None, s1)
  | (Some line, s1) => (Some (clean_name 0 line), s1)
  end.

Section Vo.
Context (F : Num).
(** [geode::point_point_distance], and the division of a double by an index. *)
Context (dist : point F -> point F -> num F) (divn : num F -> Z -> num F).
(** The files of the disk. *)
Context (files : bytes -> option bytes).

(** A regular grid: origin, number and length of the cells along each axis, cell attributes. *)
Record Voxet := mkVo {
  v_name : option bytes;
  v_origin : point F;
  v_n : Z * Z * Z;
  v_len : num F * num F * num F;
  v_attrs : list (bytes * attr (num F))
}.
(** [RegularGrid3D::nb_cells] and [cell_index] (OpenGeode): [index_t] arithmetic, first axis fastest; in a
    release build nothing checks that the indices are in the grid. *)
Definition nb_cells (n : Z * Z * Z) : Z := let '(nx, ny, nz) := n in wrap32 (nx * ny * nz).
Definition cell_index (n : Z * Z * Z) (ijk : Z * Z * Z) : Z :=
  let '(nx, ny, _) := n in let '(i, j, k) := ijk in wrap32 (i + nx * (j + ny * k)).

(** vo_input.cpp 120-128 ([read_cells_number]). *)
Definition read_cells_number (s : istream) : res (Z * Z * Z * istream) :=
  do '(line, s) <- goto_keyword "AXIS_N" s;
  let tokens := string_split line in
  do t <- idx tokens 1; do nx <- string_to_index t;
  do t <- idx tokens 2; do ny <- string_to_index t;
  do t <- idx tokens 3; do nz <- string_to_index t;
  Ok ((nx, ny, nz), s).
(** vo_input.cpp 91-141 ([initialize_grid], [read_grid_size], [compute_cells_length]). *)
Definition initialize_grid (name : option bytes) (s : istream) : res (Voxet * istream) :=
  do '(line, s) <- goto_keyword "AXIS_O" s;
  do origin <- read_coord F line 1;
  do '(line, s) <- goto_keyword "AXIS_U" s;
  do u <- read_coord F line 1;
  do '(line, s) <- goto_keyword "AXIS_V" s;
  do v <- read_coord F line 1;
  do '(line, s) <- goto_keyword "AXIS_W" s;
  do w <- read_coord F line 1;
  do '(n, s) <- read_cells_number s;
  let '(nx, ny, nz) := n in
  Ok (mkVo name origin n (divn (dist origin u) nx, divn (dist origin v) ny, divn (dist origin w) nz) [], s).

(** [cell_attribute_manager().find_or_create_attribute< VariableAttribute, double >( name, 0 )]. *)
Definition vo_attribute (m : Voxet) (name : bytes) : Voxet :=
  match find_attr name (v_attrs m) with
  | Some _ => m
  | None => mkVo (v_name m) (v_origin m) (v_n m) (v_len m)
              (replace_attr name (mkAttr 1 [zero F] (repeat [zero F] (Z.to_nat (nb_cells (v_n m))))) (v_attrs m))
  end.
Definition vo_set (m : Voxet) (name : bytes) (c : Z) (x : num F) : res Voxet :=
  match find_attr name (v_attrs m) with
  | Some a => do vals <- setz (a_vals a) c [x];
              Ok (mkVo (v_name m) (v_origin m) (v_n m) (v_len m)
                    (replace_attr name (mkAttr (a_type a) (a_def a) vals) (v_attrs m)))
  | None => UB
  end.
(** vo_input.cpp 186-206: one row of the data file. *)
Definition vo_row (names : list bytes) (m : Voxet) (line : bytes) : res Voxet :=
  let tokens := string_split line in
  do _ <- check (Nat.eqb (List.length tokens) (List.length names + 3));
  do t <- idx tokens 0; do i <- string_to_index t;
  do t <- idx tokens 1; do j <- string_to_index t;
  do t <- idx tokens 2; do k <- string_to_index t;
  let cell_id := cell_index (v_n m) (i, j, k) in
  foldM (fun m an => let '(a, n) := an in
           do t <- idx tokens (3 + a); do x <- string_to_double F t; vo_set m n cell_id x)
    (combine (seq 0 (List.length names)) names) m.
(** vo_input.cpp 156-208 ([read_data_file]).  With less than four tokens on the second line the size of the array
    of attributes wraps around and its allocation throws.  When there is no second line, [line] is
    empty, or still the first line if that one does not end by a line feed. *)
Definition read_data_file (folder : bytes) (m : Voxet) (s : istream) : res Voxet :=
  match get_data_file s with
  | (None, _) => Throw ExData
  | (Some name, _) =>
    match files (folder ++ strip_cr name) with
    | None => Throw ExData
    | Some data =>
      let ls := pending (open_text data) in
      let tokens := string_split (nth 1 ls (if nl (open_text data) then [] else nth 0 ls [])) in
      if Nat.ltb (List.length tokens) 4 then Throw ExBadAlloc else
      let names := skipn 4 tokens in
      foldM (vo_row names) (skipn 3 ls) (fold_left vo_attribute names m)
    end
  end.
(** vo_input.cpp 79-88 ([read_file]). *)
Definition read_vo (folder text : bytes) : res Voxet :=
  match goto_if "GOCAD Voxet" (open_text text) with
  | (None, _) => Throw ExData
  | (Some _, s) =>
    do '(name, s) <- read_header s;
    do '(_, s) <- read_CRS s;
    do '(m, s) <- initialize_grid name s;
    read_data_file folder m s
  end.
(** vo_input.cpp 231-246 ([additional_files]): the announced files, and whether they exist. *)
Definition vo_additional_files (text : bytes) : list (bytes * bool) :=
  match get_data_file (open_text text) with
  | (None, _) => []
  | (Some name, _) => [(name, match files name with Some _ => true | None => false end)]
  end.
End Vo.
