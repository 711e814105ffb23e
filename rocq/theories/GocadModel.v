(** * Model of src/geode/geosciences_io/mesh/gocad_common.cpp and of
    include/geode/geosciences_io/mesh/internal/gocad_common.hpp.

    Line numbers refer to gocad_common.cpp unless "hpp" is written.  Log
    messages are not modelled. *)
From Coq Require Import ZArith List Lia Bool Ascii String.
From Verif Require Import Base Text.
Import ListNotations.
Local Open Scope string_scope.
Local Open Scope list_scope.
Local Open Scope Z_scope.

Definition Q1 : bytes := [QUOTE].

(** Comparison of [tokens[i].back()] with the quote character (lines 46-47). *)
Definition ends_with_quote (t : bytes) : bool :=
  match rev t with c :: _ => Ascii.eqb c QUOTE | [] => false end.

(** get_string_between_quote (41-61) and split_string_considering_quotes
    (63-83), fused in one structural recursion on the tokens: [q = Some acc] when inside
    a quotation, [acc] being the text gathered so far.  In the C++ the loop
    test [from_to_id++ < tokens.size()] compares before incrementing, and the
    second operand of the && reads [tokens[from_to_id]] after incrementing, hence when no token ends with a quote
    [tokens[tokens.size()]] is read: [UB]; the exception of lines 51-57 would
    only be reached after it. *)
Fixpoint merge_quotes (q : option bytes) (ts : list bytes) : res (list bytes) :=
  match ts, q with
  | [], None => Ok []
  | [], Some _ => UB
  | t :: r, None =>
      if beq t Q1 then merge_quotes (Some []) r
      else do m <- merge_quotes None r; Ok (t :: m)
  | t :: r, Some acc =>
      if ends_with_quote t
      then do m <- merge_quotes None r; Ok ((acc ++ removelast t) :: m)
      else merge_quotes (Some (acc ++ t ++ [SP])) r
  end.
Definition split_quotes (line : bytes) : res (list bytes) :=
  merge_quotes None (string_split line).

(** read_name (611-616). *)
Definition read_name (tokens : list bytes) : bytes := remove_quotes (join tokens).

(** write_string_with_quotes (84-93). *)
Definition write_quoted (s : bytes) : bytes :=
  let tokens := string_split s in
  if (1 <? Z.of_nat (List.length tokens))
  then (QUOTE :: SP :: read_name tokens) ++ [QUOTE]
  else read_name tokens.

(** ** HEADER section *)

(** read_header, loop (334-346): the last "name:" line wins. *)
Fixpoint header_loop (name : option bytes) (ls : list bytes) : res (option bytes * list bytes) :=
  match ls with
  | [] => Throw ExData
  | l :: r =>
      if starts_with l "}" then Ok (name, r)
      else match after_first "name:" l with
           | Some suffix => header_loop (Some (read_name (string_split suffix))) r
           | None => header_loop name r
           end
  end.
(** read_header (328-351). *)
Definition read_header (s : istream) : res (option bytes * istream) :=
  do s1 <- check_keyword "HEADER" s;
  do '(name, r) <- header_loop None (pending s1);
  Ok (name, mkStream r (nl s1)).
(** write_header (353-361), as a list of lines. *)
Definition write_header (name : option bytes) : list bytes :=
  [lit "HEADER {"] ++
  match name with Some n => [lit "name:" ++ n] | None => [] end ++
  [lit "}"].

(** ** Coordinate system section *)

(** CRSData (hpp 52-62). *)
Record CRS := mkCRS {
  axis_names : bytes * bytes * bytes;
  axis_units : bytes * bytes * bytes;
  z_sign_positive : bool;
  crs_name : bytes;
  projection : bytes;
  datum : bytes
}.
Definition default_crs : CRS :=
  mkCRS (lit "X", lit "Y", lit "Z") (lit "m", lit "m", lit "m") true
        "Default" "Unknown" "Unknown".

(** One line of the loop of read_CRS (379-395). *)
Definition crs_line (crs : CRS) (l : bytes) : res CRS :=
  do tokens <- split_quotes l;
  do t0 <- idx tokens 0;
  if beq t0 "ZPOSITIVE" then
    do t1 <- idx tokens 1;
    Ok (mkCRS (axis_names crs) (axis_units crs) (beq t1 "Elevation")
              (crs_name crs) (projection crs) (datum crs))
  else if beq t0 "PROJECTION" then
    do t1 <- idx tokens 1;
    Ok (mkCRS (axis_names crs) (axis_units crs) (z_sign_positive crs)
              (crs_name crs) t1 (datum crs))
  else if beq t0 "DATUM" then
    do t1 <- idx tokens 1;
    Ok (mkCRS (axis_names crs) (axis_units crs) (z_sign_positive crs)
              (crs_name crs) (projection crs) t1)
  else if beq t0 "NAME" then
    do t1 <- idx tokens 1;
    Ok (mkCRS (axis_names crs) (axis_units crs) (z_sign_positive crs)
              t1 (projection crs) (datum crs))
  else Ok crs.
Fixpoint crs_loop (crs : CRS) (ls : list bytes) : res (CRS * list bytes) :=
  match ls with
  | [] => Throw ExData
  | l :: r =>
      if starts_with l "END_ORIGINAL_COORDINATE_SYSTEM" then Ok (crs, r)
      else do crs' <- crs_line crs l; crs_loop crs' r
  end.
(** read_CRS (363-400). *)
Definition read_CRS (s : istream) : res (CRS * istream) :=
  match next_if "GOCAD_ORIGINAL_COORDINATE_SYSTEM" s with
  | (None, s1) => Ok (default_crs, s1)
  | (Some _, s1) =>
      do '(crs, r) <- crs_loop default_crs (pending s1);
      Ok (crs, mkStream r (nl s1))
  end.
(** write_CRS (402-415), as a list of lines. *)
Definition write_CRS (d : CRS) : list bytes :=
  let '(n0, n1, n2) := axis_names d in
  let '(u0, u1, u2) := axis_units d in
  [ lit "GOCAD_ORIGINAL_COORDINATE_SYSTEM";
    lit "NAME " ++ write_quoted (crs_name d);
    lit "PROJECTION " ++ projection d;
    lit "DATUM " ++ datum d;
    lit "AXIS_NAME " ++ n0 ++ SP :: n1 ++ SP :: n2;
    lit "AXIS_UNIT " ++ u0 ++ SP :: u1 ++ SP :: u2;
    lit "ZPOSITIVE " ++ (if z_sign_positive d then lit "Elevation" else lit "Depth");
    lit "END_ORIGINAL_COORDINATE_SYSTEM" ].

(** ** Property headers *)

(** PropHeaderData (hpp 69-86). *)
Record PropHeader (V : Type) := mkProp {
  p_names : list bytes;
  p_ranges : list (bytes * bytes);
  p_ndv : list V;
  p_classes : list bytes;
  p_kinds : list bytes;
  p_subclasses : list (bytes * bytes);
  p_esizes : list Z;
  p_units : list bytes
}.
Arguments mkProp {V}.
Arguments p_names {V}. Arguments p_ranges {V}. Arguments p_ndv {V}.
Arguments p_classes {V}. Arguments p_kinds {V}. Arguments p_subclasses {V}.
Arguments p_esizes {V}. Arguments p_units {V}.
Definition empty_prop {V} : PropHeader V := mkProp [] [] [] [] [] [] [] [].

(** read_property_keyword_with_one_string (234-246). *)
Definition kw_one_string (kw : bytes) (n : nat) (s : istream) : res (list bytes * istream) :=
  do '(line, s1) <- goto_keyword kw s;
  do sl <- split_quotes line;
  do ds <- mapM (fun i => idx sl (i + 1)) (seq 0 n);
  Ok (ds, s1).
(** read_property_keyword_with_two_strings (248-268): after a
    "LINEARFUNCTION" two more tokens are skipped. *)
Fixpoint two_strings (sl : list bytes) (attr counter n : nat) : res (list (bytes * bytes)) :=
  match n with
  | O => Ok []
  | S m =>
      do a <- idx sl (2 * attr + 1 + counter);
      do b <- idx sl (2 * attr + 2 + counter);
      do r <- two_strings sl (S attr)
                (if beq a "LINEARFUNCTION" then counter + 2 else counter)%nat m;
      Ok ((a, b) :: r)
  end.
Definition kw_two_strings (kw : bytes) (n : nat) (s : istream)
  : res (list (bytes * bytes) * istream) :=
  do '(line, s1) <- goto_keyword kw s;
  do ds <- two_strings (string_split line) 0 0 n;
  Ok (ds, s1).
(** read_property_keyword_with_one_double (270-283). *)
Definition kw_one_double (F : Num) (kw : bytes) (n : nat) (s : istream)
  : res (list (num F) * istream) :=
  do '(line, s1) <- goto_keyword kw s;
  do ds <- mapM (fun i => do t <- idx (string_split line) (i + 1); string_to_double F t)
                (seq 0 n);
  Ok (ds, s1).
(** read_property_keyword_with_one_index_t (285-298). *)
Definition kw_one_index (kw : bytes) (n : nat) (s : istream) : res (list Z * istream) :=
  do '(line, s1) <- goto_keyword kw s;
  do ds <- mapM (fun i => do t <- idx (string_split line) (i + 1); string_to_index t)
                (seq 0 n);
  Ok (ds, s1).

(** read_prop_header (417-461). *)
Definition read_prop_header (F : Num) (prefix : bytes) (s : istream)
  : res (PropHeader (num F) * istream) :=
  match next_if (prefix ++ lit "PROPERTIES") s with
  | (None, s1) => Ok (empty_prop, s1)
  | (Some line, s1) =>
      do sl <- split_quotes line;
      let n := pred (List.length sl) in
      if Nat.eqb n 0 then Ok (empty_prop, s1)
      else
        do names <- mapM (fun i => idx sl (i + 1)) (seq 0 n);
        do '(ranges, s2) <- kw_two_strings (prefix ++ lit "PROP_LEGAL_RANGES") n s1;
        do '(ndvs, s3) <- kw_one_double F (prefix ++ lit "NO_DATA_VALUES") n s2;
        do '(classes, s4) <- kw_one_string (prefix ++ lit "PROPERTY_CLASSES") n s3;
        do '(kinds, s5) <- kw_one_string (prefix ++ lit "PROPERTY_KINDS") n s4;
        do '(subs, s6) <- kw_two_strings (prefix ++ lit "PROPERTY_SUBCLASSES") n s5;
        do '(esizes, s7) <- kw_one_index (prefix ++ lit "ESIZES") n s6;
        do '(units, s8) <- kw_one_string (prefix ++ lit "UNITS") n s7;
        Ok (mkProp names ranges ndvs classes kinds subs esizes units, s8)
  end.

(** [file << SPACE << x] for every element. *)
Definition spaced (ts : list bytes) : bytes := List.concat (map (fun t => SP :: t) ts).

(** write_prop_header (543-594), as a list of lines. *)
Definition write_prop_header (F : Num) (d : PropHeader (num F)) : list bytes :=
  [ lit "PROPERTIES" ++ spaced (map write_quoted (p_names d));
    lit "PROP_LEGAL_RANGES" ++ spaced (flat_map (fun p => [fst p; snd p]) (p_ranges d));
    lit "NO_DATA_VALUES" ++ spaced (map (os_text F) (p_ndv d));
    lit "PROPERTY_CLASSES" ++ spaced (map write_quoted (p_classes d));
    lit "PROPERTY_KINDS" ++ spaced (map write_quoted (p_kinds d));
    lit "PROPERTY_SUBCLASSES" ++ spaced (flat_map (fun p => [fst p; snd p]) (p_subclasses d));
    lit "ESIZES" ++ spaced (map show (p_esizes d));
    lit "UNITS" ++ spaced (map write_quoted (p_units d)) ].

(** PropClassHeaderData (hpp 112-118) and write_property_class_header
    (595-609). *)
Definition write_property_class_header (name kind unit : bytes) (is_z : bool) : list bytes :=
  [ lit "PROPERTY_CLASS_HEADER " ++ name ++ lit " {";
    lit "kind:" ++ kind;
    lit "unit:" ++ unit;
    lit "name:" ++ name ] ++
  (if is_z then [lit "is_Z: on"] else []) ++
  [lit "}"].

(** ** Property values on the data lines *)

(** Inner loop of read_properties (472-485): [n] items starting at [pos]. *)
Fixpoint read_items (F : Num) (tokens : list bytes) (n pos : nat)
  : res (list (num F) * nat) :=
  match n with
  | O => Ok ([], pos)
  | S m =>
      do _ <- check (Nat.ltb pos (List.length tokens));
      do t <- idx tokens pos;
      do v <- string_to_double F t;
      do '(vs, p) <- read_items F tokens m (S pos);
      Ok (v :: vs, p)
  end.
(** Number of items of a property: [geode::LRange] iterates on a
    [local_index_t], an unsigned char. *)
Definition items (esize : Z) : nat := Z.to_nat (esize mod 256).

(** read_properties (463-487): one more row of values for every property. *)
Fixpoint read_properties (F : Num) (names : list bytes) (esizes : list Z)
    (values : list (list (num F))) (tokens : list bytes) (pos : nat)
  : res (list (list (num F))) :=
  match names with
  | [] => Ok values
  | _ :: ns =>
      match esizes, values with
      | e :: es, v :: vs =>
          do '(its, p) <- read_items F tokens (items e) pos;
          do r <- read_properties F ns es vs tokens p;
          Ok ((v ++ its) :: r)
      | _, _ => UB
      end
  end.

(** ** Data sections *)

Definition point (F : Num) : Type := (num F * num F * num F)%type.

(** [value * ( crs.z_sign_positive ? 1. : -1. )] *)
Definition signed (F : Num) (crs : CRS) (z : num F) : num F :=
  if z_sign_positive crs then z else neg F z.

(** The three coordinates of a VRTX line (108-113, 143-147, 219-223). *)
Definition vrtx_point (F : Num) (crs : CRS) (tokens : list bytes) : res (point F) :=
  do t2 <- idx tokens 2;
  do x <- string_to_double F t2;
  do t3 <- idx tokens 3;
  do y <- string_to_double F t3;
  do t4 <- idx tokens 4;
  do z <- string_to_double F t4;
  Ok (x, y, signed F crs z).

(** [geode::string_to_index( tokens[i] ) - OFFSET_START] *)
Definition tok_index (offset : Z) (tokens : list bytes) (i : nat) : res Z :=
  do t <- idx tokens i;
  do v <- string_to_index t;
  Ok (sub32 v offset).

(** New OFFSET_START after a VRTX line (104-107, 138-141, 214-217). *)
Definition vrtx_offset (no_point : bool) (offset : Z) (tokens : list bytes) : res Z :=
  if no_point then do t1 <- idx tokens 1; string_to_index t1 else Ok offset.

(** TSurfData (hpp 125-150). *)
Record TSurf (F : Num) := mkTSurf {
  t_offset : Z;
  t_name : option bytes;
  t_crs : CRS;
  t_props : PropHeader (num F);
  t_points : list (point F);
  t_triangles : list (Z * Z * Z);
  t_tri_off : list Z;
  t_vert_off : list Z;
  t_bstones : list Z;
  t_borders : list (Z * Z);
  t_values : list (list (num F))
}.
Arguments mkTSurf {F}.
Arguments t_offset {F}. Arguments t_name {F}. Arguments t_crs {F}.
Arguments t_props {F}. Arguments t_points {F}. Arguments t_triangles {F}.
Arguments t_tri_off {F}. Arguments t_vert_off {F}. Arguments t_bstones {F}.
Arguments t_borders {F}. Arguments t_values {F}.

(** TSurfData::tface_id (hpp 127-137). *)
Fixpoint tface_id_loop (v : Z) (i : Z) (offs : list Z) : Z :=
  match offs with
  | [] => i - 1
  | o :: r => if v <? o then i - 1 else tface_id_loop v (i + 1) r
  end.
Definition tface_id (vert_off : list Z) (v : Z) : Z :=
  tface_id_loop v 1 (tl vert_off).

Definition is_kw (k : bytes) (a : bytes) : bool := beq k a.
Definition is_vrtx (k : bytes) : bool := beq k "VRTX" || beq k "PVRTX".
Definition is_atom (k : bytes) : bool := beq k "ATOM" || beq k "PATOM".

Definition lenz {A} (l : list A) : Z := Z.of_nat (List.length l).

(** One line of read_tfaces (135-192); [None] means that END was met. *)
Definition tface_line (F : Num) (ts : TSurf F) (line : bytes) : res (TSurf F * bool) :=
  let tokens := string_split line in
  do k <- front tokens;
  let '(mkTSurf off name crs props pts tris tro vo bst bor vals) := ts in
  if is_vrtx k then
    do off' <- vrtx_offset (match pts with [] => true | _ => false end) off tokens;
    do p <- vrtx_point F crs tokens;
    do vals' <- read_properties F (p_names props) (p_esizes props) vals tokens 5;
    Ok (mkTSurf off' name crs props (pts ++ [p]) tris tro vo bst bor vals', false)
  else if is_atom k then
    do i <- tok_index off tokens 2;
    do p <- atz pts i;
    do vals' <- read_properties F (p_names props) (p_esizes props) vals tokens 3;
    Ok (mkTSurf off name crs props (pts ++ [p]) tris tro vo bst bor vals', false)
  else if beq k "TRGL" then
    do a <- tok_index off tokens 1;
    do b <- tok_index off tokens 2;
    do c <- tok_index off tokens 3;
    Ok (mkTSurf off name crs props pts (tris ++ [(a, b, c)]) tro vo bst bor vals, false)
  else if beq k "BSTONE" then
    do a <- tok_index off tokens 1;
    Ok (mkTSurf off name crs props pts tris tro vo (bst ++ [a]) bor vals, false)
  else if beq k "BORDER" then
    do a <- tok_index off tokens 2;
    do b <- tok_index off tokens 3;
    Ok (mkTSurf off name crs props pts tris tro vo bst (bor ++ [(a, b)]) vals, false)
  else if beq k "TFACE" then
    Ok (mkTSurf off name crs props pts tris (tro ++ [lenz tris]) (vo ++ [lenz pts])
                bst bor vals, false)
  else if beq k "END" then
    Ok (mkTSurf off name crs props pts tris (tro ++ [lenz tris]) (vo ++ [lenz pts])
                bst bor vals, true)
  else Ok (ts, false).

(** read_tfaces, loop (133-197). *)
Fixpoint tfaces_loop (F : Num) (ts : TSurf F) (ls : list bytes) : res (TSurf F * list bytes) :=
  match ls with
  | [] => Throw ExData
  | l :: r =>
      do '(ts', stop) <- tface_line F ts l;
      if stop : bool then Ok (ts', r) else tfaces_loop F ts' r
  end.
Definition read_tfaces (F : Num) (ts : TSurf F) (s : istream) : res (TSurf F * istream) :=
  do '(_, s1) <- goto_keyword "TFACE" s;
  do '(ts', r) <- tfaces_loop F ts (pending s1);
  Ok (ts', mkStream r (nl s1)).

(** read_tsurf (618-633). *)
Definition read_tsurf (F : Num) (s : istream) : res (option (TSurf F) * istream) :=
  match goto_if "GOCAD TSurf" s with
  | (None, s1) => Ok (None, s1)
  | (Some _, s1) =>
      do '(name, s2) <- read_header s1;
      do '(crs, s3) <- read_CRS s2;
      do '(props, s4) <- read_prop_header F [] s3;
      let ts0 := mkTSurf 1 name crs props [] [] [0] [0] [] []
                         (map (fun _ => []) (p_names props)) in
      do '(ts, s5) <- read_tfaces F ts0 s4;
      Ok (Some ts, s5)
  end.

(** ECurveData (hpp 154-161). *)
Record ECurve (F : Num) := mkECurve {
  e_offset : Z;
  e_name : option bytes;
  e_crs : CRS;
  e_points : list (point F);
  e_edges : list (Z * Z)
}.
Arguments mkECurve {F}.
Arguments e_offset {F}. Arguments e_name {F}. Arguments e_crs {F}.
Arguments e_points {F}. Arguments e_edges {F}.

(** One line of read_ilines (99-126). *)
Definition iline_line (F : Num) (ec : ECurve F) (line : bytes) : res (ECurve F * bool) :=
  let tokens := string_split line in
  do k <- front tokens;
  let '(mkECurve off name crs pts edges) := ec in
  if is_vrtx k then
    do off' <- vrtx_offset (match pts with [] => true | _ => false end) off tokens;
    do p <- vrtx_point F crs tokens;
    Ok (mkECurve off' name crs (pts ++ [p]) edges, false)
  else if beq k "SEG" then
    do a <- tok_index off tokens 1;
    do b <- tok_index off tokens 2;
    Ok (mkECurve off name crs pts (edges ++ [(a, b)]), false)
  else if beq k "END" then Ok (ec, true)
  else Ok (ec, false).
(** read_ilines (95-127); the end of the file silently ends the section. *)
Fixpoint ilines_loop (F : Num) (ec : ECurve F) (ls : list bytes) : res (ECurve F * list bytes) :=
  match ls with
  | [] => Ok (ec, [])
  | l :: r =>
      do '(ec', stop) <- iline_line F ec l;
      if stop : bool then Ok (ec', r) else ilines_loop F ec' r
  end.
Definition read_ilines (F : Num) (ec : ECurve F) (s : istream) : res (ECurve F * istream) :=
  do '(_, s1) <- goto_keyword "ILINE" s;
  do '(ec', r) <- ilines_loop F ec (pending s1);
  Ok (ec', mkStream r (nl s1)).
(** read_ecurve (635-646). *)
Definition read_ecurve (F : Num) (s : istream) : res (option (ECurve F) * istream) :=
  match goto_if "GOCAD PLine" s with
  | (None, s1) => Ok (None, s1)
  | (Some _, s1) =>
      do '(name, s2) <- read_header s1;
      do '(crs, s3) <- read_CRS s2;
      do '(ec, s4) <- read_ilines F (mkECurve 1 name crs [] []) s3;
      Ok (Some ec, s4)
  end.

(** VSetData (hpp 166-174). *)
Record VSet (F : Num) := mkVSet {
  v_offset : Z;
  v_name : option bytes;
  v_crs : CRS;
  v_props : PropHeader (num F);
  v_points : list (point F);
  v_values : list (list (num F))
}.
Arguments mkVSet {F}.
Arguments v_offset {F}. Arguments v_name {F}. Arguments v_crs {F}.
Arguments v_props {F}. Arguments v_points {F}. Arguments v_values {F}.

(** Body of the do-while loop of read_VSet_vertices (205-228). *)
Definition vset_line (F : Num) (vs : VSet F) (line : bytes) : res (VSet F * bool) :=
  let tokens := string_split line in
  do k <- front tokens;
  let '(mkVSet off name crs props pts vals) := vs in
  if beq k "END" then Ok (vs, true)
  else if negb (is_vrtx k) then Ok (vs, false)
  else
    do off' <- vrtx_offset (match pts with [] => true | _ => false end) off tokens;
    do p <- vrtx_point F crs tokens;
    do vals' <- read_properties F (p_names props) (p_esizes props) vals tokens 5;
    Ok (mkVSet off' name crs props (pts ++ [p]) vals', false).
(** read_VSet_vertices (199-232); [goto_keywords] returns the first VRTX line,
    which is the first one processed. *)
Fixpoint vset_loop (F : Num) (vs : VSet F) (ls : list bytes) : res (VSet F * list bytes) :=
  match ls with
  | [] => Throw ExData
  | l :: r =>
      do '(vs', stop) <- vset_line F vs l;
      if stop : bool then Ok (vs', r) else vset_loop F vs' r
  end.
Definition read_VSet_vertices (F : Num) (vs : VSet F) (s : istream) : res (VSet F * istream) :=
  do '(l, s1) <- goto_keywords [lit "VRTX"; lit "PVRTX"] s;
  do '(vs', r) <- vset_loop F vs (l :: pending s1);
  Ok (vs', mkStream r (nl s1)).
(** read_vs_points (648-663). *)
Definition read_vs_points (F : Num) (s : istream) : res (option (VSet F) * istream) :=
  match goto_if "GOCAD VSet" s with
  | (None, s1) => Ok (None, s1)
  | (Some _, s1) =>
      do '(name, s2) <- read_header s1;
      do '(crs, s3) <- read_CRS s2;
      do '(props, s4) <- read_prop_header F [] s3;
      let vs0 := mkVSet 1 name crs props [] (map (fun _ => []) (p_names props)) in
      do '(vs, s5) <- read_VSet_vertices F vs0 s4;
      Ok (Some vs, s5)
  end.
