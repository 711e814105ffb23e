(** * The .lso input of a stratigraphic model (src/geode/geosciences_io/model/internal/strati_lso_input.cpp).

    The model first goes through the .lso input of structural models ([read_lso], LsoModel.v: up to read_blocks; the corners and lines
    that follow, LsoLines.v, do not touch the attributes of the blocks).  Not modelled: the check that a block is meshed with a
    TetrahedralSolid (63-69), always true of a block of an .lso file.  find_attribute, of OpenGeode, is taken to throw when the
    attribute has another type. *)
From Coq Require Import ZArith List Bool Ascii String.
From Verif Require Import Base Text GocadModel MeshModel TsModel LsoModel.
Import ListNotations.
Local Open Scope string_scope.
Local Open Scope list_scope.
Local Open Scope Z_scope.

(** strati_lso_input.cpp 33-36. *)
Definition GEOLOGY : bytes := "SnS!ingridStructuralWorkflow/skua_model_Geology".
Definition STRATIGRAPHY : bytes := "SnS!ingridStructuralWorkflow/skua_model_stratigraphy".

Section Strati.
Context {F : Num}.
(** [find_attribute< T >]: [type] 1 for double, 2 for std::array< double, 2 >. *)
Definition typed_attr (type : Z) (n : bytes) (l : list (bytes * attr (num F))) : res (attr (num F)) :=
  match find_attr n l with
  | Some a => if a_type a =? type then Ok a else Throw ExData
  | None => Throw ExData
  end.
(** The coordinates given to a vertex (76-84): the two values of the first attribute, then the value of the second. *)
Definition strati_point (geol strati : list (num F)) : res (point F) :=
  do x <- idx geol 0; do y <- idx geol 1; do z <- idx strati 0; Ok (x, y, z).
(** One block (51-85): the stratigraphic coordinates of its vertices. *)
Definition strati_block (r : LBlockR F) : res (list (point F)) :=
  match find_attr STRATIGRAPHY (r_vattrs r), find_attr GEOLOGY (r_vattrs r) with
  | Some _, Some _ =>
      do s <- typed_attr 1 STRATIGRAPHY (r_vattrs r);
      do g <- typed_attr 2 GEOLOGY (r_vattrs r);
      mapM (fun v => do gv <- idx (a_vals g) v; do sv <- idx (a_vals s) v; strati_point gv sv)
           (seq 0 (List.length (r_points r)))
  | _, _ => Throw ExData
  end.
End Strati.

(** read_file (43-87). *)
Definition read_strati (F : Num) (text : bytes) : res (LsoIn F * list (list (point F))) :=
  do m <- read_lso F text;
  do cs <- mapM strati_block (i_blocks m);
  Ok (m, cs).

(** is_loadable (104-129); [loadable] is LSOInput::is_loadable (lso_input.cpp 792-800), that is_structural_model_loadable of OpenGeode
    calls.  [true] stands for Percentage 1. *)
Definition strati_loadable (text : bytes) : bool :=
  loadable "GOCAD LightTSolid" text &&
  match goto_if "PROPERTIES" (open_text text) with
  | (None, _) => false
  | (Some line, _) => contains line GEOLOGY && contains line STRATIGRAPHY
  end.
