(** * Meshes and attributes as seen by the readers.

    The mesh classes and the attribute manager belong to OpenGeode and are not
    in /repo.  A mesh is modelled by its name, its points in index order, its
    cells (edges, triangles, ...) in index order and its vertex attributes.
    Using a vertex index that does not exist violates the precondition of the
    builders (they only assert it) and is [UB]. *)
From Coq Require Import ZArith List Lia Bool Ascii String.
From Verif Require Import Base Text GocadModel.
Import ListNotations.
Local Open Scope string_scope.
Local Open Scope list_scope.
Local Open Scope Z_scope.

(** An attribute of type [geode::VariableAttribute]: [a_type] is 1 for double, 2
    and 3 for arrays, 0 for [std::vector< double >]; one list of items per
    vertex. *)
Record attr (V : Type) := mkAttr {
  a_type : Z;
  a_def : list V;
  a_vals : list (list V)
}.
Arguments mkAttr {V}. Arguments a_type {V}. Arguments a_def {V}. Arguments a_vals {V}.

Record mesh (F : Num) (C : Type) := mkMesh {
  m_name : option bytes;
  m_points : list (point F);
  m_cells : list C;
  m_attrs : list (bytes * attr (num F))
}.
Arguments mkMesh {F C}. Arguments m_name {F C}. Arguments m_points {F C}.
Arguments m_cells {F C}. Arguments m_attrs {F C}.

Definition empty_mesh {F C} : mesh F C := mkMesh None [] [] [].

Definition nb_vertices {F C} (m : mesh F C) : Z := lenz (m_points m).

Definition find_attr {V} (name : bytes) (l : list (bytes * attr V)) : option (attr V) :=
  option_map snd (find (fun na => beq (fst na) name) l).

(** Value of attribute [name] at vertex [v]. *)
Definition attr_value {F C} (m : mesh F C) (name : bytes) (v : nat) : option (list (num F)) :=
  match find_attr name (m_attrs m) with
  | Some a => nth_error (a_vals a) v
  | None => None
  end.

(** [builder->set_name] when the header has one. *)
Definition set_name {F C} (n : option bytes) (m : mesh F C) : mesh F C :=
  match n with
  | Some x => mkMesh (Some x) (m_points m) (m_cells m) (m_attrs m)
  | None => m
  end.

(** [builder->create_point]: every attribute gets its default value on the
    new vertex. *)
Definition create_point {F C} (m : mesh F C) (p : point F) : mesh F C :=
  mkMesh (m_name m) (m_points m ++ [p]) (m_cells m)
         (map (fun na => (fst na, mkAttr (a_type (snd na)) (a_def (snd na))
                                         (a_vals (snd na) ++ [a_def (snd na)])))
              (m_attrs m)).
Definition create_points {F C} (ps : list (point F)) (m : mesh F C) : mesh F C :=
  fold_left create_point ps m.

Definition add_cell {F C} (c : C) (m : mesh F C) : mesh F C :=
  mkMesh (m_name m) (m_points m) (m_cells m ++ [c]) (m_attrs m).
Definition valid_vertex {F C} (m : mesh F C) (v : Z) : bool :=
  (0 <=? v) && (v <? nb_vertices m).

Definition set_attr_list {F C} (m : mesh F C) l : mesh F C :=
  mkMesh (m_name m) (m_points m) (m_cells m) l.

(** [find_or_create_attribute< VariableAttribute, T >( name, default )]:
    an attribute of the same type is returned unchanged; with one of another type, as
    the attribute "points" of the coordinates, the call throws. *)
Fixpoint replace_attr {V} (name : bytes) (a : attr V) (l : list (bytes * attr V))
  : list (bytes * attr V) :=
  match l with
  | [] => [(name, a)]
  | (n, b) :: r => if beq n name then (name, a) :: r else (n, b) :: replace_attr name a r
  end.
Definition attr_type (esize : Z) : Z :=
  if (1 <=? esize) && (esize <=? 3) then esize else 0.
Definition find_or_create {F C} (m : mesh F C) (name : bytes) (esize : Z) (d : list (num F))
  : res (attr (num F)) :=
  if beq name "points" then Throw ExData
  else
    let fresh := mkAttr (attr_type esize) d (map (fun _ => d) (m_points m)) in
    match find_attr name (m_attrs m) with
    | Some a => if a_type a =? attr_type esize then Ok a else Throw ExData
    | None => Ok fresh
    end.

(** Items of vertex [k] in the flat value list (gocad_common.cpp 307-319 and
    503-509): index [k * esize + item] for each item; items beyond the range
    of [local_index_t] keep the default. *)
Definition attr_row {V} (vals : list V) (esize : Z) (d : list V) (k : nat) : res (list V) :=
  do r <- mapM (fun it => idx vals (k * Z.to_nat esize + it)) (seq 0 (items esize));
  Ok (r ++ skipn (items esize) d).

(** Loop on the vertices of create_attributes (503-509, 311-320). *)
Fixpoint fill_attr {V} (vals : list V) (esize : Z) (d : list V) (mapping : list nat)
    (pt n : nat) (a : list (list V)) : res (list (list V)) :=
  match n with
  | O => Ok a
  | S n' =>
      do k <- idx mapping pt;
      do row <- attr_row vals esize d k;
      do a' <- setz a (Z.of_nat pt) row;
      fill_attr vals esize d mapping (S pt) n' a'
  end.

(** create_attributes (489-541): every declared property is written on the vertices
    [0 .. nb-1] of the attribute manager. *)
Fixpoint create_attributes_loop {F C} (names : list bytes) (esizes : list Z)
    (ndvs : list (num F)) (values : list (list (num F)))
    (nb : nat) (mapping : list nat) (m : mesh F C) : res (mesh F C) :=
  match names with
  | [] => Ok m
  | n :: ns =>
      match esizes, ndvs, values with
      | e :: es, d :: ds, v :: vs =>
          let dflt := repeat d (Z.to_nat e) in
          do a <- find_or_create m n e dflt;
          do vals <- fill_attr v e dflt mapping 0 nb (a_vals a);
          let a' := mkAttr (a_type a) (a_def a) vals in
          create_attributes_loop ns es ds vs nb mapping
            (set_attr_list m (replace_attr n a' (m_attrs m)))
      | _, _, _ => UB
      end
  end.
Definition create_attributes {F C} (h : PropHeader (num F)) (values : list (list (num F)))
    (nb : nat) (mapping : list nat) (m : mesh F C) : res (mesh F C) :=
  create_attributes_loop (p_names h) (p_esizes h) (p_ndv h) values nb mapping m.
