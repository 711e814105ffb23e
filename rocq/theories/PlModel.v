(** * The PLine writer.
    Models /repo/src/geode/geosciences_io/mesh/pl_output.cpp. *)
From Coq Require Import ZArith List Lia Bool Ascii String.
From Verif Require Import Base Text GocadModel MeshModel TsModel.
Import ListNotations.
Local Open Scope string_scope.
Local Open Scope list_scope.
Local Open Scope Z_scope.

(** [geode::EdgeVertex]: an edge and one of its two ends ([true] is local vertex 1). *)
Notation edge_vertex := (nat * bool)%type.
(** [vertex_id + 1 modulo 2]. *)
Definition flip (ev : edge_vertex) : edge_vertex := (fst ev, negb (snd ev)).

Section Graph.
(** [edged_curve_.edge_vertex( ev )], and [edged_curve_.edges_around_vertex( v )] in the order the curve gives it. *)
Context (edges : list edge) (around : Z -> list edge_vertex).
Definition vert (ev : edge_vertex) : Z :=
  let e := nth (fst ev) edges (0, 0) in if snd ev then snd e else fst e.
(** [edge_done_[e]].  The indices come from the curve itself: the accesses are in range. *)
Definition is_done (done : list bool) (ev : edge_vertex) : bool := nth (fst ev) done false.

(** pl_output.cpp 142-179 ([get_edged_vertex_on_iline]).  [fuel] bounds the passes of the loop; running out of it
    is [Hang]. *)
Fixpoint walk (fuel : nat) (done : list bool) (ev : edge_vertex) : res (list edge_vertex * list bool) :=
  match fuel with
  | O => Hang
  | S f =>
    let done := upd done (fst ev) true in
    let next := flip ev in
    match around (vert next) with
    | [a; b] =>
      if negb (is_done done a) || negb (is_done done b) then
        let next := if is_done done a then next else a in
        let next := if is_done done b then next else b in
        do '(l, done) <- walk f done next;
        Ok (ev :: l, done)
      else Ok ([ev], done)
    | _ => Ok ([ev; next], done)
    end
  end.

(** One ILINE of the file: number of its first vertex, its vertices (numbers in the curve), and the number that
    ends the closing SEG of a loop. *)
Record block := mkBlock { b_off : Z; b_vs : list Z; b_close : option Z }.
(** [edge_done_], [current_offset], [nb_edges_done] and what is already written. *)
Record pl_state := mkPl { o_done : list bool; o_off : Z; o_nb : Z; o_blocks : list block }.

(** pl_output.cpp 231-251 ([write_edge_and_vertex]); [close] is the line written right after it by 206-210. *)
Definition write_edge_and_vertex (close : option Z) (st : pl_state) (ev : edge_vertex) : res pl_state :=
  do '(evs, done) <- walk (S (List.length edges)) (o_done st) ev;
  Ok (mkPl done (add32 (o_off st) (lenz evs)) (add32 (o_nb st) (lenz evs - 1))
        (o_blocks st ++ [mkBlock (o_off st) (map vert evs) close])).
(** pl_output.cpp 217-229 ([starting_edge]). *)
Fixpoint first_not_done (e : nat) (done : list bool) : nat :=
  match done with
  | [] => O
  | d :: r => if d then first_not_done (S e) r else e
  end.
(** pl_output.cpp 203-214: the loop over the closed lines. *)
Fixpoint closed_lines (fuel : nat) (st : pl_state) : res pl_state :=
  if o_nb st =? lenz edges then Ok st else
  match fuel with
  | O => Hang
  | S f =>
    let start_edge := first_not_done 0 (o_done st) in
    do st' <- write_edge_and_vertex (Some (add32 (vert (start_edge, false)) 1)) st (start_edge, false);
    closed_lines f (mkPl (o_done st') (o_off st') (add32 (o_nb st') 1) (o_blocks st'))
  end.
(** pl_output.cpp 184-202: the lines that begin at a vertex with another number of edges than two. *)
Definition open_lines_at (st : pl_state) (v : Z) : res pl_state :=
  foldM (fun st ev => if is_done (o_done st) ev then Ok st else write_edge_and_vertex None st ev) (around v) st.
Definition start_points (nb_vertices : nat) : list Z :=
  filter (fun v => negb (Nat.eqb (List.length (around v)) 2)) (rangez 0 nb_vertices).
(** pl_output.cpp 181-215 ([write_ilines]). *)
Definition write_ilines (nb_vertices : nat) : res (list block) :=
  do st <- foldM open_lines_at (start_points nb_vertices) (mkPl (repeat false (List.length edges)) 1 0 []);
  do st <- closed_lines (S (List.length edges)) st;
  Ok (o_blocks st).
End Graph.

Section Lines.
Context {F : Num}.
(** pl_output.cpp 129-141 ([write_pvrtx]). *)
Definition pvrtx_line (kw : bytes) (ws : list (wattr F)) (n : Z) (v : Z) (p : point F) : bytes :=
  let '(x, y, z) := p in
  kw ++ SP :: show n ++ SP :: os_text F x ++ SP :: os_text F y ++ SP :: os_text F z ++
  spaced (map (fun w => os_text F (w_val w (Z.to_nat v))) ws).
Definition seg_line (a b : Z) : bytes := lit "SEG " ++ show a ++ SP :: show b.
(** The text of an ILINE (pl_output.cpp 235-249, 208-209). *)
Fixpoint pvrtx_lines (kw : bytes) (ws : list (wattr F)) (pt : Z -> point F) (n : Z) (vs : list Z) : list bytes :=
  match vs with
  | [] => []
  | v :: r => pvrtx_line kw ws n v (pt v) :: pvrtx_lines kw ws pt (add32 n 1) r
  end.
Definition seg_lines (n : Z) (k : nat) : list bytes :=
  map (fun s => seg_line (add32 n s) (add32 (add32 n s) 1)) (rangez 0 k).
Definition block_lines (kw : bytes) (ws : list (wattr F)) (pt : Z -> point F) (b : block) : list bytes :=
  [lit "ILINE"] ++ pvrtx_lines kw ws pt (b_off b) (b_vs b) ++
  seg_lines (b_off b) (List.length (b_vs b) - 1) ++
  match b_close b with
  | Some c => [seg_line (sub32 (add32 (b_off b) (lenz (b_vs b))) 1) c]
  | None => []
  end.
(** pl_output.cpp 58-103, 253-265 ([write_file]): every attribute that can be converted is exported. *)
Definition pl_lines (around : Z -> list edge_vertex) (m : wmesh F edge) : res (list bytes) :=
  let ws := filter w_generic (wm_attrs m) in
  let pt v := nth (Z.to_nat v) (wm_points m) (zero F, zero F, zero F) in
  do blocks <- write_ilines (wm_cells m) around (List.length (wm_points m));
  Ok ([lit "GOCAD PLine 1"] ++ write_header (Some (lit "edged_curve_name")) ++ write_CRS default_crs ++ prop_lines ws ++
      flat_map (block_lines (vrtx_keyword (wm_attrs m)) ws pt) blocks ++ [lit "END"]).
Definition write_pl (around : Z -> list edge_vertex) (m : wmesh F edge) : res bytes :=
  do ls <- pl_lines around m; Ok (unlines ls).
End Lines.
