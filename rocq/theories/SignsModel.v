(** * Sides of surfaces in the boundary of the universe and of the regions.
    Model of /repo/src/geode/geosciences_io/model/internal/gocad_common.cpp.

    Simplifications:
    - a [uuid] is an integer ([uuid] is only compared with [==] and [<]);
    - an [absl::flat_hash_map] is an association list in insertion order;
      [emplace] keeps an existing entry; the iteration order of such a map is
      never observed by the modelled functions except to insert the pairs of one
      line, which have pairwise different keys;
    - coordinates are exact rationals and not [double], so rounding of the volume
      sum is not modelled;
    - every line has at least one edge. *)
From Coq Require Import ZArith List Bool QArith Qminmax.
From Verif Require Import Base.
Import ListNotations.
Local Open Scope Z_scope.

(** ** [PairedSigns], lines 45-46 *)
Definition PairedSigns := list (Z * Z * bool).

Definition find_pair {V} (m : list (Z * Z * V)) (a b : Z) : option V :=
  option_map snd (find (fun e => (fst (fst e) =? a) && (snd (fst e) =? b)) m).

(** [flat_hash_map::emplace] *)
Definition emplace_pair {V} (m : list (Z * Z * V)) (a b : Z) (v : V) : list (Z * Z * V) :=
  match find_pair m a b with Some _ => m | None => m ++ [(a, b, v)] end.

Definition find_id {V} (m : list (Z * V)) (a : Z) : option V :=
  option_map snd (find (fun e => fst e =? a) m).
Definition emplace_id {V} (m : list (Z * V)) (a : Z) (v : V) : list (Z * V) :=
  match find_id m a with Some _ => m | None => m ++ [(a, v)] end.

(** One [ComponentMeshVertex]: is the component a Surface, its id, the vertex. *)
Record CMV := mkCMV { is_surface : bool; cid : Z; vertex : Z }.

(** What [determine_paired_signs] sees of a line: the component mesh vertices of
    the two unique vertices of its edge 0, lines 54-59. *)
Record LineView := mkLine { cmvs0 : list CMV; cmvs1 : list CMV }.

Section PairedSigns.
(** [edge_from s v w]: [surface(s).mesh().polygon_edge_from_vertices(v, w)] has a value. *)
Variable edge_from : Z -> Z -> Z -> bool.

(** Body of the loops 63-96 for two component mesh vertices. *)
Definition direct_edge (c0 : CMV) (m : list (Z * bool)) (c1 : CMV) : list (Z * bool) :=
  if negb (is_surface c1) then m
  else if negb (cid c1 =? cid c0) then m
  else
    let v0v1 := edge_from (cid c0) (vertex c0) (vertex c1) in
    let v1v0 := edge_from (cid c0) (vertex c1) (vertex c0) in
    if v0v1 && negb v1v0 then emplace_id m (cid c0) true
    else if v1v0 && negb v0v1 then emplace_id m (cid c0) false
    else m.

(** [surface_direct_edges], lines 60-96 *)
Definition surface_direct_edges (l : LineView) : list (Z * bool) :=
  fold_left (fun m c0 => if negb (is_surface c0) then m
                         else fold_left (direct_edge c0) (cmvs1 l) m) (cmvs0 l) [].

(** Lines 97-113 *)
Definition pair_surfaces (m : PairedSigns) (d : list (Z * bool)) : PairedSigns :=
  if (List.length d <? 2)%nat then m
  else fold_left (fun m s0 =>
         fold_left (fun m s1 =>
           if fst s0 <? fst s1
           then emplace_pair m (fst s0) (fst s1) (negb (Bool.eqb (snd s0) (snd s1)))
           else m) d m) d m.

(** [determine_paired_signs], lines 48-117 *)
Definition determine_paired_signs (lines : list LineView) : PairedSigns :=
  fold_left (fun m l => pair_surfaces m (surface_direct_edges l)) lines [].
End PairedSigns.

(** ** [determine_relative_signs], lines 119-163 *)
Record Bfs := mkBfs { signs : list bool; determined : list bool; to_process : list nat }.

(** Body of the [for], lines 139-156. *)
Definition visit (ids : list Z) (tab : PairedSigns) (d : nat) (st : Bfs) (s : nat) : Bfs :=
  if nth s (determined st) false then st
  else
    let d_id := nth d ids 0 in
    let s_id := nth s ids 0 in
    match find_pair tab (Z.min d_id s_id) (Z.max d_id s_id) with
    | None => st
    | Some b =>
      let sd := nth d (signs st) true in
      mkBfs (upd (signs st) s (if b then sd else negb sd))
            (upd (determined st) s true)
            (to_process st ++ [s])
    end.

(** The [while] 134-157; running out of fuel stands for an infinite loop. *)
Fixpoint propagate (fuel : nat) (ids : list Z) (tab : PairedSigns) (st : Bfs) : res Bfs :=
  match to_process st with
  | [] => Ok st
  | d :: q =>
    match fuel with
    | O => Hang
    | S fuel' =>
      propagate fuel' ids tab
        (fold_left (visit ids tab d) (seq 0 (List.length ids)) (mkBfs (signs st) (determined st) q))
    end
  end.

Definition determine_relative_signs (ids : list Z) (tab : PairedSigns) : res (list bool) :=
  let n := List.length ids in
  if (n =? 1)%nat then Ok [true]
  else if (n =? 0)%nat then UB (* determined[0] of an empty array, line 131 *)
  else
    do st <- propagate n ids tab (mkBfs (repeat true n) (upd (repeat false n) 0 true) [0%nat]);
    do _ <- check (forallb (fun b => b) (determined st));
    Ok (signs st).

(** ** Geometry *)
Definition pt : Type := (Q * Q * Q)%type.
Definition triangle : Type := (pt * pt * pt)%type.

(** A surface mesh: its points and its triangles (given by their points). *)
Record SMesh := mkSMesh { spoints : list pt; striangles : list triangle }.

(** [geode::tetrahedron_signed_volume] (OpenGeode): the mixed product of the three edges from vertex 0, over 6. *)
Definition tetrahedron_signed_volume (a b c d : pt) : Q :=
  let '(ax, ay, az) := a in let '(bx, by_, bz) := b in
  let '(cx, cy, cz) := c in let '(dx, dy, dz) := d in
  (((bx - ax) * ((cy - ay) * (dz - az) - (cz - az) * (dy - ay))
   + (by_ - ay) * ((cz - az) * (dx - ax) - (cx - ax) * (dz - az))
   + (bz - az) * ((cx - ax) * (dy - ay) - (cy - ay) * (dx - ax))) / 6)%Q.

(** [mesh.bounding_box()] then [( min + max ) * 0.5], lines 170-173; [UB] stands for
    the box of a mesh without vertices. *)
Definition box1 (f : pt -> Q) (p0 : pt) (ps : list pt) : Q :=
  ((fold_left Qmin (map f ps) (f p0) + fold_left Qmax (map f ps) (f p0)) * (1 # 2))%Q.
Definition box_center (m : SMesh) : res pt :=
  match spoints m with
  | [] => UB
  | p :: ps => Ok (box1 (fun q => fst (fst q)) p ps, box1 (fun q => snd (fst q)) p ps, box1 snd p ps)
  end.

(** Lines 181-194, one triangle. *)
Definition triangle_volume (center : pt) (sign : bool) (t : triangle) : Q :=
  let '(p0, p1, p2) := t in
  if sign then tetrahedron_signed_volume p0 p1 p2 center
  else tetrahedron_signed_volume p0 p2 p1 center.

(** The loops 174-195. *)
Definition signed_volume (meshes : Z -> SMesh) (center : pt) (ids : list Z) (rs : list bool) : Q :=
  fold_left (fun v e =>
    fold_left (fun v t => (v + triangle_volume center (snd e) t)%Q) (striangles (meshes (fst e))) v)
    (combine ids rs) 0%Q.

Definition Qltb (a b : Q) : bool := negb (Qle_bool b a).

(** [are_correct_sides], lines 165-201 *)
Definition are_correct_sides (meshes : Z -> SMesh) (ids : list Z) (rs : list bool) : res bool :=
  do a0 <- front ids;
  do center <- box_center (meshes a0);
  let v := signed_volume meshes center ids rs in
  do _ <- check (negb (Qeq_bool v 0));
  Ok (Qltb 0 v).

(** ** [determine_universe_sides], lines 203-228.
    [uses correct sign] is the conditional at lines 225 and 250. *)
Definition universe_side (correct sign : bool) : bool := if correct then negb sign else sign.
Definition region_side (correct sign : bool) : bool := if correct then sign else negb sign.

(** Lines 218-227, once the relative signs are known. *)
Definition universe_sides_from (meshes : Z -> SMesh) (ids : list Z) (rs : list bool)
  : res (list (Z * bool)) :=
  do correct <- are_correct_sides meshes ids rs;
  Ok (fold_left (fun m e => emplace_id m (fst e) (universe_side correct (snd e)))
        (combine ids rs) []).

(** [boundaries]: the items of each model boundary. *)
Definition determine_universe_sides (meshes : Z -> SMesh) (tab : PairedSigns)
  (boundaries : list (list Z)) : res (list (Z * bool)) :=
  let ids := List.concat boundaries in
  do rs <- determine_relative_signs ids tab;
  universe_sides_from meshes ids rs.

(** ** [determine_regions_sides], lines 230-255 *)
Definition region_sides_from (meshes : Z -> SMesh) (block : Z) (ids : list Z) (rs : list bool)
  (m : PairedSigns) : res PairedSigns :=
  do correct <- are_correct_sides meshes ids rs;
  Ok (fold_left (fun m e => emplace_pair m block (fst e) (region_side correct (snd e)))
        (combine ids rs) m).

(** [blocks]: each block with the ids of its boundary surfaces. *)
Definition determine_regions_sides (meshes : Z -> SMesh) (tab : PairedSigns)
  (blocks : list (Z * list Z)) : res PairedSigns :=
  foldM (fun m b =>
    do rs <- determine_relative_signs (snd b) tab;
    region_sides_from meshes (fst b) (snd b) rs m) blocks [].

(** [determine_surface_to_regions_sides], lines 262-275 *)
Definition determine_sides (edge_from : Z -> Z -> Z -> bool) (lines : list LineView)
  (meshes : Z -> SMesh) (boundaries : list (list Z)) (blocks : list (Z * list Z))
  : res (list (Z * bool) * PairedSigns) :=
  do _ <- check (0 <? List.length boundaries)%nat;
  let tab := determine_paired_signs edge_from lines in
  do u <- determine_universe_sides meshes tab boundaries;
  do r <- determine_regions_sides meshes tab blocks;
  Ok (u, r).
