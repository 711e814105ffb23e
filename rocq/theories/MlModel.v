(** * Model of the .ml format: the writers
    /repo/include/geode/geosciences_io/model/internal/ml_output_impl.hpp ("impl"),
    /repo/src/geode/geosciences_io/model/internal/ml_output_brep.cpp ("brep"),
    /repo/src/geode/geosciences_io/model/internal/ml_output_structural_model.cpp ("sm")
    and the reader /repo/src/geode/geosciences_io/model/internal/ml_input.cpp ("in"),
    components and surfaces.

    Simplifications:
    - a model is given by its lists of components in the order its iterators return them;
      a component is designated by an integer id;
    - the sides of surfaces are an argument (their computation is in SignsModel.v);
    - the border walk of a surface is given by its loops of border edges, the first
      being the one that starts at the edge returned by get_one_border_edge;
    - index_t sums of vertex numbers are not wrapped (a file with more than 2^32 vertices);
    - of the reader, what is done after the surfaces are built (corners, lines, unique
      vertices, "in" 116-118) is not modelled here; build_model_boundaries of OpenGeode
      (impl 52-60) is not modelled: the model given to the writer has model boundaries. *)
From Coq Require Import ZArith List Lia Bool Ascii String.
From Verif Require Import Base Text GocadModel MeshModel TsModel SignsModel.
Import ListNotations.
Local Open Scope string_scope.
Local Open Scope list_scope.
Local Open Scope Z_scope.

(** ** The model given to the writers *)
Record MSurf (F : Num) := mkMSurf {
  s_id : Z;
  s_name : option bytes;
  s_points : list (point F);
  s_tris : list tri;
  s_loops : list (list (Z * Z)); (* border edges (v0, v1), in the order of the walk *)
  s_corners : list Z             (* vertices whose unique vertex is also on a Corner *)
}.
Arguments mkMSurf {F}. Arguments s_id {F}. Arguments s_name {F}. Arguments s_points {F}.
Arguments s_tris {F}. Arguments s_loops {F}. Arguments s_corners {F}.

(** Fault3D::FAULT_TYPE and Horizon3D::CONTACT_TYPE of OpenGeode-Geosciences. *)
Inductive fault_type := FNoType | FNormal | FReverse | FStrikeSlip | FListric | FDecollement.
Inductive contact_type := CConformal | CTopography | CIntrusion | CDiscontinuity | CErosion | CBaselap.

(** A collection: name, type, items. *)
Record Coll (T : Type) := mkColl { c_id : Z; c_name : option bytes; c_type : T; c_items : list Z }.
Arguments mkColl {T}. Arguments c_id {T}. Arguments c_name {T}. Arguments c_type {T}. Arguments c_items {T}.

Record MBlock := mkBlock {
  b_id : Z; b_name : option bytes; b_boundaries : list Z; b_internals : list Z }.

Record SModel (F : Num) := mkSModel {
  m_title : option bytes;
  m_surfaces : list (MSurf F);
  m_bounds : list (Coll unit);
  m_faults : list (Coll fault_type);
  m_horizons : list (Coll contact_type);
  m_others : list Z; (* surfaces in some other kind of collection *)
  m_blocks : list MBlock;
  m_units : list (Coll unit);
  m_fblocks : list (Coll unit)
}.
Arguments mkSModel {F}. Arguments m_title {F}. Arguments m_surfaces {F}. Arguments m_bounds {F}.
Arguments m_faults {F}. Arguments m_horizons {F}. Arguments m_others {F}. Arguments m_blocks {F}.
Arguments m_units {F}. Arguments m_fblocks {F}.

(** ** Writer *)
Section Writer.
Context {F : Num}.
(** [uuid::string()] *)
Variable uuid_text : Z -> bytes.

(** component_name (impl 479-485) *)
Definition component_name (name : option bytes) (id : Z) : bytes :=
  map (fun c => if Ascii.eqb c SP then "_"%char else c)
      (match name with Some n => n | None => uuid_text id end).

(** [name().value()] *)
Definition name_value (name : option bytes) : res bytes :=
  match name with Some n => Ok n | None => Throw ExBadOptional end.

(** [model_.surface( id )] *)
Definition surface_of (m : SModel F) (id : Z) : res (MSurf F) :=
  match find (fun s => s_id s =? id) (m_surfaces m) with Some s => Ok s | None => UB end.

(** sm 216-222 *)
Definition fault_text (t : fault_type) : bytes :=
  match t with
  | FNormal => "normal_fault" | FReverse => "reverse_fault"
  | _ => "fault"
  end.
(** sm 223-229: [horizon_map_.at], the map has no entry for the last two types *)
Definition horizon_text (t : contact_type) : res bytes :=
  match t with
  | CConformal => Ok (lit "top") | CTopography => Ok (lit "topographic")
  | CIntrusion => Ok (lit "intrusive") | CDiscontinuity => Ok (lit "unconformity")
  | CErosion | CBaselap => Throw ExOutOfRange
  end.

(** unclassified_tsurfs (sm 109-120); for a BRep (brep 52-73) the faults, horizons and
    others are empty. *)
Definition unclassified (m : SModel F) : list (MSurf F) :=
  filter (fun s => negb (existsb (Z.eqb (s_id s))
    (flat_map c_items (m_bounds m) ++ flat_map c_items (m_faults m)
     ++ flat_map c_items (m_horizons m) ++ m_others m))) (m_surfaces m).

(** write_tsurfs (impl 161-175), write_geological_tsurfs (sm 97-107) *)
Definition tsurf_line (name : bytes) : bytes := lit "TSURF " ++ name.
Definition write_tsurfs (m : SModel F) : res (list bytes) :=
  do fs <- mapM (fun c => name_value (c_name c)) (m_faults m);
  do hs <- mapM (fun c => name_value (c_name c)) (m_horizons m);
  Ok (map tsurf_line
    (map (fun c => component_name (c_name c) (c_id c)) (m_bounds m) ++ fs ++ hs ++
     map (fun s => component_name (s_name s) (s_id s)) (unclassified m))).

(** write_key_triangle (impl 144-155) *)
Definition key_lines (s : MSurf F) : res (list bytes) :=
  do t <- idx (s_tris s) 0;
  let '(a, b, c) := t in
  mapM (fun v => do p <- idxz (s_points s) v; Ok (SP :: SP :: point_string p)) [a; b; c].

Definition tface_line_of (n : Z) (kind name : bytes) : bytes :=
  lit "TFACE " ++ show n ++ SP :: kind ++ SP :: name.

(** [components_] and [component_id_] *)
Record Comps := mkComps { comps : list (Z * Z); next_id : Z }.
Definition comp_at (st : Comps) (id : Z) : res Z :=
  match find_id (comps st) id with Some n => Ok n | None => Throw ExOutOfRange end.

(** One item of a collection (impl 186-198, sm 61-73, 80-92): exported unless it already is.
    [kind] is evaluated only for an exported item. *)
Definition write_tface_item (m : SModel F) (kind : res bytes) (name : res bytes)
  (acc : list bytes * Comps) (item : Z) : res (list bytes * Comps) :=
  let '(ls, st) := acc in
  match find_id (comps st) item with
  | Some _ => do _ <- name; Ok (ls, st)
  | None =>
    do k <- kind; do n <- name;
    do s <- surface_of m item;
    do ks <- key_lines s;
    Ok (ls ++ tface_line_of (next_id st) k n :: ks,
        mkComps (emplace_id (comps st) item (next_id st)) (next_id st + 1))
  end.

(** A collection as the TFACE and surface sections see it: GEOLOGICAL_TYPE, name, items. *)
Definition sections (m : SModel F) : list (res bytes * res bytes * list Z) :=
  map (fun c => (Ok (lit "boundary"), Ok (component_name (c_name c) (c_id c)), c_items c)) (m_bounds m) ++
  map (fun c => (Ok (fault_text (c_type c)), name_value (c_name c), c_items c)) (m_faults m) ++
  map (fun c => (horizon_text (c_type c), name_value (c_name c), c_items c)) (m_horizons m) ++
  map (fun s => (Ok (lit "boundary"), Ok (component_name (s_name s) (s_id s)), [s_id s])) (unclassified m).

(** write_tfaces (impl 179-210), write_geological_tfaces (sm 55-95).  For an unclassified
    surface the code does not look whether it is exported already: it never is. *)
Definition write_tfaces (m : SModel F) : res (list bytes * Comps) :=
  foldM (fun acc c => let '(k, n, items) := c in foldM (write_tface_item m k n) items acc)
        (sections m) ([], mkComps [] 1).

(** The id lists of regions and units: entries followed by two spaces, a new line after every
    fifth, ended by 0 (impl 216-236, 246-280; sm 126-139). *)
Fixpoint wrap_ids (cur : bytes) (counter : nat) (entries : list bytes) : list bytes :=
  match entries with
  | [] => [cur ++ lit "0"]
  | e :: r =>
    let cur' := cur ++ e ++ [SP; SP] in
    if Nat.eqb (S counter mod 5) 0 then cur' :: wrap_ids [SP; SP] (S counter) r
    else wrap_ids cur' (S counter) r
  end.
Definition id_lines (entries : list bytes) : list bytes := wrap_ids [SP; SP] 0 entries.

Definition signed_id (plus : bool) (n : Z) : bytes :=
  (if plus then "+"%char else "-"%char) :: show n.

(** write_universe (impl 212-238) *)
Definition write_universe (m : SModel F) (sides : list (Z * bool)) (st : Comps) : res (list bytes * Comps) :=
  do es <- mapM (fun item =>
      do side <- (match find_id sides item with Some s => Ok s | None => Throw ExOutOfRange end);
      do n <- comp_at st item;
      Ok (signed_id side n)) (flat_map c_items (m_bounds m));
  Ok ((lit "REGION " ++ show (next_id st) ++ lit "  Universe ") :: id_lines es,
      mkComps (comps st) (next_id st + 1)).

(** Body of the loop of write_regions (impl 243-282) *)
Definition write_region (rsides : PairedSigns) (acc : list bytes * Comps) (b : MBlock)
  : res (list bytes * Comps) :=
  let '(ls, st) := acc in
  do es <- mapM (fun s =>
      do side <- (match find_pair rsides (b_id b) s with Some x => Ok x | None => Throw ExOutOfRange end);
      do n <- comp_at st s;
      Ok (signed_id side n)) (b_boundaries b);
  do is <- mapM (fun s => do n <- comp_at st s; Ok [signed_id true n; signed_id false n]) (b_internals b);
  Ok (ls ++ (lit "REGION " ++ show (next_id st) ++ SP :: component_name (b_name b) (b_id b))
         :: id_lines (es ++ List.concat is),
      mkComps (emplace_id (comps st) (b_id b) (next_id st)) (next_id st + 1)).

(** write_geological_regions (sm 122-159), one unit *)
Definition write_unit (kw : bytes) (st : Comps) (c : Coll unit) : res (list bytes) :=
  do n <- name_value (c_name c);
  do es <- mapM (fun b => do k <- comp_at st b; Ok (show k)) (c_items c);
  Ok ((kw ++ n) :: id_lines es).

(** write_model_components (impl 288-294) *)
Definition write_components (m : SModel F) (usides : list (Z * bool)) (rsides : PairedSigns)
  : res (list bytes) :=
  do l1 <- write_tsurfs m;
  do '(l2, st2) <- write_tfaces m;
  do '(l3, st3) <- write_universe m usides st2;
  do '(l4, st4) <- foldM (write_region rsides) (m_blocks m) ([], st3);
  do l5 <- mapM (write_unit (lit "LAYER ") st4) (m_units m);
  do l6 <- mapM (write_unit (lit "FAULT_BLOCK ") st4) (m_fblocks m);
  Ok (l1 ++ l2 ++ l3 ++ l4 ++ List.concat l5 ++ List.concat l6 ++ [lit "END"]).

(** write_surface (impl 296-316) *)
Fixpoint ml_vrtx_lines (v : Z) (ps : list (point F)) : list bytes :=
  match ps with
  | [] => []
  | p :: r => (lit "VRTX " ++ show v ++ SP :: point_string p) :: ml_vrtx_lines (v + 1) r
  end.
Definition plus_tri (o : Z) (t : tri) : tri := let '(a, b, c) := t in (o + a, o + b, o + c).
Definition write_surface (s : MSurf F) (offset : Z) : list bytes :=
  ml_vrtx_lines offset (s_points s) ++ map trgl_line (map (plus_tri offset) (s_tris s)).

(** add_corners_and_line_starts (impl 347-368), process_surface_edge (318-345): only the
    first loop is walked. *)
Definition line_starts_of (s : MSurf F) (offset : Z) : list (Z * Z) :=
  match s_loops s with
  | [] => []
  | loop :: _ =>
    map (fun e => (snd e + offset, fst e + offset))
        (filter (fun e => existsb (Z.eqb (snd e)) (s_corners s)) loop)
  end.

(** The surfaces of a collection with their offsets *)
Fixpoint with_offsets (o : Z) (ss : list (MSurf F)) : list (Z * MSurf F) :=
  match ss with [] => [] | s :: r => (o, s) :: with_offsets (o + lenz (s_points s)) r end.

Definition bstone_line (e : Z * Z) : bytes := lit "BSTONE " ++ show (fst e).
Fixpoint border_lines (o : Z) (es : list (Z * Z)) : list bytes :=
  match es with
  | [] => []
  | e :: r => (lit "BORDER " ++ show o ++ SP :: show (fst e) ++ SP :: show (snd e)) :: border_lines (o + 1) r
  end.

(** One object of write_model_surfaces (impl 429-477), of write_geological_model_surfaces (sm 161-212) *)
Definition surface_object (kind name : bytes) (ss : list (MSurf F)) : list bytes :=
  let os := with_offsets 1 ss in
  let starts := flat_map (fun x => line_starts_of (snd x) (fst x)) os in
  [lit "GOCAD TSurf 1"] ++ write_header (Some name) ++ write_CRS default_crs ++
  [lit "GEOLOGICAL_FEATURE " ++ name; lit "GEOLOGICAL_TYPE " ++ kind] ++
  flat_map (fun x => lit "TFACE" :: write_surface (snd x) (fst x)) os ++
  map bstone_line starts ++
  border_lines (1 + fold_right Z.add 0 (map (fun s => lenz (s_points s)) ss)) starts ++
  [lit "END"].

Definition write_model_surfaces (m : SModel F) : res (list bytes) :=
  do ls <- mapM (fun c : res bytes * res bytes * list Z => let '(k, n, items) := c in
       do n' <- n; do k' <- k;
       do ss <- mapM (surface_of m) items;
       Ok (surface_object k' n' ss)) (sections m);
  Ok (List.concat ls).

(** write_file (impl 104-116) *)
Definition ml_lines (m : SModel F) (usides : list (Z * bool)) (rsides : PairedSigns) : res (list bytes) :=
  do cs <- write_components m usides rsides;
  do ss <- write_model_surfaces m;
  Ok ([lit "GOCAD Model3d 1"] ++ write_header (m_title m) ++ write_CRS default_crs ++ cs ++ ss).
Definition write_ml (m : SModel F) (usides : list (Z * bool)) (rsides : PairedSigns) : res bytes :=
  rmap unlines (ml_lines m usides rsides).
End Writer.

(** ** Reader *)

(** TSurfMLData (in 122-133) without the mesh data: name, feature, surfaces (by creation number) *)
Record TsMl := mkTsMl { tm_name : bytes; tm_feature : bytes; tm_faces : list Z }.
(** A block: name, boundary and internal surfaces. *)
Record BlkIn := mkBlkIn { bi_name : bytes; bi_boundaries : list Z; bi_internals : list Z }.

Record MlSt := mkMlSt {
  i_tsurfs : list TsMl;
  i_surfaces : list bytes;     (* names of the surfaces, in creation order *)
  i_universe : list Z;
  i_blocks : list BlkIn;
  i_units : list (bytes * list Z);
  i_fblocks : list (bytes * list Z)
}.

(** Tokens of an id list up to the first zero; [true] when it was met. *)
Fixpoint take_ids (parse : bytes -> res Z) (ts : list bytes) : res (list Z * bool) :=
  match ts with
  | [] => Ok ([], false)
  | t :: r =>
    do v <- parse t;
    if v =? 0 then Ok ([], true)
    else do '(vs, stop) <- take_ids parse r; Ok (v :: vs, stop)
  end.
(** The [while( true )] of in 863-878, 885-928, 938-972, 981-1014.  At the end of the file
    getline leaves an empty string for ever. *)
Fixpoint read_ids (parse : bytes -> res Z) (ls : list bytes) : res (list Z * list bytes) :=
  match ls with
  | [] => Hang
  | l :: r =>
    do '(vs, stop) <- take_ids parse (string_split l);
    if stop : bool then Ok (vs, r)
    else do '(vs', r') <- read_ids parse r; Ok (vs ++ vs', r')
  end.

(** [std::abs( info ) - OFFSET_START]; [std::abs( INT_MIN )] is undefined. *)
Definition surface_number (info : Z) : res Z :=
  if info =? -2147483648 then UB else Ok (Z.abs info - 1).

(** read_universe (in 861-879) *)
Definition universe_parse (nb_surfaces : Z) (t : bytes) : res Z :=
  do v <- string_to_int t;
  if v =? 0 then Ok 0
  else do s <- surface_number v;
       if s <? nb_surfaces then Ok v else Throw ExOutOfRange.
Definition block_parse (t : bytes) : res Z :=
  do v <- string_to_int t;
  if v =? 0 then Ok 0 else do _ <- surface_number v; Ok v.

(** [std::sort] on index_t *)
Fixpoint insert_z (x : Z) (l : list Z) : list Z :=
  match l with [] => [x] | y :: r => if x <=? y then x :: l else y :: insert_z x r end.
Definition sort_z (l : list Z) : list Z := fold_right insert_z [] l.

(** The loop of in 895-914 on the sorted numbers: (surface, internal) in the order of the calls. *)
Fixpoint pair_up (l : list Z) : list (Z * bool) :=
  match l with
  | a :: ((b :: r) as t) => if a =? b then (b, true) :: pair_up r else (a, false) :: pair_up t
  | _ => []
  end.
(** in 915-921: [surfaces[last - 1]] is out of bounds when there are less than two numbers *)
Definition last_one (l : list Z) : res (list (Z * bool)) :=
  match rev l with
  | x :: y :: _ => Ok (if y =? x then [] else [(x, false)])
  | _ => UB
  end.
(** create_block_topology (in 881-929), once the numbers are read; [surfaces_[i]] is not checked. *)
Definition block_topology (nb_surfaces : Z) (numbers : list Z) : res (list Z * list Z) :=
  let l := sort_z numbers in
  do la <- last_one l;
  let rel := pair_up l ++ la in
  if forallb (fun e => (0 <=? fst e) && (fst e <? nb_surfaces)) rel
  then Ok (map fst (filter (fun e => negb (snd e)) rel), map fst (filter snd rel))
  else UB.

(** create_stratigraphic_unit_topology, create_fault_block_topology (in 931-1015), once the
    numbers are read: the numbers of the blocks (by creation) put in the unit. *)
Definition unit_blocks (nb_surfaces nb_blocks : Z) (numbers : list Z) : list Z :=
  flat_map (fun n =>
    let b := wrap32 (n - (1 + nb_surfaces)) in
    if b =? 0 then [] else if b - 1 <? nb_blocks then [b - 1] else []) numbers.

(** process_TFACE_keyword (in 809-822): the first TSURF with this name *)
Fixpoint add_tface (name feature : bytes) (s : Z) (ts : list TsMl) : option (list TsMl) :=
  match ts with
  | [] => None
  | t :: r =>
    if beq (tm_name t) name then Some (mkTsMl (tm_name t) feature (tm_faces t ++ [s]) :: r)
    else option_map (cons t) (add_tface name feature s r)
  end.

(** One line of read_model_components (in 682-716) that is not END; [tokens] are the tokens of the
    line and [rest] the lines after it.  Forming the address one past the last token (in 695-696)
    is taken as harmless. *)
Definition component_line (st : MlSt) (line : bytes) (rest : list bytes) : res (MlSt * list bytes) :=
  let tokens := string_split line in
  do kw <- front tokens;
  let args := tl tokens in
  let '(mkMlSt ts ss un bs us fs) := st in
  if beq kw "TSURF" then
    Ok (mkMlSt (ts ++ [mkTsMl (read_name args) [] []]) ss un bs us fs, rest)
  else if beq kw "TFACE" then
    do feature <- idx args 1;
    let name := read_name (skipn 2 args) in
    match add_tface name feature (lenz ss) ts with
    | None => Throw ExOutOfRange
    | Some ts' => Ok (mkMlSt ts' (ss ++ [name]) un bs us fs, rest)
    end
  else if beq kw "REGION" then
    do _ <- idx args 0;
    let name := read_name (skipn 1 args) in
    if beq name "Universe" then
      do '(vs, r) <- read_ids (universe_parse (lenz ss)) rest;
      do ns <- mapM surface_number vs;
      Ok (mkMlSt ts ss (un ++ ns) bs us fs, r)
    else
      do '(vs, r) <- read_ids block_parse rest;
      do ns <- mapM surface_number vs;
      do '(bd, it) <- block_topology (lenz ss) ns;
      Ok (mkMlSt ts ss un (bs ++ [mkBlkIn name bd it]) us fs, r)
  else if beq kw "LAYER" then
    do '(vs, r) <- read_ids string_to_index rest;
    Ok (mkMlSt ts ss un bs (us ++ [(read_name args, unit_blocks (lenz ss) (lenz bs) vs)]) fs, r)
  else if beq kw "FAULT_BLOCK" then
    do '(vs, r) <- read_ids string_to_index rest;
    Ok (mkMlSt ts ss un bs us (fs ++ [(read_name args, unit_blocks (lenz ss) (lenz bs) vs)]), r)
  else Ok (st, rest).

(** read_model_components (in 682-721), the fuel bounds the number of lines. *)
Fixpoint components_loop (fuel : nat) (st : MlSt) (ls : list bytes) : res (MlSt * list bytes) :=
  match fuel with
  | O => Hang
  | S f =>
    match ls with
    | [] => Throw ExData
    | l :: r =>
      if starts_with l "END" then Ok (st, r)
      else do '(st', r') <- component_line st l r; components_loop f st' r'
    end
  end.
Definition empty_st : MlSt := mkMlSt [] [] [] [] [] [].
Definition read_components (ls : list bytes) : res (MlSt * list bytes) :=
  components_loop (S (List.length ls)) empty_st ls.

(** ** create_tsurfs (in 723-799) *)
Inductive kind_in := KFault (t : fault_type) | KBoundary | KHorizon (t : contact_type).
Record CollIn := mkCollIn { ci_kind : kind_in; ci_name : bytes; ci_surfaces : list Z }.

(** in 1029-1032 *)
Definition fault_of (f : bytes) : res fault_type :=
  if beq f "fault" then Ok FNoType else if beq f "reverse_fault" then Ok FReverse
  else if beq f "normal_fault" then Ok FNormal else Throw ExOutOfRange.
(** in 1033-1040 *)
Definition horizon_of (f : bytes) : res contact_type :=
  if beq f "top" then Ok CConformal else if beq f "none" then Ok CConformal
  else if beq f "topographic" then Ok CTopography else if beq f "intrusive" then Ok CIntrusion
  else if beq f "unconformity" then Ok CDiscontinuity else Throw ExOutOfRange.
Definition kind_of (f : bytes) : res kind_in :=
  if contains f "fault" then do t <- fault_of f; Ok (KFault t)
  else if beq f "boundary" || beq f "lease" then Ok KBoundary
  else do t <- horizon_of f; Ok (KHorizon t).

Definition is_boundary (c : CollIn) : bool :=
  match ci_kind c with KBoundary => true | _ => false end.

(** create_tsurfs and process_unassigned_model_boundaries *)
Definition create_tsurfs (st : MlSt) : res (list CollIn) :=
  do cs <- mapM (fun t => do k <- kind_of (tm_feature t); Ok (mkCollIn k (tm_name t) (tm_faces t)))
                (i_tsurfs st);
  let diff := filter (fun s => negb (existsb (Z.eqb s) (i_universe st)))
                     (flat_map ci_surfaces (filter is_boundary cs)) in
  match diff with
  | [] => Ok cs
  | _ => Ok (cs ++ [mkCollIn KBoundary (lit "undefined boundary") diff])
  end.

(** ** build_surfaces (in 490-519): the meshes of the surfaces of one TSURF *)
Definition slice {A} (l : list A) (from to : Z) : res (list A) :=
  if to <=? from then Ok [] (* an empty Range *)
  else if (0 <=? from) && (to <=? lenz l) then Ok (firstn (Z.to_nat (to - from)) (skipn (Z.to_nat from) l))
  else UB.
Definition minus_tri (o : Z) (t : tri) : tri := let '(a, b, c) := t in (sub32 a o, sub32 b o, sub32 c o).
Definition build_tface {F} (d : TSurf F) (i : nat) : res (mesh F tri) :=
  do current <- idx (t_vert_off d) i;
  do next <- idx (t_vert_off d) (S i);
  do pts <- slice (t_points d) current next;
  do t0 <- idx (t_tri_off d) i;
  do t1 <- idx (t_tri_off d) (S i);
  do tris <- slice (t_triangles d) t0 t1;
  foldM create_triangle (map (minus_tri current) tris)
    (create_points pts (set_name (t_name d) empty_mesh)).
Definition build_tfaces {F} (d : TSurf F) (faces : list Z) : res (list (Z * mesh F tri)) :=
  mapM (fun p => do m <- build_tface d (fst p); Ok (snd p, m)) (combine (seq 0 (List.length faces)) faces).

(** in 111-115 *)
Fixpoint build_all {F} (ts : list TsMl) (s : istream) : res (list (Z * mesh F tri)) :=
  match ts with
  | [] => Ok []
  | t :: r =>
    do '(o, s1) <- read_tsurf F s;
    match o with
    | None => Throw ExBadOptional
    | Some d => do ms <- build_tfaces d (tm_faces t); do ms' <- build_all r s1; Ok (ms ++ ms')
    end
  end.

(** The loaded model. *)
Record MlIn (F : Num) := mkMlIn {
  o_title : option bytes;
  o_surfaces : list bytes;           (* surface names *)
  o_meshes : list (Z * mesh F tri);
  o_colls : list CollIn;
  o_blocks : list BlkIn;
  o_units : list (bytes * list Z);
  o_fblocks : list (bytes * list Z)
}.
Arguments mkMlIn {F}. Arguments o_title {F}. Arguments o_surfaces {F}. Arguments o_meshes {F}.
Arguments o_colls {F}. Arguments o_blocks {F}. Arguments o_units {F}. Arguments o_fblocks {F}.

(** read_file (in 96-115) *)
Definition read_ml (F : Num) (text : bytes) : res (MlIn F) :=
  match goto_if "GOCAD Model3d" (open_text text) with
  | (None, _) => Throw ExData
  | (Some _, s1) =>
    do '(title, s2) <- read_header s1;
    do '(_, s3) <- read_CRS s2;
    do '(st, r) <- read_components (pending s3);
    do cs <- create_tsurfs st;
    do ms <- build_all (i_tsurfs st) (mkStream r (nl s3));
    Ok (mkMlIn title (i_surfaces st) ms cs (i_blocks st) (i_units st) (i_fblocks st))
  end.
