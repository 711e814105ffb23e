(** * Specification of the GOCAD files of surfaces, curves and point sets, whoever wrote them.

    What the lines of a file say, independently of the readers: the object between its first line and END, its
    name, the direction of its depths, its declared properties, its numbered vertices and its cells given by
    vertex numbers. *)
From Coq Require Import ZArith List Lia Bool Ascii String.
From Verif Require Import Base Text Spec GocadModel GocadSafe.
Import ListNotations.
Local Open Scope string_scope.
Local Open Scope list_scope.
Local Open Scope Z_scope.

Definition starts (kw l : bytes) : Prop := starts_with l kw = true.
Definition starts_not (kw l : bytes) : Prop := starts_with l kw = false.
(** The next line, if any, does not start with [kw]. *)
Definition not_next (kw : bytes) (ls : list bytes) : Prop := match ls with l :: _ => starts_not kw l | [] => True end.
(** The texts of a vertex number and of a coordinate. *)
Definition number (t : bytes) (n : Z) : Prop := string_to_index t = Ok n.
Definition real (F : Num) (t : bytes) (x : num F) : Prop := string_to_double F t = Ok x.

(** The name: what follows name: in the last line that has it. *)
Definition name_in (inner : list bytes) (name : option bytes) : Prop :=
  (name = None /\ Forall (fun l => after_first "name:" l = None) inner) \/
  (exists a l b text, inner = a ++ l :: b /\ after_first "name:" l = Some text /\ name = Some (normalise text) /\
     Forall (fun l => after_first "name:" l = None) b).
Definition header_text (hs : list bytes) (name : option bytes) : Prop :=
  exists first inner last, hs = first :: inner ++ [last] /\ starts "HEADER" first /\
    Forall (starts_not "}") inner /\ starts "}" last /\ name_in inner name.

(** The coordinate system; [up]: the z coordinates are elevations. *)
Definition says_z (l : bytes) : Prop := exists args, split_quotes l = Ok (lit "ZPOSITIVE" :: args).
Definition crs_entry (l : bytes) : Prop := exists k args, split_quotes l = Ok (k :: args) /\
  (In k [lit "ZPOSITIVE"; lit "PROJECTION"; lit "DATUM"; lit "NAME"] -> args <> []).
Definition z_upwards (inner : list bytes) (up : bool) : Prop :=
  (up = true /\ Forall (fun l => ~ says_z l) inner) \/
  (exists a l b arg args, inner = a ++ l :: b /\ split_quotes l = Ok (lit "ZPOSITIVE" :: arg :: args) /\
     (up = true <-> arg = lit "Elevation") /\ Forall (fun l => ~ says_z l) b).
Definition crs_text (cs : list bytes) (up : bool) : Prop :=
  (cs = [] /\ up = true) \/
  (exists first inner last, cs = first :: inner ++ [last] /\ starts "GOCAD_ORIGINAL_COORDINATE_SYSTEM" first /\
     Forall (starts_not "END_ORIGINAL_COORDINATE_SYSTEM") inner /\ Forall crs_entry inner /\ z_upwards inner up /\
     starts "END_ORIGINAL_COORDINATE_SYSTEM" last).

(** The properties: name, number of values per vertex, value meaning no data. *)
Record property (F : Num) := mkProperty { pr_name : bytes; pr_size : Z; pr_none : num F }.
Arguments mkProperty {F}. Arguments pr_name {F}. Arguments pr_size {F}. Arguments pr_none {F}.
(** [ls] ends with [l], its only line that starts with [kw]. *)
Definition up_to (kw : bytes) (ls : list bytes) (l : bytes) : Prop :=
  exists before, ls = before ++ [l] /\ Forall (starts_not kw) before /\ starts kw l.
Definition many_words (kw : bytes) (n : nat) (ls : list bytes) : Prop :=
  exists l k args, up_to kw ls l /\ split_quotes l = Ok (k :: args) /\ (n <= List.length args)%nat.
Definition many_pairs (kw : bytes) (n : nat) (ls : list bytes) : Prop :=
  exists l, up_to kw ls l /\ pairs_enough n (skipn 1 (string_split l)).
Definition many_values {A} (denotes : bytes -> A -> Prop) (kw : bytes) (xs : list A) (ls : list bytes) : Prop :=
  exists l k texts more, up_to kw ls l /\ string_split l = k :: texts ++ more /\ Forall2 denotes texts xs.
(** The keywords can have a prefix ([prefix] is empty except for the properties of tetrahedra). *)
Definition prefixed_properties (F : Num) (prefix : bytes) (ls : list bytes) (ps : list (property F)) : Prop :=
  (ls = [] /\ ps = []) \/
  (ps = [] /\ exists l k, ls = [l] /\ starts (prefix ++ lit "PROPERTIES") l /\ split_quotes l = Ok [k]) \/
  (ps <> [] /\ exists l k s1 s2 s3 s4 s5 s6 s7, ls = l :: s1 ++ s2 ++ s3 ++ s4 ++ s5 ++ s6 ++ s7 /\
     starts (prefix ++ lit "PROPERTIES") l /\ split_quotes l = Ok (k :: map pr_name ps) /\
     many_pairs (prefix ++ lit "PROP_LEGAL_RANGES") (List.length ps) s1 /\
     many_values (real F) (prefix ++ lit "NO_DATA_VALUES") (map pr_none ps) s2 /\
     many_words (prefix ++ lit "PROPERTY_CLASSES") (List.length ps) s3 /\
     many_words (prefix ++ lit "PROPERTY_KINDS") (List.length ps) s4 /\
     many_pairs (prefix ++ lit "PROPERTY_SUBCLASSES") (List.length ps) s5 /\
     many_values number (prefix ++ lit "ESIZES") (map pr_size ps) s6 /\
     many_words (prefix ++ lit "UNITS") (List.length ps) s7).
Definition properties_text (F : Num) : list bytes -> list (property F) -> Prop := prefixed_properties F [].

(** The beginning of an object, up to its coordinate system; [body] is what follows. *)
Definition object_text (kw : bytes) (ls : list bytes) (name : option bytes) (up : bool) (body : list bytes) : Prop :=
  exists pre first hs cs, ls = pre ++ first :: hs ++ cs ++ body /\ Forall (starts_not kw) pre /\ starts kw first /\
    header_text hs name /\ crs_text cs up /\ (cs = [] -> not_next "GOCAD_ORIGINAL_COORDINATE_SYSTEM" body).
(** Same for the objects that have properties. *)
Definition object_with_properties (F : Num) (kw : bytes) (ls : list bytes) (name : option bytes) (up : bool)
    (ps : list (property F)) (body : list bytes) : Prop :=
  exists block, object_text kw ls name up (block ++ body) /\ properties_text F block ps /\
    (block = [] -> not_next "PROPERTIES" body).

(** ** The data *)
(** A vertex: number, position, values of each property. *)
Record vertex (F : Num) := mkVertex { vx_number : Z; vx_point : point F; vx_values : list (list (num F)) }.
Arguments mkVertex {F}. Arguments vx_number {F}. Arguments vx_point {F}. Arguments vx_values {F}.
(** The words of a line after the coordinates give the values of the properties, in order. *)
Definition values_text (F : Num) (ps : list (property F)) (texts : list bytes) (vals : list (list (num F))) : Prop :=
  Forall2 (fun p v => Z.of_nat (List.length v) = pr_size p) ps vals /\
  exists used more, texts = used ++ more /\ Forall2 (real F) used (List.concat vals).
(** VRTX or PVRTX number x y z values. *)
Definition vertex_line (F : Num) (up : bool) (ps : list (property F)) (l : bytes) (v : vertex F) : Prop :=
  exists k tn tx ty tz texts x y z, string_split l = k :: tn :: tx :: ty :: tz :: texts /\
    In k [lit "VRTX"; lit "PVRTX"] /\ number tn (vx_number v) /\ real F tx x /\ real F ty y /\ real F tz z /\
    vx_point v = (x, y, if up then z else neg F z) /\ values_text F ps texts (vx_values v).
(** ATOM or PATOM number other values: a vertex at the position of vertex [other]. *)
Definition atom_line (F : Num) (ps : list (property F)) (l : bytes) (other : Z) (v : vertex F) : Prop :=
  exists k tn ti texts, string_split l = k :: tn :: ti :: texts /\ In k [lit "ATOM"; lit "PATOM"] /\
    number tn (vx_number v) /\ number ti other /\ values_text F ps texts (vx_values v).
Definition trgl_words (l : bytes) (t : Z * Z * Z) : Prop :=
  exists ta tb tc more, string_split l = lit "TRGL" :: ta :: tb :: tc :: more /\
    number ta (fst (fst t)) /\ number tb (snd (fst t)) /\ number tc (snd t).
Definition seg_words (l : bytes) (e : Z * Z) : Prop :=
  exists ta tb more, string_split l = lit "SEG" :: ta :: tb :: more /\ number ta (fst e) /\ number tb (snd e).
(** Stones and borders: their words are numbers. *)
Definition stone_words (l : bytes) : Prop :=
  (exists ta more a, string_split l = lit "BSTONE" :: ta :: more /\ number ta a) \/
  (exists w ta tb more a b, string_split l = lit "BORDER" :: w :: ta :: tb :: more /\ number ta a /\ number tb b).
(** A line of words, the first of which is none of [kws]. *)
Definition other_line (kws : list bytes) (l : bytes) : Prop := exists k more, string_split l = k :: more /\ ~ In k kws.

(** The next vertex number: any for the first vertex, then one more than the previous one. *)
Definition next_number {F} (vs : list (vertex F)) (n : Z) : Prop :=
  match rev vs with [] => True | v :: _ => n = vx_number v + 1 end.
(** [surface_data up ps ls vs ts]: the lines declare the vertices [vs], numbered consecutively, and triangles between
    the vertices of numbers [ts]. *)
Inductive surface_data (F : Num) (up : bool) (ps : list (property F)) : list bytes -> list (vertex F) -> list (Z * Z * Z) -> Prop :=
| sd_nil : surface_data F up ps [] [] []
| sd_vertex ls vs ts l v : surface_data F up ps ls vs ts -> vertex_line F up ps l v -> next_number vs (vx_number v) ->
    surface_data F up ps (ls ++ [l]) (vs ++ [v]) ts
| sd_atom ls vs ts l o w v : surface_data F up ps ls vs ts -> atom_line F ps l o v -> next_number vs (vx_number v) ->
    In w vs -> vx_number w = o -> vx_point v = vx_point w -> surface_data F up ps (ls ++ [l]) (vs ++ [v]) ts
| sd_triangle ls vs ts l t : surface_data F up ps ls vs ts -> trgl_words l t -> vs <> [] ->
    surface_data F up ps (ls ++ [l]) vs (ts ++ [t])
| sd_section ls vs ts l more : surface_data F up ps ls vs ts -> string_split l = lit "TFACE" :: more ->
    surface_data F up ps (ls ++ [l]) vs ts
| sd_stone ls vs ts l : surface_data F up ps ls vs ts -> stone_words l -> surface_data F up ps (ls ++ [l]) vs ts
| sd_other ls vs ts l : surface_data F up ps ls vs ts ->
    other_line [lit "VRTX"; lit "PVRTX"; lit "ATOM"; lit "PATOM"; lit "TRGL"; lit "BSTONE"; lit "BORDER"; lit "TFACE"; lit "END"] l ->
    surface_data F up ps (ls ++ [l]) vs ts.
(** The same for curves (without ATOM lines: see C103) and for point sets (whose numbers do not matter). *)
Inductive curve_data (F : Num) (up : bool) : list bytes -> list (vertex F) -> list (Z * Z) -> Prop :=
| cd_nil : curve_data F up [] [] []
| cd_vertex ls vs es l v : curve_data F up ls vs es -> vertex_line F up [] l v -> next_number vs (vx_number v) ->
    curve_data F up (ls ++ [l]) (vs ++ [v]) es
| cd_segment ls vs es l e : curve_data F up ls vs es -> seg_words l e -> vs <> [] -> curve_data F up (ls ++ [l]) vs (es ++ [e])
| cd_other ls vs es l : curve_data F up ls vs es ->
    other_line [lit "VRTX"; lit "PVRTX"; lit "SEG"; lit "END"; lit "ATOM"; lit "PATOM"] l -> curve_data F up (ls ++ [l]) vs es.
Inductive points_data (F : Num) (up : bool) (ps : list (property F)) : list bytes -> list (vertex F) -> Prop :=
| pd_nil : points_data F up ps [] []
| pd_vertex ls vs l v : points_data F up ps ls vs -> vertex_line F up ps l v -> points_data F up ps (ls ++ [l]) (vs ++ [v])
| pd_other ls vs l : points_data F up ps ls vs ->
    other_line [lit "VRTX"; lit "PVRTX"; lit "END"; lit "ATOM"; lit "PATOM"] l -> points_data F up ps (ls ++ [l]) vs.
(** A line END. *)
Definition end_line (l : bytes) : Prop := exists more, string_split l = lit "END" :: more.

(** Vertex [i] (from 0) has number [n]. *)
Definition numbered {F} (vs : list (vertex F)) (n i : Z) : Prop := exists v, nthz vs i = Some v /\ vx_number v = n.
Definition declared {F} (vs : list (vertex F)) (n : Z) : Prop := exists v, In v vs /\ vx_number v = n.
