(** * SKUA stratigraphic columns (model/internal/horizons_stack_skua_input.cpp).
    The file is the tree parsed by pugixml (trusted); uuids of units and horizons are their ranks.  The final call of
    repair_horizon_stack_if_possible (143-144, OpenGeode-Geosciences) is not modelled: the result is the stack given to it.  [k_above] and [k_under]
    are the arguments of set_horizon_above and set_horizon_under, in the order of the calls. *)
From Coq Require Import ZArith List Lia Bool Ascii String.
From Verif Require Import Base Text GocadModel TsModel.
Import ListNotations.
Local Open Scope string_scope.
Local Open Scope list_scope.
Local Open Scope Z_scope.

(** A node of a parsed document. *)
Inductive xml := PCData (text : bytes) | Element (tag : bytes) (attrs : list (bytes * bytes)) (kids : list xml).
Definition kids (x : xml) : list xml := match x with PCData _ => [] | Element _ _ l => l end.
Definition has_tag (t : bytes) (x : xml) : bool := match x with PCData _ => false | Element g _ _ => beq g t end.
(** [xml_node::children( name )] and [xml_node::child( name )]: the first one, or the null node. *)
Definition children (t : bytes) (x : xml) : list xml := filter (has_tag t) (kids x).
Definition null : xml := Element [] [] [].
Definition child (t : bytes) (x : xml) : xml := hd null (children t x).
(** [xml_node::child_value()]: the first text child, or the empty string. *)
Fixpoint first_text (l : list xml) : bytes :=
  match l with [] => [] | PCData t :: _ => t | _ :: r => first_text r end.
Definition child_value (x : xml) : bytes := first_text (kids x).
(** [xml_node::attribute( name ).value()]. *)
Definition attribute (n : bytes) (x : xml) : bytes :=
  match x with
  | PCData _ => []
  | Element _ a _ => match find (fun e => beq (fst e) n) a with Some e => snd e | None => [] end
  end.

(** [absl::SimpleAtob]. *)
Definition lower (c : ascii) : ascii :=
  let n := nat_of_ascii c in if Nat.leb 65 n && Nat.leb n 90 then ascii_of_nat (n + 32) else c.
Definition is_bool (l : bytes) : bool :=
  existsb (beq (map lower l)) (map lit ["true"; "t"; "yes"; "y"; "1"; "false"; "f"; "no"; "n"; "0"]).

Inductive contact := Conformal | Erosion | Baselap | Discontinuity.
(** Units (names), horizons (name and contact type), relations (horizon, unit). *)
Record stack := mkStack {
  k_title : bytes;
  k_units : list bytes;
  k_horizons : list (bytes * contact);
  k_above : list (Z * Z);
  k_under : list (Z * Z)
}.
(** [name_map]: the rank of the horizon with a name. *)
Fixpoint rank_of (n : bytes) (i : Z) (l : list (bytes * contact)) : option Z :=
  match l with
  | [] => None
  | (m, _) :: r => if beq m n then Some i else rank_of n (i + 1) r
  end.
(** The horizon of an entry, created at its first mention (86-94, 117-125). *)
Definition horizon_for (n : bytes) (s : stack) : stack * Z :=
  match rank_of n 0 (k_horizons s) with
  | Some h => (s, h)
  | None => (mkStack (k_title s) (k_units s) (k_horizons s ++ [(n, Conformal)]) (k_above s) (k_under s), lenz (k_horizons s))
  end.
(** set_horizon_contact_type. *)
Fixpoint set_contact (h : Z) (f : contact -> contact) (l : list (bytes * contact)) : list (bytes * contact) :=
  match l with
  | [] => []
  | (n, c) :: r => if h =? 0 then (n, f c) :: r else (n, c) :: set_contact (h - 1) f r
  end.
Definition top_contact (c : contact) : contact := match c with Conformal => Erosion | _ => Discontinuity end.
Definition base_contact (c : contact) : contact := match c with Conformal => Baselap | _ => Discontinuity end.
Definition with_contact (h : Z) (f : contact -> contact) (s : stack) : stack :=
  mkStack (k_title s) (k_units s) (set_contact h f (k_horizons s)) (k_above s) (k_under s).
(** One <top> (80-110). *)
Definition read_top (u : Z) (s : stack) (x : xml) : stack :=
  let name := strip (child_value (child "name" x)) in
  let relation := strip (child_value (child "relation" x)) in
  let '(s, h) := horizon_for name s in
  let s := mkStack (k_title s) (k_units s) (k_horizons s) (k_above s ++ [(h, u)]) (k_under s) in
  if beq relation "structural" then with_contact h top_contact s else s.
(** One <base> (111-141). *)
Definition read_base (u : Z) (s : stack) (x : xml) : stack :=
  let name := strip (child_value (child "name" x)) in
  let relation := strip (child_value (child "relation" x)) in
  let '(s, h) := horizon_for name s in
  let s := mkStack (k_title s) (k_units s) (k_horizons s) (k_above s) (k_under s ++ [(h, u)]) in
  if beq relation "structural" then with_contact h base_contact s else s.
(** One <unit> (72-142). *)
Definition read_unit (s : stack) (x : xml) : stack :=
  let u := lenz (k_units s) in
  let s := mkStack (k_title s) (k_units s ++ [strip (child_value (child "name" x))]) (k_horizons s) (k_above s) (k_under s) in
  let s := fold_left (read_top u) (children "top" x) s in
  fold_left (read_base u) (children "base" x) s.
(** read_file (56-146) and load_file (149-164) on the document. *)
Definition read_stack (doc : xml) : res stack :=
  let root := child "LocalStratigraphicColumn" (child "UserObjects" doc) in
  let units := child "units" root in
  if is_bool (attribute "use_base_names" units) then
    Ok (fold_left read_unit (children "unit" units) (mkStack (strip (child_value (child "name" root))) [] [] [] []))
  else Throw ExData.
(** is_loadable (185-194): some line of the file starts with the keyword, preceded by one space. *)
Definition stack_loadable (file : bytes) : bool := loadable " <LocalStratigraphicColumn" file.
