(** * Numbering base (C06). *)
From Coq Require Import ZArith List Lia Bool Ascii String.
From Verif Require Import Base Text TextFacts GocadModel MeshModel TsModel Spec GocadFacts CrlfFacts
  ShiftFacts ExNum ExCheck.
Import ListNotations.
Local Open Scope string_scope.
Local Open Scope list_scope.
Local Open Scope Z_scope.

Lemma open_shift k its : Forall (item_ok k) its ->
  open_text (file_with_base k its) = mkStream (map (render k) its) true.
Proof.
  intros H. apply open_unlines. apply Forall_map. eapply Forall_impl; [|exact H]. intros i. apply render_line.
Qed.

(** C06, surfaces: all the vertex numbers shifted from base [k] to base [k']; every TFACE
    section that follows an object header declares a vertex before it uses one. *)
Theorem C06_ts_numbering_base :
  forall (F : Num) (k k' : Z) (its : list item),
    Forall (item_ok k) its -> Forall (item_ok k') its -> sections_ok (lit "TFACE") its ->
    read_ts F (file_with_base k its) = read_ts F (file_with_base k' its).
Proof.
  intros F k k' its H1 H2 H3. unfold read_ts. rewrite !open_shift by assumption. cbn [pending].
  rewrite !map_length. apply (S_read_ts_loop k k' (lit "TFACE")); [reflexivity|].
  split; [|reflexivity]. now apply Ls_good.
Qed.
Print Assumptions C06_ts_numbering_base.

(** C06, curves. *)
Theorem C06_pl_numbering_base :
  forall (F : Num) (k k' : Z) (its : list item),
    Forall (item_ok k) its -> Forall (item_ok k') its -> sections_ok (lit "ILINE") its ->
    read_pl F (file_with_base k its) = read_pl F (file_with_base k' its).
Proof.
  intros F k k' its H1 H2 H3. unfold read_pl. rewrite !open_shift by assumption. cbn [pending].
  rewrite !map_length. apply (S_read_pl_loop k k' (lit "ILINE")); [reflexivity|].
  split; [|reflexivity]. now apply Ls_good.
Qed.
Print Assumptions C06_pl_numbering_base.

(** A surface with a property, an atom and two triangles, numbered from 0, 1 or near 2^32. *)
Definition ex_items : list item :=
  [Raw (lit "GOCAD TSurf 1"); Raw (lit "HEADER {"); Raw (lit "name:s"); Raw (lit "}"); Raw (lit "TFACE");
   Row (Vertex false 0 [lit "0"; lit "0"; lit "5"]); Row (Vertex true 1 [lit "1"; lit "0"; lit "6"; lit "9"]);
   Row (Vertex false 2 [lit "0"; lit "1"; lit "7"]); Row (Atom false 3 1 []);
   Row (Triangle 0 1 2 []); Row (Triangle 2 3 0 []); Row (Stone 0 []); Row (Border (lit "7") 0 1 []); Raw (lit "END")].
Ltac words_ok := repeat (apply Forall_cons || apply Forall_nil);
  (split; [apply tokenb_ok; reflexivity|]; split; cbv; intuition discriminate).
Lemma ex_items_ok k : 0 <= k < two32 - 4 -> Forall (item_ok k) ex_items.
Proof.
  intros Hk. unfold ex_items.
  repeat (apply Forall_cons;
    [cbn [item_ok]; first
      [ split; [cbn [row_numbers]; repeat (apply Forall_cons; [lia|]); apply Forall_nil
               |cbn [row_rest]; first [apply Forall_nil|words_ok]]
      | split; [apply lineb_ok; reflexivity|intros w r Hw; vm_compute in Hw; injection Hw as <- <-;
                cbv; intuition discriminate]] |]).
  apply Forall_nil.
Qed.
Lemma ex_sections_ok : sections_ok (lit "TFACE") ex_items.
Proof. cbn. repeat split; discriminate. Qed.
Example ex_shift : mesh_is zzz_eqb (read_ts ExNum (file_with_base 4294967291 ex_items))
  (Some (lit "s")) [(0,0,5); (1,0,6); (0,1,7); (1,0,6)] [(0,1,2); (2,3,0)] [] = true.
Proof. vm_compute. reflexivity. Qed.
(** Near 2^32, as from base 0. *)
Example ex_shift_any : read_ts ExNum (file_with_base 4294967291 ex_items) = read_ts ExNum (file_with_base 0 ex_items).
Proof.
  apply C06_ts_numbering_base; [apply ex_items_ok; unfold two32; lia|apply ex_items_ok; unfold two32; lia|].
  exact ex_sections_ok.
Qed.
