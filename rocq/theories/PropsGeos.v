(** * Properties C50, C51, C85 and C86: GEOS export. *)
From Coq Require Import ZArith List Lia Bool Ascii String.
From Verif Require Import Base Text TextFacts GocadModel LsoFacts GeosModel.
Import ListNotations.
Local Open Scope string_scope.
Local Open Scope list_scope.
Local Open Scope Z_scope.

(** ** C50: region numbers *)
Lemma Forall2_nthz {A B} (R : A -> B -> Prop) a b i x y : Forall2 R a b -> nthz a i = Some x -> nthz b i = Some y -> R x y.
Proof.
  intros H. revert i. induction H as [|p q a b H _ IH]; intros i X Y; [apply nthz_range in X; unfold lenz in X; cbn in X; lia|].
  rewrite nthz_cons in X. rewrite nthz_cons in Y. destruct (i =? 0); [congruence|]. now apply (IH (i - 1)).
Qed.
Lemma find_region_app m n id : find_region (m ++ n) id = match find_region m id with Some v => Some v | None => find_region n id end.
Proof. induction m as [|[k v] m IH]; [reflexivity|]. cbn. destruct (k =? id); [reflexivity|exact IH]. Qed.
Lemma find_emplace b v m id : find_region (emplace b v m) id
  = match find_region m id with Some w => Some w | None => if b =? id then Some v else None end.
Proof.
  unfold emplace. destruct (find_region m b) as [w|] eqn:E.
  - destruct (find_region m id) eqn:E2; [reflexivity|]. destruct (Z.eqb_spec b id) as [->|]; [congruence|reflexivity].
  - rewrite find_region_app. cbn. reflexivity.
Qed.
Lemma find_brep blocks : forall k m id, find_region (brep_regions k blocks m) id
  = match find_region m id with Some w => Some w | None => find_region (combine blocks (rangez k (List.length blocks))) id end.
Proof.
  induction blocks as [|b blocks IH]; intros k m id; cbn [brep_regions combine rangez List.length find_region].
  - now destruct (find_region m id).
  - rewrite IH, find_emplace. destruct (find_region m id); [reflexivity|]. now destruct (b =? id).
Qed.
Lemma find_combine blocks : forall k id, In id blocks -> exists r, find_region (combine blocks (rangez k (List.length blocks))) id = Some r
  /\ nthz blocks (r - k) = Some id.
Proof.
  induction blocks as [|b blocks IH]; intros k id; [intros []|]. cbn [combine rangez List.length find_region]. intros H.
  destruct (Z.eqb_spec b id) as [->|N].
  - exists k. now rewrite Z.sub_diag.
  - destruct H as [H|H]; [congruence|]. destruct (IH (k + 1) id H) as [r [H1 H2]]. exists r. split; [exact H1|].
    rewrite nthz_cons. pose proof (nthz_range _ _ _ H2). destruct (Z.eqb_spec (r - k) 0); [lia|]. now replace (r - k - 1) with (r - (k + 1)) by lia.
Qed.
(** The number of a cell of a BRep is the rank of its block: numbers are 0..n-1 and, the identifiers being distinct, two
    cells have the same number iff they are in the same block. *)
Theorem C50_block_numbers : forall blocks cells, NoDup blocks -> Forall (fun c => In (fst c) blocks) cells ->
  exists rs, solid_regions (brep_regions 0 blocks []) cells = Ok rs
  /\ Forall2 (fun c r => 0 <= r < lenz blocks /\ nthz blocks r = Some (fst c)) cells rs
  /\ forall i j ci cj ri rj, nthz cells i = Some ci -> nthz cells j = Some cj -> nthz rs i = Some ri -> nthz rs j = Some rj ->
     (ri = rj <-> fst ci = fst cj).
Proof.
  intros blocks cells D H.
  assert (exists rs, solid_regions (brep_regions 0 blocks []) cells = Ok rs
    /\ Forall2 (fun c r => 0 <= r < lenz blocks /\ nthz blocks r = Some (fst c)) cells rs) as [rs [E F]].
  { unfold solid_regions. induction H as [|c cells H1 _ [rs [E F]]].
    - exists []. split; [reflexivity|constructor].
    - destruct (find_combine blocks 0 (fst c) H1) as [r [R1 R2]]. rewrite Z.sub_0_r in R2. exists (r :: rs). split.
      + cbn [mapM]. rewrite find_brep. cbn [find_region]. rewrite R1. cbn [bind]. now rewrite E.
      + constructor; [|exact F]. split; [now apply nthz_range in R2|exact R2]. }
  exists rs. split; [exact E|]. split; [exact F|]. intros i j ci cj ri rj Ci Cj Ri Rj.
  destruct (Forall2_nthz _ _ _ _ _ _ F Ci Ri) as [B1 K1]. destruct (Forall2_nthz _ _ _ _ _ _ F Cj Rj) as [B2 K2]. split.
  - intros ->. congruence.
  - intros Q. rewrite <- Q in K2. unfold nthz in K1, K2.
    destruct (_ && _) in K1; [|discriminate K1]. destruct (_ && _) in K2; [|discriminate K2].
    rewrite NoDup_nth_error in D. assert (Z.to_nat ri = Z.to_nat rj); [|lia]. apply D; [|congruence].
    apply nth_error_Some. congruence.
Qed.
Print Assumptions C50_block_numbers.
Example C50_blocks_case : NoDup [7; 3; 9] /\ Forall (fun c : Z * Z => In (fst c) [7; 3; 9]) [(9, 0); (3, 0); (9, 1)]
  /\ solid_regions (brep_regions 0 [7; 3; 9] []) [(9, 0); (3, 0); (9, 1)] = Ok [2; 1; 2].
Proof. repeat split; repeat constructor; cbn; intuition lia. Qed.

(** Block [b] is an item of the unit of rank [k]. *)
Definition in_unit (units : list (list Z)) (k b : Z) : Prop := exists items, nthz units k = Some items /\ In b items.
Lemma find_items k items : forall m b, find_region (fold_left (fun m b => emplace b k m) items m) b
  = match find_region m b with Some w => Some w | None => if existsb (Z.eqb b) items then Some k else None end.
Proof.
  induction items as [|a items IH]; intros m b; cbn [fold_left existsb]; [now destruct (find_region m b)|].
  rewrite IH, find_emplace, Z.eqb_sym. destruct (find_region m b); [reflexivity|]. now destruct (b =? a).
Qed.
Lemma find_units units : forall k m b, match find_region (unit_regions k units m) b with
  | Some r => find_region m b = Some r \/ (find_region m b = None /\ k <= r /\ in_unit units (r - k) b /\ forall j, k <= j < r -> ~ in_unit units (j - k) b)
  | None => find_region m b = None /\ forall j, ~ in_unit units j b end.
Proof.
  induction units as [|items units IH]; intros k m b; cbn [unit_regions].
  - destruct (find_region m b); [now left|]. split; [reflexivity|]. intros j [l [H _]]. apply nthz_range in H. unfold lenz in H. cbn in H. lia.
  - specialize (IH (k + 1) (fold_left (fun m b => emplace b k m) items m) b). rewrite find_items in IH.
    assert (S : forall j, in_unit (items :: units) j b <-> (j = 0 /\ In b items) \/ (j <> 0 /\ in_unit units (j - 1) b)).
    { intros j. unfold in_unit. rewrite nthz_cons. destruct (Z.eqb_spec j 0); split.
      - intros [l [E H]]. left. split; [assumption|]. congruence.
      - intros [[_ H]|[H _]]; [|lia]. eauto.
      - intros H. right. auto.
      - intros [[H _]|[_ H]]; [lia|exact H]. }
    assert (X : existsb (Z.eqb b) items = true <-> In b items).
    { rewrite existsb_exists. split; [intros [x [Hx E]]; apply Z.eqb_eq in E; now subst|]. intros Hb. exists b. split; [assumption|apply Z.eqb_refl]. }
    destruct (find_region (unit_regions _ _ _) b) as [r|].
    + destruct (find_region m b) as [w|]; [destruct IH as [IH|[IH _]]; [now left|discriminate IH]|].
      right. split; [reflexivity|]. destruct (existsb (Z.eqb b) items).
      * destruct IH as [IH|[IH _]]; [|discriminate IH]. injection IH as <-. split; [lia|]. split; [|lia].
        rewrite Z.sub_diag. rewrite S. left. split; [reflexivity|]. now apply X.
      * destruct IH as [IH|[_ [IH1 [IH2 IH3]]]]; [discriminate IH|]. split; [lia|]. split.
        -- rewrite S. right. split; [lia|]. now replace (r - k - 1) with (r - (k + 1)) by lia.
        -- intros j Hj. rewrite S. intros [[Q1 Q2]|[Q1 Q2]]; [apply X in Q2; discriminate Q2|].
           apply (IH3 j); [lia|]. now replace (j - (k + 1)) with (j - k - 1) by lia.
    + destruct IH as [IH1 IH2]. destruct (find_region m b); [discriminate IH1|]. split; [reflexivity|]. intros j. rewrite S.
      destruct (existsb (Z.eqb b) items); [discriminate IH1|]. intros [[_ Q]|[_ Q]]; [apply X in Q; discriminate Q|]. now apply IH2 in Q.
Qed.
(** The number of a cell of a structural model is the rank of the first unit holding its block. *)
Theorem C50_first_unit : forall units cells, (forall c, In c cells -> exists k, in_unit units k (fst c)) ->
  exists rs, solid_regions (unit_regions 0 units []) cells = Ok rs
  /\ Forall2 (fun c r => in_unit units r (fst c) /\ forall j, 0 <= j < r -> ~ in_unit units j (fst c)) cells rs.
Proof.
  intros units cells H. unfold solid_regions. induction cells as [|c cells IH].
  - exists []. split; [reflexivity|constructor].
  - destruct IH as [rs [E F]]; [intros d Hd; apply H; now right|].
    pose proof (find_units units 0 [] (fst c)) as K. destruct (find_region (unit_regions 0 units []) (fst c)) as [r|] eqn:R.
    + destruct K as [K|[_ [K1 [K2 K3]]]]; [discriminate K|]. rewrite Z.sub_0_r in K2. exists (r :: rs). split.
      * cbn [mapM]. rewrite R. cbn [bind]. now rewrite E.
      * constructor; [|exact F]. split; [exact K2|]. intros j Hj. specialize (K3 j Hj). now rewrite Z.sub_0_r in K3.
    + destruct K as [_ K]. destruct (H c (or_introl eq_refl)) as [k Hk]. now apply K in Hk.
Qed.
Print Assumptions C50_first_unit.
(** When each block is in exactly one unit, two cells have the same number iff their blocks are in the same unit. *)
Theorem C50_same_unit : forall units cells,
  (forall c, In c cells -> exists k, in_unit units k (fst c)) ->
  (forall c k l, In c cells -> in_unit units k (fst c) -> in_unit units l (fst c) -> k = l) ->
  exists rs, solid_regions (unit_regions 0 units []) cells = Ok rs
  /\ forall i j ci cj ri rj, nthz cells i = Some ci -> nthz cells j = Some cj -> nthz rs i = Some ri -> nthz rs j = Some rj ->
     (ri = rj <-> exists k, in_unit units k (fst ci) /\ in_unit units k (fst cj)).
Proof.
  intros units cells H U. destruct (C50_first_unit units cells H) as [rs [E F]]. exists rs. split; [exact E|].
  intros i j ci cj ri rj Ci Cj Ri Rj.
  destruct (Forall2_nthz _ _ _ _ _ _ F Ci Ri) as [K1 _]. destruct (Forall2_nthz _ _ _ _ _ _ F Cj Rj) as [K2 _]. split.
  - intros <-. eauto.
  - intros [k [A B]]. apply nthz_in in Ci, Cj. rewrite (U ci ri k Ci K1 A). now rewrite (U cj rj k Cj K2 B).
Qed.
Print Assumptions C50_same_unit.
Example C50_units_case : solid_regions (unit_regions 0 [[4]; []; [5; 6]] []) [(4, 0); (6, 0); (5, 2)] = Ok [0; 2; 2]
  /\ (forall c, In c [(4, 0); (6, 0); (5, 2)] -> exists k, in_unit [[4]; []; [5; 6]] k (fst c)).
Proof.
  split; [reflexivity|]. intros c [<-|[<-|[<-|[]]]].
  - exists 0. exists [4]. split; [reflexivity|]. cbn; auto.
  - exists 2. exists [5; 6]. split; [reflexivity|]. cbn; auto.
  - exists 2. exists [5; 6]. split; [reflexivity|]. cbn; auto.
Qed.
(** A block in no unit: the end iterator of the map is dereferenced. *)
Theorem C50_block_without_unit_refuted : exists units cells, Forall (fun u => u <> []) units /\ cells <> []
  /\ solid_regions (unit_regions 0 units []) cells = UB.
Proof. exists [[4]], [(4, 0); (5, 0)]. repeat split; repeat constructor; discriminate. Qed.
Print Assumptions C50_block_without_unit_refuted.
(** More precisely, as soon as one block with a cell is in no unit, whatever the rest of the model. *)
Theorem C50_block_without_unit : forall units cells c, In c cells -> (forall k, ~ in_unit units k (fst c)) ->
  solid_regions (unit_regions 0 units []) cells = UB.
Proof.
  intros units cells c H N. unfold solid_regions. induction cells as [|d cells IH]; [destruct H|]. cbn [mapM].
  destruct H as [->|H].
  - pose proof (find_units units 0 [] (fst c)) as K. destruct (find_region _ (fst c)) as [r|]; [|reflexivity].
    destruct K as [K|[_ [_ [K _]]]]; [discriminate K|]. now apply N in K.
  - rewrite (IH H). destruct (find_region _ (fst d)); reflexivity.
Qed.
Print Assumptions C50_block_without_unit.
(** A block in two units: two cells of a common unit get different numbers. *)
Theorem C50_two_units_refuted : exists units cells rs, solid_regions (unit_regions 0 units []) cells = Ok rs
  /\ exists ci cj, nthz cells 0 = Some ci /\ nthz cells 1 = Some cj /\ (exists k, in_unit units k (fst ci) /\ in_unit units k (fst cj))
  /\ nthz rs 0 <> nthz rs 1.
Proof.
  exists [[4]; [4; 5]], [(4, 0); (5, 0)], [0; 1]. split; [reflexivity|]. exists (4, 0), (5, 0). repeat split.
  - exists 1. split; (eexists; split; [reflexivity|cbn; auto]).
  - discriminate.
Qed.
Print Assumptions C50_two_units_refuted.

(** ** C51: exported fields *)
Section Fields.
Context {V : Type}.
(** The attribute is defined on every block. *)
Definition on_every_block (blocks : list (block V)) (n : bytes) : bool :=
  forallb (fun b => existsb (fun a => beq (a_name a) n) (b_attrs b)) blocks.
Definition wanted (k : Z) (r : request) : list bytes :=
  match r with Add1 n => if k =? 1 then [n] else [] | Add2 n => if k =? 2 then [n] else [] | Add3 n => if k =? 3 then [n] else [] end.
(** The requested properties of [k] components defined everywhere, in order. *)
Definition accepted (blocks : list (block V)) (k : Z) (l : list request) : list bytes :=
  filter (on_every_block blocks) (flat_map (wanted k) l).
Fixpoint commas (l : list bytes) : bytes := match l with [] => [] | [n] => n | n :: r => n ++ lit "," ++ commas r end.

Lemma find_existsb {A} (f : A -> bool) l : match find f l with Some _ => true | None => false end = existsb f l.
Proof. induction l as [|a l IH]; [reflexivity|]. cbn. now destruct (f a). Qed.
Lemma check_is blocks n : check_property_name blocks n = on_every_block blocks n.
Proof.
  unfold check_property_name, on_every_block. induction blocks as [|b l IH]; [reflexivity|]. cbn [forallb]. rewrite IH. f_equal.
  apply find_existsb.
Qed.
Lemma add_properties_is blocks l : let s := add_properties blocks l in
  names1 s = accepted blocks 1 l /\ names2 s = accepted blocks 2 l /\ names3 s = accepted blocks 3 l.
Proof.
  unfold add_properties, accepted.
  enough (G : forall s, let s' := fold_left (add_property blocks) l s in
    names1 s' = names1 s ++ filter (on_every_block blocks) (flat_map (wanted 1) l)
    /\ names2 s' = names2 s ++ filter (on_every_block blocks) (flat_map (wanted 2) l)
    /\ names3 s' = names3 s ++ filter (on_every_block blocks) (flat_map (wanted 3) l)) by exact (G (mkNames [] [] [])).
  induction l as [|r l IH]; intros s; cbn [fold_left flat_map]; cbv zeta in *; [now rewrite !app_nil_r|].
  destruct (IH (add_property blocks s r)) as [-> [-> ->]]. rewrite !filter_app, !app_assoc.
  destruct r; cbn [wanted add_property Z.eqb Pos.eqb filter app]; rewrite check_is; destruct (on_every_block blocks n);
    cbn [names1 names2 names3 app]; rewrite ?app_nil_r; auto.
Qed.
Lemma append_names_is l : forall t, append_names l t
  = (fst t ++ match l with [] => [] | _ => (if snd t then [] else lit ",") ++ commas l end, match l with [] => snd t | _ => false end).
Proof.
  induction l as [|n l IH]; intros [t f]; unfold append_names; cbn [fold_left fst snd]; [now rewrite app_nil_r|].
  fold (append_names l ((if f then t else t ++ lit ",") ++ n, false)). rewrite IH. cbn [fst snd].
  destruct l as [|m l]; cbn [commas]; f_equal; destruct f; rewrite <- ?app_assoc, ?app_nil_r; reflexivity.
Qed.
End Fields.
(** The text lists the requested properties defined on every block: those of one component, then two, then three. *)
Theorem C51_fields : forall V (blocks : list (block V)) (l : list request),
  fields_to_import (add_properties blocks l)
  = lit "{" ++ commas (accepted blocks 1 l ++ accepted blocks 2 l ++ accepted blocks 3 l) ++ lit "}".
Proof.
  intros V blocks l. destruct (add_properties_is blocks l) as [E1 [E2 E3]]. unfold fields_to_import. rewrite E1, E2, E3.
  assert (K : forall a b t, append_names b (append_names a t) = append_names (a ++ b) t) by (intros; unfold append_names; now rewrite fold_left_app).
  cbv zeta. rewrite !K, append_names_is. cbn [fst snd app]. rewrite <- app_assoc.
  now destruct ((accepted blocks 1 l ++ accepted blocks 2 l) ++ accepted blocks 3 l) eqn:E; rewrite <- app_assoc in E; rewrite E.
Qed.
Print Assumptions C51_fields.
Definition ex_blocks : list (block (list Z)) :=
  [mkBlock 4 [mkAttr "perm" 3 [[1; 2; 3]; [4; 5; 6]]; mkAttr "poro" 1 [[10]; [11]]];
   mkBlock 5 [mkAttr "poro" 1 [[12]]; mkAttr "sat" 1 [[0]]; mkAttr "perm" 3 [[7; 8; 9]]]].
Definition ex_requests : list request := [Add3 "perm"; Add1 "sat"; Add1 "poro"].
Example C51_case : fields_to_import (add_properties ex_blocks ex_requests) = lit "{poro,perm}".
Proof. vm_compute. reflexivity. Qed.
(** The list is not in the order of the requests. *)
Theorem C51_order_refuted : exists (blocks : list (block (list Z))) l, fields_to_import (add_properties blocks l)
  <> lit "{" ++ commas (filter (on_every_block blocks) (flat_map (fun r => match r with Add1 n | Add2 n | Add3 n => [n] end) l)) ++ lit "}".
Proof. exists ex_blocks, ex_requests. vm_compute. discriminate. Qed.
Print Assumptions C51_order_refuted.
(** A property requested twice is listed twice. *)
Theorem C51_listed_twice_refuted : exists (blocks : list (block (list Z))) n,
  fields_to_import (add_properties blocks [Add1 n; Add1 n]) = lit "{" ++ n ++ lit "," ++ n ++ lit "}".
Proof. exists ex_blocks, (lit "poro"). vm_compute. reflexivity. Qed.
Print Assumptions C51_listed_twice_refuted.

(** ** C85: values of the exported properties *)
Section Values.
Context {V : Type}.
(** The value of the property on the cell of the block. *)
Definition value_on (blocks : list (block V)) (n : bytes) (k : Z) (c : Z * Z) (v : V) : Prop :=
  exists b a, In b blocks /\ b_id b = fst c /\ In a (b_attrs b) /\ a_name a = n /\ a_kind a = k /\ nthz (a_values a) (snd c) = Some v.
(** The solid has the property, with the value of the block on each cell. *)
Definition carries (blocks : list (block V)) (cells : list (Z * Z)) (solid : list (attr V)) (k : Z) (n : bytes) : Prop :=
  exists a, find_attr n solid = Some a /\ a_kind a = k /\ Forall2 (value_on blocks n k) cells (a_values a).
Lemma cell_value_ok blocks n k c v : cell_value blocks n k c = Ok v -> value_on blocks n k c v.
Proof.
  unfold cell_value. destruct (find _ blocks) as [b|] eqn:B; [|discriminate]. apply find_some in B as [B1 B2]. apply Z.eqb_eq in B2.
  destruct (find_attr n (b_attrs b)) as [a|] eqn:A; [|discriminate]. apply find_some in A as [A1 A2]. apply beq_eq in A2.
  destruct (Z.eqb_spec (a_kind a) k); [|discriminate]. intros H. apply idxz_ok in H. exists b, a. auto 10.
Qed.
Lemma find_store n vs (l : list (attr V)) m : find_attr m (store n vs l)
  = option_map (fun a => if beq (a_name a) n then mkAttr (a_name a) (a_kind a) vs else a) (find_attr m l).
Proof.
  unfold find_attr, store. induction l as [|a l IH]; [reflexivity|]. cbn [map find].
  assert (E : a_name (if beq (a_name a) n then mkAttr (a_name a) (a_kind a) vs else a) = a_name a) by now destruct (beq _ _).
  rewrite E. destruct (beq (a_name a) m); [reflexivity|exact IH].
Qed.
Lemma find_attr_app n (l m : list (attr V)) : find_attr n (l ++ m) = match find_attr n l with Some a => Some a | None => find_attr n m end.
Proof. unfold find_attr. induction l as [|a l IH]; [reflexivity|]. cbn. now destruct (beq (a_name a) n). Qed.
Lemma find_attr_name n (l : list (attr V)) a : find_attr n l = Some a -> a_name a = n.
Proof. intros H. apply find_some in H as [_ H]. now apply beq_eq in H. Qed.
Lemma transfer_step blocks cells k zero l n l' : transfer blocks cells k zero l n = Ok l' ->
  carries blocks cells l' k n /\ forall j m, m <> n \/ j <> k -> carries blocks cells l j m -> carries blocks cells l' j m.
Proof.
  intros H. unfold transfer in H. apply bind_ok in H as [l1 [H1 H]]. apply bind_ok in H as [vs [H2 H]].
  assert (l' = store n vs l1) as -> by congruence. clear H. apply mapM_ok in H2.
  assert (F : Forall2 (value_on blocks n k) cells vs).
  { clear -H2. induction H2; constructor; [now apply cell_value_ok|assumption]. }
  assert (K : exists a, find_attr n l1 = Some a /\ a_kind a = k).
  { unfold find_or_create in H1. destruct (find_attr n l) as [a|] eqn:E.
    - destruct (Z.eqb_spec (a_kind a) k); [|discriminate H1]. exists a. split; congruence.
    - assert (l1 = l ++ [mkAttr n k (repeat zero (List.length cells))]) as -> by congruence. rewrite find_attr_app, E. cbn.
      rewrite beq_refl. eexists. split; reflexivity. }
  assert (G : forall m a, find_attr m l = Some a -> find_attr m l1 = Some a).
  { intros m a E. unfold find_or_create in H1. destruct (find_attr n l) as [a'|].
    - destruct (a_kind a' =? k); [|discriminate H1]. congruence.
    - assert (l1 = l ++ [mkAttr n k (repeat zero (List.length cells))]) as -> by congruence. now rewrite find_attr_app, E. }
  destruct K as [a [K1 K2]]. split.
  - exists (mkAttr n k vs). rewrite find_store, K1. cbn [option_map]. rewrite (find_attr_name _ _ _ K1), beq_refl, K2. auto.
  - intros j m D [c [C1 [C2 C3]]]. pose proof (G _ _ C1) as Gm. destruct (beq m n) eqn:E.
    + apply beq_eq in E. subst m. destruct D as [D|D]; [congruence|]. exfalso. congruence.
    + exists c. rewrite find_store, Gm. cbn [option_map]. rewrite (find_attr_name _ _ _ C1), E. auto.
Qed.
Lemma transfer_all blocks cells k zero ns : forall l l', foldM (transfer blocks cells k zero) ns l = Ok l' ->
  (forall n, In n ns -> carries blocks cells l' k n) /\ (forall j m, carries blocks cells l j m -> carries blocks cells l' j m).
Proof.
  induction ns as [|n ns IH]; intros l l' H; cbn [foldM] in H.
  - assert (l' = l) as -> by congruence. split; [intros n []|auto].
  - apply bind_ok in H as [l1 [H1 H2]]. destruct (transfer_step _ _ _ _ _ _ _ H1) as [S1 S2]. destruct (IH _ _ H2) as [I1 I2].
    split; [intros m [<-|Hm]; auto|]. intros j m C. apply I2. destruct (beq m n) eqn:E; [|apply S2; [|assumption]].
    + apply beq_eq in E. subst m. destruct (Z.eq_dec j k) as [->|N]; [assumption|]. apply S2; auto.
    + left. intros ->. rewrite beq_refl in E. discriminate.
Qed.
End Values.
(** When the export succeeds, every listed property is on the solid with the values of the blocks, cell by cell. *)
Theorem C85_values : forall V (blocks : list (block V)) cells zero l solid,
  transfer_cell_properties blocks cells zero (add_properties blocks l) = Ok solid ->
  forall k n, In k [1; 2; 3] -> In n (accepted blocks k l) -> carries blocks cells solid k n.
Proof.
  intros V blocks cells zero l solid H. unfold transfer_cell_properties in H. destruct (add_properties_is blocks l) as [E1 [E2 E3]].
  rewrite E1, E2, E3 in H. apply bind_ok in H as [l1 [H1 H]]. apply bind_ok in H as [l2 [H2 H3]].
  destruct (transfer_all _ _ _ _ _ _ _ H1) as [A1 _]. destruct (transfer_all _ _ _ _ _ _ _ H2) as [A2 B2].
  destruct (transfer_all _ _ _ _ _ _ _ H3) as [A3 B3]. intros k n [<-|[<-|[<-|[]]]] Hn; auto.
Qed.
Print Assumptions C85_values.
Section Success.
Context {V : Type}.
(** Every block has the property with [k] components. *)
Definition typed (blocks : list (block V)) (k : Z) (n : bytes) : Prop :=
  Forall (fun b => exists a, find_attr n (b_attrs b) = Some a /\ a_kind a = k) blocks.
Definition cell_exists (blocks : list (block V)) (c : Z * Z) : Prop :=
  exists b, find (fun b => b_id b =? fst c) blocks = Some b /\ forall a, In a (b_attrs b) -> exists v, nthz (a_values a) (snd c) = Some v.
(** The solid has no attribute of the name with another type. *)
Definition free (solid : list (attr V)) (k : Z) (n : bytes) : Prop := forall a, find_attr n solid = Some a -> a_kind a = k.
Lemma mapM_total {A B} (f : A -> res B) l : (forall a, In a l -> exists b, f a = Ok b) -> exists bs, mapM f l = Ok bs.
Proof.
  induction l as [|a l IH]; intros H; [now exists []|]. destruct (H a (or_introl eq_refl)) as [b Hb].
  destruct IH as [bs Hbs]; [intros c Hc; apply H; now right|]. exists (b :: bs). cbn. now rewrite Hb, Hbs.
Qed.
Lemma transfer_total blocks cells k zero l n : Forall (cell_exists blocks) cells -> typed blocks k n -> free l k n ->
  exists l', transfer blocks cells k zero l n = Ok l' /\ forall m a, find_attr m l' = Some a -> (m = n /\ a_kind a = k) \/ exists a', find_attr m l = Some a' /\ a_kind a' = a_kind a.
Proof.
  intros C T Fr. unfold transfer.
  assert (exists l1, find_or_create n k zero (List.length cells) l = Ok l1 /\ forall m a, find_attr m l1 = Some a -> (m = n /\ a_kind a = k) \/ find_attr m l = Some a) as [l1 [-> P]].
  { unfold find_or_create. destruct (find_attr n l) as [a|] eqn:E.
    - rewrite (Fr a E), Z.eqb_refl. exists l. split; [reflexivity|]. auto.
    - eexists. split; [reflexivity|]. intros m a. rewrite find_attr_app. destruct (find_attr m l); [intros H; right; congruence|].
      cbn. destruct (beq n m) eqn:B; [|discriminate]. apply beq_eq in B. intros H. left. injection H as <-. auto. }
  cbn [bind]. destruct (mapM_total (cell_value blocks n k) cells) as [vs ->].
  { intros c Hc. rewrite Forall_forall in C. destruct (C c Hc) as [b [Hb Hv]]. unfold cell_value. rewrite Hb.
    pose proof (find_some _ _ Hb) as [Hb1 _]. unfold typed in T. rewrite Forall_forall in T. destruct (T b Hb1) as [a [Ha Hk]].
    rewrite Ha, Hk, Z.eqb_refl. pose proof (find_some _ _ Ha) as [Ha1 _]. destruct (Hv a Ha1) as [v Hv']. exists v. now apply idxz_ok. }
  eexists. split; [reflexivity|]. intros m a. rewrite find_store. destruct (find_attr m l1) as [a1|] eqn:E1; [|intros H; discriminate H].
  intros H. assert (Q : a_kind a1 = a_kind a) by (cbn [option_map] in H; destruct (beq (a_name a1) n); injection H as <-; reflexivity).
  destruct (P m a1 E1) as [[P1 P2]|P1]; [left; split; congruence|]. right. eauto.
Qed.
Lemma transfers_total blocks cells k zero ns : Forall (cell_exists blocks) cells -> (forall n, In n ns -> typed blocks k n) -> forall l, (forall n, In n ns -> free l k n) ->
  exists l', foldM (transfer blocks cells k zero) ns l = Ok l' /\ forall m a, find_attr m l' = Some a -> (In m ns /\ a_kind a = k) \/ exists a', find_attr m l = Some a' /\ a_kind a' = a_kind a.
Proof.
  intros C. induction ns as [|n ns IH]; intros T l Fr; cbn [foldM].
  - exists l. split; [reflexivity|]. eauto.
  - destruct (transfer_total blocks cells k zero l n C) as [l1 [E P]]; [apply T; now left|apply Fr; now left|]. rewrite E. cbn [bind].
    destruct (IH (fun m Hm => T m (or_intror Hm)) l1) as [l' [E' P']].
    + intros m Hm a Ha. destruct (P m a Ha) as [[-> Q]|[a' [Q1 Q2]]]; [exact Q|]. rewrite <- Q2. apply (Fr m); [now right|assumption].
    + exists l'. split; [exact E'|]. intros m a Ha. destruct (P' m a Ha) as [[Q1 Q2]|[a' [Q1 Q2]]]; [left; split; [now right|assumption]|].
      destruct (P m a' Q1) as [[-> Q]|[a2 [R1 R2]]]; [left; split; [now left|congruence]|]. right. exists a2. split; congruence.
Qed.
End Success.
(** The export succeeds when every property defined everywhere has, on every block, the requested number of components, and
    none is called "attribute" (the name of the region numbers). *)
Theorem C85_success : forall V (blocks : list (block V)) cells zero l, blocks <> [] -> Forall (cell_exists blocks) cells ->
  (forall k n, In k [1; 2; 3] -> In n (accepted blocks k l) -> typed blocks k n /\ n <> lit "attribute") ->
  exists solid, transfer_cell_properties blocks cells zero (add_properties blocks l) = Ok solid.
Proof.
  intros V blocks cells zero l N C H. unfold transfer_cell_properties. destruct (add_properties_is blocks l) as [E1 [E2 E3]]. rewrite E1, E2, E3.
  assert (R : forall k n, In k [1; 2; 3] -> In n (accepted blocks k l) -> free [@region_attr V] k n).
  { intros k n Hk Hn a Ha. destruct (H k n Hk Hn) as [_ D]. apply find_attr_name in Ha as E.
    unfold find_attr in Ha. cbn [find a_name region_attr] in Ha. destruct (beq "attribute" n) eqn:B; [|discriminate Ha].
    apply beq_eq in B. congruence. }
  assert (X : forall j k n, In j [1; 2; 3] -> In k [1; 2; 3] -> In n (accepted blocks j l) -> In n (accepted blocks k l) -> j = k).
  { intros j k n Hj Hk Aj Ak. destruct (H j n Hj Aj) as [Tj _]. destruct (H k n Hk Ak) as [Tk _]. destruct blocks as [|b r]; [congruence|].
    inversion Tj as [|? ? [a [A1 A2]]]; subst. inversion Tk as [|? ? [a' [A3 A4]]]; subst. congruence. }
  destruct (transfers_total blocks cells 1 zero (accepted blocks 1 l) C) with (l := [@region_attr V]) as [l1 [-> P1]].
  { intros n Hn. apply (H 1 n); cbn; auto. }
  { intros n Hn. apply (R 1 n); cbn; auto. }
  cbn [bind]. destruct (transfers_total blocks cells 2 zero (accepted blocks 2 l) C) with (l := l1) as [l2 [-> P2]].
  { intros n Hn. apply (H 2 n); cbn; auto. }
  { intros n Hn a Ha. destruct (P1 n a Ha) as [[Q1 Q2]|[a' [Q1 Q2]]]; [|rewrite <- Q2; apply (R 2 n); cbn; auto].
    rewrite Q2. apply (X 1 2 n); cbn; auto. }
  cbn [bind]. destruct (transfers_total blocks cells 3 zero (accepted blocks 3 l) C) with (l := l2) as [l3 [-> P3]].
  { intros n Hn. apply (H 3 n); cbn; auto. }
  { intros n Hn a Ha. destruct (P2 n a Ha) as [[Q1 Q2]|[a' [Q1 Q2]]]; [rewrite Q2; apply (X 2 3 n); cbn; auto|].
    rewrite <- Q2. destruct (P1 n a' Q1) as [[Q3 Q4]|[a2 [Q3 Q4]]]; [rewrite Q4; apply (X 1 3 n); cbn; auto|].
    rewrite <- Q4. apply (R 3 n); cbn; auto. }
  now exists l3.
Qed.
Print Assumptions C85_success.
Definition ex_cells : list (Z * Z) := [(5, 0); (4, 1); (4, 0)].
Example C85_case : transfer_cell_properties ex_blocks ex_cells [] (add_properties ex_blocks ex_requests)
  = Ok [region_attr; mkAttr "poro" 1 [[12]; [11]; [10]]; mkAttr "perm" 3 [[7; 8; 9]; [4; 5; 6]; [1; 2; 3]]].
Proof. vm_compute. reflexivity. Qed.
(** A property accepted by add_cell_property1d because it exists on every block, but not as double, stops the export. *)
Theorem C85_type_refuted : exists (blocks : list (block (list Z))) cells n, In n (accepted blocks 1 [Add1 n])
  /\ transfer_cell_properties blocks cells [] (add_properties blocks [Add1 n]) = Throw ExData.
Proof. exists ex_blocks, ex_cells, (lit "perm"). split; vm_compute; [now left|reflexivity]. Qed.
Print Assumptions C85_type_refuted.
(** So does a property called "attribute", whatever its values. *)
Theorem C85_reserved_name_refuted : exists (blocks : list (block (list Z))) cells n, typed blocks 1 n /\ Forall (cell_exists blocks) cells
  /\ transfer_cell_properties blocks cells [] (add_properties blocks [Add1 n]) = Throw ExData.
Proof.
  exists [mkBlock 4 [mkAttr "attribute" 1 [[1]]]], [(4, 0)], (lit "attribute"). split; [|split; [|vm_compute; reflexivity]].
  - repeat constructor. eexists. split; [vm_compute; reflexivity|reflexivity].
  - repeat constructor. eexists. split; [vm_compute; reflexivity|]. intros a [<-|[]]. now exists [1].
Qed.
Print Assumptions C85_reserved_name_refuted.

(** ** C86: boxes of the wells *)
Section Boxes.
Context {T : Type} (ltb : T -> T -> bool) (big low : T).
Definition le (a b : T) : Prop := ltb b a = false.
Definition le3 (p q : point T) : Prop :=
  let '(x, y, z) := p in let '(u, v, w) := q in le x u /\ le y v /\ le z w.
(** The point is in the box. *)
Definition inside (p : point T) (b : box T) : Prop := le3 (x_min T b) p /\ le3 p (x_max T b).
(** The comparison is a total order with extreme values. *)
Record total_order : Prop := {
  t_irr : forall a, ltb a a = false;
  t_trans : forall a b c, ltb a b = true -> ltb b c = true -> ltb a c = true;
  t_total : forall a b, ltb a b = false -> ltb b a = false -> a = b
}.
(** The point is in the bounding box of the points. *)
Definition coord (i : nat) (p : point T) : T := let '(x, y, z) := p in match i with O => x | S O => y | _ => z end.
Definition in_bounds (p : point T) (vs : list (point T)) : Prop :=
  forall i, exists v w, In v vs /\ In w vs /\ le (coord i v) (coord i p) /\ le (coord i p) (coord i w).
Hypothesis O : total_order.
Lemma le_refl a : le a a. Proof. apply (t_irr O). Qed.
Lemma le_trans a b c : le a b -> le b c -> le a c.
Proof.
  unfold le. intros H1 H2. destruct (ltb c a) eqn:E; [|reflexivity]. destruct (ltb a b) eqn:E1.
  - now rewrite (t_trans O _ _ _ E E1) in H2.
  - assert (a = b) as -> by now apply (t_total O). congruence.
Qed.
Lemma lower_le a b : le (lower T ltb a b) a /\ le (lower T ltb a b) b.
Proof. unfold lower. destruct (ltb b a) eqn:E; split; try apply le_refl; unfold le; [|assumption]. destruct (ltb a b) eqn:E2; [|reflexivity]. pose proof (t_trans O _ _ _ E E2) as X. now rewrite (t_irr O) in X. Qed.
Lemma upper_le a b : le a (upper T ltb a b) /\ le b (upper T ltb a b).
Proof. unfold upper. destruct (ltb a b) eqn:E; split; try apply le_refl; unfold le; [|assumption]. destruct (ltb b a) eqn:E2; [|reflexivity]. pose proof (t_trans O _ _ _ E E2) as X. now rewrite (t_irr O) in X. Qed.
Lemma le3_coord p q : le3 p q <-> forall i, le (coord i p) (coord i q).
Proof.
  destruct p as [[x y] z], q as [[u v] w]. cbn. split.
  - intros [H1 [H2 H3]] [|[|i]]; assumption.
  - intros H. exact (conj (H 0%nat) (conj (H 1%nat) (H 2%nat))).
Qed.
Lemma coord_map3 f i (p q : point T) : coord i (map3 T f p q) = f (coord i p) (coord i q).
Proof. destruct p as [[x y] z], q as [[u v] w]. destruct i as [|[|i]]; reflexivity. Qed.
Definition contains_box (b b' : box T) : Prop := forall i, le (coord i (x_min T b)) (coord i (x_min T b')) /\ le (coord i (x_max T b')) (coord i (x_max T b)).
Lemma contains_refl b : contains_box b b. Proof. intros i. split; apply le_refl. Qed.
Lemma contains_trans a b c : contains_box a b -> contains_box b c -> contains_box a c.
Proof. intros H1 H2 i. destruct (H1 i), (H2 i). split; eapply le_trans; eassumption. Qed.
Lemma inside_contains p a b : contains_box a b -> inside p b -> inside p a.
Proof.
  intros H [H1 H2]. rewrite le3_coord in H1, H2. split; rewrite le3_coord; intros i; destruct (H i); eapply le_trans; eauto.
Qed.
Lemma add_point_spec b p : contains_box (add_point T ltb b p) b /\ inside p (add_point T ltb b p).
Proof.
  unfold add_point, contains_box, inside. cbn [x_min x_max]. rewrite !le3_coord. repeat split; intros; rewrite ?coord_map3; apply lower_le || apply upper_le.
Qed.
Lemma add_points_spec vs : forall b, let b' := fold_left (add_point T ltb) vs b in
  contains_box b' b /\ forall v, In v vs -> inside v b'.
Proof.
  induction vs as [|v vs IH]; intros b; cbn [fold_left]; cbv zeta; [split; [apply contains_refl|intros v []]|].
  destruct (IH (add_point T ltb b v)) as [I1 I2]. destruct (add_point_spec b v) as [A1 A2]. split; [eapply contains_trans; eassumption|].
  intros w [<-|Hw]; [|auto]. eapply inside_contains; eassumption.
Qed.
(** The bounds come from the points. *)
Definition bounds_from (vs : list (point T)) (b0 b : box T) : Prop := forall i,
  (coord i (x_min T b) = coord i (x_min T b0) \/ exists v, In v vs /\ coord i (x_min T b) = coord i v)
  /\ (coord i (x_max T b) = coord i (x_max T b0) \/ exists v, In v vs /\ coord i (x_max T b) = coord i v).
Lemma add_points_from vs : forall b, bounds_from vs b (fold_left (add_point T ltb) vs b).
Proof.
  induction vs as [|v vs IH]; intros b i; cbn [fold_left]; [split; now left|]. destruct (IH (add_point T ltb b v) i) as [I1 I2].
  change (x_min T (add_point T ltb b v)) with (map3 T (lower T ltb) (x_min T b) v) in I1.
  change (x_max T (add_point T ltb b v)) with (map3 T (upper T ltb) (x_max T b) v) in I2.
  rewrite coord_map3 in I1. rewrite coord_map3 in I2. split.
  - destruct I1 as [I1|[w [H1 H2]]]; [|right; exists w; split; [now right|assumption]]. unfold lower in I1. destruct (ltb _ _) in I1; [right; exists v; split; [now left|assumption]|now left].
  - destruct I2 as [I2|[w [H1 H2]]]; [|right; exists w; split; [now right|assumption]]. unfold upper in I2. destruct (ltb _ _) in I2; [right; exists v; split; [now left|assumption]|now left].
Qed.
Variable cells : list (list (point T)).
Variable containing : point T -> list Z.
Variable distance : point T -> Z -> T.
Lemma nearest_spec p l : forall best, let r := fold_left (fun (best : T * Z) c => if ltb (fst best) (distance p c) then best else (distance p c, c)) l best in
  (r = best \/ (In (snd r) l /\ fst r = distance p (snd r))) /\ le (fst r) (fst best) /\ (forall c, In c l -> le (fst r) (distance p c)).
Proof.
  induction l as [|c l IH]; intros best; cbn [fold_left]; cbv zeta.
  - split; [now left|]. split; [apply le_refl|intros c []].
  - specialize (IH (if ltb (fst best) (distance p c) then best else (distance p c, c))). cbv zeta in IH. destruct IH as [I1 [I2 I3]].
    destruct (ltb (fst best) (distance p c)) eqn:E.
    + split; [destruct I1 as [I1|[I1 I1']]; [now left|right; split; [now right|assumption]]|]. split; [assumption|].
      intros d [<-|Hd]; [|auto]. eapply le_trans; [exact I2|]. unfold le. destruct (ltb (distance p c) (fst best)) eqn:E2; [|reflexivity].
      pose proof (t_trans O _ _ _ E E2) as X. now rewrite (t_irr O) in X.
    + split; [|split].
      * destruct I1 as [I1|[I1 I1']]; right; [rewrite I1; cbn; auto|split; [now right|assumption]].
      * eapply le_trans; [exact I2|]. exact E.
      * intros d [<-|Hd]; [exact I2|auto].
Qed.
Lemma nearest_ok p l : l <> [] -> (forall c, In c l -> le (distance p c) big) ->
  In (snd (nearest T ltb big distance p l)) l /\ forall d, In d l -> le (distance p (snd (nearest T ltb big distance p l))) (distance p d).
Proof.
  intros N H. destruct l as [|c l]; [congruence|]. unfold nearest. cbn [fold_left fst]. pose proof (H c (or_introl eq_refl)) as Hc. unfold le in Hc. rewrite Hc.
  pose proof (nearest_spec p l (distance p c, c)) as [I1 [I2 I3]]. cbn [fst] in I2. destruct I1 as [I1|[I1 I1']].
  - rewrite I1 in *. cbn [fst snd] in *. split; [now left|]. intros d [<-|Hd]; [apply le_refl|auto].
  - rewrite <- I1'. split; [now right|]. intros d [<-|Hd]; auto.
Qed.
Hypothesis containing_ok : forall p c, In c (containing p) -> exists vs, nthz cells c = Some vs /\ in_bounds p vs.
Hypothesis distances : forall p c, In c (containing p) -> le (distance p c) big.
(** The cell chosen for a perforation: a nearest one, all of it in the box. *)
Definition covered (p : point T) (b : box T) : Prop := inside p b /\ exists c vs, In c (containing p) /\ nthz cells c = Some vs
  /\ (forall d, In d (containing p) -> le (distance p c) (distance p d)) /\ forall v, In v vs -> inside v b.
Definition vertex_of_cells (ps : list (point T)) (v : point T) : Prop := exists p c vs, In p ps /\ In c (containing p) /\ nthz cells c = Some vs /\ In v vs.
Lemma well_box_spec ps : forall b0, exists b, foldM (add_perforation T ltb big cells containing distance) ps b0 = Ok b
  /\ contains_box b b0 /\ (forall p, In p ps -> containing p <> [] -> covered p b)
  /\ forall i, (coord i (x_min T b) = coord i (x_min T b0) \/ exists v, vertex_of_cells ps v /\ coord i (x_min T b) = coord i v)
     /\ (coord i (x_max T b) = coord i (x_max T b0) \/ exists v, vertex_of_cells ps v /\ coord i (x_max T b) = coord i v).
Proof.
  induction ps as [|p ps IH]; intros b0; cbn [foldM].
  - exists b0. split; [reflexivity|]. split; [apply contains_refl|]. split; [intros p []|]. intros i. split; now left.
  - assert (M : forall v, vertex_of_cells ps v -> vertex_of_cells (p :: ps) v) by (intros v [q [c [vs [H1 H2]]]]; exists q, c, vs; split; [now right|assumption]).
    destruct (containing p) as [|c0 l0] eqn:E.
    + unfold add_perforation at 1. rewrite E. cbn [bind]. destruct (IH b0) as [b [I1 [I2 [I3 I4]]]]. exists b. split; [exact I1|]. split; [exact I2|]. split.
      * intros q [<-|Hq] Nq; [congruence|auto].
      * intros i. destruct (I4 i) as [A B]. split; [destruct A as [A|[v [A1 A2]]]|destruct B as [B|[v [B1 B2]]]]; auto; right; eauto.
    + destruct (nearest_ok p (containing p)) as [N1 N2]; [congruence|auto|]. unfold add_perforation at 1. rewrite E. cbn [bind].
      rewrite <- E. destruct (containing_ok p _ N1) as [vs [V1 V2]]. rewrite (proj2 (idxz_ok _ _ _) V1). cbn [bind].
      destruct (add_points_spec vs b0) as [P1 P2]. pose proof (add_points_from vs b0) as P3.
      set (b1 := fold_left (add_point T ltb) vs b0) in *. destruct (IH b1) as [b [I1 [I2 [I3 I4]]]]. exists b. split; [exact I1|].
      split; [eapply contains_trans; eassumption|]. split.
      * intros q [<-|Hq] Nq; [|auto]. assert (A : forall v, In v vs -> inside v b) by (intros v Hv; eapply inside_contains; [exact I2|auto]). split.
        -- split; rewrite le3_coord; intros i; destruct (V2 i) as [v [w [Hv [Hw [L1 L2]]]]].
           ++ destruct (A v Hv) as [Q _]. rewrite le3_coord in Q. eapply le_trans; eauto.
           ++ destruct (A w Hw) as [_ Q]. rewrite le3_coord in Q. eapply le_trans; eauto.
        -- eexists _, vs. split; [exact N1|]. split; [exact V1|]. split; [exact N2|exact A].
      * assert (M' : forall v, In v vs -> vertex_of_cells (p :: ps) v) by (intros v Hv; eexists p, _, vs; split; [now left|]; split; [exact N1|]; auto).
        intros i. destruct (I4 i) as [A B]. destruct (P3 i) as [C D]. split.
        -- destruct A as [A|[v [A1 A2]]]; [|right; eauto]. rewrite A. destruct C as [C|[v [C1 C2]]]; [now left|right; eauto].
        -- destruct B as [B|[v [B1 B2]]]; [|right; eauto]. rewrite B. destruct D as [D|[v [D1 D2]]]; [now left|right; eauto].
Qed.
End Boxes.
(** For every well: each perforation located in the bounding box of some cell is in the box of the well, with all the
    vertices of a cell nearest to it among these; the bounds of the box are those of the empty box or coordinates of
    vertices of such cells; a well with no such perforation has the empty box (minimum above maximum). *)
Theorem C86_well_box : forall T (ltb : T -> T -> bool) big low cells containing distance (ps : list (point T)), total_order ltb ->
  (forall p c, In c (containing p) -> exists vs, nthz cells c = Some vs /\ in_bounds ltb p vs) ->
  (forall p c, In c (containing p) -> le ltb (distance p c) big) ->
  exists b, well_box T ltb big low cells containing distance ps = Ok b
  /\ (forall p, In p ps -> containing p <> [] -> covered ltb cells containing distance p b)
  /\ (forall i, (coord i (x_min T b) = big \/ exists v, vertex_of_cells cells containing ps v /\ coord i (x_min T b) = coord i v)
     /\ (coord i (x_max T b) = low \/ exists v, vertex_of_cells cells containing ps v /\ coord i (x_max T b) = coord i v))
  /\ ((forall p, In p ps -> containing p = []) -> b = empty_box T big low).
Proof.
  intros T ltb big low cells containing distance ps O H1 H2.
  destruct (well_box_spec ltb big O cells containing distance H1 H2 ps (empty_box T big low)) as [b [B1 [_ [B3 B4]]]]. exists b.
  split; [exact B1|]. split; [exact B3|]. split.
  - intros i. specialize (B4 i). destruct i as [|[|i]]; exact B4.
  - intros N. clear B3 B4. unfold well_box in B1. enough (G : forall b0, foldM (add_perforation T ltb big cells containing distance) ps b0 = Ok b0) by (specialize (G (empty_box T big low)); congruence).
    intros b0. clear B1. induction ps as [|p ps IH]; [reflexivity|]. cbn [foldM]. unfold add_perforation at 1. rewrite (N p) by now left. cbn [bind]. apply IH. intros q Hq. apply N. now right.
Qed.
Print Assumptions C86_well_box.
(** Two cells, cubes of side 2 side by side given by two opposite corners; distances to their centres. *)
Definition ex_mesh : list (list (point Z)) := [[(0, 0, 0); (2, 2, 2)]; [(2, 0, 0); (4, 2, 2)]].
Definition ex_in (p : point Z) (c : list (point Z)) : bool :=
  match c with
  | [(a, b, c); (u, v, w)] => let '(x, y, z) := p in (a <=? x) && (x <=? u) && (b <=? y) && (y <=? v) && (c <=? z) && (z <=? w)
  | _ => false
  end.
Definition ex_containing (p : point Z) : list Z :=
  flat_map (fun i => match nthz ex_mesh i with Some c => if ex_in p c then [i] else [] | None => [] end) [0; 1].
Definition ex_distance (p : point Z) (c : Z) : Z := let '(x, y, z) := p in Z.abs (x - (1 + 2 * c)) + Z.abs (y - 1) + Z.abs (z - 1).
Definition ex_well (ps : list (point Z)) : res (box Z) := well_box Z Z.ltb 1000 (-1000) ex_mesh ex_containing ex_distance ps.
Example C86_order : total_order Z.ltb.
Proof. constructor; intros; rewrite ?Z.ltb_lt, ?Z.ltb_ge in *; lia. Qed.
Example C86_hypotheses : forall p c, In c (ex_containing p) ->
  (exists vs, nthz ex_mesh c = Some vs /\ in_bounds Z.ltb p vs) /\ le Z.ltb (ex_distance p c) 1000.
Proof.
  intros [[x y] z] c H. unfold ex_containing in H. apply in_flat_map in H as [i [Hi H]].
  assert (K : forall m, In c (match Some m with Some c0 => if ex_in (x, y, z) c0 then [i] else [] | None => [] end) -> c = i /\ ex_in (x, y, z) m = true).
  { intros m. destruct (ex_in (x, y, z) m); [intros [<-|[]]; auto|intros []]. }
  destruct Hi as [<-|[<-|[]]]; apply K in H as [-> E]; cbn [ex_in] in E; rewrite !andb_true_iff, !Z.leb_le in E;
    (split; [eexists; split; [reflexivity|]; intros i; eexists _, _; split; [now left|]; split; [right; now left|];
       unfold le; rewrite !Z.ltb_ge; destruct i as [|[|i]]; cbn [coord]; lia
     |unfold le, ex_distance; rewrite Z.ltb_ge; lia]).
Qed.
Example C86_case : ex_well [(1, 1, 2)] = Ok (mkBox Z (0, 0, 0) (2, 2, 2)) /\ ex_well [(1, 1, 2); (3, 0, 0)] = Ok (mkBox Z (0, 0, 0) (4, 2, 2)).
Proof. split; vm_compute; reflexivity. Qed.
(** A perforation in the bounding box of no cell is ignored; when all are, the box written has its minimum above its maximum. *)
Theorem C86_outside_refuted : exists p b, ex_well [p] = Ok b /\ ~ inside Z.ltb p b /\ Z.ltb (coord 0 (x_max Z b)) (coord 0 (x_min Z b)) = true.
Proof. exists (9, 1, 1), (mkBox Z (1000, 1000, 1000) (-1000, -1000, -1000)). split; [vm_compute; reflexivity|]. split; [|reflexivity]. intros [[H _] _]. discriminate H. Qed.
Print Assumptions C86_outside_refuted.
