(** * No undefined behaviour on well-shaped GOCAD mesh files, property sections included (C15). *)
From Coq Require Import ZArith List Lia Bool Ascii String.
From Verif Require Import Base Text TextFacts GocadModel MeshModel TsModel Spec GocadFacts TsFacts
  StreamFacts MultiFacts MultiMore PropsGocad.
Import ListNotations.
Local Open Scope string_scope.
Local Open Scope list_scope.
Local Open Scope Z_scope.

(** ** The conditions *)
(** A line that is not blank, with closed quotes, and with the words its keyword requires. *)
Definition shaped (l : bytes) : Prop :=
  exists k r, string_split l = k :: r /\ k <> [QUOTE] /\ balanced (k :: r) /\ (needed_words k <= List.length r)%nat.
(** The values found after the keyword of a line of a property section. *)
Inductive kind := Strings | Numbers | Pairs.
Fixpoint pairs_enough (n : nat) (ts : list bytes) : Prop :=
  match n with
  | O => True
  | S m => match ts with
           | a :: _ :: r => pairs_enough m (if beq a "LINEARFUNCTION" then skipn 2 r else r)
           | _ => False
           end
  end.
Definition enough (n : nat) (k : kind) (l : bytes) : Prop :=
  match k with
  | Strings => exists sl, split_quotes l = Ok sl /\ (n < List.length sl)%nat
  | Numbers => (n < List.length (string_split l))%nat
  | Pairs => pairs_enough n (tl (string_split l))
  end.
(** [l] is the first line of [ls] that starts with the keyword, [post] what follows. *)
Definition first_line (kw : bytes) (ls : list bytes) (l : bytes) (post : list bytes) : Prop :=
  exists pre, ls = pre ++ l :: post /\ starts_with l kw = true /\ Forall (fun x => starts_with x kw = false) pre.
(** The lines of a property section, each one looked for after the previous one, hold [n] values. *)
Fixpoint sections_enough (n : nat) (kws : list (bytes * kind)) (ls : list bytes) : Prop :=
  match kws with
  | [] => True
  | (kw, k) :: r => forall l post, first_line kw ls l post -> enough n k l /\ sections_enough n r post
  end.
Definition property_lines : list (bytes * kind) :=
  [(lit "PROP_LEGAL_RANGES", Pairs); (lit "NO_DATA_VALUES", Numbers); (lit "PROPERTY_CLASSES", Strings);
   (lit "PROPERTY_KINDS", Strings); (lit "PROPERTY_SUBCLASSES", Pairs); (lit "ESIZES", Numbers); (lit "UNITS", Strings)].
Definition properties_ok (ls : list bytes) : Prop :=
  forall pre l post sl, ls = pre ++ l :: post -> starts_with l "PROPERTIES" = true -> split_quotes l = Ok sl ->
    sections_enough (pred (List.length sl)) property_lines post.
(** Properties have fewer than 256 components. *)
Definition sizes_ok (ls : list bytes) : Prop :=
  forall l t v, In l ls -> starts_with l "ESIZES" = true -> In t (string_split l) -> string_to_index t = Ok v -> 0 <= v < 256.
Definition file_ok (ls : list bytes) : Prop := Forall shaped ls /\ properties_ok ls /\ sizes_ok ls.

Lemma file_ok_suffix a b : suffix b a -> file_ok a -> file_ok b.
Proof.
  intros [p ->] [H1 [H2 H3]]. split; [|split].
  - now apply Forall_app in H1.
  - intros pre l post sl E. apply (H2 (p ++ pre)). now rewrite E, app_assoc.
  - intros l t v Hi. apply H3. apply in_or_app. now right.
Qed.

(** ** Headers *)
Lemma scan_first kw s l s' : goto_keyword kw s = Ok (l, s') -> first_line kw (pending s) l (pending s').
Proof.
  unfold goto_keyword, goto_if. destruct (scan _ (pending s)) as [[x r]|] eqn:E; [|discriminate].
  intros H. injection H as <- <-. cbn [pending]. revert x r E. induction (pending s) as [|y t IH]; intros x r E; [discriminate|].
  cbn [scan] in E. destruct (starts_with y kw) eqn:Ey.
  - injection E as <- <-. exists []. auto.
  - destruct (IH x r E) as [pre [-> [H1 H2]]]. exists (y :: pre). split; [reflexivity|]. split; [assumption|]. now constructor.
Qed.
Lemma goto_keyword_noub kw s : goto_keyword kw s <> UB.
Proof. unfold goto_keyword. destruct (goto_if kw s) as [[|] ?]; discriminate. Qed.
Lemma mapM_noub {A B} (f : A -> res B) l : (forall a, In a l -> f a <> UB) -> mapM f l <> UB.
Proof.
  induction l as [|a r IH]; intros H; [discriminate|]. cbn [mapM]. apply bind_noub; [apply H; now left|].
  intros x _. apply bind_noub; [apply IH; intros y Hy; apply H; now right|]. discriminate.
Qed.
Lemma mapM_length {A B} (f : A -> res B) l x : mapM f l = Ok x -> List.length x = List.length l.
Proof. intros H. apply mapM_ok in H. symmetry. clear -H. induction H; cbn; auto. Qed.
Lemma two_strings_noub sl n : forall attr c, pairs_enough n (skipn (2 * attr + 1 + c) sl) -> two_strings sl attr c n <> UB.
Proof.
  induction n as [|n IH]; intros attr c H; [discriminate|]. cbn [two_strings].
  cbn [pairs_enough] in H. destruct (skipn (2 * attr + 1 + c) sl) as [|a [|b r]] eqn:E; try contradiction.
  assert (A : nth_error sl (2 * attr + 1 + c) = Some a /\ nth_error sl (2 * attr + 2 + c) = Some b /\ skipn (2 * attr + 3 + c) sl = r).
  { replace (2 * attr + 2 + c)%nat with (S (2 * attr + 1 + c)) by lia.
    replace (2 * attr + 3 + c)%nat with (S (S (2 * attr + 1 + c))) by lia.
    revert E. generalize (2 * attr + 1 + c)%nat. clear. intros i. revert sl. induction i as [|i IH]; intros sl E.
    - cbn [skipn] in E. subst sl. auto.
    - destruct sl as [|x sl]; [discriminate|]. cbn [skipn nth_error] in *. now apply IH. }
  destruct A as [A1 [A2 A3]]. unfold idx. rewrite A1, A2. cbn [bind]. apply bind_noub; [|discriminate]. apply IH.
  destruct (beq a "LINEARFUNCTION").
  - replace (2 * S attr + 1 + (c + 2))%nat with (2 + (2 * attr + 3 + c))%nat by lia.
    rewrite <- skipn_skipn', A3. exact H.
  - replace (2 * S attr + 1 + c)%nat with (2 * attr + 3 + c)%nat by lia. now rewrite A3.
Qed.
Section Readers.
Context (F : Num).
Lemma kw_one_string_noub kw n s : (forall l post, first_line kw (pending s) l post -> enough n Strings l) -> kw_one_string kw n s <> UB.
Proof.
  intros H. unfold kw_one_string. apply bind_noub; [apply goto_keyword_noub|]. intros [l s1] E. apply scan_first in E.
  destruct (H _ _ E) as [sl [-> Hl]]. cbn [bind]. apply bind_noub; [|discriminate].
  apply mapM_noub. intros i Hi. apply in_seq in Hi. apply idx_noub. lia.
Qed.
Lemma kw_two_strings_noub kw n s : (forall l post, first_line kw (pending s) l post -> enough n Pairs l) -> kw_two_strings kw n s <> UB.
Proof.
  intros H. unfold kw_two_strings. apply bind_noub; [apply goto_keyword_noub|]. intros [l s1] E. apply scan_first in E.
  apply bind_noub; [|discriminate]. apply two_strings_noub. apply H in E. cbn [enough] in E.
  replace (skipn (2 * 0 + 1 + 0) (string_split l)) with (tl (string_split l)); [assumption|]. now destruct (string_split l).
Qed.
Lemma kw_one_double_noub kw n s : (forall l post, first_line kw (pending s) l post -> enough n Numbers l) -> kw_one_double F kw n s <> UB.
Proof.
  intros H. unfold kw_one_double. apply bind_noub; [apply goto_keyword_noub|]. intros [l s1] E. apply scan_first in E.
  apply bind_noub; [|discriminate]. apply H in E. cbn [enough] in E.
  apply mapM_noub. intros i Hi. apply in_seq in Hi. apply bind_noub; [apply idx_noub; lia|]. intros t _. apply std_noub.
Qed.
Lemma kw_one_index_noub kw n s : (forall l post, first_line kw (pending s) l post -> enough n Numbers l) -> kw_one_index kw n s <> UB.
Proof.
  intros H. unfold kw_one_index. apply bind_noub; [apply goto_keyword_noub|]. intros [l s1] E. apply scan_first in E.
  apply bind_noub; [|discriminate]. apply H in E. cbn [enough] in E.
  apply mapM_noub. intros i Hi. apply in_seq in Hi. apply bind_noub; [apply idx_noub; lia|]. intros t _. apply sti_noub.
Qed.
Lemma kw_first_of {A} (g : bytes -> res A) kw s x s' :
  bind (goto_keyword kw s) (fun '(line, s1) => bind (g line) (fun ds => Ok (ds, s1))) = Ok (x, s') ->
  exists l, first_line kw (pending s) l (pending s') /\ g l = Ok x.
Proof.
  intros H. apply bind_ok in H as [[l s1] [H1 H]]. apply bind_ok in H as [ds [H2 H]].
  assert (ds = x /\ s1 = s') as [-> ->] by (split; congruence). apply scan_first in H1. eauto.
Qed.
(** Header read from a file: as many sizes, no-data values as names; sizes below 256. *)
Definition head_ok (h : PropHeader (num F)) : Prop :=
  List.length (p_esizes h) = List.length (p_names h) /\ List.length (p_ndv h) = List.length (p_names h) /\
  Forall (fun e => 0 <= e < 256) (p_esizes h).
Lemma read_prop_header_noub s : file_ok (pending s) ->
  read_prop_header F [] s <> UB /\ forall x, read_prop_header F [] s = Ok x -> head_ok (fst x).
Proof.
  intros [W [P Z]]. unfold read_prop_header, next_if. cbn [app].
  assert (E0 : head_ok empty_prop) by (split; [reflexivity|split; [reflexivity|constructor]]).
  destruct (pending s) as [|l r] eqn:Es; [split; [discriminate|intros x H; injection H as <-; exact E0]|].
  destruct (starts_with l (lit "PROPERTIES")) eqn:El; [|split; [discriminate|intros x H; injection H as <-; exact E0]].
  pose proof (Forall_inv W) as [k [t [Ek [Hk [Hb _]]]]].
  destruct (balanced_ok _ Hb) as [sl Hsl].
  assert (Q : split_quotes l = Ok sl) by (unfold split_quotes; now rewrite Ek).
  rewrite Q. cbn [bind]. specialize (P [] l r sl eq_refl El Q).
  destruct (Nat.eqb (pred (List.length sl)) 0); [split; [discriminate|intros x H; injection H as <-; exact E0]|].
  set (n := pred (List.length sl)) in *. cbn [property_lines sections_enough] in P.
  set (s1 := mkStream r (nl s)). change r with (pending s1) in P.
  destruct (mapM (fun i => idx sl (i + 1)) (seq 0 n)) as [names| | |] eqn:E1; cbn [bind]; try (split; discriminate).
  2:{ exfalso. revert E1. apply mapM_noub. intros i Hi. apply in_seq in Hi. apply idx_noub. lia. }
  destruct (kw_two_strings (lit "PROP_LEGAL_RANGES") n s1) as [[v2 s2]| | |] eqn:E2; cbn [bind]; try (split; discriminate).
  2:{ exfalso. revert E2. apply kw_two_strings_noub. intros x y H. now apply (P x y). }
  destruct (kw_first_of _ _ _ _ _ E2) as [l2 [L2 _]]. destruct (P _ _ L2) as [_ P3].
  destruct (kw_one_double F (lit "NO_DATA_VALUES") n s2) as [[v3 s3]| | |] eqn:E3; cbn [bind]; try (split; discriminate).
  2:{ exfalso. revert E3. apply kw_one_double_noub. intros x y H. now apply (P3 x y). }
  destruct (kw_first_of _ _ _ _ _ E3) as [l3 [L3 G3]]. destruct (P3 _ _ L3) as [_ P4].
  destruct (kw_one_string (lit "PROPERTY_CLASSES") n s3) as [[v4 s4]| | |] eqn:E4; cbn [bind]; try (split; discriminate).
  2:{ exfalso. revert E4. apply kw_one_string_noub. intros x y H. now apply (P4 x y). }
  unfold kw_one_string in E4. apply bind_ok in E4 as [[l4 s4'] [L4 E4]]. apply scan_first in L4. destruct (P4 _ _ L4) as [_ P5].
  apply bind_ok in E4 as [q4 [_ E4]]. apply bind_ok in E4 as [d4 [_ E4]]. assert (s4' = s4) as -> by congruence.
  destruct (kw_one_string (lit "PROPERTY_KINDS") n s4) as [[v5 s5]| | |] eqn:E5; cbn [bind]; try (split; discriminate).
  2:{ exfalso. revert E5. apply kw_one_string_noub. intros x y H. now apply (P5 x y). }
  unfold kw_one_string in E5. apply bind_ok in E5 as [[l5 s5'] [L5 E5]]. apply scan_first in L5. destruct (P5 _ _ L5) as [_ P6].
  apply bind_ok in E5 as [q5 [_ E5]]. apply bind_ok in E5 as [d5 [_ E5]]. assert (s5' = s5) as -> by congruence.
  destruct (kw_two_strings (lit "PROPERTY_SUBCLASSES") n s5) as [[v6 s6]| | |] eqn:E6; cbn [bind]; try (split; discriminate).
  2:{ exfalso. revert E6. apply kw_two_strings_noub. intros x y H. now apply (P6 x y). }
  destruct (kw_first_of _ _ _ _ _ E6) as [l6 [L6 _]]. destruct (P6 _ _ L6) as [_ P7].
  destruct (kw_one_index (lit "ESIZES") n s6) as [[v7 s7]| | |] eqn:E7; cbn [bind]; try (split; discriminate).
  2:{ exfalso. revert E7. apply kw_one_index_noub. intros x y H. now apply (P7 x y). }
  destruct (kw_first_of _ _ _ _ _ E7) as [l7 [L7 G7]]. destruct (P7 _ _ L7) as [_ P8].
  destruct (kw_one_string (lit "UNITS") n s7) as [[v8 s8]| | |] eqn:E8; cbn [bind]; try (split; discriminate).
  2:{ exfalso. revert E8. apply kw_one_string_noub. intros x y H. now apply (P8 x y). }
  split; [discriminate|]. intros x H. injection H as <-. unfold head_ok. cbn [fst p_esizes p_names p_ndv].
  pose proof (mapM_length _ _ _ E1) as N1. pose proof (mapM_length _ _ _ G3) as N3. pose proof (mapM_length _ _ _ G7) as N7.
  rewrite N1, N3, N7. split; [reflexivity|]. split; [reflexivity|].
  assert (I7 : In l7 (l :: r)).
  { assert (G : forall kw ls x post, first_line kw ls x post -> forall y, In y post \/ y = x -> In y ls).
    { intros kw ls x post [pre [-> _]] y [Hy| ->]; apply in_or_app; right; [now right|now left]. }
    right. change r with (pending s1).
    apply (G _ _ _ _ L2); left. apply (G _ _ _ _ L3); left. apply (G _ _ _ _ L4); left. apply (G _ _ _ _ L5); left.
    apply (G _ _ _ _ L6); left. apply (G _ _ _ _ L7). now right. }
  apply mapM_ok in G7. destruct L7 as [pre [_ [S7 _]]]. apply Forall_forall. intros e He.
  clear -G7 He Z I7 S7. induction G7 as [|i e' a b H1 H2 IH]; [contradiction|]. destruct He as [<-|He]; [|now apply IH].
  apply bind_ok in H1 as [tk [H1 H3]]. apply (Z l7 tk); auto. unfold idx in H1.
  destruct (nth_error (string_split l7) (i + 1)) as [q|] eqn:Q; [|discriminate]. assert (q = tk) as -> by congruence.
  eapply nth_error_In. exact Q.
Qed.

(** ** Data lines *)
(** [vals] holds [n] rows of values. *)
Definition rows (h : PropHeader (num F)) (n : nat) (vals : list (list (num F))) : Prop :=
  Forall2 (fun e v => List.length v = (n * Z.to_nat e)%nat) (p_esizes h) vals.
Lemma read_items_noub tk n pos : read_items F tk n pos <> UB.
Proof.
  revert pos. induction n as [|n IH]; intros pos; [discriminate|]. cbn [read_items].
  unfold check. destruct (Nat.ltb pos (List.length tk)) eqn:E; [|discriminate]. apply Nat.ltb_lt in E. cbn [bind].
  apply bind_noub; [now apply idx_noub|]. intros t _. apply bind_noub; [apply std_noub|]. intros v _.
  apply bind_noub; [apply IH|]. intros [vs p] _. discriminate.
Qed.
Lemma read_items_length tk n pos x : read_items F tk n pos = Ok x -> List.length (fst x) = n.
Proof.
  revert pos x. induction n as [|n IH]; intros pos x H; cbn [read_items] in H; [now injection H as <-|].
  apply bind_ok in H as [_ [_ H]]. apply bind_ok in H as [t [_ H]]. apply bind_ok in H as [v [_ H]].
  apply bind_ok in H as [[vs p] [H1 H]]. injection H as <-. apply IH in H1. cbn in *. lia.
Qed.
Lemma items_small e : 0 <= e < 256 -> items e = Z.to_nat e.
Proof. intros H. unfold items. now rewrite Z.mod_small. Qed.
Lemma read_properties_noub n tk : forall names es vals pos, List.length es = List.length names ->
  Forall (fun e => 0 <= e < 256) es ->
  Forall2 (fun e v => List.length v = (n * Z.to_nat e)%nat) es vals ->
  read_properties F names es vals tk pos <> UB /\
  forall x, read_properties F names es vals tk pos = Ok x -> Forall2 (fun e v => List.length v = (S n * Z.to_nat e)%nat) es x.
Proof.
  induction names as [|nm names IH]; intros es vals pos Hl Hs H.
  - destruct es; [|discriminate]. inversion H; subst. split; [discriminate|]. intros x E. injection E as <-. constructor.
  - inversion H as [|e v es' vals' H1 H2]; subst; [discriminate|]. cbn [read_properties].
    pose proof (Forall_inv Hs) as S1. pose proof (Forall_inv_tail Hs) as S2.
    destruct (read_items F tk (items e) pos) as [[its p]| | |] eqn:E; cbn [bind]; try (split; discriminate);
      [|exfalso; revert E; apply read_items_noub].
    apply read_items_length in E. cbn [fst] in E. rewrite items_small in E by assumption.
    destruct (IH es' vals' p ltac:(cbn in Hl; lia) S2 H2) as [I1 I2].
    destruct (read_properties F names es' vals' tk p) as [r| | |]; cbn [bind]; try (split; discriminate); [|now split].
    split; [discriminate|]. intros x Ex. injection Ex as <-. constructor; [|now apply I2]. rewrite app_length. lia.
Qed.
Lemma attr_row_noub (vals : list (num F)) e d n k : 0 <= e < 256 -> List.length vals = (n * Z.to_nat e)%nat -> (k < n)%nat ->
  attr_row vals e d k <> UB.
Proof.
  intros He Hl Hk. unfold attr_row. apply bind_noub; [|discriminate]. apply mapM_noub. intros i Hi. apply in_seq in Hi.
  rewrite items_small in Hi by assumption. apply idx_noub. nia.
Qed.
Lemma fill_attr_noub (vals : list (num F)) e d N : 0 <= e < 256 -> List.length vals = (N * Z.to_nat e)%nat ->
  forall n pt a, (pt + n <= N)%nat -> (pt + n <= List.length a)%nat -> fill_attr vals e d (seq 0 N) pt n a <> UB.
Proof.
  intros He Hl. induction n as [|n IH]; intros pt a H1 H2; [discriminate|]. cbn [fill_attr].
  apply bind_noub; [apply idx_noub; rewrite seq_length; lia|]. intros k Ek.
  assert (k = pt) as ->.
  { unfold idx in Ek. rewrite nth_error_nth' with (d := 0%nat) in Ek by (rewrite seq_length; lia). rewrite seq_nth in Ek by lia. cbn in Ek. congruence. }
  apply bind_noub; [apply (attr_row_noub _ _ _ N); auto; lia|]. intros row _.
  rewrite setz_len by lia. cbn [bind]. apply IH; [lia|]. rewrite upd_length. lia.
Qed.
Lemma create_attributes_noub {C} n : forall names es ds vals (m : mesh F C), List.length es = List.length names ->
  List.length ds = List.length names -> Forall (fun e => 0 <= e < 256) es ->
  Forall2 (fun e v => List.length v = (n * Z.to_nat e)%nat) es vals ->
  wf_attrs F m -> (n <= List.length (m_points m))%nat ->
  create_attributes_loop names es ds vals n (seq 0 n) m <> UB.
Proof.
  induction names as [|nm names IH]; intros es ds vals m Hl Hd Hs H Hw Hn; [discriminate|].
  destruct ds as [|d ds]; [discriminate|]. inversion H as [|e v es' vals' H1 H2]; subst; [discriminate|].
  cbn [create_attributes_loop]. cbv zeta. pose proof (Forall_inv Hs) as S1. pose proof (Forall_inv_tail Hs) as S2.
  apply bind_noub.
  { unfold find_or_create. destruct (beq nm _); [discriminate|]. cbv zeta.
    destruct (find_attr nm (m_attrs m)) as [b|]; [destruct (_ =? _)|]; discriminate. }
  intros a Ea. apply (find_or_create_wf F) in Ea; [|assumption].
  apply bind_noub; [apply fill_attr_noub; auto; lia|]. intros vs Ev. apply (fill_attr_length) in Ev.
  apply IH; auto; try (cbn in *; lia).
  unfold wf_attrs. cbn [set_attr_list m_attrs m_points]. apply replace_attr_wf; [cbn [a_vals]; lia|exact Hw].
Qed.

Lemma vset_line_safe (ts : VSet F) l : shaped l -> head_ok (v_props ts) -> rows (v_props ts) (List.length (v_points ts)) (v_values ts) ->
  vset_line F ts l <> UB /\ forall x, vset_line F ts l = Ok x ->
    v_props (fst x) = v_props ts /\ rows (v_props ts) (List.length (v_points (fst x))) (v_values (fst x)).
Proof.
  intros [k [r [E [_ [_ Hn]]]]] [H1 [H2 H3]] Hr. unfold vset_line. rewrite E. cbn [front bind].
  destruct ts as [off name crs props pts vals]. cbn [v_props v_points v_values] in *.
  destruct (beq k "END"); [split; [discriminate|intros x Ex; injection Ex as <-; auto]|].
  destruct (is_vrtx k) eqn:Ev; cbn [negb]; [|split; [discriminate|intros x Ex; injection Ex as <-; auto]].
  rewrite needed_vrtx in Hn by assumption.
  destruct (read_properties_noub (List.length pts) (k :: r) (p_names props) (p_esizes props) vals 5 H1 H3 Hr) as [R1 R2].
  split.
  - apply bind_noub; [apply vrtx_offset_noub; cbn [List.length]; lia|]. intros o _.
    apply bind_noub; [apply vrtx_point_noub; cbn [List.length]; lia|]. intros p _.
    apply bind_noub; [exact R1|]. discriminate.
  - intros x Ex. apply bind_ok in Ex as [o [_ Ex]]. apply bind_ok in Ex as [p [_ Ex]]. apply bind_ok in Ex as [v [Ev' Ex]].
    injection Ex as <-. cbn [fst v_props v_points v_values]. split; [reflexivity|]. unfold rows. rewrite app_length.
    cbn [List.length]. rewrite Nat.add_1_r. now apply R2.
Qed.
Lemma vset_loop_safe ls : Forall shaped ls -> forall ts : VSet F, head_ok (v_props ts) ->
  rows (v_props ts) (List.length (v_points ts)) (v_values ts) ->
  vset_loop F ts ls <> UB /\ forall x, vset_loop F ts ls = Ok x ->
    v_props (fst x) = v_props ts /\ rows (v_props ts) (List.length (v_points (fst x))) (v_values (fst x)).
Proof.
  induction 1 as [|l r H1 H2 IH]; intros ts Hh Hr; [split; discriminate|]. cbn [vset_loop].
  destruct (vset_line_safe ts l H1 Hh Hr) as [L1 L2].
  destruct (vset_line F ts l) as [[ts' b]| | |] eqn:E; cbn [bind]; try (split; discriminate); [|congruence].
  destruct (L2 _ eq_refl) as [L3 L4]. cbn [fst] in *.
  destruct b; [split; [discriminate|intros x Ex; injection Ex as <-; auto]|].
  rewrite <- L3 in Hh, L4. destruct (IH ts' Hh L4) as [I1 I2]. rewrite L3 in I2. auto.
Qed.
Lemma tface_line_safe (ts : TSurf F) l : shaped l -> head_ok (t_props ts) -> rows (t_props ts) (List.length (t_points ts)) (t_values ts) ->
  tface_line F ts l <> UB /\ forall x, tface_line F ts l = Ok x ->
    t_props (fst x) = t_props ts /\ rows (t_props ts) (List.length (t_points (fst x))) (t_values (fst x)) /\
    (List.length (t_points (fst x)) <= S (List.length (t_points ts)))%nat.
Proof.
  intros [k [r [E [_ [_ Hn]]]]] [H1 [H2 H3]] Hr. unfold tface_line. rewrite E. cbn [front bind].
  destruct ts as [off name crs props pts tris tro vo bst bor vals]. cbn [t_props t_points t_values] in *.
  assert (G : forall pos (p : point F) o, bind (read_properties F (p_names props) (p_esizes props) vals (k :: r) pos)
      (fun vals' => Ok (mkTSurf o name crs props (pts ++ [p]) tris tro vo bst bor vals', false)) <> UB /\
      forall x, bind (read_properties F (p_names props) (p_esizes props) vals (k :: r) pos)
      (fun vals' => Ok (mkTSurf o name crs props (pts ++ [p]) tris tro vo bst bor vals', false)) = Ok x ->
      t_props (fst x) = props /\ rows props (List.length (t_points (fst x))) (t_values (fst x)) /\
      (List.length (t_points (fst x)) <= S (List.length pts))%nat).
  { intros pos p o. destruct (read_properties_noub (List.length pts) (k :: r) (p_names props) (p_esizes props) vals pos H1 H3 Hr) as [R1 R2].
    split; [apply bind_noub; [exact R1|discriminate]|]. intros x Ex. apply bind_ok in Ex as [v [Ev' Ex]].
    injection Ex as <-. cbn [fst t_props t_points t_values]. split; [reflexivity|]. unfold rows. rewrite app_length.
    cbn [List.length]. rewrite Nat.add_1_r. split; [now apply R2|lia]. }
  destruct (is_vrtx k) eqn:Ev.
  { rewrite needed_vrtx in Hn by assumption. split.
    - apply bind_noub; [apply vrtx_offset_noub; cbn [List.length]; lia|]. intros o _.
      apply bind_noub; [apply vrtx_point_noub; cbn [List.length]; lia|]. intros p _. apply G.
    - intros x Ex. apply bind_ok in Ex as [o [_ Ex]]. apply bind_ok in Ex as [p [_ Ex]]. now apply (G 5%nat p o). }
  destruct (is_atom k) eqn:Ea.
  { assert (needed_words k = 2%nat) as N by (unfold needed_words; unfold is_vrtx in Ev; rewrite Ev; unfold is_atom in Ea; now rewrite Ea).
    rewrite N in Hn. split.
    - apply bind_noub; [apply tok_index_noub; cbn [List.length]; lia|]. intros i _.
      apply bind_noub; [apply atz_noub|]. intros p _. apply G.
    - intros x Ex. apply bind_ok in Ex as [o [_ Ex]]. apply bind_ok in Ex as [p [_ Ex]]. now apply (G 3%nat p off). }
  destruct (beq k "TRGL") eqn:E1.
  { apply beq_eq in E1. subst k. assert (3 <= List.length r)%nat as Hl by exact Hn. split.
    - repeat (apply bind_noub; [apply tok_index_noub; cbn [List.length]; lia|intros ? _]). discriminate.
    - intros x Ex. repeat (apply bind_ok in Ex as [? [_ Ex]]). injection Ex as <-. cbn. auto. }
  destruct (beq k "BSTONE") eqn:E2.
  { apply beq_eq in E2. subst k. assert (1 <= List.length r)%nat as Hl by exact Hn. split.
    - repeat (apply bind_noub; [apply tok_index_noub; cbn [List.length]; lia|intros ? _]). discriminate.
    - intros x Ex. repeat (apply bind_ok in Ex as [? [_ Ex]]). injection Ex as <-. cbn. auto. }
  destruct (beq k "BORDER") eqn:E3.
  { apply beq_eq in E3. subst k. assert (3 <= List.length r)%nat as Hl by exact Hn. split.
    - repeat (apply bind_noub; [apply tok_index_noub; cbn [List.length]; lia|intros ? _]). discriminate.
    - intros x Ex. repeat (apply bind_ok in Ex as [? [_ Ex]]). injection Ex as <-. cbn. auto. }
  destruct (beq k "TFACE"); [split; [discriminate|intros x Ex; injection Ex as <-; cbn; auto]|].
  destruct (beq k "END"); (split; [discriminate|intros x Ex; injection Ex as <-; cbn; auto]).
Qed.
Lemma tfaces_loop_safe ls : Forall shaped ls -> forall ts : TSurf F, head_ok (t_props ts) ->
  rows (t_props ts) (List.length (t_points ts)) (t_values ts) ->
  tfaces_loop F ts ls <> UB /\ forall x, tfaces_loop F ts ls = Ok x ->
    t_props (fst x) = t_props ts /\ rows (t_props ts) (List.length (t_points (fst x))) (t_values (fst x)) /\
    (List.length (t_points (fst x)) + List.length (snd x) <= List.length (t_points ts) + List.length ls)%nat.
Proof.
  induction 1 as [|l r H1 H2 IH]; intros ts Hh Hr; [split; discriminate|]. cbn [tfaces_loop].
  destruct (tface_line_safe ts l H1 Hh Hr) as [L1 L2].
  destruct (tface_line F ts l) as [[ts' b]| | |] eqn:E; cbn [bind]; try (split; discriminate); [|congruence].
  destruct (L2 _ eq_refl) as [L3 [L4 L5]]. cbn [fst List.length] in *.
  destruct b; [split; [discriminate|intros x Ex; injection Ex as <-; cbn [fst snd]; repeat split; auto; lia]|].
  rewrite <- L3 in Hh, L4. destruct (IH ts' Hh L4) as [I1 I2]. rewrite L3 in I2. split; [assumption|].
  intros x Ex. destruct (I2 x Ex) as [J1 [J2 J3]]. repeat split; auto. lia.
Qed.
Lemma iline_line_safe (ec : ECurve F) l : shaped l -> iline_line F ec l <> UB /\
  forall x, iline_line F ec l = Ok x -> (List.length (e_points (fst x)) <= S (List.length (e_points ec)))%nat.
Proof.
  intros [k [r [E [_ [_ Hn]]]]]. unfold iline_line. rewrite E. cbn [front bind].
  destruct ec as [off name crs pts es]. cbn [e_points].
  destruct (is_vrtx k) eqn:Ev.
  { rewrite needed_vrtx in Hn by assumption. split.
    - apply bind_noub; [apply vrtx_offset_noub; cbn [List.length]; lia|]. intros o _.
      apply bind_noub; [apply vrtx_point_noub; cbn [List.length]; lia|]. intros p _. discriminate.
    - intros x Ex. repeat (apply bind_ok in Ex as [? [_ Ex]]). injection Ex as <-. cbn. rewrite app_length. cbn. lia. }
  destruct (beq k "SEG") eqn:E1.
  { apply beq_eq in E1. subst k. assert (2 <= List.length r)%nat as Hr by exact Hn. split.
    - repeat (apply bind_noub; [apply tok_index_noub; cbn [List.length]; lia|intros ? _]). discriminate.
    - intros x Ex. repeat (apply bind_ok in Ex as [? [_ Ex]]). injection Ex as <-. cbn. lia. }
  destruct (beq k "END"); (split; [discriminate|intros x Ex; injection Ex as <-; cbn; auto]).
Qed.
Lemma ilines_loop_safe ls : Forall shaped ls -> forall ec : ECurve F, ilines_loop F ec ls <> UB /\
  forall x, ilines_loop F ec ls = Ok x ->
  (List.length (e_points (fst x)) + List.length (snd x) <= List.length (e_points ec) + List.length ls)%nat.
Proof.
  induction 1 as [|l r H1 H2 IH]; intros ec; cbn [ilines_loop].
  { split; [discriminate|]. intros x Ex. injection Ex as <-. cbn. lia. }
  destruct (iline_line_safe ec l H1) as [L1 L2].
  destruct (iline_line F ec l) as [[ec' b]| | |] eqn:E; cbn [bind]; try (split; discriminate); [|congruence].
  specialize (L2 _ eq_refl). cbn [fst List.length] in *.
  destruct b; [split; [discriminate|intros x Ex; injection Ex as <-; cbn [fst snd]; lia]|].
  destruct (IH ec') as [I1 I2]. split; [assumption|]. intros x Ex. specialize (I2 x Ex). lia.
Qed.
Lemma crs_line_safe c l : shaped l -> crs_line c l <> UB.
Proof.
  intros [k [r [E [Hk [Hb Hn]]]]]. unfold crs_line, split_quotes. rewrite E.
  destruct (balanced_ok _ Hb) as [m Hm]. rewrite Hm. cbn [bind].
  cbn [merge_quotes] in Hm. rewrite (proj2 (beq_neq k Q1)) in Hm by exact Hk.
  apply bind_ok in Hm as [m' [Hm Em]]. injection Em as <-. cbn [idx nth_error bind].
  assert (Hr : (1 <= needed_words k)%nat -> (1 < List.length (k :: m'))%nat).
  { intros H1. destruct r as [|x r]; [cbn [List.length] in Hn; lia|]. apply merge_nonempty in Hm.
    destruct m'; [contradiction|cbn [List.length]; lia]. }
  destruct (beq k "ZPOSITIVE") eqn:E1.
  { apply beq_eq in E1. subst k. apply bind_noub; [apply idx_noub, Hr; now vm_compute|discriminate]. }
  destruct (beq k "PROJECTION") eqn:E2.
  { apply beq_eq in E2. subst k. apply bind_noub; [apply idx_noub, Hr; now vm_compute|discriminate]. }
  destruct (beq k "DATUM") eqn:E3.
  { apply beq_eq in E3. subst k. apply bind_noub; [apply idx_noub, Hr; now vm_compute|discriminate]. }
  destruct (beq k "NAME") eqn:E4.
  { apply beq_eq in E4. subst k. apply bind_noub; [apply idx_noub, Hr; now vm_compute|discriminate]. }
  discriminate.
Qed.
Lemma crs_loop_safe c ls : Forall shaped ls -> crs_loop c ls <> UB.
Proof.
  intros H. revert c. induction H as [|l r H1 H2 IH]; intros c; [discriminate|]. cbn [crs_loop].
  destruct (starts_with _ _); [discriminate|]. apply bind_noub; [now apply crs_line_safe|]. intros; apply IH.
Qed.
Lemma read_CRS_safe s : Forall shaped (pending s) -> read_CRS s <> UB.
Proof.
  intros H. unfold read_CRS. destruct (next_if _ s) as [[l|] s1] eqn:E; [|discriminate].
  apply next_if_suffix in E. apply bind_noub; [apply crs_loop_safe; eapply suffix_Forall; eassumption|].
  intros [c r] _. discriminate.
Qed.

(** ** Objects *)
Ltac fs := eapply file_ok_suffix; [eassumption|].
Lemma goto_if_ok kw s l s' : goto_if kw s = (Some l, s') -> file_ok (pending s) -> file_ok (pending s') /\
  (List.length (pending s') < List.length (pending s))%nat.
Proof.
  intros E H. apply goto_if_suffix in E. split; [apply suffix_tl in E; now fs|].
  apply suffix_length in E. cbn [List.length] in E. lia.
Qed.
Lemma empty_rows (h : PropHeader (num F)) : head_ok h -> rows h 0 (map (fun _ => []) (p_names h)).
Proof.
  intros [H _]. unfold rows. revert H. generalize (p_names h). induction (p_esizes h) as [|e es IH]; intros [|n ns] H; try discriminate; cbn [map]; constructor; auto.
Qed.
Lemma read_vs_points_safe s : file_ok (pending s) -> read_vs_points F s <> UB /\
  forall vs s', read_vs_points F s = Ok (Some vs, s') -> head_ok (v_props vs) /\ rows (v_props vs) (List.length (v_points vs)) (v_values vs).
Proof.
  intros H. unfold read_vs_points. destruct (goto_if _ s) as [[l|] s1] eqn:E; [|split; discriminate].
  apply goto_if_ok in E as [E _]; [|assumption].
  destruct (read_header s1) as [[n s2]| | |] eqn:H2; cbn [bind]; try (split; discriminate);
    [|now apply read_header_noub in H2].
  apply read_header_suffix in H2. cbn [snd] in H2. assert (W2 : file_ok (pending s2)) by now fs.
  destruct (read_CRS s2) as [[c s3]| | |] eqn:H3; cbn [bind]; try (split; discriminate);
    [|apply read_CRS_safe in H3; [contradiction|apply W2]].
  apply read_CRS_suffix in H3. cbn [snd] in H3. assert (W3 : file_ok (pending s3)) by now fs.
  destruct (read_prop_header_noub s3 W3) as [P1 P2].
  destruct (read_prop_header F [] s3) as [[h s4]| | |] eqn:H4; cbn [bind]; try (split; discriminate); [|congruence].
  specialize (P2 _ eq_refl). cbn [fst] in P2. apply read_prop_header_suffix in H4. cbn [snd] in H4.
  assert (W4 : file_ok (pending s4)) by now fs. unfold read_VSet_vertices.
  destruct (goto_keywords _ s4) as [[l5 s5]| | |] eqn:H5; cbn [bind]; try (split; discriminate).
  2: { unfold goto_keywords in H5. destruct (scan _ _) as [[? ?]|] in H5; discriminate. }
  apply goto_keywords_suffix in H5. assert (W5 : file_ok (l5 :: pending s5)) by now fs.
  destruct (vset_loop_safe (l5 :: pending s5) (proj1 W5) (mkVSet 1 n c h [] (map (fun _ => []) (p_names h))) P2 (empty_rows h P2)) as [V1 V2].
  destruct (vset_loop F _ (l5 :: pending s5)) as [[vs' r]| | |] eqn:H6; cbn [bind]; try (split; discriminate); [|congruence].
  split; [discriminate|]. intros vs s' Ev. injection Ev as <- <-. destruct (V2 _ eq_refl) as [V3 V4]. cbn [fst v_props] in *.
  rewrite V3. auto.
Qed.
Lemma read_tsurf_safe s : file_ok (pending s) -> read_tsurf F s <> UB /\
  forall ts s', read_tsurf F s = Ok (Some ts, s') -> head_ok (t_props ts) /\ rows (t_props ts) (List.length (t_points ts)) (t_values ts) /\
    (List.length (t_points ts) + List.length (pending s') < List.length (pending s))%nat.
Proof.
  intros H. unfold read_tsurf. destruct (goto_if _ s) as [[l|] s1] eqn:E; [|split; discriminate].
  apply goto_if_ok in E as [E L1]; [|assumption].
  destruct (read_header s1) as [[n s2]| | |] eqn:H2; cbn [bind]; try (split; discriminate);
    [|now apply read_header_noub in H2].
  apply read_header_suffix in H2. cbn [snd] in H2. assert (W2 : file_ok (pending s2)) by now fs.
  destruct (read_CRS s2) as [[c s3]| | |] eqn:H3; cbn [bind]; try (split; discriminate);
    [|apply read_CRS_safe in H3; [contradiction|apply W2]].
  apply read_CRS_suffix in H3. cbn [snd] in H3. assert (W3 : file_ok (pending s3)) by now fs.
  destruct (read_prop_header_noub s3 W3) as [P1 P2].
  destruct (read_prop_header F [] s3) as [[h s4]| | |] eqn:H4; cbn [bind]; try (split; discriminate); [|congruence].
  specialize (P2 _ eq_refl). cbn [fst] in P2. apply read_prop_header_suffix in H4. cbn [snd] in H4.
  assert (W4 : file_ok (pending s4)) by now fs. unfold read_tfaces.
  destruct (goto_keyword _ s4) as [[l5 s5]| | |] eqn:H5; cbn [bind]; try (split; discriminate);
    [|exfalso; revert H5; apply goto_keyword_noub].
  apply goto_keyword_suffix in H5. assert (W5 : file_ok (l5 :: pending s5)) by now fs.
  destruct (tfaces_loop_safe (pending s5) (Forall_inv_tail (proj1 W5)) (mkTSurf 1 n c h [] [] [0] [0] [] [] (map (fun _ => []) (p_names h))) P2 (empty_rows h P2)) as [V1 V2].
  destruct (tfaces_loop F _ (pending s5)) as [[vs' r]| | |] eqn:H6; cbn [bind]; try (split; discriminate); [|congruence].
  split; [discriminate|]. intros vs s' Ev. injection Ev as <- <-. destruct (V2 _ eq_refl) as [V3 [V4 V5]]. cbn [fst snd t_props t_points List.length pending] in *.
  rewrite V3. repeat split; auto; try apply P2.
  apply suffix_length in H2, H3, H4, H5. cbn [List.length] in H5. lia.
Qed.
Lemma read_ecurve_safe s : file_ok (pending s) -> read_ecurve F s <> UB /\
  forall ec s', read_ecurve F s = Ok (Some ec, s') ->
    (List.length (e_points ec) + List.length (pending s') < List.length (pending s))%nat.
Proof.
  intros H. unfold read_ecurve. destruct (goto_if _ s) as [[l|] s1] eqn:E; [|split; discriminate].
  apply goto_if_ok in E as [E L1]; [|assumption].
  destruct (read_header s1) as [[n s2]| | |] eqn:H2; cbn [bind]; try (split; discriminate);
    [|now apply read_header_noub in H2].
  apply read_header_suffix in H2. cbn [snd] in H2. assert (W2 : file_ok (pending s2)) by now fs.
  destruct (read_CRS s2) as [[c s3]| | |] eqn:H3; cbn [bind]; try (split; discriminate);
    [|apply read_CRS_safe in H3; [contradiction|apply W2]].
  apply read_CRS_suffix in H3. cbn [snd] in H3. assert (W3 : file_ok (pending s3)) by now fs. unfold read_ilines.
  destruct (goto_keyword _ s3) as [[l5 s5]| | |] eqn:H5; cbn [bind]; try (split; discriminate);
    [|exfalso; revert H5; apply goto_keyword_noub].
  apply goto_keyword_suffix in H5. assert (W5 : file_ok (l5 :: pending s5)) by now fs.
  destruct (ilines_loop_safe (pending s5) (Forall_inv_tail (proj1 W5)) (mkECurve 1 n c [] [])) as [V1 V2].
  destruct (ilines_loop F _ (pending s5)) as [[vs' r]| | |] eqn:H6; cbn [bind]; try (split; discriminate); [|congruence].
  split; [discriminate|]. intros vs s' Ev. injection Ev as <- <-. specialize (V2 _ eq_refl). cbn [fst snd e_points List.length pending] in *.
  apply suffix_length in H2, H3, H5. cbn [List.length] in H5. lia.
Qed.
End Readers.
