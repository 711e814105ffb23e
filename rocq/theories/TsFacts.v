(** * Proofs about reading back what the TSurf and VSet writers produce. *)
From Coq Require Import ZArith List Lia Bool Ascii String.
From Verif Require Import Base Text TextFacts GocadModel MeshModel TsModel Spec GocadFacts.
Import ListNotations.
Local Open Scope string_scope.
Local Open Scope list_scope.
Local Open Scope Z_scope.

(** Printed then parsed value, as a function. *)
Definition rc (F : Num) (v : num F) : num F :=
  match atod F (pt_text F v) with Some x => x | None => v end.
Definition rv (F : Num) (v : num F) : num F :=
  match atod F (os_text F v) with Some x => x | None => v end.
Definition rp (F : Num) (p : point F) : point F :=
  let '(x, y, z) := p in (rc F x, rc F y, rc F z).

Lemma rc_ok F v : num_ok F -> atod F (pt_text F v) = Some (rc F v).
Proof. intros H. destruct (pt_parses F H v) as [x E]. unfold rc. now rewrite E. Qed.
Lemma rv_ok F v : num_ok F -> atod F (os_text F v) = Some (rv F v).
Proof. intros H. destruct (os_parses F H v) as [x E]. unfold rv. now rewrite E. Qed.
Lemma std_rc F v : num_ok F -> string_to_double F (pt_text F v) = Ok (rc F v).
Proof. intros H. unfold string_to_double. now rewrite rc_ok. Qed.
Lemma std_rv F v : num_ok F -> string_to_double F (os_text F v) = Ok (rv F v).
Proof. intros H. unfold string_to_double. now rewrite rv_ok. Qed.
Lemma reread_rp F p : num_ok F -> reread_point F p (rp F p).
Proof. intros H. destruct p as [[x y] z]. repeat split; now apply rc_ok. Qed.

(** ** Indexing helpers *)
Lemma idx_app {A} (a b : list A) i : idx (a ++ b) (List.length a + i) = idx b i.
Proof. unfold idx. rewrite nth_error_app2 by lia. now rewrite Nat.add_comm, Nat.add_sub. Qed.
Lemma idx_S {A} (x : A) l i : idx (x :: l) (S i) = idx l i.
Proof. reflexivity. Qed.
Lemma idx_0 {A} (x : A) l : idx (x :: l) 0 = Ok x.
Proof. reflexivity. Qed.
Lemma idx_len {A} (l : list A) i : (i < List.length l)%nat -> exists x, idx l i = Ok x.
Proof.
  intros H. unfold idx. destruct (nth_error l i) eqn:E; eauto. apply nth_error_None in E. lia.
Qed.
Lemma mapM_map {A B C} (f : B -> res C) (g : A -> B) l :
  mapM f (map g l) = mapM (fun a => f (g a)) l.
Proof. induction l as [|a t IH]; simpl; auto. now rewrite IH. Qed.
Lemma mapM_seq_shift {B} (f : nat -> res B) s n :
  mapM f (seq (S s) n) = mapM (fun i => f (S i)) (seq s n).
Proof. rewrite <- seq_shift. apply mapM_map. Qed.
Lemma mapM_idx {A} (l : list A) : mapM (fun i => idx l i) (seq 0 (List.length l)) = Ok l.
Proof.
  induction l as [|x t IH]; [reflexivity|].
  cbn [List.length seq mapM]. rewrite idx_0. cbn [bind].
  rewrite mapM_seq_shift. rewrite (mapM_ext _ (fun i => idx t i)) by reflexivity. now rewrite IH.
Qed.
Lemma mapM_idx_bind {A B} (f : A -> res B) (l : list A) :
  mapM (fun i => do t <- idx l i; f t) (seq 0 (List.length l)) = mapM f l.
Proof.
  induction l as [|x t IH]; [reflexivity|].
  cbn [List.length seq mapM]. rewrite idx_0. cbn [bind].
  rewrite mapM_seq_shift. rewrite (mapM_ext _ (fun i => do t0 <- idx t i; f t0)) by reflexivity.
  now rewrite IH.
Qed.
Lemma mapM_ok_map {A B} (f : A -> res B) (g : A -> B) l :
  (forall a, In a l -> f a = Ok (g a)) -> mapM f l = Ok (map g l).
Proof.
  induction l as [|a t IH]; simpl; intros H; auto.
  rewrite H by auto. cbn [bind]. rewrite IH by auto. reflexivity.
Qed.

(** ** The property header *)
Lemma mapM_tail_names kw (l : list bytes) :
  mapM (fun i => idx (kw :: l) (i + 1)) (seq 0 (List.length l)) = Ok l.
Proof.
  rewrite (mapM_ext _ (fun i => idx l i)).
  - apply mapM_idx.
  - intros a _. now rewrite Nat.add_1_r.
Qed.
Lemma two_strings_pairs kw (ps done : list (bytes * bytes)) :
  Forall (fun p => fst p <> lit "LINEARFUNCTION") ps ->
  two_strings (kw :: flat_map (fun p => [fst p; snd p]) (done ++ ps))
              (List.length done) 0 (List.length ps) = Ok ps.
Proof.
  revert done. induction ps as [|[a b] r IH]; intros done H; [reflexivity|].
  inversion H as [|? ? Ha Hr]; subst. cbn [List.length two_strings].
  assert (L : List.length (flat_map (fun p : bytes * bytes => [fst p; snd p]) done)
              = (2 * List.length done)%nat).
  { clear. induction done as [|p d IH]; [reflexivity|]. cbn [flat_map app List.length]. lia. }
  assert (E : forall i, idx (kw :: flat_map (fun p : bytes * bytes => [fst p; snd p]) (done ++ (a, b) :: r))
                   (2 * List.length done + 1 + i) = idx (a :: b :: flat_map (fun p => [fst p; snd p]) r) i).
  { intros i. replace (2 * List.length done + 1 + i)%nat with (S (2 * List.length done + i)) by lia.
    rewrite idx_S, flat_map_app, <- L. apply idx_app. }
  rewrite (E 0%nat), idx_0. cbn [bind].
  replace (2 * List.length done + 2 + 0)%nat with (2 * List.length done + 1 + 1)%nat by lia.
  rewrite (E 1%nat), idx_S, idx_0. cbn [bind].
  rewrite (proj2 (beq_neq a (lit "LINEARFUNCTION"))) by exact Ha.
  specialize (IH (done ++ [(a, b)]) Hr). rewrite <- app_assoc in IH. cbn [app] in IH.
  rewrite app_length in IH. cbn [List.length] in IH. rewrite Nat.add_1_r in IH.
  rewrite IH. reflexivity.
Qed.

Section Header.
Context (F : Num) (HF : num_ok F).

(** Well-formed header: names, classes, kinds and units are clean, one entry per
    property everywhere. *)
Record good_header (d : PropHeader (num F)) : Prop := {
  gh_names : Forall clean (p_names d);
  gh_classes : Forall clean (p_classes d);
  gh_kinds : Forall clean (p_kinds d);
  gh_units : Forall clean (p_units d);
  gh_ranges : Forall (fun p => token (fst p) /\ token (snd p) /\ fst p <> lit "LINEARFUNCTION") (p_ranges d);
  gh_subs : Forall (fun p => token (fst p) /\ token (snd p) /\ fst p <> lit "LINEARFUNCTION") (p_subclasses d);
  gh_esizes : Forall (fun e => 0 <= e < two32) (p_esizes d);
  gh_l1 : List.length (p_ranges d) = List.length (p_names d);
  gh_l2 : List.length (p_ndv d) = List.length (p_names d);
  gh_l3 : List.length (p_classes d) = List.length (p_names d);
  gh_l4 : List.length (p_kinds d) = List.length (p_names d);
  gh_l5 : List.length (p_subclasses d) = List.length (p_names d);
  gh_l6 : List.length (p_esizes d) = List.length (p_names d);
  gh_l7 : List.length (p_units d) = List.length (p_names d)
}.

Lemma kw_one_string_written kw names n r b :
  token kw -> kw <> Q1 -> Forall clean names -> List.length names = n ->
  kw_one_string kw n (mkStream ((kw ++ spaced (map write_quoted names)) :: r) b)
  = Ok (names, mkStream r b).
Proof.
  intros H1 H2 H3 H4. unfold kw_one_string.
  rewrite goto_keyword_next by apply starts_with_app. cbn [bind].
  rewrite split_quotes_names by assumption. cbn [bind]. subst n.
  rewrite mapM_tail_names. reflexivity.
Qed.
Lemma pairs_tokens ps :
  Forall (fun p : bytes * bytes => token (fst p) /\ token (snd p) /\ fst p <> lit "LINEARFUNCTION") ps ->
  Forall token (flat_map (fun p => [fst p; snd p]) ps).
Proof.
  induction 1 as [|p r [H1 [H2 _]] Hr IH]; [constructor|]. cbn [flat_map app]. auto.
Qed.
Lemma kw_two_strings_written kw ps n r b :
  token kw ->
  Forall (fun p : bytes * bytes => token (fst p) /\ token (snd p) /\ fst p <> lit "LINEARFUNCTION") ps ->
  List.length ps = n ->
  kw_two_strings kw n
    (mkStream ((kw ++ spaced (flat_map (fun p => [fst p; snd p]) ps)) :: r) b)
  = Ok (ps, mkStream r b).
Proof.
  intros H1 H2 H3. unfold kw_two_strings.
  rewrite goto_keyword_next by apply starts_with_app. cbn [bind].
  rewrite split_spaced_tokens by (assumption || now apply pairs_tokens). subst n.
  pose proof (two_strings_pairs kw ps []) as E. cbn [app List.length] in E. rewrite E; [reflexivity|].
  eapply Forall_impl; [|exact H2]. intros a Ha; apply Ha.
Qed.
Lemma kw_one_double_written kw vs n r b :
  token kw -> List.length vs = n ->
  kw_one_double F kw n (mkStream ((kw ++ spaced (map (os_text F) vs)) :: r) b)
  = Ok (map (rv F) vs, mkStream r b).
Proof.
  intros H1 H2. unfold kw_one_double.
  rewrite goto_keyword_next by apply starts_with_app. cbn [bind].
  rewrite split_spaced_tokens; auto.
  2:{ apply Forall_map. apply Forall_forall. intros v _. now apply os_token. }
  subst n. rewrite (mapM_ext _ (fun i => do t <- idx (map (os_text F) vs) i; string_to_double F t)).
  2:{ intros a _. now rewrite Nat.add_1_r. }
  rewrite <- (map_length (os_text F) vs), mapM_idx_bind, mapM_map.
  rewrite (mapM_ok_map _ (rv F)); [reflexivity|]. intros a _. now apply std_rv.
Qed.
Lemma kw_one_index_written kw vs n r b :
  token kw -> Forall (fun e => 0 <= e < two32) vs -> List.length vs = n ->
  kw_one_index kw n (mkStream ((kw ++ spaced (map show vs)) :: r) b)
  = Ok (vs, mkStream r b).
Proof.
  intros H1 Hv H2. unfold kw_one_index.
  rewrite goto_keyword_next by apply starts_with_app. cbn [bind].
  rewrite split_spaced_tokens; auto.
  2:{ apply Forall_map. eapply Forall_impl; [|exact Hv]. intros v Hz. apply show_token. apply Hz. }
  subst n. rewrite (mapM_ext _ (fun i => do t <- idx (map show vs) i; string_to_index t)).
  2:{ intros a _. now rewrite Nat.add_1_r. }
  rewrite <- (map_length show vs), mapM_idx_bind, mapM_map.
  rewrite (mapM_ok_map _ (fun x => x)); [now rewrite map_id|].
  intros a Ha. rewrite Forall_forall in Hv. now apply string_to_index_show, Hv.
Qed.

Ltac tok := apply tokenb_ok; reflexivity.

(** Reading back a written property header: only the no-data values go through the
    number printer. *)
Lemma read_prop_header_written d r b :
  good_header d -> p_names d <> [] ->
  read_prop_header F [] (mkStream (write_prop_header F d ++ r) b)
  = Ok (mkProp (p_names d) (p_ranges d) (map (rv F) (p_ndv d)) (p_classes d) (p_kinds d)
               (p_subclasses d) (p_esizes d) (p_units d), mkStream r b).
Proof.
  intros G Hn. destruct G. unfold read_prop_header, write_prop_header. cbn [app].
  unfold next_if. cbn [pending nl].
  rewrite starts_with_app. rewrite split_quotes_names; [|tok|discriminate|assumption].
  cbn [bind List.length pred].
  destruct (p_names d) as [|n0 ns] eqn:E; [congruence|]. cbn [List.length Nat.eqb]. rewrite <- E in *.
  change (S (List.length ns)) with (List.length (n0 :: ns)). rewrite <- E.
  rewrite mapM_tail_names. cbn [bind].
  rewrite kw_two_strings_written; [|tok|assumption|assumption]. cbn [bind].
  rewrite kw_one_double_written; [|tok|assumption]. cbn [bind].
  rewrite kw_one_string_written; [|tok|discriminate|assumption|assumption]. cbn [bind].
  rewrite kw_one_string_written; [|tok|discriminate|assumption|assumption]. cbn [bind].
  rewrite kw_two_strings_written; [|tok|assumption|assumption]. cbn [bind].
  rewrite kw_one_index_written; [|tok|assumption|assumption]. cbn [bind].
  rewrite kw_one_string_written; [|tok|discriminate|assumption|assumption]. reflexivity.
Qed.
Lemma good_prop_header ws : Forall (fun w => clean (w_name w)) ws -> good_header (prop_header_of (F:=F) ws).
Proof.
  intros H.
  assert (clean_lit : forall n, cleanb n = true -> Forall clean (map (fun _ : wattr F => n) ws)).
  { intros n Hn. apply Forall_map, Forall_forall. intros x _. now apply cleanb_ok. }
  constructor; unfold prop_header_of; cbn [p_names p_ranges p_ndv p_classes p_kinds p_subclasses p_esizes p_units];
    rewrite ?map_length; try reflexivity.
  - now apply Forall_map.
  - now apply Forall_map.
  - apply clean_lit; reflexivity.
  - apply clean_lit; reflexivity.
  - apply Forall_map, Forall_forall. intros x _. cbn [fst snd]. split; [tok|split; [tok|discriminate]].
  - apply Forall_map, Forall_forall. intros x _. cbn [fst snd]. split; [tok|split; [tok|discriminate]].
  - apply Forall_map, Forall_forall. intros x _. unfold two32; lia.
Qed.

(** Property block read back (with or without exported attributes). *)
Definition reread_header (ws : list (wattr F)) : PropHeader (num F) :=
  match ws with
  | [] => empty_prop
  | _ => let d := prop_header_of ws in
         mkProp (p_names d) (p_ranges d) (map (rv F) (p_ndv d)) (p_classes d) (p_kinds d)
               (p_subclasses d) (p_esizes d) (p_units d)
  end.
Definition class_lines (ws : list (wattr F)) : list bytes :=
  xyz_class_headers ++
  flat_map (fun w => write_property_class_header (w_name w) "Real Number" "unitless" false) ws.
Lemma read_prop_lines ws r b :
  Forall (fun w => clean (w_name w)) ws ->
  read_prop_header F [] (mkStream (prop_lines ws ++ r) b)
  = Ok (reread_header ws, mkStream (class_lines ws ++ r) b).
Proof.
  intros H. unfold prop_lines. destruct ws as [|w ws].
  - reflexivity.
  - rewrite <- !app_assoc. rewrite read_prop_header_written.
    + unfold class_lines. rewrite <- app_assoc. reflexivity.
    + now apply good_prop_header.
    + discriminate.
Qed.
Lemma reread_names ws : p_names (reread_header ws) = map w_name ws.
Proof. destruct ws; reflexivity. Qed.
Lemma reread_esizes ws : p_esizes (reread_header ws) = map (fun _ => 1) ws.
Proof. destruct ws; reflexivity. Qed.
Lemma reread_ndv ws : p_ndv (reread_header ws) = map (fun _ => rv F (ndv F)) ws.
Proof.
  destruct ws as [|w ws]; [reflexivity|]. unfold reread_header, prop_header_of.
  cbn [p_ndv]. rewrite map_map. reflexivity.
Qed.

(** The class headers contain no line that starts with an upper case section keyword. *)
Lemma class_lines_no kw ws :
  starts_with (lit "PROPERTY_CLASS_HEADER ") kw = false ->
  (forall l, starts_with (lit "PROPERTY_CLASS_HEADER " ++ l) kw = false) ->
  (forall l, starts_with (lit "kind:" ++ l) kw = false) ->
  (forall l, starts_with (lit "unit:" ++ l) kw = false) ->
  (forall l, starts_with (lit "name:" ++ l) kw = false) ->
  starts_with (lit "is_Z: on") kw = false ->
  starts_with (lit "}") kw = false ->
  Forall (fun x => starts_with x kw = false) (class_lines ws).
Proof.
  intros _ H1 H2 H3 H4 H5 H6. unfold class_lines. apply Forall_app. split.
  - unfold xyz_class_headers, write_property_class_header. cbn [app].
    repeat (constructor; [auto|]). constructor.
  - induction ws as [|w ws IH]; [constructor|]. cbn [flat_map]. apply Forall_app. split; auto.
    unfold write_property_class_header. cbn [app]. repeat (constructor; [auto|]). constructor.
Qed.

(** ** Vertex rows *)
Lemma vrtx_line_spaced kw ws v p :
  vrtx_line kw ws v p =
  kw ++ spaced (show (Z.of_nat v) ::
    (let '(x, y, z) := p in [pt_text F x; pt_text F y; pt_text F z]) ++
    map (fun w => os_text F (w_val w v)) ws).
Proof.
  destruct p as [[x y] z]. unfold vrtx_line, point_string. cbn [app].
  rewrite !spaced_cons, <- !app_assoc. cbn [app]. rewrite <- !app_assoc. reflexivity.
Qed.
Lemma vrtx_line_tokens kw ws v x y z : token kw ->
  string_split (vrtx_line (F:=F) kw ws v (x, y, z)) =
  kw :: show (Z.of_nat v) :: pt_text F x :: pt_text F y :: pt_text F z ::
    map (fun w => os_text F (w_val w v)) ws.
Proof.
  intros Hk. rewrite vrtx_line_spaced. rewrite split_spaced_tokens; auto.
  destruct HF. cbn [app]. constructor; [apply show_token; lia|]. do 3 (constructor; [auto|]).
  apply Forall_map, Forall_forall. auto.
Qed.

Lemma read_row pre ws v done :
  List.length done = List.length ws ->
  read_properties F (map w_name ws) (map (fun _ => 1) ws) done
    (pre ++ map (fun w => os_text F (w_val w v)) ws) (List.length pre)
  = Ok (map (fun dw => fst dw ++ [rv F (w_val (snd dw) v)]) (combine done ws)).
Proof.
  revert pre done. induction ws as [|w ws IH]; intros pre done Hl.
  - destruct done; [reflexivity|discriminate].
  - destruct done as [|d done]; [discriminate|]. injection Hl as Hl.
    cbn [map read_properties]. change (items 1) with 1%nat. cbn [read_items].
    rewrite (proj2 (Nat.ltb_lt _ _)) by (rewrite app_length; simpl; lia). cbn [check bind].
    replace (List.length pre) with (List.length pre + 0)%nat at 1 by lia.
    rewrite idx_app, idx_0. cbn [bind]. rewrite std_rv by assumption. cbn [bind].
    specialize (IH (pre ++ [os_text F (w_val w v)]) done Hl).
    rewrite <- app_assoc in IH. cbn [app] in IH. rewrite app_length in IH. cbn [List.length] in IH.
    rewrite Nat.add_1_r in IH. rewrite IH. reflexivity.
Qed.
(** Values gathered after [v] rows. *)
Definition vals_upto (ws : list (wattr F)) (v : nat) : list (list (num F)) :=
  map (fun w => map (fun i => rv F (w_val w i)) (seq 0 v)) ws.
Lemma read_row_upto pre ws v :
  read_properties F (map w_name ws) (map (fun _ => 1) ws) (vals_upto ws v)
    (pre ++ map (fun w => os_text F (w_val w v)) ws) (List.length pre)
  = Ok (vals_upto ws (S v)).
Proof.
  rewrite read_row by (unfold vals_upto; now rewrite map_length). f_equal.
  unfold vals_upto. induction ws as [|w ws IH]; [reflexivity|].
  cbn [map combine fst snd]. rewrite IH. rewrite seq_S, map_app. reflexivity.
Qed.

Lemma vrtx_point_written crs kw n x y z t :
  vrtx_point F crs (kw :: n :: pt_text F x :: pt_text F y :: pt_text F z :: t)
  = Ok (rc F x, rc F y, signed F crs (rc F z)).
Proof.
  unfold vrtx_point. rewrite !idx_S, !idx_0. cbn [bind]. rewrite !std_rc by assumption. reflexivity.
Qed.

(** [read_row_upto] on the tokens of a vertex line. *)
Lemma read_row5 ws v (a b c d e : bytes) :
  read_properties F (map w_name ws) (map (fun _ => 1) ws) (vals_upto ws v)
    (a :: b :: c :: d :: e :: map (fun w => os_text F (w_val w v)) ws) 5
  = Ok (vals_upto ws (S v)).
Proof. exact (read_row_upto [a; b; c; d; e] ws v). Qed.
End Header.

(** ** Attributes on a mesh *)
Lemma setz_len {A} (l : list A) i a : 0 <= i < Z.of_nat (List.length l) ->
  setz l i a = Ok (upd l (Z.to_nat i) a).
Proof.
  intros H. unfold setz. rewrite (proj2 (Z.leb_le _ _)), (proj2 (Z.ltb_lt _ _)) by lia. reflexivity.
Qed.
Lemma upd_split {A} (l : list A) i a : (i < List.length l)%nat ->
  upd l i a = firstn i l ++ a :: skipn (S i) l.
Proof.
  revert i; induction l as [|x t IH]; intros i H; simpl in H; [lia|].
  destruct i; [reflexivity|]. cbn [upd firstn skipn app]. now rewrite IH by lia.
Qed.
Lemma skipn_skipn' {A} (l : list A) a b : skipn a (skipn b l) = skipn (a + b) l.
Proof.
  revert l. induction b as [|b IH]; intros l; [now rewrite Nat.add_0_r|].
  destruct l as [|x t]; [now rewrite !skipn_nil|]. rewrite Nat.add_succ_r. cbn [skipn]. apply IH.
Qed.
Lemma fill_attr_rows {V} (vals : list V) e d (row : nat -> list V) N n pt (a : list (list V)) :
  (forall k, (k < pt + n)%nat -> attr_row vals e d k = Ok (row k)) ->
  (pt + n <= N)%nat -> (pt + n <= List.length a)%nat ->
  fill_attr vals e d (seq 0 N) pt n a
  = Ok (firstn pt a ++ map row (seq pt n) ++ skipn (pt + n) a).
Proof.
  revert pt a. induction n as [|n IH]; intros pt a Hr HN Ha.
  - cbn [fill_attr seq map app]. rewrite Nat.add_0_r, firstn_skipn. reflexivity.
  - cbn [fill_attr]. unfold idx. rewrite nth_error_nth' with (d := 0%nat) by (rewrite seq_length; lia).
    rewrite seq_nth by lia. cbn [Nat.add bind]. rewrite Hr by lia. cbn [bind].
    rewrite setz_len by lia. cbn [bind]. rewrite Nat2Z.id.
    rewrite IH; [|intros; apply Hr; lia|lia|rewrite upd_length; lia].
    f_equal. rewrite upd_split by lia.
    assert (L : List.length (firstn pt a) = pt) by (rewrite firstn_length; lia).
    rewrite firstn_app, firstn_all2 by lia. rewrite L.
    replace (S pt - pt)%nat with 1%nat by lia. cbn [firstn].
    rewrite skipn_app, L. rewrite (skipn_all2 (firstn pt a)) by lia.
    replace (S pt + n - pt)%nat with (S n) by lia. cbn [app]. rewrite skipn_cons.
    rewrite skipn_skipn'. cbn [seq map]. rewrite <- app_assoc. cbn [app].
    replace (n + S pt)%nat with (pt + S n)%nat by lia. reflexivity.
Qed.

Lemma find_attr_none {V} name (l : list (bytes * attr V)) :
  ~ In name (map fst l) -> find_attr name l = None.
Proof.
  unfold find_attr. induction l as [|[n a] r IH]; [reflexivity|]. cbn [map fst In find].
  intros H. rewrite (proj2 (beq_neq n name)) by tauto. apply IH. tauto.
Qed.
Lemma replace_attr_new {V} name (a : attr V) l :
  ~ In name (map fst l) -> replace_attr name a l = l ++ [(name, a)].
Proof.
  induction l as [|[n b] r IH]; [reflexivity|]. cbn [map fst In replace_attr app].
  intros H. rewrite (proj2 (beq_neq n name)) by tauto. f_equal. apply IH. tauto.
Qed.
Lemma find_attr_in {V} name (a : attr V) l :
  NoDup (map fst l) -> In (name, a) l -> find_attr name l = Some a.
Proof.
  unfold find_attr. induction l as [|[n b] r IH]; intros Hn Hi; [contradiction|].
  cbn [map fst] in Hn. inversion Hn as [|? ? H1 H2]; subst. cbn [find fst].
  destruct Hi as [Hi|Hi].
  - injection Hi as -> ->. now rewrite beq_refl.
  - rewrite (proj2 (beq_neq n name)).
    + now apply IH.
    + intros ->. apply H1. apply in_map_iff. exists (name, a). auto.
Qed.

Section Attributes.
Context (F : Num) (C : Type).
Implicit Types m : mesh F C.

(** The attribute read back for one exported attribute on [n] vertices. *)
Definition reread_attr (n : nat) (w : wattr F) : bytes * attr (num F) :=
  (w_name w, mkAttr 1 [rv F (ndv F)] (map (fun i => [rv F (w_val w i)]) (seq 0 n))).

Lemma attr_row_one (g : nat -> num F) n d k : (k < n)%nat ->
  attr_row (map g (seq 0 n)) 1 [d] k = Ok [g k].
Proof.
  intros H. unfold attr_row. change (items 1) with 1%nat. cbn [seq mapM].
  replace (k * Z.to_nat 1 + 0)%nat with k by (simpl; lia).
  unfold idx. rewrite nth_error_map. rewrite nth_error_nth' with (d := 0%nat) by (rewrite seq_length; lia).
  rewrite seq_nth by lia. reflexivity.
Qed.

Lemma create_attributes_fresh ws m done n :
  List.length (m_points m) = n -> m_attrs m = done ->
  NoDup (map fst done ++ map w_name ws) ->
  Forall (fun w => w_name w <> lit "points") ws ->
  create_attributes_loop (map w_name ws) (map (fun _ => 1) ws)
    (map (fun _ => rv F (ndv F)) ws) (vals_upto F ws n) n (seq 0 n) m
  = Ok (set_attr_list m (done ++ map (reread_attr n) ws)).
Proof.
  revert m done. induction ws as [|w ws IH]; intros m done Hp Hd Hn Hw.
  - cbn [map create_attributes_loop]. rewrite app_nil_r. subst done. destruct m; reflexivity.
  - cbn [map] in Hn.
    inversion Hw as [|? ? Hw1 Hw2]; subst.
    assert (Hnin : ~ In (w_name w) (map fst (m_attrs m))).
    { apply NoDup_remove_2 in Hn. intros Hi. apply Hn. apply in_or_app. auto. }
    cbn [map vals_upto create_attributes_loop]. change (repeat ?x (Z.to_nat 1)) with [x].
    unfold find_or_create. rewrite (proj2 (beq_neq (w_name w) (lit "points"))) by assumption.
    rewrite find_attr_none by assumption. cbn [bind a_vals a_type a_def].
    rewrite (fill_attr_rows _ 1 [rv F (ndv F)] (fun i => [rv F (w_val w i)])); try lia.
    2:{ intros k Hk. now apply attr_row_one. }
    2:{ rewrite map_length. lia. }
    cbn [bind firstn app Nat.add].
    rewrite skipn_all2 by (rewrite map_length; lia). rewrite app_nil_r.
    rewrite replace_attr_new by assumption.
    change (map (fun w0 => map (fun i => rv F (w_val w0 i)) (seq 0 (List.length (m_points m)))) ws)
      with (vals_upto F ws (List.length (m_points m))).
    rewrite (IH _ (m_attrs m ++ [reread_attr (List.length (m_points m)) w])).
    + unfold set_attr_list. cbn [m_name m_points m_cells]. rewrite <- app_assoc. reflexivity.
    + reflexivity.
    + reflexivity.
    + rewrite map_app, <- app_assoc. exact Hn.
    + assumption.
Qed.

Lemma create_points_spec ps m :
  create_points ps m =
  mkMesh (m_name m) (m_points m ++ ps) (m_cells m)
    (map (fun na => (fst na, mkAttr (a_type (snd na)) (a_def (snd na))
            (a_vals (snd na) ++ repeat (a_def (snd na)) (List.length ps)))) (m_attrs m)).
Proof.
  unfold create_points. revert m. induction ps as [|p ps IH]; intros m.
  - cbn [fold_left List.length repeat]. rewrite app_nil_r. destruct m as [nm pts cs ats].
    cbn [m_name m_points m_cells m_attrs]. f_equal. symmetry. erewrite map_ext; [apply map_id|].
    intros [na [t d v]]. cbn [fst snd a_type a_def a_vals]. now rewrite app_nil_r.
  - cbn [fold_left]. rewrite IH. unfold create_point. cbn [m_name m_points m_cells m_attrs].
    rewrite <- app_assoc. cbn [app]. f_equal. rewrite map_map. apply map_ext.
    intros [na [t d v]]. cbn [fst snd a_type a_def a_vals List.length repeat].
    rewrite <- app_assoc. reflexivity.
Qed.
End Attributes.

Definition tri_in (n : Z) (t : tri) : Prop :=
  let '(a, b, c) := t in 0 <= a < n /\ 0 <= b < n /\ 0 <= c < n.
Lemma create_triangles F tris (m : mesh F tri) :
  Forall (tri_in (nb_vertices m)) tris ->
  foldM create_triangle tris m =
  Ok (mkMesh (m_name m) (m_points m) (m_cells m ++ tris) (m_attrs m)).
Proof.
  revert m. induction tris as [|[[a b] c] r IH]; intros m H.
  - cbn [foldM]. rewrite app_nil_r. destruct m; reflexivity.
  - inversion H as [|? ? H0 Hr]; subst. destruct H0 as [H1 [H2 H3]]. cbn [foldM create_triangle].
    unfold valid_vertex. rewrite !(proj2 (Z.leb_le _ _)), !(proj2 (Z.ltb_lt _ _)) by lia.
    cbn [andb bind]. rewrite IH by exact Hr. unfold add_cell. cbn [m_name m_points m_cells m_attrs].
    rewrite <- app_assoc. reflexivity.
Qed.

(** ** The TFACE section *)
Section Tfaces.
Context (F : Num) (HF : num_ok F).

Lemma tfaces_vrtx kw ws h name ps v pts tris tro vo bst bor rest :
  is_vrtx kw = true -> token kw -> p_names h = map w_name ws -> p_esizes h = map (fun _ => 1) ws ->
  (v + List.length ps <= Z.to_nat two32)%nat -> List.length pts = v ->
  tfaces_loop F (mkTSurf (if Nat.eqb v 0 then 1 else 0) name default_crs h pts tris tro vo bst bor
                         (vals_upto F ws v))
    (vrtx_lines kw ws v ps ++ rest)
  = tfaces_loop F (mkTSurf (if Nat.eqb (v + List.length ps) 0 then 1 else 0) name default_crs h
                           (pts ++ map (rp F) ps) tris tro vo bst bor
                           (vals_upto F ws (v + List.length ps))) rest.
Proof.
  intros Hk Ht Hnm Hes. revert v pts. induction ps as [|[[x y] z] ps IH]; intros v pts Hb Hl.
  - cbn [vrtx_lines app map List.length]. rewrite Nat.add_0_r, app_nil_r. reflexivity.
  - cbn [vrtx_lines app List.length] in *. cbn [tfaces_loop]. unfold tface_line.
    rewrite vrtx_line_tokens by assumption. cbn [front bind]. rewrite Hk.
    assert (Ho : forall t, vrtx_offset (match pts with [] => true | _ => false end)
              (if Nat.eqb v 0 then 1 else 0) (kw :: show (Z.of_nat v) :: t) = Ok 0).
    { intros t. destruct pts as [|p0 pts].
      - simpl in Hl. subst v. reflexivity.
      - simpl in Hl. destruct v; [discriminate|]. reflexivity. }
    rewrite Ho. cbn [bind]. rewrite vrtx_point_written by assumption. cbn [bind].
    rewrite Hnm, Hes, read_row5 by assumption. cbn [bind].
    replace (v + S (List.length ps))%nat with (S v + List.length ps)%nat by lia.
    specialize (IH (S v) (pts ++ [rp F (x, y, z)])). cbn [Nat.eqb] in IH.
    cbn [map]. replace (pts ++ rp F (x, y, z) :: map (rp F) ps)
      with ((pts ++ [rp F (x, y, z)]) ++ map (rp F) ps) by (rewrite <- app_assoc; reflexivity).
    rewrite <- IH.
    + reflexivity.
    + lia.
    + rewrite app_length. simpl. lia.
Qed.

Lemma trgl_line_tokens a b c : 0 <= a -> 0 <= b -> 0 <= c ->
  string_split (trgl_line (a, b, c)) = [lit "TRGL"; show a; show b; show c].
Proof.
  intros. replace (trgl_line (a, b, c)) with (lit "TRGL" ++ spaced [show a; show b; show c]).
  - apply split_spaced_tokens; [apply tokenb_ok; reflexivity|].
    repeat (apply Forall_cons; [now apply show_token|]). constructor.
  - unfold trgl_line. rewrite !spaced_cons. cbn [spaced map List.concat app].
    rewrite app_nil_r. reflexivity.
Qed.
Lemma tok_index_show kw (l : list bytes) i a : idx l i = Ok (show a) -> 0 <= a < two32 ->
  tok_index 0 (kw :: l) (S i) = Ok a.
Proof.
  intros H Ha. unfold tok_index. rewrite idx_S, H. cbn [bind].
  rewrite string_to_index_show by assumption. cbn [bind]. unfold sub32. rewrite Z.sub_0_r.
  now rewrite wrap32_small.
Qed.
Lemma tfaces_trgl n name crs h pts tris0 tris tro vo bst bor vals rest :
  n <= two32 -> Forall (tri_in n) tris ->
  tfaces_loop F (mkTSurf 0 name crs h pts tris0 tro vo bst bor vals) (map trgl_line tris ++ rest)
  = tfaces_loop F (mkTSurf 0 name crs h pts (tris0 ++ tris) tro vo bst bor vals) rest.
Proof.
  intros Hn H. revert tris0. induction H as [|[[a b] c] r H0 Hr IH]; intros tris0.
  - cbn [map app]. now rewrite app_nil_r.
  - destruct H0 as [Ha [Hb Hc]]. cbn [map app tfaces_loop]. unfold tface_line.
    rewrite trgl_line_tokens by lia. cbn [front bind].
    replace (is_vrtx (lit "TRGL")) with false by reflexivity.
    replace (is_atom (lit "TRGL")) with false by reflexivity.
    replace (beq (lit "TRGL") (lit "TRGL")) with true by reflexivity.
    rewrite (tok_index_show _ _ 0 a) by (reflexivity || lia). cbn [bind].
    rewrite (tok_index_show _ _ 1 b) by (reflexivity || lia). cbn [bind].
    rewrite (tok_index_show _ _ 2 c) by (reflexivity || lia). cbn [bind].
    specialize (IH (tris0 ++ [(a, b, c)])). rewrite <- app_assoc in IH. exact IH.
Qed.
End Tfaces.

(** ** Whole files *)
Lemma is_line_lit s : lineb (lit s) = true -> is_line (lit s).
Proof. apply lineb_ok. Qed.
Lemma is_line_spaced ts : Forall is_line ts -> is_line (spaced ts).
Proof.
  induction 1 as [|t r Ht Hr IH]; [intros []|]. rewrite spaced_cons.
  apply is_line_cons; [discriminate|]. now apply is_line_app.
Qed.
Lemma clean_line n : clean n -> is_line n.
Proof. intros [ws [_ [H ->]]]. apply is_line_join. now apply words_tokens_of. Qed.
Lemma write_quoted_line n : clean n -> is_line (write_quoted n).
Proof.
  intros [ws [Hn [H ->]]]. rewrite write_quoted_join by assumption.
  apply is_line_join, quoted_tokens_ok. now apply words_tokens_of.
Qed.

Ltac tok := apply tokenb_ok; reflexivity.
Ltac isl := apply lineb_ok; reflexivity.

Section Files.
Context (F : Num) (HF : num_ok F).

Lemma write_header_lines name : (forall n, name = Some n -> is_line n) ->
  Forall is_line (write_header name).
Proof.
  intros H. unfold write_header. destruct name as [n|]; cbn [app];
  repeat (apply Forall_cons; [|]); try constructor; try isl.
  apply is_line_app; [isl|]. auto.
Qed.
Lemma class_header_lines n k u z : is_line n -> is_line k -> is_line u ->
  Forall is_line (write_property_class_header n k u z).
Proof.
  intros Hn Hk Hu. unfold write_property_class_header.
  apply Forall_app; split.
  - apply Forall_cons. { apply is_line_app; [isl|]. apply is_line_app; [assumption|isl]. }
    do 3 (apply Forall_cons; [apply is_line_app; [isl|assumption]|]). constructor.
  - apply Forall_app; split; [destruct z|]; repeat (apply Forall_cons; [isl|]); constructor.
Qed.
Lemma prop_header_lines (d : PropHeader (num F)) : good_header F d -> Forall is_line (write_prop_header F d).
Proof.
  intros []. unfold write_prop_header.
  assert (Q : forall ns, Forall clean ns -> Forall is_line (map write_quoted ns)).
  { intros ns H. apply Forall_map. eapply Forall_impl; [|exact H]. intros a; apply write_quoted_line. }
  assert (P : forall ps, Forall (fun p : bytes * bytes => token (fst p) /\ token (snd p) /\ fst p <> lit "LINEARFUNCTION") ps ->
     Forall is_line (flat_map (fun p => [fst p; snd p]) ps)).
  { intros ps H. apply pairs_tokens in H. eapply Forall_impl; [|exact H]. intros a; apply token_line. }
  repeat (apply Forall_cons; [apply is_line_app; [isl|apply is_line_spaced; auto]|]); [| |constructor].
  - apply Forall_map, Forall_forall. intros x _. apply token_line. now apply os_token.
  - apply Forall_map. eapply Forall_impl; [|exact gh_esizes0]. intros x Hx. apply token_line, show_token, Hx.
Qed.
Lemma prop_lines_lines (ws : list (wattr F)) : Forall (fun w => clean (w_name w)) ws ->
  Forall is_line (prop_lines ws).
Proof.
  intros H. unfold prop_lines. apply Forall_app; split.
  - destruct ws as [|w ws]; [constructor|]. apply prop_header_lines. now apply good_prop_header.
  - apply Forall_app; split.
    + unfold xyz_class_headers. apply Forall_app; split; [|apply Forall_app; split];
      apply class_header_lines; isl.
    + induction H as [|w r Hw Hr IH]; [constructor|]. cbn [flat_map]. apply Forall_app; split; auto.
      apply class_header_lines; [now apply clean_line|isl|isl].
Qed.
Lemma vrtx_lines_lines kw (ws : list (wattr F)) v ps : token kw -> Forall is_line (vrtx_lines kw ws v ps).
Proof.
  intros Hk. revert v. induction ps as [|[[x y] z] ps IH]; intros v; [constructor|].
  cbn [vrtx_lines]. apply Forall_cons; [|apply IH]. rewrite vrtx_line_spaced.
  apply is_line_app; [now apply token_line|]. apply is_line_spaced. cbn [app].
  apply Forall_cons; [apply token_line, show_token; lia|].
  do 3 (apply Forall_cons; [apply token_line; now apply pt_token|]).
  apply Forall_map, Forall_forall. intros w _. apply token_line. now apply os_token.
Qed.
Lemma trgl_lines_lines n tris : Forall (tri_in n) tris -> Forall is_line (map trgl_line tris).
Proof.
  intros H. apply Forall_map. eapply Forall_impl; [|exact H]. intros [[a b] c] [Ha [Hb Hc]].
  unfold trgl_line. apply is_line_app; [isl|].
  repeat (apply is_line_app || (apply is_line_cons; [discriminate|])); apply token_line, show_token; lia.
Qed.
Lemma vrtx_keyword_ok (l : list (wattr F)) : token (vrtx_keyword l) /\ is_vrtx (vrtx_keyword l) = true.
Proof. destruct l; split; (tok || reflexivity). Qed.

(** What a surface must satisfy to be written faithfully. *)
Record writable (m : wmesh F tri) : Prop := {
  wr_name : forall n, wm_name m = Some n -> is_line n;
  wr_attr_names : Forall (fun w => clean (w_name w)) (wm_attrs m);
  wr_attr_nodup : NoDup (map w_name (wm_attrs m));
  wr_size : Z.of_nat (List.length (wm_points m)) <= two32;
  wr_cells : Forall (tri_in (Z.of_nat (List.length (wm_points m)))) (wm_cells m)
}.

Lemma filter_clean l : Forall (fun w => clean (w_name w)) l ->
  Forall (fun w => clean (w_name w)) (filter (@exported F) l).
Proof.
  intros H. apply Forall_forall. intros w Hw. apply filter_In in Hw as [Hw _].
  rewrite Forall_forall in H. auto.
Qed.
Lemma filter_points (l : list (wattr F)) : Forall (fun w => w_name w <> lit "points") (filter exported l).
Proof.
  apply Forall_forall. intros w Hw. apply filter_In in Hw as [_ Hw]. unfold exported in Hw.
  apply andb_true_iff in Hw as [_ Hw]. apply negb_true_iff in Hw. now apply beq_neq.
Qed.
Lemma filter_nodup (l : list (wattr F)) : NoDup (map w_name l) -> NoDup (map w_name (filter exported l)).
Proof.
  induction l as [|w l IH]; [auto|]. cbn [map filter]. intros H. inversion H as [|? ? H1 H2]; subst.
  destruct (exported w); auto. cbn [map]. constructor; auto.
  intros Hi. apply H1. apply in_map_iff in Hi as [x [E Hx]]. apply filter_In in Hx as [Hx _].
  rewrite <- E. now apply in_map.
Qed.

Lemma ts_lines_lines m : writable m -> Forall is_line (ts_lines m).
Proof.
  intros []. unfold ts_lines. cbn zeta.
  apply Forall_app; split; [repeat (apply Forall_cons; [isl|]); constructor|].
  apply Forall_app; split; [now apply write_header_lines|].
  apply Forall_app; split.
  { unfold write_CRS. cbn [axis_names axis_units default_crs].
    repeat (apply Forall_cons; [isl|]); constructor. }
  apply Forall_app; split; [apply prop_lines_lines; now apply filter_clean|].
  apply Forall_app; split; [repeat (apply Forall_cons; [isl|]); constructor|].
  apply Forall_app; split; [apply vrtx_lines_lines, vrtx_keyword_ok|].
  apply Forall_app; split; [eapply trgl_lines_lines; eassumption|].
  repeat (apply Forall_cons; [isl|]); constructor.
Qed.

(** The object parsed from the text of a surface, when other lines follow it. *)
Definition parsed_ts (m : wmesh F tri) : TSurf F :=
  let ws := filter exported (wm_attrs m) in
  let n := List.length (wm_points m) in
  mkTSurf (if Nat.eqb n 0 then 1 else 0) (option_map normalise (wm_name m)) default_crs
    (reread_header F ws) (map (rp F) (wm_points m)) (wm_cells m)
    [0; lenz (wm_cells m)] [0; lenz (map (rp F) (wm_points m))] [] [] (vals_upto F ws n).

Lemma read_tsurf_written m rest b : writable m ->
  read_tsurf F (mkStream (ts_lines m ++ rest) b) = Ok (Some (parsed_ts m), mkStream rest b).
Proof.
  intros []. unfold read_tsurf, ts_lines. cbn zeta. rewrite <- !app_assoc.
  change ([lit "GOCAD TSurf 1"] ++ ?x) with (lit "GOCAD TSurf 1" :: x).
  rewrite goto_if_next by reflexivity.
  rewrite read_header_written. cbn [bind].
  rewrite read_CRS_default. cbn [bind].
  rewrite read_prop_lines; [|assumption|now apply filter_clean]. cbn [bind].
  unfold read_tfaces.
  set (ws := filter exported (wm_attrs m)).
  replace (class_lines F ws ++
        [lit "TFACE"] ++
        vrtx_lines (vrtx_keyword (wm_attrs m)) ws 0 (wm_points m) ++
        map trgl_line (wm_cells m) ++ [lit "END"] ++ rest)
    with (class_lines F ws ++ lit "TFACE" ::
        (vrtx_lines (vrtx_keyword (wm_attrs m)) ws 0 (wm_points m) ++
        map trgl_line (wm_cells m) ++ [lit "END"] ++ rest)) by reflexivity.
  rewrite goto_keyword_hit; [|apply class_lines_no; reflexivity|reflexivity]. cbn [bind pending nl].
  rewrite reread_names.
  replace (map (fun _ : bytes => []) (map w_name ws)) with (vals_upto F ws 0).
  2:{ unfold vals_upto. rewrite map_map. reflexivity. }
  pose proof (tfaces_vrtx F HF (vrtx_keyword (wm_attrs m)) ws (reread_header F ws)
    (option_map normalise (wm_name m)) (wm_points m) 0 [] [] [0] [0] [] []
    (map trgl_line (wm_cells m) ++ [lit "END"] ++ rest)) as E.
  change (if Nat.eqb 0 0 then 1 else 0) with 1 in E.
  rewrite E; clear E.
  2:{ apply vrtx_keyword_ok. } 2:{ apply vrtx_keyword_ok. }
  2:{ apply reread_names. } 2:{ apply reread_esizes. }
  2:{ lia. } 2:{ reflexivity. }
  cbn [Nat.add app].
  destruct (wm_points m) as [|p0 ps] eqn:Ep.
  - (* no vertex: no triangle either *)
    assert (Ec : wm_cells m = []).
    { destruct (wm_cells m) as [|[[x y] z] r]; [reflexivity|].
      inversion wr_cells0 as [|? ? H0 H1]; subst. destruct H0 as [H0 _]. simpl in H0. lia. }
    unfold parsed_ts. rewrite Ec, Ep. reflexivity.
  - cbn [List.length Nat.eqb].
    rewrite (tfaces_trgl F (Z.of_nat (List.length (p0 :: ps)))); [|assumption|assumption].
    unfold parsed_ts. rewrite Ep. reflexivity.
Qed.

(** Building a mesh from a parsed surface, starting from the empty mesh. *)
Definition reread_mesh {C} (m : wmesh F C) : mesh F C :=
  mkMesh (option_map normalise (wm_name m)) (map (rp F) (wm_points m)) (wm_cells m)
    (map (reread_attr F (List.length (wm_points m))) (filter exported (wm_attrs m))).

Lemma set_name_empty {C} n : set_name n (empty_mesh (F:=F) (C:=C)) = mkMesh n [] [] [].
Proof. destruct n; reflexivity. Qed.

Lemma build_surface_written m : writable m ->
  build_surface empty_mesh (parsed_ts m) = Ok (reread_mesh m).
Proof.
  intros []. unfold build_surface, parsed_ts.
  cbn [t_points t_name t_triangles t_props t_values].
  change (nb_vertices empty_mesh =? 0) with true. cbv iota.
  rewrite set_name_empty, create_points_spec. cbn [m_name m_points m_cells m_attrs app map].
  rewrite create_triangles.
  2:{ unfold nb_vertices, lenz. cbn [m_points]. now rewrite map_length. }
  cbn [bind m_name m_points m_cells m_attrs app].
  unfold create_attributes. rewrite reread_names, reread_esizes, reread_ndv, map_length.
  rewrite (create_attributes_fresh F tri _ _ []).
  - reflexivity.
  - cbn [m_points]. now rewrite map_length.
  - reflexivity.
  - cbn [map app]. now apply filter_nodup.
  - apply filter_points.
Qed.

Lemma read_ts_written m : writable m -> read_ts F (write_ts m) = Ok (reread_mesh m).
Proof.
  intros W. unfold read_ts, write_ts. rewrite open_unlines by now apply ts_lines_lines.
  cbn [pending]. 
  assert (L : exists k, List.length (ts_lines m) = S k) by (eexists; reflexivity).
  destruct L as [k Hk]. rewrite Hk. cbn [read_ts_loop].
  pose proof (read_tsurf_written m [] true W) as E. rewrite app_nil_r in E. rewrite E. cbn [bind].
  rewrite build_surface_written by assumption. reflexivity.
Qed.
End Files.

(** ** VSet files *)
Section VsFiles.
Context (F : Num) (HF : num_ok F).

Lemma vset_vrtx kw ws h name ps v pts rest :
  is_vrtx kw = true -> beq kw (lit "END") = false -> token kw ->
  p_names h = map w_name ws -> p_esizes h = map (fun _ => 1) ws ->
  List.length pts = v ->
  vset_loop F (mkVSet (if Nat.eqb v 0 then 1 else 0) name default_crs h pts (vals_upto F ws v))
    (vrtx_lines kw ws v ps ++ rest)
  = vset_loop F (mkVSet (if Nat.eqb (v + List.length ps) 0 then 1 else 0) name default_crs h
                        (pts ++ map (rp F) ps) (vals_upto F ws (v + List.length ps))) rest.
Proof.
  intros Hk He Ht Hnm Hes. revert v pts. induction ps as [|[[x y] z] ps IH]; intros v pts Hl.
  - cbn [vrtx_lines app map List.length]. rewrite Nat.add_0_r, app_nil_r. reflexivity.
  - cbn [vrtx_lines app List.length] in *. cbn [vset_loop]. unfold vset_line.
    rewrite vrtx_line_tokens by assumption. cbn [front bind]. rewrite Hk, He. cbn [negb].
    assert (Ho : forall t, vrtx_offset (match pts with [] => true | _ => false end)
              (if Nat.eqb v 0 then 1 else 0) (kw :: show (Z.of_nat v) :: t) = Ok 0).
    { intros t. destruct pts as [|p0 pts].
      - simpl in Hl. subst v. reflexivity.
      - simpl in Hl. destruct v; [discriminate|]. reflexivity. }
    rewrite Ho. cbn [bind]. rewrite vrtx_point_written by assumption. cbn [bind].
    rewrite Hnm, Hes, read_row5 by assumption. cbn [bind].
    replace (v + S (List.length ps))%nat with (S v + List.length ps)%nat by lia.
    specialize (IH (S v) (pts ++ [rp F (x, y, z)])). cbn [Nat.eqb] in IH.
    cbn [map]. replace (pts ++ rp F (x, y, z) :: map (rp F) ps)
      with ((pts ++ [rp F (x, y, z)]) ++ map (rp F) ps) by (rewrite <- app_assoc; reflexivity).
    rewrite <- IH.
    + reflexivity.
    + rewrite app_length. simpl. lia.
Qed.

Record writable_set (m : wmesh F unit) : Prop := {
  ws_name : forall n, wm_name m = Some n -> is_line n;
  ws_attr_names : Forall (fun w => clean (w_name w)) (wm_attrs m);
  ws_attr_nodup : NoDup (map w_name (wm_attrs m));
  ws_cells : wm_cells m = []
}.
Lemma vs_lines_lines m : writable_set m -> Forall is_line (vs_lines m).
Proof.
  intros []. unfold vs_lines. cbn zeta.
  apply Forall_app; split; [repeat (apply Forall_cons; [isl|]); constructor|].
  apply Forall_app; split; [now apply write_header_lines|].
  apply Forall_app; split.
  { unfold write_CRS. cbn [axis_names axis_units default_crs].
    repeat (apply Forall_cons; [isl|]); constructor. }
  apply Forall_app; split; [apply prop_lines_lines; [assumption|now apply filter_clean]|].
  apply Forall_app; split; [apply vrtx_lines_lines; [assumption|apply vrtx_keyword_ok]|].
  repeat (apply Forall_cons; [isl|]); constructor.
Qed.

Definition parsed_vs (m : wmesh F unit) : VSet F :=
  let ws := filter exported (wm_attrs m) in
  let n := List.length (wm_points m) in
  mkVSet (if Nat.eqb n 0 then 1 else 0) (option_map normalise (wm_name m)) default_crs
    (reread_header F ws) (map (rp F) (wm_points m)) (vals_upto F ws n).

Lemma goto_keywords_hit kws pre l r b :
  Forall (fun x => existsb (starts_with x) kws = false) pre ->
  existsb (starts_with l) kws = true ->
  goto_keywords kws (mkStream (pre ++ l :: r) b) = Ok (l, mkStream r b).
Proof.
  intros H1 H2. unfold goto_keywords. cbn [pending].
  rewrite (scan_hit (fun l => existsb (starts_with l) kws)) by assumption. reflexivity.
Qed.
Lemma read_vs_points_written m rest b : writable_set m -> wm_points m <> [] ->
  read_vs_points F (mkStream (vs_lines m ++ rest) b) = Ok (Some (parsed_vs m), mkStream rest b).
Proof.
  intros [] Hne. unfold read_vs_points, vs_lines. cbn zeta. rewrite <- !app_assoc.
  change ([lit "GOCAD VSet 1"] ++ ?x) with (lit "GOCAD VSet 1" :: x).
  rewrite goto_if_next by reflexivity.
  rewrite read_header_written. cbn [bind].
  rewrite read_CRS_default. cbn [bind].
  rewrite read_prop_lines; [|assumption|now apply filter_clean]. cbn [bind].
  unfold read_VSet_vertices.
  set (ws := filter exported (wm_attrs m)).
  set (kw := vrtx_keyword (wm_attrs m)).
  pose proof (vset_vrtx kw ws (reread_header F ws)
    (option_map normalise (wm_name m)) (wm_points m) 0 [] ([lit "END"] ++ rest)) as E.
  change (if Nat.eqb 0 0 then 1 else 0) with 1 in E.
  destruct (wm_points m) as [|p0 ps] eqn:Ep; [congruence|].
  cbn [vrtx_lines app] in *.
  rewrite goto_keywords_hit.
  - cbn [bind pending nl]. rewrite reread_names.
    replace (map (fun _ : bytes => []) (map w_name ws)) with (vals_upto F ws 0).
    2:{ unfold vals_upto. rewrite map_map. reflexivity. }
    rewrite E; clear E.
    + unfold parsed_vs. rewrite Ep. reflexivity.
    + apply vrtx_keyword_ok.
    + unfold kw. destruct (wm_attrs m); reflexivity.
    + apply vrtx_keyword_ok.
    + apply reread_names.
    + apply reread_esizes.
    + reflexivity.
  - assert (A : Forall (fun x => starts_with x (lit "VRTX") = false) (class_lines F ws))
      by (apply class_lines_no; reflexivity).
    assert (B : Forall (fun x => starts_with x (lit "PVRTX") = false) (class_lines F ws))
      by (apply class_lines_no; reflexivity).
    rewrite Forall_forall in *. intros x Hx. cbn [existsb]. rewrite A, B by assumption. reflexivity.
  - unfold kw. destruct (wm_attrs m); reflexivity.
Qed.

Lemma build_point_set_written m : writable_set m ->
  build_point_set empty_mesh (parsed_vs m) = Ok (reread_mesh F m).
Proof.
  intros []. unfold build_point_set, parsed_vs, create_attributes.
  cbn [v_points v_name v_props v_values].
  rewrite set_name_empty, create_points_spec. cbn [m_name m_points m_cells m_attrs app map].
  rewrite reread_names, reread_esizes, reread_ndv, map_length.
  rewrite (create_attributes_fresh F unit _ _ []).
  - unfold reread_mesh. rewrite ws_cells0. reflexivity.
  - cbn [m_points]. now rewrite map_length.
  - reflexivity.
  - cbn [map app]. now apply filter_nodup.
  - apply filter_points.
Qed.

Lemma read_vs_written m : writable_set m -> wm_points m <> [] ->
  read_vs F (write_vs m) = Ok (reread_mesh F m).
Proof.
  intros W Hn. unfold read_vs, write_vs. rewrite open_unlines by now apply vs_lines_lines.
  cbn [pending].
  assert (L : exists k, List.length (vs_lines m) = S k) by (eexists; reflexivity).
  destruct L as [k Hk]. rewrite Hk. cbn [read_vs_loop].
  pose proof (read_vs_points_written m [] true W Hn) as E. rewrite app_nil_r in E. rewrite E. cbn [bind].
  rewrite build_point_set_written by assumption. reflexivity.
Qed.

(** A point set without point: the reader finds no VRTX line and throws. *)
Lemma read_vs_empty m : writable_set m -> wm_points m = [] ->
  read_vs F (write_vs m) = Throw ExData.
Proof.
  intros W Hn. unfold read_vs, write_vs. rewrite open_unlines by now apply vs_lines_lines.
  cbn [pending].
  assert (L : exists k, List.length (vs_lines m) = S k) by (eexists; reflexivity).
  destruct L as [k Hk]. rewrite Hk. cbn [read_vs_loop]. destruct W.
  unfold read_vs_points, vs_lines. cbn zeta.
  change ([lit "GOCAD VSet 1"] ++ ?x) with (lit "GOCAD VSet 1" :: x).
  rewrite goto_if_next by reflexivity.
  rewrite read_header_written. cbn [bind].
  rewrite read_CRS_default. cbn [bind].
  rewrite read_prop_lines; [|assumption|now apply filter_clean]. cbn [bind].
  rewrite Hn. cbn [vrtx_lines app]. unfold read_VSet_vertices, goto_keywords. cbn [pending].
  rewrite scan_none; [reflexivity|].
  set (ws := filter exported (wm_attrs m)).
  assert (A : Forall (fun x => starts_with x (lit "VRTX") = false) (class_lines F ws))
      by (apply class_lines_no; reflexivity).
  assert (B : Forall (fun x => starts_with x (lit "PVRTX") = false) (class_lines F ws))
      by (apply class_lines_no; reflexivity).
  apply Forall_app; split.
  - rewrite Forall_forall in *. intros x Hx. cbn [existsb]. rewrite A, B by assumption. reflexivity.
  - repeat constructor.
Qed.
End VsFiles.
