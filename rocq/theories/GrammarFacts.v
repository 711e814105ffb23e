(** * The readers on the files of Grammar.v. *)
From Coq Require Import ZArith List Lia Bool Ascii String.
From Verif Require Import Base Text TextFacts Spec GocadModel GocadFacts MeshModel TsModel TsFacts MultiAttrs MultiMore StreamFacts GocadSafe LsoFacts PropsGocad PropsBrepFem Grammar.
Import ListNotations.
Local Open Scope string_scope.
Local Open Scope list_scope.
Local Open Scope Z_scope.

(** ** Headers *)
Lemma scan_first p pre l r : Forall (fun x => p x = false) pre -> p l = true -> scan p (pre ++ l :: r) = Some (l, r).
Proof. intros H Hl. induction H as [|a t Ha Ht IH]; cbn [app scan]; [now rewrite Hl|now rewrite Ha]. Qed.
Lemma scan_none p ls : Forall (fun x => p x = false) ls -> scan p ls = None.
Proof. induction 1 as [|a t Ha Ht IH]; cbn [scan]; [reflexivity|now rewrite Ha]. Qed.
Lemma goto_if_first kw pre l r b : Forall (starts_not kw) pre -> starts kw l ->
  goto_if kw (mkStream (pre ++ l :: r) b) = (Some l, mkStream r b).
Proof. intros H Hl. unfold goto_if. cbn [pending nl]. now rewrite (scan_first (fun l => starts_with l kw)). Qed.
Lemma goto_keyword_first kw pre l r b : Forall (starts_not kw) pre -> starts kw l ->
  goto_keyword kw (mkStream (pre ++ l :: r) b) = Ok (l, mkStream r b).
Proof. intros H Hl. unfold goto_keyword. now rewrite goto_if_first. Qed.

Lemma header_loop_no_name n b last r : Forall (starts_not "}") b -> starts "}" last ->
  Forall (fun l => after_first "name:" l = None) b -> header_loop n (b ++ last :: r) = Ok (n, r).
Proof.
  intros H Hl. revert n. induction H as [|l t H1 H2 IH]; intros n Hn; cbn [app header_loop]; [now rewrite Hl|].
  rewrite H1. inversion Hn; subst. rewrite H3. now apply IH.
Qed.
Lemma header_loop_app n a ls : Forall (starts_not "}") a -> exists n', header_loop n (a ++ ls) = header_loop n' ls.
Proof.
  intros H. revert n. induction H as [|l t H1 H2 IH]; intros n; cbn [app header_loop]; [eauto|].
  rewrite H1. destruct (after_first _ l); apply IH.
Qed.
Lemma header_read hs name r b : header_text hs name -> read_header (mkStream (hs ++ r) b) = Ok (name, mkStream r b).
Proof.
  intros [first [inner [last [-> [H1 [H2 [H3 H4]]]]]]]. unfold read_header, check_keyword. cbn [app pending].
  rewrite H1. cbn [bind pending nl]. rewrite <- app_assoc. cbn [app].
  replace (header_loop None (inner ++ last :: r)) with (Ok (name, r)); [reflexivity|symmetry].
  destruct H4 as [[-> H4]|[x [l [y [t [-> [Ht [-> Hy]]]]]]]].
  - now apply header_loop_no_name.
  - apply Forall_app in H2 as [Hx H2]. pose proof (Forall_inv H2) as Hl. apply Forall_inv_tail in H2. rewrite <- app_assoc. cbn [app].
    destruct (header_loop_app None x (l :: y ++ last :: r) Hx) as [n' ->]. cbn [header_loop]. rewrite Hl, Ht.
    rewrite header_loop_no_name by assumption. reflexivity.
Qed.

(** The direction after the lines [inner], starting from [d]. *)
Definition z_step (d : bool) (l : bytes) : bool :=
  match split_quotes l with
  | Ok (k :: arg :: _) => if beq k "ZPOSITIVE" then beq arg "Elevation" else d
  | _ => d
  end.
Lemma crs_line_entry c l : crs_entry l -> exists c', crs_line c l = Ok c' /\ z_sign_positive c' = z_step (z_sign_positive c) l.
Proof.
  intros [k [args [E H]]]. unfold crs_line, z_step. rewrite E. cbn [bind idx nth_error].
  destruct (beq k "ZPOSITIVE") eqn:K1.
  { apply beq_eq in K1. subst k. destruct args as [|a args]; [now elim H; [left|]|]. cbn. eauto. }
  assert (D : forall d, match args with [] => d | arg :: _ => d end = d :> bool) by now destruct args.
  destruct (beq k "PROJECTION") eqn:K2.
  { apply beq_eq in K2. subst k. destruct args as [|a args]; [now elim H; [right; left|]|]. cbn. eauto. }
  destruct (beq k "DATUM") eqn:K3.
  { apply beq_eq in K3. subst k. destruct args as [|a args]; [now elim H; [do 2 right; left|]|]. cbn. eauto. }
  destruct (beq k "NAME") eqn:K4.
  { apply beq_eq in K4. subst k. destruct args as [|a args]; [now elim H; [do 3 right; left|]|]. cbn. eauto. }
  exists c. split; [reflexivity|]. now destruct args.
Qed.
Lemma crs_loop_entries inner last r : Forall (starts_not "END_ORIGINAL_COORDINATE_SYSTEM") inner -> Forall crs_entry inner ->
  starts "END_ORIGINAL_COORDINATE_SYSTEM" last -> forall c, exists c', crs_loop c (inner ++ last :: r) = Ok (c', r) /\
  z_sign_positive c' = fold_left z_step inner (z_sign_positive c).
Proof.
  intros H He Hl. induction H as [|l t H1 H2 IH]; intros c; cbn [app crs_loop fold_left].
  - rewrite Hl. eauto.
  - rewrite H1. inversion He; subst. destruct (crs_line_entry c l H3) as [c1 [-> Hz]]. cbn [bind].
    destruct (IH H4 c1) as [c' [-> Hc]]. exists c'. now rewrite Hc, Hz.
Qed.
Lemma z_step_not l d : ~ says_z l -> z_step d l = d.
Proof.
  intros H. unfold z_step. destruct (split_quotes l) as [[|k [|a args]]| | |] eqn:E; try reflexivity.
  destruct (beq k "ZPOSITIVE") eqn:K; [|reflexivity]. apply beq_eq in K. subst k. elim H. now exists (a :: args).
Qed.
Lemma z_steps_not ls d : Forall (fun l => ~ says_z l) ls -> fold_left z_step ls d = d.
Proof. intros H. revert d. induction H as [|l t H1 H2 IH]; intros d; cbn [fold_left]; [reflexivity|]. rewrite z_step_not by assumption. apply IH. Qed.
Lemma z_upwards_fold inner up : z_upwards inner up -> fold_left z_step inner true = up.
Proof.
  intros [[-> H]|[a [l [b [arg [args [-> [E [Hu H]]]]]]]]].
  - now apply z_steps_not.
  - rewrite fold_left_app. cbn [fold_left]. rewrite z_steps_not by assumption. unfold z_step. rewrite E.
    change (beq (lit "ZPOSITIVE") (lit "ZPOSITIVE")) with true. cbn iota.
    destruct (beq arg (lit "Elevation")) eqn:B.
    + apply beq_eq in B. symmetry. now apply Hu.
    + destruct up; [|reflexivity]. rewrite (proj1 Hu eq_refl), beq_refl in B. discriminate.
Qed.
Lemma crs_read cs up r b : crs_text cs up -> (cs = [] -> not_next "GOCAD_ORIGINAL_COORDINATE_SYSTEM" r) -> r <> [] ->
  exists c, read_CRS (mkStream (cs ++ r) b) = Ok (c, mkStream r b) /\ z_sign_positive c = up.
Proof.
  intros [[-> ->]|[first [inner [last [-> [H1 [H2 [H3 [H4 H5]]]]]]]]] Hn Hr; unfold read_CRS, next_if; cbn [app pending].
  - specialize (Hn eq_refl). destruct r as [|l r]; [easy|]. cbn [not_next] in Hn. rewrite Hn. now exists default_crs.
  - rewrite H1. cbn [pending nl]. rewrite <- app_assoc. cbn [app].
    destruct (crs_loop_entries inner last r H2 H3 H5 default_crs) as [c [-> Hc]]. cbn [bind]. exists c. split; [reflexivity|].
    rewrite Hc. now apply z_upwards_fold.
Qed.

(** ** Properties *)
Lemma mapM_args {A} (g : bytes -> res A) (k : bytes) (args : list bytes) (xs : list A) : Forall2 (fun t x => g t = Ok x) (firstn (List.length xs) args) xs ->
  mapM (fun i => do t <- idx (k :: args) (i + 1); g t) (seq 0 (List.length xs)) = Ok xs.
Proof.
  intros H. apply mapM_ok.
  assert (G : forall (pre args : list bytes) (xs : list A), Forall2 (fun t x => g t = Ok x) (firstn (List.length xs) args) xs ->
    Forall2 (fun i x => (do t <- idx (k :: pre ++ args) (i + 1); g t) = Ok x) (seq (List.length pre) (List.length xs)) xs).
  { clear. intros pre args xs. revert pre args. induction xs as [|x xs IH]; intros pre args H; cbn [List.length seq]; [constructor|].
    destruct args as [|a args]; cbn [List.length firstn] in H; [inversion H|]. inversion H; subst. constructor.
    - unfold idx. rewrite Nat.add_1_r. cbn [nth_error]. rewrite nth_error_app2, Nat.sub_diag by lia. cbn [nth_error bind]. assumption.
    - specialize (IH (pre ++ [a]) args). rewrite app_length, Nat.add_1_r in IH. rewrite <- app_assoc in IH. cbn [app] in IH. now apply IH. }
  exact (G [] args xs H).
Qed.
Lemma mapM_words (k : bytes) (args : list bytes) n : (n <= List.length args)%nat -> mapM (fun i => idx (k :: args) (i + 1)) (seq 0 n) = Ok (firstn n args).
Proof.
  intros H. assert (L : List.length (firstn n args) = n) by (rewrite firstn_length; lia).
  pose proof (mapM_args (fun t => Ok t) k args (firstn n args)) as G. rewrite L in G.
  assert (E : forall l, mapM (fun i => do t <- idx (k :: args) (i + 1); Ok t) l = mapM (fun i => idx (k :: args) (i + 1)) l).
  { clear. induction l as [|i l IH]; cbn [mapM]; [reflexivity|]. rewrite IH. now destruct (idx (k :: args) (i + 1)). }
  rewrite E in G. apply G. clear. induction (firstn n args); constructor; auto.
Qed.
Lemma kw_one_string_read kw n ls r b : many_words kw n ls ->
  exists ds, kw_one_string kw n (mkStream (ls ++ r) b) = Ok (ds, mkStream r b).
Proof.
  intros [l [k [args [[pre [-> [H1 H2]]] [E Hn]]]]]. unfold kw_one_string. rewrite <- app_assoc. cbn [app].
  rewrite goto_keyword_first by assumption. cbn [bind]. rewrite E. cbn [bind]. rewrite mapM_words by assumption. cbn [bind]. eauto.
Qed.
Lemma two_strings_enough sl n : forall attr c, pairs_enough n (skipn (2 * attr + 1 + c) sl) -> exists x, two_strings sl attr c n = Ok x.
Proof.
  intros attr c H. apply two_strings_noub in H.
  assert (G : forall m at_ co, (exists x, two_strings sl at_ co m = Ok x) \/ two_strings sl at_ co m = UB).
  { clear. induction m as [|m IH]; intros at_ co; cbn [two_strings]; [eauto|]. unfold idx.
    destruct (nth_error sl (2 * at_ + 1 + co)) as [a|]; [|now right]. cbn [bind].
    destruct (nth_error sl (2 * at_ + 2 + co)) as [bb|]; [|now right]. cbn [bind].
    destruct (IH (S at_) (if beq a "LINEARFUNCTION" then co + 2 else co)%nat) as [[x ->]| ->]; cbn [bind]; eauto. }
  destruct (G n attr c); [assumption|contradiction].
Qed.
Lemma kw_two_strings_read kw n ls r b : many_pairs kw n ls ->
  exists ds, kw_two_strings kw n (mkStream (ls ++ r) b) = Ok (ds, mkStream r b).
Proof.
  intros [l [[pre [-> [H1 H2]]] Hn]]. unfold kw_two_strings. rewrite <- app_assoc. cbn [app].
  rewrite goto_keyword_first by assumption. cbn [bind]. destruct (two_strings_enough (string_split l) n 0 0 Hn) as [x ->].
  cbn [bind]. eauto.
Qed.
Lemma Forall2_len {A B} (P : A -> B -> Prop) a b : Forall2 P a b -> List.length a = List.length b.
Proof. induction 1; cbn; congruence. Qed.
Lemma firstn_texts {A} (P : bytes -> A -> Prop) texts more xs : Forall2 P texts xs -> firstn (List.length xs) (texts ++ more) = texts.
Proof. intros H. rewrite <- (Forall2_len _ _ _ H), firstn_app, Nat.sub_diag, firstn_all, app_nil_r. reflexivity. Qed.
Lemma kw_one_double_read F kw xs ls r b : many_values (real F) kw xs ls ->
  kw_one_double F kw (List.length xs) (mkStream (ls ++ r) b) = Ok (xs, mkStream r b).
Proof.
  intros [l [k [texts [more [[pre [-> [H1 H2]]] [E Hx]]]]]]. unfold kw_one_double. rewrite <- app_assoc. cbn [app].
  rewrite goto_keyword_first by assumption. cbn [bind]. rewrite E.
  rewrite mapM_args; [reflexivity|]. now rewrite (firstn_texts _ _ _ _ Hx).
Qed.
Lemma kw_one_index_read kw xs ls r b : many_values number kw xs ls ->
  kw_one_index kw (List.length xs) (mkStream (ls ++ r) b) = Ok (xs, mkStream r b).
Proof.
  intros [l [k [texts [more [[pre [-> [H1 H2]]] [E Hx]]]]]]. unfold kw_one_index. rewrite <- app_assoc. cbn [app].
  rewrite goto_keyword_first by assumption. cbn [bind]. rewrite E.
  rewrite mapM_args; [reflexivity|]. now rewrite (firstn_texts _ _ _ _ Hx).
Qed.
Lemma prefixed_read F prefix block ps r b : prefixed_properties F prefix block ps -> (block = [] -> not_next (prefix ++ lit "PROPERTIES") r) -> r <> [] ->
  exists h, read_prop_header F prefix (mkStream (block ++ r) b) = Ok (h, mkStream r b) /\
    p_names h = map pr_name ps /\ p_esizes h = map pr_size ps /\ p_ndv h = map pr_none ps.
Proof.
  intros [[-> ->]|[[-> [l [k [-> [H1 H2]]]]]|[Hp H]]] Hn Hr; unfold read_prop_header, next_if; cbn [app pending].
  - specialize (Hn eq_refl). destruct r as [|l r]; [easy|]. cbn [not_next] in Hn. rewrite Hn. now exists empty_prop.
  - rewrite H1, H2. cbn. now exists empty_prop.
  - destruct H as [l [k [s1 [s2 [s3 [s4 [s5 [s6 [s7 [-> [H0 [E [H1 [H2 [H3 [H4 [H5 [H6 H7]]]]]]]]]]]]]]]]]].
    cbn [app]. rewrite H0, E. cbn [bind List.length pred].
    rewrite map_length. destruct (Nat.eqb_spec (List.length ps) 0) as [Z|_]; [now destruct ps|].
    rewrite mapM_words by (rewrite map_length; lia). replace (firstn (List.length ps) (map pr_name ps)) with (map pr_name ps)
      by (symmetry; rewrite <- (map_length pr_name ps); apply firstn_all). cbn [bind nl].
    rewrite <- !app_assoc.
    destruct (kw_two_strings_read (prefix ++ lit "PROP_LEGAL_RANGES") _ s1 (s2 ++ s3 ++ s4 ++ s5 ++ s6 ++ s7 ++ r) b H1) as [d1 E1].
    rewrite E1. cbn [bind].
    pose proof (kw_one_double_read F (prefix ++ lit "NO_DATA_VALUES") _ s2 (s3 ++ s4 ++ s5 ++ s6 ++ s7 ++ r) b H2) as E2.
    rewrite map_length in E2. rewrite E2. cbn [bind].
    destruct (kw_one_string_read (prefix ++ lit "PROPERTY_CLASSES") _ s3 (s4 ++ s5 ++ s6 ++ s7 ++ r) b H3) as [d3 E3]. rewrite E3. cbn [bind].
    destruct (kw_one_string_read (prefix ++ lit "PROPERTY_KINDS") _ s4 (s5 ++ s6 ++ s7 ++ r) b H4) as [d4 E4]. rewrite E4. cbn [bind].
    destruct (kw_two_strings_read (prefix ++ lit "PROPERTY_SUBCLASSES") _ s5 (s6 ++ s7 ++ r) b H5) as [d5 E5]. rewrite E5. cbn [bind].
    pose proof (kw_one_index_read (prefix ++ lit "ESIZES") _ s6 (s7 ++ r) b H6) as E6. rewrite map_length in E6. rewrite E6. cbn [bind].
    destruct (kw_one_string_read (prefix ++ lit "UNITS") _ s7 r b H7) as [d7 E7]. rewrite E7. cbn [bind]. eexists. split; [reflexivity|]. auto.
Qed.

Lemma properties_read F block ps r b : properties_text F block ps -> (block = [] -> not_next "PROPERTIES" r) -> r <> [] ->
  exists h, read_prop_header F [] (mkStream (block ++ r) b) = Ok (h, mkStream r b) /\
    p_names h = map pr_name ps /\ p_esizes h = map pr_size ps /\ p_ndv h = map pr_none ps.
Proof. apply prefixed_read. Qed.

(** ** Values *)
Definition sizes_of {F} (ps : list (property F)) : list Z := map pr_size ps.
Definition small_sizes {F} (ps : list (property F)) : Prop := Forall (fun p => 0 <= pr_size p < 256) ps.
Definition add_row {A} (V row : list (list A)) : list (list A) := map (fun p => fst p ++ snd p) (combine V row).
Lemma numbers_real F texts xs : Forall2 (real F) texts xs -> numbers F texts = Some xs.
Proof. induction 1 as [|t x ts xs H1 H2 IH]; cbn [numbers]; [reflexivity|]. unfold real, string_to_double in H1. destruct (atod F t); [|discriminate]. injection H1 as ->. now rewrite IH. Qed.
Lemma chunks_concat {F} (ps : list (property F)) (vals : list (list (num F))) :
  Forall2 (fun p v => Z.of_nat (List.length v) = pr_size p) ps vals ->
  chunks (sizes_of ps) (List.concat vals) = vals /\ Z.to_nat (sum (sizes_of ps)) = List.length (List.concat vals) /\ 0 <= sum (sizes_of ps).
Proof.
  induction 1 as [|p v ps vals H1 H2 [IH1 [IH2 IH3]]]; cbn [sizes_of map chunks sum fold_right List.concat List.length]; [repeat split; lia|].
  rewrite <- H1. unfold sizes_of, sum in IH1, IH2, IH3. rewrite Nat2Z.id, firstn_app, Nat.sub_diag, firstn_all, app_nil_r. cbn [firstn].
  rewrite skipn_app, skipn_all, Nat.sub_diag. cbn [skipn app]. rewrite IH1, app_length. repeat split; lia.
Qed.
Lemma values_read F (ps : list (property F)) names sizes tokens pos texts vals V :
  names = map pr_name ps -> sizes = sizes_of ps -> small_sizes ps -> List.length V = List.length ps ->
  skipn pos tokens = texts -> values_text F ps texts vals ->
  read_properties F names sizes V tokens pos = Ok (add_row V vals).
Proof.
  intros -> -> Hs HV Ht [Hl [used [more [-> Hu]]]].
  pose proof (C17_property_rows F (map pr_name ps) (sizes_of ps) V tokens pos) as C. unfold sizes_of in C at 1.
  rewrite !map_length in C. specialize (C eq_refl HV). cbv zeta in C.
  destruct (chunks_concat ps vals Hl) as [C1 [C2 C3]]. pose proof (Forall2_len _ _ _ Hu) as Lu.
  rewrite Ht, C2, <- Lu in C. rewrite firstn_app, Nat.sub_diag, firstn_all, firstn_O, app_nil_r in C.
  rewrite (numbers_real F used _ Hu), C1 in C. rewrite app_length in C. rewrite (proj2 (Nat.leb_le _ _)) in C by lia.
  apply C. unfold sizes_of. apply Forall_map. exact Hs.
Qed.
(** The values of property [j] after the vertices [vs]. *)
Definition column {F} (vs : list (vertex F)) (j : nat) : list (num F) := List.concat (map (fun v => nth j (vx_values v) []) vs).
Definition columns {F} (n : nat) (vs : list (vertex F)) : list (list (num F)) := map (column vs) (seq 0 n).
Lemma columns_snoc {F} n (vs : list (vertex F)) v : List.length (vx_values v) = n ->
  add_row (columns n vs) (vx_values v) = columns n (vs ++ [v]).
Proof.
  intros H. unfold columns, add_row.
  assert (E : vx_values v = map (fun j => nth j (vx_values v) []) (seq 0 n)).
  { rewrite <- H. clear. induction (vx_values v) as [|a l IH]; [reflexivity|]. cbn [List.length seq map nth]. f_equal. rewrite IH at 1.
    rewrite <- seq_shift, map_map. reflexivity. }
  rewrite E at 1. clear. induction (seq 0 n) as [|j l IH]; cbn [map combine]; [reflexivity|]. rewrite IH. cbn [fst snd].
  f_equal. unfold column. rewrite map_app, concat_app. cbn. now rewrite app_nil_r.
Qed.
Lemma columns_nil {F : Num} (ps : list (property F)) (names : list bytes) : List.length names = List.length ps ->
  map (fun _ => []) names = columns (F := F) (List.length ps) [].
Proof.
  intros <-. unfold columns, column. cbn [map List.concat]. generalize 0%nat. induction names as [|n t IH]; intros k; cbn; [reflexivity|].
  f_equal. apply IH.
Qed.
Lemma columns_length {F} n (vs : list (vertex F)) : List.length (columns n vs) = n.
Proof. unfold columns. now rewrite map_length, seq_length. Qed.

(** ** Numbers *)
Definition base {F} (vs : list (vertex F)) : Z := match vs with v :: _ => vx_number v | [] => 1 end.
Definition consecutive {F} (vs : list (vertex F)) : Prop := forall i v, nthz vs i = Some v -> vx_number v = base vs + i.
Lemma base_snoc {F} (vs : list (vertex F)) v : vs <> [] -> base (vs ++ [v]) = base vs.
Proof. now destruct vs. Qed.
Lemma nthz_app1 {A} (a : list A) x i y : nthz (a ++ [x]) i = Some y -> nthz a i = Some y \/ (i = lenz a /\ y = x).
Proof.
  unfold nthz. rewrite app_length. cbn [List.length]. unfold lenz.
  destruct (Z.leb_spec 0 i); [|discriminate]. cbn [andb]. destruct (Z.ltb_spec i (Z.of_nat (List.length a + 1))) as [H1|H1]; [|discriminate].
  destruct (Z.ltb_spec i (Z.of_nat (List.length a))) as [H2|H2].
  - rewrite nth_error_app1 by lia. now left.
  - replace (Z.to_nat i) with (List.length a) by lia. rewrite nth_error_app2, Nat.sub_diag by lia. cbn. intros [= <-]. right. split; [lia|reflexivity].
Qed.
Lemma nthz_app_l {A} (a b : list A) i y : nthz a i = Some y -> nthz (a ++ b) i = Some y.
Proof.
  unfold nthz. rewrite app_length. destruct (Z.leb_spec 0 i); [|discriminate]. cbn [andb].
  destruct (Z.ltb_spec i (Z.of_nat (List.length a))) as [H2|H2]; [|discriminate]. intros E.
  rewrite (proj2 (Z.ltb_lt _ _)) by lia. now rewrite nth_error_app1 by lia.
Qed.
Lemma nthz_last {A} (a : list A) x : nthz (a ++ [x]) (lenz a) = Some x.
Proof.
  unfold nthz, lenz. rewrite app_length. cbn [List.length]. rewrite (proj2 (Z.leb_le _ _)), (proj2 (Z.ltb_lt _ _)) by lia. cbn [andb].
  rewrite Nat2Z.id, nth_error_app2, Nat.sub_diag by lia. reflexivity.
Qed.
Lemma consecutive_snoc {F} (vs : list (vertex F)) v : consecutive vs -> next_number vs (vx_number v) -> consecutive (vs ++ [v]).
Proof.
  intros C N i w H. apply nthz_app1 in H as [H|[-> ->]].
  - rewrite (C i w H). f_equal. destruct vs; [apply nthz_in in H; contradiction|reflexivity].
  - destruct vs as [|v0 vs]; [cbn; lia|]. rewrite base_snoc by discriminate.
    destruct (exists_last (l := v0 :: vs) ltac:(discriminate)) as [ini [la E]]. unfold next_number in N. rewrite E, rev_app_distr in N. cbn in N.
    rewrite N. rewrite E in *. rewrite (C (lenz ini) la (nthz_last _ _)). unfold lenz. rewrite app_length. cbn [List.length]. lia.
Qed.
Lemma digits_val_pos l : forall acc v, 0 <= acc -> digits_val acc l = Some v -> 0 <= v.
Proof.
  induction l as [|c t IH]; intros acc v Ha; cbn [digits_val]; [intros [= <-]; assumption|].
  destruct (is_digit c) eqn:D; [|discriminate]. apply IH. unfold is_digit in D. cbv zeta in D.
  apply andb_true_iff in D as [D _]. apply Nat.leb_le in D. unfold digit_val. lia.
Qed.
Lemma number_range t n : number t n -> 0 <= n < two32.
Proof.
  unfold number, string_to_index, parse_index. intros H.
  match type of H with context [parse_digits ?x] => destruct (parse_digits x) as [v|] eqn:E end; [|discriminate].
  destruct (Z.ltb_spec v two32) as [L|L]; [|discriminate]. injection H as <-. split; [|assumption].
  unfold parse_digits in E. match type of E with context [match ?x with _ => _ end] => destruct x end; [discriminate|].
  now apply digits_val_pos in E.
Qed.
Lemma sub32_number n b : 0 <= b <= n -> n < two32 -> sub32 n b = n - b.
Proof. intros H1 H2. unfold sub32, wrap32. apply Z.mod_small. lia. Qed.

(** ** Surfaces *)
Definition in_base (b : Z) (t : Z * Z * Z) : Z * Z * Z := let '(x, y, z) := t in (sub32 x b, sub32 y b, sub32 z b).
Record surface_state {F} (name : option bytes) (crs : CRS) (h : PropHeader (num F)) (vs : list (vertex F)) (ts : list (Z * Z * Z)) (st : TSurf F) : Prop := {
  ss_name : t_name st = name;
  ss_crs : t_crs st = crs;
  ss_props : t_props st = h;
  ss_offset : t_offset st = base vs;
  ss_points : t_points st = map vx_point vs;
  ss_triangles : t_triangles st = map (in_base (base vs)) ts;
  ss_values : t_values st = columns (List.length (p_names h)) vs
}.
Definition head_of {F} (h : PropHeader (num F)) (ps : list (property F)) : Prop :=
  p_names h = map pr_name ps /\ p_esizes h = map pr_size ps /\ p_ndv h = map pr_none ps.

Lemma tok_index_number off tokens i t n : nth_error tokens i = Some t -> number t n -> tok_index off tokens i = Ok (sub32 n off).
Proof. intros H Hn. unfold tok_index, idx. rewrite H. cbn [bind]. rewrite Hn. reflexivity. Qed.

Lemma values_length F (ps : list (property F)) texts vals : values_text F ps texts vals -> List.length vals = List.length ps.
Proof. intros [H _]. symmetry. exact (Forall2_len _ _ _ H). Qed.

Lemma tface_vertex F up ps name crs h vs ts st l v : z_sign_positive crs = up -> head_of h ps -> small_sizes ps ->
  surface_state name crs h vs ts st -> (vs = [] -> ts = []) -> vertex_line F up ps l v ->
  exists st', tface_line F st l = Ok (st', false) /\ surface_state name crs h (vs ++ [v]) ts st'.
Proof.
  intros Hz [Hn [He Hd]] Hs [S1 S2 S3 S4 S5 S6 S7] Hts [k [tn [tx [ty [tz [texts [x [y [z [E [Hk [N [X [Y [Z0 [P V]]]]]]]]]]]]]]]].
  destruct st as [off nm c pr pts tris tro vo bst bor vals]. cbn in S1, S2, S3, S4, S5, S6, S7. subst nm c pr off pts tris vals.
  unfold tface_line. rewrite E. cbn [bind front].
  replace (is_vrtx k) with true by (destruct Hk as [<-|[<-|[]]]; reflexivity).
  assert (O : vrtx_offset (match map vx_point vs with [] => true | _ => false end) (base vs) (k :: tn :: tx :: ty :: tz :: texts) = Ok (base (vs ++ [v]))).
  { destruct vs as [|v0 vs]; [exact N|reflexivity]. }
  rewrite O. cbn [bind]. unfold vrtx_point. cbn [idx nth_error bind]. rewrite X, Y, Z0. cbn [bind].
  rewrite (values_read F ps _ _ _ 5 texts (vx_values v)) by (auto; rewrite columns_length, Hn; apply map_length).
  cbn [bind]. eexists. split; [reflexivity|]. constructor; cbn; auto.
  - rewrite map_app. cbn. rewrite P. unfold signed. rewrite Hz. reflexivity.
  - destruct vs as [|v0 vs]; [now rewrite Hts|]. now rewrite base_snoc.
  - apply columns_snoc. rewrite (values_length F ps texts _ V), Hn. now rewrite map_length.
Qed.
Definition good_numbers {F} (vs : list (vertex F)) : Prop := consecutive vs /\ Forall (fun v => 0 <= vx_number v < two32) vs.
Lemma good_snoc {F} (vs : list (vertex F)) v : good_numbers vs -> next_number vs (vx_number v) -> 0 <= vx_number v < two32 -> good_numbers (vs ++ [v]).
Proof. intros [C R] N H. split; [now apply consecutive_snoc|]. apply Forall_app. split; auto. Qed.
Lemma base_range {F} (vs : list (vertex F)) : good_numbers vs -> 0 <= base vs < two32.
Proof. intros [_ R]. destruct vs as [|v vs]; [cbn; unfold two32; lia|]. now apply Forall_inv in R. Qed.
Lemma good_position {F} (vs : list (vertex F)) i v : good_numbers vs -> nthz vs i = Some v -> sub32 (vx_number v) (base vs) = i.
Proof.
  intros G H. pose proof (base_range vs G) as B. destruct G as [C R]. rewrite Forall_forall in R.
  pose proof (R v (nthz_in _ _ _ H)) as Rv. rewrite (C i v H) in *. pose proof (nthz_range _ _ _ H). rewrite sub32_number; lia.
Qed.
Lemma in_nthz {A} (l : list A) x : In x l -> exists i, nthz l i = Some x.
Proof.
  intros H. apply In_nth_error in H as [j Hj]. exists (Z.of_nat j). unfold nthz.
  assert (j < List.length l)%nat by (apply nth_error_Some; congruence).
  rewrite (proj2 (Z.leb_le _ _)), (proj2 (Z.ltb_lt _ _)) by lia. now rewrite Nat2Z.id.
Qed.
Lemma tface_atom F ps name crs h vs ts st l o w v : head_of h ps -> small_sizes ps ->
  surface_state name crs h vs ts st -> good_numbers vs -> atom_line F ps l o v -> In w vs -> vx_number w = o -> vx_point v = vx_point w ->
  exists st', tface_line F st l = Ok (st', false) /\ surface_state name crs h (vs ++ [v]) ts st'.
Proof.
  intros [Hn [He Hd]] Hs [S1 S2 S3 S4 S5 S6 S7] C [k [tn [ti [texts [E [Hk [N [I V]]]]]]]] Hw Ho P.
  assert (Hvs : vs <> []) by (intros ->; contradiction).
  destruct st as [off nm c pr pts tris tro vo bst bor vals]. cbn in S1, S2, S3, S4, S5, S6, S7. subst nm c pr off pts tris vals.
  unfold tface_line. rewrite E. cbn [bind front].
  replace (is_vrtx k) with false by (destruct Hk as [<-|[<-|[]]]; reflexivity).
  replace (is_atom k) with true by (destruct Hk as [<-|[<-|[]]]; reflexivity).
  rewrite (tok_index_number _ _ 2 ti o) by (auto; reflexivity). cbn [bind].
  apply in_nthz in Hw as [j Hj]. rewrite <- Ho, (good_position vs j w C Hj).
  unfold atz. rewrite nthz_map, Hj. cbn [option_map bind].
  rewrite (values_read F ps _ _ _ 3 texts (vx_values v)) by (auto; rewrite columns_length, Hn; apply map_length).
  cbn [bind]. eexists. split; [reflexivity|]. constructor; cbn; auto.
  - symmetry. now apply base_snoc.
  - rewrite map_app. cbn. now rewrite P.
  - now rewrite base_snoc.
  - apply columns_snoc. rewrite (values_length F ps texts _ V), Hn. now rewrite map_length.
Qed.
Lemma tface_triangle F name crs (h : PropHeader (num F)) vs ts st l t : surface_state name crs h vs ts st -> trgl_words l t ->
  exists st', tface_line F st l = Ok (st', false) /\ surface_state name crs h vs (ts ++ [t]) st'.
Proof.
  intros [S1 S2 S3 S4 S5 S6 S7] [ta [tb [tc [more [E [A [B C]]]]]]].
  destruct st as [off nm c pr pts tris tro vo bst bor vals]. cbn in S1, S2, S3, S4, S5, S6, S7. subst nm c pr off pts tris vals.
  unfold tface_line. rewrite E. cbn [bind front].
  change (is_vrtx (lit "TRGL")) with false. change (is_atom (lit "TRGL")) with false. change (beq (lit "TRGL") (lit "TRGL")) with true. cbn iota.
  rewrite (tok_index_number _ _ 1 ta _) by (first [reflexivity|exact A]). rewrite (tok_index_number _ _ 2 tb _) by (first [reflexivity|exact B]). rewrite (tok_index_number _ _ 3 tc _) by (first [reflexivity|exact C]). cbn [bind].
  eexists. split; [reflexivity|]. constructor; cbn; auto. rewrite map_app. destruct t as [[x y] z]. reflexivity.
Qed.
Lemma tface_section F name crs (h : PropHeader (num F)) vs ts st l more : surface_state name crs h vs ts st -> string_split l = lit "TFACE" :: more ->
  exists st', tface_line F st l = Ok (st', false) /\ surface_state name crs h vs ts st'.
Proof.
  intros [S1 S2 S3 S4 S5 S6 S7] E. destruct st as [off nm c pr pts tris tro vo bst bor vals]. unfold tface_line. rewrite E. cbn [bind front].
  change (is_vrtx (lit "TFACE")) with false. change (is_atom (lit "TFACE")) with false. change (beq (lit "TFACE") (lit "TRGL")) with false.
  change (beq (lit "TFACE") (lit "BSTONE")) with false. change (beq (lit "TFACE") (lit "BORDER")) with false. change (beq (lit "TFACE") (lit "TFACE")) with true. cbn iota.
  eexists. split; [reflexivity|]. now constructor.
Qed.
Lemma tface_end F name crs (h : PropHeader (num F)) vs ts st l : surface_state name crs h vs ts st -> end_line l ->
  exists st', tface_line F st l = Ok (st', true) /\ surface_state name crs h vs ts st'.
Proof.
  intros [S1 S2 S3 S4 S5 S6 S7] [more E]. destruct st as [off nm c pr pts tris tro vo bst bor vals]. unfold tface_line. rewrite E. cbn [bind front].
  change (is_vrtx (lit "END")) with false. change (is_atom (lit "END")) with false. change (beq (lit "END") (lit "TRGL")) with false.
  change (beq (lit "END") (lit "BSTONE")) with false. change (beq (lit "END") (lit "BORDER")) with false.
  change (beq (lit "END") (lit "TFACE")) with false. change (beq (lit "END") (lit "END")) with true. cbn iota.
  eexists. split; [reflexivity|]. now constructor.
Qed.
Lemma tface_stone F name crs (h : PropHeader (num F)) vs ts st l : surface_state name crs h vs ts st -> stone_words l ->
  exists st', tface_line F st l = Ok (st', false) /\ surface_state name crs h vs ts st'.
Proof.
  intros [S1 S2 S3 S4 S5 S6 S7] [[ta [more [a [E A]]]]|[w [ta [tb [more [a [b [E [A B]]]]]]]]];
  destruct st as [off nm c pr pts tris tro vo bst bor vals]; unfold tface_line; rewrite E; cbn [bind front].
  - change (is_vrtx (lit "BSTONE")) with false. change (is_atom (lit "BSTONE")) with false. change (beq (lit "BSTONE") (lit "TRGL")) with false.
    change (beq (lit "BSTONE") (lit "BSTONE")) with true. cbn iota.
    rewrite (tok_index_number _ _ 1 ta _) by (first [reflexivity|exact A]). cbn [bind]. eexists. split; [reflexivity|]. now constructor.
  - change (is_vrtx (lit "BORDER")) with false. change (is_atom (lit "BORDER")) with false. change (beq (lit "BORDER") (lit "TRGL")) with false.
    change (beq (lit "BORDER") (lit "BSTONE")) with false. change (beq (lit "BORDER") (lit "BORDER")) with true. cbn iota.
    rewrite (tok_index_number _ _ 2 ta _) by (first [reflexivity|exact A]). rewrite (tok_index_number _ _ 3 tb _) by (first [reflexivity|exact B]). cbn [bind]. eexists. split; [reflexivity|]. now constructor.
Qed.
Lemma not_in_beq k kws : ~ In k kws -> Forall (fun w => beq k w = false) kws.
Proof. intros H. apply Forall_forall. intros w Hw. apply beq_neq. intros ->. contradiction. Qed.
Lemma tface_other F name crs (h : PropHeader (num F)) vs ts st l : surface_state name crs h vs ts st ->
  other_line [lit "VRTX"; lit "PVRTX"; lit "ATOM"; lit "PATOM"; lit "TRGL"; lit "BSTONE"; lit "BORDER"; lit "TFACE"; lit "END"] l ->
  tface_line F st l = Ok (st, false).
Proof.
  intros _ [k [more [E H]]]. apply not_in_beq in H.
  repeat match goal with H : Forall _ (_ :: _) |- _ => apply Forall_cons_iff in H as [? H] end.
  destruct st as [off nm c pr pts tris tro vo bst bor vals]. unfold tface_line, is_vrtx, is_atom. rewrite E. cbn [bind front].
  repeat match goal with H : beq k _ = false |- _ => rewrite H; clear H end. reflexivity.
Qed.

Lemma surface_loop F up ps name crs h : z_sign_positive crs = up -> head_of h ps -> small_sizes ps ->
  forall st0, surface_state name crs h [] [] st0 -> forall ls vs ts, surface_data F up ps ls vs ts ->
  (vs = [] -> ts = []) /\ good_numbers vs /\
  exists st, surface_state name crs h vs ts st /\ forall r, tfaces_loop F st0 (ls ++ r) = tfaces_loop F st r.
Proof.
  intros Hz Hh Hs st0 S0 ls vs ts H.
  assert (Step : forall ls st l st' , tface_line F st l = Ok (st', false) -> (forall r, tfaces_loop F st0 (ls ++ r) = tfaces_loop F st r) ->
    forall r, tfaces_loop F st0 ((ls ++ [l]) ++ r) = tfaces_loop F st' r).
  { intros ls0 st l st' E L r. rewrite <- app_assoc. cbn [app]. rewrite L. cbn [tfaces_loop]. rewrite E. reflexivity. }
  induction H as [|ls vs ts l v H [IH0 [IHg [st [IHs IHl]]]] Hv Hn|ls vs ts l o w v H [IH0 [IHg [st [IHs IHl]]]] Ha Hn Hw Ho Hp
    |ls vs ts l t H [IH0 [IHg [st [IHs IHl]]]] Ht Hn|ls vs ts l more H [IH0 [IHg [st [IHs IHl]]]] Ht|ls vs ts l H [IH0 [IHg [st [IHs IHl]]]] Ht
    |ls vs ts l H [IH0 [IHg [st [IHs IHl]]]] Ht].
  - split; [reflexivity|]. split; [|exists st0; split; [assumption|reflexivity]]. split; [|constructor].
    intros i v Hi. apply nthz_in in Hi. contradiction.
  - split; [now destruct vs|]. split.
    { apply good_snoc; auto. destruct Hv as [k [tn [tx [ty [tz [texts [x [y [z [_ [_ [N _]]]]]]]]]]]]. now apply number_range in N. }
    destruct (tface_vertex F up ps name crs h vs ts st l v Hz Hh Hs IHs IH0 Hv) as [st' [E S']]. exists st'. split; [assumption|]. now apply Step with st.
  - split; [now destruct vs|]. split.
    { apply good_snoc; auto. destruct Ha as [k [tn [ti [texts [_ [_ [N _]]]]]]]. now apply number_range in N. }
    destruct (tface_atom F ps name crs h vs ts st l o w v Hh Hs IHs IHg Ha Hw Ho Hp) as [st' [E S']]. exists st'. split; [assumption|]. now apply Step with st.
  - split; [now intros ->|]. split; [assumption|].
    destruct (tface_triangle F name crs h vs ts st l t IHs Ht) as [st' [E S']]. exists st'. split; [assumption|]. now apply Step with st.
  - split; [assumption|]. split; [assumption|].
    destruct (tface_section F name crs h vs ts st l more IHs Ht) as [st' [E S']]. exists st'. split; [assumption|]. now apply Step with st.
  - split; [assumption|]. split; [assumption|].
    destruct (tface_stone F name crs h vs ts st l IHs Ht) as [st' [E S']]. exists st'. split; [assumption|]. now apply Step with st.
  - split; [assumption|]. split; [assumption|]. exists st. split; [assumption|]. apply Step with st; [|assumption]. now apply (tface_other F name crs h vs ts).
Qed.

(** ** Attributes *)
Fixpoint attrs_from {F} (vs : list (vertex F)) (k : nat) (ps : list (property F)) : list (bytes * attr (num F)) :=
  match ps with
  | [] => []
  | p :: r => (pr_name p, mkAttr (attr_type (pr_size p)) (repeat (pr_none p) (Z.to_nat (pr_size p))) (map (fun v => nth k (vx_values v) []) vs))
              :: attrs_from vs (S k) r
  end.
Lemma attrs_from_names {F} (vs : list (vertex F)) ps : forall k, map fst (attrs_from vs k ps) = map pr_name ps.
Proof. induction ps as [|p r IH]; intros k; cbn [attrs_from map fst]; [reflexivity|]. now rewrite IH. Qed.
Lemma attrs_from_nth {F} (vs : list (vertex F)) ps : forall k j p, nth_error ps j = Some p ->
  In (pr_name p, mkAttr (attr_type (pr_size p)) (repeat (pr_none p) (Z.to_nat (pr_size p))) (map (fun v => nth (k + j) (vx_values v) []) vs)) (attrs_from vs k ps).
Proof.
  induction ps as [|q r IH]; intros k j p H; [now destruct j|]. destruct j as [|j]; cbn [nth_error attrs_from] in *.
  - injection H as ->. left. now rewrite Nat.add_0_r.
  - right. replace (k + S j)%nat with (S k + j)%nat by lia. now apply IH.
Qed.
Lemma concat_chunk {A} (rows : list (list A)) e k row : Forall (fun r => List.length r = e) rows -> nth_error rows k = Some row ->
  forall it, (it < e)%nat -> nth_error (List.concat rows) (k * e + it) = nth_error row it.
Proof.
  intros H. revert k. induction H as [|r rows H1 H2 IH]; intros k Hk it Hi; [now destruct k|].
  destruct k as [|k]; cbn [nth_error List.concat] in *.
  - injection Hk as ->. cbn [Nat.mul Nat.add]. now rewrite nth_error_app1 by lia.
  - rewrite nth_error_app2 by lia. replace (S k * e + it - List.length r)%nat with (k * e + it)%nat by lia. now apply IH.
Qed.
Lemma attr_row_chunk {A} (rows : list (list A)) e d k row : 0 <= e < 256 -> Forall (fun r => Z.of_nat (List.length r) = e) rows ->
  List.length d = Z.to_nat e -> nth_error rows k = Some row -> attr_row (List.concat rows) e d k = Ok row.
Proof.
  intros He H Hd Hk. unfold attr_row. rewrite items_small by assumption.
  assert (Hr : List.length row = Z.to_nat e).
  { rewrite Forall_forall in H. specialize (H row (nth_error_In _ _ Hk)). lia. }
  assert (E : mapM (fun it => idx (List.concat rows) (k * Z.to_nat e + it)) (seq 0 (Z.to_nat e)) = Ok row).
  { transitivity (mapM (fun it => idx row it) (seq 0 (List.length row))); [|apply mapM_idx]. rewrite Hr.
    assert (G : forall l, Forall (fun it => it < Z.to_nat e)%nat l ->
      mapM (fun it => idx (List.concat rows) (k * Z.to_nat e + it)) l = mapM (fun it => idx row it) l).
    { induction 1 as [|it l H1 H2 IH]; cbn [mapM]; [reflexivity|]. rewrite IH. unfold idx.
      rewrite (concat_chunk rows (Z.to_nat e) k row); auto. clear -H. eapply Forall_impl; [|exact H]. cbn. intros. lia. }
    apply G. apply Forall_forall. intros it Hi. apply in_seq in Hi. lia. }
  rewrite E. cbn [bind]. rewrite skipn_all2 by lia. now rewrite app_nil_r.
Qed.
(** The vertices have values for the properties [ps] at the ranks [k], [k + 1]... *)
Definition valued {F} (vs : list (vertex F)) (k : nat) (ps : list (property F)) : Prop :=
  forall j p, nth_error ps j = Some p -> Forall (fun v => Z.of_nat (List.length (nth (k + j) (vx_values v) [])) = pr_size p) vs.
Lemma create_columns {F C} (vs : list (vertex F)) ps : small_sizes ps -> forall k (m : mesh F C) done,
  List.length (m_points m) = List.length vs -> m_attrs m = done -> NoDup (map fst done ++ map pr_name ps) ->
  Forall (fun p => pr_name p <> lit "points") ps -> valued vs k ps ->
  create_attributes_loop (map pr_name ps) (map pr_size ps) (map pr_none ps) (map (column vs) (seq k (List.length ps)))
    (List.length vs) (seq 0 (List.length vs)) m = Ok (set_attr_list m (done ++ attrs_from vs k ps)).
Proof.
  induction 1 as [|p ps Hs1 Hs IH]; intros k m done Hp Hd Hn Hw Hv.
  - cbn [map create_attributes_loop attrs_from]. rewrite app_nil_r. subst done. destruct m; reflexivity.
  - cbn [map] in Hn. inversion Hw as [|? ? Hw1 Hw2]; subst.
    assert (Hnin : ~ In (pr_name p) (map fst (m_attrs m))).
    { apply NoDup_remove_2 in Hn. intros Hi. apply Hn. apply in_or_app. auto. }
    cbn [map List.length seq create_attributes_loop]. cbv zeta.
    unfold find_or_create. rewrite (proj2 (beq_neq (pr_name p) (lit "points"))) by assumption.
    rewrite find_attr_none by assumption. cbn [bind a_vals a_type a_def].
    pose proof (Hv 0%nat p eq_refl) as Hv0. rewrite Nat.add_0_r in Hv0.
    rewrite (fill_attr_rows _ (pr_size p) _ (fun i => nth i (map (fun v => nth k (vx_values v) []) vs) [])); try lia.
    2:{ intros i Hi. cbn [Nat.add] in Hi. apply attr_row_chunk; auto.
        - apply Forall_map. exact Hv0.
        - apply repeat_length.
        - apply nth_error_nth'. now rewrite map_length. }
    2:{ rewrite map_length. lia. }
    cbn [bind firstn app Nat.add].
    rewrite skipn_all2 by (rewrite map_length; lia). rewrite app_nil_r.
    rewrite replace_attr_new by assumption.
    rewrite (IH (S k) _ (m_attrs m ++ [(pr_name p, mkAttr (attr_type (pr_size p)) (repeat (pr_none p) (Z.to_nat (pr_size p))) (map (fun v => nth k (vx_values v) []) vs))])).
    + unfold set_attr_list. cbn [m_name m_points m_cells]. rewrite <- app_assoc. reflexivity.
    + exact Hp.
    + cbn [set_attr_list m_attrs]. do 4 f_equal. clear. set (l := map _ vs). 
      replace (List.length vs) with (List.length l) by (unfold l; apply map_length). generalize l. clear.
      induction l as [|a l IH]; [reflexivity|]. cbn [List.length seq map nth]. f_equal. rewrite <- IH at 2. rewrite <- seq_shift, map_map. reflexivity.
    + rewrite map_app, <- app_assoc. exact Hn.
    + assumption.
    + intros j q Hj. specialize (Hv (S j) q Hj). replace (S k + j)%nat with (k + S j)%nat by lia. exact Hv.
Qed.
(** What the mesh holds: property [j] of vertex [i] is the [j]-th list of values of its line. *)
Lemma attrs_from_value {F C} (m : mesh F C) vs ps : NoDup (map pr_name ps) -> m_attrs m = attrs_from vs 0 ps ->
  (forall v, In v vs -> List.length (vx_values v) = List.length ps) ->
  (forall n, In n (map fst (m_attrs m)) <-> exists p, In p ps /\ pr_name p = n) /\
  forall j p i v, nth_error ps j = Some p -> nthz vs i = Some v ->
    exists vals, nth_error (vx_values v) j = Some vals /\ attr_value m (pr_name p) (Z.to_nat i) = Some vals.
Proof.
  intros Hn Hm Hl. split.
  - intros n. rewrite Hm, attrs_from_names, in_map_iff. split; intros [p [H1 H2]]; exists p; auto.
  - intros j p i v Hj Hi. pose proof (nthz_range _ _ _ Hi) as R. apply nthz_some in Hi as [_ Hi].
    assert (Lj : (j < List.length (vx_values v))%nat).
    { rewrite (Hl v) by (eapply nth_error_In; eauto). apply nth_error_Some. congruence. }
    exists (nth j (vx_values v) []). split; [now apply nth_error_nth'|].
    unfold attr_value. rewrite Hm. assert (Hd : NoDup (map fst (attrs_from vs 0 ps))) by now rewrite attrs_from_names.
    rewrite (TsFacts.find_attr_in _ _ _ Hd (attrs_from_nth vs ps 0 j p Hj)).
    cbn [a_vals]. rewrite nth_error_map, Hi. reflexivity.
Qed.

(** ** Whole files *)
Lemma object_head kw ls name up body b : object_text kw ls name up body -> body <> [] ->
  exists crs first r, z_sign_positive crs = up /\ goto_if kw (mkStream ls b) = (Some first, mkStream r b) /\
    exists r', read_header (mkStream r b) = Ok (name, mkStream r' b) /\ read_CRS (mkStream r' b) = Ok (crs, mkStream body b).
Proof.
  intros [pre [first [hs [cs [-> [H1 [H2 [H3 [H4 H5]]]]]]]]] Hb. destruct (crs_read cs up body b H4 H5 Hb) as [crs [E Hz]].
  exists crs, first, (hs ++ cs ++ body). split; [assumption|]. split; [now apply goto_if_first|].
  exists (cs ++ body). split; [now apply header_read|assumption].
Qed.
Lemma surface_values F up ps ls vs ts : surface_data F up ps ls vs ts ->
  valued vs 0 ps /\ forall v, In v vs -> List.length (vx_values v) = List.length ps.
Proof.
  intros H.
  assert (G : forall v, In v vs -> Forall2 (fun p x => Z.of_nat (List.length x) = pr_size p) ps (vx_values v)).
  { induction H as [|ls vs ts l v H IH Hv Hn|ls vs ts l o w v H IH Ha Hn Hw Ho Hp|ls vs ts l t H IH Ht Hn|ls vs ts l more H IH Ht|ls vs ts l H IH Ht
    |ls vs ts l H IH Ht]; intros u Hu; auto; [contradiction| |].
    - apply in_app_iff in Hu as [Hu|[<-|[]]]; [now apply IH|].
      destruct Hv as (k & tn & tx & ty & tz & texts & x & y & z & _ & _ & _ & _ & _ & _ & _ & V & _). exact V.
    - apply in_app_iff in Hu as [Hu|[<-|[]]]; [now apply IH|]. destruct Ha as (k & tn & ti & texts & _ & _ & _ & _ & V & _). exact V. }
  split; [|intros v Hv; symmetry; now apply Forall2_len with (1 := G v Hv)].
  intros j p Hj. apply Forall_forall. intros v Hv. specialize (G v Hv). clear -G Hj. cbn [Nat.add].
  revert j Hj. induction G as [|q x ps xs H1 H2 IH]; intros j Hj; [now destruct j|]. destruct j as [|j]; cbn [nth nth_error] in *; [congruence|]. now apply IH.
Qed.

(** ** Curves *)
Record curve_state {F} (name : option bytes) (crs : CRS) (vs : list (vertex F)) (es : list (Z * Z)) (st : ECurve F) : Prop := {
  cs_name : e_name st = name;
  cs_crs : e_crs st = crs;
  cs_offset : e_offset st = base vs;
  cs_points : e_points st = map vx_point vs;
  cs_edges : e_edges st = map (fun e => (sub32 (fst e) (base vs), sub32 (snd e) (base vs))) es
}.
Lemma iline_vertex F up name crs vs es st l v : z_sign_positive crs = up ->
  curve_state name crs vs es st -> (vs = [] -> es = []) -> vertex_line F up [] l v ->
  exists st', iline_line F st l = Ok (st', false) /\ curve_state name crs (vs ++ [v]) es st'.
Proof.
  intros Hz [S1 S2 S4 S5 S6] Hes (k & tn & tx & ty & tz & texts & x & y & z & E & Hk & N & X & Y & Z0 & P & V).
  destruct st as [off nm c pts edges]. cbn in S1, S2, S4, S5, S6. subst nm c off pts edges.
  unfold iline_line. rewrite E. cbn [bind front].
  replace (is_vrtx k) with true by (destruct Hk as [<-|[<-|[]]]; reflexivity).
  assert (O : vrtx_offset (match map vx_point vs with [] => true | _ => false end) (base vs) (k :: tn :: tx :: ty :: tz :: texts) = Ok (base (vs ++ [v]))).
  { destruct vs as [|v0 vs]; [exact N|reflexivity]. }
  rewrite O. cbn [bind]. unfold vrtx_point. cbn [idx nth_error bind]. rewrite X, Y, Z0. cbn [bind].
  eexists. split; [reflexivity|]. constructor; cbn; auto.
  - rewrite map_app. cbn. rewrite P. unfold signed. rewrite Hz. reflexivity.
  - destruct vs as [|v0 vs]; [now rewrite Hes|]. now rewrite base_snoc.
Qed.
Lemma iline_segment F name crs (vs : list (vertex F)) es st l e : curve_state name crs vs es st -> seg_words l e ->
  exists st', iline_line F st l = Ok (st', false) /\ curve_state name crs vs (es ++ [e]) st'.
Proof.
  intros [S1 S2 S4 S5 S6] (ta & tb & more & E & A & B).
  destruct st as [off nm c pts edges]. cbn in S1, S2, S4, S5, S6. subst nm c off pts edges.
  unfold iline_line. rewrite E. cbn [bind front].
  change (is_vrtx (lit "SEG")) with false. change (beq (lit "SEG") (lit "SEG")) with true. cbn iota.
  rewrite (tok_index_number _ _ 1 ta (fst e)) by (first [reflexivity|exact A]). rewrite (tok_index_number _ _ 2 tb (snd e)) by (first [reflexivity|exact B]). cbn [bind].
  eexists. split; [reflexivity|]. constructor; cbn; auto. now rewrite map_app.
Qed.
Lemma iline_end F (st : ECurve F) l : end_line l -> iline_line F st l = Ok (st, true).
Proof. intros [more E]. destruct st. unfold iline_line. rewrite E. reflexivity. Qed.
Lemma iline_other F (st : ECurve F) l : other_line [lit "VRTX"; lit "PVRTX"; lit "SEG"; lit "END"; lit "ATOM"; lit "PATOM"] l ->
  iline_line F st l = Ok (st, false).
Proof.
  intros [k [more [E H]]]. apply not_in_beq in H.
  repeat match goal with H : Forall _ (_ :: _) |- _ => apply Forall_cons_iff in H as [? H] end.
  destruct st. unfold iline_line, is_vrtx. rewrite E. cbn [bind front].
  repeat match goal with H : beq k _ = false |- _ => rewrite ?H; clear H end. reflexivity.
Qed.
Lemma good_nil {F} : good_numbers (F := F) [].
Proof. split; [|constructor]. intros i v Hi. apply nthz_in in Hi. contradiction. Qed.
Lemma curve_loop F up name crs : z_sign_positive crs = up ->
  forall st0, curve_state name crs [] [] st0 -> forall ls vs es, curve_data F up ls vs es ->
  (vs = [] -> es = []) /\ good_numbers vs /\
  exists st, curve_state name crs vs es st /\ forall r, ilines_loop F st0 (ls ++ r) = ilines_loop F st r.
Proof.
  intros Hz st0 S0 ls vs es H.
  assert (Step : forall ls st l st', iline_line F st l = Ok (st', false) -> (forall r, ilines_loop F st0 (ls ++ r) = ilines_loop F st r) ->
    forall r, ilines_loop F st0 ((ls ++ [l]) ++ r) = ilines_loop F st' r).
  { intros ls0 st l st' E L r. rewrite <- app_assoc. cbn [app]. rewrite L. cbn [ilines_loop]. rewrite E. reflexivity. }
  induction H as [|ls vs es l v H (IH0 & IHg & st & IHs & IHl) Hv Hn|ls vs es l e H (IH0 & IHg & st & IHs & IHl) Ht Hn
    |ls vs es l H (IH0 & IHg & st & IHs & IHl) Ht].
  - split; [reflexivity|]. split; [apply good_nil|]. exists st0. split; [assumption|reflexivity].
  - split; [now destruct vs|]. split.
    { apply good_snoc; auto. destruct Hv as (k & tn & tx & ty & tz & texts & x & y & z & _ & _ & N & _). now apply number_range in N. }
    destruct (iline_vertex F up name crs vs es st l v Hz IHs IH0 Hv) as [st' [E S']]. exists st'. split; [assumption|]. now apply Step with st.
  - split; [now intros ->|]. split; [assumption|].
    destruct (iline_segment F name crs vs es st l e IHs Ht) as [st' [E S']]. exists st'. split; [assumption|]. now apply Step with st.
  - split; [assumption|]. split; [assumption|]. exists st. split; [assumption|]. apply Step with st; [|assumption]. now apply iline_other.
Qed.

(** ** Point sets *)
Record points_state {F} (name : option bytes) (crs : CRS) (h : PropHeader (num F)) (vs : list (vertex F)) (st : VSet F) : Prop := {
  vs_name : v_name st = name;
  vs_crs : v_crs st = crs;
  vs_props : v_props st = h;
  vs_points : v_points st = map vx_point vs;
  vs_values : v_values st = columns (List.length (p_names h)) vs
}.
Lemma vset_vertex F up ps name crs h vs st l v : z_sign_positive crs = up -> head_of h ps -> small_sizes ps ->
  points_state name crs h vs st -> vertex_line F up ps l v ->
  exists st', vset_line F st l = Ok (st', false) /\ points_state name crs h (vs ++ [v]) st'.
Proof.
  intros Hz [Hn [He Hd]] Hs [S1 S2 S3 S5 S7] (k & tn & tx & ty & tz & texts & x & y & z & E & Hk & N & X & Y & Z0 & P & V).
  destruct st as [off nm c pr pts vals]. cbn in S1, S2, S3, S5, S7. subst nm c pr pts vals.
  unfold vset_line. rewrite E. cbn [bind front].
  replace (beq k "END") with false by (destruct Hk as [<-|[<-|[]]]; reflexivity).
  replace (is_vrtx k) with true by (destruct Hk as [<-|[<-|[]]]; reflexivity). cbn [negb].
  assert (O : exists off', vrtx_offset (match map vx_point vs with [] => true | _ => false end) off (k :: tn :: tx :: ty :: tz :: texts) = Ok off').
  { destruct vs as [|v0 vs]; [exists (vx_number v); exact N|exists off; reflexivity]. }
  destruct O as [off' O]. rewrite O. cbn [bind]. unfold vrtx_point. cbn [idx nth_error bind]. rewrite X, Y, Z0. cbn [bind].
  rewrite (values_read F ps _ _ _ 5 texts (vx_values v)) by (auto; rewrite columns_length, Hn; apply map_length).
  cbn [bind]. eexists. split; [reflexivity|]. constructor; cbn; auto.
  - rewrite map_app. cbn. rewrite P. unfold signed. rewrite Hz. reflexivity.
  - apply columns_snoc. rewrite (values_length F ps texts _ V), Hn. now rewrite map_length.
Qed.
Lemma vset_end F (st : VSet F) l : end_line l -> vset_line F st l = Ok (st, true).
Proof. intros [more E]. destruct st. unfold vset_line. rewrite E. reflexivity. Qed.
Lemma vset_other F (st : VSet F) l : other_line [lit "VRTX"; lit "PVRTX"; lit "END"; lit "ATOM"; lit "PATOM"] l -> vset_line F st l = Ok (st, false).
Proof.
  intros [k [more [E H]]]. apply not_in_beq in H.
  repeat match goal with H : Forall _ (_ :: _) |- _ => apply Forall_cons_iff in H as [? H] end.
  destruct st. unfold vset_line, is_vrtx. rewrite E. cbn [bind front].
  repeat match goal with H : beq k _ = false |- _ => rewrite ?H; clear H end. reflexivity.
Qed.
Lemma points_loop F up ps name crs h : z_sign_positive crs = up -> head_of h ps -> small_sizes ps ->
  forall st0, points_state name crs h [] st0 -> forall ls vs, points_data F up ps ls vs ->
  exists st, points_state name crs h vs st /\ forall r, vset_loop F st0 (ls ++ r) = vset_loop F st r.
Proof.
  intros Hz Hh Hs st0 S0 ls vs H.
  assert (Step : forall ls st l st', vset_line F st l = Ok (st', false) -> (forall r, vset_loop F st0 (ls ++ r) = vset_loop F st r) ->
    forall r, vset_loop F st0 ((ls ++ [l]) ++ r) = vset_loop F st' r).
  { intros ls0 st l st' E L r. rewrite <- app_assoc. cbn [app]. rewrite L. cbn [vset_loop]. rewrite E. reflexivity. }
  induction H as [|ls vs l v H (st & IHs & IHl) Hv|ls vs l H (st & IHs & IHl) Ht].
  - exists st0. split; [assumption|reflexivity].
  - destruct (vset_vertex F up ps name crs h vs st l v Hz Hh Hs IHs Hv) as [st' [E S']]. exists st'. split; [assumption|]. now apply Step with st.
  - exists st. split; [assumption|]. apply Step with st; [|assumption]. now apply vset_other.
Qed.
Lemma points_values F up ps ls vs : points_data F up ps ls vs ->
  valued vs 0 ps /\ forall v, In v vs -> List.length (vx_values v) = List.length ps.
Proof.
  intros H.
  assert (G : forall v, In v vs -> Forall2 (fun p x => Z.of_nat (List.length x) = pr_size p) ps (vx_values v)).
  { induction H as [|ls vs l v H IH Hv|ls vs l H IH Ht]; intros u Hu; auto; [contradiction|].
    apply in_app_iff in Hu as [Hu|[<-|[]]]; [now apply IH|].
    destruct Hv as (k & tn & tx & ty & tz & texts & x & y & z & _ & _ & _ & _ & _ & _ & _ & V & _). exact V. }
  split; [|intros v Hv; symmetry; now apply Forall2_len with (1 := G v Hv)].
  intros j p Hj. apply Forall_forall. intros v Hv. specialize (G v Hv). clear -G Hj. cbn [Nat.add].
  revert j Hj. induction G as [|q x ps xs H1 H2 IH]; intros j Hj; [now destruct j|]. destruct j as [|j]; cbn [nth nth_error] in *; [congruence|]. now apply IH.
Qed.
