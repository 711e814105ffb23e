(** * Every reader only moves forward in the file. *)
From Coq Require Import ZArith List Lia Bool Ascii String.
From Verif Require Import Base Text TextFacts GocadModel MeshModel TsModel Spec GocadFacts TsFacts DepthFacts.
Import ListNotations.
Local Open Scope string_scope.
Local Open Scope list_scope.
Local Open Scope Z_scope.

(** [b] is what remains of [a]. *)
Definition suffix (b a : list bytes) : Prop := exists pre, a = pre ++ b.
Lemma suffix_refl a : suffix a a. Proof. now exists []. Qed.
Lemma suffix_trans a b c : suffix a b -> suffix b c -> suffix a c.
Proof. intros [p ->] [q ->]. exists (q ++ p). now rewrite app_assoc. Qed.
Lemma suffix_cons x a b : suffix b a -> suffix b (x :: a).
Proof. intros [p ->]. now exists (x :: p). Qed.
Lemma suffix_tl x a b : suffix (x :: b) a -> suffix b a.
Proof. intros [p ->]. exists (p ++ [x]). now rewrite <- app_assoc. Qed.
Lemma suffix_length a b : suffix b a -> (List.length b <= List.length a)%nat.
Proof. intros [p ->]. rewrite app_length. lia. Qed.
Lemma suffix_Forall (P : bytes -> Prop) a b : suffix b a -> Forall P a -> Forall P b.
Proof. intros [p ->] H. now apply Forall_app in H as [_ H]. Qed.

Lemma scan_suffix p ls l r : scan p ls = Some (l, r) -> suffix (l :: r) ls.
Proof.
  induction ls as [|x t IH]; [discriminate|]. cbn [scan]. destruct (p x).
  - intros E. injection E as -> ->. apply suffix_refl.
  - intros E. apply suffix_cons. auto.
Qed.
Lemma goto_if_suffix kw s l s' : goto_if kw s = (Some l, s') -> suffix (l :: pending s') (pending s).
Proof.
  unfold goto_if. destruct (scan _ (pending s)) as [[x r]|] eqn:E; [|discriminate].
  intros H. injection H as <- <-. now apply scan_suffix in E.
Qed.
Lemma goto_keyword_suffix kw s l s' : goto_keyword kw s = Ok (l, s') -> suffix (l :: pending s') (pending s).
Proof.
  unfold goto_keyword. destruct (goto_if kw s) as [[x|] t] eqn:E; [|discriminate].
  intros H. injection H as <- <-. now apply goto_if_suffix in E.
Qed.
Lemma goto_keywords_suffix kw s l s' : goto_keywords kw s = Ok (l, s') -> suffix (l :: pending s') (pending s).
Proof.
  unfold goto_keywords. destruct (scan _ (pending s)) as [[x t]|] eqn:E; [|discriminate].
  intros H. injection H as <- <-. now apply scan_suffix in E.
Qed.
Lemma next_if_suffix kw s o s' : next_if kw s = (o, s') -> suffix (pending s') (pending s).
Proof.
  unfold next_if. destruct (pending s) as [|x t] eqn:E.
  - intros H. injection H as <- <-. apply suffix_refl.
  - destruct (starts_with x kw); intros H; injection H as <- <-.
    + apply suffix_cons, suffix_refl.
    + rewrite E. apply suffix_refl.
Qed.
Lemma check_keyword_suffix kw s s' : check_keyword kw s = Ok s' -> suffix (pending s') (pending s).
Proof.
  unfold check_keyword. destruct (pending s) as [|x t]; [discriminate|].
  destruct (starts_with x kw); [|discriminate]. intros H. injection H as <-.
  apply suffix_cons, suffix_refl.
Qed.
Lemma header_loop_suffix n ls x : header_loop n ls = Ok x -> suffix (snd x) ls.
Proof.
  revert n. induction ls as [|l r IH]; intros n; [discriminate|]. cbn [header_loop].
  destruct (starts_with l _).
  - intros H. injection H as <-. apply suffix_cons, suffix_refl.
  - destruct (after_first _ l); intros H; apply suffix_cons; eauto.
Qed.
Lemma read_header_suffix s x : read_header s = Ok x -> suffix (pending (snd x)) (pending s).
Proof.
  unfold read_header. intros H. apply bind_ok in H as [s1 [H1 H]]. apply bind_ok in H as [[n r] [H2 H]].
  injection H as <-. apply header_loop_suffix in H2. apply check_keyword_suffix in H1.
  eapply suffix_trans; eassumption.
Qed.
Lemma crs_loop_suffix c ls x : crs_loop c ls = Ok x -> suffix (snd x) ls.
Proof.
  revert c. induction ls as [|l r IH]; intros c; [discriminate|]. cbn [crs_loop].
  destruct (starts_with l _).
  - intros H. injection H as <-. apply suffix_cons, suffix_refl.
  - intros H. apply bind_ok in H as [c' [_ H]]. apply suffix_cons. eauto.
Qed.
Lemma read_CRS_suffix s x : read_CRS s = Ok x -> suffix (pending (snd x)) (pending s).
Proof.
  unfold read_CRS. destruct (next_if _ s) as [[l|] t] eqn:E; apply next_if_suffix in E; intros H.
  - apply bind_ok in H as [[c r] [H1 H]]. injection H as <-. apply crs_loop_suffix in H1.
    eapply suffix_trans; eassumption.
  - injection H as <-. exact E.
Qed.
Lemma kw_one_string_suffix kw n s x : kw_one_string kw n s = Ok x -> suffix (pending (snd x)) (pending s).
Proof.
  unfold kw_one_string. intros H. apply bind_ok in H as [[l t] [H1 H]].
  apply bind_ok in H as [? [_ H]]. apply bind_ok in H as [? [_ H]]. injection H as <-.
  apply goto_keyword_suffix in H1. now apply suffix_tl in H1.
Qed.
Lemma kw_two_strings_suffix kw n s x : kw_two_strings kw n s = Ok x -> suffix (pending (snd x)) (pending s).
Proof.
  unfold kw_two_strings. intros H. apply bind_ok in H as [[l t] [H1 H]].
  apply bind_ok in H as [? [_ H]]. injection H as <-.
  apply goto_keyword_suffix in H1. now apply suffix_tl in H1.
Qed.
Lemma kw_one_double_suffix F kw n s x : kw_one_double F kw n s = Ok x -> suffix (pending (snd x)) (pending s).
Proof.
  unfold kw_one_double. intros H. apply bind_ok in H as [[l t] [H1 H]].
  apply bind_ok in H as [? [_ H]]. injection H as <-.
  apply goto_keyword_suffix in H1. now apply suffix_tl in H1.
Qed.
Lemma kw_one_index_suffix kw n s x : kw_one_index kw n s = Ok x -> suffix (pending (snd x)) (pending s).
Proof.
  unfold kw_one_index. intros H. apply bind_ok in H as [[l t] [H1 H]].
  apply bind_ok in H as [? [_ H]]. injection H as <-.
  apply goto_keyword_suffix in H1. now apply suffix_tl in H1.
Qed.
Lemma read_prop_header_suffix F pre s x : read_prop_header F pre s = Ok x -> suffix (pending (snd x)) (pending s).
Proof.
  unfold read_prop_header. destruct (next_if _ s) as [[l|] t] eqn:E; apply next_if_suffix in E; intros H.
  2:{ injection H as <-. exact E. }
  apply bind_ok in H as [sl [_ H]]. cbn zeta in H. destruct (Nat.eqb _ 0).
  { injection H as <-. exact E. }
  apply bind_ok in H as [nm [_ H]].
  apply bind_ok in H as [[a1 s1] [H1 H]]. apply bind_ok in H as [[a2 s2] [H2 H]].
  apply bind_ok in H as [[a3 s3] [H3 H]]. apply bind_ok in H as [[a4 s4] [H4 H]].
  apply bind_ok in H as [[a5 s5] [H5 H]]. apply bind_ok in H as [[a6 s6] [H6 H]].
  apply bind_ok in H as [[a7 s7] [H7 H]]. injection H as <-.
  apply kw_two_strings_suffix in H1. apply kw_one_double_suffix in H2.
  apply kw_one_string_suffix in H3. apply kw_one_string_suffix in H4.
  apply kw_two_strings_suffix in H5. apply kw_one_index_suffix in H6.
  apply kw_one_string_suffix in H7. cbn [fst snd] in *.
  repeat (eapply suffix_trans; [eassumption|]). apply suffix_refl.
Qed.
Lemma tfaces_loop_suffix F ts ls x : tfaces_loop F ts ls = Ok x -> suffix (snd x) ls.
Proof.
  revert ts. induction ls as [|l r IH]; intros ts; [discriminate|]. cbn [tfaces_loop].
  intros H. apply bind_ok in H as [[c stop] [_ H]]. destruct stop.
  - injection H as <-. apply suffix_cons, suffix_refl.
  - apply suffix_cons. eauto.
Qed.
Lemma ilines_loop_suffix F ts ls x : ilines_loop F ts ls = Ok x -> suffix (snd x) ls.
Proof.
  revert ts. induction ls as [|l r IH]; intros ts; cbn [ilines_loop].
  { intros H. injection H as <-. apply suffix_refl. }
  intros H. apply bind_ok in H as [[c stop] [_ H]]. destruct stop.
  - injection H as <-. apply suffix_cons, suffix_refl.
  - apply suffix_cons. eauto.
Qed.
Lemma vset_loop_suffix F ts ls x : vset_loop F ts ls = Ok x -> suffix (snd x) ls.
Proof.
  revert ts. induction ls as [|l r IH]; intros ts; [discriminate|]. cbn [vset_loop].
  intros H. apply bind_ok in H as [[c stop] [_ H]]. destruct stop.
  - injection H as <-. apply suffix_cons, suffix_refl.
  - apply suffix_cons. eauto.
Qed.
(** An object read leaves a strict suffix. *)
Lemma read_tsurf_suffix F s ts s' : read_tsurf F s = Ok (Some ts, s') ->
  exists l, suffix (l :: pending s') (pending s).
Proof.
  unfold read_tsurf. destruct (goto_if _ s) as [[l|] t] eqn:E; [|discriminate].
  apply goto_if_suffix in E. intros H.
  apply bind_ok in H as [[a1 s1] [H1 H]]. apply bind_ok in H as [[a2 s2] [H2 H]].
  apply bind_ok in H as [[a3 s3] [H3 H]]. apply bind_ok in H as [[a4 s4] [H4 H]].
  injection H as <- <-. unfold read_tfaces in H4. apply bind_ok in H4 as [[a5 s5] [H5 H4]].
  apply bind_ok in H4 as [[a6 r] [H6 H4]]. injection H4 as <- <-. cbn [pending].
  apply read_header_suffix in H1. apply read_CRS_suffix in H2. apply read_prop_header_suffix in H3.
  apply goto_keyword_suffix in H5. apply tfaces_loop_suffix in H6. cbn [fst snd] in *.
  apply suffix_tl in H5.
  assert (S : suffix r (pending t)) by (repeat (eapply suffix_trans; [eassumption|]); apply suffix_refl).
  destruct S as [p Hp], E as [q Hq]. rewrite Hq, Hp.
  destruct p as [|x p] using rev_ind.
  - exists l. exists q. reflexivity.
  - exists x. exists (q ++ l :: p). rewrite <- !app_assoc. reflexivity.
Qed.
Lemma read_ecurve_suffix F s ts s' : read_ecurve F s = Ok (Some ts, s') ->
  exists l, suffix (l :: pending s') (pending s).
Proof.
  unfold read_ecurve. destruct (goto_if _ s) as [[l|] t] eqn:E; [|discriminate].
  apply goto_if_suffix in E. intros H.
  apply bind_ok in H as [[a1 s1] [H1 H]]. apply bind_ok in H as [[a2 s2] [H2 H]].
  apply bind_ok in H as [[a4 s4] [H4 H]].
  injection H as <- <-. unfold read_ilines in H4. apply bind_ok in H4 as [[a5 s5] [H5 H4]].
  apply bind_ok in H4 as [[a6 r] [H6 H4]]. injection H4 as <- <-. cbn [pending].
  apply read_header_suffix in H1. apply read_CRS_suffix in H2.
  apply goto_keyword_suffix in H5. apply ilines_loop_suffix in H6. cbn [fst snd] in *.
  apply suffix_tl in H5.
  assert (S : suffix r (pending t)) by (repeat (eapply suffix_trans; [eassumption|]); apply suffix_refl).
  destruct S as [p Hp], E as [q Hq]. rewrite Hq, Hp.
  destruct p as [|x p] using rev_ind.
  - exists l. exists q. reflexivity.
  - exists x. exists (q ++ l :: p). rewrite <- !app_assoc. reflexivity.
Qed.
Lemma read_vs_points_suffix F s ts s' : read_vs_points F s = Ok (Some ts, s') ->
  exists l, suffix (l :: pending s') (pending s).
Proof.
  unfold read_vs_points. destruct (goto_if _ s) as [[l|] t] eqn:E; [|discriminate].
  apply goto_if_suffix in E. intros H.
  apply bind_ok in H as [[a1 s1] [H1 H]]. apply bind_ok in H as [[a2 s2] [H2 H]].
  apply bind_ok in H as [[a3 s3] [H3 H]]. apply bind_ok in H as [[a4 s4] [H4 H]].
  injection H as <- <-. unfold read_VSet_vertices in H4. apply bind_ok in H4 as [[a5 s5] [H5 H4]].
  apply bind_ok in H4 as [[a6 r] [H6 H4]]. injection H4 as <- <-. cbn [pending].
  apply read_header_suffix in H1. apply read_CRS_suffix in H2. apply read_prop_header_suffix in H3.
  apply goto_keywords_suffix in H5. apply vset_loop_suffix in H6. cbn [fst snd] in *.
  assert (S : suffix r (pending t)) by (repeat (eapply suffix_trans; [eassumption|]); apply suffix_refl).
  destruct S as [p Hp], E as [q Hq]. rewrite Hq, Hp.
  destruct p as [|x p] using rev_ind.
  - exists l. exists q. reflexivity.
  - exists x. exists (q ++ l :: p). rewrite <- !app_assoc. reflexivity.
Qed.

(** Nothing in a reader loops for ever. *)
Definition fails_only {A} (r : res A) : Prop := r <> Hang.
Lemma bind_nohang {A B} (r : res A) (f : A -> res B) :
  r <> Hang -> (forall a, r = Ok a -> f a <> Hang) -> bind r f <> Hang.
Proof. destruct r; simpl; intros H1 H2; auto; discriminate. Qed.

(** ** None of the reading functions runs forever. *)
Lemma check_nohang b : check b <> Hang. Proof. destruct b; discriminate. Qed.
Lemma idx_nohang {A} (l : list A) i : idx l i <> Hang.
Proof. unfold idx. destruct (nth_error l i); discriminate. Qed.
Lemma front_nohang {A} (l : list A) : front l <> Hang.
Proof. destruct l; discriminate. Qed.
Lemma atz_nohang {A} (l : list A) i : atz l i <> Hang.
Proof. unfold atz. destruct (nthz l i); discriminate. Qed.
Lemma setz_nohang {A} (l : list A) i a : setz l i a <> Hang.
Proof. unfold setz. destruct (_ && _); discriminate. Qed.
Lemma sti_nohang l : string_to_index l <> Hang.
Proof. unfold string_to_index. destruct (parse_index l); discriminate. Qed.
Lemma std_nohang F l : string_to_double F l <> Hang.
Proof. unfold string_to_double. destruct (atod F l); discriminate. Qed.
Lemma mapM_nohang {A B} (f : A -> res B) l : (forall a, f a <> Hang) -> mapM f l <> Hang.
Proof.
  intros H. induction l as [|a r IH]; [discriminate|]. cbn [mapM].
  apply bind_nohang; [apply H|]. intros b _. apply bind_nohang; [apply IH|]. discriminate.
Qed.
Lemma foldM_nohang {A S} (f : S -> A -> res S) l s : (forall s a, f s a <> Hang) -> foldM f l s <> Hang.
Proof.
  intros H. revert s. induction l as [|a r IH]; intros s; [discriminate|]. cbn [foldM].
  apply bind_nohang; [apply H|]. intros b _. apply IH.
Qed.
Create HintDb nohang.
#[export] Hint Resolve check_nohang idx_nohang front_nohang atz_nohang setz_nohang sti_nohang std_nohang : nohang.
Ltac nh :=
  repeat first
    [ progress auto with nohang
    | discriminate
    | apply bind_nohang; [|intros ? _]
    | match goal with |- (match ?x with _ => _ end) <> Hang => destruct x end
    | progress cbn zeta ].
Lemma merge_quotes_nohang q ts : merge_quotes q ts <> Hang.
Proof. revert q. induction ts as [|t r IH]; intros q; destruct q; cbn [merge_quotes]; nh. Qed.
Lemma split_quotes_nohang l : split_quotes l <> Hang.
Proof. apply merge_quotes_nohang. Qed.
Lemma goto_keyword_nohang kw s : goto_keyword kw s <> Hang.
Proof. unfold goto_keyword. nh. Qed.
Lemma goto_keywords_nohang kw s : goto_keywords kw s <> Hang.
Proof. unfold goto_keywords. nh. Qed.
Lemma check_keyword_nohang kw s : check_keyword kw s <> Hang.
Proof. unfold check_keyword. nh. Qed.
#[export] Hint Resolve split_quotes_nohang goto_keyword_nohang goto_keywords_nohang check_keyword_nohang : nohang.
Lemma header_loop_nohang n ls : header_loop n ls <> Hang.
Proof. revert n. induction ls as [|l r IH]; intros n; cbn [header_loop]; nh. Qed.
#[export] Hint Resolve header_loop_nohang : nohang.
Lemma read_header_nohang s : read_header s <> Hang.
Proof. unfold read_header. nh. Qed.
Lemma crs_line_nohang c l : crs_line c l <> Hang.
Proof. unfold crs_line. nh. Qed.
#[export] Hint Resolve crs_line_nohang : nohang.
Lemma crs_loop_nohang c ls : crs_loop c ls <> Hang.
Proof. revert c. induction ls as [|l r IH]; intros c; cbn [crs_loop]; nh. Qed.
#[export] Hint Resolve crs_loop_nohang read_header_nohang : nohang.
Lemma read_CRS_nohang s : read_CRS s <> Hang.
Proof. unfold read_CRS. nh. Qed.
Lemma two_strings_nohang sl a c n : two_strings sl a c n <> Hang.
Proof. revert a c. induction n as [|n IH]; intros a c; cbn [two_strings]; nh. Qed.
#[export] Hint Resolve two_strings_nohang read_CRS_nohang : nohang.
Lemma kw_one_string_nohang kw n s : kw_one_string kw n s <> Hang.
Proof. unfold kw_one_string. nh. apply mapM_nohang; nh. Qed.
Lemma kw_two_strings_nohang kw n s : kw_two_strings kw n s <> Hang.
Proof. unfold kw_two_strings. nh. Qed.
Lemma kw_one_double_nohang F kw n s : kw_one_double F kw n s <> Hang.
Proof. unfold kw_one_double. nh. apply mapM_nohang. intros; nh. Qed.
Lemma kw_one_index_nohang kw n s : kw_one_index kw n s <> Hang.
Proof. unfold kw_one_index. nh. apply mapM_nohang. intros; nh. Qed.
#[export] Hint Resolve kw_one_string_nohang kw_two_strings_nohang kw_one_double_nohang kw_one_index_nohang : nohang.
Lemma read_prop_header_nohang F p s : read_prop_header F p s <> Hang.
Proof. unfold read_prop_header. nh. apply mapM_nohang; nh. Qed.
Lemma read_items_nohang F tk n pos : read_items F tk n pos <> Hang.
Proof. revert pos. induction n as [|n IH]; intros pos; cbn [read_items]; nh. Qed.
#[export] Hint Resolve read_items_nohang read_prop_header_nohang : nohang.
Lemma read_properties_nohang F n e v tk pos : read_properties F n e v tk pos <> Hang.
Proof. revert e v pos. induction n as [|x n IH]; intros e v pos; cbn [read_properties]; nh. Qed.
Lemma tok_index_nohang o tk i : tok_index o tk i <> Hang.
Proof. unfold tok_index. nh. Qed.
Lemma vrtx_offset_nohang b o tk : vrtx_offset b o tk <> Hang.
Proof. unfold vrtx_offset. nh. Qed.
Lemma vrtx_point_nohang F c tk : vrtx_point F c tk <> Hang.
Proof. unfold vrtx_point. nh. Qed.
#[export] Hint Resolve read_properties_nohang tok_index_nohang vrtx_offset_nohang vrtx_point_nohang : nohang.
Lemma tface_line_nohang F ts l : tface_line F ts l <> Hang.
Proof. unfold tface_line. nh. Qed.
Lemma iline_line_nohang F ts l : iline_line F ts l <> Hang.
Proof. unfold iline_line. nh. Qed.
#[export] Hint Resolve tface_line_nohang iline_line_nohang : nohang.
Lemma tfaces_loop_nohang F ts ls : tfaces_loop F ts ls <> Hang.
Proof. revert ts. induction ls as [|l r IH]; intros ts; cbn [tfaces_loop]; nh. Qed.
Lemma ilines_loop_nohang F ts ls : ilines_loop F ts ls <> Hang.
Proof. revert ts. induction ls as [|l r IH]; intros ts; cbn [ilines_loop]; nh. Qed.
#[export] Hint Resolve tfaces_loop_nohang ilines_loop_nohang : nohang.
Lemma vset_line_nohang F ts l : vset_line F ts l <> Hang.
Proof. unfold vset_line. nh. Qed.
#[export] Hint Resolve vset_line_nohang : nohang.
Lemma vset_loop_nohang F ts ls : vset_loop F ts ls <> Hang.
Proof. revert ts. induction ls as [|l r IH]; intros ts; cbn [vset_loop]; nh. Qed.
#[export] Hint Resolve vset_loop_nohang : nohang.
Lemma read_tsurf_nohang F s : read_tsurf F s <> Hang.
Proof. unfold read_tsurf, read_tfaces. nh. Qed.
Lemma read_ecurve_nohang F s : read_ecurve F s <> Hang.
Proof. unfold read_ecurve, read_ilines. nh. Qed.
Lemma read_vs_points_nohang F s : read_vs_points F s <> Hang.
Proof. unfold read_vs_points, read_VSet_vertices. nh. Qed.
Lemma fill_attr_nohang {V} (vals : list V) e d mp pt n a : fill_attr vals e d mp pt n a <> Hang.
Proof.
  revert pt a. induction n as [|n IH]; intros pt a; cbn [fill_attr]; nh.
  unfold attr_row. nh. apply mapM_nohang; nh.
Qed.
Lemma create_attributes_nohang F C h v nb mp (m : mesh F C) : create_attributes h v nb mp m <> Hang.
Proof.
  unfold create_attributes. generalize (p_esizes h) (p_ndv h).
  revert v m. induction (p_names h) as [|n r IH]; intros v m es ds; cbn [create_attributes_loop]; [nh|].
  destruct es, ds, v; try discriminate. cbn zeta. apply bind_nohang; [unfold find_or_create; nh|]. intros a _.
  apply bind_nohang; [apply fill_attr_nohang|]. intros b _. apply IH.
Qed.
#[export] Hint Resolve read_tsurf_nohang read_ecurve_nohang read_vs_points_nohang create_attributes_nohang : nohang.
Lemma build_surface_nohang F (m : mesh F tri) ts : build_surface m ts <> Hang.
Proof. unfold build_surface. nh. apply foldM_nohang. intros s0 [[a b] c]. unfold create_triangle. nh. Qed.
Lemma build_curve_nohang F (m : mesh F edge) ts : build_curve m ts <> Hang.
Proof. unfold build_curve. nh. apply foldM_nohang. intros s0 [a b]. unfold create_edge. nh. Qed.
Lemma build_point_set_nohang F (m : mesh F unit) ts : build_point_set m ts <> Hang.
Proof. unfold build_point_set. nh. Qed.

Section Loop.
Context {M O : Type} (rd : istream -> res (option O * istream)) (bld : M -> O -> res M).
Context (rd_nohang : forall s, rd s <> Hang) (bld_nohang : forall m o, bld m o <> Hang).
Context (rd_less : forall s o s', rd s = Ok (Some o, s') ->
           (List.length (pending s') < List.length (pending s))%nat).
Context (loop : nat -> M -> istream -> res M)
  (loop_O : forall m s, loop 0%nat m s = Hang)
  (loop_S : forall f m s, loop (S f) m s =
    do '(o, s1) <- rd s;
    match o with
    | None => Ok m
    | Some ts => do m1 <- bld m ts; loop f m1 s1
    end).
Lemma loop_nohang f m s : (List.length (pending s) < f)%nat -> loop f m s <> Hang.
Proof.
  revert m s. induction f as [|f IH]; intros m s H; [lia|]. rewrite loop_S.
  destruct (rd s) as [[[o|] s1]| | |] eqn:E; cbn [bind]; try discriminate; [|now destruct (rd_nohang s)].
  apply bind_nohang; [apply bld_nohang|]. intros m1 _. apply IH. apply rd_less in E. lia.
Qed.
Lemma loop_mono f m s : loop f m s <> Hang -> forall f', (f <= f')%nat -> loop f' m s = loop f m s.
Proof.
  revert m s. induction f as [|f IH]; intros m s H f' Hf; [now destruct (H (loop_O m s))|].
  destruct f' as [|f']; [lia|]. rewrite loop_S in H. rewrite !loop_S.
  destruct (rd s) as [[[o|] s1]| | |]; cbn [bind] in *; auto.
  destruct (bld m o) as [m1| | |]; cbn [bind] in *; auto. apply IH; [assumption|lia].
Qed.
Lemma loop_fuel f f' m s : (List.length (pending s) < f)%nat -> (List.length (pending s) < f')%nat ->
  loop f m s = loop f' m s.
Proof.
  intros H H'. destruct (Nat.le_ge_cases f f').
  - symmetry. apply loop_mono; [|assumption]. now apply loop_nohang.
  - apply loop_mono; [|assumption]. now apply loop_nohang.
Qed.
End Loop.
Lemma suffix_strict {A} (l : bytes) (a b : list bytes) (x : A) : suffix (l :: b) a ->
  (List.length b < List.length a)%nat.
Proof. intros H. apply suffix_length in H. cbn [List.length] in H. lia. Qed.
Lemma read_ts_loop_nohang F f (m : mesh F _) s : (List.length (pending s) < f)%nat -> read_ts_loop f m s <> Hang.
Proof.
  apply (loop_nohang (read_tsurf F) build_surface); [apply read_tsurf_nohang|apply build_surface_nohang| |reflexivity].
  intros s0 o s' H. apply read_tsurf_suffix in H as [l H]. now apply (suffix_strict l _ _ tt).
Qed.
Lemma read_ts_loop_fuel F f f' (m : mesh F _) s : (List.length (pending s) < f)%nat ->
  (List.length (pending s) < f')%nat -> read_ts_loop f m s = read_ts_loop f' m s.
Proof.
  apply (loop_fuel (read_tsurf F) build_surface); [apply read_tsurf_nohang|apply build_surface_nohang| |reflexivity|reflexivity].
  intros s0 o s' H. apply read_tsurf_suffix in H as [l H]. now apply (suffix_strict l _ _ tt).
Qed.
Lemma read_pl_loop_nohang F f (m : mesh F _) s : (List.length (pending s) < f)%nat -> read_pl_loop f m s <> Hang.
Proof.
  apply (loop_nohang (read_ecurve F) build_curve); [apply read_ecurve_nohang|apply build_curve_nohang| |reflexivity].
  intros s0 o s' H. apply read_ecurve_suffix in H as [l H]. now apply (suffix_strict l _ _ tt).
Qed.
Lemma read_pl_loop_fuel F f f' (m : mesh F _) s : (List.length (pending s) < f)%nat ->
  (List.length (pending s) < f')%nat -> read_pl_loop f m s = read_pl_loop f' m s.
Proof.
  apply (loop_fuel (read_ecurve F) build_curve); [apply read_ecurve_nohang|apply build_curve_nohang| |reflexivity|reflexivity].
  intros s0 o s' H. apply read_ecurve_suffix in H as [l H]. now apply (suffix_strict l _ _ tt).
Qed.
Lemma read_vs_loop_nohang F f (m : mesh F _) s : (List.length (pending s) < f)%nat -> read_vs_loop f m s <> Hang.
Proof.
  apply (loop_nohang (read_vs_points F) build_point_set); [apply read_vs_points_nohang|apply build_point_set_nohang| |reflexivity].
  intros s0 o s' H. apply read_vs_points_suffix in H as [l H]. now apply (suffix_strict l _ _ tt).
Qed.
Lemma read_vs_loop_fuel F f f' (m : mesh F _) s : (List.length (pending s) < f)%nat ->
  (List.length (pending s) < f')%nat -> read_vs_loop f m s = read_vs_loop f' m s.
Proof.
  apply (loop_fuel (read_vs_points F) build_point_set); [apply read_vs_points_nohang|apply build_point_set_nohang| |reflexivity|reflexivity].
  intros s0 o s' H. apply read_vs_points_suffix in H as [l H]. now apply (suffix_strict l _ _ tt).
Qed.
