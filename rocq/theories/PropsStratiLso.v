(** * Stratigraphic coordinates of a loaded .lso file (C96). *)
From Coq Require Import ZArith List Lia Bool Ascii String Permutation.
From Verif Require Import Base Text TextFacts GocadModel MeshModel TsModel Spec GocadFacts TsFacts LsoModel LsoFacts LsoRead LsoRound LsoFile LsoWhole LsoTrip StreamFacts LsoRel LsoEnds LsoAttrs LsoBlocks PropsGocad PropsSkua ExNum ExCheck PropsLso StratiLso.
Import ListNotations.
Local Open Scope string_scope.
Local Open Scope list_scope.
Local Open Scope Z_scope.

(** The header declares property [n] with [e] values. *)
Definition declared {V} (h : PropHeader V) (n : bytes) (e : Z) : Prop :=
  exists j, nth_error (p_names h) j = Some n /\ nth_error (p_esizes h) j = Some e.
Definition strati_header {V} (h : PropHeader V) : Prop := declared h GEOLOGY 2 /\ declared h STRATIGRAPHY 1.

Section Strati.
Context {F : Num}.
Lemma attributes_types vt count names : NoDup names -> forall esizes ndvs values nb mapping (l l' : list (bytes * attr (num F))),
  (forall n, In n names -> find_attr n l = None) ->
  make_attributes vt count names esizes ndvs values nb mapping l = Ok l' ->
  forall j n, nth_error names j = Some n -> exists e a, nth_error esizes j = Some e /\ find_attr n l' = Some a /\ a_type a = attr_type e.
Proof.
  induction 1 as [|x names Hx ND IH]; intros esizes ndvs values nb mapping l l' HN E j n Hj; [destruct j; discriminate|]. cbn [make_attributes] in E.
  destruct esizes as [|e es]; [discriminate|]. destruct ndvs as [|d ds]; [discriminate|]. destruct values as [|v vs]; [discriminate|].
  apply bind_ok in E. destruct E as [a [Ea E]]. apply bind_ok in E. destruct E as [w [Ew E]].
  destruct j as [|j]; cbn [nth_error] in Hj.
  - assert (n = x) as -> by congruence. clear Hj. exists e, (mkAttr (a_type a) (a_def a) w). cbn [nth_error]. split; [reflexivity|]. split.
    + rewrite (make_attributes_keep _ _ _ _ _ _ _ _ _ _ x E Hx). apply find_replace_same.
    + cbn [a_type]. unfold find_or_create_in in Ea. destruct (vt && beq x "points"); [discriminate|]. rewrite (HN x (or_introl eq_refl)) in Ea.
      assert (a = mkAttr (attr_type e) (repeat d (Z.to_nat e)) (repeat (repeat d (Z.to_nat e)) count)) as -> by congruence. reflexivity.
  - cbn [nth_error]. eapply (IH es ds vs nb mapping); [|exact E|exact Hj]. intros n' Hn'. rewrite find_replace_other; [apply HN; now right|]. intros ->. now apply Hx.
Qed.
Definition typed_by (h : PropHeader (num F)) (l : list (bytes * attr (num F))) : Prop :=
  (forall j n, nth_error (p_names h) j = Some n -> exists e a, nth_error (p_esizes h) j = Some e /\ find_attr n l = Some a /\ a_type a = attr_type e) /\
  (forall n, ~ In n (p_names h) -> find_attr n l = None).
Lemma blocks_typed text (m' : LsoIn F) crs vp tp : read_lso F text = Ok m' -> lso_headers text = Ok (crs, vp, tp) -> good_header vp ->
  Forall (fun r => typed_by vp (r_vattrs r)) (i_blocks m').
Proof.
  intros E EH GV. unfold read_lso in E. unfold lso_headers in EH. destruct (goto_if _ (open_text text)) as [[l0|] s0] eqn:E0; [|discriminate].
  apply bind_ok in E. destruct E as [[title s1] [E1 E]]. rewrite E1 in EH. cbn [bind] in EH.
  apply bind_ok in E. destruct E as [[crs' s2] [E2 E]]. rewrite E2 in EH. cbn [bind] in EH.
  apply bind_ok in E. destruct E as [[vp' s3] [E3 E]]. rewrite E3 in EH. cbn [bind] in EH.
  apply bind_ok in E. destruct E as [[tp' s4] [E4 E]]. rewrite E4 in EH. cbn [bind] in EH.
  assert (crs' = crs /\ vp' = vp /\ tp' = tp) as [-> [-> ->]] by (repeat split; congruence). clear EH.
  unfold lso_body in E. apply bind_ok in E. destruct E as [[line s5] [_ E]]. apply bind_ok in E. destruct E as [[[sv line2] s6] [_ E]].
  apply bind_ok in E. destruct E as [[line3 s7] [_ E]]. apply bind_ok in E. destruct E as [[[st line4] s8] [_ E]].
  apply bind_ok in E. destruct E as [[line5 s9] [_ E]]. apply bind_ok in E. destruct E as [[line5' s10] [_ E]].
  destruct (getline line5' s10) as [[g line6] s11]. apply bind_ok in E. destruct E as [[[[ss hs] line7] s12] [_ E]].
  apply bind_ok in E. destruct E as [[bs bad] [E9 E]].
  match type of E with Ok ?x = _ => assert (m' = x) as -> by congruence end. clear E. cbn [i_blocks].
  apply blocks_from in E9. eapply Forall_impl; [|exact E9]. intros r [name [bd EB]]. unfold build_block in EB.
  apply bind_ok in EB. destruct EB as [[us ts'] [_ EB]]. apply bind_ok in EB. destruct EB as [va [Eva EB]]. apply bind_ok in EB. destruct EB as [ta [_ EB]].
  match type of EB with Ok (?x, ?y) = _ => assert (r = x) as -> by congruence end. cbn [r_vattrs]. split.
  - eapply attributes_types; [apply (gh_names vp GV)| |exact Eva]. intros; reflexivity.
  - intros n Hn. rewrite (make_attributes_keep _ _ _ _ _ _ _ _ _ _ n Eva Hn). reflexivity.
Qed.
Lemma attr_type_inv e k : 1 <= k <= 3 -> attr_type e = k -> e = k.
Proof. unfold attr_type. intros Hk. destruct ((1 <=? e) && (e <=? 3)); lia. Qed.
Lemma declared_typed (h : PropHeader (num F)) l n e : 1 <= e <= 3 -> typed_by h l ->
  (declared h n e <-> exists a, find_attr n l = Some a /\ a_type a = e).
Proof.
  intros He [T1 T2]. split.
  - intros [j [Hn Hs]]. destruct (T1 j n Hn) as [e' [a [Hs' [Ha Ht]]]]. assert (e' = e) as -> by congruence. exists a. split; [assumption|].
    rewrite Ht. unfold attr_type. destruct (Z.leb_spec 1 e); [|lia]. destruct (Z.leb_spec e 3); [reflexivity|lia].
  - intros [a [Ha Ht]]. destruct (in_dec bytes_dec n (p_names h)) as [Hi|Hi]; [|rewrite (T2 n Hi) in Ha; discriminate].
    apply In_nth_error in Hi. destruct Hi as [j Hj]. destruct (T1 j n Hj) as [e' [a' [Hs' [Ha' Ht']]]]. assert (a' = a) as -> by congruence.
    exists j. split; [assumption|]. rewrite Hs'. f_equal. symmetry in Ht'. rewrite Ht in Ht'. now apply attr_type_inv.
Qed.
Lemma typed_attr_cases type n (l : list (bytes * attr (num F))) :
  (exists a, find_attr n l = Some a /\ a_type a = type /\ typed_attr type n l = Ok a) \/
  (~ (exists a, find_attr n l = Some a /\ a_type a = type) /\ typed_attr type n l = Throw ExData).
Proof.
  unfold typed_attr. destruct (find_attr n l) as [a|].
  - destruct (Z.eqb_spec (a_type a) type) as [Ht|Ht]; [left; eauto|right]. split; [|reflexivity]. intros [a' [Ha Ht']]. apply Ht. congruence.
  - right. split; [|reflexivity]. intros [a [Ha _]]. discriminate.
Qed.
Lemma strati_block_wrong (h : PropHeader (num F)) r : typed_by h (r_vattrs r) -> ~ strati_header h -> strati_block r = Throw ExData.
Proof.
  intros T N. unfold strati_header in N. rewrite (declared_typed h _ GEOLOGY 2 ltac:(lia) T), (declared_typed h _ STRATIGRAPHY 1 ltac:(lia) T) in N.
  unfold strati_block. destruct (find_attr STRATIGRAPHY (r_vattrs r)) as [s|] eqn:Es; [|reflexivity]. destruct (find_attr GEOLOGY (r_vattrs r)) as [g|] eqn:Eg; [|reflexivity].
  destruct (typed_attr_cases 1 STRATIGRAPHY (r_vattrs r)) as [[a [Ha [Ht ->]]]|[_ ->]]; [|reflexivity]. cbn [bind].
  destruct (typed_attr_cases 2 GEOLOGY (r_vattrs r)) as [[b [Hb [Hu _]]]|[_ ->]]; [|reflexivity]. exfalso. apply N. split; [exists b|exists a]; split; try assumption; congruence.
Qed.
(** The coordinates of the vertices of a block: vertex [i] comes from vertex line [src i]. *)
Definition strati_values (h : PropHeader (num F)) (vrows : list (list (list (num F)))) (v : Z) (q : point F) : Prop :=
  exists row, nthz vrows v = Some row /\
    forall jg js, nth_error (p_names h) jg = Some GEOLOGY -> nth_error (p_names h) js = Some STRATIGRAPHY ->
      exists x y z, nth_error row jg = Some [x; y] /\ nth_error row js = Some [z] /\ q = (x, y, z).
Lemma row_sizes (h : PropHeader (num F)) vl vrows : good_header h -> Forall2 (fun line row => line_values h (value_pos line) line row) vl vrows ->
  forall v row j vals e, nthz vrows v = Some row -> nth_error row j = Some vals -> nth_error (p_esizes h) j = Some e -> List.length vals = Z.to_nat e.
Proof.
  intros G H v row j vals e Hv Hj He. assert (X : exists line, line_values h (value_pos line) line row).
  { apply nthz_in in Hv. clear -H Hv. induction H as [|l r ls rs Hr _ IH]; [destruct Hv|]. destruct Hv as [->|Hv]; eauto. }
  destruct X as [line [xs [_ [L ->]]]]. rewrite <- (nth_error_nth _ _ [] Hj). eapply chunk_length; [apply (gh_range h G)|exact L|exact He].
Qed.
Lemma nodup_names {V} (h : PropHeader V) i j n : good_header h -> nth_error (p_names h) i = Some n -> nth_error (p_names h) j = Some n -> i = j.
Proof.
  intros G Hi Hj. pose proof (gh_names h G) as ND. rewrite NoDup_nth_error in ND. apply ND; [|congruence]. apply nth_error_Some. congruence.
Qed.
Lemma strati_block_good (h tp : PropHeader (num F)) pts vl vrows trows tets src r : good_header h -> typed_by h (r_vattrs r) -> strati_header h ->
  Forall2 (fun line row => line_values h (value_pos line) line row) vl vrows -> block_holds pts h tp vrows trows tets src r ->
  exists qs, strati_block r = Ok qs /\ Forall2 (strati_values h vrows) src qs.
Proof.
  intros G T [HG HS] HR B. pose proof HG as HG'. pose proof HS as HS'. rewrite (declared_typed h _ GEOLOGY 2 ltac:(lia) T) in HG'. rewrite (declared_typed h _ STRATIGRAPHY 1 ltac:(lia) T) in HS'.
  destruct HG' as [g [Eg Tg]]. destruct HS' as [s [Es Ts]]. destruct HG as [jg [Ng Sg]]. destruct HS as [js [Ns Ss]].
  unfold strati_block, typed_attr. rewrite Es, Eg, Ts, Tg. cbn [Z.eqb Pos.eqb bind].
  destruct (bh_values _ _ _ _ _ _ _ _ B jg _ Ng) as [g' [Eg' Vg]]. assert (g' = g) as -> by congruence.
  destruct (bh_values _ _ _ _ _ _ _ _ B js _ Ns) as [s' [Es' Vs]]. assert (s' = s) as -> by congruence.
  pose proof (bh_points _ _ _ _ _ _ _ _ B) as HP. pose proof (row_sizes h vl vrows G HR) as RS.
  assert (X : forall off gs ss' (pre1 pre2 : list (list (num F))), List.length pre1 = off -> List.length pre2 = off ->
     Forall2 (fun v vals => exists row, nthz vrows v = Some row /\ nth_error row jg = Some vals) src gs ->
     Forall2 (fun v vals => exists row, nthz vrows v = Some row /\ nth_error row js = Some vals) src ss' ->
     exists qs, mapM (fun v => do gv <- idx (pre1 ++ gs) v; do sv <- idx (pre2 ++ ss') v; strati_point gv sv) (seq off (List.length src)) = Ok qs /\ Forall2 (strati_values h vrows) src qs).
  { clear -RS G Ng Ns Sg Ss. induction src as [|v src IH]; intros off gs ss' pre1 pre2 L1 L2 H1 H2.
    - exists []. split; [reflexivity|constructor].
    - inversion H1 as [|? gv ? gs' [row [Hr Hg]] H1' ]; subst. inversion H2 as [|? sv ? ss [row' [Hr' Hs]] H2' ]; subst. assert (row' = row) as -> by congruence.
      pose proof (RS v row jg gv 2 Hr Hg Sg) as Lg. pose proof (RS v row js sv 1 Hr Hs Ss) as Ls.
      destruct gv as [|x [|y [|]]]; try discriminate Lg. destruct sv as [|z [|]]; try discriminate Ls.
      destruct (IH (S (List.length pre1)) gs' ss (pre1 ++ [[x; y]]) (pre2 ++ [[z]])) as [qs [Eq Hq]]; [rewrite app_length; cbn; lia|rewrite app_length; cbn; lia|assumption|assumption|].
      exists ((x, y, z) :: qs). split.
      + cbn [List.length seq mapM]. unfold idx at 1. rewrite nth_error_app2, Nat.sub_diag by lia. cbn [nth_error bind]. unfold idx at 1. rewrite nth_error_app2 by lia. rewrite L2, Nat.sub_diag. cbn [nth_error bind].
        unfold strati_point at 1. cbn [idx nth_error bind].
        rewrite <- !app_assoc in Eq. cbn [app] in Eq. unfold idx in *. rewrite Eq. reflexivity.
      + constructor; [|assumption]. exists row. split; [assumption|]. intros a b Ha Hb. rewrite (nodup_names h a jg _ G Ha Ng), (nodup_names h b js _ G Hb Ns). exists x, y, z. auto. }
  replace (List.length (r_points r)) with (List.length src) by (clear -HP; induction HP; cbn [List.length]; congruence).
  exact (X 0%nat (a_vals g) (a_vals s) [] [] eq_refl eq_refl Vg Vs).
Qed.
End Strati.

(** For a file made of complete lines, read as a structural model [m']: when it has a block the properties must be declared, the one with
    two values, the other with one; otherwise the data is refused. *)
Theorem C96_accepted (F : Num) text (m' : LsoIn F) crs vp tp : nl (open_text text) = true -> read_lso F text = Ok m' ->
  lso_headers (F := F) text = Ok (crs, vp, tp) -> good_header vp -> good_header tp ->
  ((i_blocks m' = [] \/ strati_header vp) -> exists cs, read_strati F text = Ok (m', cs)) /\
  (i_blocks m' <> [] -> ~ strati_header vp -> read_strati F text = Throw ExData).
Proof.
  intros N E EH GV GT. destruct (lso_content text m' crs vp tp N E EH GV GT) as [before [vl [mid [tl [after [pts [vrows [tets [trows [E1 [E2 [E3 [E4 [_ [_ HB]]]]]]]]]]]]]]].
  pose proof (blocks_typed text m' crs vp tp E EH GV) as HT. unfold read_strati. rewrite E. cbn [bind]. split.
  - intros [EB|SH]; [rewrite EB; cbn [mapM bind]; eauto|]. clear -GV SH HB HT E4.
    assert (X : exists cs, mapM strati_block (i_blocks m') = Ok cs).
    { induction HB as [|r rs [src B] _ IH]; [exists []; reflexivity|]. inversion_clear HT as [|? ? T HT']. destruct (IH HT') as [cs Ecs].
      destruct (strati_block_good vp tp pts vl vrows trows tets src r GV T SH E4 B) as [qs [Eq _]]. exists (qs :: cs). cbn [mapM]. rewrite Eq. cbn [bind]. rewrite Ecs. reflexivity. }
    destruct X as [cs ->]. cbn [bind]. eauto.
  - intros NB NS. destruct (i_blocks m') as [|r rs]; [congruence|]. inversion_clear HT as [|? ? T _]. cbn [mapM]. rewrite (strati_block_wrong vp r T NS). reflexivity.
Qed.
Print Assumptions C96_accepted.

(** The coordinates of the vertices: [vl] the vertex lines of the file, [vrows] the values of the properties on them, [src] the vertex
    line of each vertex of a block. *)
Theorem C96_coordinates (F : Num) text (m' : LsoIn F) cs crs vp tp : nl (open_text text) = true -> read_strati F text = Ok (m', cs) ->
  lso_headers (F := F) text = Ok (crs, vp, tp) -> good_header vp -> good_header tp ->
  read_lso F text = Ok m' /\
  exists before vl after pts vrows, pending (open_text text) = before ++ vl ++ after /\
    lenz pts = lenz vl /\ (forall v line, nthz vl v = Some line -> vertex_point crs pts line v) /\
    Forall2 (fun line row => line_values vp (value_pos line) line row) vl vrows /\
    Forall2 (fun r qs => exists src, NoDup src /\ Forall2 (fun v p => nthz pts v = Some p) src (r_points r) /\
      Forall2 (fun v q => exists row jg js x y z, nthz vrows v = Some row /\
        nth_error (p_names vp) jg = Some GEOLOGY /\ nth_error (p_names vp) js = Some STRATIGRAPHY /\
        nth_error row jg = Some [x; y] /\ nth_error row js = Some [z] /\ q = (x, y, z)) src qs) (i_blocks m') cs.
Proof.
  intros N ES EH GV GT. unfold read_strati in ES. apply bind_ok in ES. destruct ES as [m [E ES]]. apply bind_ok in ES. destruct ES as [cs' [EM ES]].
  assert (m = m' /\ cs' = cs) as [-> ->] by (split; congruence). clear ES. split; [assumption|].
  destruct (lso_content text m' crs vp tp N E EH GV GT) as [before [vl [mid [tl [after [pts [vrows [tets [trows [E1 [E2 [E3 [E4 [_ [_ HB]]]]]]]]]]]]]]].
  exists before, vl, (mid ++ flat_pairs tl ++ after), pts, vrows. split; [assumption|]. split; [assumption|]. split; [assumption|]. split; [assumption|].
  pose proof (blocks_typed text m' crs vp tp E EH GV) as HT. apply mapM_ok in EM. clear -EM HB HT GV E4.
  induction EM as [|r qs rs cs Er _ IH]; [constructor|]. inversion_clear HB as [|? ? [src B] HB']. inversion_clear HT as [|? ? T HT']. constructor; [|now apply IH].
  assert (SH : strati_header vp).
  { unfold strati_header. rewrite (declared_typed vp _ GEOLOGY 2 ltac:(lia) T), (declared_typed vp _ STRATIGRAPHY 1 ltac:(lia) T). unfold strati_block in Er.
    destruct (find_attr STRATIGRAPHY (r_vattrs r)) as [s|] eqn:Es; [|discriminate]. destruct (find_attr GEOLOGY (r_vattrs r)) as [g|] eqn:Eg; [|discriminate].
    unfold typed_attr in Er. rewrite Es, Eg in Er. destruct (Z.eqb_spec (a_type s) 1); [|discriminate]. cbn [bind] in Er. destruct (Z.eqb_spec (a_type g) 2); [|discriminate].
    split; eauto. }
  destruct (strati_block_good vp tp pts vl vrows trows tets src r GV T SH E4 B) as [qs' [Eq Hq]]. assert (qs' = qs) as -> by congruence.
  exists src. split; [exact (bh_nodup _ _ _ _ _ _ _ _ B)|]. split; [exact (bh_points _ _ _ _ _ _ _ _ B)|]. destruct SH as [[jg [Ng _]] [js [Ns _]]].
  clear -Hq Ng Ns. induction Hq as [|v q src qs [row [Hr Hv]] _ IH]; constructor; [|assumption].
  destruct (Hv jg js Ng Ns) as [x [y [z [H1 [H2 H3]]]]]. exists row, jg, js, x, y, z. repeat (split; [assumption|]). assumption.
Qed.
Print Assumptions C96_coordinates.

(** ** is_loadable *)
Lemma contains_inside a p b : contains (a ++ p ++ b) p = true.
Proof.
  unfold contains. induction a as [|c a IH]; cbn [app].
  - now rewrite after_first_prefix.
  - cbn [after_first]. destruct (starts_with (c :: a ++ p ++ b) p); [reflexivity|exact IH].
Qed.
Definition inside (t l : bytes) : Prop := exists a b, l = a ++ t ++ b.
Lemma inside_trans x y z : inside x y -> inside y z -> inside x z.
Proof. intros [a [b ->]] [c [d ->]]. exists (c ++ a), (b ++ d). now rewrite <- !app_assoc. Qed.
Lemma drop_while_suffix p l : exists a, l = a ++ drop_while p l.
Proof. induction l as [|c l [a IH]]; cbn [drop_while]; [exists []; reflexivity|]. destruct (p c); [exists (c :: a); cbn [app]; congruence|exists []; reflexivity]. Qed.
Lemma strip_inside l : inside (strip l) l.
Proof.
  unfold strip. destruct (drop_while_suffix isspace (rev l)) as [a Ha]. destruct (drop_while_suffix isspace (rev (drop_while isspace (rev l)))) as [b Hb].
  exists b, (rev a). rewrite app_assoc, <- Hb, <- rev_app_distr, <- Ha. now rewrite rev_involutive.
Qed.
Lemma split_run_inside t : forall l cur, In t (split_run cur l) -> inside t (cur ++ l).
Proof.
  assert (FL : forall cur, In t (flush cur) -> t = cur) by (intros [|c cur]; cbn [flush]; [intros []|intros [<-|[]]; reflexivity]).
  induction l as [|c l IH]; intros cur H; cbn [split_run] in H.
  - apply FL in H. subst. exists [], []. cbn [app]. now rewrite !app_nil_r.
  - destruct (is_sep c).
    + apply in_app_iff in H. destruct H as [H|H]; [apply FL in H; subst; exists [], (c :: l); reflexivity|].
      apply IH in H. cbn [app] in H. eapply inside_trans; [exact H|]. exists (cur ++ [c]), []. now rewrite app_nil_r, <- app_assoc.
    + apply IH in H. now rewrite <- app_assoc in H.
Qed.
Lemma string_split_inside t l : In t (string_split l) -> inside t l.
Proof. intros H. apply split_run_inside in H. cbn [app] in H. eapply inside_trans; [exact H|apply strip_inside]. Qed.
Lemma merge_quotes_inside n : ~ In SP n -> forall ts q out, merge_quotes q ts = Ok out -> In n out -> (q = None \/ q = Some [] \/ exists acc, q = Some acc /\ In SP acc) ->
  exists t, In t ts /\ inside n t.
Proof.
  intros NS. induction ts as [|t ts IH]; intros q out E H Q; destruct q as [acc|]; cbn [merge_quotes] in E; try discriminate.
  - assert (out = []) as -> by congruence. destruct H.
  - destruct (ends_with_quote t).
    + apply bind_ok in E. destruct E as [m [Em E]]. assert (out = (acc ++ removelast t) :: m) as -> by congruence. destruct H as [H|H].
      * destruct Q as [Q|[Q|[acc' [Q HSP]]]]; [discriminate| |].
        -- assert (acc = []) as -> by congruence. cbn [app] in H. exists t. split; [now left|]. destruct t as [|c t]; [exists [], []; now rewrite <- H|].
           exists [], [last (c :: t) c]. cbn [app]. rewrite <- H. apply app_removelast_last. discriminate.
        -- exfalso. apply NS. rewrite <- H. apply in_app_iff. left. congruence.
      * destruct (IH _ _ Em H (or_introl eq_refl)) as [t' [Ht Hi]]. exists t'. split; [now right|assumption].
    + destruct (IH _ _ E H) as [t' [Ht Hi]]; [|exists t'; split; [now right|assumption]]. right. right. eexists. split; [reflexivity|]. rewrite !in_app_iff. cbn [In]. auto.
  - destruct (beq t Q1).
    + destruct (IH _ _ E H) as [t' [Ht Hi]]; [auto|]. exists t'. split; [now right|assumption].
    + apply bind_ok in E. destruct E as [m [Em E]]. assert (out = t :: m) as -> by congruence. destruct H as [<-|H].
      * exists t. split; [now left|]. exists [], []. cbn [app]. now rewrite app_nil_r.
      * destruct (IH _ _ Em H (or_introl eq_refl)) as [t' [Ht Hi]]. exists t'. split; [now right|assumption].
Qed.
Lemma split_quotes_contains line out n : split_quotes line = Ok out -> In n out -> ~ In SP n -> contains line n = true.
Proof.
  intros E H NS. destruct (merge_quotes_inside n NS _ _ _ E H (or_introl eq_refl)) as [t [Ht Hi]]. apply string_split_inside in Ht.
  destruct (inside_trans _ _ _ Hi Ht) as [a [b ->]]. apply contains_inside.
Qed.
(** The names of the header come from a line of the stream. *)
Lemma prop_header_line F s h s' n : read_prop_header F [] s = Ok (h, s') -> In n (p_names h) -> ~ In SP n ->
  exists line r, pending s = line :: r /\ starts_with line "PROPERTIES" = true /\ contains line n = true.
Proof.
  intros E H NS. unfold read_prop_header, next_if in E. destruct (pending s) as [|l r]; [assert (h = empty_prop) as -> by congruence; destruct H|].
  cbn [app] in E. destruct (starts_with l (lit "PROPERTIES")) eqn:ES; [|assert (h = empty_prop) as -> by congruence; destruct H].
  exists l, r. split; [reflexivity|]. split; [assumption|]. apply bind_ok in E. destruct E as [sl [Esl E]].
  destruct (Nat.eqb (pred (List.length sl)) 0) eqn:E0; [assert (h = empty_prop) as -> by congruence; destruct H|].
  apply bind_ok in E. destruct E as [names [En E]].
  repeat (apply bind_ok in E; destruct E as [[? ?] [_ E]]).
  match type of E with Ok (?x, ?y) = _ => assert (h = x) as -> by congruence end. cbn [p_names] in H.
  apply split_quotes_contains with (out := sl); [assumption| |assumption]. apply mapM_ok in En. clear -En H. induction En as [|i x l l' Hx _ IH]; [destruct H|].
  destruct H as [->|H]; [|auto]. unfold idx in Hx. destruct (nth_error sl (i + 1)) eqn:Hn; [|discriminate]. assert (b = n) as -> by congruence. now apply nth_error_In in Hn.
Qed.
Lemma scan_only p (ls pre : list bytes) l r : ls = pre ++ l :: r -> p l = true -> (List.length (filter p ls) <= 1)%nat -> scan p ls = Some (l, r).
Proof.
  intros -> Hl. induction pre as [|x pre IH]; cbn [app filter scan]; [now rewrite Hl|].
  destruct (p x); [|exact IH]. cbn [List.length]. rewrite filter_app. cbn [filter]. rewrite Hl, app_length. cbn [List.length]. lia.
Qed.

(** A file with one line PROPERTIES, read as a stratigraphic model with a block, is announced loadable. *)
Theorem C96_loadable (F : Num) text (m' : LsoIn F) cs : read_strati F text = Ok (m', cs) -> i_blocks m' <> [] ->
  (forall crs vp tp, lso_headers (F := F) text = Ok (crs, vp, tp) -> good_header vp) ->
  (List.length (filter (fun l => starts_with l "PROPERTIES") (pending (open_text text))) <= 1)%nat ->
  strati_loadable text = true.
Proof.
  intros ES NB GH ONE. unfold read_strati in ES. apply bind_ok in ES. destruct ES as [m [E ES]]. apply bind_ok in ES. destruct ES as [cs' [EM ES]].
  assert (m = m' /\ cs' = cs) as [-> ->] by (split; congruence). clear ES.
  assert (X : exists crs vp tp s2 s3, lso_headers (F := F) text = Ok (crs, vp, tp) /\ keeps (open_text text) s2 /\ read_prop_header F [] s2 = Ok (vp, s3) /\ loadable "GOCAD LightTSolid" text = true).
  { clear -E. unfold read_lso in E. unfold lso_headers, loadable. destruct (goto_if _ (open_text text)) as [[l0|] s0] eqn:E0; [|discriminate].
    apply bind_ok in E. destruct E as [[title s1] [E1 E]]. rewrite E1. cbn [bind]. apply bind_ok in E. destruct E as [[crs s2] [E2 E]]. rewrite E2. cbn [bind].
    apply bind_ok in E. destruct E as [[vp s3] [E3 E]]. rewrite E3. cbn [bind]. apply bind_ok in E. destruct E as [[tp s4] [E4 E]]. rewrite E4. cbn [bind].
    exists crs, vp, tp, s2, s3. split; [reflexivity|]. split; [|auto]. apply goto_if_keeps in E0. destruct E0 as [E0 _]. apply read_header_keeps in E1. apply read_CRS_keeps in E2.
    repeat (eapply keeps_trans; [eassumption|]). apply keeps_refl. }
  destruct X as [crs [vp [tp [s2 [s3 [EH [[K _] [EP L]]]]]]]]. specialize (GH crs vp tp EH). unfold strati_loadable. rewrite L. cbn [andb].
  pose proof (blocks_typed text m' crs vp tp E EH GH) as HT. destruct (i_blocks m') as [|r rs]; [congruence|]. inversion_clear HT as [|? ? T _].
  assert (NM : In GEOLOGY (p_names vp) /\ In STRATIGRAPHY (p_names vp)).
  { cbn [mapM] in EM. apply bind_ok in EM. destruct EM as [q [Er _]]. unfold strati_block in Er. destruct T as [_ T2].
    destruct (in_dec bytes_dec GEOLOGY (p_names vp)) as [G|G]; [|rewrite (T2 _ G) in Er; destruct (find_attr STRATIGRAPHY (r_vattrs r)); discriminate].
    destruct (in_dec bytes_dec STRATIGRAPHY (p_names vp)) as [S|S]; [auto|rewrite (T2 _ S) in Er; discriminate]. }
  destruct NM as [NG NS]. assert (sp : forall n, existsb (Ascii.eqb SP) n = false -> ~ In SP n).
  { intros n Hn Hi. assert (existsb (Ascii.eqb SP) n = true) by (apply existsb_exists; exists SP; split; [assumption|apply Ascii.eqb_refl]). congruence. }
  destruct (prop_header_line F s2 vp s3 GEOLOGY EP NG) as [line [rest [P1 [P2 P3]]]]; [apply sp; reflexivity|].
  destruct (prop_header_line F s2 vp s3 STRATIGRAPHY EP NS) as [line' [rest' [P1' [_ P3']]]]; [apply sp; reflexivity|].
  assert (line' = line) as -> by congruence. destruct K as [pre K]. rewrite P1 in K. unfold goto_if.
  rewrite (scan_only _ _ _ _ _ K P2 ONE), P3, P3'. reflexivity.
Qed.
Print Assumptions C96_loadable.

(** A tetrahedron with the two properties, and with names or sizes that do not suit. *)
Definition GEOLOGY_s : string := "SnS!ingridStructuralWorkflow/skua_model_Geology".
Definition STRATIGRAPHY_s : string := "SnS!ingridStructuralWorkflow/skua_model_stratigraphy".
Definition strati_file (geology sizes v1 v2 v3 v4 : string) : list bytes :=
  lso_top ++ map lit ["PROPERTIES " ++ geology ++ " " ++ STRATIGRAPHY_s; "PROP_LEGAL_RANGES **none** **none** **none** **none**"; "NO_DATA_VALUES -99999 -99999"; "PROPERTY_CLASSES g s";
           "PROPERTY_KINDS Length Length"; "PROPERTY_SUBCLASSES QUANTITY Float QUANTITY Float"; "ESIZES " ++ sizes; "UNITS m m";
           "PVRTX 1 0 0 0 " ++ v1; "PVRTX 2 1 0 0 " ++ v2; "PVRTX 3 0 1 0 " ++ v3; "PVRTX 4 0 0 1 " ++ v4; "TETRA 4 1 2 3"; "# CTETRA sand none none none none";
           "MODEL"; "SURFACE top"; "TFACE 1"; "KEYVERTICES 1 2 3"; "TRGL 1 2 3"; "MODEL_REGION sand +1"; "END"]%string.
Definition strati_good : list bytes := strati_file GEOLOGY_s "2 1" "11 12 13" "21 22 23" "31 32 33" "41 42 43".
Definition strati_renamed : list bytes := strati_file (GEOLOGY_s ++ "_old") "2 1" "11 12 13" "21 22 23" "31 32 33" "41 42 43".
Definition strati_sized : list bytes := strati_file GEOLOGY_s "1 1" "11 12" "21 22" "31 32" "41 42".
Definition peqb (p q : point ExNum) : bool := let '(a, b, c) := p in let '(x, y, z) := q in (a =? x) && (b =? y) && (c =? z).
Lemma peqb_ok p q : peqb p q = true -> p = q.
Proof. destruct p as [[a b] c], q as [[x y] z]. unfold peqb. intros H. apply andb_true_iff in H. destruct H as [H H3]. apply andb_true_iff in H. destruct H as [H1 H2]. apply Z.eqb_eq in H1, H2, H3. congruence. Qed.
Definition is_data {A} (r : res A) : bool := match r with Throw ExData => true | _ => false end.
Lemma is_data_ok {A} (r : res A) : is_data r = true -> r = Throw ExData.
Proof. destruct r as [|[]| |]; cbn; congruence. Qed.
Lemma headers_strati l : match lso_headers (F := ExNum) (unlines l) with
    | Ok (crs, vp, tp) => leqb beq (p_names vp) [GEOLOGY; STRATIGRAPHY] && leqb Z.eqb (p_esizes vp) [2; 1] && leqb Z.eqb (p_ndv vp) [-99999; -99999] && leqb beq (p_names tp) [] && leqb Z.eqb (p_esizes tp) [] && leqb Z.eqb (p_ndv tp) []
    | _ => false end = true ->
  exists crs vp tp, lso_headers (F := ExNum) (unlines l) = Ok (crs, vp, tp) /\ good_header vp /\ good_header tp /\ strati_header vp.
Proof.
  destruct (lso_headers (unlines l)) as [[[crs vp] tp]| | |]; [|discriminate|discriminate|discriminate]. intros H. exists crs, vp, tp. split; [reflexivity|].
  repeat (apply andb_true_iff in H; destruct H as [H ?]).
  assert (Z_ok : forall u v, (u =? v) = true -> u = v) by (intros; now apply Z.eqb_eq). assert (b_ok : forall u v, beq u v = true -> u = v) by (intros u v; apply beq_eq).
  repeat match goal with K : leqb Z.eqb _ _ = true |- _ => apply (leqb_ok Z.eqb Z_ok) in K end.
  repeat match goal with K : leqb beq _ _ = true |- _ => apply (leqb_ok beq b_ok) in K end.
  assert (DIF : GEOLOGY <> STRATIGRAPHY) by (intros X; apply (f_equal (fun x => beq x GEOLOGY)) in X; vm_compute in X; discriminate).
  split; [|split].
  - split; repeat match goal with K : p_names _ = _ |- _ => rewrite K; clear K | K : p_esizes _ = _ |- _ => rewrite K; clear K | K : p_ndv _ = _ |- _ => rewrite K; clear K end; try reflexivity.
    + repeat (apply Forall_cons; [lia|]). constructor.
    + constructor; [intros [X|[]]; congruence|]. constructor; [intros []|constructor].
  - split; repeat match goal with K : p_names _ = _ |- _ => rewrite K; clear K | K : p_esizes _ = _ |- _ => rewrite K; clear K | K : p_ndv _ = _ |- _ => rewrite K; clear K end; try reflexivity; constructor.
  - split; [exists 0%nat|exists 1%nat]; repeat match goal with K : p_names _ = _ |- _ => rewrite K; clear K | K : p_esizes _ = _ |- _ => rewrite K; clear K end; auto.
Qed.
(** The hypotheses of the three theorems on a file, and the coordinates: the block begins with the vertex of line 4. *)
Example C96_example : exists m' crs vp tp, nl (open_text (unlines strati_good)) = true /\
  read_strati ExNum (unlines strati_good) = Ok (m', [[(41, 42, 43); (11, 12, 13); (21, 22, 23); (31, 32, 33)]]) /\ i_blocks m' <> [] /\
  lso_headers (F := ExNum) (unlines strati_good) = Ok (crs, vp, tp) /\ good_header vp /\ good_header tp /\ strati_header vp /\
  (List.length (filter (fun l => starts_with l "PROPERTIES") (pending (open_text (unlines strati_good)))) <= 1)%nat /\ strati_loadable (unlines strati_good) = true.
Proof.
  assert (H : match read_strati ExNum (unlines strati_good) with
              | Ok (m, cs) => leqb (leqb peqb) cs [[(41, 42, 43); (11, 12, 13); (21, 22, 23); (31, 32, 33)]] && (List.length (i_blocks m) =? 1)%nat | _ => false end = true) by (vm_compute; reflexivity).
  destruct (read_strati ExNum (unlines strati_good)) as [[m' cs]| | |]; [|discriminate H|discriminate H|discriminate H]. apply andb_true_iff in H. destruct H as [H H'].
  apply leqb_ok in H; [|intros u v; apply leqb_ok; apply peqb_ok]. subst cs. destruct (headers_strati strati_good) as [crs [vp [tp [EH [GV [GT SH]]]]]]; [vm_compute; reflexivity|].
  exists m', crs, vp, tp. split; [vm_compute; reflexivity|]. split; [reflexivity|]. split; [intros X; rewrite X in H'; discriminate|]. repeat (split; [assumption|]).
  split; [apply Nat.leb_le; vm_compute; reflexivity|vm_compute; reflexivity].
Qed.
(** A file announced loadable may be refused: the names are looked for anywhere in the line, and the numbers of values are not looked at. *)
Theorem C96_loadable_refuted : exists text1 text2 (m1 m2 : LsoIn ExNum),
  strati_loadable text1 = true /\ read_lso ExNum text1 = Ok m1 /\ read_strati ExNum text1 = Throw ExData /\
  (exists crs vp tp, lso_headers (F := ExNum) text1 = Ok (crs, vp, tp) /\ ~ In GEOLOGY (p_names vp)) /\
  strati_loadable text2 = true /\ read_lso ExNum text2 = Ok m2 /\ read_strati ExNum text2 = Throw ExData /\
  (exists crs vp tp, lso_headers (F := ExNum) text2 = Ok (crs, vp, tp) /\ p_names vp = [GEOLOGY; STRATIGRAPHY] /\ p_esizes vp = [1; 1]).
Proof.
  assert (R : forall t, match read_lso ExNum t with Ok _ => true | _ => false end = true -> exists m, read_lso ExNum t = Ok m) by (intros t; destruct (read_lso ExNum t); [eauto|discriminate|discriminate|discriminate]).
  destruct (R (unlines strati_renamed)) as [m1 E1]; [vm_compute; reflexivity|]. destruct (R (unlines strati_sized)) as [m2 E2]; [vm_compute; reflexivity|].
  exists (unlines strati_renamed), (unlines strati_sized), m1, m2. split; [vm_compute; reflexivity|]. split; [assumption|]. split; [apply is_data_ok; vm_compute; reflexivity|]. split.
  { assert (H : match lso_headers (F := ExNum) (unlines strati_renamed) with Ok (crs, vp, tp) => negb (existsb (beq GEOLOGY) (p_names vp)) | _ => false end = true) by (vm_compute; reflexivity).
    destruct (lso_headers (unlines strati_renamed)) as [[[crs vp] tp]| | |]; [|discriminate H|discriminate H|discriminate H]. exists crs, vp, tp. split; [reflexivity|].
    intros Hi. apply negb_true_iff in H. assert (existsb (beq GEOLOGY) (p_names vp) = true) by (apply existsb_exists; exists GEOLOGY; split; [assumption|apply beq_refl]). congruence. }
  split; [vm_compute; reflexivity|]. split; [assumption|]. split; [apply is_data_ok; vm_compute; reflexivity|].
  assert (H : match lso_headers (F := ExNum) (unlines strati_sized) with Ok (crs, vp, tp) => leqb beq (p_names vp) [GEOLOGY; STRATIGRAPHY] && leqb Z.eqb (p_esizes vp) [1; 1] | _ => false end = true) by (vm_compute; reflexivity).
  destruct (lso_headers (unlines strati_sized)) as [[[crs vp] tp]| | |]; [|discriminate H|discriminate H|discriminate H]. apply andb_true_iff in H. destruct H as [H1 H2]. exists crs, vp, tp. split; [reflexivity|].
  split; [apply leqb_ok in H1; [assumption|intros u v; apply beq_eq]|apply leqb_ok in H2; [assumption|intros u v; apply Z.eqb_eq]].
Qed.
Print Assumptions C96_loadable_refuted.
