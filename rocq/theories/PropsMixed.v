(** * Objects of other kinds in a GOCAD file (C141). *)
From Coq Require Import ZArith List Lia Bool Ascii String.
From Verif Require Import Base Text TextFacts GocadModel MeshModel TsModel PlModel LsoModel SignsModel TsFacts StreamFacts MultiFacts MultiMore Spec ExNum ExCheck PropsTsVs PropsPl PropsObjects PropsCut.
Import ListNotations.
Local Open Scope string_scope.
Local Open Scope list_scope.
Local Open Scope Z_scope.

(** ** Specification *)

(** The kinds of objects the library writes in GOCAD files *)
Inductive kind := Surface | Points | Line | Solid.
Definition kind_word (k : kind) : bytes :=
  match k with Surface => lit "TSurf" | Points => lit "VSet" | Line => lit "PLine" | Solid => lit "LightTSolid" end.
Definition is_kind (k : kind) (k' : kind) : bool :=
  match k, k' with Surface, Surface | Points, Points | Line, Line | Solid, Solid => true | _, _ => false end.
(** A file made of objects, one after the other; each is given by its kind and its lines *)
Definition object : Type := kind * list bytes.
Definition file (os : list object) : bytes := unlines (List.concat (map snd os)).
Definition only (k : kind) (os : list object) : list object := filter (fun o => is_kind k (fst o)) os.
(** Each is whole (C133), and those of the kind that is read can be loaded from a file of their own *)
Definition well_made {A} (k : kind) (load : bytes -> res A) (os : list object) : Prop :=
  forall o, In o os ->
    (exists name, whole_object (kind_word (fst o)) name (snd o)) /\
    Forall is_line (snd o) /\
    (fst o = k -> exists m, load (unlines (snd o)) = Ok m).

(** ** Lines that begin no object *)
Definition quiet (kw : bytes) (ls : list bytes) : Prop := Forall (fun l => starts_with l kw = false) ls.
Lemma scan_quiet kw ls : quiet kw ls -> scan (fun l => starts_with l kw) ls = None.
Proof. induction 1 as [|l ls H _ IH]; cbn [scan]; [reflexivity|]. now rewrite H. Qed.
Lemma goto_if_skip kw x q b : quiet kw x ->
  (exists l r, goto_if kw (mkStream (x ++ q) b) = (Some l, mkStream r b) /\ goto_if kw (mkStream q b) = (Some l, mkStream r b)) \/
  (fst (goto_if kw (mkStream (x ++ q) b)) = None /\ fst (goto_if kw (mkStream q b)) = None).
Proof.
  intros H. unfold goto_if. cbn [pending nl].
  rewrite (scan_none_ext q _ x) by now apply scan_quiet.
  destruct (scan _ q) as [[l r]|]; [left; eauto|right; auto].
Qed.
Lemma ts_loop_skip F f (m : mesh F tri) x q b : quiet "GOCAD TSurf" x -> read_ts_loop f m (mkStream (x ++ q) b) = read_ts_loop f m (mkStream q b).
Proof.
  intros H. destruct f; cbn [read_ts_loop]; [reflexivity|]. unfold read_tsurf.
  destruct (goto_if_skip "GOCAD TSurf" x q b H) as [(l & r & E1 & E2)|[E1 E2]]; [now rewrite E1, E2|].
  destruct (goto_if _ (mkStream (x ++ q) b)) as [o1 s1], (goto_if _ (mkStream q b)) as [o2 s2].
  cbn [fst] in E1, E2. subst. reflexivity.
Qed.
Lemma vs_loop_skip F f (m : mesh F unit) x q b : quiet "GOCAD VSet" x -> read_vs_loop f m (mkStream (x ++ q) b) = read_vs_loop f m (mkStream q b).
Proof.
  intros H. destruct f; cbn [read_vs_loop]; [reflexivity|]. unfold read_vs_points.
  destruct (goto_if_skip "GOCAD VSet" x q b H) as [(l & r & E1 & E2)|[E1 E2]]; [now rewrite E1, E2|].
  destruct (goto_if _ (mkStream (x ++ q) b)) as [o1 s1], (goto_if _ (mkStream q b)) as [o2 s2].
  cbn [fst] in E1, E2. subst. reflexivity.
Qed.
Lemma pl_loop_skip F f (m : mesh F edge) x q b : quiet "GOCAD PLine" x -> read_pl_loop f m (mkStream (x ++ q) b) = read_pl_loop f m (mkStream q b).
Proof.
  intros H. destruct f; cbn [read_pl_loop]; [reflexivity|]. unfold read_ecurve.
  destruct (goto_if_skip "GOCAD PLine" x q b H) as [(l & r & E1 & E2)|[E1 E2]]; [now rewrite E1, E2|].
  destruct (goto_if _ (mkStream (x ++ q) b)) as [o1 s1], (goto_if _ (mkStream q b)) as [o2 s2].
  cbn [fst] in E1, E2. subst. reflexivity.
Qed.

(** ** Anything put between two objects *)
Theorem C141_between_surfaces F p x q m : Forall is_line p -> Forall is_line x -> Forall is_line q ->
  read_ts F (unlines p) = Ok m -> quiet "GOCAD TSurf" x ->
  read_ts F (unlines (p ++ x ++ q)) = read_ts F (unlines (p ++ q)).
Proof.
  intros Lp Lx Lq E Q. unfold read_ts in *.
  rewrite open_unlines in E by assumption. cbn [pending] in E.
  rewrite !open_unlines by (repeat (apply Forall_app; split); assumption). cbn [pending].
  pose proof (read_ts_loop_app F _ _ _ _ (x ++ q) true E (S (List.length (p ++ x ++ q)))) as A.
  pose proof (read_ts_loop_app F _ _ _ _ q true E (S (List.length (p ++ q)))) as B.
  unfold ext in A, B. cbn [pending] in A, B. rewrite A, B by lia. rewrite ts_loop_skip by assumption.
  apply read_ts_loop_fuel; cbn [pending]; rewrite ?app_length; lia.
Qed.
Print Assumptions C141_between_surfaces.
Theorem C141_between_points F p x q m : Forall is_line p -> Forall is_line x -> Forall is_line q ->
  read_vs F (unlines p) = Ok m -> quiet "GOCAD VSet" x ->
  read_vs F (unlines (p ++ x ++ q)) = read_vs F (unlines (p ++ q)).
Proof.
  intros Lp Lx Lq E Q. unfold read_vs in *.
  rewrite open_unlines in E by assumption. cbn [pending] in E.
  rewrite !open_unlines by (repeat (apply Forall_app; split); assumption). cbn [pending].
  pose proof (read_vs_loop_app F _ _ _ _ (x ++ q) true E (S (List.length (p ++ x ++ q)))) as A.
  pose proof (read_vs_loop_app F _ _ _ _ q true E (S (List.length (p ++ q)))) as B.
  unfold ext in A, B. cbn [pending] in A, B. rewrite A, B by lia. rewrite vs_loop_skip by assumption.
  apply read_vs_loop_fuel; cbn [pending]; rewrite ?app_length; lia.
Qed.
Print Assumptions C141_between_points.
Theorem C141_between_lines F p x q m : Forall is_line p -> Forall is_line x -> Forall is_line q ->
  p = [] \/ ends_with_END p ->
  read_pl F (unlines p) = Ok m -> quiet "GOCAD PLine" x ->
  read_pl F (unlines (p ++ x ++ q)) = read_pl F (unlines (p ++ q)).
Proof.
  intros Lp Lx Lq He E Q. unfold read_pl in *.
  rewrite open_unlines in E by assumption. cbn [pending] in E.
  rewrite !open_unlines by (repeat (apply Forall_app; split); assumption). cbn [pending].
  pose proof (fun H => read_pl_loop_app F _ _ _ _ (x ++ q) true H E (S (List.length (p ++ x ++ q)))) as A.
  pose proof (fun H => read_pl_loop_app F _ _ _ _ q true H E (S (List.length (p ++ q)))) as B.
  unfold ext in A, B. cbn [pending] in A, B. rewrite A, B by (lia || assumption). rewrite pl_loop_skip by assumption.
  apply read_pl_loop_fuel; cbn [pending]; rewrite ?app_length; lia.
Qed.
Print Assumptions C141_between_lines.

(** ** Whole objects *)
Lemma starts_longer a b l : starts_with l a = false -> starts_with l (a ++ b) = false.
Proof.
  revert l. induction a as [|x a IH]; intros [|y l]; cbn; try discriminate; try reflexivity.
  destruct (Ascii.eqb x y); cbn; auto.
Qed.
Lemma whole_split k name ls : whole_object (kind_word k) name ls ->
  exists r, ls = (lit "GOCAD " ++ kind_word k ++ lit " 1") :: r /\ (forall k', quiet (lit "GOCAD " ++ kind_word k') r) /\ ends_with_END ls.
Proof.
  intros [body [-> Hb]]. unfold preamble. cbn [app].
  eexists. split; [reflexivity|]. split.
  - intros k'. constructor; [now destruct k'|]. apply Forall_app. split; [|].
    + apply Forall_app. split; [destruct name; repeat constructor; now destruct k'|]. repeat constructor; now destruct k'.
    + apply Forall_app. split; [|repeat constructor; now destruct k'].
      eapply Forall_impl; [|exact Hb]. intros l [H _].
      apply (starts_longer (lit "GOCAD") (lit " " ++ kind_word k') l H).
  - unfold ends_with_END. rewrite !app_comm_cons, !app_assoc. do 3 eexists. split; reflexivity.
Qed.
Lemma quiet_suffix kw a b : suffix b a -> quiet kw a -> quiet kw b.
Proof. intros [p ->] H. unfold quiet in *. now apply Forall_app in H as [_ H]. Qed.
Lemma is_kind_true k k' : is_kind k k' = true -> k' = k.
Proof. now destruct k, k'. Qed.
Lemma is_kind_false k k' : is_kind k k' = false -> starts_with (lit "GOCAD " ++ kind_word k' ++ lit " 1") (lit "GOCAD " ++ kind_word k) = false.
Proof. now destruct k, k'. Qed.
Lemma other_quiet k k' name ls : whole_object (kind_word k') name ls -> is_kind k k' = false -> quiet (lit "GOCAD " ++ kind_word k) ls.
Proof.
  intros H E. apply whole_split in H as (r & -> & Q & _). constructor; [|apply Q]. now apply is_kind_false.
Qed.

Lemma ts_whole F name ls m : whole_object (kind_word Surface) name ls -> Forall is_line ls -> read_ts F (unlines ls) = Ok m ->
  exists o r, quiet "GOCAD TSurf" r /\ forall rest, read_tsurf F (mkStream (ls ++ rest) true) = Ok (Some o, mkStream (r ++ rest) true).
Proof.
  intros W L E. apply whole_split in W as (r & Hr & Q & En). unfold read_ts in E. rewrite open_unlines in E by assumption.
  cbn [pending] in E. cbn [read_ts_loop] in E. apply bind_ok in E as [[[o|] s1] [E _]].
  - exists o, (pending s1). split.
    + apply (quiet_suffix _ r); [|apply (Q Surface)]. apply read_tsurf_suffix in E as [l [p E]]. cbn [pending] in E. rewrite Hr in E.
      destruct p as [|x p]; cbn [app] in E.
      * injection E as _ ->. now exists [].
      * injection E as _ ->. exists (p ++ [l]). now rewrite <- app_assoc.
    + intros rest. pose proof (read_tsurf_ext rest true F _ _ _ E) as K.
      exact K.
  - exfalso. subst ls. unfold read_tsurf in E. unfold goto_if in E. cbn [pending scan] in E.
    change (starts_with (lit "GOCAD " ++ kind_word Surface ++ lit " 1") "GOCAD TSurf") with true in E. cbn iota beta in E.
    repeat (apply bind_ok in E as [[? ?] [_ E]]). discriminate E.
Qed.
Lemma ts_loop_only F os : (forall o, In o os -> (exists name, whole_object (kind_word (fst o)) name (snd o)) /\ Forall is_line (snd o) /\
    (fst o = Surface -> exists m, read_ts F (unlines (snd o)) = Ok m)) ->
  forall f f' (m : mesh F tri) x y, quiet "GOCAD TSurf" x -> quiet "GOCAD TSurf" y ->
  (List.length (x ++ List.concat (map snd os)) < f)%nat -> (List.length (y ++ List.concat (map snd (only Surface os))) < f')%nat ->
  read_ts_loop f m (mkStream (x ++ List.concat (map snd os)) true) =
  read_ts_loop f' m (mkStream (y ++ List.concat (map snd (only Surface os))) true).
Proof.
  induction os as [|[k ls] os IH]; intros H f f' m x y Qx Qy Hf Hf'.
  - cbn [map List.concat only filter]. rewrite !ts_loop_skip by assumption.
    destruct f, f'; try lia. reflexivity.
  - pose proof (fun o Ho => H o (or_intror Ho)) as H'. specialize (IH H'). unfold only in *.
    destruct (H (k, ls) (or_introl eq_refl)) as ([name W] & L & R). cbn [fst snd] in *.
    cbn [map List.concat filter fst snd] in *. rewrite ts_loop_skip by assumption.
    destruct (is_kind Surface k) eqn:Ek.
    + apply is_kind_true in Ek. subst k. destruct (R eq_refl) as [m1 R1].
      cbn [map List.concat snd] in Hf' |- *. rewrite (ts_loop_skip F f' m y) by assumption.
      destruct (ts_whole F name ls m1 W L R1) as (o & r & Qr & Rd).
      destruct f as [|f]; [lia|]. destruct f' as [|f']; [lia|]. cbn [read_ts_loop]. rewrite !Rd. cbn [bind].
      destruct (build_surface m o) as [m2| | |]; cbn [bind]; try reflexivity.
      assert (Z : (List.length r < List.length ls)%nat).
      { specialize (Rd []). apply read_tsurf_suffix in Rd as [l Rd]. apply (suffix_strict l _ _ tt) in Rd. cbn [pending] in Rd.
        rewrite !app_nil_r in Rd. exact Rd. }
      apply IH; try assumption; rewrite ?app_length in *; lia.
    + pose proof (other_quiet Surface k name ls W Ek) as Q.
      apply IH; [exact Q|exact Qy| |exact Hf']. rewrite ?app_length in *; lia.
Qed.

Lemma vs_whole F name ls m : whole_object (kind_word Points) name ls -> Forall is_line ls -> read_vs F (unlines ls) = Ok m ->
  exists o r, quiet "GOCAD VSet" r /\ forall rest, read_vs_points F (mkStream (ls ++ rest) true) = Ok (Some o, mkStream (r ++ rest) true).
Proof.
  intros W L E. apply whole_split in W as (r & Hr & Q & En). unfold read_vs in E. rewrite open_unlines in E by assumption.
  cbn [pending] in E. cbn [read_vs_loop] in E. apply bind_ok in E as [[[o|] s1] [E _]].
  - exists o, (pending s1). split.
    + apply (quiet_suffix _ r); [|apply (Q Points)]. apply read_vs_points_suffix in E as [l [p E]]. cbn [pending] in E. rewrite Hr in E.
      destruct p as [|x p]; cbn [app] in E.
      * injection E as _ ->. now exists [].
      * injection E as _ ->. exists (p ++ [l]). now rewrite <- app_assoc.
    + intros rest. pose proof (read_vs_points_ext rest true F _ _ _ E) as K.
      exact K.
  - exfalso. subst ls. unfold read_vs_points in E. unfold goto_if in E. cbn [pending scan] in E.
    change (starts_with (lit "GOCAD " ++ kind_word Points ++ lit " 1") "GOCAD VSet") with true in E. cbn iota beta in E.
    repeat (apply bind_ok in E as [[? ?] [_ E]]). discriminate E.
Qed.
Lemma vs_loop_only F os : (forall o, In o os -> (exists name, whole_object (kind_word (fst o)) name (snd o)) /\ Forall is_line (snd o) /\
    (fst o = Points -> exists m, read_vs F (unlines (snd o)) = Ok m)) ->
  forall f f' (m : mesh F unit) x y, quiet "GOCAD VSet" x -> quiet "GOCAD VSet" y ->
  (List.length (x ++ List.concat (map snd os)) < f)%nat -> (List.length (y ++ List.concat (map snd (only Points os))) < f')%nat ->
  read_vs_loop f m (mkStream (x ++ List.concat (map snd os)) true) =
  read_vs_loop f' m (mkStream (y ++ List.concat (map snd (only Points os))) true).
Proof.
  induction os as [|[k ls] os IH]; intros H f f' m x y Qx Qy Hf Hf'.
  - cbn [map List.concat only filter]. rewrite !vs_loop_skip by assumption.
    destruct f, f'; try lia. reflexivity.
  - pose proof (fun o Ho => H o (or_intror Ho)) as H'. specialize (IH H'). unfold only in *.
    destruct (H (k, ls) (or_introl eq_refl)) as ([name W] & L & R). cbn [fst snd] in *.
    cbn [map List.concat filter fst snd] in *. rewrite vs_loop_skip by assumption.
    destruct (is_kind Points k) eqn:Ek.
    + apply is_kind_true in Ek. subst k. destruct (R eq_refl) as [m1 R1].
      cbn [map List.concat snd] in Hf' |- *. rewrite (vs_loop_skip F f' m y) by assumption.
      destruct (vs_whole F name ls m1 W L R1) as (o & r & Qr & Rd).
      destruct f as [|f]; [lia|]. destruct f' as [|f']; [lia|]. cbn [read_vs_loop]. rewrite !Rd. cbn [bind].
      destruct (build_point_set m o) as [m2| | |]; cbn [bind]; try reflexivity.
      assert (Z : (List.length r < List.length ls)%nat).
      { specialize (Rd []). apply read_vs_points_suffix in Rd as [l Rd]. apply (suffix_strict l _ _ tt) in Rd. cbn [pending] in Rd.
        rewrite !app_nil_r in Rd. exact Rd. }
      apply IH; try assumption; rewrite ?app_length in *; lia.
    + pose proof (other_quiet Points k name ls W Ek) as Q.
      apply IH; [exact Q|exact Qy| |exact Hf']. rewrite ?app_length in *; lia.
Qed.

Lemma pl_whole F name ls m : whole_object (kind_word Line) name ls -> Forall is_line ls -> read_pl F (unlines ls) = Ok m ->
  exists o r, quiet "GOCAD PLine" r /\ forall rest, read_ecurve F (mkStream (ls ++ rest) true) = Ok (Some o, mkStream (r ++ rest) true).
Proof.
  intros W L E. apply whole_split in W as (r & Hr & Q & En). unfold read_pl in E. rewrite open_unlines in E by assumption.
  cbn [pending] in E. cbn [read_pl_loop] in E. apply bind_ok in E as [[[o|] s1] [E _]].
  - exists o, (pending s1). split.
    + apply (quiet_suffix _ r); [|apply (Q Line)]. apply read_ecurve_suffix in E as [l [p E]]. cbn [pending] in E. rewrite Hr in E.
      destruct p as [|x p]; cbn [app] in E.
      * injection E as _ ->. now exists [].
      * injection E as _ ->. exists (p ++ [l]). now rewrite <- app_assoc.
    + intros rest. pose proof (read_ecurve_ext rest true F (mkStream ls true) _ _ En E) as K.
      exact K.
  - exfalso. subst ls. unfold read_ecurve in E. unfold goto_if in E. cbn [pending scan] in E.
    change (starts_with (lit "GOCAD " ++ kind_word Line ++ lit " 1") "GOCAD PLine") with true in E. cbn iota beta in E.
    repeat (apply bind_ok in E as [[? ?] [_ E]]). discriminate E.
Qed.
Lemma pl_loop_only F os : (forall o, In o os -> (exists name, whole_object (kind_word (fst o)) name (snd o)) /\ Forall is_line (snd o) /\
    (fst o = Line -> exists m, read_pl F (unlines (snd o)) = Ok m)) ->
  forall f f' (m : mesh F edge) x y, quiet "GOCAD PLine" x -> quiet "GOCAD PLine" y ->
  (List.length (x ++ List.concat (map snd os)) < f)%nat -> (List.length (y ++ List.concat (map snd (only Line os))) < f')%nat ->
  read_pl_loop f m (mkStream (x ++ List.concat (map snd os)) true) =
  read_pl_loop f' m (mkStream (y ++ List.concat (map snd (only Line os))) true).
Proof.
  induction os as [|[k ls] os IH]; intros H f f' m x y Qx Qy Hf Hf'.
  - cbn [map List.concat only filter]. rewrite !pl_loop_skip by assumption.
    destruct f, f'; try lia. reflexivity.
  - pose proof (fun o Ho => H o (or_intror Ho)) as H'. specialize (IH H'). unfold only in *.
    destruct (H (k, ls) (or_introl eq_refl)) as ([name W] & L & R). cbn [fst snd] in *.
    cbn [map List.concat filter fst snd] in *. rewrite pl_loop_skip by assumption.
    destruct (is_kind Line k) eqn:Ek.
    + apply is_kind_true in Ek. subst k. destruct (R eq_refl) as [m1 R1].
      cbn [map List.concat snd] in Hf' |- *. rewrite (pl_loop_skip F f' m y) by assumption.
      destruct (pl_whole F name ls m1 W L R1) as (o & r & Qr & Rd).
      destruct f as [|f]; [lia|]. destruct f' as [|f']; [lia|]. cbn [read_pl_loop]. rewrite !Rd. cbn [bind].
      destruct (build_curve m o) as [m2| | |]; cbn [bind]; try reflexivity.
      assert (Z : (List.length r < List.length ls)%nat).
      { specialize (Rd []). apply read_ecurve_suffix in Rd as [l Rd]. apply (suffix_strict l _ _ tt) in Rd. cbn [pending] in Rd.
        rewrite !app_nil_r in Rd. exact Rd. }
      apply IH; try assumption; rewrite ?app_length in *; lia.
    + pose proof (other_quiet Line k name ls W Ek) as Q.
      apply IH; [exact Q|exact Qy| |exact Hf']. rewrite ?app_length in *; lia.
Qed.

Lemma lines_only {A} k (load : bytes -> res A) os os' : incl os' os -> well_made k load os -> Forall is_line (List.concat (map snd os')).
Proof.
  intros I H. apply Forall_forall. intros l Hl. apply in_concat in Hl as (ls & Hls & Hl). apply in_map_iff in Hls as (o & <- & Ho).
  destruct (H o (I o Ho)) as (_ & L & _). rewrite Forall_forall in L. auto.
Qed.
(** Reading the objects of one kind gives what a file with these alone gives, wherever the objects of other kinds are. *)
Theorem C141_surfaces F os : well_made Surface (read_ts F) os -> read_ts F (file os) = read_ts F (file (only Surface os)).
Proof.
  intros H. unfold file, read_ts. rewrite !open_unlines by (first [apply (lines_only Surface (read_ts F) os _ (incl_refl _) H)|apply (lines_only Surface (read_ts F) os _ (incl_filter _ _) H)]).
  cbn [pending]. apply (ts_loop_only F os H _ _ empty_mesh [] []); try constructor; cbn [app]; lia.
Qed.
Print Assumptions C141_surfaces.
Theorem C141_points F os : well_made Points (read_vs F) os -> read_vs F (file os) = read_vs F (file (only Points os)).
Proof.
  intros H. unfold file, read_vs. rewrite !open_unlines by (first [apply (lines_only Points (read_vs F) os _ (incl_refl _) H)|apply (lines_only Points (read_vs F) os _ (incl_filter _ _) H)]).
  cbn [pending]. apply (vs_loop_only F os H _ _ empty_mesh [] []); try constructor; cbn [app]; lia.
Qed.
Print Assumptions C141_points.
Theorem C141_lines F os : well_made Line (read_pl F) os -> read_pl F (file os) = read_pl F (file (only Line os)).
Proof.
  intros H. unfold file, read_pl. rewrite !open_unlines by (first [apply (lines_only Line (read_pl F) os _ (incl_refl _) H)|apply (lines_only Line (read_pl F) os _ (incl_filter _ _) H)]).
  cbn [pending]. apply (pl_loop_only F os H _ _ empty_mesh [] []); try constructor; cbn [app]; lia.
Qed.
Print Assumptions C141_lines.

(** ** Saved objects *)
(** Objects of other kinds, in front of the saved one or behind it *)
Definition foreign (k : kind) (os : list object) : Prop :=
  forall o, In o os -> fst o <> k /\ (exists name, whole_object (kind_word (fst o)) name (snd o)) /\ Forall is_line (snd o).
Lemma only_foreign k os : foreign k os -> only k os = [].
Proof.
  unfold only. induction os as [|o os IH]; intros H; [reflexivity|]. cbn [filter].
  destruct (is_kind k (fst o)) eqn:E.
  - apply is_kind_true in E. destruct (H o (or_introl eq_refl)) as [N _]. contradiction.
  - apply IH. intros x Hx. apply H. now right.
Qed.
Lemma only_one k a ls b : foreign k a -> foreign k b -> file (only k (a ++ (k, ls) :: b)) = unlines ls.
Proof.
  intros Ha Hb. assert (E : only k (a ++ (k, ls) :: b) = only k a ++ (k, ls) :: only k b).
  { unfold only. rewrite filter_app. destruct k; reflexivity. }
  rewrite E, (only_foreign k a Ha), (only_foreign k b Hb). unfold file. cbn [app map List.concat snd]. now rewrite app_nil_r.
Qed.
Lemma made_one {A} k (load : bytes -> res A) a ls b name m : foreign k a -> foreign k b ->
  whole_object (kind_word k) name ls -> Forall is_line ls -> load (unlines ls) = Ok m -> well_made k load (a ++ (k, ls) :: b).
Proof.
  intros Ha Hb W L R o Ho. apply in_app_or in Ho as [Ho|[<-|Ho]].
  - destruct (Ha o Ho) as (N & X & Y). repeat split; try assumption. intros E. contradiction.
  - cbn [fst snd]. eauto.
  - destruct (Hb o Ho) as (N & X & Y). repeat split; try assumption. intros E. contradiction.
Qed.
Theorem C141_saved_surface F (m : wmesh F tri) a b : num_ok F -> names_ok m -> triangles_ok m -> foreign Surface a -> foreign Surface b ->
  read_ts F (file (a ++ (Surface, ts_lines m) :: b)) = read_ts F (write_ts m).
Proof.
  intros HF Hn Ht Ha Hb. pose proof (writable_of m Hn Ht) as W.
  rewrite (C141_surfaces F). { rewrite only_one by assumption. reflexivity. }
  eapply made_one; try eassumption; [apply ts_object|exact (ts_lines_lines F HF m W)|exact (read_ts_written F HF m W)].
Qed.
Print Assumptions C141_saved_surface.
Theorem C141_saved_points F (m : wmesh F unit) a b : num_ok F -> names_ok m -> wm_cells m = [] -> wm_points m <> [] -> foreign Points a -> foreign Points b ->
  read_vs F (file (a ++ (Points, vs_lines m) :: b)) = read_vs F (write_vs m).
Proof.
  intros HF [H1 [H2 H3]] Hc Hp Ha Hb. assert (W : writable_set F m) by (constructor; auto).
  rewrite (C141_points F). { rewrite only_one by assumption. reflexivity. }
  eapply made_one; try eassumption; [apply vs_object|exact (vs_lines_lines F HF m W)|exact (read_vs_written F HF m W Hp)].
Qed.
Print Assumptions C141_saved_points.
Theorem C141_saved_line F around (m : wmesh F edge) ls m' a b : pl_lines around m = Ok ls -> Forall is_line ls -> read_pl F (unlines ls) = Ok m' ->
  foreign Line a -> foreign Line b ->
  read_pl F (file (a ++ (Line, ls) :: b)) = Ok m'.
Proof.
  intros Hl L R Ha Hb. rewrite (C141_lines F). { rewrite only_one by assumption. exact R. }
  eapply made_one; try eassumption. exact (pl_object _ _ _ Hl).
Qed.
Print Assumptions C141_saved_line.

(** A surface between a point set and a line *)
Definition ex_pl_lines : list bytes := match pl_lines (by_edge (wm_cells ex_open)) ex_open with Ok ls => ls | _ => [] end.
Lemma got_it {A} (d : A) r : match r with Ok _ => true | _ => false end = true -> r = Ok (match r with Ok x => x | _ => d end).
Proof. now destruct r. Qed.
Lemma ex_pl_saved : pl_lines (by_edge (wm_cells ex_open)) ex_open = Ok ex_pl_lines.
Proof. apply got_it. vm_compute. reflexivity. Qed.
Definition ex_mixed : bytes := file [(Points, vs_lines ex_set); (Surface, ts_lines ex_surface); (Line, ex_pl_lines)].
Example C141_case :
  foreign Surface [(Points, vs_lines ex_set)] /\ foreign Surface [(Line, ex_pl_lines)] /\
  mesh_is zzz_eqb (read_ts ExNum ex_mixed) (Some (lit "my surface"))
    [(0, 0, 0); (10, 0, -5); (0, 10, 7); (10, 10, 1)] (wm_cells ex_surface)
    (match read_ts ExNum (write_ts ex_surface) with Ok m => attrs_of m | _ => [] end) = true /\
  mesh_is (fun _ _ => true) (read_vs ExNum ex_mixed) (Some (lit "pts")) [(1, 2, 3); (4, 5, -6)] [] [(lit "my prop", [[7]; [6]])] = true /\
  match read_pl ExNum ex_mixed with Ok m => Nat.eqb (List.length (m_cells m)) 4 | _ => false end = true.
Proof.
  split; [|split; [|repeat split; vm_compute; reflexivity]].
  - intros o [<-|[]]. cbn [fst snd]. split; [discriminate|]. split; [eexists; apply vs_object|apply lines_ok; vm_compute; reflexivity].
  - intros o [<-|[]]. cbn [fst snd]. split; [discriminate|]. split; [eexists; apply (pl_object _ _ _ ex_pl_saved)|apply lines_ok; vm_compute; reflexivity].
Qed.

(** Finding: a saved point set without point is not read as one.  Alone it is refused (C10); with an object behind it, it takes
    the vertices of that object, here those of a surface. *)
Definition empty_set : wmesh ExNum unit := mkWmesh (F:=ExNum) (Some (lit "none")) [] [] [].
Theorem C141_empty_set_refuted :
  names_ok empty_set /\ names_ok ex_surface /\ triangles_ok ex_surface /\
  read_vs ExNum (file [(Points, vs_lines empty_set)]) = Throw ExData /\
  exists m, read_vs ExNum (file [(Points, vs_lines empty_set); (Surface, ts_lines ex_surface)]) = Ok m /\
    m_name m = Some (lit "none") /\ m_points m = [(0, 0, 0); (10, 0, -5); (0, 10, 7); (10, 10, 1)].
Proof.
  split. { split; [intros n E; injection E as <-; apply lineb_ok; reflexivity|split; constructor]. }
  split; [apply ex_surface_names|]. split; [apply ex_surface_triangles|]. split.
  - apply (C10_vs_empty_always_throws ExNum empty_set); [apply ExNum_ok| |reflexivity|reflexivity].
    split; [intros n E; injection E as <-; apply lineb_ok; reflexivity|split; constructor].
  - destruct (mesh_is_ok (fun _ _ => true) (read_vs ExNum (file [(Points, vs_lines empty_set); (Surface, ts_lines ex_surface)])) (Some (lit "none"))
      [(0, 0, 0); (10, 0, -5); (0, 10, 7); (10, 10, 1)] [] []) as (m & E & E1 & E2 & _).
    + intros [] []. reflexivity.
    + vm_compute. reflexivity.
    + exists m. auto.
Qed.
Print Assumptions C141_empty_set_refuted.
