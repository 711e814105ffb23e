(** * How the component section of a structural model (.ml) is read, whatever it contains: specification and proof. *)
From Coq Require Import ZArith List Lia Bool Ascii String.
From Verif Require Import Base Text TextFacts Spec GocadModel GocadFacts MeshModel TsModel MlModel MlFacts Grammar GrammarMl.
Import ListNotations.
Local Open Scope string_scope.
Local Open Scope list_scope.
Local Open Scope Z_scope.

(** ** Specification *)

(** Lists of numbers on any number of lines.  [good] : a word and the number it adds to the list. *)
Definition all_good (good : bytes -> Z -> Prop) (ls : list bytes) (ns : list Z) : Prop :=
  exists parts, Forall2 (fun l p => Forall2 good (string_split l) p) ls parts /\ ns = List.concat parts.
(** The first word of [ls] that is not good is [w], after the numbers [ns]; [post] are the lines after the one of [w]. *)
Definition first_other (good : bytes -> Z -> Prop) (ls : list bytes) (ns : list Z) (w : bytes) (post : list bytes) : Prop :=
  exists before l texts more ns0 ns1, ls = before ++ l :: post /\ all_good good before ns0 /\
    string_split l = texts ++ w :: more /\ Forall2 good texts ns1 /\ ns = ns0 ++ ns1.
(** The list ends by a zero. *)
Definition list_ends (good : bytes -> Z -> Prop) (denotes : bytes -> Z -> Prop) (ls : list bytes) (ns : list Z) (post : list bytes) : Prop :=
  exists w, first_other good ls ns w post /\ denotes w 0.
(** A word that cannot be in the list comes first. *)
Definition list_stops (good : bytes -> Z -> Prop) (bad : bytes -> Prop) (ls : list bytes) : Prop :=
  exists ns w post, first_other good ls ns w post /\ bad w.

(** Signed numbers other than 0 and than -2^31, whose opposite is not an int. *)
Definition side (t : bytes) (v : Z) : Prop := integer t v /\ v <> 0 /\ v <> -2147483648.
Definition side_among (n : Z) (t : bytes) (v : Z) : Prop := side t v /\ Z.abs v <= n.
Definition not_integer (t : bytes) : Prop := forall v, ~ integer t v.
Definition not_side_among (n : Z) (t : bytes) : Prop := not_integer t \/ exists v, side t v /\ n < Z.abs v.
Definition unit_number (t : bytes) (v : Z) : Prop := number t v /\ v <> 0.
Definition not_number (t : bytes) : Prop := forall v, ~ number t v.

(** The section ends, with the names of the TSURF, the features and names of the TFACE and the lines that follow; or it is refused. *)
Inductive outcome := Ends (names : list bytes) (faces : list (bytes * bytes)) (post : list bytes) | Refused.
Definition component_words : list bytes := [lit "TSURF"; lit "TFACE"; lit "REGION"; lit "LAYER"; lit "FAULT_BLOCK"].
(** [comps names faces ls o]: with the TSURF [names] and the TFACE [faces] declared so far, the lines [ls] lead to [o]. *)
Inductive comps : list bytes -> list (bytes * bytes) -> list bytes -> outcome -> Prop :=
| c_nothing names faces : comps names faces [] Refused
| c_end names faces l r : starts "END" l -> comps names faces (l :: r) (Ends names faces r)
| c_tsurf names faces l r ws n o : starts_not "END" l -> string_split l = lit "TSURF" :: ws -> named ws n ->
    comps (names ++ [n]) faces r o -> comps names faces (l :: r) o
| c_tface names faces l r w f ws n o : starts_not "END" l -> string_split l = lit "TFACE" :: w :: f :: ws -> named ws n -> In n names ->
    comps names (faces ++ [(f, n)]) r o -> comps names faces (l :: r) o
| c_tface_unknown names faces l r w f ws n : starts_not "END" l -> string_split l = lit "TFACE" :: w :: f :: ws -> named ws n -> ~ In n names ->
    comps names faces (l :: r) Refused
| c_universe names faces l r w ws ns post o : starts_not "END" l -> string_split l = lit "REGION" :: w :: ws -> named ws "Universe" ->
    list_ends (side_among (lenz faces)) integer r ns post -> comps names faces post o -> comps names faces (l :: r) o
| c_universe_refused names faces l r w ws : starts_not "END" l -> string_split l = lit "REGION" :: w :: ws -> named ws "Universe" ->
    list_stops (side_among (lenz faces)) (not_side_among (lenz faces)) r -> comps names faces (l :: r) Refused
| c_region names faces l r w ws n ns post o : starts_not "END" l -> string_split l = lit "REGION" :: w :: ws -> named ws n -> n <> lit "Universe" ->
    list_ends side integer r ns post -> (2 <= List.length ns)%nat -> Forall (fun v => Z.abs v <= lenz faces) ns ->
    comps names faces post o -> comps names faces (l :: r) o
| c_region_refused names faces l r w ws n : starts_not "END" l -> string_split l = lit "REGION" :: w :: ws -> named ws n -> n <> lit "Universe" ->
    list_stops side not_integer r -> comps names faces (l :: r) Refused
| c_unit names faces l r k ws ns post o : starts_not "END" l -> string_split l = k :: ws -> In k [lit "LAYER"; lit "FAULT_BLOCK"] ->
    list_ends unit_number number r ns post -> comps names faces post o -> comps names faces (l :: r) o
| c_unit_refused names faces l r k ws : starts_not "END" l -> string_split l = k :: ws -> In k [lit "LAYER"; lit "FAULT_BLOCK"] ->
    list_stops unit_number not_number r -> comps names faces (l :: r) Refused
| c_other names faces l r k ws o : starts_not "END" l -> string_split l = k :: ws -> ~ In k component_words ->
    comps names faces r o -> comps names faces (l :: r) o.

(** What each TSURF gets: [none] when another TSURF before has the same name. *)
Fixpoint per_tsurf {A} (get : bytes -> A) (none : A) (before names : list bytes) : list A :=
  match names with
  | [] => []
  | n :: r => (if existsb (beq n) before then none else get n) :: per_tsurf get none (before ++ [n]) r
  end.
(** The number of surfaces of each TSURF: those with its name. *)
Definition face_count (faces : list (bytes * bytes)) (n : bytes) : nat := List.length (filter (fun e => beq (snd e) n) faces).
Definition face_counts (names : list bytes) (faces : list (bytes * bytes)) : list nat := per_tsurf (face_count faces) 0%nat [] names.
(** Every TSURF has another name and a surface; the last of its surfaces has one of the known features. *)
Definition kinds_known (names : list bytes) (faces : list (bytes * bytes)) : Prop :=
  NoDup names /\ forall n, In n names -> exists a f b k, faces = a ++ (f, n) :: b /\ ~ In n (map snd b) /\ In (f, k) features.

(** ** Lists of numbers *)
Section Lists.
Context (parse : bytes -> res Z) (good : bytes -> Z -> Prop) (zero bad : bytes -> Prop).
Context (Hg : forall t v, good t v <-> parse t = Ok v /\ v <> 0) (Hz : forall t, zero t <-> parse t = Ok 0)
  (Hb : forall t, bad t <-> exists e, parse t = Throw e).
Lemma take_good ts ns : Forall2 good ts ns -> forall r, take_ids parse (ts ++ r) = do '(vs, b) <- take_ids parse r; Ok (ns ++ vs, b).
Proof.
  induction 1 as [|t v ts ns H1 _ IH]; intros r; cbn [app take_ids].
  - destruct (take_ids parse r) as [[vs b]| | |]; reflexivity.
  - apply Hg in H1 as [-> Hv]. cbn [bind]. rewrite (proj2 (Z.eqb_neq _ _) Hv), IH.
    destruct (take_ids parse r) as [[vs b]| | |]; reflexivity.
Qed.
Lemma read_good ls ns : all_good good ls ns -> forall r, read_ids parse (ls ++ r) = do '(vs, r') <- read_ids parse r; Ok (ns ++ vs, r').
Proof.
  intros (parts & H & ->). induction H as [|l p ls parts H1 _ IH]; intros r; cbn [app read_ids List.concat].
  - destruct (read_ids parse r) as [[vs r']| | |]; reflexivity.
  - rewrite <- (app_nil_r (string_split l)), (take_good _ _ H1). cbn [take_ids bind]. rewrite app_nil_r, IH.
    destruct (read_ids parse r) as [[vs r']| | |]; cbn [bind]; try reflexivity. now rewrite app_assoc.
Qed.
Lemma take_ids_inv ts : match take_ids parse ts with
  | Ok (vs, true) => exists a w b, ts = a ++ w :: b /\ Forall2 good a vs /\ zero w
  | Ok (vs, false) => Forall2 good ts vs
  | Throw e => exists a w b vs, ts = a ++ w :: b /\ Forall2 good a vs /\ parse w = Throw e
  | _ => True
  end.
Proof.
  induction ts as [|t ts IH]; cbn [take_ids]; [constructor|].
  destruct (parse t) as [v|e| |] eqn:E; cbn [bind]; auto.
  - destruct (Z.eqb_spec v 0) as [->|Hv].
    + exists [], t, ts. split; [reflexivity|]. split; [constructor|]. now apply Hz.
    + assert (G : good t v) by (now apply Hg).
      destruct (take_ids parse ts) as [[vs [|]]|e| |]; cbn [bind]; auto.
      * destruct IH as (a & w & b & -> & Ha & Hw). exists (t :: a), w, b. split; [reflexivity|]. split; [now constructor|assumption].
      * destruct IH as (a & w & b & vs & -> & Ha & Hw). exists (t :: a), w, b, (v :: vs). split; [reflexivity|]. split; [now constructor|assumption].
  - exists [], t, ts, []. split; [reflexivity|]. split; [constructor|assumption].
Qed.
Lemma all_good_cons l p ls ns : Forall2 good (string_split l) p -> all_good good ls ns -> all_good good (l :: ls) (p ++ ns).
Proof. intros H (parts & H1 & ->). exists (p :: parts). split; [now constructor|reflexivity]. Qed.
Lemma first_other_cons l p ls ns w post : Forall2 good (string_split l) p -> first_other good ls ns w post ->
  first_other good (l :: ls) (p ++ ns) w post.
Proof.
  intros H (before & l0 & texts & more & ns0 & ns1 & -> & H1 & H2 & H3 & ->). exists (l :: before), l0, texts, more, (p ++ ns0), ns1.
  split; [reflexivity|]. split; [now apply all_good_cons|]. split; [assumption|]. split; [assumption|]. now rewrite app_assoc.
Qed.
Lemma first_other_here l texts w more ns post : string_split l = texts ++ w :: more -> Forall2 good texts ns -> first_other good (l :: post) ns w post.
Proof.
  intros H1 H2. exists [], l, texts, more, [], ns. split; [reflexivity|]. split; [|now split; [assumption|split]].
  exists []. split; [constructor|reflexivity].
Qed.
Lemma read_ids_inv ls : match read_ids parse ls with
  | Ok (vs, post) => exists w, first_other good ls vs w post /\ zero w
  | Throw e => exists ns w post, first_other good ls ns w post /\ parse w = Throw e
  | _ => True
  end.
Proof.
  induction ls as [|l ls IH]; cbn [read_ids]; [exact I|]. pose proof (take_ids_inv (string_split l)) as T.
  destruct (take_ids parse (string_split l)) as [[vs [|]]|e| |]; cbn [bind]; auto.
  - destruct T as (a & w & b & E & Ha & Hw). exists w. split; [eapply first_other_here; eassumption|assumption].
  - destruct (read_ids parse ls) as [[vs' r]|e| |]; cbn [bind]; auto.
    + destruct IH as (w & H & Hw). exists w. split; [now apply first_other_cons|assumption].
    + destruct IH as (ns & w & post & H & Hw). exists (vs ++ ns), w, post. split; [now apply first_other_cons|assumption].
  - destruct T as (a & w & b & vs & E & Ha & Hw). exists vs, w, ls. split; [eapply first_other_here; eassumption|assumption].
Qed.
Lemma read_ids_other ls ns w post : first_other good ls ns w post ->
  match parse w with
  | Ok v => v = 0 -> read_ids parse ls = Ok (ns, post)
  | Throw e => read_ids parse ls = Throw e
  | UB => read_ids parse ls = UB
  | Hang => True
  end.
Proof.
  intros (before & l & texts & more & ns0 & ns1 & -> & H1 & H2 & H3 & ->). rewrite (read_good _ _ H1). cbn [read_ids].
  rewrite H2, (take_good _ _ H3). cbn [take_ids]. destruct (parse w) as [v|e| |]; cbn [bind]; try reflexivity; try exact I.
  intros ->. cbn [Z.eqb bind]. now rewrite app_nil_r.
Qed.
Lemma read_ids_ends ls ns post : (exists w, first_other good ls ns w post /\ zero w) <-> read_ids parse ls = Ok (ns, post).
Proof.
  split.
  - intros (w & H & Hw). apply read_ids_other in H. apply Hz in Hw. rewrite Hw in H. now apply H.
  - intros E. pose proof (read_ids_inv ls) as H. now rewrite E in H.
Qed.
Lemma read_ids_stops ls : list_stops good bad ls <-> exists e, read_ids parse ls = Throw e.
Proof.
  split.
  - intros (ns & w & post & H & Hw). apply read_ids_other in H. apply Hb in Hw as [e Hw]. rewrite Hw in H. eauto.
  - intros [e E]. pose proof (read_ids_inv ls) as H. rewrite E in H. destruct H as (ns & w & post & H & Hw).
    exists ns, w, post. split; [assumption|]. apply Hb. eauto.
Qed.
End Lists.

Lemma not_integer_iff t : not_integer t <-> exists e, string_to_int t = Throw e.
Proof.
  unfold not_integer, integer, string_to_int. destruct (parse_int t) as [v|].
  - split; [intros H; now destruct (H v)|intros [e H]; discriminate].
  - split; [eauto|intros _ v; discriminate].
Qed.
Lemma not_number_iff t : not_number t <-> exists e, string_to_index t = Throw e.
Proof.
  unfold not_number, number, string_to_index. destruct (parse_index t) as [v|].
  - split; [intros H; now destruct (H v)|intros [e H]; discriminate].
  - split; [eauto|intros _ v; discriminate].
Qed.
Lemma sti_cases_int t : (exists v, string_to_int t = Ok v) \/ string_to_int t = Throw ExData.
Proof. unfold string_to_int. destruct (parse_int t); eauto. Qed.
Lemma universe_ends n ls ns post : 0 <= n -> list_ends (side_among n) integer ls ns post <-> read_ids (universe_parse n) ls = Ok (ns, post).
Proof.
  intros Hn. unfold list_ends. apply read_ids_ends.
  - intros t v. unfold side_among, side, integer, universe_parse. destruct (sti_cases_int t) as [[x ->]| ->]; cbn [bind].
    2:{ split; [intros [[? _] _]; discriminate|intros [? _]; discriminate]. }
    destruct (Z.eqb_spec x 0) as [->|Hx].
    { split; [intros [[E [H _]] _]; congruence|intros [E H]; congruence]. }
    unfold surface_number. destruct (Z.eqb_spec x (-2147483648)) as [->|Hm]; cbn [bind].
    { split; [intros [[E [_ H]] _]; congruence|intros [? _]; discriminate]. }
    destruct (Z.ltb_spec (Z.abs x - 1) n) as [Hl|Hl].
    + split; [intros [[E [H _]] _]; auto|]. intros [E H]. injection E as ->. repeat split; auto; lia.
    + split; [intros [[E _] Hv]; injection E as ->; lia|intros [? _]; discriminate].
  - intros t. unfold integer, universe_parse. destruct (sti_cases_int t) as [[x ->]| ->]; cbn [bind]; [|split; discriminate].
    destruct (Z.eqb_spec x 0) as [->|Hx]; [tauto|]. unfold surface_number. destruct (Z.eqb_spec x (-2147483648)) as [->|Hm]; cbn [bind]; [split; discriminate|].
    destruct (_ <? _); split; congruence.
Qed.
Lemma universe_stops n ls : 0 <= n -> list_stops (side_among n) (not_side_among n) ls <-> exists e, read_ids (universe_parse n) ls = Throw e.
Proof.
  intros Hn. apply read_ids_stops with (zero := fun t => integer t 0).
  - intros t v. unfold side_among, side, integer, universe_parse. destruct (sti_cases_int t) as [[x ->]| ->]; cbn [bind].
    2:{ split; [intros [[? _] _]; discriminate|intros [? _]; discriminate]. }
    destruct (Z.eqb_spec x 0) as [->|Hx].
    { split; [intros [[E [H _]] _]; congruence|intros [E H]; congruence]. }
    unfold surface_number. destruct (Z.eqb_spec x (-2147483648)) as [->|Hm]; cbn [bind].
    { split; [intros [[E [_ H]] _]; congruence|intros [? _]; discriminate]. }
    destruct (Z.ltb_spec (Z.abs x - 1) n) as [Hl|Hl].
    + split; [intros [[E [H _]] _]; auto|]. intros [E H]. injection E as ->. repeat split; auto; lia.
    + split; [intros [[E _] Hv]; injection E as ->; lia|intros [? _]; discriminate].
  - intros t. unfold integer, universe_parse. destruct (sti_cases_int t) as [[x ->]| ->]; cbn [bind]; [|split; discriminate].
    destruct (Z.eqb_spec x 0) as [->|Hx]; [tauto|]. unfold surface_number. destruct (Z.eqb_spec x (-2147483648)) as [->|Hm]; cbn [bind]; [split; discriminate|].
    destruct (_ <? _); split; congruence.
  - intros t. unfold not_side_among, side, integer, universe_parse. rewrite not_integer_iff. destruct (sti_cases_int t) as [[x ->]| ->]; cbn [bind].
    2:{ split; [intros _; eauto|intros _; left; eauto]. }
    destruct (Z.eqb_spec x 0) as [->|Hx].
    { split; [intros [[e E]|(v & (E & H & _) & _)]; [discriminate|congruence]|intros [e E]; discriminate]. }
    unfold surface_number. destruct (Z.eqb_spec x (-2147483648)) as [->|Hm]; cbn [bind].
    { split; [intros [[e E]|(v & (E & _ & H) & _)]; [discriminate|congruence]|intros [e E]; discriminate]. }
    destruct (Z.ltb_spec (Z.abs x - 1) n) as [Hl|Hl].
    + split; [intros [[e E]|(v & (E & _ & _) & H)]; [discriminate|injection E as ->; lia]|intros [e E]; discriminate].
    + split; [eauto|]. intros _. right. exists x. repeat split; auto. lia.
Qed.
Lemma block_good t v : side t v <-> block_parse t = Ok v /\ v <> 0.
Proof.
  unfold side, integer, block_parse. destruct (sti_cases_int t) as [[x ->]| ->]; cbn [bind].
  2:{ split; [intros [? _]; discriminate|intros [? _]; discriminate]. }
  destruct (Z.eqb_spec x 0) as [->|Hx].
  { split; [intros [E [H _]]; congruence|intros [E H]; congruence]. }
  unfold surface_number. destruct (Z.eqb_spec x (-2147483648)) as [->|Hm]; cbn [bind].
  { split; [intros [E [_ H]]; congruence|intros [? _]; discriminate]. }
  split; [intros [E [H _]]; auto|]. intros [E H]. injection E as ->. auto.
Qed.
Lemma block_zero t : integer t 0 <-> block_parse t = Ok 0.
Proof.
  unfold integer, block_parse. destruct (sti_cases_int t) as [[x ->]| ->]; cbn [bind]; [|split; discriminate].
  destruct (Z.eqb_spec x 0) as [->|Hx]; [tauto|]. unfold surface_number. destruct (Z.eqb_spec x (-2147483648)) as [->|Hm]; cbn [bind]; split; congruence.
Qed.
Lemma block_bad t : not_integer t <-> exists e, block_parse t = Throw e.
Proof.
  rewrite not_integer_iff. unfold block_parse. destruct (sti_cases_int t) as [[x ->]| ->]; cbn [bind]; [|tauto].
  destruct (Z.eqb_spec x 0) as [->|Hx]; [split; intros [e E]; discriminate|]. unfold surface_number.
  destruct (x =? -2147483648); cbn [bind]; split; intros [e E]; discriminate.
Qed.
Lemma block_ends ls ns post : list_ends side integer ls ns post <-> read_ids block_parse ls = Ok (ns, post).
Proof. apply read_ids_ends; [apply block_good|apply block_zero]. Qed.
Lemma block_stops ls : list_stops side not_integer ls <-> exists e, read_ids block_parse ls = Throw e.
Proof. apply read_ids_stops with (zero := fun t => integer t 0); [apply block_good|apply block_zero|apply block_bad]. Qed.
Lemma unit_ends ls ns post : list_ends unit_number number ls ns post <-> read_ids string_to_index ls = Ok (ns, post).
Proof. apply read_ids_ends; [reflexivity|reflexivity]. Qed.
Lemma unit_stops ls : list_stops unit_number not_number ls <-> exists e, read_ids string_to_index ls = Throw e.
Proof. apply read_ids_stops with (zero := fun t => number t 0); [reflexivity|reflexivity|apply not_number_iff]. Qed.

(** The numbers of a list are those of surfaces. *)
Lemma sides_numbers ls ns post : list_ends side integer ls ns post -> mapM surface_number ns = Ok (map (fun v => Z.abs v - 1) ns) /\ Forall (fun v => v <> 0) ns.
Proof.
  intros (w & (before & l & texts & more & ns0 & ns1 & -> & (parts & H1 & ->) & _ & H3 & ->) & _).
  assert (G : forall ts p, Forall2 side ts p -> Forall (fun v => v <> 0 /\ v <> -2147483648) p).
  { induction 1 as [|t v ts p (_ & A & B) _ IH]; constructor; auto. }
  assert (A : Forall (fun v => v <> 0 /\ v <> -2147483648) (List.concat parts ++ ns1)).
  { apply Forall_app. split; [|eapply G; eassumption]. induction H1 as [|l0 p ls0 ps H1 _ IH]; cbn [List.concat]; [constructor|].
    apply Forall_app. split; [eapply G; eassumption|assumption]. }
  split; [|eapply Forall_impl; [|exact A]; cbn; tauto].
  induction A as [|v vs [Hv Hm] _ IH]; [reflexivity|]. cbn [mapM map]. unfold surface_number at 1.
  rewrite (proj2 (Z.eqb_neq _ _) Hm). cbn [bind]. rewrite IH. reflexivity.
Qed.
Lemma among_numbers n ls ns post : list_ends (side_among n) integer ls ns post -> mapM surface_number ns = Ok (map (fun v => Z.abs v - 1) ns).
Proof.
  intros (w & (before & l & texts & more & ns0 & ns1 & -> & (parts & H1 & ->) & _ & H3 & ->) & _).
  assert (G : forall ts p, Forall2 (side_among n) ts p -> Forall (fun v => v <> -2147483648) p).
  { induction 1 as [|t v ts p ((_ & A & B) & _) _ IH]; constructor; auto. }
  assert (A : Forall (fun v => v <> -2147483648) (List.concat parts ++ ns1)).
  { apply Forall_app. split; [|eapply G; eassumption]. induction H1 as [|l0 p ls0 ps H1 _ IH]; cbn [List.concat]; [constructor|].
    apply Forall_app. split; [eapply G; eassumption|assumption]. }
  induction A as [|v vs Hm _ IH]; [reflexivity|]. cbn [mapM map]. unfold surface_number at 1.
  rewrite (proj2 (Z.eqb_neq _ _) Hm). cbn [bind]. rewrite IH. reflexivity.
Qed.

(** ** Regions *)
Lemma pair_up_in l e : In e (pair_up l) -> In (fst e) l.
Proof.
  assert (G : forall k l, (List.length l <= k)%nat -> forall e, In e (pair_up l) -> In (fst e) l).
  { clear. induction k as [|k IH]; intros [|a [|b r]] HL e; cbn [List.length] in HL; try lia; try (intros []).
    cbn [pair_up]. destruct (a =? b).
    - intros [<-|H]; [right; now left|]. right. right. apply (IH r); [lia|assumption].
    - intros [<-|H]; [now left|]. right. apply (IH (b :: r)); [cbn [List.length]; lia|]. exact H. }
  apply (G _ l (le_n _)).
Qed.
Lemma pair_up_covers l : forall x, In x l -> In x (map fst (pair_up l)) \/ exists r, rev l = x :: r.
Proof.
  assert (G : forall k l, (List.length l <= k)%nat -> forall x, In x l -> In x (map fst (pair_up l)) \/ exists r, rev l = x :: r).
  { clear. induction k as [|k IH]; intros [|a [|b r]] HL x Hx; cbn [List.length] in HL; try lia; try (destruct Hx; fail).
    - destruct Hx as [<-|[]]. right. exists []. reflexivity.
    - cbn [pair_up]. destruct (Z.eqb_spec a b) as [->|Hab].
      + destruct Hx as [<-|[<-|Hx]]; [left; now left|left; now left|].
        destruct (IH r ltac:(lia) x Hx) as [H|[q H]]; [left; right; exact H|]. right. cbn [rev]. rewrite H. eexists. reflexivity.
      + destruct Hx as [<-|Hx]; [left; now left|].
        destruct (IH (b :: r) ltac:(cbn [List.length]; lia) x Hx) as [H|[q H]]; [left; right; exact H|]. right. change (rev (a :: b :: r)) with (rev (b :: r) ++ [a]).
        rewrite H. eexists. reflexivity. }
  intros x. apply (G _ l (le_n _)).
Qed.
(** When the last two numbers are the same, that number is in a pair. *)
Lemma last_covered l x r : rev l = x :: x :: r -> In x (map fst (pair_up l)).
Proof.
  intros E. apply (f_equal (@rev Z)) in E. rewrite rev_involutive in E. cbn [rev] in E. rewrite <- app_assoc in E. cbn [app] in E. subst l.
  generalize (rev r) as a. clear r. intros a.
  assert (G : forall k a, (List.length a <= k)%nat -> In x (map fst (pair_up (a ++ [x; x])))).
  { clear. induction k as [|k IH]; intros [|a [|b r]] HL; cbn [List.length] in HL; try lia.
    - cbn. rewrite Z.eqb_refl. now left.
    - cbn. rewrite Z.eqb_refl. now left.
    - cbn [app pair_up]. destruct (Z.eqb_spec a x) as [->|_]; [now left|]. cbn [map]. right. rewrite Z.eqb_refl. now left.
    - cbn [app pair_up]. destruct (a =? b); cbn [map]; right; [apply IH; lia|]. apply (IH (b :: r)). cbn [List.length]. lia. }
  apply (G _ a (le_n _)).
Qed.
Lemma sort_in l x : In x (sort_z l) <-> In x l.
Proof. split; apply Permutation.Permutation_in; [|apply Permutation.Permutation_sym]; apply sort_perm. Qed.
Lemma block_topology_defined n nums : (exists p, block_topology n nums = Ok p) <-> (2 <= List.length nums)%nat /\ Forall (fun x => 0 <= x < n) nums.
Proof.
  unfold block_topology, last_one. assert (L : List.length (rev (sort_z nums)) = List.length nums) by (rewrite rev_length; apply Permutation.Permutation_length, sort_perm).
  destruct (rev (sort_z nums)) as [|x [|y r]] eqn:E; cbn [List.length bind] in *.
  - split; [intros [p H]; discriminate|intros [H _]; lia].
  - split; [intros [p H]; discriminate|intros [H _]; lia].
  - assert (C : forall z, In z nums <-> In z (map fst (pair_up (sort_z nums) ++ (if y =? x then [] else [(x, false)])))).
    { intros z. rewrite map_app, in_app_iff. split.
      - intros Hz. apply sort_in in Hz. destruct (pair_up_covers _ _ Hz) as [H|[q H]]; [now left|]. rewrite E in H. injection H as <- _.
        destruct (Z.eqb_spec y x) as [->|_]; [|right; now left]. left. eapply last_covered. exact E.
      - intros H. apply sort_in. destruct H as [H|H].
        + apply in_map_iff in H as (e & <- & H). now apply pair_up_in.
        + destruct (y =? x); [destruct H|]. destruct H as [<-|[]]. cbn [fst]. apply in_rev. rewrite E. now left. }
    destruct (forallb _ _) eqn:B.
    + split; [intros _|eauto]. split; [lia|]. apply Forall_forall. intros z Hz. apply C, in_map_iff in Hz as (e & <- & He).
      rewrite forallb_forall in B. apply B in He. apply andb_true_iff in He as [H1 H2]. apply Z.leb_le in H1. apply Z.ltb_lt in H2. lia.
    + split; [intros [p H]; discriminate|]. intros [_ H]. exfalso. rewrite <- not_true_iff_false in B. apply B. apply forallb_forall. intros e He.
      rewrite Forall_forall in H. assert (Hi : In (fst e) nums) by (apply C; now apply in_map). apply H in Hi.
      apply andb_true_iff. split; [apply Z.leb_le|apply Z.ltb_lt]; lia.
Qed.
Lemma block_topology_nothrow n nums : (exists p, block_topology n nums = Ok p) \/ block_topology n nums = UB.
Proof.
  unfold block_topology, last_one. destruct (rev (sort_z nums)) as [|x [|y r]]; cbn [bind]; auto. destruct (forallb _ _); eauto.
Qed.

(** ** Components *)
Definition last_of (faces : list (bytes * bytes)) (n : bytes) : bytes :=
  fold_left (fun acc e => if beq (snd e) n then fst e else acc) faces [].
Definition both (faces : list (bytes * bytes)) (n : bytes) : bytes * nat := (last_of faces n, face_count faces n).
Definition shown (t : TsMl) : bytes * nat := (tm_feature t, List.length (tm_faces t)).
Record declares (names : list bytes) (faces : list (bytes * bytes)) (st : MlSt) : Prop := {
  dc_names : map tm_name (i_tsurfs st) = names;
  dc_faces : i_surfaces st = map snd faces;
  dc_shown : map shown (i_tsurfs st) = per_tsurf (both faces) ([], 0%nat) [] names;
  dc_in : Forall (fun e => In (snd e) names) faces
}.
Lemma existsb_beq n l : existsb (beq n) l = true <-> In n l.
Proof.
  rewrite existsb_exists. split; [intros (x & H & E); apply beq_eq in E; now subst|]. intros H. exists n. split; [assumption|apply beq_refl].
Qed.
Lemma existsb_beq_false n l : ~ In n l -> existsb (beq n) l = false.
Proof. intros H. rewrite <- not_true_iff_false, existsb_beq. exact H. Qed.
Lemma both_snoc n faces f x : both (faces ++ [(f, x)]) n = if beq x n then (f, S (face_count faces n)) else both faces n.
Proof.
  unfold both, last_of, face_count. rewrite fold_left_app, filter_app, app_length. cbn [fold_left filter fst snd]. destruct (beq x n); cbn [List.length]; f_equal; lia.
Qed.
Lemma both_none n faces : ~ In n (map snd faces) -> both faces n = ([], 0%nat).
Proof.
  induction faces as [|[f x] l IH] using rev_ind; intros H; [reflexivity|]. rewrite both_snoc. rewrite map_app in H.
  rewrite (proj2 (beq_neq x n)) by (intros ->; apply H, in_or_app; right; now left).
  apply IH. intros Hi. apply H, in_or_app. now left.
Qed.
Lemma per_tsurf_snoc n faces : forall names before, Forall (fun e => In (snd e) (before ++ names)) faces ->
  per_tsurf (both faces) ([], 0%nat) before (names ++ [n]) = per_tsurf (both faces) ([], 0%nat) before names ++ [([], 0%nat)].
Proof.
  induction names as [|x names IH]; intros before H; cbn [app per_tsurf].
  - destruct (existsb (beq n) before) eqn:E; [reflexivity|]. rewrite both_none; [reflexivity|]. intros Hi. apply in_map_iff in Hi as (e & <- & Hi).
    rewrite Forall_forall in H. apply H in Hi. rewrite app_nil_r in Hi. apply existsb_beq in Hi. congruence.
  - f_equal. apply IH. rewrite <- app_assoc. exact H.
Qed.
Lemma per_tsurf_before f x faces : forall names before, In x before ->
  per_tsurf (both (faces ++ [(f, x)])) ([], 0%nat) before names = per_tsurf (both faces) ([], 0%nat) before names.
Proof.
  induction names as [|n names IH]; intros before H; cbn [per_tsurf]; [reflexivity|]. rewrite IH by (apply in_or_app; now left). f_equal.
  destruct (existsb (beq n) before) eqn:E; [reflexivity|]. rewrite both_snoc. destruct (beq x n) eqn:Ex; [|reflexivity]. apply beq_eq in Ex. subst x.
  apply existsb_beq in H. congruence.
Qed.
Lemma add_tface_declares n f s : forall ts before faces, ~ In n before ->
  map shown ts = per_tsurf (both faces) ([], 0%nat) before (map tm_name ts) -> In n (map tm_name ts) ->
  exists ts', add_tface n f s ts = Some ts' /\ map tm_name ts' = map tm_name ts /\
    map shown ts' = per_tsurf (both (faces ++ [(f, n)])) ([], 0%nat) before (map tm_name ts).
Proof.
  induction ts as [|t ts IH]; intros before faces Hb Hc Hi; [destruct Hi|]. cbn [map per_tsurf add_tface] in *.
  assert (H1 : shown t = if existsb (beq (tm_name t)) before then ([], 0%nat) else both faces (tm_name t)) by congruence.
  assert (H2 : map shown ts = per_tsurf (both faces) ([], 0%nat) (before ++ [tm_name t]) (map tm_name ts)) by congruence. clear Hc.
  destruct (beq (tm_name t) n) eqn:E.
  - apply beq_eq in E. eexists. split; [reflexivity|]. cbn [map tm_name]. split; [reflexivity|]. rewrite E in *.
    rewrite (existsb_beq_false _ _ Hb) in *. rewrite both_snoc, beq_refl. rewrite per_tsurf_before by (apply in_or_app; right; now left).
    rewrite <- H2. f_equal. unfold shown in *. cbn [tm_feature tm_faces]. unfold both in H1. rewrite app_length. cbn [List.length]. f_equal.
    assert (List.length (tm_faces t) = face_count faces n) by congruence. lia.
  - destruct Hi as [Hi|Hi]; [rewrite Hi, beq_refl in E; discriminate|].
    assert (Hb' : ~ In n (before ++ [tm_name t])).
    { intros Hx. apply in_app_or in Hx as [Hx|[Hx|[]]]; [contradiction|]. rewrite Hx, beq_refl in E. discriminate. }
    destruct (IH (before ++ [tm_name t]) faces Hb' H2 Hi) as (ts' & -> & E1 & E2). eexists. split; [reflexivity|]. cbn [map]. rewrite E1, E2. split; [reflexivity|].
    f_equal. rewrite both_snoc. rewrite (proj2 (beq_neq n (tm_name t))) by (intros ->; rewrite beq_refl in E; discriminate). exact H1.
Qed.
Lemma add_tface_unknown n f s ts : ~ In n (map tm_name ts) -> add_tface n f s ts = None.
Proof.
  induction ts as [|t ts IH]; intros H; [reflexivity|]. cbn [add_tface map] in *. rewrite (proj2 (beq_neq _ _)) by (intros E; apply H; now left).
  rewrite IH; [reflexivity|]. intros Hi. apply H. now right.
Qed.
Lemma declares_tsurf names faces ts ss un bs us fs n : declares names faces (mkMlSt ts ss un bs us fs) ->
  declares (names ++ [n]) faces (mkMlSt (ts ++ [mkTsMl n [] []]) ss un bs us fs).
Proof.
  intros [H1 H2 H3 H4]. cbn [i_tsurfs i_surfaces] in *. constructor; cbn [i_tsurfs i_surfaces].
  - rewrite map_app, H1. reflexivity.
  - exact H2.
  - rewrite map_app, H3. rewrite per_tsurf_snoc; [reflexivity|]. exact H4.
  - eapply Forall_impl; [|exact H4]. intros x Hx. apply in_or_app. now left.
Qed.
Lemma declares_tface names faces ts ss un bs us fs n f : declares names faces (mkMlSt ts ss un bs us fs) -> In n names ->
  exists ts', add_tface n f (lenz ss) ts = Some ts' /\ declares names (faces ++ [(f, n)]) (mkMlSt ts' (ss ++ [n]) un bs us fs).
Proof.
  intros [H1 H2 H3 H4] Hn. cbn [i_tsurfs i_surfaces] in *. rewrite <- H1 in H3, Hn. destruct (add_tface_declares n f (lenz ss) ts [] faces (fun x => x) H3 Hn) as (ts' & E & E1 & E2).
  exists ts'. split; [exact E|]. constructor; cbn [i_tsurfs i_surfaces].
  - now rewrite E1.
  - rewrite map_app, H2. reflexivity.
  - now rewrite E2, H1.
  - apply Forall_app. split; [exact H4|]. constructor; [|constructor]. cbn [snd]. now rewrite <- H1.
Qed.
Lemma declares_other names faces ts ss un bs us fs un' bs' us' fs' : declares names faces (mkMlSt ts ss un bs us fs) ->
  declares names faces (mkMlSt ts ss un' bs' us' fs').
Proof. intros [H1 H2 H3 H4]. constructor; assumption. Qed.
Lemma declares_counts names faces st : declares names faces st -> map (fun t => List.length (tm_faces t)) (i_tsurfs st) = face_counts names faces.
Proof.
  intros D. replace (map (fun t => List.length (tm_faces t)) (i_tsurfs st)) with (map snd (map shown (i_tsurfs st))) by (now rewrite map_map).
  rewrite (dc_shown _ _ _ D). clear D. unfold face_counts. generalize (@nil bytes). induction names as [|n names IH]; intros before; [reflexivity|].
  cbn [per_tsurf map]. rewrite IH. now destruct (existsb (beq n) before).
Qed.
Lemma declares_lenz names faces st : declares names faces st -> lenz (i_surfaces st) = lenz faces.
Proof. intros D. rewrite (dc_faces _ _ _ D). apply lenz_map. Qed.

Definition leads (o : outcome) (r : res (MlSt * list bytes)) : Prop :=
  match o with
  | Ends names faces post => exists st, r = Ok (st, post) /\ declares names faces st
  | Refused => exists e, r = Throw e
  end.
Ltac keywords := repeat match goal with |- context [beq (lit ?a) (lit ?b)] =>
  let v := eval vm_compute in (beq (lit a) (lit b)) in change (beq (lit a) (lit b)) with v end; cbn iota.
Lemma not_component k : ~ In k component_words -> beq k "TSURF" = false /\ beq k "TFACE" = false /\ beq k "REGION" = false /\
  beq k "LAYER" = false /\ beq k "FAULT_BLOCK" = false.
Proof.
  intros H. repeat split; apply beq_neq; intros ->; apply H; unfold component_words; cbn [In]; tauto.
Qed.
Lemma first_other_shorter good ls ns w post : first_other good ls ns w post -> (List.length post < List.length ls)%nat.
Proof. intros (before & l & _ & _ & _ & _ & -> & _). rewrite app_length. cbn [List.length]. lia. Qed.
Lemma comps_loop names faces ls o : comps names faces ls o -> forall st f, declares names faces st -> (List.length ls < f)%nat ->
  leads o (components_loop f st ls).
Proof.
  induction 1 as [names faces|names faces l r Hl|names faces l r ws n o Hl Hs Hn _ IH|names faces l r w f0 ws n o Hl Hs Hn Hi _ IH|
    names faces l r w f0 ws n Hl Hs Hn Hi|names faces l r w ws ns post o Hl Hs Hn HL _ IH|names faces l r w ws Hl Hs Hn HL|
    names faces l r w ws n ns post o Hl Hs Hn Hu HL H2 Ha _ IH|names faces l r w ws n Hl Hs Hn Hu HL|
    names faces l r k ws ns post o Hl Hs Hk HL _ IH|names faces l r k ws Hl Hs Hk HL|names faces l r k ws o Hl Hs Hk _ IH];
    intros st f D Hf; (destruct f as [|f]; [cbn in Hf; lia|]); cbn [components_loop List.length] in *.
  - exists ExData. reflexivity.
  - unfold starts in Hl. rewrite Hl. exists st. auto.
  - rewrite Hl. unfold component_line. rewrite Hs. cbn [front bind tl]. destruct st as [ts ss un bs us fs]. keywords. cbn [bind].
    assert (R : read_name ws = n) by (symmetry; exact Hn). rewrite !R.
    apply IH; [|lia]. now apply declares_tsurf.
  - rewrite Hl. unfold component_line. rewrite Hs. cbn [front bind tl]. destruct st as [ts ss un bs us fs]. keywords. cbn [idx nth_error bind skipn].
    assert (R : read_name ws = n) by (symmetry; exact Hn). rewrite !R.
    destruct (declares_tface _ _ _ _ _ _ _ _ n f0 D Hi) as (ts' & -> & D'). cbn [bind]. apply IH; [exact D'|lia].
  - rewrite Hl. unfold component_line. rewrite Hs. cbn [front bind tl]. destruct st as [ts ss un bs us fs]. keywords. cbn [idx nth_error bind skipn].
    assert (R : read_name ws = n) by (symmetry; exact Hn). rewrite !R.
    pose proof (dc_names _ _ _ D) as Dn. cbn in Dn. rewrite add_tface_unknown by (now rewrite Dn). exists ExOutOfRange. reflexivity.
  - rewrite Hl. unfold component_line. rewrite Hs. cbn [front bind tl]. destruct st as [ts ss un bs us fs]. keywords. cbn [idx nth_error bind skipn].
    assert (R : read_name ws = lit "Universe") by (symmetry; exact Hn). rewrite !R. keywords.
    pose proof (declares_lenz _ _ _ D) as Df. cbn [i_surfaces] in Df. rewrite Df. pose proof (proj1 (universe_ends _ _ _ _ (lenz_nonneg faces)) HL) as E. rewrite E. cbn [bind].
    rewrite (among_numbers _ _ _ _ HL). cbn [bind]. destruct HL as (w' & Hw & _). apply first_other_shorter in Hw.
    apply IH; [|lia]. now apply (declares_other _ _ _ _ un bs us fs).
  - rewrite Hl. unfold component_line. rewrite Hs. cbn [front bind tl]. destruct st as [ts ss un bs us fs]. keywords. cbn [idx nth_error bind skipn].
    assert (R : read_name ws = lit "Universe") by (symmetry; exact Hn). rewrite !R. keywords.
    pose proof (declares_lenz _ _ _ D) as Df. cbn [i_surfaces] in Df. rewrite Df. apply (proj1 (universe_stops _ _ (lenz_nonneg faces))) in HL as [e ->]. exists e. reflexivity.
  - rewrite Hl. unfold component_line. rewrite Hs. cbn [front bind tl]. destruct st as [ts ss un bs us fs]. keywords. cbn [idx nth_error bind skipn].
    assert (R : read_name ws = n) by (symmetry; exact Hn). rewrite !R. rewrite (proj2 (beq_neq _ _) Hu).
    pose proof (declares_lenz _ _ _ D) as Df. cbn [i_surfaces] in Df. rewrite (proj1 (block_ends _ _ _) HL). cbn [bind].
    destruct (sides_numbers _ _ _ HL) as [-> Hz]. cbn [bind].
    destruct (proj2 (block_topology_defined (lenz ss) (map (fun v => Z.abs v - 1) ns))) as [[bd it] ->].
    { rewrite map_length. split; [assumption|]. rewrite Df. apply Forall_map. rewrite Forall_forall in *. intros v Hv. specialize (Hz v Hv). specialize (Ha v Hv). lia. }
    cbn [bind]. destruct HL as (w' & Hw & _). apply first_other_shorter in Hw. apply IH; [|lia]. now apply (declares_other _ _ _ _ un bs us fs).
  - rewrite Hl. unfold component_line. rewrite Hs. cbn [front bind tl]. destruct st as [ts ss un bs us fs]. keywords. cbn [idx nth_error bind skipn].
    assert (R : read_name ws = n) by (symmetry; exact Hn). rewrite !R. rewrite (proj2 (beq_neq _ _) Hu).
    apply block_stops in HL as [e ->]. exists e. reflexivity.
  - rewrite Hl. unfold component_line. rewrite Hs. cbn [front bind tl]. destruct st as [ts ss un bs us fs].
    pose proof (proj1 (unit_ends _ _ _) HL) as E. destruct HL as (w' & Hw & _). apply first_other_shorter in Hw.
    destruct Hk as [<-|[<-|[]]]; keywords; rewrite E; cbn [bind]; (apply IH; [|lia]); now apply (declares_other _ _ _ _ un bs us fs).
  - rewrite Hl. unfold component_line. rewrite Hs. cbn [front bind tl]. destruct st as [ts ss un bs us fs].
    apply unit_stops in HL as [e E]. destruct Hk as [<-|[<-|[]]]; keywords; rewrite E; exists e; reflexivity.
  - rewrite Hl. unfold component_line. rewrite Hs. cbn [front bind tl]. destruct (not_component k Hk) as (-> & -> & -> & -> & ->).
    destruct st as [ts ss un bs us fs]. cbn [bind]. apply IH; [exact D|lia].
Qed.
Lemma loop_comps f : forall ls st names faces, declares names faces st -> (List.length ls < f)%nat ->
  match components_loop f st ls with
  | Ok (st', post) => exists names' faces', comps names faces ls (Ends names' faces' post)
  | Throw e => comps names faces ls Refused
  | _ => True
  end.
Proof.
  induction f as [|f IH]; intros ls st names faces D Hf; [exact I|]. cbn [components_loop]. destruct ls as [|l r]; [constructor|]. cbn [List.length] in Hf.
  destruct (starts_with l "END") eqn:El.
  { exists names, faces. now constructor. }
  unfold component_line. destruct (string_split l) as [|k ws] eqn:Es; cbn [front bind]; [exact I|]. cbn [tl]. destruct st as [ts ss un bs us fs].
  pose proof (declares_lenz _ _ _ D) as Df. pose proof (dc_names _ _ _ D) as Dn. cbn in Df, Dn.
  assert (Q : forall n f' st' r' (R : names = names -> forall o, comps n f' r' o -> comps names faces (l :: r) o), declares n f' st' -> (List.length r' < f)%nat ->
    match components_loop f st' r' with
    | Ok (st', post) => exists names' faces', comps names faces (l :: r) (Ends names' faces' post)
    | Throw e => comps names faces (l :: r) Refused
    | _ => True
    end).
  { intros n f' st' r' R D' Hr. specialize (IH r' st' n f' D' Hr). destruct (components_loop f st' r') as [[st2 post]| | |]; auto.
    destruct IH as (n2 & f2 & H). exists n2, f2. now apply R. }
  destruct (beq k "TSURF") eqn:K1.
  { apply beq_eq in K1. subst k. cbn [bind]. apply (Q (names ++ [read_name ws]) faces); [|now apply declares_tsurf|lia].
    intros _ o H. eapply c_tsurf; [exact El|exact Es|reflexivity|exact H]. }
  destruct (beq k "TFACE") eqn:K2.
  { apply beq_eq in K2. subst k. destruct ws as [|w [|g ws]]; cbn [idx nth_error bind skipn]; auto.
    destruct (in_dec (list_eq_dec ascii_dec) (read_name ws) names) as [Hi|Hi].
    - destruct (declares_tface _ _ _ _ _ _ _ _ (read_name ws) g D Hi) as (ts' & -> & D'). cbn [bind].
      apply (Q names (faces ++ [(g, read_name ws)])); [|exact D'|lia]. intros _ o H. eapply c_tface; [exact El|exact Es|reflexivity|exact Hi|exact H].
    - rewrite add_tface_unknown by (now rewrite Dn). eapply c_tface_unknown; [exact El|exact Es|reflexivity|exact Hi]. }
  destruct (beq k "REGION") eqn:K3.
  { apply beq_eq in K3. subst k. destruct ws as [|w ws]; cbn [idx nth_error bind skipn]; auto.
    destruct (beq (read_name ws) "Universe") eqn:Ku.
    - apply beq_eq in Ku. assert (N : named ws "Universe") by (unfold named; symmetry; exact Ku). rewrite Df.
      destruct (read_ids (universe_parse (lenz faces)) r) as [[vs r']|e| |] eqn:E; cbn [bind]; auto.
      + apply (universe_ends _ _ _ _ (lenz_nonneg faces)) in E. rewrite (among_numbers _ _ _ _ E). cbn [bind].
        pose proof E as (w' & Hw & _). apply first_other_shorter in Hw.
        apply (Q names faces); [|now apply (declares_other _ _ _ _ un bs us fs)|lia].
        intros _ o H. eapply c_universe; [exact El|exact Es|exact N|exact E|exact H].
      + eapply c_universe_refused; [exact El|exact Es|exact N|]. apply (universe_stops _ _ (lenz_nonneg faces)). eauto.
    - apply beq_neq in Ku. destruct (read_ids block_parse r) as [[vs r']|e| |] eqn:E; cbn [bind]; auto.
      + apply block_ends in E. destruct (sides_numbers _ _ _ E) as [-> Hz]. cbn [bind].
        destruct (block_topology_nothrow (lenz ss) (map (fun v => Z.abs v - 1) vs)) as [[[bd it] Eb]|Eb]; rewrite Eb; cbn [bind]; auto.
        pose proof E as (w' & Hw & _). apply first_other_shorter in Hw.
        destruct (proj1 (block_topology_defined (lenz ss) (map (fun v => Z.abs v - 1) vs)) (ex_intro _ _ Eb)) as [L2 A].
        rewrite map_length in L2. apply (proj1 (Forall_map _ _ _)) in A.
        apply (Q names faces); [|now apply (declares_other _ _ _ _ un bs us fs)|lia].
        intros _ o H. eapply c_region; [exact El|exact Es|reflexivity|exact Ku|exact E|exact L2| |exact H].
        eapply Forall_impl; [|exact A]. intros v Hv. cbn beta in Hv. rewrite Df in Hv. lia.
      + eapply c_region_refused; [exact El|exact Es|reflexivity|exact Ku|]. apply block_stops. eauto. }
  destruct (beq k "LAYER") eqn:K4.
  { apply beq_eq in K4. destruct (read_ids string_to_index r) as [[vs r']|e| |] eqn:E; cbn [bind]; auto.
    - apply unit_ends in E. pose proof E as (w' & Hw & _). apply first_other_shorter in Hw.
      apply (Q names faces); [|now apply (declares_other _ _ _ _ un bs us fs)|lia].
      intros _ o H. eapply c_unit; [exact El|exact Es|subst k; now left|exact E|exact H].
    - eapply c_unit_refused; [exact El|exact Es|subst k; now left|]. apply unit_stops. eauto. }
  destruct (beq k "FAULT_BLOCK") eqn:K5.
  { apply beq_eq in K5. destruct (read_ids string_to_index r) as [[vs r']|e| |] eqn:E; cbn [bind]; auto.
    - apply unit_ends in E. pose proof E as (w' & Hw & _). apply first_other_shorter in Hw.
      apply (Q names faces); [|now apply (declares_other _ _ _ _ un bs us fs)|lia].
      intros _ o H. eapply c_unit; [exact El|exact Es|subst k; right; now left|exact E|exact H].
    - eapply c_unit_refused; [exact El|exact Es|subst k; right; now left|]. apply unit_stops. eauto. }
  cbn [bind]. apply (Q names faces); [|exact D|lia]. intros _ o H. eapply c_other; [exact El|exact Es| |exact H].
  intros Hi. unfold component_words in Hi. cbn [In] in Hi. destruct Hi as [<-|[<-|[<-|[<-|[<-|[]]]]]]; rewrite beq_refl in *; discriminate.
Qed.
Lemma empty_declares : declares [] [] empty_st.
Proof. constructor; constructor. Qed.
Lemma read_components_comps ls : match read_components ls with
  | Ok (st, post) => exists names faces, comps [] [] ls (Ends names faces post) /\ declares names faces st
  | Throw e => comps [] [] ls Refused
  | _ => forall o, ~ comps [] [] ls o
  end.
Proof.
  unfold read_components. pose proof (loop_comps (S (List.length ls)) ls empty_st [] [] empty_declares (Nat.lt_succ_diag_r _)) as H.
  destruct (components_loop _ _ ls) as [[st post]|e| |] eqn:E.
  - destruct H as (names & faces & H). exists names, faces. split; [exact H|]. apply comps_loop with (st := empty_st) (f := S (List.length ls)) in H;
      [|apply empty_declares|lia]. destruct H as (st' & E' & D). rewrite E in E'. now injection E' as ->.
  - exact H.
  - intros o Ho. apply comps_loop with (st := empty_st) (f := S (List.length ls)) in Ho; [|apply empty_declares|lia]. rewrite E in Ho.
    destruct o; [destruct Ho as (? & ? & _)|destruct Ho as [? ?]]; discriminate.
  - intros o Ho. apply comps_loop with (st := empty_st) (f := S (List.length ls)) in Ho; [|apply empty_declares|lia]. rewrite E in Ho.
    destruct o; [destruct Ho as (? & ? & _)|destruct Ho as [? ?]]; discriminate.
Qed.
