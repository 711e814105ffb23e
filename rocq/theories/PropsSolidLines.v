(** * What counts in the surfaces and regions of a GOCAD solid (C164). *)
From Coq Require Import ZArith List Lia Bool Ascii String.
From Verif Require Import Base Text TextFacts GocadModel MeshModel TsModel LsoModel StratiLso Spec GocadFacts StreamFacts Grammar GrammarFacts GrammarLso GrammarLsoFacts DepthFacts PropsPropsOnly PropsDataLines PropsIndicators.
From Verif Require Import ExNum ExCheck PropsTsVs.
Import ListNotations.
Local Open Scope string_scope.
Local Open Scope list_scope.
Local Open Scope Z_scope.

(** ** Specification *)
(** Lines that say the same: the number of a part, its key vertices, and what follows the name of a region (the sides of its surfaces) are free. *)
Definition says_same (l l' : bytes) : Prop :=
  l' = l \/ (starts "TFACE" l /\ starts "TFACE" l') \/ (starts "KEYVERTICES" l /\ starts "KEYVERTICES" l') \/
  (starts "MODEL_REGION" l /\ starts "MODEL_REGION" l' /\ exists k k' name ws ws', string_split l = k :: name :: ws /\ string_split l' = k' :: name :: ws').
(** Two texts of a solid, with vertices and tetrahedra, whose lines after the line [x] that starts with MODEL say the same. *)
Definition other_surfaces (F : Num) (text text' : bytes) : Prop :=
  exists a pa c pc mid k vs v t ts w x rest rest',
    same_start "GOCAD LightTSolid" text text' (a ++ c ++ mid ++ k :: vs ++ v ++ t :: ts ++ w ++ x :: rest) (a ++ c ++ mid ++ k :: vs ++ v ++ t :: ts ++ w ++ x :: rest') /\
    prefixed_properties F [] a pa /\ (a = [] -> not_next "PROPERTIES" ((c ++ mid) ++ [k])) /\
    prefixed_properties F "TETRA_" c pc /\ (c = [] -> not_next "TETRA_PROPERTIES" (mid ++ [k])) /\
    Forall (fun l => starts_not "VRTX" l /\ starts_not "PVRTX" l) mid /\ (starts "VRTX" k \/ starts "PVRTX" k) /\ Forall (fun l => contains l "VRTX" = true) vs /\
    indicators "VERTEX" v /\ no_vertex_next v /\ no_vertex_next [t] /\ starts_not "BEGIN_VERTEX_REGION_INDICATORS" t /\
    more_tetrahedra ts /\ indicators "TETRA" w /\ starts "MODEL" x /\ Forall2 says_same rest rest'.

(** ** Facts *)
Lemma both_start p : forall q l, starts_with l p = true -> starts_with l q = true -> starts_with p q || starts_with q p = true.
Proof.
  induction p as [|x p IH]; intros q l H1 H2; [destruct q; reflexivity|].
  destruct q as [|y q]; [reflexivity|]. destruct l as [|z l]; [discriminate|]. cbn [starts_with] in *.
  apply andb_true_iff in H1 as [A1 A2]. apply andb_true_iff in H2 as [B1 B2]. apply Ascii.eqb_eq in A1, B1. subst. rewrite Ascii.eqb_refl. cbn [andb]. now apply (IH q l).
Qed.
Lemma excl p q l : starts_with p q || starts_with q p = false -> starts p l -> starts_with l q = false.
Proof. intros N H. destruct (starts_with l q) eqn:E; [|reflexivity]. pose proof (both_start p q l H E). congruence. Qed.
Lemma same_refl l : says_same l l.
Proof. now left. Qed.
Lemma same_kw l l' : says_same l l' -> forall kw, In kw (map lit ["TRGL"; "TFACE"; "SURFACE"; "MODEL_REGION"]) -> starts_with l' kw = starts_with l kw.
Proof.
  intros [->|[[H H']|[[H H']|[H [H' _]]]]] kw I; [reflexivity| | |]; destruct I as [<-|[<-|[<-|[<-|[]]]]];
    try (unfold starts in H, H'; congruence);
    (transitivity false; [|symmetry]); ((eapply excl; [|exact H']; vm_compute; reflexivity) || (eapply excl; [|exact H]; vm_compute; reflexivity)).
Qed.
Lemma same_data l l' kw : says_same l l' -> In kw (map lit ["TRGL"; "SURFACE"]) -> starts_with l kw = true -> l' = l.
Proof.
  intros [->|[[H _]|[[H _]|[H _]]]] I E; [reflexivity| | |]; exfalso; assert (X : starts_with l kw = false); try congruence;
    (destruct I as [<-|[<-|[]]]; (eapply excl; [|exact H]; vm_compute; reflexivity)).
Qed.
Lemma same_region l l' : says_same l l' -> idx (string_split l') 1 = idx (string_split l) 1 \/ starts_with l "MODEL_REGION" = false.
Proof.
  intros [->|[[H _]|[[H _]|[H [_ (k & k' & n & ws & ws' & -> & ->)]]]]]; [now left| | |now left]; right; (eapply excl; [|exact H]; vm_compute; reflexivity).
Qed.
Definition same_stream (s s' : istream) : Prop := nl s' = nl s /\ Forall2 says_same (pending s) (pending s').
Lemma getline_same l l' s s' : says_same l l' -> same_stream s s' -> exists b l1 l1' s1 s1', getline l s = (b, l1, s1) /\ getline l' s' = (b, l1', s1') /\ says_same l1 l1' /\ same_stream s1 s1' /\
  (List.length (pending s1') = List.length (pending s1)).
Proof.
  intros L [N P]. unfold getline. rewrite N. inversion P as [E E'|x y r r' Hx Hr E E'].
  - do 5 eexists. split; [reflexivity|]. split; [reflexivity|]. split; [destruct (nl s); [apply same_refl|exact L]|]. split; [split; [reflexivity|constructor]|reflexivity].
  - do 5 eexists. split; [reflexivity|]. split; [reflexivity|]. split; [exact Hx|]. split; [split; [reflexivity|exact Hr]|]. cbn. symmetry. clear - Hr. induction Hr; cbn; congruence.
Qed.
(** Same outcome, with lines left that say the same. *)
Definition same_out {A} (x y : res (A * bytes * istream)) : Prop :=
  match x, y with
  | Ok (a, l, s), Ok (a', l', s') => a' = a /\ says_same l l' /\ same_stream s s'
  | Throw e, Throw e' => e' = e
  | UB, UB => True
  | Hang, Hang => True
  | _, _ => False
  end.
Lemma same_out_bind {A B} (x y : res (A * bytes * istream)) (f g : A * bytes * istream -> res (B * bytes * istream)) : same_out x y ->
  (forall a l l' s s', says_same l l' -> same_stream s s' -> same_out (f (a, l, s)) (g (a, l', s'))) -> same_out (bind x f) (bind y g).
Proof. destruct x as [[[a l] s]| | |], y as [[[a' l'] s']| | |]; cbn; try tauto. intros (-> & L & P) H. now apply H. Qed.
Lemma same_out_res {A B} (x y : res (A * bytes * istream)) (f g : A * bytes * istream -> res B) : same_out x y ->
  (forall a l l' s s', says_same l l' -> same_stream s s' -> f (a, l, s) = g (a, l', s')) -> bind x f = bind y g.
Proof. destruct x as [[[a l] s]| | |], y as [[[a' l'] s']| | |]; cbn; try tauto; try (intros ->; reflexivity). intros (-> & L & P) H. now apply H. Qed.
Section Facts.
Context {F : Num} (vp tp : PropHeader (num F)) (sv : SolidV F).
Lemma triangles_same tets n b ls ls' : Forall2 says_same ls ls' -> forall st l l', says_same l l' ->
  same_out (lso_triangles F sv tets n st l b ls) (lso_triangles F sv tets n st l' b ls').
Proof.
  induction 1 as [|x y r r' Hx Hr IH]; intros st l l' L; cbn [lso_triangles].
  - cbn. split; [reflexivity|]. split; [destruct b; [apply same_refl|exact L]|]. split; [reflexivity|constructor].
  - rewrite (same_kw x y Hx (lit "TRGL")) by (cbn; tauto). destruct (starts_with x "TRGL") eqn:E.
    + rewrite (same_data x y (lit "TRGL") Hx) by (cbn; tauto || exact E). destruct (lso_trgl F sv tets n st x); cbn; try tauto. apply IH. apply same_refl.
    + cbn. split; [reflexivity|]. split; [exact Hx|]. split; [reflexivity|exact Hr].
Qed.
Lemma tfaces_same f : forall tets name st l l' s s', says_same l l' -> same_stream s s' ->
  same_out (lso_tfaces F f sv tets name st l s) (lso_tfaces F f sv tets name st l' s').
Proof.
  induction f as [|f IH]; intros tets name st l l' s s' L P; [exact I|]. cbn [lso_tfaces]. rewrite (same_kw l l' L (lit "TFACE")) by (cbn; tauto).
  destruct (starts_with l "TFACE"); [|cbn; auto]. destruct (getline_same l l' s s' L P) as (b & l1 & l1' & s1 & s1' & -> & -> & L1 & [N1 P1] & _).
  rewrite N1. eapply same_out_bind; [now apply triangles_same|]. intros ts l2 l2' s2 s2' L2 P2. now apply IH.
Qed.
Lemma surfaces_same f : forall tets st hs l l' s s', says_same l l' -> same_stream s s' ->
  same_out (lso_surfaces F f sv tets st hs l s) (lso_surfaces F f sv tets st hs l' s').
Proof.
  induction f as [|f IH]; intros tets st hs l l' s s' L P; [exact I|]. cbn [lso_surfaces]. rewrite (same_kw l l' L (lit "SURFACE")) by (cbn; tauto).
  destruct (starts_with l "SURFACE") eqn:E; [|cbn; auto]. rewrite (same_data l l' (lit "SURFACE") L) by (cbn; tauto || exact E).
  destruct (getline_same l l s s' (same_refl l) P) as (b & l1 & l1' & s1 & s1' & -> & -> & L1 & P1 & N). cbv zeta. rewrite N.
  eapply same_out_bind; [now apply tfaces_same|]. intros st' l2 l2' s2 s2' L2 P2. now apply IH.
Qed.
Lemma blocks_same f : forall st ss l l' s s', says_same l l' -> same_stream s s' -> lso_blocks F vp tp f sv st ss l' s' = lso_blocks F vp tp f sv st ss l s.
Proof.
  induction f as [|f IH]; intros st ss l l' s s' L P; [reflexivity|]. cbn [lso_blocks]. rewrite (same_kw l l' L (lit "MODEL_REGION")) by (cbn; tauto).
  destruct (starts_with l "MODEL_REGION") eqn:E; [|reflexivity]. destruct (same_region l l' L) as [->|X]; [|congruence]. apply bind_congr. intros name. apply bind_congr. intros [b bad].
  destruct (getline_same l l' s s' L P) as (c & l1 & l1' & s1 & s1' & -> & -> & L1 & P1 & N). now rewrite (IH st ss l1 l1' s1 s1' L1 P1).
Qed.
End Facts.
Lemma same_length ls ls' : Forall2 says_same ls ls' -> List.length ls' = List.length ls.
Proof. induction 1; cbn; congruence. Qed.
Lemma body_surfaces (F : Num) crs (h g : PropHeader (num F)) title mid k vs v t ts w x rest rest' n :
  Forall (fun l => starts_not "VRTX" l /\ starts_not "PVRTX" l) mid -> (starts "VRTX" k \/ starts "PVRTX" k) -> Forall (fun l => contains l "VRTX" = true) vs ->
  indicators "VERTEX" v -> no_vertex_next v -> no_vertex_next [t] -> starts_not "BEGIN_VERTEX_REGION_INDICATORS" t ->
  more_tetrahedra ts -> indicators "TETRA" w -> starts "MODEL" x -> Forall2 says_same rest rest' ->
  lso_body F crs h g title (mkStream (mid ++ k :: vs ++ v ++ t :: ts ++ w ++ x :: rest') n) = lso_body F crs h g title (mkStream (mid ++ k :: vs ++ v ++ t :: ts ++ w ++ x :: rest) n).
Proof.
  intros M K V Iv N1 Ntv Nt T Iw X R.
  assert (Nx : starts_not "TETRA" x) by (unfold starts_not; eapply excl; [|exact X]; vm_compute; reflexivity).
  assert (Nb : starts_not "BEGIN_TETRA_REGION_INDICATORS" x) by (unfold starts_not; eapply excl; [|exact X]; vm_compute; reflexivity).
  (* without the indicators *)
  rewrite (body_indicators F crs h g title mid k vs [] v t ts [] w x rest' n) by (assumption || exact I || now left).
  rewrite (body_indicators F crs h g title mid k vs [] v t ts [] w x rest n) by (assumption || exact I || now left). cbn [app].
  assert (HM : Forall (fun x => existsb (starts_with x) [lit "VRTX"; lit "PVRTX"] = false) mid).
  { eapply Forall_impl; [|exact M]. intros y [H1 H2]. unfold starts_not in *. cbn [existsb]. now rewrite H1, H2. }
  assert (HK : existsb (starts_with k) [lit "VRTX"; lit "PVRTX"] = true).
  { destruct K as [H|H]; unfold starts in H; cbn [existsb]; rewrite H; [reflexivity|apply orb_true_r]. }
  unfold lso_body. cbn [map]. rewrite !(TsFacts.goto_keywords_hit _ mid k _ n HM HK). cbn [bind pending nl].
  destruct (vertices_until crs h vs V k (mkSolidV [] [] [] (map (fun _ => []) (p_names h)))) as [gv GV].
  rewrite !(GV n t _ Ntv), !bind_assoc. apply bind_congr. intros sv. cbn [bind]. unfold skip_indicators at 1 3. unfold starts_not in Nt.
  change (lit "BEGIN_" ++ lit "VERTEX" ++ lit "_REGION_INDICATORS") with (lit "BEGIN_VERTEX_REGION_INDICATORS"). rewrite Nt. cbn [bind pending nl].
  destruct (tetras_until g ts T (lenz (sv_points sv)) t (mkSolidT [] (map (fun _ => []) (p_names g)))) as [gt GT].
  rewrite !(GT n x _ Nx), !bind_assoc. apply bind_congr. intros st. cbn [bind]. unfold skip_indicators. unfold starts_not in Nb.
  change (lit "BEGIN_" ++ lit "TETRA" ++ lit "_REGION_INDICATORS") with (lit "BEGIN_TETRA_REGION_INDICATORS"). rewrite Nb. cbn [bind]. unfold starts in X. rewrite X. cbn [bind].
  destruct (getline_same x x (mkStream rest n) (mkStream rest' n) (same_refl x)) as (b & l1 & l1' & s1 & s1' & -> & -> & L1 & P1 & N); [split; [reflexivity|exact R]|]. rewrite N.
  symmetry. eapply same_out_res; [now apply surfaces_same|]. intros [ss hs] l2 l2' s2 s2' L2 P2. cbn [fst snd]. rewrite (same_length _ _ (proj2 P2)).
  now rewrite (blocks_same h g sv _ st ss l2 l2' s2 s2' L2 P2).
Qed.

(** ** C164 *)
(** For any outcome: the numbers of the parts, their key vertices and the sides written for the regions change nothing to what is loaded. *)
Theorem C164_surfaces_and_regions (F : Num) text text' : other_surfaces F text text' -> read_lso F text' = read_lso F text /\ read_strati F text' = read_strati F text.
Proof.
  intros H. assert (R : read_lso F text' = read_lso F text); [|split; [exact R|unfold read_strati; now rewrite R]]. revert H.
  intros (a & pa & c & pc & mid & k & vs & v & t & ts & w & x & rest & rest' & S1 & P & Np & P2 & Np2 & M & K & V & Iv & N1 & Ntv & Nt & T & Iw & X & Rr).
  assert (AN : forall (a c : list bytes) mid k r, a ++ c ++ mid ++ k :: r <> []) by (intros [|? ?] [|? ?] [|? ?] ? ?; discriminate).
  destruct (start_step _ _ _ _ _ S1 (AN _ _ _ _ _) (AN _ _ _ _ _)) as (first & name & cr & s & s' & u & u' & n & G & G' & Eh & Eh' & Ec & Ec').
  assert (D1 : both_declare F [] a a (c ++ mid ++ k :: vs ++ v ++ t :: ts ++ w ++ x :: rest) (c ++ mid ++ k :: vs ++ v ++ t :: ts ++ w ++ x :: rest')).
  { exists pa. repeat split; try assumption; try (intros e; rewrite app_assoc; apply not_next_cons; now apply Np); apply (AN []). }
  assert (D2 : both_declare F "TETRA_" c c (mid ++ k :: vs ++ v ++ t :: ts ++ w ++ x :: rest) (mid ++ k :: vs ++ v ++ t :: ts ++ w ++ x :: rest')).
  { exists pc. repeat split; try assumption; try (intros e; apply not_next_cons; now apply Np2); apply (AN [] []). }
  destruct (declare_step [] a a _ _ n D1) as (h & h' & Ep & Ep' & Es). destruct (declare_step "TETRA_" c c _ _ n D2) as (g & g' & Eq & Eq' & Et).
  unfold read_lso. rewrite G, G', Eh, Eh'. cbn [bind]. rewrite Ec, Ec'. cbn [bind]. rewrite Ep, Ep'. cbn [bind]. rewrite Eq, Eq'. cbn [bind].
  rewrite <- (lso_body_strip cr h'), <- (lso_body_strip cr h), Es, Et. now apply body_surfaces.
Qed.
Print Assumptions C164_surfaces_and_regions.

(** ** What does not hold *)
Definition sl_text (part key region : string) : bytes := unlines (map lit
  ["GOCAD LightTSolid 1"; "HEADER {"; "name:s"; "}"; "VRTX 1 0 0 0"; "VRTX 2 1 0 0"; "VRTX 3 0 1 0"; "VRTX 4 0 0 5";
   "TETRA 1 2 3 4"; "# CTETRA low a b c d"; "MODEL"; "SURFACE sides"; part; key; "TRGL 1 2 3"; region; "END"]).
(** A region whose text names a surface that does not exist is loaded all the same, with the surface that its tetrahedra touch. *)
Definition sl_sides (r : res (LsoIn ExNum)) : option (list (bytes * list Z * list Z)) :=
  match r with Ok m => Some (map (fun b => (r_name b, r_bounds b, r_internals b)) (i_blocks m)) | _ => None end.
Theorem C164_unknown_side_refuted :
  sl_sides (read_lso ExNum (sl_text "TFACE 1" "KEYVERTICES 1 2 3" "MODEL_REGION low +1")) = Some [(lit "low", [0], [])] /\
  sl_sides (read_lso ExNum (sl_text "TFACE 1" "KEYVERTICES 1 2 3" "MODEL_REGION low +99")) = Some [(lit "low", [0], [])].
Proof. split; vm_compute; reflexivity. Qed.
Print Assumptions C164_unknown_side_refuted.

(** ** Instance: another number of the part, other key vertices and other sides. *)
Example C164_case : let text := sl_text "TFACE 1" "KEYVERTICES 1 2 3" "MODEL_REGION low +1" in let text' := sl_text "TFACE 7" "KEYVERTICES 3 9 1" "MODEL_REGION low -4 +2" in
  other_surfaces ExNum text text' /\ sl_sides (read_lso ExNum text') = Some [(lit "low", [0], [])].
Proof.
  cbv zeta. split; [|vm_compute; reflexivity].
  exists [], [], [], [], [], (lit "VRTX 1 0 0 0"), (map lit ["VRTX 2 1 0 0"; "VRTX 3 0 1 0"; "VRTX 4 0 0 5"]), [], (lit "TETRA 1 2 3 4"), [lit "# CTETRA low a b c d"], [], (lit "MODEL"),
    (map lit ["SURFACE sides"; "TFACE 1"; "KEYVERTICES 1 2 3"; "TRGL 1 2 3"; "MODEL_REGION low +1"; "END"]),
    (map lit ["SURFACE sides"; "TFACE 7"; "KEYVERTICES 3 9 1"; "TRGL 1 2 3"; "MODEL_REGION low -4 +2"; "END"]).
  split.
  { exists [], (lit "GOCAD LightTSolid 1"), (map lit ["HEADER {"; "name:s"; "}"]), [], (Some (lit "s")), true.
    unfold sl_text. rewrite !open_unlines by (cbn [map app]; repeat (apply Forall_cons; [apply lineb_ok; vm_compute; reflexivity|]); constructor).
    split; [reflexivity|]. split; [reflexivity|]. split; [reflexivity|]. split; [constructor|]. split; [reflexivity|].
    split; [|split; [left; now split|intros _; split; vm_compute; reflexivity]].
    exists (lit "HEADER {"), [lit "name:s"], (lit "}"). split; [reflexivity|]. split; [reflexivity|]. split; [repeat constructor|]. split; [reflexivity|].
    right. exists [], (lit "name:s"), [], (lit "s"). repeat split; constructor. }
  split; [left; now split|]. split; [reflexivity|]. split; [left; now split|]. split; [reflexivity|]. split; [constructor|]. split; [left; reflexivity|].
  split; [repeat constructor|]. split; [now left|]. split; [exact I|]. split; [reflexivity|]. split; [reflexivity|]. split; [constructor|]. split; [now left|]. split; [reflexivity|].
  cbn [map]. constructor; [now left|]. constructor; [right; left; now split|]. constructor; [right; right; left; now split|]. constructor; [now left|].
  constructor; [|constructor; [now left|constructor]]. right. right. right. split; [reflexivity|]. split; [reflexivity|].
  exists (lit "MODEL_REGION"), (lit "MODEL_REGION"), (lit "low"), [lit "+1"], (map lit ["-4"; "+2"]). now split.
Qed.
