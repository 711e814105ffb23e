(** * Words at the end of the data lines of a GOCAD object (C160). *)
From Coq Require Import ZArith List Lia Bool Ascii String.
From Verif Require Import Base Text TextFacts GocadModel MeshModel TsModel Spec GocadFacts StreamFacts Grammar GrammarFacts PropsPropsOnly.
From Verif Require Import WellModel VoModel ExNum ExCheck PropsTsVs.
Import ListNotations.
Local Open Scope string_scope.
Local Open Scope list_scope.
Local Open Scope Z_scope.

(** ** Specification *)
(** [l'] has the words of [l], then others. *)
Definition longer (l l' : bytes) : Prop :=
  exists k ws more, string_split l = k :: ws /\ string_split l' = k :: ws ++ more /\ k <> lit "END".
(** Two texts whose first object of a kind has the data lines [d], then [d'], after a line that starts with [opening]; [ps] are its
    properties. *)
Definition longer_data (F : Num) (kw opening : bytes) (text text' : bytes) : Prop :=
  exists a ps mid k d d' rest, same_start kw text text' (a ++ mid ++ k :: d ++ rest) (a ++ mid ++ k :: d' ++ rest) /\
    prefixed_properties F [] a ps /\ (a = [] -> not_next "PROPERTIES" (mid ++ [k])) /\
    Forall (starts_not opening) mid /\ starts opening k /\ Forall2 longer d d'.
(** Same when the data begin with the first line that is a vertex: [k], then [k']. *)
Definition longer_points (F : Num) (text text' : bytes) : Prop :=
  exists a ps mid k k' d d' rest, same_start "GOCAD VSet" text text' (a ++ mid ++ k :: d ++ rest) (a ++ mid ++ k' :: d' ++ rest) /\
    prefixed_properties F [] a ps /\ (a = [] -> not_next "PROPERTIES" (mid ++ [k]) /\ not_next "PROPERTIES" (mid ++ [k'])) /\
    Forall (fun l => starts_not "VRTX" l /\ starts_not "PVRTX" l) mid /\ (starts "VRTX" k \/ starts "PVRTX" k) /\ (starts "VRTX" k' \/ starts "PVRTX" k') /\
    longer k k' /\ Forall2 longer d d'.
Definition longer_segments (text text' : bytes) : Prop :=
  exists mid k d d' rest, same_start "GOCAD PLine" text text' (mid ++ k :: d ++ rest) (mid ++ k :: d' ++ rest) /\
    Forall (starts_not "ILINE") mid /\ starts "ILINE" k /\ Forall2 longer d d'.

(** ** Facts *)
(** [y] succeeds as [x] does. *)
Definition ext {A} (x y : res A) : Prop := forall v, x = Ok v -> y = Ok v.
Lemma ext_refl {A} (x : res A) : ext x x.
Proof. intros v. auto. Qed.
Lemma ext_bind {A B} (x y : res A) (f g : A -> res B) : ext x y -> (forall a, ext (f a) (g a)) -> ext (bind x f) (bind y g).
Proof. intros E H v Hv. apply bind_ok in Hv as [a [Ea Hv]]. rewrite (E a Ea). cbn [bind]. now apply H. Qed.
Lemma ext_idx (ts more : list bytes) i : ext (idx ts i) (idx (ts ++ more) i).
Proof.
  intros v H. unfold idx in *. destruct (nth_error ts i) as [x|] eqn:E; [|discriminate]. rewrite nth_error_app1 by (apply nth_error_Some; congruence). now rewrite E.
Qed.
Ltac steps := repeat (apply ext_bind; [first [apply ext_idx|apply ext_refl]|intros ?]); try apply ext_refl.
Section Facts.
Context {F : Num}.
Lemma ext_point crs ts more : ext (vrtx_point F crs ts) (vrtx_point F crs (ts ++ more)).
Proof. unfold vrtx_point. steps. Qed.
Lemma ext_offset b o ts more : ext (vrtx_offset b o ts) (vrtx_offset b o (ts ++ more)).
Proof. unfold vrtx_offset. destruct b; steps. Qed.
Lemma ext_index o ts more i : ext (tok_index o ts i) (tok_index o (ts ++ more) i).
Proof. unfold tok_index. steps. Qed.
Lemma ext_items ts more n : forall pos, ext (read_items F ts n pos) (read_items F (ts ++ more) n pos).
Proof.
  induction n as [|n IH]; intros pos; cbn [read_items]; [apply ext_refl|]. apply ext_bind.
  - intros v. unfold check. rewrite app_length. destruct (Nat.ltb_spec pos (List.length ts)); [|discriminate]. destruct (Nat.ltb_spec pos (List.length ts + List.length more)); [auto|lia].
  - intros ?. apply ext_bind; [apply ext_idx|]. intros ?. apply ext_bind; [apply ext_refl|]. intros ?. apply ext_bind; [apply IH|]. intros [vs p]. apply ext_refl.
Qed.
Lemma ext_properties ts more names : forall es vals pos, ext (read_properties F names es vals ts pos) (read_properties F names es vals (ts ++ more) pos).
Proof.
  induction names as [|n names IH]; intros es vals pos; cbn [read_properties]; [apply ext_refl|]. destruct es as [|e es]; [apply ext_refl|]. destruct vals as [|v vals]; [apply ext_refl|].
  apply ext_bind; [apply ext_items|]. intros [its p]. apply ext_bind; [apply IH|]. intros r. apply ext_refl.
Qed.
Ltac run := repeat (apply ext_bind; [first [apply ext_point|apply ext_offset|apply ext_index|apply ext_properties|apply ext_idx|apply ext_refl]|intros ?]); try apply ext_refl.
Lemma ext_tface (ts : TSurf F) l l' : longer l l' -> ext (tface_line F ts l) (tface_line F ts l').
Proof.
  intros (k & ws & more & E & E' & _). unfold tface_line. rewrite E, E'. change (k :: ws ++ more) with ((k :: ws) ++ more). cbv zeta.
  apply ext_bind; [apply ext_refl|]. intros k'. destruct ts as [o n d h pts tris tro vo bst bor vals].
  destruct (is_vrtx k'); [run|]. destruct (is_atom k'); [run|]. do 3 (destruct (beq k' _); [run|]). apply ext_refl.
Qed.
Lemma ext_iline (ec : ECurve F) l l' : longer l l' -> ext (iline_line F ec l) (iline_line F ec l').
Proof.
  intros (k & ws & more & E & E' & _). unfold iline_line. rewrite E, E'. change (k :: ws ++ more) with ((k :: ws) ++ more). cbv zeta.
  apply ext_bind; [apply ext_refl|]. intros k'. destruct ec as [o n d pts es]. destruct (is_vrtx k'); [run|]. destruct (beq k' _); [run|]. apply ext_refl.
Qed.
Lemma ext_vset (vs : VSet F) l l' : longer l l' -> ext (vset_line F vs l) (vset_line F vs l').
Proof.
  intros (k & ws & more & E & E' & _). unfold vset_line. rewrite E, E'. change (k :: ws ++ more) with ((k :: ws) ++ more). cbv zeta.
  apply ext_bind; [apply ext_refl|]. intros k'. destruct vs as [o n d h pts vals]. destruct (beq k' _); [apply ext_refl|]. destruct (negb _); [apply ext_refl|]. run.
Qed.
(** None of these lines ends the data. *)
Lemma not_end l l' : longer l l' -> exists k, front (string_split l) = Ok k /\ beq k "END" = false.
Proof. intros (k & ws & more & E & _ & N). exists k. rewrite E. split; [reflexivity|]. destruct (beq k "END") eqn:B; [|reflexivity]. apply beq_eq in B. contradiction. Qed.
Ltac nostop := repeat match goal with
  | H : (if ?c then _ else _) = Ok _ |- _ => destruct c
  | H : bind _ _ = Ok _ |- _ => apply bind_ok in H as [? [_ H]]
  | H : Ok _ = Ok _ |- _ => injection H; congruence
  end.
Lemma tface_goes_on (ts ts' : TSurf F) l l' stop : longer l l' -> tface_line F ts l = Ok (ts', stop) -> stop = false.
Proof.
  intros L H. destruct (not_end _ _ L) as (k & Ek & B). unfold tface_line in H. rewrite Ek in H. cbn [bind] in H. destruct ts as [o n d h pts tris tro vo bst bor vals].
  rewrite B in H. nostop.
Qed.
Lemma iline_goes_on (ts ts' : ECurve F) l l' stop : longer l l' -> iline_line F ts l = Ok (ts', stop) -> stop = false.
Proof.
  intros L H. destruct (not_end _ _ L) as (k & Ek & B). unfold iline_line in H. rewrite Ek in H. cbn [bind] in H. destruct ts as [o n d pts es].
  rewrite B in H. nostop.
Qed.
Lemma vset_goes_on (ts ts' : VSet F) l l' stop : longer l l' -> vset_line F ts l = Ok (ts', stop) -> stop = false.
Proof.
  intros L H. destruct (not_end _ _ L) as (k & Ek & B). unfold vset_line in H. rewrite Ek in H. cbn [bind] in H. destruct ts as [o n d h pts vals].
  rewrite B in H. nostop.
Qed.
Lemma ext_tfaces d d' rest : Forall2 longer d d' -> forall ts, ext (tfaces_loop F ts (d ++ rest)) (tfaces_loop F ts (d' ++ rest)).
Proof.
  induction 1 as [|l l' d d' L _ IH]; intros ts; [apply ext_refl|]. cbn [app tfaces_loop]. intros v H. apply bind_ok in H as [[ts' stop] [E H]].
  rewrite (ext_tface ts l l' L _ E). cbn [bind]. pose proof (tface_goes_on _ _ _ _ _ L E) as ->. now apply IH.
Qed.
Lemma ext_ilines d d' rest : Forall2 longer d d' -> forall ts, ext (ilines_loop F ts (d ++ rest)) (ilines_loop F ts (d' ++ rest)).
Proof.
  induction 1 as [|l l' d d' L _ IH]; intros ts; [apply ext_refl|]. cbn [app ilines_loop]. intros v H. apply bind_ok in H as [[ts' stop] [E H]].
  rewrite (ext_iline ts l l' L _ E). cbn [bind]. pose proof (iline_goes_on _ _ _ _ _ L E) as ->. now apply IH.
Qed.
Lemma ext_vsets d d' rest : Forall2 longer d d' -> forall ts, ext (vset_loop F ts (d ++ rest)) (vset_loop F ts (d' ++ rest)).
Proof.
  induction 1 as [|l l' d d' L _ IH]; intros ts; [apply ext_refl|]. cbn [app vset_loop]. intros v H. apply bind_ok in H as [[ts' stop] [E H]].
  rewrite (ext_vset ts l l' L _ E). cbn [bind]. pose proof (vset_goes_on _ _ _ _ _ L E) as ->. now apply IH.
Qed.
End Facts.
Lemma not_next_cons kw mid (k : bytes) r : not_next kw (mid ++ [k]) -> not_next kw (mid ++ k :: r).
Proof. destruct mid; exact (fun H => H). Qed.

(** ** C160 *)
(** A surface, a point set or a curve that is loaded is loaded the same when words are added at the end of its data lines. *)
Theorem C160_more_words (F : Num) text text' :
  (longer_data F "GOCAD TSurf" "TFACE" text text' -> forall m, read_ts F text = Ok m -> read_ts F text' = Ok m) /\
  (longer_points F text text' -> forall m, read_vs F text = Ok m -> read_vs F text' = Ok m) /\
  (longer_segments text text' -> forall m, read_pl F text = Ok m -> read_pl F text' = Ok m).
Proof.
  set (N := (List.length (pending (open_text text)) + List.length (pending (open_text text')))%nat).
  assert (AN : forall (a : list bytes) mid k r, a ++ mid ++ k :: r <> []) by (intros [|x a] [|y mid] k r; discriminate).
  split; [|split].
  - intros (a & ps & mid & k & d & d' & rest & S1 & P & Np & M & Ok1 & L).
    destruct (start_step _ _ _ _ _ S1 (AN _ _ _ _) (AN _ _ _ _)) as (first & name & c & s & s' & t & t' & n & G & G' & Eh & Eh' & Ec & Ec').
    assert (D : both_declare F [] a a (mid ++ k :: d ++ rest) (mid ++ k :: d' ++ rest)).
    { exists ps. repeat split; try assumption; try (intros e; apply not_next_cons; now apply Np); apply (AN []). }
    destruct (declare_step [] a a _ _ n D) as (h & h' & Ep & Ep' & Es).
    change (ext (read_ts F text) (read_ts F text')). unfold read_ts. cbv zeta.
    rewrite (read_ts_loop_fuel F (S (List.length (pending (open_text text')))) (S N)) by (unfold N; lia).
    rewrite (read_ts_loop_fuel F (S (List.length (pending (open_text text)))) (S N)) by (unfold N; lia). cbn [read_ts_loop].
    unfold read_tsurf. rewrite G, G', Eh, Eh'. cbn [bind]. rewrite Ec, Ec'. cbn [bind]. rewrite Ep, Ep'. cbn [bind].
    unfold read_tfaces. rewrite !(goto_keyword_hit "TFACE" mid k _ n M Ok1). cbn [bind pending nl]. rewrite !bind_assoc.
    match goal with |- ext (bind (tfaces_loop F ?x (d ++ rest)) ?K) (bind (tfaces_loop F ?y _) _) =>
      assert (E : bind (tfaces_loop F x (d ++ rest)) K = bind (tfaces_loop F y (d ++ rest)) K) end.
    { apply (strip_bind strip_ts); [intros ts r; reflexivity|]. rewrite <- !tfaces_loop_strip. f_equal. unfold strip_ts. cbn. rewrite Es. f_equal. now injection Es as -> _ _. }
    rewrite E. apply ext_bind; [now apply ext_tfaces|]. intros ?. apply ext_refl.
  - intros (a & ps & mid & k & k' & d & d' & rest & S1 & P & Np & M & Ok1 & Ok2 & L1 & L).
    destruct (start_step _ _ _ _ _ S1 (AN _ _ _ _) (AN _ _ _ _)) as (first & name & c & s & s' & t & t' & n & G & G' & Eh & Eh' & Ec & Ec').
    assert (D : both_declare F [] a a (mid ++ k :: d ++ rest) (mid ++ k' :: d' ++ rest)).
    { exists ps. repeat split; try assumption; try (intros e; apply not_next_cons; now apply Np); apply (AN []). }
    destruct (declare_step [] a a _ _ n D) as (h & h' & Ep & Ep' & Es).
    change (ext (read_vs F text) (read_vs F text')). unfold read_vs. cbv zeta.
    rewrite (read_vs_loop_fuel F (S (List.length (pending (open_text text')))) (S N)) by (unfold N; lia).
    rewrite (read_vs_loop_fuel F (S (List.length (pending (open_text text)))) (S N)) by (unfold N; lia). cbn [read_vs_loop].
    unfold read_vs_points. rewrite G, G', Eh, Eh'. cbn [bind]. rewrite Ec, Ec'. cbn [bind]. rewrite Ep, Ep'. cbn [bind].
    assert (HM : Forall (fun x => existsb (starts_with x) [lit "VRTX"; lit "PVRTX"] = false) mid).
    { eapply Forall_impl; [|exact M]. intros x [H1 H2]. unfold starts_not in *. cbn [existsb]. now rewrite H1, H2. }
    assert (HK : forall x, starts "VRTX" x \/ starts "PVRTX" x -> existsb (starts_with x) [lit "VRTX"; lit "PVRTX"] = true).
    { intros x [H|H]; unfold starts in H; cbn [existsb]; rewrite H; [reflexivity|apply orb_true_r]. }
    unfold read_VSet_vertices. rewrite (TsFacts.goto_keywords_hit _ mid k _ n HM (HK _ Ok1)), (TsFacts.goto_keywords_hit _ mid k' _ n HM (HK _ Ok2)). cbn [bind pending nl].
    rewrite !bind_assoc.
    match goal with |- ext (bind (vset_loop F ?x ?ls) ?K) (bind (vset_loop F ?y _) _) =>
      assert (E : bind (vset_loop F x ls) K = bind (vset_loop F y ls) K) end.
    { apply (strip_bind strip_vs); [intros vs r; reflexivity|]. rewrite <- !vset_loop_strip. f_equal. unfold strip_vs. cbn. rewrite Es. f_equal. now injection Es as -> _ _. }
    rewrite E. apply ext_bind; [|intros ?; apply ext_refl]. apply (ext_vsets (k :: d) (k' :: d') rest). now constructor.
  - intros (mid & k & d & d' & rest & S1 & M & Ok1 & L).
    destruct (start_step _ _ _ _ _ S1 (AN [] _ _ _) (AN [] _ _ _)) as (first & name & c & s & s' & t & t' & n & G & G' & Eh & Eh' & Ec & Ec').
    change (ext (read_pl F text) (read_pl F text')). unfold read_pl. cbv zeta.
    rewrite (read_pl_loop_fuel F (S (List.length (pending (open_text text')))) (S N)) by (unfold N; lia).
    rewrite (read_pl_loop_fuel F (S (List.length (pending (open_text text)))) (S N)) by (unfold N; lia). cbn [read_pl_loop].
    unfold read_ecurve. rewrite G, G', Eh, Eh'. cbn [bind]. rewrite Ec, Ec'. cbn [bind].
    unfold read_ilines. rewrite !(goto_keyword_hit "ILINE" mid k _ n M Ok1). cbn [bind pending nl]. rewrite !bind_assoc.
    apply ext_bind; [now apply ext_ilines|]. intros ?. apply ext_refl.
Qed.
Print Assumptions C160_more_words.

(** ** What does not hold *)
Definition mw_surface (v t : string) : bytes := unlines (map lit
  ["GOCAD TSurf 1"; "HEADER {"; "name:s"; "}"; "TFACE"; v; "VRTX 2 1 0 6"; "VRTX 3 0 1 7"; t; "END"]).
(** A file that is refused may be loaded once words are added: the words that were missing. *)
Theorem C160_refused_refuted : exists v v', longer (lit v) (lit v') /\
  read_ts ExNum (mw_surface v "TRGL 1 2 3") <> read_ts ExNum (mw_surface v' "TRGL 1 2 3") /\ (exists m, read_ts ExNum (mw_surface v' "TRGL 1 2 3") = Ok m).
Proof.
  exists "VRTX 1 0 0"%string, "VRTX 1 0 0 5"%string. split; [exists (lit "VRTX"), (map lit ["1"; "0"; "0"]), [lit "5"]; repeat split; discriminate|].
  assert (E : match read_ts ExNum (mw_surface "VRTX 1 0 0 5" "TRGL 1 2 3") with Ok _ => true | _ => false end = true) by (vm_compute; reflexivity).
  assert (E' : match read_ts ExNum (mw_surface "VRTX 1 0 0" "TRGL 1 2 3") with Ok _ => true | _ => false end = false) by (vm_compute; reflexivity).
  split; [intros X; rewrite X in E'; congruence|]. destruct (read_ts ExNum (mw_surface "VRTX 1 0 0 5" "TRGL 1 2 3")) as [m| | |]; try discriminate. now exists m.
Qed.
Print Assumptions C160_refused_refuted.
(** Wells: a word after the coordinates of a station is refused. *)
Definition mw_well (p : string) : bytes := unlines (map lit ["GOCAD Well 1"; "HEADER {"; "name:w"; "}"; "WREF 0 0 0"; "PATH 0 0 0 0"; p; "END"]).
Theorem C160_wells_refuted : exists p p', longer (lit p) (lit p') /\ (exists m, read_wl ExNum (mw_well p) = Ok m) /\ read_wl ExNum (mw_well p') = Throw ExData.
Proof.
  exists "PATH 0 1 2 3"%string, "PATH 0 1 2 3 # comment"%string. split; [exists (lit "PATH"), (map lit ["0"; "1"; "2"; "3"]), (map lit ["#"; "comment"]); repeat split; discriminate|].
  split; [|vm_compute; reflexivity].
  assert (E : match read_wl ExNum (mw_well "PATH 0 1 2 3") with Ok _ => true | _ => false end = true) by (vm_compute; reflexivity).
  destruct (read_wl ExNum (mw_well "PATH 0 1 2 3")) as [m| | |]; try discriminate. now exists m.
Qed.
Print Assumptions C160_wells_refuted.

(** ** Instance *)
Example C160_case : longer_data ExNum "GOCAD TSurf" "TFACE" (mw_surface "VRTX 1 0 0 5" "TRGL 1 2 3") (mw_surface "VRTX 1 0 0 5 CNXYZ" "TRGL 1 2 3 # the only one") /\
  mesh_is zzz_eqb (read_ts ExNum (mw_surface "VRTX 1 0 0 5" "TRGL 1 2 3")) (Some (lit "s")) [(0, 0, 5); (1, 0, 6); (0, 1, 7)] [(0, 1, 2)] [] = true.
Proof.
  split; [|vm_compute; reflexivity].
  exists [], [], [], (lit "TFACE"), (map lit ["VRTX 1 0 0 5"; "VRTX 2 1 0 6"; "VRTX 3 0 1 7"; "TRGL 1 2 3"]),
    (map lit ["VRTX 1 0 0 5 CNXYZ"; "VRTX 2 1 0 6"; "VRTX 3 0 1 7"; "TRGL 1 2 3 # the only one"]), [lit "END"].
  split; [|split; [left; now split|split; [reflexivity|split; [constructor|split; [reflexivity|]]]]].
  - exists [], (lit "GOCAD TSurf 1"), (map lit ["HEADER {"; "name:s"; "}"]), [], (Some (lit "s")), true.
    unfold mw_surface. rewrite !open_unlines by (cbn [map]; repeat (apply Forall_cons; [apply lineb_ok; vm_compute; reflexivity|]); constructor).
    split; [reflexivity|]. split; [reflexivity|]. split; [reflexivity|]. split; [constructor|]. split; [reflexivity|].
    split; [|split; [left; now split|intros _; split; vm_compute; reflexivity]].
    exists (lit "HEADER {"), [lit "name:s"], (lit "}"). split; [reflexivity|]. split; [reflexivity|]. split; [repeat constructor|]. split; [reflexivity|].
    right. exists [], (lit "name:s"), [], (lit "s"). repeat split; constructor.
  - assert (W : forall l l' k ws more, string_split l = k :: ws -> string_split l' = k :: ws ++ more -> k <> lit "END" -> longer l l') by (intros; do 3 eexists; eauto).
    constructor; [apply (W _ _ (lit "VRTX") (map lit ["1"; "0"; "0"; "5"]) [lit "CNXYZ"]); [reflexivity|reflexivity|discriminate]|].
    constructor; [apply (W _ _ (lit "VRTX") (map lit ["2"; "1"; "0"; "6"]) []); [reflexivity|reflexivity|discriminate]|].
    constructor; [apply (W _ _ (lit "VRTX") (map lit ["3"; "0"; "1"; "7"]) []); [reflexivity|reflexivity|discriminate]|].
    constructor; [apply (W _ _ (lit "TRGL") (map lit ["1"; "2"; "3"]) (map lit ["#"; "the"; "only"; "one"])); [reflexivity|reflexivity|discriminate]|constructor].
Qed.
