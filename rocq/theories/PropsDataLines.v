(** * The lines of a GOCAD object that are not vertices or cells (C161). *)
From Coq Require Import ZArith List Lia Bool Ascii String.
From Verif Require Import Base Text TextFacts GocadModel MeshModel TsModel Spec GocadFacts StreamFacts Grammar GrammarFacts DepthFacts PropsPropsOnly.
From Verif Require Import ExNum ExCheck PropsTsVs.
Import ListNotations.
Local Open Scope string_scope.
Local Open Scope list_scope.
Local Open Scope Z_scope.

(** ** Specification *)
(** A line whose first word is none of the given ones. *)
Definition first_word_not (kws : list string) (l : bytes) : Prop := exists k ws, string_split l = k :: ws /\ ~ In k (map lit kws).
(** The parts and the borders of a surface: their numbers must be numbers. *)
Definition border_stone (l : bytes) : Prop := exists w ws n, string_split l = lit "BSTONE" :: w :: ws /\ number w n.
Definition border (l : bytes) : Prop := exists x a b ws n p, string_split l = lit "BORDER" :: x :: a :: b :: ws /\ number a n /\ number b p.
Definition surface_other (l : bytes) : Prop :=
  first_word_not ["VRTX"; "PVRTX"; "ATOM"; "PATOM"; "TRGL"; "END"; "BSTONE"; "BORDER"] l \/ border_stone l \/ border l.
Definition point_set_other : bytes -> Prop := first_word_not ["VRTX"; "PVRTX"; "END"].
Definition curve_other : bytes -> Prop := first_word_not ["VRTX"; "PVRTX"; "SEG"; "END"].
(** [d'] is [d] with more lines, that are [other]; the lines of [d] do not end the object. *)
Inductive more_lines (other : bytes -> Prop) : list bytes -> list bytes -> Prop :=
| more_nil : more_lines other [] []
| more_same l d d' : (forall ws, string_split l <> lit "END" :: ws) -> more_lines other d d' -> more_lines other (l :: d) (l :: d')
| more_other l d d' : other l -> more_lines other d d' -> more_lines other d (l :: d').
(** Two texts whose first object has the data lines [d], then [d']. *)
Definition more_data (F : Num) (kw opening : bytes) (other : bytes -> Prop) (text text' : bytes) : Prop :=
  exists a ps mid k d d' rest, same_start kw text text' (a ++ mid ++ k :: d ++ rest) (a ++ mid ++ k :: d' ++ rest) /\
    prefixed_properties F [] a ps /\ (a = [] -> not_next "PROPERTIES" (mid ++ [k])) /\
    Forall (starts_not opening) mid /\ starts opening k /\ more_lines other d d'.
Definition more_points (F : Num) (text text' : bytes) : Prop :=
  exists a ps mid k d d' rest, same_start "GOCAD VSet" text text' (a ++ mid ++ k :: d ++ rest) (a ++ mid ++ k :: d' ++ rest) /\
    prefixed_properties F [] a ps /\ (a = [] -> not_next "PROPERTIES" (mid ++ [k])) /\
    Forall (fun l => starts_not "VRTX" l /\ starts_not "PVRTX" l) mid /\ (starts "VRTX" k \/ starts "PVRTX" k) /\
    (exists w ws, string_split k = w :: ws /\ In w (map lit ["VRTX"; "PVRTX"])) /\ more_lines point_set_other d d'.
Definition more_segments (text text' : bytes) : Prop :=
  exists mid k d d' rest, same_start "GOCAD PLine" text text' (mid ++ k :: d ++ rest) (mid ++ k :: d' ++ rest) /\
    Forall (starts_not "ILINE") mid /\ starts "ILINE" k /\ more_lines curve_other d d'.

(** ** Facts *)
Section Facts.
Context {F : Num}.
Definition forget (ts : TSurf F) : TSurf F :=
  mkTSurf (t_offset ts) (t_name ts) (t_crs ts) (t_props ts) (t_points ts) (t_triangles ts) [] [] [] [] (t_values ts).
Definition fg (x : TSurf F * bool) : TSurf F * bool := (forget (fst x), snd x).
Ltac go := repeat (rewrite !rmap_bind; apply bind_congr; intros ?).
Lemma tface_line_forget (ts us : TSurf F) l : forget ts = forget us -> rmap fg (tface_line F ts l) = rmap fg (tface_line F us l).
Proof.
  destruct ts as [o n d h pts tris tro vo bst bor vals], us as [o' n' d' h' pts' tris' tro' vo' bst' bor' vals'].
  unfold forget. cbn. intros E. injection E as <- <- <- <- <- <- <-. unfold tface_line. cbv zeta. rewrite !rmap_bind. apply bind_congr. intros k.
  destruct (is_vrtx k); [go; reflexivity|]. destruct (is_atom k); [go; reflexivity|]. do 5 (destruct (beq k _); [go; reflexivity|]). reflexivity.
Qed.
Lemma not_in_beq kws k x : ~ In k (map lit kws) -> In x (map lit kws) -> beq k x = false.
Proof. intros H I. destruct (beq k x) eqn:B; [|reflexivity]. apply beq_eq in B. subst. contradiction. Qed.
Lemma other_line (ts : TSurf F) l : surface_other l -> exists us, tface_line F ts l = Ok (us, false) /\ forget us = forget ts.
Proof.
  destruct ts as [o n d h pts tris tro vo bst bor vals]. intros [(k & ws & E & N)|[(w & ws & m & E & Hn)|(x & a & b & ws & m & p & E & Ha & Hb)]]; unfold tface_line; cbv zeta; rewrite E; cbn [front bind].
  - unfold is_vrtx, is_atom. rewrite !(not_in_beq _ k _ N) by (cbn; tauto). cbn [orb]. rewrite (not_in_beq _ k (lit "END") N) by (cbn; tauto). destruct (beq k "TFACE"); eexists; split; reflexivity.
  - change (is_vrtx (lit "BSTONE")) with false. change (is_atom (lit "BSTONE")) with false. change (beq (lit "BSTONE") (lit "TRGL")) with false. change (beq (lit "BSTONE") (lit "BSTONE")) with true.
    cbv iota. unfold tok_index, idx. cbn [nth_error bind]. unfold number in Hn. rewrite Hn. cbn [bind]. eexists. split; reflexivity.
  - change (is_vrtx (lit "BORDER")) with false. change (is_atom (lit "BORDER")) with false. change (beq (lit "BORDER") (lit "TRGL")) with false. change (beq (lit "BORDER") (lit "BSTONE")) with false.
    change (beq (lit "BORDER") (lit "BORDER")) with true. cbv iota. unfold tok_index, idx. cbn [nth_error bind]. unfold number in Ha, Hb. rewrite Ha. cbn [bind]. rewrite Hb. cbn [bind]. eexists. split; reflexivity.
Qed.
Lemma tface_stop (ts us : TSurf F) l stop : (forall ws, string_split l <> lit "END" :: ws) -> tface_line F ts l = Ok (us, stop) -> stop = false.
Proof.
  intros N H. unfold tface_line in H. cbv zeta in H. destruct (string_split l) as [|k ws]; [discriminate|]. cbn [front bind] in H. destruct ts as [o n d h pts tris tro vo bst bor vals].
  destruct (beq k "END") eqn:B; [apply beq_eq in B; subst; now elim (N ws)|].
  repeat match goal with
  | H : (if ?c then _ else _) = Ok _ |- _ => destruct c
  | H : bind _ _ = Ok _ |- _ => apply bind_ok in H as [? [_ H]]
  | H : Ok _ = Ok _ |- _ => injection H; congruence
  end.
Qed.
Definition fgl (x : TSurf F * list bytes) : TSurf F * list bytes := (forget (fst x), snd x).
Lemma tfaces_loop_forget ls : forall ts us : TSurf F, forget ts = forget us -> rmap fgl (tfaces_loop F ts ls) = rmap fgl (tfaces_loop F us ls).
Proof.
  induction ls as [|l r IH]; intros ts us E; [reflexivity|]. cbn [tfaces_loop]. pose proof (tface_line_forget ts us l E) as H.
  destruct (tface_line F ts l) as [[ts' st]| | |], (tface_line F us l) as [[us' st']| | |]; cbn in H; try discriminate; cbn [bind]; try (cbn; congruence).
  unfold fg in H. cbn [fst snd] in H. assert (H1 : forget ts' = forget us') by congruence. assert (st' = st) as -> by congruence. destruct st; [cbn; unfold fgl; cbn; now rewrite H1|]. now apply IH.
Qed.
Lemma tfaces_more d d' rest : more_lines surface_other d d' -> forall ts us : TSurf F, forget ts = forget us ->
  rmap fgl (tfaces_loop F ts (d ++ rest)) = rmap fgl (tfaces_loop F us (d' ++ rest)).
Proof.
  induction 1 as [|l d d' N _ IH|l d d' O _ IH]; intros ts us E; [now apply tfaces_loop_forget| |]; cbn [app tfaces_loop].
  - pose proof (tface_line_forget ts us l E) as H. pose proof (tface_stop ts) as S1. pose proof (tface_stop us) as S2.
    destruct (tface_line F ts l) as [[ts' st]| | |] eqn:E1, (tface_line F us l) as [[us' st']| | |] eqn:E2; cbn in H; try discriminate; cbn [bind]; try (cbn; congruence).
    rewrite (S1 _ _ _ N E1), (S2 _ _ _ N E2). apply IH. unfold fg in H. cbn [fst snd] in H. congruence.
  - destruct (other_line us l O) as (us' & -> & E'). cbn [bind]. apply IH. congruence.
Qed.
Lemma vsets_more d d' rest : more_lines point_set_other d d' -> forall vs : VSet F, vset_loop F vs (d ++ rest) = vset_loop F vs (d' ++ rest).
Proof.
  induction 1 as [|l d d' N _ IH|l d d' O _ IH]; intros vs; [reflexivity| |]; cbn [app vset_loop].
  - apply bind_ext. intros [vs' st] E. destruct st; [|apply IH]. exfalso. unfold vset_line in E. cbv zeta in E. destruct (string_split l) as [|k ws]; [discriminate|].
    cbn [front bind] in E. destruct vs as [o n c h pts vals]. destruct (beq k "END") eqn:B; [apply beq_eq in B; subst; now elim (N ws)|].
    destruct (negb _); [discriminate|]. do 3 apply bind_ok in E as [? [_ E]]. discriminate.
  - destruct O as (k & ws & E & N). assert (X : vset_line F vs l = Ok (vs, false)).
    { unfold vset_line. cbv zeta. rewrite E. cbn [front bind]. destruct vs. unfold is_vrtx. now rewrite !(not_in_beq _ k _ N) by (cbn; tauto). }
    rewrite X. cbn [bind]. apply IH.
Qed.
Lemma ilines_more d d' rest : more_lines curve_other d d' -> forall ec : ECurve F, ilines_loop F ec (d ++ rest) = ilines_loop F ec (d' ++ rest).
Proof.
  induction 1 as [|l d d' N _ IH|l d d' O _ IH]; intros ec; [reflexivity| |]; cbn [app ilines_loop].
  - apply bind_ext. intros [vs' st] E. destruct st; [|apply IH]. exfalso. unfold iline_line in E. cbv zeta in E. destruct (string_split l) as [|k ws]; [discriminate|].
    cbn [front bind] in E. destruct ec as [o n c pts es]. destruct (beq k "END") eqn:B; [apply beq_eq in B; subst; now elim (N ws)|].
    destruct (is_vrtx k); [do 2 apply bind_ok in E as [? [_ E]]; discriminate|]. destruct (beq k "SEG"); [do 2 apply bind_ok in E as [? [_ E]]; discriminate|]. discriminate.
  - destruct O as (k & ws & E & N). assert (X : iline_line F ec l = Ok (ec, false)).
    { unfold iline_line. cbv zeta. rewrite E. cbn [front bind]. destruct ec. unfold is_vrtx. now rewrite !(not_in_beq _ k _ N) by (cbn; tauto). }
    rewrite X. cbn [bind]. apply IH.
Qed.
End Facts.
Lemma not_next_cons kw mid (k : bytes) r : not_next kw (mid ++ [k]) -> not_next kw (mid ++ k :: r).
Proof. destruct mid; exact (fun H => H). Qed.

(** ** C161 *)
(** For any outcome: lines that are neither vertices nor cells, anywhere in the data of the object, change nothing to what is loaded. *)
Theorem C161_other_lines (F : Num) text text' :
  (more_data F "GOCAD TSurf" "TFACE" surface_other text text' -> read_ts F text' = read_ts F text) /\
  (more_points F text text' -> read_vs F text' = read_vs F text) /\
  (more_segments text text' -> read_pl F text' = read_pl F text).
Proof.
  set (N := (List.length (pending (open_text text)) + List.length (pending (open_text text')))%nat).
  assert (AN : forall (a : list bytes) mid k r, a ++ mid ++ k :: r <> []) by (intros [|x a] [|y mid] k r; discriminate).
  split; [|split].
  - intros (a & ps & mid & k & d & d' & rest & S1 & P & Np & M & Ok1 & L).
    destruct (start_step _ _ _ _ _ S1 (AN _ _ _ _) (AN _ _ _ _)) as (first & name & c & s & s' & t & t' & n & G & G' & Eh & Eh' & Ec & Ec').
    assert (D : both_declare F [] a a (mid ++ k :: d ++ rest) (mid ++ k :: d' ++ rest)).
    { exists ps. repeat split; try assumption; try (intros e; apply not_next_cons; now apply Np); apply (AN []). }
    destruct (declare_step [] a a _ _ n D) as (h & h' & Ep & Ep' & Es).
    unfold read_ts. cbv zeta.
    rewrite (read_ts_loop_fuel F (S (List.length (pending (open_text text')))) (S N)) by (unfold N; lia).
    rewrite (read_ts_loop_fuel F (S (List.length (pending (open_text text)))) (S N)) by (unfold N; lia). cbn [read_ts_loop].
    unfold read_tsurf. rewrite G, G', Eh, Eh'. cbn [bind]. rewrite Ec, Ec'. cbn [bind]. rewrite Ep, Ep'. cbn [bind].
    unfold read_tfaces. rewrite !(goto_keyword_hit "TFACE" mid k _ n M Ok1). cbn [bind pending nl]. rewrite !bind_assoc.
    match goal with |- bind (tfaces_loop F ?y ?ls) ?K = bind (tfaces_loop F ?x _) _ => transitivity (bind (tfaces_loop F x ls) K) end.
    { apply (strip_bind strip_ts); [intros ts r; reflexivity|]. rewrite <- !tfaces_loop_strip. f_equal. unfold strip_ts. cbn. rewrite Es. f_equal. now injection Es as -> _ _. }
    apply (strip_bind forget); [intros ts r; reflexivity|]. symmetry. now apply tfaces_more.
  - intros (a & ps & mid & k & d & d' & rest & S1 & P & Np & M & Ok1 & (w & ws & W & HW) & L).
    destruct (start_step _ _ _ _ _ S1 (AN _ _ _ _) (AN _ _ _ _)) as (first & name & c & s & s' & t & t' & n & G & G' & Eh & Eh' & Ec & Ec').
    assert (D : both_declare F [] a a (mid ++ k :: d ++ rest) (mid ++ k :: d' ++ rest)).
    { exists ps. repeat split; try assumption; try (intros e; apply not_next_cons; now apply Np); apply (AN []). }
    destruct (declare_step [] a a _ _ n D) as (h & h' & Ep & Ep' & Es).
    unfold read_vs. cbv zeta.
    rewrite (read_vs_loop_fuel F (S (List.length (pending (open_text text')))) (S N)) by (unfold N; lia).
    rewrite (read_vs_loop_fuel F (S (List.length (pending (open_text text)))) (S N)) by (unfold N; lia). cbn [read_vs_loop].
    unfold read_vs_points. rewrite G, G', Eh, Eh'. cbn [bind]. rewrite Ec, Ec'. cbn [bind]. rewrite Ep, Ep'. cbn [bind].
    assert (HM : Forall (fun x => existsb (starts_with x) [lit "VRTX"; lit "PVRTX"] = false) mid).
    { eapply Forall_impl; [|exact M]. intros x [H1 H2]. unfold starts_not in *. cbn [existsb]. now rewrite H1, H2. }
    assert (HK : existsb (starts_with k) [lit "VRTX"; lit "PVRTX"] = true).
    { destruct Ok1 as [H|H]; unfold starts in H; cbn [existsb]; rewrite H; [reflexivity|apply orb_true_r]. }
    unfold read_VSet_vertices. rewrite !(TsFacts.goto_keywords_hit _ mid k _ n HM HK). cbn [bind pending nl]. rewrite !bind_assoc.
    match goal with |- bind (vset_loop F ?y ?ls) ?K = bind (vset_loop F ?x _) _ => transitivity (bind (vset_loop F x ls) K) end.
    { apply (strip_bind strip_vs); [intros vs r; reflexivity|]. rewrite <- !vset_loop_strip. f_equal. unfold strip_vs. cbn. rewrite Es. f_equal. now injection Es as -> _ _. }
    f_equal. symmetry. apply (vsets_more (k :: d) (k :: d') rest). constructor; [|exact L]. intros us E. rewrite W in E. injection E as -> _. destruct HW as [H|[H|[]]]; discriminate.
  - intros (mid & k & d & d' & rest & S1 & M & Ok1 & L).
    destruct (start_step _ _ _ _ _ S1 (AN [] _ _ _) (AN [] _ _ _)) as (first & name & c & s & s' & t & t' & n & G & G' & Eh & Eh' & Ec & Ec').
    unfold read_pl. cbv zeta.
    rewrite (read_pl_loop_fuel F (S (List.length (pending (open_text text')))) (S N)) by (unfold N; lia).
    rewrite (read_pl_loop_fuel F (S (List.length (pending (open_text text)))) (S N)) by (unfold N; lia). cbn [read_pl_loop].
    unfold read_ecurve. rewrite G, G', Eh, Eh'. cbn [bind]. rewrite Ec, Ec'. cbn [bind].
    unfold read_ilines. rewrite !(goto_keyword_hit "ILINE" mid k _ n M Ok1). cbn [bind pending nl]. now rewrite (ilines_more d d' rest L).
Qed.
Print Assumptions C161_other_lines.

(** ** What does not hold *)
Definition dl_surface (more : list string) : bytes := unlines (map lit
  (["GOCAD TSurf 1"; "HEADER {"; "name:s"; "}"; "TFACE"; "VRTX 1 0 0 5"; "VRTX 2 1 0 6"] ++ more ++ ["VRTX 3 0 1 7"; "TRGL 1 2 3"; "END"])%list).
(** The borders are not used, but a border that is cut short makes the loading undefined, and a blank line too. *)
Theorem C161_border_refuted : forall l, In l ["BSTONE"; "BORDER 4 1"; ""]%string -> (exists m, read_ts ExNum (dl_surface []) = Ok m) /\ read_ts ExNum (dl_surface [l]) = UB.
Proof.
  intros l I. split.
  - assert (E : match read_ts ExNum (dl_surface []) with Ok _ => true | _ => false end = true) by (vm_compute; reflexivity).
    destruct (read_ts ExNum (dl_surface [])) as [m| | |]; try discriminate. now exists m.
  - destruct I as [<-|[<-|[<-|[]]]]; vm_compute; reflexivity.
Qed.
Print Assumptions C161_border_refuted.

(** ** Instance: a second part, a border stone, a border and a line of another kind between two vertices. *)
Example C161_case : let more := ["TFACE"; "BSTONE 1"; "BORDER 4 1 2"; "USER data"]%string in
  more_data ExNum "GOCAD TSurf" "TFACE" surface_other (dl_surface []) (dl_surface more) /\
  mesh_is zzz_eqb (read_ts ExNum (dl_surface more)) (Some (lit "s")) [(0, 0, 5); (1, 0, 6); (0, 1, 7)] [(0, 1, 2)] [] = true.
Proof.
  cbv zeta. split; [|vm_compute; reflexivity].
  exists [], [], [], (lit "TFACE"), (map lit ["VRTX 1 0 0 5"; "VRTX 2 1 0 6"; "VRTX 3 0 1 7"; "TRGL 1 2 3"]),
    (map lit ["VRTX 1 0 0 5"; "VRTX 2 1 0 6"; "TFACE"; "BSTONE 1"; "BORDER 4 1 2"; "USER data"; "VRTX 3 0 1 7"; "TRGL 1 2 3"]), [lit "END"].
  split; [|split; [left; now split|split; [reflexivity|split; [constructor|split; [reflexivity|]]]]].
  - exists [], (lit "GOCAD TSurf 1"), (map lit ["HEADER {"; "name:s"; "}"]), [], (Some (lit "s")), true.
    unfold dl_surface. rewrite !open_unlines by (cbn [map app]; repeat (apply Forall_cons; [apply lineb_ok; vm_compute; reflexivity|]); constructor).
    split; [reflexivity|]. split; [reflexivity|]. split; [reflexivity|]. split; [constructor|]. split; [reflexivity|].
    split; [|split; [left; now split|intros _; split; vm_compute; reflexivity]].
    exists (lit "HEADER {"), [lit "name:s"], (lit "}"). split; [reflexivity|]. split; [reflexivity|]. split; [repeat constructor|]. split; [reflexivity|].
    right. exists [], (lit "name:s"), [], (lit "s"). repeat split; constructor.
  - cbn [map]. apply more_same; [intros ws; discriminate|]. apply more_same; [intros ws; discriminate|].
    apply more_other; [left; exists (lit "TFACE"), []; split; [reflexivity|cbn; intuition discriminate]|].
    apply more_other; [right; left; exists (lit "1"), [], 1; split; reflexivity|].
    apply more_other; [right; right; exists (lit "4"), (lit "1"), (lit "2"), [], 1, 2; repeat split|].
    apply more_other; [left; exists (lit "USER"), [lit "data"]; split; [reflexivity|cbn; intuition discriminate]|].
    apply more_same; [intros ws; discriminate|]. apply more_same; [intros ws; discriminate|]. apply more_nil.
Qed.
