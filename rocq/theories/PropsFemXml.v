(** * The section of the discrete features of a FEM file is a well formed document (C122). *)
From Coq Require Import ZArith List Lia Bool Ascii String QArith Permutation.
From Verif Require Import Base Text TextFacts NumText FemModel FemSpec FemFacts ExCheck ExFem PropsFem PropsFemTotal.
Import ListNotations.
Local Open Scope string_scope.
Local Open Scope list_scope.
Local Open Scope Z_scope.

(** ** Well formed documents

    A reader of tags, character by character: in text, in a tag (with its text so far), in a CDATA
    section (with the number, up to two, of closing brackets just read), or stopped by an error;
    with the elements that are open and the number of elements opened at top level.  Comments and empty-element
    tags are not handled: the section has none. *)
Inductive mode := Txt | Tag (t : bytes) | Cd (k : nat) | Bad.
Definition state : Type := mode * list bytes * nat.
Fixpoint tag_name (t : bytes) : bytes :=
  match t with [] => [] | c :: r => if isspace c then [] else c :: tag_name r end.
Definition end_tag (t : bytes) (open : list bytes) (roots : nat) : state :=
  match t with
  | [] => (Bad, open, roots)
  | c :: name =>
    if Ascii.eqb c "?" then (match rev t with d :: _ => if Ascii.eqb d "?" then Txt else Bad | [] => Bad end, open, roots)
    else if Ascii.eqb c "/" then
      match open with
      | top :: r => if beq top name then (Txt, r, roots) else (Bad, open, roots)
      | [] => (Bad, open, roots)
      end
    else match tag_name t with
         | [] => (Bad, open, roots)
         | n => (Txt, n :: open, match open with [] => S roots | _ => roots end)
         end
  end.
Definition step (st : state) (c : ascii) : state :=
  let '(m, open, roots) := st in
  match m with
  | Bad => st
  | Txt => if Ascii.eqb c "<" then (Tag [], open, roots)
           else match open with
                | [] => if isspace c then st else (Bad, open, roots)
                | _ => st
                end
  | Tag t => if Ascii.eqb c ">" then end_tag t open roots
             else if Ascii.eqb c "<" then (Bad, open, roots)
             else if beq (t ++ [c]) "![CDATA[" then (match open with [] => Bad | _ => Cd 0 end, open, roots)
             else (Tag (t ++ [c]), open, roots)
  | Cd k => if Ascii.eqb c "]" then (Cd (Nat.min 2 (S k)), open, roots)
            else if Ascii.eqb c ">" && Nat.eqb k 2 then (Txt, open, roots)
            else (Cd 0, open, roots)
  end.
(** Every element is closed by its own tag, in the right order, and there is one top element. *)
Definition well_formed (doc : bytes) : Prop := fold_left step doc (Txt, [], O) = (Txt, [], 1%nat).

(** ** Running through the pieces *)
Definition calm (t : bytes) : Prop := Forall (fun c => Ascii.eqb c "]" = false) t.
Definition quiet (t : bytes) : Prop := Forall (fun c => Ascii.eqb c "<" = false /\ Ascii.eqb c ">" = false) t.
Notation run t st := (fold_left step t st).
Lemma run_app a b st : run (a ++ b) st = run b (run a st).
Proof. apply fold_left_app. Qed.
Lemma in_cdata t open roots : calm t -> run t (Cd 0, open, roots) = (Cd 0, open, roots).
Proof.
  intros H. induction H as [|c t H _ IH]; [reflexivity|]. cbn [fold_left step]. rewrite H, andb_false_r. exact IH.
Qed.
(** In a tag that does not begin as a CDATA section. *)
Lemma in_tag t : forall a r open roots, Ascii.eqb a "!" = false -> quiet t -> run t (Tag (a :: r), open, roots) = (Tag ((a :: r) ++ t), open, roots).
Proof.
  induction t as [|c t IH]; intros a r open roots A H; [now rewrite app_nil_r|]. inversion H as [|? ? [H1 H2] H3]; subst.
  cbn [fold_left step]. rewrite H1, H2.
  assert (N : beq ((a :: r) ++ [c]) "![CDATA[" = false).
  { apply beq_neq. intros E. cbn [app] in E. injection E as E _. subst a. discriminate. }
  rewrite N. cbn [app]. rewrite IH by assumption. cbn [app]. now rewrite <- app_assoc.
Qed.
Lemma calm_app a b : calm a -> calm b -> calm (a ++ b).
Proof. intros. now apply Forall_app. Qed.
Lemma quiet_app a b : quiet a -> quiet b -> quiet (a ++ b).
Proof. intros. now apply Forall_app. Qed.

(** Printed numbers have characters up to 9 only. *)
Definition low_char (c : ascii) : Prop := (nat_of_ascii c <= 57)%nat.
Lemma low_calm c : low_char c -> Ascii.eqb c "]" = false.
Proof. intros H. apply Ascii.eqb_neq. intros ->. cbv in H. lia. Qed.
Lemma low_quiet c : low_char c -> Ascii.eqb c "<" = false /\ Ascii.eqb c ">" = false.
Proof. intros H. split; apply Ascii.eqb_neq; intros ->; cbv in H; lia. Qed.
Lemma show_low z : Forall low_char (show z).
Proof.
  unfold show. generalize (S (Z.to_nat (Z.log2 z))). intros f. revert z. induction f as [|f IH]; intros z; cbn [show_fuel]; [constructor|].
  assert (D : forall d, d < 10 -> low_char (digit_of d)).
  { intros d Hd. unfold low_char, digit_of. rewrite nat_ascii_embedding by lia. lia. }
  destruct (z <? 10) eqn:E; [constructor; [apply D; lia|constructor]|]. apply Forall_app. split; [apply IH|].
  constructor; [apply D|constructor]. apply Z.mod_pos_bound. lia.
Qed.
Lemma show_calm z : calm (show z).
Proof. eapply Forall_impl; [|apply show_low]. intros c. apply low_calm. Qed.
Lemma show_quiet z : quiet (show z).
Proof. eapply Forall_impl; [|apply show_low]. intros c. apply low_quiet. Qed.
Ltac calm_lit := repeat (first [apply Forall_nil | apply Forall_cons; [reflexivity|]]).
Ltac quiet_lit := repeat (first [apply Forall_nil | apply Forall_cons; [split; reflexivity|]]).

Lemma range_calm s p : calm (range_text s p).
Proof. unfold range_text. destruct (s =? p); [apply show_calm|]. apply calm_app; [apply show_calm|]. constructor; [reflexivity|apply show_calm]. Qed.
Definition calm_st (st : bytes * list bytes) : Prop := calm (fst st) /\ Forall calm (snd st).
Lemma append_calm limit st s p : calm_st st -> calm_st (append_value limit st s p).
Proof.
  intros [H1 H2]. unfold append_value. destruct st as [cur results]. cbn [fst snd] in *.
  destruct (limit <? _).
  - split; cbn [fst snd]; [apply range_calm|]. apply Forall_app. split; [assumption|]. constructor; [assumption|constructor].
  - split; cbn [fst snd]; [|assumption]. destruct cur as [|c cur]; [apply range_calm|]. apply calm_app; [assumption|]. constructor; [reflexivity|apply range_calm].
Qed.
Lemma loop_calm limit es : forall s p st, calm_st st -> calm_st (range_loop limit es s p st).
Proof.
  induction es as [|e es IH]; intros s p st H; cbn [range_loop]; [now apply append_calm|].
  destruct (e =? add32 p 1); apply IH; [assumption|now apply append_calm].
Qed.
Lemma chunks_calm es limit : Forall calm (format_range_chunks es limit).
Proof.
  unfold format_range_chunks. destruct es as [|e r]; [constructor|].
  assert (H : calm_st (range_loop limit r e e ([], []))) by (apply loop_calm; split; constructor).
  destruct (range_loop limit r e e ([], [])) as [cur results]. destruct H as [H1 H2]. cbn [fst snd] in *.
  destruct cur; [assumption|]. apply Forall_app. split; [assumption|]. constructor; [assumption|constructor].
Qed.
Lemma sep_calm ls : Forall calm ls -> calm (sep_lines ls).
Proof.
  induction 1 as [|l r H _ IH]; [constructor|]. destruct r as [|l2 r]; [assumption|]. change (sep_lines (l :: l2 :: r)) with (l ++ LF :: sep_lines (l2 :: r)).
  apply calm_app; [assumption|]. constructor; [reflexivity|assumption].
Qed.
Lemma flat_calm {A} (f : A -> bytes) l : (forall x, calm (f x)) -> calm (flat_map f l).
Proof. intros H. induction l as [|x l IH]; [constructor|]. cbn [flat_map]. now apply calm_app. Qed.
Lemma spaces_calm n : calm (add_spaces n).
Proof. induction n as [|n IH]; [constructor|]. constructor; [reflexivity|exact IH]. Qed.

(** A CDATA section. *)
Lemma cdata_section t top open roots : calm t -> run (CDATA_START ++ t ++ CDATA_END) (Txt, top :: open, roots) = (Txt, top :: open, roots).
Proof.
  intros H. rewrite run_app, run_app. replace (run CDATA_START (Txt, top :: open, roots)) with (Cd 0, top :: open, roots) by reflexivity.
  rewrite in_cdata by assumption. reflexivity.
Qed.
(** An opening tag with a quoted number. *)
Lemma count_tag (n : Z) c name open roots : Ascii.eqb c "?" = false -> Ascii.eqb c "/" = false -> Ascii.eqb c "!" = false ->
  quiet (c :: name) -> tag_name (c :: name) = c :: name -> isspace c = false ->
  run (lit "<" ++ (c :: name) ++ lit " count=" ++ quoted (show n) ++ lit ">") (Txt, open, roots)
  = (Txt, (c :: name) :: open, match open with [] => S roots | _ => roots end).
Proof.
  intros Q1 Q2 Q3 Hq Ht Hs. rewrite run_app. replace (run (lit "<") (Txt, open, roots)) with (Tag [], open, roots) by reflexivity.
  inversion Hq as [|? ? [A B] Hn]; subst. cbn [app fold_left step]. rewrite A, B. cbn [app].
  replace (beq [c] "![CDATA[") with false by (symmetry; apply beq_neq; discriminate).
  replace (name ++ lit " count=" ++ quoted (show n) ++ lit ">") with ((name ++ lit " count=" ++ quoted (show n)) ++ lit ">") by (rewrite <- !app_assoc; reflexivity).
  rewrite run_app, in_tag; [|assumption|].
  2:{ apply quiet_app; [assumption|]. apply quiet_app; [quiet_lit|]. unfold quoted. apply Forall_cons; [split; reflexivity|]. apply quiet_app; [apply show_quiet|quiet_lit]. }
  change (end_tag (c :: name ++ lit " count=" ++ quoted (show n)) open roots = (Txt, (c :: name) :: open, match open with [] => S roots | _ => roots end)).
  unfold end_tag. rewrite Q1, Q2.
  assert (E : tag_name (c :: name ++ lit " count=" ++ quoted (show n)) = c :: name).
  { change (c :: name ++ lit " count=" ++ quoted (show n)) with ((c :: name) ++ lit " count=" ++ quoted (show n)).
    revert Ht. generalize (c :: name). clear. induction l as [|x l IH]; intros H; [reflexivity|]. cbn [tag_name app] in *. destruct (isspace x) eqn:E; [discriminate|].
    injection H as H. now rewrite (IH H). }
  rewrite E. reflexivity.
Qed.
(** Blanks between the tags. *)
Lemma text_spaces n top open roots : run (add_spaces n) (Txt, top :: open, roots) = (Txt, top :: open, roots).
Proof. induction n as [|n IH]; [reflexivity|]. exact IH. Qed.
Lemma run_line t st : run (line t) st = step (run t st) LF.
Proof. unfold line. rewrite run_app. reflexivity. Qed.
Lemma run_line_sp n t top open roots : run (line (add_spaces n ++ t)) (Txt, top :: open, roots) = step (run t (Txt, top :: open, roots)) LF.
Proof. rewrite run_line, run_app, text_spaces. reflexivity. Qed.
(** A counted element that holds a CDATA section of calm text. *)
Lemma counted_section (n : Z) k1 k2 c name body closing top open roots :
  Ascii.eqb c "?" = false -> Ascii.eqb c "/" = false -> Ascii.eqb c "!" = false ->
  quiet (c :: name) -> tag_name (c :: name) = c :: name -> isspace c = false -> calm body ->
  run closing (Txt, (c :: name) :: top :: open, roots) = (Txt, top :: open, roots) ->
  run (line (add_spaces k1 ++ lit "<" ++ (c :: name) ++ lit " count=" ++ quoted (show n) ++ lit ">") ++
       line (add_spaces k2 ++ CDATA_START) ++ body ++ line CDATA_END ++ closing) (Txt, top :: open, roots) = (Txt, top :: open, roots).
Proof.
  intros Q1 Q2 Q3 Hq Ht Hs Hb Hc. rewrite run_app, run_line_sp, count_tag by assumption. cbn [step]. change (Ascii.eqb LF "<") with false. cbn match.
  assert (E : line (add_spaces k2 ++ CDATA_START) ++ body ++ line CDATA_END ++ closing
    = add_spaces k2 ++ (CDATA_START ++ (LF :: body) ++ CDATA_END) ++ LF :: closing).
  { unfold line, CDATA_START, CDATA_END. rewrite <- !app_assoc. reflexivity. }
  refine (eq_trans (f_equal (fun t => run t _) E) _).
  rewrite run_app, text_spaces, run_app, cdata_section by (constructor; [reflexivity|assumption]). cbn [fold_left step]. exact Hc.
Qed.

Section Sections.
Context (V : FemVal).
Hypothesis Hvos : forall v, calm (vos V v).
Notation fr := (lit "fractures").

Lemma signatures_run f top open roots : run (write_signatures V f) (Txt, top :: open, roots) = (Txt, top :: open, roots).
Proof.
  unfold write_signatures.
  pose proof (counted_section (nb_features V f) 4 6 "f" (lit "ep")
    (flat_map (fun g => sep_lines (signature_lines V "c2d3,darcy" g)) (f2d V f) ++ [LF] ++ flat_map (fun g => sep_lines (signature_lines V "c1d2,darcy" g)) (f1d V f))
    (line (add_spaces 4 ++ lit "</fep>")) top open roots) as H.
  rewrite <- !app_assoc in H. apply H; try reflexivity; [quiet_lit|].
  assert (R : forall t n, calm t -> Forall calm (repeat t n)) by (intros t n Ht; induction n; constructor; assumption).
  apply calm_app; [|apply calm_app; [calm_lit|]]; apply flat_calm; intros g; apply sep_calm, R; calm_lit.
Qed.
Lemma incidence_calm ft : calm (incidence_line ft).
Proof.
  unfold incidence_line. apply calm_app; [apply spaces_calm|]. apply calm_app; [apply show_calm|]. apply flat_calm. intros n. apply calm_app; [calm_lit|apply show_calm].
Qed.
Lemma map_calm {A} (f : A -> bytes) l : (forall x, calm (f x)) -> Forall calm (map f l).
Proof. intros H. induction l; constructor; auto. Qed.
Lemma incidence_run f top open roots : run (write_incidence V f) (Txt, top :: open, roots) = (Txt, top :: open, roots).
Proof.
  unfold write_incidence.
  pose proof (counted_section (nb_features V f) 4 6 "n" (lit "op")
    (flat_map (fun g => sep_lines (map incidence_line (g_features V g))) (f2d V f) ++ [LF] ++ flat_map (fun g => sep_lines (map incidence_line (g_features V g))) (f1d V f))
    (line (add_spaces 4 ++ lit "</nop>")) top open roots) as H.
  rewrite <- !app_assoc in H. apply H; try reflexivity; [quiet_lit|].
  apply calm_app; [|apply calm_app; [calm_lit|]]; apply flat_calm; intros g; apply sep_calm, map_calm, incidence_calm.
Qed.
(** A tag whose text begins with a known name and a space. *)
Lemma named_tag c name rest open roots : Ascii.eqb c "?" = false -> Ascii.eqb c "/" = false -> Ascii.eqb c "!" = false ->
  isspace c = false -> tag_name name = name -> quiet (c :: name) -> quiet rest ->
  run (lit "<" ++ (c :: name) ++ SP :: rest ++ lit ">") (Txt, open, roots) = (Txt, (c :: name) :: open, match open with [] => S roots | _ => roots end).
Proof.
  intros Q1 Q2 Q3 Hs Ht Hq Hr. rewrite run_app. replace (run (lit "<") (Txt, open, roots)) with (Tag [], open, roots) by reflexivity.
  inversion Hq as [|? ? [A B] Hn]; subst. cbn [app fold_left step]. rewrite A, B. cbn [app].
  replace (beq [c] "![CDATA[") with false by (symmetry; apply beq_neq; discriminate).
  replace (name ++ SP :: rest ++ lit ">") with ((name ++ SP :: rest) ++ lit ">") by (rewrite <- !app_assoc; reflexivity).
  rewrite run_app, in_tag; [|assumption|].
  2:{ apply quiet_app; [assumption|]. constructor; [split; reflexivity|assumption]. }
  change (end_tag (c :: name ++ SP :: rest) open roots = (Txt, (c :: name) :: open, match open with [] => S roots | _ => roots end)).
  unfold end_tag. rewrite Q1, Q2. cbn [tag_name]. rewrite Hs.
  assert (E : tag_name (name ++ SP :: rest) = name).
  { revert Ht. clear. induction name as [|x l IH]; intros H; [reflexivity|]. cbn [tag_name app] in *. destruct (isspace x) eqn:E; [discriminate|].
    injection H as H. now rewrite (IH H). }
  rewrite E. reflexivity.
Qed.
Lemma quoted_quiet t : quiet t -> quiet (quoted t).
Proof. intros H. unfold quoted. constructor; [split; reflexivity|]. apply quiet_app; [assumption|quiet_lit]. Qed.
Lemma group_run g top open roots : quiet (g_name V g) -> run (write_group V g) (Txt, top :: open, roots) = (Txt, top :: open, roots).
Proof.
  intros Hq. unfold write_group. rewrite run_app, run_line_sp.
  pose proof (named_tag "g" (lit "roup") (lit "name=" ++ quoted (g_name V g) ++ lit " law=" ++ quoted "darcy" ++ lit " mode=" ++ quoted "unstructured") (top :: open) roots) as T.
  rewrite <- !app_assoc in T.
  assert (T1 : run (lit "<group name=" ++ quoted (g_name V g) ++ lit " law=" ++ quoted "darcy" ++ lit " mode=" ++ quoted "unstructured" ++ lit ">") (Txt, top :: open, roots)
    = (Txt, lit "group" :: top :: open, roots)).
  { apply T; try reflexivity; [quiet_lit|]. apply quiet_app; [quiet_lit|]. apply quiet_app; [now apply quoted_quiet|]. quiet_lit. }
  rewrite T1. change (step (Txt, lit "group" :: top :: open, roots) LF) with (Txt, lit "group" :: top :: open, roots).
  rewrite run_app, run_line_sp.
  assert (T2 : run (lit "<elements count=" ++ quoted (show (Z.of_nat (List.length (g_features V g)))) ++ lit ">") (Txt, lit "group" :: top :: open, roots)
    = (Txt, lit "elements" :: lit "group" :: top :: open, roots)).
  { apply (count_tag (Z.of_nat (List.length (g_features V g))) "e" (lit "lements") (lit "group" :: top :: open) roots); try reflexivity. quiet_lit. }
  rewrite T2. change (step (Txt, lit "elements" :: lit "group" :: top :: open, roots) LF) with (Txt, lit "elements" :: lit "group" :: top :: open, roots).
  rewrite run_app, text_spaces. unfold line at 1.
  replace (CDATA_START ++ sep_lines (format_range_chunks (g_ids V g) CHUNK_SIZE) ++ (CDATA_END ++ [LF]) ++ line (add_spaces 8 ++ lit "</elements>") ++ line (add_spaces 6 ++ lit "</group>"))
    with ((CDATA_START ++ sep_lines (format_range_chunks (g_ids V g) CHUNK_SIZE) ++ CDATA_END) ++ LF :: line (add_spaces 8 ++ lit "</elements>") ++ line (add_spaces 6 ++ lit "</group>"))
    by (rewrite <- !app_assoc; reflexivity).
  rewrite run_app, cdata_section by (apply sep_calm, chunks_calm). reflexivity.
Qed.
Lemma group_list_run gs top open roots : Forall (fun g => quiet (g_name V g)) gs -> run (flat_map (write_group V) gs) (Txt, top :: open, roots) = (Txt, top :: open, roots).
Proof. induction 1 as [|g gs H _ IH]; [reflexivity|]. cbn [flat_map]. rewrite run_app, group_run by assumption. exact IH. Qed.
Definition quiet_names (f : features V) : Prop := Forall (fun g => quiet (g_name V g)) (f2d V f ++ f1d V f).
Lemma groups_run f top open roots : quiet_names f -> run (write_groups V f) (Txt, top :: open, roots) = (Txt, top :: open, roots).
Proof.
  intros H. apply Forall_app in H as [H2 H1]. unfold write_groups. rewrite run_app, run_line_sp.
  assert (T2 : run (lit "<groups count=" ++ quoted (show (Z.of_nat (nb_groups V f))) ++ lit ">") (Txt, top :: open, roots) = (Txt, lit "groups" :: top :: open, roots)).
  { apply (count_tag (Z.of_nat (nb_groups V f)) "g" (lit "roups") (top :: open) roots); try reflexivity. quiet_lit. }
  rewrite T2. change (step (Txt, lit "groups" :: top :: open, roots) LF) with (Txt, lit "groups" :: top :: open, roots).
  rewrite run_app, group_list_run by assumption. rewrite run_app, group_list_run by assumption. reflexivity.
Qed.
Lemma entry_calm v c : calm c -> calm (material_entry V v c).
Proof. intros H. unfold material_entry. apply calm_app; [apply spaces_calm|]. apply calm_app; [apply Hvos|]. constructor; [reflexivity|assumption]. Qed.
Lemma values_calm m : calm (material_values V m).
Proof.
  assert (C : forall last v cs, Forall calm cs -> calm (material_chunks V last v cs)).
  { intros last v cs H. induction H as [|c r H Hr IH]; [constructor|]. destruct r as [|c2 r]; [now apply entry_calm|].
    change (material_chunks V last v (c :: c2 :: r)) with (material_entry V v c ++ (if last then [] else [LF]) ++ material_chunks V last v (c2 :: r)).
    apply calm_app; [now apply entry_calm|]. apply calm_app; [|assumption]. destruct last; calm_lit. }
  induction m as [|[v ids] r IH]; [constructor|]. cbn [material_values]. apply calm_app; [|assumption].
  generalize (match r with [] => true | _ => false end). intros last. unfold material_value. pose proof (chunks_calm ids CHUNK_SIZE) as H.
  destruct (format_range_chunks ids CHUNK_SIZE) as [|c [|c2 cs]]; [apply (C last v []); constructor| |now apply C].
  apply Forall_inv in H. apply calm_app; [now apply entry_calm|]. destruct last; calm_lit.
Qed.
Lemma material_run id m top open roots : quiet id -> run (write_material_property V id m) (Txt, top :: open, roots) = (Txt, top :: open, roots).
Proof.
  intros Hq. unfold write_material_property. rewrite run_app, run_line_sp.
  pose proof (named_tag "m" (lit "aterial") (lit "id=" ++ quoted id) (top :: open) roots) as T. rewrite <- !app_assoc in T.
  assert (T1 : run (lit "<material id=" ++ quoted id ++ lit ">") (Txt, top :: open, roots) = (Txt, lit "material" :: top :: open, roots)).
  { apply T; try reflexivity; [quiet_lit|]. apply quiet_app; [quiet_lit|now apply quoted_quiet]. }
  rewrite T1. change (step (Txt, lit "material" :: top :: open, roots) LF) with (Txt, lit "material" :: top :: open, roots).
  replace (line (add_spaces 12 ++ CDATA_START) ++ material_values V (viter V _ m) ++ line (SP :: CDATA_END) ++ line (add_spaces 10 ++ lit "</material>"))
    with (add_spaces 12 ++ (CDATA_START ++ (LF :: material_values V (viter V _ m) ++ [SP]) ++ CDATA_END) ++ LF :: line (add_spaces 10 ++ lit "</material>")).
  2:{ unfold line. rewrite <- !app_assoc. cbn [app]. rewrite <- !app_assoc. cbn [app]. reflexivity. }
  rewrite run_app, text_spaces, run_app, cdata_section; [reflexivity|]. constructor; [reflexivity|]. apply calm_app; [apply values_calm|calm_lit].
Qed.
Lemma property_text_run f : forall a, area_text V f = Ok a \/ cond_text V f = Ok a -> forall top open roots, run a (Txt, top :: open, roots) = (Txt, top :: open, roots).
Proof.
  intros a H top open roots. unfold area_text, cond_text in H.
  assert (QA : quiet (lit "AREA")) by quiet_lit. assert (QC : quiet (lit "COND")) by quiet_lit.
  destruct H as [H|H].
  - destruct (opt_property V APERTURE (f2d V f)) as [i|], (opt_property V CONDUIT_AREA (f1d V f)) as [j|].
    + apply bind_ok in H as [m [_ H]]. apply bind_ok in H as [m1 [_ H]]. injection H as <-. now apply material_run.
    + apply bind_ok in H as [m [_ H]]. injection H as <-. now apply material_run.
    + apply bind_ok in H as [m [_ H]]. injection H as <-. now apply material_run.
    + injection H as <-. reflexivity.
  - destruct (opt_property V CONDUCTIVITY (f2d V f)) as [i|], (opt_property V CONDUCTIVITY (f1d V f)) as [j|].
    + apply bind_ok in H as [m [_ H]]. apply bind_ok in H as [m1 [_ H]]. injection H as <-. now apply material_run.
    + apply bind_ok in H as [m [_ H]]. injection H as <-. now apply material_run.
    + apply bind_ok in H as [m [_ H]]. injection H as <-. now apply material_run.
    + injection H as <-. reflexivity.
Qed.
Lemma properties_run f p top open roots : write_feature_properties V f = Ok p -> run p (Txt, top :: open, roots) = (Txt, top :: open, roots).
Proof.
  intros H. unfold write_feature_properties in H.
  assert (G : forall a c, area_text V f = Ok a -> cond_text V f = Ok c ->
    run (line (add_spaces 4 ++ lit "<properties>") ++ line (add_spaces 6 ++ lit "<flow>") ++ line (add_spaces 8 ++ lit "<materials>") ++ a ++ c ++
         line (add_spaces 8 ++ lit "</materials>") ++ line (add_spaces 6 ++ lit "</flow>") ++ line (add_spaces 4 ++ lit "</properties>")) (Txt, top :: open, roots) = (Txt, top :: open, roots)).
  { intros a c Ea Ec. rewrite run_app. replace (run (line (add_spaces 4 ++ lit "<properties>")) (Txt, top :: open, roots)) with (Txt, lit "properties" :: top :: open, roots) by reflexivity.
    rewrite run_app. replace (run (line (add_spaces 6 ++ lit "<flow>")) (Txt, lit "properties" :: top :: open, roots)) with (Txt, lit "flow" :: lit "properties" :: top :: open, roots) by reflexivity.
    rewrite run_app. replace (run (line (add_spaces 8 ++ lit "<materials>")) (Txt, lit "flow" :: lit "properties" :: top :: open, roots))
      with (Txt, lit "materials" :: lit "flow" :: lit "properties" :: top :: open, roots) by reflexivity.
    rewrite run_app, (property_text_run f a (or_introl Ea)), run_app, (property_text_run f c (or_intror Ec)). reflexivity. }
  destruct (f2d V f) eqn:E2, (f1d V f) eqn:E1; try (injection H as <-; reflexivity);
    apply bind_ok in H as [a [Ea H]]; apply bind_ok in H as [c [Ec H]]; injection H as <-; now apply G.
Qed.
(** The names of the groups. *)
Lemma step_name main vals conds st ic st' : feature_step V main vals conds st ic = Ok st' -> g_name V (fst st') = g_name V (fst st).
Proof.
  destruct ic as [i nodes], st as [g id]. unfold feature_step. intros H. apply bind_ok in H as [v [_ H]].
  assert (O : forall c, g_name V (fst (one_feature V main nodes v c (g, id))) = g_name V g) by (intros c; unfold one_feature; destruct (vneg V v); reflexivity).
  destruct conds as [cs|].
  - destruct (vneg V v); [injection H as <-; reflexivity|]. apply bind_ok in H as [c [_ H]]. injection H as <-. exact (O (Some c)).
  - injection H as <-. exact (O None).
Qed.
Lemma fold_name main vals conds l : forall st st', foldM (feature_step V main vals conds) l st = Ok st' -> g_name V (fst st') = g_name V (fst st).
Proof.
  induction l as [|x l IH]; intros st st' H; cbn [foldM] in H; [now injection H as <-|]. apply bind_ok in H as [s1 [H1 H]].
  rewrite (IH _ _ H). eapply step_name. exact H1.
Qed.
Lemma opt_name name main fi id gs id' : build_opt V name main fi id = Ok (gs, id') -> quiet name -> Forall (fun g => quiet (g_name V g)) gs.
Proof.
  intros H Q. unfold build_opt in H. destruct fi as [f|]; [|injection H as <- _; constructor]. destruct (fi_main V f) as [vals|]; [|injection H as <- _; constructor].
  apply bind_ok in H as [[g i1] [H E]]. injection E as <- _. unfold build_group in H. apply bind_ok in H as [[g0 i0] [H E]].
  apply fold_name in H. cbn [fst g_name] in H. assert (E' : g0 = g) by (destruct (g_features V g0); [discriminate|injection E as E _; exact E]). subst g0.
  constructor; [rewrite H; assumption|constructor].
Qed.
Lemma features_run s text : write_discrete_features V s = Ok text -> text = [] \/ exists doc, text = line "DFE" ++ doc /\ well_formed doc.
Proof.
  intros H. unfold write_discrete_features in H. apply bind_ok in H as [f [Hf H]].
  assert (Q : quiet_names f).
  { unfold build_discrete_features in Hf. apply bind_ok in Hf as [[g2 id] [H2 Hf]]. apply bind_ok in Hf as [[g1 id'] [H1 Hf]]. injection Hf as <-.
    apply Forall_app. cbn [f2d f1d]. split; [apply (opt_name _ _ _ _ _ _ H2)|apply (opt_name _ _ _ _ _ _ H1)]; quiet_lit. }
  destruct (nb_groups V f); [injection H as <-; now left|]. apply bind_ok in H as [p [Hp H]]. injection H as <-. right.
  set (head := line (add_spaces 2 ++ lit "<?xml version=" ++ quoted "1.0" ++ lit " encoding=" ++ quoted "utf-8" ++ lit " standalone=" ++ quoted "no" ++ lit " ?>") ++
    line (add_spaces 2 ++ lit "<fractures>")).
  exists (head ++ write_signatures V f ++ write_incidence V f ++ write_groups V f ++ p ++ line (SP :: lit "</fractures>")).
  split; [symmetry; apply (app_assoc (line "DFE") head)|]. unfold well_formed.
  rewrite run_app. replace (run head (Txt, [], O)) with (Txt, [fr], 1%nat) by (vm_compute; reflexivity).
  rewrite run_app, signatures_run, run_app, incidence_run, run_app, groups_run by assumption. rewrite run_app, (properties_run f p) by assumption. vm_compute. reflexivity.
Qed.
End Sections.

(** C122. *)
Theorem C122_features_document : forall (V : FemVal) (s : solid V) (text : bytes),
  (forall v, ~ In "]"%char (vos V v)) -> write_fem V s = Ok text ->
  exists before section, text = before ++ section ++ lit "END" ++ [LF] /\
    (section = [] \/ exists doc, section = lit "DFE" ++ LF :: doc /\ well_formed doc).
Proof.
  intros V s text Hv H. unfold write_fem in H. apply bind_ok in H as [nd [_ H]]. apply bind_ok in H as [el [_ H]]. apply bind_ok in H as [ns [_ H]].
  apply bind_ok in H as [es [_ H]]. apply bind_ok in H as [dfe [Hd H]]. match type of H with Ok (?b ++ _) = _ => exists b, dfe; assert (E : text = b ++ dfe ++ unlines [lit "END"]) by congruence end. clear H. split; [exact E|]. clear E.
  apply features_run in Hd as [->|[doc [-> W]]]; [now left| |].
  - right. exists doc. split; [|assumption]. unfold line. rewrite <- app_assoc. reflexivity.
  - intros v. apply Forall_forall. intros c Hc. apply Ascii.eqb_neq. intros ->. exact (Hv v Hc).
Qed.
Print Assumptions C122_features_document.

(** Example: the solid of C35, with facets, edges and conductivities; and what is not well formed. *)
Definition fem_document (r : res bytes) : option (list bytes) :=
  match r with
  | Ok (_ :: _ :: _ :: _ :: doc) => match fold_left step doc (Txt, [], O) with (Txt, [], 1%nat) => Some (fst (cut [] doc)) | _ => None end
  | _ => None
  end.
Example C122_example : match fem_document (write_discrete_features ExFem ex_solid) with
    | Some ls => existsb (beq "          <material id=""AREA"">") ls && existsb (beq "          <material id=""COND"">") ls && existsb (beq "      <group name=""Edge_Feature_LDS"" law=""darcy"" mode=""unstructured"">") ls
    | None => false end = true /\
  fold_left step (lit "<a><b></a></b>") (Txt, [], O) <> (Txt, [], 1%nat) /\ fold_left step (lit "<a><b></b>") (Txt, [], O) <> (Txt, [], 1%nat) /\
  well_formed (lit "<a x=""1""><b><![CDATA[ </a> ]]></b></a>").
Proof. split; [vm_compute; reflexivity|]. split; [vm_compute; discriminate|]. split; [vm_compute; discriminate|vm_compute; reflexivity]. Qed.
