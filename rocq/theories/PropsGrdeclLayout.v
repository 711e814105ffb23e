(** * How the numbers of a GRDECL file may be laid out (C150). *)
From Coq Require Import ZArith List Lia Bool Ascii String QArith.
From Verif Require Import Base Text TextFacts NumText DecText GrdeclModel PropsVo PropsVoOut PropsGrdecl PropsGrdeclGrid PropsGrdeclParts PropsDec ExNum ExCheck.
Import ListNotations.
Local Open Scope string_scope.
Local Open Scope list_scope.
Local Open Scope Z_scope.

(** ** Specification *)
Definition words_of (ls : list bytes) : list bytes := List.concat (map string_split ls).
Definition open_line (l : bytes) : Prop := starts_with l "/" = false.
(** A file with everything in it, read up to its depths: they are the lines [dl], then comes a line with a slash. *)
Definition depth_lines (F : Num) (text : bytes) (nx ny nz : Z) (ps : list (pillar F)) (dl : list bytes) : Prop :=
  exists rest0 rest1 pre kl sl rest2,
    size_section nx ny nz (pending (open_text text)) rest0 /\ before "INCLUDE" rest0 /\ pillar_section F ps rest0 rest1 /\
    rest1 = pre ++ kl :: dl ++ sl :: rest2 /\ before "ZCORN" pre /\ starts_with kl "ZCORN" = true /\
    Forall open_line dl /\ starts_with sl "/" = true.
(** The same up to the pillars: the lines [dl] give the pillars [ps] and the section goes on with [l] and [next]. *)
Definition pillar_lines_to (F : Num) (text : bytes) (nx ny nz : Z) (ps : list (pillar F)) (l : bytes) (next : list bytes) : Prop :=
  exists rest0 pre kl dl,
    size_section nx ny nz (pending (open_text text)) rest0 /\ before "INCLUDE" rest0 /\
    rest0 = pre ++ kl :: dl ++ l :: next /\ before "COORD" pre /\ starts_with kl "COORD" = true /\
    pillar_text F dl ps /\ open_line l.
Definition not_number (F : Num) (w : bytes) : Prop := atod F w = None.
(** A line that is neither a pillar nor its first half: the wrong number of words, or a word that is no number;
    or a first half whose second half has, among the three words used, one that is no number. *)
Inductive not_pillar (F : Num) : bytes -> list bytes -> Prop :=
| NP_count l next n : List.length (string_split l) = n -> n <> 0%nat -> n <> 3%nat -> n <> 6%nat -> not_pillar F l next
| NP_word l next w : In w (string_split l) -> not_number F w -> not_pillar F l next
| NP_half l l2 next x y z a b w vs : values F (string_split l) [x; y; z] -> string_split l2 = a ++ w :: b ->
    values F a vs -> (List.length a < 3)%nat -> not_number F w -> not_pillar F l (l2 :: next).
(** Words that the Eclipse format has there: a repeat count, a comment, the closing slash. *)
Definition eclipse_word (w : bytes) : Prop := In "*"%char w \/ In "/"%char w \/ starts_with w "--" = true.

(** ** The depths *)
Section Lay.
Variable F : Num.
Lemma depths_by_words b cap sl rest dl : starts_with sl "/" = true -> Forall open_line dl ->
  forall acc cur ls, dl ++ sl :: rest = cur :: ls ->
  depths_loop F b cap cur ls acc = (do ds <- foldM (store_depth F cap) (words_of dl) acc; Ok (ds, rest)).
Proof.
  intros Hs H. induction H as [|l dl Hl _ IH]; intros acc cur ls E; cbn [app] in E; injection E as <- <-.
  - cbn. destruct rest; cbn [depths_loop]; now rewrite Hs.
  - destruct (dl ++ sl :: rest) as [|c r] eqn:E2; [now destruct dl|].
    unfold words_of. cbn [depths_loop map List.concat]. rewrite Hl, foldM_app.
    destruct (foldM (store_depth F cap) (string_split l) acc) as [acc'| | |]; [|reflexivity..]. cbn [bind]. now apply IH.
Qed.
Lemma read_depths_words nx ny nz pre kl dl sl rest b : before "ZCORN" pre -> starts_with kl "ZCORN" = true ->
  Forall open_line dl -> starts_with sl "/" = true ->
  read_depths F nx ny nz (mkStream (pre ++ kl :: dl ++ sl :: rest) b) =
  (do ds <- foldM (store_depth F (depths_cap nx ny nz)) (words_of dl) []; Ok (ds, mkStream rest b)).
Proof.
  intros Hp Hk Hd Hs. unfold read_depths. rewrite goto_before by assumption. cbn [bind]. unfold getline. cbn [pending nl].
  destruct (dl ++ sl :: rest) as [|c r] eqn:E; [now destruct dl|]. cbn [pending nl].
  rewrite (depths_by_words b _ sl rest dl Hs Hd [] c r E).
  destruct (foldM _ _ _) as [ds| | |]; reflexivity.
Qed.
Lemma store_stops cap a w : forall vs acc, values F a vs -> Z.of_nat (List.length acc + List.length vs) <= cap -> not_number F w ->
  forall b, foldM (store_depth F cap) (a ++ w :: b) acc = Throw ExData.
Proof.
  intros vs acc Hv Hc Hw b. rewrite foldM_app, (store_depths_ok F cap a vs Hv acc Hc). cbn [bind foldM].
  unfold store_depth, string_to_double. rewrite Hw. reflexivity.
Qed.

(** ** The pillars *)
Lemma pillars_loop_to b cap l next dl ps : pillar_text F dl ps ->
  forall acc cur ls, Z.of_nat (List.length acc + List.length ps) <= cap -> dl ++ l :: next = cur :: ls ->
  pillars_loop F b cap cur ls acc = pillars_loop F b cap l next (acc ++ ps).
Proof.
  intros H. induction H as [|k dl ps Hl Hs _ IH|k dl ps x y z x' y' z' Hl Hv _ IH|k k2 dl ps x y z x' y' z' Hl Hv Hv2 _ IH];
    intros acc cur ls Hc E; cbn [app] in E; injection E as <- <-.
  - now rewrite app_nil_r.
  - destruct (dl ++ l :: next) as [|c r] eqn:E2; [now destruct dl|].
    cbn [pillars_loop]. rewrite Hl, Hs. now apply IH.
  - destruct (dl ++ l :: next) as [|c r] eqn:E2; [now destruct dl|].
    cbn [List.length] in Hc.
    pose proof (values_mapM F _ _ Hv) as M. cbn [pillars_loop]. rewrite Hl. unfold values in *.
    destruct (string_split k) as [|t0 [|t1 [|t2 [|t3 [|t4 [|t5 [|t6 tt]]]]]]];
      try (apply forall2_length in Hv; discriminate).
    rewrite M. cbn [bind three idx nth_error skipn]. rewrite store_ok by lia. cbn [bind].
    rewrite (IH _ c r); [now rewrite <- app_assoc| |reflexivity]. rewrite app_length. cbn. lia.
  - destruct (dl ++ l :: next) as [|c r] eqn:E2; [now destruct dl|].
    cbn [List.length] in Hc.
    pose proof (values_mapM F _ _ Hv) as M. cbn [pillars_loop]. rewrite Hl. unfold values in *.
    destruct (string_split k) as [|t0 [|t1 [|t2 [|t3 tt]]]]; try (apply forall2_length in Hv; discriminate).
    rewrite M. cbn [bind three idx nth_error].
    destruct (string_split k2) as [|u0 [|u1 [|u2 uu]]]; try (apply forall2_length in Hv2; discriminate).
    cbn [firstn] in Hv2.
    inversion Hv2 as [|? ? ? ? A0 B0]; subst. inversion B0 as [|? ? ? ? A1 B1]; subst. inversion B1 as [|? ? ? ? A2 B2]; subst.
    cbn [idx nth_error bind]. unfold string_to_double. rewrite A0. cbn [bind]. rewrite A1. cbn [bind]. rewrite A2. cbn [bind].
    rewrite store_ok by lia. cbn [bind].
    rewrite (IH _ c r); [now rewrite <- app_assoc| |reflexivity]. rewrite app_length. cbn. lia.
Qed.
Lemma mapM_stops ts w : In w ts -> not_number F w -> mapM (string_to_double F) ts = Throw ExData.
Proof.
  induction ts as [|t ts IH]; [easy|]. intros Hi Hw. cbn [mapM]. unfold string_to_double at 1. destruct (atod F t) as [v|] eqn:E; [|reflexivity].
  cbn [bind]. destruct Hi as [->|Hi]; [unfold not_number in Hw; congruence|]. now rewrite (IH Hi Hw).
Qed.
Lemma not_pillar_throws b cap l next acc : open_line l -> not_pillar F l next -> pillars_loop F b cap l next acc = Throw ExData.
Proof.
  intros Hl H. destruct H as [l next n E H0 H3 H6|l next w Hi Hw|l l2 next x y z a u w vs Hv E Ha La Hw].
  - destruct next; cbn [pillars_loop]; rewrite Hl;
      destruct (string_split l) as [|t0 [|t1 [|t2 [|t3 [|t4 [|t5 [|t6 tt]]]]]]]; cbn [List.length] in E; (reflexivity || congruence).
  - pose proof (mapM_stops _ _ Hi Hw) as M.
    destruct next; cbn [pillars_loop]; rewrite Hl;
      destruct (string_split l) as [|t0 [|t1 [|t2 [|t3 [|t4 [|t5 [|t6 tt]]]]]]]; try (now destruct Hi); try reflexivity; rewrite M; reflexivity.
  - pose proof (values_mapM F _ _ Hv) as M. cbn [pillars_loop]. rewrite Hl. unfold values in *.
    destruct (string_split l) as [|t0 [|t1 [|t2 [|t3 tt]]]]; try (apply forall2_length in Hv; discriminate).
    rewrite M. cbn [bind three idx nth_error]. rewrite E. unfold string_to_double, not_number in *.
    destruct a as [|a0 [|a1 [|a2 aa]]]; cbn [List.length] in La; try lia; cbn [app idx nth_error bind].
    + now rewrite Hw.
    + inversion Ha as [|? ? ? ? A0 B0]; subst. rewrite A0. cbn [bind]. now rewrite Hw.
    + inversion Ha as [|? ? ? ? A0 B0]; subst. inversion B0 as [|? ? ? ? A1 B1]; subst. rewrite A0. cbn [bind]. rewrite A1. cbn [bind]. now rewrite Hw.
Qed.
Lemma pillar_text_app a pa : pillar_text F a pa -> forall b pb, pillar_text F b pb -> pillar_text F (a ++ b) (pa ++ pb).
Proof. induction 1; intros u pu Hu; cbn [app]; [assumption|now apply PT_blank; auto|apply PT_one; auto|apply PT_two; auto]. Qed.
End Lay.

(** The same for the whole file: only the words of the depths count. *)
Lemma read_by_words (F : Num) (A : Arith F) coloc files text nx ny nz ps dl :
  1 <= nx -> 1 <= ny -> 1 <= nz -> 8 * nx * ny * nz < two32 -> Z.of_nat (List.length ps) <= (nx + 1) * (ny + 1) ->
  depth_lines F text nx ny nz ps dl ->
  read_grdecl F A coloc files text =
  (do ds <- foldM (store_depth F (depths_cap nx ny nz)) (words_of dl) []; create_cells F A coloc nx ny nz ps ds).
Proof.
  intros Hx Hy Hz Hs Lp (rest0 & rest1 & pre & kl & sl & rest2 & D & I & P & -> & B & K & O & S0). unfold read_grdecl.
  rewrite (proj2 (read_dimensions_iff (open_text text) nx ny nz (mkStream rest0 (nl (open_text text))))) by auto.
  cbn [bind pending nl]. rewrite (includes_none _ rest0 rest0 [] I). cbn [bind lookup].
  assert (Cap : pillars_cap nx ny = (nx + 1) * (ny + 1)) by (eapply cap_exact; eauto).
  rewrite (proj2 (read_pillars_iff F nx ny (mkStream rest0 (nl (open_text text))) ps (mkStream (pre ++ kl :: dl ++ sl :: rest2) (nl (open_text text)))))
    by (cbn [pending nl]; rewrite Cap; auto).
  cbn [bind]. rewrite read_depths_words by assumption. destruct (foldM _ _ _) as [ds| | |]; reflexivity.
Qed.

(** The depths can be on the lines in any way, with blank lines anywhere: two files that differ only in that give the same
    grid, or fail in the same way. *)
Theorem C150_depths_on_any_lines (F : Num) (A : Arith F) coloc files files' text text' nx ny nz ps dl dl' :
  1 <= nx -> 1 <= ny -> 1 <= nz -> 8 * nx * ny * nz < two32 -> Z.of_nat (List.length ps) <= (nx + 1) * (ny + 1) ->
  depth_lines F text nx ny nz ps dl -> depth_lines F text' nx ny nz ps dl' -> words_of dl = words_of dl' ->
  read_grdecl F A coloc files text = read_grdecl F A coloc files' text'.
Proof.
  intros Hx Hy Hz Hs Lp D D' E. rewrite (read_by_words F A coloc files text nx ny nz ps dl Hx Hy Hz Hs Lp D).
  now rewrite (read_by_words F A coloc files' text' nx ny nz ps dl' Hx Hy Hz Hs Lp D'), E.
Qed.
Print Assumptions C150_depths_on_any_lines.

(** Anything that is not a number among the depths is noticed: the file is refused. *)
Theorem C150_other_word_in_depths (F : Num) (A : Arith F) coloc files text nx ny nz ps dl a w b vs :
  1 <= nx -> 1 <= ny -> 1 <= nz -> 8 * nx * ny * nz < two32 -> Z.of_nat (List.length ps) <= (nx + 1) * (ny + 1) ->
  depth_lines F text nx ny nz ps dl -> words_of dl = a ++ w :: b -> values F a vs -> Z.of_nat (List.length vs) <= 8 * nx * ny * nz ->
  not_number F w -> read_grdecl F A coloc files text = Throw ExData.
Proof.
  intros Hx Hy Hz Hs Lp D E Hv Lv Hw. rewrite (read_by_words F A coloc files text nx ny nz ps dl Hx Hy Hz Hs Lp D), E.
  assert (Dap : depths_cap nx ny nz = 8 * nx * ny * nz) by (unfold depths_cap; apply wrap32_small; nia).
  rewrite (store_stops F _ a w vs [] Hv) by (assumption || (cbn [List.length]; lia)). reflexivity.
Qed.
Print Assumptions C150_other_word_in_depths.

(** So is a line of the pillars that is no pillar. *)
Theorem C150_other_line_in_pillars (F : Num) (A : Arith F) coloc files text nx ny nz ps l next :
  1 <= nx -> 1 <= ny -> 1 <= nz -> 8 * nx * ny * nz < two32 -> Z.of_nat (List.length ps) <= (nx + 1) * (ny + 1) ->
  pillar_lines_to F text nx ny nz ps l next -> not_pillar F l next -> read_grdecl F A coloc files text = Throw ExData.
Proof.
  intros Hx Hy Hz Hs Lp (rest0 & pre & kl & dl & D & I & E & B & K & P & O) N. unfold read_grdecl.
  rewrite (proj2 (read_dimensions_iff (open_text text) nx ny nz (mkStream rest0 (nl (open_text text))))) by auto.
  cbn [bind pending nl]. rewrite (includes_none _ rest0 rest0 [] I). cbn [bind lookup].
  assert (Cap : pillars_cap nx ny = (nx + 1) * (ny + 1)) by (eapply cap_exact; eauto).
  unfold read_pillars at 1. rewrite E, goto_before by assumption. cbn [bind]. unfold getline. cbn [pending nl].
  destruct (dl ++ l :: next) as [|c r] eqn:E2; [now destruct dl|]. cbn [pending nl].
  rewrite (pillars_loop_to F _ _ l next dl ps P [] c r) by (assumption || (rewrite Cap; cbn [List.length]; lia)).
  now rewrite (not_pillar_throws F _ _ l next _ O N).
Qed.
Print Assumptions C150_other_line_in_pillars.

(** Blank lines between the pillars change nothing. *)
Theorem C150_blank_line_between_pillars (F : Num) a b pa pb blank : pillar_text F a pa -> pillar_text F b pb ->
  open_line blank -> string_split blank = [] -> forall pre kl sl rest, before "COORD" pre -> starts_with kl "COORD" = true -> starts_with sl "/" = true ->
  pillar_section F (pa ++ pb) (pre ++ kl :: (a ++ b) ++ sl :: rest) rest /\
  pillar_section F (pa ++ pb) (pre ++ kl :: (a ++ blank :: b) ++ sl :: rest) rest.
Proof.
  intros Ha Hb Ho Hs pre kl sl rest Hp Hk Hsl. split.
  - exists pre, kl, (a ++ b), sl. repeat (split; [easy || assumption|]). split; [now apply pillar_text_app|assumption].
  - exists pre, kl, (a ++ blank :: b), sl. repeat (split; [easy || assumption|]). split; [|assumption].
    apply pillar_text_app; [assumption|]. now apply PT_blank.
Qed.
Print Assumptions C150_blank_line_between_pillars.

(** ** The words of the Eclipse format are no numbers *)
Definition number_char (c : ascii) : Prop := is_digit c = true \/ c = "."%char \/ c = "e"%char \/ c = "+"%char \/ c = "-"%char.
Lemma span_spec l : forall a b, span_digits l = (a, b) -> l = a ++ b /\ Forall (fun c => is_digit c = true) a.
Proof.
  induction l as [|c l IH]; intros a b H; cbn [span_digits] in H.
  - injection H as <- <-. now split.
  - destruct (is_digit c) eqn:D.
    + destruct (span_digits l) as [a' b']. injection H as <- <-. destruct (IH _ _ eq_refl) as [-> G]. split; [reflexivity|now constructor].
    + injection H as <- <-. now split.
Qed.
Lemma digits_val_chars l : forall n v, digits_val n l = Some v -> Forall (fun c => is_digit c = true) l.
Proof.
  induction l as [|c l IH]; intros n v H; [constructor|]. cbn [digits_val] in H. destruct (is_digit c) eqn:D; [|discriminate]. constructor; [assumption|]. eauto.
Qed.
Lemma exponent_chars l e : read_exponent l = Some e -> Forall number_char l.
Proof.
  destruct l as [|c [|s ds]]; cbn [read_exponent]; [constructor|discriminate|].
  destruct (Ascii.eqb_spec c "e") as [->|]; [|discriminate]. destruct ds as [|d ds]; [discriminate|].
  destruct (digits_val 0 (d :: ds)) as [v|] eqn:D; [|discriminate]. intros H. apply digits_val_chars in D.
  constructor; [right; right; now left|]. constructor.
  - destruct (Ascii.eqb_spec s "-") as [->|]; [now right; right; right; right|]. destruct (Ascii.eqb_spec s "+") as [->|]; [now right; right; right; left|discriminate].
  - eapply Forall_impl; [|exact D]. intros x Hx. now left.
Qed.
Lemma digits_number l : Forall (fun c => is_digit c = true) l -> Forall number_char l.
Proof. intros H. eapply Forall_impl; [|exact H]. intros c Hc. now left. Qed.
Lemma unsigned_chars l q : read_unsigned l = Some q -> Forall number_char l /\ exists c r, l = c :: r /\ is_digit c = true.
Proof.
  unfold read_unsigned. destruct (span_digits l) as [a r] eqn:Sa. apply span_spec in Sa as [-> Da].
  destruct a as [|d a]; [destruct r as [|c r]; [discriminate|destruct (Ascii.eqb c "."); [destruct (span_digits r)|]; discriminate]|].
  intros H. split; [|inversion Da; subst; now exists d, (a ++ r)].
  apply Forall_app. split; [now apply digits_number|]. destruct r as [|c r]; [constructor|].
  destruct (Ascii.eqb_spec c ".") as [->|].
  - destruct (span_digits r) as [b t] eqn:Sb. apply span_spec in Sb as [-> Db].
    destruct (digits_val 0 _); [|discriminate]. destruct (read_exponent t) eqn:X; [|discriminate].
    constructor; [right; now left|]. apply Forall_app. split; [now apply digits_number|]. eapply exponent_chars; eauto.
  - destruct (digits_val 0 _); [|discriminate]. destruct (read_exponent (c :: r)) eqn:X; [|discriminate]. eapply exponent_chars; eauto.
Qed.
Lemma decimal_chars l q : read_decimal l = Some q -> Forall number_char l /\ starts_with l "--" = false.
Proof.
  destruct l as [|c r]; [discriminate|]. cbn [read_decimal]. destruct (Ascii.eqb_spec c "-") as [->|N].
  - destruct (read_unsigned r) eqn:U; [|discriminate]. intros _. apply unsigned_chars in U as [U (d & t & -> & Hd)]. split.
    + constructor; [now right; right; right; right|assumption].
    + change (starts_with ("-"%char :: d :: t) "--") with (Ascii.eqb d "-" && starts_with t []). destruct (Ascii.eqb_spec d "-") as [->|]; [discriminate Hd|reflexivity].
  - intros U. apply unsigned_chars in U as [U _]. split; [assumption|].
    change (starts_with (c :: r) "--") with (Ascii.eqb c "-" && starts_with r ["-"%char]). now destruct (Ascii.eqb_spec c "-") as [->|].
Qed.
Theorem C150_eclipse_words (rd : Q -> Q) w : eclipse_word w -> not_number (DNum rd) w.
Proof.
  intros H. unfold not_number. cbn [DNum atod]. destruct (read_decimal w) as [q|] eqn:E; [exfalso|reflexivity].
  apply decimal_chars in E as [E1 E2]. destruct H as [H|[H|H]]; [..|congruence];
    apply (proj1 (Forall_forall _ _) E1) in H; destruct H as [H|[H|[H|[H|H]]]]; discriminate H.
Qed.
Print Assumptions C150_eclipse_words.

(** ** Instances *)
(** The grid of C24 with its depths on other lines, then with repeat counts. *)
Definition ex_head : list bytes := firstn 15 ex_grid.
Definition ex_depths (dl : list string) : bytes := unlines (ex_head ++ map lit dl ++ [lit "/"]).
Lemma ex_depth_lines dl : Forall is_line (map lit dl) -> Forall open_line (map lit dl) -> before "INCLUDE" (map lit dl) ->
  let P a b := mkPillar ExNum (a, b, 0) (a, b, 10) in
  depth_lines ExNum (ex_depths dl) 1 1 1 [P 0 0; P 1 0; P 0 1; P 1 1] (map lit dl).
Proof.
  intros Hl Ho Hi P. unfold depth_lines, ex_depths. rewrite open_unlines.
  2: { apply Forall_app. split; [repeat constructor; apply lineb_ok; vm_compute; reflexivity|]. apply Forall_app. split; [assumption|]. repeat constructor; apply lineb_ok; vm_compute; reflexivity. }
  cbn [pending]. exists (skipn 4 (ex_head ++ map lit dl ++ [lit "/"])), (skipn 13 (ex_head ++ map lit dl ++ [lit "/"])), [lit ""], (lit "ZCORN"), (lit "/"), [].
  split; [|split; [|split; [|repeat (split; [reflexivity || (repeat constructor) || assumption|]); reflexivity]]].
  - exists [lit "-- a comment"], (lit "SPECGRID"), [lit "-- sizes"; lit "1 1 1 1 F /"], [lit "SPECGRID"; lit "-- sizes"], (lit "1 1 1 1 F /"),
      (lit "1"), (lit "1"), (lit "1"), (map lit ["1"; "F"; "/"]). repeat split; repeat constructor.
  - change (skipn 4 (ex_head ++ map lit dl ++ [lit "/"])) with (skipn 4 ex_head ++ map lit dl ++ [lit "/"]).
    apply Forall_app. split; [repeat constructor|]. apply Forall_app. split; [assumption|repeat constructor].
  - exists [lit ""], (lit "COORD"), (map lit ["0 0 0 0 0 10"; "1 0 0"; "1 0 10"; ""; "0 1 0 0 1 10"; "1 1 0 1 1 10"]), (lit "/").
    split; [reflexivity|]. split; [repeat constructor|]. split; [reflexivity|]. split; [|reflexivity].
    apply PT_one; [reflexivity|repeat constructor|]. apply PT_two; [reflexivity|repeat constructor|repeat constructor|].
    apply PT_blank; [reflexivity|reflexivity|]. apply PT_one; [reflexivity|repeat constructor|]. apply PT_one; [reflexivity|repeat constructor|]. constructor.
Qed.
Ltac ex_dl := apply ex_depth_lines; [repeat constructor; apply lineb_ok; vm_compute; reflexivity|repeat constructor|repeat constructor].
Example C150_case : let P a b := mkPillar ExNum (a, b, 0) (a, b, 10) in let ps := [P 0 0; P 1 0; P 0 1; P 1 1] in
  let dl := ["1 2 3 4"; "5 6 7 8"] in let dl' := ["1"; ""; " 2 3  4 5 6"; "7 8"] in let dl'' := ["1 2*2 3 3*4 5"] in
  depth_lines ExNum (ex_depths dl) 1 1 1 ps (map lit dl) /\ depth_lines ExNum (ex_depths dl') 1 1 1 ps (map lit dl') /\
  words_of (map lit dl) = words_of (map lit dl') /\
  depth_lines ExNum (ex_depths dl'') 1 1 1 ps (map lit dl'') /\
  (words_of (map lit dl'') = [lit "1"] ++ lit "2*2" :: map lit ["3"; "3*4"; "5"] /\ values ExNum [lit "1"] [1] /\ not_number ExNum (lit "2*2")) /\
  eclipse_word (lit "2*2").
Proof.
  cbv zeta. split; [ex_dl|]. split; [ex_dl|]. split; [vm_compute; reflexivity|]. split; [ex_dl|].
  split; [split; [vm_compute; reflexivity|split; [repeat constructor|vm_compute; reflexivity]]|]. left. right. now left.
Qed.

(** The pillars cannot be on the lines in any way: the same numbers on other lines can give another grid, without any notice.
    When the first line has three numbers, those after the third of the next line are lost; the pillars not read are at the origin. *)
Definition ex_pillars (dl : list string) : list bytes :=
  firstn 6 ex_grid ++ map lit dl ++ skipn 12 ex_grid.
Definition right_pillars : list string := ["0 0 0 0 0 10"; "1 0 0 1 0 10"; "0 1 0 0 1 10"; "1 1 0 1 1 10"].
Definition long_line : list string := ["0 0 0"; "0 0 10 1 0 0 1 0 10 0 1 0 0 1 10 1 1 0 1 1 10"].
Definition points_of (r : res (list (gpoint ExNum) * list (list Z))) : option (list (gpoint ExNum)) :=
  match r with Ok (pts, _) => Some pts | _ => None end.
Theorem C150_pillars_on_any_lines_refuted :
  exists text text' rest0 rest0' pre kl dl dl' sl rest r r',
    size_section 1 1 1 (pending (open_text text)) rest0 /\ size_section 1 1 1 (pending (open_text text')) rest0' /\
    before "INCLUDE" rest0 /\ before "INCLUDE" rest0' /\ before "COORD" pre /\ starts_with kl "COORD" = true /\ starts_with sl "/" = true /\
    rest0 = pre ++ kl :: dl ++ sl :: rest /\ rest0' = pre ++ kl :: dl' ++ sl :: rest /\ words_of dl = words_of dl' /\
    read_grdecl ExNum ex_arith no_colocation no_files text = Ok r /\
    read_grdecl ExNum ex_arith no_colocation no_files text' = Ok r' /\ points_of (Ok r) <> points_of (Ok r').
Proof.
  assert (L : forall dl, Forall is_line (map lit dl) -> pending (open_text (unlines (ex_pillars dl))) = ex_pillars dl).
  { intros dl H. rewrite open_unlines; [reflexivity|]. apply Forall_app. split; [repeat constructor; apply lineb_ok; vm_compute; reflexivity|].
    apply Forall_app. split; [assumption|]. repeat constructor; apply lineb_ok; vm_compute; reflexivity. }
  assert (D : forall dl, size_section 1 1 1 (ex_pillars dl) (skipn 4 (ex_pillars dl))).
  { intros dl. exists [lit "-- a comment"], (lit "SPECGRID"), [lit "-- sizes"; lit "1 1 1 1 F /"], [lit "SPECGRID"; lit "-- sizes"], (lit "1 1 1 1 F /"),
      (lit "1"), (lit "1"), (lit "1"), (map lit ["1"; "F"; "/"]). repeat split; repeat constructor. }
  destruct (read_grdecl ExNum ex_arith no_colocation no_files (unlines (ex_pillars right_pillars))) as [r| | |] eqn:E; [|exfalso..].
  2-4: apply (f_equal points_of) in E; vm_compute in E; discriminate E.
  destruct (read_grdecl ExNum ex_arith no_colocation no_files (unlines (ex_pillars long_line))) as [r'| | |] eqn:E'; [|exfalso..].
  2-4: apply (f_equal points_of) in E'; vm_compute in E'; discriminate E'.
  exists (unlines (ex_pillars right_pillars)), (unlines (ex_pillars long_line)), (skipn 4 (ex_pillars right_pillars)), (skipn 4 (ex_pillars long_line)),
    [lit ""], (lit "COORD"), (map lit right_pillars), (map lit long_line), (lit "/"), (skipn 13 ex_grid), r, r'.
  rewrite !L by (repeat constructor; apply lineb_ok; vm_compute; reflexivity).
  split; [apply D|]. split; [apply D|]. split; [repeat constructor|]. split; [repeat constructor|]. split; [repeat constructor|].
  split; [reflexivity|]. split; [reflexivity|]. split; [reflexivity|]. split; [reflexivity|]. split; [vm_compute; reflexivity|].
  split; [exact E|]. split; [exact E'|]. rewrite <- E, <- E'. vm_compute. discriminate.
Qed.
Print Assumptions C150_pillars_on_any_lines_refuted.

(** The hypotheses of C150_other_line_in_pillars: a closing slash after the last pillar, a comment line. *)
Example C150_pillar_case : let P a b := mkPillar ExNum (a, b, 0) (a, b, 10) in
  not_pillar ExNum (lit "1 1 0 1 1 10 /") [] /\ not_pillar ExNum (lit "-- second row") [] /\ not_pillar ExNum (lit "1 1 0") [lit "2*1 10"] /\
  pillar_lines_to ExNum (unlines (ex_pillars ["0 0 0 0 0 10"; "1 0 0 1 0 10"; "0 1 0 0 1 10"; "1 1 0 1 1 10 /"])) 1 1 1 [P 0 0; P 1 0; P 0 1]
    (lit "1 1 0 1 1 10 /") (skipn 12 ex_grid).
Proof.
  cbv zeta. split; [apply (NP_count _ _ _ 7); [vm_compute; reflexivity|lia..]|].
  split; [apply (NP_word _ _ _ (lit "--")); [left; reflexivity|vm_compute; reflexivity]|].
  split; [apply (NP_half ExNum _ _ _ 1 1 0 [] [lit "10"] (lit "2*1") []); [repeat constructor|reflexivity|constructor|cbn; lia|vm_compute; reflexivity]|].
  unfold pillar_lines_to. rewrite open_unlines by (repeat constructor; apply lineb_ok; vm_compute; reflexivity). cbn [pending].
  exists (skipn 4 (ex_pillars ["0 0 0 0 0 10"; "1 0 0 1 0 10"; "0 1 0 0 1 10"; "1 1 0 1 1 10 /"])), [lit ""], (lit "COORD"),
    (map lit ["0 0 0 0 0 10"; "1 0 0 1 0 10"; "0 1 0 0 1 10"]).
  split.
  { exists [lit "-- a comment"], (lit "SPECGRID"), [lit "-- sizes"; lit "1 1 1 1 F /"], [lit "SPECGRID"; lit "-- sizes"], (lit "1 1 1 1 F /"),
      (lit "1"), (lit "1"), (lit "1"), (map lit ["1"; "F"; "/"]). repeat split; repeat constructor. }
  split; [repeat constructor|]. split; [reflexivity|]. split; [repeat constructor|]. split; [reflexivity|]. split; [|reflexivity].
  do 3 (apply PT_one; [reflexivity|repeat constructor|]). constructor.
Qed.
