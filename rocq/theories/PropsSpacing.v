(** * The spacing inside the lines of a file does not matter (C151). *)
From Coq Require Import ZArith List Lia Bool Ascii String.
From Verif Require Import Base Text TextFacts GocadModel MeshModel TsModel Spec GocadFacts StreamFacts CrlfFacts SpacingFacts.
From Verif Require Import WellModel VoModel GrdeclModel SignsModel MlModel LsoModel StratiLso ExNum ExCheck PropsTsVs.
From Verif Require PropsVo PropsGrdecl.
Import ListNotations.
Local Open Scope string_scope.
Local Open Scope list_scope.
Local Open Scope Z_scope.

(** Two texts that differ only by the blanks between and after the words of their lines, and before the rows of numbers. *)
Definition respaced_text (text text' : bytes) : Prop :=
  Forall2 respaced (pending (open_text text)) (pending (open_text text')) /\ nl (open_text text) = nl (open_text text').

Lemma respaced_Rs text text' : respaced_text text text' -> @Rs (fun _ => false) (open_text text) (open_text text').
Proof.
  intros [H N]. split; [|exact N]. induction H as [|l l' r r' H1 H2 IH]; constructor; [|exact IH]. split; [exact H1|discriminate].
Qed.

(** C151.  For every text: the same mesh or model, the same exception, the same failure. *)
Theorem C151_spacing (F : Num) text text' : respaced_text text text' ->
  read_ts F text' = read_ts F text /\ read_vs F text' = read_vs F text /\ read_pl F text' = read_pl F text /\
  read_wl F text' = read_wl F text /\ read_dev F text' = read_dev F text /\
  (forall name, read_well F name text' = read_well F name text) /\
  read_ml F text' = read_ml F text /\ read_lso F text' = read_lso F text /\ read_strati F text' = read_strati F text.
Proof.
  intros H0. pose proof (respaced_Rs _ _ H0) as H. clear H0. pose proof (Rs_length _ _ H) as L. unfold read_ts, read_vs, read_pl. rewrite <- L.
  split; [symmetry; now apply (@R_read_ts_loop (fun _ => false))|]. split; [symmetry; now apply (@R_read_vs_loop (fun _ => false))|]. split; [symmetry; now apply (@R_read_pl_loop (fun _ => false))|].
  split; [now apply (@sp_wl (fun _ => false))|]. split; [now apply (@sp_dev (fun _ => false))|]. split; [intros; now apply (@sp_well (fun _ => false))|]. split; [now apply (@sp_ml (fun _ => false))|].
  split; [now apply (@sp_lso (fun _ => false))|]. unfold read_strati. now rewrite (@sp_lso (fun _ => false) F text text' H).
Qed.
Print Assumptions C151_spacing.

(** The answer of is_loadable for these formats does not change either. *)
Theorem C151_loadable text text' : respaced_text text text' ->
  forall kind, loadable (lit "GOCAD " ++ kind) text' = loadable (lit "GOCAD " ++ kind) text.
Proof.
  intros H0 kind. pose proof (respaced_Rs _ _ H0) as H. clear H0. apply (@loadable_sp (fun _ => false)); [|exact H]. split; [reflexivity|]. right. exists (lit "GOCAD"), kind. split; [reflexivity|]. split; [|now left].
  apply unblankb_ok. reflexivity.
Qed.
Print Assumptions C151_loadable.

(** A Voxet, together with its data file; the line with the name of the data file is the same.  A grid, together with the
    files it includes; the lines with the names of the included files are the same (they follow the INCLUDE lines). *)
Definition respaced_voxet (text text' : bytes) : Prop :=
  Forall2 (fun l l' => respaced l l' /\ (starts_with l "ASCII_DATA_FILE" = true -> l' = l)) (pending (open_text text)) (pending (open_text text')) /\
  nl (open_text text) = nl (open_text text').
Definition respaced_grid (text text' : bytes) : Prop := respaced_text text text' /\
  let ls := pending (open_text text) in let ls' := pending (open_text text') in
  forall i l, nth_error ls i = Some l -> starts_with l "INCLUDE" = true ->
    nth_error ls' (S i) = nth_error ls (S i) /\ (nth_error ls (S i) = None -> nth_error ls' i = Some l).
Definition respaced_files (P : bytes -> bytes -> Prop) (files files' : bytes -> option bytes) : Prop :=
  forall f, match files f, files' f with Some t, Some t' => P t t' | None, None => True | _, _ => False end.
Theorem C151_voxet (F : Num) dist divn files files' folder text text' : respaced_files respaced_voxet files files' -> respaced_voxet text text' ->
  read_vo F dist divn files' folder text' = read_vo F dist divn files folder text.
Proof.
  intros Hf H. apply (@sp_vo (fun l => starts_with l "ASCII_DATA_FILE")); [auto| |exact H].
  intros f. specialize (Hf f). destruct (files f), (files' f); exact Hf.
Qed.
Print Assumptions C151_voxet.
Lemma respaced_Rg ls ls' : Forall2 respaced ls ls' ->
  (forall i l, nth_error ls i = Some l -> starts_with l "INCLUDE" = true ->
    nth_error ls' (S i) = nth_error ls (S i) /\ (nth_error ls (S i) = None -> nth_error ls' i = Some l)) ->
  forall after : bool, (after = true -> nth_error ls' 0 = nth_error ls 0) -> @Rg (fun _ => false) after ls ls'.
Proof.
  induction 1 as [|l l' r r' H1 H2 IH]; intros H after Ha; [constructor|]. constructor.
  - split; [exact H1|discriminate].
  - intros E. specialize (Ha E). cbn in Ha. congruence.
  - intros E ->. destruct (H 0%nat l eq_refl E) as [_ Q]. specialize (Q eq_refl). cbn in Q. congruence.
  - apply IH; [intros i; exact (H (S i))|]. intros E. exact (proj1 (H 0%nat l eq_refl E)).
Qed.
Theorem C151_grid (F : Num) A coloc files files' text text' : respaced_files respaced_text files files' -> respaced_grid text text' ->
  read_grdecl F A coloc files' text' = read_grdecl F A coloc files text.
Proof.
  intros Hf [H HI]. apply (@sp_grdecl (fun _ => false)).
  - intros f. specialize (Hf f). destruct (files f), (files' f); try exact Hf. now apply respaced_Rs.
  - exact (proj2 H).
  - apply respaced_Rg; [exact (proj1 H)|exact HI|discriminate].
Qed.
Print Assumptions C151_grid.

(** Blanks added after a line, or more blanks where there is one: respaced. *)
Definition blank (c : ascii) : Prop := c = " "%char \/ c = ascii_of_nat 9.
Lemma blank_sep g : Forall blank g -> Forall (fun c => is_sep c = true) g.
Proof. apply Forall_impl. intros c [-> | ->]; reflexivity. Qed.
Theorem C151_more_blanks w ws gaps gaps' : Forall token (w :: ws) -> w <> lit "GOCAD" -> w <> lit "#" ->
  List.length gaps = List.length ws -> List.length gaps' = List.length ws ->
  Forall (fun g => g <> [] /\ Forall blank g) gaps -> Forall (fun g => g <> [] /\ Forall blank g) gaps' ->
  forall tail tail', Forall blank tail -> Forall blank tail' ->
  let line gs t := w ++ List.concat (map (fun p => fst p ++ snd p) (combine gs ws)) ++ t in
  respaced (line gaps tail) (line gaps' tail').
Proof.
  intros Hw N1 N2 L L' G0 G0' tail tail' T0 T0' line.
  assert (G : Forall (fun g => g <> [] /\ Forall (fun c => is_sep c = true) g) gaps) by (eapply Forall_impl; [|exact G0]; intros g [A B]; split; [exact A|now apply blank_sep]).
  assert (G' : Forall (fun g => g <> [] /\ Forall (fun c => is_sep c = true) g) gaps') by (eapply Forall_impl; [|exact G0']; intros g [A B]; split; [exact A|now apply blank_sep]).
  pose proof (blank_sep _ T0) as T. pose proof (blank_sep _ T0') as T'. clear G0 G0' T0 T0'.
  inversion Hw as [|? ? Tw Tws]; subst.
  assert (Sep : forall t : bytes, token t -> Forall (fun c => is_sep c = false) t).
  { intros t [_ Ht]. eapply Forall_impl; [|exact Ht]. intros c Hc. unfold is_sep. destruct (Ascii.eqb_spec c SP) as [->|]; [discriminate Hc|].
    destruct (Ascii.eqb_spec c TAB) as [->|]; [discriminate Hc|reflexivity]. }
  assert (PS : forall g : bytes, Forall (fun c => is_sep c = true) g -> plain g).
  { intros g Hg. eapply Forall_impl; [|exact Hg]. auto. }
  assert (X : forall gs t, List.length gs = List.length ws -> Forall (fun g => g <> [] /\ Forall (fun c => is_sep c = true) g) gs -> Forall (fun c => is_sep c = true) t ->
    plain (line gs t) /\ words (line gs t) = w :: ws /\ begins w (line gs t)).
  { intros gs t Lg Gg Tt.
    assert (Y : forall cur, cur <> [] -> let r := List.concat (map (fun p => fst p ++ snd p) (combine gs ws)) ++ t in
      plain r /\ split_run cur r = cur :: ws /\ (r = [] \/ exists c r', r = c :: r' /\ is_sep c = true)).
    { clear line L L' G G'. clear Hw. revert gs Lg Gg. induction Tws as [|v vs Hv _ IH]; intros gs Lg Gg cur Nc; cbv zeta.
      - destruct gs; [|discriminate]. cbn [combine map List.concat app]. split; [now apply PS|]. split.
        + destruct Tt as [|c t Hc Tt]; cbn [split_run]; [destruct cur; [congruence|reflexivity]|]. rewrite Hc. destruct cur; [congruence|].
          cbn [flush app]. f_equal. induction Tt as [|d t Hd _ IH]; [reflexivity|]. cbn [split_run]. now rewrite Hd.
        + destruct Tt as [|c t Hc Tt]; [now left|right; eauto].
      - destruct gs as [|g gs]; [discriminate|]. inversion Gg as [|? ? [Ng Sg] Gg']; subst. injection Lg as Lg.
        cbn [combine map List.concat fst snd]. rewrite <- !app_assoc.
        destruct (IH gs Lg Gg' v (proj1 Hv)) as (P & W & _). split; [|split].
        + apply plain_app; [now apply PS|]. apply plain_app; [now apply plain_token|exact P].
        + destruct g as [|c g]; [congruence|]. inversion Sg as [|? ? Hc Sg']; subst. cbn [app split_run]. rewrite Hc. destruct cur; [congruence|].
          cbn [flush app]. f_equal. clear Ng Sg Gg. induction Sg' as [|d g Hd _ IHg]; [|cbn [app split_run]; rewrite Hd; exact IHg].
          cbn [app]. rewrite split_run_app_sep by now apply Sep. exact W.
        + destruct g as [|c g]; [congruence|]. inversion Sg; subst. right. cbn [app]. eauto. }
    unfold line. destruct (Y w (proj1 Tw)) as (P & W & B). split; [apply plain_app; [now apply plain_token|exact P]|]. split.
    - unfold words. rewrite split_run_app_sep by now apply Sep. exact W.
    - split; [now apply Sep|]. eauto. }
  destruct (X gaps tail L G T) as (P & W & B), (X gaps' tail' L' G' T') as (P' & W' & B').
  right. split; [exact P|]. split; [exact P'|]. split; [congruence|]. left. exists w. auto.
Qed.
Print Assumptions C151_more_blanks.
(** Blanks added before or removed from the beginning of a row of numbers: respaced. *)
Theorem C151_indented_rows c w r : plain (c :: w ++ r) -> like_a_number c = true ->
  forall lead lead', Forall blank lead -> Forall blank lead' -> respaced (lead ++ c :: w ++ r) (lead' ++ c :: w ++ r).
Proof.
  intros P Hc lead lead' B B'.
  assert (PS : forall g : bytes, Forall blank g -> plain g).
  { intros g Hg. eapply Forall_impl; [|exact Hg]. intros x [-> | ->] _; reflexivity. }
  assert (W : forall g, Forall blank g -> words (g ++ c :: w ++ r) = words (c :: w ++ r)).
  { intros g Hg. apply blank_sep in Hg. induction Hg as [|d g Hd _ IH]; [reflexivity|]. unfold words in *. cbn [app split_run]. rewrite Hd. exact IH. }
  right. split; [apply plain_app; auto|]. split; [apply plain_app; auto|]. split; [now rewrite !W|]. right.
  unfold number_row. rewrite W by exact B.
  assert (Sc : is_sep c = false).
  { destruct (is_sep c) eqn:E; [|reflexivity]. unfold is_sep in E. apply orb_true_iff in E as [E|E]; apply Ascii.eqb_eq in E; subst c; discriminate Hc. }
  unfold words. cbn [split_run]. rewrite Sc. cbn [app].
  assert (X : forall l cur, cur <> [] -> exists t q, split_run cur l = (cur ++ t) :: q).
  { clear. induction l as [|x l IH]; intros cur N; cbn [split_run].
    - destruct cur; [congruence|]. exists [], []. now rewrite app_nil_r.
    - destruct (is_sep x).
      + destruct cur; [congruence|]. exists [], (split_run [] l). now rewrite app_nil_r.
      + destruct (IH (cur ++ [x])) as (t & q & ->); [now destruct cur|]. exists ([x] ++ t), q. now rewrite <- app_assoc. }
  destruct (X (w ++ r) [c]) as (t & q & ->); [discriminate|]. exists c, t, q. auto.
Qed.
Print Assumptions C151_indented_rows.

(** ** What does matter *)
(** Two blanks in the line that opens the object: the file is loaded as an empty surface, without any notice.
    One blank before the line of the coordinate system: the depths are loaded as elevations, without any notice. *)
Definition sp_lines (g c : string) : list bytes :=
  map lit [g; "HEADER {"; "name: s"; "}"; c; "NAME Default"; "AXIS_NAME X Y Z"; "AXIS_UNIT m m m"; "ZPOSITIVE Depth"; "END_ORIGINAL_COORDINATE_SYSTEM";
           "TFACE"; "VRTX 1 0 0 5"; "VRTX 2 1 0 6"; "VRTX 3 0 1 7"; "TRGL 1 2 3"; "END"].
Theorem C151_first_line_refuted : exists text text',
  map string_split (pending (open_text text')) = map string_split (pending (open_text text)) /\
  mesh_is zzz_eqb (read_ts ExNum text) (Some (lit "s")) [(0, 0, -5); (1, 0, -6); (0, 1, -7)] [(0, 1, 2)] [] = true /\
  mesh_is zzz_eqb (read_ts ExNum text') None [] [] [] = true.
Proof.
  exists (unlines (sp_lines "GOCAD TSurf 1" "GOCAD_ORIGINAL_COORDINATE_SYSTEM")), (unlines (sp_lines "GOCAD  TSurf 1" "GOCAD_ORIGINAL_COORDINATE_SYSTEM")).
  split; [vm_compute; reflexivity|]. split; vm_compute; reflexivity.
Qed.
Print Assumptions C151_first_line_refuted.
Theorem C151_indented_refuted : exists text text',
  map string_split (pending (open_text text')) = map string_split (pending (open_text text)) /\
  mesh_is zzz_eqb (read_ts ExNum text) (Some (lit "s")) [(0, 0, -5); (1, 0, -6); (0, 1, -7)] [(0, 1, 2)] [] = true /\
  mesh_is zzz_eqb (read_ts ExNum text') (Some (lit "s")) [(0, 0, 5); (1, 0, 6); (0, 1, 7)] [(0, 1, 2)] [] = true.
Proof.
  exists (unlines (sp_lines "GOCAD TSurf 1" "GOCAD_ORIGINAL_COORDINATE_SYSTEM")), (unlines (sp_lines "GOCAD TSurf 1" " GOCAD_ORIGINAL_COORDINATE_SYSTEM")).
  split; [vm_compute; reflexivity|]. split; vm_compute; reflexivity.
Qed.
Print Assumptions C151_indented_refuted.

(** Two blanks before the name of the data file of a Voxet: the file is not found and the Voxet is refused. *)
Definition sp_vo_lines (d : string) : list bytes := map lit
  ["GOCAD Voxet 1"; "HEADER {"; "name:box"; "}"; "AXIS_O 0 0 0"; "AXIS_U 4 0 0"; "AXIS_V 0 9 0"; "AXIS_W 0 0 5"; "AXIS_MIN 0 0 0"; "AXIS_N 2 3 1"; d; "END"].
Theorem C151_data_file_refuted : exists files text text',
  map string_split (pending (open_text text')) = map string_split (pending (open_text text)) /\
  PropsVo.vo_is (read_vo ExNum PropsVo.ex_dist Z.div files "dir/" text) (0, 0, 0) (2, 3, 1) (2, 3, 5)
    [(lit "por", [[0]; [0]; [0]; [0]; [0]; [3]]); (lit "perm", [[0]; [0]; [0]; [0]; [0]; [4]])] = true /\
  read_vo ExNum PropsVo.ex_dist Z.div files "dir/" text' = Throw ExData.
Proof.
  exists (PropsVo.ex_files ["1 2 0 3 4"]), (unlines (sp_vo_lines "ASCII_DATA_FILE box.data")), (unlines (sp_vo_lines "ASCII_DATA_FILE  box.data")).
  split; [vm_compute; reflexivity|]. split; vm_compute; reflexivity.
Qed.
Print Assumptions C151_data_file_refuted.

(** ** Instances *)
Definition plain_b (l : bytes) : bool := forallb (fun c => (negb (isspace c) || is_sep c)%bool) l.
Lemma plain_b_ok l : plain_b l = true -> plain l.
Proof. intros H. apply Forall_forall. intros c Hc E. apply (proj1 (forallb_forall _ _) H) in Hc. now rewrite E in Hc. Qed.
Lemma respaced_by w (l l' : bytes) : plain_b l = true -> plain_b l' = true -> words l' = words l -> unblankb w = true ->
  (exists r, l = w ++ r /\ (r = [] \/ exists c r', r = c :: r' /\ is_sep c = true)) -> (exists r, l' = w ++ r /\ (r = [] \/ exists c r', r = c :: r' /\ is_sep c = true)) ->
  beq w "GOCAD" = false -> beq w "#" = false -> respaced l l'.
Proof.
  intros P P' W U B B' N1 N2. right. split; [now apply plain_b_ok|]. split; [now apply plain_b_ok|]. split; [exact W|].
  left. exists w. apply unblankb_ok in U. split; [now split|]. split; [now split|]. split; intros ->; [discriminate N1|discriminate N2].
Qed.
Lemma respaced_row c w ws (l l' : bytes) : plain_b l = true -> plain_b l' = true -> words l' = words l -> words l = (c :: w) :: ws ->
  like_a_number c = true -> respaced l l'.
Proof. intros P P' W E N. right. split; [now apply plain_b_ok|]. split; [now apply plain_b_ok|]. split; [exact W|]. right. now exists c, w, ws. Qed.
Ltac row := eapply respaced_row; reflexivity.
Ltac sp w := eapply (respaced_by w); [reflexivity|reflexivity|reflexivity|reflexivity| | |reflexivity|reflexivity];
  (eexists; split; [reflexivity|]; first [left; reflexivity|right; eexists; eexists; split; reflexivity]).
Example C151_case : let text := unlines (sp_lines "GOCAD TSurf 1" "GOCAD_ORIGINAL_COORDINATE_SYSTEM") in
  let text' := unlines (map lit ["GOCAD TSurf 1"; "HEADER   {  "; "name:   s "; "}"; "GOCAD_ORIGINAL_COORDINATE_SYSTEM "; "NAME  Default"; "AXIS_NAME X Y Z"; "AXIS_UNIT m m m";
    "ZPOSITIVE   Depth"; "END_ORIGINAL_COORDINATE_SYSTEM"; "TFACE "; "VRTX   1    0 0     5"; "VRTX   2    1 0     6"; "VRTX   3    0 1     7"; "TRGL 1 2 3 "; "END "]) in
  respaced_text text text' /\ text <> text' /\
  mesh_is zzz_eqb (read_ts ExNum text') (Some (lit "s")) [(0, 0, -5); (1, 0, -6); (0, 1, -7)] [(0, 1, 2)] [] = true.
Proof.
  cbv zeta. split; [|split].
  - unfold respaced_text. rewrite !open_unlines by (repeat constructor; apply lineb_ok; vm_compute; reflexivity). split; [|reflexivity]. cbn [pending].
    unfold sp_lines. cbn [map].
    repeat (apply Forall2_cons; [first [left; reflexivity|sp (lit "HEADER")|sp (lit "name:")|sp (lit "GOCAD_ORIGINAL_COORDINATE_SYSTEM")|sp (lit "NAME")|sp (lit "ZPOSITIVE")
      |sp (lit "TFACE")|sp (lit "VRTX")|sp (lit "TRGL")|sp (lit "END")]|]). constructor.
  - intros E. apply beq_eq in E. vm_compute in E. discriminate.
  - vm_compute. reflexivity.
Qed.

Lemma resp_same l : respaced l l. Proof. now left. Qed.
Example C151_voxet_case : let text := unlines (sp_vo_lines "ASCII_DATA_FILE box.data") in
  let text' := unlines (map lit ["GOCAD Voxet 1"; "HEADER {"; "name:box"; "}"; "AXIS_O   0 0 0"; "AXIS_U   4 0 0"; "AXIS_V   0 9 0 "; "AXIS_W 0 0 5"; "AXIS_MIN 0 0 0";
    "AXIS_N   2  3  1"; "ASCII_DATA_FILE box.data"; "END "]) in
  let files f := if beq f "dir/box.data" then Some (unlines (map lit ["*"; "* I J K por perm"; "*"; "1 2 0 3 4"])) else None in
  let files' f := if beq f "dir/box.data" then Some (unlines (map lit ["*"; "* I  J  K  por  perm"; "*"; "  1  2  0   3    4 "])) else None in
  respaced_voxet text text' /\ respaced_files respaced_voxet files files' /\
  PropsVo.vo_is (read_vo ExNum PropsVo.ex_dist Z.div files' "dir/" text') (0, 0, 0) (2, 3, 1) (2, 3, 5)
    [(lit "por", [[0]; [0]; [0]; [0]; [0]; [3]]); (lit "perm", [[0]; [0]; [0]; [0]; [0]; [4]])] = true.
Proof.
  cbv zeta. split; [|split].
  - unfold respaced_voxet. rewrite !open_unlines by (repeat constructor; apply lineb_ok; vm_compute; reflexivity). split; [|reflexivity]. cbn [pending].
    unfold sp_vo_lines. cbn [map].
    repeat (apply Forall2_cons; [split; [first [left; reflexivity|sp (lit "AXIS_O")|sp (lit "AXIS_U")|sp (lit "AXIS_V")|sp (lit "AXIS_N")|sp (lit "END")]|first [reflexivity|discriminate]]|]). constructor.
  - intros f. destruct (beq f "dir/box.data"); [|exact I].
    unfold respaced_voxet. rewrite !open_unlines by (repeat constructor; apply lineb_ok; vm_compute; reflexivity). split; [|reflexivity]. cbn [pending map].
    repeat (apply Forall2_cons; [split; [first [left; reflexivity|sp (lit "*")|row]|first [reflexivity|discriminate]]|]). constructor.
  - vm_compute. reflexivity.
Qed.
Example C151_grid_case :
  let text' := unlines (map lit ["SPECGRID "; "  1  1  1  1 F /"; "INCLUDE "; "'A_B_COORD.INC' /"; "INCLUDE"; "'A_B_ZCORN.INC' /"]) in
  let files' n := if beq n "A_B_COORD.INC" then Some (unlines (map lit [""; "COORD  "; "   0   0   0   0   0  10"; "1 0 0"; "1 0 10"; ""; "0 1 0 0 1 10 "; "1 1 0 1 1 10"; "/ "]))
    else if beq n "A_B_ZCORN.INC" then Some (unlines (map lit ["ZCORN"; "  1  2  3  4 "; "  5 6 7 8"; "/"; "END"])) else None in
  respaced_grid (unlines PropsGrdecl.ex_main) text' /\ respaced_files respaced_text PropsGrdecl.ex_files files' /\
  match read_grdecl ExNum (mkArith ExNum Z.sub Z.mul (fun a b => a) 1) PropsGrdecl.no_colocation files' text' with
  | Ok (_, hexas) => leqb (leqb Z.eqb) hexas [[0; 1; 2; 3; 4; 5; 6; 7]]
  | _ => false
  end = true.
Proof.
  cbv zeta. split; [|split].
  - unfold respaced_grid, respaced_text, PropsGrdecl.ex_main. rewrite !open_unlines by (repeat constructor; apply lineb_ok; vm_compute; reflexivity). cbn [pending nl map].
    split; [split; [|reflexivity]|].
    + repeat (apply Forall2_cons; [first [left; reflexivity|sp (lit "SPECGRID")|row|sp (lit "INCLUDE")]|]). constructor.
    + intros [|[|[|[|[|[|i]]]]]] l E Hs; cbn [nth_error] in E; [..|now destruct i]; try (injection E as <-; vm_compute in Hs); try discriminate; cbn [nth_error]; (split; [reflexivity|intros X; discriminate X]).
  - intros f. unfold PropsGrdecl.ex_files. destruct (beq f "A_B_COORD.INC"); [|destruct (beq f "A_B_ZCORN.INC"); [|exact I]];
    unfold respaced_text; unfold PropsGrdecl.ex_grid; cbn [map firstn skipn]; rewrite !open_unlines by (repeat constructor; apply lineb_ok; vm_compute; reflexivity); (split; [|reflexivity]); cbn [pending map];
    repeat (apply Forall2_cons; [first [left; reflexivity|sp (lit "COORD")|row|sp (lit "/")]|]); constructor.
  - vm_compute. reflexivity.
Qed.
