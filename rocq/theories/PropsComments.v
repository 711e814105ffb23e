(** * Property C131: comment lines in GOCAD files *)
From Coq Require Import ZArith List Lia Bool Ascii String.
From Verif Require Import Base Text TextFacts StreamFacts GocadModel MeshModel TsModel ExNum ExCheck.
Import ListNotations.
Local Open Scope string_scope.
Local Open Scope list_scope.
Local Open Scope Z_scope.

(** ** Specification *)
(** A comment line: it begins with a sharp; it does not contain the text name: and has no quote that
    stands alone between blanks (C131_name_refuted and C131_quote_refuted show what these do). *)
Definition comment (c : bytes) : Prop :=
  (exists r, c = "#"%char :: r) /\ contains c "name:" = false /\ ~ In [QUOTE] (string_split c).
(** The lines that must directly follow the line before them *)
Definition attached (l : bytes) : Prop :=
  starts_with l "HEADER" = true \/ starts_with l "GOCAD_ORIGINAL_COORDINATE_SYSTEM" = true \/
  starts_with l "PROPERTIES" = true.
(** The same lines with comments added anywhere but directly before an attached line *)
Inductive commented : list bytes -> list bytes -> Prop :=
| commented_nil : commented [] []
| commented_line l a b : commented a b -> commented (l :: a) (l :: b)
| commented_before c l a b : comment c -> ~ attached l -> commented (l :: a) b -> commented (l :: a) (c :: b)
| commented_end c b : comment c -> commented [] b -> commented [] (c :: b).

(** ** Facts *)
Lemma sharp_other (w : string) r : match w with EmptyString => False | String c _ => Ascii.eqb c "#" = false end ->
  starts_with ("#"%char :: r) w = false.
Proof. destruct w as [|c w]; [contradiction|]. cbn [lit list_ascii_of_string starts_with]. now intros ->. Qed.
Lemma split_first cur l : exists t ts, split_run (cur ++ [chr 35]) l = ((cur ++ [chr 35]) ++ t) :: ts.
Proof.
  revert cur. cut (forall x, x <> [] -> exists t ts, split_run x l = (x ++ t) :: ts).
  { intros H cur. apply H. now destruct cur. }
  induction l as [|c l IH]; intros x Hx; cbn [split_run].
  - exists [], []. rewrite app_nil_r. now destruct x.
  - destruct (is_sep c).
    + exists [], (split_run [] l). rewrite app_nil_r. now destruct x.
    + destruct (IH (x ++ [c])) as [t [ts E]]; [now destruct x|]. exists ([c] ++ t), ts. rewrite E. now rewrite <- app_assoc.
Qed.
Lemma drop_last_other r : exists q, rev (drop_while isspace (rev ("#"%char :: r))) = "#"%char :: q.
Proof.
  cbn [rev]. induction (rev r) as [|c t IH] using list_ind; cbn [app drop_while].
  - exists []. reflexivity.
  - destruct (isspace c); [exact IH|]. exists (rev (c :: t) ). 
    change (c :: t ++ ["#"%char]) with ((c :: t) ++ ["#"%char]). rewrite rev_app_distr. reflexivity.
Qed.
Lemma sharp_split r : exists t ts, string_split ("#"%char :: r) = ("#"%char :: t) :: ts.
Proof.
  unfold string_split, strip. destruct (drop_last_other r) as [q ->].
  change (drop_while isspace ("#"%char :: q)) with ("#"%char :: q). unfold words. cbn [split_run].
  change (is_sep "#") with false. cbn [app].
  destruct (split_first [] q) as [t [ts E]]. exists t, ts. exact E.
Qed.
Lemma sharp_word t (w : string) : match w with EmptyString => True | String c _ => Ascii.eqb "#" c = false end -> beq ("#"%char :: t) w = false.
Proof. destruct w as [|c w]; [reflexivity|]. cbn [lit list_ascii_of_string beq]. now intros ->. Qed.

(** The functions that treat the lines one by one skip a comment *)
Lemma no_quote_merge ts : ~ In [QUOTE] ts -> merge_quotes None ts = Ok ts.
Proof.
  induction ts as [|t ts IH]; intros H; [reflexivity|]. cbn [merge_quotes].
  destruct (beq t Q1) eqn:E; [apply beq_eq in E; exfalso; apply H; now left|].
  rewrite IH; [reflexivity|]. intros Hi. apply H. now right.
Qed.
Lemma crs_skip crs c : comment c -> crs_line crs c = Ok crs.
Proof.
  intros [[r ->] [_ Q]]. unfold crs_line, split_quotes. rewrite no_quote_merge by assumption. cbn [bind].
  destruct (sharp_split r) as [t [ts ->]]. cbn [idx nth_error bind]. now rewrite !sharp_word by reflexivity.
Qed.
Lemma comment_front c : comment c -> exists t ts, string_split c = ("#"%char :: t) :: ts.
Proof. intros [[r ->] _]. apply sharp_split. Qed.
Lemma vrtx_skip t : is_vrtx ("#"%char :: t) = false.
Proof. unfold is_vrtx. now rewrite !sharp_word by reflexivity. Qed.
Lemma atom_skip t : is_atom ("#"%char :: t) = false.
Proof. unfold is_atom. now rewrite !sharp_word by reflexivity. Qed.
Lemma tface_skip F (ts : TSurf F) c : comment c -> tface_line F ts c = Ok (ts, false).
Proof.
  intros H. destruct (comment_front c H) as [t [r E]]. unfold tface_line. rewrite E. cbn [front bind].
  destruct ts. rewrite vrtx_skip, atom_skip. now rewrite !sharp_word by reflexivity.
Qed.
Lemma iline_skip F (ec : ECurve F) c : comment c -> iline_line F ec c = Ok (ec, false).
Proof.
  intros H. destruct (comment_front c H) as [t [r E]]. unfold iline_line. rewrite E. cbn [front bind].
  destruct ec. rewrite vrtx_skip. now rewrite !sharp_word by reflexivity.
Qed.
Lemma vset_skip F (vs : VSet F) c : comment c -> vset_line F vs c = Ok (vs, false).
Proof.
  intros H. destruct (comment_front c H) as [t [r E]]. unfold vset_line. rewrite E. cbn [front bind].
  destruct vs. rewrite vrtx_skip. now rewrite !sharp_word by reflexivity.
Qed.
Lemma comment_starts c (w : string) : comment c -> match w with EmptyString => False | String c _ => Ascii.eqb c "#" = false end -> starts_with c w = false.
Proof. intros [[r ->] _] H. now apply sharp_other. Qed.
Lemma contains_after c (p : bytes) : contains c p = false -> after_first p c = None.
Proof. unfold contains. now destruct (after_first p c). Qed.

(** ** Simulation *)
Definition near_lists {A} (a b : res (A * list bytes)) : Prop :=
  match a, b with
  | Ok (x, r), Ok (y, q) => x = y /\ commented r q
  | Throw e, Throw f => e = f
  | UB, UB => True
  | Hang, Hang => True
  | _, _ => False
  end.
Definition near_streams {A} (a b : res (A * istream)) : Prop :=
  match a, b with
  | Ok (x, r), Ok (y, q) => x = y /\ commented (pending r) (pending q)
  | Throw e, Throw f => e = f
  | UB, UB => True
  | Hang, Hang => True
  | _, _ => False
  end.
Lemma near_bind {A B} (a b : res (A * istream)) (f g : A * istream -> res (B * istream)) :
  near_streams a b ->
  (forall x r q, commented (pending r) (pending q) -> near_streams (f (x, r)) (g (x, q))) ->
  near_streams (bind a f) (bind b g).
Proof.
  intros H K. destruct a as [[x r]| | |], b as [[y q]| | |]; cbn [near_streams bind] in *; try contradiction; try assumption.
  destruct H as [-> H]. now apply K.
Qed.
Lemma near_same {A B} (a : res A) (f g : A -> res (B * istream)) :
  (forall x, near_streams (f x) (g x)) -> near_streams (bind a f) (bind a g).
Proof. intros H. destruct a; cbn; auto. Qed.
Lemma near_loop {A B} (a b : res (A * list bytes)) (n1 n2 : bool) (f g : A * istream -> res (B * istream)) :
  near_lists a b ->
  (forall x r q, commented r q -> near_streams (f (x, mkStream r n1)) (g (x, mkStream q n2))) ->
  near_streams (bind (do '(x, r) <- a; Ok (x, mkStream r n1)) f) (bind (do '(x, r) <- b; Ok (x, mkStream r n2)) g).
Proof.
  intros H K. destruct a as [[x r]| | |], b as [[y q]| | |]; cbn in *; try contradiction; auto.
  destruct H as [-> H]. now apply K.
Qed.
Lemma near_stream_loop {A} (a b : res (A * list bytes)) (n1 n2 : bool) :
  near_lists a b ->
  near_streams (do '(x, r) <- a; Ok (x, mkStream r n1)) (do '(x, r) <- b; Ok (x, mkStream r n2)).
Proof. intros H. destruct a as [[x r]| | |], b as [[y q]| | |]; cbn in *; auto. Qed.

Lemma scan_near p a b : commented a b -> (forall c, comment c -> p c = false) ->
  match scan p a, scan p b with
  | None, None => True
  | Some (l, r), Some (k, q) => l = k /\ commented r q
  | _, _ => False
  end.
Proof.
  intros H Hp. induction H as [|l a b H IH|c l a b Hc Ha H IH|c b Hc H IH]; [exact I| | |].
  - cbn [scan]. destruct (p l); [split; auto|exact IH].
  - cbn [scan]. rewrite (Hp c Hc). exact IH.
  - cbn [scan]. rewrite (Hp c Hc). exact IH.
Qed.
Definition near_option {A} (a b : option A * istream) : Prop := fst a = fst b /\ commented (pending (snd a)) (pending (snd b)).
Definition no_sharp (w : bytes) : Prop := match w with [] => False | c :: _ => Ascii.eqb c "#" = false end.
Lemma no_sharp_starts c w : comment c -> no_sharp w -> starts_with c w = false.
Proof. intros [[r ->] _] H. destruct w as [|x w]; [contradiction|]. cbn [starts_with]. cbn in H. now rewrite H. Qed.
Lemma goto_if_near kw s t : commented (pending s) (pending t) -> no_sharp kw -> near_option (goto_if kw s) (goto_if kw t).
Proof.
  intros H Hk. unfold goto_if. pose proof (scan_near (fun l => starts_with l kw) _ _ H) as K.
  specialize (K (fun c Hc => no_sharp_starts c kw Hc Hk)).
  destruct (scan _ (pending s)) as [[l r]|], (scan _ (pending t)) as [[k q]|]; try contradiction; split; cbn; auto; try apply K.
  destruct K; congruence.
Qed.
Lemma goto_near kw s t : commented (pending s) (pending t) -> no_sharp kw -> near_streams (goto_keyword kw s) (goto_keyword kw t).
Proof.
  intros H Hk. unfold goto_keyword. destruct (goto_if_near kw s t H Hk) as [E K].
  destruct (goto_if kw s) as [[l|] r], (goto_if kw t) as [[k|] q]; cbn in *; try discriminate; [split; congruence|reflexivity].
Qed.
Lemma gotos_near kws s t : commented (pending s) (pending t) -> Forall no_sharp kws -> near_streams (goto_keywords kws s) (goto_keywords kws t).
Proof.
  intros H Hk. unfold goto_keywords.
  assert (Hp : forall c, comment c -> existsb (starts_with c) kws = false).
  { intros c Hc. clear H. induction Hk as [|w ws Hw _ IH]; [reflexivity|]. cbn [existsb]. rewrite (no_sharp_starts c w Hc Hw). exact IH. }
  pose proof (scan_near (fun l => existsb (starts_with l) kws) _ _ H Hp) as K.
  destruct (scan _ (pending s)) as [[l r]|], (scan _ (pending t)) as [[k q]|]; try contradiction; cbn; auto.
Qed.
(** Adding comments keeps or hides the next line *)
Lemma head_of a b : commented a b ->
  match a, b with
  | [], [] => True
  | l :: a', k :: b' => (l = k /\ commented a' b') \/ (comment k /\ ~ attached l)
  | [], k :: _ => comment k
  | _ :: _, [] => False
  end.
Proof. intros H. inversion H; subst; auto. Qed.
Lemma check_near kw s t : commented (pending s) (pending t) -> no_sharp kw -> (forall l, starts_with l kw = true -> attached l) ->
  match check_keyword kw s, check_keyword kw t with
  | Ok r, Ok q => commented (pending r) (pending q)
  | Throw e, Throw f => e = f
  | _, _ => False
  end.
Proof.
  intros H Hk Ha. unfold check_keyword. pose proof (head_of _ _ H) as K.
  destruct (pending s) as [|l a], (pending t) as [|k b]; try contradiction; [reflexivity| |].
  - now rewrite no_sharp_starts.
  - destruct K as [[<- K]|[Hc Hn]].
    + destruct (starts_with l kw); [exact K|reflexivity].
    + rewrite (no_sharp_starts k kw) by assumption. destruct (starts_with l kw) eqn:E; [|reflexivity]. exfalso. apply Hn. now apply Ha.
Qed.
Lemma next_near kw s t : commented (pending s) (pending t) -> no_sharp kw -> (forall l, starts_with l kw = true -> attached l) ->
  near_option (next_if kw s) (next_if kw t).
Proof.
  intros H Hk Ha. unfold next_if. pose proof (head_of _ _ H) as K.
  destruct (pending s) as [|l a] eqn:Es, (pending t) as [|k b] eqn:Et; try contradiction.
  - split; [reflexivity|constructor].
  - rewrite no_sharp_starts by assumption. split; [reflexivity|]. cbn. rewrite Et. exact H.
  - destruct K as [[<- K]|[Hc Hn]].
    + destruct (starts_with l kw); (split; [reflexivity|]); cbn; [exact K|now rewrite Es, Et].
    + rewrite (no_sharp_starts k kw) by assumption. destruct (starts_with l kw) eqn:E; [exfalso; apply Hn; now apply Ha|].
      split; [reflexivity|]. cbn. now rewrite Es, Et.
Qed.

Lemma header_loop_near a b : commented a b -> forall n, near_lists (header_loop n a) (header_loop n b).
Proof.
  intros H. induction H as [|l a b H IH|c l a b Hc Ha H IH|c b Hc H IH]; intros n.
  - reflexivity.
  - cbn [header_loop]. destruct (starts_with l "}"); [split; auto|]. destruct (after_first "name:" l); apply IH.
  - change (header_loop n (c :: b)) with (if starts_with c "}" then Ok (n, b) else match after_first "name:" c with
           | Some suffix => header_loop (Some (read_name (string_split suffix))) b | None => header_loop n b end).
    rewrite comment_starts by (assumption || reflexivity). rewrite contains_after by apply Hc. apply IH.
  - change (header_loop n (c :: b)) with (if starts_with c "}" then Ok (n, b) else match after_first "name:" c with
           | Some suffix => header_loop (Some (read_name (string_split suffix))) b | None => header_loop n b end).
    rewrite comment_starts by (assumption || reflexivity). rewrite contains_after by apply Hc. apply IH.
Qed.
Lemma crs_loop_near a b : commented a b -> forall d, near_lists (crs_loop d a) (crs_loop d b).
Proof.
  intros H. induction H as [|l a b H IH|c l a b Hc Ha H IH|c b Hc H IH]; intros d.
  - reflexivity.
  - cbn [crs_loop]. destruct (starts_with l _); [split; auto|]. destruct (crs_line d l) as [d'| | |]; cbn [bind]; [apply IH|exact I || reflexivity..].
  - change (crs_loop d (c :: b)) with (if starts_with c "END_ORIGINAL_COORDINATE_SYSTEM" then Ok (d, b) else do crs' <- crs_line d c; crs_loop crs' b).
    rewrite comment_starts by (assumption || reflexivity). rewrite crs_skip by assumption. apply IH.
  - change (crs_loop d (c :: b)) with (if starts_with c "END_ORIGINAL_COORDINATE_SYSTEM" then Ok (d, b) else do crs' <- crs_line d c; crs_loop crs' b).
    rewrite comment_starts by (assumption || reflexivity). rewrite crs_skip by assumption. apply IH.
Qed.
(** A loop on lines that stops at a line and ends at the end of the file with [e] *)
Fixpoint line_loop {A} (step : A -> bytes -> res (A * bool)) (e : A -> res (A * list bytes)) (x : A) (ls : list bytes) : res (A * list bytes) :=
  match ls with
  | [] => e x
  | l :: r => do '(y, stop) <- step x l; if stop : bool then Ok (y, r) else line_loop step e y r
  end.
Lemma line_loop_near {A} (step : A -> bytes -> res (A * bool)) e a b :
  commented a b -> (forall x c, comment c -> step x c = Ok (x, false)) -> (forall x, near_lists (e x) (e x)) ->
  forall x, near_lists (line_loop step e x a) (line_loop step e x b).
Proof.
  intros H Hs He. induction H as [|l a b H IH|c l a b Hc Ha H IH|c b Hc H IH]; intros x.
  - apply He.
  - cbn [line_loop]. destruct (step x l) as [[y []]| | |]; cbn [bind]; [split; auto|apply IH|exact I || reflexivity..].
  - change (line_loop step e x (c :: b)) with (do '(y, stop) <- step x c; if stop : bool then Ok (y, b) else line_loop step e y b).
    rewrite Hs by assumption. apply IH.
  - change (line_loop step e x (c :: b)) with (do '(y, stop) <- step x c; if stop : bool then Ok (y, b) else line_loop step e y b).
    rewrite Hs by assumption. apply IH.
Qed.
Lemma tfaces_is F ts ls : tfaces_loop F ts ls = line_loop (tface_line F) (fun _ => Throw ExData) ts ls.
Proof. revert ts. induction ls as [|l r IH]; intros ts; [reflexivity|]. cbn [tfaces_loop line_loop]. apply bind_ext. intros [x []] _; auto. Qed.
Lemma ilines_is F ec ls : ilines_loop F ec ls = line_loop (iline_line F) (fun x => Ok (x, [])) ec ls.
Proof. revert ec. induction ls as [|l r IH]; intros ec; [reflexivity|]. cbn [ilines_loop line_loop]. apply bind_ext. intros [x []] _; auto. Qed.
Lemma vset_is F vs ls : vset_loop F vs ls = line_loop (vset_line F) (fun _ => Throw ExData) vs ls.
Proof. revert vs. induction ls as [|l r IH]; intros vs; [reflexivity|]. cbn [vset_loop line_loop]. apply bind_ext. intros [x []] _; auto. Qed.

Lemma read_header_near s t : commented (pending s) (pending t) -> near_streams (read_header s) (read_header t).
Proof.
  intros H. unfold read_header.
  assert (K := check_near "HEADER" s t H ltac:(reflexivity) ltac:(intros l Hl; now left)).
  destruct (check_keyword "HEADER" s) as [r|e| |], (check_keyword "HEADER" t) as [q|f| |]; try contradiction; cbn [bind]; [|exact K].
  apply near_stream_loop. now apply header_loop_near.
Qed.
Lemma read_CRS_near s t : commented (pending s) (pending t) -> near_streams (read_CRS s) (read_CRS t).
Proof.
  intros H. unfold read_CRS.
  assert (K := next_near "GOCAD_ORIGINAL_COORDINATE_SYSTEM" s t H ltac:(reflexivity) ltac:(intros l Hl; right; now left)).
  destruct K as [E K]. destruct (next_if _ s) as [[l|] r], (next_if _ t) as [[k|] q]; cbn in E, K; try discriminate.
  - apply near_stream_loop. now apply crs_loop_near.
  - split; [reflexivity|assumption].
Qed.
Lemma kw_two_near kw n s t : commented (pending s) (pending t) -> no_sharp kw -> near_streams (kw_two_strings kw n s) (kw_two_strings kw n t).
Proof.
  intros H Hk. unfold kw_two_strings. apply near_bind; [now apply goto_near|]. intros l r q K. apply near_same. intros x. split; auto.
Qed.
Lemma kw_double_near F kw n s t : commented (pending s) (pending t) -> no_sharp kw -> near_streams (kw_one_double F kw n s) (kw_one_double F kw n t).
Proof.
  intros H Hk. unfold kw_one_double. apply near_bind; [now apply goto_near|]. intros l r q K. apply near_same. intros x. split; auto.
Qed.
Lemma kw_index_near kw n s t : commented (pending s) (pending t) -> no_sharp kw -> near_streams (kw_one_index kw n s) (kw_one_index kw n t).
Proof.
  intros H Hk. unfold kw_one_index. apply near_bind; [now apply goto_near|]. intros l r q K. apply near_same. intros x. split; auto.
Qed.
Lemma kw_string_near kw n s t : commented (pending s) (pending t) -> no_sharp kw -> near_streams (kw_one_string kw n s) (kw_one_string kw n t).
Proof.
  intros H Hk. unfold kw_one_string. apply near_bind; [now apply goto_near|]. intros l r q K. apply near_same. intros x.
  apply near_same. intros y. split; auto.
Qed.
Lemma read_prop_near F s t : commented (pending s) (pending t) -> near_streams (read_prop_header F [] s) (read_prop_header F [] t).
Proof.
  intros H. unfold read_prop_header. cbn [app].
  assert (K := next_near "PROPERTIES" s t H ltac:(reflexivity) ltac:(intros l Hl; right; now right)).
  destruct K as [E K]. destruct (next_if _ s) as [[l|] r], (next_if _ t) as [[k|] q]; cbn in E, K; try discriminate.
  2: { split; [reflexivity|assumption]. }
  injection E as <-. apply near_same. intros sl. cbv zeta. destruct (Nat.eqb _ 0); [split; auto|].
  apply near_same. intros names.
  apply near_bind; [now apply kw_two_near|]. intros ranges r1 q1 K1.
  apply near_bind; [now apply kw_double_near|]. intros ndvs r2 q2 K2.
  apply near_bind; [now apply kw_string_near|]. intros classes r3 q3 K3.
  apply near_bind; [now apply kw_string_near|]. intros kinds r4 q4 K4.
  apply near_bind; [now apply kw_two_near|]. intros subs r5 q5 K5.
  apply near_bind; [now apply kw_index_near|]. intros esizes r6 q6 K6.
  apply near_bind; [now apply kw_string_near|]. intros units r7 q7 K7. split; auto.
Qed.
Lemma read_tsurf_near F s t : commented (pending s) (pending t) -> near_streams (read_tsurf F s) (read_tsurf F t).
Proof.
  intros H. unfold read_tsurf. destruct (goto_if_near "GOCAD TSurf" s t H ltac:(reflexivity)) as [E K].
  destruct (goto_if _ s) as [[l|] r], (goto_if _ t) as [[k|] q]; cbn in E, K; try discriminate; [|split; auto].
  apply near_bind; [now apply read_header_near|]. intros name r1 q1 K1.
  apply near_bind; [now apply read_CRS_near|]. intros crs r2 q2 K2.
  apply near_bind; [now apply read_prop_near|]. intros props r3 q3 K3. cbv zeta.
  apply near_bind; [|intros ts r4 q4 K4; split; auto].
  unfold read_tfaces. apply near_bind; [now apply goto_near|]. intros l0 r4 q4 K4.
  apply near_stream_loop. rewrite !tfaces_is. apply line_loop_near; [assumption|intros; now apply tface_skip|reflexivity].
Qed.
Lemma read_ecurve_near F s t : commented (pending s) (pending t) -> near_streams (read_ecurve F s) (read_ecurve F t).
Proof.
  intros H. unfold read_ecurve. destruct (goto_if_near "GOCAD PLine" s t H ltac:(reflexivity)) as [E K].
  destruct (goto_if _ s) as [[l|] r], (goto_if _ t) as [[k|] q]; cbn in E, K; try discriminate; [|split; auto].
  apply near_bind; [now apply read_header_near|]. intros name r1 q1 K1.
  apply near_bind; [now apply read_CRS_near|]. intros crs r2 q2 K2.
  apply near_bind; [|intros ts r4 q4 K4; split; auto].
  unfold read_ilines. apply near_bind; [now apply goto_near|]. intros l0 r4 q4 K4.
  apply near_stream_loop. rewrite !ilines_is. apply line_loop_near; [assumption|intros; now apply iline_skip|split; constructor].
Qed.
Lemma read_vs_near F s t : commented (pending s) (pending t) -> near_streams (read_vs_points F s) (read_vs_points F t).
Proof.
  intros H. unfold read_vs_points. destruct (goto_if_near "GOCAD VSet" s t H ltac:(reflexivity)) as [E K].
  destruct (goto_if _ s) as [[l|] r], (goto_if _ t) as [[k|] q]; cbn in E, K; try discriminate; [|split; auto].
  apply near_bind; [now apply read_header_near|]. intros name r1 q1 K1.
  apply near_bind; [now apply read_CRS_near|]. intros crs r2 q2 K2.
  apply near_bind; [now apply read_prop_near|]. intros props r3 q3 K3. cbv zeta.
  apply near_bind; [|intros ts r4 q4 K4; split; auto].
  unfold read_VSet_vertices. apply near_bind; [apply gotos_near; [assumption|repeat constructor]|]. intros l0 r4 q4 K4.
  apply near_stream_loop. rewrite !vset_is. apply line_loop_near; [now constructor|intros; now apply vset_skip|reflexivity].
Qed.

(** ** C131 *)
Lemma read_ts_loop_near F f1 : forall f2 (m : mesh F tri) s t, commented (pending s) (pending t) ->
  (List.length (pending s) < f1)%nat -> (List.length (pending t) < f2)%nat -> read_ts_loop f2 m t = read_ts_loop f1 m s.
Proof.
  induction f1 as [|f1 IH]; intros f2 m s t H L1 L2; [lia|]. destruct f2 as [|f2]; [lia|]. cbn [read_ts_loop].
  pose proof (read_tsurf_near F s t H) as K.
  destruct (read_tsurf F s) as [[o r]|e| |] eqn:E1, (read_tsurf F t) as [[o' q]|e'| |] eqn:E2; cbn [near_streams] in K; try contradiction; try (now subst).
  - destruct K as [<- K]. cbn [bind]. destruct o as [ts|]; [|reflexivity]. apply bind_ext. intros m1 _.
    apply read_tsurf_suffix in E1 as [l1 E1]. apply (suffix_strict l1 _ _ tt) in E1.
    apply read_tsurf_suffix in E2 as [l2 E2]. apply (suffix_strict l2 _ _ tt) in E2. apply IH; [assumption|lia|lia].
Qed.
Lemma read_pl_loop_near F f1 : forall f2 (m : mesh F edge) s t, commented (pending s) (pending t) ->
  (List.length (pending s) < f1)%nat -> (List.length (pending t) < f2)%nat -> read_pl_loop f2 m t = read_pl_loop f1 m s.
Proof.
  induction f1 as [|f1 IH]; intros f2 m s t H L1 L2; [lia|]. destruct f2 as [|f2]; [lia|]. cbn [read_pl_loop].
  pose proof (read_ecurve_near F s t H) as K.
  destruct (read_ecurve F s) as [[o r]|e| |] eqn:E1, (read_ecurve F t) as [[o' q]|e'| |] eqn:E2; cbn [near_streams] in K; try contradiction; try (now subst).
  - destruct K as [<- K]. cbn [bind]. destruct o as [ts|]; [|reflexivity]. apply bind_ext. intros m1 _.
    apply read_ecurve_suffix in E1 as [l1 E1]. apply (suffix_strict l1 _ _ tt) in E1.
    apply read_ecurve_suffix in E2 as [l2 E2]. apply (suffix_strict l2 _ _ tt) in E2. apply IH; [assumption|lia|lia].
Qed.
Lemma read_vs_loop_near F f1 : forall f2 (m : mesh F unit) s t, commented (pending s) (pending t) ->
  (List.length (pending s) < f1)%nat -> (List.length (pending t) < f2)%nat -> read_vs_loop f2 m t = read_vs_loop f1 m s.
Proof.
  induction f1 as [|f1 IH]; intros f2 m s t H L1 L2; [lia|]. destruct f2 as [|f2]; [lia|]. cbn [read_vs_loop].
  pose proof (read_vs_near F s t H) as K.
  destruct (read_vs_points F s) as [[o r]|e| |] eqn:E1, (read_vs_points F t) as [[o' q]|e'| |] eqn:E2; cbn [near_streams] in K; try contradiction; try (now subst).
  - destruct K as [<- K]. cbn [bind]. destruct o as [ts|]; [|reflexivity]. apply bind_ext. intros m1 _.
    apply read_vs_points_suffix in E1 as [l1 E1]. apply (suffix_strict l1 _ _ tt) in E1.
    apply read_vs_points_suffix in E2 as [l2 E2]. apply (suffix_strict l2 _ _ tt) in E2. apply IH; [assumption|lia|lia].
Qed.

(** Whatever the file, with any number of comments: the same result, be it a mesh or a failure *)
Theorem C131_comments_ignored_partial : forall (F : Num) a b, Forall is_line a -> Forall is_line b -> commented a b ->
  read_ts F (unlines b) = read_ts F (unlines a) /\
  read_pl F (unlines b) = read_pl F (unlines a) /\
  read_vs F (unlines b) = read_vs F (unlines a).
Proof.
  intros F a b Ha Hb H. unfold read_ts, read_pl, read_vs. rewrite !open_unlines by assumption. cbn [pending]. cbv zeta.
  split; [|split]; [apply read_ts_loop_near|apply read_pl_loop_near|apply read_vs_loop_near]; cbn [pending]; auto.
Qed.
Print Assumptions C131_comments_ignored_partial.

(** A curve file with a comment at every place where the theorem allows it *)
Definition plain_file : list bytes :=
  [lit "GOCAD PLine 1"; lit "HEADER {"; lit "name: c"; lit "}"; lit "GOCAD_ORIGINAL_COORDINATE_SYSTEM"; lit "ZPOSITIVE Depth";
   lit "END_ORIGINAL_COORDINATE_SYSTEM"; lit "ILINE"; lit "VRTX 1 0 0 5"; lit "VRTX 2 1 0 5"; lit "SEG 1 2"; lit "END"].
Definition with_comments : list bytes :=
  [lit "# made by hand"; lit "GOCAD PLine 1"; lit "HEADER {"; lit "# a"; lit "name: c"; lit "# b"; lit "}"; lit "GOCAD_ORIGINAL_COORDINATE_SYSTEM"; lit "#c"; lit "ZPOSITIVE Depth";
   lit "# VRTX"; lit "END_ORIGINAL_COORDINATE_SYSTEM"; lit "# d"; lit "ILINE"; lit "# VRTX 1 9 9 9"; lit "VRTX 1 0 0 5"; lit "VRTX 2 1 0 5"; lit "# SEG 2 2"; lit "SEG 1 2"; lit "# END"; lit "END"; lit "# GOCAD PLine 1"].
Lemma comment_ok c : match c with x :: _ => Ascii.eqb x "#" | [] => false end && negb (contains c "name:") &&
  negb (existsb (fun t => beq t [QUOTE]) (string_split c)) = true -> comment c.
Proof.
  rewrite !andb_true_iff, !negb_true_iff. intros [[H1 H2] H3]. split; [|split; [assumption|]].
  - destruct c as [|x r]; [discriminate|]. apply Ascii.eqb_eq in H1. subst. now exists r.
  - intros Hi. assert (existsb (fun t => beq t [QUOTE]) (string_split c) = true); [|congruence].
    apply existsb_exists. eexists. split; [exact Hi|reflexivity].
Qed.
Lemma detached l : starts_with l "HEADER" = false -> starts_with l "GOCAD_ORIGINAL_COORDINATE_SYSTEM" = false ->
  starts_with l "PROPERTIES" = false -> ~ attached l.
Proof. intros A B C [H|[H|H]]; congruence. Qed.
Lemma pl_is text n ps cs : mesh_is zz_eqb (read_pl ExNum text) n ps cs [] = true ->
  exists m, read_pl ExNum text = Ok m /\ m_name m = n /\ m_points m = ps /\ m_cells m = cs.
Proof. intros H. apply mesh_is_ok in H as (m & H1 & H2 & H3 & H4 & _); [|apply zz_eqb_ok]. exists m. auto. Qed.
Example C131_example : commented plain_file with_comments /\
  exists m, read_pl ExNum (unlines with_comments) = Ok m /\ m_name m = Some (lit "c") /\ m_points m = [(0, 0, -5); (1, 0, -5)] /\ m_cells m = [(0, 1)].
Proof.
  split.
  - unfold plain_file, with_comments.
    repeat (first [apply commented_nil | apply commented_line | apply commented_before; [apply comment_ok; vm_compute; reflexivity|apply detached; vm_compute; reflexivity|]
                  | apply commented_end; [apply comment_ok; vm_compute; reflexivity|]]).
  - apply pl_is. vm_compute. reflexivity.
Qed.

(** Comments elsewhere *)
(** Before the header, the coordinate system or the properties: the file is refused, the depths are
    not negated, the properties are not read *)
Theorem C131_place_refuted : exists pre c l post, comment c /\ attached l /\
  (exists m, read_pl ExNum (unlines (pre ++ l :: post)) = Ok m) /\
  read_pl ExNum (unlines (pre ++ c :: l :: post)) <> read_pl ExNum (unlines (pre ++ l :: post)).
Proof.
  exists [lit "GOCAD PLine 1"; lit "HEADER {"; lit "name: c"; lit "}"], (lit "# coordinates"), (lit "GOCAD_ORIGINAL_COORDINATE_SYSTEM"),
    (lit "ZPOSITIVE Depth" :: skipn 6 plain_file).
  split; [apply comment_ok; vm_compute; reflexivity|]. split; [right; left; reflexivity|].
  assert (H1 : exists m, read_pl ExNum (unlines ([lit "GOCAD PLine 1"; lit "HEADER {"; lit "name: c"; lit "}"] ++ lit "GOCAD_ORIGINAL_COORDINATE_SYSTEM" :: lit "ZPOSITIVE Depth" :: skipn 6 plain_file)) = Ok m /\
    m_name m = Some (lit "c") /\ m_points m = [(0, 0, -5); (1, 0, -5)] /\ m_cells m = [(0, 1)]) by (apply pl_is; vm_compute; reflexivity).
  assert (H2 : exists m, read_pl ExNum (unlines ([lit "GOCAD PLine 1"; lit "HEADER {"; lit "name: c"; lit "}"] ++ lit "# coordinates" :: lit "GOCAD_ORIGINAL_COORDINATE_SYSTEM" :: lit "ZPOSITIVE Depth" :: skipn 6 plain_file)) = Ok m /\
    m_name m = Some (lit "c") /\ m_points m = [(0, 0, 5); (1, 0, 5)] /\ m_cells m = [(0, 1)]) by (apply pl_is; vm_compute; reflexivity).
  destruct H1 as (m1 & E1 & _ & P1 & _), H2 as (m2 & E2 & _ & P2 & _). split; [now exists m1|].
  intros H. rewrite E1, E2 in H. injection H as H. rewrite H, P1 in P2. discriminate.
Qed.
Print Assumptions C131_place_refuted.
(** A commented name in the header replaces the name *)
Theorem C131_name_refuted : exists pre c l post, (exists r, c = "#"%char :: r) /\ ~ attached l /\
  (exists m, read_pl ExNum (unlines (pre ++ l :: post)) = Ok m /\ m_name m = Some (lit "c")) /\
  (exists m, read_pl ExNum (unlines (pre ++ c :: l :: post)) = Ok m /\ m_name m = Some (lit "old")).
Proof.
  exists [lit "GOCAD PLine 1"; lit "HEADER {"; lit "name: c"], (lit "# previous name: old"), (lit "}"), (skipn 4 plain_file).
  split; [now eexists|]. split; [apply detached; vm_compute; reflexivity|].
  split.
  - destruct (pl_is (unlines plain_file) (Some (lit "c")) [(0, 0, -5); (1, 0, -5)] [(0, 1)]) as (m & H & Hn & _); [vm_compute; reflexivity|].
    exists m. split; assumption.
  - destruct (pl_is (unlines ([lit "GOCAD PLine 1"; lit "HEADER {"; lit "name: c"] ++ lit "# previous name: old" :: lit "}" :: skipn 4 plain_file))
      (Some (lit "old")) [(0, 0, -5); (1, 0, -5)] [(0, 1)]) as (m & H & Hn & _); [vm_compute; reflexivity|].
    exists m. split; assumption.
Qed.
Print Assumptions C131_name_refuted.
(** A lone quote in a comment of the coordinate system is undefined behaviour *)
Theorem C131_quote_refuted : exists pre c l post, (exists r, c = "#"%char :: r) /\ ~ attached l /\
  (exists m, read_pl ExNum (unlines (pre ++ l :: post)) = Ok m) /\
  read_pl ExNum (unlines (pre ++ c :: l :: post)) = UB.
Proof.
  exists [lit "GOCAD PLine 1"; lit "HEADER {"; lit "name: c"; lit "}"; lit "GOCAD_ORIGINAL_COORDINATE_SYSTEM"], (lit "# " ++ [QUOTE]), (lit "ZPOSITIVE Depth"), (skipn 6 plain_file).
  split; [eexists; reflexivity|]. split; [apply detached; vm_compute; reflexivity|].
  split; [|apply is_UB_ok; vm_compute; reflexivity].
  destruct (pl_is (unlines plain_file) (Some (lit "c")) [(0, 0, -5); (1, 0, -5)] [(0, 1)]) as (m & H & _); [vm_compute; reflexivity|].
  exists m. exact H.
Qed.
Print Assumptions C131_quote_refuted.
