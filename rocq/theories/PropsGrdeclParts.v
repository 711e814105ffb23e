(** * Which GRDECL files are loaded when sections are in other files (C148). *)
From Coq Require Import ZArith List Lia Bool Ascii String.
From Verif Require Import Base Text TextFacts GrdeclModel PropsVo PropsVoOut PropsGrdecl PropsGrdeclGrid ExNum ExCheck.
Import ListNotations.
Local Open Scope string_scope.
Local Open Scope list_scope.
Local Open Scope Z_scope.

(** ** Specification *)

(** The line after an INCLUDE line.  Cut at the underscores; a part that has a dot announces the keyword before
    its first dot.  The file is the first word of the line without its two quotes. *)
Definition part_of (c : ascii) (p l : bytes) : Prop :=
  no_char c p /\ exists a b, l = a ++ p ++ b /\ (a = [] \/ exists a', a = a' ++ [c]) /\ (b = [] \/ exists b', b = c :: b').
Definition unquoted (w f : bytes) : Prop := (exists q q', w = q :: f ++ [q']) \/ (exists q, w = [q] /\ f = []).
Definition announces (line key file : bytes) : Prop :=
  exists ext w ws, part_of UNDERSCORE (key ++ DOT :: ext) line /\ no_char DOT key /\ string_split line = w :: ws /\ unquoted w file.
(** The lines after the INCLUDE lines, and what comes after the last of them.  When the file ends on an INCLUDE line,
    an empty line follows, or that line itself is used again when no end of line closes it. *)
Inductive included (nl : bool) : list bytes -> list bytes -> list bytes -> Prop :=
| I_none ls : before "INCLUDE" ls -> included nl ls [] ls
| I_more a i n r names tail : before "INCLUDE" a -> starts_with i "INCLUDE" = true -> included nl r names tail ->
    included nl (a ++ i :: n :: r) (n :: names) tail
| I_last a i : before "INCLUDE" a -> starts_with i "INCLUDE" = true -> included nl (a ++ [i]) [if nl then [] else i] [].
(** The last of these lines that announces the keyword gives the file. *)
Definition announced (names : list bytes) (key file : bytes) : Prop :=
  exists n1 n n2, names = n1 ++ n :: n2 /\ announces n key file /\ forall x f, In x n2 -> ~ announces x key f.
Definition unannounced (names : list bytes) (key : bytes) : Prop := forall n f, In n names -> ~ announces n key f.
(** A section is in its own file when one is announced; otherwise it is in the lines [ls], and [rest] follows it. *)
Definition section_in (files : bytes -> option bytes) (names : list bytes) (key : bytes)
    (sec : list bytes -> list bytes -> Prop) (ls rest : list bytes) : Prop :=
  (exists f t r, announced names key f /\ files f = Some t /\ sec (pending (open_text t)) r /\ rest = ls) \/
  (unannounced names key /\ sec ls rest).
(** The three parts of a grid: dimensions, pillars, depths. *)
Definition grid_in (F : Num) (files : bytes -> option bytes) (text : bytes) (nx ny nz : Z) (ps : list (pillar F)) (ds : list (num F)) : Prop :=
  exists rest0 names tail rest1 rest2,
    size_section nx ny nz (pending (open_text text)) rest0 /\
    included (nl (open_text text)) rest0 names tail /\
    section_in files names "COORD" (pillar_section F ps) tail rest1 /\
    section_in files names "ZCORN" (zcorn_block F ds) rest1 rest2.

(** ** The names of the files *)
Lemma in_split_char c l : forall cur, no_char c cur -> forall t,
  In t (split_char c cur l) <-> no_char c t /\
    ((exists t', t = cur ++ t' /\ exists b, l = t' ++ b /\ (b = [] \/ exists b', b = c :: b')) \/
     (exists a b, l = a ++ c :: t ++ b /\ (b = [] \/ exists b', b = c :: b'))).
Proof.
  induction l as [|x l IH]; intros cur Hc t; cbn [split_char].
  - split.
    + intros [<-|[]]. split; [exact Hc|]. left. exists []. rewrite app_nil_r. split; [reflexivity|]. exists []. auto.
    + intros [_ [(t' & -> & b & E & _)|(a & b & E & _)]]; [|now destruct a].
      symmetry in E. apply app_eq_nil in E as [-> _]. rewrite app_nil_r. now left.
  - destruct (Ascii.eqb_spec x c) as [->|Hx].
    + cbn [In]. rewrite (IH [] (Forall_nil _) t). split.
      * intros [<-|[Ht [(t' & -> & b & -> & Hb)|(a & b & -> & Hb)]]].
        -- split; [exact Hc|]. left. exists []. rewrite app_nil_r. split; [reflexivity|]. exists (c :: l). split; [reflexivity|]. right. eauto.
        -- split; [exact Ht|]. right. exists [], b. auto.
        -- split; [exact Ht|]. right. exists (c :: a), b. auto.
      * intros [Ht [(t' & -> & b & E & Hb)|(a & b & E & Hb)]].
        -- destruct t' as [|y t'].
           ++ left. now rewrite app_nil_r.
           ++ exfalso. injection E as <- _. apply Forall_app in Ht as [_ Ht]. now inversion Ht.
        -- right. split; [exact Ht|]. destruct a as [|y a].
           ++ injection E as ->. left. exists t. split; [reflexivity|]. exists b. auto.
           ++ injection E as <- ->. right. exists a, b. auto.
    + assert (Hc' : no_char c (cur ++ [x])) by (apply Forall_app; split; [exact Hc|constructor; [exact Hx|constructor]]).
      rewrite (IH _ Hc' t). split.
      * intros [Ht [(t' & -> & b & -> & Hb)|(a & b & -> & Hb)]]; (split; [exact Ht|]).
        -- left. exists (x :: t'). split; [now rewrite <- app_assoc|]. exists b. auto.
        -- right. exists (x :: a), b. auto.
      * intros [Ht [(t' & -> & b & E & Hb)|(a & b & E & Hb)]]; (split; [exact Ht|]).
        -- destruct t' as [|y t'].
           ++ cbn [app] in E. exfalso. destruct Hb as [->|[b' ->]]; [discriminate E|]. injection E as -> _. now apply Hx.
           ++ injection E as <- ->. left. exists t'. split; [now rewrite <- app_assoc|]. exists b. auto.
        -- destruct a as [|y a]; [injection E as -> _; now elim Hx|]. injection E as <- ->. right. exists a, b. auto.
Qed.
Lemma in_parts c l t : In t (split_char c [] l) <-> part_of c t l.
Proof.
  rewrite (in_split_char c l [] (Forall_nil _) t). unfold part_of. split.
  - intros [Ht [(t' & -> & b & -> & Hb)|(a & b & -> & Hb)]]; (split; [exact Ht|]).
    + exists [], b. auto.
    + exists (a ++ [c]), b. rewrite <- app_assoc. split; [reflexivity|]. split; [right; eauto|exact Hb].
  - intros [Ht (a & b & -> & [->|[a' ->]] & Hb)]; (split; [exact Ht|]).
    + left. exists t. split; [reflexivity|]. exists b. auto.
    + right. exists a', b. rewrite <- app_assoc. auto.
Qed.
Lemma front_split_char c l : forall cur, In c l -> exists a b, l = a ++ c :: b /\ no_char c a /\ front (split_char c cur l) = Ok (cur ++ a).
Proof.
  induction l as [|x l IH]; intros cur H; [destruct H|]. cbn [split_char]. destruct (Ascii.eqb_spec x c) as [->|Hx].
  - exists [], l. rewrite app_nil_r. repeat split. constructor.
  - destruct H as [->|H]; [now elim Hx|]. destruct (IH (cur ++ [x]) H) as (a & b & -> & Ha & E). exists (x :: a), b.
    split; [reflexivity|]. split; [now constructor|]. rewrite E, <- app_assoc. reflexivity.
Qed.
Lemma first_unique c (a b a' b' : bytes) : no_char c a -> no_char c a' -> a ++ c :: b = a' ++ c :: b' -> a = a'.
Proof.
  intros Ha. revert a'. induction Ha as [|x a Hx _ IH]; intros a' Ha' E; destruct Ha' as [|y a' Hy Ha']; [reflexivity| | |].
  - injection E as -> _. now elim Hy.
  - injection E as -> _. now elim Hx.
  - injection E as -> E. f_equal. eauto.
Qed.
Lemma contains_dot t : contains t "." = true <-> In DOT t.
Proof.
  change (lit ".") with [DOT]. rewrite contains_char. rewrite existsb_exists. split.
  - intros (x & H & E). apply Ascii.eqb_eq in E as <-. exact H.
  - intros H. exists DOT. split; [exact H|apply Ascii.eqb_refl].
Qed.
(** A line with a dot has a word. *)
Lemma drop_while_keeps p l c : p c = false -> In c l -> In c (drop_while p l).
Proof.
  intros Hc. induction l as [|x l IH]; [easy|]. cbn [drop_while]. intros H. destruct (p x) eqn:E; [|exact H].
  destruct H as [->|H]; [congruence|auto].
Qed.
Lemma split_run_some l : forall cur, cur <> [] \/ (exists c, In c l /\ is_sep c = false) -> split_run cur l <> [].
Proof.
  induction l as [|x l IH]; intros cur H; cbn [split_run].
  - destruct H as [H|[c [[] _]]]. destruct cur; [easy|discriminate].
  - destruct (is_sep x) eqn:E.
    + destruct cur as [|y cur]; [|discriminate]. cbn [flush app]. apply IH. right.
      destruct H as [H|(c & [->|H] & Hc)]; [easy|congruence|eauto].
    + apply IH. left. destruct cur; discriminate.
Qed.
Lemma split_run_ne l : forall cur w, In w (split_run cur l) -> w <> [].
Proof.
  assert (Fl : forall cur w, In w (flush cur) -> w <> []) by (intros [|x cur] w; cbn; [easy|intros [<-|[]]; discriminate]).
  induction l as [|x l IH]; intros cur w; cbn [split_run]; [apply Fl|].
  destruct (is_sep x); [|apply IH]. intros H. apply in_app_or in H as [H|H]; [exact (Fl _ _ H)|exact (IH _ _ H)].
Qed.
Lemma dot_word l : In DOT l -> exists w ws, string_split l = w :: ws.
Proof.
  intros H. assert (S0 : string_split l <> []).
  { unfold string_split, words. apply split_run_some. right. exists DOT. split; [|reflexivity].
    unfold strip. apply drop_while_keeps; [reflexivity|]. rewrite <- in_rev. apply drop_while_keeps; [reflexivity|]. now rewrite <- in_rev. }
  destruct (string_split l); [easy|eauto].
Qed.
Lemma without_ends_ok w : w <> [] -> unquoted w (without_ends w).
Proof.
  destruct w as [|q t]; [easy|]. intros _. cbn [without_ends]. destruct t as [|x t].
  - right. exists q. auto.
  - left. exists q. exists (last (x :: t) x). f_equal. apply app_removelast_last. discriminate.
Qed.
Lemma unquoted_one w f g : unquoted w f -> unquoted w g -> f = g.
Proof.
  intros [(q & q' & ->)|(q & -> & ->)] [(p & p' & E)|(p & E & ->)]; try reflexivity.
  - injection E as _ E. now apply app_inj_tail in E.
  - injection E as _ E. destruct f; discriminate E.
  - injection E as _ E. destruct g; discriminate E.
Qed.
Lemma announces_one l k f g : announces l k f -> announces l k g -> f = g.
Proof. intros (e & w & ws & _ & _ & E & U) (e' & w' & ws' & _ & _ & E' & U'). rewrite E in E'. injection E' as <- <-. eapply unquoted_one; eauto. Qed.

Lemma tokens_spec line toks : (forall t, In t toks -> In DOT t -> In DOT line) -> forall m, exists m',
  foldM (include_token line) toks m = Ok m' /\ forall k,
    (exists ext w ws, In (k ++ DOT :: ext) toks /\ no_char DOT k /\ string_split line = w :: ws /\ lookup k m' = Some (without_ends w)) \/
    ((forall ext, In (k ++ DOT :: ext) toks -> ~ no_char DOT k) /\ lookup k m' = lookup k m).
Proof.
  induction toks as [|t toks IH]; intros HD m.
  - exists m. split; [reflexivity|]. intros k. right. split; [intros ext []|reflexivity].
  - cbn [foldM]. unfold include_token at 1. destruct (contains t ".") eqn:E.
    + apply contains_dot in E. destruct (dot_word line (HD t (or_introl eq_refl) E)) as (w & ws & EW).
      destruct (front_split_char DOT t [] E) as (a & b & Et & Ha & Ef). change "."%char with DOT. rewrite Ef, EW. cbn [bind front app].
      destruct (IH (fun x H => HD x (or_intror H)) ((a, without_ends w) :: m)) as (m' & Em & Hm). exists m'. split; [exact Em|].
      intros k. destruct (Hm k) as [(ext & w' & ws' & H1 & H2 & H3 & H4)|[H1 H2]].
      * left. exists ext, w', ws'. split; [now right|]. rewrite <- EW. auto.
      * cbn [lookup] in H2. destruct (beq k a) eqn:B.
        -- apply beq_eq in B as ->. left. exists b, w, ws. split; [left; now rewrite Et|]. auto.
        -- right. split; [|exact H2]. intros ext [Hk|Hk] N; [|exact (H1 ext Hk N)].
           rewrite Et in Hk. apply (first_unique DOT a b k ext Ha N) in Hk as ->. rewrite beq_refl in B. discriminate B.
    + destruct (IH (fun x H => HD x (or_intror H)) m) as (m' & Em & Hm). exists m'. split; [exact Em|].
      intros k. destruct (Hm k) as [(ext & w' & ws' & H1 & H2 & H3 & H4)|[H1 H2]].
      * left. exists ext, w', ws'. split; [now right|]. auto.
      * right. split; [|exact H2]. intros ext [Hk|Hk] N; [|exact (H1 ext Hk N)].
        assert (X : contains t "." = true) by (apply contains_dot; rewrite Hk; apply in_or_app; right; now left). congruence.
Qed.
Lemma include_line_spec line m : exists m', include_line line m = Ok m' /\ forall k,
  (exists f, announces line k f /\ lookup k m' = Some f) \/ ((forall f, ~ announces line k f) /\ lookup k m' = lookup k m).
Proof.
  destruct (tokens_spec line (split_char "_" [] line)) with (m := m) as (m' & Em & Hm).
  { intros t Ht Hd. change "_"%char with UNDERSCORE in Ht. apply in_parts in Ht as [_ (a & b & -> & _)].
    apply in_or_app. right. apply in_or_app. now left. }
  exists m'. split; [exact Em|]. intros k. destruct (Hm k) as [(ext & w & ws & H1 & H2 & H3 & H4)|[H1 H2]].
  - left. exists (without_ends w). split; [|exact H4]. exists ext, w, ws. change "_"%char with UNDERSCORE in H1. apply in_parts in H1.
    split; [exact H1|]. split; [exact H2|]. split; [exact H3|]. apply without_ends_ok. intros ->.
    apply (split_run_ne (strip line) [] []); [|reflexivity]. fold (words (strip line)). fold (string_split line). rewrite H3. now left.
  - right. split; [|exact H2]. intros f (ext & w & ws & P & N & _ & _). apply in_parts in P. change UNDERSCORE with "_"%char in P. exact (H1 ext P N).
Qed.

(** ** The list of the included files *)
Lemma announced_cons x names k f : announced (x :: names) k f <-> announced names k f \/ (unannounced names k /\ announces x k f).
Proof.
  split.
  - intros (n1 & n & n2 & E & A & U). destruct n1 as [|y n1]; injection E as <- ->.
    + right. split; [intros z g Hz; now apply U|exact A].
    + left. exists n1, n, n2. auto.
  - intros [(n1 & n & n2 & -> & A & U)|[U A]]; [exists (x :: n1), n, n2; auto|exists [], x, names; auto].
Qed.
Lemma announced_not names k f : announced names k f -> unannounced names k -> False.
Proof. intros (n1 & n & n2 & -> & A & _) U. apply (U n f); [apply in_or_app; right; now left|exact A]. Qed.
Lemma announced_one names k f g : announced names k f -> announced names k g -> f = g.
Proof.
  induction names as [|x names IH].
  - intros (n1 & n & n2 & E & _). now destruct n1.
  - rewrite !announced_cons. intros [A|[U A]] [B|[V B]]; auto.
    + elim (announced_not _ _ _ A V).
    + elim (announced_not _ _ _ B U).
    + exact (announces_one _ _ _ _ A B).
Qed.
Definition found (names : list bytes) (m m' : list (bytes * bytes)) : Prop := forall k,
  (exists f, announced names k f /\ lookup k m' = Some f) \/ (unannounced names k /\ lookup k m' = lookup k m).
Lemma found_cons n names m m1 m' : (forall k, (exists f, announces n k f /\ lookup k m1 = Some f) \/ ((forall f, ~ announces n k f) /\ lookup k m1 = lookup k m)) ->
  found names m1 m' -> found (n :: names) m m'.
Proof.
  intros H1 H2 k. destruct (H2 k) as [(f & A & E)|[U E]].
  - left. exists f. split; [|exact E]. apply announced_cons. now left.
  - destruct (H1 k) as [(f & A & E1)|[N E1]].
    + left. exists f. split; [|congruence]. apply announced_cons. now right.
    + right. split; [|congruence]. intros x f [<-|Hx]; [apply N|now apply U].
Qed.
Lemma includes_last b a i back m : before "INCLUDE" a -> starts_with i "INCLUDE" = true ->
  includes b (a ++ [i]) back m = do m' <- include_line (if b then [] else i) m; Ok (m', []).
Proof. intros H Hi. induction H as [|x a Hx _ IH]; cbn [app includes]; [now rewrite Hi|now rewrite Hx]. Qed.
Lemma includes_of b ls names tail : included b ls names tail -> forall m, exists m', includes b ls ls m = Ok (m', tail) /\ found names m m'.
Proof.
  induction 1 as [ls H|a i n r names tail Ha Hi _ IH|a i Ha Hi]; intros m.
  - exists m. split; [now apply includes_none|]. intros k. right. split; [intros n f []|reflexivity].
  - destruct (include_line_spec n m) as (m1 & E1 & H1). destruct (IH m1) as (m' & E2 & H2). exists m'.
    split; [rewrite (includes_step b a i n r _ m m1 Ha Hi E1); exact E2|]. eapply found_cons; eauto.
  - destruct (include_line_spec (if b then [] else i) m) as (m1 & E1 & H1). exists m1. rewrite includes_last by assumption. rewrite E1. split; [reflexivity|].
    eapply found_cons; [exact H1|]. intros k. right. split; [intros n f []|reflexivity].
Qed.
Lemma included_any b n : forall ls, (List.length ls < n)%nat -> exists names tail, included b ls names tail.
Proof.
  induction n as [|n IH]; intros ls Hn; [lia|].
  assert (D : before "INCLUDE" ls \/ exists a i r, ls = a ++ i :: r /\ before "INCLUDE" a /\ starts_with i "INCLUDE" = true).
  { clear. induction ls as [|l ls IH]; [left; constructor|]. destruct (starts_with l "INCLUDE") eqn:E.
    - right. exists [], l, ls. repeat split; auto. constructor.
    - destruct IH as [IH|(a & i & r & -> & Ha & Hi)]; [left; now constructor|right]. exists (l :: a), i, r. repeat split; auto. now constructor. }
  destruct D as [D|(a & i & r & -> & Ha & Hi)]; [exists [], ls; now constructor|].
  destruct r as [|l r]; [exists [if b then [] else i], []; now apply I_last|].
  destruct (IH r) as (names & tail & H).
  { rewrite app_length in Hn. cbn in Hn. lia. }
  exists (l :: names), tail. now apply I_more.
Qed.

(** ** C148 *)
Section Load.
Context (F : Num) (A : Arith F) (coloc : list (gpoint F) -> list Z * list (gpoint F)) (files : bytes -> option bytes).
Context (nx ny nz : Z) (Hx : 1 <= nx) (Hy : 1 <= ny) (Hz : 1 <= nz) (Hs : 8 * nx * ny * nz < two32).
Lemma depths_exact : depths_cap nx ny nz = 8 * nx * ny * nz.
Proof. unfold depths_cap. apply wrap32_small. nia. Qed.
Lemma empty_section kw sec rest : ~ block kw sec [] rest.
Proof. intros (pre & kl & dl & sl & E & _). now destruct pre. Qed.
(** Reading a section from the announced file or from the rest of the file. *)
Lemma pillars_part names m tail b ps s1 : found names [] m ->
  match lookup "COORD" m with
  | Some f => do '(ps, _) <- read_pillars F nx ny (other_file files f); Ok (ps, mkStream tail b)
  | None => read_pillars F nx ny (mkStream tail b)
  end = Ok (ps, s1) <->
  nl s1 = b /\ section_in files names "COORD" (pillar_section F ps) tail (pending s1) /\ Z.of_nat (List.length ps) <= (nx + 1) * (ny + 1).
Proof.
  intros Hf. assert (Cap : pillars_cap nx ny = (nx + 1) * (ny + 1)) by (eapply cap_exact; eauto).
  destruct (Hf "COORD") as [(f & An & ->)|[Un ->]]; cbn [lookup].
  - split.
    + intros H. apply bind_inv in H as [[ps' s2] [Hp E]]. assert (ps' = ps /\ s1 = mkStream tail b) as [-> ->] by (split; congruence).
      apply read_pillars_iff in Hp as (Hp & _ & C). cbn [pending nl]. split; [reflexivity|].
      unfold other_file in Hp. destruct (files f) as [t|] eqn:Ef; [|elim (empty_section _ _ _ Hp)].
      split; [left; exists f, t, (pending s2); auto|]. destruct C as [->|C]; [cbn; nia|lia].
    + intros (N & [(f' & t & r & An' & Ef & Hp & E)|[Un _]] & C); [|elim (announced_not _ _ _ An Un)].
      assert (f' = f) as -> by (eapply announced_one; eauto). unfold other_file. rewrite Ef.
      rewrite (proj2 (read_pillars_iff F nx ny (open_text t) ps (mkStream r (nl (open_text t))))).
      2:{ cbn [pending nl]. rewrite Cap. auto. }
      cbn [bind]. destruct s1 as [q n]. cbn [pending nl] in *. now subst.
  - rewrite read_pillars_iff. cbn [pending nl]. rewrite Cap. split.
    + intros (Hp & N & C). split; [exact N|]. split; [right; auto|]. destruct C as [->|C]; [cbn; nia|exact C].
    + intros (N & [(f' & _ & _ & An & _)|[_ Hp]] & C); [elim (announced_not _ _ _ An Un)|auto].
Qed.
Lemma depths_part names m tail b ds s1 : found names [] m ->
  match lookup "ZCORN" m with
  | Some f => do '(ds, _) <- read_depths F nx ny nz (other_file files f); Ok (ds, mkStream tail b)
  | None => read_depths F nx ny nz (mkStream tail b)
  end = Ok (ds, s1) <->
  nl s1 = b /\ section_in files names "ZCORN" (zcorn_block F ds) tail (pending s1) /\ Z.of_nat (List.length ds) <= 8 * nx * ny * nz.
Proof.
  intros Hf. destruct (Hf "ZCORN") as [(f & An & ->)|[Un ->]]; cbn [lookup].
  - split.
    + intros H. apply bind_inv in H as [[ds' s2] [Hp E]]. assert (ds' = ds /\ s1 = mkStream tail b) as [-> ->] by (split; congruence).
      apply read_depths_iff in Hp as (Hp & _ & C). cbn [pending nl]. split; [reflexivity|].
      unfold other_file in Hp. destruct (files f) as [t|] eqn:Ef; [|elim (empty_section _ _ _ Hp)].
      split; [left; exists f, t, (pending s2); auto|]. now rewrite depths_exact in C.
    + intros (N & [(f' & t & r & An' & Ef & Hp & E)|[Un _]] & C); [|elim (announced_not _ _ _ An Un)].
      assert (f' = f) as -> by (eapply announced_one; eauto). unfold other_file. rewrite Ef.
      rewrite (proj2 (read_depths_iff F nx ny nz (open_text t) ds (mkStream r (nl (open_text t))))).
      2:{ cbn [pending nl]. rewrite depths_exact. auto. }
      cbn [bind]. destruct s1 as [q n]. cbn [pending nl] in *. now subst.
  - rewrite read_depths_iff. cbn [pending nl]. rewrite depths_exact. split.
    + intros (Hp & N & C). split; [exact N|]. split; [right; auto|exact C].
    + intros (N & [(f' & _ & _ & An & _)|[_ Hp]] & C); [elim (announced_not _ _ _ An Un)|auto].
Qed.
(** The file gives these pillars and depths: what is built. *)
Lemma grid_read text ps ds : grid_in F files text nx ny nz ps ds -> Z.of_nat (List.length ps) <= (nx + 1) * (ny + 1) ->
  Z.of_nat (List.length ds) <= 8 * nx * ny * nz -> read_grdecl F A coloc files text = create_cells F A coloc nx ny nz ps ds.
Proof.
  intros (rest0 & names & tail & rest1 & rest2 & D & I & P & Z0) Lp Ld. unfold read_grdecl.
  rewrite (proj2 (read_dimensions_iff (open_text text) nx ny nz (mkStream rest0 (nl (open_text text))))) by auto.
  cbn [bind pending nl]. destruct (includes_of _ _ _ _ I []) as (m & E & Hf). rewrite E. cbn [bind].
  rewrite (proj2 (pillars_part names m tail (nl (open_text text)) ps (mkStream rest1 (nl (open_text text))) Hf)) by auto. cbn [bind].
  rewrite (proj2 (depths_part names m rest1 (nl (open_text text)) ds (mkStream rest2 (nl (open_text text))) Hf)) by auto. reflexivity.
Qed.
Lemma read_grid text rest0 r : size_section nx ny nz (pending (open_text text)) rest0 -> read_grdecl F A coloc files text = Ok r ->
  exists ps ds, grid_in F files text nx ny nz ps ds /\ Z.of_nat (List.length ps) <= (nx + 1) * (ny + 1) /\ Z.of_nat (List.length ds) = 8 * nx * ny * nz.
Proof.
  intros D H. unfold read_grdecl in H.
  rewrite (proj2 (read_dimensions_iff (open_text text) nx ny nz (mkStream rest0 (nl (open_text text))))) in H by auto.
  cbn [bind pending nl] in H. destruct (included_any (nl (open_text text)) (Datatypes.S (List.length rest0)) rest0) as (names & tail & I); [lia|].
  destruct (includes_of _ _ _ _ I []) as (m & E & Hf). rewrite E in H. cbn [bind] in H.
  apply bind_inv in H as [[ps s1] [Hp H]]. apply (pillars_part names m tail _ ps s1 Hf) in Hp as (N1 & P & Lp).
  apply bind_inv in H as [[ds s2] [Hd H]]. destruct s1 as [rest1 b]. cbn [pending nl] in *. subst b.
  apply (depths_part names m rest1 _ ds s2 Hf) in Hd as (N2 & Z0 & Ld). exists ps, ds. split.
  - exists rest0, names, tail, rest1, (pending s2). auto.
  - split; [exact Lp|]. apply (create_complete F A coloc nx ny nz Hs) in H; auto. lia.
Qed.
End Load.

(** Exactly which files are loaded, the sections being in the file or in files that it includes. *)
Theorem C148_loads_iff (F : Num) (A : Arith F) coloc files text nx ny nz rest0 :
  (forall pts, List.length (fst (coloc pts)) = List.length pts) ->
  size_section nx ny nz (pending (open_text text)) rest0 -> 1 <= nx -> 1 <= ny -> 1 <= nz -> 8 * nx * ny * nz < two32 ->
  (exists r, read_grdecl F A coloc files text = Ok r) <->
  (exists ps ds, grid_in F files text nx ny nz ps ds /\
     Z.of_nat (List.length ps) <= (nx + 1) * (ny + 1) /\ Z.of_nat (List.length ds) = 8 * nx * ny * nz).
Proof.
  intros Hc D Hx Hy Hz Hs. split.
  - intros [r H]. eapply read_grid; eauto.
  - intros (ps & ds & G & Lp & Ld). rewrite (grid_read F A coloc files nx ny nz Hx Hy Hz Hs text ps ds G Lp) by lia. rewrite create_padded.
    destruct (create_cells_ok F A nx ny nz Hx Hy Hz Hs (padded F nx ny ps)) with (ds := ds) (coloc := coloc) as (pts & hexas & E & _); auto.
    { unfold padded. rewrite app_length, repeat_length. nia. }
    eauto.
Qed.
Print Assumptions C148_loads_iff.

(** The grid that is loaded: the corners of each cell are on its pillars at its depths, as in C24. *)
Theorem C148_loaded_as (F : Num) (A : Arith F) coloc files text nx ny nz ps ds :
  (forall pts, List.length (fst (coloc pts)) = List.length pts) ->
  1 <= nx -> 1 <= ny -> 1 <= nz -> 8 * nx * ny * nz < two32 -> grid_in F files text nx ny nz ps ds ->
  Z.of_nat (List.length ps) = (nx + 1) * (ny + 1) -> Z.of_nat (List.length ds) = 8 * nx * ny * nz ->
  exists pts hexas, read_grdecl F A coloc files text = Ok (snd (coloc pts), hexas) /\ cells_of F A nx ny nz ps ds coloc pts hexas.
Proof.
  intros Hc Hx Hy Hz Hs G Lp Ld. rewrite (grid_read F A coloc files nx ny nz Hx Hy Hz Hs text ps ds G) by lia.
  eapply create_cells_ok; eauto.
Qed.
Print Assumptions C148_loaded_as.

(** Where the sections are does not matter: the same dimensions, pillars and depths give the same grid. *)
Theorem C148_place_does_not_matter (F : Num) (A : Arith F) coloc files text files' text' nx ny nz ps ds :
  1 <= nx -> 1 <= ny -> 1 <= nz -> 8 * nx * ny * nz < two32 ->
  grid_in F files text nx ny nz ps ds -> grid_in F files' text' nx ny nz ps ds ->
  Z.of_nat (List.length ps) <= (nx + 1) * (ny + 1) -> Z.of_nat (List.length ds) <= 8 * nx * ny * nz ->
  read_grdecl F A coloc files text = read_grdecl F A coloc files' text'.
Proof.
  intros Hx Hy Hz Hs G G' Lp Ld. rewrite (grid_read F A coloc files nx ny nz Hx Hy Hz Hs text ps ds G) by assumption.
  now rewrite (grid_read F A coloc files' nx ny nz Hx Hy Hz Hs text' ps ds G').
Qed.
Print Assumptions C148_place_does_not_matter.

(** A section that cannot be found is always noticed: its file is announced but does not exist, or no file is announced
    and the lines after the last INCLUDE do not have it (those before are not looked at any more). *)
Definition not_found (files : bytes -> option bytes) (names : list bytes) (key : bytes) (ls : list bytes) : Prop :=
  (exists f, announced names key f /\ files f = None) \/ (unannounced names key /\ before key ls).
Lemma goto_none kw ls b : before kw ls -> goto_keyword kw (mkStream ls b) = Throw ExData.
Proof.
  intros H. unfold goto_keyword, goto_if. cbn [pending]. replace (scan _ ls) with (@None (bytes * list bytes)); [reflexivity|].
  symmetry. induction H as [|x ls Hx _ IH]; [reflexivity|]. cbn [scan]. now rewrite Hx.
Qed.
Theorem C148_section_not_found (F : Num) (A : Arith F) coloc files text nx ny nz rest0 names tail :
  size_section nx ny nz (pending (open_text text)) rest0 -> included (nl (open_text text)) rest0 names tail ->
  not_found files names "COORD" tail \/
  (1 <= nx /\ 1 <= ny /\ 1 <= nz /\ 8 * nx * ny * nz < two32 /\
   exists ps rest1, section_in files names "COORD" (pillar_section F ps) tail rest1 /\
     Z.of_nat (List.length ps) <= (nx + 1) * (ny + 1) /\ not_found files names "ZCORN" rest1) ->
  read_grdecl F A coloc files text = Throw ExData.
Proof.
  intros D I H. unfold read_grdecl.
  rewrite (proj2 (read_dimensions_iff (open_text text) nx ny nz (mkStream rest0 (nl (open_text text))))) by auto.
  cbn [bind pending nl]. destruct (includes_of _ _ _ _ I []) as (m & E & Hf). rewrite E. cbn [bind].
  destruct H as [H|(Hx & Hy & Hz & Hs & ps & rest1 & P & Lp & H)].
  - destruct (Hf "COORD") as [(f & An & ->)|[Un ->]]; cbn [lookup]; destruct H as [(f' & An' & Ef)|[Un' B]].
    + assert (f' = f) as -> by (eapply announced_one; eauto). unfold other_file. rewrite Ef. reflexivity.
    + elim (announced_not _ _ _ An Un').
    + elim (announced_not _ _ _ An' Un).
    + unfold read_pillars. rewrite goto_none by exact B. reflexivity.
  - rewrite (proj2 (pillars_part F files nx ny nz Hx Hy Hz Hs names m tail (nl (open_text text)) ps (mkStream rest1 (nl (open_text text))) Hf)) by auto. cbn [bind].
    destruct (Hf "ZCORN") as [(f & An & ->)|[Un ->]]; cbn [lookup]; destruct H as [(f' & An' & Ef)|[Un' B]].
    + assert (f' = f) as -> by (eapply announced_one; eauto). unfold other_file. rewrite Ef. reflexivity.
    + elim (announced_not _ _ _ An Un').
    + elim (announced_not _ _ _ An' Un).
    + unfold read_depths. rewrite goto_none by exact B. reflexivity.
Qed.
Print Assumptions C148_section_not_found.

(** The keyword must come after an underscore: in a name without underscore the quote is taken as its first letter. *)
Theorem C148_name_without_underscore q t key f : no_char UNDERSCORE (q :: t) -> q <> DOT -> announces (q :: t) key f ->
  exists key', key = q :: key'.
Proof.
  intros Hu Hq (ext & w & ws & [_ (a & b & E & Ha & _)] & _). destruct Ha as [->|[a' ->]].
  - cbn [app] in E. destruct key as [|x key].
    + cbn [app] in E. injection E as E _. now elim Hq.
    + injection E as -> _. eauto.
  - exfalso. rewrite E in Hu. unfold no_char in Hu. rewrite !Forall_app in Hu. destruct Hu as [[_ Hu] _]. inversion Hu as [|? ? X _]. now apply X.
Qed.
Print Assumptions C148_name_without_underscore.

(** ** Instances *)
(** The depths in an included file, then the pillars in the file. *)
Example C148_case : exists ps ds, grid_in ExNum ex_files (unlines ex_mixed_other) 1 1 1 ps ds /\
  Z.of_nat (List.length ps) = 4 /\ Z.of_nat (List.length ds) = 8 /\ exists r, read_grdecl ExNum ZArith_ops no_colocation ex_files (unlines ex_mixed_other) = Ok r.
Proof.
  pose (P a b := mkPillar ExNum (a, b, 0) (a, b, 10)).
  assert (E : pending (open_text (unlines ex_mixed_other)) = ex_mixed_other) by (vm_compute; reflexivity).
  assert (D : size_section 1 1 1 ex_mixed_other (skipn 4 ex_mixed_other)).
  { exists [lit "-- a comment"], (lit "SPECGRID"), [lit "-- sizes"; lit "1 1 1 1 F /"], [lit "SPECGRID"; lit "-- sizes"], (lit "1 1 1 1 F /"),
      (lit "1"), (lit "1"), (lit "1"), (map lit ["1"; "F"; "/"]). repeat split; repeat constructor. }
  assert (G : grid_in ExNum ex_files (unlines ex_mixed_other) 1 1 1 [P 0 0; P 1 0; P 0 1; P 1 1] [1; 2; 3; 4; 5; 6; 7; 8]).
  { exists (skipn 4 ex_mixed_other), [lit "'A_B_ZCORN.INC' /"], (skipn 6 ex_mixed_other), (skipn 15 ex_mixed_other), (skipn 15 ex_mixed_other).
    rewrite E. split; [exact D|]. split.
    { apply (I_more _ [] (lit "INCLUDE") (lit "'A_B_ZCORN.INC' /") (skipn 6 ex_mixed_other) [] _); [constructor|reflexivity|]. apply I_none. repeat constructor. }
    split.
    - right. split.
      + intros n f [<-|[]] (ext & w & ws & Q & _). apply in_parts in Q. vm_compute in Q. destruct Q as [Q|[Q|[Q|[]]]]; discriminate Q.
      + exists [lit ""], (lit "COORD"), (map lit ["0 0 0 0 0 10"; "1 0 0"; "1 0 10"; ""; "0 1 0 0 1 10"; "1 1 0 1 1 10"]), (lit "/").
        split; [reflexivity|]. split; [repeat constructor|]. split; [reflexivity|]. split; [|reflexivity].
        apply PT_one; [reflexivity|repeat constructor|]. apply PT_two; [reflexivity|repeat constructor|repeat constructor|].
        apply PT_blank; [reflexivity|reflexivity|]. apply PT_one; [reflexivity|repeat constructor|].
        apply PT_one; [reflexivity|repeat constructor|]. apply PT_nil.
    - left. exists (lit "A_B_ZCORN.INC"), (unlines (skipn 14 ex_grid)), (skipn 18 ex_grid). split.
      + exists [], (lit "'A_B_ZCORN.INC' /"), []. split; [reflexivity|]. split; [|intros x f []].
        exists (lit "INC' /"), (lit "'A_B_ZCORN.INC'"), [lit "/"]. split.
        { apply in_parts. vm_compute. right. right. now left. }
        split; [repeat constructor; discriminate|]. split; [vm_compute; reflexivity|]. left. exists "'"%char, "'"%char. reflexivity.
      + split; [reflexivity|]. split; [|reflexivity].
        assert (E2 : pending (open_text (unlines (skipn 14 ex_grid))) = skipn 14 ex_grid) by (vm_compute; reflexivity). rewrite E2.
        exists [], (lit "ZCORN"), (map lit ["1 2 3 4"; "5 6 7 8"]), (lit "/").
        split; [reflexivity|]. split; [constructor|]. split; [reflexivity|]. split; [|reflexivity]. split; repeat constructor. }
  exists [P 0 0; P 1 0; P 0 1; P 1 1], [1; 2; 3; 4; 5; 6; 7; 8]. split; [exact G|]. split; [reflexivity|]. split; [reflexivity|].
  apply (C148_loads_iff ExNum ZArith_ops no_colocation ex_files (unlines ex_mixed_other) 1 1 1 (skipn 4 ex_mixed_other)); try lia; try reflexivity.
  - intros pts. cbn [no_colocation fst]. apply rangez_length.
  - rewrite E. exact D.
  - exists [P 0 0; P 1 0; P 0 1; P 1 1], [1; 2; 3; 4; 5; 6; 7; 8]. split; [exact G|]. split; [cbn; lia|reflexivity].
Qed.

(** A file named after its keyword alone is included, exists and holds the pillars, but the grid is refused. *)
Definition ex_plain_main : list bytes := firstn 4 ex_grid ++ (map lit ["INCLUDE"; "'COORD.INC' /"]) ++ skipn 14 ex_grid.
Definition ex_plain_files (n : bytes) : option bytes :=
  if beq n "COORD.INC" then Some (unlines (firstn 9 (skipn 4 ex_grid))) else None.
Theorem C148_any_name_refuted : exists files text rest0 names tail n w ws f t ps r ds rest2,
  size_section 1 1 1 (pending (open_text text)) rest0 /\ included (nl (open_text text)) rest0 names tail /\
  In n names /\ string_split n = w :: ws /\ unquoted w f /\ files f = Some t /\
  pillar_section ExNum ps (pending (open_text t)) r /\ Z.of_nat (List.length ps) = 4 /\
  zcorn_block ExNum ds tail rest2 /\ Z.of_nat (List.length ds) = 8 /\
  read_grdecl ExNum ZArith_ops no_colocation files text = Throw ExData.
Proof.
  pose (P a b := mkPillar ExNum (a, b, 0) (a, b, 10)).
  assert (E : pending (open_text (unlines ex_plain_main)) = ex_plain_main) by (vm_compute; reflexivity).
  assert (D : size_section 1 1 1 ex_plain_main (skipn 4 ex_plain_main)).
  { exists [lit "-- a comment"], (lit "SPECGRID"), [lit "-- sizes"; lit "1 1 1 1 F /"], [lit "SPECGRID"; lit "-- sizes"], (lit "1 1 1 1 F /"),
      (lit "1"), (lit "1"), (lit "1"), (map lit ["1"; "F"; "/"]). repeat split; repeat constructor. }
  assert (I : included (nl (open_text (unlines ex_plain_main))) (skipn 4 ex_plain_main) [lit "'COORD.INC' /"] (skipn 6 ex_plain_main)).
  { apply (I_more _ [] (lit "INCLUDE") (lit "'COORD.INC' /") (skipn 6 ex_plain_main) [] _); [constructor|reflexivity|]. apply I_none. repeat constructor. }
  exists ex_plain_files, (unlines ex_plain_main), (skipn 4 ex_plain_main), [lit "'COORD.INC' /"], (skipn 6 ex_plain_main),
    (lit "'COORD.INC' /"), (lit "'COORD.INC'"), [lit "/"], (lit "COORD.INC"), (unlines (firstn 9 (skipn 4 ex_grid))), [P 0 0; P 1 0; P 0 1; P 1 1], [],
    [1; 2; 3; 4; 5; 6; 7; 8], (skipn 18 ex_grid).
  rewrite E. split; [exact D|]. split; [exact I|]. split; [now left|]. split; [vm_compute; reflexivity|].
  split; [left; exists "'"%char, "'"%char; reflexivity|]. split; [reflexivity|]. split.
  { assert (E2 : pending (open_text (unlines (firstn 9 (skipn 4 ex_grid)))) = firstn 9 (skipn 4 ex_grid)) by (vm_compute; reflexivity). rewrite E2.
    exists [lit ""], (lit "COORD"), (map lit ["0 0 0 0 0 10"; "1 0 0"; "1 0 10"; ""; "0 1 0 0 1 10"; "1 1 0 1 1 10"]), (lit "/").
    split; [reflexivity|]. split; [repeat constructor|]. split; [reflexivity|]. split; [|reflexivity].
    apply PT_one; [reflexivity|repeat constructor|]. apply PT_two; [reflexivity|repeat constructor|repeat constructor|].
    apply PT_blank; [reflexivity|reflexivity|]. apply PT_one; [reflexivity|repeat constructor|].
    apply PT_one; [reflexivity|repeat constructor|]. apply PT_nil. }
  split; [reflexivity|]. split.
  { exists [], (lit "ZCORN"), (map lit ["1 2 3 4"; "5 6 7 8"]), (lit "/").
    split; [reflexivity|]. split; [constructor|]. split; [reflexivity|]. split; [|reflexivity]. split; repeat constructor. }
  split; [reflexivity|].
  apply (C148_section_not_found ExNum ZArith_ops no_colocation _ _ 1 1 1 (skipn 4 ex_plain_main) [lit "'COORD.INC' /"] (skipn 6 ex_plain_main)).
  - rewrite E. exact D.
  - exact I.
  - left. right. split; [|repeat constructor]. intros n f [<-|[]] An.
    apply C148_name_without_underscore in An as [k K]; [discriminate K|repeat constructor; discriminate|discriminate].
Qed.
Print Assumptions C148_any_name_refuted.
