(** * Structural model files (.ml) cut short (C138). *)
From Coq Require Import ZArith List Lia Bool Ascii String.
From Verif Require Import Base Text TextFacts GocadModel MeshModel TsModel SignsModel MlModel Spec GocadFacts TsFacts
  StreamFacts ExNum ExCheck PropsComments PropsCut PropsGrammarMl.
Import ListNotations.
Local Open Scope string_scope.
Local Open Scope list_scope.
Local Open Scope Z_scope.

(** ** Specification *)

(** The text stops inside the list of numbers of a region, of a layer or of a fault block: after the line that begins it, every word
    is a number and none is the zero that ends the list. *)
Definition in_list (a : list bytes) : Prop :=
  exists a0 l a1, a = a0 ++ l :: a1 /\
    (exists k ts, string_split l = k :: ts /\ (k = lit "REGION" \/ k = lit "LAYER" \/ k = lit "FAULT_BLOCK")) /\
    exists parse, (parse = string_to_int \/ parse = string_to_index) /\
      forall x t, In x a1 -> In t (string_split x) -> exists v, parse t = Ok v /\ v <> 0.

(** ** Proofs *)
Lemma ok_eq {A} (x y : A) : Ok x = Ok y -> x = y.
Proof. congruence. Qed.
(** Numbers that are not zero *)
Definition reads (base parse : bytes -> res Z) : Prop := forall t v, parse t = Ok v -> base t = Ok v.
Lemma universe_reads n : reads string_to_int (universe_parse n).
Proof.
  intros t v E. unfold universe_parse in E. apply bind_ok in E as [w [E1 E]]. destruct (w =? 0) eqn:Q; [apply Z.eqb_eq in Q; subst w; congruence|].
  apply bind_ok in E as [s [_ E]]. destruct (s <? n); [congruence|discriminate].
Qed.
Lemma block_reads : reads string_to_int block_parse.
Proof.
  intros t v E. unfold block_parse in E. apply bind_ok in E as [w [E1 E]]. destruct (w =? 0) eqn:Q; [apply Z.eqb_eq in Q; subst w; congruence|].
  apply bind_ok in E as [s [_ E]]. congruence.
Qed.
Lemma take_ids_words base parse ts : reads base parse -> forall vs, take_ids parse ts = Ok (vs, false) -> forall t, In t ts -> exists v, base t = Ok v /\ v <> 0.
Proof.
  intros R. induction ts as [|t ts IH]; intros vs E u Hu; [now destruct Hu|]. cbn [take_ids] in E. apply bind_ok in E as [v [Ev E]].
  destruct (v =? 0) eqn:Q; [discriminate|]. apply bind_ok in E as [[ws st] [E2 E]]. apply ok_eq in E. assert (st = false) as -> by congruence.
  destruct Hu as [<-|Hu]; [exists v; split; [now apply R|lia]|]. exact (IH _ E2 u Hu).
Qed.
Lemma ids_cut base parse b a : reads base parse -> forall vs r, read_ids parse (a ++ b) = Ok (vs, r) ->
  (exists r2, read_ids parse a = Ok (vs, r2) /\ r = r2 ++ b /\ exists q, a = q ++ r2) \/
  (read_ids parse a = Hang /\ forall x t, In x a -> In t (string_split x) -> exists v, base t = Ok v /\ v <> 0).
Proof.
  intros R. induction a as [|l a IH]; intros vs r E; [right; split; [reflexivity|intros x t []]|]. cbn [app read_ids] in *.
  apply bind_ok in E as [[ws st] [E1 E]]. rewrite E1. cbn [bind]. destruct st.
  - apply ok_eq in E. left. exists a. assert (vs = ws /\ r = a ++ b) as [-> ->] by (split; congruence). repeat split. now exists [l].
  - apply bind_ok in E as [[ws' r'] [E2 E]]. apply ok_eq in E. destruct (IH _ _ E2) as [(r2 & K & P & q & Q)|(K & P)]; rewrite K; cbn [bind].
    + left. exists r2. assert (vs = ws ++ ws' /\ r = r') as [-> ->] by (split; congruence). split; [reflexivity|]. split; [exact P|]. exists (l :: q). now rewrite Q.
    + right. split; [reflexivity|]. intros x t [<-|Hx] Ht; [exact (take_ids_words _ _ _ R _ E1 t Ht)|exact (P x t Hx Ht)].
Qed.
Lemma kw_word l k : front (string_split l) = Ok k -> exists ts, string_split l = k :: ts.
Proof. apply front_of. Qed.
Lemma line_cut st l a b st' r : component_line st l (a ++ b) = Ok (st', r) ->
  (exists r2, component_line st l a = Ok (st', r2) /\ r = r2 ++ b /\ exists q, a = q ++ r2) \/
  (component_line st l a = Hang /\ in_list (l :: a)).
Proof.
  unfold component_line. intros E. destruct st as [ts ss un bs us fs]. apply bind_ok in E as [k [Ek E]]. rewrite Ek. cbn [bind].
  destruct (kw_word _ _ Ek) as [tk Hk].
  assert (Inl : forall parse, (parse = string_to_int \/ parse = string_to_index) -> (k = lit "REGION" \/ k = lit "LAYER" \/ k = lit "FAULT_BLOCK") ->
    (forall x t, In x a -> In t (string_split x) -> exists v, parse t = Ok v /\ v <> 0) -> in_list (l :: a)).
  { intros parse Hp K H. exists [], l, a. split; [reflexivity|]. split; [exists k, tk; auto|]. exists parse. auto. }
  destruct (beq k "TSURF"). { apply ok_eq in E. left. exists a. assert (r = a ++ b) as -> by congruence. split; [congruence|]. split; [reflexivity|]. now exists []. }
  destruct (beq k "TFACE").
  { apply bind_ok in E as [f [Ef E]]. rewrite Ef. cbn [bind]. destruct (add_tface _ _ _ _); [|discriminate]. apply ok_eq in E. left. exists a.
    assert (r = a ++ b) as -> by congruence. split; [congruence|]. split; [reflexivity|]. now exists []. }
  destruct (beq k "REGION") eqn:K1.
  { apply beq_eq in K1. apply bind_ok in E as [f [Ef E]]. rewrite Ef. cbn [bind]. destruct (beq _ "Universe").
    - apply bind_ok in E as [[vs r1] [E1 E]]. destruct (ids_cut string_to_int _ _ _ (universe_reads _) _ _ E1) as [(r2 & K & P & Q)|(K & P)]; rewrite K; cbn [bind].
      + apply bind_ok in E as [ns [En E]]. rewrite En. cbn [bind]. apply ok_eq in E. left. exists r2. assert (r = r1) as -> by congruence. split; [congruence|]. auto.
      + right. split; [reflexivity|]. apply (Inl string_to_int); auto.
    - apply bind_ok in E as [[vs r1] [E1 E]]. destruct (ids_cut string_to_int _ _ _ block_reads _ _ E1) as [(r2 & K & P & Q)|(K & P)]; rewrite K; cbn [bind].
      + apply bind_ok in E as [ns [En E]]. rewrite En. cbn [bind]. apply bind_ok in E as [[bd it] [Eb E]]. rewrite Eb. cbn [bind]. apply ok_eq in E. left. exists r2.
        assert (r = r1) as -> by congruence. split; [congruence|]. auto.
      + right. split; [reflexivity|]. apply (Inl string_to_int); auto. }
  destruct (beq k "LAYER") eqn:K2.
  { apply beq_eq in K2. apply bind_ok in E as [[vs r1] [E1 E]]. destruct (ids_cut string_to_index string_to_index _ _ (fun t v H => H) _ _ E1) as [(r2 & K & P & Q)|(K & P)]; rewrite K; cbn [bind].
    - apply ok_eq in E. left. exists r2. assert (r = r1) as -> by congruence. split; [congruence|]. auto.
    - right. split; [reflexivity|]. apply (Inl string_to_index); auto. }
  destruct (beq k "FAULT_BLOCK") eqn:K3.
  { apply beq_eq in K3. apply bind_ok in E as [[vs r1] [E1 E]]. destruct (ids_cut string_to_index string_to_index _ _ (fun t v H => H) _ _ E1) as [(r2 & K & P & Q)|(K & P)]; rewrite K; cbn [bind].
    - apply ok_eq in E. left. exists r2. assert (r = r1) as -> by congruence. split; [congruence|]. auto.
    - right. split; [reflexivity|]. apply (Inl string_to_index); auto. }
  apply ok_eq in E. left. exists a. assert (r = a ++ b) as -> by congruence. split; [congruence|]. split; [reflexivity|]. now exists [].
Qed.
Lemma in_list_after a0 a : in_list a -> in_list (a0 ++ a).
Proof. intros (x & l & y & -> & H). exists (a0 ++ x), l, y. split; [now rewrite <- app_assoc|exact H]. Qed.
Lemma components_cut b : forall fuel f st a st' r, components_loop f st (a ++ b) = Ok (st', r) -> (List.length a < fuel)%nat ->
  (exists r2, components_loop fuel st a = Ok (st', r2) /\ r = r2 ++ b) \/
  components_loop fuel st a = Throw ExData \/ (components_loop fuel st a = Hang /\ in_list a).
Proof.
  induction fuel as [|fuel IH]; intros f st a st' r E L; [lia|]. destruct f as [|f]; [discriminate|]. destruct a as [|l a]; [right; now left|]. cbn [app components_loop] in *.
  destruct (starts_with l "END").
  - apply ok_eq in E. left. exists a. split; congruence.
  - apply bind_ok in E as [[st1 r1] [E1 E]]. destruct (line_cut _ _ _ _ _ _ E1) as [(r2 & K & -> & q & Q)|(K & P)]; rewrite K; cbn [bind].
    + assert (L2 : (List.length r2 < fuel)%nat) by (rewrite Q in L; cbn [List.length] in L; rewrite app_length in L; lia).
      destruct (IH _ _ _ _ _ E L2) as [H|[H|[H1 H2]]]; auto. right. right. split; [exact H1|]. rewrite Q. now apply (in_list_after (l :: q)).
    + right. right. auto.
Qed.
(** One surface object *)
Lemma line_loop_cut {A} (step : A -> bytes -> res (A * bool)) b a : forall x, follows_l b (line_loop step (fun _ => Throw ExData) x (a ++ b)) (line_loop step (fun _ => Throw ExData) x a).
Proof.
  induction a as [|l a IH]; intros x; cbn [app].
  - cbn [line_loop]. destruct (line_loop _ _ x b) as [[? ?]| | |]; cbn; auto.
  - cbn [line_loop]. destruct (step x l) as [[y [|]]| | |]; cbn [bind]; try exact I; [left; eauto|apply IH].
Qed.
Lemma tfaces_cut F ts b s t : pending s = pending t ++ b -> tight b (read_tfaces F ts s) (read_tfaces F ts t).
Proof.
  intros H. unfold read_tfaces. apply tight_bind; [now apply goto_cut|]. intros x s1 s2 P. rewrite !tfaces_is, P. apply follows_loop, line_loop_cut.
Qed.
Lemma tsurf_cut F b s t d s1 : pending s = pending t ++ b -> read_tsurf F s = Ok (Some d, s1) ->
  (exists t1, read_tsurf F t = Ok (Some d, t1) /\ pending s1 = pending t1 ++ b) \/ read_tsurf F t = Throw ExData \/ exists t1, read_tsurf F t = Ok (None, t1).
Proof.
  intros H E. unfold read_tsurf in *. unfold goto_if in *. rewrite H, scan_cut in E. destruct (scan _ (pending t)) as [[l q]|]; [|eauto].
  set (u := mkStream (q ++ b) (nl s)) in E. set (v := mkStream q (nl t)). assert (P : pending u = pending v ++ b) by reflexivity.
  apply bind_ok in E as [[name s2] [E1 E]]. apply bind_ok in E as [[crs s3] [E2 E]]. apply bind_ok in E as [[props s4] [E3 E]]. cbv zeta in *. apply bind_ok in E as [[ts s5] [E4 E]].
  apply ok_eq in E. assert (ts = d /\ s5 = s1) as [-> ->] by (split; congruence).
  pose proof (header_cut b u v P) as K1. rewrite E1 in K1. destruct K1 as [(t2 & K1 & P1)|K1]; rewrite K1; cbn [bind]; [|auto].
  pose proof (crs_cut b s2 t2 P1) as K2. rewrite E2 in K2. destruct K2 as [(t3 & K2 & P2)|[(y & t3 & K2 & P2)|K2]]; rewrite K2; cbn [bind].
  - pose proof (prop_cut F b s3 t3 P2) as K3. rewrite E3 in K3. destruct K3 as [(t4 & K3 & P3)|[(y & t4 & K3 & P3)|K3]]; rewrite K3; cbn [bind].
    + pose proof (tfaces_cut F (mkTSurf 1 name crs props [] [] [0] [0] [] [] (map (fun _ => []) (p_names props))) b s4 t4 P3) as K4. rewrite E4 in K4.
      destruct K4 as [(t5 & K4 & P4)|K4]; rewrite K4; cbn [bind]; [left; eauto|auto].
    + right. left. unfold read_tfaces. now rewrite (goto_stuck _ _ P3).
    + auto.
  - right. left. destruct (prop_stuck F t3 P2) as [K3|(z & t4 & K3 & P3)]; rewrite K3; cbn [bind]; [reflexivity|]. unfold read_tfaces. now rewrite (goto_stuck _ _ P3).
  - auto.
Qed.
Lemma build_cut F b ts : forall s t ms, pending s = pending t ++ b -> build_all (F := F) ts s = Ok ms ->
  build_all (F := F) ts t = Ok ms \/ build_all (F := F) ts t = Throw ExData \/ build_all (F := F) ts t = Throw ExBadOptional.
Proof.
  induction ts as [|x ts IH]; intros s t ms H E; cbn [build_all] in *; [now left|]. apply bind_ok in E as [[o s1] [E1 E]]. destruct o as [d|]; [|discriminate].
  apply bind_ok in E as [m1 [E2 E]]. apply bind_ok in E as [m2 [E3 E]]. destruct (tsurf_cut F b s t d s1 H E1) as [(t1 & K & P)|[K|(t1 & K)]]; rewrite K; cbn [bind]; auto.
  rewrite E2. cbn [bind]. destruct (IH _ _ _ P E3) as [-> |[-> | ->]]; cbn [bind]; auto.
Qed.

(** ** C138 *)

(** The beginning of a file that can be loaded gives the same model (nothing of it was lost), an exception, or, when it stops
    inside a list of numbers, an endless loop: never another model, never undefined behaviour. *)
Theorem C138_cut : forall (F : Num) (a b : list bytes) (m : MlIn F), Forall is_line (a ++ b) ->
  read_ml F (unlines (a ++ b)) = Ok m ->
  read_ml F (unlines a) = Ok m \/ read_ml F (unlines a) = Throw ExData \/ read_ml F (unlines a) = Throw ExBadOptional \/
  (read_ml F (unlines a) = Hang /\ in_list a).
Proof.
  intros F a b m Hf E. pose proof (proj1 (proj1 (Forall_app _ _ _) Hf)) as Ha. unfold read_ml in *. unfold goto_if in *. rewrite open_unlines in * by assumption.
  cbn [pending nl] in *. rewrite scan_cut in E. destruct (scan _ a) as [[l q]|] eqn:Sc; [|auto].
  assert (Sq : exists a0, a = a0 ++ l :: q).
  { clear -Sc. revert Sc. induction a as [|x a IH]; cbn [scan]; [discriminate|]. destruct (starts_with x _); [intros Sc; injection Sc as <- <-; now exists []|].
    intros Sc. destruct (IH Sc) as [a0 ->]. now exists (x :: a0). }
  set (u := mkStream (q ++ b) true) in E. set (v := mkStream q true). assert (P : pending u = pending v ++ b) by reflexivity.
  apply bind_ok in E as [[title s2] [E1 E]]. apply bind_ok in E as [[crs s3] [E2 E]]. apply bind_ok in E as [[st r] [E3 E]].
  pose proof (header_cut b u v P) as K1. rewrite E1 in K1. destruct K1 as [(t2 & K1 & P1)|K1]; rewrite K1; cbn [bind]; [|auto].
  pose proof (read_header_suffix _ _ K1) as S1. cbn [snd] in S1.
  pose proof (crs_cut b s2 t2 P1) as K2. rewrite E2 in K2. destruct K2 as [(t3 & K2 & P2)|[(y & t3 & K2 & P2)|K2]]; rewrite K2; cbn [bind]; [| |auto].
  2: { rewrite P2. unfold read_components. cbn. auto. }
  pose proof (read_CRS_suffix _ _ K2) as S2. cbn [snd] in S2.
  assert (In3 : in_list (pending t3) -> in_list a).
  { intros H. destruct Sq as [a0 ->]. destruct S2 as [p2 S2]. destruct S1 as [p1 S1]. rewrite S2 in S1. change q with (pending v). rewrite S1.
    rewrite app_comm_cons. rewrite !app_assoc. apply in_list_after. exact H. }
  unfold read_components in *. rewrite P2 in E3.
  destruct (components_cut b (S (List.length (pending t3))) _ _ _ _ _ E3 ltac:(lia)) as [(r2 & K3 & ->)|[K3|[K3 K4]]]; rewrite K3; cbn [bind]; [|auto|right; right; right; auto].
  apply bind_ok in E as [cs [E4 E]]. rewrite E4. cbn [bind]. apply bind_ok in E as [ms [E5 E]].
  destruct (build_cut F b (i_tsurfs st) (mkStream (r2 ++ b) (nl s3)) (mkStream r2 (nl t3)) ms eq_refl E5) as [-> |[-> | ->]]; cbn [bind]; auto.
Qed.
Print Assumptions C138_cut.

(** Refuted: the exception is always thrown.  Inside the list of numbers of a region the reader never ends. *)
Theorem C138_refused_refuted : exists a b, Forall is_line (a ++ b) /\
  (exists m, read_ml ExNum (unlines (a ++ b)) = Ok m) /\ read_ml ExNum (unlines a) = Hang.
Proof.
  exists (firstn 15 ex_ml), (skipn 15 ex_ml). rewrite firstn_skipn. split; [repeat (apply Forall_cons; [apply lineb_ok; reflexivity|]); constructor|]. split.
  - assert (T : match read_ml ExNum (unlines ex_ml) with Ok _ => true | _ => false end = true) by (vm_compute; reflexivity).
    destruct (read_ml ExNum (unlines ex_ml)) as [m| | |]; [eauto|discriminate T..].
  - vm_compute. reflexivity.
Qed.
Print Assumptions C138_refused_refuted.
(** The file of C106 cut at each line: exceptions, endless loops and, after the last END line, the model. *)
Example C138_case :
  Forall is_line ex_ml /\
  map (fun n => match read_ml ExNum (unlines (firstn n ex_ml)) with Ok _ => 0 | Throw ExData => 1 | Throw ExBadOptional => 2 | Hang => 3 | _ => 4 end)
    (seq 0 (S (List.length ex_ml))) =
  [1; 1; 1; 1; 1; 1; 1; 1; 1; 1; 1; 1; 3; 1; 3; 3; 1; 3; 1; 3; 1; 2; 1; 1; 1; 1; 1; 1; 1; 1; 1; 1; 1; 1; 1; 1; 2; 1; 1; 1; 1; 1; 1; 1; 0].
Proof. split; [repeat (apply Forall_cons; [apply lineb_ok; reflexivity|]); constructor|vm_compute]. reflexivity. Qed.
