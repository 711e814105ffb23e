(** * Proofs about the .ml writer and reader. *)
From Coq Require Import ZArith List Lia Bool Ascii String Permutation.
From Verif Require Import Base Text TextFacts GocadModel MeshModel TsModel Spec GocadFacts TsFacts
  SignsModel MlModel.
Import ListNotations.
Local Open Scope string_scope.
Local Open Scope list_scope.
Local Open Scope Z_scope.

(** ** Id lists *)
Lemma parse_int_signed (s : bool) n : 0 <= n < 2147483648 ->
  parse_int (signed_id s n) = Some (if s then n else - n).
Proof.
  intros H. destruct (show_spec n ltac:(lia)) as [H1 [H2 H3]].
  unfold parse_int, signed_id. rewrite strip_no_space.
  2:{ apply Forall_cons; [destruct s; reflexivity|]. apply show_token; lia. }
  destruct s.
  - rewrite Ascii.eqb_refl. rewrite H3.
    rewrite (proj2 (Z.leb_le _ _)), (proj2 (Z.ltb_lt _ _)) by lia. reflexivity.
  - replace (Ascii.eqb "-" "+") with false by reflexivity. rewrite Ascii.eqb_refl. rewrite H3.
    cbn [option_map]. rewrite (proj2 (Z.leb_le _ _)), (proj2 (Z.ltb_lt _ _)) by lia. reflexivity.
Qed.
Lemma signed_token s n : 0 <= n -> token (signed_id s n).
Proof.
  intros H. split; [discriminate|]. apply Forall_cons; [destruct s; reflexivity|].
  apply show_token; lia.
Qed.

Definition padded (es : list bytes) : bytes := flat_map (fun e => e ++ [SP; SP]) es.
Lemma words_padded es l : Forall token es -> words (padded es ++ l) = es ++ words l.
Proof.
  induction 1 as [|e es He Hes IH]; [reflexivity|].
  cbn [padded flat_map]. rewrite <- !app_assoc. cbn [app].
  rewrite words_tok_sep by (assumption || reflexivity).
  rewrite words_sep by reflexivity. fold (padded es). rewrite IH. reflexivity.
Qed.
Lemma plain_padded es : Forall token es -> plain (padded es).
Proof.
  induction 1 as [|e es He Hes IH]; [constructor|].
  cbn [padded flat_map]. apply plain_app; [|exact IH]. apply plain_app; [now apply plain_token|].
  repeat constructor.
Qed.
Lemma split_padded es l : Forall token es -> plain l ->
  string_split (SP :: SP :: padded es ++ l) = es ++ words l.
Proof.
  intros He Hl. rewrite string_split_plain.
  - rewrite !words_sep by reflexivity. now apply words_padded.
  - repeat (apply plain_cons; [reflexivity|]). apply plain_app; [now apply plain_padded|assumption].
Qed.

Section Ids.
Variable parse : bytes -> res Z.
Hypothesis parse_zero : parse (lit "0") = Ok 0.

Lemma take_ids_all es vs : Forall2 (fun e v => parse e = Ok v /\ v <> 0) es vs ->
  take_ids parse es = Ok (vs, false).
Proof.
  induction 1 as [|e v es vs [He Hv] H IH]; [reflexivity|].
  cbn [take_ids]. rewrite He. cbn [bind]. rewrite (proj2 (Z.eqb_neq _ _)) by assumption.
  rewrite IH. reflexivity.
Qed.
Lemma take_ids_zero es vs r : Forall2 (fun e v => parse e = Ok v /\ v <> 0) es vs ->
  take_ids parse (es ++ lit "0" :: r) = Ok (vs, true).
Proof.
  induction 1 as [|e v es vs [He Hv] H IH]; cbn [app take_ids].
  - rewrite parse_zero. reflexivity.
  - rewrite He. cbn [bind]. rewrite (proj2 (Z.eqb_neq _ _)) by assumption. rewrite IH. reflexivity.
Qed.

Lemma read_ids_wrap es vs k done dvs rest :
  Forall token es -> Forall token done ->
  Forall2 (fun e v => parse e = Ok v /\ v <> 0) es vs ->
  Forall2 (fun e v => parse e = Ok v /\ v <> 0) done dvs ->
  read_ids parse (wrap_ids (SP :: SP :: padded done) k es ++ rest) = Ok (dvs ++ vs, rest).
Proof.
  intros Ht Hd H. revert k done dvs Hd Ht. induction H as [|e v es vs He H IH]; intros k done dvs Hdt Ht Hd.
  - cbn [wrap_ids app read_ids].
    assert (E : string_split (SP :: SP :: padded done ++ lit "0") = done ++ [lit "0"]).
    { rewrite split_padded; [|assumption|apply plain_token, tokenb_ok; reflexivity].
      rewrite words_tok by (apply tokenb_ok; reflexivity). reflexivity. }
    rewrite E. rewrite (take_ids_zero done dvs) by assumption. cbn [bind]. rewrite app_nil_r. reflexivity.
  - apply Forall_cons_iff in Ht as [He1 Ht]. cbn [wrap_ids].
    replace ((SP :: SP :: padded done) ++ e ++ [SP; SP]) with (SP :: SP :: padded (done ++ [e])).
    2:{ unfold padded. rewrite flat_map_app. cbn [flat_map app]. now rewrite app_nil_r. }
    assert (Hd2 : Forall token (done ++ [e])) by (apply Forall_app; auto).
    assert (Hd3 : Forall2 (fun e v => parse e = Ok v /\ v <> 0) (done ++ [e]) (dvs ++ [v])).
    { apply Forall2_app; [assumption|]. constructor; [assumption|constructor]. }
    destruct (Nat.eqb (S k mod 5) 0).
    + cbn [app read_ids].
      assert (E : string_split (SP :: SP :: padded (done ++ [e])) = done ++ [e]).
      { rewrite <- (app_nil_r (padded _)). rewrite split_padded; [now rewrite app_nil_r|assumption|constructor]. }
      rewrite E. rewrite (take_ids_all _ (dvs ++ [v])) by assumption. cbn [bind].
      specialize (IH (S k) [] [] ltac:(constructor) Ht ltac:(constructor)). cbn [padded flat_map app] in IH.
      rewrite IH. cbn [bind]. rewrite <- app_assoc. reflexivity.
    + rewrite (IH (S k) _ (dvs ++ [v])) by assumption. rewrite <- app_assoc. reflexivity.
Qed.
Lemma read_id_lines es vs rest :
  Forall token es -> Forall2 (fun e v => parse e = Ok v /\ v <> 0) es vs ->
  read_ids parse (id_lines es ++ rest) = Ok (vs, rest).
Proof. intros. unfold id_lines. now apply (read_ids_wrap es vs 0 [] []). Qed.

Lemma read_ids_length ls vs r : read_ids parse ls = Ok (vs, r) -> (List.length r < List.length ls)%nat.
Proof.
  revert vs r. induction ls as [|l ls IH]; intros vs r H; [discriminate|].
  cbn [read_ids] in H. apply bind_ok in H as [[ts stop] [_ H]]. destruct stop.
  - injection H as _ <-. simpl. lia.
  - apply bind_ok in H as [[vs' r'] [H1 H]]. injection H as _ <-. apply IH in H1. simpl. lia.
Qed.
End Ids.

Lemma id_lines_lines es : Forall token es -> Forall is_line (id_lines es).
Proof.
  unfold id_lines.
  enough (G : forall cur k, is_line cur -> Forall token es -> Forall is_line (wrap_ids cur k es))
    by (intros; apply G; [apply lineb_ok; reflexivity|assumption]).
  induction es as [|e es IH]; intros cur k Hc H; cbn [wrap_ids].
  - constructor; [|constructor]. apply is_line_app; [assumption|apply lineb_ok; reflexivity].
  - apply Forall_cons_iff in H as [He H].
    assert (is_line (cur ++ e ++ [SP; SP])).
    { apply is_line_app; [assumption|]. apply is_line_app; [now apply token_line|apply lineb_ok; reflexivity]. }
    destruct (Nat.eqb _ _); [constructor; [assumption|]|]; apply IH; auto. apply lineb_ok; reflexivity.
Qed.

(** ** Sorting and pairing *)
Lemma insert_perm x l : Permutation (insert_z x l) (x :: l).
Proof.
  induction l as [|y r IH]; [reflexivity|]. cbn [insert_z]. destruct (x <=? y); [reflexivity|].
  rewrite IH. apply perm_swap.
Qed.
Lemma sort_perm l : Permutation (sort_z l) l.
Proof. induction l as [|x l IH]; [reflexivity|]. cbn [sort_z fold_right]. rewrite insert_perm. now constructor. Qed.
Inductive sorted : list Z -> Prop :=
| sorted_nil : sorted []
| sorted_cons x l : (forall y, In y l -> x <= y) -> sorted l -> sorted (x :: l).
Lemma insert_sorted x l : sorted l -> sorted (insert_z x l).
Proof.
  induction 1 as [|y l H Hs IH]; cbn [insert_z]; [constructor; [inversion 1|constructor]|].
  destruct (x <=? y) eqn:E.
  - apply Z.leb_le in E. constructor; [|constructor; assumption].
    intros z [<-|Hz]; [assumption|]. specialize (H z Hz). lia.
  - apply Z.leb_gt in E. constructor; [|assumption].
    intros z Hz. apply (Permutation_in _ (insert_perm x l)) in Hz. destruct Hz as [<-|Hz]; [lia|auto].
Qed.
Lemma sort_sorted l : sorted (sort_z l).
Proof. induction l; [constructor|]. now apply insert_sorted. Qed.
Lemma sorted_perm_eq a b : sorted a -> sorted b -> Permutation a b -> a = b.
Proof.
  intros Ha. revert b. induction Ha as [|x a H Hs IH]; intros b Hb P.
  - apply Permutation_nil in P. auto.
  - destruct Hb as [|y b Hy Hb]; [apply Permutation_sym, Permutation_nil in P; discriminate|].
    assert (x = y).
    { assert (In x (y :: b)) as [->|Hx] by (apply (Permutation_in _ P); left; reflexivity); [reflexivity|].
      assert (In y (x :: a)) as [->|Hy'] by (apply (Permutation_in _ (Permutation_sym P)); left; reflexivity);
        [reflexivity|].
      specialize (H y Hy'). specialize (Hy x Hx). lia. }
    subst y. f_equal. apply IH; [assumption|]. now apply Permutation_cons_inv in P.
Qed.

Definition cnt (l : list Z) (x : Z) : nat := count_occ Z.eq_dec l x.
Lemma cnt_cons l a x : cnt (a :: l) x = ((if Z.eqb a x then 1 else 0) + cnt l x)%nat.
Proof.
  unfold cnt. cbn [count_occ]. destruct (Z.eq_dec a x) as [->|H].
  - now rewrite Z.eqb_refl.
  - now rewrite (proj2 (Z.eqb_neq _ _)).
Qed.
Lemma cnt_notin l x : ~ In x l -> cnt l x = 0%nat.
Proof. intros H. now apply count_occ_not_In. Qed.

(** The relations created for a sorted list where no number appears more than twice: those that
    appear once are boundaries, those that appear twice are internal. *)
Definition finish (l : list Z) : list (Z * bool) :=
  pair_up l ++ match rev l with x :: y :: _ => if y =? x then [] else [(x, false)] | [x] => [(x, false)] | [] => [] end.
Lemma rev_two {A} (a : A) l : (2 <= List.length l)%nat ->
  exists x y t t', rev l = x :: y :: t /\ rev (a :: l) = x :: y :: t'.
Proof.
  intros H. cbn [rev]. destruct (rev l) as [|x [|y t]] eqn:E.
  - apply (f_equal (@List.length A)) in E. rewrite rev_length in E. simpl in E. lia.
  - apply (f_equal (@List.length A)) in E. rewrite rev_length in E. simpl in E. lia.
  - exists x, y, t, (t ++ [a]). split; reflexivity.
Qed.
Lemma finish_skip a b r : a <> b -> finish (a :: b :: r) = (a, false) :: finish (b :: r).
Proof.
  intros Hab. unfold finish. cbn [pair_up]. rewrite (proj2 (Z.eqb_neq a b)) by assumption.
  cbn [app]. f_equal. f_equal. destruct r as [|c r].
  - cbn [rev app]. now rewrite (proj2 (Z.eqb_neq a b)).
  - destruct (rev_two a (b :: c :: r) ltac:(simpl; lia)) as [x [y [t [t' [-> ->]]]]]. reflexivity.
Qed.
Lemma finish_pair a r : ~ In a r -> finish (a :: a :: r) = (a, true) :: finish r.
Proof.
  intros Ha. unfold finish. cbn [pair_up]. rewrite Z.eqb_refl.
  cbn [app]. f_equal. f_equal. destruct r as [|c [|d r]].
  - cbn [rev app]. now rewrite Z.eqb_refl.
  - cbn [rev app]. rewrite (proj2 (Z.eqb_neq a c)); [reflexivity|]. intros ->. apply Ha. now left.
  - destruct (rev_two a (c :: d :: r) ltac:(simpl; lia)) as [x [y [t [t' [-> E]]]]].
    destruct (rev_two a (a :: c :: d :: r) ltac:(simpl; lia)) as [x2 [y2 [u [u' [E1 ->]]]]].
    rewrite E1 in E. injection E as -> -> _. reflexivity.
Qed.

Lemma sorted_inv x l : sorted (x :: l) -> (forall y, In y l -> x <= y) /\ sorted l.
Proof. inversion 1; auto. Qed.

Lemma finish_spec n l : (List.length l <= n)%nat -> sorted l -> (forall x, (cnt l x <= 2)%nat) ->
  NoDup (map fst (finish l)) /\
  forall x b, In (x, b) (finish l) <-> cnt l x = (if b : bool then 2 else 1)%nat.
Proof.
  revert l. induction n as [|n IH]; intros l Hn Hs Hc.
  { destruct l; [|simpl in Hn; lia]. split; [constructor|]. intros x []; simpl; split; (tauto || lia). }
  destruct l as [|a [|b r]].
  - split; [constructor|]. intros x []; simpl; split; (tauto || lia).
  - split; [apply NoDup_cons; [tauto|constructor]|]. intros x c. cbn [finish pair_up rev app].
    rewrite cnt_cons. change (cnt [] x) with 0%nat. destruct (Z.eqb_spec a x) as [->|H].
    + destruct c; split; intros H; try lia; [destruct H as [H|[]]; congruence|now left].
    + split; intros H1; [destruct H1 as [H1|[]]; congruence|]. destruct c; lia.
  - destruct (Z.eqb_spec a b) as [->|Hab].
    + assert (Ha : ~ In b r).
      { intros Hi. specialize (Hc b). rewrite !cnt_cons, !Z.eqb_refl in Hc.
        apply (count_occ_In Z.eq_dec) in Hi. unfold cnt in Hc. lia. }
      rewrite finish_pair by assumption.
      apply sorted_inv in Hs as [_ Hs]. apply sorted_inv in Hs as [_ Hs].
      destruct (IH r) as [IH1 IH2]; [simpl in Hn; lia|assumption| |].
      { intros x. specialize (Hc x). rewrite !cnt_cons in Hc. lia. }
      assert (N : forall c, ~ In (b, c) (finish r)).
      { intros c Hi. apply IH2 in Hi. rewrite cnt_notin in Hi by assumption. destruct c; lia. }
      split.
      * cbn [map fst]. constructor; [|assumption]. intros Hi.
        apply in_map_iff in Hi as [[y c] [E Hi]]. cbn [fst] in E. subst y. now apply (N c).
      * intros x c. cbn [In]. rewrite !cnt_cons. destruct (Z.eqb_spec b x) as [<-|Hx].
        -- rewrite cnt_notin by assumption. destruct c; split; intros H; try lia; auto.
           destruct H as [H|H]; [discriminate|]. now apply N in H.
        -- rewrite IH2. split; [intros [H|H]; [congruence|destruct c; lia]|intros H; right; destruct c; lia].
    + rewrite finish_skip by assumption.
      apply sorted_inv in Hs as [Hle Hs].
      assert (Ha : ~ In a (b :: r)).
      { intros Hi. destruct Hi as [Hi|Hi]; [congruence|]. apply sorted_inv in Hs as [Hb _].
        specialize (Hb a Hi). specialize (Hle b ltac:(now left)). lia. }
      destruct (IH (b :: r)) as [IH1 IH2]; [simpl in Hn |- *; lia|assumption| |].
      { intros x. specialize (Hc x). rewrite cnt_cons in Hc. lia. }
      assert (N : forall c, ~ In (a, c) (finish (b :: r))).
      { intros c Hi. apply IH2 in Hi. rewrite cnt_notin in Hi by assumption. destruct c; lia. }
      split.
      * cbn [map fst]. constructor; [|assumption]. intros Hi.
        apply in_map_iff in Hi as [[y c] [E Hi]]. cbn [fst] in E. subst y. now apply (N c).
      * intros x c. cbn [In]. rewrite (cnt_cons (b :: r)). destruct (Z.eqb_spec a x) as [<-|Hx].
        -- rewrite (cnt_notin (b :: r)) by assumption. destruct c; split; intros H; try lia; auto.
           destruct H as [H|H]; [discriminate|]. now apply N in H.
        -- rewrite IH2. split; [intros [H|H]; [congruence|destruct c; lia]|intros H; right; destruct c; lia].
Qed.

(** ** Topology of a block *)
Lemma cnt_perm a b x : Permutation a b -> cnt a x = cnt b x.
Proof. intros P. now apply (Permutation_count_occ Z.eq_dec). Qed.
Lemma NoDup_filter_fst {A} (f : Z * A -> bool) l : NoDup (map fst l) -> NoDup (map fst (filter f l)).
Proof.
  induction l as [|x l IH]; cbn [map filter]; intros H; [constructor|].
  apply NoDup_cons_iff in H as [H1 H2]. destruct (f x); [|auto]. cbn [map]. constructor; [|auto].
  intros Hi. apply H1. apply in_map_iff in Hi as [y [E Hi]]. apply filter_In in Hi as [Hi _].
  rewrite <- E. now apply in_map.
Qed.

(** Numbers met once are boundaries, numbers met twice are internal. *)
Lemma block_topology_spec n nums : (forall x, In x nums -> 0 <= x < n) ->
  (forall x, (cnt nums x <= 2)%nat) -> (2 <= List.length nums)%nat ->
  exists bd it, block_topology n nums = Ok (bd, it) /\ NoDup bd /\ NoDup it /\
    (forall x, In x bd <-> cnt nums x = 1%nat) /\ (forall x, In x it <-> cnt nums x = 2%nat).
Proof.
  intros Hr Hc Hl. unfold block_topology. set (l := sort_z nums).
  assert (P : Permutation l nums) by apply sort_perm.
  assert (Hlen : (2 <= List.length l)%nat) by (rewrite (Permutation_length P); assumption).
  destruct (finish_spec (List.length l) l (le_n _) (sort_sorted _)) as [ND SP].
  { intros x. rewrite (cnt_perm _ _ _ P). apply Hc. }
  assert (E : exists la, last_one l = Ok la /\ finish l = pair_up l ++ la).
  { unfold last_one, finish. destruct (rev l) as [|x [|y t]] eqn:E.
    - apply (f_equal (@List.length Z)) in E. rewrite rev_length in E. simpl in E. lia.
    - apply (f_equal (@List.length Z)) in E. rewrite rev_length in E. simpl in E. lia.
    - eexists. split; reflexivity. }
  destruct E as [la [-> E]]. cbn [bind]. rewrite <- E.
  assert (F : forallb (fun e => (0 <=? fst e) && (fst e <? n)) (finish l) = true).
  { apply forallb_forall. intros [x b] Hi. cbn [fst].
    assert (In x nums).
    { apply (count_occ_In Z.eq_dec). apply SP in Hi. rewrite (cnt_perm _ _ _ P) in Hi. unfold cnt in Hi. destruct b; lia. }
    specialize (Hr x H). rewrite (proj2 (Z.leb_le _ _)), (proj2 (Z.ltb_lt _ _)) by lia. reflexivity. }
  rewrite F. do 2 eexists. split; [reflexivity|].
  split; [now apply NoDup_filter_fst|]. split; [now apply NoDup_filter_fst|].
  split; intros x; rewrite <- (cnt_perm _ _ _ P); rewrite in_map_iff.
  - split.
    + intros [[y b] [<- H]]. apply filter_In in H as [H Hb]. apply SP in H. destruct b; [discriminate|exact H].
    + intros H. exists (x, false). split; [reflexivity|]. apply filter_In. split; [|reflexivity]. now apply SP.
  - split.
    + intros [[y b] [<- H]]. apply filter_In in H as [H Hb]. apply SP in H. destruct b; [exact H|discriminate].
    + intros H. exists (x, true). split; [reflexivity|]. apply filter_In. split; [|reflexivity]. now apply SP.
Qed.

(** ** Positions and numbering *)
Fixpoint pos (l : list Z) (x : Z) : Z :=
  match l with [] => 0 | y :: r => if y =? x then 0 else 1 + pos r x end.
Lemma lenz_cons {A} (a : A) l : lenz (a :: l) = 1 + lenz l.
Proof. unfold lenz. simpl List.length. lia. Qed.
Lemma lenz_app {A} (a b : list A) : lenz (a ++ b) = lenz a + lenz b.
Proof. unfold lenz. rewrite app_length. lia. Qed.
Lemma lenz_snoc {A} (l : list A) a : lenz (l ++ [a]) = lenz l + 1.
Proof. rewrite lenz_app. reflexivity. Qed.
Lemma lenz_map {A B} (f : A -> B) l : lenz (map f l) = lenz l.
Proof. unfold lenz. now rewrite map_length. Qed.
Lemma lenz_nonneg {A} (l : list A) : 0 <= lenz l.
Proof. unfold lenz. lia. Qed.
Lemma pos_range l x : In x l -> 0 <= pos l x < lenz l.
Proof.
  induction l as [|y r IH]; [inversion 1|]. rewrite lenz_cons. cbn [pos In].
  pose proof (lenz_nonneg r). destruct (Z.eqb_spec y x) as [->|H1]; [lia|].
  intros [H2|H2]; [congruence|]. specialize (IH H2). lia.
Qed.
Lemma pos_nonneg l x : 0 <= pos l x.
Proof. induction l as [|y r IH]; cbn [pos]; [lia|]. destruct (y =? x); lia. Qed.
Lemma pos_nth l x : In x l -> nth_error l (Z.to_nat (pos l x)) = Some x.
Proof.
  induction l as [|y r IH]; [inversion 1|]. cbn [pos In].
  destruct (Z.eqb_spec y x) as [->|H1]; [reflexivity|].
  intros [H2|H2]; [congruence|]. pose proof (pos_range r x H2).
  replace (Z.to_nat (1 + pos r x)) with (S (Z.to_nat (pos r x))) by lia. cbn [nth_error]. auto.
Qed.
Lemma pos_inj l x y : In x l -> In y l -> pos l x = pos l y -> x = y.
Proof. intros Hx Hy E. apply pos_nth in Hx, Hy. rewrite E in Hx. congruence. Qed.
Lemma pos_app_l a b x : In x a -> pos (a ++ b) x = pos a x.
Proof.
  induction a as [|y r IH]; [inversion 1|]. cbn [pos In app].
  destruct (Z.eqb_spec y x) as [->|H1]; [reflexivity|]. intros [H2|H2]; [congruence|]. now rewrite IH.
Qed.
Lemma pos_app_r a b x : ~ In x a -> pos (a ++ b) x = lenz a + pos b x.
Proof.
  induction a as [|y r IH]; [reflexivity|]. rewrite lenz_cons. cbn [pos In app]. intros H.
  destruct (Z.eqb_spec y x) as [->|H1]; [tauto|]. rewrite IH by tauto. lia.
Qed.
Lemma map_pos_self l : NoDup l -> map (pos l) l = rangez 0 (List.length l).
Proof.
  induction l as [|x l IH] using rev_ind; [reflexivity|]. intros H.
  rewrite map_app, app_length, Nat.add_1_r, rangez_S. f_equal.
  - rewrite <- IH by (apply NoDup_remove_1 in H; now rewrite app_nil_r in H).
    apply map_ext_in. intros a Ha. now apply pos_app_l.
  - cbn [map]. rewrite pos_app_r.
    + cbn [pos]. rewrite Z.eqb_refl. unfold lenz. f_equal. lia.
    + apply NoDup_remove_2 in H. now rewrite app_nil_r in H.
Qed.
Lemma rangez_shift c n : rangez c n = map (Z.add c) (rangez 0 n).
Proof.
  induction n as [|n IH]; [reflexivity|]. rewrite !rangez_S, map_app, IH. reflexivity.
Qed.
Lemma map_pos_mid a b c : NoDup (a ++ b ++ c) -> map (pos (a ++ b ++ c)) b = rangez (lenz a) (List.length b).
Proof.
  intros H. rewrite rangez_shift. rewrite <- map_pos_self.
  - rewrite map_map. apply map_ext_in. intros x Hx. rewrite pos_app_r.
    + f_equal. now apply pos_app_l.
    + intros Ha. apply in_split in Ha as [p [q ->]]. rewrite <- app_assoc in H. cbn [app] in H.
      apply NoDup_remove_2 in H. apply H. rewrite !in_app_iff. auto.
  - clear -H. induction a as [|y a IH]; [|apply NoDup_cons_iff in H as [_ H]; auto].
    cbn [app] in H. induction b as [|y b IH]; [constructor|]. cbn [app] in H.
    apply NoDup_cons_iff in H as [H1 H2]. constructor; [|auto]. intros Hi. apply H1, in_or_app. auto.
Qed.

Definition numbered (c : Z) (ids : list Z) : list (Z * Z) := combine ids (rangez c (List.length ids)).
Lemma find_id_cons {V} a (v : V) m x : find_id ((a, v) :: m) x = if a =? x then Some v else find_id m x.
Proof. unfold find_id. cbn [find fst]. destruct (a =? x); reflexivity. Qed.
Lemma find_numbered c ids x : In x ids -> find_id (numbered c ids) x = Some (c + pos ids x).
Proof.
  revert c. induction ids as [|y r IH]; intros c; [inversion 1|].
  unfold numbered. cbn [List.length rangez combine In pos]. rewrite find_id_cons.
  destruct (Z.eqb_spec y x) as [->|H1]; intros H; [f_equal; lia|].
  destruct H as [H|H]; [congruence|]. unfold numbered in IH. rewrite IH by assumption. f_equal. lia.
Qed.
Lemma find_numbered_none c ids x : ~ In x ids -> find_id (numbered c ids) x = None.
Proof.
  revert c. induction ids as [|y r IH]; intros c; [reflexivity|]. cbn [In]. intros H.
  unfold numbered. cbn [List.length rangez combine]. rewrite find_id_cons.
  rewrite (proj2 (Z.eqb_neq _ _)) by tauto. apply IH. tauto.
Qed.
Lemma find_id_app_l {V} (a b : list (Z * V)) x v : find_id a x = Some v -> find_id (a ++ b) x = Some v.
Proof.
  induction a as [|[y w] a IH]; [discriminate|]. cbn [app]. rewrite !find_id_cons. destruct (y =? x); auto.
Qed.
Lemma find_id_app_r {V} (a b : list (Z * V)) x : find_id a x = None -> find_id (a ++ b) x = find_id b x.
Proof.
  induction a as [|[y w] a IH]; [reflexivity|]. cbn [app]. rewrite !find_id_cons. destruct (y =? x); [discriminate|auto].
Qed.
Lemma numbered_snoc c ids x : numbered c (ids ++ [x]) = numbered c ids ++ [(x, c + lenz ids)].
Proof.
  unfold numbered. rewrite app_length, Nat.add_1_r, rangez_S.
  revert c. induction ids as [|y r IH]; intros c; [reflexivity|].
  cbn [List.length rangez app combine]. f_equal. specialize (IH (c + 1)). rewrite lenz_cons.
  replace (c + (1 + lenz r)) with (c + 1 + lenz r) by lia. rewrite <- IH.
  replace (c + Z.of_nat (S (List.length r))) with (c + 1 + Z.of_nat (List.length r)) by lia. reflexivity.
Qed.

(** ** The writer *)
Section Write.
Context {F : Num} (HF : num_ok F).
Variable uuid_text : Z -> bytes.

(** A section of the file: type, name, surfaces. *)
Notation sec := (bytes * bytes * list (MSurf F))%type.
Definition sec_ids (secs : list sec) : list Z := flat_map (fun s => map s_id (snd s)) secs.

(** A surface the writer can write. *)
Record good_surf (s : MSurf F) : Prop := {
  gs_tris : s_tris s <> [];
  gs_tri_in : Forall (tri_in (lenz (s_points s))) (s_tris s);
  gs_loops : Forall (Forall (fun e => 0 <= fst e < lenz (s_points s) /\ 0 <= snd e < lenz (s_points s))) (s_loops s)
}.

Definition key_text (s : MSurf F) : list bytes := match key_lines s with Ok ks => ks | _ => [] end.
Lemma key_lines_ok s : good_surf s -> key_lines s = Ok (key_text s) /\
  Forall (fun l => exists p : point F, l = SP :: SP :: point_string p) (key_text s).
Proof.
  intros [Ht Hi _]. unfold key_text, key_lines. destruct (s_tris s) as [|[[a b] c] r]; [congruence|].
  apply Forall_cons_iff in Hi as [[Ha [Hb Hc]] _]. rewrite idx_0. cbn [bind mapM]. unfold idxz.
  destruct (nthz_in_range (s_points s) a Ha) as [pa ->].
  destruct (nthz_in_range (s_points s) b Hb) as [pb ->].
  destruct (nthz_in_range (s_points s) c Hc) as [pc ->]. cbn [bind].
  split; [reflexivity|]. repeat constructor; eauto.
Qed.

Fixpoint face_lines (i : Z) (k n : bytes) (ss : list (MSurf F)) : list bytes :=
  match ss with
  | [] => []
  | s :: r => tface_line_of i k n :: key_text s ++ face_lines (i + 1) k n r
  end.
Fixpoint all_faces (i : Z) (secs : list sec) : list bytes :=
  match secs with
  | [] => []
  | (k, n, ss) :: r => face_lines i k n ss ++ all_faces (i + lenz ss) r
  end.

(** The sections of the model are [secs]. *)
Record sections_are (m : SModel F) (secs : list sec) : Prop := {
  sa_sections : sections uuid_text m = map (fun s => (Ok (fst (fst s)), Ok (snd (fst s)), map s_id (snd s))) secs;
  sa_surfaces : forall s, In s (flat_map snd secs) -> surface_of m (s_id s) = Ok s /\ good_surf s;
  sa_nodup : NoDup (sec_ids secs)
}.

Lemma write_items m k n ss ls done : (forall s, In s ss -> surface_of m (s_id s) = Ok s /\ good_surf s) ->
  NoDup (done ++ map s_id ss) ->
  foldM (write_tface_item m (Ok k) (Ok n)) (map s_id ss) (ls, mkComps (numbered 1 done) (1 + lenz done))
  = Ok (ls ++ face_lines (1 + lenz done) k n ss,
        mkComps (numbered 1 (done ++ map s_id ss)) (1 + lenz (done ++ map s_id ss))).
Proof.
  revert ls done. induction ss as [|s ss IH]; intros ls done Hs Hn.
  - cbn [map foldM face_lines]. now rewrite !app_nil_r.
  - cbn [map foldM]. unfold write_tface_item at 1. cbn [comps next_id].
    cbn [map] in Hn.
    assert (Hd : ~ In (s_id s) done).
    { intros Hi. apply NoDup_remove_2 in Hn. apply Hn, in_or_app. auto. }
    rewrite find_numbered_none by assumption. cbn [bind].
    destruct (Hs s ltac:(now left)) as [-> Hg]. cbn [bind].
    destruct (key_lines_ok s Hg) as [-> _]. cbn [bind].
    unfold emplace_id. rewrite find_numbered_none by assumption.
    rewrite <- numbered_snoc.
    replace (1 + lenz done + 1) with (1 + lenz (done ++ [s_id s])) by (rewrite lenz_snoc; lia).
    rewrite IH.
    + cbn [face_lines]. rewrite <- !app_assoc. cbn [app].
      replace (1 + lenz (done ++ [s_id s])) with (1 + lenz done + 1) by (rewrite lenz_snoc; lia).
      rewrite ?app_comm_cons. reflexivity.
    + intros; apply Hs; now right.
    + rewrite <- app_assoc. exact Hn.
Qed.
Lemma write_tfaces_secs m secs ls done :
  (forall s, In s (flat_map snd secs) -> surface_of m (s_id s) = Ok s /\ good_surf s) ->
  NoDup (done ++ sec_ids secs) ->
  foldM (fun acc c => let '(k, n, items) := c in foldM (write_tface_item m k n) items acc)
    (map (fun s : sec => (Ok (fst (fst s)), Ok (snd (fst s)), map s_id (snd s))) secs)
    (ls, mkComps (numbered 1 done) (1 + lenz done))
  = Ok (ls ++ all_faces (1 + lenz done) secs,
        mkComps (numbered 1 (done ++ sec_ids secs)) (1 + lenz (done ++ sec_ids secs))).
Proof.
  revert ls done. induction secs as [|[[k n] ss] secs IH]; intros ls done Hs Hn.
  - cbn [map foldM all_faces sec_ids flat_map]. now rewrite !app_nil_r.
  - cbn [map foldM fst snd]. cbn [sec_ids flat_map snd] in Hn. rewrite write_items.
    + cbn [bind]. rewrite IH.
      * cbn [all_faces sec_ids flat_map snd]. rewrite <- !app_assoc.
        replace (1 + lenz (done ++ map s_id ss)) with (1 + lenz done + lenz ss)
          by (rewrite lenz_app, lenz_map; lia). reflexivity.
      * intros; apply Hs; cbn [flat_map snd]; apply in_or_app; auto.
      * rewrite <- app_assoc. exact Hn.
    + intros; apply Hs; cbn [flat_map snd]; apply in_or_app; auto.
    + clear -Hn. rewrite app_assoc in Hn. set (l := done ++ map s_id ss) in *. set (r := flat_map _ _) in Hn.
      clearbody l r. induction l as [|x l IH]; [constructor|]. cbn [app] in Hn.
      apply NoDup_cons_iff in Hn as [H1 H2]. constructor; [|auto]. intros Hi. apply H1, in_or_app. auto.
Qed.
Lemma write_tfaces_ok m secs : sections_are m secs ->
  write_tfaces uuid_text m
  = Ok (all_faces 1 secs, mkComps (numbered 1 (sec_ids secs)) (1 + lenz (sec_ids secs))).
Proof.
  intros [E Hs Hn]. unfold write_tfaces. rewrite E.
  exact (write_tfaces_secs m secs [] [] Hs Hn).
Qed.

Lemma write_tsurfs_ok m secs : sections_are m secs ->
  write_tsurfs uuid_text m = Ok (map tsurf_line (map (fun s : sec => snd (fst s)) secs)).
Proof.
  intros [E _ _]. unfold write_tsurfs.
  assert (G : forall (l : list (res bytes)) r, map (@id _) l = map (@Ok bytes) r -> mapM (fun x => x) l = Ok r).
  { induction l as [|x l IH]; intros [|y r] H; try discriminate; [reflexivity|].
    cbn [map] in H. injection H as Hx H. unfold id in Hx. subst x. cbn [mapM bind]. now rewrite (IH r). }
  assert (E2 : map (fun x : res bytes * res bytes * list Z => snd (fst x)) (sections uuid_text m)
    = map (@Ok bytes) (map (fun s : sec => snd (fst s)) secs)).
  { rewrite E, !map_map. reflexivity. }
  clear E. set (names := map (fun s : sec => snd (fst s)) secs) in *. clearbody names.
  unfold sections in E2. rewrite !map_app, !map_map in E2. cbn [fst snd] in E2.
  assert (Sp : forall (a b : list (res bytes)) (r : list bytes), a ++ b = map (@Ok bytes) r ->
     exists x y, r = x ++ y /\ a = map (@Ok bytes) x /\ b = map (@Ok bytes) y).
  { induction a as [|z a IH]; intros b r H.
    - exists [], r. auto.
    - destruct r as [|y r]; [discriminate|]. cbn [app map] in H. injection H as -> H.
      destruct (IH _ _ H) as [x [w [-> [-> ->]]]]. exists (y :: x), w. auto. }
  apply Sp in E2 as [n1 [r1 [-> [E1 E2]]]]. apply Sp in E2 as [n2 [r2 [-> [E2 E3]]]].
  apply Sp in E3 as [n3 [n4 [-> [E3 E4]]]].
  rewrite <- (mapM_map (fun x : res bytes => x) (fun c : Coll fault_type => name_value (c_name c))).
  rewrite <- (mapM_map (fun x : res bytes => x) (fun c : Coll contact_type => name_value (c_name c))).
  rewrite (G _ n2) by (unfold id; rewrite map_id; exact E2). cbn [bind].
  rewrite (G _ n3) by (unfold id; rewrite map_id; exact E3). cbn [bind].
  assert (J : forall A (f : A -> bytes) l r, map (fun x => Ok (f x)) l = map (@Ok bytes) r -> map f l = r).
  { clear. intros A f. induction l as [|x l IH]; intros [|y r] H; try discriminate; [reflexivity|].
    cbn [map] in H. injection H as <- H. cbn [map]. f_equal. auto. }
  apply J in E1, E4. rewrite E1, E4. reflexivity.
Qed.
End Write.

(** ** Regions and units *)
Definition entry_text (e : bool * Z) : bytes := signed_id (fst e) (snd e).
Definition entry_value (e : bool * Z) : Z := if fst e then snd e else - snd e.
Definition side_of (rsides : PairedSigns) (b s : Z) : bool :=
  match find_pair rsides b s with Some x => x | None => true end.
Definition uside_of (usides : list (Z * bool)) (s : Z) : bool :=
  match find_id usides s with Some x => x | None => true end.
Definition universe_entries (ids : list Z) (usides : list (Z * bool)) (items : list Z) : list (bool * Z) :=
  map (fun s => (uside_of usides s, 1 + pos ids s)) items.
Definition region_entries (ids : list Z) (rsides : PairedSigns) (b : MBlock) : list (bool * Z) :=
  map (fun s => (side_of rsides (b_id b) s, 1 + pos ids s)) (b_boundaries b) ++
  flat_map (fun s => [(true, 1 + pos ids s); (false, 1 + pos ids s)]) (b_internals b).

Section Regions.
Context {F : Num}.
Variable uuid_text : Z -> bytes.
Variable ids : list Z. (* the exported surfaces *)
Notation N := (lenz ids).

Definition universe_line : bytes := lit "REGION " ++ show (1 + N) ++ lit "  Universe ".
Definition region_line (n : Z) (b : MBlock) : bytes :=
  lit "REGION " ++ show n ++ SP :: component_name uuid_text (b_name b) (b_id b).
Fixpoint region_lines (n : Z) (rsides : PairedSigns) (bs : list MBlock) : list bytes :=
  match bs with
  | [] => []
  | b :: r => region_line n b :: id_lines (map entry_text (region_entries ids rsides b))
              ++ region_lines (n + 1) rsides r
  end.

Lemma write_universe_ok (m : SModel F) usides :
  (forall s, In s (flat_map c_items (m_bounds m)) -> In s ids /\ exists x, find_id usides s = Some x) ->
  write_universe m usides (mkComps (numbered 1 ids) (1 + N))
  = Ok (universe_line :: id_lines (map entry_text (universe_entries ids usides (flat_map c_items (m_bounds m)))),
        mkComps (numbered 1 ids) (2 + N)).
Proof.
  intros H. unfold write_universe.
  rewrite (mapM_ok_map _ (fun s => entry_text (uside_of usides s, 1 + pos ids s))).
  - cbn [bind comps next_id]. unfold universe_entries. rewrite map_map. unfold universe_line.
    replace (1 + N + 1) with (2 + N) by lia. reflexivity.
  - intros s Hs. destruct (H s Hs) as [H1 [x Hx]].
    unfold uside_of. rewrite Hx. cbn [bind]. unfold comp_at. cbn [comps].
    rewrite find_numbered by assumption. reflexivity.
Qed.

Lemma write_regions_ok rsides bs done ls :
  (forall b s, In b bs -> In s (b_boundaries b) -> In s ids /\ exists x, find_pair rsides (b_id b) s = Some x) ->
  (forall b s, In b bs -> In s (b_internals b) -> In s ids) ->
  NoDup (ids ++ done ++ map b_id bs) ->
  foldM (write_region uuid_text rsides) bs
    (ls, mkComps (numbered 1 ids ++ numbered (2 + N) done) (2 + N + lenz done))
  = Ok (ls ++ region_lines (2 + N + lenz done) rsides bs,
        mkComps (numbered 1 ids ++ numbered (2 + N) (done ++ map b_id bs))
                (2 + N + lenz (done ++ map b_id bs))).
Proof.
  revert done ls. induction bs as [|b bs IH]; intros done ls Hb Hi Hn.
  - cbn [foldM map region_lines]. now rewrite !app_nil_r.
  - cbn [foldM]. unfold write_region at 1. cbn [comps next_id].
    rewrite (mapM_ok_map _ (fun s => entry_text (side_of rsides (b_id b) s, 1 + pos ids s))).
    2:{ intros s Hs. destruct (Hb b s ltac:(now left) Hs) as [H1 [x Hx]].
        unfold side_of. rewrite Hx. cbn [bind]. unfold comp_at. cbn [comps].
        rewrite (find_id_app_l _ _ _ (1 + pos ids s)) by now rewrite find_numbered. reflexivity. }
    cbn [bind].
    rewrite (mapM_ok_map _ (fun s => [entry_text (true, 1 + pos ids s); entry_text (false, 1 + pos ids s)])).
    2:{ intros s Hs. pose proof (Hi b s ltac:(now left) Hs) as H1. unfold comp_at. cbn [comps].
        rewrite (find_id_app_l _ _ _ (1 + pos ids s)) by now rewrite find_numbered. reflexivity. }
    cbn [bind]. cbn [map] in Hn.
    assert (Nd : ~ In (b_id b) (ids ++ done)).
    { rewrite app_assoc in Hn. apply NoDup_remove_2 in Hn. intros H. apply Hn, in_or_app. auto. }
    unfold emplace_id. rewrite find_id_app_r.
    2:{ apply find_numbered_none. intros H. apply Nd, in_or_app. auto. }
    rewrite find_numbered_none by (intros H; apply Nd, in_or_app; auto).
    rewrite <- app_assoc, <- numbered_snoc.
    replace (2 + N + lenz done + 1) with (2 + N + lenz (done ++ [b_id b])) by (rewrite lenz_snoc; lia).
    rewrite IH.
    + cbn [map region_lines]. rewrite <- !app_assoc. cbn [app].
      replace (2 + N + lenz (done ++ [b_id b])) with (2 + N + lenz done + 1) by (rewrite lenz_snoc; lia).
      unfold region_entries, region_line. rewrite map_app, map_map.
      replace (map entry_text (flat_map (fun s => [(true, 1 + pos ids s); (false, 1 + pos ids s)]) (b_internals b)))
        with (List.concat (map (fun s => [entry_text (true, 1 + pos ids s); entry_text (false, 1 + pos ids s)]) (b_internals b))).
      2:{ clear. induction (b_internals b) as [|x l IH]; [reflexivity|]. cbn [map flat_map List.concat]. rewrite IH. reflexivity. }
      reflexivity.
    + intros; apply Hb; auto; now right.
    + intros b' s' H1 H2. apply (Hi b'); auto; now right.
    + rewrite <- app_assoc. exact Hn.
Qed.

Definition unit_lines (bids : list Z) (kw : bytes) (u : Coll unit) : list bytes :=
  (kw ++ match c_name u with Some n => n | None => [] end)
  :: id_lines (map (fun b => show (2 + N + pos bids b)) (c_items u)).
Lemma write_unit_ok kw bids u nx : NoDup (ids ++ bids) -> c_name u <> None ->
  (forall b, In b (c_items u) -> In b bids) ->
  write_unit kw (mkComps (numbered 1 ids ++ numbered (2 + N) bids) nx) u = Ok (unit_lines bids kw u).
Proof.
  intros Hn Hnm Hi. unfold write_unit, unit_lines. destruct (c_name u) as [n|]; [|congruence].
  cbn [name_value bind].
  rewrite (mapM_ok_map _ (fun b => show (2 + N + pos bids b))); [reflexivity|].
  intros b Hb. pose proof (Hi b Hb) as H. unfold comp_at. cbn [comps]. rewrite find_id_app_r.
  - rewrite find_numbered by assumption. reflexivity.
  - apply find_numbered_none. intros H1. clear -Hn H H1.
    induction ids as [|x l IH]; [inversion H1|]. cbn [app] in Hn. apply NoDup_cons_iff in Hn as [Hx Hn].
    destruct H1 as [->|H1]; [apply Hx, in_or_app; auto|auto].
Qed.
End Regions.

(** ** Lines of the component section, as the reader sees them *)
Lemma spaced_join ws : ws <> [] -> spaced ws = SP :: join ws.
Proof.
  induction ws as [|w ws IH]; [congruence|]. intros _. rewrite spaced_cons. f_equal.
  destruct ws as [|w2 ws]; [cbn; now rewrite app_nil_r|].
  rewrite IH by discriminate. reflexivity.
Qed.
Lemma split_kw kw ws : token kw -> ws <> [] -> Forall token ws -> string_split (kw ++ SP :: join ws) = kw :: ws.
Proof. intros Hk Hw Ht. rewrite <- spaced_join by assumption. now apply split_spaced_tokens. Qed.
Lemma split_kw1 kw a ws : token kw -> token a -> ws <> [] -> Forall token ws ->
  string_split (kw ++ SP :: a ++ SP :: join ws) = kw :: a :: ws.
Proof.
  intros Hk Ha Hw Ht. rewrite <- spaced_join by assumption. rewrite <- spaced_cons.
  apply split_spaced_tokens; [assumption|]. now constructor.
Qed.
Lemma split_kw2 kw a b ws : token kw -> token a -> token b -> ws <> [] -> Forall token ws ->
  string_split (kw ++ SP :: a ++ SP :: b ++ SP :: join ws) = kw :: a :: b :: ws.
Proof.
  intros Hk Ha Hb Hw Ht. rewrite <- spaced_join by assumption. rewrite <- !spaced_cons.
  apply split_spaced_tokens; [assumption|]. apply Forall_cons; [assumption|]. now apply Forall_cons.
Qed.

Definition ml_keywords : list bytes := map lit ["TSURF"; "TFACE"; "REGION"; "LAYER"; "FAULT_BLOCK"].

Lemma line_tsurf ts ss un bs us fs n r : clean n ->
  component_line (mkMlSt ts ss un bs us fs) (tsurf_line n) r
  = Ok (mkMlSt (ts ++ [mkTsMl n [] []]) ss un bs us fs, r).
Proof.
  intros [ws [Hw [Ht ->]]]. unfold component_line, tsurf_line.
  change (lit "TSURF " ++ join ws) with (lit "TSURF" ++ SP :: join ws).
  rewrite split_kw; [|tok|assumption|now apply words_tokens_of]. cbn [front bind tl].
  change (beq (lit "TSURF") (lit "TSURF")) with true. cbn iota. now rewrite read_name_join.
Qed.
Lemma line_tface ts ss un bs us fs i k n r ts' : 0 <= i -> token k -> clean n ->
  add_tface n k (lenz ss) ts = Some ts' ->
  component_line (mkMlSt ts ss un bs us fs) (tface_line_of i k n) r
  = Ok (mkMlSt ts' (ss ++ [n]) un bs us fs, r).
Proof.
  intros Hi Hk [ws [Hw [Ht ->]]] E. unfold component_line, tface_line_of.
  change (lit "TFACE " ++ show i ++ SP :: k ++ SP :: join ws)
    with (lit "TFACE" ++ SP :: show i ++ SP :: k ++ SP :: join ws).
  rewrite split_kw2; [|tok|now apply show_token|assumption|assumption|now apply words_tokens_of].
  cbn [front bind tl].
  change (beq (lit "TFACE") (lit "TSURF")) with false. change (beq (lit "TFACE") (lit "TFACE")) with true.
  cbn iota. rewrite idx_S, idx_0. cbn [bind skipn]. rewrite read_name_join by assumption. rewrite E. reflexivity.
Qed.

Definition coords_not_keywords (F : Num) : Prop := forall v, ~ In (pt_text F v) ml_keywords.
Lemma line_key {F} (HF : num_ok F) (HK : coords_not_keywords F) st (p : point F) r :
  component_line st (SP :: SP :: point_string p) r = Ok (st, r).
Proof.
  unfold component_line. destruct p as [[x y] z].
  assert (E : string_split (SP :: SP :: point_string (x, y, z)) = [pt_text F x; pt_text F y; pt_text F z]).
  { rewrite string_split_plain.
    - rewrite !words_sep by reflexivity. unfold point_string.
      rewrite (words_tok_sep (pt_text F x) SP); [|apply HF|reflexivity].
      rewrite (words_tok_sep (pt_text F y) SP); [|apply HF|reflexivity].
      rewrite words_tok by apply HF. reflexivity.
    - repeat (apply plain_cons; [reflexivity|]). unfold point_string.
      apply plain_app; [apply plain_token, HF|]. apply plain_cons; [reflexivity|].
      apply plain_app; [apply plain_token, HF|]. apply plain_cons; [reflexivity|].
      apply plain_token, HF. }
  rewrite E. cbn [front bind tl]. destruct st. pose proof (HK x) as H.
  assert (B : forall k, In k ml_keywords -> beq (pt_text F x) k = false).
  { intros k Hk. apply beq_neq. intros Ex. apply H. now rewrite Ex. }
  rewrite !B by (cbn; tauto). reflexivity.
Qed.

Definition entries_ok (n : Z) (es : list (bool * Z)) : Prop :=
  Forall (fun e => 1 <= snd e <= n) es.
Lemma entries_tokens n es : entries_ok n es -> Forall token (map entry_text es).
Proof.
  intros H. apply Forall_map. eapply Forall_impl; [|exact H]. intros e He. cbn beta in He.
  apply signed_token. lia.
Qed.
Lemma entries_numbers n es : n < 2147483648 -> entries_ok n es ->
  mapM surface_number (map entry_value es) = Ok (map (fun e => snd e - 1) es).
Proof.
  intros Hn H. rewrite mapM_map. apply mapM_ok_map. intros e He.
  unfold entries_ok in H. rewrite Forall_forall in H. specialize (H e He).
  unfold surface_number, entry_value. destruct (fst e).
  - rewrite (proj2 (Z.eqb_neq _ _)) by lia. f_equal. lia.
  - rewrite (proj2 (Z.eqb_neq _ _)) by lia. f_equal. lia.
Qed.
Lemma value_nonzero n e : 1 <= snd e <= n -> entry_value e <> 0.
Proof. unfold entry_value. destruct (fst e); lia. Qed.
Lemma surface_number_value n e : n < 2147483648 -> 1 <= snd e <= n ->
  surface_number (entry_value e) = Ok (snd e - 1).
Proof.
  intros Hn H. unfold surface_number, entry_value.
  destruct (fst e); rewrite (proj2 (Z.eqb_neq _ _)) by lia; f_equal; lia.
Qed.
Lemma Forall2_map_both {A B C} (R : B -> C -> Prop) (f : A -> B) (g : A -> C) l :
  (forall a, In a l -> R (f a) (g a)) -> Forall2 R (map f l) (map g l).
Proof.
  induction l as [|a l IH]; intros H; cbn [map]; constructor; [apply H; now left|].
  apply IH. intros; apply H; now right.
Qed.

Lemma read_universe_ids n es rest : n < 2147483648 -> entries_ok n es ->
  read_ids (universe_parse n) (id_lines (map entry_text es) ++ rest) = Ok (map entry_value es, rest).
Proof.
  intros Hn H. apply read_id_lines; [reflexivity|now apply (entries_tokens n)|].
  apply Forall2_map_both. intros e He. unfold entries_ok in H. rewrite Forall_forall in H. specialize (H e He).
  split; [|now apply (value_nonzero n)].
  unfold universe_parse, string_to_int, entry_text. rewrite parse_int_signed by lia.
  cbn [bind]. fold (entry_value e). rewrite (proj2 (Z.eqb_neq _ _)) by now apply (value_nonzero n).
  rewrite (surface_number_value n) by assumption. cbn [bind].
  rewrite (proj2 (Z.ltb_lt _ _)) by lia. reflexivity.
Qed.
Lemma read_block_ids n es rest : n < 2147483648 -> entries_ok n es ->
  read_ids block_parse (id_lines (map entry_text es) ++ rest) = Ok (map entry_value es, rest).
Proof.
  intros Hn H. apply read_id_lines; [reflexivity|now apply (entries_tokens n)|].
  apply Forall2_map_both. intros e He. unfold entries_ok in H. rewrite Forall_forall in H. specialize (H e He).
  split; [|now apply (value_nonzero n)].
  unfold block_parse, string_to_int, entry_text. rewrite parse_int_signed by lia.
  cbn [bind]. fold (entry_value e). rewrite (proj2 (Z.eqb_neq _ _)) by now apply (value_nonzero n).
  rewrite (surface_number_value n) by assumption. reflexivity.
Qed.
Lemma read_unit_ids ns rest : Forall (fun n => 0 < n < two32) ns ->
  read_ids string_to_index (id_lines (map show ns) ++ rest) = Ok (ns, rest).
Proof.
  intros H. apply read_id_lines; [reflexivity| |].
  - apply Forall_map. eapply Forall_impl; [|exact H]. intros n Hn. cbn beta in Hn. apply show_token. lia.
  - rewrite <- (map_id ns) at 2. apply Forall2_map_both. intros n Hn. rewrite Forall_forall in H.
    specialize (H n Hn). split; [apply string_to_index_show; lia|lia].
Qed.

Lemma line_universe ts ss un bs us fs ids es rest : lenz ss = lenz ids -> lenz ids < 2147483648 ->
  entries_ok (lenz ids) es ->
  component_line (mkMlSt ts ss un bs us fs) (universe_line ids) (id_lines (map entry_text es) ++ rest)
  = Ok (mkMlSt ts ss (un ++ map (fun e => snd e - 1) es) bs us fs, rest).
Proof.
  intros El Hn He. unfold component_line, universe_line. pose proof (lenz_nonneg ids).
  assert (Tk : token (show (1 + lenz ids))) by (apply show_token; lia).
  assert (E : string_split (lit "REGION " ++ show (1 + lenz ids) ++ lit "  Universe ")
    = [lit "REGION"; show (1 + lenz ids); lit "Universe"]).
  { change (lit "REGION " ++ show (1 + lenz ids) ++ lit "  Universe ")
      with (lit "REGION" ++ SP :: show (1 + lenz ids) ++ SP :: SP :: lit "Universe" ++ [SP]).
    rewrite string_split_plain.
    - rewrite words_tok_sep by (tok || reflexivity).
      rewrite words_tok_sep by (assumption || reflexivity). rewrite words_sep by reflexivity.
      rewrite words_tok_sep by (tok || reflexivity). reflexivity.
    - apply plain_app; [apply plain_token; tok|]. apply plain_cons; [reflexivity|].
      apply plain_app; [now apply plain_token|]. repeat (apply plain_cons; [reflexivity|]).
      apply plain_app; [apply plain_token; tok|]. apply plain_cons; [reflexivity|constructor]. }
  rewrite E. cbn [front bind tl].
  change (beq (lit "REGION") (lit "TSURF")) with false. change (beq (lit "REGION") (lit "TFACE")) with false.
  change (beq (lit "REGION") (lit "REGION")) with true. cbn iota.
  rewrite idx_0. cbn [bind skipn].
  change (beq (read_name [lit "Universe"]) (lit "Universe")) with true. cbn iota.
  rewrite El, read_universe_ids by assumption. cbn [bind].
  rewrite (entries_numbers (lenz ids)) by assumption. reflexivity.
Qed.

Lemma line_region ts ss un bs us fs uuid_text b n N es rest bd it :
  0 <= n -> clean (component_name uuid_text (b_name b) (b_id b)) ->
  component_name uuid_text (b_name b) (b_id b) <> lit "Universe" ->
  N < 2147483648 -> entries_ok N es ->
  block_topology (lenz ss) (map (fun e => snd e - 1) es) = Ok (bd, it) ->
  component_line (mkMlSt ts ss un bs us fs) (region_line uuid_text n b) (id_lines (map entry_text es) ++ rest)
  = Ok (mkMlSt ts ss un (bs ++ [mkBlkIn (component_name uuid_text (b_name b) (b_id b)) bd it]) us fs, rest).
Proof.
  intros Hn0 [ws [Hw [Ht Ej]]] Hu Hn He Htop. unfold component_line, region_line. rewrite Ej in *.
  change (lit "REGION " ++ show n ++ SP :: join ws) with (lit "REGION" ++ SP :: show n ++ SP :: join ws).
  rewrite split_kw1; [|tok|now apply show_token|assumption|now apply words_tokens_of].
  cbn [front bind tl].
  change (beq (lit "REGION") (lit "TSURF")) with false. change (beq (lit "REGION") (lit "TFACE")) with false.
  change (beq (lit "REGION") (lit "REGION")) with true. cbn iota.
  rewrite idx_0. cbn [bind skipn]. rewrite read_name_join by assumption.
  rewrite (proj2 (beq_neq _ _)) by assumption. cbn iota.
  rewrite (read_block_ids N) by assumption. cbn [bind].
  rewrite (entries_numbers N) by assumption. cbn [bind]. rewrite Htop. reflexivity.
Qed.

Lemma line_layer ts ss un bs us fs n ns rest : clean n -> Forall (fun n => 0 < n < two32) ns ->
  component_line (mkMlSt ts ss un bs us fs) (lit "LAYER " ++ n) (id_lines (map show ns) ++ rest)
  = Ok (mkMlSt ts ss un bs (us ++ [(n, unit_blocks (lenz ss) (lenz bs) ns)]) fs, rest).
Proof.
  intros [ws [Hw [Ht ->]]] Hn. unfold component_line.
  change (lit "LAYER " ++ join ws) with (lit "LAYER" ++ SP :: join ws).
  rewrite split_kw; [|tok|assumption|now apply words_tokens_of]. cbn [front bind tl].
  change (beq (lit "LAYER") (lit "TSURF")) with false. change (beq (lit "LAYER") (lit "TFACE")) with false.
  change (beq (lit "LAYER") (lit "REGION")) with false. change (beq (lit "LAYER") (lit "LAYER")) with true.
  cbn iota. rewrite read_unit_ids by assumption. cbn [bind]. now rewrite read_name_join.
Qed.
Lemma line_fault_block ts ss un bs us fs n ns rest : clean n -> Forall (fun n => 0 < n < two32) ns ->
  component_line (mkMlSt ts ss un bs us fs) (lit "FAULT_BLOCK " ++ n) (id_lines (map show ns) ++ rest)
  = Ok (mkMlSt ts ss un bs us (fs ++ [(n, unit_blocks (lenz ss) (lenz bs) ns)]), rest).
Proof.
  intros [ws [Hw [Ht ->]]] Hn. unfold component_line.
  change (lit "FAULT_BLOCK " ++ join ws) with (lit "FAULT_BLOCK" ++ SP :: join ws).
  rewrite split_kw; [|tok|assumption|now apply words_tokens_of]. cbn [front bind tl].
  change (beq (lit "FAULT_BLOCK") (lit "TSURF")) with false. change (beq (lit "FAULT_BLOCK") (lit "TFACE")) with false.
  change (beq (lit "FAULT_BLOCK") (lit "REGION")) with false. change (beq (lit "FAULT_BLOCK") (lit "LAYER")) with false.
  change (beq (lit "FAULT_BLOCK") (lit "FAULT_BLOCK")) with true.
  cbn iota. rewrite read_unit_ids by assumption. cbn [bind]. now rewrite read_name_join.
Qed.

(** ** Several lines *)
Inductive steps : MlSt -> list bytes -> MlSt -> list bytes -> Prop :=
| steps_refl st r : steps st r st r
| steps_step st l r st' r' st2 r2 : starts_with l "END" = false ->
    component_line st l r = Ok (st', r') -> steps st' r' st2 r2 -> steps st (l :: r) st2 r2.
Lemma steps_trans st r st1 r1 st2 r2 : steps st r st1 r1 -> steps st1 r1 st2 r2 -> steps st r st2 r2.
Proof. induction 1; intros; [assumption|]. econstructor; eauto. Qed.
Lemma steps_one st l r st' r' : starts_with l "END" = false ->
  component_line st l r = Ok (st', r') -> steps st (l :: r) st' r'.
Proof. intros. econstructor; eauto. constructor. Qed.

Lemma component_line_length st l r st' r' :
  component_line st l r = Ok (st', r') -> (List.length r' <= List.length r)%nat.
Proof.
  unfold component_line. intros H. apply bind_ok in H as [kw [_ H]]. destruct st as [ts ss un bs us fs].
  destruct (beq kw "TSURF"); [injection H as _ <-; lia|].
  destruct (beq kw "TFACE").
  { apply bind_ok in H as [f [_ H]]. destruct (add_tface _ _ _ _); [|discriminate]. injection H as _ <-. lia. }
  destruct (beq kw "REGION").
  { apply bind_ok in H as [f [_ H]]. destruct (beq _ _).
    - apply bind_ok in H as [[vs r1] [H1 H]]. apply read_ids_length in H1.
      apply bind_ok in H as [ns [_ H]]. injection H as _ <-. lia.
    - apply bind_ok in H as [[vs r1] [H1 H]]. apply read_ids_length in H1.
      apply bind_ok in H as [ns [_ H]]. apply bind_ok in H as [[bd it] [_ H]]. injection H as _ <-. lia. }
  destruct (beq kw "LAYER").
  { apply bind_ok in H as [[vs r1] [H1 H]]. apply read_ids_length in H1. injection H as _ <-. lia. }
  destruct (beq kw "FAULT_BLOCK").
  { apply bind_ok in H as [[vs r1] [H1 H]]. apply read_ids_length in H1. injection H as _ <-. lia. }
  injection H as _ <-. lia.
Qed.
Lemma steps_loop st ls st' l r : steps st ls st' (l :: r) -> starts_with l "END" = true ->
  forall f, (List.length ls < f)%nat -> components_loop f st ls = Ok (st', r).
Proof.
  intros H He. remember (l :: r) as q eqn:Eq. induction H as [st q'|st l0 r0 st1 r1 st2 r2 Hl Hc Hs IH]; intros f Hf.
  - subst q'. destruct f; [simpl in Hf; lia|]. cbn [components_loop]. now rewrite He.
  - destruct f; [simpl in Hf; lia|]. cbn [components_loop]. rewrite Hl, Hc. cbn [bind].
    apply IH; [assumption|]. apply component_line_length in Hc. simpl in Hf. lia.
Qed.

(** ** The component section read back *)
Lemma steps_tsurfs names ts ss un bs us fs rest : Forall clean names ->
  steps (mkMlSt ts ss un bs us fs) (map tsurf_line names ++ rest)
        (mkMlSt (ts ++ map (fun n => mkTsMl n [] []) names) ss un bs us fs) rest.
Proof.
  intros H. revert ts. induction H as [|n names Hn H IH]; intros ts; cbn [map app].
  - rewrite app_nil_r. constructor.
  - econstructor; [reflexivity|now apply line_tsurf|]. specialize (IH (ts ++ [mkTsMl n [] []])).
    rewrite <- app_assoc in IH. exact IH.
Qed.

Section ReadBack.
Context {F : Num} (HF : num_ok F) (HK : coords_not_keywords F).
Variable uuid_text : Z -> bytes.
Notation sec := (bytes * bytes * list (MSurf F))%type.

Lemma steps_keys ks st rest : Forall (fun l => exists p : point F, l = SP :: SP :: point_string p) ks ->
  steps st (ks ++ rest) st rest.
Proof.
  induction 1 as [|l ks [p ->] H IH]; [constructor|]. cbn [app].
  econstructor; [reflexivity|now apply line_key|exact IH].
Qed.

Lemma add_tface_mid n k s pre f faces post : ~ In n (map tm_name pre) ->
  add_tface n k s (pre ++ mkTsMl n f faces :: post) = Some (pre ++ mkTsMl n k (faces ++ [s]) :: post).
Proof.
  induction pre as [|t pre IH]; intros H; cbn [app add_tface tm_name tm_faces].
  - now rewrite beq_refl.
  - cbn [map In] in H. rewrite (proj2 (beq_neq _ _)) by tauto. rewrite IH by tauto. reflexivity.
Qed.

Lemma steps_faces k n (ss : list (MSurf F)) i pre f faces post snames un bs us fs rest :
  ~ In n (map tm_name pre) -> 0 <= i -> token k -> clean n -> Forall good_surf ss ->
  steps (mkMlSt (pre ++ mkTsMl n f faces :: post) snames un bs us fs) (face_lines i k n ss ++ rest)
        (mkMlSt (pre ++ mkTsMl n (match ss with [] => f | _ => k end)
                               (faces ++ rangez (lenz snames) (List.length ss)) :: post)
                (snames ++ repeat n (List.length ss)) un bs us fs) rest.
Proof.
  intros Hp Hi Hk Hn Hs. revert i f faces snames Hi. induction Hs as [|s ss Hg Hs IH]; intros i f faces snames Hi.
  - cbn [face_lines app List.length rangez repeat]. rewrite !app_nil_r. constructor.
  - cbn [face_lines app]. rewrite <- app_assoc.
    econstructor; [reflexivity|apply (line_tface _ _ _ _ _ _ i k n _ _ Hi Hk Hn (add_tface_mid n k _ pre f faces post Hp))|].
    eapply steps_trans; [apply steps_keys; now apply key_lines_ok|].
    specialize (IH (i + 1) k (faces ++ [lenz snames]) (snames ++ [n]) ltac:(lia)).
    rewrite <- !app_assoc, lenz_snoc in IH. cbn [app List.length rangez repeat].
    replace (match ss with [] => k | _ :: _ => k end) with k in IH by (destruct ss; reflexivity).
    exact IH.
Qed.

Fixpoint filled (c : Z) (secs : list sec) : list TsMl :=
  match secs with
  | [] => []
  | (k, n, ss) :: r => mkTsMl n k (rangez c (List.length ss)) :: filled (c + lenz ss) r
  end.
Definition sec_names (secs : list sec) : list bytes :=
  flat_map (fun s => repeat (snd (fst s)) (List.length (snd s))) secs.
Record good_sec (s : sec) : Prop := {
  gc_kind : token (fst (fst s));
  gc_name : clean (snd (fst s));
  gc_surfs : Forall good_surf (snd s);
  gc_some : snd s <> []
}.
Lemma steps_all_faces (secs : list sec) i pre snames un bs us fs rest :
  Forall good_sec secs -> NoDup (map tm_name pre ++ map (fun s : sec => snd (fst s)) secs) -> 0 <= i ->
  steps (mkMlSt (pre ++ map (fun n => mkTsMl n [] []) (map (fun s : sec => snd (fst s)) secs)) snames un bs us fs)
        (all_faces i secs ++ rest)
        (mkMlSt (pre ++ filled (lenz snames) secs) (snames ++ sec_names secs) un bs us fs) rest.
Proof.
  intros H. revert i pre snames. induction H as [|[[k n] ss] secs [Hk Hn Hg Hs] H IH]; intros i pre snames Hd Hi.
  - cbn [map app all_faces filled sec_names flat_map]. rewrite !app_nil_r. constructor.
  - cbn [fst snd map] in *. cbn [all_faces]. rewrite <- app_assoc.
    assert (Hp : ~ In n (map tm_name pre)).
    { apply NoDup_remove_2 in Hd. intros Hin. apply Hd, in_or_app. auto. }
    eapply steps_trans; [apply steps_faces; assumption|].
    cbn [filled sec_names flat_map fst snd].
    destruct ss as [|s0 ss0] eqn:Ess; [congruence|]. rewrite <- Ess in *. clear Ess s0 ss0.
    specialize (IH (i + lenz ss) (pre ++ [mkTsMl n k (rangez (lenz snames) (List.length ss))])
      (snames ++ repeat n (List.length ss))).
    pose proof (lenz_nonneg ss).
    rewrite <- !app_assoc in IH. cbn [app] in IH. 
    rewrite lenz_app in IH. replace (lenz (repeat n (List.length ss))) with (lenz ss) in IH
      by (unfold lenz; now rewrite repeat_length). apply IH.
    + rewrite map_app. cbn [map tm_name]. rewrite <- app_assoc. exact Hd.
    + lia.
Qed.

(** *** Blocks *)
Definition block_like (ids : list Z) (b : MBlock) (b' : BlkIn) : Prop :=
  bi_name b' = component_name uuid_text (b_name b) (b_id b) /\
  Permutation (bi_boundaries b') (map (pos ids) (b_boundaries b)) /\
  Permutation (bi_internals b') (map (pos ids) (b_internals b)).

Lemma cnt_app a b x : cnt (a ++ b) x = (cnt a x + cnt b x)%nat.
Proof. apply count_occ_app. Qed.
Lemma cnt_double l x : cnt (flat_map (fun s => [s; s]) l) x = (2 * cnt l x)%nat.
Proof.
  induction l as [|y l IH]; [reflexivity|]. cbn [flat_map app]. rewrite !cnt_cons, IH.
  destruct (y =? x); lia.
Qed.
Lemma cnt_nodup l x : NoDup l -> (cnt l x <= 1)%nat.
Proof. intros H. now apply (NoDup_count_occ Z.eq_dec). Qed.
Lemma cnt_in l x : (0 < cnt l x)%nat <-> In x l.
Proof. symmetry. apply (count_occ_In Z.eq_dec). Qed.
Lemma map_pos_nodup ids l : NoDup l -> (forall x, In x l -> In x ids) -> NoDup (map (pos ids) l).
Proof.
  induction 1 as [|x l Hx Hn IH]; intros H; cbn [map]; constructor.
  - intros Hi. apply in_map_iff in Hi as [y [E Hy]]. apply pos_inj in E; [subst; tauto| |]; apply H; cbn [In]; auto.
  - apply IH. intros; apply H; now right.
Qed.

Lemma block_read ids rsides b : NoDup (b_boundaries b ++ b_internals b) ->
  (forall s, In s (b_boundaries b ++ b_internals b) -> In s ids) ->
  (2 <= List.length (b_boundaries b) + 2 * List.length (b_internals b))%nat ->
  exists bd it,
    block_topology (lenz ids) (map (fun e => snd e - 1) (region_entries ids rsides b)) = Ok (bd, it) /\
    Permutation bd (map (pos ids) (b_boundaries b)) /\ Permutation it (map (pos ids) (b_internals b)).
Proof.
  intros Hn Hi Hl.
  assert (E : map (fun e => snd e - 1) (region_entries ids rsides b)
    = map (pos ids) (b_boundaries b) ++ flat_map (fun s => [s; s]) (map (pos ids) (b_internals b))).
  { unfold region_entries. rewrite map_app, map_map. cbn [snd]. f_equal.
    - apply map_ext. intros; lia.
    - clear. induction (b_internals b) as [|x l IH]; [reflexivity|]. cbn [flat_map map app snd]. rewrite IH.
      replace (1 + pos ids x - 1) with (pos ids x) by lia. reflexivity. }
  rewrite E. clear E.
  pose proof (map_pos_nodup ids _ Hn Hi) as Hm. rewrite map_app in Hm.
  set (B := map (pos ids) (b_boundaries b)) in *. set (I := map (pos ids) (b_internals b)) in *.
  assert (Hr : forall x, In x (B ++ I) -> 0 <= x < lenz ids).
  { intros x Hx. unfold B, I in Hx. rewrite <- map_app in Hx. apply in_map_iff in Hx as [s [<- Hs]].
    apply pos_range. auto. }
  assert (C : forall x, (cnt B x + cnt I x <= 1)%nat) by (intros x; rewrite <- cnt_app; now apply cnt_nodup).
  destruct (block_topology_spec (lenz ids) (B ++ flat_map (fun s => [s; s]) I)) as [bd [it [E [N1 [N2 [S1 S2]]]]]].
  - intros x Hx. apply Hr. rewrite in_app_iff in *. destruct Hx as [Hx|Hx]; [auto|].
    apply in_flat_map in Hx as [y [Hy [<-|[<-|[]]]]]; auto.
  - intros x. specialize (C x). rewrite cnt_app, cnt_double. lia.
  - rewrite app_length. replace (List.length (flat_map (fun s => [s; s]) I)) with (2 * List.length I)%nat.
    + unfold B, I. rewrite !map_length. lia.
    + clear. induction I as [|x l IH]; [reflexivity|]. cbn [flat_map app List.length]. lia.
  - exists bd, it. split; [assumption|].
    assert (NB : NoDup B /\ NoDup I).
    { clear -Hm. induction B as [|x B IH]; [split; [constructor|assumption]|].
      cbn [app] in Hm. apply NoDup_cons_iff in Hm as [H1 H2]. destruct (IH H2) as [IH1 IH2].
      split; [constructor; [|assumption]|assumption]. intros H. apply H1, in_or_app. auto. }
    split; apply NoDup_Permutation; try tauto; intros x; rewrite ?S1, ?S2; rewrite cnt_app, cnt_double;
      specialize (C x); rewrite <- cnt_in; lia.
Qed.

Record good_block (ids : list Z) (b : MBlock) : Prop := {
  gb_name : clean (component_name uuid_text (b_name b) (b_id b));
  gb_not_universe : component_name uuid_text (b_name b) (b_id b) <> lit "Universe";
  gb_nodup : NoDup (b_boundaries b ++ b_internals b);
  gb_known : forall s, In s (b_boundaries b ++ b_internals b) -> In s ids;
  gb_two : (2 <= List.length (b_boundaries b) + 2 * List.length (b_internals b))%nat
}.
Lemma region_entries_ok ids rsides b : good_block ids b -> entries_ok (lenz ids) (region_entries ids rsides b).
Proof.
  intros [_ _ _ Hk _]. unfold entries_ok, region_entries. apply Forall_app. split.
  - apply Forall_map, Forall_forall. intros s Hs. cbn [snd].
    pose proof (pos_range ids s (Hk s ltac:(apply in_or_app; auto))). lia.
  - apply Forall_forall. intros e He. apply in_flat_map in He as [s [Hs He]].
    pose proof (pos_range ids s (Hk s ltac:(apply in_or_app; auto))).
    destruct He as [<-|[<-|[]]]; cbn [snd]; lia.
Qed.
Lemma steps_regions ids rsides bs n ts ss un bs0 us fs rest :
  lenz ids < 2147483648 -> lenz ss = lenz ids -> Forall (good_block ids) bs -> 0 <= n ->
  exists bls, Forall2 (block_like ids) bs bls /\
  steps (mkMlSt ts ss un bs0 us fs) (region_lines uuid_text ids n rsides bs ++ rest)
        (mkMlSt ts ss un (bs0 ++ bls) us fs) rest.
Proof.
  intros HN Hss H. revert n bs0. induction H as [|b bs Hb H IH]; intros n bs0 Hn.
  - exists []. split; [constructor|]. rewrite app_nil_r. constructor.
  - destruct (block_read ids rsides b (gb_nodup _ _ Hb) (gb_known _ _ Hb) (gb_two _ _ Hb)) as [bd [it [E [P1 P2]]]].
    destruct (IH (n + 1) (bs0 ++ [mkBlkIn (component_name uuid_text (b_name b) (b_id b)) bd it]) ltac:(lia)) as [bls [F2 S]].
    exists (mkBlkIn (component_name uuid_text (b_name b) (b_id b)) bd it :: bls). split.
    + constructor; [split; [reflexivity|auto]|assumption].
    + cbn [region_lines app]. rewrite <- !app_assoc in *. cbn [app] in S.
      econstructor; [reflexivity| |exact S].
      apply (line_region _ _ _ _ _ _ uuid_text b n (lenz ids)); try assumption.
      * apply Hb. * apply Hb. * now apply region_entries_ok. * now rewrite Hss.
Qed.

(** *** Units *)
Lemma unit_blocks_read N (ids bids items : list Z) : N = lenz ids -> (forall b, In b items -> In b bids) ->
  2 + N + lenz bids < two32 ->
  unit_blocks N (lenz bids) (map (fun b => 2 + N + pos bids b) items) = map (pos bids) items.
Proof.
  intros HN Hi Hb. induction items as [|b items IH]; [reflexivity|].
  unfold unit_blocks in *. cbn [map flat_map]. rewrite IH by (intros; apply Hi; now right).
  pose proof (pos_range bids b (Hi b ltac:(now left))) as H. pose proof (lenz_nonneg ids).
  replace (wrap32 (2 + N + pos bids b - (1 + N))) with (1 + pos bids b).
  2:{ rewrite wrap32_small; lia. }
  rewrite (proj2 (Z.eqb_neq _ _)) by lia.
  replace (1 + pos bids b - 1) with (pos bids b) by lia.
  rewrite (proj2 (Z.ltb_lt _ _)) by lia. reflexivity.
Qed.
Definition unit_name (u : Coll unit) : bytes := match c_name u with Some n => n | None => [] end.
Record good_unit (bids : list Z) (u : Coll unit) : Prop := {
  gu_named : c_name u <> None;
  gu_clean : clean (unit_name u);
  gu_known : forall b, In b (c_items u) -> In b bids
}.
Definition unit_like (bids : list Z) (u : Coll unit) : bytes * list Z := (unit_name u, map (pos bids) (c_items u)).

Lemma unit_numbers (ids bids items : list Z) : (forall b, In b items -> In b bids) ->
  2 + lenz ids + lenz bids < two32 -> Forall (fun n => 0 < n < two32) (map (fun b => 2 + lenz ids + pos bids b) items).
Proof.
  intros Hi Hb. apply Forall_map, Forall_forall. intros b H. pose proof (pos_range bids b (Hi b H)).
  pose proof (lenz_nonneg ids). lia.
Qed.
Lemma steps_layers ids bids us0 ts ss un bs us fs rest :
  lenz ss = lenz ids -> lenz bs = lenz bids -> 2 + lenz ids + lenz bids < two32 -> Forall (good_unit bids) us0 ->
  steps (mkMlSt ts ss un bs us fs) (flat_map (unit_lines ids bids (lit "LAYER ")) us0 ++ rest)
        (mkMlSt ts ss un bs (us ++ map (unit_like bids) us0) fs) rest.
Proof.
  intros Hs Hb Hn H. revert us. induction H as [|u us0 Hu H IH]; intros us.
  - cbn [flat_map map app]. rewrite app_nil_r. constructor.
  - cbn [flat_map map]. rewrite <- app_assoc. unfold unit_lines at 1. cbn [app].
    specialize (IH (us ++ [unit_like bids u])). rewrite <- app_assoc in IH. cbn [app] in IH.
    econstructor; [reflexivity| |exact IH]. fold (unit_name u).
    rewrite <- (map_map (fun b => 2 + lenz ids + pos bids b) show).
    rewrite line_layer; [|apply Hu|apply unit_numbers; [apply Hu|assumption]].
    unfold unit_like. rewrite Hs, Hb. rewrite (unit_blocks_read _ ids) by (reflexivity || apply Hu || assumption).
    reflexivity.
Qed.
Lemma steps_fault_blocks ids bids us0 ts ss un bs us fs rest :
  lenz ss = lenz ids -> lenz bs = lenz bids -> 2 + lenz ids + lenz bids < two32 -> Forall (good_unit bids) us0 ->
  steps (mkMlSt ts ss un bs us fs) (flat_map (unit_lines ids bids (lit "FAULT_BLOCK ")) us0 ++ rest)
        (mkMlSt ts ss un bs us (fs ++ map (unit_like bids) us0)) rest.
Proof.
  intros Hs Hb Hn H. revert fs. induction H as [|u us0 Hu H IH]; intros fs.
  - cbn [flat_map map app]. rewrite app_nil_r. constructor.
  - cbn [flat_map map]. rewrite <- app_assoc. unfold unit_lines at 1. cbn [app].
    specialize (IH (fs ++ [unit_like bids u])). rewrite <- app_assoc in IH. cbn [app] in IH.
    econstructor; [reflexivity| |exact IH]. fold (unit_name u).
    rewrite <- (map_map (fun b => 2 + lenz ids + pos bids b) show).
    rewrite line_fault_block; [|apply Hu|apply unit_numbers; [apply Hu|assumption]].
    unfold unit_like. rewrite Hs, Hb. rewrite (unit_blocks_read _ ids) by (reflexivity || apply Hu || assumption).
    reflexivity.
Qed.

(** *** The whole component section *)
Record good_model (m : SModel F) (usides : list (Z * bool)) (rsides : PairedSigns) (secs : list sec) : Prop := {
  gm_sections : sections_are uuid_text m secs;
  gm_secs : Forall good_sec secs;
  gm_names : NoDup (map (fun s : sec => snd (fst s)) secs);
  gm_universe : forall s, In s (flat_map c_items (m_bounds m)) ->
                  In s (sec_ids secs) /\ exists x, find_id usides s = Some x;
  gm_blocks : Forall (good_block (sec_ids secs)) (m_blocks m);
  gm_sides : forall b s, In b (m_blocks m) -> In s (b_boundaries b) -> exists x, find_pair rsides (b_id b) s = Some x;
  gm_ids : NoDup (sec_ids secs ++ map b_id (m_blocks m));
  gm_units : Forall (good_unit (map b_id (m_blocks m))) (m_units m);
  gm_fblocks : Forall (good_unit (map b_id (m_blocks m))) (m_fblocks m);
  gm_count : lenz (sec_ids secs) < 2147483648;
  gm_count2 : 2 + lenz (sec_ids secs) + lenz (m_blocks m) < two32
}.

Definition component_lines (m : SModel F) usides rsides (secs : list sec) : list bytes :=
  let ids := sec_ids secs in let bids := map b_id (m_blocks m) in
  map tsurf_line (map (fun s : sec => snd (fst s)) secs) ++ all_faces 1 secs ++
  (universe_line ids :: id_lines (map entry_text (universe_entries ids usides (flat_map c_items (m_bounds m))))) ++
  region_lines uuid_text ids (2 + lenz ids) rsides (m_blocks m) ++
  flat_map (unit_lines ids bids (lit "LAYER ")) (m_units m) ++
  flat_map (unit_lines ids bids (lit "FAULT_BLOCK ")) (m_fblocks m) ++ [lit "END"].

Lemma write_components_ok m usides rsides secs : good_model m usides rsides secs ->
  write_components uuid_text m usides rsides = Ok (component_lines m usides rsides secs).
Proof.
  intros G. unfold write_components, component_lines. cbn zeta.
  rewrite (write_tsurfs_ok uuid_text m secs) by apply G. cbn [bind].
  rewrite (write_tfaces_ok uuid_text m secs) by apply G. cbn [bind].
  rewrite (write_universe_ok (sec_ids secs)) by apply G. cbn [bind].
  pose proof (write_regions_ok uuid_text (sec_ids secs) rsides (m_blocks m) [] []) as E.
  cbn [app] in E. unfold numbered in E at 2. cbn [List.length rangez combine] in E. rewrite app_nil_r in E.
  change (lenz []) with 0 in E. rewrite Z.add_0_r in E. rewrite E; clear E.
  2:{ intros b s Hb Hs. split; [|eapply gm_sides; eauto]. pose proof (gm_blocks _ _ _ _ G) as H.
      rewrite Forall_forall in H. apply (gb_known _ _ (H b Hb)). apply in_or_app. auto. }
  2:{ intros b s Hb Hs. pose proof (gm_blocks _ _ _ _ G) as H.
      rewrite Forall_forall in H. apply (gb_known _ _ (H b Hb)). apply in_or_app. auto. }
  2:{ apply G. }
  cbn [bind].
  rewrite (mapM_ok_map _ (unit_lines (sec_ids secs) (map b_id (m_blocks m)) (lit "LAYER "))).
  2:{ intros u Hu. pose proof (gm_units _ _ _ _ G) as H. rewrite Forall_forall in H. specialize (H u Hu).
      apply write_unit_ok; [apply G|apply H|apply H]. }
  cbn [bind].
  rewrite (mapM_ok_map _ (unit_lines (sec_ids secs) (map b_id (m_blocks m)) (lit "FAULT_BLOCK "))).
  2:{ intros u Hu. pose proof (gm_fblocks _ _ _ _ G) as H. rewrite Forall_forall in H. specialize (H u Hu).
      apply write_unit_ok; [apply G|apply H|apply H]. }
  cbn [bind]. rewrite <- !flat_map_concat_map. reflexivity.
Qed.

Lemma sec_names_length (secs : list sec) : lenz (sec_names secs) = lenz (sec_ids secs).
Proof.
  induction secs as [|[[k n] ss] secs IH]; [reflexivity|].
  unfold sec_names, sec_ids in *. cbn [flat_map fst snd]. rewrite !lenz_app, IH, lenz_map.
  unfold lenz at 1. rewrite repeat_length. reflexivity.
Qed.

Lemma read_components_ok m usides rsides secs rest : good_model m usides rsides secs ->
  exists bls, Forall2 (block_like (sec_ids secs)) (m_blocks m) bls /\
  read_components (component_lines m usides rsides secs ++ rest)
  = Ok (mkMlSt (filled 0 secs) (sec_names secs)
          (map (pos (sec_ids secs)) (flat_map c_items (m_bounds m))) bls
          (map (unit_like (map b_id (m_blocks m))) (m_units m))
          (map (unit_like (map b_id (m_blocks m))) (m_fblocks m)), rest).
Proof.
  intros G. set (ids := sec_ids secs). pose proof (lenz_nonneg ids) as Hn0.
  destruct (steps_regions ids rsides (m_blocks m) (2 + lenz ids) (filled 0 secs) (sec_names secs)
     (map (pos ids) (flat_map c_items (m_bounds m))) [] [] []
     (flat_map (unit_lines ids (map b_id (m_blocks m)) (lit "LAYER ")) (m_units m) ++
      flat_map (unit_lines ids (map b_id (m_blocks m)) (lit "FAULT_BLOCK ")) (m_fblocks m) ++ [lit "END"] ++ rest))
    as [bls [F2 S]]; [apply G|apply sec_names_length|apply G|lia|].
  exists bls. split; [assumption|].
  unfold read_components. eapply steps_loop with (l := lit "END"); [|reflexivity|lia].
  unfold component_lines. cbn zeta. fold ids. rewrite <- !app_assoc.
  eapply steps_trans.
  { apply steps_tsurfs. apply Forall_map. eapply Forall_impl; [|apply (gm_secs _ _ _ _ G)].
    intros s Hs. apply Hs. }
  cbn [app].
  eapply steps_trans.
  { pose proof (steps_all_faces secs 1 [] [] [] [] [] []) as X. cbn [app map] in X. apply X; [apply G|apply G|lia]. }
  change (lenz []) with 0. rewrite <- ?app_comm_cons.
  eapply steps_step; [reflexivity| |].
  { apply (line_universe _ _ _ _ _ _ ids).
    - apply sec_names_length.
    - apply G.
    - unfold entries_ok, universe_entries. apply Forall_map, Forall_forall. intros s Hs. cbn [snd].
      destruct (gm_universe _ _ _ _ G s Hs) as [Hi _]. pose proof (pos_range ids s Hi). lia. }
  cbn [app].
  replace (map (fun e => snd e - 1) (universe_entries ids usides (flat_map c_items (m_bounds m))))
    with (map (pos ids) (flat_map c_items (m_bounds m))).
  2:{ unfold universe_entries. rewrite map_map. apply map_ext. intros. cbn [snd]. lia. }
  eapply steps_trans; [exact S|]. cbn [app].
  assert (Hbl : lenz bls = lenz (map b_id (m_blocks m))).
  { rewrite lenz_map. unfold lenz. f_equal. symmetry. clear -F2. induction F2; simpl; congruence. }
  eapply steps_trans; [apply steps_layers; [apply sec_names_length|assumption| |apply G]|].
  { rewrite lenz_map. apply G. }
  eapply steps_trans; [apply steps_fault_blocks; [apply sec_names_length|assumption| |apply G]|].
  { rewrite lenz_map. apply G. }
  cbn [app]. constructor.
Qed.
End ReadBack.

(** ** Surfaces *)
Lemma bind_eq {A B} (r : res A) (f : A -> res B) a : r = Ok a -> bind r f = f a.
Proof. now intros ->. Qed.
Lemma tok_index1 (l : list bytes) i a : idx l i = Ok (show a) -> 1 <= a < two32 ->
  tok_index 1 l i = Ok (a - 1).
Proof.
  intros H Ha. unfold tok_index. rewrite H. cbn [bind]. rewrite string_to_index_show by lia. cbn [bind].
  rewrite sub32_small by lia. reflexivity.
Qed.

Section Surfaces.
Context {F : Num} (HF : num_ok F).

Notation st nm pts tris tro vo bst bor :=
  (mkTSurf 1 nm default_crs empty_prop pts tris tro vo bst bor ([] : list (list (num F)))).

Lemma read_ml_vrtx nm ps pts tris tro vo bst bor rest :
  1 + lenz pts + lenz ps <= two32 ->
  tfaces_loop F (st nm pts tris tro vo bst bor) (ml_vrtx_lines (1 + lenz pts) ps ++ rest)
  = tfaces_loop F (st nm (pts ++ map (rp F) ps) tris tro vo bst bor) rest.
Proof.
  revert pts. induction ps as [|[[x y] z] ps IH]; intros pts Hb.
  - cbn [ml_vrtx_lines map app]. now rewrite app_nil_r.
  - rewrite lenz_cons in Hb. pose proof (lenz_nonneg pts). pose proof (lenz_nonneg ps).
    cbn [ml_vrtx_lines app tfaces_loop]. unfold tface_line.
    assert (E : string_split (lit "VRTX " ++ show (1 + lenz pts) ++ SP :: point_string (x, y, z))
      = [lit "VRTX"; show (1 + lenz pts); pt_text F x; pt_text F y; pt_text F z]).
    { replace (lit "VRTX " ++ show (1 + lenz pts) ++ SP :: point_string (x, y, z))
        with (lit "VRTX" ++ spaced [show (1 + lenz pts); pt_text F x; pt_text F y; pt_text F z]).
      - apply split_spaced_tokens; [tok|].
        repeat (apply Forall_cons; [apply HF || (apply show_token; lia)|]). constructor.
      - rewrite !spaced_cons. unfold spaced, point_string. cbn [map List.concat]. rewrite app_nil_r. reflexivity. }
    rewrite E. cbn [front bind].
    change (is_vrtx (lit "VRTX")) with true. cbn iota.
    assert (Ho : vrtx_offset match pts with [] => true | _ :: _ => false end 1
       [lit "VRTX"; show (1 + lenz pts); pt_text F x; pt_text F y; pt_text F z] = Ok 1).
    { destruct pts; [|reflexivity]. unfold vrtx_offset. rewrite idx_S, idx_0. cbn [bind].
      change (lenz []) with 0. reflexivity. }
    rewrite Ho. cbn [bind]. rewrite vrtx_point_written by assumption. cbn [bind].
    change (p_names empty_prop) with (@nil bytes). cbn [read_properties bind].
    specialize (IH (pts ++ [rp F (x, y, z)])). rewrite lenz_snoc in IH.
    cbn [map]. replace (pts ++ rp F (x, y, z) :: map (rp F) ps)
      with ((pts ++ [rp F (x, y, z)]) ++ map (rp F) ps) by (rewrite <- app_assoc; reflexivity).
    rewrite <- IH by lia. replace (1 + lenz pts + 1) with (1 + (lenz pts + 1)) by lia. reflexivity.
Qed.

Lemma read_ml_trgl nm c n ts pts tris tro vo bst bor rest :
  0 <= c -> 1 + c + n <= two32 -> Forall (tri_in n) ts ->
  tfaces_loop F (st nm pts tris tro vo bst bor) (map trgl_line (map (plus_tri (1 + c)) ts) ++ rest)
  = tfaces_loop F (st nm pts (tris ++ map (plus_tri c) ts) tro vo bst bor) rest.
Proof.
  intros Hc Hn H. revert tris. induction H as [|[[x y] z] ts [Hx [Hy Hz]] H IH]; intros tris.
  - cbn [map app]. now rewrite app_nil_r.
  - cbn [map app tfaces_loop plus_tri]. unfold tface_line.
    rewrite trgl_line_tokens by lia. cbn [front bind].
    change (is_vrtx (lit "TRGL")) with false. change (is_atom (lit "TRGL")) with false.
    change (beq (lit "TRGL") (lit "TRGL")) with true. cbn iota.
    rewrite (tok_index1 _ 1 (1 + c + x)) by (reflexivity || lia). cbn [bind].
    rewrite (tok_index1 _ 2 (1 + c + y)) by (reflexivity || lia). cbn [bind].
    rewrite (tok_index1 _ 3 (1 + c + z)) by (reflexivity || lia). cbn [bind].
    replace (1 + c + x - 1) with (c + x) by lia. replace (1 + c + y - 1) with (c + y) by lia.
    replace (1 + c + z - 1) with (c + z) by lia.
    specialize (IH (tris ++ [(c + x, c + y, c + z)])). rewrite <- app_assoc in IH. exact IH.
Qed.

Lemma read_surface nm (s : MSurf F) pts tris tro vo bst bor rest :
  good_surf s -> 1 + lenz pts + lenz (s_points s) <= two32 ->
  tfaces_loop F (st nm pts tris tro vo bst bor) (write_surface s (1 + lenz pts) ++ rest)
  = tfaces_loop F (st nm (pts ++ map (rp F) (s_points s)) (tris ++ map (plus_tri (lenz pts)) (s_tris s)) tro vo bst bor) rest.
Proof.
  intros G Hb. unfold write_surface. rewrite <- app_assoc. rewrite read_ml_vrtx by assumption.
  pose proof (lenz_nonneg pts). now rewrite (read_ml_trgl nm (lenz pts) (lenz (s_points s))) by (lia || apply G).
Qed.

Fixpoint presums (c : Z) (l : list Z) : list Z :=
  match l with [] => [] | x :: r => c :: presums (c + x) r end.
Fixpoint flat_tris (c : Z) (ss : list (MSurf F)) : list tri :=
  match ss with [] => [] | s :: r => map (plus_tri c) (s_tris s) ++ flat_tris (c + lenz (s_points s)) r end.
Definition npts (ss : list (MSurf F)) : Z := fold_right Z.add 0 (map (fun s => lenz (s_points s)) ss).
Lemma npts_nonneg ss : 0 <= npts ss.
Proof. unfold npts. induction ss as [|s ss IH]; cbn [map fold_right]; [lia|]. pose proof (lenz_nonneg (s_points s)). lia. Qed.

Lemma read_faces nm ss pts tris tro vo bst bor rest :
  Forall good_surf ss -> 1 + lenz pts + npts ss <= two32 ->
  tfaces_loop F (st nm pts tris tro vo bst bor)
    (flat_map (fun x => lit "TFACE" :: write_surface (snd x) (fst x)) (with_offsets (1 + lenz pts) ss) ++ rest)
  = tfaces_loop F (st nm (pts ++ flat_map (fun s => map (rp F) (s_points s)) ss) (tris ++ flat_tris (lenz pts) ss)
       (tro ++ presums (lenz tris) (map (fun s => lenz (s_tris s)) ss))
       (vo ++ presums (lenz pts) (map (fun s => lenz (s_points s)) ss)) bst bor) rest.
Proof.
  intros H. revert pts tris tro vo. induction H as [|s ss Hg H IH]; intros pts tris tro vo Hb.
  - cbn [with_offsets flat_map app flat_tris map presums]. now rewrite !app_nil_r.
  - unfold npts in Hb. cbn [map fold_right] in Hb. fold (npts ss) in Hb. pose proof (npts_nonneg ss).
    cbn [with_offsets flat_map fst snd app]. rewrite <- app_assoc. cbn [tfaces_loop]. unfold tface_line at 1.
    change (string_split (lit "TFACE")) with [lit "TFACE"]. cbn [front bind].
    change (is_vrtx (lit "TFACE")) with false. change (is_atom (lit "TFACE")) with false.
    change (beq (lit "TFACE") (lit "TRGL")) with false. change (beq (lit "TFACE") (lit "BSTONE")) with false.
    change (beq (lit "TFACE") (lit "BORDER")) with false. change (beq (lit "TFACE") (lit "TFACE")) with true.
    cbn iota. cbn [bind]. rewrite read_surface by (assumption || lia).
    specialize (IH (pts ++ map (rp F) (s_points s)) (tris ++ map (plus_tri (lenz pts)) (s_tris s))
      (tro ++ [lenz tris]) (vo ++ [lenz pts])).
    rewrite !lenz_app, !lenz_map, <- !app_assoc in IH. rewrite Z.add_assoc in IH. rewrite IH by lia.
    cbn [flat_tris map presums flat_map app]. reflexivity.
Qed.

Lemma read_bstones nm es pts tris tro vo bst bor rest :
  Forall (fun e => 1 <= fst e < two32) es ->
  tfaces_loop F (st nm pts tris tro vo bst bor) (map bstone_line es ++ rest)
  = tfaces_loop F (st nm pts tris tro vo (bst ++ map (fun e => fst e - 1) es) bor) rest.
Proof.
  intros H. revert bst. induction H as [|e es He H IH]; intros bst.
  - cbn [map app]. now rewrite app_nil_r.
  - cbn [map app tfaces_loop]. unfold tface_line, bstone_line.
    assert (E : string_split (lit "BSTONE " ++ show (fst e)) = [lit "BSTONE"; show (fst e)]).
    { replace (lit "BSTONE " ++ show (fst e)) with (lit "BSTONE" ++ spaced [show (fst e)]).
      - apply split_spaced_tokens; [tok|]. constructor; [apply show_token; lia|constructor].
      - rewrite spaced_cons. unfold spaced. cbn [map List.concat]. rewrite app_nil_r. reflexivity. }
    rewrite E. cbn [front bind].
    change (is_vrtx (lit "BSTONE")) with false. change (is_atom (lit "BSTONE")) with false.
    change (beq (lit "BSTONE") (lit "TRGL")) with false. change (beq (lit "BSTONE") (lit "BSTONE")) with true.
    cbn iota. rewrite (tok_index1 _ 1 (fst e)) by (reflexivity || lia). cbn [bind].
    specialize (IH (bst ++ [fst e - 1])). rewrite <- app_assoc in IH. exact IH.
Qed.
Lemma read_borders nm es o pts tris tro vo bst bor rest : 0 <= o ->
  Forall (fun e => 1 <= fst e < two32 /\ 1 <= snd e < two32) es ->
  tfaces_loop F (st nm pts tris tro vo bst bor) (border_lines o es ++ rest)
  = tfaces_loop F (st nm pts tris tro vo bst (bor ++ map (fun e => (fst e - 1, snd e - 1)) es)) rest.
Proof.
  intros Ho H. revert o bor Ho. induction H as [|e es [He1 He2] H IH]; intros o bor Ho.
  - cbn [border_lines map app]. now rewrite app_nil_r.
  - cbn [border_lines map app tfaces_loop]. unfold tface_line.
    assert (E : string_split (lit "BORDER " ++ show o ++ SP :: show (fst e) ++ SP :: show (snd e))
      = [lit "BORDER"; show o; show (fst e); show (snd e)]).
    { replace (lit "BORDER " ++ show o ++ SP :: show (fst e) ++ SP :: show (snd e))
        with (lit "BORDER" ++ spaced [show o; show (fst e); show (snd e)]).
      - apply split_spaced_tokens; [tok|]. repeat (apply Forall_cons; [apply show_token; lia|]). constructor.
      - rewrite !spaced_cons. unfold spaced. cbn [map List.concat]. rewrite app_nil_r. reflexivity. }
    rewrite E. cbn [front bind].
    change (is_vrtx (lit "BORDER")) with false. change (is_atom (lit "BORDER")) with false.
    change (beq (lit "BORDER") (lit "TRGL")) with false. change (beq (lit "BORDER") (lit "BSTONE")) with false.
    change (beq (lit "BORDER") (lit "BORDER")) with true.
    cbn iota. rewrite (tok_index1 _ 2 (fst e)) by (reflexivity || lia). cbn [bind].
    rewrite (tok_index1 _ 3 (snd e)) by (reflexivity || lia). cbn [bind].
    specialize (IH (o + 1) (bor ++ [(fst e - 1, snd e - 1)]) ltac:(lia)). rewrite <- app_assoc in IH. exact IH.
Qed.

Definition starts (o : Z) (ss : list (MSurf F)) : list (Z * Z) :=
  flat_map (fun x => line_starts_of (snd x) (fst x)) (with_offsets o ss).
Lemma starts_range o ss : Forall good_surf ss -> 1 <= o -> o + npts ss <= two32 ->
  Forall (fun e => 1 <= fst e < two32 /\ 1 <= snd e < two32) (starts o ss).
Proof.
  intros H. revert o. induction H as [|s ss Hg H IH]; intros o Ho Hb; [constructor|].
  unfold npts in Hb. cbn [map fold_right] in Hb. fold (npts ss) in Hb. pose proof (npts_nonneg ss).
  pose proof (lenz_nonneg (s_points s)).
  unfold starts. cbn [with_offsets flat_map fst snd]. apply Forall_app. split; [|apply IH; lia].
  unfold line_starts_of. pose proof (gs_loops s Hg) as Hl. destruct (s_loops s) as [|loop r]; [constructor|].
  apply Forall_cons_iff in Hl as [Hl _]. apply Forall_map, Forall_forall. intros e He.
  apply filter_In in He as [He _]. rewrite Forall_forall in Hl. specialize (Hl e He). cbn [fst snd]. lia.
Qed.

(** What read_tsurf returns on a written object. *)
Definition parsed_object (n : bytes) (ss : list (MSurf F)) : TSurf F :=
  mkTSurf 1 (Some (normalise n)) default_crs empty_prop
    (flat_map (fun s => map (rp F) (s_points s)) ss) (flat_tris 0 ss)
    (presums 0 (map (fun s => lenz (s_tris s)) ss) ++ [lenz (flat_tris 0 ss)])
    (presums 0 (map (fun s => lenz (s_points s)) ss) ++ [lenz (flat_map (fun s => map (rp F) (s_points s)) ss)])
    (map (fun e => fst e - 1) (starts 1 ss)) (map (fun e => (fst e - 1, snd e - 1)) (starts 1 ss)) [].

Lemma read_object k n ss rest b : ss <> [] -> Forall good_surf ss -> 1 + npts ss <= two32 ->
  read_tsurf F (mkStream (surface_object k n ss ++ rest) b) = Ok (Some (parsed_object n ss), mkStream rest b).
Proof.
  intros Hne Hg Hb. unfold read_tsurf, surface_object. cbn zeta. rewrite <- !app_assoc.
  change ([lit "GOCAD TSurf 1"] ++ ?x) with (lit "GOCAD TSurf 1" :: x).
  rewrite goto_if_next by reflexivity.
  rewrite read_header_written. cbn [bind].
  rewrite read_CRS_default. cbn [bind].
  fold (starts 1 ss). fold (npts ss).
  destruct ss as [|s ss]; [congruence|]. apply Forall_cons_iff in Hg as [Hs Hg].
  unfold read_prop_header, next_if. cbn [pending app].
  change (starts_with (lit "GEOLOGICAL_FEATURE " ++ n) (lit "PROPERTIES")) with false. cbn iota.
  cbn [bind p_names empty_prop map option_map]. unfold read_tfaces.
  cbn [with_offsets flat_map fst snd app].
  match goal with |- context [goto_keyword ?kw (mkStream (?a :: ?c :: ?t :: ?r) ?bb)] =>
    assert (EK : goto_keyword kw (mkStream (a :: c :: t :: r) bb) = Ok (t, mkStream r bb))
      by (apply (goto_keyword_hit kw [a; c] t r bb); [repeat constructor|reflexivity]);
    rewrite EK; clear EK end.
  cbn [bind pending nl].
  unfold npts in Hb. cbn [map fold_right] in Hb. fold (npts ss) in Hb. pose proof (npts_nonneg ss).
  pose proof (lenz_nonneg (s_points s)).
  rewrite <- !app_assoc.
  pose proof (read_surface (Some (normalise n)) s [] [] [0] [0] [] []) as E. change (1 + lenz []) with 1 in E.
  change (lenz []) with 0 in E. rewrite E by (assumption || lia). clear E. cbn [app].
  pose proof (read_faces (Some (normalise n)) ss (map (rp F) (s_points s)) (map (plus_tri 0) (s_tris s)) [0] [0] [] []) as E.
  rewrite !lenz_map in E. rewrite E by (assumption || lia). clear E.
  pose proof (starts_range 1 (s :: ss) ltac:(now constructor) ltac:(lia)) as HS.
  unfold npts in HS. cbn [map fold_right] in HS. fold (npts ss) in HS. specialize (HS ltac:(lia)).
  rewrite (read_bstones _ (starts 1 (s :: ss))).
  2:{ eapply Forall_impl; [|exact HS]. intros e He. apply He. }
  rewrite (read_borders _ (starts 1 (s :: ss))); [|pose proof (npts_nonneg (s :: ss)); lia|assumption].
  cbn [app tfaces_loop]. unfold tface_line. change (string_split (lit "END")) with [lit "END"]. cbn [front bind].
  change (is_vrtx (lit "END")) with false. change (is_atom (lit "END")) with false.
  change (beq (lit "END") (lit "TRGL")) with false. change (beq (lit "END") (lit "BSTONE")) with false.
  change (beq (lit "END") (lit "BORDER")) with false. change (beq (lit "END") (lit "TFACE")) with false.
  change (beq (lit "END") (lit "END")) with true. cbn iota. cbn [bind].
  unfold parsed_object. cbn [flat_map flat_tris map presums app]. reflexivity.
Qed.

(** *** Building the surfaces *)
Fixpoint sums (l : list Z) : Z := match l with [] => 0 | x :: r => x + sums r end.
Lemma presums_idx c l last i : last = c + sums l -> (i <= List.length l)%nat ->
  idx (presums c l ++ [last]) i = Ok (c + sums (firstn i l)).
Proof.
  revert c i. induction l as [|x l IH]; intros c i E Hi; simpl in Hi.
  - replace i with 0%nat by lia. cbn [presums app]. rewrite idx_0. cbn [firstn]. f_equal. exact E.
  - cbn [presums app]. destruct i as [|i]; [rewrite idx_0; f_equal; cbn [firstn sums]; lia|].
    rewrite idx_S. rewrite IH by (cbn [sums] in E; lia). cbn [firstn sums]. f_equal. lia.
Qed.
Lemma slice_mid {A} (pre mid post : list A) :
  slice (pre ++ mid ++ post) (lenz pre) (lenz pre + lenz mid) = Ok mid.
Proof.
  unfold slice. pose proof (lenz_nonneg pre). pose proof (lenz_nonneg mid). pose proof (lenz_nonneg post).
  destruct (Z.leb_spec (lenz pre + lenz mid) (lenz pre)) as [H2|H2].
  - destruct mid; [reflexivity|]. rewrite lenz_cons in H2. pose proof (lenz_nonneg mid). lia.
  - rewrite (proj2 (Z.leb_le 0 _)) by lia. rewrite !lenz_app.
    rewrite (proj2 (Z.leb_le (lenz pre + lenz mid) _)) by lia. cbn [andb]. f_equal.
    replace (Z.to_nat (lenz pre)) with (List.length pre) by (unfold lenz; lia).
    replace (Z.to_nat (lenz pre + lenz mid - lenz pre)) with (List.length mid) by (unfold lenz; lia).
    rewrite skipn_app, skipn_all, Nat.sub_diag. cbn [skipn app].
    rewrite firstn_app, firstn_all, Nat.sub_diag. cbn [firstn]. apply app_nil_r.
Qed.
Lemma flat_tris_app c a b : flat_tris c (a ++ b) = flat_tris c a ++ flat_tris (c + npts a) b.
Proof.
  revert c. induction a as [|s a IH]; intros c; cbn [app flat_tris].
  - unfold npts. cbn [map fold_right]. now rewrite Z.add_0_r.
  - rewrite IH, <- app_assoc. unfold npts. cbn [map fold_right]. now rewrite Z.add_assoc.
Qed.
Lemma lenz_flat_tris c ss : lenz (flat_tris c ss) = sums (map (fun s => lenz (s_tris s)) ss).
Proof.
  revert c. induction ss as [|s ss IH]; intros c; [reflexivity|]. cbn [flat_tris map sums].
  rewrite lenz_app, lenz_map, IH. reflexivity.
Qed.
Lemma lenz_flat_pts (ss : list (MSurf F)) :
  lenz (flat_map (fun s => map (rp F) (s_points s)) ss) = sums (map (fun s => lenz (s_points s)) ss).
Proof.
  induction ss as [|s ss IH]; [reflexivity|]. cbn [flat_map map sums]. rewrite lenz_app, lenz_map, IH. reflexivity.
Qed.
Lemma sums_npts (ss : list (MSurf F)) : sums (map (fun s => lenz (s_points s)) ss) = npts ss.
Proof. unfold npts. induction ss as [|s ss IH]; [reflexivity|]. cbn [map sums fold_right]. now rewrite IH. Qed.
Lemma firstn_pre {A B} (f : A -> B) (pre : list A) s post :
  firstn (List.length pre) (map f (pre ++ s :: post)) = map f pre /\
  firstn (S (List.length pre)) (map f (pre ++ s :: post)) = map f (pre ++ [s]).
Proof.
  rewrite map_app. cbn [map]. split.
  - rewrite <- (map_length f pre). rewrite firstn_app, firstn_all, Nat.sub_diag. cbn [firstn]. apply app_nil_r.
  - rewrite map_app. cbn [map]. replace (map f pre ++ f s :: map f post) with ((map f pre ++ [f s]) ++ map f post) by (rewrite <- app_assoc; reflexivity).
    replace (S (List.length pre)) with (List.length (map f pre ++ [f s])) by (rewrite app_length, map_length; simpl; lia).
    rewrite firstn_app, firstn_all, Nat.sub_diag. cbn [firstn]. apply app_nil_r.
Qed.
Lemma sums_app a b : sums (a ++ b) = sums a + sums b.
Proof. induction a as [|x a IH]; cbn [app sums]; lia. Qed.

(** The mesh of a surface read back. *)
Definition mesh_of (n : bytes) (s : MSurf F) : mesh F tri :=
  mkMesh (Some (normalise n)) (map (rp F) (s_points s)) (s_tris s) [].

Lemma build_tface_ok n pre s post : Forall good_surf (pre ++ s :: post) -> npts (pre ++ s :: post) <= two32 ->
  build_tface (parsed_object n (pre ++ s :: post)) (List.length pre) = Ok (mesh_of n s).
Proof.
  intros Hg Hb. unfold build_tface, parsed_object. cbn [t_vert_off t_tri_off t_points t_triangles t_name].
  set (ss := pre ++ s :: post) in *.
  assert (Hlen : (S (List.length pre) <= List.length ss)%nat) by (unfold ss; rewrite app_length; simpl; lia).
  rewrite (presums_idx 0 (map (fun s => lenz (s_points s)) ss)); [|now rewrite lenz_flat_pts|rewrite map_length; lia].
  cbn [bind].
  rewrite (presums_idx 0 (map (fun s => lenz (s_points s)) ss)); [|now rewrite lenz_flat_pts|rewrite map_length; lia].
  cbn [bind].
  destruct (firstn_pre (fun s => lenz (s_points s)) pre s post) as [E1 E2]. fold ss in E1, E2. rewrite E1, E2.
  rewrite map_app, sums_app. cbn [map sums]. rewrite Z.add_0_r, !Z.add_0_l.
  assert (Ep : flat_map (fun s => map (rp F) (s_points s)) ss
    = flat_map (fun s => map (rp F) (s_points s)) pre ++ map (rp F) (s_points s)
      ++ flat_map (fun s => map (rp F) (s_points s)) post).
  { unfold ss. rewrite flat_map_app. reflexivity. }
  rewrite Ep. pose proof (slice_mid (flat_map (fun s => map (rp F) (s_points s)) pre)
    (map (rp F) (s_points s)) (flat_map (fun s => map (rp F) (s_points s)) post)) as E.
  rewrite lenz_flat_pts, lenz_map in E. rewrite E. clear E. cbn [bind].
  rewrite (presums_idx 0 (map (fun s => lenz (s_tris s)) ss)); [|now rewrite lenz_flat_tris|rewrite map_length; lia].
  cbn [bind].
  rewrite (presums_idx 0 (map (fun s => lenz (s_tris s)) ss)); [|now rewrite lenz_flat_tris|rewrite map_length; lia].
  cbn [bind].
  destruct (firstn_pre (fun s => lenz (s_tris s)) pre s post) as [E3 E4]. fold ss in E3, E4. rewrite E3, E4.
  rewrite map_app, sums_app. cbn [map sums]. rewrite Z.add_0_r, !Z.add_0_l.
  assert (Et : flat_tris 0 ss = flat_tris 0 pre ++ map (plus_tri (npts pre)) (s_tris s)
      ++ flat_tris (npts pre + lenz (s_points s)) post).
  { unfold ss. rewrite flat_tris_app. reflexivity. }
  rewrite Et. pose proof (slice_mid (flat_tris 0 pre) (map (plus_tri (npts pre)) (s_tris s))
    (flat_tris (npts pre + lenz (s_points s)) post)) as E.
  rewrite lenz_flat_tris, lenz_map in E. etransitivity; [exact (bind_eq _ _ _ E)|]. cbn beta. clear E.
  apply Forall_app in Hg as [Hg1 Hg2]. apply Forall_cons_iff in Hg2 as [Hg Hg2].
  assert (Em : map (minus_tri (sums (map (fun s => lenz (s_points s)) pre))) (map (plus_tri (npts pre)) (s_tris s)) = s_tris s).
  { rewrite sums_npts, map_map. rewrite <- (map_id (s_tris s)) at 2. apply map_ext_in. intros [[x y] z] Hi.
    pose proof (gs_tri_in s Hg) as Ht. rewrite Forall_forall in Ht. destruct (Ht _ Hi) as [Hx [Hy Hz]].
    pose proof (npts_nonneg pre). pose proof (npts_nonneg post).
    assert (Hbb : npts pre + lenz (s_points s) <= two32).
    { unfold ss, npts in Hb. rewrite map_app, fold_right_app in Hb. cbn [map fold_right] in Hb.
      fold (npts post) in Hb.
      assert (G : forall l a, fold_right Z.add a l = fold_right Z.add 0 l + a).
      { induction l as [|q l IHl]; intros a; cbn [fold_right]; [lia|]. rewrite IHl. lia. }
      rewrite G in Hb. unfold npts at 1. unfold npts in *. lia. }
    unfold plus_tri, minus_tri. rewrite !sub32_small by lia.
    replace (npts pre + x - npts pre) with x by lia. replace (npts pre + y - npts pre) with y by lia.
    replace (npts pre + z - npts pre) with z by lia. reflexivity. }
  rewrite Em. rewrite set_name_empty.
  rewrite create_points_spec. rewrite create_triangles.
  - reflexivity.
  - match goal with |- Forall (tri_in ?x) _ => replace x with (lenz (s_points s)) end; [exact (gs_tri_in s Hg)|].
    unfold nb_vertices, lenz. cbn [m_points app]. now rewrite map_length.
Qed.
End Surfaces.
