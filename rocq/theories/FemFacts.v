(** * Facts about the FEM writer. *)
From Coq Require Import ZArith List Lia Bool Ascii String Permutation.
From Verif Require Import Base Text TextFacts FemModel FemSpec.
Import ListNotations.
Local Open Scope string_scope.
Local Open Scope list_scope.
Local Open Scope Z_scope.

(** ** Range tokens *)
Lemma interval_one a : interval a a = [a].
Proof. unfold interval. replace (a - a + 1) with 1 by lia. change (seq 0 (Z.to_nat 1)) with [0%nat]. cbn [map]. f_equal. lia. Qed.
Lemma interval_snoc a b : a <= b -> interval a (b + 1) = interval a b ++ [b + 1].
Proof.
  intros H. unfold interval. replace (Z.to_nat (b + 1 - a + 1)) with (Z.to_nat (b - a + 1) + 1)%nat by lia.
  rewrite seq_app, map_app. f_equal. cbn [seq map]. f_equal. lia.
Qed.
Lemma value_show z : 0 <= z -> value (show z) = z.
Proof.
  intros H. unfold value. destruct (show_spec z H) as [_ [_ Hv]]. now rewrite Hv.
Qed.
Lemma digit_not_dash c : is_digit c = true -> Ascii.eqb c "-" = false.
Proof. intros H. apply Ascii.eqb_neq. intros ->. discriminate. Qed.
Lemma cut_dash_digits d r : Forall (fun c => is_digit c = true) d ->
  cut_dash (d ++ r) = (d ++ fst (cut_dash r), snd (cut_dash r)).
Proof.
  induction 1 as [|c d Hc Hd IH]; cbn [app]; [now destruct (cut_dash r)|].
  cbn [cut_dash]. rewrite (digit_not_dash _ Hc), IH. reflexivity.
Qed.
Lemma decode_range s p : 0 <= s <= p -> decode_token (range_text s p) = interval s p.
Proof.
  intros H. unfold range_text. destruct (Z.eqb_spec s p) as [->|N].
  - unfold decode_token. rewrite <- (app_nil_r (show p)), cut_dash_digits by (apply show_digits; lia).
    cbn [cut_dash fst snd]. rewrite app_nil_r, value_show by lia. now rewrite interval_one.
  - unfold decode_token. rewrite cut_dash_digits by (apply show_digits; lia).
    cbn [cut_dash fst snd]. change (Ascii.eqb "-" "-") with true. cbn [fst snd]. rewrite app_nil_r, !value_show by lia.
    reflexivity.
Qed.
Lemma range_text_token s p : 0 <= s -> 0 <= p -> token (range_text s p).
Proof.
  intros Hs Hp. unfold range_text. destruct (show_token s Hs) as [N1 S1]. destruct (show_token p Hp) as [N2 S2].
  destruct (s =? p); [split; assumption|]. split; [now destruct (show s)|].
  apply Forall_app. split; [assumption|]. constructor; [reflexivity|assumption].
Qed.
Lemma decode_app a b : decode_chunk (a ++ SP :: b) = decode_chunk a ++ decode_chunk b.
Proof. unfold decode_chunk. rewrite words_app_sep by reflexivity. apply flat_map_app. Qed.
Lemma decode_range_chunk s p : 0 <= s <= p -> decode_chunk (range_text s p) = interval s p.
Proof.
  intros H. unfold decode_chunk. rewrite words_tok by (apply range_text_token; lia). cbn [flat_map].
  rewrite app_nil_r. now apply decode_range.
Qed.
Definition state_elements (st : bytes * list bytes) : list Z := decode_chunks (snd st) ++ decode_chunk (fst st).
Lemma decode_chunks_app a b : decode_chunks (a ++ b) = decode_chunks a ++ decode_chunks b.
Proof. apply flat_map_app. Qed.
Lemma append_value_elements limit st s p : 0 <= s <= p ->
  state_elements (append_value limit st s p) = state_elements st ++ interval s p.
Proof.
  intros H. destruct st as [c r]. unfold append_value, state_elements.
  destruct (limit <? _) eqn:E; cbn [fst snd].
  - rewrite decode_chunks_app, decode_range_chunk by assumption. unfold decode_chunks at 2. cbn [flat_map].
    now rewrite app_nil_r.
  - destruct c as [|x c]; cbn [fst snd].
    + rewrite decode_range_chunk by assumption. change (decode_chunk []) with (@nil Z). now rewrite app_nil_r.
    + rewrite decode_app, decode_range_chunk by assumption. now rewrite !app_assoc.
Qed.
Lemma range_loop_elements limit es : forall start prev st,
  0 <= start <= prev -> prev < two32 -> Forall (fun e => 1 <= e < two32) es ->
  state_elements (range_loop limit es start prev st) = state_elements st ++ interval start prev ++ es.
Proof.
  induction es as [|e r IH]; intros start prev st H Hp Hes; cbn [range_loop].
  { rewrite append_value_elements by assumption. now rewrite app_nil_r. }
  pose proof (Forall_inv Hes) as He. pose proof (Forall_inv_tail Hes) as Hr. cbn beta in He.
  destruct (Z.eqb_spec e (add32 prev 1)) as [E|N].
  - assert (e = prev + 1).
    { unfold add32, wrap32 in E. destruct (Z.eq_dec prev (two32 - 1)) as [->|].
      - exfalso. change ((two32 - 1 + 1) mod two32) with 0 in E. lia.
      - rewrite Z.mod_small in E by lia. exact E. }
    subst e. rewrite IH by (assumption || lia). rewrite H0, interval_snoc by lia. now rewrite <- app_assoc.
  - rewrite IH by (assumption || lia). rewrite append_value_elements by assumption.
    now rewrite interval_one, <- !app_assoc.
Qed.
Lemma chunks_elements es limit : Forall (fun e => 1 <= e < two32) es ->
  decode_chunks (format_range_chunks es limit) = es.
Proof.
  intros H. destruct es as [|e r]; [reflexivity|]. unfold format_range_chunks.
  pose proof (Forall_inv H) as He. cbn beta in He.
  pose proof (range_loop_elements limit r e e ([], []) ltac:(lia) ltac:(lia) (Forall_inv_tail H)) as L.
  destruct (range_loop limit r e e ([], [])) as [c rs]. unfold state_elements in L. cbn [fst snd] in L.
  change (decode_chunks [] ++ decode_chunk []) with (@nil Z) in L. rewrite interval_one in L. cbn [app] in L.
  destruct c; [change (decode_chunk []) with (@nil Z) in L; now rewrite app_nil_r in L|].
  rewrite decode_chunks_app. unfold decode_chunks at 2. cbn [flat_map]. now rewrite app_nil_r.
Qed.

(** ** Size of the chunks *)
Lemma show_fuel_length f : forall z k, 0 <= z < 10 ^ Z.of_nat (S k) -> (List.length (show_fuel f z) <= S k)%nat.
Proof.
  induction f as [|f IH]; intros z k H; cbn [show_fuel]; [cbn; lia|].
  destruct (z <? 10) eqn:E; [cbn; lia|]. apply Z.ltb_ge in E. rewrite app_length. cbn [List.length].
  destruct k as [|k]; [cbn in H; lia|].
  assert (List.length (show_fuel f (z / 10)) <= S k)%nat; [|lia]. apply IH.
  rewrite (Nat2Z.inj_succ (S k)), Z.pow_succ_r in H by lia.
  split; [apply Z.div_pos; lia|]. apply Z.div_lt_upper_bound; lia.
Qed.
Lemma show_length z : 0 <= z < two32 -> (List.length (show z) <= 10)%nat.
Proof. intros H. apply show_fuel_length. unfold two32 in H. cbn. lia. Qed.
Lemma range_text_length s p : 0 <= s < two32 -> 0 <= p < two32 -> (List.length (range_text s p) <= 21)%nat.
Proof.
  intros Hs Hp. pose proof (show_length s Hs). pose proof (show_length p Hp). unfold range_text.
  destruct (s =? p); [lia|]. rewrite app_length. cbn [List.length]. lia.
Qed.
Definition good_chunk (limit : Z) (c : bytes) : Prop := c <> [] /\ Z.of_nat (List.length c) <= limit.
Definition good_state (limit : Z) (st : bytes * list bytes) : Prop :=
  Z.of_nat (List.length (fst st)) <= limit /\ Forall (good_chunk limit) (snd st).
Lemma append_value_good limit st s p : 22 <= limit -> 0 <= s < two32 -> 0 <= p < two32 ->
  good_state limit st -> good_state limit (append_value limit st s p) /\ fst (append_value limit st s p) <> [].
Proof.
  intros Hl Hs Hp [H1 H2]. destruct st as [c r]. cbn [fst snd] in *. unfold append_value.
  pose proof (range_text_length s p Hs Hp) as L. destruct (range_text_token s p) as [N _]; [lia|lia|].
  destruct (limit <? _) eqn:E.
  - apply Z.ltb_lt in E. cbn [fst snd]. split; [|assumption]. split; cbn [fst snd]; [lia|].
    apply Forall_app. split; [assumption|]. constructor; [|constructor]. split; [|assumption].
    intros ->. cbn [List.length] in E. lia.
  - apply Z.ltb_ge in E. destruct c as [|x c]; cbn [fst snd].
    + split; [|assumption]. split; cbn [fst snd]; [lia|assumption].
    + split; [|discriminate]. split; cbn [fst snd]; [|assumption].
      rewrite app_length. cbn [List.length] in *. lia.
Qed.
Lemma range_loop_good limit es : 22 <= limit -> forall start prev st,
  0 <= start < two32 -> 0 <= prev < two32 -> Forall (fun e => 0 <= e < two32) es -> good_state limit st ->
  good_state limit (range_loop limit es start prev st) /\ fst (range_loop limit es start prev st) <> [].
Proof.
  intros Hl. induction es as [|e r IH]; intros start prev st Hs Hp He Hg; cbn [range_loop].
  { now apply append_value_good. }
  pose proof (Forall_inv He). pose proof (Forall_inv_tail He). cbn beta in *.
  destruct (e =? _); apply IH; auto. now apply append_value_good.
Qed.
Lemma chunks_good es limit : 22 <= limit -> Forall (fun e => 0 <= e < two32) es ->
  Forall (good_chunk limit) (format_range_chunks es limit).
Proof.
  intros Hl H. destruct es as [|e r]; [constructor|]. unfold format_range_chunks.
  pose proof (Forall_inv H) as He. cbn beta in He.
  destruct (range_loop_good limit r Hl e e ([], []) He He (Forall_inv_tail H)) as [[G1 G2] G3].
  { split; cbn; [lia|constructor]. }
  destruct (range_loop limit r e e ([], [])) as [c rs]. cbn [fst snd] in *.
  destruct c; [contradiction|]. apply Forall_app. split; [assumption|]. constructor; [|constructor].
  split; [discriminate|assumption].
Qed.

(** ** Tables *)
Lemma partition_perm {A K} (p : A -> K -> bool) (keys : list K) (l : list A) :
  (forall x, In x l -> exists a k b, keys = a ++ k :: b /\ p x k = true /\ forall k', In k' (a ++ b) -> p x k' = false) ->
  Permutation (flat_map (fun k => filter (fun x => p x k) l) keys) l.
Proof.
  induction l as [|x l IH]; intros H.
  { clear H. induction keys as [|k keys IHk]; cbn; auto. }
  destruct (H x (or_introl eq_refl)) as [a [k [b [-> [Hk Hn]]]]].
  assert (E : forall ks, (forall k', In k' ks -> p x k' = false) ->
    flat_map (fun k => filter (fun y => p y k) (x :: l)) ks = flat_map (fun k => filter (fun y => p y k) l) ks).
  { induction ks as [|q ks IHq]; intros Hq; cbn [flat_map]; [reflexivity|].
    rewrite IHq by (intros; apply Hq; now right). f_equal. cbn [filter]. rewrite (Hq q) by now left. reflexivity. }
  rewrite flat_map_app. cbn [flat_map]. rewrite E by (intros; apply Hn; apply in_or_app; auto).
  rewrite (E b) by (intros; apply Hn; apply in_or_app; auto). cbn [filter]. rewrite Hk. cbn [app].
  rewrite <- Permutation_middle. constructor.
  eapply Permutation_trans; [|apply IH; intros y Hy; apply H; now right].
  rewrite flat_map_app. reflexivity.
Qed.

Section Tables.
Context {K : Type} (eqb : K -> K -> bool).
Context (Hrefl : forall a, eqb a a = true) (Hsym : forall a b, eqb a b = eqb b a)
        (Htrans : forall a b c, eqb a b = true -> eqb b c = true -> eqb a c = true).
Definition distinct (ks : list K) : Prop := ForallOrdPairs (fun a b => eqb a b = false) ks.
Definition table_of (ps : list (Z * K)) : table :=
  fold_left (fun m p => table_add eqb (snd p) (fst p) m) ps [].
Definition holds (ps : list (Z * K)) (k : K) : list Z := map fst (filter (fun p => eqb (snd p) k) ps).
Record table_inv (ps : list (Z * K)) (m : table) : Prop := {
  ti_distinct : distinct (map fst m);
  ti_lists : forall k es, In (k, es) m -> es = holds ps k /\ es <> [];
  ti_cover : forall p, In p ps -> exists k es, In (k, es) m /\ eqb (snd p) k = true
}.
Lemma holds_app a b k : holds (a ++ b) k = holds a k ++ holds b k.
Proof. unfold holds. now rewrite filter_app, map_app. Qed.
Lemma push_on_keys k e m : map fst (push_on eqb k e m) = map fst m.
Proof.
  induction m as [|[k' es] r IH]; cbn [push_on map]; auto. destruct (eqb k k'); cbn [map fst]; congruence.
Qed.
Lemma distinct_snoc ks k : distinct ks -> Forall (fun a => eqb a k = false) ks -> distinct (ks ++ [k]).
Proof.
  induction 1 as [|a l H1 H2 IH]; intros H; cbn [app].
  - constructor; constructor.
  - constructor; [|apply IH; now apply Forall_inv_tail in H]. apply Forall_app. split; [assumption|].
    constructor; [|constructor]. now apply Forall_inv in H.
Qed.
Lemma in_push_on k e m k' es : distinct (map fst m) -> In (k', es) (push_on eqb k e m) ->
  (eqb k k' = true /\ exists es0, In (k', es0) m /\ es = es0 ++ [e]) \/ (eqb k k' = false /\ In (k', es) m).
Proof.
  induction m as [|[k2 es2] r IH]; intros Hd H; [destruct H|]. cbn [push_on] in H.
  inversion Hd as [|? ? H1 H2]; subst. destruct (eqb k k2) eqn:E.
  - destruct H as [H|H].
    + injection H as <- <-. left. split; [assumption|]. exists es2. split; [now left|reflexivity].
    + right. split; [|now right]. destruct (eqb k k') eqn:E2; [|reflexivity]. exfalso.
      rewrite Forall_forall in H1. specialize (H1 k' (in_map fst _ _ H)). cbn [fst] in H1.
      rewrite (Htrans k2 k k') in H1; [discriminate| |assumption]. now rewrite Hsym.
  - destruct H as [H|H].
    + injection H as <- <-. right. split; [assumption|now left].
    + destruct (IH H2 H) as [[A [es0 [B C]]]|[A B]].
      * left. split; [assumption|]. exists es0. split; [now right|assumption].
      * right. split; [assumption|now right].
Qed.
Lemma push_on_in k e m k' es : distinct (map fst m) -> In (k', es) m ->
  exists es', In (k', es') (push_on eqb k e m).
Proof.
  intros _. induction m as [|[k2 es2] r IH]; intros H; [destruct H|]. cbn [push_on].
  destruct H as [H|H].
  - injection H as <- <-. destruct (eqb k k2); eexists; left; reflexivity.
  - destruct (IH H) as [es' H']. destruct (eqb k k2); [exists es; now right|]. exists es'. now right.
Qed.
Lemma contains_key_iff k m : contains_key eqb k m = true <-> exists k' es, In (k', es) m /\ eqb k k' = true.
Proof.
  unfold contains_key. rewrite existsb_exists. split.
  - intros [[k' es] [H1 H2]]. eauto.
  - intros [k' [es [H1 H2]]]. exists (k', es). auto.
Qed.
Lemma table_add_inv ps m k e : table_inv ps m -> table_inv (ps ++ [(e, k)]) (table_add eqb k e m).
Proof.
  intros [I1 I2 I3]. unfold table_add. destruct (contains_key eqb k m) eqn:C.
  - apply contains_key_iff in C as [k0 [es0 [Hin Hk0]]]. split.
    + now rewrite push_on_keys.
    + intros k' es H. apply in_push_on in H; [|assumption]. rewrite holds_app. unfold holds at 2. cbn [filter map snd fst].
      destruct H as [[E [es1 [Hi ->]]]|[E Hi]]; rewrite E; cbn [map fst].
      * apply I2 in Hi as [-> _]. split; [reflexivity|]. now destruct (holds ps k').
      * rewrite app_nil_r. now apply I2.
    + intros p Hp. apply in_app_or in Hp as [Hp|[<-|[]]].
      * destruct (I3 p Hp) as [k1 [es1 [Hi E]]]. destruct (push_on_in k e m k1 es1 I1 Hi) as [es' H']. eauto.
      * destruct (push_on_in k e m k0 es0 I1 Hin) as [es' H']. exists k0, es'. auto.
  - assert (N : forall k' es, In (k', es) m -> eqb k k' = false).
    { intros k' es H. destruct (eqb k k') eqn:E; [|reflexivity]. exfalso.
      assert (contains_key eqb k m = true) by (apply contains_key_iff; eauto). congruence. }
    assert (Hnew : holds (ps ++ [(e, k)]) k = [e] ).
    { rewrite holds_app. unfold holds at 2. cbn [filter snd]. rewrite Hrefl. cbn [map fst].
      assert (holds ps k = []) as ->; [|reflexivity]. unfold holds.
      assert (filter (fun p => eqb (snd p) k) ps = []) as ->; [|reflexivity].
      destruct (filter _ ps) as [|p r] eqn:Ef; [reflexivity|]. exfalso.
      assert (Hp : In p (filter (fun p => eqb (snd p) k) ps)) by (rewrite Ef; now left).
      apply filter_In in Hp as [Hp Hk]. destruct (I3 p Hp) as [k1 [es1 [Hi E]]].
      apply N in Hi. rewrite (Htrans k (snd p) k1) in Hi; [discriminate| |assumption]. now rewrite Hsym. }
    split.
    + rewrite map_app. apply distinct_snoc; [assumption|]. apply Forall_forall. intros a Ha.
      apply in_map_iff in Ha as [[k' es] [<- Hi]]. cbn [fst]. rewrite Hsym. eapply N; eauto.
    + intros k' es H. apply in_app_or in H as [H|[H|[]]].
      * rewrite holds_app. unfold holds at 2. cbn [filter snd]. rewrite (N _ _ H). cbn [map]. rewrite app_nil_r. now apply I2.
      * injection H as <- <-. rewrite Hnew. split; [reflexivity|discriminate].
    + intros p Hp. apply in_app_or in Hp as [Hp|[<-|[]]].
      * destruct (I3 p Hp) as [k1 [es1 [Hi E]]]. exists k1, es1. split; [apply in_or_app; now left|assumption].
      * exists k, [e]. split; [apply in_or_app; right; now left|apply Hrefl].
Qed.
Lemma table_of_inv ps : table_inv ps (table_of ps).
Proof.
  unfold table_of. rewrite <- (rev_involutive ps). induction (rev ps) as [|[e k] r IH]; cbn [rev].
  - split; cbn; [constructor|intros; contradiction|intros; contradiction].
  - rewrite fold_left_app. cbn [fold_left fst snd]. now apply table_add_inv.
Qed.
Lemma table_get_in m k es : distinct (map fst m) -> In (k, es) m -> table_get eqb k m = es.
Proof.
  induction m as [|[k2 es2] r IH]; intros Hd H; [destruct H|]. cbn [table_get].
  inversion Hd as [|? ? H1 H2]; subst. destruct H as [H|H].
  - injection H as <- <-. now rewrite Hrefl.
  - rewrite (IH H2 H). rewrite Forall_forall in H1. specialize (H1 k (in_map fst _ _ H)). cbn [fst] in H1.
    rewrite Hsym, H1. reflexivity.
Qed.
Lemma distinct_perm ks ks' : Permutation ks ks' -> distinct ks -> distinct ks'.
Proof.
  induction 1 as [|x l l' P IH|x y l|l1 l2 l3 P1 IH1 P2 IH2]; intros H; auto.
  - inversion H as [|? ? H1 H2]; subst. constructor; [|now apply IH].
    rewrite Forall_forall in *. intros z Hz. apply H1. eapply Permutation_in; [symmetry; exact P|assumption].
  - inversion H as [|? ? H1 H2]; subst. inversion H2 as [|? ? H3 H4]; subst.
    constructor; [constructor; [|assumption]|constructor; [|assumption]].
    + rewrite Hsym. now apply Forall_inv in H1.
    + now apply Forall_inv_tail in H1.
Qed.
(** Whatever the order in which the keys are visited, the lists together are the elements. *)
Lemma table_partition ps m keys : table_inv ps m -> Permutation keys (map fst m) ->
  Permutation (flat_map (fun k => table_get eqb k m) keys) (map fst ps).
Proof.
  intros [I1 I2 I3] P.
  assert (D : distinct keys) by (eapply distinct_perm; [symmetry; exact P|assumption]).
  assert (E : forall ks, incl ks keys -> flat_map (fun k => table_get eqb k m) ks = map fst (flat_map (fun k => filter (fun p => eqb (snd p) k) ps) ks)).
  { induction ks as [|k ks IH]; intros Hi; cbn [flat_map map]; [reflexivity|].
    rewrite map_app, IH by (intros z Hz; apply Hi; now right). f_equal.
    assert (Hk : In k (map fst m)) by (eapply Permutation_in; [exact P|apply Hi; now left]).
    apply in_map_iff in Hk as [[k' es] [<- Hin]]. cbn [fst]. rewrite (table_get_in _ _ _ I1 Hin).
    now apply I2 in Hin as [-> _]. }
  rewrite E by apply incl_refl. apply Permutation_map. apply partition_perm.
  intros p Hp. destruct (I3 p Hp) as [k [es [Hin Hk]]].
  assert (Hk' : In k keys) by (eapply Permutation_in; [symmetry; exact P|]; apply (in_map fst) in Hin; exact Hin).
  apply in_split in Hk' as [a [b ->]]. exists a, k, b. split; [reflexivity|]. split; [assumption|].
  intros k' Hin'. assert (Hkk : eqb k k' = false).
  { assert (D' : distinct (k :: a ++ b)) by (eapply distinct_perm; [|exact D]; symmetry; apply Permutation_middle).
    inversion D' as [|? ? H1 _]; subst. rewrite Forall_forall in H1. now apply H1. }
  destruct (eqb (snd p) k') eqn:E2; [|reflexivity]. exfalso.
  rewrite (Htrans k (snd p) k') in Hkk; [discriminate| |assumption]. now rewrite Hsym.
Qed.
End Tables.

(** ** Entry lines *)
Definition entry_line (text c : bytes) : bytes := lit "  " ++ text ++ lit "  " ++ c ++ add_spaces 1.
Lemma entry_words text c : token text -> words (entry_line text c) = text :: words c.
Proof.
  intros H. unfold entry_line. cbn [lit list_ascii_of_string app]. rewrite !words_sep by reflexivity.
  rewrite words_tok_sep by (assumption || reflexivity). rewrite words_sep by reflexivity.
  unfold add_spaces. cbn [repeat]. now rewrite words_trailing_sep.
Qed.
Lemma chunks_entries es text limit : token text -> Forall (fun e => 1 <= e < two32) es ->
  flat_map entry_ids (write_chunks es text limit) = es /\
  Forall (fun l => entry_text l = text) (write_chunks es text limit) /\
  (es <> [] -> write_chunks es text limit <> []).
Proof.
  intros Ht He. unfold write_chunks. pose proof (chunks_elements es limit He) as E.
  split; [|split].
  - rewrite flat_map_concat_map, map_map. rewrite <- E at 2. unfold decode_chunks. rewrite flat_map_concat_map.
    f_equal. apply map_ext. intros c. unfold entry_ids. fold (entry_line text c). now rewrite entry_words.
  - apply Forall_map. apply Forall_forall. intros c _. unfold entry_text. fold (entry_line text c). now rewrite entry_words.
  - intros N H. apply map_eq_nil in H. rewrite H in E. cbn in E. congruence.
Qed.
(** The lines of one table, visited in any order of its keys. *)
Lemma table_lines {K} (eqb : K -> K -> bool) (Hrefl : forall a, eqb a a = true) (Hsym : forall a b, eqb a b = eqb b a)
  (Htrans : forall a b c, eqb a b = true -> eqb b c = true -> eqb a c = true)
  (text : K -> bytes) (ps : list (Z * K)) m keys limit :
  (forall p, In p ps -> 1 <= fst p < two32) -> (forall k, In k keys -> token (text k)) ->
  table_inv eqb ps m -> Permutation keys (map fst m) ->
  Permutation (flat_map entry_ids (flat_map (fun k => write_chunks (table_get eqb k m) (text k) limit) keys)) (map fst ps)
  /\ distinct eqb keys
  /\ forall k, In k keys -> write_chunks (table_get eqb k m) (text k) limit <> [] /\
       forall l, In l (write_chunks (table_get eqb k m) (text k) limit) ->
         entry_text l = text k /\ forall e, In e (entry_ids l) -> exists v, In (e, v) ps /\ eqb v k = true.
Proof.
  intros Hps Hk I P.
  assert (G : forall k, In k keys -> table_get eqb k m = holds eqb ps k /\ table_get eqb k m <> []).
  { intros k Hin. assert (Hm : In k (map fst m)) by (eapply Permutation_in; eauto).
    apply in_map_iff in Hm as [[k' es] [<- Hi]]. cbn [fst].
    rewrite (table_get_in eqb Hrefl Hsym _ _ _ (ti_distinct _ _ _ I) Hi). now apply (ti_lists _ _ _ I) in Hi. }
  assert (R : forall k, In k keys -> Forall (fun e => 1 <= e < two32) (table_get eqb k m)).
  { intros k Hin. destruct (G k Hin) as [-> _]. apply Forall_forall. intros e He. unfold holds in He.
    apply in_map_iff in He as [p [<- Hp]]. apply filter_In in Hp as [Hp _]. now apply Hps. }
  split; [|split].
  - rewrite <- (table_partition eqb Hrefl Hsym Htrans ps m keys I P).
    assert (E : forall ks, incl ks keys ->
      flat_map entry_ids (flat_map (fun k => write_chunks (table_get eqb k m) (text k) limit) ks)
      = flat_map (fun k => table_get eqb k m) ks).
    { induction ks as [|k ks IH]; intros Hi; cbn [flat_map]; [reflexivity|].
      rewrite flat_map_app, IH by (intros z Hz; apply Hi; now right). f_equal.
      assert (Hin : In k keys) by (apply Hi; now left).
      now destruct (chunks_entries (table_get eqb k m) (text k) limit (Hk k Hin) (R k Hin)). }
    rewrite E by apply incl_refl. reflexivity.
  - eapply (distinct_perm eqb Hsym); [symmetry; exact P|]. apply (ti_distinct _ _ _ I).
  - intros k Hin. destruct (chunks_entries (table_get eqb k m) (text k) limit (Hk k Hin) (R k Hin)) as [E1 [E2 E3]].
    split; [apply E3; now apply G|]. intros l Hl. split.
    + rewrite Forall_forall in E2. now apply E2.
    + intros e He. assert (He' : In e (table_get eqb k m)).
      { rewrite <- E1. apply in_flat_map. eauto. }
      destruct (G k Hin) as [Hh _]. rewrite Hh in He'. unfold holds in He'.
      apply in_map_iff in He' as [[e' v] [<- Hp]]. apply filter_In in Hp as [Hp Hv]. exists v. auto.
Qed.

Section Distribution.
Context (V : FemVal).
Lemma all_ids_S n : all_ids (S n) = all_ids n ++ [Z.of_nat n + 1].
Proof. unfold all_ids. rewrite seq_S, map_app. reflexivity. Qed.
Lemma all_ids_length n : List.length (all_ids n) = n.
Proof. unfold all_ids. now rewrite map_length, seq_length. Qed.
Lemma in_all_ids n e : In e (all_ids n) <-> 1 <= e <= Z.of_nat n.
Proof.
  unfold all_ids. rewrite in_map_iff. split.
  - intros [k [<- H]]. apply in_seq in H. lia.
  - intros H. exists (Z.to_nat (e - 1)). split; [lia|]. apply in_seq. lia.
Qed.
Lemma firstn_S_nth {A} (l : list A) n x : nth_error l n = Some x -> firstn (S n) l = firstn n l ++ [x].
Proof.
  revert n. induction l as [|a l IH]; intros [|n] H; cbn [nth_error firstn] in *; try discriminate; cbn [app].
  - congruence.
  - f_equal. now apply IH.
Qed.
Lemma combine_snoc {A B} (a : list A) (b : list B) x y : List.length a = List.length b ->
  combine (a ++ [x]) (b ++ [y]) = combine a b ++ [(x, y)].
Proof. revert b. induction a as [|u a IH]; intros [|v b] H; cbn in *; try discriminate; [reflexivity|]. f_equal. apply IH. lia. Qed.
Definition numbered (n : nat) (vals : list (val V)) : list (Z * val V) := combine (all_ids n) (firstn n vals).
Lemma distribution_ok n a : (n <= List.length (f_vals V a))%nat -> Z.of_nat n < two32 ->
  create_attribute_distribution V n a = Ok (table_of (veqb V) (numbered n (f_vals V a))).
Proof.
  unfold create_attribute_distribution. induction n as [|n IH]; intros H Hn; [reflexivity|].
  rewrite rangez_S, foldM_app, IH by lia. cbn [bind foldM]. rewrite Z.add_0_l.
  unfold idxz. rewrite nthz_nat. destruct (nth_error (f_vals V a) n) as [v|] eqn:E.
  2:{ apply nth_error_None in E. lia. }
  cbn [bind]. rewrite add32_small by lia.
  unfold numbered. rewrite all_ids_S, (firstn_S_nth _ _ _ E), combine_snoc.
  - unfold table_of. now rewrite fold_left_app.
  - rewrite all_ids_length, firstn_length. lia.
Qed.
Lemma distribution_fold a l : forall m, 
  (exists m', foldM (fun m elem => do v <- idxz (f_vals V a) elem; Ok (table_add (veqb V) v (add32 elem 1) m)) l m = Ok m')
  \/ foldM (fun m elem => do v <- idxz (f_vals V a) elem; Ok (table_add (veqb V) v (add32 elem 1) m)) l m = UB.
Proof.
  induction l as [|x l IH]; intros m; cbn [foldM]; [eauto|].
  unfold idxz at 1 3. destruct (nthz _ x); cbn [bind]; [apply IH|now right].
Qed.
Lemma distribution_ub n a : (List.length (f_vals V a) < n)%nat -> create_attribute_distribution V n a = UB.
Proof.
  intros H. unfold create_attribute_distribution. replace n with (List.length (f_vals V a) + S (n - S (List.length (f_vals V a))))%nat by lia.
  rewrite rangez_app, foldM_app.
  destruct (distribution_fold a (rangez 0 (List.length (f_vals V a))) []) as [[m ->]| ->]; [|reflexivity].
  cbn [bind rangez foldM]. rewrite Z.add_0_l. unfold idxz at 1. rewrite nthz_nat.
  now rewrite (proj2 (nth_error_None _ _)) by lia.
Qed.
Lemma numbered_fst n vals : (n <= List.length vals)%nat -> map fst (numbered n vals) = all_ids n.
Proof.
  intros H. unfold numbered. assert (L : List.length (all_ids n) = List.length (firstn n vals)).
  { rewrite all_ids_length, firstn_length. lia. }
  revert L. generalize (all_ids n) (firstn n vals). induction l as [|x l IH]; intros [|y r] L; cbn in *; try discriminate; auto.
  f_equal. apply IH. lia.
Qed.
Lemma in_numbered n vals e v : In (e, v) (numbered n vals) ->
  1 <= e <= Z.of_nat n /\ nth_error vals (Z.to_nat (e - 1)) = Some v.
Proof.
  intros H. split; [apply in_combine_l in H; now apply in_all_ids|].
  unfold numbered in H. apply In_nth_error in H as [i H].
  assert (Hl : (i < n)%nat).
  { assert (i < List.length (combine (all_ids n) (firstn n vals)))%nat by (apply nth_error_Some; congruence).
    rewrite combine_length, all_ids_length in H0. lia. }
  assert (N : nth_error (all_ids n) i = Some (Z.of_nat i + 1)).
  { unfold all_ids. rewrite nth_error_map, nth_error_nth' with (d := 0%nat) by (rewrite seq_length; lia).
    rewrite seq_nth by lia. reflexivity. }
  assert (X : nth_error (all_ids n) i = Some e /\ nth_error (firstn n vals) i = Some v).
  { revert H. generalize (all_ids n) (firstn n vals). clear. revert i.
    induction i as [|i IH]; intros [|a l] [|b r]; cbn; try discriminate; [intros H; now injection H as <- <-|apply IH]. }
  destruct X as [X1 X2]. assert (e = Z.of_nat i + 1) by congruence. subst e.
  replace (Z.to_nat (Z.of_nat i + 1 - 1)) with i by lia.
  rewrite <- (firstn_skipn n vals). rewrite nth_error_app1; [assumption|]. apply nth_error_Some. congruence.
Qed.
Lemma property_lines_ok n a : femval_ok V -> (n <= List.length (f_vals V a))%nat -> Z.of_nat n < two32 ->
  exists groups : list (val V * list bytes),
    write_property V n a = Ok (f_name V a :: flat_map snd groups) /\
    Permutation (flat_map entry_ids (flat_map snd groups)) (all_ids n) /\
    distinct (veqb V) (map fst groups) /\
    forall v ls, In (v, ls) groups -> ls <> [] /\ forall l, In l ls -> entry_text l = vfix V v /\
      forall e, In e (entry_ids l) -> exists w, nth_error (f_vals V a) (Z.to_nat (e - 1)) = Some w /\ veqb V w v = true.
Proof.
  intros HV Hl Hn. unfold write_property. rewrite distribution_ok by assumption. cbn [bind].
  set (ps := numbered n (f_vals V a)). set (m := table_of (veqb V) ps).
  set (keys := vsort V (map fst (viter V (list Z) m))).
  assert (P : Permutation keys (map fst m)).
  { unfold keys. rewrite (vsort_perm V HV). apply Permutation_map. apply (viter_perm V HV). }
  assert (I : table_inv (veqb V) ps m).
  { apply table_of_inv; [apply (veqb_refl V HV)|apply (veqb_sym V HV)|apply (veqb_trans V HV)]. }
  destruct (table_lines (veqb V) (veqb_refl V HV) (veqb_sym V HV) (veqb_trans V HV) (vfix V) ps m keys CHUNK_SIZE) as [T1 [T2 T3]]; auto.
  { intros [e v] Hp. apply in_numbered in Hp as [Hp _]. cbn [fst]. lia. }
  { intros. apply (vfix_token V HV). }
  exists (map (fun k => (k, write_chunks (table_get (veqb V) k m) (vfix V k) CHUNK_SIZE)) keys).
  assert (E : flat_map snd (map (fun k => (k, write_chunks (table_get (veqb V) k m) (vfix V k) CHUNK_SIZE)) keys)
              = property_lines V m).
  { unfold property_lines. fold keys. rewrite !flat_map_concat_map, map_map. reflexivity. }
  rewrite E. split; [reflexivity|]. split.
  { rewrite <- (numbered_fst n (f_vals V a) Hl). exact T1. }
  split; [rewrite map_map; cbn [fst]; now rewrite map_id|].
  intros v ls H. apply in_map_iff in H as [k [H Hin]]. injection H as <- <-.
  destruct (T3 k Hin) as [T4 T5]. split; [assumption|]. intros l Hli. destruct (T5 l Hli) as [T6 T7]. split; [assumption|].
  intros e He. destruct (T7 e He) as [w [Hw Hq]]. exists w. split; [|assumption]. now apply in_numbered in Hw.
Qed.
End Distribution.
