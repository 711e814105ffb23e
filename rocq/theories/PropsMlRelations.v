(** * Relations of a loaded .ml model, for any number of meetings (C44, C37)

    The reader sorts the lines met along the border of a surface (ml_input.cpp, 265-299) and the
    surfaces listed for a block (ml_input.cpp, 881-929), and goes through the sorted list two by two.
    Here is what the result is for every list, without any condition on how often a number appears. *)
From Coq Require Import List ZArith Bool Lia Permutation Arith.
From Verif Require Import Base GocadModel MlModel MlFacts MlLines MlLinesFacts PropsMlLines.
Import ListNotations.
Local Open Scope list_scope.
Local Open Scope Z_scope.

Definition relation_dec (a b : Z * bool) : {a = b} + {a <> b}.
Proof. decide equality; [apply bool_dec|apply Z.eq_dec]. Defined.
(** How many times a relation is added *)
Definition added (e : Z * bool) (l : list (Z * bool)) : nat := count_occ relation_dec l e.
Lemma added_cons e f l : added e (f :: l) = ((if relation_dec f e then 1 else 0) + added e l)%nat.
Proof. unfold added. cbn [count_occ]. now destruct (relation_dec f e). Qed.

(** Expected number of boundary relations *)
Definition one_left (l : list Z) (x : Z) : nat :=
  if Nat.odd (cnt l x) && negb (Nat.leb 3 (cnt l x) && forallb (fun y => y <=? x) l) then 1%nat else 0%nat.

Lemma finish_pair2 a r : r <> [a] -> finish (a :: a :: r) = (a, true) :: finish r.
Proof.
  intros Ha. unfold finish. cbn [pair_up]. rewrite Z.eqb_refl.
  cbn [app]. f_equal. f_equal. destruct r as [|c [|d r]].
  - cbn [rev app]. now rewrite Z.eqb_refl.
  - cbn [rev app]. rewrite (proj2 (Z.eqb_neq a c)); [reflexivity|]. intros ->. now apply Ha.
  - destruct (rev_two a (c :: d :: r) ltac:(simpl; lia)) as [x [y [t [t' [-> E]]]]].
    destruct (rev_two a (a :: c :: d :: r) ltac:(simpl; lia)) as [x2 [y2 [u [u' [E1 ->]]]]].
    rewrite E1 in E. injection E as -> -> _. reflexivity.
Qed.
Lemma cnt_all a l : (forall y, In y l -> y = a) -> cnt l a = List.length l.
Proof.
  induction l as [|b l IH]; intros H; [reflexivity|]. rewrite cnt_cons, (H b (or_introl eq_refl)), Z.eqb_refl.
  simpl. rewrite IH; [reflexivity|]. intros y Hy. apply H. now right.
Qed.
Lemma odd_2 n : Nat.odd (S (S n)) = Nat.odd n.
Proof. now rewrite Nat.odd_succ, Nat.even_succ. Qed.

Lemma finish_counts n l : (List.length l <= n)%nat -> sorted l ->
  forall x, added (x, true) (finish l) = Nat.div2 (cnt l x) /\ added (x, false) (finish l) = one_left l x.
Proof.
  revert l. induction n as [|n IH]; intros l Hn Hs x.
  { destruct l; [split; reflexivity|simpl in Hn; lia]. }
  destruct l as [|a [|b r]]; [split; reflexivity| |].
  - unfold one_left. rewrite !cnt_cons. change (cnt [] x) with 0%nat.
    change (finish [a]) with [(a, false)]. rewrite !added_cons. change (added (x, true) []) with 0%nat. change (added (x, false) []) with 0%nat.
    destruct (Z.eqb_spec a x) as [->|Hne]; cbn [Nat.add Nat.div2 Nat.odd Nat.even negb andb Nat.leb].
    + destruct (relation_dec (x, false) (x, true)); [congruence|]. destruct (relation_dec (x, false) (x, false)); [|congruence]. split; reflexivity.
    + destruct (relation_dec (a, false) (x, true)); [congruence|]. destruct (relation_dec (a, false) (x, false)); [congruence|]. split; reflexivity.
  - pose proof Hs as Hs0. apply sorted_inv in Hs0 as [La Hs1]. pose proof Hs1 as Hs2. apply sorted_inv in Hs2 as [Lb Hs2].
    destruct (Z.eqb_spec a b) as [->|Hab].
    + destruct (list_eq_dec Z.eq_dec r [b]) as [->|Hr].
      * unfold one_left. rewrite !cnt_cons. change (cnt [] x) with 0%nat.
        assert (E : finish [b; b; b] = [(b, true)]) by (unfold finish; cbn [pair_up rev app]; rewrite Z.eqb_refl; reflexivity).
        rewrite E, !added_cons. change (added (x, true) []) with 0%nat. change (added (x, false) []) with 0%nat. cbn [forallb].
        destruct (Z.eqb_spec b x) as [->|Hne].
        -- rewrite Z.leb_refl. destruct (relation_dec (x, true) (x, true)); [|congruence]. destruct (relation_dec (x, true) (x, false)); [congruence|]. split; reflexivity.
        -- destruct (relation_dec (b, true) (x, true)); [congruence|]. destruct (relation_dec (b, true) (x, false)); [congruence|]. split; reflexivity.
      * rewrite finish_pair2 by assumption. rewrite !added_cons.
        destruct (IH r ltac:(simpl in Hn; lia) Hs2 x) as [I1 I2]. rewrite I1, I2. unfold one_left. rewrite !cnt_cons.
        destruct (Z.eqb_spec b x) as [->|Hne].
        -- destruct (relation_dec (x, true) (x, true)); [|congruence]. destruct (relation_dec (x, true) (x, false)); [congruence|].
           cbn [Nat.add]. split; [reflexivity|]. rewrite odd_2. destruct (Nat.odd (cnt r x)) eqn:Ho; [|reflexivity]. cbn [andb].
           cbn [forallb]. rewrite Z.leb_refl. cbn [andb].
           destruct (forallb (fun y => y <=? x) r) eqn:Ef; [|now rewrite !andb_false_r]. rewrite !andb_true_r.
           assert (C : cnt r x = List.length r).
           { apply cnt_all. intros y Hy. apply (proj1 (forallb_forall _ _) Ef) in Hy as Hle. apply Z.leb_le in Hle. specialize (Lb y Hy). lia. }
           rewrite C in *. destruct r as [|y [|z [|w r]]]; [discriminate| |discriminate|reflexivity].
           exfalso. apply Hr. f_equal.
           assert (In y [y]) as Hy by now left. pose proof (proj1 (forallb_forall _ _) Ef y Hy) as Hle. apply Z.leb_le in Hle. specialize (Lb y Hy). lia.
        -- destruct (relation_dec (b, true) (x, true)); [congruence|]. destruct (relation_dec (b, true) (x, false)); [congruence|].
           cbn [Nat.add]. split; [reflexivity|]. cbn [forallb].
           destruct (Nat.leb 3 (cnt r x)) eqn:E3; [|reflexivity]. cbn [andb].
           assert (Hi : In x r) by (apply (count_occ_In Z.eq_dec); apply Nat.leb_le in E3; unfold cnt in E3; lia).
           rewrite (proj2 (Z.leb_le b x)) by (now apply Lb). reflexivity.
    + rewrite finish_skip by assumption. rewrite !added_cons.
      assert (Ha : ~ In a (b :: r)).
      { intros [Hi|Hi]; [congruence|]. specialize (Lb a Hi). specialize (La b ltac:(now left)). lia. }
      destruct (IH (b :: r) ltac:(simpl in *; lia) Hs1 x) as [I1 I2]. rewrite I1, I2. unfold one_left. rewrite (cnt_cons (b :: r) a).
      destruct (Z.eqb_spec a x) as [->|Hne].
      * rewrite (cnt_notin (b :: r) x) by assumption.
        destruct (relation_dec (x, false) (x, true)); [congruence|]. destruct (relation_dec (x, false) (x, false)); [|congruence]. split; reflexivity.
      * destruct (relation_dec (a, false) (x, true)); [congruence|]. destruct (relation_dec (a, false) (x, false)); [congruence|].
        cbn [Nat.add]. split; [reflexivity|]. cbn [forallb].
        destruct (Nat.leb 3 (cnt (b :: r) x)) eqn:E3; [|reflexivity]. cbn [andb].
        assert (Hi : In x (b :: r)) by (apply (count_occ_In Z.eq_dec); apply Nat.leb_le in E3; unfold cnt in E3; lia).
        rewrite (proj2 (Z.leb_le a x)) by (now apply La). reflexivity.
Qed.

Lemma one_left_perm a b x : Permutation a b -> one_left a x = one_left b x.
Proof.
  intros P. unfold one_left. rewrite (cnt_perm a b x P).
  replace (forallb (fun y => y <=? x) b) with (forallb (fun y => y <=? x) a); [reflexivity|].
  apply eq_true_iff_eq. rewrite !forallb_forall. split; intros H y Hy; apply H; [apply (Permutation_in _ (Permutation_sym P))|apply (Permutation_in _ P)]; assumption.
Qed.
(** In words: a boundary relation is made when the number is met an odd number of times, unless it is
    the largest and met three times or more *)
Lemma one_left_spec l x :
  (one_left l x <= 1)%nat /\
  (one_left l x = 1%nat <-> Nat.Odd (cnt l x) /\ ((exists y, In y l /\ x < y) \/ cnt l x = 1%nat)).
Proof.
  unfold one_left. split; [destruct (_ && _); lia|].
  assert (F : forallb (fun y => y <=? x) l = false <-> exists y, In y l /\ x < y).
  { split.
    - intros H. induction l as [|a l IH]; [discriminate|]. cbn [forallb] in H. apply andb_false_iff in H as [H|H].
      + apply Z.leb_gt in H. exists a. split; [now left|assumption].
      + destruct (IH H) as [y [Hy L]]. exists y. split; [now right|assumption].
    - intros [y [Hy L]]. destruct (forallb _ l) eqn:E; [|reflexivity]. apply (proj1 (forallb_forall _ _) E) in Hy. apply Z.leb_le in Hy. lia. }
  rewrite <- F, <- Nat.odd_spec. destruct (Nat.odd (cnt l x)) eqn:Ho; cbn [andb]; [|split; [discriminate|intros [H _]; discriminate]].
  destruct (forallb _ l); [|rewrite andb_false_r; split; [split; [reflexivity|now left]|reflexivity]].
  rewrite andb_true_r. destruct (Nat.leb 3 (cnt l x)) eqn:E3; cbn [negb].
  - apply Nat.leb_le in E3. split; [discriminate|]. intros [_ [H|H]]; [discriminate|lia].
  - apply Nat.leb_gt in E3. destruct (cnt l x) as [|[|[|k]]]; [discriminate| |discriminate|lia]. split; [split; auto|reflexivity].
Qed.

(** ** C44: the lines of a surface *)
(** [l]: the lines met along the border of the surface, in any order. A line met k times is made
    internal k/2 times; it is made a boundary, once, when k is odd and another line with a larger
    number is met, or k is 1 and another line is met. *)
Theorem C44_relations_exact : forall (l : list (Z * list Z)) (x : Z),
  added (x, true) (relations (surface_events l)) = (times_met x l / 2)%nat /\
  (added (x, false) (relations (surface_events l)) <= 1)%nat /\
  (added (x, false) (relations (surface_events l)) = 1%nat <->
    Nat.Odd (times_met x l) /\
    ((exists y, In y (map fst l) /\ x < y) \/ (times_met x l = 1%nat /\ exists y, In y (map fst l) /\ y <> x))).
Proof.
  intros l x. change (times_met x l) with (cnt (map fst l) x). rewrite <- Nat.div2_div.
  destruct (le_lt_dec 2 (List.length l)) as [Hl|Hl].
  - rewrite relations_events by assumption.
    destruct (finish_counts _ _ (le_n _) (sort_sorted (map fst l)) x) as [-> ->].
    pose proof (sort_perm (map fst l)) as P. rewrite (cnt_perm _ _ x P), (one_left_perm _ _ x P).
    split; [reflexivity|]. destruct (one_left_spec (map fst l) x) as [L S1]. split; [assumption|]. rewrite S1.
    split; intros [Ho H]; (split; [assumption|]).
    + destruct H as [H|H]; [now left|]. right. split; [assumption|].
      (* another number in a list of length at least 2 *)
      assert (N : ~ forall y, In y (map fst l) -> y = x).
      { intros A. rewrite (cnt_all _ _ A), map_length in H. lia. }
      destruct (existsb (fun y => negb (y =? x)) (map fst l)) eqn:E.
      * apply existsb_exists in E as [y [Hy E]]. exists y. split; [assumption|]. apply negb_true_iff, Z.eqb_neq in E. assumption.
      * exfalso. apply N. intros y Hy. destruct (Z.eqb_spec y x) as [|Hne]; [assumption|].
        assert (existsb (fun y => negb (y =? x)) (map fst l) = true); [|congruence].
        apply existsb_exists. exists y. split; [assumption|]. now rewrite (proj2 (Z.eqb_neq y x)).
    + destruct H as [H|[H _]]; [now left|now right].
  - rewrite relations_small by assumption. change (added (x, true) []) with 0%nat. change (added (x, false) []) with 0%nat.
    destruct l as [|a [|b r]]; [| |simpl in Hl; lia].
    + split; [reflexivity|]. split; [lia|]. split; [discriminate|]. intros [[k H] _]. change (cnt (map fst []) x) with 0%nat in H. lia.
    + cbn [map]. rewrite cnt_cons. change (cnt [] x) with 0%nat. destruct (Z.eqb_spec (fst a) x) as [E|E]; (split; [reflexivity|]; split; [lia|]; split; [discriminate|]).
      * intros [_ [[y [[<-|[]] H]]|[_ [y [[<-|[]] H]]]]]; lia.
      * intros [[k H] _]. simpl in H. lia.
Qed.
Print Assumptions C44_relations_exact.
(** A line met three times: when it is the last one, its third meeting is lost *)
Example C44_three_times :
  relations (surface_events [(3, [0; 1]); (3, [2; 3]); (3, [4; 5]); (4, [6; 7])]) = [(3, true); (3, false); (4, false)] /\
  relations (surface_events [(3, [0; 1]); (3, [2; 3]); (3, [4; 5]); (2, [6; 7])]) = [(2, false); (3, true)].
Proof. split; reflexivity. Qed.

(** ** C37: the surfaces of a block *)
(** For every list of at least two surface numbers in the file: the same rule; with fewer than two
    numbers the code reads before the beginning of its list. *)
Theorem C37_topology_exact : forall nb numbers, (forall x, In x numbers -> 0 <= x < nb) ->
  match numbers with
  | _ :: _ :: _ => exists boundaries internals, block_topology nb numbers = Ok (boundaries, internals) /\
      NoDup boundaries /\
      (forall x, count_occ Z.eq_dec internals x = (count_occ Z.eq_dec numbers x / 2)%nat) /\
      (forall x, In x boundaries <-> Nat.Odd (count_occ Z.eq_dec numbers x) /\
         ((exists y, In y numbers /\ x < y) \/ count_occ Z.eq_dec numbers x = 1%nat))
  | _ => block_topology nb numbers = UB
  end.
Proof.
  intros nb numbers Hr. destruct numbers as [|a [|b r]] eqn:EN; [reflexivity..|]. rewrite <- EN in *.
  assert (Hl : (2 <= List.length numbers)%nat) by (rewrite EN; simpl; lia). clear EN a b r.
  unfold block_topology. set (l := sort_z numbers).
  assert (P : Permutation l numbers) by apply sort_perm.
  assert (Hlen : (2 <= List.length l)%nat) by (rewrite (Permutation_length P); assumption).
  assert (FC := finish_counts _ _ (le_n _) (sort_sorted numbers)). fold l in FC.
  assert (E : exists la, last_one l = Ok la /\ finish l = pair_up l ++ la).
  { unfold last_one, finish. destruct (rev l) as [|x [|y t]] eqn:E.
    - apply (f_equal (@List.length Z)) in E. rewrite rev_length in E. simpl in E. lia.
    - apply (f_equal (@List.length Z)) in E. rewrite rev_length in E. simpl in E. lia.
    - eexists. split; reflexivity. }
  destruct E as [la [-> E]]. cbn [bind]. rewrite <- E.
  assert (AI : forall x b, In (x, b) (finish l) -> In x numbers).
  { intros x b Hi. apply (count_occ_In relation_dec) in Hi. fold (added (x, b) (finish l)) in Hi.
    destruct (FC x) as [F1 F2]. apply (count_occ_In Z.eq_dec). fold (cnt numbers x). rewrite <- (cnt_perm _ _ x P).
    destruct b; [rewrite F1 in Hi|rewrite F2 in Hi; unfold one_left in Hi]; destruct (cnt l x); (lia || (simpl in Hi; lia)). }
  assert (F : forallb (fun e => (0 <=? fst e) && (fst e <? nb)) (finish l) = true).
  { apply forallb_forall. intros [x b] Hi. cbn [fst]. specialize (Hr x (AI x b Hi)).
    rewrite (proj2 (Z.leb_le _ _)), (proj2 (Z.ltb_lt _ _)) by lia. reflexivity. }
  rewrite F. do 2 eexists. split; [reflexivity|].
  assert (Cb : forall q x, count_occ Z.eq_dec (map fst (filter (fun e => negb (snd e)) q)) x = added (x, false) q).
  { clear. induction q as [|[y b] q IH]; intros x; [reflexivity|]. cbn [filter snd]. rewrite added_cons.
    destruct b; cbn [negb].
    - destruct (relation_dec (y, true) (x, false)); [congruence|]. apply IH.
    - cbn [map fst count_occ]. destruct (Z.eq_dec y x) as [->|Hn].
      + destruct (relation_dec (x, false) (x, false)); [|congruence]. now rewrite IH.
      + destruct (relation_dec (y, false) (x, false)); [congruence|]. apply IH. }
  assert (Ci : forall q x, count_occ Z.eq_dec (map fst (filter snd q)) x = added (x, true) q).
  { clear. induction q as [|[y b] q IH]; intros x; [reflexivity|]. cbn [filter snd]. rewrite added_cons.
    destruct b.
    - cbn [map fst count_occ]. destruct (Z.eq_dec y x) as [->|Hn].
      + destruct (relation_dec (x, true) (x, true)); [|congruence]. now rewrite IH.
      + destruct (relation_dec (y, true) (x, true)); [congruence|]. apply IH.
    - destruct (relation_dec (y, false) (x, true)); [congruence|]. apply IH. }
  split; [|split].
  - apply (NoDup_count_occ Z.eq_dec). intros x. rewrite Cb, (proj2 (FC x)). apply one_left_spec.
  - intros x. rewrite Ci, (proj1 (FC x)), (cnt_perm _ _ x P). apply Nat.div2_div.
  - intros x. rewrite (count_occ_In Z.eq_dec), Cb, (proj2 (FC x)), (one_left_perm _ _ x P).
    destruct (one_left_spec numbers x) as [L S1]. fold (cnt numbers x). rewrite <- S1. lia.
Qed.
Print Assumptions C37_topology_exact.
(** A surface listed three times, the last one or not *)
Example C37_three_times :
  block_topology 6 [5; 2; 5; 3; 5] = Ok ([2; 3], [5]) /\ block_topology 6 [3; 2; 3; 5; 3] = Ok ([2; 3; 5], [3]).
Proof. split; reflexivity. Qed.
