(** * Facts about the corners and lines of a loaded .ml model (MlLines.v) *)
From Coq Require Import List ZArith Bool Lia Permutation.
From Verif Require Import Base GocadModel MlModel MlFacts MlLines.
Import ListNotations.
Local Open Scope list_scope.
Local Open Scope Z_scope.

(** ** The relations of a surface *)
Lemma relations_pairs n l : (List.length l <= n)%nat -> relations (pair_events l) = pair_up (map fst l).
Proof.
  revert l. induction n as [|n IH]; intros l Hn; [destruct l; [reflexivity|simpl in Hn; lia]|].
  destruct l as [|a [|b r]]; [reflexivity..|]. cbn [pair_events map pair_up].
  destruct (Z.eqb_spec (fst a) (fst b)) as [E|E].
  - unfold relations. cbn [flat_map event_relation app]. rewrite E. f_equal. apply IH. simpl in Hn. lia.
  - unfold relations. cbn [flat_map event_relation app]. f_equal. apply (IH (b :: r)). simpl in *. lia.
Qed.
Lemma insert_line_fst x l : map fst (insert_line x l) = insert_z (fst x) (map fst l).
Proof. induction l as [|y r IH]; [reflexivity|]. cbn [insert_line map insert_z]. destruct (fst x <=? fst y); cbn [map]; congruence. Qed.
Lemma sort_lines_fst l : map fst (sort_lines l) = sort_z (map fst l).
Proof. induction l as [|x l IH]; [reflexivity|]. cbn [sort_lines fold_right map sort_z]. rewrite insert_line_fst. f_equal. apply IH. Qed.
Lemma relations_events l : (2 <= List.length l)%nat -> relations (surface_events l) = finish (sort_z (map fst l)).
Proof.
  intros H. unfold surface_events, finish. rewrite <- sort_lines_fst.
  unfold relations. rewrite flat_map_app. f_equal; [apply (relations_pairs _ _ (le_n _))|].
  assert (Hs : (2 <= List.length (sort_lines l))%nat).
  { rewrite <- (map_length fst), sort_lines_fst, (Permutation_length (sort_perm _)), map_length. assumption. }
  unfold last_event. rewrite <- map_rev. destruct (rev (sort_lines l)) as [|x [|y t]] eqn:E.
  - apply (f_equal (@List.length _)) in E. rewrite rev_length in E. simpl in E. lia.
  - apply (f_equal (@List.length _)) in E. rewrite rev_length in E. simpl in E. lia.
  - cbn [map]. destruct (fst y =? fst x); reflexivity.
Qed.
Lemma relations_small l : (List.length l < 2)%nat -> relations (surface_events l) = [].
Proof. destruct l as [|x [|y r]]; simpl; intros; [reflexivity..|lia]. Qed.

(** ** The walk along a loop *)
(** The edges (next, current) along the vertices [vs], the vertex after the last being [z] *)
Fixpoint path (vs : list Z) (z : Z) : list edge :=
  match vs with
  | [] => []
  | v :: t => (match t with [] => z | w :: _ => w end, v) :: path t z
  end.
Lemma path_app a b z : b <> [] -> path (a ++ b) z = path a (hd 0 b) ++ path b z.
Proof.
  intros Hb. induction a as [|v t IH]; [reflexivity|]. cbn [app path]. rewrite IH. cbn [app]. f_equal. f_equal.
  destruct t as [|w t]; [|reflexivity]. destruct b; [congruence|reflexivity].
Qed.
Lemma path_length vs z : List.length (path vs z) = List.length vs.
Proof. induction vs as [|v t IH]; [reflexivity|]. cbn [path]. simpl. congruence. Qed.

Definition mk (back : bool) (e : edge) : edge := if back then e else (snd e, fst e).
Lemma mk_vertex back n c : walk_vertex back (mk back (n, c)) = n.
Proof. now destruct back. Qed.
Lemma mk_inj back a b : mk back a = mk back b -> a = b.
Proof. destruct back, a, b; simpl; congruence. Qed.
Lemma edge_eqb_eq a b : edge_eqb a b = true <-> a = b.
Proof.
  unfold edge_eqb. rewrite andb_true_iff, !Z.eqb_eq. destruct a, b; simpl. split; [intros []; congruence|injection 1; auto].
Qed.
Lemma edge_eqb_refl a : edge_eqb a a = true.
Proof. now apply edge_eqb_eq. Qed.

Lemma follow_none f l x : ~ In x l -> follow f l x = None.
Proof.
  induction l as [|y r IH]; intros H; [reflexivity|]. cbn [follow]. destruct (edge_eqb y x) eqn:E.
  - apply edge_eqb_eq in E. destruct H. now left.
  - apply IH. intros Hi. apply H. now right.
Qed.
Lemma follow_mid f p x y q : NoDup (p ++ x :: y :: q) -> follow f (p ++ x :: y :: q) x = Some y.
Proof.
  induction p as [|w p IH]; intros H; cbn [app follow].
  - now rewrite edge_eqb_refl.
  - inversion H as [|? ? H1 H2]; subst. destruct (edge_eqb w x) eqn:E; [|auto].
    apply edge_eqb_eq in E. subst. destruct H1. apply in_or_app. right. now left.
Qed.
Lemma follow_last f p x : NoDup (p ++ [x]) -> follow f (p ++ [x]) x = Some f.
Proof.
  induction p as [|w p IH]; intros H; cbn [app follow].
  - now rewrite edge_eqb_refl.
  - inversion H as [|? ? H1 H2]; subst. destruct (edge_eqb w x) eqn:E; [|auto].
    apply edge_eqb_eq in E. subst. destruct H1. apply in_or_app. right. now left.
Qed.
Lemma follow_rot a b p x y q : NoDup (a ++ b) -> b ++ a = p ++ x :: y :: q -> follow_loop (a ++ b) x = Some y.
Proof.
  intros ND E. apply app_eq_app in E as [l [[-> E]|[-> ->]]].
  - destruct l as [|x' [|y' l]]; cbn [app] in E.
    + subst a. cbn [app follow_loop]. rewrite app_nil_r in *. exact (follow_mid x [] x y (q ++ p) ND).
    + injection E as <- <-. cbn [app follow_loop]. change (y :: q ++ p ++ [x]) with ((y :: q) ++ p ++ [x]) in *.
      rewrite app_assoc in *. now apply follow_last.
    + injection E as <- <- ->. 
      assert (H : forall f, follow f (a ++ p ++ x :: y :: l) x = Some y).
      { intros f. rewrite app_assoc in *. now apply follow_mid. }
      unfold follow_loop. destruct (a ++ p ++ x :: y :: l) eqn:E; [destruct a, p; discriminate|]. apply H.
  - assert (H : forall f, follow f ((l ++ x :: y :: q) ++ b) x = Some y).
    { intros f. rewrite <- app_assoc in *. cbn [app] in *. now apply follow_mid. }
    unfold follow_loop. destruct ((l ++ x :: y :: q) ++ b) eqn:E; [destruct l; discriminate|]. apply H.
Qed.
Lemma NoDup_app_l {A} (a b : list A) : NoDup (a ++ b) -> NoDup a.
Proof. induction a; [constructor|]. simpl. inversion 1; subst. constructor; [|auto]. intros Hi. apply H2. apply in_or_app. auto. Qed.
Lemma NoDup_app_r {A} (a b : list A) : NoDup (a ++ b) -> NoDup b.
Proof. induction a; [auto|]. simpl. inversion 1; subst. auto. Qed.
Lemma NoDup_app_disj {A} (a b : list A) x : NoDup (a ++ b) -> In x a -> ~ In x b.
Proof.
  induction a; [contradiction|]. simpl. inversion 1; subst. intros [<-|Hi]; [|auto].
  intros Hb. apply H2. apply in_or_app. auto.
Qed.
Lemma edge_dec (a b : edge) : {a = b} + {a <> b}.
Proof. decide equality; apply Z.eq_dec. Qed.
Lemma follow_loop_in l x y : follow_loop l x = Some y -> In x l.
Proof.
  intros H. destruct (in_dec edge_dec x l) as [Hi|Hi]; [assumption|].
  destruct l; [discriminate|]. unfold follow_loop in H. rewrite follow_none in H by assumption. discriminate.
Qed.
Lemma follow_loops_ok L l x y : NoDup (concat L) -> In l L -> follow_loop l x = Some y -> follow_loops L x = Ok y.
Proof.
  induction L as [|k L IH]; [contradiction|]. cbn [concat follow_loops]. intros ND [->|Hi] H; [now rewrite H|].
  assert (Hn : follow_loop k x = None).
  { pose proof (follow_loop_in _ _ _ H) as Hx. destruct k; [reflexivity|]. unfold follow_loop. apply follow_none.
    intros Hk. apply (NoDup_app_disj _ _ _ ND Hk). apply in_concat. eauto. }
  rewrite Hn. apply IH; auto. now apply NoDup_app_r in ND.
Qed.

(** ** The lines of a loop *)
Section Cut.
Variable corner : Z -> bool.
(** The vertices met after a corner, up to the next corner *)
Fixpoint until (t : list Z) (z : Z) : list Z :=
  match t with [] => [z] | w :: r => if corner w then [w] else w :: until r z end.
Fixpoint cut (ws : list Z) (z : Z) : list (list Z) :=
  match ws with [] => [] | c :: t => if corner c then (c :: until t z) :: cut t z else cut t z end.
(** The edges (next, current) of a line *)
Fixpoint line_edges (l : list Z) : list edge :=
  match l with
  | a :: ((b :: _) as t) => (b, a) :: line_edges t
  | _ => []
  end.
Lemma until_cons t z : exists w r, until t z = w :: r.
Proof. destruct t as [|w r]; cbn [until]; [eauto|]. destruct (corner w); eauto. Qed.
Lemma cut_edges c t z : line_edges (c :: until t z) ++ flat_map line_edges (cut t z) = path (c :: t) z.
Proof.
  revert c. induction t as [|w r IH]; intros c; [reflexivity|]. cbn [until cut path].
  destruct (corner w).
  - cbn [line_edges flat_map app]. f_equal. apply IH.
  - change (line_edges (c :: w :: until r z)) with ((w, c) :: line_edges (w :: until r z)). cbn [app]. f_equal. apply IH.
Qed.
Lemma until_last t z d : corner z = true -> corner (last (until t z) d) = true.
Proof.
  intros Hz. induction t as [|w r IH]; cbn [until]; [assumption|]. destruct (corner w) eqn:E; [assumption|].
  destruct (until_cons r z) as [x [y Hx]]. rewrite Hx in *. exact IH.
Qed.
Lemma until_inner t z : Forall (fun v => corner v = false) (removelast (until t z)).
Proof.
  induction t as [|w r IH]; cbn [until]; [constructor|]. destruct (corner w) eqn:E; [constructor|].
  destruct (until_cons r z) as [x [y Hx]]. rewrite Hx in *. cbn [removelast] in *. constructor; assumption.
Qed.
Lemma until_incl t z v : In v (until t z) -> In v (t ++ [z]).
Proof.
  induction t as [|w r IH]; cbn [until]; [auto|]. destruct (corner w); [intros [<-|[]]; now left|].
  intros [<-|H]; [now left|]. right. auto.
Qed.
End Cut.

Section Walk.
Variables (P : Type) (s : LSurf P) (uv : uvs).
Definition corner_at (v : Z) : bool := match nthz uv v with Some (Some _) => true | _ => false end.
Definition in_uv (v : Z) : Prop := exists o, nthz uv v = Some o.
Lemma walk_ok back ws z pre c t n : ws = pre ++ c :: t ->
  (forall p x y q, map (mk back) (path ws z) = p ++ x :: y :: q -> walk_step P s back x = Ok y) ->
  Forall in_uv (t ++ [z]) -> corner_at z = true -> (List.length t <= n)%nat ->
  walk P s uv back n (mk back (match t with [] => z | w :: _ => w end, c)) = Ok (until corner_at t z).
Proof.
  intros -> Hstep. revert pre c n Hstep. induction t as [|w r IH]; intros pre c n Hstep Hin Hz Hn.
  - assert (Hu : exists x, idxz uv z = Ok (Some x)).
    { unfold corner_at in Hz. unfold idxz. destruct (nthz uv z) as [[x|]|]; try discriminate. eauto. }
    destruct Hu as [x Hu]. destruct n; cbn [walk]; rewrite !mk_vertex, Hu; reflexivity.
  - apply Forall_cons_iff in Hin as [[o Ho] Hin]. destruct n as [|n]; [simpl in Hn; lia|].
    cbn [walk until]. rewrite mk_vertex. unfold idxz at 1. rewrite Ho. cbn [bind]. unfold corner_at at 1. rewrite Ho.
    destruct o as [x|]; [reflexivity|].
    rewrite (Hstep (map (mk back) (path pre c)) _ (mk back (match r with [] => z | w' :: _ => w' end, w)) (map (mk back) (path r z))).
    2:{ rewrite path_app by discriminate. rewrite map_app. reflexivity. }
    cbn [bind]. rewrite (IH (pre ++ [c]) w n); [reflexivity| |assumption..|simpl in Hn; lia].
    intros p x y q H. apply (Hstep p x y q). rewrite <- H. now rewrite <- app_assoc.
Qed.
End Walk.
