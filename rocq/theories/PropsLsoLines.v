(** * Corners and lines of a loaded .lso model: C92 to C95 *)
From Coq Require Import List ZArith Bool Lia Permutation.
From Verif Require Import Base GocadModel LsoFacts MlLines MlLinesFacts LsoRead LsoLines LsoLinesFacts.
Import ListNotations.
Local Open Scope list_scope.
Local Open Scope Z_scope.

Section Spec.
Variable P : Type.
Notation BSurf := (BSurf P).
Implicit Types (s : BSurf) (ss : list BSurf) (cs : corners P) (e : edge).

(** ** Specification *)

(** The number of vertices of surfaces at a unique vertex (more than the number of surfaces when
    one of them is cut there) *)
Definition sheets ss (u : Z) : Z := lenz (filter (fun w => w =? u) (concat (map (bs_uv P) ss))).
(** Surface number [k] has a vertex at the unique vertex *)
Definition touches ss (k u : Z) : Prop := exists s, nthz ss k = Some s /\ In u (bs_uv P s).
(** A border edge of the surface goes from [a] to [b] *)
Definition border_uv s (a b : Z) : Prop :=
  exists e, In e (bs_border P s) /\ nthz (bs_uv P s) (fst e) = Some a /\ nthz (bs_uv P s) (snd e) = Some b.
(** [a] and [b] are the ends of a border edge of one of the surfaces *)
Definition joined ss (a b : Z) : Prop := exists s, In s ss /\ (border_uv s a b \/ border_uv s b a).
(** The unique vertices of the corners *)
Definition corner_uvs cs : list Z := map fst cs.
Definition is_corner cs (u : Z) : Prop := In u (corner_uvs cs).
(** The border of a surface does not turn back at a vertex that is not a corner *)
Definition no_fold cs ss : Prop := forall s e e' a b c, In s ss -> In e (bs_border P s) -> next_border P s e = Ok e' ->
  nthz (bs_uv P s) (fst e) = Some a -> nthz (bs_uv P s) (snd e) = Some b -> nthz (bs_uv P s) (snd e') = Some c ->
  ~ is_corner cs b -> a <> c.
(** At most two border neighbours at a vertex that is not a corner *)
Definition branches_at_corners cs ss : Prop := no_branch (is_corner cs) (joined ss).
(** The point is the one of a vertex of a surface at the unique vertex *)
Definition point_of ss (q : Z * P) : Prop :=
  exists s v, In s ss /\ nthz (bs_uv P s) v = Some (fst q) /\ nthz (bs_points P s) v = Some (snd q).
(** From a corner to a corner, without corner inside *)
Definition between cs (p : list Z) : Prop :=
  exists a inner b, p = a :: inner ++ [b] /\ is_corner cs a /\ is_corner cs b /\ Forall (fun u => ~ is_corner cs u) inner.
(** The border edge leaves an end of the path along it *)
Definition starts (p : list Z) (a b : Z) : bool := match p with x :: y :: _ => (x =? a) && (y =? b) | _ => false end.
Definition leaving s (p : list Z) e : bool :=
  match nthz (bs_uv P s) (fst e), nthz (bs_uv P s) (snd e) with
  | Some a, Some b => starts p a b || starts (rev p) a b
  | _, _ => false
  end.
(** How many times the border of the surface goes along the path *)
Definition times s (p : list Z) : Z := lenz (filter (leaving s p) (bs_border P s)).

(** ** Corners *)
Lemma has_corner_iff cs u : has_corner P cs u = true <-> is_corner cs u.
Proof.
  unfold has_corner, is_corner, corner_uvs. rewrite existsb_exists, in_map_iff. split; intros [x [H1 H2]]; exists x.
  - apply Z.eqb_eq in H2. auto.
  - split; [assumption|]. now apply Z.eqb_eq.
Qed.
Lemma has_corner_not cs u : has_corner P cs u = false <-> ~ is_corner cs u.
Proof. rewrite <- has_corner_iff. destruct (has_corner P cs u); split; congruence. Qed.
Lemma surfaces_len ss u : forall k, lenz (surfaces_at P k ss u) = sheets ss u.
Proof.
  unfold sheets. induction ss as [|s r IH]; intros k; [reflexivity|]. cbn [surfaces_at map concat].
  rewrite filter_app, !lenz_app, lenz_map. now rewrite (IH (k + 1)).
Qed.
Lemma surfaces_in ss u : forall k j, In j (surfaces_at P k ss u) <-> touches ss (j - k) u.
Proof.
  induction ss as [|s r IH]; intros k j; cbn [surfaces_at].
  - split; [contradiction|]. intros [s [H _]]. apply nthz_in in H. contradiction.
  - rewrite in_app_iff, IH, in_map_iff. unfold touches. split.
    + intros [[x [<- Hx]]|[s' [H1 H2]]].
      * apply filter_In in Hx as [Hx E]. apply Z.eqb_eq in E. subst x. exists s. rewrite Z.sub_diag. split; [reflexivity|assumption].
      * exists s'. split; [|assumption]. rewrite nthz_cons. destruct (Z.eqb_spec (j - k) 0) as [E|E].
        { apply nthz_range in H1. lia. }
        rewrite <- H1. f_equal. lia.
    + intros [s' [H1 H2]]. rewrite nthz_cons in H1. destruct (Z.eqb_spec (j - k) 0) as [E|E].
      * left. injection H1 as <-. exists u. split; [lia|]. apply filter_In. split; [assumption|]. apply Z.eqb_refl.
      * right. exists s'. split; [|assumption]. rewrite <- H1. f_equal. lia.
Qed.
Lemma containing_len ss u : lenz (containing P ss u) = sheets ss u.
Proof. apply surfaces_len. Qed.
Lemma containing_in ss k u : In k (containing P ss u) <-> touches ss k u.
Proof. unfold containing. rewrite surfaces_in. now rewrite Z.sub_0_r. Qed.
Lemma are_equal_iff l r : are_equal l r = true <-> incl l r.
Proof.
  unfold are_equal. rewrite forallb_forall. split.
  - intros H x Hx. apply H in Hx. apply existsb_exists in Hx as [y [Hy E]]. apply Z.eqb_eq in E. now subst.
  - intros H x Hx. apply existsb_exists. exists x. split; [now apply H|apply Z.eqb_refl].
Qed.

(** The rule for the ends [a] and [b] of a border edge: is there a corner at [u]? *)
Definition meets ss (a b u : Z) : Prop :=
  (u = a /\ sheets ss b < sheets ss a) \/ (u = b /\ sheets ss a < sheets ss b) \/
  ((u = a \/ u = b) /\ sheets ss a = sheets ss b /\ exists k, touches ss k a /\ ~ touches ss k b).

Lemma create_corner_in cs p u v : is_corner (create_corner P cs p u) v <-> is_corner cs v \/ v = u.
Proof.
  unfold create_corner. destruct (has_corner P cs u) eqn:E.
  - apply has_corner_iff in E. split; [auto|]. intros [H| ->]; assumption.
  - unfold is_corner, corner_uvs. rewrite map_app, in_app_iff. simpl. intuition.
Qed.
Lemma create_corner_nodup cs p u : NoDup (corner_uvs cs) -> NoDup (corner_uvs (create_corner P cs p u)).
Proof.
  unfold create_corner. destruct (has_corner P cs u) eqn:E; [auto|]. apply has_corner_not in E. intros H.
  unfold corner_uvs. rewrite map_app. apply (Permutation_NoDup (Permutation_app_comm [u] _)). constructor; assumption.
Qed.
Lemma create_corner_points ss cs p u : Forall (point_of ss) cs -> point_of ss (u, p) -> Forall (point_of ss) (create_corner P cs p u).
Proof. unfold create_corner. destruct (has_corner P cs u); [auto|]. intros H1 H2. apply Forall_app. auto. Qed.

Lemma not_equal_meets ss a b : are_equal (containing P ss a) (containing P ss b) = false <-> exists k, touches ss k a /\ ~ touches ss k b.
Proof.
  destruct (are_equal (containing P ss a) (containing P ss b)) eqn:E.
  - apply are_equal_iff in E. split; [congruence|]. intros [k [H1 H2]]. destruct H2. apply containing_in, E, containing_in. assumption.
  - split; [intros _|auto].
    assert (H : exists k, In k (containing P ss a) /\ ~ In k (containing P ss b)).
    { assert (N : ~ incl (containing P ss a) (containing P ss b)) by (rewrite <- are_equal_iff; congruence).
      clear E. induction (containing P ss a) as [|k r IH]; [destruct N; intros x []|].
      destruct (in_dec Z.eq_dec k (containing P ss b)) as [Hk|Hk].
      - destruct IH as [j [H1 H2]]; [|exists j; split; [now right|assumption]].
        intros Hi. apply N. intros x [<-|Hx]; auto.
      - exists k. split; [now left|assumption]. }
    destruct H as [k [H1 H2]]. exists k. split; [now apply containing_in|]. now rewrite <- containing_in.
Qed.

Lemma corner_edge_ok ss s e cs : well_bordered P s -> In s ss -> In e (bs_border P s) -> exists a b cs',
  nthz (bs_uv P s) (fst e) = Some a /\ nthz (bs_uv P s) (snd e) = Some b /\ corner_from_edge P ss s cs e = Ok cs' /\
  (forall u, is_corner cs' u <-> is_corner cs u \/ meets ss a b u) /\
  (NoDup (corner_uvs cs) -> NoDup (corner_uvs cs')) /\ (Forall (point_of ss) cs -> Forall (point_of ss) cs').
Proof.
  intros W Hs He. destruct (uv_of P s e W) as [a [b [p [q [Ha [Hb [Hp Hq]]]]]]]; [now apply (wb_border P s W)|].
  exists a, b. unfold corner_from_edge, idxz. rewrite Ha, Hb, Hp, Hq. cbn [bind]. rewrite !containing_len.
  assert (Pa : point_of ss (a, p)) by (exists s, (fst e); auto). assert (Pb : point_of ss (b, q)) by (exists s, (snd e); auto).
  destruct (Z.ltb_spec (sheets ss b) (sheets ss a)) as [L|L]; [|destruct (Z.ltb_spec (sheets ss a) (sheets ss b)) as [L2|L2];
    [|destruct (are_equal (containing P ss a) (containing P ss b)) eqn:E]].
  - eexists. do 3 (split; [reflexivity|]). split; [|split; [apply create_corner_nodup|intros; now apply create_corner_points]].
    intros u. rewrite create_corner_in. unfold meets. split; [intros [H| ->]; auto|]. intros [H|[[-> _]|[[-> H]|[_ [H _]]]]]; auto; lia.
  - eexists. do 3 (split; [reflexivity|]). split; [|split; [apply create_corner_nodup|intros; now apply create_corner_points]].
    intros u. rewrite create_corner_in. unfold meets. split; [intros [H| ->]; auto|]. intros [H|[[-> H]|[[-> H]|[_ [H _]]]]]; auto; lia.
  - eexists. do 3 (split; [reflexivity|]). split; [|auto]. intros u. split; [auto|]. intros [H|[[_ H]|[[_ H]|[_ [_ H]]]]]; [assumption|lia|lia|].
    apply not_equal_meets in H. congruence.
  - eexists. do 3 (split; [reflexivity|]). split; [|split; [intros; now do 2 apply create_corner_nodup|intros; now do 2 (apply create_corner_points; [|assumption])]].
    intros u. rewrite !create_corner_in. apply not_equal_meets in E. unfold meets. split.
    + intros [[H| ->]| ->]; [auto| |]; right; right; right; (split; [auto|]; split; [lia|assumption]).
    + intros [H|[[_ H]|[[_ H]|[[H|H] _]]]]; auto; lia.
Qed.

Lemma corner_edges_ok ss s es : well_bordered P s -> In s ss -> incl es (bs_border P s) -> forall cs, exists cs',
  foldM (corner_from_edge P ss s) es cs = Ok cs' /\
  (forall u, is_corner cs' u <-> is_corner cs u \/ exists e a b, In e es /\ nthz (bs_uv P s) (fst e) = Some a /\
     nthz (bs_uv P s) (snd e) = Some b /\ meets ss a b u) /\
  (NoDup (corner_uvs cs) -> NoDup (corner_uvs cs')) /\ (Forall (point_of ss) cs -> Forall (point_of ss) cs').
Proof.
  intros W Hs. induction es as [|e es IH]; intros Hi cs.
  - exists cs. split; [reflexivity|]. split; [|auto]. intros u. split; [auto|]. intros [H|[e [a [b [[] _]]]]]. assumption.
  - destruct (corner_edge_ok ss s e cs W Hs (Hi e (or_introl eq_refl))) as [a [b [c1 [Ha [Hb [E [I1 [N1 F1]]]]]]]].
    destruct (IH (fun x Hx => Hi x (or_intror Hx)) c1) as [c2 [E2 [I2 [N2 F2]]]]. exists c2. cbn [foldM]. rewrite E. cbn [bind].
    split; [assumption|]. split; [|auto]. intros u. rewrite I2, I1. split.
    + intros [[H|H]|[x [y [z [Hx H]]]]]; [auto| |]; right; [exists e, a, b; auto using in_eq|exists x, y, z; split; [now right|assumption]].
    + intros [H|[x [y [z [[<-|Hx] [Hy [Hz H]]]]]]]; [auto| |].
      * assert (y = a) as -> by congruence. assert (z = b) as -> by congruence. auto.
      * right. exists x, y, z. auto.
Qed.
Lemma corner_surfaces_ok all ss : incl ss all -> Forall (well_bordered P) ss -> forall cs, exists cs',
  foldM (fun cs s => foldM (corner_from_edge P all s) (bs_border P s) cs) ss cs = Ok cs' /\
  (forall u, is_corner cs' u <-> is_corner cs u \/ exists s a b, In s ss /\ border_uv s a b /\ meets all a b u) /\
  (NoDup (corner_uvs cs) -> NoDup (corner_uvs cs')) /\ (Forall (point_of all) cs -> Forall (point_of all) cs').
Proof.
  induction ss as [|s ss IH]; intros Hi W cs.
  - exists cs. split; [reflexivity|]. split; [|auto]. intros u. split; [auto|]. intros [H|[x [a [b [[] _]]]]]. assumption.
  - apply Forall_cons_iff in W as [W0 W].
    destruct (corner_edges_ok all s _ W0 (Hi s (or_introl eq_refl)) (incl_refl _) cs) as [c1 [E [I1 [N1 F1]]]].
    destruct (IH (fun x Hx => Hi x (or_intror Hx)) W c1) as [c2 [E2 [I2 [N2 F2]]]]. exists c2. cbn [foldM]. rewrite E. cbn [bind].
    split; [assumption|]. split; [|auto]. intros u. rewrite I2, I1. unfold border_uv. split.
    + intros [[H|[e [a [b [He [Ha [Hb H]]]]]]]|[x [a [b [Hx [Hb H]]]]]]; [auto| |]; right;
        [exists s, a, b; split; [now left|split; [exists e; auto|assumption]]|exists x, a, b; split; [now right|auto]].
    + intros [H|[x [a [b [[<-|Hx] [Hb H]]]]]]; [auto| |].
      * left. right. destruct Hb as [e [He [Ha Hb]]]. exists e, a, b. auto.
      * right. exists x, a, b. auto.
Qed.

(** C92: one corner, with a point of a surface, at each unique vertex where the rule asks for it *)
Theorem C92_corners : forall ss, Forall (well_bordered P) ss ->
  exists cs, build_corners P ss = Ok cs /\ NoDup (corner_uvs cs) /\ Forall (point_of ss) cs /\
    forall u, is_corner cs u <-> exists s a b, In s ss /\ border_uv s a b /\ meets ss a b u.
Proof.
  intros ss W. destruct (corner_surfaces_ok ss ss (incl_refl _) W []) as [cs [E [I [N F]]]].
  exists cs. split; [assumption|]. split; [apply N; constructor|]. split; [apply F; constructor|].
  intros u. rewrite I. split; [intros [[]|H]; assumption|auto].
Qed.

(** When no surface has two vertices at a unique vertex: there is a corner where the set of the
    surfaces changes along a border edge, at the end with the most surfaces *)
Definition uncut ss : Prop := Forall (fun s => NoDup (bs_uv P s)) ss.
Definition same_surfaces ss (a b : Z) : Prop := forall k, touches ss k a <-> touches ss k b.
Lemma filter_eq_nodup (l : list Z) u : NoDup l -> (List.length (filter (fun w => (w =? u)%Z) l) <= 1)%nat.
Proof.
  induction l as [|x l IH]; intros H; [simpl; lia|]. inversion H; subst. simpl. destruct (Z.eqb_spec x u) as [->|N]; [|auto].
  simpl. assert (filter (fun w => (w =? u)%Z) l = []) as ->; [|simpl; lia].
  clear -H2. induction l as [|y l IH]; [reflexivity|]. simpl. destruct (Z.eqb_spec y u) as [->|N]; [destruct H2; now left|].
  apply IH. intros Hi. apply H2. now right.
Qed.
Lemma surfaces_nodup ss u : uncut ss -> forall k, NoDup (surfaces_at P k ss u).
Proof.
  intros U. induction U as [|s r Hs U IH]; intros k; [constructor|]. cbn [surfaces_at].
  pose proof (filter_eq_nodup _ u Hs) as L. destruct (filter (fun w => w =? u) (bs_uv P s)) as [|x [|y t]]; [apply IH| |simpl in L; lia].
  cbn [map app]. constructor; [|apply IH]. rewrite surfaces_in. intros [s' [H _]]. apply nthz_range in H. lia.
Qed.
Lemma same_sets ss a b : uncut ss -> sheets ss a = sheets ss b -> (forall k, touches ss k a -> touches ss k b) -> same_surfaces ss a b.
Proof.
  intros U L H k. split; [apply H|]. rewrite <- !containing_in.
  apply (NoDup_length_incl (surfaces_nodup ss a U 0)).
  - rewrite <- !containing_len in L. unfold lenz, containing in *. lia.
  - intros j Hj. apply containing_in, H, containing_in. exact Hj.
Qed.
Lemma same_sheets ss a b : uncut ss -> same_surfaces ss a b -> sheets ss a = sheets ss b.
Proof.
  intros U H. rewrite <- !containing_len. unfold lenz. f_equal. apply Nat.le_antisymm; apply NoDup_incl_length;
    try apply (surfaces_nodup ss _ U 0); intros k Hk; apply containing_in, H, containing_in; exact Hk.
Qed.
Theorem C92_uncut : forall ss cs, Forall (well_bordered P) ss -> uncut ss -> build_corners P ss = Ok cs ->
  forall u, is_corner cs u <-> exists w, joined ss u w /\ ~ same_surfaces ss u w /\ sheets ss w <= sheets ss u.
Proof.
  intros ss cs W U E u. destruct (C92_corners ss W) as [cs' [E' [_ [_ H]]]]. assert (cs' = cs) as -> by congruence. rewrite H. clear H E E'.
  split.
  - intros [s [a [b [Hs [Hb M]]]]]. destruct M as [[-> L]|[[-> L]|[D [L [k [K1 K2]]]]]].
    + exists b. split; [exists s; auto|]. split; [|lia]. intros S. apply (same_sheets _ _ _ U) in S. lia.
    + exists a. split; [exists s; auto|]. split; [|lia]. intros S. apply (same_sheets _ _ _ U) in S. lia.
    + destruct D as [-> | ->]; [exists b|exists a]; (split; [exists s; auto|]; split; [|lia]); intros S; apply K2; now apply S.
  - assert (D : forall a b, ~ same_surfaces ss a b -> sheets ss a = sheets ss b -> exists k, touches ss k a /\ ~ touches ss k b).
    { intros a b N L. apply not_equal_meets. destruct (are_equal (containing P ss a) (containing P ss b)) eqn:X; [|reflexivity].
      destruct N. apply same_sets; auto. apply are_equal_iff in X. intros k Hk. apply containing_in, X, containing_in. exact Hk. }
    assert (S : forall a b, same_surfaces ss a b -> same_surfaces ss b a) by (intros a b X k; symmetry; apply X).
    intros [w [[s [Hs [Hb|Hb]]] [N L]]].
    + exists s, u, w. split; [assumption|]. split; [assumption|]. destruct (Z.eq_dec (sheets ss u) (sheets ss w)) as [Q|Q]; [|left; split; [reflexivity|lia]].
      right. right. auto.
    + exists s, w, u. split; [assumption|]. split; [assumption|]. destruct (Z.eq_dec (sheets ss u) (sheets ss w)) as [Q|Q]; [|right; left; split; [reflexivity|lia]].
      right. right. split; [auto|]. split; [auto|]. apply D; auto.
Qed.


(** ** Lines *)
Inductive walks cs s : edge -> list Z -> Prop :=
| w_stop e e' u : next_border P s e = Ok e' -> nthz (bs_uv P s) (fst e') = Some u -> is_corner cs u -> walks cs s e [u]
| w_go e e' u r : next_border P s e = Ok e' -> nthz (bs_uv P s) (fst e') = Some u -> ~ is_corner cs u -> walks cs s e' r ->
    walks cs s e (u :: r).
Lemma line_walks cs ss s n : In s ss -> forall e r, line_walk P cs s n e = Ok r -> walks cs s e (map fst r) /\ Forall (point_of ss) r.
Proof.
  intros Hs. induction n as [|n IH]; intros e r H; [discriminate|]. cbn [line_walk] in H.
  destruct (next_border P s e) as [e'| | |] eqn:E; try discriminate. cbn [bind] in H. unfold idxz in H.
  destruct (nthz (bs_uv P s) (fst e')) as [u|] eqn:Eu; [|discriminate].
  destruct (nthz (bs_points P s) (fst e')) as [p|] eqn:Ep; [|discriminate]. cbn [bind] in H.
  assert (Q : point_of ss (u, p)) by (exists s, (fst e'); auto).
  destruct (has_corner P cs u) eqn:C.
  - apply has_corner_iff in C. assert (r = [(u, p)]) as -> by congruence. split; [econstructor; eauto|auto].
  - apply has_corner_not in C. destruct (line_walk P cs s n e') as [t| | |] eqn:T; try discriminate. cbn [bind] in H.
    assert (r = (u, p) :: t) as -> by congruence. destruct (IH _ _ T) as [I1 I2]. split; [eapply w_go; eauto|auto].
Qed.
Lemma walk_total cs s e u : well_bordered P s -> In e (concat (bs_loops P s)) -> nthz (bs_uv P s) (fst e) = Some u -> is_corner cs u ->
  exists r, line_walk P cs s (List.length (concat (bs_loops P s))) e = Ok r.
Proof.
  intros W He Hu Cu. pose proof He as He0. apply in_concat in He as [l [Hl He]]. destruct (turn P s e l W Hl He) as [t [Hin [Hlen [Hm Hz]]]].
  assert (I : forall x, In x (e :: t) -> In x (concat (bs_loops P s))) by (intros x Hx; apply in_concat; exists l; split; [assumption|now apply Hin]).
  assert (G : forall q p x n, e :: t = p ++ x :: q -> (List.length q < n)%nat -> exists r, line_walk P cs s n x = Ok r).
  { induction q as [|y q IH]; intros p x n E L; (destruct n as [|n]; [simpl in L; lia|]); cbn [line_walk].
    - destruct (Hz p x E) as [-> _]. cbn [bind]. unfold idxz. rewrite Hu. destruct (uv_of P s e W He0) as [a [b [p1 [p2 [_ [_ [Hp _]]]]]]].
      rewrite Hp. cbn [bind]. rewrite (proj2 (has_corner_iff cs u) Cu). eauto.
    - destruct (Hm p x y q E) as [-> _]. cbn [bind]. unfold idxz.
      destruct (uv_of P s y W) as [a [b [p1 [p2 [Ha [_ [Hp _]]]]]]]; [apply I; rewrite E; apply in_or_app; right; right; now left|].
      rewrite Ha, Hp. cbn [bind]. destruct (has_corner P cs a); [eauto|].
      destruct (IH (p ++ [x]) y n) as [r ->]; [now rewrite <- app_assoc|simpl in L; lia|]. cbn [bind]. eauto. }
  apply (G t [] e); [reflexivity|]. simpl in Hlen. lia.
Qed.

Definition clean_path cs ss : list Z -> Prop := clean (is_corner cs) (joined ss).
Lemma joined_sym ss a b : joined ss a b -> joined ss b a.
Proof. intros [s [H1 H2]]. exists s. tauto. Qed.
Lemma walks_head cs s e r : well_bordered P s -> In e (concat (bs_loops P s)) -> walks cs s e r ->
  exists b t, r = b :: t /\ nthz (bs_uv P s) (snd e) = Some b.
Proof.
  intros W He H. destruct (next_of P s e W He) as [x [Hx [_ Ex]]].
  destruct H as [e e' u Hn Hu _|e e' u t Hn Hu _ _]; assert (x = e') as -> by congruence; rewrite Ex; eauto.
Qed.
Lemma walks_path cs ss s e r a : well_bordered P s -> In s ss -> no_fold cs ss -> walks cs s e r ->
  In e (concat (bs_loops P s)) -> nthz (bs_uv P s) (fst e) = Some a ->
  (forall t x, r = t ++ [x] -> is_corner cs x) /\
  (forall p1 x y p2, a :: r = p1 ++ x :: y :: p2 -> joined ss x y) /\
  (forall p1 x y z p2, a :: r = p1 ++ x :: y :: z :: p2 -> ~ is_corner cs y /\ x <> z).
Proof.
  intros W Hs NF H. revert a.
  assert (J : forall e a b, In e (concat (bs_loops P s)) -> nthz (bs_uv P s) (fst e) = Some a -> nthz (bs_uv P s) (snd e) = Some b -> joined ss a b).
  { intros x a b Hx Ha Hb. exists s. split; [assumption|]. left. exists x. split; [now apply (wb_border P s W)|auto]. }
  induction H as [e e' u Hn Hu Hc|e e' u r Hn Hu Hc Hr IH]; intros a He Ha;
    destruct (next_of P s e W He) as [x [Hx [Hi Ex]]]; assert (x = e') as -> by congruence.
  - split; [|split].
    + intros t x E. destruct t as [|y [|z t]]; [injection E as <-; assumption|discriminate..].
    + intros p1 x y p2 E. destruct p1 as [|q [|w [|z p1]]]; try discriminate. injection E as <- <- _. apply (J e); auto. now rewrite Ex.
    + intros p1 x y z p2 E. destruct p1 as [|q [|w [|k p1]]]; discriminate.
  - destruct (IH u Hi Hu) as [I1 [I2 I3]]. destruct (walks_head cs s e' r W Hi Hr) as [b [t [-> Hb]]]. split; [|split].
    + intros t' x E. destruct t' as [|y t']; [discriminate|]. injection E as <- E. eapply I1. exact E.
    + intros p1 x y p2 E. destruct p1 as [|q p1]; [injection E as <- <- _; apply (J e); auto; now rewrite Ex|].
      injection E as <- E. eapply I2. exact E.
    + intros p1 x y z p2 E. destruct p1 as [|q p1]; [|injection E as <- E; eapply I3; exact E].
      injection E as <- <- <- _. split; [assumption|]. apply (NF s e e' a u b); auto; [now apply (wb_border P s W)|now rewrite Ex].
Qed.
Lemma walks_between cs s e r a : is_corner cs a -> walks cs s e r -> between cs (a :: r).
Proof.
  intros Ca H. exists a.
  assert (G : exists inner b, r = inner ++ [b] /\ is_corner cs b /\ Forall (fun u => ~ is_corner cs u) inner).
  { induction H as [e e' u Hn Hu Hc|e e' u r Hn Hu Hc Hr IH]; [exists [], u; auto|].
    destruct IH as [inner [b [-> [Hb F]]]]. exists (u :: inner), b. auto. }
  destruct G as [inner [b [-> [Hb F]]]]. exists inner, b. auto.
Qed.

Lemma build_line_ok cs ss s e a b : well_bordered P s -> In s ss -> In e (bs_border P s) ->
  nthz (bs_uv P s) (fst e) = Some a -> nthz (bs_uv P s) (snd e) = Some b -> is_corner cs a ->
  exists l t, build_line P cs s e = Ok l /\ map fst l = a :: b :: t /\ between cs (map fst l) /\ Forall (point_of ss) l /\
    (no_fold cs ss -> clean_path cs ss (map fst l)).
Proof.
  intros W Hs He Ha Hb Ca. apply (wb_border P s W) in He. destruct (walk_total cs s e a W He Ha Ca) as [r Hr].
  destruct (uv_of P s e W He) as [a' [b' [p [q [_ [_ [Hp _]]]]]]].
  unfold build_line, idxz. rewrite Ha, Hp. cbn [bind]. rewrite Hr. cbn [bind].
  destruct (line_walks cs ss s _ Hs e r Hr) as [Wk F]. destruct (walks_head _ _ _ _ W He Wk) as [b2 [t [Et Eb]]]. assert (b2 = b) as -> by congruence.
  exists ((a, p) :: r), t. split; [reflexivity|]. cbn [map fst]. split; [congruence|]. split; [exact (walks_between cs s e _ a Ca Wk)|].
  split; [constructor; [exists s, (fst e); auto|assumption]|]. intros NF.
  destruct (walks_path cs ss s e (map fst r) a W Hs NF Wk He Ha) as [H1 [H2 H3]]. constructor.
  - rewrite Et. simpl. lia.
  - intros x y E. injection E as <- _. assumption.
  - intros t' x E. destruct t' as [|y t']; [injection E as <- E; congruence|]. injection E as <- E. eapply H1. exact E.
  - assumption.
  - assumption.
Qed.

(** ** The search of a line *)
Lemma neighbours_iff u0 u1 (l : lline P) : neighbours P u0 u1 l = true <-> on_path (map fst l) u0 u1.
Proof.
  induction l as [|a t IH].
  - split; [discriminate|]. intros [p1 [p2 [H|H]]]; destruct p1; discriminate.
  - destruct t as [|b t].
    + split; [discriminate|]. intros [p1 [p2 [H|H]]]; destruct p1 as [|x [|y p1]]; discriminate.
    + change (neighbours P u0 u1 (a :: b :: t)) with
        (((fst a =? u0) && (fst b =? u1)) || ((fst a =? u1) && (fst b =? u0)) || neighbours P u0 u1 (b :: t)).
      rewrite !orb_true_iff, IH, !andb_true_iff, !Z.eqb_eq. cbn [map]. split.
      * intros [[[<- <-]|[<- <-]]|[p1 [p2 H]]]; [exists [], (map fst t); auto..|]. cbn [map] in H.
        exists (fst a :: p1), p2. destruct H as [-> | ->]; auto.
      * intros [p1 [p2 H]]. destruct p1 as [|x p1]; cbn [app] in H.
        { destruct H as [H|H]; injection H as H1 H2 _; subst; auto. }
        right. exists p1, p2. cbn [map]. destruct H as [H|H]; injection H as _ H; auto.
Qed.
Lemma find_line_some (ls : list (lline P)) u0 u1 : forall k j, find_line P k ls u0 u1 = Some j ->
  exists l, nthz ls (j - k) = Some l /\ on_path (map fst l) u0 u1.
Proof.
  induction ls as [|l ls IH]; intros k j H; [discriminate|]. cbn [find_line] in H.
  destruct (neighbours P u0 u1 l) eqn:E.
  - assert (j = k) as -> by congruence. exists l. rewrite Z.sub_diag. split; [reflexivity|]. now apply neighbours_iff.
  - destruct (IH _ _ H) as [l' [H1 H2]]. exists l'. split; [|assumption]. rewrite nthz_cons. pose proof (nthz_range _ _ _ H1) as R.
    destruct (Z.eqb_spec (j - k) 0); [lia|]. rewrite <- H1. f_equal. lia.
Qed.
Lemma find_line_none (ls : list (lline P)) u0 u1 : forall k, find_line P k ls u0 u1 = None ->
  forall l, In l ls -> ~ on_path (map fst l) u0 u1.
Proof.
  induction ls as [|l ls IH]; intros k H x Hx; [contradiction|]. cbn [find_line] in H.
  destruct (neighbours P u0 u1 l) eqn:E; [discriminate|]. destruct Hx as [<-|Hx]; [|eapply IH; eauto].
  rewrite <- neighbours_iff. congruence.
Qed.

(** ** Counting *)
Definition cnt (k : Z) (rel : list (Z * Z)) : Z := match find (fun r => fst r =? k) rel with Some r => snd r | None => 0 end.
Lemma cnt_count k rel j : cnt j (count_line k rel) = cnt j rel + (if j =? k then 1 else 0).
Proof.
  unfold cnt. induction rel as [|[i n] r IH]; cbn [count_line find fst snd].
  - destruct (Z.eqb_spec k j), (Z.eqb_spec j k); cbn [snd]; lia.
  - destruct (Z.eqb_spec i k) as [->|N]; cbn [find fst].
    + destruct (Z.eqb_spec k j), (Z.eqb_spec j k); cbn [snd]; lia.
    + destruct (Z.eqb_spec i j) as [->|N2]; [|apply IH]. cbn [snd]. destruct (Z.eqb_spec j k); lia.
Qed.
Lemma count_keys k rel j : In j (map fst (count_line k rel)) <-> In j (map fst rel) \/ j = k.
Proof.
  induction rel as [|[i n] r IH]; cbn [count_line].
  - simpl. intuition.
  - destruct (Z.eqb_spec i k) as [->|N]; cbn [map fst In]; [intuition|]. rewrite IH. tauto.
Qed.
Definition good_rel (rel : list (Z * Z)) : Prop := NoDup (map fst rel) /\ Forall (fun r => 1 <= snd r) rel.
Lemma count_good k rel : good_rel rel -> good_rel (count_line k rel).
Proof.
  intros [H1 H2]. split.
  - induction rel as [|[i n] r IH]; cbn [count_line]; [repeat constructor; auto|].
    inversion H1; subst. apply Forall_cons_iff in H2 as [_ H2]. destruct (Z.eqb_spec i k) as [->|N]; cbn [map fst]; [assumption|].
    constructor; [|auto]. rewrite count_keys. intros [Hi|E]; [contradiction|congruence].
  - induction rel as [|[i n] r IH]; cbn [count_line]; [repeat constructor; simpl; lia|].
    apply Forall_cons_iff in H2 as [H2 H3]. inversion H1; subst. destruct (i =? k); constructor; simpl in *; auto; lia.
Qed.
Lemma cnt_in rel k n : good_rel rel -> In (k, n) rel -> cnt k rel = n.
Proof.
  intros [H1 _]. unfold cnt. induction rel as [|[i m] r IH]; intros Hi; [contradiction|]. inversion H1; subst. cbn [find fst].
  destruct Hi as [E|Hi].
  - injection E as -> ->. now rewrite Z.eqb_refl.
  - destruct (Z.eqb_spec i k) as [->|N]; [|auto]. destruct H2. apply in_map_iff. exists (k, n). auto.
Qed.
Lemma cnt_pos rel k : cnt k rel <> 0 -> In (k, cnt k rel) rel.
Proof.
  unfold cnt. destruct (find (fun r => fst r =? k) rel) as [[i n]|] eqn:E; [|congruence]. intros _.
  apply find_some in E as [H1 H2]. cbn [fst snd] in *. apply Z.eqb_eq in H2. now subst.
Qed.
Lemma relations_ok rel rs : good_rel rel -> mapM line_relation rel = Ok rs -> forall k,
  (In (k, false) rs <-> cnt k rel = 1) /\ (In (k, true) rs <-> cnt k rel = 2) /\ 0 <= cnt k rel <= 2.
Proof.
  intros G H k. apply mapM_ok in H.
  assert (X : forall k b, In (k, b) rs <-> exists n, In (k, n) rel /\ line_relation (k, n) = Ok (k, b)).
  { assert (S : forall r x, line_relation r = Ok x -> fst x = fst r).
    { intros [i n] x. unfold line_relation. cbn [fst snd]. destruct (n =? 1); [injection 1 as <-; reflexivity|].
      destruct (n =? 2); [injection 1 as <-; reflexivity|discriminate]. }
    intros j b. split.
    - intros Hi. clear G k. induction H as [|r x rel rs E H IH]; [contradiction|]. destruct Hi as [->|Hi].
      + exists (snd r). destruct r as [i n]. apply S in E as E'. cbn [fst snd] in *. subst j. split; [now left|assumption].
      + destruct (IH Hi) as [n [H1 H2]]. exists n. split; [now right|assumption].
    - intros [n [Hi E]]. clear G k. induction H as [|r x rel rs E' H IH]; [contradiction|]. destruct Hi as [->|Hi]; [left; congruence|right; auto]. }
  assert (B : forall n, In (k, n) rel -> n = 1 \/ n = 2).
  { intros n Hi. clear X G. induction H as [|r x rel rs E H IH]; [contradiction|]. destruct Hi as [->|Hi]; [|auto].
    unfold line_relation in E. cbn [fst snd] in E. destruct (Z.eqb_spec n 1); [auto|]. destruct (Z.eqb_spec n 2); [auto|discriminate]. }
  assert (C : cnt k rel = 0 \/ In (k, cnt k rel) rel) by (destruct (Z.eq_dec (cnt k rel) 0) as [E|E]; [auto|right; now apply cnt_pos]).
  split; [|split].
  - rewrite X. split.
    + intros [n [Hi E]]. apply (cnt_in rel k n G) in Hi as <-. unfold line_relation in E. cbn [fst snd] in E.
      destruct (Z.eqb_spec (cnt k rel) 1); [assumption|]. destruct (cnt k rel =? 2); discriminate.
    + intros E. exists 1. destruct C as [C|C]; [lia|]. rewrite E in C. split; [assumption|reflexivity].
  - rewrite X. split.
    + intros [n [Hi E]]. apply (cnt_in rel k n G) in Hi as <-. unfold line_relation in E. cbn [fst snd] in E.
      destruct (Z.eqb_spec (cnt k rel) 1); [discriminate|]. destruct (Z.eqb_spec (cnt k rel) 2); [assumption|discriminate].
    + intros E. exists 2. destruct C as [C|C]; [lia|]. rewrite E in C. split; [assumption|reflexivity].
  - destruct C as [C|C]; [lia|]. destruct (B _ C); lia.
Qed.
Lemma relations_keys rel rs k b : mapM line_relation rel = Ok rs -> In (k, b) rs -> In k (map fst rel).
Proof.
  intros H. apply mapM_ok in H. induction H as [|r x rel rs E H IH]; [auto|]. intros [->|Hi]; [left|right; auto].
  unfold line_relation in E. destruct (snd r =? 1); [congruence|]. destruct (snd r =? 2); congruence.
Qed.
Lemma relations_total rel : Forall (fun r => snd r = 1 \/ snd r = 2) rel -> exists rs, mapM line_relation rel = Ok rs.
Proof.
  induction 1 as [|r rel Hr _ [rs E]]; [exists []; reflexivity|]. cbn [mapM]. unfold line_relation at 1.
  destruct Hr as [-> | ->]; cbn [Z.eqb Pos.eqb bind]; rewrite E; cbn [bind]; eauto.
Qed.

(** ** What build_lines keeps *)
Lemma starts_iff p a b : starts p a b = true <-> exists t, p = a :: b :: t.
Proof.
  destruct p as [|x [|y t]]; cbn [starts]; [split; [discriminate|intros [? ?]; discriminate]..|].
  rewrite andb_true_iff, !Z.eqb_eq. split; [intros [-> ->]; eauto|]. intros [t' H]. injection H as -> -> _. auto.
Qed.
Lemma leaving_iff s p e a b : nthz (bs_uv P s) (fst e) = Some a -> nthz (bs_uv P s) (snd e) = Some b ->
  (leaving s p e = true <-> leaves p a b).
Proof.
  intros Ha Hb. unfold leaving, leaves. rewrite Ha, Hb, orb_true_iff, !starts_iff. split.
  - intros [[t H]|[t H]]; exists t; auto.
  - intros [t [H|H]]; eauto.
Qed.

(** The first and last vertices of a line *)
Definition ends_of (l : lline P) (en : list Z) : Prop := exists a m b, map fst l = a :: m ++ [b] /\ en = [a; b].
Record lines_ok cs ss (st : LineSt P) : Prop := {
  lo_lines : Forall (fun l : lline P => between cs (map fst l) /\ Forall (point_of ss) l) (st_lines P st);
  lo_ends : Forall2 ends_of (st_lines P st) (st_ends P st)
}.
Definition distinct_lines (ls : list (lline P)) : Prop := forall i j li lj a b,
  nthz ls i = Some li -> nthz ls j = Some lj -> on_path (map fst li) a b -> on_path (map fst lj) a b -> i = j.
Definition clean_lines cs ss (ls : list (lline P)) : Prop :=
  Forall (fun l : lline P => clean_path cs ss (map fst l)) ls /\ distinct_lines ls.

Lemma filter_one (l : list Z) u : NoDup l -> In u l -> filter (fun w => w =? u) l = [u].
Proof.
  induction l as [|x l IH]; intros N H; [contradiction|]. inversion N; subst. cbn [filter]. destruct (Z.eqb_spec x u) as [->|D].
  - f_equal. clear -H2. induction l as [|y l IH]; [reflexivity|]. cbn [filter]. destruct (Z.eqb_spec y u) as [->|D]; [destruct H2; now left|].
    apply IH. intros Hi. apply H2. now right.
  - destruct H as [H|H]; [contradiction|]. auto.
Qed.
Lemma last_app_one (m : list Z) b d : last (m ++ [b]) d = b.
Proof. induction m as [|x m IH]; [reflexivity|]. cbn [app last]. destruct (m ++ [b]) eqn:E; [destruct m; discriminate|]. assumption. Qed.

Lemma step_cases cs ss s e st rel : well_bordered P s -> In s ss -> In e (bs_border P s) -> NoDup (corner_uvs cs) ->
  exists a b, nthz (bs_uv P s) (fst e) = Some a /\ nthz (bs_uv P s) (snd e) = Some b /\
  ((~ is_corner cs a /\ border_step P cs s (st, rel) e = Ok (st, rel)) \/
   (is_corner cs a /\ exists k l, nthz (st_lines P st) k = Some l /\ on_path (map fst l) a b /\
      border_step P cs s (st, rel) e = Ok (st, count_line k rel)) \/
   (is_corner cs a /\ (forall l, In l (st_lines P st) -> ~ on_path (map fst l) a b) /\
      exists l t en, map fst l = a :: b :: t /\ between cs (map fst l) /\ Forall (point_of ss) l /\
        (no_fold cs ss -> clean_path cs ss (map fst l)) /\ ends_of l en /\
        border_step P cs s (st, rel) e
        = Ok (mkLineSt P (st_lines P st ++ [l]) (st_ends P st ++ [en]), count_line (lenz (st_lines P st)) rel))).
Proof.
  intros W Hs He ND. destruct (uv_of P s e W) as [a [b [p [q [Ha [Hb [Hp Hq]]]]]]]; [now apply (wb_border P s W)|].
  exists a, b. split; [assumption|]. split; [assumption|]. unfold border_step, idxz. rewrite Ha. cbn [bind].
  destruct (has_corner P cs a) eqn:C; [apply has_corner_iff in C|apply has_corner_not in C; left; auto]. right.
  rewrite Hb. cbn [bind]. unfold common_line. destruct (find_line P 0 (st_lines P st) a b) as [k|] eqn:F.
  - left. split; [assumption|]. destruct (find_line_some _ _ _ _ _ F) as [l [H1 H2]]. rewrite Z.sub_0_r in H1. exists k, l. auto.
  - right. split; [assumption|]. split; [exact (find_line_none _ _ _ _ F)|].
    destruct (build_line_ok cs ss s e a b W Hs He Ha Hb C) as [l [t [E [Em [B [FP CL]]]]]]. rewrite E. cbn [bind].
    exists l, t, [a; last (map fst l) a]. split; [assumption|]. split; [assumption|]. split; [assumption|]. split; [assumption|].
    destruct B as [a' [m [z [Eb [Ca [Cz _]]]]]]. assert (a' = a) as -> by (rewrite Em in Eb; congruence).
    assert (L : last (map fst l) a = z) by (rewrite Eb, app_comm_cons; apply last_app_one).
    split; [exists a, m, z; rewrite L; auto|]. unfold line_corners. rewrite L. rewrite !filter_one by assumption. reflexivity.
Qed.

Lemma distinct_snoc cs ss ls l a b t : branches_at_corners cs ss -> clean_lines cs ss ls -> clean_path cs ss (map fst l) ->
  map fst l = a :: b :: t -> (forall x, In x ls -> ~ on_path (map fst x) a b) -> clean_lines cs ss (ls ++ [l]).
Proof.
  intros NB [C D] Cl El N. split; [apply Forall_app; auto|].
  assert (G : forall x u v, In x ls -> on_path (map fst x) u v -> on_path (map fst l) u v -> False).
  { intros x u v Hx H1 H2. apply (N x Hx). pose proof (proj1 (Forall_forall _ _) C x Hx) as Cx. cbv beta in Cx.
    assert (F : on_path (map fst l) a b) by (exists [], t; left; exact El).
    destruct (share_edge _ _ (joined_sym ss) _ _ u v NB Cl Cx H2 H1) as [E|E].
    - now rewrite <- E.
    - rewrite E in F. apply on_path_rev in F. now rewrite rev_involutive in F. }
  intros i j li lj u v Hi Hj H1 H2. apply nthz_snoc in Hi. apply nthz_snoc in Hj.
  destruct Hi as [Hi|[-> ->]], Hj as [Hj|[-> ->]].
  - eapply D; eauto.
  - destruct (G li u v (nthz_in _ _ _ Hi) H1 H2).
  - destruct (G lj u v (nthz_in _ _ _ Hj) H2 H1).
  - reflexivity.
Qed.

Definition covered s (ls : list (lline P)) cs e : Prop := forall a b, nthz (bs_uv P s) (fst e) = Some a ->
  nthz (bs_uv P s) (snd e) = Some b -> is_corner cs a -> exists l, In l ls /\ on_path (map fst l) a b.
Definition keys_in (rel : list (Z * Z)) (ls : list (lline P)) : Prop := forall k, In k (map fst rel) -> 0 <= k < lenz ls.
Lemma keys_more rel ls more : keys_in rel ls -> keys_in rel (ls ++ more).
Proof. intros H k Hk. specialize (H k Hk). rewrite lenz_app. pose proof (lenz_nonneg more). lia. Qed.

Lemma steps_ok cs ss s es : well_bordered P s -> In s ss -> incl es (bs_border P s) -> NoDup (corner_uvs cs) ->
  forall st rel, lines_ok cs ss st -> good_rel rel -> keys_in rel (st_lines P st) -> exists st' rel' more,
  foldM (border_step P cs s) es (st, rel) = Ok (st', rel') /\ st_lines P st' = st_lines P st ++ more /\
  lines_ok cs ss st' /\ good_rel rel' /\ keys_in rel' (st_lines P st') /\
  Forall (covered s (st_lines P st') cs) es /\
  (no_fold cs ss -> branches_at_corners cs ss -> clean_lines cs ss (st_lines P st) -> clean_lines cs ss (st_lines P st')).
Proof.
  intros W Hs Hi ND. induction es as [|e es IH]; intros st rel LO GR KI.
  - exists st, rel, []. rewrite app_nil_r. auto 10.
  - specialize (IH (fun x Hx => Hi x (or_intror Hx))).
    destruct (step_cases cs ss s e st rel W Hs (Hi e (or_introl eq_refl)) ND) as [a [b [Ha [Hb H]]]]. cbn [foldM].
    assert (Cov : forall ls more l, In l ls -> on_path (map fst l) a b -> covered s (ls ++ more) cs e).
    { intros ls more l Hl Hp x y Hx Hy _. assert (x = a) as -> by congruence. assert (y = b) as -> by congruence.
      exists l. split; [apply in_or_app; now left|assumption]. }
    destruct H as [[N ->]|[[C [k [l [Hk [Hp ->]]]]]|[C [N [l [t [en [El [B [FP [CL [EN ->]]]]]]]]]]]]; cbn [bind].
    + destruct (IH st rel LO GR KI) as [st' [rel' [more [E [Em [L1 [L2 [L3 [L4 L5]]]]]]]]]. exists st', rel', more.
      repeat (split; [assumption|]). split; [|assumption]. constructor; [|assumption].
      intros x y Hx _ Cx. assert (x = a) as -> by congruence. contradiction.
    + destruct (IH st (count_line k rel) LO (count_good k rel GR)) as [st' [rel' [more [E [Em [L1 [L2 [L3 [L4 L5]]]]]]]]].
      { intros j Hj. apply count_keys in Hj as [Hj| ->]; [auto|]. exact (nthz_range _ _ _ Hk). }
      exists st', rel', more. repeat (split; [assumption|]). split; [|assumption]. constructor; [|assumption].
      rewrite Em. apply (Cov _ _ l); [exact (nthz_in _ _ _ Hk)|assumption].
    + destruct (IH (mkLineSt P (st_lines P st ++ [l]) (st_ends P st ++ [en])) (count_line (lenz (st_lines P st)) rel))
        as [st' [rel' [more [E [Em [L1 [L2 [L3 [L4 L5]]]]]]]]].
      * destruct LO as [O1 O2]. constructor; cbn [st_lines st_ends]; [apply Forall_app; auto|]. apply Forall2_app; [assumption|auto].
      * now apply count_good.
      * cbn [st_lines]. intros j Hj. apply count_keys in Hj as [Hj| ->]; [exact (keys_more _ _ _ KI j Hj)|]. rewrite lenz_app.
        pose proof (lenz_nonneg (st_lines P st)). change (lenz [l]) with 1. lia.
      * cbn [st_lines] in *. exists st', rel', (l :: more). rewrite <- app_assoc in Em. cbn [app] in Em.
        repeat (split; [assumption|]). split.
        { constructor; [|assumption]. rewrite Em. change (l :: more) with ([l] ++ more). rewrite app_assoc.
          apply (Cov _ _ l); [apply in_or_app; right; now left|]. rewrite El. exists [], t. auto. }
        intros NF NB CLs. apply L5; auto. apply (distinct_snoc cs ss _ l a b t); auto.
Qed.

(** The count of a line is the number of border edges that leave one of its ends along it *)
Lemma steps_count cs ss s es fin : well_bordered P s -> In s ss -> incl es (bs_border P s) -> NoDup (corner_uvs cs) ->
  clean_lines cs ss fin -> forall st rel st' rel' more, foldM (border_step P cs s) es (st, rel) = Ok (st', rel') ->
  fin = st_lines P st' ++ more -> forall k l, nthz fin k = Some l ->
  cnt k rel' = cnt k rel + lenz (filter (leaving s (map fst l)) es).
Proof.
  intros W Hs Hi ND [CF DF]. induction es as [|e es IH]; intros st rel st' rel' more E Ef k l Hk.
  - cbn [foldM] in E. assert (rel' = rel) as -> by congruence. cbn [filter]. rewrite lenz_nil. lia.
  - specialize (IH (fun x Hx => Hi x (or_intror Hx))). cbn [foldM] in E.
    destruct (step_cases cs ss s e st rel W Hs (Hi e (or_introl eq_refl)) ND) as [a [b [Ha [Hb H]]]].
    assert (Cl : clean_path cs ss (map fst l)) by (apply (proj1 (Forall_forall _ _) CF l), (nthz_in _ _ _ Hk)).
    assert (Grow : forall st1 rel1, foldM (border_step P cs s) es (st1, rel1) = Ok (st', rel') ->
              exists m, st_lines P st' = st_lines P st1 ++ m).
    { clear -W Hs Hi ND. assert (He : incl es (bs_border P s)) by (intros x Hx; apply Hi; now right). clear Hi. revert He.
      induction es as [|x es IH]; intros He st1 rel1 E1; cbn [foldM] in E1; [exists []; rewrite app_nil_r; congruence|].
      destruct (step_cases cs ss s x st1 rel1 W Hs (He x (or_introl eq_refl)) ND) as [a [b [_ [_ H]]]].
      specialize (IH (fun y Hy => He y (or_intror Hy))).
      destruct H as [[_ X]|[[_ [k [l [_ [_ X]]]]]|[_ [_ [l [t [en [_ [_ [_ [_ [_ X]]]]]]]]]]]]; rewrite X in E1; cbn [bind] in E1.
      - exact (IH _ _ E1).
      - exact (IH _ _ E1).
      - destruct (IH _ _ E1) as [m Em]. cbn [st_lines] in Em. rewrite <- app_assoc in Em. eauto. }
    assert (Key : forall k0 l0, nthz fin k0 = Some l0 -> on_path (map fst l0) a b -> is_corner cs a ->
              leaving s (map fst l) e = (k =? k0)).
    { intros k0 l0 H0 P0 Ca. destruct (Z.eqb_spec k k0) as [->|N].
      - assert (l0 = l) as -> by congruence. apply (leaving_iff s _ e a b Ha Hb). now apply (corner_leaves _ _ (joined_sym ss) _ a b Cl Ca).
      - destruct (leaving s (map fst l) e) eqn:X; [|reflexivity]. destruct N. apply (leaving_iff s _ e a b Ha Hb) in X.
        apply leaves_on in X. eapply DF; eauto. }
    assert (Sum : forall c, lenz (filter (leaving s (map fst l)) (e :: es)) = (if c : bool then 1 else 0) + lenz (filter (leaving s (map fst l)) es)
              \/ leaving s (map fst l) e <> c).
    { intros c. cbn [filter]. destruct (Bool.bool_dec (leaving s (map fst l) e) c) as [<-|]; [left|auto].
      destruct (leaving s (map fst l) e); [apply lenz_cons|reflexivity]. }
    destruct H as [[N X]|[[C [k0 [l0 [Hk0 [Hp X]]]]]|[C [N [l0 [t [en [El [B [FP [CL [EN X]]]]]]]]]]]]; rewrite X in E; cbn [bind] in E.
    + rewrite (IH _ _ _ _ _ E Ef k l Hk). destruct (Sum false) as [S|S]; [rewrite S; lia|].
      destruct (leaving s (map fst l) e) eqn:Y; [|congruence]. destruct N. apply (leaving_iff s _ e a b Ha Hb) in Y as [t [Y|Y]].
      * exact (cl_first _ _ _ Cl _ _ Y).
      * apply (cl_first _ _ _ (clean_rev _ _ (joined_sym ss) _ Cl) _ _ Y).
    + rewrite (IH _ _ _ _ _ E Ef k l Hk), cnt_count. destruct (Grow _ _ E) as [m Em].
      assert (H0 : nthz fin k0 = Some l0) by (rewrite Ef, Em, <- app_assoc; now apply nthz_app_l).
      destruct (Sum (k =? k0)) as [S|S]; [rewrite S; lia|]. destruct S. now apply (Key k0 l0).
    + rewrite (IH _ _ _ _ _ E Ef k l Hk), cnt_count. destruct (Grow _ _ E) as [m Em]. cbn [st_lines] in Em.
      assert (H0 : nthz fin (lenz (st_lines P st)) = Some l0).
      { rewrite Ef, Em. rewrite <- app_assoc. apply nthz_app_l. apply nthz_snoc. auto. }
      destruct (Sum (k =? lenz (st_lines P st))) as [S|S]; [rewrite S; lia|]. destruct S. apply (Key _ l0); auto.
      rewrite El. exists [], t. auto.
Qed.

Lemma good_nil : good_rel [].
Proof. split; constructor. Qed.
Lemma keys_nil ls : keys_in [] ls.
Proof. intros k []. Qed.

(** What is known of each surface afterwards, [ls] being the lines *)
Definition surface_done cs (ls : list (lline P)) s (rs : list (Z * bool)) : Prop :=
  (forall e, In e (bs_border P s) -> covered s ls cs e) /\ (forall k x, In (k, x) rs -> 0 <= k < lenz ls).
Lemma done_more cs ls more s rs : surface_done cs ls s rs -> surface_done cs (ls ++ more) s rs.
Proof.
  intros [H1 H2]. split.
  - intros e He a b Ha Hb Ca. destruct (H1 e He a b Ha Hb Ca) as [l [Hl Hp]]. exists l. split; [apply in_or_app; now left|assumption].
  - intros k x Hk. specialize (H2 k x Hk). rewrite lenz_app. pose proof (lenz_nonneg more). lia.
Qed.
Lemma lines_result cs ss ss' : Forall (well_bordered P) ss' -> incl ss' ss -> NoDup (corner_uvs cs) ->
  forall st st' rels, build_lines P cs st ss' = Ok (st', rels) -> lines_ok cs ss st ->
  exists more, st_lines P st' = st_lines P st ++ more /\ lines_ok cs ss st' /\
    Forall2 (surface_done cs (st_lines P st')) ss' rels /\
    (no_fold cs ss -> branches_at_corners cs ss -> clean_lines cs ss (st_lines P st) -> clean_lines cs ss (st_lines P st')).
Proof.
  intros W Hi ND. induction ss' as [|s ss' IH]; intros st st' rels E LO; cbn [build_lines] in E.
  - assert (st' = st) as -> by congruence. assert (rels = []) as -> by congruence. exists []. rewrite app_nil_r. auto.
  - apply Forall_cons_iff in W as [W0 W].
    destruct (steps_ok cs ss s _ W0 (Hi s (or_introl eq_refl)) (incl_refl _) ND st [] LO good_nil (keys_nil _))
      as [st1 [rel [m1 [E1 [L1 [L2 [L3 [L4 [L5 L6]]]]]]]]]. rewrite E1 in E. cbn [bind] in E.
    destruct (mapM line_relation rel) as [rs| | |] eqn:R; try discriminate. cbn [bind] in E.
    destruct (build_lines P cs st1 ss') as [[st2 rest]| | |] eqn:E2; try discriminate. cbn [bind] in E.
    assert (st' = st2) as -> by congruence. assert (rels = rs :: rest) as -> by congruence.
    destruct (IH W (fun x Hx => Hi x (or_intror Hx)) _ _ _ E2 L2) as [m2 [Q1 [Q2 [Q3 Q4]]]].
    exists (m1 ++ m2). split; [now rewrite Q1, L1, app_assoc|]. split; [assumption|]. split; [|auto].
    constructor; [|assumption]. rewrite Q1. apply done_more. split.
    + intros e He. exact (proj1 (Forall_forall _ _) L5 e He).
    + intros k x Hk. apply L4. exact (relations_keys _ _ _ _ R Hk).
Qed.
(** The relations and the number of times the border goes along the lines *)
Definition counted (fin : list (lline P)) s (rs : list (Z * bool)) : Prop := forall k l, nthz fin k = Some l ->
  (In (k, false) rs <-> times s (map fst l) = 1) /\ (In (k, true) rs <-> times s (map fst l) = 2) /\ 0 <= times s (map fst l) <= 2.
Lemma lines_counts cs ss fin ss' : Forall (well_bordered P) ss' -> incl ss' ss -> NoDup (corner_uvs cs) -> clean_lines cs ss fin ->
  forall st st' rels more, build_lines P cs st ss' = Ok (st', rels) -> lines_ok cs ss st -> fin = st_lines P st' ++ more ->
  Forall2 (counted fin) ss' rels.
Proof.
  intros W Hi ND CF. induction ss' as [|s ss' IH]; intros st st' rels more E LO Ef; cbn [build_lines] in E.
  - assert (rels = []) as -> by congruence. constructor.
  - apply Forall_cons_iff in W as [W0 W].
    destruct (steps_ok cs ss s _ W0 (Hi s (or_introl eq_refl)) (incl_refl _) ND st [] LO good_nil (keys_nil _))
      as [st1 [rel [m1 [E1 [L1 [L2 [L3 [L4 [L5 L6]]]]]]]]]. rewrite E1 in E. cbn [bind] in E.
    destruct (mapM line_relation rel) as [rs| | |] eqn:R; try discriminate. cbn [bind] in E.
    destruct (build_lines P cs st1 ss') as [[st2 rest]| | |] eqn:E2; try discriminate. cbn [bind] in E.
    assert (st' = st2) as -> by congruence. assert (rels = rs :: rest) as -> by congruence.
    destruct (lines_result cs ss ss' W (fun x Hx => Hi x (or_intror Hx)) ND _ _ _ E2 L2) as [m2 [Q1 _]].
    constructor; [|exact (IH W (fun x Hx => Hi x (or_intror Hx)) _ _ _ _ E2 L2 Ef)].
    intros k l Hk. assert (Ef' : fin = st_lines P st1 ++ (m2 ++ more)) by (rewrite Ef, Q1; now rewrite app_assoc).
    pose proof (steps_count cs ss s _ fin W0 (Hi s (or_introl eq_refl)) (incl_refl _) ND CF _ _ _ _ _ E1 Ef' k l Hk) as N.
    change (cnt k []) with 0 in N. change (lenz (filter (leaving s (map fst l)) (bs_border P s))) with (times s (map fst l)) in N.
    replace (times s (map fst l)) with (cnt k rel) by lia. exact (relations_ok rel rs L3 R k).
Qed.
Lemma lines_total cs ss ss' : Forall (well_bordered P) ss' -> incl ss' ss -> NoDup (corner_uvs cs) ->
  forall st, lines_ok cs ss st ->
  (exists x, build_lines P cs st ss' = Ok x) \/ build_lines P cs st ss' = Throw ExData.
Proof.
  intros W Hi ND. induction ss' as [|s ss' IH]; intros st LO; cbn [build_lines]; [eauto|].
  apply Forall_cons_iff in W as [W0 W].
  destruct (steps_ok cs ss s _ W0 (Hi s (or_introl eq_refl)) (incl_refl _) ND st [] LO good_nil (keys_nil _))
    as [st1 [rel [m1 [E1 [L1 [L2 _]]]]]]. rewrite E1. cbn [bind].
  assert (R : (exists rs, mapM line_relation rel = Ok rs) \/ mapM line_relation rel = Throw ExData).
  { clear. induction rel as [|r rel IH]; [left; exists []; reflexivity|]. cbn [mapM]. unfold line_relation at 1 3.
    destruct (snd r =? 1); [|destruct (snd r =? 2); [|auto]]; cbn [bind]; destruct IH as [[rs ->]| ->]; cbn [bind]; eauto. }
  destruct R as [[rs ->]| ->]; cbn [bind]; [|auto].
  destruct (IH W (fun x Hx => Hi x (or_intror Hx)) st1 L2) as [[[st2 rest] ->]| ->]; cbn [bind]; eauto.
Qed.
Lemma lines_succeed cs ss ss' : Forall (well_bordered P) ss' -> incl ss' ss -> NoDup (corner_uvs cs) ->
  no_fold cs ss -> branches_at_corners cs ss -> (forall s p, In s ss' -> clean_path cs ss p -> times s p <= 2) ->
  forall st, lines_ok cs ss st -> clean_lines cs ss (st_lines P st) -> exists x, build_lines P cs st ss' = Ok x.
Proof.
  intros W Hi ND NF NB. induction ss' as [|s ss' IH]; intros T st LO CL; cbn [build_lines]; [eauto|].
  apply Forall_cons_iff in W as [W0 W].
  destruct (steps_ok cs ss s _ W0 (Hi s (or_introl eq_refl)) (incl_refl _) ND st [] LO good_nil (keys_nil _))
    as [st1 [rel [m1 [E1 [L1 [L2 [L3 [L4 [L5 L6]]]]]]]]]. rewrite E1. cbn [bind]. specialize (L6 NF NB CL).
  assert (R : exists rs, mapM line_relation rel = Ok rs).
  { apply relations_total. apply Forall_forall. intros [k n] Hk. cbn [snd].
    assert (Hr : 0 <= k < lenz (st_lines P st1)) by (apply L4; apply in_map_iff; exists (k, n); auto).
    destruct (nthz_in_range (st_lines P st1) k Hr) as [l Hl].
    pose proof (steps_count cs ss s _ (st_lines P st1) W0 (Hi s (or_introl eq_refl)) (incl_refl _) ND L6 _ _ _ _ [] E1
                  (eq_sym (app_nil_r _)) k l Hl) as N.
    rewrite (cnt_in rel k n L3 Hk) in N. change (cnt k []) with 0 in N.
    change (lenz (filter (leaving s (map fst l)) (bs_border P s))) with (times s (map fst l)) in N.
    pose proof (T s (map fst l) (or_introl eq_refl) (proj1 (Forall_forall _ _) (proj1 L6) l (nthz_in _ _ _ Hl))).
    pose proof (proj1 (Forall_forall _ _) (proj2 L3) (k, n) Hk) as Hn. cbn [snd] in Hn. lia. }
  destruct R as [rs ->]. cbn [bind].
  destruct (IH W (fun x Hx => Hi x (or_intror Hx)) (fun x p Hx => T x p (or_intror Hx)) st1 L2 L6) as [[st2 rest] ->]. cbn [bind]. eauto.
Qed.

Lemma lines_none cs ss : lines_ok cs ss (mkLineSt P [] []).
Proof. constructor; constructor. Qed.
Lemma clean_none cs ss : clean_lines cs ss [].
Proof. split; [constructor|]. intros i j li lj a b H. apply nthz_in in H. contradiction. Qed.

Lemma frame_inv ss b : Forall (well_bordered P) ss -> build_frame P ss = Ok b -> exists st rels,
  build_corners P ss = Ok (b_corners P b) /\ NoDup (corner_uvs (b_corners P b)) /\ Forall (point_of ss) (b_corners P b) /\
  build_lines P (b_corners P b) (mkLineSt P [] []) ss = Ok (st, rels) /\
  b_lines P b = st_lines P st /\ b_ends P b = st_ends P st /\
  b_relations P b = map (fun x => add_internal P (b_lines P b) (fst x) (snd x)) (combine ss rels) /\
  b_inspect P b = existsb (fun x => split_required P (b_lines P b) (fst x) (snd x)) (combine ss rels).
Proof.
  intros W E. unfold build_frame in E. destruct (C92_corners ss W) as [cs [Ec [ND [F _]]]]. rewrite Ec in E. cbn [bind] in E.
  destruct (build_lines P cs (mkLineSt P [] []) ss) as [[st rels]| | |] eqn:El; try discriminate. cbn [bind] in E.
  inversion E; subst b. exists st, rels. cbn. auto 10.
Qed.

(** ** C93 *)
(** Reading the borders ends, with a model or with the exception of build_line_relations *)
Theorem C93_total : forall ss, Forall (well_bordered P) ss ->
  (exists b, build_frame P ss = Ok b) \/ build_frame P ss = Throw ExData.
Proof.
  intros ss W. unfold build_frame. destruct (C92_corners ss W) as [cs [-> [ND _]]]. cbn [bind].
  destruct (lines_total cs ss ss W (incl_refl _) ND _ (lines_none cs ss)) as [[[st rels] ->]| ->]; cbn [bind]; eauto.
Qed.
(** Each line goes from a corner to a corner, has points of surfaces at its vertices and is related to the
    two corners; a border edge that leaves a corner is on a line *)
Theorem C93_lines : forall ss b, Forall (well_bordered P) ss -> build_frame P ss = Ok b ->
  Forall (fun l : lline P => between (b_corners P b) (map fst l) /\ Forall (point_of ss) l) (b_lines P b) /\
  Forall2 ends_of (b_lines P b) (b_ends P b) /\
  (forall s u v, In s ss -> border_uv s u v -> is_corner (b_corners P b) u -> exists l, In l (b_lines P b) /\ on_path (map fst l) u v).
Proof.
  intros ss b W E. destruct (frame_inv ss b W E) as [st [rels [_ [ND [_ [El [-> [-> _]]]]]]]].
  destruct (lines_result _ ss ss W (incl_refl _) ND _ _ _ El (lines_none _ ss)) as [m [_ [[O1 O2] [D _]]]].
  split; [assumption|]. split; [assumption|]. intros s u v Hs [e [He [Hu Hv]]] Cu.
  clear -D Hs He Hu Hv Cu. induction D as [|x rs ss rels [H _] D IH]; [contradiction|]. destruct Hs as [->|Hs]; [|auto].
  exact (H e He u v Hu Hv Cu).
Qed.

Lemma frame_clean ss b : Forall (well_bordered P) ss -> build_frame P ss = Ok b -> no_fold (b_corners P b) ss ->
  branches_at_corners (b_corners P b) ss -> clean_lines (b_corners P b) ss (b_lines P b).
Proof.
  intros W E NF NB. destruct (frame_inv ss b W E) as [st [rels [_ [ND [_ [El [-> _]]]]]]].
  destruct (lines_result _ ss ss W (incl_refl _) ND _ _ _ El (lines_none _ ss)) as [m [_ [_ [_ H]]]]. apply H; auto. apply clean_none.
Qed.

(** When the borders only meet at corners and never turn back elsewhere: each border edge of a loop with a corner
    is on exactly one line *)
Theorem C93_partition : forall ss b, Forall (well_bordered P) ss -> build_frame P ss = Ok b ->
  no_fold (b_corners P b) ss -> branches_at_corners (b_corners P b) ss ->
  forall s lp e u v, In s ss -> In lp (bs_loops P s) ->
  (exists e0 u0, In e0 lp /\ nthz (bs_uv P s) (fst e0) = Some u0 /\ is_corner (b_corners P b) u0) ->
  In e lp -> nthz (bs_uv P s) (fst e) = Some u -> nthz (bs_uv P s) (snd e) = Some v ->
  exists k l, nthz (b_lines P b) k = Some l /\ on_path (map fst l) u v /\
    forall k' l', nthz (b_lines P b) k' = Some l' -> on_path (map fst l') u v -> k' = k.
Proof.
  intros ss b W E NF NB s lp e u v Hs Hlp [e0 [u0 [He0 [Hu0 C0]]]] He Hu Hv.
  pose proof (frame_clean ss b W E NF NB) as [CL DL]. destruct (C93_lines ss b W E) as [_ [_ Cov]].
  pose proof (proj1 (Forall_forall _ _) W s Hs) as Ws. destruct (turn P s e0 lp Ws Hlp He0) as [t [Hin [_ [Hm _]]]].
  assert (I : forall x, In x (e0 :: t) -> In x (concat (bs_loops P s))) by (intros x Hx; apply in_concat; exists lp; split; [assumption|now apply Hin]).
  assert (B : forall x, In x (e0 :: t) -> In x (bs_border P s)) by (intros x Hx; apply (wb_border P s Ws); auto).
  assert (G : exists l, In l (b_lines P b) /\ on_path (map fst l) u v).
  { assert (Q : forall q p, e0 :: t = p ++ q -> forall x, In x p -> forall a c, nthz (bs_uv P s) (fst x) = Some a ->
              nthz (bs_uv P s) (snd x) = Some c -> exists l, In l (b_lines P b) /\ on_path (map fst l) a c).
    { intros q p. revert q. induction p as [|y p IH] using rev_ind; intros q Eq x Hx a c Ha Hc; [contradiction|].
      rewrite <- app_assoc in Eq. apply in_app_or in Hx as [Hx|[<-|[]]]; [now apply (IH ([y] ++ q) Eq x Hx)|].
      assert (Hy : In y (e0 :: t)) by (rewrite Eq; apply in_or_app; right; now left).
      destruct p as [|z p _] using rev_ind.
      - injection Eq as -> _. assert (a = u0) as -> by congruence. apply (Cov s u0 c Hs); [exists y; auto|assumption].
      - rewrite <- app_assoc in Eq. cbn [app] in Eq. destruct (Hm _ _ _ _ Eq) as [Nz Ez].
        assert (Hz : In z (e0 :: t)) by (rewrite Eq; apply in_or_app; right; now left).
        destruct (uv_of P s z Ws (I z Hz)) as [a' [b' [p1 [p2 [Ha' [Hb' _]]]]]].
        assert (b' = a) as -> by (rewrite Ez in Hb'; congruence).
        destruct (has_corner P (b_corners P b) a) eqn:C; [apply has_corner_iff in C; apply (Cov s a c Hs); [exists y; auto|assumption]|].
        apply has_corner_not in C.
        destruct (IH (y :: q) ltac:(now rewrite <- app_assoc) z ltac:(apply in_or_app; right; now left) a' a Ha' Hb') as [l [Hl Hp]].
        exists l. split; [assumption|].
        apply (path_goes_on _ _ (joined_sym ss) _ a' a c NB (proj1 (Forall_forall _ _) CL l Hl) Hp C).
        + exists s. split; [assumption|]. left. exists y. auto.
        + intros ->. apply (NF s z y a' a a' Hs (B z Hz) Nz Ha' Hb' Hc C). reflexivity. }
    apply (Q [] (e0 :: t) ltac:(now rewrite app_nil_r) e); auto. now apply Hin. }
  destruct G as [l [Hl Hp]]. destruct (nthz_of_in _ _ Hl) as [k Hk]. exists k, l. split; [assumption|]. split; [assumption|].
  intros k' l' Hk' Hp'. eapply DL; eauto.
Qed.

(** ** C94, C95 *)
(** One of the edges of the triangles of the surface is the first edge of the path *)
Definition has_first_edge s (p : list Z) : Prop := exists x y t e, p = x :: y :: t /\ In e (bs_edges P s) /\
  ((nthz (bs_uv P s) (fst e) = Some x /\ nthz (bs_uv P s) (snd e) = Some y) \/
   (nthz (bs_uv P s) (fst e) = Some y /\ nthz (bs_uv P s) (snd e) = Some x)).
Lemma on_surface_iff s x y : on_surface P s x y = true <-> exists e, In e (bs_edges P s) /\
  ((nthz (bs_uv P s) (fst e) = Some x /\ nthz (bs_uv P s) (snd e) = Some y) \/
   (nthz (bs_uv P s) (fst e) = Some y /\ nthz (bs_uv P s) (snd e) = Some x)).
Proof.
  unfold on_surface. rewrite existsb_exists. split; intros [e [He H]]; exists e; (split; [assumption|]).
  - destruct (nthz (bs_uv P s) (fst e)) as [a|]; [|discriminate]. destruct (nthz (bs_uv P s) (snd e)) as [b|]; [|discriminate].
    rewrite orb_true_iff, !andb_true_iff, !Z.eqb_eq in H. destruct H as [[-> ->]|[-> ->]]; auto.
  - destruct H as [[-> ->]|[-> ->]]; rewrite !Z.eqb_refl; [reflexivity|apply orb_true_r].
Qed.
Lemma missing_iff s rs k (l : lline P) : missing P s rs k l = true <-> has_first_edge s (map fst l) /\ forall x, ~ In (k, x) rs.
Proof.
  assert (N : negb (existsb (fun r : Z * bool => fst r =? k) rs) = true <-> forall x, ~ In (k, x) rs).
  { rewrite negb_true_iff. split.
    - intros H x Hx. assert (existsb (fun r : Z * bool => fst r =? k) rs = true); [|congruence].
      apply existsb_exists. exists (k, x). split; [assumption|]. apply Z.eqb_refl.
    - intros H. destruct (existsb (fun r : Z * bool => fst r =? k) rs) eqn:E; [|reflexivity].
      apply existsb_exists in E as [[j x] [Hi E]]. cbn [fst] in E. apply Z.eqb_eq in E. subst j. destruct (H x Hi). }
  unfold has_first_edge. destruct l as [|a [|c t]]; cbn [missing map].
  1,2: split; [discriminate|]; intros [[x [y [t [e [E _]]]]] _]; discriminate.
  rewrite andb_true_iff, N, on_surface_iff. split.
  - intros [[e H] H2]. split; [|assumption]. exists (fst a), (fst c), (map fst t), e. auto.
  - intros [[x [y [t' [e [E H]]]]] H2]. injection E as <- <- _. split; [exists e; assumption|assumption].
Qed.
Lemma missing_lines_iff s rs (ls : list (lline P)) : forall k0 k, In k (missing_lines P s rs k0 ls) <->
  exists l, nthz ls (k - k0) = Some l /\ has_first_edge s (map fst l) /\ forall x, ~ In (k, x) rs.
Proof.
  induction ls as [|l ls IH]; intros k0 k; cbn [missing_lines].
  - split; [contradiction|]. intros [l [H _]]. apply nthz_in in H. contradiction.
  - rewrite in_app_iff, IH. split.
    + intros [H|[l' [H1 H2]]].
      * destruct (missing P s rs k0 l) eqn:M; [|contradiction]. destruct H as [<-|[]]. apply missing_iff in M. exists l.
        rewrite Z.sub_diag. split; [reflexivity|assumption].
      * exists l'. split; [|assumption]. rewrite nthz_cons. pose proof (nthz_range _ _ _ H1). destruct (Z.eqb_spec (k - k0) 0); [lia|].
        rewrite <- H1. f_equal. lia.
    + intros [l' [H1 H2]]. rewrite nthz_cons in H1. destruct (Z.eqb_spec (k - k0) 0) as [E|E].
      * left. assert (k = k0) as -> by lia. injection H1 as ->. apply missing_iff in H2. rewrite H2. now left.
      * right. exists l'. split; [|assumption]. rewrite <- H1. f_equal. lia.
Qed.

Lemma nthz_combine {A B} (la : list A) (lb : list B) i a b : nthz la i = Some a -> nthz lb i = Some b -> nthz (combine la lb) i = Some (a, b).
Proof.
  revert lb i. induction la as [|x la IH]; intros lb i Ha Hb; [apply nthz_in in Ha; contradiction|].
  destruct lb as [|y lb]; [apply nthz_in in Hb; contradiction|]. cbn [combine]. rewrite nthz_cons in Ha. rewrite nthz_cons in Hb. rewrite nthz_cons.
  destruct (i =? 0); [congruence|auto].
Qed.
Lemma nthz_combine_inv {A B} (la : list A) (lb : list B) i a b : nthz (combine la lb) i = Some (a, b) -> nthz la i = Some a /\ nthz lb i = Some b.
Proof.
  revert lb i. induction la as [|x la IH]; intros lb i H; [apply nthz_in in H; contradiction|].
  destruct lb as [|y lb]; [apply nthz_in in H; contradiction|]. cbn [combine] in H. rewrite nthz_cons in H. rewrite !nthz_cons.
  destruct (i =? 0); [split; congruence|auto].
Qed.
Lemma Forall2_at {A B} (R : A -> B -> Prop) la lb i a b : Forall2 R la lb -> nthz la i = Some a -> nthz lb i = Some b -> R a b.
Proof.
  intros H. revert i. induction H as [|x y la lb Hxy H IH]; intros i Ha Hb; [apply nthz_in in Ha; contradiction|].
  rewrite nthz_cons in Ha. rewrite nthz_cons in Hb. destruct (i =? 0); [congruence|eauto].
Qed.

(** A surface with an edge on the first edge of a line is related to it *)
Theorem C95_related : forall ss b, Forall (well_bordered P) ss -> build_frame P ss = Ok b ->
  List.length (b_relations P b) = List.length ss /\
  forall i s rs k l, nthz ss i = Some s -> nthz (b_relations P b) i = Some rs -> nthz (b_lines P b) k = Some l ->
  has_first_edge s (map fst l) -> exists x, In (k, x) rs.
Proof.
  intros ss b W E. destruct (frame_inv ss b W E) as [st [rels [_ [ND [_ [El [Eb [_ [Er _]]]]]]]]].
  destruct (lines_result _ ss ss W (incl_refl _) ND _ _ _ El (lines_none _ ss)) as [m [_ [_ [D _]]]].
  assert (L : List.length ss = List.length rels) by (clear -D; induction D; simpl; congruence).
  split; [rewrite Er, map_length, combine_length; lia|].
  intros i s rs k l Hs Hr Hk H. rewrite Er, nthz_map in Hr. destruct (nthz (combine ss rels) i) as [[s' rs']|] eqn:X; [|discriminate].
  apply nthz_combine_inv in X as [X1 X2]. assert (s' = s) as -> by congruence. cbn [option_map fst snd] in Hr.
  assert (rs = add_internal P (b_lines P b) s rs') as -> by congruence.
  destruct (in_dec Z.eq_dec k (missing_lines P s rs' 0 (b_lines P b))) as [Y|Y].
  - exists true. unfold add_internal. apply in_or_app. right. apply in_map_iff. eauto.
  - destruct (existsb (fun r : Z * bool => fst r =? k) rs') eqn:Q.
    + apply existsb_exists in Q as [[j x] [Hi Hj]]. cbn [fst] in Hj. apply Z.eqb_eq in Hj. subst j. exists x. apply in_or_app. now left.
    + destruct Y. apply missing_lines_iff. exists l. rewrite Z.sub_0_r. split; [assumption|]. split; [assumption|].
      intros x Hx. assert (existsb (fun r : Z * bool => fst r =? k) rs' = true); [|congruence].
      apply existsb_exists. exists (k, x). split; [assumption|]. apply Z.eqb_refl.
Qed.

Lemma frame_counted ss b : Forall (well_bordered P) ss -> build_frame P ss = Ok b -> no_fold (b_corners P b) ss ->
  branches_at_corners (b_corners P b) ss -> exists rels, Forall2 (counted (b_lines P b)) ss rels /\
  Forall2 (surface_done (b_corners P b) (b_lines P b)) ss rels /\
  b_relations P b = map (fun x => add_internal P (b_lines P b) (fst x) (snd x)) (combine ss rels) /\
  b_inspect P b = existsb (fun x => split_required P (b_lines P b) (fst x) (snd x)) (combine ss rels).
Proof.
  intros W E NF NB. pose proof (frame_clean ss b W E NF NB) as CL.
  destruct (frame_inv ss b W E) as [st [rels [_ [ND [_ [El [Eb [_ [Er Ei]]]]]]]]]. exists rels.
  destruct (lines_result _ ss ss W (incl_refl _) ND _ _ _ El (lines_none _ ss)) as [m [_ [_ [D _]]]].
  split; [|split; [now rewrite Eb|auto]].
  apply (lines_counts _ ss (b_lines P b) ss W (incl_refl _) ND CL _ _ _ [] El (lines_none _ ss)). now rewrite app_nil_r.
Qed.

(** The relation of a surface and a line: boundary when the border goes along the line once, internal when it does
    twice, or never though the surface has an edge there *)
Theorem C94_relations : forall ss b, Forall (well_bordered P) ss -> build_frame P ss = Ok b ->
  no_fold (b_corners P b) ss -> branches_at_corners (b_corners P b) ss ->
  forall i s rs, nthz ss i = Some s -> nthz (b_relations P b) i = Some rs ->
  (forall k x, In (k, x) rs -> exists l, nthz (b_lines P b) k = Some l) /\
  forall k l, nthz (b_lines P b) k = Some l ->
  (In (k, false) rs <-> times s (map fst l) = 1) /\
  (In (k, true) rs <-> times s (map fst l) = 2 \/ (times s (map fst l) = 0 /\ has_first_edge s (map fst l))) /\
  times s (map fst l) <= 2.
Proof.
  intros ss b W E NF NB i s rs Hs Hr. destruct (frame_counted ss b W E NF NB) as [rels [C [D [Er _]]]].
  rewrite Er, nthz_map in Hr. destruct (nthz (combine ss rels) i) as [[s' rs']|] eqn:X; [|discriminate].
  apply nthz_combine_inv in X as [X1 X2]. assert (s' = s) as -> by congruence. cbn [option_map fst snd] in Hr.
  assert (rs = add_internal P (b_lines P b) s rs') as -> by congruence.
  pose proof (Forall2_at _ _ _ _ _ _ C Hs X2) as Cs. pose proof (Forall2_at _ _ _ _ _ _ D Hs X2) as [_ Ks]. unfold add_internal. split.
  - intros k x H. apply in_app_or in H as [H|H]; [exact (nthz_in_range _ _ (Ks k x H))|].
    apply in_map_iff in H as [j [Ej Hj]]. injection Ej as -> _. apply missing_lines_iff in Hj as [l [Hl _]]. rewrite Z.sub_0_r in Hl. eauto.
  - intros k l Hk. destruct (Cs k l Hk) as [C1 [C2 C3]]. rewrite !in_app_iff, !in_map_iff. split; [|split; [|lia]].
    + rewrite C1. split; [intros [H|[j [H _]]]; [assumption|discriminate]|auto].
    + rewrite C2. split.
      * intros [H|[j [Ej Hj]]]; [auto|]. injection Ej as ->. apply missing_lines_iff in Hj as [l' [Hl' [F N]]]. rewrite Z.sub_0_r in Hl'.
        assert (l' = l) as -> by congruence. right. split; [|assumption].
        assert (times s (map fst l) <> 1) by (intros T; apply (N false); now apply C1).
        assert (times s (map fst l) <> 2) by (intros T; apply (N true); now apply C2). lia.
      * intros [H|[T F]]; [auto|]. right. exists k. split; [reflexivity|]. apply missing_lines_iff. exists l. rewrite Z.sub_0_r.
        split; [assumption|]. split; [assumption|]. intros [|] Hx; [apply C2 in Hx|apply C1 in Hx]; lia.
Qed.
(** The exception means that a border goes three times along a path between corners *)
Theorem C94_exception : forall ss cs, Forall (well_bordered P) ss -> build_corners P ss = Ok cs ->
  no_fold cs ss -> branches_at_corners cs ss ->
  (forall s p, In s ss -> clean_path cs ss p -> times s p <= 2) -> exists b, build_frame P ss = Ok b.
Proof.
  intros ss cs W Ec NF NB T. unfold build_frame. rewrite Ec. cbn [bind].
  destruct (C92_corners ss W) as [cs' [Ec' [ND _]]]. assert (cs' = cs) as -> by congruence.
  destruct (lines_succeed cs ss ss W (incl_refl _) ND NF NB T _ (lines_none cs ss) (clean_none cs ss)) as [[st rels] ->].
  cbn [bind]. eauto.
Qed.
(** The model is to be inspected when a surface has an edge on a line that its border does not follow *)
Theorem C95_inspect : forall ss b, Forall (well_bordered P) ss -> build_frame P ss = Ok b ->
  no_fold (b_corners P b) ss -> branches_at_corners (b_corners P b) ss ->
  (b_inspect P b = true <-> exists s l, In s ss /\ In l (b_lines P b) /\ has_first_edge s (map fst l) /\ times s (map fst l) = 0).
Proof.
  intros ss b W E NF NB. destruct (frame_counted ss b W E NF NB) as [rels [C [_ [_ ->]]]]. rewrite existsb_exists. split.
  - intros [[s rs] [Hi H]]. cbn [fst snd] in H. unfold split_required in H.
    destruct (missing_lines P s rs 0 (b_lines P b)) as [|k t] eqn:M; [discriminate|].
    assert (Hk : In k (missing_lines P s rs 0 (b_lines P b))) by (rewrite M; now left).
    apply missing_lines_iff in Hk as [l [Hl [F N]]]. rewrite Z.sub_0_r in Hl. apply nthz_of_in in Hi as [i Hi].
    apply nthz_combine_inv in Hi as [Hs Hr]. destruct (Forall2_at _ _ _ _ _ _ C Hs Hr k l Hl) as [C1 [C2 C3]].
    exists s, l. split; [exact (nthz_in _ _ _ Hs)|]. split; [exact (nthz_in _ _ _ Hl)|]. split; [assumption|].
    assert (times s (map fst l) <> 1) by (intros T; apply (N false); now apply C1).
    assert (times s (map fst l) <> 2) by (intros T; apply (N true); now apply C2). lia.
  - intros [s [l [Hs [Hl [F T]]]]]. apply nthz_of_in in Hs as [i Hs]. apply nthz_of_in in Hl as [k Hl].
    assert (Hr : exists rs, nthz rels i = Some rs).
    { apply nthz_in_range. pose proof (nthz_range _ _ _ Hs) as R. unfold lenz in R. replace (List.length rels) with (List.length ss); [assumption|].
      clear -C. induction C; simpl; congruence. }
    destruct Hr as [rs Hr]. exists (s, rs). split; [exact (nthz_in _ _ _ (nthz_combine _ _ _ _ _ Hs Hr))|]. cbn [fst snd].
    unfold split_required. destruct (missing_lines P s rs 0 (b_lines P b)) eqn:M; [|reflexivity].
    assert (Hk : In k (missing_lines P s rs 0 (b_lines P b))); [|rewrite M in Hk; contradiction].
    apply missing_lines_iff. exists l. rewrite Z.sub_0_r. split; [assumption|]. split; [assumption|].
    destruct (Forall2_at _ _ _ _ _ _ C Hs Hr k l Hl) as [C1 [C2 C3]]. intros [|] Hx; [apply C2 in Hx|apply C1 in Hx]; lia.
Qed.
End Spec.

(** ** Concrete cases *)
Section Check.
Variable P : Type.
Implicit Types (ss : list (BSurf P)).
Definition pairs ss : list (Z * Z) := flat_map (fun s => flat_map (fun e : edge =>
  match nthz (bs_uv P s) (fst e), nthz (bs_uv P s) (snd e) with Some a, Some b => [(a, b); (b, a)] | _, _ => [] end) (bs_border P s)) ss.
Lemma joined_pairs ss a b : joined P ss a b -> In (a, b) (pairs ss).
Proof.
  intros [s [Hs H]]. apply in_flat_map. exists s. split; [assumption|]. apply in_flat_map.
  destruct H as [[e [He [Ha Hb]]]|[e [He [Ha Hb]]]]; exists e; (split; [assumption|]); rewrite Ha, Hb; [|right]; now left.
Qed.
Definition branch_check (cs : corners P) ss : bool :=
  forallb (fun p => forallb (fun q => forallb (fun r =>
    has_corner P cs (fst p) || negb (fst p =? fst q) || negb (fst p =? fst r) ||
    (snd p =? snd q) || (snd p =? snd r) || (snd q =? snd r)) (pairs ss)) (pairs ss)) (pairs ss).
Lemma branch_check_ok cs ss : branch_check cs ss = true -> branches_at_corners P cs ss.
Proof.
  unfold branch_check. rewrite forallb_forall. intros H u a b c N Ha Hb Hc.
  apply joined_pairs, H in Ha. rewrite forallb_forall in Ha. apply joined_pairs, Ha in Hb. rewrite forallb_forall in Hb.
  apply joined_pairs, Hb in Hc. cbn [fst snd] in Hc. rewrite Z.eqb_refl in Hc. cbn [negb] in Hc. rewrite !orb_false_r in Hc.
  apply has_corner_not in N. rewrite N in Hc. cbn [orb] in Hc. rewrite !orb_true_iff, !Z.eqb_eq in Hc. tauto.
Qed.
Definition fold_check (cs : corners P) ss : bool :=
  forallb (fun s => forallb (fun e =>
    match next_border P s e with
    | Ok e' =>
        match nthz (bs_uv P s) (fst e), nthz (bs_uv P s) (snd e), nthz (bs_uv P s) (snd e') with
        | Some a, Some b, Some c => has_corner P cs b || negb (a =? c)
        | _, _, _ => true
        end
    | _ => true
    end) (bs_border P s)) ss.
Lemma fold_check_ok cs ss : fold_check cs ss = true -> no_fold P cs ss.
Proof.
  unfold fold_check. rewrite forallb_forall. intros H s e e' a b c Hs He En Ha Hb Hc N. apply H in Hs. rewrite forallb_forall in Hs.
  apply Hs in He. rewrite En, Ha, Hb, Hc in He. apply has_corner_not in N. rewrite N in He. cbn [orb] in He.
  apply negb_true_iff, Z.eqb_neq in He. assumption.
Qed.
End Check.

(** A surface given by the unique vertices around its only border loop; its points are their numbers *)
Definition loop_of (n : Z) : list edge := map (fun i => (i, (i + 1) mod n)) (rangez 0 (Z.to_nat n)).
Definition disk (uv : list Z) (inner : list edge) : BSurf Z :=
  let lp := loop_of (lenz uv) in mkBSurf Z uv uv lp [lp] (lp ++ inner).
Ltac well_bordered_tac :=
  constructor;
  [reflexivity
  |intros e; cbn; tauto
  |cbn; repeat constructor; cbn; intuition congruence
  |intros l [<-|[]]; exists 0; cbn; repeat split
  |intros e H; cbn in H; repeat (destruct H as [<-|H]; [vm_compute; intuition congruence|]); contradiction].

(** Two triangles with a common edge *)
Definition two_triangles : list (BSurf Z) := [disk [0; 1; 2] []; disk [1; 0; 3] []].
Lemma two_triangles_ok : Forall (well_bordered Z) two_triangles.
Proof. repeat (constructor; [well_bordered_tac|]). constructor. Qed.
Definition two_built : Built Z :=
  mkBuilt Z [(1, 1); (0, 0)] [[(0, 0); (1, 1)]; [(1, 1); (2, 2); (0, 0)]; [(0, 0); (3, 3); (1, 1)]] [[0; 1]; [1; 0]; [0; 1]]
    [[(0, false); (1, false)]; [(0, false); (2, false)]] false.
Example C92_example :
  Forall (well_bordered Z) two_triangles /\ uncut Z two_triangles /\
  build_corners Z two_triangles = Ok [(1, 1); (0, 0)] /\ build_frame Z two_triangles = Ok two_built /\
  no_fold Z (b_corners Z two_built) two_triangles /\ branches_at_corners Z (b_corners Z two_built) two_triangles /\
  times Z (disk [1; 0; 3] []) [0; 1] = 1.
Proof.
  split; [exact two_triangles_ok|]. split; [repeat constructor; cbn; intuition congruence|]. split; [reflexivity|]. split; [reflexivity|].
  split; [apply fold_check_ok; reflexivity|]. split; [apply branch_check_ok; reflexivity|]. reflexivity.
Qed.
(** A surface not cut along the end of another one: the relation is added and the model is to be inspected *)
Definition crossed : list (BSurf Z) := [disk [0; 1; 2] []; disk [3; 4; 5; 6; 7; 8] [];
  mkBSurf Z [3; 4; 5; 6; 0; 1] [3; 4; 5; 6; 0; 1] (loop_of 4) [loop_of 4] (loop_of 4 ++ [(4, 5)])].
Lemma crossed_ok : Forall (well_bordered Z) crossed.
Proof. repeat (constructor; [well_bordered_tac|]). constructor. Qed.
Example C95_example : Forall (well_bordered Z) crossed /\ exists b, build_frame Z crossed = Ok b /\
  no_fold Z (b_corners Z b) crossed /\ branches_at_corners Z (b_corners Z b) crossed /\ b_inspect Z b = true /\
  nthz (b_relations Z b) 2 = Some [(2, false); (4, false); (0, true)].
Proof.
  split; [exact crossed_ok|]. eexists. split; [vm_compute; reflexivity|].
  split; [apply fold_check_ok; reflexivity|]. split; [apply branch_check_ok; reflexivity|]. split; reflexivity.
Qed.

(** C92 is false of a surface cut at a vertex: here the first surface has two vertices at 1, and is the only
    surface there; the edge from 1 to 2 leads to a vertex of two surfaces.  are_equal only looks for the
    surfaces of the first vertex among those of the second one, there is no corner at 1. *)
Definition cut_vertex : list (BSurf Z) := [disk [0; 1; 2; 3; 4; 1] [(0, 2); (0, 3); (0, 4)]; disk [0; 2; 4] []; disk [0; 4; 9] []].
Theorem C92_cut_surface_refuted : exists ss cs u w, Forall (well_bordered Z) ss /\ build_corners Z ss = Ok cs /\
  joined Z ss u w /\ ~ same_surfaces Z ss u w /\ sheets Z ss w <= sheets Z ss u /\ ~ is_corner Z cs u.
Proof.
  exists cut_vertex. eexists. exists 1, 2. split; [repeat (constructor; [well_bordered_tac|]); constructor|].
  split; [vm_compute; reflexivity|]. split; [|split; [|split]].
  - exists (disk [0; 1; 2; 3; 4; 1] [(0, 2); (0, 3); (0, 4)]). split; [now left|]. left. exists (1, 2). split; [right; now left|]. split; reflexivity.
  - intros H. specialize (H 1). destruct H as [_ H]. destruct H as [s [E Hi]].
    + exists (disk [0; 2; 4] []). split; [reflexivity|]. right. now left.
    + vm_compute in E. injection E as <-. cbn in Hi. intuition congruence.
  - vm_compute. congruence.
  - vm_compute. intuition congruence.
Qed.
Print Assumptions C92_cut_surface_refuted.

(** C93: the border of a surface that touches no other one has no corner, hence no line *)
Theorem C93_free_border_refuted : exists ss b s u v, Forall (well_bordered Z) ss /\ build_frame Z ss = Ok b /\
  no_fold Z (b_corners Z b) ss /\ branches_at_corners Z (b_corners Z b) ss /\
  In s ss /\ border_uv Z s u v /\ b_lines Z b = [].
Proof.
  exists [disk [0; 1; 2] []]. eexists. exists (disk [0; 1; 2] []), 0, 1.
  split; [repeat (constructor; [well_bordered_tac|]); constructor|]. split; [vm_compute; reflexivity|].
  split; [apply fold_check_ok; reflexivity|]. split; [apply branch_check_ok; reflexivity|]. split; [now left|].
  split; [exists (0, 1); split; [now left|split; reflexivity]|reflexivity].
Qed.
Print Assumptions C93_free_border_refuted.

(** C93, C94: a surface cut from its border to an inner vertex 0.  The tip of the cut is not a corner, the vertex before it is: the line
    goes to the tip and comes back, and is on the boundary of the surface, which lies on both sides of it *)
Definition slit : BSurf Z := disk [0; 1; 2; 3; 4; 1] [(0, 2); (0, 3); (0, 4)].
Theorem C93_tip_refuted : exists ss b l x y, Forall (well_bordered Z) ss /\ build_frame Z ss = Ok b /\
  branches_at_corners Z (b_corners Z b) ss /\ In l (b_lines Z b) /\ map fst l = [x; y; x].
Proof.
  exists [slit]. eexists. exists [(1, 1); (0, 0); (1, 1)], 1, 0. split; [repeat (constructor; [well_bordered_tac|]); constructor|].
  split; [vm_compute; reflexivity|]. split; [apply branch_check_ok; reflexivity|]. split; [right; now left|reflexivity].
Qed.
Print Assumptions C93_tip_refuted.
Theorem C94_tip_refuted : exists s b k l x y, well_bordered Z s /\ build_frame Z [s] = Ok b /\
  nthz (b_lines Z b) k = Some l /\ on_path (map fst l) x y /\ border_uv Z s x y /\ border_uv Z s y x /\
  exists rs, nthz (b_relations Z b) 0 = Some rs /\ In (k, false) rs /\ ~ In (k, true) rs.
Proof.
  exists slit. eexists. exists 1, [(1, 1); (0, 0); (1, 1)], 1, 0. split; [well_bordered_tac|].
  split; [vm_compute; reflexivity|]. split; [reflexivity|]. split; [exists [], [1]; now left|].
  split; [exists (5, 0); split; [vm_compute; tauto|split; reflexivity]|]. split; [exists (0, 1); split; [vm_compute; tauto|split; reflexivity]|].
  eexists. split; [reflexivity|]. split; [right; now left|]. cbn. intuition congruence.
Qed.
Print Assumptions C94_tip_refuted.

(** C93: the corners are found from the surfaces around the vertices, not from the edges.  The first two surfaces have the
    vertices 0 to 3 in common but join them in different orders: two lines share edges *)
Definition two_orders : list (BSurf Z) := [disk [0; 1; 2; 3] []; disk [0; 2; 1; 3] []; disk [0; 5; 6] []].
Theorem C93_shared_edge_refuted : exists ss b k k' l l' u v, Forall (well_bordered Z) ss /\ uncut Z ss /\ build_frame Z ss = Ok b /\
  no_fold Z (b_corners Z b) ss /\
  nthz (b_lines Z b) k = Some l /\ nthz (b_lines Z b) k' = Some l' /\ k <> k' /\ on_path (map fst l) u v /\ on_path (map fst l') u v.
Proof.
  exists two_orders. eexists. exists 0, 1, [(0, 0); (1, 1); (2, 2); (3, 3); (0, 0)], [(0, 0); (2, 2); (1, 1); (3, 3); (0, 0)], 1, 2.
  split; [repeat (constructor; [well_bordered_tac|]); constructor|].
  split; [repeat constructor; cbn; intuition congruence|]. split; [vm_compute; reflexivity|].
  split; [apply fold_check_ok; reflexivity|]. split; [reflexivity|]. split; [reflexivity|]. split; [discriminate|].
  split; [exists [0], [3; 0]; now left|exists [0], [3; 0]; now right].
Qed.
Print Assumptions C93_shared_edge_refuted.

(** C94: a surface with three sheets along the same edge: the exception *)
Definition three_sheets : list (BSurf Z) :=
  [mkBSurf Z [0; 1; 2; 0; 1; 3; 0; 1; 4] [0; 1; 2; 0; 1; 3; 0; 1; 4]
     ([(0, 1); (1, 2); (2, 0)] ++ [(3, 4); (4, 5); (5, 3)] ++ [(6, 7); (7, 8); (8, 6)])
     [[(0, 1); (1, 2); (2, 0)]; [(3, 4); (4, 5); (5, 3)]; [(6, 7); (7, 8); (8, 6)]] []].
Example C94_exception_example : build_frame Z three_sheets = Throw ExData /\ times Z (hd (disk [] []) three_sheets) [0; 1] = 3.
Proof. split; reflexivity. Qed.
Print Assumptions C92_corners.
Print Assumptions C92_uncut.
Print Assumptions C93_total.
Print Assumptions C93_lines.
Print Assumptions C93_partition.
Print Assumptions C94_relations.
Print Assumptions C94_exception.
Print Assumptions C95_related.
Print Assumptions C95_inspect.
