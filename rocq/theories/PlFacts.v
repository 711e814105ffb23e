(** * The lines followed by the PLine writer: every edge is met exactly once. *)
From Coq Require Import ZArith List Lia Bool Ascii String Permutation.
From Verif Require Import Base Text TextFacts GocadModel MeshModel TsModel PlModel.
Import ListNotations.
Local Open Scope list_scope.
Local Open Scope Z_scope.

(** ** Specification *)

(** The vertex at one end of an edge. *)
Definition end_of (es : list edge) (e : nat) (s : bool) : option Z :=
  match nth_error es e with Some (a, b) => Some (if s then b else a) | None => None end.
(** A curve: the edges join existing vertices, and [around] lists once, in any order, every end of edge at a vertex. *)
Record curve_ok (es : list edge) (around : Z -> list edge_vertex) (nv : nat) : Prop := {
  co_ends : forall e s v, end_of es e s = Some v -> 0 <= v < Z.of_nat nv;
  co_nodup : forall v, NoDup (around v);
  co_around : forall v e s, In (e, s) (around v) <-> end_of es e s = Some v
}.

(** ** Facts *)
Section Walk.
Context (es : list edge) (around : Z -> list edge_vertex) (nv : nat) (G : curve_ok es around nv).
Notation vt := (vert es).
Definition D (done : list bool) (e : nat) : bool := nth e done false.
Lemma end_vert e s : (e < List.length es)%nat -> end_of es e s = Some (vt (e, s)).
Proof.
  intros H. unfold end_of, vert. cbn [fst snd]. rewrite (nth_error_nth' es (0, 0) H). destruct (nth e es (0, 0)) as [a b].
  now destruct s.
Qed.
Lemma end_of_lt e s v : end_of es e s = Some v -> (e < List.length es)%nat /\ vt (e, s) = v.
Proof.
  unfold end_of. destruct (nth_error es e) as [[a b]|] eqn:E; [|discriminate]. intros H. injection H as <-.
  split; [apply nth_error_Some; congruence|]. unfold vert. cbn [fst snd]. now rewrite (nth_error_nth _ _ _ E).
Qed.
Lemma in_around e s : (e < List.length es)%nat -> In (e, s) (around (vt (e, s))).
Proof. intros H. apply (co_around _ _ _ G). now apply end_vert. Qed.
Lemma around_lt v e s : In (e, s) (around v) -> (e < List.length es)%nat /\ vt (e, s) = v.
Proof. intros H. apply (co_around _ _ _ G) in H. now apply end_of_lt. Qed.
Definition deg (v : Z) : nat := List.length (around v).
(** At a vertex of two edges, both are done or none is. *)
Definition even (done : list bool) (v : Z) : Prop :=
  forall a b, In a (around v) -> In b (around v) -> D done (fst a) = D done (fst b).
Definition all_even (done : list bool) : Prop := forall v, deg v = 2%nat -> even done v.

Lemma D_upd done e x : (e < List.length done)%nat -> D (upd done e true) x = (Nat.eqb e x || D done x).
Proof.
  intros H. unfold D. destruct (Nat.eqb e x) eqn:E.
  - apply Nat.eqb_eq in E. subst x. apply nth_error_nth. rewrite nth_error_upd, Nat.eqb_refl, (proj2 (Nat.ltb_lt _ _)) by assumption.
    reflexivity.
  - destruct (nth_error done x) as [d|] eqn:E2.
    + rewrite (nth_error_nth _ _ _ E2). apply nth_error_nth. rewrite nth_error_upd, E. exact E2.
    + cbn [orb]. apply nth_error_None in E2. rewrite !nth_overflow; [reflexivity|exact E2|rewrite upd_length; exact E2].
Qed.
(** The two ends at a vertex of two edges. *)
Lemma two_ends v a : deg v = 2%nat -> In a (around v) -> exists b, b <> a /\ In b (around v) /\
  (forall c, In c (around v) -> c = a \/ c = b) /\
  (around v = [a; b] \/ around v = [b; a]).
Proof.
  unfold deg. intros H Ha. pose proof (co_nodup _ _ _ G v) as Hn. destruct (around v) as [|x [|y [|z r]]]; try discriminate.
  inversion Hn as [|? ? H1 H2]; subst. cbn [In] in *. destruct Ha as [-> |[-> |[]]].
  - exists y. split; [intros ->; apply H1; now left|]. split; [auto|]. split; [intros c [|[|[]]]; auto|auto].
  - exists x. split; [intros ->; apply H1; now left|]. split; [auto|]. split; [intros c [|[|[]]]; auto|auto].
Qed.
Lemma flip_neq ev : flip ev <> ev.
Proof. destruct ev as [e s]. unfold flip. cbn. intros E. injection E. now destruct s. Qed.
Lemma flip_in ev : (fst ev < List.length es)%nat -> In (flip ev) (around (vt (flip ev))).
Proof. destruct ev as [e s]. cbn [fst]. intros H. unfold flip. cbn [fst snd]. now apply in_around. Qed.
Lemma ev_in ev : (fst ev < List.length es)%nat -> In ev (around (vt ev)).
Proof. destruct ev as [e s]. apply in_around. Qed.
Lemma ends_only ev v c : (fst ev < List.length es)%nat -> In c (around v) -> fst c = fst ev -> v = vt ev \/ v = vt (flip ev).
Proof.
  destruct ev as [e s], c as [e' s']. cbn [fst]. intros H Hc ->. apply around_lt in Hc as [_ <-]. unfold flip. cbn [fst snd].
  destruct s, s'; cbn; auto.
Qed.

(** Invariant at the head of the loop of [walk]. *)
Record inv (w0 : Z) (ev0 : edge_vertex) (done : list bool) (ev : edge_vertex) : Prop := {
  i_len : List.length done = List.length es;
  i_e : (fst ev < List.length es)%nat;
  i_undone : D done (fst ev) = false;
  i_even : forall v, deg v = 2%nat -> v <> vt ev -> v <> w0 -> even done v;
  i_from : vt ev <> w0 -> deg (vt ev) = 2%nat /\ (forall c, In c (around (vt ev)) -> c <> ev -> D done (fst c) = true) /\ D done (fst ev0) = true;
  i_start : (fst ev0 < List.length es)%nat /\ vt ev0 = w0;
  i_first : vt ev = w0 -> ev = ev0
}.
(** A chain of edges, each one beginning where the previous one ends. *)
Fixpoint chained (evs : list edge_vertex) : Prop :=
  match evs with
  | a :: ((b :: _) as r) => vt b = vt (flip a) /\ chained r
  | _ => True
  end.
Definition undone (done : list bool) : nat := List.length (filter negb done).
Lemma undone_upd done e : (e < List.length done)%nat -> D done e = false -> undone done = S (undone (upd done e true)).
Proof.
  unfold undone, D. revert e. induction done as [|d done IH]; intros e H E; [cbn in H; lia|]. destruct e as [|e]; cbn [nth] in E.
  - subst d. reflexivity.
  - cbn [upd filter]. cbn in H. specialize (IH e ltac:(lia) E). destruct d; cbn [negb List.length]; now rewrite IH.
Qed.
Lemma undone_le done : (undone done <= List.length done)%nat.
Proof. unfold undone. induction done as [|d l IH]; [reflexivity|]. cbn. destruct d; cbn; lia. Qed.

Lemma walk_ok w0 ev0 : forall fuel done ev, inv w0 ev0 done ev -> (undone done < fuel)%nat ->
  exists evs done', walk es around fuel done ev = Ok (evs, done') /\
    (exists path, hd_error path = Some ev /\ chained path /\ NoDup (map fst path) /\
      Forall (fun a => (fst a < List.length es)%nat /\ D done (fst a) = false) path /\
      List.length done' = List.length es /\ (forall e, D done' e = D done e || existsb (Nat.eqb e) (map fst path)) /\
      exists lst, nth_error path (List.length path - 1) = Some lst /\
        ((deg (vt (flip lst)) <> 2%nat /\ evs = path ++ [flip lst]) \/
         (deg (vt (flip lst)) = 2%nat /\ evs = path /\ vt (flip lst) = w0))) /\
    (forall v, deg v = 2%nat -> v <> w0 -> even done' v).
Proof.
  induction fuel as [|f IH]; intros done ev I Hf; [lia|]. cbn [walk].
  destruct I as [Il Ie Iu Iev Ifr [Is Iw] Ifi].
  set (done1 := upd done (fst ev) true). set (w := vt (flip ev)).
  assert (Hl1 : List.length done1 = List.length es) by (unfold done1; rewrite upd_length; exact Il).
  assert (D1 : forall x, D done1 x = (Nat.eqb (fst ev) x || D done x)) by (intros x; apply D_upd; lia).
  assert (Hin : In (flip ev) (around w)) by now apply flip_in.
  assert (Fst : fst (flip ev) = fst ev) by reflexivity.
  assert (Dev : D done1 (fst ev) = true) by (rewrite D1, Nat.eqb_refl; reflexivity).
  (* vertices other than the start and the arrival are even after the step *)
  assert (Ev1 : forall v, deg v = 2%nat -> v <> w -> v <> w0 -> even done1 v).
  { intros v Hd Hw Hw0. destruct (Z.eq_dec v (vt ev)) as [-> |Hne].
    - destruct (Ifr Hw0) as (_ & Ho & _). assert (K : forall c, In c (around (vt ev)) -> D done1 (fst c) = true).
      { intros c Hc. rewrite D1. destruct (Nat.eqb (fst ev) (fst c)) eqn:E; [reflexivity|]. cbn [orb]. apply Ho; [exact Hc|].
        intros ->. rewrite Nat.eqb_refl in E. discriminate. }
      intros a b Ha Hb. now rewrite (K a Ha), (K b Hb).
    - intros a b Ha Hb. rewrite !D1.
      assert (N : forall c, In c (around v) -> Nat.eqb (fst ev) (fst c) = false).
      { intros c Hc. apply Nat.eqb_neq. intros E. symmetry in E. destruct (ends_only ev v c Ie Hc E); contradiction. }
      rewrite (N a Ha), (N b Hb). cbn [orb]. now apply (Iev v). }
  assert (One : forall e, D done1 e = D done e || existsb (Nat.eqb e) (map fst [ev])).
  { intros e. rewrite D1. cbn [map existsb]. rewrite orb_false_r, orb_comm, (Nat.eqb_sym e). reflexivity. }
  (* the walk stops here *)
  assert (Stop : forall evs, (deg w <> 2%nat /\ evs = [ev] ++ [flip ev]) \/ (deg w = 2%nat /\ evs = [ev] /\ w = w0) ->
    (exists path, hd_error path = Some ev /\ chained path /\ NoDup (map fst path) /\
      Forall (fun a => (fst a < List.length es)%nat /\ D done (fst a) = false) path /\
      List.length done1 = List.length es /\ (forall e, D done1 e = D done e || existsb (Nat.eqb e) (map fst path)) /\
      exists lst, nth_error path (List.length path - 1) = Some lst /\
        ((deg (vt (flip lst)) <> 2%nat /\ evs = path ++ [flip lst]) \/
         (deg (vt (flip lst)) = 2%nat /\ evs = path /\ vt (flip lst) = w0))) /\
    (forall v, deg v = 2%nat -> v <> w0 -> even done1 v)).
  { intros evs Hs. split.
    - exists [ev]. split; [reflexivity|]. split; [exact I|]. split; [repeat constructor; intros []|]. split; [constructor; auto|].
      split; [exact Hl1|]. split; [exact One|]. exists ev. split; [reflexivity|]. exact Hs.
    - intros v Hd Hw0. apply Ev1; [exact Hd| |exact Hw0]. destruct Hs as [[H _]|(_ & _ & H)]; [intros ->; contradiction|congruence]. }
  change (vert es (flip ev)) with w.
  destruct (Nat.eq_dec (deg w) 2) as [Hd|Hd].
  - destruct (two_ends w (flip ev) Hd Hin) as (b & Hb & Hbin & Honly & Har).
    assert (Go : walk es around (S f) done ev =
      if D done1 (fst b) then Ok ([ev], done1) else do '(l, d) <- walk es around f done1 b; Ok (ev :: l, d)).
    { cbn [walk]. fold done1. change (vert es (flip ev)) with w.
      assert (If : is_done done1 (flip ev) = true) by exact Dev.
      destruct Har as [-> | ->]; rewrite If; change (is_done done1 b) with (D done1 (fst b));
        destruct (D done1 (fst b)); reflexivity. }
    cbn [walk] in Go. fold done1 in Go. change (vert es (flip ev)) with w in Go. rewrite Go. clear Go.
    destruct (D done1 (fst b)) eqn:Db.
    + (* both edges done: only at the start *)
      assert (Hw : w = w0).
      { destruct (Z.eq_dec w w0) as [|Hw]; [assumption|]. exfalso.
        assert (Hu : w <> vt ev).
        { intros E. assert (Hu0 : vt ev <> w0) by congruence. destruct (Ifr Hu0) as (_ & Ho & _).
          rewrite E in Hin. specialize (Ho (flip ev) Hin (flip_neq ev)). rewrite Fst in Ho. congruence. }
        assert (Dbe : D done (fst b) = D done (fst (flip ev))) by (apply (Iev w); assumption).
        rewrite Fst, Iu in Dbe. rewrite D1, Dbe, orb_false_r in Db. apply Nat.eqb_eq in Db. symmetry in Db.
        assert (b = ev).
        { destruct b as [eb sb], ev as [e s]. cbn [fst] in Db. subst eb. unfold flip in Hb. cbn [fst snd] in Hb.
          destruct sb, s; cbn in Hb; congruence. }
        subst b.
        destruct ev as [e s]. apply around_lt in Hbin as [_ Hbin]. congruence. }
      eexists. eexists. split; [reflexivity|]. apply Stop. right. auto.
    + assert (Hw : w <> w0).
      { intros E. destruct (Z.eq_dec (vt ev) w0) as [Hu|Hu].
        - (* first step *)
          pose proof (Ifi Hu) as E0. assert (Hev : In ev (around w)) by (rewrite E, <- Hu; now apply ev_in).
          destruct (Honly ev Hev) as [H|H]; [symmetry in H; now apply flip_neq in H|]. subst b. congruence.
        - destruct (Ifr Hu) as (_ & _ & H0). assert (Hev : In ev0 (around w)) by (rewrite E, <- Iw; now apply ev_in).
          destruct (Honly ev0 Hev) as [H|H].
          + rewrite H in H0. rewrite Fst in H0. congruence.
          + subst b. rewrite D1, H0, orb_true_r in Db. discriminate. }
      assert (Hbl : (fst b < List.length es)%nat /\ vt b = w) by (destruct b as [eb sb]; now apply around_lt).
      destruct Hbl as [Hbl Hbv].
      destruct (IH done1 b) as (evs & done' & E & P & Q).
      { constructor.
        - exact Hl1.
        - exact Hbl.
        - exact Db.
        - intros v Hdv Hv Hv0. apply Ev1; [exact Hdv|congruence|exact Hv0].
        - intros _. rewrite Hbv. split; [exact Hd|]. split.
          + intros c Hc Hcb. destruct (Honly c Hc) as [-> |]; [exact Dev|contradiction].
          + destruct (Z.eq_dec (vt ev) w0) as [Hu|Hu]; [rewrite <- (Ifi Hu); exact Dev|].
            rewrite D1. destruct (Ifr Hu) as (_ & _ & ->). apply orb_true_r.
        - split; assumption.
        - intros Eb. congruence. }
      { unfold done1. rewrite (undone_upd done (fst ev)) in Hf by (lia || assumption). lia. }
      rewrite E. cbn [bind]. eexists. eexists. split; [reflexivity|]. split; [|exact Q].
      destruct P as (path & Hh & Hc & Hn & Ha & Hl & Hm & lst & Hlst & He).
      destruct path as [|p0 path]; [discriminate|]. cbn [hd_error] in Hh. injection Hh as ->.
      exists (ev :: b :: path). split; [reflexivity|]. split; [cbn [chained]; split; [exact Hbv|exact Hc]|].
      assert (Hnev : ~ In (fst ev) (map fst (b :: path))).
      { intros Hi. apply in_map_iff in Hi as (a & Ea & Hia). rewrite Forall_forall in Ha. destruct (Ha a Hia) as [_ Hda]. rewrite Ea in Hda. congruence. }
      split; [cbn [map]; constructor; assumption|]. split.
      { constructor; [auto|]. eapply Forall_impl; [|exact Ha]. cbn beta. intros a [H1 H2]. split; [exact H1|].
        rewrite D1 in H2. now apply orb_false_iff in H2. }
      split; [exact Hl|]. split.
      { intros e. rewrite Hm, D1. cbn [map existsb]. rewrite (Nat.eqb_sym (fst ev)). destruct (Nat.eqb e (fst ev)), (D done e); reflexivity. }
      exists lst. split.
      { cbn [List.length] in *. replace (S (S (List.length path)) - 1)%nat with (S (S (List.length path) - 1)) by lia. exact Hlst. }
      destruct He as [[H1 ->]|(H1 & -> & H2)]; [left; auto|right; auto].
  - assert (Go : match around w with
      | [a; b] => if negb (is_done done1 a) || negb (is_done done1 b)
          then (let next := if is_done done1 a then flip ev else a in let next0 := if is_done done1 b then next else b in
                do '(l, done0) <- walk es around f done1 next0; Ok (ev :: l, done0)) else Ok ([ev], done1)
      | _ => Ok ([ev; flip ev], done1) end = Ok ([ev; flip ev], done1)).
    { unfold deg in Hd. destruct (around w) as [|x [|y [|z r]]]; try reflexivity. now cbn in Hd. }
    cbv zeta in Go. rewrite Go. eexists. eexists. split; [reflexivity|]. apply Stop. left. auto.
Qed.

(** ** The lines already written *)

(** The consecutive pairs of a list of vertices. *)
Fixpoint pairs (vs : list Z) : list (Z * Z) :=
  match vs with
  | a :: ((b :: _) as r) => (a, b) :: pairs r
  | _ => []
  end.
Definition ends (ev : edge_vertex) : Z * Z := (vt ev, vt (flip ev)).
(** Two vertices joined by edges. *)
Inductive linked : Z -> Z -> Prop :=
| linked_refl v : linked v v
| linked_step v w x e s : end_of es e s = Some v -> end_of es e (negb s) = Some w -> linked w x -> linked v x.
(** The edges of the same connected part. *)
Definition same_loop (e e' : nat) : Prop :=
  exists v w, end_of es e false = Some v /\ end_of es e' false = Some w /\ linked v w.
(** [e0] is the edge with the smallest number of a closed loop, a part all of whose vertices have two edges; it begins at [w]. *)
Definition first_of_loop (e0 : nat) (w : Z) : Prop :=
  end_of es e0 false = Some w /\ (forall x, linked w x -> deg x = 2%nat) /\ (forall e, same_loop e0 e -> (e0 <= e)%nat).
(** [b] draws the edges of [path], one after the other. *)
Inductive drawn (path : list edge_vertex) (b : block) : Prop :=
| drawn_open lst : chained path -> nth_error path (List.length path - 1) = Some lst ->
    b_vs b = map vt (path ++ [flip lst]) -> b_close b = None -> deg (vt (flip lst)) <> 2%nat -> drawn path b
| drawn_loop ev lst : chained path -> nth_error path (List.length path - 1) = Some lst -> hd_error path = Some ev ->
    vt (flip lst) = vt ev -> b_vs b = map vt path -> b_close b = Some (add32 (vt ev) 1) -> first_of_loop (fst ev) (vt ev) -> drawn path b.
Lemma pairs_chain path lst : chained path -> nth_error path (List.length path - 1) = Some lst ->
  pairs (map vt path ++ [vt (flip lst)]) = map ends path.
Proof.
  induction path as [|a path IH]; [discriminate|]. destruct path as [|b path].
  - cbn. intros _ H. now injection H as <-.
  - intros [H1 H2] H3. cbn [map app pairs]. f_equal; [unfold ends; now rewrite H1|]. apply IH; [exact H2|].
    cbn [List.length] in *. replace (S (S (List.length path)) - 1)%nat with (S (S (List.length path) - 1)) in H3 by lia. exact H3.
Qed.
(** Vertices of a list of blocks, in the order of the file. *)
Definition all_vs (bs : list block) : list Z := flat_map b_vs bs.
(** Blocks numbered one after the other from [n]. *)
Fixpoint numbered (n : Z) (bs : list block) : Prop :=
  match bs with
  | [] => True
  | b :: r => b_off b = n /\ numbered (n + lenz (b_vs b)) r
  end.
Lemma numbered_app n bs b : numbered n bs -> b_off b = n + lenz (all_vs bs) -> numbered n (bs ++ [b]).
Proof.
  revert n. induction bs as [|b0 bs IH]; intros n H E; cbn [app numbered] in *.
  - unfold all_vs, lenz in E. cbn in E. split; [lia|exact I].
  - destruct H as [H1 H2]. split; [exact H1|]. apply IH; [exact H2|]. rewrite E. unfold all_vs, lenz. cbn [flat_map]. rewrite app_length. lia.
Qed.
Lemma all_vs_app bs b : all_vs (bs ++ [b]) = all_vs bs ++ b_vs b.
Proof. unfold all_vs. rewrite flat_map_app. cbn. now rewrite app_nil_r. Qed.

Notation ne := (List.length es).
Definition edges_of (paths : list (list edge_vertex)) : list nat := map fst (List.concat paths).
Record J (st : pl_state) (paths : list (list edge_vertex)) : Prop := {
  j_len : List.length (o_done st) = ne;
  j_nodup : NoDup (edges_of paths);
  j_lt : Forall (fun e => (e < ne)%nat) (edges_of paths);
  j_done : forall e, D (o_done st) e = true <-> In e (edges_of paths);
  j_nb : o_nb st = Z.of_nat (List.length (edges_of paths));
  j_off : o_off st = 1 + lenz (all_vs (o_blocks st));
  j_vs : lenz (all_vs (o_blocks st)) <= 2 * Z.of_nat (List.length (edges_of paths));
  j_num : numbered 1 (o_blocks st);
  j_drawn : Forall2 drawn paths (o_blocks st);
  j_even : all_even (o_done st)
}.
Lemma edges_of_app paths p : edges_of (paths ++ [p]) = edges_of paths ++ map fst p.
Proof. unfold edges_of. rewrite concat_app, map_app. cbn. now rewrite app_nil_r. Qed.
Lemma existsb_in e l : existsb (Nat.eqb e) l = true <-> In e l.
Proof.
  rewrite existsb_exists. split.
  - intros (x & H & E). apply Nat.eqb_eq in E. now subst.
  - intros H. exists e. split; [exact H|apply Nat.eqb_refl].
Qed.
Lemma nodup_app {A} (a b : list A) : NoDup a -> NoDup b -> (forall x, In x a -> ~ In x b) -> NoDup (a ++ b).
Proof.
  induction a as [|x a IH]; [auto|]. intros Ha Hb Hx. inversion Ha as [|? ? H1 H2]; subst. cbn. constructor.
  - rewrite in_app_iff. intros [H|H]; [contradiction|]. apply (Hx x); [now left|exact H].
  - apply IH; [exact H2|exact Hb|]. intros y Hy. apply Hx. now right.
Qed.
Lemma in_lt_length (l : list nat) n : NoDup l -> Forall (fun e => (e < n)%nat) l -> (List.length l <= n)%nat.
Proof.
  intros H1 H2. rewrite <- (seq_length n 0). apply NoDup_incl_length; [exact H1|]. intros x Hx. apply in_seq.
  rewrite Forall_forall in H2. specialize (H2 x Hx). lia.
Qed.
Lemma hd_path path (ev : edge_vertex) : hd_error path = Some ev -> exists r, path = ev :: r.
Proof. destruct path; [discriminate|]. cbn. intros H. injection H as ->. eauto. Qed.

(** The fields of the state after the edges of [path] are drawn by the block [b]. *)
Lemma J_step st paths path b done' ev : J st paths -> hd_error path = Some ev -> NoDup (map fst path) ->
  Forall (fun a => (fst a < ne)%nat /\ D (o_done st) (fst a) = false) path ->
  List.length done' = ne -> (forall e, D done' e = D (o_done st) e || existsb (Nat.eqb e) (map fst path)) ->
  all_even done' -> b_off b = o_off st -> drawn path b -> (List.length (b_vs b) <= S (List.length path))%nat ->
  J (mkPl done' (o_off st + lenz (b_vs b)) (o_nb st + Z.of_nat (List.length path)) (o_blocks st ++ [b])) (paths ++ [path]).
Proof.
  intros [] Hh Hn Ha Hl Hm He Ho Hd Hk. rewrite Forall_forall in Ha. apply hd_path in Hh as (r & Hp).
  constructor; cbn [o_done o_off o_nb o_blocks]; rewrite ?edges_of_app, ?all_vs_app, ?app_length, ?map_length.
  - exact Hl.
  - apply nodup_app; [assumption|exact Hn|]. intros x Hx Hx'. apply in_map_iff in Hx' as (a & <- & Hin). apply j_done0 in Hx.
    destruct (Ha a Hin) as [_ H]. congruence.
  - apply Forall_app. split; [assumption|]. apply Forall_forall. intros x Hx. apply in_map_iff in Hx as (a & <- & Hin). now apply Ha.
  - intros e. rewrite in_app_iff, <- j_done0, Hm, orb_true_iff, existsb_in. reflexivity.
  - rewrite j_nb0. lia.
  - unfold lenz in *. rewrite app_length. lia.
  - unfold lenz in *. rewrite app_length. subst path. cbn [List.length] in *. lia.
  - apply numbered_app; [assumption|]. rewrite Ho. exact j_off0.
  - apply Forall2_app; [assumption|]. constructor; [exact Hd|constructor].
  - exact He.
Qed.
Lemma D_in e done : D done e = true -> (e < List.length done)%nat.
Proof. intros H. destruct (Nat.lt_ge_cases e (List.length done)); [assumption|]. unfold D in H. rewrite nth_overflow in H by assumption. discriminate. Qed.

Context (Hsize : 2 * Z.of_nat ne + 1 < two32).
Lemma fits st paths : J st paths -> 0 <= o_nb st <= Z.of_nat ne /\ 0 < o_off st <= 1 + 2 * Z.of_nat ne.
Proof.
  intros []. pose proof (in_lt_length _ _ j_nodup0 j_lt0). unfold lenz in *. lia.
Qed.
Lemma start_inv st paths ev : J st paths -> (fst ev < ne)%nat -> D (o_done st) (fst ev) = false -> inv (vt ev) ev (o_done st) ev.
Proof.
  intros [] He Hd. constructor.
  - assumption.
  - exact He.
  - exact Hd.
  - intros v H _ _. now apply j_even0.
  - congruence.
  - auto.
  - reflexivity.
Qed.
(** A line that begins at a vertex with another number of edges than two. *)
Lemma open_step st paths ev : J st paths -> (fst ev < ne)%nat -> D (o_done st) (fst ev) = false -> deg (vt ev) <> 2%nat ->
  exists st' paths', write_edge_and_vertex es around None st ev = Ok st' /\ J st' paths' /\
    (forall e, D (o_done st) e = true -> D (o_done st') e = true) /\ D (o_done st') (fst ev) = true /\
    (Forall (fun b => b_close b = None) (o_blocks st) -> Forall (fun b => b_close b = None) (o_blocks st')).
Proof.
  intros HJ He Hd Hw. pose proof (fits _ _ HJ) as Hf.
  destruct (walk_ok (vt ev) ev (S ne) (o_done st) ev (start_inv _ _ _ HJ He Hd)) as (evs & done' & E & P & Q).
  { pose proof (undone_le (o_done st)). rewrite (j_len _ _ HJ) in H. lia. }
  destruct P as (path & Hh & Hc & Hn & Ha & Hl & Hm & lst & Hlst & Hend).
  destruct Hend as [[H1 H2]|(H1 & H2 & H3)]; [|congruence].
  unfold write_edge_and_vertex. rewrite E. cbn [bind]. set (b := mkBlock _ _ _).
  assert (Hbv : List.length (b_vs b) = S (List.length path)).
  { cbn [b b_vs]. rewrite H2, map_length, app_length. cbn. lia. }
  assert (HJ' : J (mkPl done' (o_off st + lenz (b_vs b)) (o_nb st + Z.of_nat (List.length path)) (o_blocks st ++ [b])) (paths ++ [path])).
  { apply (J_step _ _ _ b done' ev HJ Hh Hn Ha Hl Hm).
    - intros v Hv. apply Q; [exact Hv|congruence].
    - reflexivity.
    - apply (drawn_open path b lst Hc Hlst); [cbn [b b_vs]; now rewrite H2|reflexivity|exact H1].
    - rewrite Hbv; apply Nat.le_refl. }
  pose proof (fits _ _ HJ') as Hf'. cbn [o_nb o_off] in Hf'. unfold lenz in *.
  exists (mkPl done' (o_off st + lenz (b_vs b)) (o_nb st + Z.of_nat (List.length path)) (o_blocks st ++ [b])), (paths ++ [path]).
  assert (El : List.length evs = S (List.length path)) by (rewrite H2, app_length; cbn; lia).
  rewrite El. rewrite Hbv in Hf'. rewrite !add32_small by lia. split.
  { unfold lenz. rewrite Hbv. do 2 f_equal. lia. }
  split; [exact HJ'|]. cbn [o_done o_blocks]. split; [|split].
  - intros e H. rewrite Hm, H. reflexivity.
  - rewrite Hm. apply hd_path in Hh as (r & ->). cbn [map existsb]. rewrite Nat.eqb_refl. apply orb_true_r.
  - intros H. apply Forall_app. split; [exact H|]. constructor; [reflexivity|constructor].
Qed.
(** All the lines that begin at a vertex. *)
Lemma open_lines_ok v : deg v <> 2%nat -> forall st paths, J st paths ->
  exists st' paths', open_lines_at es around st v = Ok st' /\ J st' paths' /\
    (forall e, D (o_done st) e = true -> D (o_done st') e = true) /\
    (forall c, In c (around v) -> D (o_done st') (fst c) = true) /\
    (Forall (fun b => b_close b = None) (o_blocks st) -> Forall (fun b => b_close b = None) (o_blocks st')).
Proof.
  intros Hd. unfold open_lines_at.
  assert (K : forall l st paths, (forall c, In c l -> In c (around v)) -> J st paths ->
    exists st' paths', foldM (fun st ev => if is_done (o_done st) ev then Ok st else write_edge_and_vertex es around None st ev) l st = Ok st' /\
      J st' paths' /\ (forall e, D (o_done st) e = true -> D (o_done st') e = true) /\
      (forall c, In c l -> D (o_done st') (fst c) = true) /\
      (Forall (fun b => b_close b = None) (o_blocks st) -> Forall (fun b => b_close b = None) (o_blocks st'))).
  { induction l as [|c l IH]; intros st paths Hl HJ.
    - exists st, paths. cbn. repeat split; auto; try apply HJ; intros ? [].
    - cbn [foldM]. change (is_done (o_done st) c) with (D (o_done st) (fst c)).
      assert (Hc : In c (around v)) by (apply Hl; now left). assert (Hl' : forall x, In x l -> In x (around v)) by (intros; apply Hl; now right).
      destruct (D (o_done st) (fst c)) eqn:E.
      + destruct (IH st paths Hl' HJ) as (st' & paths' & R & HJ' & Hm & Ha & Hb). cbn [bind]. exists st', paths'. split; [exact R|].
        split; [exact HJ'|]. split; [exact Hm|]. split; [|exact Hb]. intros x [<- |Hx]; [now apply Hm|now apply Ha].
      + assert (Hlt : (fst c < ne)%nat /\ vt c = v) by (destruct c as [e s]; now apply around_lt in Hc). destruct Hlt as [Hlt Hv].
        destruct (open_step st paths c HJ Hlt E) as (st1 & paths1 & R1 & HJ1 & Hm1 & Hc1 & Hb1); [now rewrite Hv|].
        rewrite R1. cbn [bind]. destruct (IH st1 paths1 Hl' HJ1) as (st' & paths' & R & HJ' & Hm & Ha & Hb).
        exists st', paths'. split; [exact R|]. split; [exact HJ'|]. split; [auto|]. split; [|auto].
        intros x [<- |Hx]; [now apply Hm|now apply Ha]. }
  intros st paths HJ. exact (K (around v) st paths (fun c H => H) HJ).
Qed.
Lemma all_open_ok : forall vs, Forall (fun v => deg v <> 2%nat) vs -> forall st paths, J st paths ->
  exists st' paths', foldM (open_lines_at es around) vs st = Ok st' /\ J st' paths' /\
    (forall e, D (o_done st) e = true -> D (o_done st') e = true) /\
    (forall v c, In v vs -> In c (around v) -> D (o_done st') (fst c) = true) /\
    (Forall (fun b => b_close b = None) (o_blocks st) -> Forall (fun b => b_close b = None) (o_blocks st')).
Proof.
  induction vs as [|v vs IH]; intros Hd st paths HJ.
  - exists st, paths. cbn. split; [reflexivity|]. split; [exact HJ|]. split; [auto|]. split; [intros ? ? []|auto].
  - inversion Hd as [|? ? Hd1 Hd2]; subst. cbn [foldM].
    destruct (open_lines_ok v Hd1 st paths HJ) as (st1 & paths1 & R1 & HJ1 & Hm1 & Hc1 & Hb1). rewrite R1. cbn [bind].
    destruct (IH Hd2 st1 paths1 HJ1) as (st' & paths' & R & HJ' & Hm & Ha & Hb). exists st', paths'. split; [exact R|].
    split; [exact HJ'|]. split; [auto|]. split; [|auto]. intros x c [<- |Hx] Hc; [now apply Hm, Hc1|now apply (Ha x)].
Qed.
(** ** Closed lines *)
Definition loops_left (done : list bool) : Prop :=
  forall e s, (e < ne)%nat -> D done e = false -> deg (vt (e, s)) = 2%nat.
Lemma first_not_done_ok done k : (exists e, (e < List.length done)%nat /\ D done e = false) ->
  exists e, first_not_done k done = (k + e)%nat /\ (e < List.length done)%nat /\ D done e = false /\
    forall x, (x < e)%nat -> D done x = true.
Proof.
  revert k. induction done as [|d done IH]; intros k (e & He & Hd); [cbn in He; lia|]. cbn [first_not_done]. destruct d.
  - destruct e as [|e]; [discriminate|]. destruct (IH (S k)) as (x & H1 & H2 & H3 & H4); [exists e; split; [cbn in He; lia|exact Hd]|].
    exists (S x). rewrite H1. split; [lia|]. split; [cbn; lia|]. split; [exact H3|].
    intros [|y] Hy; [reflexivity|]. apply (H4 y). lia.
  - exists O. split; [lia|]. split; [cbn; lia|]. split; [reflexivity|lia].
Qed.
Lemma some_undone st paths : J st paths -> o_nb st <> lenz es -> exists e, (e < ne)%nat /\ D (o_done st) e = false.
Proof.
  intros HJ H. destruct (Forall_Exists_dec (fun e => D (o_done st) e = true) (fun e => bool_dec _ _) (seq 0 ne)) as [Ha|Hex].
  - exfalso. apply H. rewrite (j_nb _ _ HJ). unfold lenz. f_equal. apply Nat.le_antisymm.
    + exact (in_lt_length _ _ (j_nodup _ _ HJ) (j_lt _ _ HJ)).
    + rewrite <- (seq_length ne 0) at 1. apply NoDup_incl_length; [apply seq_NoDup|]. intros e He. apply (j_done _ _ HJ).
      rewrite Forall_forall in Ha. now apply Ha.
  - apply Exists_exists in Hex as (e & He & Hd). exists e. apply in_seq in He. split; [lia|]. now destruct (D (o_done st) e).
Qed.
(** What is joined to an edge not drawn yet is not drawn yet. *)
Lemma undone_linked done : all_even done -> loops_left done -> forall v x, linked v x ->
  (exists e s, end_of es e s = Some v /\ D done e = false) ->
  deg x = 2%nat /\ forall e s, end_of es e s = Some x -> D done e = false.
Proof.
  intros He Hloop. induction 1 as [v|v w x e1 s1 Hv Hw Hl IH]; intros (e' & s' & He' & Hd').
  - assert (Hdv : deg v = 2%nat) by (apply end_of_lt in He' as [Hlt <-]; now apply Hloop). split; [exact Hdv|].
    intros e s H. rewrite <- Hd'. apply (He v Hdv (e, s) (e', s')); now apply (co_around _ _ _ G).
  - apply IH. exists e1, (negb s1). split; [exact Hw|].
    assert (Hdv : deg v = 2%nat) by (apply end_of_lt in He' as [Hlt <-]; now apply Hloop).
    pose proof (He v Hdv (e1, s1) (e', s')) as Heq. cbn [fst] in Heq. rewrite Heq; [exact Hd'| |]; now apply (co_around _ _ _ G).
Qed.
Lemma first_undone done e : all_even done -> loops_left done -> (e < ne)%nat -> D done e = false -> (forall x, (x < e)%nat -> D done x = true) ->
  first_of_loop e (vt (e, false)).
Proof.
  intros He Hloop Hlt Hd Hmin. pose proof (end_vert e false Hlt) as Hv. split; [exact Hv|]. split.
  - intros x Hx. apply (undone_linked done He Hloop _ _ Hx). eauto.
  - intros e' (v & w & H1 & H2 & H3). destruct (undone_linked done He Hloop _ _ H3) as [_ K]; [eauto|]. specialize (K _ _ H2).
    destruct (Nat.le_gt_cases e e') as [|Hg]; [assumption|]. apply Hmin in Hg. congruence.
Qed.
Lemma loop_step st paths ev : J st paths -> (fst ev < ne)%nat -> D (o_done st) (fst ev) = false -> loops_left (o_done st) ->
  first_of_loop (fst ev) (vt ev) ->
  exists st', write_edge_and_vertex es around (Some (add32 (vt ev) 1)) st ev = Ok st' /\
    let st1 := mkPl (o_done st') (o_off st') (add32 (o_nb st') 1) (o_blocks st') in
    exists path, J st1 (paths ++ [path]) /\ (forall e, D (o_done st) e = true -> D (o_done st') e = true) /\
    o_nb st < o_nb st1 /\ hd_error path = Some ev /\ chained path /\
    (forall e, D (o_done st') e = true -> D (o_done st) e = true \/ In e (map fst path)) /\
    o_blocks st' = o_blocks st ++ [mkBlock (o_off st) (map vt path) (Some (add32 (vt ev) 1))].
Proof.
  intros HJ He Hd Hloop Hfirst. pose proof (fits _ _ HJ) as Hf.
  destruct (walk_ok (vt ev) ev (S ne) (o_done st) ev (start_inv _ _ _ HJ He Hd)) as (evs & done' & E & P & Q).
  { pose proof (undone_le (o_done st)). rewrite (j_len _ _ HJ) in H. lia. }
  destruct P as (path & Hh & Hc & Hn & Ha & Hl & Hm & lst & Hlst & Hend).
  pose proof Ha as Ha'. rewrite Forall_forall in Ha'. pose proof (nth_error_In _ _ Hlst) as Hlin. destruct (Ha' lst Hlin) as [Hl1 Hl2].
  destruct Hend as [[H1 _]|(H1 & H2 & H3)].
  { exfalso. apply H1. destruct lst as [el sl]. unfold flip. cbn [fst snd]. now apply Hloop. }
  subst evs. unfold write_edge_and_vertex. rewrite E. cbn [bind]. set (b := mkBlock _ _ _).
  assert (Hbv : List.length (b_vs b) = List.length path) by (cbn [b b_vs]; now rewrite map_length).
  assert (Hmem : forall e, In e (map fst path) -> D done' e = true).
  { intros e Hi. rewrite Hm. apply orb_true_iff. right. now apply existsb_in. }
  assert (Heven : all_even done').
  { intros v Hv. destruct (Z.eq_dec v (vt ev)) as [-> |Hne]; [|now apply Q].
    assert (Hi : In ev (around (vt ev))) by now apply ev_in.
    destruct (two_ends (vt ev) ev Hv Hi) as (c & Hcn & Hci & Honly & _).
    apply hd_path in Hh as (r & Hp).
    assert (Hfl : In (flip lst) (around (vt ev))) by (rewrite <- H3; now apply flip_in).
    assert (De : D done' (fst ev) = true) by (apply Hmem; subst path; now left).
    assert (Dc : D done' (fst c) = true).
    { destruct (Honly (flip lst) Hfl) as [Hx| <-]; [|apply Hmem; apply (in_map fst) in Hlin; exact Hlin]. exfalso.
      assert (Hsame : fst lst = fst ev) by (rewrite <- Hx; reflexivity). subst path. cbn [map] in Hn. apply NoDup_cons_iff in Hn as [Hn1 Hn2].
      destruct Hlin as [Hle|Hle]; [|apply Hn1; rewrite <- Hsame; now apply in_map].
      rewrite <- Hle in Hx. now apply flip_neq in Hx. }
    assert (K : forall x, In x (around (vt ev)) -> D done' (fst x) = true) by (intros x Hx; destruct (Honly x Hx); subst; assumption).
    intros x y Hx Hy. now rewrite (K x Hx), (K y Hy). }
  assert (HJ' : J (mkPl done' (o_off st + lenz (b_vs b)) (o_nb st + Z.of_nat (List.length path)) (o_blocks st ++ [b])) (paths ++ [path])).
  { apply (J_step _ _ _ b done' ev HJ Hh Hn Ha Hl Hm).
    - exact Heven.
    - reflexivity.
    - apply (drawn_loop path b ev lst Hc Hlst Hh H3); [reflexivity|reflexivity|exact Hfirst].
    - rewrite Hbv; apply Nat.le_succ_diag_r. }
  pose proof (fits _ _ HJ') as Hf'. cbn [o_nb o_off] in Hf'. unfold lenz in *. rewrite Hbv in *.
  assert (Hpos : (0 < List.length path)%nat) by (apply hd_path in Hh as (r & ->); cbn; lia).
  eexists. split; [reflexivity|]. cbn [o_done o_off o_nb o_blocks]. exists path.
  rewrite !add32_small by (rewrite ?add32_small by lia; lia).
  replace (o_nb st + (Z.of_nat (List.length path) - 1) + 1) with (o_nb st + Z.of_nat (List.length path)) by lia.
  split; [exact HJ'|]. split; [intros e H; now rewrite Hm, H|]. split; [lia|]. split; [exact Hh|]. split; [exact Hc|].
  split; [|reflexivity]. intros e H. rewrite Hm in H. apply orb_true_iff in H as [H|H]; [now left|right; now apply existsb_in].
Qed.
Lemma closed_lines_ok : forall fuel st paths, J st paths -> loops_left (o_done st) -> (Z.to_nat (lenz es - o_nb st) <= fuel)%nat ->
  exists st' paths', closed_lines es around fuel st = Ok st' /\ J st' paths' /\ o_nb st' = lenz es.
Proof.
  induction fuel as [|f IH]; intros st paths HJ Hloop Hf; pose proof (fits _ _ HJ) as Hb; cbn [closed_lines].
  - destruct (o_nb st =? lenz es) eqn:E; [|apply Z.eqb_neq in E; unfold lenz in *; lia]. apply Z.eqb_eq in E. eauto.
  - destruct (o_nb st =? lenz es) eqn:E; [apply Z.eqb_eq in E; eauto|]. apply Z.eqb_neq in E.
    destruct (some_undone _ _ HJ E) as (e0 & He0 & Hd0).
    destruct (first_not_done_ok (o_done st) 0) as (e & Hfe & He & Hde & Hmin); [exists e0; rewrite (j_len _ _ HJ); auto|].
    rewrite (j_len _ _ HJ) in He. cbv zeta. rewrite Hfe. cbn [Nat.add].
    destruct (loop_step st paths (e, false) HJ He Hde Hloop (first_undone _ e (j_even _ _ HJ) Hloop He Hde Hmin)) as (st' & R & path & HJ' & Hm & Hlt & _). rewrite R. cbn [bind].
    apply (IH _ (paths ++ [path]) HJ'); cbn [o_done o_nb] in *.
    + intros x s Hx Hdx. apply Hloop; [exact Hx|]. destruct (D (o_done st) x) eqn:Ex; [|reflexivity]. apply Hm in Ex. congruence.
    + unfold lenz in *. lia.
Qed.
Lemma J_start : J (mkPl (repeat false ne) 1 0 []) [].
Proof.
  assert (Hr : forall e, D (repeat false ne) e = false).
  { intros e. unfold D. destruct (nth_in_or_default e (repeat false ne) false) as [H|H]; [now apply repeat_spec in H|exact H]. }
  constructor; cbn [o_done o_off o_nb o_blocks edges_of List.concat map List.length all_vs flat_map lenz numbered].
  - apply repeat_length.
  - constructor.
  - constructor.
  - intros e. rewrite Hr. split; [discriminate|intros []].
  - reflexivity.
  - reflexivity.
  - unfold lenz. cbn. lia.
  - exact I.
  - constructor.
  - intros v _ a b _ _. now rewrite !Hr.
Qed.
Lemma in_start_points v : In v (start_points around nv) <-> 0 <= v < Z.of_nat nv /\ deg v <> 2%nat.
Proof.
  unfold start_points. rewrite filter_In, in_rangez. unfold deg. rewrite negb_true_iff, Nat.eqb_neq. split; intros [H1 H2]; split; auto; lia.
Qed.
Definition no_loop : Prop := forall e s v, end_of es e s = Some v -> exists x, linked v x /\ deg x <> 2%nat.
(** A curve made of closed loops only, whose edges are numbered loop after loop, the first edge of every loop beginning at
    the vertex with the number of that edge. *)
Definition tidy_loops : Prop :=
  (forall e s v, end_of es e s = Some v -> deg v = 2%nat) /\
  (forall e1 e2 e3, (e1 < e2 < e3)%nat -> same_loop e1 e3 -> same_loop e1 e2) /\
  (forall e v, end_of es e false = Some v -> (forall e', same_loop e e' -> (e <= e')%nat) -> v = Z.of_nat e).
(** The line is open, or its closing segment goes back to its own first vertex line. *)
Definition own_close (b : block) : Prop := b_close b = None \/ b_close b = Some (b_off b).
Lemma linked_trans v w x : linked v w -> linked w x -> linked v x.
Proof. induction 1; [auto|]. intros. eapply linked_step; eauto. Qed.
Lemma linked_edge ev : (fst ev < ne)%nat -> linked (vt ev) (vt (flip ev)).
Proof.
  destruct ev as [e s]. intros H. apply (linked_step _ (vt (e, negb s)) _ e s); [now apply end_vert|now apply end_vert|constructor].
Qed.
Lemma chained_linked path : chained path -> Forall (fun a => (fst a < ne)%nat) path -> forall ev, hd_error path = Some ev ->
  forall a, In a path -> linked (vt ev) (vt a).
Proof.
  induction path as [|b path IH]; intros Hc Hl ev Hh a Ha; [contradiction|]. injection Hh as ->.
  destruct Ha as [<- |Ha]; [constructor|]. destruct path as [|c path]; [contradiction|]. destruct Hc as [H1 H2].
  inversion Hl as [|? ? L1 L2]; subst. apply linked_trans with (vt (flip ev)); [now apply linked_edge|]. rewrite <- H1.
  now apply IH.
Qed.
Lemma path_loop path e : chained path -> Forall (fun a => (fst a < ne)%nat) path -> hd_error path = Some (e, false) ->
  forall d, In d (map fst path) -> same_loop e d.
Proof.
  intros Hc Hl Hh d Hd. apply in_map_iff in Hd as (a & <- & Ha). pose proof (chained_linked path Hc Hl _ Hh a Ha) as L.
  rewrite Forall_forall in Hl. pose proof (Hl a Ha) as La.
  assert (Le : (e < ne)%nat) by (apply hd_path in Hh as (r & ->); apply (Hl (e, false)); now left).
  exists (vt (e, false)), (vt (fst a, false)). split; [now apply end_vert|]. split; [now apply end_vert|].
  destruct a as [x [|]]; cbn [fst] in *; [|exact L]. apply linked_trans with (vt (x, true)); [exact L|]. exact (linked_edge (x, true) La).
Qed.
Lemma done_linked done : (forall e s v, end_of es e s = Some v -> deg v = 2%nat) -> all_even done -> forall v x, linked v x ->
  forall a s b t, end_of es a s = Some v -> end_of es b t = Some x -> D done a = D done b.
Proof.
  intros H2 He v x Hl. induction Hl as [v|v w x e s Hv Hw Hl IH]; intros a s' b t Ha Hb.
  - apply (He v (H2 _ _ _ Ha) (a, s') (b, t)); now apply (co_around _ _ _ G).
  - rewrite <- (IH e (negb s) b t Hw Hb). apply (He v (H2 _ _ _ Ha) (a, s') (e, s)); now apply (co_around _ _ _ G).
Qed.
Record L (st : pl_state) (paths : list (list edge_vertex)) : Prop := {
  l_own : Forall own_close (o_blocks st);
  l_vs : lenz (all_vs (o_blocks st)) = Z.of_nat (List.length (edges_of paths));
  l_heads : forall d, D (o_done st) d = true -> exists e', same_loop e' d /\ forall x, (x < ne)%nat -> D (o_done st) x = false -> (e' < x)%nat
}.
Lemma closed_lines_tidy : tidy_loops -> forall fuel st paths st', J st paths -> L st paths ->
  closed_lines es around fuel st = Ok st' -> Forall own_close (o_blocks st').
Proof.
  intros (T1 & T2 & T3). assert (Hloop : forall done, loops_left done).
  { intros done e s He _. apply (T1 e s). now apply end_vert. }
  induction fuel as [|f IH]; intros st paths st' HJ HL; pose proof (fits _ _ HJ) as Hb; cbn [closed_lines].
  - destruct (o_nb st =? lenz es); [|discriminate]. intros H. injection H as <-. apply (l_own _ _ HL).
  - destruct (o_nb st =? lenz es) eqn:E; [intros H; injection H as <-; apply (l_own _ _ HL)|]. apply Z.eqb_neq in E.
    destruct (some_undone _ _ HJ E) as (e0 & He0 & Hd0).
    destruct (first_not_done_ok (o_done st) 0) as (e & Hfe & He & Hde & Hmin); [exists e0; rewrite (j_len _ _ HJ); auto|].
    rewrite (j_len _ _ HJ) in He. cbv zeta. rewrite Hfe. cbn [Nat.add].
    destruct (loop_step st paths (e, false) HJ He Hde (Hloop _) (first_undone _ e (j_even _ _ HJ) (Hloop _) He Hde Hmin)) as (st1 & R & path & HJ' & Hm & Hlt & Hh & Hc & Hnew & Hbl). rewrite R. cbn [bind].
    intros H. apply (IH _ (paths ++ [path]) _ HJ') in H; [exact H|]. clear H IH.
    (* an edge linked to [e] is not done *)
    assert (Hcl : forall x, same_loop e x -> D (o_done st) x = false).
    { intros x (v & w & Hv & Hw & Hl). rewrite <- Hde. symmetry. exact (done_linked _ T1 (j_even _ _ HJ) v w Hl e false x false Hv Hw). }
    (* the edges done are those before [e] *)
    assert (Hdone : forall d, D (o_done st) d = true <-> (d < e)%nat).
    { intros d. split; [|apply Hmin]. intros Hd. destruct (l_heads _ _ HL d Hd) as (e' & Hs & Hx). pose proof (Hx e He Hde) as He'.
      destruct (Nat.lt_trichotomy d e) as [?|[-> |Hgt]]; [assumption|congruence|]. exfalso.
      destruct (T2 e' e d (conj He' Hgt) Hs) as (v & w & Hv & Hw & Hl).
      pose proof (done_linked _ T1 (j_even _ _ HJ) v w Hl e' false e false Hv Hw) as Hq. rewrite Hde in Hq.
      rewrite (Hmin e' He') in Hq. discriminate. }
    assert (Hcount : List.length (edges_of paths) = e).
    { rewrite <- (seq_length e 0). apply Permutation_length. apply NoDup_Permutation; [apply (j_nodup _ _ HJ)|apply seq_NoDup|].
      intros x. rewrite <- (j_done _ _ HJ), Hdone, in_seq. lia. }
    assert (Hv : vt (e, false) = Z.of_nat e).
    { apply (T3 e); [now apply end_vert|]. intros x Hx. apply Hcl in Hx. destruct (Nat.le_gt_cases e x) as [?|Hlt']; [assumption|].
      apply Hmin in Hlt'. congruence. }
    assert (Hoff : o_off st = 1 + Z.of_nat e) by (rewrite (j_off _ _ HJ), (l_vs _ _ HL), Hcount; reflexivity).
    assert (Hpl : Forall (fun a => (fst a < ne)%nat) path).
    { pose proof (j_lt _ _ HJ') as Hl. rewrite edges_of_app in Hl. apply Forall_app in Hl as [_ Hl]. now apply Forall_map in Hl. }
    constructor; cbn [o_done o_blocks].
    + rewrite Hbl. apply Forall_app. split; [apply (l_own _ _ HL)|]. constructor; [|constructor]. right. cbn [b_close b_off].
      f_equal. rewrite Hv, Hoff. rewrite add32_small by lia. lia.
    + rewrite Hbl, all_vs_app, edges_of_app. cbn [b_vs]. pose proof (l_vs _ _ HL) as Hq. unfold lenz in *.
      rewrite !app_length, !map_length. lia.
    + intros d Hd. destruct (Hnew d Hd) as [Ho|Hp].
      * destruct (l_heads _ _ HL d Ho) as (e' & Hs & Hx). exists e'. split; [exact Hs|]. intros x Hx1 Hx2. apply Hx; [exact Hx1|].
        destruct (D (o_done st) x) eqn:Ex; [|reflexivity]. apply Hm in Ex. congruence.
      * exists e. split; [now apply (path_loop path e Hc Hpl Hh)|]. intros x Hx1 Hx2.
        destruct (Nat.lt_trichotomy e x) as [?|[<- |Hlt']]; [assumption| |apply Hmin, Hm in Hlt'; congruence].
        exfalso. assert (Di : D (o_done st1) e = true).
        { apply (j_done _ _ HJ'). rewrite edges_of_app. apply in_or_app. right. apply hd_path in Hh as (r & ->). now left. }
        congruence.
Qed.
Lemma no_open_lines vs st : (forall v, In v vs -> around v = []) -> foldM (open_lines_at es around) vs st = Ok st.
Proof.
  induction vs as [|v vs IH]; intros H; [reflexivity|]. cbn [foldM]. unfold open_lines_at at 1. rewrite (H v) by now left.
  cbn [foldM bind]. apply IH. intros x Hx. apply H. now right.
Qed.

Theorem write_ilines_ok : exists paths bs, write_ilines es around nv = Ok bs /\ Forall2 drawn paths bs /\ numbered 1 bs /\
  Permutation (edges_of paths) (seq 0 ne) /\ lenz (all_vs bs) <= 2 * Z.of_nat ne /\
  (no_loop -> Forall (fun b => b_close b = None) bs) /\ (tidy_loops -> Forall own_close bs).
Proof.
  unfold write_ilines.
  destruct (all_open_ok (start_points around nv)) with (st := mkPl (repeat false ne) 1 0 []) (paths := @nil (list edge_vertex))
    as (st1 & paths1 & R1 & HJ1 & _ & Hall & Hcl).
  { apply Forall_forall. intros v Hv. now apply in_start_points in Hv. }
  { apply J_start. }
  rewrite R1. cbn [bind].
  assert (Hloop : loops_left (o_done st1)).
  { intros e s He Hd. destruct (Nat.eq_dec (deg (vt (e, s))) 2) as [|Hn]; [assumption|]. exfalso.
    pose proof (end_vert e s He) as Hend. assert (Hin : In (e, s) (around (vt (e, s)))) by now apply in_around.
    cut (D (o_done st1) (fst (e, s)) = true); [cbn [fst]; congruence|]. apply (Hall (vt (e, s))); [|exact Hin]. apply in_start_points. split; [|exact Hn].
    exact (co_ends _ _ _ G _ _ _ Hend). }
  destruct (closed_lines_ok (S ne) st1 paths1 HJ1 Hloop) as (st2 & paths2 & R2 & HJ2 & Hnb).
  { pose proof (fits _ _ HJ1). unfold lenz. lia. }
  rewrite R2. cbn [bind]. exists paths2, (o_blocks st2). split; [reflexivity|]. split; [apply (j_drawn _ _ HJ2)|].
  split; [apply (j_num _ _ HJ2)|].
  assert (Hlen : List.length (edges_of paths2) = ne) by (pose proof (j_nb _ _ HJ2); unfold lenz in *; lia).
  split; [|split; [|split]].
  - apply NoDup_Permutation_bis.
    + apply (j_nodup _ _ HJ2).
    + rewrite seq_length. lia.
    + intros e He. apply in_seq. pose proof (j_lt _ _ HJ2) as Hlt. rewrite Forall_forall in Hlt. specialize (Hlt e He). lia.
  - pose proof (j_vs _ _ HJ2). rewrite Hlen in H. exact H.
  - intros Hno. specialize (Hcl ltac:(constructor)).
    assert (E : o_nb st1 = lenz es).
    { destruct (Z.eq_dec (o_nb st1) (lenz es)) as [|Hn]; [assumption|]. exfalso.
      destruct (some_undone _ _ HJ1 Hn) as (e & He & Hd).
      (* every vertex linked to an undone edge has two edges, not done *)
      assert (K : forall v x, linked v x -> (exists e s, end_of es e s = Some v /\ D (o_done st1) e = false) -> deg x = 2%nat).
      { induction 1 as [v|v w x e1 s1 Hv Hw Hl IH]; intros (e' & s' & He' & Hd').
        - apply end_of_lt in He' as [Hlt <-]. now apply Hloop.
        - apply IH. exists e1, (negb s1). split; [exact Hw|].
          assert (Hdv : deg v = 2%nat) by (apply end_of_lt in He' as [Hlt <-]; now apply Hloop).
          pose proof (j_even _ _ HJ1 v Hdv (e1, s1) (e', s')) as Heq. cbn [fst] in Heq. rewrite Heq; [exact Hd'| |]; now apply (co_around _ _ _ G). }
      destruct (Hno e false (vt (e, false)) (end_vert e false He)) as (x & Hlx & Hdx). apply Hdx.
      apply (K _ _ Hlx). exists e, false. split; [now apply end_vert|exact Hd]. }
    assert (R3 : closed_lines es around (S ne) st1 = Ok st1) by (cbn [closed_lines]; rewrite E, Z.eqb_refl; reflexivity).
    rewrite R3 in R2. injection R2 as <-. exact Hcl.
  - intros T. rewrite no_open_lines in R1.
    2:{ intros v Hv. apply in_start_points in Hv as [_ Hv]. destruct (around v) as [|[e s] r] eqn:E; [reflexivity|]. exfalso.
        apply Hv. apply (proj1 T e s). apply (co_around _ _ _ G). rewrite E. now left. }
    assert (E : st1 = mkPl (repeat false ne) 1 0 []) by congruence. rewrite E in R2.
    apply (closed_lines_tidy T _ _ [] _ J_start) in R2; [exact R2|]. constructor; cbn [o_done o_blocks]; [constructor|reflexivity|].
    intros d Hd. exfalso. apply (j_done _ _ J_start) in Hd. destruct Hd.
Qed.

(** ** The segments of the file *)
Definition segs (b : block) : list (Z * Z) :=
  map (fun s => (b_off b + s, b_off b + s + 1)) (rangez 0 (List.length (b_vs b) - 1)) ++
  match b_close b with Some c => [(b_off b + lenz (b_vs b) - 1, c)] | None => [] end.
(** The numbers [ab] designate the ends of the edge [ev]; [vs] are the vertices in the order of the file.  When
    [loop] holds, the second one may be the number of the vertex in the curve instead. *)
Definition seg_ok (vs : list Z) (loop : Prop) (ab : Z * Z) (ev : edge_vertex) : Prop :=
  1 <= fst ab /\ nth_error vs (Z.to_nat (fst ab - 1)) = Some (vt ev) /\
  ((1 <= snd ab /\ nth_error vs (Z.to_nat (snd ab - 1)) = Some (vt (flip ev))) \/
   (loop /\ snd ab = add32 (vt (flip ev)) 1)).
Lemma Forall2_nth {A B} (R : A -> B -> Prop) l l' : List.length l = List.length l' ->
  (forall i a b, nth_error l i = Some a -> nth_error l' i = Some b -> R a b) -> Forall2 R l l'.
Proof.
  revert l'. induction l as [|a l IH]; intros [|b l'] H1 H2; try discriminate; constructor.
  - exact (H2 O a b eq_refl eq_refl).
  - apply IH; [now injection H1|]. intros i x y Hx Hy. exact (H2 (S i) x y Hx Hy).
Qed.
Lemma chained_nth path : chained path -> forall i a b, nth_error path i = Some a -> nth_error path (S i) = Some b -> vt b = vt (flip a).
Proof.
  induction path as [|p path IH]; intros Hc i a b Ha Hb; [now destruct i|]. destruct path as [|q path]; [now destruct i|].
  destruct Hc as [H1 H2]. destruct i as [|i].
  - cbn in Ha, Hb. now injection Ha as <-; injection Hb as <-.
  - exact (IH H2 i a b Ha Hb).
Qed.
Lemma nth_mid (pre post l : list Z) i v : nth_error l i = Some v -> nth_error (pre ++ l ++ post) (List.length pre + i) = Some v.
Proof.
  intros H. rewrite nth_error_app2 by lia. replace (List.length pre + i - List.length pre)%nat with i by lia.
  rewrite nth_error_app1; [exact H|]. apply nth_error_Some. congruence.
Qed.
Lemma block_segs pre post b path : drawn path b -> b_off b = 1 + lenz pre ->
  Forall2 (seg_ok (pre ++ b_vs b ++ post) (~ own_close b)) (segs b) path.
Proof.
  intros Hd Ho. assert (Hlen : (0 < List.length path)%nat).
  { destruct Hd as [lst _ H _ _ _|ev lst _ H _ _ _ _ _]; destruct path; try discriminate; cbn; lia. }
  assert (Hin : forall i a, nth_error path i = Some a -> nth_error (b_vs b) i = Some (vt a)).
  { intros i a Ha. assert (Hi : (i < List.length path)%nat) by (apply nth_error_Some; congruence).
    destruct Hd as [lst _ H E _ _|ev lst _ H _ _ E _ _]; rewrite E, nth_error_map; [rewrite nth_error_app1 by exact Hi|]; now rewrite Ha. }
  unfold lenz in *. apply Forall2_nth.
  - unfold segs. rewrite app_length, map_length, rangez_length.
    destruct Hd as [lst _ H E Ec _|ev lst _ H _ _ E Ec _]; rewrite E, Ec, map_length, ?app_length; cbn; lia.
  - intros i [a c] ev' Hs He. unfold segs in Hs. assert (Hi : (i < List.length path)%nat) by (apply nth_error_Some; congruence).
    destruct (Nat.lt_ge_cases i (List.length (b_vs b) - 1)) as [Hlt|Hge].
    + rewrite nth_error_app1 in Hs by now rewrite map_length, rangez_length.
      rewrite nth_error_map, rangez_nth in Hs by exact Hlt. cbn [option_map] in Hs. injection Hs as <- <-.
      unfold seg_ok. cbn [fst snd]. split; [lia|]. split; [|left; split; [lia|]].
      * replace (Z.to_nat (b_off b + Z.of_nat i - 1)) with (List.length pre + i)%nat by lia. apply nth_mid. now apply Hin.
      * replace (Z.to_nat (b_off b + Z.of_nat i + 1 - 1)) with (List.length pre + S i)%nat by lia. apply nth_mid.
        destruct (nth_error path (S i)) as [nx|] eqn:En.
        -- rewrite (Hin _ _ En). f_equal. destruct Hd as [lst Hc _ _ _ _|ev lst Hc _ _ _ _ _ _]; exact (chained_nth path Hc i ev' nx He En).
        -- apply nth_error_None in En. destruct Hd as [lst Hc H E _ _|ev lst Hc H _ _ E _ _]; rewrite E, map_length, ?app_length in Hlt; cbn in Hlt; [|lia].
           assert (Eq : i = (List.length path - 1)%nat) by lia. rewrite E, nth_error_map, nth_error_app2 by lia.
           replace (S i - List.length path)%nat with O by lia. cbn. rewrite Eq, H in He. now injection He as <-.
    + destruct Hd as [lst Hc H E Ec _|ev lst Hc H Hh Hv E Ec _]; rewrite E, map_length, ?app_length in Hge; cbn in Hge; [lia|].
      rewrite nth_error_app2 in Hs by (rewrite map_length, rangez_length, E, map_length; lia).
      rewrite map_length, rangez_length, Ec in Hs. assert (Eq : i = (List.length path - 1)%nat) by lia.
      replace (i - (List.length (b_vs b) - 1))%nat with O in Hs by (rewrite E, map_length; lia). cbn [nth_error] in Hs. injection Hs as <- <-.
      assert (El : ev' = lst) by (rewrite Eq, H in He; now injection He). subst ev'.
      assert (Lb : List.length (b_vs b) = List.length path) by (rewrite E; apply map_length).
      unfold seg_ok, lenz. cbn [fst snd]. split; [lia|]. split.
      * replace (Z.to_nat (b_off b + Z.of_nat (List.length (b_vs b)) - 1 - 1)) with (List.length pre + i)%nat by lia.
        apply nth_mid. now apply Hin.
      * destruct (Z.eq_dec (add32 (vt ev) 1) (b_off b)) as [Eo|No].
        -- left. rewrite Eo. split; [lia|]. replace (Z.to_nat (b_off b - 1)) with (List.length pre + 0)%nat by lia.
           apply nth_mid. rewrite Hv. apply Hin. apply hd_path in Hh as (r & ->). reflexivity.
        -- right. split; [|now rewrite Hv]. intros [Hn|Hn]; congruence.
Qed.
Lemma seg_ok_weak vs (P Q : Prop) ab ev : (P -> Q) -> seg_ok vs P ab ev -> seg_ok vs Q ab ev.
Proof. intros H (H1 & H2 & H3). split; [exact H1|]. split; [exact H2|]. destruct H3 as [H3|[H3 H4]]; auto. Qed.
Lemma Forall2_imp {A B} (P Q : A -> B -> Prop) l l' : (forall a b, P a b -> Q a b) -> Forall2 P l l' -> Forall2 Q l l'.
Proof. intros H. induction 1; constructor; auto. Qed.
Lemma blocks_segs paths : forall bs pre post, Forall2 drawn paths bs -> numbered (1 + lenz pre) bs ->
  Forall2 (seg_ok (pre ++ all_vs bs ++ post) (Exists (fun b => ~ own_close b) bs)) (flat_map segs bs) (List.concat paths).
Proof.
  induction paths as [|p paths IH]; intros bs pre post Hd Hn; inversion Hd as [|? b ? bs' Hd1 Hd2]; subst; [constructor|].
  cbn [numbered] in Hn. destruct Hn as [Hn1 Hn2]. cbn [flat_map List.concat]. unfold all_vs. cbn [flat_map]. fold (all_vs bs').
  apply Forall2_app.
  - pose proof (block_segs pre (all_vs bs' ++ post) b p Hd1 Hn1) as H. rewrite <- app_assoc.
    eapply Forall2_imp; [|exact H]. intros ab ev. apply seg_ok_weak. intros Hx. now apply Exists_cons_hd.
  - specialize (IH bs' (pre ++ b_vs b) post Hd2). rewrite <- !app_assoc in *.
    assert (Hn3 : numbered (1 + lenz (pre ++ b_vs b)) bs').
    { unfold lenz in *. rewrite app_length. replace (1 + Z.of_nat (List.length pre + List.length (b_vs b))) with (1 + Z.of_nat (List.length pre) + Z.of_nat (List.length (b_vs b))) by lia. exact Hn2. }
    specialize (IH Hn3). eapply Forall2_imp; [|exact IH]. intros ab ev. apply seg_ok_weak. intros Hx. now apply Exists_cons_tl.
Qed.
End Walk.
