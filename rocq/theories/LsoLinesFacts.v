(** * Facts about the corners and lines of a loaded .lso model (LsoLines.v) *)
From Coq Require Import List ZArith Bool Lia Permutation.
From Verif Require Import Base GocadModel LsoFacts MlLines MlLinesFacts LsoLines.
Import ListNotations.
Local Open Scope list_scope.
Local Open Scope Z_scope.

(** ** Border loops *)

(** A chain of edges from [a] to [b] *)
Fixpoint chain (a : Z) (l : list edge) (b : Z) : Prop :=
  match l with [] => a = b | e :: t => fst e = a /\ chain (snd e) t b end.
Lemma chain_app a l1 l2 b : chain a (l1 ++ l2) b <-> exists m, chain a l1 m /\ chain m l2 b.
Proof.
  revert a. induction l1 as [|e t IH]; intros a; cbn [app chain].
  - split; [intros H; exists a; auto|intros [m [-> H]]; assumption].
  - rewrite IH. split; [intros [E [m [H1 H2]]]; exists m; auto|intros [m [[E H1] H2]]; eauto].
Qed.
Lemma chain_mid a p x y q b : chain a (p ++ x :: y :: q) b -> snd x = fst y.
Proof. rewrite chain_app. intros [m [_ [_ [H _]]]]. auto. Qed.
Lemma chain_end a p x b : chain a (p ++ [x]) b -> snd x = b.
Proof. rewrite chain_app. intros [m [_ [_ H]]]. exact H. Qed.

Section Facts.
Variable P : Type.
Notation BSurf := (BSurf P).
Implicit Types (s : BSurf) (ss : list BSurf) (cs : corners P) (e : edge).

(** What OpenGeode ensures of the border of a surface whose vertices all have a unique vertex *)
Record well_bordered s : Prop := {
  wb_points : List.length (bs_points P s) = List.length (bs_uv P s);
  wb_border : forall e, In e (bs_border P s) <-> In e (concat (bs_loops P s));
  wb_once : NoDup (concat (bs_loops P s));
  wb_loops : forall l, In l (bs_loops P s) -> exists v, chain v l v;
  wb_range : forall e, In e (concat (bs_loops P s)) ->
    0 <= fst e < lenz (bs_uv P s) /\ 0 <= snd e < lenz (bs_uv P s)
}.

Lemma NoDup_concat_in {A} (L : list (list A)) l : NoDup (concat L) -> In l L -> NoDup l.
Proof.
  induction L as [|k L IH]; [contradiction|]. cbn [concat]. intros H [->|Hi]; [now apply NoDup_app_l in H|].
  apply IH; [now apply NoDup_app_r in H|assumption].
Qed.
Lemma in_concat_len {A} (L : list (list A)) l : In l L -> (List.length l <= List.length (concat L))%nat.
Proof.
  induction L as [|k L IH]; [contradiction|]. cbn [concat]. rewrite app_length. intros [->|Hi]; [lia|]. specialize (IH Hi). lia.
Qed.

(** The loop of an edge, starting from this edge *)
Lemma turn s e l : well_bordered s -> In l (bs_loops P s) -> In e l ->
  exists t, (forall x, In x (e :: t) <-> In x l) /\ (List.length (e :: t) <= List.length (concat (bs_loops P s)))%nat /\
    (forall p x y q, e :: t = p ++ x :: y :: q -> next_border P s x = Ok y /\ snd x = fst y) /\
    (forall p x, e :: t = p ++ [x] -> next_border P s x = Ok e /\ snd x = fst e).
Proof.
  intros W Hl He. pose proof (NoDup_concat_in _ _ (wb_once _ W) Hl) as ND.
  destruct (wb_loops _ W l Hl) as [v C]. apply in_split in He as [a [b ->]]. exists (b ++ a).
  assert (N : forall x y, follow_loop (a ++ e :: b) x = Some y -> next_border P s x = Ok y).
  { intros x y H. exact (follow_loops_ok _ _ _ _ (wb_once _ W) Hl H). }
  apply chain_app in C as [m [C1 C2]].
  assert (C : chain m ((e :: b) ++ a) m) by (apply chain_app; exists v; auto).
  assert (Em : m = fst e) by (destruct C as [<- _]; reflexivity).
  split; [|split; [|split]].
  - intros x. change (e :: b ++ a) with ((e :: b) ++ a). rewrite !in_app_iff. tauto.
  - pose proof (in_concat_len _ _ Hl) as H. rewrite app_length in H. cbn [List.length] in *. rewrite app_length. lia.
  - intros p x y q E. split; [|exact (chain_mid m p x y q m ltac:(rewrite <- E; exact C))].
    apply N. exact (follow_rot a (e :: b) p x y q ND E).
  - intros p x E. split; [|rewrite <- Em; apply (chain_end m p x m); rewrite <- E; exact C].
    apply N. destruct p as [|y p].
    + cbn [app] in E. injection E as <- E. apply app_eq_nil in E as [-> ->]. cbn. now rewrite edge_eqb_refl.
    + injection E as <- E. destruct a as [|z a].
      * rewrite app_nil_r in E. subst b. cbn [app follow_loop]. rewrite app_comm_cons. apply follow_last. exact ND.
      * assert (Ex : exists a', z :: a = a' ++ [x]).
        { destruct (exists_last (l := z :: a)) as [a' [x' E']]; [discriminate|]. rewrite E' in E. rewrite app_assoc in E.
          apply app_inj_tail in E as [_ ->]. eauto. }
        destruct Ex as [a' E']. rewrite E' in *. rewrite <- app_assoc in ND |- *. cbn [app] in *.
        assert (G : forall f, follow f (a' ++ x :: e :: b) x = Some e) by (intros f; now apply follow_mid).
        unfold follow_loop. destruct (a' ++ x :: e :: b) eqn:X; [destruct a'; discriminate|]. apply G.
Qed.

Lemma next_of s e : well_bordered s -> In e (concat (bs_loops P s)) ->
  exists e', next_border P s e = Ok e' /\ In e' (concat (bs_loops P s)) /\ snd e = fst e'.
Proof.
  intros W He. apply in_concat in He as [l [Hl He]]. destruct (turn s e l W Hl He) as [t [Hin [_ [Hm Hz]]]].
  assert (I : forall x, In x (e :: t) -> In x (concat (bs_loops P s))) by (intros x Hx; apply in_concat; exists l; split; [assumption|now apply Hin]).
  destruct t as [|e' t].
  - destruct (Hz [] e eq_refl) as [H1 H2]. exists e. split; [assumption|]. split; [apply I; now left|assumption].
  - destruct (Hm [] e e' t eq_refl) as [H1 H2]. exists e'. split; [assumption|]. split; [apply I; right; now left|assumption].
Qed.

Lemma uv_of s e : well_bordered s -> In e (concat (bs_loops P s)) ->
  exists a b p q, nthz (bs_uv P s) (fst e) = Some a /\ nthz (bs_uv P s) (snd e) = Some b /\
    nthz (bs_points P s) (fst e) = Some p /\ nthz (bs_points P s) (snd e) = Some q.
Proof.
  intros W He. destruct (wb_range _ W e He) as [H1 H2]. pose proof (wb_points _ W) as Hp. unfold lenz in *.
  destruct (nthz_in_range _ _ H1) as [a Ha]. destruct (nthz_in_range _ _ H2) as [b Hb]. rewrite <- Hp in *.
  destruct (nthz_in_range _ _ H1) as [p Hp1]. destruct (nthz_in_range _ _ H2) as [q Hq]. exists a, b, p, q. auto.
Qed.

(** ** Paths between corners *)
Section Paths.
Variables (corner : Z -> Prop) (joined : Z -> Z -> Prop).
Hypothesis corner_dec : forall u, corner u \/ ~ corner u.
Hypothesis joined_sym : forall a b, joined a b -> joined b a.
(** At most two neighbours around a vertex that is not a corner *)
Definition no_branch : Prop := forall u a b c, ~ corner u -> joined u a -> joined u b -> joined u c -> a = b \/ a = c \/ b = c.

(** A path from a corner to a corner without corner inside that never turns back *)
Record clean (p : list Z) : Prop := {
  cl_two : (2 <= List.length p)%nat;
  cl_first : forall x t, p = x :: t -> corner x;
  cl_last : forall t x, p = t ++ [x] -> corner x;
  cl_joined : forall p1 x y p2, p = p1 ++ x :: y :: p2 -> joined x y;
  cl_inner : forall p1 x y z p2, p = p1 ++ x :: y :: z :: p2 -> ~ corner y /\ x <> z
}.
Lemma rev_mid (p1 : list Z) x y p2 : rev (p1 ++ x :: y :: p2) = rev p2 ++ y :: x :: rev p1.
Proof. rewrite rev_app_distr. cbn [rev]. rewrite <- !app_assoc. reflexivity. Qed.
Lemma clean_rev p : clean p -> clean (rev p).
Proof.
  intros [H1 H2 H3 H4 H5]. constructor.
  - now rewrite rev_length.
  - intros x t E. apply (H3 (rev t) x). rewrite <- (rev_involutive p), E. reflexivity.
  - intros t x E. apply (H2 x (rev t)). rewrite <- (rev_involutive p), E. now rewrite rev_app_distr.
  - intros p1 x y p2 E. apply joined_sym. apply (H4 (rev p2) y x (rev p1)). rewrite <- (rev_involutive p), E. apply rev_mid.
  - intros p1 x y z p2 E. assert (E' : p = rev p2 ++ z :: y :: x :: rev p1).
    { rewrite <- (rev_involutive p), E, rev_app_distr. cbn [rev]. rewrite <- !app_assoc. reflexivity. }
    destruct (H5 _ _ _ _ _ E') as [N D]. split; [assumption|congruence].
Qed.
Lemma app_snoc (p1 : list Z) x r : p1 ++ x :: r = (p1 ++ [x]) ++ r.
Proof. now rewrite <- app_assoc. Qed.
Lemma same_tail : no_branch -> forall p2 q2 p1 q1 x y, clean (p1 ++ x :: y :: p2) -> clean (q1 ++ x :: y :: q2) -> p2 = q2.
Proof.
  intros NB. induction p2 as [|c p2 IH]; intros q2 p1 q1 x y Cp Cq.
  - destruct q2 as [|d q2]; [reflexivity|]. destruct (cl_inner _ Cq _ _ _ _ _ eq_refl) as [N _]. destruct N.
    apply (cl_last _ Cp (p1 ++ [x]) y). now rewrite <- app_assoc.
  - destruct q2 as [|d q2].
    + destruct (cl_inner _ Cp _ _ _ _ _ eq_refl) as [N _]. destruct N. apply (cl_last _ Cq (q1 ++ [x]) y). now rewrite <- app_assoc.
    + destruct (cl_inner _ Cp _ _ _ _ _ eq_refl) as [N D1]. destruct (cl_inner _ Cq _ _ _ _ _ eq_refl) as [_ D2].
      pose proof (cl_joined _ Cp _ _ _ _ eq_refl) as J1.
      pose proof (cl_joined _ Cp (p1 ++ [x]) y c p2 ltac:(now rewrite <- app_assoc)) as J2.
      pose proof (cl_joined _ Cq (q1 ++ [x]) y d q2 ltac:(now rewrite <- app_assoc)) as J3.
      destruct (NB y x c d N (joined_sym _ _ J1) J2 J3) as [E|[E|E]]; [congruence..|]. subst d. f_equal.
      apply (IH q2 (p1 ++ [x]) (q1 ++ [x]) y c); now rewrite <- app_assoc.
Qed.
(** The vertices are consecutive in the path, in any order *)
Definition on_path (p : list Z) (a b : Z) : Prop :=
  exists p1 p2, p = p1 ++ a :: b :: p2 \/ p = p1 ++ b :: a :: p2.
Lemma on_path_sym p a b : on_path p a b -> on_path p b a.
Proof. intros [p1 [p2 [H|H]]]; exists p1, p2; auto. Qed.
Lemma on_path_rev p a b : on_path p a b -> on_path (rev p) a b.
Proof. intros [p1 [p2 [H|H]]]; exists (rev p2), (rev p1); rewrite H, rev_mid; auto. Qed.
Lemma share_forward p1 p2 q1 q2 x y : no_branch -> clean (p1 ++ x :: y :: p2) -> clean (q1 ++ x :: y :: q2) ->
  p1 ++ x :: y :: p2 = q1 ++ x :: y :: q2.
Proof.
  intros NB Cp Cq. rewrite (same_tail NB _ _ _ _ _ _ Cp Cq). pose proof (clean_rev _ Cp) as Rp. pose proof (clean_rev _ Cq) as Rq.
  rewrite rev_mid in Rp, Rq. pose proof (same_tail NB _ _ _ _ _ _ Rp Rq) as E. apply (f_equal (@rev Z)) in E. rewrite !rev_involutive in E. now subst.
Qed.
(** Two paths with a common edge are the same, or the reverse of each other *)
Lemma share_edge p q a b : no_branch -> clean p -> clean q -> on_path p a b -> on_path q a b -> p = q \/ p = rev q.
Proof.
  intros NB Cp Cq [p1 [p2 Hp]] [q1 [q2 Hq]].
  assert (G : forall a b, p = p1 ++ a :: b :: p2 -> q = q1 ++ a :: b :: q2 \/ q = q1 ++ b :: a :: q2 -> p = q \/ p = rev q).
  { intros x y Ep [Eq|Eq].
    - left. rewrite Ep, Eq in *. now apply share_forward.
    - right. pose proof (clean_rev _ Cq) as Rq. rewrite Eq, rev_mid in *. rewrite Ep in *. now apply share_forward. }
  destruct Hp as [Hp|Hp]; [now apply (G a b)|]. apply (G b a); [assumption|]. tauto.
Qed.
(** A path goes on along the neighbours *)
Lemma path_goes_on p a b c : no_branch -> clean p -> on_path p a b -> ~ corner b -> joined b c -> c <> a -> on_path p b c.
Proof.
  intros NB Cp.
  assert (G : forall p, clean p -> forall p1 p2, p = p1 ++ a :: b :: p2 -> ~ corner b -> joined b c -> c <> a -> on_path p b c).
  { clear p Cp. intros p Cp p1 p2 E N J D. subst p. destruct p2 as [|d p2].
    - destruct N. apply (cl_last _ Cp (p1 ++ [a]) b). now rewrite <- app_assoc.
    - destruct (cl_inner _ Cp _ _ _ _ _ eq_refl) as [_ D1]. pose proof (cl_joined _ Cp _ _ _ _ eq_refl) as J1.
      pose proof (cl_joined _ Cp (p1 ++ [a]) b d p2 ltac:(now rewrite <- app_assoc)) as J2.
      destruct (NB b a c d N (joined_sym _ _ J1) J J2) as [E|[E|E]]; [congruence..|]. subst d.
      exists (p1 ++ [a]), p2. left. now rewrite <- app_assoc. }
  intros [p1 [p2 [H|H]]] N J D; [now apply (G p Cp p1 p2)|].
  rewrite <- (rev_involutive p). apply on_path_rev. apply (G _ (clean_rev _ Cp) (rev p2) (rev p1)); auto. now rewrite H, rev_mid.
Qed.
(** A corner is at an end of the path *)
Definition leaves (p : list Z) (a b : Z) : Prop := exists t, p = a :: b :: t \/ rev p = a :: b :: t.
Lemma leaves_on p a b : leaves p a b -> on_path p a b.
Proof.
  intros [t [H|H]]; [exists [], t; auto|]. exists (rev t), []. right. apply (f_equal (@rev Z)) in H. rewrite rev_involutive in H.
  rewrite H. cbn [rev]. now rewrite <- app_assoc.
Qed.
Lemma corner_leaves p a b : clean p -> corner a -> (on_path p a b <-> leaves p a b).
Proof.
  intros Cp Ca. split; [|apply leaves_on].
  assert (G : forall p, clean p -> forall p1 p2, p = p1 ++ a :: b :: p2 -> p = a :: b :: p2).
  { clear p Cp. intros p Cp p1 p2 E. destruct p1 as [|x p1] using rev_ind; [assumption|]. rewrite <- app_assoc in E.
    destruct (cl_inner _ Cp _ _ _ _ _ E) as [N _]. contradiction. }
  intros [p1 [p2 [H|H]]].
  - exists p2. left. now apply (G p Cp p1).
  - exists (rev p1). right. apply (G _ (clean_rev _ Cp) (rev p2)). now rewrite H, rev_mid.
Qed.
End Paths.
End Facts.
