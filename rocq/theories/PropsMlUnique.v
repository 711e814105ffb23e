(** * The corners (C125) and the unique vertices (C126) of a loaded .ml model, whatever the file *)
From Coq Require Import List ZArith Bool Lia Permutation.
From Verif Require Import Base GocadModel TsFacts MlModel MlFacts MlLines MlLinesFacts PropsMlLines.
Import ListNotations.
Local Open Scope list_scope.
Local Open Scope Z_scope.

Lemma nthz_range {A} (l : list A) i x : nthz l i = Some x -> 0 <= i < Z.of_nat (List.length l).
Proof. unfold nthz. destruct (Z.leb_spec 0 i); [|discriminate]. destruct (Z.ltb_spec i (Z.of_nat (List.length l))); [|discriminate]. lia. Qed.
Lemma idxz_some {A} (l : list A) i x : idxz l i = Ok x -> nthz l i = Some x.
Proof. unfold idxz. destruct (nthz l i); congruence. Qed.

Section Unique.
Variables (P : Type) (near : P -> P -> bool).

(** ** Specification *)
(** Vertex [v] of surface [k] is at point [p]; it has unique vertex [u]. *)
Definition vertex_at (ss : list (LSurf P)) (k v : Z) (p : P) : Prop := exists s, nthz ss k = Some s /\ nthz (ls_points P s) v = Some p.
Definition numbered (uv : list uvs) (k v u : Z) : Prop := exists x, nthz uv k = Some x /\ nthz x v = Some (Some u).
(** A vertex of a line is at point [p] and has unique vertex [u]. *)
Definition on_line (ls : list (Line P)) (u : Z) (p : P) : Prop := exists l, In l ls /\ In (p, u) (combine (ln_points P l) (ln_uv P l)).

(** ** Corners *)
Lemma find_corner_some p cs : forall k c, find_corner P near p k cs = Some c ->
  k <= c /\ (exists q, nthz cs (c - k) = Some q /\ near p q = true) /\ forall j q, nthz cs j = Some q -> j < c - k -> near p q = false.
Proof.
  induction cs as [|x cs IH]; intros k c H; [discriminate|]. cbn [find_corner] in H. destruct (near p x) eqn:E.
  - assert (c = k) as -> by congruence. rewrite Z.sub_diag. split; [lia|]. split; [exists x; split; [reflexivity|assumption]|]. intros j q Hj L. exfalso. apply nthz_range in Hj. lia.
  - apply IH in H as [L [[q [Q1 Q2]] F]]. split; [lia|]. split.
    + exists q. split; [|assumption]. rewrite nthz_cons, (proj2 (Z.eqb_neq _ _)) by lia. now replace (c - k - 1) with (c - (k + 1)) by lia.
    + intros j y Hj Lj. rewrite nthz_cons in Hj. destruct (Z.eqb_spec j 0); [congruence|]. apply (F (j - 1)); [assumption|lia].
Qed.
Lemma find_corner_none p cs : forall k, find_corner P near p k cs = None -> forall q, In q cs -> near p q = false.
Proof.
  induction cs as [|x cs IH]; intros k H q Hq; [contradiction|]. cbn [find_corner] in H. destruct (near p x) eqn:E; [discriminate|].
  destruct Hq as [<-|Hq]; [assumption|]. eapply IH; eassumption.
Qed.
(** [c] is the first corner near [p]. *)
Definition first_near (cs : list P) (p : P) (c : Z) : Prop :=
  (exists q, nthz cs c = Some q /\ near p q = true) /\ forall j q, nthz cs j = Some q -> j < c -> near p q = false.
Lemma first_near_app cs p c q : first_near cs p c -> first_near (cs ++ [q]) p c.
Proof.
  intros [[x [X1 X2]] F]. split; [exists x; split; [now apply nthz_app_l|assumption]|]. intros j y Hj L.
  apply nthz_snoc in Hj as [Hj|[-> _]]; [eapply F; eassumption|]. apply nthz_range in X1. unfold lenz in L. lia.
Qed.
Definition shape (ss : list (LSurf P)) (uv : list uvs) : Prop := Forall2 (fun s (x : uvs) => List.length x = List.length (ls_points P s)) ss uv.
Lemma f2_nthz {A B} (R : A -> B -> Prop) a b : Forall2 R a b -> forall i x y, nthz a i = Some x -> nthz b i = Some y -> R x y.
Proof.
  induction 1 as [|x y a b H F IH]; intros i u w Hu Hw; [apply nthz_range in Hu; cbn in Hu; lia|]. rewrite nthz_cons in Hu. rewrite nthz_cons in Hw.
  destruct (i =? 0); [congruence|eauto].
Qed.
Lemma f2_nthz_l {A B} (R : A -> B -> Prop) a b : Forall2 R a b -> forall i x, nthz a i = Some x -> exists y, nthz b i = Some y /\ R x y.
Proof.
  induction 1 as [|x y a b H F IH]; intros i u Hu; [apply nthz_range in Hu; cbn in Hu; lia|]. rewrite nthz_cons in Hu. setoid_rewrite nthz_cons.
  destruct (i =? 0); [exists y; split; [reflexivity|congruence]|eauto].
Qed.
Lemma f2_nthz_r {A B} (R : A -> B -> Prop) a b : Forall2 R a b -> forall i y, nthz b i = Some y -> exists x, nthz a i = Some x /\ R x y.
Proof.
  induction 1 as [|x y a b H F IH]; intros i u Hu; [apply nthz_range in Hu; cbn in Hu; lia|]. rewrite nthz_cons in Hu. setoid_rewrite nthz_cons.
  destruct (i =? 0); [exists x; split; [reflexivity|congruence]|eauto].
Qed.
Lemma f2_set {A B} (R : A -> B -> Prop) a b : Forall2 R a b -> forall i y b', (forall x, nthz a i = Some x -> R x y) -> setz b i y = Ok b' -> Forall2 R a b'.
Proof.
  intros F i y b' H E. apply setz_spec in E as [L [S1 O]].
  assert (G : forall a b', List.length a = List.length b' -> (forall j x z, nthz a j = Some x -> nthz b' j = Some z -> R x z) -> Forall2 R a b').
  { clear. induction a as [|x a IH]; intros [|z b'] L H; try discriminate; constructor; [apply (H 0); reflexivity|].
    apply IH; [cbn in L; lia|]. intros j u w Hu Hw. apply (H (j + 1)); rewrite nthz_cons, (proj2 (Z.eqb_neq _ _)) by (apply nthz_range in Hu; lia); now replace (j + 1 - 1) with j by lia. }
  apply G; [rewrite L; exact (f2_length _ _ _ F)|]. intros j x z Hx Hz. destruct (Z.eq_dec j i) as [->|N]; [rewrite S1 in Hz; assert (z = y) as -> by congruence; auto|].
  rewrite O in Hz by assumption. eapply f2_nthz; eassumption.
Qed.

Section Reflexive.
Hypothesis near_refl : forall p, near p p = true.
Record corners_inv (ss : list (LSurf P)) (done : list (Z * Z)) (uv : list uvs) (cs : list P) : Prop := {
  ci_shape : shape ss uv;
  ci_apart : forall i j p q, nthz cs i = Some p -> nthz cs j = Some q -> i < j -> near q p = false;
  ci_done : forall k v, In (k, v) done -> exists p c, vertex_at ss k v p /\ numbered uv k v c /\ first_near cs p c;
  ci_only : forall k v c, numbered uv k v c -> In (k, v) done;
  ci_from : forall q, In q cs -> exists k v, In (k, v) done /\ vertex_at ss k v q
}.
Lemma build_corners_inv ss bstones : forall done uv cs uv' cs', corners_inv ss done uv cs ->
  build_corners P near ss bstones uv cs = Ok (uv', cs') -> corners_inv ss (done ++ bstones) uv' cs'.
Proof.
  induction bstones as [|[k v] r IH]; intros done uv cs uv' cs' I H; cbn [build_corners] in H.
  - rewrite app_nil_r. assert (uv' = uv) as -> by congruence. assert (cs' = cs) as -> by congruence. exact I.
  - apply bind_ok in H as [s [E1 H]]. apply bind_ok in H as [p [E2 H]]. apply bind_ok in H as [u [E3 H]].
    destruct (match find_corner P near p 0 cs with Some c => (c, cs) | None => (lenz cs, cs ++ [p]) end) as [c cs1] eqn:Ec.
    apply bind_ok in H as [u1 [E4 H]]. apply bind_ok in H as [uv1 [E5 H]].
    apply idxz_some in E1. apply idxz_some in E2. apply idxz_some in E3.
    replace (done ++ (k, v) :: r) with ((done ++ [(k, v)]) ++ r) by (rewrite <- app_assoc; reflexivity). revert H. apply IH. clear IH.
    destruct I as [I1 I2 I3 I4 I5].
    assert (Fc : first_near cs1 p c /\ (cs1 = cs \/ cs1 = cs ++ [p] /\ (forall q, In q cs -> near p q = false))).
    { destruct (find_corner P near p 0 cs) as [c'|] eqn:F.
      - apply find_corner_some in F as [_ [F1 F2]]. rewrite Z.sub_0_r in F1, F2. injection Ec as <- <-. split; [split; assumption|now left].
      - pose proof (find_corner_none _ _ _ F) as N. injection Ec as <- <-. split; [|right; split; [reflexivity|assumption]].
        split; [exists p; split; [apply nthz_last|apply near_refl]|]. intros j q Hj L. apply nthz_snoc in Hj as [Hj|[-> _]]; [|lia]. apply N. now apply nthz_in in Hj. }
    destruct Fc as [Fc Ecs]. pose proof (setz_spec _ _ _ _ E4) as [L4 [S4 O4]]. pose proof (setz_spec _ _ _ _ E5) as [L5 [S5 O5]].
    assert (Up : forall q c', first_near cs q c' -> first_near cs1 q c') by (intros q c' Hq; destruct Ecs as [->|[-> _]]; [assumption|now apply first_near_app]).
    constructor.
    + eapply f2_set; [exact I1| |exact E5]. intros s' Hs. rewrite L4. assert (s' = s) as -> by congruence. exact (f2_nthz _ _ _ I1 _ _ _ E1 E3).
    + destruct Ecs as [->|[-> N]]; [assumption|]. intros i j a b Ha Hb L. apply nthz_snoc in Ha, Hb. destruct Ha as [Ha|[-> ->]], Hb as [Hb|[-> ->]].
      * eapply I2; eassumption.
      * apply N. now apply nthz_in in Ha.
      * exfalso. apply nthz_range in Hb. unfold lenz in L. lia.
      * lia.
    + intros k' v' Hin. apply in_app_iff in Hin as [Hin|[Hin|[]]].
      * destruct (I3 k' v' Hin) as [q [c' [A [[x [X1 X2]] B]]]].
        destruct (Z.eq_dec k' k) as [->|Nk]; [destruct (Z.eq_dec v' v) as [->|Nv]|].
        -- exists p, c. split; [exists s; split; assumption|]. split; [exists u1; split; assumption|assumption].
        -- exists q, c'. split; [assumption|]. split; [|now apply Up]. exists u1. split; [assumption|]. rewrite O4 by assumption. now assert (u = x) as -> by congruence.
        -- exists q, c'. split; [assumption|]. split; [|now apply Up]. exists x. split; [|assumption]. now rewrite O5.
      * injection Hin as <- <-. exists p, c. split; [exists s; split; assumption|]. split; [exists u1; split; assumption|assumption].
    + intros k' v' c' [x [X1 X2]]. apply in_app_iff. destruct (Z.eq_dec k' k) as [->|Nk]; [destruct (Z.eq_dec v' v) as [->|Nv]|].
      * right. now left.
      * left. apply (I4 k v' c'). exists u. split; [assumption|]. rewrite <- O4 by assumption. now assert (u1 = x) as -> by congruence.
      * left. apply (I4 k' v' c'). exists x. split; [|assumption]. now rewrite <- O5.
    + intros q Hq. assert (In q cs \/ q = p) as [Hq'| ->].
      { destruct Ecs as [->|[-> _]]; [now left|]. apply in_app_iff in Hq as [Hq|[Hq|[]]]; [now left|right; congruence]. }
      * destruct (I5 q Hq') as [k' [v' [A B]]]. exists k', v'. split; [apply in_app_iff; now left|assumption].
      * exists k, v. split; [apply in_app_iff; right; now left|]. exists s. split; assumption.
Qed.
Lemma start_inv ss : corners_inv ss [] (map (fun s => map (fun _ => None) (ls_points P s)) ss) [].
Proof.
  constructor.
  - unfold shape. induction ss as [|s ss IH]; [constructor|]. constructor; [apply map_length|assumption].
  - intros i j p q H. apply nthz_range in H. cbn in H. lia.
  - intros k v [].
  - intros k v c [x [X1 X2]]. exfalso. apply nthz_in in X1. apply in_map_iff in X1 as [s [<- _]]. apply nthz_in in X2. apply in_map_iff in X2 as [q [E _]]. discriminate.
  - intros q [].
Qed.
End Reflexive.

(** ** The unique vertices, step by step *)
Section Equivalence.
Hypothesis near_refl : forall p, near p p = true.
Hypothesis near_sym : forall p q, near p q = true -> near q p = true.
Hypothesis near_trans : forall p q r, near p q = true -> near q r = true -> near p r = true.
Variable ss : list (LSurf P).

(** [place]: a point for each unique vertex given so far. *)
Definition at_place (place : list P) (u : Z) (p : P) : Prop := exists q, nthz place u = Some q /\ near p q = true.
Definition placed (place : list P) (uv : list uvs) : Prop := forall k v u p, numbered uv k v u -> vertex_at ss k v p -> at_place place u p.
Definition line_placed (place : list P) (l : Line P) : Prop := Forall2 (fun p u => at_place place u p) (ln_points P l) (ln_uv P l).
(** A line found along surface [k]. *)
Definition found_placed (ls : list (Line P)) (x : Z * (Z * list Z)) : Prop :=
  exists l pts, nthz ls (fst (snd x)) = Some l /\ Forall2 (fun i p => vertex_at ss (fst x) i p) (snd (snd x)) pts /\ Forall2 (fun p q => near p q = true) (ln_points P l) pts.
Lemma at_place_app place q u p : at_place place u p -> at_place (place ++ q) u p.
Proof. intros [x [X1 X2]]. exists x. split; [now apply nthz_app_l|assumption]. Qed.
Lemma at_place_near place u p q : at_place place u p -> near q p = true -> at_place place u q.
Proof. intros [x [X1 X2]] H. exists x. split; [assumption|]. eapply near_trans; eassumption. Qed.
Lemma all_near_f2 a : forall b, all_near P near a b = true -> Forall2 (fun p q => near p q = true) a b.
Proof.
  induction a as [|x a IH]; intros [|y b] H; try discriminate; constructor; cbn [all_near] in H; apply andb_true_iff in H as [H1 H2]; auto.
Qed.
Lemma walk_nonempty s uv back fuel e r : walk P s uv back fuel e = Ok r -> r <> [].
Proof.
  destruct fuel; cbn [walk]; intros H; apply bind_ok in H as [u [_ H]]; destruct u; try discriminate.
  - injection H as <-. discriminate.
  - injection H as <-. discriminate.
  - apply bind_ok in H as [e' [_ H]]. apply bind_ok in H as [r' [_ H]]. injection H as <-. discriminate.
Qed.
Lemma mapM_f2 {A B} (f : A -> res B) l : forall r, mapM f l = Ok r -> Forall2 (fun a b => f a = Ok b) l r.
Proof.
  induction l as [|a l IH]; intros r H; cbn [mapM] in H; [injection H as <-; constructor|]. apply bind_ok in H as [b [E H]]. apply bind_ok in H as [r' [E' H]].
  injection H as <-. constructor; auto.
Qed.
Lemma f2_impl {A B} (R T : A -> B -> Prop) a b : (forall x y, R x y -> T x y) -> Forall2 R a b -> Forall2 T a b.
Proof. intros H. induction 1; constructor; auto. Qed.
Lemma f2_rev' {A B} (R : A -> B -> Prop) a b : Forall2 R a b -> Forall2 R (rev a) (rev b).
Proof. induction 1; cbn [rev]; [constructor|]. apply Forall2_app; [assumption|]. repeat constructor. assumption. Qed.
(** What compute_line gives. *)
Definition data_placed (place : list P) (k : Z) (d : LineData P) : Prop :=
  Forall2 (fun i p => vertex_at ss k i p) (d_indices P d) (d_points P d) /\
  exists a mid b, d_points P d = a :: mid ++ [b] /\ at_place place (d_c0 P d) a /\ at_place place (d_c1 P d) b.
Lemma compute_placed place uv k s u corner next d : placed place uv -> nthz ss k = Some s -> nthz uv k = Some u ->
  compute_line P s u corner next = Ok d -> data_placed place k d.
Proof.
  intros I Hs Hu H. unfold compute_line in H. apply bind_ok in H as [c0 [E0 H]]. apply idxz_some in E0. destruct c0 as [c0|]; [|discriminate].
  apply bind_ok in H as [[e back] [_ H]]. apply bind_ok in H as [r [Er H]]. apply walk_nonempty in Er. apply bind_ok in H as [pts [Ep H]]. apply bind_ok in H as [c1 [E1 H]].
  destruct c1 as [c1|]; [|discriminate]. injection H as <-. apply idxz_some in E1. apply mapM_f2 in Ep.
  assert (F : Forall2 (fun i p => vertex_at ss k i p) (corner :: r) pts).
  { eapply f2_impl; [|exact Ep]. intros i p X. apply idxz_some in X. exists s. split; assumption. }
  unfold data_placed. cbn [d_indices d_points d_c0 d_c1]. split; [exact F|].
  destruct (exists_last Er) as [r' [z ->]]. replace (last (corner :: r' ++ [z]) corner) with z in E1 by (rewrite app_comm_cons; symmetry; apply last_last).
  inversion F as [|? a ? pr Fa Fr E]; subst. apply Forall2_app_inv_l in Fr as [mid [bl [Fm [Fb ->]]]]. inversion Fb as [|? b ? bl' Fz Fb' E]; subst. inversion Fb'; subst.
  exists a, mid, b. split; [reflexivity|]. split; eapply I; try eassumption; exists u; split; assumption.
Qed.
Lemma range_places place mid : Forall2 (fun p u => at_place (place ++ mid) u p) mid (rangez (lenz place) (List.length mid)).
Proof.
  revert place. induction mid as [|p mid IH]; intros place; cbn [List.length rangez]; [constructor|]. constructor.
  - exists p. split; [|apply near_refl]. replace (place ++ p :: mid) with ((place ++ [p]) ++ mid) by (rewrite <- app_assoc; reflexivity). apply nthz_app_l, nthz_last.
  - replace (place ++ p :: mid) with ((place ++ [p]) ++ mid) by (rewrite <- app_assoc; reflexivity). replace (lenz place + 1) with (lenz (place ++ [p])) by (unfold lenz; rewrite app_length; cbn; lia). apply IH.
Qed.
(** The state while the lines are created. *)
Record lines_inv (place : list P) (ls : list (Line P)) (nuv : Z) : Prop := {
  li_nuv : nuv = lenz place;
  li_lines : Forall (line_placed place) ls
}.
Lemma line_placed_app place q l : line_placed place l -> line_placed (place ++ q) l.
Proof. apply f2_impl. intros p u. apply at_place_app. Qed.
Lemma find_or_create_placed place ls nuv k d ls' nuv' x : lines_inv place ls nuv -> data_placed place k d ->
  find_or_create_line P near (ls, nuv) d = ((ls', nuv'), x) ->
  exists new more, ls' = ls ++ new /\ lines_inv (place ++ more) ls' nuv' /\ found_placed ls' (k, x).
Proof.
  intros [I1 I2] [D1 [a [mid [b [D2 [D3 D4]]]]]] H. unfold find_or_create_line in H.
  destruct (search_line P (are_lines_equal P near d) (d_c0 P d) (d_c1 P d) 0 ls) as [j|] eqn:E1.
  - injection H as <- <- <-. exists [], []. rewrite !app_nil_r. split; [reflexivity|]. split; [constructor; assumption|].
    apply search_some in E1 as [l [L1 [_ [_ L2]]]]. rewrite Z.sub_0_r in L1. exists l, (d_points P d). cbn [fst snd]. split; [assumption|]. split; [assumption|]. now apply all_near_f2.
  - destruct (search_line P (are_lines_reverse_equal P near d) (d_c1 P d) (d_c0 P d) 0 ls) as [j|] eqn:E2.
    + injection H as <- <- <-. exists [], []. rewrite !app_nil_r. split; [reflexivity|]. split; [constructor; assumption|].
      apply search_some in E2 as [l [L1 [_ [_ L2]]]]. rewrite Z.sub_0_r in L1. exists l, (rev (d_points P d)). cbn [fst snd]. split; [assumption|]. split; [now apply f2_rev'|]. now apply all_near_f2.
    + unfold create_line in H. injection H as <- <- <-.
      assert (Len : (List.length (d_points P d) - 2)%nat = List.length mid) by (rewrite D2; cbn [List.length]; rewrite app_length; cbn [List.length]; lia).
      eexists. exists mid. split; [reflexivity|]. split.
      * constructor; [rewrite Len, I1; unfold lenz; rewrite app_length; lia|]. apply Forall_app. split.
        -- eapply Forall_impl; [|exact I2]. intros l. apply line_placed_app.
        -- constructor; [|constructor]. unfold line_placed. cbn [ln_points ln_uv]. rewrite Len, D2, I1. constructor; [now apply at_place_app|].
           apply Forall2_app; [apply range_places|]. constructor; [now apply at_place_app|constructor].
      * eexists. exists (d_points P d). cbn [fst snd]. split; [apply nthz_last|]. split; [assumption|]. cbn [ln_points]. clear -near_refl. induction (d_points P d); constructor; auto.
Qed.
Lemma found_app ls new x : found_placed ls x -> found_placed (ls ++ new) x.
Proof. intros [l [pts [H1 H2]]]. exists l, pts. split; [now apply nthz_app_l|assumption]. Qed.
Lemma create_lines_placed uv starts : forall place ls nuv ls' nuv' found, placed place uv -> lines_inv place ls nuv ->
  create_lines P near ss uv (ls, nuv) starts = Ok ((ls', nuv'), found) ->
  exists new more, ls' = ls ++ new /\ lines_inv (place ++ more) ls' nuv' /\ Forall (found_placed ls') found.
Proof.
  induction starts as [|[k [corner next]] r IH]; intros place ls nuv ls' nuv' found I J H; cbn [create_lines] in H.
  - injection H as <- <- <-. exists [], []. rewrite !app_nil_r. auto.
  - apply bind_ok in H as [s [E1 H]]. apply idxz_some in E1. apply bind_ok in H as [u [E2 H]]. apply idxz_some in E2. apply bind_ok in H as [d [E3 H]].
    pose proof (compute_placed _ _ _ _ _ _ _ _ I E1 E2 E3) as D.
    destruct (find_or_create_line P near (ls, nuv) d) as [[ls1 nuv1] x] eqn:E4. apply bind_ok in H as [[[ls2 nuv2] fo] [E5 H]]. injection H as <- <- <-.
    destruct (find_or_create_placed _ _ _ _ _ _ _ _ J D E4) as [new [more [-> [J1 F1]]]].
    apply (IH (place ++ more)) in E5; [|intros k' v' u' p' N V; apply at_place_app; eapply I; eassumption|assumption].
    destruct E5 as [new2 [more2 [-> [J2 F2]]]]. exists (new ++ new2), (more ++ more2). rewrite !app_assoc. split; [reflexivity|]. split; [assumption|].
    constructor; [now apply found_app|assumption].
Qed.
(** The events are about the lines found. *)
Lemma pair_events_in n : forall l e, (List.length l <= n)%nat -> In e (pair_events l) -> In (event_data e) l.
Proof.
  induction n as [|n IH]; intros l e L H; [destruct l; [destruct H|cbn in L; lia]|].
  destruct l as [|a [|b r]]; [destruct H|destruct H|]. cbn [pair_events] in H. cbn [List.length] in L. destruct (fst a =? fst b).
  - destruct H as [<-|[<-|H]]; cbn [event_data]; [left; now destruct a|right; left; now destruct b|]. right. right. apply IH; [lia|assumption].
  - destruct H as [<-|H]; cbn [event_data]; [left; now destruct a|]. right. apply IH; [cbn; lia|assumption].
Qed.
Lemma surface_events_in l e : In e (surface_events l) -> In (event_data e) l.
Proof.
  unfold surface_events. intros H. apply (Permutation_in _ (sort_lines_perm l)). apply in_app_iff in H as [H|H]; [eapply pair_events_in; [|exact H]; apply le_n|].
  unfold last_event in H. destruct (rev (sort_lines l)) as [|x [|y t]] eqn:E; [destruct H|destruct H|]. destruct (fst y =? fst x); [destruct H|]. destruct H as [<-|[]]. cbn [event_data].
  apply in_rev. rewrite E. left. now destruct x.
Qed.
(** One surface along its lines. *)
Definition surface_placed (place : list P) (k : Z) (x : uvs) : Prop := forall v u p, nthz x v = Some (Some u) -> vertex_at ss k v p -> at_place place u p.
Lemma set_all_placed place k indices : forall uvl x x', Forall2 (fun i u => forall p, vertex_at ss k i p -> at_place place u p) indices uvl ->
  surface_placed place k x -> set_all x indices uvl = Ok x' -> surface_placed place k x' /\ List.length x' = List.length x.
Proof.
  induction indices as [|i ir IH]; intros uvl x x' F I H; cbn [set_all] in H; [assert (x' = x) as -> by (destruct uvl; congruence); auto|].
  inversion F as [|? u ? ur F1 F2]; subst. apply bind_ok in H as [x1 [E H]]. apply setz_spec in E as [L [S1 O]].
  destruct (IH _ x1 x' F2) as [R1 R2]; [|assumption|split; [assumption|congruence]]. intros v w p N V. destruct (Z.eq_dec v i) as [->|Ne].
  - assert (w = u) as -> by congruence. now apply F1.
  - rewrite O in N by assumption. eapply I; eassumption.
Qed.
Lemma vertex_at_fun k v p q : vertex_at ss k v p -> vertex_at ss k v q -> p = q.
Proof. intros [s [A B]] [t [C D]]. congruence. Qed.
Lemma register_placed place ls k evs : forall x x', Forall (line_placed place) ls -> (forall e, In e evs -> found_placed ls (k, event_data e)) ->
  surface_placed place k x -> foldM (register P ls) evs x = Ok x' -> surface_placed place k x' /\ List.length x' = List.length x.
Proof.
  induction evs as [|e evs IH]; intros x x' Hl He I H; cbn [foldM] in H; [injection H as <-; auto|].
  apply bind_ok in H as [x1 [E H]]. unfold register in E. destruct (He e (or_introl eq_refl)) as [l [pts [L1 [L2 L3]]]]. cbn [fst snd] in *.
  destruct (event_data e) as [j indices]. cbn [fst snd] in *. apply bind_ok in E as [l' [E1 E]]. apply idxz_some in E1. assert (l' = l) as -> by congruence.
  assert (F : Forall2 (fun i u => forall p, vertex_at ss k i p -> at_place place u p) indices (ln_uv P l)).
  { rewrite Forall_forall in Hl. specialize (Hl l (nthz_in _ _ _ L1)). unfold line_placed in Hl. clear E H. revert indices L2 Hl. generalize (ln_uv P l). revert L3. generalize (ln_points P l). clear -near_trans near_sym.
    intros lp L3. induction L3 as [|p q lp pts N _ IH]; intros ul indices L2 Hl; inversion L2; inversion Hl; subst; constructor; [|apply IH; assumption].
    intros p' V. match goal with A : vertex_at ss k _ q |- _ => rewrite (vertex_at_fun _ _ _ _ V A) end. eapply at_place_near; [eassumption|]. now apply near_sym. }
  destruct (set_all_placed _ _ _ _ _ _ F I E) as [I1 L4]. destruct (IH x1 x' Hl) as [R1 R2]; auto; [intros e' H'; apply He; now right|]. split; [assumption|congruence].
Qed.
Lemma lines_of_in k found y : In y (lines_of k found) -> In (k, y) found.
Proof.
  unfold lines_of. intros H. apply in_map_iff in H as [[k' z] [E H]]. apply filter_In in H as [H Hk]. cbn [fst snd] in *. apply Z.eqb_eq in Hk. now subst.
Qed.
Lemma relate_placed place ls found uv : forall k uv' rels, Forall (line_placed place) ls -> Forall (found_placed ls) found ->
  (forall j x, nthz uv j = Some x -> surface_placed place (k + j) x) -> relate_surfaces P ls found k uv = Ok (uv', rels) ->
  Forall2 (fun x x' => List.length x' = List.length x) uv uv' /\ List.length rels = List.length uv /\ (forall j x, nthz uv' j = Some x -> surface_placed place (k + j) x).
Proof.
  induction uv as [|x uv IH]; intros k uv' rels Hl Hf I H; cbn [relate_surfaces] in H.
  - injection H as <- <-. split; [constructor|]. split; [reflexivity|]. intros j x Hj. apply nthz_range in Hj. cbn in Hj. lia.
  - apply bind_ok in H as [x1 [E1 H]]. apply bind_ok in H as [[uv1 rel1] [E2 H]]. injection H as <- <-.
    apply (register_placed place ls k) in E1 as [R1 R2]; [|assumption| |].
    + destruct (IH (k + 1) uv1 rel1 Hl Hf) as [A [B C]]; [|assumption|].
      { intros j y Hj. replace (k + 1 + j) with (k + (j + 1)) by lia. apply I. rewrite nthz_cons, (proj2 (Z.eqb_neq _ _)) by (apply nthz_range in Hj; lia). now replace (j + 1 - 1) with j by lia. }
      split; [constructor; assumption|]. split; [cbn; now rewrite B|]. intros j y Hj. rewrite nthz_cons in Hj. destruct (Z.eqb_spec j 0) as [->|Nj]; [rewrite Z.add_0_r; assert (x1 = y) as <- by congruence; exact R1|].
      replace (k + j) with (k + 1 + (j - 1)) by lia. now apply C.
    + intros e He. apply surface_events_in, lines_of_in in He. rewrite Forall_forall in Hf. now apply Hf.
    + rewrite <- (Z.add_0_r k). apply I. reflexivity.
Qed.
(** The points searched. *)
Lemma point_in_combine pts : forall us u p, point_in P pts us u = Some p -> In (p, u) (combine pts us).
Proof.
  induction pts as [|q pts IH]; intros [|x us] u p H; try discriminate. cbn [point_in] in H. cbn [combine]. destruct (Z.eqb_spec x u) as [->|N]; [left; congruence|right; now apply IH].
Qed.
Lemma unique_point_on ls : forall u p, unique_point P ls u = Ok p -> on_line ls u p.
Proof.
  induction ls as [|l ls IH]; intros u p H; [discriminate|]. cbn [unique_point] in H. destruct (point_in P (ln_points P l) (ln_uv P l) u) as [q|] eqn:E.
  - assert (q = p) as -> by congruence. exists l. split; [now left|now apply point_in_combine].
  - destruct (IH u p H) as [l' [A B]]. exists l'. split; [now right|assumption].
Qed.
Lemma nthz_rangez' a n : forall i, 0 <= i < Z.of_nat n -> nthz (rangez a n) i = Some (a + i).
Proof.
  revert a. induction n as [|n IH]; intros a i H; [lia|]. cbn [rangez]. rewrite nthz_cons. destruct (Z.eqb_spec i 0) as [->|N]; [f_equal; lia|]. rewrite IH by lia. f_equal. lia.
Qed.
Lemma search_ok ls nuv search : 0 <= nuv -> search_points P ls nuv = Ok search ->
  lenz search = nuv /\ forall u p, nthz search u = Some p -> on_line ls u p.
Proof.
  intros N H. unfold search_points in H. apply mapM_f2 in H.
  assert (L : List.length search = Z.to_nat nuv) by (rewrite <- (f2_length _ _ _ H); apply rangez_len).
  split; [unfold lenz; lia|]. intros u p Hu. destruct (f2_nthz_r _ _ _ H u p Hu) as [i [Hi E]]. rewrite nthz_rangez' in Hi by (apply nthz_range in Hu; lia).
  assert (i = u) as -> by (assert (0 + u = i) by congruence; lia). now apply unique_point_on.
Qed.
Lemma on_line_placed place ls u p : Forall (line_placed place) ls -> on_line ls u p -> at_place place u p.
Proof.
  intros H [l [L1 L2]]. rewrite Forall_forall in H. specialize (H l L1). unfold line_placed in H. revert L2. induction H as [|q w a b Q _ IH]; intros L2; [destruct L2|].
  destruct L2 as [E|L2]; [congruence|auto].
Qed.
(** The last pass. *)
Definition final (r : list (uvs * list (Z * bool) * bool)) : list uvs := map (fun x => fst (fst x)) r.
Lemma missing_placed ls search place : Forall (line_placed place) ls -> (forall u p, nthz search u = Some p -> on_line ls u p) ->
  forall sl uv rels nuv r k0, lenz search <= nuv -> lenz place <= nuv ->
  (forall j s, nthz sl j = Some s -> nthz ss (k0 + j) = Some s) ->
  Forall2 (fun s (x : uvs) => List.length x = List.length (ls_points P s)) sl uv -> List.length rels = List.length uv ->
  (forall j x, nthz uv j = Some x -> surface_placed place (k0 + j) x) ->
  missing_surfaces P near ls search sl uv rels nuv = Ok r ->
  shape sl (final r) /\
  (forall j v p, vertex_at sl j v p -> exists u, numbered (final r) j v u /\
     ((u < lenz place /\ at_place place u p /\
        ((exists x, nthz uv j = Some x /\ nthz x v = Some (Some u)) \/ (forall w q, nthz search w = Some q -> near p q = true -> w = u)))
      \/ nuv <= u /\ forall w q, nthz search w = Some q -> near p q = false)) /\
  (forall j v j' v' u, nuv <= u -> numbered (final r) j v u -> numbered (final r) j' v' u -> j = j' /\ v = v').
Proof.
  intros Hl Hs. induction sl as [|s sl IH]; intros uv rels nuv r k0 N1 N2 Hss Sh Lr I H.
  - cbn [missing_surfaces] in H. injection H as <-. split; [constructor|]. split.
    + intros j v p [s [A _]]. apply nthz_range in A. cbn in A. lia.
    + intros j v j' v' u _ [x [A _]]. apply nthz_range in A. cbn in A. lia.
  - inversion Sh as [|? x ? uv1 Sx Sh1]; subst. destruct rels as [|rel rels]; [discriminate|]. cbn [missing_surfaces] in H.
    apply bind_ok in H as [[[x' nuv'] rel'] [E H]]. apply bind_ok in H as [r1 [E1 H]]. injection H as <-.
    assert (Px : surface_placed place k0 x) by (rewrite <- (Z.add_0_r k0); apply I; reflexivity).
    assert (Vk : forall v p, nthz (ls_points P s) v = Some p -> vertex_at ss k0 v p).
    { intros v p V. exists s. split; [rewrite <- (Z.add_0_r k0); apply Hss; reflexivity|assumption]. }
    assert (Bx : forall v u, nthz x v = Some (Some u) -> u < lenz place).
    { intros v u V. assert (Q : exists p, nthz (ls_points P s) v = Some p) by (apply nthz_in_range; rewrite <- Sx; now apply nthz_range in V). destruct Q as [p Q].
      destruct (Px v u p V (Vk v p Q)) as [q [Q1 _]]. apply nthz_range in Q1. exact (proj2 Q1). }
    assert (Bs : forall w q, nthz search w = Some q -> w < nuv) by (intros w q W; apply nthz_range in W; unfold lenz in N1; lia).
    destruct (missing_spec P near ls search (ls_points P s) 0 x nuv rel x' nuv' rel') as [[X _] [G1 [_ [D [_ [B F]]]]]]; auto.
    { intros v u V. apply Bx in V. lia. }
    assert (D' : forall v p, nthz (ls_points P s) v = Some p -> vertex_done P near search x x' nuv nuv' v p).
    { intros v p V. unfold nthz in V. destruct (Z.leb_spec 0 v); [|discriminate]. destruct (v <? _); [|discriminate]. cbn [andb] in V. specialize (D _ _ V). now replace (0 + Z.of_nat (Z.to_nat v)) with v in D by lia. }
    destruct (IH uv1 rels nuv' r1 (k0 + 1)) as [R1 [R2 R3]]; auto; try lia.
    { intros j t Hj. replace (k0 + 1 + j) with (k0 + (j + 1)) by lia. apply Hss. rewrite nthz_cons, (proj2 (Z.eqb_neq _ _)) by (apply nthz_range in Hj; lia). now replace (j + 1 - 1) with j by lia. }
    { intros j y Hj. replace (k0 + 1 + j) with (k0 + (j + 1)) by lia. apply I. rewrite nthz_cons, (proj2 (Z.eqb_neq _ _)) by (apply nthz_range in Hj; lia). now replace (j + 1 - 1) with j by lia. }
    split; [constructor; [cbn [fst]; congruence|assumption]|]. split.
    + intros j v p [t [T1 T2]]. rewrite nthz_cons in T1. destruct (Z.eqb_spec j 0) as [->|Nj].
      * assert (t = s) as -> by congruence. pose proof (D' v p T2) as Dv. unfold vertex_done in Dv. destruct (nthz x v) as [[u|]|] eqn:Ex; [| |destruct Dv].
        -- exists u. split; [exists x'; split; [reflexivity|assumption]|]. left. split; [eapply Bx; eassumption|]. split; [eapply Px; [eassumption|now apply Vk]|]. left. exists x. split; [reflexivity|assumption].
        -- destruct Dv as [u [U1 U2]]. exists u. split; [exists x'; split; [reflexivity|assumption]|]. destruct U2 as [[[q [Q1 Q2]] U2]|[U2 U3]].
           ++ left. assert (A : at_place place u p) by (eapply at_place_near; [eapply on_line_placed; [exact Hl|apply Hs; exact Q1]|assumption]).
              split; [destruct A as [q' [A _]]; apply nthz_range in A; exact (proj2 A)|]. split; [assumption|]. right. intros w q' W1 W2. apply U2. exists q'. split; assumption.
           ++ right. split; [lia|]. intros w q W. destruct (near p q) eqn:Np; [|reflexivity]. exfalso. apply (U2 w). exists q. split; assumption.
      * destruct (R2 (j - 1) v p) as [u [[y [Y1 Y2]] U]]; [exists t; split; assumption|]. exists u. split.
        -- exists y. split; [|assumption]. cbn [final map]. rewrite nthz_cons, (proj2 (Z.eqb_neq _ _)) by assumption. exact Y1.
        -- destruct U as [[U1 [U2 U3]]|[U1 U2]]; [left|right; split; [lia|assumption]]. split; [assumption|]. split; [assumption|]. destruct U3 as [[z [Z1 Z2]]|U3]; [left|now right].
           exists z. split; [|assumption]. now rewrite nthz_cons, (proj2 (Z.eqb_neq _ _)) by assumption.
    + assert (Low : forall v u, nthz x' v = Some (Some u) -> u < nuv') by exact B.
      assert (High : forall j v u, nuv <= u -> numbered (final r1) j v u -> nuv' <= u).
      { intros j v u Nu Hn. destruct (Z_lt_le_dec u nuv') as [C|C]; [exfalso|assumption].
        assert (Q : exists p, vertex_at sl j v p).
        { destruct Hn as [y [Y1 Y2]]. destruct (f2_nthz_r _ _ _ R1 _ _ Y1) as [t [J L]]. assert (Q : exists p, nthz (ls_points P t) v = Some p) by (apply nthz_in_range; rewrite <- L; now apply nthz_range in Y2).
          destruct Q as [p Q]. exists p, t. split; assumption. }
        destruct Q as [p Q]. destruct (R2 j v p Q) as [u' [[y' [Y1' Y2']] U]]. destruct Hn as [y [Y1 Y2]]. assert (u' = u) as -> by congruence. destruct U as [[U _]|[U _]]; lia. }
      assert (Cut : forall j v u, numbered (final ((x', rel', negb (Nat.eqb (List.length rel') (List.length rel))) :: r1)) j v u -> j = 0 /\ nthz x' v = Some (Some u) \/ j <> 0 /\ numbered (final r1) (j - 1) v u).
      { intros j v u [y [Y1 Y2]]. cbn [final map fst] in Y1. rewrite nthz_cons in Y1. destruct (Z.eqb_spec j 0) as [->|Nj]; [left|right].
        - split; [reflexivity|]. assert (x' = y) as -> by congruence. exact Y2.
        - split; [assumption|]. exists y. split; assumption. }
      intros j v j' v' u Nu A1 A2. apply Cut in A1 as [[-> A1]|[Nj A1]]; apply Cut in A2 as [[-> A2]|[Nj' A2]].
      * split; [reflexivity|]. eapply F; eassumption.
      * apply High in A2; [|assumption]. apply Low in A1. lia.
      * apply High in A1; [|assumption]. apply Low in A2. lia.
      * pose proof (High _ _ _ Nu A1) as Nu'. destruct (R3 _ _ _ _ _ Nu' A1 A2) as [E2 E3]. split; [lia|assumption].
Qed.
End Equivalence.

(** ** Theorems *)
(** The corners of a loaded model: every vertex given as BSTONE gets the first corner near its point,
    no other vertex gets one; no two corners are near each other and each is the point of a BSTONE. *)
Theorem C125_corners ss bstones uv cs : (forall p, near p p = true) ->
  build_corners P near ss bstones (map (fun s => map (fun _ => None) (ls_points P s)) ss) [] = Ok (uv, cs) ->
  (forall k v, In (k, v) bstones -> exists p c, vertex_at ss k v p /\ numbered uv k v c /\ first_near cs p c) /\
  (forall k v c, numbered uv k v c -> In (k, v) bstones) /\
  (forall i j p q, nthz cs i = Some p -> nthz cs j = Some q -> i < j -> near q p = false) /\
  (forall q, In q cs -> exists k v, In (k, v) bstones /\ vertex_at ss k v q).
Proof.
  intros Rf H. destruct (build_corners_inv Rf ss bstones [] _ _ _ _ (start_inv ss) H) as [_ I2 I3 I4 I5]. cbn [app] in *. auto.
Qed.
Definition equivalence : Prop := (forall p, near p p = true) /\ (forall p q, near p q = true -> near q p = true) /\ (forall p q r, near p q = true -> near q r = true -> near p r = true).
Theorem C126_unique_vertices ss bstones borders cs ls r : equivalence -> build_corners_lines P near ss bstones borders = Ok (cs, ls, r) ->
  (* every vertex of every surface is numbered *)
  (forall k v p, vertex_at ss k v p -> exists u, numbered (final r) k v u) /\
  (* vertices that share a number are at the same place *)
  (forall k v p k' v' q u, vertex_at ss k v p -> vertex_at ss k' v' q -> numbered (final r) k v u -> numbered (final r) k' v' u -> near p q = true) /\
  (* only numbers of line vertices are shared *)
  (forall k v k' v' u, numbered (final r) k v u -> numbered (final r) k' v' u -> (k, v) <> (k', v') -> exists q, on_line ls u q) /\
  (* a vertex near a line vertex has its number, when the lines are well numbered *)
  ((forall w q w' q', on_line ls w q -> on_line ls w' q' -> near q q' = true -> w = w') ->
   forall k v p u w q, vertex_at ss k v p -> numbered (final r) k v u -> on_line ls w q -> near p q = true -> u = w).
Proof.
  intros [Rf [Sy Tr]] H. unfold build_corners_lines in H. apply bind_ok in H as [[uv cs0] [E1 H]]. apply bind_ok in H as [[[ls0 nuv] found] [E2 H]].
  apply bind_ok in H as [[uv' rels] [E3 H]]. apply bind_ok in H as [search [E4 H]]. apply bind_ok in H as [r0 [E5 H]].
  assert (cs0 = cs /\ ls0 = ls /\ r0 = r) as [-> [-> ->]] by (injection H; auto). clear H.
  pose proof (build_corners_inv Rf ss bstones [] _ _ _ _ (start_inv ss) E1) as I1. cbn [app] in I1.
  assert (P0 : placed ss cs uv).
  { intros k v u p N V. destruct (ci_done _ _ _ _ I1 k v (ci_only _ _ _ _ I1 k v u N)) as [q [c [V' [N' [[q' [Q1 Q2]] _]]]]].
    rewrite (vertex_at_fun ss _ _ _ _ V V'). exists q'. split; [|assumption]. destruct N as [x [N1 N2]]. destruct N' as [x' [N1' N2']]. congruence. }
  destruct (create_lines_placed Rf ss uv borders cs [] (lenz cs) ls nuv found P0) as [new [more [_ [[L1 L2] L3]]]]; [constructor; [reflexivity|constructor]|assumption|].
  set (place := cs ++ more) in *.
  destruct (relate_placed Sy Tr ss place ls found uv 0 uv' rels L2 L3) as [S1 [S2 S3]]; [|assumption|].
  { intros j x Hj v u p N V. apply at_place_app. eapply P0; [exists x; split; [exact Hj|exact N]|exact V]. }
  destruct (search_ok ls nuv search) as [T1 T2]; [rewrite L1; unfold lenz; lia|assumption|].
  assert (Sh : shape ss uv').
  { pose proof (ci_shape _ _ _ _ I1) as Sh. unfold shape in *. clear -Sh S1. revert uv' S1. induction Sh as [|s x ss uv Hx _ IH]; intros uv' S1; inversion S1; subst; constructor; [congruence|auto]. }
  destruct (missing_placed Tr ss ls search place L2 T2 ss uv' rels nuv r 0) as [R1 [R2 R3]]; try lia; try assumption.
  { intros j s Hs. exact Hs. }
  { rewrite S2. now apply f2_length in S1. }
  assert (One : forall k v u u', numbered (final r) k v u -> numbered (final r) k v u' -> u = u') by (intros k v u u' [x [X1 X2]] [y [Y1 Y2]]; congruence).
  assert (Vx : forall k v u, numbered (final r) k v u -> exists p, vertex_at ss k v p).
  { intros k v u [y [Y1 Y2]]. destruct (f2_nthz_r _ _ _ R1 _ _ Y1) as [t [J L]]. assert (Q : exists p, nthz (ls_points P t) v = Some p) by (apply nthz_in_range; rewrite <- L; now apply nthz_range in Y2).
    destruct Q as [p Q]. exists p, t. split; assumption. }
  assert (Pl : forall k v u p, numbered (final r) k v u -> vertex_at ss k v p -> u < nuv -> at_place place u p).
  { intros k v u p N V Hu. destruct (R2 k v p V) as [u' [N' U]]. rewrite (One _ _ _ _ N N') in *. destruct U as [[_ [U _]]|[U _]]; [assumption|lia]. }
  assert (Ol : forall u p, at_place place u p -> exists q, nthz search u = Some q /\ on_line ls u q /\ near p q = true).
  { intros u p A. assert (Q : exists q, nthz search u = Some q) by (apply nthz_in_range; destruct A as [x [A _]]; apply nthz_range in A; unfold lenz in *; lia). destruct Q as [q Q]. exists q.
    split; [assumption|]. split; [now apply T2|]. destruct A as [x [A1 A2]]. destruct (on_line_placed _ _ _ _ L2 (T2 u q Q)) as [y [B1 B2]]. assert (x = y) as -> by congruence. eapply Tr; [eassumption|]. now apply Sy. }
  split; [intros k v p V; destruct (R2 k v p V) as [u [N _]]; now exists u|]. split; [|split].
  - intros k v p k' v' q u V V' N N'. destruct (Z_lt_le_dec u nuv) as [C|C].
    + destruct (Pl _ _ _ _ N V C) as [x [X1 X2]]. destruct (Pl _ _ _ _ N' V' C) as [y [Y1 Y2]]. assert (x = y) as -> by congruence. eapply Tr; [eassumption|]. now apply Sy.
    + destruct (R3 _ _ _ _ _ C N N') as [-> ->]. rewrite (vertex_at_fun ss _ _ _ _ V V'). apply Rf.
  - intros k v k' v' u N N' D. destruct (Z_lt_le_dec u nuv) as [C|C]; [|destruct (R3 _ _ _ _ _ C N N') as [-> ->]; congruence].
    destruct (Vx _ _ _ N) as [p V]. destruct (Ol u p (Pl _ _ _ _ N V C)) as [q [_ [Q _]]]. now exists q.
  - intros G k v p u w q V N O Nr. destruct (R2 k v p V) as [u' [N' U]]. rewrite (One _ _ _ _ N N') in *. destruct U as [[_ [U _]]|[_ U]].
    + destruct (Ol _ _ U) as [q' [_ [Q1 Q2]]]. apply (G _ _ _ _ Q1 O). eapply Tr; [apply Sy; exact Q2|exact Nr].
    + exfalso. destruct (Ol w q (on_line_placed _ _ _ _ L2 O)) as [q' [Q1 [_ Q2]]]. specialize (U w q' Q1). rewrite (Tr _ _ _ Nr Q2) in U. discriminate.
Qed.
End Unique.
Print Assumptions C125_corners.
Print Assumptions C126_unique_vertices.
(** The ring and, in its hole, a triangle with a vertex of its own (point 9) *)
Definition filled : LSurf Z := mkLSurf Z [3; 4; 5; 9] [(0, 1); (1, 3); (3, 0); (1, 2); (2, 3); (3, 1); (2, 0); (0, 3); (3, 2)] [[(2, 0); (1, 2); (0, 1)]].
Example C125_example :
  build_corners Z Z.eqb [ring; filled] [(0, 0); (1, 1); (0, 4); (0, 1)] [[None; None; None; None; None; None]; [None; None; None; None]] []
  = Ok ([[Some 0; Some 2; None; None; Some 1; None]; [None; Some 1; None; None]], [0; 4; 1]).
Proof. reflexivity. Qed.
Example C126_example : equivalence Z Z.eqb /\ exists cs ls r,
  build_corners_lines Z Z.eqb [ring; filled] [(0, 0); (0, 1); (1, 0); (1, 1)] [(0, (0, 2)); (0, (1, 0)); (1, (0, 2)); (1, (1, 0))] = Ok (cs, ls, r) /\
  cs = [0; 1; 3; 4] /\ map (ln_uv Z) ls = [[0; 4; 1]; [1; 0]; [2; 5; 3]; [3; 2]] /\
  final r = [[Some 0; Some 1; Some 4; Some 2; Some 3; Some 5]; [Some 2; Some 3; Some 5; Some 6]].
Proof.
  split; [split; [intros; apply Z.eqb_refl|split; intros *; rewrite !Z.eqb_eq; congruence]|]. do 3 eexists. split; [vm_compute; reflexivity|]. repeat split.
Qed.
(** The distance test of the code is not transitive. Three triangles whose first corners are a chain of
    points, each near the next one: the first and the last are the same corner. *)
Definition three (p : Z) : LSurf Z := mkLSurf Z [p; 10; 20] [(0, 1); (1, 2); (2, 0)] [[(2, 0); (1, 2); (0, 1)]].
Theorem C126_not_transitive_refuted : exists ss bstones borders cs ls r u,
  build_corners_lines Z within_one ss bstones borders = Ok (cs, ls, r) /\
  vertex_at Z ss 1 0 1 /\ vertex_at Z ss 2 0 (-1) /\ numbered (final r) 1 0 u /\ numbered (final r) 2 0 u /\ within_one 1 (-1) = false.
Proof.
  exists [three 0; three 1; three (-1)], [(0, 0); (1, 0); (2, 0); (0, 1); (1, 1); (2, 1)], [(0, (0, 2)); (0, (1, 0)); (1, (0, 2)); (1, (1, 0)); (2, (0, 2)); (2, (1, 0))].
  do 4 eexists. split; [vm_compute; reflexivity|]. unfold vertex_at, numbered. repeat split; try reflexivity; eexists; split; reflexivity.
Qed.
Print Assumptions C126_not_transitive_refuted.
