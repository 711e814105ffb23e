(** * Saving again a curve loaded from a .pl file: the lines that the writer finds. *)
From Coq Require Import ZArith List Lia Bool Ascii String Permutation.
From Verif Require Import Base Text TextFacts GocadModel MeshModel TsModel Spec GocadFacts TsFacts PlModel PlFacts PlRule.
Import ListNotations.
Local Open Scope list_scope.
Local Open Scope Z_scope.

(** ** Lists known by their elements *)
Lemma nodup_one {A} (l : list A) a : NoDup l -> (forall x, In x l <-> x = a) -> l = [a].
Proof.
  intros N H. destruct l as [|x [|y l]].
  - destruct (proj2 (H a) eq_refl).
  - f_equal. apply H. now left.
  - exfalso. inversion N as [|? ? N1 _]; subst. apply N1. rewrite (proj1 (H x)) by now left. rewrite (proj1 (H y)) by (right; now left). now left.
Qed.
Lemma nodup_two {A} (l : list A) a b : NoDup l -> a <> b -> (forall x, In x l <-> x = a \/ x = b) -> l = [a; b] \/ l = [b; a].
Proof.
  intros N D H. assert (L : List.length l = 2%nat).
  { change 2%nat with (List.length [a; b]). apply Permutation_length. apply NoDup_Permutation; [exact N| |].
    - constructor; [intros [E|[]]; congruence|constructor; [intros []|constructor]].
    - intros x. rewrite H. cbn. split; [intros [->| ->]; auto|intros [->|[->|[]]]; auto]. }
  destruct l as [|x [|y [|z l]]]; try discriminate L.
  pose proof (proj1 (H x) (or_introl eq_refl)) as Hx. pose proof (proj1 (H y) (or_intror (or_introl eq_refl))) as Hy.
  inversion N as [|? ? N1 _]; subst. cbn in N1. destruct Hx as [->| ->], Hy as [->| ->]; auto; exfalso; apply N1; auto.
Qed.

(** ** The edges already written are the first ones *)
Definition first_done (ne x : nat) : list bool := repeat true x ++ repeat false (ne - x).
Lemma first_done_nth ne x e : (x <= ne)%nat -> nth e (first_done ne x) false = (e <? x)%nat.
Proof.
  intros H. unfold first_done. destruct (Nat.ltb_spec e x).
  - rewrite app_nth1 by (rewrite repeat_length; lia). apply nth_repeat_lt || (rewrite (nth_indep _ false true) by (rewrite repeat_length; lia); apply nth_repeat).
  - rewrite app_nth2 by (rewrite repeat_length; lia). apply nth_repeat.
Qed.
Lemma upd_app {A} (l r : list A) x a : upd (l ++ x :: r) (List.length l) a = l ++ a :: r.
Proof. induction l as [|y l IH]; [reflexivity|]. cbn [app List.length upd]. now rewrite IH. Qed.
Lemma first_done_upd ne x : (x < ne)%nat -> upd (first_done ne x) x true = first_done ne (S x).
Proof.
  intros H. unfold first_done. replace (ne - x)%nat with (S (ne - S x)) by lia. cbn [repeat].
  pose proof (upd_app (repeat true x) (repeat false (ne - S x)) false true) as U. rewrite repeat_length in U. rewrite U.
  rewrite (repeat_cons x true), <- app_assoc. reflexivity.
Qed.
Lemma first_done_find ne x : (x < ne)%nat -> first_not_done 0 (first_done ne x) = x.
Proof.
  intros H. assert (K : forall y k r, first_not_done k (repeat true y ++ false :: r) = (k + y)%nat).
  { induction y as [|y IH]; intros k r; cbn [repeat app first_not_done]; [lia|]. rewrite IH. lia. }
  unfold first_done. replace (ne - x)%nat with (S (ne - S x)) by lia. cbn [repeat]. now rewrite K.
Qed.

(** ** A piece of curve *)
(** The edges of an open line or of a closed one, of [n] vertices numbered from [o]. *)
Definition piece_edges (o : Z) (n : nat) (closed : bool) : list edge :=
  map (fun s => (o + s, o + s + 1)) (rangez 0 (n - 1)) ++ (if closed then [(o + Z.of_nat n - 1, o)] else []).
Definition piece_len (n : nat) (closed : bool) : nat := if closed then n else (n - 1)%nat.
Lemma piece_edges_length o n closed : (0 < n)%nat -> List.length (piece_edges o n closed) = piece_len n closed.
Proof. intros H. unfold piece_edges, piece_len. rewrite app_length, map_length, rangez_length. destruct closed; cbn; lia. Qed.
(** The end of edge [j] of the piece. *)
Definition piece_next (o : Z) (n : nat) (j : nat) : Z := if (S j =? n)%nat then o else o + Z.of_nat j + 1.
Lemma piece_nth o n closed j : (j < piece_len n closed)%nat -> nth_error (piece_edges o n closed) j = Some (o + Z.of_nat j, piece_next o n j).
Proof.
  unfold piece_edges, piece_len, piece_next. intros H. destruct (Nat.lt_ge_cases j (n - 1)) as [L|L].
  - rewrite nth_error_app1 by (rewrite map_length, rangez_length; lia). rewrite nth_error_map, rangez_nth by exact L. cbn [option_map].
    destruct (Nat.eqb_spec (S j) n); [lia|]. do 2 f_equal; lia.
  - destruct closed; [|lia]. assert (j = n - 1)%nat as -> by lia. rewrite nth_error_app2 by (rewrite map_length, rangez_length; lia).
    rewrite map_length, rangez_length, Nat.sub_diag. cbn [nth_error]. destruct (Nat.eqb_spec (S (n - 1)) n); [|lia]. do 2 f_equal; lia.
Qed.

Section Piece.
Context (es : list edge) (around : Z -> list edge_vertex) (nv : nat) (G : curve_ok es around nv).
Context (pre post : list edge) (o : Z) (n : nat) (closed : bool).
Context (E : es = pre ++ piece_edges o n closed ++ post) (N : if closed then (1 <= n)%nat else (2 <= n)%nat).
Context (Hpre : Forall (fun e => fst e < o /\ snd e < o) pre) (Hpost : Forall (fun e => o + Z.of_nat n <= fst e /\ o + Z.of_nat n <= snd e) post).
Notation k := (List.length pre).
Notation len := (piece_len n closed).
Notation ne := (List.length es).
Notation vt := (vert es).

Lemma piece_pos : (0 < n)%nat.
Proof. destruct closed; lia. Qed.
Lemma len_pos : (0 < len)%nat.
Proof. unfold piece_len. destruct closed; lia. Qed.
Lemma len_le : (len <= n)%nat.
Proof. unfold piece_len. destruct closed; lia. Qed.
Lemma total : (ne = k + len + List.length post)%nat.
Proof. rewrite E, !app_length, piece_edges_length by apply piece_pos. lia. Qed.
Lemma edge_at j : (j < len)%nat -> nth_error es (k + j) = Some (o + Z.of_nat j, piece_next o n j).
Proof.
  intros H. rewrite E, nth_error_app2 by lia. replace (k + j - k)%nat with j by lia.
  rewrite nth_error_app1 by (rewrite piece_edges_length by apply piece_pos; exact H). now apply piece_nth.
Qed.
Lemma vt_false j : (j < len)%nat -> vt ((k + j)%nat, false) = o + Z.of_nat j.
Proof. intros H. unfold vert. cbn [fst snd]. now rewrite (nth_error_nth _ _ _ (edge_at j H)). Qed.
Lemma vt_true j : (j < len)%nat -> vt ((k + j)%nat, true) = piece_next o n j.
Proof. intros H. unfold vert. cbn [fst snd]. now rewrite (nth_error_nth _ _ _ (edge_at j H)). Qed.
(** The ends at the vertices of the piece. *)
Lemma ends_at v e s : o <= v < o + Z.of_nat n -> (In (e, s) (around v) <->
  exists j, (j < len)%nat /\ e = (k + j)%nat /\ v = if s then piece_next o n j else o + Z.of_nat j).
Proof.
  intros Hv. rewrite (co_around _ _ _ G). split.
  - intros H. destruct (Nat.lt_ge_cases e k) as [L|L].
    + exfalso. unfold end_of in H. rewrite E, nth_error_app1 in H by exact L. destruct (nth_error pre e) as [[a b]|] eqn:Q; [|discriminate].
      apply nth_error_In in Q. rewrite Forall_forall in Hpre. specialize (Hpre _ Q). cbn [fst snd] in Hpre. assert (v = a \/ v = b) by (destruct s; injection H; auto). lia.
    + destruct (Nat.lt_ge_cases e (k + len)) as [L2|L2].
      * exists (e - k)%nat. split; [lia|]. split; [lia|]. unfold end_of in H. replace e with (k + (e - k))%nat in H by lia. rewrite edge_at in H by lia. destruct s; congruence.
      * exfalso. unfold end_of in H. rewrite E, app_assoc, nth_error_app2 in H by (rewrite app_length, piece_edges_length by apply piece_pos; lia).
        destruct (nth_error post _) as [[a b]|] eqn:Q; [|discriminate]. apply nth_error_In in Q. rewrite Forall_forall in Hpost. specialize (Hpost _ Q). cbn [fst snd] in Hpost.
        assert (v = a \/ v = b) by (destruct s; injection H; auto). lia.
  - intros (j & Hj & -> & ->). unfold end_of. rewrite edge_at by exact Hj. now destruct s.
Qed.
(** A vertex between two edges of the piece. *)
Lemma around_inner i : (S i < len)%nat -> let a := ((k + i)%nat, true) in let b := ((k + S i)%nat, false) in
  around (o + Z.of_nat i + 1) = [a; b] \/ around (o + Z.of_nat i + 1) = [b; a].
Proof.
  intros H a b. pose proof len_le. apply nodup_two; [apply (co_nodup _ _ _ G)|unfold a, b; congruence|].
  intros [e s]. rewrite ends_at by lia. unfold a, b, piece_next. split.
  - intros (j & Hj & -> & Hv). destruct s.
    + left. destruct (Nat.eqb_spec (S j) n); [lia|]. assert (j = i) as -> by lia. reflexivity.
    + right. assert (j = S i) as -> by lia. reflexivity.
  - intros [Q|Q]; injection Q as -> ->.
    + exists i. split; [lia|]. split; [reflexivity|]. destruct (Nat.eqb_spec (S i) n); lia.
    + exists (S i). split; [lia|]. split; [reflexivity|]. lia.
Qed.
(** The first vertex of a closed piece. *)
Lemma around_closed : closed = true -> let a := (k, false) in let b := ((k + (n - 1))%nat, true) in
  around o = [a; b] \/ around o = [b; a].
Proof.
  intros C a b. pose proof piece_pos. assert (L : len = n) by (unfold piece_len; now rewrite C).
  apply nodup_two; [apply (co_nodup _ _ _ G)|unfold a, b; congruence|].
  intros [e s]. rewrite ends_at by lia. unfold a, b, piece_next. split.
  - intros (j & Hj & -> & Hv). destruct s.
    + right. destruct (Nat.eqb_spec (S j) n); [|lia]. assert (j = n - 1)%nat as -> by lia. reflexivity.
    + left. assert (j = 0%nat) as -> by lia. now rewrite Nat.add_0_r.
  - intros [Q|Q]; injection Q as -> ->.
    + exists 0%nat. split; [lia|]. split; [lia|]. lia.
    + exists (n - 1)%nat. split; [lia|]. split; [reflexivity|]. destruct (Nat.eqb_spec (S (n - 1)) n); lia.
Qed.
(** The two ends of an open piece. *)
Lemma around_begin : closed = false -> around o = [(k, false)].
Proof.
  intros C. pose proof N as N2. rewrite C in N2. assert (L : len = (n - 1)%nat) by (unfold piece_len; now rewrite C).
  apply nodup_one; [apply (co_nodup _ _ _ G)|]. intros [e s]. rewrite ends_at by lia. unfold piece_next. split.
  - intros (j & Hj & -> & Hv). destruct s; [destruct (Nat.eqb_spec (S j) n); lia|]. assert (j = 0%nat) as -> by lia. now rewrite Nat.add_0_r.
  - intros Q. injection Q as -> ->. exists 0%nat. repeat split; lia.
Qed.
Lemma around_end : closed = false -> around (o + Z.of_nat n - 1) = [((k + (n - 2))%nat, true)].
Proof.
  intros C. pose proof N as N2. rewrite C in N2. assert (L : len = (n - 1)%nat) by (unfold piece_len; now rewrite C).
  apply nodup_one; [apply (co_nodup _ _ _ G)|]. intros [e s]. rewrite ends_at by lia. unfold piece_next. split.
  - intros (j & Hj & -> & Hv). destruct s; [|lia]. destruct (Nat.eqb_spec (S j) n); [lia|]. assert (j = n - 2)%nat as -> by lia. reflexivity.
  - intros Q. injection Q as -> ->. exists (n - 2)%nat. split; [lia|]. split; [reflexivity|]. destruct (Nat.eqb_spec (S (n - 2)) n); lia.
Qed.

(** The walk along the piece. *)
Definition walked (i : nat) : list edge_vertex :=
  map (fun j => ((k + j)%nat, false)) (seq i (len - i)) ++ (if closed then [] else [((k + (len - 1))%nat, true)]).
Lemma walk_piece : forall d i fuel, (len - i = S d)%nat -> (d < fuel)%nat ->
  walk es around fuel (first_done ne (k + i)) ((k + i)%nat, false) = Ok (walked i, first_done ne (k + len)).
Proof.
  pose proof total as T. pose proof len_le as LL.
  induction d as [|d IH]; intros i [|fuel] Hd Hf; try lia; cbn [walk].
  - assert (i = len - 1)%nat as -> by lia. pose proof len_pos as LP. unfold flip. cbn [fst snd negb]. rewrite first_done_upd by lia.
    rewrite vt_true by lia. unfold walked. replace (len - (len - 1))%nat with 1%nat by lia. cbn [seq map app]. replace (S (k + (len - 1)))%nat with (k + len)%nat by lia.
    assert (DN : forall e s, (e < k + len)%nat -> is_done (first_done ne (k + len)) (e, s) = true).
    { intros e s H. unfold is_done. cbn [fst]. rewrite first_done_nth by lia. now apply Nat.ltb_lt. }
    pose proof around_closed as AC. pose proof around_end as AE. pose proof N as N2. unfold piece_next. revert DN LP AC AE N2 T LL Hd. clear. intros DN LP AC AE N2 T LL Hd. destruct closed.
    + assert (LN : (S (piece_len n true - 1) = n)%nat) by (unfold piece_len; lia). rewrite LN, Nat.eqb_refl.
      destruct (AC eq_refl) as [Q|Q]; rewrite Q; rewrite !DN by (unfold piece_len in *; lia); cbn [negb orb]; reflexivity.
    + assert (LN : (piece_len n false = n - 1)%nat) by reflexivity. rewrite LN in *. destruct (Nat.eqb_spec (S (n - 1 - 1)) n); [lia|].
      replace (o + Z.of_nat (n - 1 - 1) + 1) with (o + Z.of_nat n - 1) by lia. rewrite (AE eq_refl). reflexivity.
  - unfold flip. cbn [fst snd negb]. rewrite first_done_upd by lia. rewrite vt_true by lia.
    assert (PN : piece_next o n i = o + Z.of_nat i + 1) by (unfold piece_next; destruct (Nat.eqb_spec (S i) n); lia).
    rewrite PN.
    assert (D1 : is_done (first_done ne (S (k + i))) ((k + i)%nat, true) = true).
    { unfold is_done. cbn [fst]. rewrite first_done_nth by lia. apply Nat.ltb_lt. lia. }
    assert (D2 : is_done (first_done ne (S (k + i))) ((k + S i)%nat, false) = false).
    { unfold is_done. cbn [fst]. rewrite first_done_nth by lia. apply Nat.ltb_ge. lia. }
    assert (W : walk es around fuel (first_done ne (S (k + i))) ((k + S i)%nat, false) = Ok (walked (S i), first_done ne (k + len))).
    { replace (S (k + i)) with (k + S i)%nat by lia. apply IH; lia. }
    assert (R : ((k + i)%nat, false) :: walked (S i) = walked i).
    { unfold walked. replace (len - i)%nat with (S (len - S i)) by lia. cbn [seq map app]. reflexivity. }
    destruct (around_inner i ltac:(lia)) as [Q|Q]; rewrite Q, D1, D2; cbn [negb orb]; rewrite W; cbn [bind]; now rewrite R.
Qed.
Lemma walked_vs : map vt (walked 0) = rangez o n.
Proof.
  pose proof len_pos as LP. unfold walked. rewrite Nat.sub_0_r, map_app, map_map.
  assert (A : map (fun j => vt ((k + j)%nat, false)) (seq 0 len) = rangez o len).
  { assert (K : forall m a, (a + m <= len)%nat -> map (fun j => vt ((k + j)%nat, false)) (seq a m) = rangez (o + Z.of_nat a) m).
    { induction m as [|m IH]; intros a Ha; [reflexivity|]. cbn [seq map rangez]. rewrite vt_false by lia. f_equal. rewrite IH by lia. f_equal. lia. }
    rewrite K by lia. f_equal. lia. }
  rewrite A. pose proof (vt_true (len - 1) ltac:(lia)) as VT. pose proof N as N2. revert LP VT N2. clear. intros LP VT N2. destruct closed; cbn [map].
  - now rewrite app_nil_r.
  - assert (LN : piece_len n false = (n - 1)%nat) by reflexivity. rewrite VT. unfold piece_next. rewrite LN in *. destruct (Nat.eqb_spec (S (n - 1 - 1)) n); [lia|].
    replace n with (n - 1 + 1)%nat at 3 by lia. 
    assert (RA : forall a b q, rangez q (a + b) = rangez q a ++ rangez (q + Z.of_nat a) b).
    { induction a as [|a IHa]; intros b q; cbn [rangez Nat.add app]; [now rewrite Z.add_0_r|]. rewrite IHa. do 3 f_equal. lia. }
    rewrite RA. f_equal. cbn [rangez]. f_equal. lia.
Qed.

Context (O : 0 <= o) (H32 : o + Z.of_nat n + 1 < two32) (NE : Z.of_nat ne < two32).
Lemma write_piece close bs :
  write_edge_and_vertex es around close (mkPl (first_done ne k) (o + 1) (Z.of_nat k) bs) (k, false) =
  Ok (mkPl (first_done ne (k + len)) (o + 1 + Z.of_nat n) (Z.of_nat k + Z.of_nat n - 1) (bs ++ [mkBlock (o + 1) (rangez o n) close])).
Proof.
  pose proof total as T. pose proof len_pos as LP. pose proof len_le as LL. unfold write_edge_and_vertex. cbn [o_done o_off o_nb o_blocks].
  pose proof (walk_piece (len - 1) 0 (S ne) ltac:(lia) ltac:(lia)) as W. rewrite !Nat.add_0_r in W. rewrite W. cbn [bind].
  pose proof (f_equal (@List.length Z) walked_vs) as L. rewrite map_length, rangez_length in L. unfold lenz. rewrite L, walked_vs.
  pose proof piece_pos. rewrite !add32_small by (unfold piece_len in *; destruct closed; lia). do 2 f_equal; lia.
Qed.
Notation starts := (filter (fun v => negb (Nat.eqb (List.length (around v)) 2))).
Lemma inner_skipped : forall m i, (i + m < len)%nat -> starts (rangez (o + Z.of_nat i + 1) m) = [].
Proof.
  induction m as [|m IH]; intros i H; [reflexivity|]. cbn [rangez filter].
  replace (List.length (around (o + Z.of_nat i + 1))) with 2%nat by (destruct (around_inner i ltac:(lia)) as [Q|Q]; rewrite Q; reflexivity).
  cbn [Nat.eqb negb]. replace (o + Z.of_nat i + 1 + 1) with (o + Z.of_nat (S i) + 1) by lia. apply IH. lia.
Qed.
Lemma closed_skipped : closed = true -> starts (rangez o n) = [].
Proof.
  intros C. pose proof piece_pos. assert (L : len = n) by (unfold piece_len; now rewrite C). destruct n as [|m] eqn:En; [lia|]. rewrite <- En in *. rewrite En at 1. cbn [rangez filter].
  replace (List.length (around o)) with 2%nat by (destruct (around_closed C) as [Q|Q]; rewrite Q; reflexivity). cbn [Nat.eqb negb].
  replace (o + 1) with (o + Z.of_nat 0 + 1) by lia. apply inner_skipped. lia.
Qed.
Lemma open_started : closed = false -> starts (rangez o n) = [o; o + Z.of_nat n - 1].
Proof.
  intros C. pose proof N as N2. rewrite C in N2. assert (L : len = (n - 1)%nat) by (unfold piece_len; now rewrite C).
  assert (R : rangez o n = o :: rangez (o + Z.of_nat 0 + 1) (n - 2) ++ [o + Z.of_nat n - 1]).
  { assert (RA : forall a b q, rangez q (a + b) = rangez q a ++ rangez (q + Z.of_nat a) b).
    { induction a as [|a IHa]; intros b q; cbn [rangez Nat.add app]; [now rewrite Z.add_0_r|]. rewrite IHa. do 3 f_equal. lia. }
    replace n with (1 + ((n - 2) + 1))%nat at 1 by lia. rewrite RA, RA. cbn [rangez app]. f_equal. f_equal; f_equal; lia. }
  rewrite R. cbn [filter]. rewrite filter_app, inner_skipped by lia. cbn [filter app]. rewrite (around_begin C), (around_end C). reflexivity.
Qed.
Lemma open_piece bs : closed = false ->
  foldM (open_lines_at es around) (starts (rangez o n)) (mkPl (first_done ne k) (o + 1) (Z.of_nat k) bs) =
  Ok (mkPl (first_done ne (k + len)) (o + 1 + Z.of_nat n) (Z.of_nat (k + len)) (bs ++ [mkBlock (o + 1) (rangez o n) None])).
Proof.
  intros C. pose proof total as T. pose proof N as N2. rewrite C in N2. assert (L : len = (n - 1)%nat) by (unfold piece_len; now rewrite C).
  rewrite (open_started C). cbn [foldM]. unfold open_lines_at at 1. rewrite (around_begin C). cbn [foldM]. unfold is_done at 1. cbn [fst o_done].
  rewrite first_done_nth, Nat.ltb_irrefl by lia. rewrite write_piece. cbn [bind]. unfold open_lines_at. rewrite (around_end C). cbn [foldM]. unfold is_done. cbn [fst o_done].
  rewrite first_done_nth by lia. replace (k + (n - 2) <? k + len)%nat with true by (symmetry; apply Nat.ltb_lt; lia). cbn [bind]. do 2 f_equal. lia.
Qed.
Lemma closed_piece bs f : closed = true -> closed_lines es around (S f) (mkPl (first_done ne k) (o + 1) (Z.of_nat k) bs) =
  closed_lines es around f (mkPl (first_done ne (k + len)) (o + 1 + Z.of_nat n) (Z.of_nat (k + len)) (bs ++ [mkBlock (o + 1) (rangez o n) (Some (o + 1))])).
Proof.
  intros C. pose proof total as T. pose proof len_pos as LP. assert (L : len = n) by (unfold piece_len; now rewrite C).
  assert (Q : Z.of_nat k =? lenz es = false) by (apply Z.eqb_neq; unfold lenz; lia).
  cbn [closed_lines o_nb]. rewrite Q. cbn [o_done]. rewrite first_done_find by lia. cbv zeta.
  pose proof (vt_false 0 LP) as V. rewrite Nat.add_0_r, Z.add_0_r in V. rewrite V, write_piece. cbn [bind o_done o_off o_nb o_blocks].
  rewrite !add32_small by lia. do 2 f_equal. lia.
Qed.
End Piece.

(** ** A whole curve *)
Definition is_closed (b : block) : bool := match b_close b with Some _ => true | None => false end.
Definition edges_in (b : block) : list edge := piece_edges (b_off b - 1) (List.length (b_vs b)) (is_closed b).
Definition curve_of (bs : list block) : list edge := flat_map edges_in bs.
(** The block with the numbers of the vertex lines as vertices. *)
Definition self (b : block) : block := mkBlock (b_off b) (rangez (b_off b - 1) (List.length (b_vs b))) (b_close b).
(** Enough vertices, and a closing segment to its own beginning. *)
Definition tidy (b : block) : Prop :=
  match b_close b with Some c => c = b_off b /\ (1 <= List.length (b_vs b))%nat | None => (2 <= List.length (b_vs b))%nat end.
Lemma segs_edges b : tidy b -> map (fun ab => (fst ab - 1, snd ab - 1)) (segs b) = edges_in b.
Proof.
  unfold tidy, segs, edges_in, piece_edges, is_closed. intros H. rewrite map_app, map_map. f_equal.
  - apply map_ext. intros s. cbn [fst snd]. f_equal; lia.
  - destruct (b_close b) as [c|]; [|reflexivity]. destruct H as [-> H]. cbn [map fst snd]. unfold lenz. f_equal. f_equal; lia.
Qed.
Lemma edges_bound b a : tidy b -> b_off b = a + 1 -> Forall (fun e => (a <= fst e < a + lenz (b_vs b)) /\ (a <= snd e < a + lenz (b_vs b))) (edges_in b).
Proof.
  unfold tidy, edges_in, piece_edges, is_closed, lenz. intros H E. apply Forall_app. split.
  - apply Forall_map, Forall_forall. intros x Hx. apply in_rangez in Hx. cbn [fst snd]. lia.
  - destruct (b_close b); constructor; [|constructor]. destruct H. cbn [fst snd]. lia.
Qed.
Lemma curve_bound bs : forall a, Forall tidy bs -> numbered (a + 1) bs ->
  Forall (fun e => (a <= fst e < a + lenz (all_vs bs)) /\ (a <= snd e < a + lenz (all_vs bs))) (curve_of bs).
Proof.
  induction bs as [|b bs IH]; intros a T H; [constructor|]. inversion T as [|? ? T1 T2]; subst. destruct H as [H1 H2].
  unfold curve_of, all_vs. cbn [flat_map]. fold (curve_of bs) (all_vs bs). apply Forall_app. split.
  - eapply Forall_impl; [|apply (edges_bound b a T1 H1)]. intros e He. unfold lenz in *. rewrite app_length. lia.
  - eapply Forall_impl; [|apply (IH (a + lenz (b_vs b)) T2)]; [|now replace (a + lenz (b_vs b) + 1) with (a + 1 + lenz (b_vs b)) by lia].
    intros e He. unfold lenz in *. rewrite app_length. lia.
Qed.
Lemma numbered_split bs cs : forall a, numbered a (bs ++ cs) <-> numbered a bs /\ numbered (a + lenz (all_vs bs)) cs.
Proof.
  induction bs as [|b bs IH]; intros a; cbn [app numbered].
  - unfold all_vs, lenz. cbn. rewrite Z.add_0_r. tauto.
  - rewrite IH. unfold all_vs, lenz. cbn [flat_map]. rewrite app_length, Nat2Z.inj_add, <- Z.add_assoc. tauto.
Qed.
Lemma curve_app a b : curve_of (a ++ b) = curve_of a ++ curve_of b.
Proof. apply flat_map_app. Qed.
Lemma all_vs_split a b : all_vs (a ++ b) = all_vs a ++ all_vs b.
Proof. apply flat_map_app. Qed.
Lemma rangez_split a : forall b q, rangez q (a + b) = rangez q a ++ rangez (q + Z.of_nat a) b.
Proof. induction a as [|a IHa]; intros b q; cbn [rangez Nat.add app]; [now rewrite Z.add_0_r|]. rewrite IHa. do 3 f_equal. lia. Qed.

Section Curve.
Context (bs : list block) (around : Z -> list edge_vertex).
Notation es := (curve_of bs).
Notation ne := (List.length es).
Context (G : curve_ok es around (List.length (all_vs bs))) (T : Forall tidy bs) (NB : numbered 1 bs).
Context (H32 : lenz (all_vs bs) + 1 < two32) (NE : Z.of_nat ne < two32).
Notation starts := (filter (fun v => negb (Nat.eqb (List.length (around v)) 2))).
(** The state of the writer after the blocks [p]. *)
Definition after (p : list block) : pl_state :=
  mkPl (first_done ne (List.length (curve_of p))) (lenz (all_vs p) + 1) (Z.of_nat (List.length (curve_of p))) (map self p).
(** What is known of the block [b] between [p] and [q]. *)
Lemma at_block p b q : bs = p ++ b :: q ->
  es = curve_of p ++ piece_edges (lenz (all_vs p)) (List.length (b_vs b)) (is_closed b) ++ curve_of q /\
  (if is_closed b then (1 <= List.length (b_vs b))%nat else (2 <= List.length (b_vs b))%nat) /\
  Forall (fun e => fst e < lenz (all_vs p) /\ snd e < lenz (all_vs p)) (curve_of p) /\
  Forall (fun e => lenz (all_vs p) + Z.of_nat (List.length (b_vs b)) <= fst e /\ lenz (all_vs p) + Z.of_nat (List.length (b_vs b)) <= snd e) (curve_of q) /\
  0 <= lenz (all_vs p) /\ lenz (all_vs p) + Z.of_nat (List.length (b_vs b)) + 1 < two32 /\
  self b = mkBlock (lenz (all_vs p) + 1) (rangez (lenz (all_vs p)) (List.length (b_vs b))) (if is_closed b then Some (lenz (all_vs p) + 1) else None).
Proof.
  intros E. pose proof NB as N1. rewrite E in N1. apply numbered_split in N1 as [N1 N2]. cbn [numbered] in N2. destruct N2 as [N2 N3].
  pose proof T as T1. rewrite E in T1. apply Forall_app in T1 as [T1 T2]. apply Forall_cons_iff in T2 as [T2 T3].
  assert (Q : b_off b - 1 = lenz (all_vs p)) by lia. split; [|split; [|split; [|split; [|split; [|split]]]]].
  - rewrite E at 1. rewrite curve_app. unfold curve_of at 2. cbn [flat_map]. fold (curve_of q). unfold edges_in at 1. now rewrite Q.
  - unfold tidy, is_closed in *. destruct (b_close b); [apply T2|exact T2].
  - eapply Forall_impl; [|apply (curve_bound p 0 T1 N1)]. cbv beta. intros e He. lia.
  - eapply Forall_impl; [|apply (curve_bound q (lenz (all_vs p) + lenz (b_vs b)) T3)]; [cbv beta; intros e He; unfold lenz in *; lia|].
    now replace (lenz (all_vs p) + lenz (b_vs b) + 1) with (1 + lenz (all_vs p) + lenz (b_vs b)) by lia.
  - unfold lenz. lia.
  - pose proof H32 as H. rewrite E, all_vs_split in H. unfold all_vs at 2 in H. cbn [flat_map] in H. unfold lenz in *. rewrite !app_length in H. lia.
  - unfold self. rewrite Q. replace (b_off b) with (lenz (all_vs p) + 1) by lia. f_equal. unfold tidy, is_closed in *. destruct (b_close b); [f_equal; lia|reflexivity].
Qed.
Lemma after_block p b : (List.length (curve_of p) + piece_len (List.length (b_vs b)) (is_closed b) = List.length (curve_of (p ++ [b])))%nat ->
  forall l, l = map self p ++ [self b] ->
  mkPl (first_done ne (List.length (curve_of p) + piece_len (List.length (b_vs b)) (is_closed b))) (lenz (all_vs p) + 1 + Z.of_nat (List.length (b_vs b)))
    (Z.of_nat (List.length (curve_of p) + piece_len (List.length (b_vs b)) (is_closed b))) l = after (p ++ [b]).
Proof.
  intros E l ->. unfold after. rewrite E, all_vs_app, map_app. unfold lenz. rewrite app_length, Nat2Z.inj_add. f_equal. lia.
Qed.
Lemma len_block p b : tidy b -> (List.length (curve_of p) + piece_len (List.length (b_vs b)) (is_closed b) = List.length (curve_of (p ++ [b])))%nat.
Proof.
  intros H. rewrite curve_app, app_length. unfold curve_of at 3. cbn [flat_map]. rewrite app_nil_r. unfold edges_in. rewrite piece_edges_length; [reflexivity|].
  unfold tidy in H. destruct (b_close b); lia.
Qed.
Lemma opens_all : forall a p q, bs = p ++ a ++ q -> Forall (fun b => b_close b = None) a ->
  foldM (open_lines_at es around) (starts (rangez (lenz (all_vs p)) (List.length (all_vs a)))) (after p) = Ok (after (p ++ a)).
Proof.
  induction a as [|b a IH]; intros p q E A.
  - cbn. now rewrite app_nil_r.
  - apply Forall_cons_iff in A as [A1 A2]. destruct (at_block p b (a ++ q) E) as (X1 & X2 & X3 & X4 & X5 & X6 & X7).
    assert (C : is_closed b = false) by (unfold is_closed; now rewrite A1).
    unfold all_vs at 2. cbn [flat_map]. fold (all_vs a). rewrite app_length, rangez_split, filter_app, foldM_app. unfold after at 1.
    rewrite (open_piece es around _ G _ _ _ _ _ X1 X2 X3 X4 X5 X6 NE _ C). cbn [bind].
    assert (TB : tidy b). { pose proof T as T1. rewrite E in T1. apply Forall_app in T1 as [_ T1]. now inversion T1. }
    rewrite (after_block p b (len_block p b TB)) by (rewrite X7, C; reflexivity).
    replace (p ++ b :: a) with ((p ++ [b]) ++ a) by (rewrite <- app_assoc; reflexivity).
    rewrite <- (IH (p ++ [b]) q); [|now rewrite <- app_assoc|exact A2]. do 3 f_equal. rewrite all_vs_app. unfold lenz. rewrite app_length. lia.
Qed.
Lemma closed_all_skipped : forall a p q, bs = p ++ a ++ q -> Forall (fun b => b_close b <> None) a ->
  starts (rangez (lenz (all_vs p)) (List.length (all_vs a))) = [].
Proof.
  induction a as [|b a IH]; intros p q E A; [reflexivity|].
  apply Forall_cons_iff in A as [A1 A2]. destruct (at_block p b (a ++ q) E) as (X1 & X2 & X3 & X4 & X5 & X6 & X7).
  assert (C : is_closed b = true) by (unfold is_closed; destruct (b_close b); congruence).
  unfold all_vs at 2. cbn [flat_map]. fold (all_vs a). rewrite app_length, rangez_split, filter_app.
  rewrite (closed_skipped es around _ G _ _ _ _ _ X1 X2 X3 X4 X6 C). cbn [app].
  rewrite <- (IH (p ++ [b]) q); [|now rewrite <- app_assoc|exact A2]. do 2 f_equal. rewrite all_vs_app. unfold lenz. rewrite app_length. lia.
Qed.
Lemma closed_all : forall a p f, bs = p ++ a -> Forall (fun b => b_close b <> None) a -> (List.length a <= f)%nat ->
  closed_lines es around f (after p) = Ok (after bs).
Proof.
  induction a as [|b a IH]; intros p f E A F.
  - rewrite app_nil_r in E. subst p. assert (Q : o_nb (after bs) =? lenz es = true) by (apply Z.eqb_eq; reflexivity). destruct f; cbn [closed_lines]; rewrite Q; reflexivity.
  - apply Forall_cons_iff in A as [A1 A2]. destruct (at_block p b a E) as (X1 & X2 & X3 & X4 & X5 & X6 & X7).
    assert (C : is_closed b = true) by (unfold is_closed; destruct (b_close b); congruence). destruct f as [|f]; [cbn in F; lia|].
    unfold after at 1. rewrite (closed_piece es around _ G _ _ _ _ _ X1 X2 X3 X4 X5 X6 NE _ f C).
    assert (TB : tidy b). { pose proof T as T1. rewrite E in T1. apply Forall_app in T1 as [_ T1]. now inversion T1. }
    rewrite (after_block p b (len_block p b TB)) by (rewrite X7, C; reflexivity).
    apply (IH (p ++ [b])); [now rewrite <- app_assoc|exact A2|cbn in F; lia].
Qed.
(** The writer finds the blocks again. *)
Lemma found_again a c : bs = a ++ c -> Forall (fun b => b_close b = None) a -> Forall (fun b => b_close b <> None) c ->
  write_ilines es around (List.length (all_vs bs)) = Ok (map self bs).
Proof.
  intros E A C. unfold write_ilines, start_points.
  assert (L : List.length (all_vs bs) = (List.length (all_vs a) + List.length (all_vs c))%nat) by (rewrite E, all_vs_split; apply app_length).
  rewrite L, rangez_split, filter_app. change (0 + Z.of_nat (List.length (all_vs a))) with (lenz (all_vs a)).
  rewrite (closed_all_skipped c a []) by (rewrite ?app_nil_r; assumption). rewrite app_nil_r.
  pose proof (opens_all a [] c E A) as O. unfold after at 1 in O. cbn [curve_of flat_map all_vs List.length map] in O. change (lenz []) with 0 in O. cbn [app] in O.
  change (first_done ne 0) with (repeat false (ne - 0)) in O. rewrite Nat.sub_0_r in O. change (0 + 1) with 1 in O. change (Z.of_nat 0) with 0 in O.
  rewrite O. cbn [bind]. rewrite (closed_all c a (S ne) E C).
  - reflexivity.
  - assert (K : forall l, Forall tidy l -> (List.length l <= List.length (curve_of l))%nat).
    { induction l as [|b l IH]; intros H; [cbn; lia|]. inversion H as [|? ? H1 H2]; subst. unfold curve_of. cbn [flat_map]. fold (curve_of l).
      rewrite app_length. specialize (IH H2). unfold edges_in. rewrite piece_edges_length; unfold tidy, piece_len, is_closed in *; destruct (b_close b); cbn; lia. }
    pose proof T as T1. rewrite E in T1. apply Forall_app in T1 as [_ T1]. specialize (K c T1). rewrite E, curve_app, app_length. lia.
Qed.
End Curve.

(** ** The lines that do not close come first *)
Section Order.
Context (es : list edge) (around : Z -> list edge_vertex).
Definition added (closes : bool) (st st' : pl_state) : Prop :=
  exists l, o_blocks st' = o_blocks st ++ l /\ Forall (fun b => is_closed b = closes) l.
Lemma added_refl c st : added c st st.
Proof. exists []. rewrite app_nil_r. auto. Qed.
Lemma added_trans c a b d : added c a b -> added c b d -> added c a d.
Proof. intros (l & E & H) (k & E2 & H2). exists (l ++ k). rewrite E2, E, app_assoc. split; [reflexivity|]. apply Forall_app. auto. Qed.
Lemma write_adds close st ev st' : write_edge_and_vertex es around close st ev = Ok st' -> added (match close with Some _ => true | None => false end) st st'.
Proof.
  unfold write_edge_and_vertex. intros H. destruct (walk es around _ _ _) as [[evs done]| | |]; cbn [bind] in H; try discriminate H. injection H as <-.
  eexists. cbn [o_blocks]. split; [reflexivity|]. constructor; [|constructor]. reflexivity.
Qed.
Lemma open_adds l : forall st st', foldM (fun st ev => if is_done (o_done st) ev then Ok st else write_edge_and_vertex es around None st ev) l st = Ok st' -> added false st st'.
Proof.
  induction l as [|ev l IH]; intros st st' H; cbn [foldM] in H; [injection H as <-; apply added_refl|].
  destruct (is_done (o_done st) ev); cbn [bind] in H; [now apply IH|].
  destruct (write_edge_and_vertex es around None st ev) as [s1| | |] eqn:W; cbn [bind] in H; try discriminate H.
  apply (added_trans _ _ s1); [exact (write_adds None _ _ _ W)|now apply IH].
Qed.
Lemma opens_add vs : forall st st', foldM (open_lines_at es around) vs st = Ok st' -> added false st st'.
Proof.
  induction vs as [|v vs IH]; intros st st' H; cbn [foldM] in H; [injection H as <-; apply added_refl|].
  destruct (open_lines_at es around st v) as [s1| | |] eqn:W; cbn [bind] in H; try discriminate H.
  apply (added_trans _ _ s1); [exact (open_adds _ _ _ W)|now apply IH].
Qed.
Lemma closed_add f : forall st st', closed_lines es around f st = Ok st' -> added true st st'.
Proof.
  induction f as [|f IH]; intros st st' H; cbn [closed_lines] in H; destruct (o_nb st =? lenz es); try discriminate H; try (injection H as <-; apply added_refl).
  cbv zeta in H. destruct (write_edge_and_vertex es around _ st _) as [s1| | |] eqn:W; cbn [bind] in H; try discriminate H.
  apply write_adds in W. apply IH in H. unfold added in *. cbn [o_blocks] in H. destruct W as (l & E & Hl), H as (k & E2 & Hk).
  exists (l ++ k). rewrite E2, E, app_assoc. split; [reflexivity|]. apply Forall_app. auto.
Qed.
Lemma opens_first nv bs : write_ilines es around nv = Ok bs ->
  exists a c, bs = a ++ c /\ Forall (fun b => b_close b = None) a /\ Forall (fun b => b_close b <> None) c.
Proof.
  unfold write_ilines. intros H. destruct (foldM _ _ _) as [s1| | |] eqn:O; cbn [bind] in H; try discriminate H.
  destruct (closed_lines es around _ s1) as [s2| | |] eqn:C; cbn [bind] in H; try discriminate H. injection H as <-.
  apply opens_add in O as (a & E & Ha). apply closed_add in C as (c & E2 & Hc). cbn [o_blocks app] in E. exists a, c. rewrite E2, E.
  split; [reflexivity|]. split; (eapply Forall_impl; [|eassumption]); unfold is_closed; intros b Hb; destruct (b_close b); congruence.
Qed.
End Order.

(** ** A vertex where a loop begins has one vertex line *)
Section Once.
Context (es : list edge) (around : Z -> list edge_vertex) (nv : nat) (G : curve_ok es around nv).
Notation vt := (vert es).
Notation ne := (List.length es).
Lemma find_block bs : forall i v, nth_error (all_vs bs) i = Some v ->
  exists p b q, bs = p ++ b :: q /\ (List.length (all_vs p) <= i)%nat /\ nth_error (b_vs b) (i - List.length (all_vs p)) = Some v.
Proof.
  induction bs as [|b bs IH]; intros i v H; [destruct i; discriminate H|]. unfold all_vs in H. cbn [flat_map] in H. fold (all_vs bs) in H.
  destruct (Nat.lt_ge_cases i (List.length (b_vs b))) as [L|L].
  - rewrite nth_error_app1 in H by exact L. exists [], b, bs. cbn. rewrite Nat.sub_0_r. split; [reflexivity|]. split; [lia|exact H].
  - rewrite nth_error_app2 in H by exact L. apply IH in H as (p & b2 & q & -> & L2 & H). exists (b :: p), b2, q. split; [reflexivity|].
    unfold all_vs. cbn [flat_map]. fold (all_vs p). rewrite app_length. split; [lia|]. replace (i - (List.length (b_vs b) + List.length (all_vs p)))%nat with (i - List.length (b_vs b) - List.length (all_vs p))%nat by lia. exact H.
Qed.
Lemma Forall2_split_r {A B} (R : A -> B -> Prop) l : forall p b q, Forall2 R l (p ++ b :: q) ->
  exists lp a lq, l = lp ++ a :: lq /\ List.length lp = List.length p /\ R a b.
Proof.
  intros p. revert l. induction p as [|x p IH]; intros l b q H; inversion H as [|a ? l2 ? H1 H2]; subst.
  - exists [], a, l2. auto.
  - apply IH in H2 as (lp & c & lq & -> & L & Hc). exists (a :: lp), c, lq. cbn. auto.
Qed.
Lemma same_place (p1 : list (list edge_vertex)) : forall p2 a1 a2 q1 q2 x y, p1 ++ a1 :: q1 = p2 ++ a2 :: q2 -> NoDup (edges_of (p1 ++ a1 :: q1)) ->
  In x a1 -> In y a2 -> fst x = fst y -> p1 = p2 /\ a1 = a2.
Proof.
  assert (K : forall (a : list edge_vertex) q b l m x y, NoDup (edges_of (a :: q)) -> q = l ++ b :: m -> In x a -> In y b -> fst x = fst y -> False).
  { intros a q b l m x y Hn -> Hx Hy E. unfold edges_of in Hn. cbn [List.concat] in Hn. rewrite map_app in Hn.
    assert (X : forall (u w : list nat) n, NoDup (u ++ w) -> In n u -> In n w -> False).
    { induction u as [|k u IH]; intros w n Hd Hu Hw; [destruct Hu|]. cbn in Hd. inversion Hd as [|? ? D1 D2]; subst. destruct Hu as [-> |Hu]; [|eauto]. apply D1, in_or_app. now right. }
    apply (X _ _ (fst x) Hn); [now apply in_map|]. rewrite E. apply in_map, in_concat. exists b. split; [apply in_or_app; right; now left|exact Hy]. }
  induction p1 as [|a p1 IH]; intros [|b p2] a1 a2 q1 q2 x y E Hn Hx Hy F; cbn [app] in E.
  - injection E as E _. auto.
  - exfalso. injection E as E E2. subst b. exact (K a1 q1 a2 p2 q2 x y Hn E2 Hx Hy F).
  - exfalso. injection E as E E2. subst a. cbn [app] in Hn. exact (K a2 (p1 ++ a1 :: q1) a1 p1 q1 y x Hn eq_refl Hy Hx (eq_sym F)).
  - injection E as E E2. subst b. cbn [app] in Hn. unfold edges_of in Hn. cbn [List.concat] in Hn. rewrite map_app in Hn.
    assert (Hn2 : NoDup (edges_of (p1 ++ a1 :: q1))) by (revert Hn; unfold edges_of; induction (map fst a) as [|k l I]; [auto|]; cbn; intros Hd; inversion Hd; auto).
    destruct (IH p2 a1 a2 q1 q2 x y E2 Hn2 Hx Hy F) as [-> ->]. auto.
Qed.
Lemma nodup_place (p : list (list edge_vertex)) : forall a q, NoDup (edges_of (p ++ a :: q)) -> NoDup (map fst a).
Proof.
  induction p as [|b p IH]; intros a q H; cbn [app] in H; unfold edges_of in H; cbn [List.concat] in H; rewrite map_app in H.
  - revert H. induction (map fst a) as [|x l I]; [constructor|]. cbn. intros Hd. inversion Hd as [|? ? D1 D2]; subst. constructor; [intros Hx; apply D1, in_or_app; now left|auto].
  - apply (IH a q). revert H. unfold edges_of. induction (map fst b) as [|x l I]; [auto|]. cbn. intros Hd. inversion Hd; auto.
Qed.
Lemma begins_once paths bs p b q c w i :
  Forall2 (drawn es around) paths bs -> NoDup (edges_of paths) -> Forall (fun a => (fst a < ne)%nat) (List.concat paths) ->
  bs = p ++ b :: q -> b_close b = Some c -> hd_error (b_vs b) = Some w -> nth_error (all_vs bs) i = Some w -> i = List.length (all_vs p).
Proof.
  intros Hd Hn Hl E Hc Hw Hi. pose proof Hd as Hd1. rewrite E in Hd1. apply Forall2_split_r in Hd1 as (P & path & Q & EP & LP & D).
  apply find_block in Hi as (p2 & b2 & q2 & E2 & Li & Hi). pose proof Hd as Hd2. rewrite E2 in Hd2. apply Forall2_split_r in Hd2 as (P2 & path2 & Q2 & EP2 & LP2 & D2).
  assert (HlP : Forall (fun a => (fst a < ne)%nat) path).
  { rewrite Forall_forall in *. intros x Hx. apply Hl, in_concat. exists path. split; [rewrite EP; apply in_or_app; right; now left|exact Hx]. }
  assert (HlP2 : Forall (fun a => (fst a < ne)%nat) path2).
  { rewrite Forall_forall in *. intros x Hx. apply Hl, in_concat. exists path2. split; [rewrite EP2; apply in_or_app; right; now left|exact Hx]. }
  destruct D as [? ? ? ? N|ev lst Ch Hlst Hh Hv Evs Ec Hf]; [congruence|]. assert (Ew : vt ev = w).
  { rewrite Evs in Hw. destruct path; [discriminate Hh|]. cbn in Hh, Hw. congruence. }
  pose proof (proj1 (proj2 Hf)) as Hdeg. rewrite Ew in Hdeg.
  destruct D2 as [lst2 Ch2 Hlst2 Evs2 Ec2 Hdeg2|ev2 lst2 Ch2 Hlst2 Hh2 Hv2 Evs2 Ec2 Hf2].
  - exfalso. apply Hdeg2, Hdeg. assert (Hh2 : exists h, hd_error path2 = Some h) by (destruct path2; [discriminate Hlst2|eexists; reflexivity]). destruct Hh2 as (h & Hh2).
    assert (T : linked es (vt h) (vt (flip lst2))).
    { destruct lst2 as [el sl]. unfold flip. cbn [fst snd]. change el with (fst (el, sl)). apply (path_linked es path2 Ch2 HlP2); [exact Hh2|]. now apply nth_error_In in Hlst2. }
    apply linked_trans with (vt h); [|exact T]. apply linked_sym. rewrite Evs2 in Hi. apply nth_error_In, in_map_iff in Hi as (a & <- & Ha).
    apply in_app_iff in Ha as [Ha|[<- |[]]]; [|exact T]. exact (chained_linked es path2 Ch2 HlP2 h Hh2 a Ha).
  - rewrite Evs2 in Hi. pose proof Hi as Hi2. apply nth_error_In, in_map_iff in Hi as (a & Ea & Ha).
    assert (L : linked es (vt ev) (vt ev2)) by (rewrite Ew, <- Ea; apply linked_sym; exact (chained_linked es path2 Ch2 HlP2 ev2 Hh2 a Ha)).
    pose proof (first_same es around _ _ _ _ Hf Hf2 L) as Ef.
    assert (H0 : nth_error path 0 = Some ev) by (destruct path; [discriminate Hh|exact Hh]).
    assert (H02 : nth_error path2 0 = Some ev2) by (destruct path2; [discriminate Hh2|exact Hh2]).
    rewrite EP in EP2. assert (HnP : NoDup (edges_of (P ++ path :: Q))) by now rewrite <- EP.
    destruct (same_place P P2 path path2 Q Q2 ev ev2 EP2 HnP (nth_error_In _ _ H0) (nth_error_In _ _ H02) Ef) as [<- <-].
    assert (Ep : p = p2).
    { rewrite E in E2. revert E2. assert (LL : List.length p = List.length p2) by congruence. clear - LL. revert p2 LL.
      induction p as [|x p IH]; intros [|y p2] L E; try discriminate L; [reflexivity|]. cbn in *. injection E as -> E. f_equal. apply IH; [congruence|exact E]. }
    subst p2. assert (Eev : ev2 = ev) by congruence. subst ev2. assert (El : lst2 = lst) by congruence. subst lst2.
    destruct (Nat.eq_dec i (List.length (all_vs p))) as [|Ne]; [assumption|]. exfalso.
    rewrite nth_error_map in Hi2. destruct (nth_error path (i - List.length (all_vs p))) as [x|] eqn:Ex; [|discriminate Hi2]. cbn [option_map] in Hi2. injection Hi2 as Hx.
    pose proof (nodup_place P path Q HnP) as Hnp. rewrite Forall_forall in HlP.
    assert (Hev : (fst ev < ne)%nat) by (apply HlP; now apply nth_error_In in H0).
    assert (Hls : (fst lst < ne)%nat) by (apply HlP; now apply nth_error_In in Hlst).
    assert (Hxl : (fst x < ne)%nat) by (apply HlP; now apply nth_error_In in Ex).
    assert (N1 : ev <> x) by (intros ->; pose proof (nodup_nth path Hnp _ _ _ _ H0 Ex eq_refl); lia).
    assert (N2 : ev <> flip lst).
    { intros Hy. pose proof (nodup_nth path Hnp _ _ _ _ H0 Hlst ltac:(now rewrite Hy)) as Ez.
      assert (i - List.length (all_vs p) < List.length path)%nat by (apply nth_error_Some; congruence). lia. }
    assert (N3 : x <> flip lst).
    { intros Hy. pose proof (nodup_nth path Hnp _ _ _ _ Ex Hlst ltac:(now rewrite Hy)) as Ez. rewrite Ez, Hlst in Ex. injection Ex as Ex.
      apply (flip_neq lst). congruence. }
    apply (three es around nv G w ev x (flip lst)); [apply Hdeg; constructor| | | |exact N1|exact N2|exact N3].
    + rewrite <- Ew. now apply (ev_in es around nv G).
    + rewrite <- Hx. now apply (ev_in es around nv G).
    + rewrite <- Ew, <- Hv. now apply (flip_in es around nv G).
Qed.
(** The blocks of a curve each loop of which has its number of vertex line. *)
Lemma tidy_blocks paths bs : Forall2 (drawn es around) paths bs -> NoDup (edges_of paths) -> Forall (fun a => (fst a < ne)%nat) (List.concat paths) ->
  numbered 1 bs -> Z.of_nat nv < two32 -> (forall e0 w, first_of_loop es around e0 w -> nth_error (all_vs bs) (Z.to_nat w) = Some w) -> Forall tidy bs.
Proof.
  intros Hd Hn Hl Hnum Hnv K. apply Forall_forall. intros b Hb. apply in_split in Hb as (p & q & E).
  pose proof Hd as Hd1. rewrite E in Hd1. apply Forall2_split_r in Hd1 as (P & path & Q & EP & LP & D).
  assert (HlP : Forall (fun a => (fst a < ne)%nat) path).
  { rewrite Forall_forall in *. intros x Hx. apply Hl, in_concat. exists path. split; [rewrite EP; apply in_or_app; right; now left|exact Hx]. }
  unfold tidy. destruct D as [lst Ch Hlst Evs Ec Hdeg|ev lst Ch Hlst Hh Hv Evs Ec Hf]; rewrite Ec, Evs, map_length.
  - rewrite app_length. destruct path; [discriminate Hlst|]. cbn. lia.
  - destruct path as [|e path]; [discriminate Hh|]. injection Hh as ->. split; [|cbn; lia].
    inversion HlP as [|? ? He _]; subst. pose proof (co_ends _ _ _ G _ _ _ (end_vert es (fst ev) (snd ev) He)) as B. rewrite <- surjective_pairing in B.
    pose proof (K _ _ Hf) as Hi.
    assert (Hw : hd_error (b_vs b) = Some (vt ev)) by now rewrite Evs.
    pose proof (begins_once (P ++ (ev :: path) :: Q) (p ++ b :: q) p b q _ _ _ Hd Hn Hl eq_refl Ec Hw Hi) as Ei.
    apply numbered_split in Hnum as [_ [Ho _]]. rewrite Ho, add32_small by lia. unfold lenz. lia.
Qed.
(** When every closing segment goes to the beginning of its line, each loop has its number of vertex line. *)
Lemma own_lines paths bs e0 w : Forall2 (drawn es around) paths bs -> Permutation (edges_of paths) (seq 0 ne) -> Forall (fun a => (fst a < ne)%nat) (List.concat paths) ->
  numbered 1 bs -> Z.of_nat nv < two32 -> Forall own_close bs -> first_of_loop es around e0 w -> nth_error (all_vs bs) (Z.to_nat w) = Some w.
Proof.
  intros Hd Hp Hl Hnum Hnv Ho Hf. pose proof Hf as (He0 & Hdeg & _). pose proof (end_of_lt es _ _ _ He0) as [Hlt Hw].
  assert (Hi : In e0 (edges_of paths)) by (apply (Permutation_in _ (Permutation_sym Hp)), in_seq; lia).
  apply in_map_iff in Hi as (a & Ea & Ha). apply in_concat in Ha as (path & Hpath & Ha).
  assert (Hl' : Forall (fun a => (fst a < ne)%nat) path).
  { rewrite Forall_forall in *. intros x Hx. apply Hl. apply in_concat. eauto. }
  assert (Hb : exists b, In b bs /\ drawn es around path b).
  { clear - Hd Hpath. induction Hd as [|p b ps bs H _ IH]; [contradiction|]. destruct Hpath as [-> |Hx]; [exists b; cbn; auto|]. destruct (IH Hx) as (c & H1 & H2). exists c. cbn. auto. }
  destruct Hb as (b & Hb & D). destruct D as [lst Hc Hlst E Ec Hd2|ev lst Hc Hlst Hh Hv E Ec Hf2].
  - exfalso. apply Hd2, Hdeg. assert (Hh : exists h, hd_error path = Some h) by (destruct path; [contradiction|eexists; reflexivity]). destruct Hh as (h & Hh).
    apply linked_trans with (vt h).
    + apply linked_sym. rewrite <- Hw, <- Ea. now apply (path_linked es path Hc Hl').
    + destruct lst as [el sl]. unfold flip. cbn [fst snd]. change el with (fst (el, sl)). apply (path_linked es path Hc Hl'); [exact Hh|]. now apply nth_error_In in Hlst.
  - assert (L : linked es (vt ev) w) by (rewrite <- Hw, <- Ea; now apply (path_linked es path Hc Hl')).
    pose proof (first_same es around _ _ _ _ Hf2 Hf L) as Ee. assert (Ew : vt ev = w) by (destruct Hf2 as [K _]; rewrite Ee in K; congruence).
    pose proof (co_ends _ _ _ G _ _ _ He0) as Bw. rewrite Forall_forall in Ho. specialize (Ho b Hb). unfold own_close in Ho. rewrite Ec, Ew in Ho.
    destruct Ho as [Ho|Ho]; [discriminate Ho|]. injection Ho as Ho. rewrite add32_small in Ho by lia.
    apply in_split in Hb as (p & q & ->). apply numbered_split in Hnum as [_ [Hnum _]].
    rewrite all_vs_split, nth_error_app2 by (unfold lenz in *; lia). replace (Z.to_nat w - List.length (all_vs p))%nat with O by (unfold lenz in *; lia).
    unfold all_vs. cbn [flat_map]. rewrite E. destruct path; [discriminate Hh|]. injection Hh as ->. cbn. congruence.
Qed.
End Once.
