(** * DEM rasters (C27, C28). *)
From Coq Require Import ZArith List Lia Bool.
From Verif Require Import Base DemModel.
Import ListNotations.
Local Open Scope Z_scope.

(** ** Specification *)

(** Pixels (row, column) in row-major order. *)
Definition grid (rows cols : Z) : list (Z * Z) :=
  flat_map (fun i => map (fun j => (Z.of_nat i, Z.of_nat j)) (seq 0 (Z.to_nat cols))) (seq 0 (Z.to_nat rows)).
Definition elevation_at {E} (width : Z) (elevation : list E) (p : Z * Z) : option E :=
  nth_error elevation (Z.to_nat (fst p * width + snd p)).
Definition has_data {E} (no_data : E -> bool) (width : Z) (elevation : list E) (p : Z * Z) : bool :=
  match elevation_at width elevation p with Some e => negb (no_data e) | None => false end.
(** The four pixels of the block whose first pixel is [p], in the order of the code. *)
Definition corners (p : Z * Z) : list (Z * Z) :=
  [(fst p, snd p); (fst p, snd p + 1); (fst p + 1, snd p); (fst p + 1, snd p + 1)].

(** ** Facts *)
Lemma foldM_nested {S A B} (f : S -> A * B -> res S) (inner : list B) (l : list A) s :
  foldM (fun st i => foldM (fun st j => f st (i, j)) inner st) l s
  = foldM f (flat_map (fun i => map (fun j => (i, j)) inner) l) s.
Proof.
  revert s. induction l as [|i l IH]; intros s; [reflexivity|]. cbn [foldM flat_map]. rewrite foldM_app.
  assert (E : forall t, foldM (fun st j => f st (i, j)) inner t = foldM f (map (fun j => (i, j)) inner) t).
  { induction inner as [|j inner IHi]; intros t; [reflexivity|]. cbn [foldM map]. apply bind_ext. intros a _.
    assert (H : forall l' t', foldM (fun st j => f st (i, j)) l' t' = foldM f (map (fun j => (i, j)) l') t').
    { clear. induction l' as [|j l' IH]; intros t'; [reflexivity|]. cbn [foldM map]. apply bind_ext. intros a _. apply IH. }
    apply H. }
  rewrite E. apply bind_ext. intros a _. apply IH.
Qed.
Lemma rangez_seq n : forall a, rangez (Z.of_nat a) n = map Z.of_nat (seq a n).
Proof.
  induction n as [|n IH]; intros a; [reflexivity|]. cbn [rangez seq map]. f_equal.
  replace (Z.of_nat a + 1) with (Z.of_nat (S a)) by lia. apply IH.
Qed.
Lemma grid_rangez rows cols :
  flat_map (fun i => map (fun j => (i, j)) (rangez 0 (Z.to_nat cols))) (rangez 0 (Z.to_nat rows)) = grid rows cols.
Proof.
  unfold grid. assert (R : forall n, rangez 0 n = map Z.of_nat (seq 0 n)) by (intros n; apply (rangez_seq n 0%nat)). rewrite !R.
  rewrite !flat_map_concat_map, map_map. f_equal. apply map_ext. intros i. now rewrite map_map.
Qed.
Lemma in_grid rows cols i j : 0 <= rows -> 0 <= cols -> In (i, j) (grid rows cols) <-> 0 <= i < rows /\ 0 <= j < cols.
Proof.
  intros Hr Hc. unfold grid. rewrite in_flat_map. split.
  - intros [a [Ha H]]. apply in_map_iff in H as [b [E Hb]]. injection E as <- <-. apply in_seq in Ha, Hb. lia.
  - intros [H1 H2]. exists (Z.to_nat i). split; [apply in_seq; lia|]. apply in_map_iff. exists (Z.to_nat j).
    split; [f_equal; lia|apply in_seq; lia].
Qed.
Lemma grid_index rows cols : 0 <= cols ->
  map (fun p => fst p * cols + snd p) (grid rows cols) = rangez 0 (Z.to_nat rows * Z.to_nat cols).
Proof.
  intros Hc. unfold grid. induction (Z.to_nat rows) as [|n IH]; [reflexivity|].
  rewrite seq_S, flat_map_app, map_app, IH. cbn [flat_map]. rewrite app_nil_r.
  replace (S n * Z.to_nat cols)%nat with (n * Z.to_nat cols + Z.to_nat cols)%nat by lia. rewrite rangez_app. f_equal.
  rewrite map_map. cbn [fst snd]. rewrite Z.add_0_l.
  assert (G : forall m a, map (fun x => Z.of_nat (0 + n) * cols + Z.of_nat x) (seq a m) = rangez (Z.of_nat (0 + n) * cols + Z.of_nat a) m).
  { induction m as [|m IHm]; intros a; [reflexivity|]. cbn [seq map rangez]. f_equal. rewrite IHm. f_equal. lia. }
  rewrite G. f_equal. lia.
Qed.
Lemma grid_length rows cols : List.length (grid rows cols) = (Z.to_nat rows * Z.to_nat cols)%nat.
Proof.
  unfold grid. induction (Z.to_nat rows) as [|n IH]; [reflexivity|].
  rewrite seq_S, flat_map_app, app_length, IH. cbn [flat_map]. rewrite app_nil_r, map_length, seq_length. lia.
Qed.
Lemma rangez_nodup n : forall a, NoDup (rangez a n).
Proof. induction n as [|n IH]; intros a; constructor; [|apply IH]. intros H. apply in_rangez in H. lia. Qed.
(** The pixels are pairwise different. *)
Lemma grid_nodup rows cols : 0 <= cols -> NoDup (grid rows cols).
Proof. intros H. eapply NoDup_map_inv. rewrite (grid_index rows cols H). apply rangez_nodup. Qed.

Section Proofs.
Context {E P : Type} (no_data : E -> bool) (point : Z -> Z -> E -> P).
Context (width height : Z) (elevation : list E).
Context (Hw : 1 <= width) (Hh : 1 <= height) (Hlt : width * height < two32)
        (Hlen : Z.of_nat (List.length elevation) = width * height).
Definition valid : Z * Z -> bool := has_data no_data width elevation.
Definition pt (p : Z * Z) : list P :=
  match elevation_at width elevation p with Some e => [point (fst p) (snd p) e] | None => [] end.
(** Vertices given to the pixels of [l] when [c] points exist already. *)
Fixpoint number (c : Z) (l : list (Z * Z)) : list Z :=
  match l with
  | [] => []
  | p :: r => if valid p then c :: number (c + 1) r else NO_ID :: number c r
  end.
Lemma number_app l1 l2 : forall c, number c (l1 ++ l2) = number c l1 ++ number (c + Z.of_nat (List.length (filter valid l1))) l2.
Proof.
  induction l1 as [|p l1 IH]; intros c; cbn [app number filter List.length]; [now rewrite Z.add_0_r|].
  destruct (valid p); cbn [app List.length]; rewrite IH; [|reflexivity]. f_equal. f_equal. f_equal. lia.
Qed.
Lemma number_length l : forall c, List.length (number c l) = List.length l.
Proof. induction l as [|p l IH]; intros c; cbn [number]; [reflexivity|]. destruct (valid p); cbn; now rewrite IH. Qed.
Lemma pixel_elevation p : In p (grid height width) ->
  0 <= fst p * width + snd p < width * height /\ add32 (mul32 (fst p) width) (snd p) = fst p * width + snd p /\
  exists e, elevation_at width elevation p = Some e /\ idxz elevation (fst p * width + snd p) = Ok e.
Proof.
  destruct p as [i j]. intros H. apply in_grid in H as [Hi Hj]; [|lia|lia]. cbn [fst snd].
  assert (B : 0 <= i * width + j < width * height) by nia.
  split; [assumption|]. split.
  - unfold mul32. rewrite wrap32_small by nia. apply add32_small; nia.
  - unfold elevation_at. cbn [fst snd]. destruct (nthz_in_range elevation (i * width + j)) as [e He]; [lia|].
    exists e. unfold idxz. rewrite He. apply nthz_some in He as [_ He]. auto.
Qed.
Lemma upd_middle {A} (a : list A) x b y : upd (a ++ x :: b) (List.length a) y = a ++ y :: b.
Proof. induction a as [|z a IH]; [reflexivity|]. cbn. now rewrite IH. Qed.
Lemma pixels_fold post : forall pre, grid height width = pre ++ post ->
  foldM (dem_pixel no_data point width elevation) post
    (number 0 pre ++ repeat NO_ID (List.length post), flat_map pt (filter valid pre))
  = Ok (number 0 (pre ++ post), flat_map pt (filter valid (pre ++ post))).
Proof.
  induction post as [|p post IH]; intros pre G.
  - cbn. now rewrite !app_nil_r.
  - cbn [foldM List.length repeat].
    assert (Hin : In p (grid height width)) by (rewrite G; apply in_app_iff; right; now left).
    destruct (pixel_elevation p Hin) as [B [Ei [e [He Hx]]]].
    assert (Hidx : fst p * width + snd p = Z.of_nat (List.length pre)).
    { pose proof (grid_index height width ltac:(lia)) as GI. rewrite G, map_app in GI. cbn [map] in GI.
      apply (f_equal (fun l => nth_error l (List.length pre))) in GI.
      rewrite nth_error_app2 in GI by (rewrite map_length; lia). rewrite map_length, Nat.sub_diag in GI. cbn [nth_error] in GI.
      assert (L : (List.length pre < Z.to_nat height * Z.to_nat width)%nat).
      { rewrite <- grid_length, G, app_length. cbn. lia. }
      rewrite rangez_nth in GI by exact L. injection GI as GI. lia. }
    unfold dem_pixel at 1. destruct p as [i j]. cbn [fst snd] in *. rewrite Ei, Hx. cbn [bind].
    assert (Hval : valid (i, j) = negb (no_data e)) by (unfold valid, has_data; now rewrite He).
    pose proof (IH (pre ++ [(i, j)])) as IH'. rewrite <- app_assoc in IH'. cbn [app] in IH'. specialize (IH' G).
    rewrite <- IH'. rewrite number_app, filter_app, flat_map_app. cbn [filter number]. rewrite Hval.
    destruct (no_data e); cbn [negb].
    + cbn [flat_map bind]. rewrite app_nil_r, <- app_assoc. reflexivity.
    + assert (Lp : List.length (flat_map pt (filter valid pre)) = List.length (filter valid pre)).
      { assert (A : forall q, In q pre -> List.length (pt q) = 1%nat).
        { intros q Hq. unfold pt. destruct (pixel_elevation q) as [_ [_ [e' [-> _]]]]; [|reflexivity].
          rewrite G. apply in_app_iff. now left. }
        clear - A. induction pre as [|q pre IHq]; [reflexivity|]. cbn [filter].
        assert (IHq' : List.length (flat_map pt (filter valid pre)) = List.length (filter valid pre)) by (apply IHq; intros; apply A; now right).
        destruct (valid q); [|exact IHq']. cbn [flat_map List.length]. rewrite app_length, IHq', A by now left. reflexivity. }
      rewrite Hidx. unfold setz. rewrite app_length, number_length. cbn [List.length].
      rewrite (proj2 (Z.leb_le 0 _)) by lia. rewrite (proj2 (Z.ltb_lt _ _)) by lia. cbn [andb bind].
      rewrite Nat2Z.id, <- (number_length pre 0), upd_middle, <- app_assoc. cbn [app].
      rewrite Lp, Z.add_0_l. cbn [flat_map]. unfold pt at 3. rewrite He. cbn [fst snd app]. reflexivity.
Qed.
Lemma dem_vertices_ok :
  dem_vertices no_data point width height elevation
  = Ok (number 0 (grid height width), flat_map pt (filter valid (grid height width))).
Proof.
  unfold dem_vertices. rewrite (foldM_nested (dem_pixel no_data point width elevation)), grid_rangez.
  pose proof (pixels_fold (grid height width) [] eq_refl) as F. cbn [app number filter flat_map] in F. rewrite <- F.
  do 3 f_equal. rewrite grid_length. unfold mul32. rewrite wrap32_small by lia. lia.
Qed.
(** The vertex of a pixel. *)
Lemma number_nth : forall l c k p, nth_error l k = Some p ->
  nth_error (number c l) k = Some (if valid p then c + Z.of_nat (List.length (filter valid (firstn k l))) else NO_ID).
Proof.
  induction l as [|q l IH]; intros c k p H; [destruct k; discriminate|]. destruct k as [|k]; cbn [nth_error firstn filter] in *.
  - injection H as <-. cbn [number]. destruct (valid q); cbn; [now rewrite Z.add_0_r|reflexivity].
  - cbn [number]. destruct (valid q); cbn [nth_error List.length]; rewrite (IH _ _ _ H); [|reflexivity].
    f_equal. destruct (valid p); [lia|reflexivity].
Qed.
Lemma valid_rank : forall l k p, nth_error l k = Some p -> valid p = true ->
  nth_error (filter valid l) (List.length (filter valid (firstn k l))) = Some p.
Proof.
  induction l as [|q l IH]; intros k p H Hp; [destruct k; discriminate|]. destruct k as [|k]; cbn [nth_error firstn filter] in *.
  - injection H as <-. now rewrite Hp.
  - destruct (valid q); cbn [List.length nth_error]; now apply IH.
Qed.
Lemma grid_nth p : In p (grid height width) -> nth_error (grid height width) (Z.to_nat (fst p * width + snd p)) = Some p.
Proof.
  intros H. apply In_nth_error in H as [k Hk].
  pose proof (grid_index height width ltac:(lia)) as GI. apply (f_equal (fun l => nth_error l k)) in GI.
  rewrite (map_nth_error _ _ _ Hk) in GI.
  assert (L : (k < Z.to_nat height * Z.to_nat width)%nat) by (rewrite <- grid_length; apply nth_error_Some; congruence).
  rewrite rangez_nth in GI by exact L. assert (GI' : fst p * width + snd p = 0 + Z.of_nat k) by congruence.
  rewrite GI', Z.add_0_l, Nat2Z.id. exact Hk.
Qed.
Definition vertex_of (p : Z * Z) : Z :=
  Z.of_nat (List.length (filter valid (firstn (Z.to_nat (fst p * width + snd p)) (grid height width)))).
Lemma lookup p : In p (grid height width) ->
  idxz (number 0 (grid height width)) (fst p * width + snd p) = Ok (if valid p then vertex_of p else NO_ID) /\
  (valid p = true -> vertex_of p <> NO_ID /\ nth_error (filter valid (grid height width)) (Z.to_nat (vertex_of p)) = Some p).
Proof.
  intros H. pose proof (grid_nth p H) as G. destruct (pixel_elevation p H) as [B _]. split.
  - unfold idxz. replace (fst p * width + snd p) with (Z.of_nat (Z.to_nat (fst p * width + snd p))) at 1 by lia.
    rewrite nthz_nat, (number_nth _ _ _ _ G). reflexivity.
  - intros Hp. pose proof (valid_rank _ _ _ G Hp) as R. unfold vertex_of. rewrite Nat2Z.id. split; [|exact R].
    assert (L : (List.length (filter valid (firstn (Z.to_nat (fst p * width + snd p)) (grid height width))) < List.length (filter valid (grid height width)))%nat)
      by (apply nth_error_Some; congruence).
    assert (L2 : (List.length (filter valid (grid height width)) <= List.length (grid height width))%nat).
    { clear. induction (grid height width) as [|q l IH]; cbn; [lia|]. destruct (valid q); cbn; lia. }
    rewrite grid_length in L2. unfold NO_ID, two32 in *. nia.
Qed.
Lemma resolve_ok ps : Forall (fun p => In p (grid height width)) ps ->
  dem_resolve (number 0 (grid height width)) (map (fun p => fst p * width + snd p) ps)
  = Ok (if forallb valid ps then Some (map vertex_of ps) else None).
Proof.
  induction 1 as [|p ps Hp Hps IH]; [reflexivity|]. cbn [map dem_resolve forallb].
  destruct (lookup p Hp) as [L1 L2]. rewrite L1. cbn [bind]. destruct (valid p); cbn [andb]; [|now rewrite Z.eqb_refl].
  destruct (L2 eq_refl) as [N _]. rewrite (proj2 (Z.eqb_neq _ _) N), IH. cbn [bind]. destruct (forallb valid ps); reflexivity.
Qed.
Definition complete (p : Z * Z) : bool := forallb valid (corners p).
Lemma block_corners p : In p (grid (height - 1) (width - 1)) -> Forall (fun q => In q (grid height width)) (corners p).
Proof.
  destruct p as [i j]. intros H. apply in_grid in H; [|lia|lia]. unfold corners. cbn [fst snd].
  repeat (apply Forall_cons; [apply in_grid; lia|]). constructor.
Qed.
Lemma blocks_fold l : (forall p, In p l -> In p (grid (height - 1) (width - 1))) -> forall acc,
  foldM (dem_block width (number 0 (grid height width))) l acc
  = Ok (acc ++ map (fun p => map vertex_of (corners p)) (filter complete l)).
Proof.
  induction l as [|p l IH]; intros Hl acc; [cbn; now rewrite app_nil_r|]. cbn [foldM].
  assert (Hp : In p (grid (height - 1) (width - 1))) by (apply Hl; now left).
  pose proof (resolve_ok (corners p) (block_corners p Hp)) as R.
  unfold dem_block at 1. destruct p as [i j]. apply in_grid in Hp; [|lia|lia]. destruct Hp as [Hi Hj].
  assert (M : mul32 i width = i * width) by (unfold mul32; rewrite wrap32_small; nia). rewrite M.
  rewrite (add32_small j width) by nia. rewrite (add32_small (i * width) j) by nia.
  rewrite (add32_small (i * width + j) 1) by nia. rewrite (add32_small (i * width) (j + width)) by nia.
  rewrite add32_small by nia. unfold corners in R. cbn [map fst snd] in R.
  replace (i * width + (j + 1)) with (i * width + j + 1) in R by lia.
  replace ((i + 1) * width + j) with (i * width + (j + width)) in R by lia.
  replace ((i + 1) * width + (j + 1)) with (i * width + (j + width) + 1) in R by lia.
  rewrite R. cbn [bind filter]. rewrite IH by (intros; apply Hl; now right).
  change (complete (i, j)) with (forallb valid [(i, j); (i, j + 1); (i + 1, j); (i + 1, j + 1)]).
  destruct (forallb valid [(i, j); (i, j + 1); (i + 1, j); (i + 1, j + 1)]); [|reflexivity].
  rewrite <- app_assoc. reflexivity.
Qed.
Lemma dem_polygons_ok :
  dem_polygons width height (number 0 (grid height width))
  = Ok (map (fun p => map vertex_of (corners p)) (filter complete (grid (height - 1) (width - 1)))).
Proof.
  unfold dem_polygons. rewrite (foldM_nested (dem_block width (number 0 (grid height width)))).
  assert (Hw2 : width < two32) by nia. assert (Hh2 : height < two32) by nia.
  rewrite !sub32_small by lia. rewrite grid_rangez, blocks_fold by auto. reflexivity.
Qed.
End Proofs.

(** C27.  One vertex per pixel with data, in row-major order; one polygon per block of four pixels
    with data, in row-major order, on the vertices of these four pixels. *)
Theorem C27_dem_vertices_polygons :
  forall (E P : Type) (no_data : E -> bool) (point : Z -> Z -> E -> P) (width height : Z) (elevation : list E),
    1 <= width -> 1 <= height -> width * height < 2 ^ 32 -> Z.of_nat (List.length elevation) = width * height ->
    let data := has_data no_data width elevation in
    let pixels := filter data (grid height width) in
    exists points polygons,
      read_dem no_data point width height elevation = Ok (points, polygons) /\
      Forall2 (fun p x => exists e, elevation_at width elevation p = Some e /\ x = point (fst p) (snd p) e) pixels points /\
      map (map (fun v => nth_error pixels (Z.to_nat v))) polygons
      = map (fun p => map Some (corners p)) (filter (fun p => forallb data (corners p)) (grid (height - 1) (width - 1))) /\
      Forall (Forall (fun v => 0 <= v)) polygons.
Proof.
  intros E P no_data point width height elevation Hw Hh Hlt Hlen data pixels. change (2 ^ 32) with two32 in Hlt.
  unfold read_dem. rewrite dem_vertices_ok by assumption. cbn [bind].
  rewrite (dem_polygons_ok no_data width height elevation) by assumption. cbn [bind].
  eexists. eexists. split; [reflexivity|]. change (valid no_data width elevation) with data. fold pixels. split; [|split].
  - assert (A : forall p, In p pixels -> exists e, elevation_at width elevation p = Some e).
    { intros p Hp. apply filter_In in Hp as [Hp _].
      destruct (pixel_elevation width height elevation Hw Hh Hlt Hlen p Hp) as [_ [_ [e [He _]]]]. eauto. }
    clear - A. induction pixels as [|p l IH]; [constructor|]. cbn [flat_map]. unfold pt at 1.
    destruct (A p (or_introl eq_refl)) as [e He]. rewrite He. cbn [app]. constructor; [eauto|]. apply IH. intros; apply A; now right.
  - rewrite map_map. apply map_ext_in. intros p Hp. apply filter_In in Hp as [Hp Hc]. rewrite map_map. apply map_ext_in.
    intros q Hq. unfold complete in Hc. rewrite forallb_forall in Hc. specialize (Hc q Hq).
    assert (B : Forall (fun q => In q (grid height width)) (corners p)) by (eapply block_corners; eassumption). rewrite Forall_forall in B. specialize (B q Hq).
    destruct (lookup no_data width height elevation Hw Hh Hlt Hlen q B) as [_ L]. now apply L.
  - apply Forall_forall. intros poly H. apply in_map_iff in H as [p [<- _]]. apply Forall_map. apply Forall_forall. intros q _.
    unfold vertex_of. lia.
Qed.
Print Assumptions C27_dem_vertices_polygons.
(** A raster of 3 columns and 3 rows whose last pixel has no data (value 0). *)
Example C27_instance :
  read_dem (fun e => e =? 0) (fun i j e => (i, j, e)) 3 3 [5; 6; 7; 8; 9; 4; 3; 2; 0]
  = Ok ([(0, 0, 5); (0, 1, 6); (0, 2, 7); (1, 0, 8); (1, 1, 9); (1, 2, 4); (2, 0, 3); (2, 1, 2)],
        [[0; 1; 3; 4]; [1; 2; 4; 5]; [3; 4; 6; 7]]).
Proof. vm_compute. reflexivity. Qed.

(** C28.  False of every polygon: the second and the third corner are diagonal pixels, so that the
    sides of each polygon cross. *)
Definition neighbours (p q : Z * Z) : Prop := Z.abs (fst p - fst q) + Z.abs (snd p - snd q) = 1.
Theorem C28_dem_simple_quads_refuted :
  exists (E P : Type) (no_data : E -> bool) (point : Z -> Z -> E -> P) (width height : Z) (elevation : list E)
      (points : list P) (polygon : list Z) (v w : Z) (p q : Z * Z),
    Z.of_nat (List.length elevation) = width * height /\
    read_dem no_data point width height elevation = Ok (points, [polygon]) /\
    nth_error polygon 1 = Some v /\ nth_error polygon 2 = Some w /\
    let pixels := filter (has_data no_data width elevation) (grid height width) in
    nth_error pixels (Z.to_nat v) = Some p /\ nth_error pixels (Z.to_nat w) = Some q /\ ~ neighbours p q.
Proof.
  exists Z, (Z * Z * Z)%type, (fun e => e =? 0), (fun i j e => (i, j, e)), 2, 2, [1; 1; 1; 1].
  exists [(0, 0, 1); (0, 1, 1); (1, 0, 1); (1, 1, 1)], [0; 1; 2; 3], 1, 2, (0, 1), (1, 0).
  repeat (split; [vm_compute; reflexivity|]). unfold neighbours. cbn. lia.
Qed.
Print Assumptions C28_dem_simple_quads_refuted.
Theorem C28_every_polygon_crosses :
  forall (E P : Type) (no_data : E -> bool) (point : Z -> Z -> E -> P) (width height : Z) (elevation : list E) points polygons,
    1 <= width -> 1 <= height -> width * height < 2 ^ 32 -> Z.of_nat (List.length elevation) = width * height ->
    read_dem no_data point width height elevation = Ok (points, polygons) ->
    let pixels := filter (has_data no_data width elevation) (grid height width) in
    Forall (fun polygon => exists a b c d, map (fun v => nth_error pixels (Z.to_nat v)) polygon = [Some a; Some b; Some c; Some d] /\
      neighbours a b /\ ~ neighbours b c /\ neighbours c d /\ ~ neighbours d a) polygons.
Proof.
  intros E P no_data point width height elevation points polygons Hw Hh Hlt Hlen H pixels.
  destruct (C27_dem_vertices_polygons E P no_data point width height elevation Hw Hh Hlt Hlen) as [pts [polys [R [_ [M _]]]]].
  rewrite R in H. injection H as <- <-. fold pixels in M. clear R. revert M.
  generalize (filter (fun p => forallb (has_data no_data width elevation) (corners p)) (grid (height - 1) (width - 1))).
  induction polys as [|poly polys IH]; intros l M; [constructor|]. destruct l as [|p l]; [discriminate|].
  cbn [map] in M. injection M as M1 M2. constructor; [|now apply (IH l)].
  destruct p as [i j]. exists (i, j), (i, j + 1), (i + 1, j), (i + 1, j + 1). split; [exact M1|].
  unfold neighbours. cbn [fst snd]. repeat split; lia.
Qed.
Print Assumptions C28_every_polygon_crosses.
