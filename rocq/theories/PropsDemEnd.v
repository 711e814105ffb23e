(** * DEM rasters: which ones are loaded, and the mesh that is loaded (C135). *)
From Coq Require Import ZArith List Lia Bool FinFun.
From Verif Require Import Base DemModel PropsDem.
Import ListNotations.
Local Open Scope Z_scope.

(** ** Specification *)
(** The block of pixel [p] lies in the raster and its four pixels have data *)
Definition full_block {E} (no_data : E -> bool) (width height : Z) (elevation : list E) (p : Z * Z) : Prop :=
  0 <= fst p < height - 1 /\ 0 <= snd p < width - 1 /\ Forall (fun q => has_data no_data width elevation q = true) (corners p).

(** ** Facts *)
Lemma fold_ok_all {A S} (f : S -> A -> res S) : forall l s s', foldM f l s = Ok s' -> Forall (fun x => exists t t', f t x = Ok t') l.
Proof.
  intros l. induction l as [|x l IH]; intros s s' E; cbn [foldM] in E; [constructor|].
  destruct (f s x) as [s1|e| |] eqn:E1; cbn [bind] in E; try discriminate E. constructor; [now exists s, s1|]. eapply IH. exact E.
Qed.
Lemma fold_ok_ub {A S} (f : S -> A -> res S) : (forall s x, (exists t, f s x = Ok t) \/ f s x = UB) ->
  forall l s, (exists t, foldM f l s = Ok t) \/ foldM f l s = UB.
Proof.
  intros H l. induction l as [|x l IH]; intros s; cbn [foldM]; [left; now exists s|].
  destruct (H s x) as [(t & E)|E]; rewrite E; cbn [bind]; [apply IH|now right].
Qed.
Lemma idxz_two {A} (l : list A) i : (exists x, idxz l i = Ok x) \/ idxz l i = UB.
Proof. unfold idxz. destruct (nthz l i); [left; eexists; reflexivity|now right]. Qed.
Lemma setz_two {A} (l : list A) i x : (exists y, setz l i x = Ok y) \/ setz l i x = UB.
Proof. unfold setz. destruct ((0 <=? i) && (i <? Z.of_nat (List.length l))); [left; eexists; reflexivity|now right]. Qed.
Section Facts.
Context {E P : Type} (no_data : E -> bool) (point : Z -> Z -> E -> P).
Lemma pixel_two width elevation st ij : (exists t, dem_pixel no_data point width elevation st ij = Ok t) \/ dem_pixel no_data point width elevation st ij = UB.
Proof.
  destruct st as [vs ps], ij as [i j]. unfold dem_pixel. destruct (idxz_two elevation (add32 (mul32 i width) j)) as [(e & ->)| ->]; cbn [bind]; [|now right].
  destruct (no_data e); [left; eexists; reflexivity|].
  destruct (setz_two vs (add32 (mul32 i width) j) (Z.of_nat (List.length ps))) as [(v & ->)| ->]; cbn [bind]; [left; eexists; reflexivity|now right].
Qed.
Lemma vertices_overflow width height elevation : 1 <= width < two32 -> 1 <= height < two32 -> two32 <= width * height ->
  Z.of_nat (List.length elevation) = wrap32 (width * height) -> dem_vertices no_data point width height elevation = UB.
Proof.
  intros Hw Hh Ho L. unfold dem_vertices. rewrite (foldM_nested (dem_pixel no_data point width elevation)), grid_rangez.
  destruct (fold_ok_ub (dem_pixel no_data point width elevation) (pixel_two width elevation) (grid height width)
    (repeat NO_ID (Z.to_nat (mul32 width height)), [])) as [(t & K)|K]; [|exact K].
  exfalso. apply fold_ok_all in K. rewrite Forall_forall in K.
  set (n := wrap32 (width * height)) in *. assert (N : 0 <= n < two32) by (apply Z.mod_pos_bound; reflexivity).
  pose proof (Z.div_mod n width ltac:(lia)) as D. pose proof (Z.mod_pos_bound n width ltac:(lia)) as M.
  assert (D0 : 0 <= n / width) by (apply Z.div_pos; lia).
  assert (D1 : n / width < height) by (apply Z.div_lt_upper_bound; lia).
  destruct (K (n / width, n mod width)) as ([vs ps] & t' & Q). { apply in_grid; lia. }
  unfold dem_pixel in Q.
  assert (V : add32 (mul32 (n / width) width) (n mod width) = n).
  { unfold add32, mul32, wrap32. assert (B : 0 <= n / width * width <= n) by nia. rewrite (Z.mod_small (n / width * width)) by lia.
    rewrite Z.mod_small; lia. }
  rewrite V in Q. unfold idxz in Q. assert (X : nthz elevation n = None) by (apply nthz_none; rewrite L; lia).
  rewrite X in Q. discriminate Q.
Qed.
Lemma grid_nodup rows cols : 0 <= cols -> NoDup (grid rows cols).
Proof.
  intros H. apply (NoDup_map_inv (fun p => fst p * cols + snd p)). rewrite grid_index by exact H.
  generalize (Z.to_nat rows * Z.to_nat cols)%nat as n. generalize 0 as a. intros a n. revert a. induction n as [|n IH]; intros a; cbn [rangez]; constructor; [|apply IH].
  intros K. apply in_rangez in K. lia.
Qed.
Lemma grid_length rows cols : 0 <= rows -> 0 <= cols -> Z.of_nat (List.length (grid rows cols)) = rows * cols.
Proof.
  intros H1 H2. rewrite <- (map_length (fun p => fst p * cols + snd p)), grid_index, rangez_length by exact H2. nia.
Qed.
End Facts.
Lemma corners_nodup p : NoDup (corners p).
Proof.
  destruct p as [i j]. unfold corners. cbn [fst snd].
  repeat constructor; cbn [In]; intros K; repeat (destruct K as [K|K]; [injection K; lia|]); exact K.
Qed.
Lemma nth_error_nodup {A} (l : list A) i j x : NoDup l -> nth_error l i = Some x -> nth_error l j = Some x -> i = j.
Proof. intros N A1 A2. apply (proj1 (NoDup_nth_error l) N); [apply nth_error_Some; congruence|congruence]. Qed.

(** ** Theorems *)

(** C135.  A raster is loaded exactly when it has fewer than 2^32 pixels.  The numbers of pixels are computed on 32 bits: above, the arrays of
    elevations and vertices are too short and are accessed out of bounds. *)
Theorem C135_size : forall (E P : Type) (no_data : E -> bool) (point : Z -> Z -> E -> P) (width height : Z) (elevation : list E),
  1 <= width < 2 ^ 32 -> 1 <= height < 2 ^ 32 -> Z.of_nat (List.length elevation) = width * height mod 2 ^ 32 ->
  (width * height < 2 ^ 32 -> exists r, read_dem no_data point width height elevation = Ok r) /\
  (2 ^ 32 <= width * height -> read_dem no_data point width height elevation = UB).
Proof.
  intros E P no_data point width height elevation Hw Hh L. change (2 ^ 32) with two32 in *. split; intros H.
  - rewrite Z.mod_small in L by nia.
    destruct (C27_dem_vertices_polygons E P no_data point width height elevation ltac:(lia) ltac:(lia) H L) as (pts & polys & R & _). eexists. exact R.
  - unfold read_dem. now rewrite vertices_overflow.
Qed.
Print Assumptions C135_size.

(** The mesh: one vertex for each pixel with data; polygons join four distinct existing vertices; a vertex is in a polygon exactly when its
    pixel is in a full block, so the others are isolated; a raster without missing data has all its blocks. *)
Theorem C135_mesh : forall (E P : Type) (no_data : E -> bool) (point : Z -> Z -> E -> P) (width height : Z) (elevation : list E) points polygons,
  1 <= width -> 1 <= height -> width * height < 2 ^ 32 -> Z.of_nat (List.length elevation) = width * height ->
  read_dem no_data point width height elevation = Ok (points, polygons) ->
  let pixels := filter (has_data no_data width elevation) (grid height width) in
  List.length points = List.length pixels /\
  Forall (fun polygon => List.length polygon = 4%nat /\ NoDup polygon /\ Forall (fun v => 0 <= v < Z.of_nat (List.length points)) polygon) polygons /\
  (forall v p, 0 <= v -> nth_error pixels (Z.to_nat v) = Some p ->
     ((exists polygon, In polygon polygons /\ In v polygon) <-> exists b, full_block no_data width height elevation b /\ In p (corners b))) /\
  (Forall (fun e => no_data e = false) elevation ->
     Z.of_nat (List.length points) = width * height /\ Z.of_nat (List.length polygons) = (width - 1) * (height - 1)).
Proof.
  intros E P no_data point width height elevation points polygons Hw Hh Hlt L R pixels.
  destruct (C27_dem_vertices_polygons E P no_data point width height elevation Hw Hh Hlt L) as (pts & polys & R' & F & M & N).
  rewrite R' in R. injection R as <- <-. fold pixels in F, M. clear R'.
  assert (LP : List.length pts = List.length pixels) by (symmetry; clear -F; induction F; cbn [List.length]; congruence).
  assert (ND : NoDup pixels) by (apply NoDup_filter, grid_nodup; lia).
  assert (X : forall poly, In poly polys -> exists b, full_block no_data width height elevation b /\
     map (fun v => nth_error pixels (Z.to_nat v)) poly = map Some (corners b)).
  { intros poly Hp. assert (Q : In (map (fun v => nth_error pixels (Z.to_nat v)) poly) (map (map (fun v => nth_error pixels (Z.to_nat v))) polys)) by now apply in_map.
    rewrite M in Q. apply in_map_iff in Q. destruct Q as ([i j] & Q & HI). apply filter_In in HI. destruct HI as (H1 & H2). exists (i, j).
    apply in_grid in H1; [|lia|lia]. split; [|now symmetry]. rewrite forallb_forall in H2. unfold full_block. cbn [fst snd]. split; [lia|split; [lia|]]. now apply Forall_forall. }
  assert (Y : forall b, full_block no_data width height elevation b -> exists poly, In poly polys /\ map (fun v => nth_error pixels (Z.to_nat v)) poly = map Some (corners b)).
  { intros [i j] (H1 & H2 & H3). cbn [fst snd] in *.
    assert (Q : In (map Some (corners (i, j))) (map (fun p => map Some (corners p)) (filter (fun p => forallb (has_data no_data width elevation) (corners p)) (grid (height - 1) (width - 1))))).
    { apply (in_map (fun p => map Some (corners p))). apply filter_In. split; [apply in_grid; lia|]. apply forallb_forall. now apply Forall_forall. }
    rewrite <- M in Q. apply in_map_iff in Q. destruct Q as (poly & Q & HI). now exists poly. }
  split; [exact LP|]. split; [|split].
  - apply Forall_forall. intros poly Hp. destruct (X poly Hp) as (b & _ & Q). rewrite Forall_forall in N. specialize (N poly Hp).
    split; [apply (f_equal (@List.length _)) in Q; rewrite !map_length in Q; exact Q|]. split.
    + apply (NoDup_map_inv (fun v => nth_error pixels (Z.to_nat v))). rewrite Q. apply FinFun.Injective_map_NoDup; [intros x y K; congruence|apply corners_nodup].
    + apply Forall_forall. intros v Hv. rewrite Forall_forall in N. specialize (N v Hv).
      assert (K : In (nth_error pixels (Z.to_nat v)) (map Some (corners b))) by (rewrite <- Q; now apply (in_map (fun v => nth_error pixels (Z.to_nat v)))).
      apply in_map_iff in K. destruct K as (q & K & _). assert (Z.to_nat v < List.length pixels)%nat by (apply nth_error_Some; congruence). lia.
  - intros v p V0 V. split.
    + intros (poly & Hp & Hv). destruct (X poly Hp) as (b & B & Q). exists b. split; [exact B|].
      assert (K : In (nth_error pixels (Z.to_nat v)) (map Some (corners b))) by (rewrite <- Q; now apply (in_map (fun v => nth_error pixels (Z.to_nat v)))).
      rewrite V in K. apply in_map_iff in K. destruct K as (q & K & HI). congruence.
    + intros (b & B & HI). destruct (Y b B) as (poly & Hp & Q). exists poly. split; [exact Hp|].
      assert (K : In (Some p) (map (fun v => nth_error pixels (Z.to_nat v)) poly)) by (rewrite Q; now apply in_map).
      apply in_map_iff in K. destruct K as (w & K & Hw'). rewrite Forall_forall in N. specialize (N poly Hp). rewrite Forall_forall in N. specialize (N w Hw').
      assert (S' := nth_error_nodup pixels _ _ p ND V K). assert (v = w) by lia. now subst w.
  - intros D.
    assert (A : forall q, In q (grid height width) -> has_data no_data width elevation q = true).
    { intros [i j] Hq. apply in_grid in Hq; [|lia|lia]. unfold has_data, elevation_at. cbn [fst snd].
      destruct (nth_error elevation (Z.to_nat (i * width + j))) as [e|] eqn:Q.
      - rewrite Forall_forall in D. rewrite (D e) by (eapply nth_error_In; exact Q). reflexivity.
      - exfalso. apply nth_error_None in Q. nia. }
    assert (G : forall (f : Z * Z -> bool) l, (forall q, In q l -> f q = true) -> filter f l = l).
    { intros f l. induction l as [|q l IH]; intros H; [reflexivity|]. cbn [filter]. rewrite (H q) by now left. f_equal. apply IH. intros. apply H. now right. }
    split.
    + rewrite LP. unfold pixels. rewrite G by exact A. rewrite grid_length by lia. lia.
    + apply (f_equal (@List.length _)) in M. rewrite !map_length in M. rewrite M.
      rewrite (G (fun p => forallb (has_data no_data width elevation) (corners p))).
      * rewrite grid_length by lia. lia.
      * intros [i j] Hq. apply in_grid in Hq; [|lia|lia]. apply forallb_forall. intros q K. apply A.
        unfold corners in K. cbn [fst snd In] in K. repeat (destruct K as [<-|K]; [apply in_grid; lia|]). destruct K.
Qed.
Print Assumptions C135_mesh.

(** Missing data isolates a vertex: of two rows of two pixels and one more, the last pixel is in no polygon. *)
Example C135_case :
  read_dem (fun e => e =? 0) (fun i j e => (i, j, e)) 3 2 [5; 6; 0; 8; 9; 4] = Ok ([(0, 0, 5); (0, 1, 6); (1, 0, 8); (1, 1, 9); (1, 2, 4)], [[0; 1; 2; 3]])
  /\ (65536 * 65536) mod 2 ^ 32 = 0 /\ read_dem (fun e => e =? 0) (fun i j e => (i, j, e)) 65536 65536 [] = UB.
Proof.
  split; [vm_compute; reflexivity|]. split; [reflexivity|].
  apply (C135_size Z (Z * Z * Z) (fun e => e =? 0) (fun i j e => (i, j, e)) 65536 65536 []); try lia; reflexivity.
Qed.
