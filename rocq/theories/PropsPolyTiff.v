(** * Elevations of a surface loaded from a GeoTIFF image (C97). *)
From Coq Require Import ZArith List Lia Bool.
From Verif Require Import Base GocadModel LsoFacts PropsBrepFem PolyTiff.
Import ListNotations.
Local Open Scope Z_scope.

Section Facts.
Context {E P : Type} (no_data : E -> bool) (corner : Z -> Z -> P) (set_z : P -> E -> P).
Notation set_elevation := (set_elevation no_data set_z).
Notation grid_points := (grid_points corner).
(** The point of a vertex given an elevation. *)
Definition elevated (p : P) (e : E) : P := if no_data e then p else set_z p e.

Lemma grid_points_length w h : 0 <= (w + 1) * (h + 1) -> lenz (grid_points w h) = (w + 1) * (h + 1).
Proof. intros H. unfold PolyTiff.grid_points, lenz. rewrite map_length, rangez_length. lia. Qed.
Lemma grid_points_at w h v : 0 <= v < (w + 1) * (h + 1) -> nthz (grid_points w h) v = Some (corner (v mod (w + 1)) (v / (w + 1))).
Proof. intros H. unfold PolyTiff.grid_points. rewrite nthz_map, nthz_rangez by lia. reflexivity. Qed.
(** The loop on the first vertices, those of a written part of the buffer. *)
Lemma loop_spec (written : list E) rest (points : list P) n : Z.of_nat n <= lenz written -> Z.of_nat n <= lenz points ->
  exists pts, foldM (set_elevation (map Some written ++ rest)) (rangez 0 n) points = Ok pts /\ lenz pts = lenz points /\
    (forall v p e, 0 <= v < Z.of_nat n -> nthz points v = Some p -> nthz written v = Some e -> nthz pts v = Some (elevated p e)) /\
    (forall v, Z.of_nat n <= v -> nthz pts v = nthz points v).
Proof.
  induction n as [|n IH]; intros H1 H2.
  - exists points. cbn [rangez]. split; [reflexivity|]. split; [reflexivity|]. split; [intros; lia|reflexivity].
  - destruct IH as [pts [E1 [L [HV HO]]]]; [lia|lia|]. rewrite rangez_S, foldM_app, E1. cbn [bind foldM].
    destruct (nthz_in_range written (0 + Z.of_nat n)) as [e He]; [unfold lenz in *; lia|]. destruct (nthz_in_range points (0 + Z.of_nat n)) as [p Hp]; [unfold lenz in *; lia|].
    assert (HB : nthz (map Some written ++ rest) (0 + Z.of_nat n) = Some (Some e)) by (apply nthz_app_l; rewrite nthz_map, He; reflexivity).
    unfold PolyTiff.set_elevation at 1. rewrite (proj2 (idxz_ok _ _ _) HB). cbn [bind].
    assert (HQ : nthz pts (0 + Z.of_nat n) = Some p) by (rewrite HO by lia; assumption).
    destruct (no_data e) eqn:EN.
    + exists pts. split; [reflexivity|]. split; [assumption|]. split; [|intros v Hv; apply HO; lia]. intros v q f Hv Hq Hf.
      destruct (Z.eq_dec v (0 + Z.of_nat n)) as [->|Nv]; [|apply HV; auto; lia]. assert (q = p /\ f = e) as [-> ->] by (split; congruence). unfold elevated. now rewrite EN.
    + rewrite (proj2 (idxz_ok _ _ _) HQ). cbn [bind].
      assert (ES : exists pts', setz pts (0 + Z.of_nat n) (set_z p e) = Ok pts' /\ lenz pts' = lenz pts /\ nthz pts' (0 + Z.of_nat n) = Some (set_z p e) /\ forall v, v <> 0 + Z.of_nat n -> nthz pts' v = nthz pts v).
      { unfold setz. apply nthz_range in HQ. destruct (Z.leb_spec 0 (0 + Z.of_nat n)); [|lia]. unfold lenz in HQ. destruct (Z.ltb_spec (0 + Z.of_nat n) (Z.of_nat (List.length pts))); [|lia]. cbn [andb].
        eexists. split; [reflexivity|]. split; [unfold lenz; now rewrite upd_length|]. rewrite !nthz_upd by (unfold lenz; lia). rewrite Z.eqb_refl. split; [reflexivity|]. intros v Hv.
        rewrite nthz_upd by (unfold lenz; lia). destruct (Z.eqb_spec (0 + Z.of_nat n) v); [congruence|reflexivity]. }
      destruct ES as [pts' [-> [L' [HS HN]]]]. exists pts'. split; [reflexivity|]. split; [lia|]. split.
      * intros v q f Hv Hq Hf. destruct (Z.eq_dec v (0 + Z.of_nat n)) as [->|Nv].
        -- assert (q = p /\ f = e) as [-> ->] by (split; congruence). rewrite HS. unfold elevated. now rewrite EN.
        -- rewrite HN by assumption. apply HV; auto; lia.
      * intros v Hv. rewrite HN by lia. apply HO. lia.
Qed.
End Facts.

(** Reading any image reads an element of the buffer that nobody wrote: the surface has more vertices than the image has pixels. *)
Theorem C97_undefined {E P} (no_data : E -> bool) (corner : Z -> Z -> P) set_z bands width height px :
  0 < bands -> 0 < width -> 0 < height -> lenz px = width * height ->
  read_polytiff no_data corner set_z bands width height (Some px) = UB.
Proof.
  intros HB HW HH HL. unfold read_polytiff. destruct (Z.leb_spec bands 0); [lia|].
  pose proof (grid_points_length (P := P) corner width height ltac:(nia)) as LG. unfold elevation_buffer. rewrite LG, HL.
  destruct (Z.leb_spec (width * height) ((width + 1) * (height + 1))); [|nia]. cbn [bind].
  replace (List.length (grid_points corner width height)) with (List.length px + S (Z.to_nat (width + height)))%nat by (unfold lenz in *; nia).
  rewrite rangez_app, foldM_app. destruct (loop_spec no_data set_z px (repeat None (Z.to_nat ((width + 1) * (height + 1) - width * height))) (grid_points corner width height) (List.length px)) as [pts [-> _]]; [unfold lenz; lia|unfold lenz in *; nia|].
  cbn [bind rangez foldM]. unfold set_elevation at 1. 
  assert (HN : nthz (map Some px ++ repeat None (Z.to_nat ((width + 1) * (height + 1) - width * height))) (0 + Z.of_nat (List.length px)) = Some (@None E)).
  { replace (0 + Z.of_nat (List.length px)) with (lenz (map (@Some E) px) + 0) by (unfold lenz; rewrite map_length; lia). rewrite nthz_app_r by lia.
    replace ((width + 1) * (height + 1) - width * height) with (1 + (width + height)) by lia. rewrite Z2Nat.inj_add by lia. reflexivity. }
  rewrite (proj2 (idxz_ok _ _ _) HN). reflexivity.
Qed.
Print Assumptions C97_undefined.

(** The surface when the memory after the pixels happens to hold [garbage]: the vertex at the corner [i] [j] does not get the elevation of
    the pixel [i] [j] but that of the pixel [i + j] columns and rows further, or a value of the garbage. *)
Theorem C97_elevations {E P} (no_data : E -> bool) (corner : Z -> Z -> P) set_z width height px garbage :
  0 < width -> 0 < height -> lenz px = width * height -> lenz px + lenz garbage = (width + 1) * (height + 1) ->
  exists pts, foldM (set_elevation no_data set_z (map Some (px ++ garbage))) (rangez 0 (Z.to_nat ((width + 1) * (height + 1)))) (grid_points corner width height) = Ok pts /\
    lenz pts = (width + 1) * (height + 1) /\
    forall i j, 0 <= i <= width -> 0 <= j <= height -> exists e,
      nthz pts (i + (width + 1) * j) = Some (if no_data e then corner i j else set_z (corner i j) e) /\
      (let col := (i + j) mod width in let row := j + (i + j) / width in
       if row <? height then nthz px (col + width * row) = Some e else nthz garbage (col + width * (row - height)) = Some e).
Proof.
  intros HW HH HL HG. pose proof (grid_points_length (P := P) corner width height ltac:(nia)) as LG.
  assert (LW : lenz (px ++ garbage) = (width + 1) * (height + 1)) by (rewrite lenz_app; lia).
  destruct (loop_spec no_data set_z (px ++ garbage) [] (grid_points corner width height) (Z.to_nat ((width + 1) * (height + 1)))) as [pts [E1 [L [HV _]]]]; [lia|lia|].
  rewrite app_nil_r in E1. exists pts. split; [assumption|]. split; [lia|]. intros i j Hi Hj.
  assert (R : 0 <= i + (width + 1) * j < (width + 1) * (height + 1)) by nia.
  destruct (nthz_in_range (px ++ garbage) (i + (width + 1) * j)) as [e He]; [unfold lenz in LW; lia|]. exists e. split.
  - rewrite (HV (i + (width + 1) * j) _ _ ltac:(rewrite Z2Nat.id; lia) (grid_points_at corner width height _ R) He). unfold elevated.
    replace (i + (width + 1) * j) with (i + j * (width + 1)) by lia. rewrite Z.mod_add, Z.div_add, Z.mod_small, Z.div_small by lia. reflexivity.
  - cbn zeta. pose proof (Z.div_mod (i + j) width ltac:(lia)) as D. pose proof (Z.mod_pos_bound (i + j) width HW) as M.
    replace (i + (width + 1) * j) with ((i + j) mod width + width * (j + (i + j) / width)) in He by nia.
    set (col := (i + j) mod width) in *. set (row := j + (i + j) / width) in *. destruct (Z.ltb_spec row height).
    + assert (0 <= row) by (apply Z.add_nonneg_nonneg; [lia|apply Z.div_pos; lia]). destruct (nthz_in_range px (col + width * row)) as [f Hf]; [unfold lenz in HL; nia|].
      rewrite (nthz_app_l _ _ _ _ Hf) in He. congruence.
    + replace (col + width * row) with (lenz px + (col + width * (row - height))) in He by lia. rewrite nthz_app_r in He by nia. exact He.
Qed.
Print Assumptions C97_elevations.

(** The property: each vertex that is the first corner of a pixel has its elevation. *)
Definition follows_image {E P} (no_data : E -> bool) (corner : Z -> Z -> P) set_z width height (px : list E) (pts : list P) : Prop :=
  forall i j e, 0 <= i < width -> 0 <= j < height -> nthz px (i + width * j) = Some e -> no_data e = false ->
    nthz pts (i + (width + 1) * j) = Some (set_z (corner i j) e).
(** It holds on the first row only: with any garbage, an image of 3 x 2 pixels is misplaced. *)
Theorem C97_first_row {E P} (no_data : E -> bool) (corner : Z -> Z -> P) set_z width height px garbage pts i e :
  0 < width -> 0 < height -> lenz px = width * height -> lenz px + lenz garbage = (width + 1) * (height + 1) ->
  foldM (set_elevation no_data set_z (map Some (px ++ garbage))) (rangez 0 (Z.to_nat ((width + 1) * (height + 1)))) (grid_points corner width height) = Ok pts ->
  0 <= i < width -> nthz px i = Some e -> no_data e = false -> nthz pts i = Some (set_z (corner i 0) e).
Proof.
  intros HW HH HL HG EF Hi He HN. destruct (C97_elevations no_data corner set_z width height px garbage HW HH HL HG) as [pts' [EF' [_ H]]]. assert (pts' = pts) as -> by congruence.
  destruct (H i 0) as [f [H1 H2]]; [lia|lia|]. cbn zeta in H2. rewrite Z.add_0_r, Z.mod_small, Z.div_small in H2 by lia. destruct (Z.ltb_spec (0 + 0) height); [|lia].
  rewrite Z.mul_0_r, Z.add_0_r in H2. assert (f = e) as -> by congruence. rewrite HN, Z.mul_0_r, Z.add_0_r in H1. exact H1.
Qed.
Print Assumptions C97_first_row.
Theorem C97_misplaced_refuted : exists width height (px : list Z), 0 < width /\ 0 < height /\ lenz px = width * height /\
  forall garbage pts, lenz px + lenz garbage = (width + 1) * (height + 1) ->
    foldM (set_elevation (fun e => e =? -9999) (fun p e => (fst p, e)) (map Some (px ++ garbage))) (rangez 0 (Z.to_nat ((width + 1) * (height + 1))))
      (grid_points (fun i j => ((i, j), -9999)) width height) = Ok pts ->
    ~ follows_image (fun e => e =? -9999) (fun i j => ((i, j), -9999)) (fun p e => (fst p, e)) width height px pts /\
    nthz pts 4 = Some ((0, 1), 50).
Proof.
  exists 3, 2, [10; 20; 30; 40; 50; 60]. split; [lia|]. split; [lia|]. split; [reflexivity|]. intros garbage pts HG EF.
  destruct (C97_elevations (fun e => e =? -9999) (fun i j => ((i, j), -9999)) (fun p e => (fst p, e)) 3 2 [10; 20; 30; 40; 50; 60] garbage ltac:(lia) ltac:(lia) eq_refl HG) as [pts' [EF' [_ H]]].
  assert (pts' = pts) as -> by congruence. destruct (H 0 1) as [e [H1 H2]]; [lia|lia|]. cbn zeta in H2. vm_compute in H2. assert (e = 50) as -> by congruence.
  assert (H4 : nthz pts 4 = Some ((0, 1), 50)) by exact H1. split; [|assumption]. intros FI. specialize (FI 0 1 40 ltac:(lia) ltac:(lia) eq_refl eq_refl). cbn [fst] in FI.
  change (0 + (3 + 1) * 1) with 4 in FI. rewrite H4 in FI. discriminate.
Qed.
Print Assumptions C97_misplaced_refuted.
(** The hypotheses of the theorems: an image of 3 x 2 pixels, six of the twelve vertices out of the image. *)
Example C97_example : exists garbage pts, lenz [10; 20; 30; 40; 50; 60] + lenz garbage = (3 + 1) * (2 + 1) /\
  foldM (set_elevation (fun e => e =? -9999) (fun p e => (fst p, e)) (map Some ([10; 20; 30; 40; 50; 60] ++ garbage))) (rangez 0 (Z.to_nat ((3 + 1) * (2 + 1))))
      (grid_points (fun i j => ((i, j), -9999)) 3 2) = Ok pts /\
  map snd pts = [10; 20; 30; 40; 50; 60; -9999; 0; 0; 0; 0; 7] /\
  read_polytiff (fun e => e =? -9999) (fun i j => ((i, j), -9999)) (fun p e => (fst p, e)) 1 3 2 (Some [10; 20; 30; 40; 50; 60]) = UB.
Proof. exists [-9999; 0; 0; 0; 0; 7]. eexists. split; [reflexivity|]. split; [vm_compute; reflexivity|]. split; vm_compute; reflexivity. Qed.
