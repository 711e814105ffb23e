(** * Corner-point grids in GRDECL files (C24, C25, C26). *)
From Coq Require Import ZArith List Lia Bool Ascii String QArith.
From Verif Require Import Base Text TextFacts GrdeclModel ExNum ExCheck.
Import ListNotations.
Local Open Scope string_scope.
Local Open Scope list_scope.
Local Open Scope Z_scope.

(** ** Specification *)

Section Spec.
Context (F : Num).
(** The values written by a list of tokens. *)
Definition values (ts : list bytes) (vs : list (num F)) : Prop := Forall2 (fun t v => atod F t = Some v) ts vs.
(** Lines that give pillars: the six coordinates on one line, or the top on a line and the bottom on
    the next one; blank lines are ignored. *)
Inductive pillar_lines : list bytes -> list (pillar F) -> Prop :=
| PL_nil : pillar_lines [] []
| PL_blank l ls ps : starts_with l "/" = false -> string_split l = [] ->
    pillar_lines ls ps -> pillar_lines (l :: ls) ps
| PL_one l ls ps x y z x' y' z' : starts_with l "/" = false -> values (string_split l) [x; y; z; x'; y'; z'] ->
    pillar_lines ls ps -> pillar_lines (l :: ls) (mkPillar F (x, y, z) (x', y', z') :: ps)
| PL_two l l2 ls ps x y z x' y' z' : starts_with l "/" = false ->
    values (string_split l) [x; y; z] -> values (string_split l2) [x'; y'; z'] ->
    pillar_lines ls ps -> pillar_lines (l :: l2 :: ls) (mkPillar F (x, y, z) (x', y', z') :: ps).
(** [before kw ls]: none of the lines starts with the keyword. *)
Definition before (kw : bytes) (ls : list bytes) : Prop := Forall (fun l => starts_with l kw = false) ls.
(** A section opened by a keyword and closed by a slash: it comes after lines without the keyword. *)
Definition block (kw : bytes) (data : list bytes -> Prop) (ls rest : list bytes) : Prop :=
  exists pre kl dl sl, ls = pre ++ kl :: dl ++ sl :: rest /\ before kw pre /\ starts_with kl kw = true /\
    data dl /\ starts_with sl "/" = true.
Definition coord_block (ps : list (pillar F)) : list bytes -> list bytes -> Prop :=
  block "COORD" (fun dl => pillar_lines dl ps).
Definition zcorn_block (ds : list (num F)) : list bytes -> list bytes -> Prop :=
  block "ZCORN" (fun dl => Forall (fun l => starts_with l "/" = false) dl /\ values (List.concat (map string_split dl)) ds).
(** SPECGRID, then the first line that contains an F: it starts with the three dimensions. *)
Definition dimensions (nx ny nz : Z) (ls rest : list bytes) : Prop :=
  exists pre l0 mid ws, ls = pre ++ (l0 :: mid) ++ rest /\ before "SPECGRID" pre /\ starts_with l0 "SPECGRID" = true /\
    (exists mid' dim, l0 :: mid = mid' ++ [dim] /\ Forall (fun l => contains l "F" = false) mid' /\
       contains dim "F" = true /\ string_split dim = show nx :: show ny :: show nz :: ws).

(** The corner [l] of a cell, as offsets in the three directions. *)
Definition offsets (l : nat) : Z * Z * Z :=
  nth l [(0, 1, 1); (1, 1, 1); (1, 0, 1); (0, 0, 1); (0, 1, 0); (1, 1, 0); (1, 0, 0); (0, 0, 0)] (0, 0, 0).
Definition cell_number (nx ny i j k : Z) : Z := i + nx * (j + ny * k).
Definition pillar_number (nx i j : Z) : Z := i + (nx + 1) * j.
Definition zcorn_number (nx ny a b c : Z) : Z := a + 2 * nx * (b + 2 * ny * c).
End Spec.

(** ** Facts on lists *)
Lemma forall2_length {A B} {R : A -> B -> Prop} {l l'} : Forall2 R l l' -> List.length l = List.length l'.
Proof. induction 1; cbn; congruence. Qed.
Lemma nth_flat_map_const {A B} (f : A -> list B) (m : nat) (l : list A) : (forall a, In a l -> List.length (f a) = m) ->
  forall q r, (r < m)%nat ->
  nth_error (flat_map f l) (q * m + r) = match nth_error l q with Some a => nth_error (f a) r | None => None end.
Proof.
  induction l as [|a l IH]; intros H q r Hr.
  - cbn [flat_map]. assert (N : forall {T} n, nth_error (@nil T) n = None) by (intros T [|n]; reflexivity). now rewrite !N.
  - cbn [flat_map]. destruct q as [|q]; cbn [nth_error Nat.mul].
    + rewrite nth_error_app1; [reflexivity|]. rewrite H by now left. exact Hr.
    + rewrite nth_error_app2; rewrite H by (now left); [|lia].
      replace (m + q * m + r - m)%nat with (q * m + r)%nat by lia. apply IH; [|exact Hr]. intros. apply H. now right.
Qed.

(** ** Reading the sections *)
Lemma scan_before p pre l r : Forall (fun x => p x = false) pre -> p l = true -> scan p (pre ++ l :: r) = Some (l, r).
Proof. induction 1 as [|x pre Hx _ IH]; intros H; cbn [scan app]; [now rewrite H|]. rewrite Hx. auto. Qed.
Lemma goto_before kw pre l r b : before kw pre -> starts_with l kw = true ->
  goto_keyword kw (mkStream (pre ++ l :: r) b) = Ok (l, mkStream r b).
Proof.
  intros H1 H2. unfold goto_keyword, goto_if. cbn [pending nl].
  rewrite (scan_before (fun l => starts_with l kw)) by assumption. reflexivity.
Qed.
Lemma until_F_ok mid dim rest : Forall (fun l => contains l "F" = false) mid -> contains dim "F" = true ->
  forall cur ls, mid ++ dim :: rest = cur :: ls -> until_F cur ls = Ok (dim, rest).
Proof.
  intros Hm Hd. induction Hm as [|l mid Hl _ IH]; intros cur ls E.
  - cbn in E. injection E as <- <-. destruct rest; cbn [until_F]; now rewrite Hd.
  - cbn in E. injection E as <- <-. destruct (mid ++ dim :: rest) as [|c r] eqn:E2; [now destruct mid|].
    cbn [until_F]. rewrite Hl. now apply IH.
Qed.
Lemma read_dimensions_ok nx ny nz ls rest b : 0 <= nx < two32 -> 0 <= ny < two32 -> 0 <= nz < two32 ->
  dimensions nx ny nz ls rest -> read_dimensions (mkStream ls b) = Ok (nx, ny, nz, mkStream rest b).
Proof.
  intros Hx Hy Hz (pre & l0 & mid & ws & -> & Hpre & Hl0 & mid' & dim & E & Hm & Hd & Hs).
  unfold read_dimensions. cbn [app]. rewrite goto_before by assumption. cbn [bind pending nl].
  rewrite (until_F_ok mid' dim rest Hm Hd l0 (mid ++ rest)).
  2:{ change (l0 :: mid ++ rest) with ((l0 :: mid) ++ rest). rewrite E, <- app_assoc. reflexivity. }
  cbn [bind]. rewrite Hs. cbn [idx nth_error bind]. unfold bytes.
  rewrite (string_to_index_show nx) by assumption. cbn [bind].
  rewrite (string_to_index_show ny) by assumption. cbn [bind].
  rewrite (string_to_index_show nz) by assumption. reflexivity.
Qed.
Lemma includes_none b ls back m : before "INCLUDE" ls -> includes b ls back m = Ok (m, back).
Proof. induction 1 as [|l ls H _ IH]; [reflexivity|]. cbn [includes]. now rewrite H. Qed.

Section Read.
Context (F : Num).
Lemma values_mapM ts vs : values F ts vs -> mapM (string_to_double F) ts = Ok vs.
Proof.
  induction 1 as [|t v ts vs H _ IH]; [reflexivity|]. cbn [mapM].
  assert (E : string_to_double F t = Ok v) by (unfold string_to_double; now rewrite H). rewrite E. cbn [bind]. now rewrite IH.
Qed.
Lemma store_ok {T} cap (acc : list T) x : Z.of_nat (List.length acc) < cap -> store cap acc x = Ok (acc ++ [x]).
Proof. intros H. unfold store. now rewrite (proj2 (Z.ltb_lt _ _)). Qed.
Lemma pillars_loop_ok b cap sl rest dl ps : starts_with sl "/" = true -> pillar_lines F dl ps ->
  forall acc cur ls, Z.of_nat (List.length acc + List.length ps) <= cap -> dl ++ sl :: rest = cur :: ls ->
  pillars_loop F b cap cur ls acc = Ok (acc ++ ps, rest).
Proof.
  intros Hsl H. induction H as [|l dl ps Hl Hs _ IH|l dl ps x y z x' y' z' Hl Hv _ IH|l l2 dl ps x y z x' y' z' Hl Hv Hv2 _ IH];
    intros acc cur ls Hc E; cbn [app] in E; injection E as <- <-.
  - rewrite app_nil_r. destruct rest; cbn [pillars_loop]; now rewrite Hsl.
  - destruct (dl ++ sl :: rest) as [|c r] eqn:E2; [now destruct dl|].
    cbn [pillars_loop]. rewrite Hl, Hs. now apply IH.
  - destruct (dl ++ sl :: rest) as [|c r] eqn:E2; [now destruct dl|].
    cbn [List.length] in Hc.
    pose proof (values_mapM _ _ Hv) as M. cbn [pillars_loop]. rewrite Hl. unfold values in *.
    destruct (string_split l) as [|t0 [|t1 [|t2 [|t3 [|t4 [|t5 [|t6 tt]]]]]]];
      try (apply forall2_length in Hv; discriminate).
    rewrite M. cbn [bind three idx nth_error skipn]. rewrite store_ok by lia. cbn [bind].
    rewrite (IH _ c r); [now rewrite <- app_assoc| |reflexivity]. rewrite app_length. cbn. lia.
  - destruct (dl ++ sl :: rest) as [|c r] eqn:E2; [now destruct dl|].
    cbn [List.length] in Hc.
    pose proof (values_mapM _ _ Hv) as M. cbn [pillars_loop]. rewrite Hl. unfold values in *.
    destruct (string_split l) as [|t0 [|t1 [|t2 [|t3 tt]]]]; try (apply forall2_length in Hv; discriminate).
    rewrite M. cbn [bind three idx nth_error].
    destruct (string_split l2) as [|u0 [|u1 [|u2 [|u3 uu]]]]; try (apply forall2_length in Hv2; discriminate).
    inversion Hv2 as [|? ? ? ? A0 B0]; subst. inversion B0 as [|? ? ? ? A1 B1]; subst. inversion B1 as [|? ? ? ? A2 B2]; subst.
    cbn [idx nth_error bind]. unfold string_to_double. rewrite A0. cbn [bind]. rewrite A1. cbn [bind]. rewrite A2. cbn [bind].
    rewrite store_ok by lia. cbn [bind].
    rewrite (IH _ c r); [now rewrite <- app_assoc| |reflexivity]. rewrite app_length. cbn. lia.
Qed.
Lemma store_depths_ok cap ts vs : values F ts vs -> forall acc, Z.of_nat (List.length acc + List.length vs) <= cap ->
  foldM (store_depth F cap) ts acc = Ok (acc ++ vs).
Proof.
  induction 1 as [|t v ts vs H _ IH]; intros acc Hc; [now rewrite app_nil_r|].
  cbn [foldM List.length] in *.
  assert (E : store_depth F cap acc t = Ok (acc ++ [v])).
  { unfold store_depth, string_to_double. rewrite H. cbn [bind]. apply store_ok. lia. }
  rewrite E. cbn [bind].
  rewrite IH; [now rewrite <- app_assoc|]. rewrite app_length. cbn. lia.
Qed.
Lemma depths_loop_ok b cap sl rest dl : starts_with sl "/" = true -> Forall (fun l => starts_with l "/" = false) dl ->
  forall ds, values F (List.concat (map string_split dl)) ds ->
  forall acc cur ls, Z.of_nat (List.length acc + List.length ds) <= cap -> dl ++ sl :: rest = cur :: ls ->
  depths_loop F b cap cur ls acc = Ok (acc ++ ds, rest).
Proof.
  intros Hsl H. induction H as [|l dl Hl _ IH]; intros ds Hv acc cur ls Hc E; cbn [app] in E; injection E as <- <-.
  - inversion Hv. rewrite app_nil_r. destruct rest; cbn [depths_loop]; now rewrite Hsl.
  - destruct (dl ++ sl :: rest) as [|c r] eqn:E2; [now destruct dl|].
    cbn [map List.concat] in Hv. apply Forall2_app_inv_l in Hv as (d1 & d2 & H1 & H2 & ->).
    cbn [depths_loop]. rewrite Hl. rewrite app_length in Hc.
    rewrite (store_depths_ok cap _ d1 H1) by lia. cbn [bind].
    rewrite (IH d2 H2 _ c r); [now rewrite <- app_assoc| |reflexivity]. rewrite app_length. lia.
Qed.
Lemma read_pillars_ok nx ny ps ls rest b : Z.of_nat (List.length ps) <= pillars_cap nx ny -> coord_block F ps ls rest ->
  read_pillars F nx ny (mkStream ls b) = Ok (ps, mkStream rest b).
Proof.
  intros Hc (pre & kl & dl & sl & -> & Hp & Hk & Hd & Hs). unfold read_pillars.
  rewrite goto_before by assumption. cbn [bind]. unfold getline. cbn [pending nl].
  destruct (dl ++ sl :: rest) as [|c r] eqn:E; [now destruct dl|]. cbn [pending nl].
  rewrite (pillars_loop_ok b (pillars_cap nx ny) sl rest dl ps Hs Hd [] c r Hc E). reflexivity.
Qed.
Lemma read_depths_ok nx ny nz ds ls rest b : Z.of_nat (List.length ds) <= depths_cap nx ny nz -> zcorn_block F ds ls rest ->
  read_depths F nx ny nz (mkStream ls b) = Ok (ds, mkStream rest b).
Proof.
  intros Hc (pre & kl & dl & sl & -> & Hp & Hk & [Hd1 Hd2] & Hs). unfold read_depths.
  rewrite goto_before by assumption. cbn [bind]. unfold getline. cbn [pending nl].
  destruct (dl ++ sl :: rest) as [|c r] eqn:E; [now destruct dl|]. cbn [pending nl].
  rewrite (depths_loop_ok b (depths_cap nx ny nz) sl rest dl Hs Hd1 ds Hd2 [] c r Hc E). reflexivity.
Qed.
End Read.

(** ** The cells *)
Section Cells.
Context (F : Num) (A : Arith F).
Context (nx ny nz : Z) (Hx : 1 <= nx) (Hy : 1 <= ny) (Hz : 1 <= nz) (Hsize : 8 * nx * ny * nz < two32).
Context (ps : list (pillar F)) (Hps : Z.of_nat (List.length ps) = (nx + 1) * (ny + 1)).
Context (ds : list (num F)) (Hds : Z.of_nat (List.length ds) = 8 * nx * ny * nz).
(** The point of a corner: on its pillar, at its depth. *)
Definition corner_point (i j k : Z) (o : Z * Z * Z) (pt : gpoint F) : Prop :=
  let '(di, dj, dk) := o in
  exists p d, nth_error ps (Z.to_nat (pillar_number nx (i + di) (j + dj))) = Some p /\
    nth_error ds (Z.to_nat (zcorn_number nx ny (2 * i + di) (2 * j + dj) (2 * k + dk))) = Some d /\
    pt = interpolate F A d p.
Lemma pillar_small : (nx + 1) * (ny + 1) < two32.
Proof. unfold two32 in *. nia. Qed.
Lemma pillars_cap_ok : pillars_cap nx ny = (nx + 1) * (ny + 1).
Proof.
  pose proof pillar_small. unfold pillars_cap, mul32. rewrite !add32_small by (unfold two32 in *; nia).
  apply wrap32_small. nia.
Qed.
Lemma pillar_at_ok i j : 0 <= i <= nx -> 0 <= j <= ny ->
  exists p, nth_error ps (Z.to_nat (pillar_number nx i j)) = Some p /\
    forall z, z = pillar_number nx i j -> pillar_at F (pillars_cap nx ny) ps (wrap32 z) = Ok p.
Proof.
  intros Hi Hj. pose proof pillar_small as S. unfold pillar_number.
  assert (B : 0 <= i + (nx + 1) * j < (nx + 1) * (ny + 1)) by nia.
  destruct (nth_error ps (Z.to_nat (i + (nx + 1) * j))) as [p|] eqn:E; [|apply nth_error_None in E; lia].
  exists p. split; [reflexivity|]. intros z ->. rewrite wrap32_small by lia. unfold pillar_at.
  rewrite pillars_cap_ok, (proj2 (Z.ltb_lt _ _)) by lia. now rewrite (nth_error_nth _ _ _ E).
Qed.
Lemma zcorn_range a b c : 0 <= a < 2 * nx -> 0 <= b < 2 * ny -> 0 <= c < 2 * nz ->
  0 <= zcorn_number nx ny a b c < 8 * nx * ny * nz.
Proof.
  intros Ha Hb Hc. unfold zcorn_number.
  assert (B1 : 0 <= b + 2 * ny * c <= 4 * ny * nz - 1) by nia.
  split; [nia|]. assert (a + 2 * nx * (b + 2 * ny * c) <= 2 * nx - 1 + 2 * nx * (4 * ny * nz - 1)); nia.
Qed.
Lemma depth_at_ok a b c : 0 <= a < 2 * nx -> 0 <= b < 2 * ny -> 0 <= c < 2 * nz ->
  exists d, nth_error ds (Z.to_nat (zcorn_number nx ny a b c)) = Some d /\
    forall z, z = zcorn_number nx ny a b c -> depth_at F ds (wrap32 z) = Ok d.
Proof.
  intros Ha Hb Hc. pose proof (zcorn_range a b c Ha Hb Hc) as B.
  destruct (nthz_in_range ds (zcorn_number nx ny a b c)) as [d Hd]; [lia|].
  exists d. split; [now apply nthz_some in Hd|]. intros z ->. rewrite wrap32_small by lia.
  unfold depth_at, idxz. now rewrite Hd.
Qed.
Lemma cell_points_ok i j k : 0 <= i < nx -> 0 <= j < ny -> 0 <= k < nz ->
  exists pts, cell_points F A nx ny ps ds (i, j, 2 * k) = Ok pts /\
    Forall2 (fun l pt => corner_point i j k (offsets l) pt) (seq 0 8) pts.
Proof.
  intros Hi Hj Hk. unfold cell_points.
  destruct (pillar_at_ok i (j + 1)) as [bl [Pbl Ebl]]; [lia|lia|].
  destruct (pillar_at_ok i j) as [tl [Ptl Etl]]; [lia|lia|].
  destruct (pillar_at_ok (i + 1) (j + 1)) as [br [Pbr Ebr]]; [lia|lia|].
  destruct (pillar_at_ok (i + 1) j) as [tr [Ptr Etr]]; [lia|lia|].
  rewrite Ebl by (unfold pillar_number; ring). rewrite Etl by (unfold pillar_number; ring).
  rewrite Ebr by (unfold pillar_number; ring). rewrite Etr by (unfold pillar_number; ring). cbn [bind].
  clear Ebl Etl Ebr Etr.
  destruct (depth_at_ok (2 * i) (2 * j + 1) (2 * k + 1)) as [d0 [D0 E0]]; try lia.
  destruct (depth_at_ok (2 * i + 1) (2 * j + 1) (2 * k + 1)) as [d1 [D1 E1]]; try lia.
  destruct (depth_at_ok (2 * i + 1) (2 * j) (2 * k + 1)) as [d2 [D2 E2]]; try lia.
  destruct (depth_at_ok (2 * i) (2 * j) (2 * k + 1)) as [d3 [D3 E3]]; try lia.
  destruct (depth_at_ok (2 * i) (2 * j + 1) (2 * k)) as [d4 [D4 E4]]; try lia.
  destruct (depth_at_ok (2 * i + 1) (2 * j + 1) (2 * k)) as [d5 [D5 E5]]; try lia.
  destruct (depth_at_ok (2 * i + 1) (2 * j) (2 * k)) as [d6 [D6 E6]]; try lia.
  destruct (depth_at_ok (2 * i) (2 * j) (2 * k)) as [d7 [D7 E7]]; try lia.
  unfold zcorn_number in *.
  rewrite E0 by ring. cbn [bind]. rewrite E1 by ring. cbn [bind]. rewrite E2 by ring. cbn [bind]. rewrite E3 by ring. cbn [bind].
  rewrite E4 by ring. cbn [bind]. rewrite E5 by ring. cbn [bind]. rewrite E6 by ring. cbn [bind]. rewrite E7 by ring. cbn [bind].
  eexists. split; [reflexivity|].
  unfold corner_point, zcorn_number. cbn [seq].
  repeat constructor; cbn [offsets nth]; rewrite ?Z.add_0_r; eauto 6.
Qed.
Lemma cells_nth i j k : 0 <= i < nx -> 0 <= j < ny -> 0 <= k < nz ->
  nth_error (cells nx ny nz) (Z.to_nat (cell_number nx ny i j k)) = Some (i, j, 2 * k).
Proof.
  intros Hi Hj Hk. unfold cells, cell_number.
  assert (L : forall k, List.length (flat_map (fun j : Z => map (fun i : Z => (i, j, wrap32 (2 * k))) (rangez 0 (Z.to_nat nx))) (rangez 0 (Z.to_nat ny))) = (Z.to_nat ny * Z.to_nat nx)%nat).
  { intros k0. assert (G : forall l, List.length (flat_map (fun j : Z => map (fun i : Z => (i, j, wrap32 (2 * k0))) (rangez 0 (Z.to_nat nx))) l) = (List.length l * Z.to_nat nx)%nat).
    { induction l as [|y l IH]; [reflexivity|]. cbn [flat_map List.length]. rewrite app_length, IH, map_length, rangez_length. lia. }
    now rewrite G, rangez_length. }
  replace (Z.to_nat (i + nx * (j + ny * k))) with (Z.to_nat k * (Z.to_nat ny * Z.to_nat nx) + (Z.to_nat j * Z.to_nat nx + Z.to_nat i))%nat by nia.
  rewrite nth_flat_map_const; [|intros; apply L|nia].
  rewrite rangez_nth by lia. rewrite Z.add_0_l, Z2Nat.id by lia.
  rewrite nth_flat_map_const; [|intros; rewrite map_length; apply rangez_length|lia].
  rewrite rangez_nth by lia. rewrite Z.add_0_l, Z2Nat.id by lia.
  rewrite nth_error_map, rangez_nth by lia. cbn [option_map]. rewrite Z.add_0_l, Z2Nat.id by lia.
  rewrite wrap32_small; [reflexivity|]. nia.
Qed.
Lemma cells_in c : In c (cells nx ny nz) -> exists i j k, c = (i, j, 2 * k) /\ 0 <= i < nx /\ 0 <= j < ny /\ 0 <= k < nz.
Proof.
  unfold cells. intros H. apply in_flat_map in H as [k [Hk H]]. apply in_flat_map in H as [j [Hj H]].
  apply in_map_iff in H as [i [<- Hi]]. apply in_rangez in Hi, Hj, Hk. exists i, j, k.
  rewrite wrap32_small by nia. repeat split; lia.
Qed.
Lemma cells_length : List.length (cells nx ny nz) = Z.to_nat (nx * ny * nz).
Proof.
  unfold cells.
  assert (G : forall (k : Z) l, List.length (flat_map (fun j : Z => map (fun i : Z => (i, j, wrap32 (2 * k))) (rangez 0 (Z.to_nat nx))) l) = (List.length l * Z.to_nat nx)%nat).
  { induction l as [|y l IH]; [reflexivity|]. cbn [flat_map List.length]. rewrite app_length, IH, map_length, rangez_length. lia. }
  assert (G2 : forall l, List.length (flat_map (fun k => flat_map (fun j : Z => map (fun i : Z => (i, j, wrap32 (2 * k))) (rangez 0 (Z.to_nat nx))) (rangez 0 (Z.to_nat ny))) l) = (List.length l * (Z.to_nat ny * Z.to_nat nx))%nat).
  { induction l as [|y l IH]; [reflexivity|]. cbn [flat_map List.length]. rewrite app_length, IH, G, rangez_length. lia. }
  rewrite G2, rangez_length. nia.
Qed.
Lemma mapM_total {T U} (f : T -> res U) l : (forall a, In a l -> exists b, f a = Ok b) -> exists bs, mapM f l = Ok bs.
Proof.
  induction l as [|a l IH]; intros H; [now exists []|]. destruct (H a (or_introl eq_refl)) as [b Hb].
  destruct IH as [bs Hbs]; [intros; apply H; now right|]. exists (b :: bs). cbn [mapM]. now rewrite Hb, Hbs.
Qed.
Lemma Forall2_nth {T U} (R : T -> U -> Prop) l l' : Forall2 R l l' -> forall n a, nth_error l n = Some a ->
  exists b, nth_error l' n = Some b /\ R a b.
Proof.
  induction 1 as [|x y l l' H _ IH]; intros [|n] a E; cbn in *; try discriminate.
  - injection E as <-. eauto.
  - eauto.
Qed.
Lemma concat_flat_map {T} (l : list (list T)) : List.concat l = flat_map (fun x => x) l.
Proof. induction l as [|a l IH]; [reflexivity|]. cbn. now rewrite IH. Qed.
Lemma concat_length {T} m (l : list (list T)) : Forall (fun x => List.length x = m) l ->
  List.length (List.concat l) = (List.length l * m)%nat.
Proof. induction 1 as [|x l H _ IH]; [reflexivity|]. cbn. rewrite app_length, IH, H. reflexivity. Qed.

Context (coloc : list (gpoint F) -> list Z * list (gpoint F)).
(** The mapping has one entry for each point. *)
Context (Hcoloc : forall pts, List.length (fst (coloc pts)) = List.length pts).
Definition cells_of (pts : list (gpoint F)) (hexas : list (list Z)) : Prop :=
  Z.of_nat (List.length pts) = 8 * (nx * ny * nz) /\ Z.of_nat (List.length hexas) = nx * ny * nz /\
  forall i j k l, 0 <= i < nx -> 0 <= j < ny -> 0 <= k < nz -> (l < 8)%nat ->
    exists pt hexa v, nth_error pts (Z.to_nat (8 * cell_number nx ny i j k) + l) = Some pt /\
    corner_point i j k (offsets l) pt /\
    nth_error hexas (Z.to_nat (cell_number nx ny i j k)) = Some hexa /\ List.length hexa = 8%nat /\
    nth_error hexa l = Some v /\ nth_error (fst (coloc pts)) (Z.to_nat (8 * cell_number nx ny i j k) + l) = Some v.
Lemma cell_range i j k : 0 <= i < nx -> 0 <= j < ny -> 0 <= k < nz -> 0 <= cell_number nx ny i j k < nx * ny * nz.
Proof.
  intros. unfold cell_number. assert (0 <= j + ny * k <= ny * nz - 1) by nia. split; [nia|].
  assert (i + nx * (j + ny * k) <= nx - 1 + nx * (ny * nz - 1)); nia.
Qed.
Lemma create_cells_ok : exists pts hexas,
  create_cells F A coloc nx ny nz ps ds = Ok (snd (coloc pts), hexas) /\ cells_of pts hexas.
Proof.
  unfold create_cells.
  destruct (mapM_total (cell_points F A nx ny ps ds) (cells nx ny nz)) as [pss Hpss].
  { intros c Hc. apply cells_in in Hc as (i & j & k & -> & Hi & Hj & Hk).
    destruct (cell_points_ok i j k Hi Hj Hk) as [pts [E _]]. eauto. }
  rewrite Hpss. cbn [bind]. apply mapM_ok in Hpss. rename Hpss into Hf.
  assert (H8 : Forall (fun x => List.length x = 8%nat) pss).
  { apply Forall_forall. intros x Hin. apply In_nth_error in Hin as [n Hn].
    assert (Hl : (n < List.length (cells nx ny nz))%nat).
    { rewrite (forall2_length Hf). apply nth_error_Some. now rewrite Hn. }
    apply nth_error_Some in Hl. destruct (nth_error (cells nx ny nz) n) as [c|] eqn:Ec; [|easy].
    destruct (Forall2_nth _ _ _ Hf n c Ec) as [y [Ey Hy']]. rewrite Hn in Ey. injection Ey as <-.
    apply nth_error_In, cells_in in Ec as (i & j & k & -> & Hi & Hj & Hk).
    destruct (cell_points_ok i j k Hi Hj Hk) as [pts [E Hfp]]. rewrite E in Hy'. injection Hy' as <-.
    apply forall2_length in Hfp. now rewrite <- Hfp. }
  assert (Hlen : List.length pss = Z.to_nat (nx * ny * nz)) by (rewrite <- (forall2_length Hf); apply cells_length).
  set (pts := List.concat pss).
  assert (Hpl : List.length pts = (Z.to_nat (nx * ny * nz) * 8)%nat) by (unfold pts; rewrite (concat_length 8) by assumption; now rewrite Hlen).
  specialize (Hcoloc pts). destruct (coloc pts) as [mapping unique] eqn:Ec. cbn [fst] in Hcoloc.
  rewrite (wrap32_small (nx * ny * nz)) by nia.
  assert (Hidx : forall c l, 0 <= c < nx * ny * nz -> 0 <= l < 8 -> exists v, idxz mapping (wrap32 (l + 8 * c)) = Ok v /\
    nth_error mapping (Z.to_nat (8 * c) + Z.to_nat l) = Some v).
  { intros c l Hc Hl. rewrite wrap32_small by nia.
    destruct (nthz_in_range mapping (l + 8 * c)) as [v Hv]; [rewrite Hcoloc, Hpl; lia|].
    exists v. unfold idxz. rewrite Hv. split; [reflexivity|]. apply nthz_some in Hv as [_ Hv]. rewrite <- Hv. f_equal. lia. }
  assert (Hh : exists hexas, mapM (fun c => mapM (fun l => idxz mapping (wrap32 (l + 8 * c))) (rangez 0 8)) (rangez 0 (Z.to_nat (nx * ny * nz))) = Ok hexas).
  { apply mapM_total. intros c Hc. apply in_rangez in Hc. apply mapM_total. intros l Hl. apply in_rangez in Hl.
    destruct (Hidx c l) as [v [Hv _]]; [lia|lia|]. eauto. }
  destruct Hh as [hexas Hh]. rewrite Hh. cbn [bind]. exists pts, hexas. rewrite Ec. cbn [snd]. split; [reflexivity|].
  apply mapM_ok in Hh. unfold cells_of. rewrite Ec. cbn [fst]. split; [rewrite Hpl; lia|]. split.
  { rewrite <- (forall2_length Hh), rangez_length. nia. }
  intros i j k l Hi Hj Hk Hl. pose proof (cell_range i j k Hi Hj Hk) as B. set (c := cell_number nx ny i j k) in *.
  destruct (Forall2_nth _ _ _ Hf (Z.to_nat c) (i, j, 2 * k)) as [cp [Ecp Hcp]]; [now apply cells_nth|].
  destruct (cell_points_ok i j k Hi Hj Hk) as [cp' [E Hfp]]. rewrite E in Hcp. injection Hcp as <-.
  destruct (Forall2_nth _ _ _ Hfp l l) as [pt [Ept Hpt]].
  { rewrite nth_error_nth' with (d := 0%nat) by (now rewrite seq_length). now rewrite seq_nth. }
  destruct (Forall2_nth _ _ _ Hh (Z.to_nat c) c) as [hexa [Ehexa Hhexa]]; [rewrite rangez_nth by lia; f_equal; lia|].
  apply mapM_ok in Hhexa.
  destruct (Forall2_nth _ _ _ Hhexa l (Z.of_nat l)) as [v [Ev Hv]]; [rewrite rangez_nth by lia; f_equal|].
  exists pt, hexa, v. split.
  { unfold pts. rewrite concat_flat_map. replace (Z.to_nat (8 * c) + l)%nat with (Z.to_nat c * 8 + l)%nat by lia.
    rewrite (nth_flat_map_const (fun x => x) 8); [|intros a Ha; revert a Ha; apply Forall_forall, H8|exact Hl].
    now rewrite Ecp. }
  split; [exact Hpt|]. split; [exact Ehexa|]. split; [apply forall2_length in Hhexa; now rewrite <- Hhexa|]. split; [exact Ev|].
  destruct (Hidx c (Z.of_nat l)) as [v' [Hv' Hn]]; [lia|lia|]. rewrite Hv in Hv'. injection Hv' as <-.
  now rewrite Nat2Z.id in Hn.
Qed.
End Cells.

(** ** C24 *)

(** A file whose three sections are inside it: every cell is made of its eight corners, each on its
    pillar at its depth; the vertex of a corner is the one the colocation gives to that point. *)
Theorem C24_grdecl_corners (F : Num) (A : Arith F) coloc files nx ny nz ps ds ls rest0 rest1 rest2 :
  1 <= nx -> 1 <= ny -> 1 <= nz -> 8 * nx * ny * nz < two32 ->
  (forall pts, List.length (fst (coloc pts)) = List.length pts) ->
  Forall is_line ls -> dimensions nx ny nz ls rest0 -> before "INCLUDE" rest0 ->
  coord_block F ps rest0 rest1 -> zcorn_block F ds rest1 rest2 ->
  Z.of_nat (List.length ps) = (nx + 1) * (ny + 1) -> Z.of_nat (List.length ds) = 8 * nx * ny * nz ->
  exists pts hexas, read_grdecl F A coloc files (unlines ls) = Ok (snd (coloc pts), hexas) /\
    cells_of F A nx ny nz ps ds coloc pts hexas.
Proof.
  intros Hx Hy Hz Hs Hc Hl Hd Hi Hco Hzc Lp Ld. unfold read_grdecl. rewrite open_unlines by assumption.
  rewrite (read_dimensions_ok nx ny nz ls rest0) by (assumption || (unfold two32 in *; nia)). cbn [bind pending nl].
  rewrite (includes_none true rest0 rest0 [] Hi). cbn [bind lookup].
  rewrite (read_pillars_ok F nx ny ps rest0 rest1); [|erewrite pillars_cap_ok; [lia|eassumption..]|assumption].
  cbn [bind].
  rewrite (read_depths_ok F nx ny nz ds rest1 rest2); [|unfold depths_cap; rewrite wrap32_small by nia; lia|assumption].
  cbn [bind]. eapply create_cells_ok; eassumption.
Qed.
Print Assumptions C24_grdecl_corners.

(** Every depth of the ZCORN section is the depth of exactly one corner of one cell. *)
Theorem C24_zcorn_each_once nx ny nz : 1 <= nx -> 1 <= ny -> 1 <= nz ->
  forall z, 0 <= z < 8 * nx * ny * nz ->
  exists! c : Z * Z * Z * nat, let '(i, j, k, l) := c in
    let '(di, dj, dk) := offsets l in
    0 <= i < nx /\ 0 <= j < ny /\ 0 <= k < nz /\ (l < 8)%nat /\
    zcorn_number nx ny (2 * i + di) (2 * j + dj) (2 * k + dk) = z.
Proof.
  intros Hx Hy Hz z Hr.
  set (a := z mod (2 * nx)). set (q := z / (2 * nx)). set (b := q mod (2 * ny)). set (c := q / (2 * ny)).
  assert (Ea : z = 2 * nx * q + a) by (apply Z.div_mod; lia).
  assert (Eb : q = 2 * ny * c + b) by (apply Z.div_mod; lia).
  assert (Ba : 0 <= a < 2 * nx) by (apply Z.mod_pos_bound; lia).
  assert (Bb : 0 <= b < 2 * ny) by (apply Z.mod_pos_bound; lia).
  assert (Bq : 0 <= q < 4 * ny * nz).
  { split; [apply Z.div_pos; lia|]. apply Z.div_lt_upper_bound; nia. }
  assert (Bc : 0 <= c < 2 * nz).
  { split; [apply Z.div_pos; lia|]. apply Z.div_lt_upper_bound; nia. }
  assert (L : exists l, (l < 8)%nat /\ offsets l = (a mod 2, b mod 2, c mod 2) /\
                forall l', (l' < 8)%nat -> offsets l' = (a mod 2, b mod 2, c mod 2) -> l' = l).
  { assert (M : forall x, x mod 2 = 0 \/ x mod 2 = 1) by (intros x; pose proof (Z.mod_pos_bound x 2 ltac:(lia)); lia).
    assert (U : forall l l', (l < 8)%nat -> (l' < 8)%nat -> offsets l' = offsets l -> l' = l).
    { intros l l' H H'. do 8 (destruct l as [|l]; [do 8 (destruct l' as [|l']; [cbn; intros E; congruence || discriminate E|]); lia|]). lia. }
    assert (G : exists l, (l < 8)%nat /\ offsets l = (a mod 2, b mod 2, c mod 2)).
    { destruct (M a) as [-> | ->], (M b) as [-> | ->], (M c) as [-> | ->];
      [exists 7%nat|exists 3%nat|exists 4%nat|exists 0%nat|exists 6%nat|exists 2%nat|exists 5%nat|exists 1%nat]; split; (lia || reflexivity). }
    destruct G as [l [Hl E]]. exists l. split; [assumption|]. split; [assumption|]. intros l' Hl' E'. apply U; congruence. }
  destruct L as [l [Hl [El Ul]]].
  pose proof (Z.div_mod a 2 ltac:(lia)) as Da. pose proof (Z.div_mod b 2 ltac:(lia)) as Db. pose proof (Z.div_mod c 2 ltac:(lia)) as Dc.
  pose proof (Z.mod_pos_bound a 2 ltac:(lia)). pose proof (Z.mod_pos_bound b 2 ltac:(lia)). pose proof (Z.mod_pos_bound c 2 ltac:(lia)).
  exists (a / 2, b / 2, c / 2, l). split.
  - rewrite El. repeat split; try lia. rewrite <- Da, <- Db, <- Dc. unfold zcorn_number. rewrite Ea, Eb. ring.
  - intros [[[i j] k] l'] H'. destruct (offsets l') as [[di dj] dk] eqn:Eo. destruct H' as (Hi & Hj & Hk & Hl' & E).
    assert (O : (di = 0 \/ di = 1) /\ (dj = 0 \/ dj = 1) /\ (dk = 0 \/ dk = 1)).
    { clear - Hl' Eo. do 8 (destruct l' as [|l']; [cbn in Eo; injection Eo as <- <- <-; lia|]). lia. }
    destruct O as (O1 & O2 & O3). unfold zcorn_number in E.
    assert (Qa : q = (2 * j + dj) + 2 * ny * (2 * k + dk)).
    { symmetry. unfold q. apply Z.div_unique with (r := 2 * i + di); [left; lia|lia]. }
    assert (Aa : 2 * i + di = a) by lia.
    assert (Cc : c = 2 * k + dk).
    { symmetry. unfold c. apply Z.div_unique with (r := 2 * j + dj); [left; lia|lia]. }
    assert (Bb' : 2 * j + dj = b) by lia.
    assert (I : a / 2 = i) by (symmetry; apply Z.div_unique with (r := di); [left; lia|lia]).
    assert (J : b / 2 = j) by (symmetry; apply Z.div_unique with (r := dj); [left; lia|lia]).
    assert (K : c / 2 = k) by (symmetry; apply Z.div_unique with (r := dk); [left; lia|lia]).
    assert (Rl : l' = l). { apply Ul; [assumption|]. rewrite Eo. f_equal; [f_equal|]; lia. }
    congruence.
Qed.
Print Assumptions C24_zcorn_each_once.

(** ** C65: included files *)

Definition no_char (c : ascii) (l : bytes) : Prop := Forall (fun x => x <> c) l.
Definition UNDERSCORE : ascii := "_"%char.
Definition DOT : ascii := "."%char.
(** The line of an included file: a quoted name STEM_KEYWORD.EXTENSION, then possibly a separator and
    anything without underscore. *)
Definition file_name (stem kw ext : bytes) : bytes := stem ++ UNDERSCORE :: kw ++ DOT :: ext.
Definition include_name (q : ascii) (stem kw ext tail : bytes) : bytes := (q :: file_name stem kw ext ++ [q]) ++ tail.
Record good_name (q : ascii) (stem kw ext tail : bytes) : Prop := {
  gn_q : q <> UNDERSCORE /\ q <> DOT /\ isspace q = false;
  gn_stem : no_char DOT stem /\ no_space stem;
  gn_kw : no_char DOT kw /\ no_char UNDERSCORE kw /\ no_space kw;
  gn_ext : no_char UNDERSCORE ext /\ no_space ext;
  gn_tail : tail = [] \/ (exists c t, tail = c :: t /\ is_sep c = true /\ plain t /\ no_char UNDERSCORE t) }.

Lemma contains_char l c : contains l [c] = existsb (Ascii.eqb c) l.
Proof.
  unfold contains. induction l as [|x l IH]; [reflexivity|]. cbn [after_first starts_with existsb].
  destruct (Ascii.eqb c x); cbn [andb orb]; [now destruct l|exact IH].
Qed.
Lemma contains_no l c : no_char c l -> contains l [c] = false.
Proof.
  intros H. rewrite contains_char. induction H as [|x l Hx _ IH]; [reflexivity|]. cbn [existsb].
  replace (Ascii.eqb c x) with false; [exact IH|]. symmetry. apply Ascii.eqb_neq. congruence.
Qed.
Lemma split_char_no c l : no_char c l -> forall cur, split_char c cur l = [cur ++ l].
Proof.
  induction 1 as [|x l Hx _ IH]; intros cur; cbn [split_char]; [now rewrite app_nil_r|].
  rewrite (proj2 (Ascii.eqb_neq _ _) Hx), IH, <- app_assoc. reflexivity.
Qed.
Lemma split_char_sep c a b : forall cur, split_char c cur (a ++ c :: b) = split_char c cur a ++ split_char c [] b.
Proof.
  induction a as [|x a IH]; intros cur; cbn [app split_char].
  - now rewrite Ascii.eqb_refl.
  - destruct (Ascii.eqb x c); [|apply IH]. cbn [app]. now rewrite IH.
Qed.
Lemma split_char_pieces (P : ascii -> Prop) c l : Forall P l -> forall cur, Forall P cur -> Forall (Forall P) (split_char c cur l).
Proof.
  induction 1 as [|x l Hx _ IH]; intros cur Hc; cbn [split_char]; [now constructor|].
  destruct (Ascii.eqb x c); [constructor; auto|]. apply IH. apply Forall_app. auto.
Qed.
Lemma no_char_space c l : isspace c = true -> no_space l -> no_char c l.
Proof. intros Hc H. eapply Forall_impl; [|exact H]. cbn. intros a Ha ->. congruence. Qed.
Lemma include_line_ok q stem kw ext tail m : good_name q stem kw ext tail ->
  include_line (include_name q stem kw ext tail) m = Ok ((kw, file_name stem kw ext) :: m).
Proof.
  intros [[Q1 [Q2 Q3]] [S1 S2] [K1 [K2 K3]] [E1 E2] T]. unfold include_line.
  set (rest := kw ++ DOT :: (ext ++ q :: tail)).
  assert (EL : include_name q stem kw ext tail = (q :: stem) ++ UNDERSCORE :: rest).
  { unfold include_name, file_name, rest. cbn [app]. rewrite <- !app_assoc. cbn [app]. rewrite <- !app_assoc. cbn [app]. reflexivity. }
  assert (Wd : exists ws, string_split (include_name q stem kw ext tail) = (q :: file_name stem kw ext ++ [q]) :: ws).
  { set (w := q :: file_name stem kw ext ++ [q]).
    assert (Tk : token w).
    { split; [discriminate|]. unfold w, file_name. constructor; [assumption|]. apply Forall_app. split; [|now constructor].
      apply Forall_app. split; [assumption|]. constructor; [reflexivity|]. apply Forall_app. split; [assumption|]. now constructor. }
    unfold include_name. fold w. destruct T as [-> | (c & t & -> & Hc & Hp & _)].
    - exists []. rewrite app_nil_r, string_split_plain by now apply plain_token. now apply words_tok.
    - exists (words t). rewrite string_split_plain.
      + now apply words_tok_sep.
      + apply plain_app; [now apply plain_token|]. apply plain_cons; auto. }
  destruct Wd as [ws Wd]. rewrite EL at 2. rewrite split_char_sep.
  assert (NU : no_char UNDERSCORE rest).
  { unfold rest. apply Forall_app. split; [assumption|]. constructor; [discriminate|]. apply Forall_app. split; [assumption|].
    constructor; [assumption|]. destruct T as [-> | (c & t & -> & Hc & _ & Ht)]; [constructor|]. constructor; [|assumption].
    intros ->. discriminate. }
  rewrite (split_char_no UNDERSCORE rest NU). cbn [app]. rewrite foldM_app.
  assert (Skip : forall l, Forall (no_char DOT) l -> foldM (include_token (include_name q stem kw ext tail)) l m = Ok m).
  { induction 1 as [|t l Ht _ IH]; [reflexivity|]. cbn [foldM]. unfold include_token at 1.
    change (lit ".") with [DOT]. rewrite contains_no by assumption. exact IH. }
  rewrite Skip.
  2:{ apply (split_char_pieces (fun x => x <> DOT)); [|constructor]. constructor; assumption. }
  cbn [bind foldM]. unfold include_token. change (lit ".") with [DOT]. rewrite contains_char. unfold rest at 1.
  rewrite existsb_app. cbn [existsb]. rewrite Ascii.eqb_refl. cbn [orb]. rewrite orb_true_r.
  change "."%char with DOT. unfold rest. rewrite split_char_sep, (split_char_no DOT kw K1). cbn [app front bind].
  rewrite Wd. cbn [front bind]. unfold without_ends. rewrite removelast_last. reflexivity.
Qed.
Lemma includes_step b a l l2 r back m m' : before "INCLUDE" a -> starts_with l "INCLUDE" = true -> include_line l2 m = Ok m' ->
  includes b (a ++ l :: l2 :: r) back m = includes b r r m'.
Proof.
  intros H Hl Hi. induction H as [|x a Hx _ IH]; cbn [app includes].
  - now rewrite Hl, Hi.
  - now rewrite Hx.
Qed.

(** Both sections in included files: the same grid as when they are in the file itself. *)
Theorem C65_grdecl_included_files (F : Num) (A : Arith F) coloc files nx ny nz ps ds ls rest0 a b c i1 i2
    q1 stem1 ext1 tail1 q2 stem2 ext2 tail2 lsC restC lsZ restZ :
  1 <= nx -> 1 <= ny -> 1 <= nz -> 8 * nx * ny * nz < two32 ->
  (forall pts, List.length (fst (coloc pts)) = List.length pts) ->
  Forall is_line ls -> dimensions nx ny nz ls rest0 ->
  rest0 = a ++ i1 :: include_name q1 stem1 "COORD" ext1 tail1 :: b ++ i2 :: include_name q2 stem2 "ZCORN" ext2 tail2 :: c ->
  before "INCLUDE" a -> before "INCLUDE" b -> before "INCLUDE" c ->
  starts_with i1 "INCLUDE" = true -> starts_with i2 "INCLUDE" = true ->
  good_name q1 stem1 "COORD" ext1 tail1 -> good_name q2 stem2 "ZCORN" ext2 tail2 ->
  files (file_name stem1 "COORD" ext1) = Some (unlines lsC) -> Forall is_line lsC -> coord_block F ps lsC restC ->
  files (file_name stem2 "ZCORN" ext2) = Some (unlines lsZ) -> Forall is_line lsZ -> zcorn_block F ds lsZ restZ ->
  Z.of_nat (List.length ps) = (nx + 1) * (ny + 1) -> Z.of_nat (List.length ds) = 8 * nx * ny * nz ->
  exists pts hexas, read_grdecl F A coloc files (unlines ls) = Ok (snd (coloc pts), hexas) /\
    cells_of F A nx ny nz ps ds coloc pts hexas.
Proof.
  intros Hx Hy Hz Hs Hc Hl Hd -> Ha Hb Hcc H1 H2 G1 G2 FC LC BC FZ LZ BZ Lp Ld.
  unfold read_grdecl. rewrite open_unlines by assumption.
  assert (Bx : 0 <= nx < two32) by nia. assert (By : 0 <= ny < two32) by nia. assert (Bz : 0 <= nz < two32) by nia.
  rewrite (read_dimensions_ok nx ny nz ls _ true Bx By Bz Hd).
  cbn [bind pending nl].
  rewrite (includes_step true a i1 _ _ _ [] _ Ha H1 (include_line_ok _ _ _ _ _ _ G1)).
  rewrite (includes_step true b i2 _ _ _ _ _ Hb H2 (include_line_ok _ _ _ _ _ _ G2)).
  rewrite (includes_none true c c _ Hcc). cbn [bind lookup].
  replace (beq "COORD" "ZCORN") with false by reflexivity. rewrite !beq_refl. unfold other_file. rewrite FC, FZ, !open_unlines by assumption.
  rewrite (read_pillars_ok F nx ny ps lsC restC); [|erewrite pillars_cap_ok; [lia|eassumption..]|assumption].
  cbn [bind].
  rewrite (read_depths_ok F nx ny nz ds lsZ restZ); [|unfold depths_cap; rewrite wrap32_small by nia; lia|assumption].
  cbn [bind]. eapply create_cells_ok; eassumption.
Qed.
Print Assumptions C65_grdecl_included_files.

(** ** C25: no undefined behaviour, no endless loop *)

(** Ends properly: a grid or an exception. *)
Definition ends {T} (r : res T) : Prop := r <> Hang /\ r <> UB.

(** A section that no slash closes (for instance a file that was cut) never ends: whatever the file, when
    its depths are readable numbers and not too many. *)
Theorem C25_unclosed_section_hangs (F : Num) (A : Arith F) coloc files nx ny nz ps ds ls rest0 rest1 pre kl dl :
  1 <= nx -> 1 <= ny -> 1 <= nz -> 8 * nx * ny * nz < two32 ->
  Forall is_line ls -> dimensions nx ny nz ls rest0 -> before "INCLUDE" rest0 ->
  coord_block F ps rest0 rest1 -> Z.of_nat (List.length ps) <= (nx + 1) * (ny + 1) ->
  rest1 = pre ++ kl :: dl -> before "ZCORN" pre -> starts_with kl "ZCORN" = true ->
  Forall (fun l => starts_with l "/" = false) dl -> values F (List.concat (map string_split dl)) ds ->
  Z.of_nat (List.length ds) <= 8 * nx * ny * nz ->
  read_grdecl F A coloc files (unlines ls) = Hang.
Proof.
  intros Hx Hy Hz Hs Hl Hd Hi Hco Lp -> Hp Hk Hn Hv Ld. unfold read_grdecl. rewrite open_unlines by assumption.
  rewrite (read_dimensions_ok nx ny nz ls rest0) by (assumption || (unfold two32 in *; nia)). cbn [bind pending nl].
  rewrite (includes_none true rest0 rest0 [] Hi). cbn [bind lookup].
  assert (Cap : pillars_cap nx ny = (nx + 1) * (ny + 1)).
  { unfold pillars_cap, mul32. rewrite !add32_small by (unfold two32 in *; nia). apply wrap32_small. unfold two32 in *. nia. }
  rewrite (read_pillars_ok F nx ny ps rest0 (pre ++ kl :: dl)); [|rewrite Cap; lia|assumption].
  cbn [bind]. unfold read_depths. rewrite goto_before by assumption. cbn [bind]. unfold getline. cbn [pending nl].
  set (cap := depths_cap nx ny nz).
  assert (Hcap : cap = 8 * nx * ny * nz) by (apply wrap32_small; nia). rewrite <- Hcap in Ld. clearbody cap. clear - Hn Hv Ld.
  destruct dl as [|l dl]; [reflexivity|]. cbn [pending nl].
  assert (H : forall dl ds acc l, Forall (fun l => starts_with l "/" = false) (l :: dl) ->
            values F (List.concat (map string_split (l :: dl))) ds -> Z.of_nat (List.length acc + List.length ds) <= cap ->
            depths_loop F true cap l dl acc = Hang).
  { clear. induction dl as [|l2 dl IH]; intros ds acc l Hn Hv Hc; inversion Hn as [|? ? H1 H2]; subst;
      cbn [map List.concat] in Hv; apply Forall2_app_inv_l in Hv as (d1 & d2 & V1 & V2 & ->); rewrite app_length in Hc;
      cbn [depths_loop]; rewrite H1, (store_depths_ok F cap _ d1 V1) by lia; cbn [bind].
    - now destruct (string_split l).
    - apply (IH d2); [assumption|assumption|]. rewrite app_length. lia. }
  rewrite (H dl ds [] l Hn Hv Ld). reflexivity.
Qed.
Print Assumptions C25_unclosed_section_hangs.

(** The claim is false of the code. *)
Definition ZArith_ops : Arith ExNum := mkArith ExNum Z.sub Z.mul Z.div 1.
Definition no_colocation (pts : list (gpoint ExNum)) : list Z * list (gpoint ExNum) := (rangez 0 (List.length pts), pts).
Definition no_files (_ : bytes) : option bytes := None.
Definition f_no_F : list bytes := (map lit ["SPECGRID"; "1 1 1 1 T /"]).
Definition f_short_pillar : list bytes := (map lit ["SPECGRID"; "1 1 1 1 F /"; "COORD"; "0 0 0"; "0 0"; "/"]).
Definition f_many_pillars : list bytes := (map lit ["SPECGRID"; "1 1 1 1 F /"; "COORD"]) ++ repeat (lit "0 0 0 0 0 9") 5 ++ [lit "/"].
Definition f_missing_depths : list bytes :=
  (map lit ["SPECGRID"; "1 1 1 1 F /"; "COORD"]) ++ repeat (lit "0 0 0 0 0 9") 4 ++ (map lit ["/"; "ZCORN"; "1 2 3 4 5 6 7"; "/"]).
Definition f_many_depths : list bytes :=
  (map lit ["SPECGRID"; "1 1 1 1 F /"; "COORD"]) ++ repeat (lit "0 0 0 0 0 9") 4 ++ (map lit ["/"; "ZCORN"; "1 2 3 4 5 6 7 8 9"; "/"]).
Theorem C25_grdecl_ends_refuted :
  ~ (forall (F : Num) (A : Arith F) coloc files text, ends (read_grdecl F A coloc files text)).
Proof.
  intros H. destruct (H ExNum ZArith_ops no_colocation no_files (unlines f_no_F)) as [H1 _]. apply H1.
  apply is_Hang_ok. vm_compute. reflexivity.
Qed.
(** Five different files, one reason each. *)
Theorem C25_grdecl_ends_witnesses :
  read_grdecl ExNum ZArith_ops no_colocation no_files (unlines f_no_F) = Hang /\
  read_grdecl ExNum ZArith_ops no_colocation no_files (unlines f_short_pillar) = UB /\
  read_grdecl ExNum ZArith_ops no_colocation no_files (unlines f_many_pillars) = UB /\
  read_grdecl ExNum ZArith_ops no_colocation no_files (unlines f_missing_depths) = UB /\
  read_grdecl ExNum ZArith_ops no_colocation no_files (unlines f_many_depths) = UB.
Proof. split; [apply is_Hang_ok|repeat split; apply is_UB_ok]; vm_compute; reflexivity. Qed.
Print Assumptions C25_grdecl_ends_refuted.

(** ** C26 *)

(** Exact arithmetic: the numbers are rationals (their texts do not matter). *)
Definition QNum (rd : bytes -> option Q) (w1 w2 : Q -> bytes) (nd : Q) : Num := mkNum Q rd w1 w2 Qopp Qplus nd 0%Q.
Definition Q_ops rd w1 w2 nd : Arith (QNum rd w1 w2 nd) := mkArith (QNum rd w1 w2 nd) Qminus Qmult Qdiv 1%Q.
Definition peq (p q : Q * Q * Q) : Prop :=
  let '(x, y, z) := p in let '(x', y', z') := q in (x == x' /\ y == y' /\ z == z')%Q.
(** [p] is on the straight line through [a] and [b]. *)
Definition on_line (a b p : Q * Q * Q) : Prop :=
  exists t, let '(ax, ay, az) := a in let '(bx, by_, bz) := b in
    peq p (ax + t * (bx - ax), ay + t * (by_ - ay), az + t * (bz - az))%Q.
Theorem C26_point_on_pillar rd w1 w2 nd (tx ty tz bx by_ bz d : Q) : ~ (bz == tz)%Q ->
  let p := mkPillar (QNum rd w1 w2 nd) (tx, ty, tz) (bx, by_, bz) in
  let q : Q * Q * Q := interpolate (QNum rd w1 w2 nd) (Q_ops rd w1 w2 nd) d p in
  on_line (tx, ty, tz) (bx, by_, bz) q /\ (snd q == d)%Q /\
  ((d == tz)%Q -> peq q (tx, ty, tz)) /\ ((d == bz)%Q -> peq q (bx, by_, bz)).
Proof.
  intros H p q. assert (N : ~ (bz - tz == 0)%Q).
  { intros E. apply H. rewrite <- (Qplus_0_r tz), <- E. ring. }
  unfold q, p, interpolate, on_line, peq. cbn [top bottom plus asub amul adiv aone QNum Q_ops snd].
  split; [|split; [|split]].
  - exists ((d - tz) / (bz - tz))%Q. repeat split; field; exact N.
  - field. exact N.
  - intros E. rewrite E. repeat split; field; exact N.
  - intros E. rewrite E. repeat split; field; exact N.
Qed.
Print Assumptions C26_point_on_pillar.
(** A pillar with both ends at the same depth is a division by zero (a not-a-number with doubles): the
    hypothesis cannot be dropped.  Here [Qdiv] by 0 is 0 and the depth is lost. *)
Example C26_needs_two_depths rd w1 w2 nd :
  let q : Q * Q * Q := interpolate (QNum rd w1 w2 nd) (Q_ops rd w1 w2 nd) 7%Q (mkPillar (QNum rd w1 w2 nd) (0, 0, 3)%Q (4, 0, 3)%Q) in ~ (snd q == 7)%Q.
Proof. vm_compute. discriminate. Qed.
Example C26_instance rd w1 w2 nd :
  peq (interpolate (QNum rd w1 w2 nd) (Q_ops rd w1 w2 nd) 5%Q (mkPillar (QNum rd w1 w2 nd) (0, 0, 0)%Q (4, 8, 20)%Q)) (1, 2, 5)%Q.
Proof. vm_compute. repeat split. Qed.

(** ** Instances *)
Definition ex_grid : list bytes :=
  (map lit ["-- a comment"; "SPECGRID"; "-- sizes"; "1 1 1 1 F /"; ""; "COORD"; "0 0 0 0 0 10"; "1 0 0"; "1 0 10"; ""; "0 1 0 0 1 10"; "1 1 0 1 1 10"; "/"; "";
   "ZCORN"; "1 2 3 4"; "5 6 7 8"; "/"; "END"]).
Example C24_instance :
  match read_grdecl ExNum (mkArith ExNum Z.sub Z.mul (fun a b => a) 1) no_colocation no_files (unlines ex_grid) with
  | Ok (_, hexas) => leqb (leqb Z.eqb) hexas [[0; 1; 2; 3; 4; 5; 6; 7]]
  | _ => false
  end = true.
Proof. vm_compute. reflexivity. Qed.
(** The hypotheses of C24 hold for that file. *)
Example C24_hypotheses :
  let rest0 := skipn 4 ex_grid in let rest1 := skipn 13 ex_grid in let rest2 := skipn 18 ex_grid in
  let P a b c := mkPillar ExNum (a, b, 0) (a, b, c) in
  Forall is_line ex_grid /\ dimensions 1 1 1 ex_grid rest0 /\ before "INCLUDE" rest0 /\
  coord_block ExNum [P 0 0 10; P 1 0 10; P 0 1 10; P 1 1 10] rest0 rest1 /\ zcorn_block ExNum [1; 2; 3; 4; 5; 6; 7; 8] rest1 rest2.
Proof.
  cbv zeta. split; [repeat constructor; apply lineb_ok; vm_compute; reflexivity|]. split.
  { exists [lit "-- a comment"], (lit "SPECGRID"), [lit "-- sizes"; lit "1 1 1 1 F /"], (map lit ["1"; "F"; "/"]).
    split; [reflexivity|]. split; [repeat constructor|]. split; [reflexivity|].
    exists [lit "SPECGRID"; lit "-- sizes"], (lit "1 1 1 1 F /"). repeat split; repeat constructor. }
  split; [repeat constructor|]. split.
  { exists [lit ""], (lit "COORD"), (map lit ["0 0 0 0 0 10"; "1 0 0"; "1 0 10"; ""; "0 1 0 0 1 10"; "1 1 0 1 1 10"]), (lit "/").
    split; [reflexivity|]. split; [repeat constructor|]. split; [reflexivity|]. split; [|reflexivity].
    apply PL_one; [reflexivity|repeat constructor|]. apply PL_two; [reflexivity|repeat constructor|repeat constructor|].
    apply PL_blank; [reflexivity|reflexivity|]. apply PL_one; [reflexivity|repeat constructor|].
    apply PL_one; [reflexivity|repeat constructor|]. apply PL_nil. }
  exists [lit ""], (lit "ZCORN"), (map lit ["1 2 3 4"; "5 6 7 8"]), (lit "/").
  split; [reflexivity|]. split; [repeat constructor|]. split; [reflexivity|]. split; [|reflexivity].
  split; repeat constructor.
Qed.
(** Included files. *)
Definition ex_main : list bytes := (map lit ["SPECGRID"; "1 1 1 1 F /"; "INCLUDE"; "'A_B_COORD.INC' /"; "INCLUDE"; "'A_B_ZCORN.INC' /"]).
Definition ex_files (n : bytes) : option bytes :=
  if beq n "A_B_COORD.INC" then Some (unlines (firstn 9 (skipn 4 ex_grid)))
  else if beq n "A_B_ZCORN.INC" then Some (unlines (skipn 14 ex_grid)) else None.
Example C65_instance :
  match read_grdecl ExNum (mkArith ExNum Z.sub Z.mul (fun a b => a) 1) no_colocation ex_files (unlines ex_main) with
  | Ok (_, hexas) => leqb (leqb Z.eqb) hexas [[0; 1; 2; 3; 4; 5; 6; 7]]
  | _ => false
  end = true.
Proof. vm_compute. reflexivity. Qed.
(** The pillars in the file, then the depths in an included file: the search for INCLUDE has passed the pillars,
    which are not found any more.  With the section after the INCLUDE line the grid would load. *)
Definition ex_mixed : list bytes := firstn 13 ex_grid ++ (map lit ["INCLUDE"; "'A_B_ZCORN.INC' /"]).
Definition ex_mixed_other : list bytes := firstn 4 ex_grid ++ (map lit ["INCLUDE"; "'A_B_ZCORN.INC' /"]) ++ firstn 9 (skipn 4 ex_grid).
Theorem C65_mixed_sections_refuted :
  (exists ls other, (forall l, In l ls <-> In l other) /\
     is_Throw (read_grdecl ExNum ZArith_ops no_colocation ex_files (unlines ls)) = true /\
     is_Throw (read_grdecl ExNum ZArith_ops no_colocation ex_files (unlines other)) = false /\
     is_UB (read_grdecl ExNum ZArith_ops no_colocation ex_files (unlines other)) = false /\
     is_Hang (read_grdecl ExNum ZArith_ops no_colocation ex_files (unlines other)) = false).
Proof.
  exists ex_mixed, ex_mixed_other. split; [|vm_compute; auto].
  intros l. unfold ex_mixed, ex_mixed_other. cbn. tauto.
Qed.
Print Assumptions C65_mixed_sections_refuted.
(** A line that only begins like the keyword is taken for it. *)
Theorem C65_keyword_prefix_refuted :
  is_Throw (read_grdecl ExNum ZArith_ops no_colocation no_files
              (unlines (firstn 4 ex_grid ++ (map lit ["COORDSYS"; "1 1 INCOMP /"]) ++ skipn 4 ex_grid))) = true /\
  is_Throw (read_grdecl ExNum ZArith_ops no_colocation no_files (unlines ex_grid)) = false.
Proof. split; vm_compute; reflexivity. Qed.
