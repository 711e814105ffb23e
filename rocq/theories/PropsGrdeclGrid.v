(** * Which GRDECL files are loaded, and the vertices shared by neighbouring cells (C128, C129). *)
From Coq Require Import ZArith List Lia Bool Ascii String QArith.
From Verif Require Import Base Text TextFacts GrdeclModel PropsVo PropsVoOut PropsGrdecl ExNum ExCheck.
Import ListNotations.
Local Open Scope string_scope.
Local Open Scope list_scope.
Local Open Scope Z_scope.

(** ** Specification *)

Section Spec.
Context (F : Num).
(** Lines that give pillars, as in C24; of the second line of a pillar only the first three tokens count. *)
Inductive pillar_text : list bytes -> list (pillar F) -> Prop :=
| PT_nil : pillar_text [] []
| PT_blank l ls ps : starts_with l "/" = false -> string_split l = [] ->
    pillar_text ls ps -> pillar_text (l :: ls) ps
| PT_one l ls ps x y z x' y' z' : starts_with l "/" = false -> values F (string_split l) [x; y; z; x'; y'; z'] ->
    pillar_text ls ps -> pillar_text (l :: ls) (mkPillar F (x, y, z) (x', y', z') :: ps)
| PT_two l l2 ls ps x y z x' y' z' : starts_with l "/" = false ->
    values F (string_split l) [x; y; z] -> values F (firstn 3 (string_split l2)) [x'; y'; z'] ->
    pillar_text ls ps -> pillar_text (l :: l2 :: ls) (mkPillar F (x, y, z) (x', y', z') :: ps).
Definition pillar_section (ps : list (pillar F)) : list bytes -> list bytes -> Prop :=
  block "COORD" (fun dl => pillar_text dl ps).
(** SPECGRID, then the first line that contains an F: its first three words are the dimensions. *)
Definition size_section (nx ny nz : Z) (ls rest : list bytes) : Prop :=
  exists pre l0 mid mid' dim a b c ws, ls = pre ++ (l0 :: mid) ++ rest /\ before "SPECGRID" pre /\
    starts_with l0 "SPECGRID" = true /\ l0 :: mid = mid' ++ [dim] /\
    Forall (fun l => contains l "F" = false) mid' /\ contains dim "F" = true /\
    string_split dim = a :: b :: c :: ws /\
    string_to_index a = Ok nx /\ string_to_index b = Ok ny /\ string_to_index c = Ok nz.
(** The lines are the end of the text, or those of another file. *)
Definition found_in (files : bytes -> option bytes) (text : bytes) (ls : list bytes) : Prop :=
  (exists pre, pending (open_text text) = pre ++ ls) \/
  (exists name t, files name = Some t /\ pending (open_text t) = ls).
End Spec.

(** ** Reading back *)
Lemma bind_inv {A B} {m : res A} {f : A -> res B} {b} : bind m f = Ok b -> exists a, m = Ok a /\ f a = Ok b.
Proof. destruct m; cbn; intros H; try discriminate. eauto. Qed.
Lemma scan_inv p ls l r : scan p ls = Some (l, r) ->
  exists pre, ls = pre ++ l :: r /\ Forall (fun x => p x = false) pre /\ p l = true.
Proof.
  induction ls as [|x ls IH]; cbn [scan]; [easy|]. destruct (p x) eqn:E.
  - intros [= -> ->]. exists []. auto.
  - intros H. destruct (IH H) as (pre & -> & H1 & H2). exists (x :: pre). auto.
Qed.
Lemma goto_inv kw s l s' : goto_keyword kw s = Ok (l, s') ->
  exists pre, pending s = pre ++ l :: pending s' /\ before kw pre /\ starts_with l kw = true /\ nl s' = nl s.
Proof.
  unfold goto_keyword, goto_if. destruct (scan _ (pending s)) as [[l0 r]|] eqn:E; [|easy].
  intros [= -> <-]. cbn [pending nl]. apply scan_inv in E as (pre & E & H1 & H2). exists pre. auto.
Qed.
Lemma until_F_inv ls : forall cur dim rest, until_F cur ls = Ok (dim, rest) ->
  exists mid' mid, ls = mid ++ rest /\ cur :: mid = mid' ++ [dim] /\ Forall (fun l => contains l "F" = false) mid' /\ contains dim "F" = true.
Proof.
  induction ls as [|l ls IH]; intros cur dim rest; cbn [until_F]; destruct (contains cur "F") eqn:E.
  - intros [= <- <-]. exists [], []. auto.
  - easy.
  - intros [= <- <-]. exists [], []. auto.
  - intros H. destruct (IH _ _ _ H) as (mid' & mid & -> & E2 & H1 & H2). exists (cur :: mid'), (l :: mid).
    split; [reflexivity|]. split; [cbn [app]; now rewrite E2|]. auto.
Qed.
Lemma read_dimensions_iff s nx ny nz s' : read_dimensions s = Ok (nx, ny, nz, s') <->
  size_section nx ny nz (pending s) (pending s') /\ nl s' = nl s.
Proof.
  split.
  - unfold read_dimensions. intros H. apply bind_inv in H as [[l0 s1] [G H]].
    apply goto_inv in G as (pre & E & B & K & N). apply bind_inv in H as [[dim r] [U H]].
    apply until_F_inv in U as (mid' & mid & Em & E2 & F1 & F2). cbv zeta in H.
    destruct (string_split dim) as [|a [|b [|c ws]]] eqn:T; cbn [idx nth_error bind] in H; try discriminate.
    1,2: repeat (apply bind_inv in H as [? [_ H]]); discriminate.
    apply bind_inv in H as [x [Ha H]]. apply bind_inv in H as [y [Hb H]]. apply bind_inv in H as [z [Hc H]].
    assert (x = nx /\ y = ny /\ z = nz /\ s' = mkStream r (nl s1)) as (-> & -> & -> & ->) by (repeat split; congruence).
    cbn [pending nl]. split; [|exact N].
    exists pre, l0, mid, mid', dim, a, b, c, ws. rewrite E, Em. repeat split; auto.
  - intros [(pre & l0 & mid & mid' & dim & a & b & c & ws & E & B & K & E2 & F1 & F2 & T & Ha & Hb & Hc) N].
    destruct s as [ls n], s' as [ls' n']. cbn [pending nl] in *. subst n' ls. unfold read_dimensions. cbn [app].
    rewrite goto_before by assumption. cbn [bind pending nl].
    rewrite (until_F_ok mid' dim ls' F1 F2 l0 (mid ++ ls')).
    2:{ change (l0 :: mid ++ ls') with ((l0 :: mid) ++ ls'). rewrite E2, <- app_assoc. reflexivity. }
    cbn [bind]. rewrite T. cbn [idx nth_error bind]. rewrite Ha. cbn [bind]. rewrite Hb. cbn [bind]. rewrite Hc. reflexivity.
Qed.

Lemma kw_not_slash (a : ascii) k l : a <> "/"%char -> starts_with l (a :: k) = true -> starts_with l ("/"%char :: []) = false.
Proof.
  intros Ha. destruct l as [|x l]; [reflexivity|]. cbn [starts_with].
  destruct (Ascii.eqb_spec a x) as [<-|]; [|easy]. intros _. destruct (Ascii.eqb_spec "/"%char a); [congruence|reflexivity].
Qed.
Lemma one_line {T} (c : T) dl sl rest : [c] = dl ++ sl :: rest -> sl = c.
Proof. destruct dl as [|x [|y dl]]; cbn; intros H; try discriminate H. now injection H as ->. Qed.
Section Read.
Context (F : Num).
Lemma mapM_values ts vs : mapM (string_to_double F) ts = Ok vs -> values F ts vs.
Proof.
  intros H. apply mapM_ok in H. unfold values. induction H as [|t v ts vs H _ IH]; constructor; [|exact IH].
  unfold string_to_double in H. destruct (atod F t); congruence.
Qed.
Lemma double_inv t v : string_to_double F t = Ok v -> atod F t = Some v.
Proof. unfold string_to_double. destruct (atod F t); congruence. Qed.
Lemma store_inv {T} cap (acc : list T) x acc' : store cap acc x = Ok acc' ->
  acc' = acc ++ [x] /\ Z.of_nat (List.length acc') <= cap.
Proof.
  unfold store. destruct (Z.ltb_spec (Z.of_nat (List.length acc)) cap); [|easy]. intros [= <-].
  split; [reflexivity|]. rewrite app_length. cbn. lia.
Qed.
Lemma pillars_loop_inv b cap n : forall ls, (List.length ls < n)%nat -> forall cur acc ps rest,
  pillars_loop F b cap cur ls acc = Ok (ps, rest) ->
  exists dl sl new, cur :: ls = dl ++ sl :: rest /\ starts_with sl "/" = true /\ pillar_text F dl new /\ ps = acc ++ new /\
    (new = [] \/ Z.of_nat (List.length ps) <= cap).
Proof.
  induction n as [|n IH]; intros ls Hn cur acc ps rest H; [lia|].
  assert (X : pillars_loop F b cap cur ls acc = Ok (ps, rest)) by exact H.
  destruct ls as [|l r]; cbn [pillars_loop] in H; destruct (starts_with cur "/") eqn:Hs.
  - injection H as <- <-. exists [], cur, []. rewrite app_nil_r. repeat split; auto. constructor.
  - exfalso. destruct (string_split cur) as [|t1 [|t2 [|t3 [|t4 [|t5 [|t6 [|]]]]]]]; try discriminate.
    all: repeat (apply bind_inv in H as [? [_ H]]); try discriminate. destruct b; discriminate.
  - injection H as <- <-. exists [], cur, []. rewrite app_nil_r. repeat split; auto. constructor.
  - destruct (string_split cur) as [|t1 [|t2 [|t3 [|t4 [|t5 [|t6 [|]]]]]]] eqn:T; try discriminate.
    + apply IH in H as (dl & sl & new & E & K & P & -> & C); [|cbn in Hn; lia].
      exists (cur :: dl), sl, new. cbn [app]. rewrite E. repeat split; auto. now apply PT_blank.
    + apply bind_inv in H as [vs [V H]]. apply mapM_values in V. rewrite <- T in V. apply bind_inv in H as [tp [Tp H]].
      assert (exists x y z, vs = [x; y; z]) as (x & y & z & ->).
      { rewrite T in V. inversion V as [|? v1 ? ? ? V1]; subst. inversion V1 as [|? v2 ? ? ? V2]; subst.
        inversion V2 as [|? v3 ? ? ? V3]; subst. inversion V3; subst. eauto. }
      cbn in Tp. injection Tp as <-.
      apply bind_inv in H as [u1 [U1 H]]. apply bind_inv in H as [x' [X1 H]]. apply bind_inv in H as [u2 [U2 H]]. apply bind_inv in H as [y' [Y1 H]].
      apply bind_inv in H as [u3 [U3 H]]. apply bind_inv in H as [z' [Z1 H]]. apply bind_inv in H as [acc' [St H]].
      apply store_inv in St as [-> C0].
      assert (V2 : values F (firstn 3 (string_split l)) [x'; y'; z']).
      { destruct (string_split l) as [|w1 [|w2 [|w3 ws]]]; cbn in U1, U2, U3; try discriminate.
        injection U1 as ->. injection U2 as ->. injection U3 as ->. cbn [firstn]. repeat constructor; now apply double_inv. }
      destruct r as [|l3 r3]; [destruct b; discriminate|].
      apply IH in H as (dl & sl & new & E & K & P & -> & C); [|cbn in Hn; lia].
      exists (cur :: l :: dl), sl, (mkPillar F (x, y, z) (x', y', z') :: new). cbn [app]. rewrite E, <- app_assoc. cbn [app].
      repeat split; auto. { now apply PT_two. } right.
      destruct C as [-> | C]; [exact C0|]. rewrite <- app_assoc in C. exact C.
    + apply bind_inv in H as [vs [V H]]. apply mapM_values in V. rewrite <- T in V. apply bind_inv in H as [tp [Tp H]].
      apply bind_inv in H as [bt [Bt H]]. apply bind_inv in H as [acc' [St H]]. apply store_inv in St as [-> C0].
      assert (exists x y z x' y' z', vs = [x; y; z; x'; y'; z']) as (x & y & z & x' & y' & z' & ->).
      { rewrite T in V. inversion V as [|? v1 ? ? ? V1]; subst. inversion V1 as [|? v2 ? ? ? V2]; subst.
        inversion V2 as [|? v3 ? ? ? V3]; subst. inversion V3 as [|? v4 ? ? ? V4]; subst.
        inversion V4 as [|? v5 ? ? ? V5]; subst. inversion V5 as [|? v6 ? ? ? V6]; subst. inversion V6; subst. do 6 eexists; reflexivity. }
      cbn in Tp, Bt. injection Tp as <-. injection Bt as <-.
      apply IH in H as (dl & sl & new & E & K & P & -> & C); [|cbn in Hn; lia].
      exists (cur :: dl), sl, (mkPillar F (x, y, z) (x', y', z') :: new). cbn [app]. rewrite E, <- app_assoc. cbn [app].
      repeat split; auto. { now apply PT_one. } right.
      destruct C as [-> | C]; [exact C0|]. rewrite <- app_assoc in C. exact C.
Qed.
Lemma pillars_loop_text b cap sl rest dl ps : starts_with sl "/" = true -> pillar_text F dl ps ->
  forall acc cur ls, Z.of_nat (List.length acc + List.length ps) <= cap -> dl ++ sl :: rest = cur :: ls ->
  pillars_loop F b cap cur ls acc = Ok (acc ++ ps, rest).
Proof.
  intros Hsl H. induction H as [|l dl ps Hl Hs _ IH|l dl ps x y z x' y' z' Hl Hv _ IH|l l2 dl ps x y z x' y' z' Hl Hv Hv2 _ IH];
    intros acc cur ls Hc E.
  - cbn in E. injection E as <- <-. destruct rest; cbn [pillars_loop]; rewrite Hsl; now rewrite app_nil_r.
  - cbn in E. injection E as <- <-. destruct (dl ++ sl :: rest) as [|c r] eqn:E2; [now destruct dl|].
    cbn [pillars_loop]. rewrite Hl, Hs. now apply IH.
  - cbn in E. injection E as <- <-. destruct (dl ++ sl :: rest) as [|c r] eqn:E2; [now destruct dl|].
    pose proof (forall2_length Hv) as L. destruct (string_split l) as [|t1 [|t2 [|t3 [|t4 [|t5 [|t6 [|]]]]]]] eqn:Es; try discriminate L.
    cbn [pillars_loop]. rewrite Hl, Es, (values_mapM _ _ _ Hv). cbn [bind three idx nth_error skipn].
    cbn [List.length] in Hc. rewrite store_ok by lia. cbn [bind].
    rewrite (IH _ c r); [now rewrite <- app_assoc|rewrite app_length; cbn; lia|reflexivity].
  - cbn in E. injection E as <- <-. destruct (dl ++ sl :: rest) as [|c r] eqn:E2; [now destruct dl|].
    pose proof (forall2_length Hv) as L. destruct (string_split l) as [|t1 [|t2 [|t3 [|]]]] eqn:Es; try discriminate L.
    destruct (string_split l2) as [|w1 [|w2 [|w3 ws]]] eqn:Ew; try (apply forall2_length in Hv2; discriminate Hv2).
    cbn [pillars_loop]. rewrite Hl, Es, (values_mapM _ _ _ Hv). cbn [bind three idx nth_error]. rewrite Ew. cbn [idx nth_error bind].
    cbn [firstn] in Hv2. inversion Hv2 as [|? ? ? ? A1 Hv3]; subst. inversion Hv3 as [|? ? ? ? A2 Hv4]; subst. inversion Hv4 as [|? ? ? ? A3 _]; subst.
    assert (D : forall t v, atod F t = Some v -> string_to_double F t = Ok v) by (intros t v Hd; unfold string_to_double; now rewrite Hd).
    rewrite (D _ _ A1), (D _ _ A2), (D _ _ A3). cbn [bind]. cbn [List.length] in Hc. rewrite store_ok by lia. cbn [bind].
    rewrite (IH _ c r); [now rewrite <- app_assoc|rewrite app_length; cbn; lia|reflexivity].
Qed.
Lemma read_pillars_iff nx ny s ps s' : read_pillars F nx ny s = Ok (ps, s') <->
  pillar_section F ps (pending s) (pending s') /\ nl s' = nl s /\ (ps = [] \/ Z.of_nat (List.length ps) <= pillars_cap nx ny).
Proof.
  split.
  - unfold read_pillars. intros H. apply bind_inv in H as [[kl s1] [G H]]. apply goto_inv in G as (pre & E & B & K & N).
    unfold getline in H. destruct (pending s1) as [|cur ls] eqn:E1.
    + exfalso. cbn [pending nl] in H. apply bind_inv in H as [[ps0 r] [H _]].
      apply (pillars_loop_inv _ _ 1) in H as (dl & sl & new & E2 & K2 & P & _); [|cbn; rewrite ?E1; cbn; lia].
      rewrite ?E1 in E2. apply one_line in E2 as ->. destruct (nl s1); [discriminate K2|].
      apply kw_not_slash in K; [|discriminate]. exact (eq_true_false_abs _ K2 K).
    + cbn [pending nl] in H. apply bind_inv in H as [[ps0 r] [H Q]].
      apply (pillars_loop_inv _ _ (Datatypes.S (List.length ls))) in H as (dl & sl & new & E2 & K2 & P & E3 & C); [|lia].
      assert (ps0 = ps /\ s' = mkStream r (nl s1)) as [-> ->] by (split; congruence). cbn [pending nl]. cbn [app] in E3. subst new.
      split; [|split; [exact N|exact C]]. exists pre, kl, dl, sl. rewrite E, E2. repeat split; auto.
  - intros ((pre & kl & dl & sl & E & Hp & Hk & Hd & Hs) & N & C). destruct s as [ls n], s' as [ls' n']. cbn [pending nl] in *. subst n' ls.
    unfold read_pillars. rewrite goto_before by assumption. cbn [bind]. unfold getline. cbn [pending nl].
    destruct (dl ++ sl :: ls') as [|c r] eqn:E; [now destruct dl|]. cbn [pending nl].
    destruct C as [-> | C].
    + assert (G : forall dl0, pillar_text F dl0 [] -> forall cur l0, dl0 ++ sl :: ls' = cur :: l0 ->
        pillars_loop F n (pillars_cap nx ny) cur l0 [] = Ok ([], ls')).
      { intros dl0 P0. remember (@nil (pillar F)) as e eqn:He. induction P0 as [|l dl1 ps1 Hl Hsp _ IH| |]; intros cur l0 E0; try discriminate He.
        - cbn in E0. injection E0 as <- <-. subst. destruct ls'; cbn [pillars_loop]; now rewrite Hs.
        - cbn in E0. injection E0 as <- <-. destruct (dl1 ++ sl :: ls') as [|c1 r1] eqn:E2; [now destruct dl1|].
          cbn [pillars_loop]. rewrite Hl, Hsp. apply IH; auto. }
      rewrite (G dl Hd c r E). reflexivity.
    + rewrite (pillars_loop_text n (pillars_cap nx ny) sl ls' dl ps Hs Hd [] c r C E). reflexivity.
Qed.
Lemma store_depths_inv cap ts : forall acc acc', foldM (store_depth F cap) ts acc = Ok acc' ->
  exists vs, values F ts vs /\ acc' = acc ++ vs /\ (vs = [] \/ Z.of_nat (List.length acc') <= cap).
Proof.
  induction ts as [|t ts IH]; intros acc acc' H.
  - cbn in H. injection H as <-. exists []. rewrite app_nil_r. split; [constructor|auto].
  - cbn [foldM] in H. apply bind_inv in H as [a1 [H1 H]]. unfold store_depth in H1. apply bind_inv in H1 as [v [V H1]].
    apply store_inv in H1 as [-> C0]. apply IH in H as (vs & Hv & -> & C). exists (v :: vs). rewrite <- app_assoc in *. cbn [app] in *.
    split; [constructor; [now apply double_inv|exact Hv]|]. split; [reflexivity|]. right.
    destruct C as [-> | C]; [exact C0|exact C].
Qed.
Lemma depths_loop_inv b cap ls : forall cur acc ds rest, depths_loop F b cap cur ls acc = Ok (ds, rest) ->
  exists dl sl new, cur :: ls = dl ++ sl :: rest /\ starts_with sl "/" = true /\ Forall (fun l => starts_with l "/" = false) dl /\
    values F (List.concat (map string_split dl)) new /\ ds = acc ++ new /\ (new = [] \/ Z.of_nat (List.length ds) <= cap).
Proof.
  induction ls as [|l ls IH]; intros cur acc ds rest H; cbn [depths_loop] in H; destruct (starts_with cur "/") eqn:Hs.
  - injection H as <- <-. exists [], cur, []. rewrite app_nil_r. repeat split; auto; constructor.
  - exfalso. apply bind_inv in H as [acc' [_ H]]. destruct (string_split cur); [discriminate|]. destruct b; discriminate.
  - injection H as <- <-. exists [], cur, []. rewrite app_nil_r. repeat split; auto; constructor.
  - apply bind_inv in H as [acc' [St H]]. apply store_depths_inv in St as (vs & V & -> & C0).
    apply IH in H as (dl & sl & new & E & K & P & V2 & -> & C). exists (cur :: dl), sl, (vs ++ new). cbn [app map List.concat].
    rewrite E, <- app_assoc in *. repeat split; auto. { apply Forall2_app; assumption. }
    destruct C as [-> | C]; [|right; exact C]. rewrite app_nil_r. destruct C0 as [-> | C0]; [left; reflexivity|right; exact C0].
Qed.
Lemma read_depths_iff nx ny nz s ds s' : read_depths F nx ny nz s = Ok (ds, s') <->
  zcorn_block F ds (pending s) (pending s') /\ nl s' = nl s /\ Z.of_nat (List.length ds) <= depths_cap nx ny nz.
Proof.
  split.
  - unfold read_depths. intros H. apply bind_inv in H as [[kl s1] [G H]]. apply goto_inv in G as (pre & E & B & K & N).
    unfold getline in H. destruct (pending s1) as [|cur ls] eqn:E1.
    + exfalso. cbn [pending nl] in H. apply bind_inv in H as [[ps0 r] [H _]].
      apply depths_loop_inv in H as (dl & sl & new & E2 & K2 & P & _).
      rewrite ?E1 in E2. apply one_line in E2 as ->. destruct (nl s1); [discriminate K2|].
      apply kw_not_slash in K; [|discriminate]. exact (eq_true_false_abs _ K2 K).
    + cbn [pending nl] in H. apply bind_inv in H as [[ps0 r] [H Q]].
      apply depths_loop_inv in H as (dl & sl & new & E2 & K2 & P & V & E3 & C).
      assert (ps0 = ds /\ s' = mkStream r (nl s1)) as [-> ->] by (split; congruence). cbn [pending nl]. cbn [app] in E3. subst new.
      split; [|split; [exact N|]].
      * exists pre, kl, dl, sl. rewrite E, E2. repeat split; auto.
      * destruct C as [-> | C]; [|exact C]. cbn. unfold depths_cap. pose proof (wrap32_range (8 * nx * ny * nz)). lia.
  - intros (Z0 & N & C). destruct s as [ls n], s' as [ls' n']. cbn [pending nl] in *. subst n'. now apply read_depths_ok.
Qed.
End Read.

(** ** The cells *)
Lemma cap_nonneg nx ny : 0 <= pillars_cap nx ny.
Proof. unfold pillars_cap, mul32. pose proof (wrap32_range (add32 nx 1 * add32 ny 1)). lia. Qed.
Lemma wrap32_le z : 0 <= z -> wrap32 z <= z.
Proof. intros H. unfold wrap32. apply Z.mod_le; [exact H|]. unfold two32. lia. Qed.
Lemma cap_le nx ny : 0 <= nx -> 0 <= ny -> pillars_cap nx ny <= (nx + 1) * (ny + 1).
Proof.
  intros Hx Hy. unfold pillars_cap, mul32, add32.
  pose proof (wrap32_le (nx + 1) ltac:(lia)). pose proof (wrap32_le (ny + 1) ltac:(lia)).
  pose proof (wrap32_range (nx + 1)). pose proof (wrap32_range (ny + 1)).
  etransitivity; [apply wrap32_le; nia|nia].
Qed.
Lemma mapM_in {T U} (f : T -> res U) l bs : mapM f l = Ok bs -> forall a, In a l -> exists b, f a = Ok b.
Proof.
  intros H a Ha. apply mapM_ok in H. apply In_nth_error in Ha as [n Hn].
  destruct (Forall2_nth _ _ _ H n a Hn) as [b [_ E]]. eauto.
Qed.
Lemma nth_cell nx ny nz i j k : 1 <= nx -> 1 <= ny -> 1 <= nz -> 8 * nx * ny * nz < two32 -> 0 <= i < nx -> 0 <= j < ny -> 0 <= k < nz ->
  nth_error (cells nx ny nz) (Z.to_nat (cell_number nx ny i j k)) = Some (i, j, 2 * k).
Proof.
  intros Hx Hy Hz Hs. assert (0 <= 8 * nx * ny * nz) by nia.
  apply (cells_nth ExNum nx ny nz Hx Hy Hz Hs (repeat (default_pillar ExNum) (Z.to_nat ((nx + 1) * (ny + 1)))))
    with (ds := repeat 0 (Z.to_nat (8 * nx * ny * nz))); rewrite repeat_length; lia.
Qed.
Lemma cap_exact nx ny nz : 1 <= nx -> 1 <= ny -> 1 <= nz -> 8 * nx * ny * nz < two32 -> pillars_cap nx ny = (nx + 1) * (ny + 1).
Proof.
  intros Hx Hy Hz Hs. assert (0 <= 8 * nx * ny * nz) by nia.
  apply (pillars_cap_ok ExNum nx ny nz Hx Hy Hz Hs (repeat (default_pillar ExNum) (Z.to_nat ((nx + 1) * (ny + 1)))))
    with (ds := repeat 0 (Z.to_nat (8 * nx * ny * nz))); rewrite repeat_length; lia.
Qed.
Section Cells.
Context (F : Num) (A : Arith F) (coloc : list (gpoint F) -> list Z * list (gpoint F)).
Context (nx ny nz : Z) (Hsize : 8 * nx * ny * nz < two32).
(** The pillars that are not in the file are the default ones, with both ends at the origin. *)
Definition padded (ps : list (pillar F)) : list (pillar F) :=
  ps ++ repeat (default_pillar F) (Z.to_nat ((nx + 1) * (ny + 1)) - List.length ps).
Lemma nth_padded ps i : nth i (padded ps) (default_pillar F) = nth i ps (default_pillar F).
Proof.
  unfold padded. destruct (Nat.lt_ge_cases i (List.length ps)) as [H|H].
  - now apply app_nth1.
  - rewrite app_nth2 by assumption. rewrite (nth_overflow ps) by assumption. apply nth_repeat.
Qed.
Lemma create_padded ps ds : create_cells F A coloc nx ny nz ps ds = create_cells F A coloc nx ny nz (padded ps) ds.
Proof.
  unfold create_cells. f_equal. apply mapM_ext. intros [[i j] k2] _. unfold cell_points, pillar_at.
  now rewrite !nth_padded.
Qed.
Lemma create_complete ps ds r : 1 <= nx -> 1 <= ny -> 1 <= nz ->
  create_cells F A coloc nx ny nz ps ds = Ok r -> 8 * nx * ny * nz <= Z.of_nat (List.length ds).
Proof.
  intros Hx Hy Hz H. unfold create_cells in H. apply bind_inv in H as [pss [H _]].
  destruct (mapM_in _ _ _ H (nx - 1, ny - 1, 2 * (nz - 1))) as [pts Hp].
  { apply (nth_error_In _ (Z.to_nat (cell_number nx ny (nx - 1) (ny - 1) (nz - 1)))). apply nth_cell; lia || assumption. }
  unfold cell_points in Hp. do 5 (apply bind_inv in Hp as [? [_ Hp]]). apply bind_inv in Hp as [d [D _]].
  unfold depth_at, idxz in D. destruct (nthz ds _) as [d0|] eqn:D' in D; [|discriminate D]. apply nthz_some in D' as [D' _].
  assert (B : 8 * nx * ny * nz - 1 < two32 /\ 1 <= 8 * nx * ny * nz) by (split; nia).
  replace (2 * (nx - 1) + 4 * nx * (ny - 1) + 4 * nx * ny * (2 * (nz - 1) + 1) + 2 * nx + 1) with (8 * nx * ny * nz - 1) in D' by ring.
  rewrite wrap32_small in D' by lia. lia.
Qed.
Lemma create_hexas ps ds pts hexas : 0 <= nx -> 0 <= ny -> 0 <= nz ->
  create_cells F A coloc nx ny nz ps ds = Ok (pts, hexas) -> Z.of_nat (List.length hexas) = nx * ny * nz.
Proof.
  intros Hx Hy Hz H. unfold create_cells in H. apply bind_inv in H as [pss [_ H]].
  destruct (coloc (List.concat pss)) as [mp un]. apply bind_inv in H as [hs [H E]].
  assert (hs = hexas) as -> by congruence. apply mapM_ok in H. rewrite <- (forall2_length H), rangez_length.
  assert (0 <= nx * ny * nz) by nia. rewrite wrap32_small by nia. lia.
Qed.
End Cells.
Lemma includes_suffix b all ls : forall back m m' back', (exists p, all = p ++ ls) -> (exists p, all = p ++ back) ->
  includes b ls back m = Ok (m', back') -> exists p, all = p ++ back'.
Proof.
  assert (G : forall n ls, (List.length ls < n)%nat -> forall back m m' back', (exists p, all = p ++ ls) -> (exists p, all = p ++ back) ->
    includes b ls back m = Ok (m', back') -> exists p, all = p ++ back').
  { induction n as [|n IH]; intros [|l [|l2 r]] Hn back m m' back' Hl Hb H; cbn in Hn; try lia; cbn [includes] in H.
    - injection H as _ <-. exact Hb.
    - destruct (starts_with l "INCLUDE").
      + apply bind_inv in H as [m1 [_ H]]. injection H as _ <-. exists all. now rewrite app_nil_r.
      + injection H as _ <-. exact Hb.
    - destruct Hl as [p Hl]. destruct (starts_with l "INCLUDE").
      + apply bind_inv in H as [m1 [_ H]]. eapply IH in H; [exact H|lia| |]; exists (p ++ [l; l2]); now rewrite <- app_assoc.
      + change (includes b (l2 :: r) back m = Ok (m', back')) in H. eapply (IH (l2 :: r)) in H; [exact H|cbn; lia| |exact Hb].
        exists (p ++ [l]). now rewrite <- app_assoc. }
  intros. eapply (G (Datatypes.S (List.length ls))); eauto.
Qed.

(** ** C128 *)

(** Whatever the file and the other files: a grid that is loaded has its three sections, the depths are all
    there and no more, there are no more pillars than the grid has, and each cell is a hexahedron. *)
Theorem C128_loaded_complete (F : Num) (A : Arith F) coloc files text pts hexas :
  read_grdecl F A coloc files text = Ok (pts, hexas) ->
  exists nx ny nz ps ds ls0 rest0 ls1 rest1 ls2 rest2,
    found_in files text ls0 /\ size_section nx ny nz ls0 rest0 /\
    found_in files text ls1 /\ pillar_section F ps ls1 rest1 /\
    found_in files text ls2 /\ zcorn_block F ds ls2 rest2 /\
    Z.of_nat (List.length ps) <= (nx + 1) * (ny + 1) /\
    (8 * nx * ny * nz < two32 -> Z.of_nat (List.length ds) = 8 * nx * ny * nz /\ Z.of_nat (List.length hexas) = nx * ny * nz).
Proof.
  intros H. unfold read_grdecl in H. apply bind_inv in H as [[[[nx ny] nz] s] [D H]].
  apply read_dimensions_iff in D as [D N]. apply bind_inv in H as [[m r] [I H]]. cbv zeta in H.
  assert (P0 : found_in files text (pending (open_text text))) by (left; exists []; reflexivity).
  assert (B : 0 <= nx /\ 0 <= ny /\ 0 <= nz).
  { destruct D as (? & ? & ? & ? & ? & ta & tb & tc & ? & _ & _ & _ & _ & _ & _ & _ & Ta & Tb & Tc).
    apply sti_is_index in Ta as [Ta _], Tb as [Tb _], Tc as [Tc _]. lia. }
  assert (P1 : exists p, pending (open_text text) = p ++ r).
  { eapply includes_suffix; [| |exact I];
    destruct D as (pre & l0 & mid & _ & _ & _ & _ & _ & _ & E & _); exists (pre ++ l0 :: mid); rewrite E, <- app_assoc; reflexivity. }
  apply bind_inv in H as [[ps s1] [Hp H]].
  assert (Qp : exists ls1 rest1, found_in files text ls1 /\ pillar_section F ps ls1 rest1 /\
    (ps = [] \/ Z.of_nat (List.length ps) <= pillars_cap nx ny) /\ exists p, pending (open_text text) = p ++ pending s1).
  { destruct (lookup "COORD" m) as [f|].
    - apply bind_inv in Hp as [[ps' s2] [Hp E]]. assert (ps' = ps /\ s1 = mkStream r (nl s)) as [-> ->] by (split; congruence).
      apply read_pillars_iff in Hp as (Hp & _ & C). exists (pending (other_file files f)), (pending s2). cbn [pending].
      split; [|split; [exact Hp|split; [exact C|exact P1]]]. unfold other_file in *. destruct (files f) as [t|] eqn:Ef.
      + right. exists f, t. auto.
      + left. exists (pending (open_text text)). now rewrite app_nil_r.
    - apply read_pillars_iff in Hp as (Hp & _ & C). cbn [pending] in Hp. exists r, (pending s1).
      split; [left; exact P1|]. split; [exact Hp|]. split; [exact C|]. destruct P1 as [p P1].
      destruct Hp as (pre & kl & dl & sl & E & _). exists (p ++ pre ++ kl :: dl ++ [sl]). rewrite P1, E.
      rewrite <- !app_assoc. cbn [app]. rewrite <- !app_assoc. reflexivity. }
  destruct Qp as (ls1 & rest1 & F1 & S1 & C1 & P2).
  apply bind_inv in H as [[ds s2] [Hd H]].
  assert (Qd : exists ls2 rest2, found_in files text ls2 /\ zcorn_block F ds ls2 rest2 /\ Z.of_nat (List.length ds) <= depths_cap nx ny nz).
  { destruct (lookup "ZCORN" m) as [f|].
    - apply bind_inv in Hd as [[ds' s3] [Hd E]]. assert (ds' = ds) as -> by congruence.
      apply read_depths_iff in Hd as (Hd & _ & C). exists (pending (other_file files f)), (pending s3).
      split; [|split; [exact Hd|exact C]]. unfold other_file in *. destruct (files f) as [t|] eqn:Ef.
      + right. exists f, t. auto.
      + left. exists (pending (open_text text)). now rewrite app_nil_r.
    - apply read_depths_iff in Hd as (Hd & _ & C). exists (pending s1), (pending s2). split; [left; exact P2|]. auto. }
  destruct Qd as (ls2 & rest2 & F2 & S2 & C2).
  exists nx, ny, nz, ps, ds, (pending (open_text text)), (pending s), ls1, rest1, ls2, rest2.
  do 6 (split; [assumption|]). split.
  { pose proof (cap_le nx ny ltac:(lia) ltac:(lia)). destruct C1 as [-> | C1]; [cbn; nia|lia]. }
  intros Hs. split; [|eapply create_hexas; eauto; lia].
  assert (Hn : 0 <= 8 * nx * ny * nz) by nia. unfold depths_cap in C2. rewrite wrap32_small in C2 by lia.
  apply Z.le_antisymm; [exact C2|].
  destruct (Z.eq_dec nx 0) as [-> |]; [lia|]. destruct (Z.eq_dec ny 0) as [-> |]; [lia|]. destruct (Z.eq_dec nz 0) as [-> |]; [lia|].
  eapply create_complete; eauto; lia.
Qed.
Print Assumptions C128_loaded_complete.

(** Exactly which files without included sections are loaded. *)
Theorem C128_loads_iff (F : Num) (A : Arith F) coloc files text nx ny nz rest0 :
  (forall pts, List.length (fst (coloc pts)) = List.length pts) ->
  size_section nx ny nz (pending (open_text text)) rest0 -> before "INCLUDE" rest0 ->
  1 <= nx -> 1 <= ny -> 1 <= nz -> 8 * nx * ny * nz < two32 ->
  (exists r, read_grdecl F A coloc files text = Ok r) <->
  (exists ps ds rest1 rest2, pillar_section F ps rest0 rest1 /\ zcorn_block F ds rest1 rest2 /\
     Z.of_nat (List.length ps) <= (nx + 1) * (ny + 1) /\ Z.of_nat (List.length ds) = 8 * nx * ny * nz).
Proof.
  intros Hc Hd Hi Hx Hy Hz Hs. unfold read_grdecl.
  rewrite (proj2 (read_dimensions_iff (open_text text) nx ny nz (mkStream rest0 (nl (open_text text))))) by auto.
  cbn [bind pending nl]. rewrite (includes_none _ rest0 rest0 [] Hi). cbn [bind lookup].
  assert (Cap : pillars_cap nx ny = (nx + 1) * (ny + 1)) by (eapply cap_exact; eauto).
  assert (Dap : depths_cap nx ny nz = 8 * nx * ny * nz) by (unfold depths_cap; apply wrap32_small; nia).
  split.
  - intros [r H]. apply bind_inv in H as [[ps s1] [Hp H]]. apply bind_inv in H as [[ds s2] [Hd2 H]].
    apply read_pillars_iff in Hp as (Hp & _ & C). apply read_depths_iff in Hd2 as (Hd2 & _ & C2). cbn [pending] in Hp.
    exists ps, ds, (pending s1), (pending s2). split; [exact Hp|]. split; [exact Hd2|]. split.
    + destruct C as [-> | C]; [cbn; nia|lia].
    + apply (create_complete F A coloc nx ny nz Hs) in H; auto. lia.
  - intros (ps & ds & rest1 & rest2 & Hp & Hz2 & Lp & Ld).
    rewrite (proj2 (read_pillars_iff F nx ny (mkStream rest0 (nl (open_text text))) ps (mkStream rest1 (nl (open_text text))))) by (cbn [pending nl]; rewrite Cap; auto).
    cbn [bind].
    rewrite (proj2 (read_depths_iff F nx ny nz (mkStream rest1 (nl (open_text text))) ds (mkStream rest2 (nl (open_text text))))) by (cbn [pending nl]; rewrite Dap; split; [assumption|split; [reflexivity|lia]]).
    cbn [bind]. rewrite create_padded.
    destruct (create_cells_ok F A nx ny nz Hx Hy Hz Hs (padded F nx ny ps)) with (ds := ds) (coloc := coloc) as (pts & hexas & E & _); auto.
    { unfold padded. rewrite app_length, repeat_length. nia. }
    eauto.
Qed.
Print Assumptions C128_loads_iff.

(** The pillars that are missing are not noticed: the corners of the grid are then on pillars whose two ends are
    the origin. *)
Theorem C128_missing_pillars (F : Num) (A : Arith F) coloc files text nx ny nz rest0 ps ds rest1 rest2 :
  (forall pts, List.length (fst (coloc pts)) = List.length pts) ->
  size_section nx ny nz (pending (open_text text)) rest0 -> before "INCLUDE" rest0 ->
  1 <= nx -> 1 <= ny -> 1 <= nz -> 8 * nx * ny * nz < two32 ->
  pillar_section F ps rest0 rest1 -> zcorn_block F ds rest1 rest2 ->
  Z.of_nat (List.length ps) <= (nx + 1) * (ny + 1) -> Z.of_nat (List.length ds) = 8 * nx * ny * nz ->
  let o := (zero F, zero F, zero F) in
  let all := ps ++ repeat (mkPillar F o o) (Z.to_nat ((nx + 1) * (ny + 1)) - List.length ps) in
  exists pts hexas, read_grdecl F A coloc files text = Ok (snd (coloc pts), hexas) /\
    cells_of F A nx ny nz all ds coloc pts hexas.
Proof.
  intros Hc Hd Hi Hx Hy Hz Hs Hp Hz2 Lp Ld o all. unfold read_grdecl.
  rewrite (proj2 (read_dimensions_iff (open_text text) nx ny nz (mkStream rest0 (nl (open_text text))))) by auto.
  cbn [bind pending nl]. rewrite (includes_none _ rest0 rest0 [] Hi). cbn [bind lookup].
  assert (Cap : pillars_cap nx ny = (nx + 1) * (ny + 1)) by (eapply cap_exact; eauto).
  assert (Dap : depths_cap nx ny nz = 8 * nx * ny * nz) by (unfold depths_cap; apply wrap32_small; nia).
  rewrite (proj2 (read_pillars_iff F nx ny (mkStream rest0 (nl (open_text text))) ps (mkStream rest1 (nl (open_text text))))) by (cbn [pending nl]; rewrite Cap; auto).
  cbn [bind].
  rewrite (proj2 (read_depths_iff F nx ny nz (mkStream rest1 (nl (open_text text))) ds (mkStream rest2 (nl (open_text text))))) by (cbn [pending nl]; rewrite Dap; split; [assumption|split; [reflexivity|lia]]).
  cbn [bind]. rewrite create_padded.
  apply (create_cells_ok F A nx ny nz Hx Hy Hz Hs (padded F nx ny ps)); auto.
  unfold padded. rewrite app_length, repeat_length. nia.
Qed.
Print Assumptions C128_missing_pillars.

(** ** C129 *)

(** The vertex given to corner [l] of the cell [i j k]. *)
Definition vertex_of (nx ny : Z) (hexas : list (list Z)) (i j k : Z) (l : nat) (v : Z) : Prop :=
  exists hexa, nth_error hexas (Z.to_nat (cell_number nx ny i j k)) = Some hexa /\ nth_error hexa l = Some v.
(** Corner [l] of the cell [i j k] is on this pillar, at this place of the ZCORN section. *)
Definition corner_pillar (i j k : Z) (l : nat) : Z * Z := let '(di, dj, _) := offsets l in (i + di, j + dj).
Definition corner_depth {T} (nx ny : Z) (ds : list T) (i j k : Z) (l : nat) : option T :=
  let '(di, dj, dk) := offsets l in nth_error ds (Z.to_nat (zcorn_number nx ny (2 * i + di) (2 * j + dj) (2 * k + dk))).
(** Points that are equal get the same vertex, which is an existing one. *)
Definition merges {P} (coloc : list P -> list Z * list P) : Prop := forall pts,
  List.length (fst (coloc pts)) = List.length pts /\
  Forall (fun v => 0 <= v < Z.of_nat (List.length (snd (coloc pts)))) (fst (coloc pts)) /\
  forall m n p, nth_error pts m = Some p -> nth_error pts n = Some p -> nth_error (fst (coloc pts)) m = nth_error (fst (coloc pts)) n.

Theorem C129_shared (F : Num) (A : Arith F) coloc nx ny nz ps ds pts hexas : merges coloc ->
  cells_of F A nx ny nz ps ds coloc pts hexas ->
  forall i j k l i' j' k' l', 0 <= i < nx -> 0 <= j < ny -> 0 <= k < nz -> (l < 8)%nat ->
  0 <= i' < nx -> 0 <= j' < ny -> 0 <= k' < nz -> (l' < 8)%nat ->
  exists v v', vertex_of nx ny hexas i j k l v /\ vertex_of nx ny hexas i' j' k' l' v' /\
    0 <= v < Z.of_nat (List.length (snd (coloc pts))) /\
    (corner_pillar i j k l = corner_pillar i' j' k' l' -> corner_depth nx ny ds i j k l = corner_depth nx ny ds i' j' k' l' -> v = v').
Proof.
  intros Hm (_ & _ & H) i j k l i' j' k' l' Hi Hj Hk Hl Hi' Hj' Hk' Hl'. destruct (Hm pts) as (_ & R & M).
  destruct (H i j k l Hi Hj Hk Hl) as (pt & hexa & v & P & C & E1 & _ & E2 & V).
  destruct (H i' j' k' l' Hi' Hj' Hk' Hl') as (pt' & hexa' & v' & P' & C' & E1' & _ & E2' & V').
  exists v, v'. split; [exists hexa; auto|]. split; [exists hexa'; auto|]. split.
  { eapply Forall_forall in R; [exact R|]. eapply nth_error_In; exact V. }
  intros Ep Ed. unfold corner_pillar, corner_depth, corner_point in *.
  destruct (offsets l) as [[di dj] dk], (offsets l') as [[di' dj'] dk'].
  destruct C as (p & d & Cp & Cd & ->), C' as (p' & d' & Cp' & Cd' & ->). injection Ep as E3 E4.
  rewrite E3, E4 in Cp. assert (p = p') as -> by congruence. assert (d = d') as -> by congruence.
  pose proof (M _ _ _ P P') as Q. congruence.
Qed.
Print Assumptions C129_shared.

(** In exact arithmetic, with a search that merges exactly the equal points and pillars whose ends are at two depths:
    two corners of the same pillar are the same vertex only when they are at the same depth. *)
Definition merges_only (coloc : list (Q * Q * Q) -> list Z * list (Q * Q * Q)) : Prop := forall pts m n p q v,
  nth_error pts m = Some p -> nth_error pts n = Some q ->
  nth_error (fst (coloc pts)) m = Some v -> nth_error (fst (coloc pts)) n = Some v -> peq p q.
Definition two_depths rd w1 w2 nd (p : pillar (QNum rd w1 w2 nd)) : Prop :=
  let t : Q * Q * Q := top _ p in let b : Q * Q * Q := bottom _ p in ~ (snd b == snd t)%Q.
Theorem C129_split rd w1 w2 nd coloc nx ny nz ps ds pts hexas : merges_only coloc ->
  (forall p, In p ps -> two_depths rd w1 w2 nd p) ->
  cells_of (QNum rd w1 w2 nd) (Q_ops rd w1 w2 nd) nx ny nz ps ds coloc pts hexas ->
  forall i j k l i' j' k' l' v, 0 <= i < nx -> 0 <= j < ny -> 0 <= k < nz -> (l < 8)%nat ->
  0 <= i' < nx -> 0 <= j' < ny -> 0 <= k' < nz -> (l' < 8)%nat ->
  vertex_of nx ny hexas i j k l v -> vertex_of nx ny hexas i' j' k' l' v ->
  exists d d' : Q, @corner_depth Q nx ny ds i j k l = Some d /\ @corner_depth Q nx ny ds i' j' k' l' = Some d' /\ (d == d')%Q.
Proof.
  intros Hm Hn (_ & _ & H) i j k l i' j' k' l' w Hi Hj Hk Hl Hi' Hj' Hk' Hl' (h & Vh & Vw) (h' & Vh' & Vw').
  destruct (H i j k l Hi Hj Hk Hl) as (pt & hexa & v & P & C & E1 & _ & E2 & V).
  destruct (H i' j' k' l' Hi' Hj' Hk' Hl') as (pt' & hexa' & v' & P' & C' & E1' & _ & E2' & V').
  assert (v = w /\ v' = w) as [-> ->] by (split; congruence).
  pose proof (Hm _ _ _ _ _ _ P P' V V') as Q0. unfold corner_depth, corner_point in *.
  destruct (offsets l) as [[di dj] dk], (offsets l') as [[di' dj'] dk'].
  destruct C as (p & d & Cp & Cd & ->), C' as (p' & d' & Cp' & Cd' & ->). exists d, d'. split; [exact Cd|]. split; [exact Cd'|].
  apply nth_error_In, Hn in Cp, Cp'. destruct p as [[[tx ty] tz] [[bx by_] bz]], p' as [[[tx' ty'] tz'] [[bx' by_'] bz']].
  unfold two_depths in Cp, Cp'. cbn [bottom top snd] in Cp, Cp'.
  destruct (C26_point_on_pillar rd w1 w2 nd tx ty tz bx by_ bz d Cp) as (_ & D1 & _).
  destruct (C26_point_on_pillar rd w1 w2 nd tx' ty' tz' bx' by_' bz' d' Cp') as (_ & D2 & _).
  cbv zeta in D1, D2. destruct (interpolate _ _ d _) as [[a b] c], (interpolate _ _ d' _) as [[a' b'] c'].
  cbn [snd] in D1, D2. destruct Q0 as (_ & _ & Q0). rewrite <- D1, <- D2. exact Q0.
Qed.
Print Assumptions C129_split.

(** ** Instances *)
Definition pt_eqb (p q : gpoint ExNum) : bool :=
  let '(a, b, c) := p in let '(a', b', c') := q in (Z.eqb a a' && Z.eqb b b' && Z.eqb c c')%bool.
Fixpoint first_eq (p : gpoint ExNum) (l : list (gpoint ExNum)) : Z :=
  match l with [] => 0 | q :: r => if pt_eqb p q then 0 else 1 + first_eq p r end.
Definition first_of (pts : list (gpoint ExNum)) : list Z * list (gpoint ExNum) := (map (fun p => first_eq p pts) pts, pts).
Lemma first_eq_bound p l : In p l -> 0 <= first_eq p l < Z.of_nat (List.length l).
Proof.
  induction l as [|q l IH]; [easy|]. intros H. cbn [first_eq List.length]. destruct (pt_eqb p q) eqn:E; [lia|].
  destruct H as [-> | H]; [|specialize (IH H); lia].
  destruct p as [[a b] c]. cbn in E. rewrite !Z.eqb_refl in E. discriminate E.
Qed.
Example C129_merges : merges first_of.
Proof.
  intros pts. cbn [first_of fst snd]. split; [apply map_length|]. split.
  - apply Forall_forall. intros v Hv. apply in_map_iff in Hv as [p [<- Hp]]. now apply first_eq_bound.
  - intros m n p Hm Hn. rewrite !nth_error_map, Hm, Hn. reflexivity.
Qed.
(** Two cells side by side, at the same depths but for one corner of the common pillars. *)
Definition ex_two : list bytes := map lit
  ["SPECGRID"; "2 1 1 1 F /"; "COORD"; "0 0 0 0 0 9"; "1 0 0 1 0 9"; "2 0 0 2 0 9"; "0 1 0 0 1 9"; "1 1 0 1 1 9"; "2 1 0 2 1 9"; "/";
   "ZCORN"; "1 1 1 1"; "1 1 2 1"; "5 5 5 5"; "5 5 5 5"; "/"].
Definition ex_arith : Arith ExNum := mkArith ExNum Z.sub Z.mul (fun a b => a) 1.
Definition hexas_are (r : res (list (gpoint ExNum) * list (list Z))) (h : list (list Z)) : bool :=
  match r with Ok (_, hexas) => leqb (leqb Z.eqb) hexas h | _ => false end.
Example C129_instance :
  hexas_are (read_grdecl ExNum ex_arith first_of no_files (unlines ex_two)) [[0; 1; 2; 3; 4; 5; 6; 7]; [1; 9; 10; 2; 12; 13; 14; 6]] = true.
Proof. vm_compute. reflexivity. Qed.

(** A grid of one cell has four pillars: a file with only one is loaded. *)
Definition ex_one_pillar : list bytes := firstn 7 ex_grid ++ skipn 12 ex_grid.
Theorem C128_too_few_pillars_refuted :
  exists text ps rest0 rest1, size_section 1 1 1 (pending (open_text text)) rest0 /\ before "INCLUDE" rest0 /\
    pillar_section ExNum ps rest0 rest1 /\ List.length ps = 1%nat /\
    exists r, read_grdecl ExNum ZArith_ops no_colocation no_files text = Ok r.
Proof.
  exists (unlines ex_one_pillar), [mkPillar ExNum (0, 0, 0) (0, 0, 10)], (skipn 4 ex_one_pillar), (skipn 8 ex_one_pillar).
  assert (E : pending (open_text (unlines ex_one_pillar)) = ex_one_pillar) by (vm_compute; reflexivity).
  assert (D : size_section 1 1 1 ex_one_pillar (skipn 4 ex_one_pillar)).
  { exists [lit "-- a comment"], (lit "SPECGRID"), [lit "-- sizes"; lit "1 1 1 1 F /"], [lit "SPECGRID"; lit "-- sizes"], (lit "1 1 1 1 F /"),
      (lit "1"), (lit "1"), (lit "1"), (map lit ["1"; "F"; "/"]). repeat split; repeat constructor. }
  assert (B : before "INCLUDE" (skipn 4 ex_one_pillar)) by (repeat constructor).
  assert (P : pillar_section ExNum [mkPillar ExNum (0, 0, 0) (0, 0, 10)] (skipn 4 ex_one_pillar) (skipn 8 ex_one_pillar)).
  { exists [lit ""], (lit "COORD"), [lit "0 0 0 0 0 10"], (lit "/"). split; [reflexivity|]. split; [repeat constructor|].
    split; [reflexivity|]. split; [|reflexivity]. apply PT_one; [reflexivity|repeat constructor|constructor]. }
  rewrite E. split; [exact D|]. split; [exact B|]. split; [exact P|]. split; [reflexivity|].
  apply (C128_loads_iff ExNum ZArith_ops no_colocation no_files (unlines ex_one_pillar) 1 1 1 (skipn 4 ex_one_pillar)); try lia; try reflexivity.
  - intros pts. cbn [no_colocation fst]. apply rangez_length.
  - rewrite E. exact D.
  - exact B.
  - exists [mkPillar ExNum (0, 0, 0) (0, 0, 10)], [1; 2; 3; 4; 5; 6; 7; 8], (skipn 8 ex_one_pillar), (skipn 13 ex_one_pillar).
    split; [exact P|]. split; [|split; [cbn; lia|reflexivity]].
    exists [lit ""], (lit "ZCORN"), (map lit ["1 2 3 4"; "5 6 7 8"]), (lit "/").
    split; [reflexivity|]. split; [repeat constructor|]. split; [reflexivity|]. split; [|reflexivity]. split; repeat constructor.
Qed.
Print Assumptions C128_too_few_pillars_refuted.
