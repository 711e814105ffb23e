(** * Saving again what was loaded (C115). *)
From Coq Require Import ZArith List Lia Bool Ascii String QArith Qpower Qabs Lqa.
From Verif Require Import Base Text TextFacts NumText DecText GocadModel MeshModel TsModel Spec GocadFacts TsFacts ExNum ExCheck PropsTsVs PropsDec.
Import ListNotations.
Local Open Scope string_scope.
Local Open Scope list_scope.

(** ** Numbers *)
Local Open Scope Q_scope.
Definition eps : Q := 1 # 9007199254740992.
Lemma ten_step e : ten (e + 1) == 10 * ten e.
Proof. rewrite ten_add. change (ten 1) with 10. ring. Qed.
Lemma ten_nat e k : ten e <= ten (e + Z.of_nat k).
Proof.
  induction k as [|k IH]; [rewrite Z.add_0_r; apply Qle_refl|]. replace (e + Z.of_nat (S k))%Z with (e + Z.of_nat k + 1)%Z by lia. rewrite ten_step.
  pose proof (ten_pos (e + Z.of_nat k)). lra.
Qed.
Lemma ten_mono a b : (a <= b)%Z -> ten a <= ten b.
Proof. intros H. replace b with (a + Z.of_nat (Z.to_nat (b - a)))%Z by lia. apply ten_nat. Qed.
Lemma exponent_bounds n d : (0 < n)%Z -> ten (exponent n d) <= n # d /\ n # d < ten (exponent n d + 1).
Proof.
  intros Hn. destruct (exponent_spec n d Hn) as [A B]. cbv zeta in *. rewrite (Qmake_Qdiv n d). set (D := inject_Z (Zpos d)) in *. assert (DP : 0 < D) by reflexivity. split.
  - apply Qle_shift_div_l; [assumption|]. rewrite Qmult_comm. exact A.
  - apply Qlt_shift_div_r; [assumption|]. rewrite Qmult_comm. exact B.
Qed.
Lemma exponent_unique n d x : (0 < n)%Z -> ten x <= n # d -> n # d < ten (x + 1) -> exponent n d = x.
Proof.
  intros Hn A B. destruct (exponent_bounds n d Hn) as [A' B']. set (y := exponent n d) in *. destruct (Z.lt_trichotomy y x) as [L|[L|L]]; [exfalso|assumption|exfalso].
  - pose proof (ten_mono (y + 1) x ltac:(lia)). lra.
  - pose proof (ten_mono (x + 1) y ltac:(lia)). lra.
Qed.
(** The digits are a nearest integer to the number in units of its sixth digit. *)
Lemma six_digits_nearest n d : (0 < n)%Z -> exists k, six_digits n d = (if (k =? 1000000)%Z then (100000, exponent n d + 1)%Z else (k, exponent n d)) /\
  Qabs (inject_Z k - (n # d) * ten (5 - exponent n d)) <= 1 # 2.
Proof.
  intros Hn. unfold six_digits. set (y := exponent n d). set (n' := (n * 10 ^ Z.max (5 - y) 0)%Z). set (d' := (d * Z.to_pos (10 ^ Z.max (y - 5) 0))%positive).
  exists (round_half_even n' d'). split; [reflexivity|]. set (k := round_half_even n' d'). set (s := (n # d) * ten (5 - y)).
  assert (DP : 0 < inject_Z (Zpos d)) by reflexivity. assert (D'P : 0 < inject_Z (Zpos d')) by reflexivity.
  assert (ED : inject_Z (Zpos d') == inject_Z (Zpos d) * ten (Z.max (y - 5) 0)).
  { unfold d'. rewrite Pos2Z.inj_mul, Z2Pos.id by (apply Z.pow_pos_nonneg; lia). now rewrite inject_Z_mult, <- ten_Z by lia. }
  assert (EN : inject_Z n' == s * inject_Z (Zpos d')).
  { unfold n', s. rewrite inject_Z_mult, <- ten_Z by lia. rewrite ED, (Qmake_Qdiv n d).
    replace (Z.max (5 - y) 0) with ((5 - y) + Z.max (y - 5) 0)%Z by lia. rewrite ten_add. field. intros Q. rewrite Q in DP. discriminate DP. }
  pose proof (round_near n' d') as R. fold k in R. rewrite Zle_Qle, inject_Z_mult in R.
  assert (A : inject_Z (Z.abs (k * Z.pos d' - n')) == Qabs (inject_Z k - s) * inject_Z (Zpos d')).
  { transitivity (Qabs (inject_Z (k * Z.pos d' - n'))); [reflexivity|]. rewrite <- (Qabs_pos (inject_Z (Zpos d'))) by (now apply Qlt_le_weak).
    rewrite <- Qabs_Qmult. unfold Z.sub. rewrite inject_Z_plus, inject_Z_opp, inject_Z_mult, EN. apply Qabs_wd. ring. }
  rewrite A in R. apply (Qmult_lt_0_le_reg_r _ _ (inject_Z (Zpos d')) D'P). change (inject_Z 2) with 2 in R. lra.
Qed.
Lemma nearest_unique k m s : Qabs (inject_Z k - s) <= 1 # 2 -> Qabs (inject_Z m - s) < 1 # 2 -> k = m.
Proof.
  intros A B. assert (C : Qabs (inject_Z (k - m)) < 1).
  { pose proof (Qabs_triangle (inject_Z k - s) (- (inject_Z m - s))) as T. rewrite Qabs_opp in T. unfold Z.sub. rewrite inject_Z_plus, inject_Z_opp.
    setoid_replace (inject_Z k - s + - (inject_Z m - s)) with (inject_Z k + - inject_Z m) in T by ring. lra. }
  change (Qabs (inject_Z (k - m))) with (inject_Z (Z.abs (k - m))) in C. change 1 with (inject_Z 1) in C. rewrite <- Zlt_Qlt in C. lia.
Qed.
(** A number very close to m 10^(x - 5) is printed with the digits of [m]. *)
Lemma six_digits_near n d m x : (0 < n)%Z -> (100000 <= m < 1000000)%Z ->
  Qabs ((n # d) - inject_Z m * ten (x - 5)) <= eps * (inject_Z m * ten (x - 5)) -> six_digits n d = (m, x).
Proof.
  intros Hn Hm H. set (q := n # d) in *. set (u := ten (x - 5)) in *. assert (UP : 0 < u) by apply ten_pos.
  set (t := q * ten (5 - x)).
  assert (QT : q == t * u).
  { unfold t, u. rewrite <- Qmult_assoc, <- ten_add. replace (5 - x + (x - 5))%Z with 0%Z by lia. change (ten 0) with 1. ring. }
  assert (M1 : 100000 <= inject_Z m) by (change 100000 with (inject_Z 100000); rewrite <- Zle_Qle; lia).
  assert (M2 : inject_Z m <= 999999) by (change 999999 with (inject_Z 999999); rewrite <- Zle_Qle; lia).
  assert (T : Qabs (t - inject_Z m) <= eps * inject_Z m).
  { apply (Qmult_lt_0_le_reg_r _ _ u UP). rewrite <- (Qabs_pos u) at 1 by lra. rewrite <- Qabs_Qmult. setoid_replace ((t - inject_Z m) * u) with (q - inject_Z m * u) by (rewrite QT; ring).
    rewrite <- Qmult_assoc. exact H. }
  assert (TB := T). apply Qabs_Qle_condition in TB as [T1 T2].
  assert (E2 : eps * inject_Z m <= eps * 999999) by (apply Qmult_le_l; [reflexivity|assumption]).
  assert (E3 : eps * 999999 < 1 # 1000000) by reflexivity.
  assert (X0 : ten x == 100000 * u).
  { unfold u. replace x with (5 + (x - 5))%Z at 1 by lia. rewrite ten_add. reflexivity. }
  destruct (six_digits_nearest n d Hn) as [k [K1 K2]]. fold q in K2. rewrite K1. clear K1.
  destruct (Qlt_le_dec t 100000) as [L|L].
  - assert (m = 100000)%Z as ->.
    { assert (m < 100001)%Z; [|lia]. rewrite Zlt_Qlt. change (inject_Z 100001) with 100001. lra. }
    change (inject_Z 100000) with 100000 in *.
    assert (EX : exponent n d = (x - 1)%Z).
    { apply exponent_unique; [assumption| |]; fold q.
      - assert (T0 : ten x == 10 * ten (x - 1)) by (rewrite <- ten_step; replace (x - 1 + 1)%Z with x by lia; reflexivity). rewrite QT. assert (10000 * u <= t * u) by (apply Qmult_le_r; lra). lra.
      - replace (x - 1 + 1)%Z with x by lia. rewrite X0, QT. apply Qmult_lt_r; assumption. }
    rewrite EX in *. assert (S : q * ten (5 - (x - 1)) == 10 * t).
    { replace (5 - (x - 1))%Z with (5 - x + 1)%Z by lia. rewrite ten_step. unfold t. ring. }
    rewrite S in K2. assert (k = 1000000)%Z as ->.
    { apply (nearest_unique _ _ _ K2). change (inject_Z 1000000) with 1000000. apply Qabs_Qlt_condition. split; lra. }
    change (1000000 =? 1000000)%Z with true. cbv iota. now replace (x - 1 + 1)%Z with x by lia.
  - assert (EX : exponent n d = x).
    { apply exponent_unique; [assumption| |]; fold q.
      - rewrite X0, QT. apply Qmult_le_r; assumption.
      - rewrite ten_step, X0, QT, Qmult_assoc. apply Qmult_lt_r; [assumption|]. lra. }
    rewrite EX in *. fold t in K2. assert (k = m)%Z as ->.
    { apply (nearest_unique _ _ _ K2). rewrite <- Qabs_opp. setoid_replace (- (inject_Z m - t)) with (t - inject_Z m) by ring. lra. }
    destruct (Z.eqb_spec m 1000000); [lia|reflexivity].
Qed.
(** A number printed, read with the nearest double and printed again gives the same text. *)
Theorem C115_numbers : forall rd q y, nearest_double rd -> atod (DNum rd) (general6 q) = Some y -> general6 y = general6 q.
Proof.
  intros rd q y R H. cbn [DNum atod] in H. unfold general6 in H at 1. unfold general6 at 2. destruct q as [n d]. cbn [Qnum Qden] in *. destruct (Z.eqb_spec n 0) as [->|N0].
  { destruct (read_decimal (lit "0")) as [w|] eqn:W; [|discriminate H]. assert (Z0 : w == 0) by (vm_compute in W; injection W as <-; reflexivity). clear W.
    cbn [option_map] in H. assert (y = rd w) as -> by congruence. specialize (R w). rewrite Z0 in R at 2 3. change (Qabs 0) with 0 in R. rewrite Qmult_0_r in R.
    assert (E : rd w == 0) by (apply Qabs_Qle_condition in R; lra). unfold general6. unfold Qeq in E. cbn [Qnum Qden] in E.
    destruct (Z.eqb_spec (Qnum (rd w)) 0) as [_|C]; [reflexivity|]. exfalso. apply C. lia. }
  destruct (six_digits (Z.abs n) d) as [m x] eqn:S. destruct (six_digits_spec (Z.abs n) d m x ltac:(lia) S) as [Hm _].
  destruct (read_text_digits m x Hm) as [v [V1 V2]].
  assert (VP : 0 < v).
  { rewrite V2. apply Qmult_lt_0_compat; [|apply ten_pos]. change 0 with (inject_Z 0). rewrite <- Zlt_Qlt. lia. }
  assert (G : forall w, w == v \/ w == - v -> forall z, z = rd w -> six_digits (Z.abs (Qnum z)) (Qden z) = (m, x) /\ (w == v -> (0 < Qnum z)%Z) /\ (w == - v -> (Qnum z < 0)%Z)).
  { intros w Hw z ->. specialize (R w). set (z := rd w) in *. assert (QW : Qabs w == v).
    { destruct Hw as [-> | ->]; [|rewrite Qabs_opp]; apply Qabs_pos; lra. }
    rewrite QW in R. change (1 # 9007199254740992) with eps in R. assert (EV : eps * v < v) by (setoid_replace v with (1 * v) at 2 by ring; apply Qmult_lt_r; [assumption|reflexivity]).
    assert (P : w == v -> 0 < z) by (intros E; rewrite E in R; apply Qabs_Qle_condition in R; lra).
    assert (N : w == - v -> z < 0) by (intros E; rewrite E in R; apply Qabs_Qle_condition in R; lra).
    assert (P' : w == v -> (0 < Qnum z)%Z) by (intros E; specialize (P E); unfold Qlt in P; cbn [Qnum Qden] in P; lia).
    assert (N' : w == - v -> (Qnum z < 0)%Z) by (intros E; specialize (N E); unfold Qlt in N; cbn [Qnum Qden] in N; lia).
    split; [|split; assumption]. apply six_digits_near; [destruct Hw as [E|E]; [specialize (P' E)|specialize (N' E)]; lia|assumption|]. rewrite <- V2.
    assert (QZ : Z.abs (Qnum z) # Qden z = Qabs z) by now destruct z. rewrite QZ. destruct Hw as [E|E]; rewrite E in R.
    - rewrite (Qabs_pos z) by (specialize (P E); lra). exact R.
    - rewrite (Qabs_neg z) by (specialize (N E); lra). rewrite <- Qabs_opp. setoid_replace (- (- z - v)) with (z - - v) by ring. exact R. }
  destruct (Z.ltb_spec n 0) as [Ln|Ln].
  - cbn [app read_decimal] in H. change (Ascii.eqb "-" "-") with true in H. cbv iota in H. rewrite V1 in H. cbn [option_map] in H. injection H as <-.
    destruct (G (- v) (or_intror (Qeq_refl _)) _ eq_refl) as [G1 [_ G2]]. specialize (G2 (Qeq_refl _)). unfold general6. rewrite G1.
    destruct (Z.eqb_spec (Qnum (rd (- v))) 0); [lia|]. destruct (Z.ltb_spec (Qnum (rd (- v))) 0); [reflexivity|lia].
  - cbn [app] in H. assert (RD : read_decimal (text_digits m x) = Some v).
    { unfold read_decimal. destruct (text_digits m x) as [|c r] eqn:Et; [cbn in V1; discriminate V1|]. rewrite (text_digits_no_minus m x c r ltac:(lia) Et). exact V1. }
    rewrite RD in H. cbn [option_map] in H. injection H as <-. destruct (G v (or_introl (Qeq_refl _)) _ eq_refl) as [G1 [G2 _]]. specialize (G2 (Qeq_refl _)). unfold general6. rewrite G1.
    destruct (Z.eqb_spec (Qnum (rd v)) 0); [lia|]. destruct (Z.ltb_spec (Qnum (rd v)) 0); [lia|reflexivity].
Qed.
Print Assumptions C115_numbers.

(** ** Files *)
Local Open Scope nat_scope.
(** Printing a number, reading it and printing the result gives the same text. *)
Definition stable (F : Num) : Prop :=
  (forall x y, reread_coord F x y -> pt_text F y = pt_text F x) /\ (forall x y, reread_value F x y -> os_text F y = os_text F x).
(** [w] is the loaded mesh [m'] as the writer sees it. *)
Definition given_back {F C} (m' : mesh F C) (w : wmesh F C) : Prop :=
  wm_name w = m_name m' /\ wm_points w = m_points m' /\ wm_cells w = m_cells m' /\ (exists a, In a (wm_attrs w) /\ w_name a = lit "points") /\
  forall a, In a (wm_attrs w) -> saved a -> forall v, v < List.length (m_points m') -> attr_value m' (w_name a) v = Some [w_val a v].
(** The names of the saved attributes, in the order in which they are saved. *)
Definition saved_names {F C} (w : wmesh F C) (ns : list bytes) : Prop :=
  exists l, Forall saved l /\ map w_name l = ns /\ exists keep, (forall a, keep a = true <-> saved a) /\ l = filter keep (wm_attrs w).
(** Every mesh has the internal attribute; the name is made of words separated by single spaces. *)
Definition plain_mesh {F C} (m : wmesh F C) : Prop :=
  (exists a, In a (wm_attrs m) /\ w_name a = lit "points") /\ forall n, wm_name m = Some n -> clean n.

Lemma saved_names_eq {F C} (w : wmesh F C) ns : saved_names w ns -> ns = map w_name (filter exported (wm_attrs w)).
Proof.
  intros (l & _ & <- & keep & K & ->). f_equal. apply filter_ext. intros a. destruct (keep a) eqn:A.
  - symmetry. apply exported_saved, K, A.
  - destruct (exported a) eqn:B; [|reflexivity]. exfalso. apply exported_saved, K in B. congruence.
Qed.
Lemma saved_names_iff {F C} (w : wmesh F C) : saved_names w (map w_name (filter exported (wm_attrs w))).
Proof.
  exists (filter exported (wm_attrs w)). split; [|split; [reflexivity|]].
  - apply Forall_forall. intros a Ha. apply filter_In in Ha as [_ Ha]. now apply exported_saved.
  - exists exported. split; [intros a; apply exported_saved|reflexivity].
Qed.
Lemma names_forall2 {F} (l l' : list (wattr F)) : map w_name l = map w_name l' -> Forall2 (fun a b => w_name a = w_name b) l l'.
Proof.
  revert l'. induction l as [|a l IH]; intros [|b l'] H; try discriminate H; constructor.
  - cbn [map] in H. congruence.
  - apply IH. cbn [map] in H. congruence.
Qed.
Lemma prop_lines_names {F} (l l' : list (wattr F)) : map w_name l = map w_name l' -> prop_lines l = prop_lines l'.
Proof.
  intros H. pose proof (names_forall2 l l' H) as H2. unfold prop_lines.
  assert (A : flat_map (fun w => write_property_class_header (w_name w) "Real Number" "unitless" false) l = flat_map (fun w => write_property_class_header (w_name w) "Real Number" "unitless" false) l').
  { clear H. induction H2 as [|a b l l' E _ IH]; [reflexivity|]. cbn [flat_map]. now rewrite E, IH. }
  rewrite A. f_equal. assert (B : prop_header_of l = prop_header_of l').
  { unfold prop_header_of. rewrite H. assert (C : forall T (x : T), map (fun _ : wattr F => x) l = map (fun _ => x) l').
    { intros T x. clear H A. induction H2 as [|? ? ? ? _ _ IH]; [reflexivity|]. cbn [map]. now rewrite IH. }
    now rewrite !C. }
  rewrite B. destruct H2; reflexivity.
Qed.
Lemma keyword_points {F} (l : list (wattr F)) : (exists a, In a l /\ w_name a = lit "points") -> vrtx_keyword l = lit "PVRTX".
Proof. intros [a [H _]]. destruct l; [destruct H|reflexivity]. Qed.
Lemma vrtx_lines_same {F} kw (l l' : list (wattr F)) ps ps' : Forall2 (fun p p' => point_string p = point_string p') ps ps' ->
  forall v, (forall k, v <= k < v + List.length ps -> map (fun w => os_text F (w_val w k)) l = map (fun w => os_text F (w_val w k)) l') -> vrtx_lines kw l v ps = vrtx_lines kw l' v ps'.
Proof.
  induction 1 as [|p p' ps ps' E _ IH]; intros v H; [reflexivity|]. cbn [vrtx_lines]. cbn [List.length] in H. rewrite (IH (S v)) by (intros k Hk; apply H; lia). f_equal.
  unfold vrtx_line. rewrite E, (H v) by lia. reflexivity.
Qed.
Section Same.
Context {F : Num} {C : Type} (m : wmesh F C) (w : wmesh F C).
Hypotheses (HF : num_ok F) (HS : stable F) (HN : names_ok m) (HP : plain_mesh m).
Hypotheses (HW : given_back (reread_mesh F m) w) (HO : map w_name (filter exported (wm_attrs w)) = map w_name (filter exported (wm_attrs m))).
Lemma same_name : wm_name w = wm_name m.
Proof.
  destruct HW as [-> _]. unfold reread_mesh. cbn [m_name]. destruct (wm_name m) as [n|] eqn:E; [|reflexivity]. cbn [option_map]. rewrite normalise_clean; [reflexivity|]. now apply HP.
Qed.
Lemma same_cells : wm_cells w = wm_cells m.
Proof. destruct HW as (_ & _ & -> & _). reflexivity. Qed.
Lemma same_keyword : vrtx_keyword (wm_attrs w) = vrtx_keyword (wm_attrs m).
Proof. destruct HW as (_ & _ & _ & H & _). destruct HP as [H' _]. now rewrite !keyword_points. Qed.
Lemma same_point p : point_string (rp F p) = point_string p.
Proof.
  destruct p as [[x y] z]. unfold rp, point_string. destruct HS as [S1 _]. rewrite (S1 x _ (rc_ok F x HF)), (S1 y _ (rc_ok F y HF)), (S1 z _ (rc_ok F z HF)). reflexivity.
Qed.
Lemma same_lines kw : vrtx_lines kw (filter exported (wm_attrs w)) 0 (wm_points w) = vrtx_lines kw (filter exported (wm_attrs m)) 0 (wm_points m).
Proof.
  destruct HW as (_ & EP & _ & _ & HA). rewrite EP. unfold reread_mesh at 1. cbn [m_points]. apply vrtx_lines_same.
  - clear -HF HS. induction (wm_points m) as [|p l IH]; [constructor|]. cbn [map]. constructor; [now apply same_point|exact IH].
  - intros k Hk. rewrite map_length in Hk. pose proof (reread_attributes_ok F C m HF HN) as (_ & _ & RA).
    assert (HA' : forall a, In a (filter exported (wm_attrs w)) -> attr_value (reread_mesh F m) (w_name a) k = Some [w_val a k]).
    { intros a Ha. apply filter_In in Ha as [A1 A2]. apply HA; [assumption|now apply exported_saved|]. unfold reread_mesh. cbn [m_points]. rewrite map_length. lia. }
    assert (RA' : forall a, In a (filter exported (wm_attrs m)) -> exists x, reread_value F (w_val a k) x /\ attr_value (reread_mesh F m) (w_name a) k = Some [x]).
    { intros a Ha. apply filter_In in Ha as [A1 A2]. apply exported_saved in A2. apply (RA a A1 A2). lia. }
    clear HA RA. pose proof (names_forall2 _ _ HO) as H2. clear HO HW Hk. revert HA' RA'. induction H2 as [|a b l l' E _ IH]; intros HA RA; [reflexivity|]. cbn [map]. rewrite IH; [|intros a0 H0; apply HA; now right|intros a0 H0; apply RA; now right]. f_equal.
    destruct (RA b (or_introl eq_refl)) as [x [X1 X2]]. pose proof (HA a (or_introl eq_refl)) as Y. rewrite E, X2 in Y. assert (w_val a k = x) as -> by congruence. now apply HS.
Qed.
End Same.

(** C115.  A surface that was loaded from a saved file and is saved again gives the same file, byte for byte, if its attributes come in the same order. *)
Theorem C115_surface : forall (F : Num) (m w : wmesh F (Z * Z * Z)) m' ns, num_ok F -> stable F -> names_ok m -> triangles_ok m -> plain_mesh m ->
  read_ts F (write_ts m) = Ok m' -> given_back m' w -> saved_names m ns -> saved_names w ns -> write_ts w = write_ts m.
Proof.
  intros F m w m' ns HF HS HN HT HP R HW N1 N2. apply saved_names_eq in N1, N2. rewrite read_ts_written in R; [|assumption|now apply writable_of]. injection R as <-.
  assert (HO : map w_name (filter exported (wm_attrs w)) = map w_name (filter exported (wm_attrs m))) by congruence.
  unfold write_ts, ts_lines. rewrite (same_name (C := tri) m w HP HW), (same_keyword (C := tri) m w HP HW), (same_lines (C := tri) m w HF HS HN HW HO), (same_cells (C := tri) m w HW). cbv zeta. pose proof (prop_lines_names _ _ HO) as PL. cbn [tri] in *. unfold tri in *. rewrite PL. reflexivity.
Qed.
Print Assumptions C115_surface.
Theorem C115_point_set : forall (F : Num) (m w : wmesh F unit) m' ns, num_ok F -> stable F -> names_ok m -> wm_cells m = [] -> wm_points m <> [] -> plain_mesh m ->
  read_vs F (write_vs m) = Ok m' -> given_back m' w -> saved_names m ns -> saved_names w ns -> write_vs w = write_vs m.
Proof.
  intros F m w m' ns HF HS HN HC HT HP R HW N1 N2. apply saved_names_eq in N1, N2. rewrite read_vs_written in R; [|assumption|destruct HN as [H1 [H2 H3]]; constructor; auto|assumption]. injection R as <-.
  assert (HO : map w_name (filter exported (wm_attrs w)) = map w_name (filter exported (wm_attrs m))) by congruence.
  unfold write_vs, vs_lines. rewrite (same_name m w HP HW), (same_keyword m w HP HW), (same_lines m w HF HS HN HW HO), (prop_lines_names _ _ HO). reflexivity.
Qed.
Print Assumptions C115_point_set.
(** The six digits of the writers and the nearest doubles of the readers are such numbers. *)
Theorem C115_doubles : forall rd, nearest_double rd -> num_ok (DNum rd) /\ stable (DNum rd).
Proof. intros rd R. split; [apply DNum_ok|]. split; intros x y H; now apply (C115_numbers rd x y R). Qed.
Print Assumptions C115_doubles.

(** Example: coordinates that are not kept exactly by the first save. *)
Definition ex_first : wmesh (DNum (fun x => x)) (Z * Z * Z) :=
  mkWmesh (F:=DNum (fun x => x)) (Some (lit "my surface")) [(1 # 3, 4812345 # 1, 0)%Q; (-5 # 2, 1 # 7000000, 1)%Q; (1, 1, 1)%Q] [(0, 1, 2)%Z]
    [mkWattr (F:=DNum (fun x => x)) (lit "points") true (fun _ => 0%Q); mkWattr (F:=DNum (fun x => x)) (lit "my prop") true (fun v => (Z.of_nat v # 7)%Q);
     mkWattr (F:=DNum (fun x => x)) (lit "labels") false (fun _ => 0%Q)].
Definition ex_second : wmesh (DNum (fun x => x)) (Z * Z * Z) :=
  mkWmesh (F:=DNum (fun x => x)) (Some (lit "my surface")) (map (rp (DNum (fun x => x))) (wm_points ex_first)) [(0, 1, 2)%Z]
    [mkWattr (F:=DNum (fun x => x)) (lit "my prop") true (fun v => rv (DNum (fun x => x)) (Z.of_nat v # 7)%Q); mkWattr (F:=DNum (fun x => x)) (lit "points") true (fun _ => 0%Q)].
Lemma exact_double : nearest_double (fun x => x).
Proof. intros x. setoid_replace (x - x)%Q with 0%Q by ring. apply Qmult_le_0_compat; [discriminate|apply Qabs_nonneg]. Qed.
Lemma ex_first_ok : names_ok ex_first /\ triangles_ok ex_first /\ plain_mesh ex_first.
Proof.
  split; [|split].
  - split; [|split].
    + intros n E. injection E as <-. apply lineb_ok. reflexivity.
    + repeat (apply Forall_cons; [apply cleanb_ok; reflexivity|]). constructor.
    + cbn [ex_first wm_attrs map w_name]. repeat constructor; simpl; intuition discriminate.
  - split; [simpl; lia|]. intros a b c H. destruct H as [H|[]]. injection H as <- <- <-. simpl. lia.
  - split; [eexists; split; [now left|reflexivity]|]. intros n E. injection E as <-. apply cleanb_ok. reflexivity.
Qed.
Lemma ex_second_given : given_back (reread_mesh (DNum (fun x => x)) ex_first) ex_second.
Proof.
  repeat split; try reflexivity.
  - eexists. split; [right; now left|reflexivity].
  - intros a Ha [_ N] v Hv. destruct Ha as [<-|[<-|[]]]; [|exfalso; now apply N]. cbn [w_name w_val].
    change (List.length (m_points (reread_mesh (DNum (fun x => x)) ex_first))) with 3 in Hv. destruct v as [|[|[|v]]]; [reflexivity|reflexivity|reflexivity|lia].
Qed.
Example C115_example : write_ts ex_second = write_ts ex_first /\ wm_points ex_second <> wm_points ex_first.
Proof.
  destruct ex_first_ok as [N [T P]]. destruct (C115_doubles _ exact_double) as [O S]. split.
  - apply (C115_surface (DNum (fun x => x)) ex_first ex_second (reread_mesh (DNum (fun x => x)) ex_first) [lit "my prop"] O S N T P).
    + apply read_ts_written; [exact O|now apply writable_of].
    + apply ex_second_given.
    + exact (saved_names_iff ex_first).
    + exact (saved_names_iff ex_second).
  - intros E. apply (f_equal (fun l => match l with (_, y, _) :: _ => Qeq_bool y (4812345 # 1) | [] => true end)) in E. vm_compute in E. discriminate E.
Qed.
(** Another name is written differently the second time: its quotes and repeated blanks are gone. *)
Theorem C115_name_refuted : exists (m w : wmesh ExNum (Z * Z * Z)) m', names_ok m /\ triangles_ok m /\ read_ts ExNum (write_ts m) = Ok m' /\ given_back m' w /\
  saved_names m [] /\ saved_names w [] /\ write_ts w <> write_ts m.
Proof.
  set (mk := fun n => mkWmesh (F:=ExNum) (C:=Z * Z * Z) (Some (lit n)) [] [] [mkWattr (F:=ExNum) (lit "points") true (fun _ => 0%Z)]).
  assert (N : names_ok (mk "a  b")).
  { split; [|split].
    - intros n E. injection E as <-. apply lineb_ok. reflexivity.
    - repeat (apply Forall_cons; [apply cleanb_ok; reflexivity|]). constructor.
    - repeat constructor. simpl. tauto. }
  assert (T : triangles_ok (mk "a  b")) by (split; [simpl; lia|intros a b c []]).
  exists (mk "a  b"), (mk "a b"), (reread_mesh ExNum (mk "a  b")). split; [exact N|]. split; [exact T|]. split; [apply read_ts_written; [apply ExNum_ok|now apply writable_of]|]. split.
  - repeat split; [eexists; split; [now left|reflexivity]|]. intros a [<-|[]] [_ Q]. exfalso. now apply Q.
  - split; [exact (saved_names_iff (mk "a  b"))|]. split; [exact (saved_names_iff (mk "a b"))|]. intros E. apply (f_equal (@List.length ascii)) in E. vm_compute in E. discriminate E.
Qed.
Print Assumptions C115_name_refuted.
