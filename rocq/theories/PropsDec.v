(** * Property C55: numbers printed with six significant digits.  C91: with six digits after the point. *)
From Coq Require Import ZArith List Lia Bool Ascii String QArith Qpower Qabs Lqa.
From Verif Require Import Base Text TextFacts NumText DecText GocadModel MeshModel TsModel Spec GocadFacts TsFacts PropsTsVs.
Import ListNotations.
Local Open Scope string_scope.
Local Open Scope list_scope.
Local Open Scope Z_scope.

(** ** Rounding *)
Lemma round_near n d : 2 * Z.abs (round_half_even n d * Zpos d - n) <= Zpos d.
Proof.
  unfold round_half_even. set (a := 2 * n + Zpos d). set (b := 2 * Zpos d). assert (Hb : 0 < b) by (unfold b; lia).
  pose proof (Z.div_mod a b ltac:(lia)) as D. pose proof (Z.mod_pos_bound a b Hb) as M. set (f := a / b) in *. set (r := a mod b) in *.
  destruct ((r =? 0) && Z.odd f) eqn:E.
  - apply andb_true_iff in E as [E _]. apply Z.eqb_eq in E. unfold a, b in *. nia.
  - unfold a, b in *. nia.
Qed.
Lemma round_exact k d : round_half_even (k * Zpos d) d = k.
Proof. pose proof (round_near (k * Zpos d) d) as H. set (m := round_half_even _ _) in *. nia. Qed.
Lemma round_ge n d k : k * Zpos d <= n -> k <= round_half_even n d.
Proof.
  intros H. pose proof (round_near n d) as R. set (m := round_half_even n d) in *. destruct (Z.le_gt_cases k m); [assumption|]. nia.
Qed.
Lemma round_le n d k : n <= k * Zpos d -> round_half_even n d <= k.
Proof.
  intros H. pose proof (round_near n d) as R. set (m := round_half_even n d) in *. destruct (Z.le_gt_cases m k); [assumption|]. nia.
Qed.
(** ** Digits *)
Lemma show_fuel_length f : forall z, 0 < z < 2 ^ Z.of_nat f -> 10 ^ (Z.of_nat (List.length (show_fuel f z)) - 1) <= z < 10 ^ Z.of_nat (List.length (show_fuel f z)).
Proof.
  induction f as [|f IH]; intros z H; [cbn in H; lia|]. cbn [show_fuel]. destruct (Z.ltb_spec z 10); [cbn; lia|].
  rewrite app_length. cbn [List.length]. rewrite Nat.add_1_r, Nat2Z.inj_succ. unfold Z.succ.
  assert (R : 0 < z / 10 < 2 ^ Z.of_nat f).
  { split; [apply Z.div_str_pos; lia|]. rewrite Nat2Z.inj_succ, Z.pow_succ_r in H by lia. apply Z.div_lt_upper_bound; lia. }
  apply IH in R. set (L := Z.of_nat (List.length (show_fuel f (z / 10)))) in *.
  assert (1 <= L).
  { destruct (Z.le_gt_cases 1 L) as [G|G]; [assumption|]. assert (E0 : L = 0) by (unfold L in *; lia). rewrite E0 in R. change (10 ^ 0) with 1 in R.
    assert (0 < z / 10) by (apply Z.div_str_pos; lia). lia. }
  replace (L + 1 - 1) with L by lia. replace (10 ^ L) with (10 * 10 ^ (L - 1)) by (rewrite <- Z.pow_succ_r by lia; f_equal; lia).
  pose proof (Z.div_mod z 10 ltac:(lia)). pose proof (Z.mod_pos_bound z 10 ltac:(lia)).
  replace (10 ^ (L + 1)) with (10 * 10 ^ L) by (rewrite <- Z.pow_succ_r by lia; reflexivity). lia.
Qed.
Lemma show_length z : 0 < z -> 10 ^ (Z.of_nat (List.length (show z)) - 1) <= z < 10 ^ Z.of_nat (List.length (show z)).
Proof.
  intros H. apply show_fuel_length. split; [assumption|]. rewrite Nat2Z.inj_succ, Z2Nat.id by apply Z.log2_nonneg. now apply Z.log2_spec.
Qed.
Lemma digits_val_app l : forall acc l', digits_val acc (l ++ l') = match digits_val acc l with Some a => digits_val a l' | None => None end.
Proof. induction l as [|c l IH]; intros acc l'; cbn [app digits_val]; [reflexivity|]. now destruct (is_digit c). Qed.
Lemma pad_val k : forall z acc, 0 <= z < 10 ^ Z.of_nat k -> digits_val acc (pad k z) = Some (acc * 10 ^ Z.of_nat k + z).
Proof.
  induction k as [|k IH]; intros z acc H; [cbn in *; f_equal; lia|]. cbn [pad]. rewrite digits_val_app.
  rewrite Nat2Z.inj_succ, Z.pow_succ_r in * by lia. pose proof (Z.div_mod z 10 ltac:(lia)) as D. pose proof (Z.mod_pos_bound z 10 ltac:(lia)) as M.
  rewrite IH by (split; [apply Z.div_pos; lia|apply Z.div_lt_upper_bound; lia]). cbn [digits_val]. rewrite digit_of_is_digit, digit_val_of by lia. f_equal. lia.
Qed.
Lemma pad_length k : forall z, List.length (pad k z) = k.
Proof. induction k as [|k IH]; intros z; [reflexivity|]. cbn [pad]. rewrite app_length, IH. cbn. lia. Qed.
Lemma pad_is_digits k z : Forall (fun c => is_digit c = true) (pad k z).
Proof.
  revert z. induction k as [|k IH]; intros z; cbn [pad]; [constructor|]. apply Forall_app. split; [apply IH|]. constructor; [|constructor]. apply digit_of_is_digit. apply Z.mod_pos_bound. lia.
Qed.
Lemma strip_zeros_spec l : exists k, l = strip_zeros l ++ repeat ("0"%char : ascii) k.
Proof.
  induction l as [|c l [k IH]]; [now exists O|]. cbn [strip_zeros]. destruct (strip_zeros l) as [|x r] eqn:E.
  - destruct (Ascii.eqb_spec c "0") as [->|N]; [exists (S k); now rewrite IH|exists k; cbn; now rewrite IH at 1].
  - exists k. cbn [app] in *. now rewrite IH at 1.
Qed.
Lemma zeros_val k acc : digits_val acc (repeat ("0"%char : ascii) k) = Some (acc * 10 ^ Z.of_nat k).
Proof.
  revert acc. induction k as [|k IH]; intros acc; [cbn; f_equal; lia|]. cbn [repeat digits_val]. change (is_digit "0") with true. cbn [digits_val]. rewrite IH.
  rewrite Nat2Z.inj_succ, Z.pow_succ_r by lia. f_equal. change (digit_val "0") with 0. lia.
Qed.
(** ** Powers of ten *)
Local Open Scope Q_scope.
Definition ten (e : Z) : Q := Qpower 10 e.
Lemma ten_pos e : 0 < ten e.
Proof. apply Qpower_0_lt. reflexivity. Qed.
Lemma ten_add a b : ten (a + b) == ten a * ten b.
Proof. apply Qpower_plus. discriminate. Qed.
Lemma ten_Z e : (0 <= e)%Z -> ten e == inject_Z (10 ^ e).
Proof. intros H. unfold ten. rewrite Zpower_Qpower by assumption. reflexivity. Qed.
Lemma ten_sub a b : ten (a - b) * ten b == ten a.
Proof. rewrite <- ten_add. replace (a - b + b)%Z with a by lia. reflexivity. Qed.
Lemma exponent_spec n d : (0 < n)%Z -> let x := exponent n d in
  inject_Z (Zpos d) * ten x <= inject_Z n /\ inject_Z n < inject_Z (Zpos d) * ten (x + 1).
Proof.
  intros Hn. unfold exponent. pose proof (show_length n Hn) as [A1 A2]. pose proof (show_length (Zpos d) ltac:(lia)) as [B1 B2].
  assert (LA : (1 <= Z.of_nat (List.length (show n)))%Z) by (destruct (show_spec n ltac:(lia)) as [Q _]; destruct (show n); [congruence|cbn; lia]).
  assert (LB : (1 <= Z.of_nat (List.length (show (Zpos d))))%Z) by (destruct (show_spec (Zpos d) ltac:(lia)) as [Q _]; destruct (show (Zpos d)); [congruence|cbn; lia]).
  set (a := Z.of_nat (List.length (show n))) in *. set (b := Z.of_nat (List.length (show (Zpos d)))) in *. set (e := (a - b)%Z).
  rewrite Zle_Qle, <- ten_Z in A1 by lia. rewrite Zlt_Qlt, <- ten_Z in A2 by lia. rewrite Zle_Qle, <- ten_Z in B1 by lia. rewrite Zlt_Qlt, <- ten_Z in B2 by lia.
  set (N := inject_Z n) in *. set (D := inject_Z (Zpos d)) in *.
  assert (C : (Z.pos d * 10 ^ Z.max e 0 <= n * 10 ^ Z.max (- e) 0)%Z <-> D * ten e <= N).
  { rewrite Zle_Qle, !inject_Z_mult, <- !ten_Z by lia. fold N D. replace (Z.max e 0) with (e + Z.max (- e) 0)%Z by lia. rewrite ten_add, Qmult_assoc. split.
    - apply Qmult_lt_0_le_reg_r, ten_pos.
    - intros H. apply Qmult_le_compat_r; [assumption|]. apply Qlt_le_weak, ten_pos. }
  destruct (Z.leb_spec (Z.pos d * 10 ^ Z.max e 0) (n * 10 ^ Z.max (- e) 0)) as [G|G]; cbv zeta.
  - split; [now apply C|]. eapply Qlt_le_trans; [exact A2|]. replace a with ((b - 1) + (e + 1))%Z by (unfold e; lia). rewrite ten_add.
    apply Qmult_le_compat_r; [assumption|]. apply Qlt_le_weak, ten_pos.
  - assert (NC : ~ D * ten e <= N) by (rewrite <- C; lia). apply Qnot_le_lt in NC. replace (e - 1 + 1)%Z with e by lia. split; [|assumption].
    eapply Qle_trans; [|exact A1]. replace (a - 1)%Z with (b + (e - 1))%Z by (unfold e; lia). rewrite ten_add. apply Qmult_le_compat_r; [|apply Qlt_le_weak, ten_pos]. now apply Qlt_le_weak.
Qed.
(** The six digits: a nearest integer to the number in units of its sixth digit. *)
Lemma six_digits_spec n d m x : (0 < n)%Z -> six_digits n d = (m, x) ->
  (100000 <= m < 1000000)%Z /\ exists s u, n # d == s * u /\ 0 < u /\ 100000 <= s /\ s < 1000000 /\
  exists k, inject_Z m * ten (x - 5) == inject_Z k * u /\ (100000 <= k)%Z /\ Qabs (inject_Z k - s) <= 1 # 2 /\
  ((exists z, n # d == inject_Z z) -> n # d < 1000000 -> inject_Z k == s).
Proof.
  intros Hn H. unfold six_digits in H. pose proof (exponent_spec n d Hn) as [E1 E2]. cbv zeta in *. set (y := exponent n d) in *.
  set (n' := (n * 10 ^ Z.max (5 - y) 0)%Z) in *. set (d' := (d * Z.to_pos (10 ^ Z.max (y - 5) 0))%positive) in *. set (k := round_half_even n' d') in *.
  set (D := inject_Z (Zpos d)) in *. set (N := inject_Z n) in *.
  assert (DP : 0 < D) by reflexivity. set (s := N / D * ten (5 - y)).
  assert (D'P : 0 < inject_Z (Zpos d')) by reflexivity.
  assert (ED : inject_Z (Zpos d') == D * ten (Z.max (y - 5) 0)).
  { unfold d'. rewrite Pos2Z.inj_mul, Z2Pos.id by (apply Z.pow_pos_nonneg; lia). now rewrite inject_Z_mult, <- ten_Z by lia. }
  assert (EN : inject_Z n' == s * inject_Z (Zpos d')).
  { unfold n', s. rewrite inject_Z_mult, <- ten_Z by lia. fold N. rewrite ED.
    replace (Z.max (5 - y) 0) with ((5 - y) + Z.max (y - 5) 0)%Z by lia. rewrite ten_add. field. intros Q. rewrite Q in DP. discriminate DP. }
  assert (SU : n # d == s * ten (y - 5)).
  { rewrite (Qmake_Qdiv n d). fold N. change (inject_Z (Z.pos d)) with D. unfold s. rewrite <- Qmult_assoc, <- ten_add. replace (5 - y + (y - 5))%Z with 0%Z by lia. change (ten 0) with 1. rewrite Qmult_1_r. reflexivity. }
  assert (TT : ten y == 100000 * ten (y - 5)) by (rewrite <- (ten_sub y 5) at 1; rewrite Qmult_comm; reflexivity).
  assert (T1 : ten (y + 1) == 1000000 * ten (y - 5)).
  { replace (y + 1)%Z with (6 + (y - 5))%Z by lia. rewrite ten_add. reflexivity. }
  assert (UP := ten_pos (y - 5)).
  assert (ND : N == D * (s * ten (y - 5))).
  { rewrite <- SU, (Qmake_Qdiv n d). fold N. change (inject_Z (Z.pos d)) with D. field. intros Q. rewrite Q in DP. discriminate DP. }
  assert (S1 : 100000 <= s).
  { apply (Qmult_lt_0_le_reg_r _ _ (ten (y - 5)) UP). apply (Qmult_le_l _ _ D DP). rewrite <- TT, <- ND. exact E1. }
  assert (S2 : s < 1000000).
  { apply (Qmult_lt_r _ _ (ten (y - 5)) UP). apply (Qmult_lt_l _ _ D DP). rewrite <- T1, <- ND. exact E2. }
  assert (K1 : (100000 <= k)%Z).
  { apply round_ge. rewrite Zle_Qle, inject_Z_mult, EN. apply Qmult_le_compat_r; [exact S1|now apply Qlt_le_weak]. }
  assert (K2 : (k <= 1000000)%Z).
  { apply round_le. rewrite Zle_Qle, inject_Z_mult, EN. apply Qmult_le_compat_r; [|now apply Qlt_le_weak]. apply Qlt_le_weak. exact S2. }
  assert (K3 : Qabs (inject_Z k - s) <= 1 # 2).
  { pose proof (round_near n' d') as R. fold k in R. rewrite Zle_Qle, inject_Z_mult in R.
    assert (A : inject_Z (Z.abs (k * Z.pos d' - n')) == Qabs (inject_Z k - s) * inject_Z (Zpos d')).
    { transitivity (Qabs (inject_Z (k * Z.pos d' - n'))); [reflexivity|]. rewrite <- (Qabs_pos (inject_Z (Zpos d'))) by (now apply Qlt_le_weak).
      rewrite <- Qabs_Qmult. unfold Z.sub. rewrite inject_Z_plus, inject_Z_opp, inject_Z_mult, EN. apply Qabs_wd. ring. }
    rewrite A in R. apply (Qmult_lt_0_le_reg_r _ _ (inject_Z (Zpos d')) D'P). change (inject_Z 2) with 2 in R. lra. }
  assert (KI : (exists z, n # d == inject_Z z) -> n # d < 1000000 -> inject_Z k == s).
  { intros [z Hz] L. assert (Y : (y <= 5)%Z).
    { destruct (Z.le_gt_cases y 5); [assumption|]. exfalso. assert (1 <= ten (y - 6)).
      { rewrite ten_Z by lia. change 1 with (inject_Z 1). rewrite <- Zle_Qle. assert (0 < 10 ^ (y - 6))%Z by (apply Z.pow_pos_nonneg; lia). lia. }
      assert (10 <= ten (y - 5)). { replace (y - 5)%Z with (1 + (y - 6))%Z by lia. rewrite ten_add. change (ten 1) with 10. lra. }
      rewrite SU in L. assert (100000 * 10 <= s * ten (y - 5)); [|lra]. apply Qmult_le_compat_nonneg; split; try lra; discriminate. }
    assert (SZ : s == inject_Z (z * 10 ^ (5 - y))).
    { rewrite inject_Z_mult, <- ten_Z by lia. rewrite <- Hz, SU, <- Qmult_assoc, <- ten_add. replace (y - 5 + (5 - y))%Z with 0%Z by lia. change (ten 0) with 1. ring. }
    rewrite SZ. assert (k = z * 10 ^ (5 - y))%Z as ->; [|reflexivity]. unfold k.
    assert (n' = z * 10 ^ (5 - y) * Zpos d')%Z as ->; [|apply round_exact]. apply inject_Z_injective. rewrite EN, SZ, <- inject_Z_mult. reflexivity. }
  destruct (Z.eqb_spec k 1000000) as [K|K]; injection H as <- <-.
  - split; [lia|]. exists s, (ten (y - 5)). repeat (split; [assumption|]). exists k. split; [|repeat (split; [assumption|]); assumption].
    rewrite K. replace (y + 1 - 5)%Z with (1 + (y - 5))%Z by lia. rewrite ten_add. change (ten 1) with 10. change (inject_Z 1000000) with 1000000. change (inject_Z 100000) with 100000. ring.
  - split; [lia|]. exists s, (ten (y - 5)). repeat (split; [assumption|]). exists k. split; [reflexivity|]. repeat (split; [assumption|]). assumption.
Qed.
(** ** Reading the text *)
Definition ends_number (l : bytes) : Prop := match l with [] => True | c :: _ => is_digit c = false /\ Ascii.eqb c "." = false end.
Lemma span_digits_app a : forall r, Forall (fun c => is_digit c = true) a -> match r with [] => True | c :: _ => is_digit c = false end -> span_digits (a ++ r) = (a, r).
Proof.
  induction a as [|c a IH]; intros r F R.
  - cbn [app]. destruct r as [|c r]; [reflexivity|]. cbn [span_digits]. now rewrite R.
  - inversion F as [|? ? F1 F2]; subst. cbn [app span_digits]. rewrite F1, IH by assumption. reflexivity.
Qed.
Lemma read_parts p k r tail e : (0 <= p)%Z -> (0 <= r < 10 ^ Z.of_nat k)%Z -> ends_number tail -> read_exponent tail = Some e ->
  exists x, read_unsigned (show p ++ after_point (pad k r) ++ tail) = Some x /\ x == inject_Z (p * 10 ^ Z.of_nat k + r) * ten (e - Z.of_nat k).
Proof.
  intros Hp Hr T E. destruct (show_spec p Hp) as [N1 [N2 N3]]. destruct (strip_zeros_spec (pad k r)) as [j J].
  assert (FP := pad_is_digits k r). rewrite J in FP. apply Forall_app in FP as [FB _].
  set (b := strip_zeros (pad k r)) in *. assert (LB : (List.length b + j)%nat = k) by (rewrite <- (pad_length k r), J, app_length, repeat_length; reflexivity).
  assert (V0 : digits_val 0 (show p) = Some p) by (destruct (show p); [congruence|exact N3]).
  assert (V : digits_val 0 (show p ++ pad k r) = Some (p * 10 ^ Z.of_nat k + r)%Z) by (rewrite digits_val_app, V0; now apply pad_val).
  rewrite J, app_assoc, digits_val_app in V. destruct (digits_val 0 (show p ++ b)) as [v|] eqn:EV; [|discriminate V]. rewrite zeros_val in V.
  assert (EQ : (p * 10 ^ Z.of_nat k + r = v * 10 ^ Z.of_nat j)%Z) by congruence.
  assert (S1 : read_unsigned (show p ++ after_point (pad k r) ++ tail) = Some (inject_Z v * ten (e - Z.of_nat (List.length b)))).
  { unfold read_unsigned, after_point. fold b. destruct b as [|b0 b1] eqn:Eb.
    - cbn [app]. rewrite span_digits_app by (first [assumption|destruct tail; [exact I|exact (proj1 T)]]).
      destruct tail as [|c tl].
      + destruct (show p) as [|s0 s1] eqn:Es; [congruence|]. cbn [app] in EV; cbv beta iota. cbn [app]. rewrite EV, E. reflexivity.
      + destruct T as [_ T]. rewrite T. destruct (show p) as [|s0 s1] eqn:Es; [congruence|]. cbn [app] in EV; cbv beta iota. cbn [app]. rewrite EV, E. reflexivity.
    - rewrite span_digits_app; [|assumption|reflexivity]. cbn [app]. change (Ascii.eqb "." ".") with true. cbv iota.
      change (b0 :: b1 ++ tail) with ((b0 :: b1) ++ tail). rewrite span_digits_app by (first [assumption|destruct tail; [exact I|exact (proj1 T)]]).
      destruct (show p) as [|s0 s1] eqn:Es; [congruence|]. cbn [app] in EV; cbv beta iota. cbn [app]. rewrite EV, E. reflexivity. }
  exists (inject_Z v * ten (e - Z.of_nat (List.length b))). split; [exact S1|]. rewrite EQ, inject_Z_mult, <- ten_Z by lia. rewrite <- Qmult_assoc, <- ten_add.
  replace (Z.of_nat j + (e - Z.of_nat k))%Z with (e - Z.of_nat (List.length b))%Z by lia. reflexivity.
Qed.
Lemma read_text_exponent x : ends_number (text_exponent x) /\ read_exponent (text_exponent x) = Some x.
Proof.
  split; [split; reflexivity|]. unfold text_exponent, read_exponent. change (Ascii.eqb "e" "e") with true. cbv iota.
  assert (V : forall ds, ds = (if (Z.abs x <? 100)%Z then pad 2 (Z.abs x) else show (Z.abs x)) -> ds <> [] /\ digits_val 0 ds = Some (Z.abs x)).
  { intros ds ->. destruct (Z.ltb_spec (Z.abs x) 100).
    - split; [intros Q; apply (f_equal (@List.length ascii)) in Q; rewrite pad_length in Q; discriminate Q|]. rewrite pad_val; [reflexivity|]. cbn. lia.
    - destruct (show_spec (Z.abs x) ltac:(lia)) as [N1 [_ N3]]. split; [assumption|]. destruct (show (Z.abs x)); [congruence|exact N3]. }
  destruct (V _ eq_refl) as [V1 V2]. set (ds := if (Z.abs x <? 100)%Z then _ else _) in *. destruct ds as [|c r]; [congruence|]. rewrite V2.
  destruct (Z.ltb_spec x 0); cbn; f_equal; lia.
Qed.
Lemma read_text_digits m x : (100000 <= m < 1000000)%Z -> exists y, read_unsigned (text_digits m x) = Some y /\ y == inject_Z m * ten (x - 5).
Proof.
  intros Hm. unfold text_digits. destruct ((-4 <=? x)%Z && (x <? 6)%Z) eqn:E.
  - apply andb_true_iff in E as [E1 E2]. apply Z.leb_le in E1. apply Z.ltb_lt in E2. cbv zeta.
    assert (P : (0 < 10 ^ (5 - x))%Z) by (apply Z.pow_pos_nonneg; lia).
    destruct (read_parts (m / 10 ^ (5 - x)) (Z.to_nat (5 - x)) (m mod 10 ^ (5 - x)) [] 0) as [y [Y1 Y2]].
    + apply Z.div_pos; lia.
    + rewrite Z2Nat.id by lia. apply Z.mod_pos_bound. assumption.
    + exact I.
    + reflexivity.
    + rewrite app_nil_r in Y1. exists y. split; [exact Y1|]. rewrite Y2, Z2Nat.id by lia. rewrite Z.mul_comm, <- Z.div_mod by lia. replace (0 - (5 - x))%Z with (x - 5)%Z by lia. reflexivity.
  - destruct (read_text_exponent x) as [T1 T2]. destruct (read_parts (m / 100000) 5 (m mod 100000) (text_exponent x) x) as [y [Y1 Y2]]; try assumption.
    + apply Z.div_pos; lia.
    + apply Z.mod_pos_bound. lia.
    + exists y. split; [exact Y1|]. rewrite Y2. change (10 ^ Z.of_nat 5)%Z with 100000%Z. rewrite Z.mul_comm, <- Z.div_mod by lia. reflexivity.
Qed.
Lemma text_digits_no_minus m x c r : (0 <= m)%Z -> text_digits m x = c :: r -> Ascii.eqb c "-" = false.
Proof.
  intros Hm. assert (G : forall p t, (0 <= p)%Z -> show p ++ t = c :: r -> Ascii.eqb c "-" = false).
  { intros p t Hp H. destruct (show_spec p Hp) as [N1 [N2 _]]. destruct (show p) as [|s0 s1]; [congruence|]. cbn in H. injection H as -> _. inversion N2 as [|? ? N _]; subst.
    destruct (Ascii.eqb_spec c "-") as [->|]; [discriminate N|reflexivity]. }
  unfold text_digits. destruct (_ && _); apply G; [destruct (Z.le_gt_cases 0 (5 - x)); [apply Z.div_pos; [lia|]; apply Z.pow_pos_nonneg; lia|rewrite Z.pow_neg_r by assumption; now rewrite Zdiv_0_r]|apply Z.div_pos; lia].
Qed.
(** ** C55 *)
(** [x], the value of the text, differs from [q] by at most 5/1000005 of [q] (slightly less than 5e-6); and so does, by 5e-6, the
    result [y] of rounding [x] to a double, a relative error of 2^-53.  Integers below a million are recovered exactly. *)
Theorem C55_six_digits : forall q, exists x, read_decimal (general6 q) = Some x
  /\ Qabs (x - q) <= (5 # 1000005) * Qabs q
  /\ (forall y, Qabs (y - x) <= (1 # 9007199254740992) * Qabs x -> Qabs (y - q) <= (5 # 1000000) * Qabs q)
  /\ ((exists z, q == inject_Z z) -> Qabs q < 1000000 -> x == q).
Proof.
  intros q. assert (R : forall x, Qabs (x - q) <= (5 # 1000005) * Qabs q -> forall y, Qabs (y - x) <= (1 # 9007199254740992) * Qabs x -> Qabs (y - q) <= (5 # 1000000) * Qabs q).
  { intros x Hx y Hy. pose proof (Qabs_triangle (y - x) (x - q)) as T. setoid_replace (y - x + (x - q)) with (y - q) in T by ring.
    pose proof (Qabs_triangle (x - q) q) as U. setoid_replace (x - q + q) with x in U by ring. pose proof (Qabs_nonneg q). lra. }
  enough (G : exists x, read_decimal (general6 q) = Some x /\ Qabs (x - q) <= (5 # 1000005) * Qabs q /\ ((exists z, q == inject_Z z) -> Qabs q < 1000000 -> x == q)).
  { destruct G as [x [G1 [G2 G3]]]. exists x. split; [exact G1|]. split; [exact G2|]. split; [now apply R|exact G3]. }
  clear R. unfold general6. destruct q as [n d]. cbn [Qnum Qden]. destruct (Z.eqb_spec n 0) as [->|N0].
  { exists (inject_Z 0 * Qpower 10 0). split; [reflexivity|]. assert (Z0 : 0 # d == 0) by reflexivity. setoid_rewrite Z0. split; [discriminate|]. intros _ _. reflexivity. }
  destruct (six_digits (Z.abs n) d) as [m x] eqn:S. destruct (six_digits_spec (Z.abs n) d m x ltac:(lia) S) as [Hm [s [u [SU [UP [S1 [S2 [k [K1 [K2 [K3 K4]]]]]]]]]]].
  destruct (read_text_digits m x Hm) as [y [Y1 Y2]].
  assert (QA : Qabs (n # d) == Z.abs n # d) by reflexivity.
  assert (B : Qabs (y - (Z.abs n # d)) <= (5 # 1000005) * Qabs (n # d)).
  { rewrite QA, SU, Y2, K1. setoid_replace (inject_Z k * u - s * u) with ((inject_Z k - s) * u) by ring. rewrite Qabs_Qmult, (Qabs_pos u) by (now apply Qlt_le_weak). rewrite Qmult_assoc.
    apply Qmult_le_compat_r; [|now apply Qlt_le_weak].
    destruct (Qlt_le_dec s (1000005 # 10)) as [L|L].
    - assert (KU : (k < 100001)%Z).
      { apply Qabs_Qle_condition in K3 as [_ K3]. rewrite Zlt_Qlt. change (inject_Z 100001) with 100001. lra. }
      assert (k = 100000)%Z as -> by lia. change (inject_Z 100000) with 100000. apply Qabs_Qle_condition. lra.
    - eapply Qle_trans; [exact K3|]. lra. }
  assert (I : (exists z, n # d == inject_Z z) -> Qabs (n # d) < 1000000 -> y == Z.abs n # d).
  { intros [z Hz] L. rewrite Y2, K1, SU, K4; [reflexivity| |]. - exists (Z.abs z). rewrite <- QA, Hz. reflexivity. - now rewrite <- QA. }
  destruct (Z.ltb_spec n 0) as [Ln|Ln].
  - exists (- y). cbn [app read_decimal]. change (Ascii.eqb "-" "-") with true. cbv iota. rewrite Y1. split; [reflexivity|].
    assert (NQ : n # d == - (Z.abs n # d)) by (unfold Qeq; cbn; lia). split.
    + rewrite NQ at 1. setoid_replace (- y - - (Z.abs n # d)) with (- (y - (Z.abs n # d))) by ring. rewrite Qabs_opp. exact B.
    + intros H1 H2. rewrite (I H1 H2). symmetry. exact NQ.
  - exists y. cbn [app]. split.
    + unfold read_decimal. destruct (text_digits m x) as [|c r] eqn:Et; [cbn in Y1; discriminate Y1|]. rewrite (text_digits_no_minus m x c r ltac:(lia) Et). exact Y1.
    + assert (NQ : Z.abs n = n) by lia. rewrite NQ in B, I. split; [exact B|exact I].
Qed.
Print Assumptions C55_six_digits.
(** Seven digits are not kept: coordinates of the order of a kilometre with centimetres, or of a UTM northing in metres, are changed. *)
Theorem C55_exact_refuted : exists q x, q == inject_Z 4812345 /\ read_decimal (general6 q) = Some x /\ Qabs (x - q) == 5.
Proof. exists (4812345 # 1), (inject_Z 481234 * ten 1). split; [reflexivity|]. split; vm_compute; reflexivity. Qed.
Print Assumptions C55_exact_refuted.

(** A whole surface or point set: the numbers are rationals, [rd] rounds to a double. *)
Definition DNum (rd : Q -> Q) : Num := mkNum Q (fun l => option_map rd (read_decimal l)) general6 general6 Qopp Qplus (-99999) 0.
Definition nearest_double (rd : Q -> Q) : Prop := forall x, Qabs (rd x - x) <= (1 # 9007199254740992) * Qabs x.
Definition close (q y : Q) : Prop := Qabs (y - q) <= (5 # 1000000) * Qabs q.
Definition close_point (p p' : Q * Q * Q) : Prop := let '(x, y, z) := p in let '(x', y', z') := p' in close x x' /\ close y y' /\ close z z'.
Lemma digits_no_space l : Forall (fun c => is_digit c = true) l -> no_space l.
Proof. apply Forall_impl. intros c Hc. now apply is_digit_not_space. Qed.
Lemma after_point_no_space k z : no_space (after_point (pad k z)).
Proof.
  unfold after_point. destruct (strip_zeros_spec (pad k z)) as [j J]. pose proof (pad_is_digits k z) as P. rewrite J in P. apply Forall_app in P as [P _].
  destruct (strip_zeros (pad k z)); [constructor|]. constructor; [reflexivity|]. now apply digits_no_space.
Qed.
Lemma text_digits_token m x : (0 <= m)%Z -> token (text_digits m x).
Proof.
  intros Hm. assert (G : forall p t, (0 <= p)%Z -> no_space t -> token (show p ++ t)).
  { intros p t Hp Ht. destruct (show_token p Hp) as [N S]. split; [destruct (show p); [congruence|discriminate]|]. now apply Forall_app. }
  unfold text_digits. destruct (_ && _); apply G.
  - destruct (Z.le_gt_cases 0 (5 - x)); [apply Z.div_pos; [lia|]; apply Z.pow_pos_nonneg; lia|rewrite Z.pow_neg_r by assumption; now rewrite Zdiv_0_r].
  - apply after_point_no_space.
  - apply Z.div_pos; lia.
  - apply Forall_app. split; [apply after_point_no_space|]. unfold text_exponent. constructor; [reflexivity|]. constructor; [now destruct (x <? 0)%Z|].
    destruct (_ <? _)%Z; [apply digits_no_space, pad_is_digits|apply digits_no_space, show_digits; lia].
Qed.
Lemma general6_token q : token (general6 q).
Proof.
  unfold general6. destruct q as [n d]. cbn [Qnum Qden]. destruct (Z.eqb_spec n 0) as [->|N0]; [apply tokenb_ok; reflexivity|].
  destruct (six_digits (Z.abs n) d) as [m x] eqn:S. destruct (six_digits_spec (Z.abs n) d m x ltac:(lia) S) as [Hm _].
  destruct (text_digits_token m x ltac:(lia)) as [T1 T2]. destruct (n <? 0)%Z; cbn [app]; [|now split]. split; [discriminate|]. constructor; [reflexivity|assumption].
Qed.
Lemma DNum_ok rd : num_ok (DNum rd).
Proof.
  constructor; cbn [DNum pt_text os_text atod num]; intros v; try apply general6_token; destruct (C55_six_digits v) as [x [H _]]; rewrite H; eexists; reflexivity.
Qed.
Lemma DNum_close rd q y : nearest_double rd -> atod (DNum rd) (general6 q) = Some y -> close q y.
Proof.
  intros R H. cbn [DNum atod] in H. destruct (C55_six_digits q) as [x [E [_ [C _]]]]. rewrite E in H. cbn [option_map] in H. assert (y = rd x) as -> by congruence. apply C, R.
Qed.
(** Every coordinate of a saved and reloaded surface is close to the original one; triangles are the same. *)
Theorem C55_surface : forall rd (m : wmesh (DNum rd) (Z * Z * Z)), nearest_double rd -> names_ok m -> triangles_ok m ->
  exists m', read_ts (DNum rd) (write_ts m) = Ok m' /\ Forall2 close_point (wm_points m) (m_points m') /\ m_cells m' = wm_cells m.
Proof.
  intros rd m R Hn Ht. destruct (C04_ts_geometry_roundtrip (DNum rd) m (DNum_ok rd) Hn Ht) as [m' [H1 [H2 H3]]]. exists m'. split; [exact H1|]. split; [|exact H3].
  clear -H2 R. induction H2 as [|p p' l l' H _ IH]; constructor; [|exact IH]. destruct p as [[x y] z], p' as [[x' y'] z']. destruct H as [A [B C]]. repeat split; now apply (DNum_close rd).
Qed.
Print Assumptions C55_surface.
Definition ex_dsurface : wmesh (DNum (fun x => x)) (Z * Z * Z) :=
  mkWmesh (F:=DNum (fun x => x)) (Some (lit "s")) [(1 # 3, 4812345 # 1, 0); (-5 # 2, 1 # 7000000, 1); (1, 1, 1)] [(0, 1, 2)%Z] [].
Definition points_are (r : res (mesh (DNum (fun x => x)) (Z * Z * Z))) (l : list (Q * Q * Q)) : bool :=
  match r with
  | Ok m => forallb (fun e => let '((x, y, z), (x', y', z')) := e in Qeq_bool x x' && Qeq_bool y y' && Qeq_bool z z') (combine (m_points m) l)
  | _ => false
  end.
Example C55_surface_example : names_ok ex_dsurface /\ triangles_ok ex_dsurface /\
  points_are (read_ts (DNum (fun x => x)) (write_ts ex_dsurface)) [(333333 # 1000000, 4812340, 0); (-5 # 2, 142857 # 1000000000000, 1); (1, 1, 1)] = true.
Proof.
  split; [|split].
  - split; [|split]; [intros n E; injection E as <-; apply lineb_ok; reflexivity|constructor|constructor].
  - split; [simpl; lia|]. intros a b c H. destruct H as [H|[]]. injection H as <- <- <-. simpl. lia.
  - vm_compute. reflexivity.
Qed.

(** ** C91: std::to_string *)
Theorem C91_six_decimals : forall q, exists x, read_decimal (fixed6 q) = Some x /\ Qabs (x - q) <= 5 # 10000000.
Proof.
  intros [n d]. unfold fixed6. cbn [Qnum Qden]. set (k := round_half_even (Z.abs n * 1000000) d).
  assert (K0 : (0 <= k)%Z) by (apply round_ge; lia).
  assert (P : exists y, read_unsigned (show (k / 1000000) ++ "."%char :: pad 6 (k mod 1000000)) = Some y /\ y == inject_Z k * ten (-6)).
  { set (p := (k / 1000000)%Z). set (r := (k mod 1000000)%Z). assert (Hp : (0 <= p)%Z) by (apply Z.div_pos; lia). assert (Hr : (0 <= r < 1000000)%Z) by (apply Z.mod_pos_bound; lia).
    destruct (show_spec p Hp) as [N1 [N2 N3]]. assert (V0 : digits_val 0 (show p) = Some p) by (destruct (show p); [congruence|exact N3]).
    assert (V : digits_val 0 (show p ++ pad 6 r) = Some k) by (rewrite digits_val_app, V0, pad_val by exact Hr; f_equal; unfold p, r; change (10 ^ Z.of_nat 6)%Z with 1000000%Z; pose proof (Z.div_mod k 1000000 ltac:(lia)); lia).
    exists (inject_Z k * ten (-6)). split; [|reflexivity]. unfold read_unsigned. rewrite span_digits_app; [|assumption|reflexivity]. change (Ascii.eqb "." ".") with true. cbv iota.
    rewrite <- (app_nil_r (pad 6 r)), span_digits_app; [|apply pad_is_digits|exact I]. destruct (show p) as [|s0 s1]; [congruence|]. rewrite V. cbn [read_exponent]. rewrite pad_length. reflexivity. }
  destruct P as [y [Y1 Y2]].
  assert (B : Qabs (y - (Z.abs n # d)) <= 5 # 10000000).
  { pose proof (round_near (Z.abs n * 1000000) d) as R. fold k in R. rewrite Zle_Qle, inject_Z_mult in R.
    set (D := inject_Z (Zpos d)) in *. assert (DP : 0 < D) by reflexivity.
    assert (A : inject_Z (Z.abs (k * Z.pos d - Z.abs n * 1000000)) == Qabs (y - (Z.abs n # d)) * (1000000 * D)).
    { transitivity (Qabs (inject_Z (k * Z.pos d - Z.abs n * 1000000))); [reflexivity|]. rewrite <- (Qabs_pos (1000000 * D)) by (apply Qlt_le_weak; lra).
      rewrite <- Qabs_Qmult. unfold Z.sub. rewrite inject_Z_plus, inject_Z_opp, !inject_Z_mult. fold D. apply Qabs_wd. rewrite Y2, (Qmake_Qdiv (Z.abs n) d). change (inject_Z (Z.pos d)) with D.
      change (ten (-6)) with (1 # 1000000). change (inject_Z 1000000) with 1000000. field. intros Q. rewrite Q in DP. discriminate DP. }
    rewrite A in R. change (inject_Z 2) with 2 in R. apply (Qmult_lt_0_le_reg_r _ _ D DP). lra. }
  destruct (Z.ltb_spec n 0) as [L|L].
  - exists (- y). cbn [app read_decimal]. change (Ascii.eqb "-" "-") with true. cbv iota. rewrite Y1. split; [reflexivity|].
    assert (NQ : n # d == - (Z.abs n # d)) by (unfold Qeq; cbn; lia). rewrite NQ. setoid_replace (- y - - (Z.abs n # d)) with (- (y - (Z.abs n # d))) by ring. rewrite Qabs_opp. exact B.
  - exists y. cbn [app]. split.
    + unfold read_decimal. destruct (show_spec (k / 1000000) ltac:(apply Z.div_pos; lia)) as [N1 [N2 _]]. destruct (show (k / 1000000)) as [|s0 s1] eqn:Es; [congruence|].
      cbn [app] in *. inversion N2 as [|? ? N _]; subst. destruct (Ascii.eqb_spec s0 "-") as [->|]; [discriminate N|]. exact Y1.
    + assert (NQ : Z.abs n = n) by lia. now rewrite NQ in B.
Qed.
Print Assumptions C91_six_decimals.
(** Every value below half a millionth (a permeability in square metres, for instance) is written as zero. *)
Theorem C91_small_values_refuted : forall q, Qabs q < 5 # 10000000 -> exists x, read_decimal (fixed6 q) = Some x /\ x == 0.
Proof.
  intros [n d] H. unfold fixed6. cbn [Qnum Qden]. assert (round_half_even (Z.abs n * 1000000) d = 0)%Z as ->.
  { pose proof (round_near (Z.abs n * 1000000) d) as R. set (k := round_half_even _ _) in *. unfold Qlt in H. cbn [Qabs Qnum Qden] in H. nia. }
  destruct (n <? 0)%Z; eexists; (split; [vm_compute; reflexivity|reflexivity]).
Qed.
Print Assumptions C91_small_values_refuted.
Definition reads (l : bytes) (q : Q) : bool := match read_decimal l with Some x => Qeq_bool x q | None => false end.
Example C55_example : reads (general6 (1 # 3)) (333333 # 1000000) = true /\ reads (general6 (-123456 # 1)) (-123456 # 1) = true /\ reads (general6 (15 # 100000000)) (15 # 100000000) = true.
Proof. vm_compute. auto. Qed.
Example C91_example : beq (fixed6 (1 # 10000000000000)) "0.000000" = true /\ reads (fixed6 (-1 # 3)) (-333333 # 1000000) = true.
Proof. vm_compute. auto. Qed.
Example general6_examples :
  forallb (fun e => beq (general6 (fst e)) (lit (snd e)))
    [(0#1, "0"); (1#1, "1"); (-5#2, "-2.5"); (1#3, "0.333333"); (1#10000, "0.0001"); (1#100000, "1e-05"); (123456#1, "123456");
     (1234567#1, "1.23457e+06"); (9999995#10, "1e+06"); (9999994#10, "999999"); (999999#1, "999999"); (1000000#1, "1e+06"); (-1#3000000, "-3.33333e-07");
     (2000005#2000000, "1"); (99999950#100000000, "1"); (100#1, "100"); (25#100000000000000000000000000, "2.5e-25")]%Q = true /\
  forallb (fun e => reads (lit (fst e)) (snd e)) [("0", 0#1); ("-2.5", -5#2); ("1.23457e+06", 1234570#1); ("1e-05", 1#100000); ("0.333333", 333333#1000000)]%Q = true.
Proof. split; vm_compute; reflexivity. Qed.
