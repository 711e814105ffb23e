(** * How loading a shapefile ends, and the consistency of what is loaded (C134). *)
From Coq Require Import ZArith List Lia Bool Ascii String Permutation.
From Verif Require Import Base Text GocadModel LsoFacts ShpModel PropsShp.
Import ListNotations.
Local Open Scope string_scope.
Local Open Scope list_scope.
Local Open Scope Z_scope.

(** ** Specification *)
Section Spec.
Context {P : Type}.
(** The unique vertices that a component uses *)
Definition used (c : component P) : list Z := flat_map (fun o => match o with Some u => [u] | None => [] end) (c_uv P c).
(** The cells join existing vertices; there is one unique vertex, or an unset one, for each vertex *)
Definition sound (n : nat) (c : component P) : Prop :=
  Datatypes.length (c_uv P c) = Datatypes.length (c_points P c) /\
  Forall (fun cell => (n <= Datatypes.length cell)%nat /\ Forall (fun v => 0 <= v < lenz (c_points P c)) cell) (c_cells P c).
(** Every vertex has its unique vertex *)
Definition complete (c : component P) : Prop := Forall (fun o => o <> None) (c_uv P c).
Definition consistent (s : section P) : Prop :=
  let all := s_corners P s ++ s_lines P s ++ s_surfaces P s in
  Forall (sound 2) (s_lines P s) /\ Forall (sound 3) (s_surfaces P s) /\ Forall (sound 1) (s_corners P s) /\
  Forall complete (s_lines P s ++ s_surfaces P s) /\
  Forall (fun c => c_cells P c = []) (s_corners P s) /\
  NoDup (flat_map used all) /\ Forall (fun u => 0 <= u < s_nb_uv P s) (flat_map used all).

(** Each geometry has what its layer needs *)
Context (peq : P -> P -> bool).
Definition polyline_ok (l : list P) : Prop := l <> [] /\ (closedb peq l = true -> 2 <= lenz l).
Definition ring_ok (l : list P) : Prop := 4 <= lenz l.
Definition accepted (y : layer P) : Prop :=
  match y_type P y with
  | TPoint => ~ In (GMissing P) (y_features P y)
  | TLine => ~ In (GMissing P) (y_features P y) /\ Forall polyline_ok (polylines y)
  | TPolygon => ~ In (GMissing P) (y_features P y) /\ Forall ring_ok (rings y)
  | TOther => True
  end.
End Spec.
(** A triangulation uses the points it is given *)
Definition triangulation {P} (tr : list P -> list (list Z)) : Prop :=
  forall l, Forall (fun t => (3 <= Datatypes.length t)%nat /\ Forall (fun r => 0 <= r < lenz l) t) (tr l).

(** ** One polyline, one ring *)
Section Proofs.
Context {P : Type} (peq : P -> P -> bool) (tr : list P -> list (list Z)).
Notation comp := (component P).

Lemma points_exact l c u : l <> [] -> read_points P peq l c u =
  Ok (mkComponent P (c_name P c) (c_points P c ++ kept peq l) (c_uv P c ++ map Some (rangez u (Datatypes.length (kept peq l)))) (c_cells P c),
      u + lenz (kept peq l), lenz (c_points P c)).
Proof.
  intros H. unfold read_points. rewrite is_closed_is by assumption. cbn [bind]. rewrite <- (kept_firstn peq l).
  assert (E : Datatypes.length (firstn (if closedb peq l then (Datatypes.length l - 1)%nat else Datatypes.length l) l)
     = if closedb peq l then (Datatypes.length l - 1)%nat else Datatypes.length l).
  { rewrite firstn_length. destruct (closedb peq l); lia. }
  unfold lenz. rewrite E. reflexivity.
Qed.
Lemma points_nil c u : read_points P peq [] c u = UB.
Proof. reflexivity. Qed.

(** The state keeps its shape: [u0] is the first unique vertex of the component *)
Definition keeps (n : nat) (u0 : Z) (s : comp * Z) : Prop :=
  sound n (fst s) /\ complete (fst s) /\ used (fst s) = rangez u0 (Datatypes.length (c_points P (fst s))) /\ snd s = u0 + lenz (c_points P (fst s)).
Lemma used_app ps us us' cs cs' nm : used (mkComponent P nm ps (us ++ us') cs) = used (mkComponent P nm ps us cs') ++ used (mkComponent P nm ps us' cs').
Proof. unfold used. cbn [c_uv]. now rewrite flat_map_app. Qed.
Lemma used_some nm ps l cs : used (mkComponent P nm ps (map Some l) cs) = l.
Proof. unfold used. cbn [c_uv]. induction l as [|x r IH]; [reflexivity|]. cbn [map flat_map]. now rewrite IH. Qed.
Lemma rangez_split u : forall a b, rangez u (a + b) = rangez u a ++ rangez (u + Z.of_nat a) b.
Proof.
  intros a. revert u. induction a as [|a IH]; intros u b; cbn [rangez Nat.add app].
  - f_equal. lia.
  - rewrite IH. do 3 f_equal. lia.
Qed.
Lemma keeps_points n u0 l c u : l <> [] -> keeps n u0 (c, u) ->
  exists c', read_points P peq l c u = Ok (c', u + lenz (kept peq l), lenz (c_points P c)) /\ keeps n u0 (c', u + lenz (kept peq l)) /\
    c_points P c' = c_points P c ++ kept peq l /\ c_cells P c' = c_cells P c.
Proof.
  intros Hl ((S1 & S2) & C & U & E). cbn [fst snd] in *. rewrite points_exact by assumption. eexists. split; [reflexivity|]. split; [|split; reflexivity].
  split; [|split; [|split]]; cbn [fst snd c_uv c_points c_cells].
  - split.
    + cbn [c_uv c_points]. rewrite !app_length, map_length, rangez_length. lia.
    + cbn [c_cells c_points]. eapply Forall_impl; [|exact S2]. intros cell (A & B). split; [exact A|]. eapply Forall_impl; [|exact B].
      cbn. intros v. rewrite lenz_app. unfold lenz. lia.
  - unfold complete. cbn [c_uv]. apply Forall_app. split; [exact C|]. apply Forall_forall. intros o K. apply in_map_iff in K. destruct K as (z & <- & _). discriminate.
  - rewrite (used_app _ _ _ _ (c_cells P c)), used_some. rewrite app_length, rangez_split. f_equal.
    + unfold used in *. cbn [c_uv]. exact U.
    + f_equal. rewrite E. reflexivity.
  - rewrite E, lenz_app. lia.
Qed.
Lemma keeps_cells n u0 c u l : keeps n u0 (c, u) -> Forall (fun cell => (n <= Datatypes.length cell)%nat /\ Forall (fun v => 0 <= v < lenz (c_points P c)) cell) l ->
  keeps n u0 (with_cells P l c, u).
Proof.
  intros ((S1 & S2) & C & U & E) H. cbn [fst snd] in *. split; [split|split; [|split]]; cbn [fst snd with_cells c_uv c_points c_cells]; try assumption.
  apply Forall_app. split; assumption.
Qed.

(** A polyline: loaded, or undefined when it is not long enough *)
Lemma line_loaded u0 l c u : polyline_ok peq l -> keeps 2 u0 (c, u) -> exists s, read_line P peq l c u = Ok s /\ keeps 2 u0 s.
Proof.
  intros (H1 & H2) K. destruct (keeps_points 2 u0 l c u H1 K) as (c' & E & K' & P1 & _).
  unfold read_line. rewrite E. cbn [bind].
  assert (L : 1 <= lenz (kept peq l)).
  { pose proof (kept_length peq l) as Q. unfold lenz in *. destruct (closedb peq l).
    - specialize (H2 eq_refl). lia.
    - destruct l; [congruence|]. cbn [Datatypes.length] in *. lia. }
  assert (N : lenz (c_points P c') = lenz (c_points P c) + lenz (kept peq l)) by (rewrite P1; apply lenz_app).
  destruct (Z.ltb_spec (lenz (c_points P c') - 1) (lenz (c_points P c))) as [Q|Q]; [lia|].
  rewrite is_closed_is by assumption. cbn [bind]. eexists. split; [reflexivity|].
  assert (K2 : keeps 2 u0 (with_cells P (map (fun p => [p; p + 1]) (rangez (lenz (c_points P c)) (Z.to_nat (lenz (c_points P c') - 1 - lenz (c_points P c))))) c', u + lenz (kept peq l))).
  { apply keeps_cells; [exact K'|]. apply Forall_forall. intros cell HI. apply in_map_iff in HI. destruct HI as (p & <- & HI). split; [cbn; lia|].
    apply in_rangez in HI. unfold lenz in *. repeat constructor; lia. }
  destruct (closedb peq l); [|exact K2]. apply keeps_cells; [exact K2|]. cbn [with_cells c_points]. constructor; [|constructor]. split; [cbn; lia|].
  unfold lenz in *. repeat constructor; lia.
Qed.
Lemma line_undefined l c u : ~ polyline_ok peq l -> read_line P peq l c u = UB.
Proof.
  intros H. destruct l as [|p l]; [reflexivity|]. unfold read_line. rewrite points_exact by discriminate. cbn [bind c_points].
  assert (Q : closedb peq (p :: l) = true /\ lenz (p :: l) < 2).
  { destruct (closedb peq (p :: l)) eqn:E.
    - split; [reflexivity|]. destruct (Z.lt_ge_cases (lenz (p :: l)) 2); [assumption|]. exfalso. apply H. split; [discriminate|]. intros _. lia.
    - exfalso. apply H. split; [discriminate|]. rewrite E. discriminate. }
  destruct Q as (Q1 & Q2). pose proof (kept_length peq (p :: l)) as L. rewrite Q1 in L. rewrite lenz_app. unfold lenz in *.
  destruct (Z.ltb_spec (Z.of_nat (Datatypes.length (c_points P c)) + Z.of_nat (Datatypes.length (kept peq (p :: l))) - 1) (Z.of_nat (Datatypes.length (c_points P c)))); [reflexivity|]. lia.
Qed.
(** A ring *)
Lemma firstn_lenz (l : list P) : lenz (firstn (Datatypes.length l - 1) l) = Z.of_nat (Datatypes.length l - 1).
Proof. unfold lenz. rewrite firstn_length. lia. Qed.
Lemma ring_loaded (HT : triangulation tr) u0 l c u : ring_ok l -> keeps 3 u0 (c, u) -> exists s, read_ring P peq tr l c u = Ok s /\ keeps 3 u0 s.
Proof.
  unfold ring_ok. intros H K. assert (H1 : l <> []) by (intros ->; cbn in H; lia). destruct (keeps_points 3 u0 l c u H1 K) as (c' & E & K' & P1 & _).
  unfold read_ring. rewrite E. cbn [bind].
  assert (N : lenz (c_points P c) + Z.of_nat (Datatypes.length l - 1) <= lenz (c_points P c')).
  { rewrite P1, lenz_app. pose proof (kept_length peq l) as Q. unfold lenz in *. destruct (closedb peq l); lia. }
  destruct (Z.of_nat (Datatypes.length l - 1) <? NO_LID).
  - destruct (Z.ltb_spec (Z.of_nat (Datatypes.length l - 1)) 3) as [Q|Q]; [unfold lenz in H; lia|]. eexists. split; [reflexivity|].
    apply keeps_cells; [exact K'|]. constructor; [|constructor]. split; [rewrite rangez_length; lia|].
    apply Forall_forall. intros v HI. apply in_rangez in HI. unfold lenz in *. lia.
  - eexists. split; [reflexivity|]. apply keeps_cells; [exact K'|]. apply Forall_forall. intros cell HI. apply in_map_iff in HI. destruct HI as (t & <- & HI).
    specialize (HT (firstn (Datatypes.length l - 1) l)). rewrite Forall_forall in HT. destruct (HT t HI) as (A & B). split; [now rewrite map_length|].
    apply Forall_forall. intros v HV. apply in_map_iff in HV. destruct HV as (r & <- & HV). rewrite Forall_forall in B. specialize (B r HV).
    rewrite firstn_lenz in B. unfold lenz in *. lia.
Qed.
Lemma ring_undefined l c u : ~ ring_ok l -> read_ring P peq tr l c u = UB.
Proof.
  unfold ring_ok. intros H. destruct l as [|p l]; [reflexivity|]. unfold read_ring. rewrite points_exact by discriminate. cbn [bind].
  assert (Q : Z.of_nat (Datatypes.length (p :: l) - 1) < 3) by (unfold lenz in H; lia).
  destruct (Z.ltb_spec (Z.of_nat (Datatypes.length (p :: l) - 1)) NO_LID) as [W|W]; [|unfold NO_LID in W; lia].
  destruct (Z.ltb_spec (Z.of_nat (Datatypes.length (p :: l) - 1)) 3); [reflexivity|lia].
Qed.

(** ** Several *)
Lemma fold_loaded {A} (f : comp * Z -> A -> res (comp * Z)) (ok : A -> Prop) n u0 :
  (forall s x, ok x -> keeps n u0 s -> exists s', f s x = Ok s' /\ keeps n u0 s') ->
  forall l s, Forall ok l -> keeps n u0 s -> exists s', foldM f l s = Ok s' /\ keeps n u0 s'.
Proof.
  intros H l. induction l as [|x l IH]; intros s HF K; cbn [foldM].
  - exists s. now split.
  - inversion HF as [|? ? H1 H2]; subst. destruct (H s x H1 K) as (s' & E & K'). rewrite E. cbn [bind]. now apply IH.
Qed.
(** A fold that fails: one of the elements is not accepted *)
Lemma fold_failed {A S} (f : S -> A -> res S) (ok : A -> Prop) (dec : forall x, ok x \/ ~ ok x) (bad : forall s x, ~ ok x -> forall s', f s x <> Ok s') :
  forall l s s', foldM f l s = Ok s' -> Forall ok l.
Proof.
  intros l. induction l as [|x l IH]; intros s s' E; cbn [foldM] in E; [constructor|].
  apply bind_ok in E. destruct E as (s1 & E1 & E). constructor; [|eapply IH; exact E].
  destruct (dec x) as [D|D]; [exact D|]. exfalso. eapply bad; eassumption.
Qed.
Lemma polyline_dec l : polyline_ok peq l \/ ~ polyline_ok peq l.
Proof.
  unfold polyline_ok. destruct l as [|p l]; [right; intros [H _]; congruence|]. destruct (closedb peq (p :: l)).
  - destruct (Z.le_gt_cases 2 (lenz (p :: l))); [left; split; [discriminate|auto]|right; intros [_ H2]; specialize (H2 eq_refl); lia].
  - left. split; [discriminate|discriminate].
Qed.
Lemma ring_dec (l : list P) : ring_ok l \/ ~ ring_ok l.
Proof. unfold ring_ok. destruct (Z.le_gt_cases 4 (lenz l)); [now left|right; lia]. Qed.

Definition gline_ok (g : geometry P) : Prop := match g with GMissing _ => False | GLine _ l => polyline_ok peq l | GMultiLine _ ls => Forall (polyline_ok peq) ls | _ => True end.
Definition gpoly_ok (g : geometry P) : Prop := match g with GMissing _ => False | GPolygon _ r => Forall ring_ok r | GMultiPolygon _ l => Forall ring_ok (List.concat l) | _ => True end.
Definition gpoint_ok (g : geometry P) : Prop := match g with GMissing _ => False | _ => True end.
Lemma gline_iff fs : Forall gline_ok fs <-> ~ In (GMissing P) fs /\ Forall (polyline_ok peq) (flat_map (fun g => match g with GLine _ l => [l] | GMultiLine _ ls => ls | _ => [] end) fs).
Proof.
  induction fs as [|g fs IH]; cbn [flat_map].
  - split; [intros _; split; [intros []|constructor]|constructor].
  - rewrite Forall_cons_iff, Forall_app, IH. cbn [In].
    destruct g; cbn [gline_ok]; rewrite ?Forall_cons_iff, ?Forall_nil_iff; intuition (try discriminate; try congruence).
Qed.
Lemma gpoly_iff fs : Forall gpoly_ok fs <-> ~ In (GMissing P) fs /\ Forall ring_ok (flat_map (fun g => match g with GPolygon _ r => r | GMultiPolygon _ l => List.concat l | _ => [] end) fs).
Proof.
  induction fs as [|g fs IH]; cbn [flat_map].
  - split; [intros _; split; [intros []|constructor]|constructor].
  - rewrite Forall_cons_iff, Forall_app, IH. cbn [In].
    destruct g; cbn [gpoly_ok]; rewrite ?Forall_nil_iff; intuition (try discriminate; try congruence).
Qed.
Lemma gpoint_iff fs : Forall gpoint_ok fs <-> ~ In (GMissing P) fs.
Proof.
  induction fs as [|g fs IH]; [split; [intros _ []|constructor]|]. rewrite Forall_cons_iff, IH. cbn [In]. destruct g; cbn [gpoint_ok]; intuition (try discriminate; try congruence).
Qed.

Lemma line_feature_loaded u0 s g : gline_ok g -> keeps 2 u0 s -> exists s', line_feature P peq s g = Ok s' /\ keeps 2 u0 s'.
Proof.
  destruct g; cbn [gline_ok line_feature]; intros H K; try (exists s; split; [reflexivity|exact K]); [contradiction| |].
  - destruct s as [c u]. now apply line_loaded.
  - unfold read_lines. destruct s as [c u]. apply (fold_loaded _ (polyline_ok peq) 2 u0); [|exact H|exact K].
    intros [c1 u1] x Hx Kx. now apply line_loaded.
Qed.
Lemma surface_feature_loaded (HT : triangulation tr) u0 s g : gpoly_ok g -> keeps 3 u0 s -> exists s', surface_feature P peq tr s g = Ok s' /\ keeps 3 u0 s'.
Proof.
  assert (R : forall r s, Forall ring_ok r -> keeps 3 u0 s -> exists s', read_polygon P peq tr r (fst s) (snd s) = Ok s' /\ keeps 3 u0 s').
  { intros r [c u] Hr K. unfold read_polygon. apply (fold_loaded _ ring_ok 3 u0); [|exact Hr|exact K]. intros [c1 u1] x Hx Kx. now apply ring_loaded. }
  destruct g; cbn [gpoly_ok surface_feature]; intros H K; try (exists s; split; [reflexivity|exact K]); [contradiction| |].
  - now apply R.
  - apply (fold_loaded _ (Forall ring_ok) 3 u0); [intros; now apply R| |exact K]. clear -H. induction l as [|x l IH]; [constructor|].
    cbn [List.concat] in H. apply Forall_app in H. constructor; [apply H|apply IH; apply H].
Qed.
Lemma bad_line s g : ~ gline_ok g -> forall s', line_feature P peq s g <> Ok s'.
Proof.
  destruct g; cbn [gline_ok line_feature]; intros H s' E; try (discriminate E); try (now apply H); [rewrite line_undefined in E by assumption; discriminate|].
  apply H. unfold read_lines in E. eapply (fold_failed _ (polyline_ok peq) polyline_dec); [|exact E]. intros s1 x Hx s2 E2. rewrite line_undefined in E2 by assumption. discriminate.
Qed.
Lemma polygon_rings r s s' : read_polygon P peq tr r (fst s) (snd s) = Ok s' -> Forall ring_ok r.
Proof.
  unfold read_polygon. intros E. eapply (fold_failed _ ring_ok ring_dec); [|exact E]. intros s1 x Hx s2 E2. rewrite ring_undefined in E2 by assumption. discriminate.
Qed.
Lemma forall_ring_dec (r : list (list P)) : Forall ring_ok r \/ ~ Forall ring_ok r.
Proof.
  induction r as [|x r IH]; [left; constructor|]. destruct (ring_dec x) as [D|D]; [|right; intros K; inversion K; contradiction].
  destruct IH as [I|I]; [left; now constructor|right; intros K; inversion K; contradiction].
Qed.
Lemma bad_surface s g : ~ gpoly_ok g -> forall s', surface_feature P peq tr s g <> Ok s'.
Proof.
  destruct g; cbn [gpoly_ok surface_feature]; intros H s' E; try (discriminate E); try (now apply H); [apply H; eapply polygon_rings; exact E|].
  apply H. assert (Q : Forall (Forall ring_ok) l).
  { eapply (fold_failed _ (Forall ring_ok) forall_ring_dec); [|exact E]. intros s1 x Hx s2 E2. apply Hx. eapply polygon_rings. exact E2. }
  clear -Q. induction Q as [|x l Hx _ IH]; cbn [List.concat]; [constructor|]. apply Forall_app. now split.
Qed.
Lemma gline_dec g : gline_ok g \/ ~ gline_ok g.
Proof.
  destruct g; cbn [gline_ok]; auto using polyline_dec. induction l as [|x r IH]; [left; constructor|].
  destruct (polyline_dec x) as [D|D]; [|right; intros K; inversion K; contradiction].
  destruct IH as [I|I]; [left; now constructor|right; intros K; inversion K; contradiction].
Qed.
Lemma gpoly_dec g : gpoly_ok g \/ ~ gpoly_ok g.
Proof. destruct g; cbn [gpoly_ok]; auto using forall_ring_dec. Qed.
Lemma gpoint_dec (g : geometry P) : gpoint_ok g \/ ~ gpoint_ok g.
Proof. destruct g; cbn [gpoint_ok]; auto. Qed.

(** The points of a corner *)
Definition corner_keeps (u0 : Z) (s : comp * Z) : Prop :=
  Datatypes.length (c_uv P (fst s)) = Datatypes.length (c_points P (fst s)) /\ c_cells P (fst s) = [] /\ u0 <= snd s /\
  NoDup (used (fst s)) /\ Forall (fun u => u0 <= u < snd s) (used (fst s)) /\ Forall (fun o => o = None) (tl (c_uv P (fst s))).
Lemma used_none nm ps l cs : Forall (fun o : option Z => o = None) l -> used (mkComponent P nm ps l cs) = [].
Proof. unfold used. cbn [c_uv]. induction 1 as [|o r -> _ IH]; [reflexivity|]. exact IH. Qed.
Lemma corner_loaded u0 s g : gpoint_ok g -> corner_keeps u0 s -> exists s', corner_feature P s g = Ok s' /\ corner_keeps u0 s'.
Proof.
  destruct g; cbn [gpoint_ok corner_feature]; intros H K; try (exists s; split; [reflexivity|exact K]); [contradiction|].
  eexists. split; [reflexivity|]. destruct s as [c u]. destruct K as (K1 & K2 & K3 & K4 & K5 & K6). cbn [fst snd] in *.
  unfold read_point. cbn [fst snd]. destruct (c_uv P c) as [|o r] eqn:E.
  - split; [|split; [|split; [|split; [|split]]]]; cbn [fst snd c_uv c_points c_cells]; try assumption; try lia.
    + rewrite app_length, <- K1. reflexivity.
    + repeat constructor. intros [].
    + repeat constructor; lia.
  - assert (Q : Forall (fun o => o = None) (r ++ [None])) by (apply Forall_app; split; [exact K6|repeat constructor]).
    assert (W : forall nm ps cs, used (mkComponent P nm ps (Some u :: r ++ [None]) cs) = [u]).
    { intros. change (u :: used (mkComponent P nm ps (r ++ [None]) cs) = [u]). now rewrite used_none. }
    split; [|split; [|split; [|split; [|split]]]]; cbn [fst snd c_uv c_points c_cells]; try assumption; try lia.
    + cbn [Datatypes.length] in *. rewrite !app_length. cbn [Datatypes.length]. lia.
    + rewrite W. repeat constructor. intros [].
    + rewrite W. repeat constructor; lia.
Qed.
Lemma bad_corner s (g : geometry P) : ~ gpoint_ok g -> forall s', corner_feature P s g <> Ok s'.
Proof. destruct g; cbn [gpoint_ok corner_feature]; intros H s' E; try (discriminate E); now apply H. Qed.

(** ** Layers *)
Lemma empty_keeps n nm u0 : keeps n u0 (empty_component P nm, u0).
Proof. split; [split; [reflexivity|constructor]|split; [constructor|split; [reflexivity|cbn; lia]]]. Qed.
Lemma empty_corner nm u0 : corner_keeps u0 (empty_component P nm, u0).
Proof. repeat split; cbn; try constructor; lia. Qed.
Definition all (s : section P) := flat_map used (s_corners P s ++ s_lines P s ++ s_surfaces P s).
Lemma insert_used (a b c : list Z) n m :
  NoDup (a ++ b) -> Forall (fun u => 0 <= u < n) (a ++ b) -> NoDup c -> Forall (fun u => n <= u < m) c -> 0 <= n -> n <= m ->
  NoDup (a ++ c ++ b) /\ Forall (fun u => 0 <= u < m) (a ++ c ++ b).
Proof.
  intros H1 H2 H3 H4 H5 H6. split.
  - apply (Permutation_NoDup (l := c ++ a ++ b)).
    + rewrite !app_assoc. apply Permutation_app_tail. apply Permutation_app_comm.
    + revert H3 H4. induction c as [|x c IH]; intros H3 H4; [exact H1|]. cbn [app]. inversion H3; subst. inversion H4; subst. constructor; [|now apply IH].
      rewrite in_app_iff. intros [K|K]; [contradiction|]. rewrite Forall_forall in H2. specialize (H2 _ K). lia.
  - rewrite !Forall_app in *. destruct H2 as (A & B). repeat split; (eapply Forall_impl; [|eassumption]); cbn; intros; lia.
Qed.
Lemma rangez_nodup n : forall u, NoDup (rangez u n).
Proof.
  induction n as [|n IH]; intros u; cbn [rangez]; constructor; [|apply IH]. intros K. apply in_rangez in K. lia.
Qed.
Lemma layer_loaded (HT : triangulation tr) s y : 0 <= s_nb_uv P s -> consistent s -> accepted peq y ->
  exists s', read_layer P peq tr s y = Ok s' /\ consistent s' /\ s_nb_uv P s <= s_nb_uv P s'.
Proof.
  intros N (A1 & A2 & A3 & A4 & A5 & A6 & A7) H. unfold accepted in H. unfold read_layer.
  rewrite !flat_map_app in A6, A7. apply Forall_app in A4. destruct A4 as (A4 & A4').
  destruct (y_type P y).
  - apply gpoint_iff in H.
    assert (Q : exists s', foldM (corner_feature P) (y_features P y) (empty_component P (y_name P y), s_nb_uv P s) = Ok s' /\ corner_keeps (s_nb_uv P s) s').
    { generalize (empty_corner (y_name P y) (s_nb_uv P s)). generalize (empty_component P (y_name P y), s_nb_uv P s). generalize (s_nb_uv P s) as u0. clear -H.
      induction H as [|g fs Hg _ IH]; intros u0 st K; cbn [foldM]; [exists st; now split|].
      destruct (corner_loaded u0 st g Hg K) as (st' & E & K'). rewrite E. cbn [bind]. now apply IH. }
    destruct Q as ([c u] & E & K1 & K2 & K3 & K4 & K5 & K6). rewrite E. cbn [bind fst snd] in *. eexists. split; [reflexivity|]. split; [|exact K3].
    destruct (insert_used (flat_map used (s_corners P s)) (flat_map used (s_lines P s) ++ flat_map used (s_surfaces P s)) (used c) (s_nb_uv P s) u A6 A7 K4 K5 N K3) as (B1 & B2).
    unfold consistent. cbn [s_corners s_lines s_surfaces s_nb_uv]. rewrite !flat_map_app. cbn [flat_map]. rewrite app_nil_r, <- !app_assoc.
    repeat match goal with |- _ /\ _ => split end; try assumption.
    + apply Forall_app. split; [exact A3|]. constructor; [|constructor]. split; [exact K1|]. rewrite K2. constructor.
    + apply Forall_app. now split.
    + apply Forall_app. split; [exact A5|]. now constructor.
  - destruct H as (HM & H). assert (HF : Forall gline_ok (y_features P y)) by (apply gline_iff; split; assumption).
    destruct (fold_loaded (line_feature P peq) gline_ok 2 (s_nb_uv P s) (line_feature_loaded _) _ _ HF (empty_keeps 2 (y_name P y) (s_nb_uv P s))) as ([c u] & E & K1 & K2 & K3 & K4).
    rewrite E. cbn [bind fst snd] in *. eexists. split; [reflexivity|]. assert (U : s_nb_uv P s <= u) by (rewrite K4; unfold lenz; lia). split; [|exact U].
    assert (B : NoDup (used c) /\ Forall (fun v => s_nb_uv P s <= v < u) (used c)).
    { rewrite K3. split; [apply rangez_nodup|]. apply Forall_forall. intros v Hv. apply in_rangez in Hv. rewrite K4. unfold lenz. lia. }
    rewrite app_assoc in A6, A7.
    destruct (insert_used (flat_map used (s_corners P s) ++ flat_map used (s_lines P s)) (flat_map used (s_surfaces P s)) (used c) (s_nb_uv P s) u A6 A7 (proj1 B) (proj2 B) N U) as (B1 & B2).
    unfold consistent. cbn [s_corners s_lines s_surfaces s_nb_uv]. rewrite !flat_map_app. cbn [flat_map]. rewrite app_nil_r. rewrite <- !app_assoc in *.
    repeat match goal with |- _ /\ _ => split end; try assumption.
    + apply Forall_app. split; [exact A1|]. now constructor.
    + apply Forall_app. split; [exact A4|]. constructor; [exact K2|]. exact A4'.
  - destruct H as (HM & H). assert (HF : Forall gpoly_ok (y_features P y)) by (apply gpoly_iff; split; assumption).
    destruct (fold_loaded (surface_feature P peq tr) gpoly_ok 3 (s_nb_uv P s) (surface_feature_loaded HT _) _ _ HF (empty_keeps 3 (y_name P y) (s_nb_uv P s))) as ([c u] & E & K1 & K2 & K3 & K4).
    rewrite E. cbn [bind fst snd] in *. eexists. split; [reflexivity|]. assert (U : s_nb_uv P s <= u) by (rewrite K4; unfold lenz; lia). split; [|exact U].
    assert (B : NoDup (used c) /\ Forall (fun v => s_nb_uv P s <= v < u) (used c)).
    { rewrite K3. split; [apply rangez_nodup|]. apply Forall_forall. intros v Hv. apply in_rangez in Hv. rewrite K4. unfold lenz. lia. }
    rewrite <- (app_nil_r (flat_map used (s_surfaces P s))) in A6, A7. rewrite !app_assoc in A6, A7. 
    destruct (insert_used _ [] (used c) (s_nb_uv P s) u A6 A7 (proj1 B) (proj2 B) N U) as (B1 & B2).
    unfold consistent. cbn [s_corners s_lines s_surfaces s_nb_uv]. rewrite !flat_map_app. cbn [flat_map]. rewrite <- !app_assoc in *.
    repeat match goal with |- _ /\ _ => split end; try assumption.
    + apply Forall_app. split; [exact A2|]. now constructor.
    + apply Forall_app. split; [exact A4|]. apply Forall_app. split; [exact A4'|]. now constructor.
  - exists s. split; [reflexivity|]. split; [|lia]. unfold consistent. rewrite !flat_map_app. repeat match goal with |- _ /\ _ => split end; try assumption.
    apply Forall_app. now split.
Qed.
Lemma bad_layer s y : ~ accepted peq y -> forall s', read_layer P peq tr s y <> Ok s'.
Proof.
  unfold accepted, read_layer. intros H s' E. destruct (y_type P y).
  - apply H. apply gpoint_iff. apply bind_ok in E. destruct E as ([c u] & E & _). eapply (fold_failed _ gpoint_ok gpoint_dec); [|exact E]. intros. now apply bad_corner.
  - apply H. apply gline_iff. apply bind_ok in E. destruct E as ([c u] & E & _). eapply (fold_failed _ gline_ok gline_dec); [|exact E]. intros. now apply bad_line.
  - apply H. apply gpoly_iff. apply bind_ok in E. destruct E as ([c u] & E & _). eapply (fold_failed _ gpoly_ok gpoly_dec); [|exact E]. intros. now apply bad_surface.
  - now apply H.
Qed.
Lemma accepted_dec y : accepted peq y \/ ~ accepted peq y.
Proof.
  assert (D : forall (ok : geometry P -> Prop), (forall g, ok g \/ ~ ok g) -> forall fs, Forall ok fs \/ ~ Forall ok fs).
  { intros ok Dk fs. induction fs as [|g fs IH]; [left; constructor|]. destruct (Dk g) as [D|D]; [|right; intros K; inversion K; contradiction].
    destruct IH as [I|I]; [left; now constructor|right; intros K; inversion K; contradiction]. }
  unfold accepted. destruct (y_type P y); [| | |now left].
  - rewrite <- gpoint_iff. apply D. apply gpoint_dec.
  - unfold polylines. rewrite <- gline_iff. apply D. apply gline_dec.
  - unfold rings. rewrite <- gpoly_iff. apply D. apply gpoly_dec.
Qed.
End Proofs.

(** ** Other endings *)
Lemma fold_ends {A S} (f : S -> A -> res S) : forall l s,
  (exists s', foldM f l s = Ok s') \/ exists s1 x, In x l /\ foldM f l s = f s1 x /\ forall s2, f s1 x <> Ok s2.
Proof.
  intros l. induction l as [|x l IH]; intros s; cbn [foldM]; [left; now exists s|].
  destruct (f s x) as [s1|e| |] eqn:E; cbn [bind].
  2-4: right; exists s, x; rewrite E; split; [now left|split; [reflexivity|discriminate]].
  destruct (IH s1) as [K|(s2 & y & K1 & K2 & K3)]; [left; exact K|right; exists s2, y; split; [now right|split; assumption]].
Qed.
Lemma fold_noub {A S} (f : S -> A -> res S) (ok : A -> Prop) : (forall s x, ok x -> f s x <> UB) -> forall l s, Forall ok l -> foldM f l s <> UB.
Proof.
  intros H l s HF E. destruct (fold_ends f l s) as [(s' & K)|(s1 & x & HI & K & _)]; [congruence|]. rewrite K in E. rewrite Forall_forall in HF.
  eapply H; [apply HF; exact HI|exact E].
Qed.
(** What a geometry of each kind of layer gives when it is not accepted *)
Section Ends.
Context {P : Type} (peq : P -> P -> bool) (tr : list P -> list (list Z)).
Lemma line_fine l c u : polyline_ok peq l -> exists s', read_line P peq l c u = Ok s'.
Proof.
  intros D. unfold read_line. rewrite points_exact by apply D. cbn [bind c_points].
  destruct (Z.ltb_spec (lenz (c_points P c ++ kept peq l) - 1) (lenz (c_points P c))) as [Q|Q].
  - exfalso. rewrite lenz_app in Q. pose proof (kept_length peq l) as L. destruct D as (D1 & D2). unfold lenz in *. destruct (closedb peq l); [specialize (D2 eq_refl); lia|].
    destruct l; [congruence|]. cbn [Datatypes.length] in *. lia.
  - rewrite is_closed_is by apply D. cbn [bind]. eexists. reflexivity.
Qed.
Lemma line_ends l c u : (exists s', read_line P peq l c u = Ok s') \/ read_line P peq l c u = UB.
Proof. destruct (polyline_dec peq l) as [D|D]; [left; now apply line_fine|right; now apply line_undefined]. Qed.
Lemma line_feature_ends s g : (exists s', line_feature P peq s g = Ok s') \/ (g = GMissing P /\ line_feature P peq s g = Throw ExData) \/
  (g <> GMissing P /\ line_feature P peq s g = UB).
Proof.
  destruct g; cbn [line_feature]; try (left; eexists; reflexivity).
  - right. left. now split.
  - destruct (line_ends l (fst s) (snd s)) as [Q|Q]; [now left|right; right; split; [discriminate|exact Q]].
  - unfold read_lines. destruct (fold_ends (fun s l => read_line P peq l (fst s) (snd s)) l (fst s, snd s)) as [K|(s1 & x & _ & K & N)]; [now left|].
    right. right. split; [discriminate|]. rewrite K. destruct (line_ends x (fst s1) (snd s1)) as [(s' & Q)|Q]; [exfalso; eapply N; exact Q|exact Q].
Qed.
Lemma ring_ends l c u : (exists s', read_ring P peq tr l c u = Ok s') \/ read_ring P peq tr l c u = UB.
Proof.
  destruct l as [|p l]; [now right|]. unfold read_ring. rewrite points_exact by discriminate. cbn [bind].
  destruct (_ <? NO_LID); [destruct (_ <? 3); [now right|]|]; left; eexists; reflexivity.
Qed.
Lemma polygon_ends r c u : (exists s', read_polygon P peq tr r c u = Ok s') \/ read_polygon P peq tr r c u = UB.
Proof.
  unfold read_polygon. destruct (fold_ends (fun s l => read_ring P peq tr l (fst s) (snd s)) r (c, u)) as [K|(s1 & x & _ & K & N)]; [now left|].
  right. rewrite K. destruct (ring_ends x (fst s1) (snd s1)) as [(s' & Q)|Q]; [exfalso; eapply N; exact Q|exact Q].
Qed.
Lemma surface_feature_ends s g : (exists s', surface_feature P peq tr s g = Ok s') \/ (g = GMissing P /\ surface_feature P peq tr s g = Throw ExData) \/
  (g <> GMissing P /\ surface_feature P peq tr s g = UB).
Proof.
  destruct g; cbn [surface_feature]; try (left; eexists; reflexivity).
  - right. left. now split.
  - match goal with |- context [read_polygon P peq tr ?r _ _] => destruct (polygon_ends r (fst s) (snd s)) as [Q|Q]; [now left|right; right; split; [discriminate|exact Q]] end.
  - destruct (fold_ends (fun s r => read_polygon P peq tr r (fst s) (snd s)) l s) as [K|(s1 & x & _ & K & N)]; [now left|].
    right. right. split; [discriminate|]. rewrite K. destruct (polygon_ends x (fst s1) (snd s1)) as [(s' & Q)|Q]; [exfalso; eapply N; exact Q|exact Q].
Qed.
Lemma layer_ends s y : (exists s', read_layer P peq tr s y = Ok s') \/
  (read_layer P peq tr s y = Throw ExData /\ y_type P y <> TOther /\ In (GMissing P) (y_features P y)) \/
  (read_layer P peq tr s y = UB /\ (y_type P y = TLine \/ y_type P y = TPolygon)).
Proof.
  unfold read_layer. destruct (y_type P y).
  - destruct (fold_ends (corner_feature P) (y_features P y) (empty_component P (y_name P y), s_nb_uv P s)) as [([c u] & K)|(s1 & x & HI & K & N)]; rewrite K; cbn [bind].
    + left. eexists. reflexivity.
    + right. left. destruct x; try (exfalso; eapply N; reflexivity). cbn [corner_feature bind]. split; [reflexivity|split; [discriminate|exact HI]].
  - destruct (fold_ends (line_feature P peq) (y_features P y) (empty_component P (y_name P y), s_nb_uv P s)) as [([c u] & K)|(s1 & x & HI & K & N)]; rewrite K; cbn [bind].
    + left. eexists. reflexivity.
    + right. destruct (line_feature_ends s1 x) as [(s' & Q)|[(-> & Q)|(_ & Q)]]; [exfalso; eapply N; exact Q| |]; rewrite Q; cbn [bind].
      * left. split; [reflexivity|split; [discriminate|exact HI]].
      * right. split; [reflexivity|now left].
  - destruct (fold_ends (surface_feature P peq tr) (y_features P y) (empty_component P (y_name P y), s_nb_uv P s)) as [([c u] & K)|(s1 & x & HI & K & N)]; rewrite K; cbn [bind].
    + left. eexists. reflexivity.
    + right. destruct (surface_feature_ends s1 x) as [(s' & Q)|[(-> & Q)|(_ & Q)]]; [exfalso; eapply N; exact Q| |]; rewrite Q; cbn [bind].
      * left. split; [reflexivity|split; [discriminate|exact HI]].
      * right. split; [reflexivity|now right].
  - left. now exists s.
Qed.
Lemma line_feature_noub s g : Forall (polyline_ok peq) (match g with GLine _ l => [l] | GMultiLine _ ls => ls | _ => [] end) -> line_feature P peq s g <> UB.
Proof.
  destruct g; cbn [line_feature]; intros H; try discriminate.
  - inversion H as [|? ? H1 _]; subst. destruct (line_fine l (fst s) (snd s) H1) as (s' & ->). discriminate.
  - unfold read_lines. apply (fold_noub _ (polyline_ok peq)); [|exact H]. intros s1 x Hx. destruct (line_fine x (fst s1) (snd s1) Hx) as (s' & ->). discriminate.
Qed.
Lemma ring_noub l c u : ring_ok l -> read_ring P peq tr l c u <> UB.
Proof.
  unfold ring_ok. intros H. destruct l as [|p l]; [cbn in H; lia|]. unfold read_ring. rewrite points_exact by discriminate. cbn [bind].
  destruct (_ <? NO_LID); [|discriminate]. destruct (Z.ltb_spec (Z.of_nat (Datatypes.length (p :: l) - 1)) 3); [unfold lenz in H; lia|discriminate].
Qed.
Lemma polygon_noub r c u : Forall ring_ok r -> read_polygon P peq tr r c u <> UB.
Proof. intros H. unfold read_polygon. apply (fold_noub _ ring_ok); [|exact H]. intros s1 x Hx. now apply ring_noub. Qed.
Lemma surface_feature_noub s g : Forall ring_ok (match g with GPolygon _ r => r | GMultiPolygon _ l => List.concat l | _ => [] end) -> surface_feature P peq tr s g <> UB.
Proof.
  destruct g; cbn [surface_feature]; intros H; try discriminate; [now apply polygon_noub|].
  apply (fold_noub _ (Forall ring_ok)); [intros; now apply polygon_noub|]. clear -H. induction l as [|x l IH]; [constructor|].
  cbn [List.concat] in H. apply Forall_app in H. constructor; [apply H|apply IH; apply H].
Qed.
Lemma flat_forall {A B} (f : A -> list B) (Q : B -> Prop) l : Forall Q (flat_map f l) -> Forall (fun x => Forall Q (f x)) l.
Proof. induction l as [|x l IH]; cbn [flat_map]; intros H; [constructor|]. apply Forall_app in H. constructor; [apply H|apply IH; apply H]. Qed.
Lemma layer_noub s y : (y_type P y = TLine -> Forall (polyline_ok peq) (polylines y)) -> (y_type P y = TPolygon -> Forall ring_ok (rings y)) ->
  read_layer P peq tr s y <> UB.
Proof.
  intros H1 H2 E. destruct (layer_ends s y) as [(s' & Q)|[(Q & _)|(_ & T)]]; [congruence|congruence|].
  revert E. unfold read_layer. destruct T as [T|T]; rewrite T.
  - pose proof (fold_noub _ _ line_feature_noub (y_features P y) (empty_component P (y_name P y), s_nb_uv P s) (flat_forall _ _ _ (H1 T))) as Q.
    destruct (foldM (line_feature P peq) _ _) as [[c u]|e| |]; cbn [bind]; congruence.
  - pose proof (fold_noub _ _ surface_feature_noub (y_features P y) (empty_component P (y_name P y), s_nb_uv P s) (flat_forall _ _ _ (H2 T))) as Q.
    destruct (foldM (surface_feature P peq tr) _ _) as [[c u]|e| |]; cbn [bind]; congruence.
Qed.
End Ends.

(** ** Theorems *)

(** A shapefile is loaded exactly when no geometry is missing, every polyline has a point (two when it is closed) and every ring at least
    four; what is loaded is consistent. *)
Theorem C134_loaded P peq tr (ys : list (layer P)) : triangulation tr ->
  ((exists s, read_shp P peq tr ys = Ok s) <-> Forall (accepted peq) ys) /\
  (forall s, read_shp P peq tr ys = Ok s -> consistent s).
Proof.
  intros HT. assert (G : forall ys s, 0 <= s_nb_uv P s -> consistent s -> Forall (accepted peq) ys ->
    exists s', foldM (read_layer P peq tr) ys s = Ok s' /\ consistent s').
  { clear ys. intros ys. induction ys as [|y ys IH]; intros s N C H; cbn [foldM]; [exists s; now split|]. inversion H; subst.
    destruct (layer_loaded peq tr HT s y N C) as (s1 & E & C1 & N1); [assumption|]. rewrite E. cbn [bind]. apply IH; [lia|assumption|assumption]. }
  assert (E0 : consistent (mkSection P [] [] [] 0)) by (repeat split; cbn; constructor).
  assert (B : forall s, read_shp P peq tr ys = Ok s -> Forall (accepted peq) ys).
  { intros s E. eapply (fold_failed _ (accepted peq) (accepted_dec peq tr)); [|exact E]. intros. now apply bad_layer. }
  split; [split|].
  - intros (s & E). eapply B. exact E.
  - intros H. destruct (G ys (mkSection P [] [] [] 0)) as (s & E & _); [cbn; lia|exact E0|exact H|]. now exists s.
  - intros s E. destruct (G ys (mkSection P [] [] [] 0)) as (s' & E' & C); [cbn; lia|exact E0|eapply B; exact E|].
    unfold read_shp in E. rewrite E' in E. injection E as <-. exact C.
Qed.
Print Assumptions C134_loaded.

(** Loading always ends.  The only exception is the one of a geometry that GDAL does not give, in a layer of a supported type; a file of which
    no polyline and no ring is too short never has an undefined behaviour. *)
Theorem C134_ends P peq tr (ys : list (layer P)) :
  read_shp P peq tr ys <> Hang /\
  (forall e, read_shp P peq tr ys = Throw e -> e = ExData /\ exists y, In y ys /\ y_type P y <> TOther /\ In (GMissing P) (y_features P y)) /\
  (Forall (fun y => (y_type P y = TLine -> Forall (polyline_ok peq) (polylines y)) /\ (y_type P y = TPolygon -> Forall ring_ok (rings y))) ys ->
   read_shp P peq tr ys <> UB).
Proof.
  unfold read_shp. split; [|split].
  - destruct (fold_ends (read_layer P peq tr) ys (mkSection P [] [] [] 0)) as [(s & K)|(s & y & _ & K & N)]; rewrite K; [discriminate|].
    destruct (layer_ends peq tr s y) as [(s' & Q)|[(Q & _)|(Q & _)]]; rewrite Q; discriminate.
  - destruct (fold_ends (read_layer P peq tr) ys (mkSection P [] [] [] 0)) as [(s & K)|(s & y & HI & K & N)]; rewrite K; [discriminate|].
    destruct (layer_ends peq tr s y) as [(s' & Q)|[(Q & T & M)|(Q & _)]]; rewrite Q; [discriminate| |discriminate].
    intros e E. injection E as <-. split; [reflexivity|]. now exists y.
  - apply fold_noub. intros s y (H1 & H2). now apply layer_noub.
Qed.
Print Assumptions C134_ends.

(** Hypotheses and conclusions on a file: two polylines, one closed; a ring; a layer of another type with a missing geometry, ignored. *)
Definition end_layers : list (layer Z) :=
  [mkLayer Z "lines" TLine [GLine Z [10; 11; 12]; GOther Z; GMultiLine Z [[20; 21; 22; 20]; [30; 31]]];
   mkLayer Z "area" TPolygon [GPolygon Z [[1; 2; 3; 4; 1]]]; mkLayer Z "other" TOther [GMissing Z]; mkLayer Z "pt" TPoint [GPoint Z 7]].
Example C134_case : triangulation (fun _ : list Z => []) /\ Forall (accepted Z.eqb) end_layers /\
  (exists s, read_shp Z Z.eqb (fun _ => []) end_layers = Ok s /\ flat_map used (s_corners Z s ++ s_lines Z s ++ s_surfaces Z s) = [12; 0; 1; 2; 3; 4; 5; 6; 7; 8; 9; 10; 11]) /\
  read_shp Z Z.eqb (fun _ => []) [mkLayer Z "lines" TLine [GLine Z [10; 11]; GMissing Z]] = Throw ExData /\
  read_shp Z Z.eqb (fun _ => []) [mkLayer Z "area" TPolygon [GPolygon Z [[1; 2; 1]]]] = UB.
Proof.
  assert (T : triangulation (fun _ : list Z => [])) by (intros l; constructor).
  split; [exact T|]. split; [|split; [eexists; split; [vm_compute; reflexivity|vm_compute; reflexivity]|split; vm_compute; reflexivity]].
  apply (C134_loaded Z Z.eqb (fun _ => []) end_layers T). eexists. vm_compute. reflexivity.
Qed.
