(** * Facts on the .lso writer: numbering of the vertices. *)
From Coq Require Import ZArith List Lia Bool Ascii String Permutation.
From Verif Require Import Base Text TextFacts GocadModel MeshModel TsModel Spec GocadFacts TsFacts LsoModel.
Import ListNotations.
Local Open Scope string_scope.
Local Open Scope list_scope.
Local Open Scope Z_scope.

(** ** Lists *)
Lemma lenz_nonneg {A} (l : list A) : 0 <= lenz l.
Proof. unfold lenz. lia. Qed.
Lemma lenz_cons {A} (x : A) l : lenz (x :: l) = 1 + lenz l.
Proof. unfold lenz. cbn [List.length]. lia. Qed.
Lemma lenz_nil {A} : lenz (@nil A) = 0. Proof. reflexivity. Qed.
Lemma lenz_app {A} (a b : list A) : lenz (a ++ b) = lenz a + lenz b.
Proof. unfold lenz. rewrite app_length. lia. Qed.
Lemma lenz_map {A B} (f : A -> B) l : lenz (map f l) = lenz l.
Proof. unfold lenz. now rewrite map_length. Qed.
Lemma nthz_cons {A} (a : A) l i : nthz (a :: l) i = if i =? 0 then Some a else nthz l (i - 1).
Proof.
  destruct (Z.eqb_spec i 0) as [->|N]; [reflexivity|]. unfold nthz. cbn [List.length].
  destruct (Z.leb_spec 0 i), (Z.leb_spec 0 (i - 1)); try lia; cbn [andb]; auto.
  rewrite Nat2Z.inj_succ.
  destruct (Z.ltb_spec i (Z.succ (Z.of_nat (List.length l)))), (Z.ltb_spec (i - 1) (Z.of_nat (List.length l))); try lia; auto.
  replace (Z.to_nat i) with (S (Z.to_nat (i - 1))) by lia. reflexivity.
Qed.
Lemma nthz_app_l {A} (a b : list A) i x : nthz a i = Some x -> nthz (a ++ b) i = Some x.
Proof.
  intros H. pose proof (nthz_some _ _ _ H) as [Hi E]. unfold nthz. rewrite app_length.
  destruct (Z.leb_spec 0 i), (Z.ltb_spec i (Z.of_nat (List.length a + List.length b))); try lia. cbn [andb].
  rewrite nth_error_app1 by lia. assumption.
Qed.
Lemma nthz_app_r {A} (a b : list A) i : 0 <= i -> nthz (a ++ b) (lenz a + i) = nthz b i.
Proof.
  intros H. unfold nthz, lenz. rewrite app_length.
  destruct (Z.leb_spec 0 i), (Z.leb_spec 0 (Z.of_nat (List.length a) + i)); try lia. cbn [andb].
  destruct (Z.ltb_spec i (Z.of_nat (List.length b))),
    (Z.ltb_spec (Z.of_nat (List.length a) + i) (Z.of_nat (List.length a + List.length b))); try lia; auto.
  rewrite nth_error_app2 by lia. f_equal. lia.
Qed.
Lemma nthz_in {A} (l : list A) i x : nthz l i = Some x -> In x l.
Proof. intros H. apply nthz_some in H. destruct H as [_ H]. eapply nth_error_In; eauto. Qed.
Lemma nthz_of_in {A} (l : list A) x : In x l -> exists i, nthz l i = Some x.
Proof.
  intros H. apply In_nth_error in H. destruct H as [n H]. exists (Z.of_nat n). now rewrite nthz_nat.
Qed.
Lemma nthz_range {A} (l : list A) i x : nthz l i = Some x -> 0 <= i < lenz l.
Proof. intros H. now apply nthz_some in H. Qed.
Lemma nthz_map {A B} (f : A -> B) l i : nthz (map f l) i = option_map f (nthz l i).
Proof.
  unfold nthz. rewrite map_length. destruct ((0 <=? i) && (i <? Z.of_nat (List.length l))); [|reflexivity].
  rewrite nth_error_map. reflexivity.
Qed.
Lemma nthz_rangez a n i : 0 <= i < Z.of_nat n -> nthz (rangez a n) i = Some (a + i).
Proof.
  intros H. unfold nthz. rewrite rangez_length.
  destruct (Z.leb_spec 0 i), (Z.ltb_spec i (Z.of_nat n)); try lia. cbn [andb].
  rewrite rangez_nth by lia. f_equal. lia.
Qed.
Lemma nthz_ext {A} (a b : list A) : (forall i, nthz a i = nthz b i) -> a = b.
Proof.
  intros H. revert b H. induction a as [|x a IH]; intros [|y b] H; auto.
  - specialize (H 0). rewrite nthz_cons in H. discriminate.
  - specialize (H 0). rewrite nthz_cons in H. discriminate.
  - pose proof (H 0) as H0. rewrite !nthz_cons in H0. cbn in H0. injection H0 as ->. f_equal. apply IH.
    intros i. destruct (Z.ltb_spec i 0) as [Hi|Hi].
    + transitivity (@None A); [|symmetry]; apply nthz_none; lia.
    + specialize (H (i + 1)). rewrite !nthz_cons in H. destruct (Z.eqb_spec (i + 1) 0); [lia|].
      now replace (i + 1 - 1) with i in H by lia.
Qed.
Lemma idxz_ok {A} (l : list A) i x : idxz l i = Ok x <-> nthz l i = Some x.
Proof. unfold idxz. destruct (nthz l i); split; congruence. Qed.
Lemma atz_ok {A} (l : list A) i x : atz l i = Ok x <-> nthz l i = Some x.
Proof. unfold atz. destruct (nthz l i); split; congruence. Qed.
Lemma rangez_nodup a k : NoDup (rangez a k).
Proof.
  revert a. induction k as [|k IH]; intros a; cbn [rangez]; [constructor|]. constructor; [|apply IH].
  rewrite in_rangez. lia.
Qed.

(** ** first_block *)
Lemma first_from_range best id i l : (best < i)%nat -> (first_from best id i l < i + List.length l)%nat.
Proof.
  revert best id i. induction l as [|[b v] l IH]; intros best id i H; cbn [first_from List.length]; [lia|].
  destruct (b <? id).
  - specialize (IH i b (S i) ltac:(lia)). lia.
  - specialize (IH best id (S i) ltac:(lia)). lia.
Qed.
Lemma first_block_ok l : l <> [] -> exists i, first_block l = Ok i /\ (i < List.length l)%nat.
Proof.
  destruct l as [|[b v] l]; [congruence|]. intros _. eexists. split; [reflexivity|].
  pose proof (first_from_range 0 b 1 l ltac:(lia)). cbn [List.length]. lia.
Qed.
Lemma remove_nth_perm {A} (l : list A) i x : nth_error l i = Some x -> Permutation l (x :: remove_nth i l).
Proof.
  revert i. induction l as [|y l IH]; intros [|i] H; cbn [nth_error remove_nth] in *; try discriminate.
  - injection H as ->. reflexivity.
  - rewrite perm_swap. apply perm_skip. now apply IH.
Qed.

(** Unique vertex split in the vertex written as VRTX and the others. *)
Definition split_uv (mvs : list (Z * Z)) (mv : Z * Z) (others : list (Z * Z)) : Prop :=
  exists i, first_block mvs = Ok i /\ idx mvs i = Ok mv /\ others = remove_nth i mvs.
Lemma split_uv_ok mvs : mvs <> [] -> exists mv others, split_uv mvs mv others.
Proof.
  intros H. destruct (first_block_ok mvs H) as [i [E Hi]]. destruct (idx_len mvs i Hi) as [mv Hm].
  exists mv, (remove_nth i mvs), i. auto.
Qed.
Lemma split_uv_perm mvs mv others : split_uv mvs mv others -> Permutation mvs (mv :: others).
Proof.
  intros [i [_ [H ->]]]. apply remove_nth_perm. unfold idx in H. destruct (nth_error mvs i); congruence.
Qed.

(** ** write_uvs *)
Definition nb_others (uvs : list (list (Z * Z))) : Z := fold_right (fun l n => lenz l - 1 + n) 0 uvs.
Lemma nb_others_nonneg uvs : Forall (fun l => l <> []) uvs -> 0 <= nb_others uvs.
Proof.
  induction 1 as [|l r H Hr IH]; cbn [nb_others fold_right]; [lia|]. fold (nb_others r).
  destruct l; [congruence|]. rewrite lenz_cons. pose proof (lenz_nonneg l). lia.
Qed.

Lemma other_numbers_spec l nb : 0 <= nb -> nb + lenz l < two32 ->
  other_numbers nb l = combine l (rangez (nb + 1) (List.length l)).
Proof.
  revert nb. induction l as [|mv l IH]; intros nb H0 H; [reflexivity|]. rewrite lenz_cons in H.
  pose proof (lenz_nonneg l). cbn [other_numbers List.length rangez combine].
  rewrite add32_small by lia. now rewrite IH by lia.
Qed.

(** The lines, rows and atoms in closed form. *)
Inductive numbered {F} (m : LModel F) : Z -> Z -> list (list (Z * Z)) -> list (point F) -> list row -> list Z -> Prop :=
| num_nil v nb : numbered m v nb [] [] [] []
| num_cons v nb mvs r mv others b p ps rws atoms :
    split_uv mvs mv others ->
    block_of m (fst mv) = Ok b -> nthz (k_points b) (snd mv) = Some p ->
    numbered m (v + 1) (nb + lenz others) r ps rws atoms ->
    numbered m v nb (mvs :: r) (p :: ps)
      (((mv, v + 1) :: combine others (rangez (nb + 1) (List.length others))) :: rws)
      (repeat (v + 1) (List.length others) ++ atoms).
Fixpoint lso_vrtx_lines {F} (v : Z) (ps : list (point F)) : list bytes :=
  match ps with
  | [] => []
  | p :: r => (lit "VRTX " ++ show (v + 1) ++ SP :: point_string p) :: lso_vrtx_lines (v + 1) r
  end.
Lemma map_const {A B} (b : B) (l : list A) : map (fun _ => b) l = repeat b (List.length l).
Proof. induction l; cbn; congruence. Qed.
Lemma write_uvs_spec {F} (m : LModel F) v nb uvs ls rws atoms :
  Forall (fun l => l <> []) uvs -> 0 <= v -> 0 <= nb -> v + lenz uvs < two32 -> nb + nb_others uvs < two32 ->
  write_uvs m v nb uvs = Ok (ls, rws, atoms) ->
  exists ps, numbered m v nb uvs ps rws atoms /\ ls = lso_vrtx_lines v ps.
Proof.
  intros H. revert v nb ls rws atoms. induction H as [|mvs r Hne Hr IH]; intros v nb ls rws atoms Hv Hnb B1 B2 E.
  - cbn [write_uvs] in E. assert (ls = [] /\ rws = [] /\ atoms = []) as [-> [-> ->]] by (repeat split; congruence).
    exists []. split; [constructor|reflexivity].
  - cbn [write_uvs] in E. apply bind_ok in E. destruct E as [i [E1 E]]. apply bind_ok in E. destruct E as [mv [E2 E]].
    apply bind_ok in E. destruct E as [b [E3 E]]. apply bind_ok in E. destruct E as [p [E4 E]].
    cbn [nb_others fold_right] in B2. fold (nb_others r) in B2. pose proof (nb_others_nonneg r Hr).
    rewrite lenz_cons in B1. pose proof (lenz_nonneg r).
    assert (HS : split_uv mvs mv (remove_nth i mvs)) by (exists i; auto).
    set (others := remove_nth i mvs) in *. cbn zeta in E.
    pose proof (Permutation_length (split_uv_perm _ _ _ HS)) as HL. cbn [List.length] in HL.
    assert (HLz : lenz mvs - 1 = lenz others) by (unfold lenz; lia). rewrite HLz in B2.
    pose proof (lenz_nonneg others).
    apply bind_ok in E. destruct E as [[[ls' rws'] atoms'] [E5 E]].
    rewrite wrap32_small in E5 by lia. apply IH in E5; try lia. destruct E5 as [ps [N ->]].
    apply idxz_ok in E4.
    rewrite add32_small in E by lia. rewrite other_numbers_spec in E by lia. rewrite map_const in E.
    exists (p :: ps).
    assert (E' : ls = (lit "VRTX " ++ show (v + 1) ++ SP :: point_string p) :: lso_vrtx_lines (v + 1) ps
       /\ rws = ((mv, v + 1) :: combine others (rangez (nb + 1) (List.length others))) :: rws'
       /\ atoms = repeat (v + 1) (List.length others) ++ atoms') by (repeat split; congruence).
    destruct E' as [-> [-> ->]]. split; [econstructor; eassumption|reflexivity].
Qed.
Lemma write_uvs_total {F} (m : LModel F) uvs : forall v nb,
  Forall (fun l => l <> []) uvs ->
  (forall mvs mv, In mvs uvs -> In mv mvs -> exists b p, block_of m (fst mv) = Ok b /\ nthz (k_points b) (snd mv) = Some p) ->
  exists x, write_uvs m v nb uvs = Ok x.
Proof.
  induction uvs as [|mvs r IH]; intros v nb H Hk; [eexists; reflexivity|]. inversion_clear H as [|? ? Hne Hr].
  cbn [write_uvs]. destruct (first_block_ok mvs Hne) as [i [E Hi]]. rewrite E. cbn [bind].
  destruct (idx_len mvs i Hi) as [mv Hm]. rewrite Hm. cbn [bind].
  assert (Hmv : In mv mvs) by (unfold idx in Hm; destruct (nth_error mvs i) eqn:En; [apply nth_error_In in En; congruence|discriminate]).
  destruct (Hk mvs mv (or_introl eq_refl) Hmv) as [b [p [Hb Hp]]]. rewrite Hb. cbn [bind].
  rewrite (proj2 (idxz_ok _ _ _) Hp). cbn [bind]. cbn zeta.
  destruct (IH (v + 1) (wrap32 (nb + lenz (remove_nth i mvs))) Hr) as [[[a c] d] ->].
  { intros. eapply Hk; eauto. now right. }
  cbn [bind]. eexists. reflexivity.
Qed.

Lemma numbered_lens {F} (m : LModel F) v nb uvs ps rws atoms : numbered m v nb uvs ps rws atoms ->
  List.length ps = List.length uvs /\ List.length rws = List.length uvs /\ lenz atoms = nb_others uvs.
Proof.
  induction 1 as [|v nb mvs r mv others b p ps rws atoms HS Hb Hp N IH]; [repeat split; reflexivity|].
  destruct IH as [I1 [I2 I3]]. cbn [List.length nb_others fold_right]. fold (nb_others r).
  rewrite lenz_app. unfold lenz at 1. rewrite repeat_length.
  pose proof (Permutation_length (split_uv_perm _ _ _ HS)) as HL. cbn [List.length] in HL. unfold lenz at 2. lia.
Qed.
(** Numbers of the vertices of a unique vertex. *)
Lemma numbered_entry {F} (m : LModel F) v nb uvs ps rws atoms : numbered m v nb uvs ps rws atoms ->
  forall i r mv n, nthz rws i = Some r -> In (mv, n) r ->
  n = v + i + 1 \/ exists j, nthz atoms j = Some (v + i + 1) /\ n = nb + j + 1.
Proof.
  induction 1 as [|v nb mvs rr mv0 others b p ps rws atoms HS Hb Hp N IH]; intros i r mv n Hr Hi.
  - apply nthz_in in Hr. destruct Hr.
  - rewrite nthz_cons in Hr. destruct (Z.eqb_spec i 0) as [->|Ni].
    + injection Hr as <-. destruct Hi as [Hi|Hi]; [left; assert (n = v + 1) by congruence; lia|right].
      pose proof (in_combine_r _ _ _ _ Hi) as Hn. apply in_rangez in Hn. exists (n - nb - 1).
      split; [|lia]. apply nthz_app_l. unfold nthz. rewrite repeat_length.
      destruct (Z.leb_spec 0 (n - nb - 1)), (Z.ltb_spec (n - nb - 1) (Z.of_nat (List.length others))); try lia. cbn [andb].
      rewrite nth_error_repeat by lia. f_equal. lia.
    + destruct (IH (i - 1) r mv n Hr Hi) as [->|[j [Hj ->]]]; [left; lia|right].
      exists (lenz others + j). pose proof (nthz_range _ _ _ Hj). split; [|lia].
      replace (v + i + 1) with (v + 1 + (i - 1) + 1) by lia. rewrite <- Hj.
      replace (lenz others) with (lenz (repeat (v + 1) (List.length others))) by (unfold lenz; now rewrite repeat_length).
      apply nthz_app_r. lia.
Qed.
Lemma numbered_row {F} (m : LModel F) v nb uvs ps rws atoms : numbered m v nb uvs ps rws atoms ->
  forall i mvs, nthz uvs i = Some mvs -> exists r p mv others, nthz rws i = Some r /\ Permutation mvs (map fst r)
     /\ split_uv mvs mv others /\ nthz ps i = Some p /\ exists b, block_of m (fst mv) = Ok b /\ nthz (k_points b) (snd mv) = Some p.
Proof.
  induction 1 as [|v nb mvs rr mv0 others b p ps rws atoms HS Hb Hp N IH]; intros i mvs0 H.
  - apply nthz_in in H. destruct H.
  - rewrite nthz_cons in H. destruct (Z.eqb_spec i 0) as [->|Ni].
    + injection H as <-. exists ((mv0, v + 1) :: combine others (rangez (nb + 1) (List.length others))), p, mv0, others.
      split; [reflexivity|]. split.
      * cbn [map fst]. rewrite (split_uv_perm _ _ _ HS). apply perm_skip.
        clear. generalize (nb + 1). induction others as [|x l IH]; intros z; [constructor|]. cbn [List.length rangez combine map fst].
        apply perm_skip. apply IH.
      * repeat split; eauto.
    + destruct (IH (i - 1) mvs0 H) as [r [p' [mv [ot [H1 [H2 [H3 [H4 H5]]]]]]]].
      exists r, p', mv, ot. rewrite !nthz_cons. destruct (Z.eqb_spec i 0); [lia|]. auto.
Qed.
(** All the numbers: the first vertices then the others. *)
Lemma combine_snd {A} (l : list A) a : map snd (combine l (rangez a (List.length l))) = rangez a (List.length l).
Proof. revert a. induction l as [|x l IH]; intros a; [reflexivity|]. cbn [List.length rangez combine map snd]. now rewrite IH. Qed.
Lemma numbered_all {F} (m : LModel F) v nb uvs ps rws atoms : numbered m v nb uvs ps rws atoms ->
  Permutation (map snd (List.concat rws)) (rangez (v + 1) (List.length uvs) ++ rangez (nb + 1) (List.length atoms)).
Proof.
  induction 1 as [|v nb mvs rr mv0 others b p ps rws atoms HS Hb Hp N IH]; [constructor|].
  cbn [List.concat List.length rangez app map snd]. apply perm_skip. rewrite map_app, combine_snd, IH.
  rewrite app_length, repeat_length, rangez_app.
  replace (nb + 1 + Z.of_nat (List.length others)) with (nb + lenz others + 1) by (unfold lenz; lia).
  rewrite Permutation_app_comm, <- app_assoc. apply Permutation_app_head. apply Permutation_app_comm.
Qed.
