(** * Boolean comparison of a loaded mesh with an expected one, for concrete instances.
    Comparing booleans keeps the kernel (and coqchk) from normalising the type parameters. *)
From Coq Require Import ZArith List Lia Bool Ascii String.
From Verif Require Import Base Text TextFacts GocadModel MeshModel TsModel Spec ExNum.
Import ListNotations.
Local Open Scope Z_scope.

Fixpoint leqb {A} (e : A -> A -> bool) (a b : list A) : bool :=
  match a, b with
  | [], [] => true
  | x :: s, y :: t => e x y && leqb e s t
  | _, _ => false
  end.
Lemma leqb_ok {A} (e : A -> A -> bool) : (forall x y, e x y = true -> x = y) ->
  forall a b, leqb e a b = true -> a = b.
Proof.
  intros H. induction a as [|x s IH]; destruct b as [|y t]; cbn [leqb]; intros E; try discriminate; auto.
  apply andb_true_iff in E as [E1 E2]. f_equal; auto.
Qed.
Definition zzz_eqb (p q : Z * Z * Z) : bool :=
  let '(x, y, z) := p in let '(a, b, c) := q in Z.eqb x a && Z.eqb y b && Z.eqb z c.
Lemma zzz_eqb_ok p q : zzz_eqb p q = true -> p = q.
Proof.
  destruct p as [[x y] z], q as [[a b] c]. unfold zzz_eqb. intros E.
  apply andb_true_iff in E as [E E3]. apply andb_true_iff in E as [E1 E2].
  apply Z.eqb_eq in E1, E2, E3. congruence.
Qed.
Definition zz_eqb (p q : Z * Z) : bool := Z.eqb (fst p) (fst q) && Z.eqb (snd p) (snd q).
Lemma zz_eqb_ok p q : zz_eqb p q = true -> p = q.
Proof.
  destruct p, q. unfold zz_eqb. cbn [fst snd]. intros E. apply andb_true_iff in E as [E1 E2].
  apply Z.eqb_eq in E1, E2. congruence.
Qed.
Definition oname_eqb (a b : option bytes) : bool :=
  match a, b with Some x, Some y => beq x y | None, None => true | _, _ => false end.
Lemma oname_eqb_ok a b : oname_eqb a b = true -> a = b.
Proof. destruct a, b; cbn [oname_eqb]; intros E; try discriminate; auto. apply beq_eq in E. congruence. Qed.

Definition attrs_of {C} (m : mesh ExNum C) : list (bytes * list (list Z)) :=
  map (fun na => (fst na, a_vals (snd na))) (m_attrs m).
Definition mesh_is {C} (ce : C -> C -> bool) (r : res (mesh ExNum C)) (n : option bytes)
    (ps : list (Z * Z * Z)) (cs : list C) (ats : list (bytes * list (list Z))) : bool :=
  match r with
  | Ok m => oname_eqb (m_name m) n && leqb zzz_eqb (m_points m) ps && leqb ce (m_cells m) cs
     && leqb (fun a b => beq (fst a) (fst b) && leqb (leqb Z.eqb) (snd a) (snd b)) (attrs_of m) ats
  | _ => false
  end.
Lemma mesh_is_ok {C} (ce : C -> C -> bool) (r : res (mesh ExNum C)) n ps cs ats :
  (forall x y, ce x y = true -> x = y) -> mesh_is ce r n ps cs ats = true ->
  exists m, r = Ok m /\ m_name m = n /\ m_points m = ps /\ m_cells m = cs /\ attrs_of m = ats.
Proof.
  intros Hc. unfold mesh_is. destruct r as [m| | |]; try discriminate. intros E.
  apply andb_true_iff in E as [E E4]. apply andb_true_iff in E as [E E3].
  apply andb_true_iff in E as [E1 E2]. exists m. repeat split.
  - now apply oname_eqb_ok.
  - revert E2. apply leqb_ok. exact zzz_eqb_ok.
  - revert E3. now apply leqb_ok.
  - revert E4. apply leqb_ok. intros [a b] [a' b']. cbn [fst snd]. intros E.
    apply andb_true_iff in E as [Ea Eb]. apply beq_eq in Ea.
    apply (leqb_ok (leqb Z.eqb)) in Eb; [congruence|]. intros x y. apply leqb_ok.
    intros u v Huv. now apply Z.eqb_eq.
Qed.
Definition is_UB {A} (r : res A) : bool := match r with UB => true | _ => false end.
Definition is_Throw {A} (r : res A) : bool := match r with Throw _ => true | _ => false end.
Definition is_Hang {A} (r : res A) : bool := match r with Hang => true | _ => false end.
Lemma is_UB_ok {A} (r : res A) : is_UB r = true -> r = UB.
Proof. destruct r; (discriminate || reflexivity). Qed.
Lemma is_Throw_ok {A} (r : res A) : is_Throw r = true -> exists e, r = Throw e.
Proof. destruct r; try discriminate. eauto. Qed.
Lemma is_Hang_ok {A} (r : res A) : is_Hang r = true -> r = Hang.
Proof. destruct r; (discriminate || reflexivity). Qed.
