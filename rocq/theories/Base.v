(** * Outcomes, 32-bit indices and list helpers shared by the whole model. *)
From Coq Require Import ZArith List Lia Bool Ascii String.
Import ListNotations.
Local Open Scope Z_scope.

(** Kind of a C++ exception.
    - [ExData]: [OpenGeodeException] and the repo's own subclasses
      (/repo/include/geode/geosciences_io/mesh/common.hpp);
    - [ExOutOfRange]: [std::out_of_range] thrown by [.at()];
    - [ExBadOptional]: [std::bad_optional_access] thrown by [.value()];
    - [ExBadAlloc]: [std::bad_alloc] thrown by an allocation of impossible size. *)
Inductive exn := ExData | ExOutOfRange | ExBadOptional | ExBadAlloc.

(** Outcome of running a C++ function.  [UB] is undefined behaviour (an
    out-of-bounds access, [front()] of an empty vector, ...), [Hang] an
    infinite loop. *)
Inductive res (A : Type) :=
| Ok (a : A)
| Throw (e : exn)
| UB
| Hang.
Arguments Ok {A} a.
Arguments Throw {A} e.
Arguments UB {A}.
Arguments Hang {A}.

Definition bind {A B} (r : res A) (f : A -> res B) : res B :=
  match r with
  | Ok a => f a
  | Throw e => Throw e
  | UB => UB
  | Hang => Hang
  end.

Notation "'do' x <- a ; b" := (bind a (fun x => b))
  (at level 200, x binder, a at level 100, b at level 200).
Notation "'do' ' p <- a ; b" := (bind a (fun x => match x with p => b end))
  (at level 200, p pattern, a at level 100, b at level 200).

Definition rmap {A B} (f : A -> B) (r : res A) : res B := bind r (fun a => Ok (f a)).

(** [std::vector::operator[]] / [absl::Span::operator[]]: no bound check, so
    an index outside the container is undefined behaviour. *)
Definition idx {A} (l : list A) (i : nat) : res A :=
  match nth_error l i with Some a => Ok a | None => UB end.

(** [std::vector::front()]: undefined on an empty container. *)
Definition front {A} (l : list A) : res A :=
  match l with a :: _ => Ok a | [] => UB end.

(** [OPENGEODE_EXCEPTION] / [check_exception]. *)
Definition check (b : bool) : res unit := if b then Ok tt else Throw ExData.

(** [geode::index_t] is [unsigned int]: arithmetic wraps modulo 2^32. *)
Definition two32 : Z := 4294967296.
Definition wrap32 (z : Z) : Z := z mod two32.
Definition sub32 (a b : Z) : Z := wrap32 (a - b).
Definition add32 (a b : Z) : Z := wrap32 (a + b).
Definition mul32 (a b : Z) : Z := wrap32 (a * b).

(** [NO_ID] of OpenGeode: the largest [index_t]. *)
Definition NO_ID : Z := 4294967295.

(** Access with an [index_t]: the bound is tested before converting to [nat]
    so that the function also computes on wrapped indices. *)
Definition nthz {A} (l : list A) (i : Z) : option A :=
  if (0 <=? i) && (i <? Z.of_nat (List.length l))
  then nth_error l (Z.to_nat i) else None.
Definition idxz {A} (l : list A) (i : Z) : res A :=
  match nthz l i with Some a => Ok a | None => UB end.
(** [std::deque::at]: checked access. *)
Definition atz {A} (l : list A) (i : Z) : res A :=
  match nthz l i with Some a => Ok a | None => Throw ExOutOfRange end.

(** Update of one element; out of bounds leaves the list unchanged (callers
    test the bound first). *)
Fixpoint upd {A} (l : list A) (i : nat) (a : A) : list A :=
  match l, i with
  | [], _ => []
  | _ :: t, O => a :: t
  | x :: t, S j => x :: upd t j a
  end.
Definition setz {A} (l : list A) (i : Z) (a : A) : res (list A) :=
  if (0 <=? i) && (i <? Z.of_nat (List.length l))
  then Ok (upd l (Z.to_nat i) a) else UB.

Fixpoint mapM {A B} (f : A -> res B) (l : list A) : res (list B) :=
  match l with
  | [] => Ok []
  | a :: t => do b <- f a; do bs <- mapM f t; Ok (b :: bs)
  end.

Fixpoint foldM {A S} (f : S -> A -> res S) (l : list A) (s : S) : res S :=
  match l with
  | [] => Ok s
  | a :: t => do s' <- f s a; foldM f t s'
  end.

(** [geode::Range{ n }] as a list of indices. *)
Fixpoint rangez (start : Z) (n : nat) : list Z :=
  match n with
  | O => []
  | S m => start :: rangez (start + 1) m
  end.

(** ** Elementary facts *)

Lemma bind_ok {A B} (r : res A) (f : A -> res B) b :
  bind r f = Ok b <-> exists a, r = Ok a /\ f a = Ok b.
Proof.
  split.
  - destruct r; simpl; intros H; try discriminate; eauto.
  - intros [a [-> H]]; exact H.
Qed.

Lemma bind_assoc {A B C} (r : res A) (f : A -> res B) (g : B -> res C) :
  bind (bind r f) g = bind r (fun a => bind (f a) g).
Proof. destruct r; reflexivity. Qed.

Lemma bind_ret {A} (r : res A) : bind r Ok = r.
Proof. destruct r; reflexivity. Qed.

Lemma bind_ext {A B} (r : res A) (f g : A -> res B) :
  (forall a, r = Ok a -> f a = g a) -> bind r f = bind r g.
Proof. destruct r; simpl; intros H; auto. Qed.

Lemma wrap32_small z : 0 <= z < two32 -> wrap32 z = z.
Proof. intros; unfold wrap32; apply Z.mod_small; assumption. Qed.

Lemma wrap32_range z : 0 <= wrap32 z < two32.
Proof. unfold wrap32; apply Z.mod_pos_bound; reflexivity. Qed.

Lemma sub32_small a b : 0 <= b <= a -> a < two32 -> sub32 a b = a - b.
Proof. intros; unfold sub32; apply wrap32_small; lia. Qed.

Lemma add32_small a b : 0 <= a -> 0 <= b -> a + b < two32 -> add32 a b = a + b.
Proof. intros; unfold add32; apply wrap32_small; lia. Qed.

Lemma nthz_nat {A} (l : list A) (n : nat) : nthz l (Z.of_nat n) = nth_error l n.
Proof.
  unfold nthz.
  destruct (Z.of_nat n <? Z.of_nat (List.length l)) eqn:E.
  - rewrite (proj2 (Z.leb_le _ _)) by lia; simpl. now rewrite Nat2Z.id.
  - rewrite andb_false_r. symmetry; apply nth_error_None. apply Z.ltb_ge in E; lia.
Qed.

Lemma nthz_some {A} (l : list A) i a : nthz l i = Some a ->
  0 <= i < Z.of_nat (List.length l) /\ nth_error l (Z.to_nat i) = Some a.
Proof.
  unfold nthz. destruct (_ && _) eqn:E; [|discriminate].
  apply andb_true_iff in E; destruct E as [E1 E2].
  apply Z.leb_le in E1; apply Z.ltb_lt in E2. intros; split; [lia|assumption].
Qed.

Lemma nthz_none {A} (l : list A) i : nthz l i = None <-> ~ (0 <= i < Z.of_nat (List.length l)).
Proof.
  unfold nthz. destruct (_ && _) eqn:E.
  - apply andb_true_iff in E; destruct E as [E1 E2].
    apply Z.leb_le in E1; apply Z.ltb_lt in E2. split; intros H; [|lia].
    apply nth_error_None in H. lia.
  - split; auto. intros _ [H1 H2]. apply andb_false_iff in E. destruct E as [E|E];
    [apply Z.leb_gt in E|apply Z.ltb_ge in E]; lia.
Qed.

Lemma nthz_in_range {A} (l : list A) i : 0 <= i < Z.of_nat (List.length l) -> exists a, nthz l i = Some a.
Proof.
  intros H. destruct (nthz l i) eqn:E; eauto. apply nthz_none in E. lia.
Qed.

Lemma upd_length {A} (l : list A) i a : List.length (upd l i a) = List.length l.
Proof. revert i; induction l; destruct i; simpl; auto. Qed.

Lemma nth_error_upd {A} (l : list A) i j a :
  nth_error (upd l i a) j =
  if Nat.eqb i j then (if Nat.ltb i (List.length l) then Some a else None) else nth_error l j.
Proof.
  revert i j; induction l as [|x t IH]; intros i j; simpl.
  - destruct (Nat.eqb i j); [destruct i|]; destruct j; simpl; auto.
  - destruct i, j; simpl; auto. rewrite IH.
    destruct (Nat.eqb i j); auto.
Qed.

Lemma rangez_length s n : List.length (rangez s n) = n.
Proof. revert s; induction n; simpl; auto. Qed.

Lemma rangez_nth s n k : (k < n)%nat -> nth_error (rangez s n) k = Some (s + Z.of_nat k).
Proof.
  revert s k; induction n; intros s k H; [lia|].
  destruct k; simpl; [f_equal; lia|]. rewrite IHn by lia. f_equal; lia.
Qed.

Lemma in_rangez s n x : In x (rangez s n) <-> s <= x < s + Z.of_nat n.
Proof.
  revert s; induction n; intros s; simpl; [lia|].
  rewrite IHn. lia.
Qed.

Lemma rangez_app s n m : rangez s (n + m) = rangez s n ++ rangez (s + Z.of_nat n) m.
Proof.
  revert s; induction n; intros s; simpl.
  - f_equal; lia.
  - f_equal. rewrite IHn. do 2 f_equal. lia.
Qed.

Lemma rangez_S s n : rangez s (S n) = rangez s n ++ [s + Z.of_nat n].
Proof. replace (S n) with (n + 1)%nat by lia. rewrite rangez_app. reflexivity. Qed.

Lemma mapM_ok {A B} (f : A -> res B) l bs :
  mapM f l = Ok bs <-> Forall2 (fun a b => f a = Ok b) l bs.
Proof.
  revert bs; induction l as [|a t IH]; intros bs; simpl.
  - split; [intros H; injection H as <-; constructor|inversion 1; reflexivity].
  - split.
    + intros H. apply bind_ok in H as [b [Hb H]]. apply bind_ok in H as [bs' [Hbs H]].
      injection H as <-. constructor; [assumption|]. now apply IH.
    + inversion 1 as [|? ? ? ? Hb Hbs]; subst. rewrite Hb; simpl.
      apply IH in Hbs. rewrite Hbs. reflexivity.
Qed.

Lemma mapM_ext {A B} (f g : A -> res B) l :
  (forall a, In a l -> f a = g a) -> mapM f l = mapM g l.
Proof.
  induction l as [|a t IH]; simpl; intros H; auto.
  rewrite (H a) by auto. rewrite IH by auto. reflexivity.
Qed.

Lemma foldM_app {A S} (f : S -> A -> res S) l1 l2 s :
  foldM f (l1 ++ l2) s = bind (foldM f l1 s) (foldM f l2).
Proof.
  revert s; induction l1 as [|a t IH]; intros s; simpl; auto.
  destruct (f s a); simpl; auto.
Qed.
