(** * What is saved is announced loadable (C121). *)
From Coq Require Import ZArith List Lia Bool Ascii String.
From Verif Require Import Base Text TextFacts GocadModel MeshModel TsModel PlModel MlModel SignsModel LsoModel StratiLso ExNum ExCheck PropsGocad PropsLso.
Import ListNotations.
Local Open Scope string_scope.
Local Open Scope list_scope.
Local Open Scope Z_scope.

(** A text whose first line starts with the keyword is loadable, whatever follows. *)
Lemma first_line kw l ls : ~ In LF l -> starts_with l kw = true -> loadable kw (unlines (l :: ls)) = true.
Proof.
  intros N S0. apply loadable_iff. exists l. split; [|assumption]. cbn [unlines]. unfold open_text. rewrite (cut_line [] l (unlines ls) N).
  destruct (cut [] (unlines ls)) as [r b]. left. reflexivity.
Qed.
Ltac one_line := unfold lit; cbn; intros H; repeat (destruct H as [H|H]; [discriminate|]); destruct H.

(** For all contents: names and titles with any characters, ends of line included. *)
Theorem C121_saved_is_loadable :
  (forall (F : Num) (m : wmesh F tri), loadable "GOCAD TSurf" (write_ts m) = true) /\
  (forall (F : Num) (m : wmesh F unit), loadable "GOCAD VSet" (write_vs m) = true) /\
  (forall (F : Num) around (m : wmesh F edge) text, write_pl around m = Ok text -> loadable "GOCAD PLine" text = true) /\
  (forall (F : Num) uuid (m : SModel F) usides rsides text, write_ml uuid m usides rsides = Ok text -> loadable "GOCAD Model3d" text = true) /\
  (forall (F : Num) (m : LModel F) sides text, write_lso m sides = Ok text -> loadable "GOCAD LightTSolid" text = true).
Proof.
  split; [intros; apply first_line; [one_line|reflexivity]|]. split; [intros; apply first_line; [one_line|reflexivity]|]. split; [|split].
  - intros F around m text H. unfold write_pl, pl_lines in H. apply bind_ok in H as [ls [H E]]. injection E as <-.
    apply bind_ok in H as [bs [_ E]]. injection E as <-. apply first_line; [one_line|reflexivity].
  - intros F uuid m us rs text H. unfold write_ml, rmap, ml_lines in H. apply bind_ok in H as [ls [H E]]. injection E as <-.
    apply bind_ok in H as [cs [_ H]]. apply bind_ok in H as [ss [_ E]]. injection E as <-. apply first_line; [one_line|reflexivity].
  - intros F m sides text H. unfold write_lso, rmap, lso_lines in H. apply bind_ok in H as [ls [H E]]. injection E as <-.
    apply bind_ok in H as [[vl rw] [_ H]]. apply bind_ok in H as [tl [_ H]]. apply bind_ok in H as [[[s1 e1] n1] [_ H]].
    apply bind_ok in H as [[[s2 e2] n2] [_ H]]. apply bind_ok in H as [[[s3 e3] n3] [_ H]]. apply bind_ok in H as [rl [_ E]].
    injection E as <-. apply first_line; [one_line|reflexivity].
Qed.
Print Assumptions C121_saved_is_loadable.

(** Example: the written texts exist (the solid of C45), and a title of two lines does not hide the object. *)
Definition strange_title : wmesh ExNum tri := mkWmesh (Some (lit "a" ++ LF :: lit "END")) [] [] [].
Example C121_example : loadable "GOCAD TSurf" (write_ts strange_title) = true /\ loadable "GOCAD VSet" (write_ts strange_title) = false /\
  exists text, write_lso ex_lso ex_lsides = Ok text.
Proof. split; [reflexivity|]. split; [reflexivity|]. destruct C45_example as [t [E _]]. eauto. Qed.
