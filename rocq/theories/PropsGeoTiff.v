(** * The level of the logger after loading GeoTIFF files (C98). *)
From Coq Require Import ZArith List Bool.
From Verif Require Import Base GeoTiff.
Import ListNotations.

Section Level.
Context {L R C G S : Type} (critical : L).
Definition is_value {A} (r : res A) : Prop := exists a, r = Ok a.
(** The grid of the file can be loaded. *)
Definition grid_loads (f : @image R C G) : Prop :=
  exists r c g, raster f = Ok r /\ system f = Ok c /\ converted f r c = Ok g.
(** The file can be opened but the loading that is done with a silent logger fails. *)
Definition fails_silently (x : @load R C G S) : Prop :=
  match x with
  | LoadGrid f => is_value (opened f) /\ ~ is_value (raster f)
  | LoadSurface f _ => is_value (opened f) /\ ~ grid_loads f
  end.

Lemma run_cases (x : @load R C G S) (l : L) :
  (fails_silently x /\ run critical x l = critical) \/ (~ fails_silently x /\ run critical x l = l).
Proof.
  destruct x as [f|f e]; cbn [run fails_silently]; unfold read_polytiff_level, read_geotiff, ibind, call, get_level, set_level, is_value, grid_loads.
  - destruct (opened f) as [u| | |]; cbn; try (right; split; [intros [[a H] _]; discriminate|reflexivity]).
    destruct (raster f) as [r| | |]; cbn; try (left; split; [split; [eauto|intros [a H]; discriminate]|reflexivity]).
    right. split; [intros [_ H]; apply H; eauto|]. destruct (system f) as [c| | |]; reflexivity.
  - destruct (opened f) as [u| | |] eqn:Eo; cbn; try (right; split; [intros [[a H] _]; discriminate|reflexivity]).
    destruct (raster f) as [r| | |] eqn:Er; cbn;
      try (left; split; [split; [eauto|intros [? [? [? [H _]]]]; discriminate]|reflexivity]).
    destruct (system f) as [c| | |] eqn:Es; cbn;
      try (left; split; [split; [eauto|intros [? [? [? [_ [H _]]]]]; discriminate]|reflexivity]).
    destruct (converted f r c) as [g| | |] eqn:Ec; cbn.
    1: right; split; [intros [_ H]; apply H; exists r, c, g; auto|reflexivity].
    all: left; split; [split; [eauto|]|reflexivity].
    all: intros [r' [c' [g' [H1 [H2 H3]]]]]; injection H1 as <-; injection H2 as <-; congruence.
Qed.

(** C98.  The level of the logger after any sequence of loadings: the level of the user as long as no file fails during
    the silent part, then critical for ever. *)
Theorem C98_level : forall (xs : list (@load R C G S)) (l : L),
    ((forall x, In x xs -> ~ fails_silently x) -> run_all critical xs l = l) /\
    ((exists x, In x xs /\ fails_silently x) -> run_all critical xs l = critical).
Proof.
  unfold run_all. induction xs as [|x xs IH]; intros l; cbn [fold_left].
  { split; [reflexivity|]. intros [x [[] _]]. }
  destruct (run_cases x l) as [[H1 H2]|[H1 H2]]; rewrite H2.
  - split; [intros H; now destruct (H x (or_introl eq_refl))|]. intros _.
    assert (K : forall ys : list (@load R C G S), fold_left (fun a y => run critical y a) ys critical = critical).
    { clear IH. induction ys as [|y ys IHy]; [reflexivity|]. cbn [fold_left].
      destruct (run_cases y critical) as [[_ ->]|[_ ->]]; exact IHy. }
    apply K.
  - destruct (IH l) as [I1 I2]. split.
    + intros H. apply I1. intros y Hy. apply H. now right.
    + intros [y [[->|Hy] Hf]]; [contradiction|]. apply I2. eauto.
Qed.
End Level.
Print Assumptions C98_level.

(** The property is false: one unreadable file silences the logger for the rest of the program, in particular when the following
    files are all read. *)
Theorem C98_silenced_refuted :
  exists (L : Type) (critical l : L) (bad good : @load unit unit unit unit),
    l <> critical /\ fails_silently bad /\ ~ fails_silently good /\
    forall n, run_all critical (bad :: repeat good n) l = critical.
Proof.
  pose (bad := @mkImage unit unit unit (Ok tt) (Throw ExData) (Ok tt) (fun _ _ => Ok tt)).
  pose (good := @mkImage unit unit unit (Ok tt) (Ok tt) (Ok tt) (fun _ _ => Ok tt)).
  exists bool, true, false, (LoadGrid bad), (LoadSurface good (fun _ => Ok tt)).
  assert (B : fails_silently (S := unit) (LoadGrid bad)).
  { split; [exists tt; reflexivity|]. intros [a H]. discriminate. }
  split; [discriminate|]. split; [exact B|]. split.
  - intros [_ H]. apply H. exists tt, tt, tt. auto.
  - intros n. apply C98_level. exists (LoadGrid bad). split; [now left|exact B].
Qed.
Print Assumptions C98_silenced_refuted.

(** Two good files then one that cannot be opened (level 2 kept), then one with a damaged image. *)
Example C98_example :
  let good := @mkImage unit unit unit (Ok tt) (Ok tt) (Ok tt) (fun _ _ => Ok tt) in
  let missing := @mkImage unit unit unit (Throw ExData) (Ok tt) (Ok tt) (fun _ _ => Ok tt) in
  let damaged := @mkImage unit unit unit (Ok tt) (Throw ExData) (Ok tt) (fun _ _ => Ok tt) in
  run_all 9%nat [LoadGrid good; LoadSurface good (fun _ => Ok tt); LoadGrid missing] 2%nat = 2%nat /\
  run_all 9%nat [LoadGrid good; LoadSurface damaged (fun _ => Ok tt); LoadGrid good] 2%nat = 9%nat /\
  geotiff_loadable 100 missing true = Throw ExData /\ geotiff_loadable 40 missing true = Ok 40%Z.
Proof. repeat split. Qed.

(** C97: which images are announced loadable, and that these are loaded when the libraries keep their word (an image announced by
    is_raster_image_loadable is read and converted, a coordinate system announced by is_coordinate_system_loadable is read). *)
Definition libraries_right {R C G} (percent : Z) (f : @image R C G) (system_ok : bool) : Prop :=
  (percent = 100%Z -> exists r, raster f = Ok r) /\ (system_ok = true -> exists c, system f = Ok c) /\ (forall r c, raster f = Ok r -> system f = Ok c -> exists g, converted f r c = Ok g).
Theorem C97_announced : forall {L R C G : Type} (critical : L) percent (f : @image R C G) system_ok,
  (geotiff_loadable percent f system_ok = Ok 100%Z <-> percent = 100%Z /\ (exists u, opened f = Ok u) /\ system_ok = true) /\
  (libraries_right percent f system_ok -> geotiff_loadable percent f system_ok = Ok 100%Z -> forall l, exists g, read_geotiff critical f l = (Ok g, l)).
Proof.
  intros L R C G critical percent f system_ok.
  assert (I : geotiff_loadable percent f system_ok = Ok 100%Z <-> percent = 100%Z /\ (exists u, opened f = Ok u) /\ system_ok = true).
  { unfold geotiff_loadable. destruct (Z.eqb_spec percent 100) as [->|N].
    - destruct (opened f) as [u| | |]; cbn [bind]; [|split; [discriminate|intros [_ [[u H] _]]; discriminate]..].
      destruct system_ok; split; try discriminate; try (intros [_ [_ H]]; discriminate); [|reflexivity]. intros _. split; [reflexivity|]. split; [now exists u|reflexivity].
    - split; [intros H; congruence|intros [H _]; congruence]. }
  split; [exact I|]. intros [H1 [H2 H3]] H l. apply I in H as [Hp [[u Ho] Hs]]. destruct (H1 Hp) as [r Hr]. destruct (H2 Hs) as [c Hc]. destruct (H3 r c Hr Hc) as [g Hg].
  exists g. unfold read_geotiff, ibind, call, get_level, set_level. rewrite Ho, Hr, Hc, Hg. reflexivity.
Qed.
Print Assumptions C97_announced.
Example C97_announced_example : libraries_right 100 (@mkImage unit unit unit (Ok tt) (Ok tt) (Ok tt) (fun _ _ => Ok tt)) true /\
  geotiff_loadable 100 (@mkImage unit unit unit (Ok tt) (Ok tt) (Ok tt) (fun _ _ => Ok tt)) true = Ok 100%Z /\
  geotiff_loadable 100 (@mkImage unit unit unit (Ok tt) (Ok tt) (Throw ExData) (fun _ _ => Ok tt)) false = Ok 0%Z.
Proof. split; [split; [intros _; now exists tt|split; [intros _; now exists tt|intros r c _ _; now exists tt]]|split; reflexivity]. Qed.
