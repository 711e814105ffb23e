(** * GOCAD mesh files cut short (C132). *)
From Coq Require Import ZArith List Lia Bool Ascii String.
From Verif Require Import Base Text TextFacts GocadModel MeshModel TsModel Spec GocadFacts TsFacts CrlfFacts
  StreamFacts MultiFacts MultiMore PropsComments ExNum ExCheck PropsTsVs PropsMulti.
Import ListNotations.
Local Open Scope string_scope.
Local Open Scope list_scope.
Local Open Scope Z_scope.

(** ** Specification *)

(** An END line: its first word is END *)
Definition end_line (l : bytes) : Prop := exists ts, string_split l = lit "END" :: ts.
(** [a] begins an object of the kind announced by [kw] and does not end it *)
Definition unfinished (kw : bytes) (a : list bytes) : Prop :=
  (exists l, In l a /\ starts_with l kw = true) /\ (forall l, In l a -> ~ end_line l).

(** ** The reading of the beginning of a file, next to the reading of the whole file *)

(** The reader of the beginning either is at the same place with the same result, or has met the end of the file: it has failed
    or has nothing more to read. *)
Definition follows {A} (b : list bytes) (whole cut : res (A * istream)) : Prop :=
  match whole with
  | Ok (x, s1) =>
      (exists s2, cut = Ok (x, s2) /\ pending s1 = pending s2 ++ b) \/
      (exists y s2, cut = Ok (y, s2) /\ pending s2 = []) \/
      cut = Throw ExData
  | _ => True
  end.
(** What reads at the end of the file fails or stays there *)
Definition stuck {A} (cut : res (A * istream)) : Prop :=
  cut = Throw ExData \/ exists y s, cut = Ok (y, s) /\ pending s = [].
Lemma follows_bind {A B} b (w c : res (A * istream)) (f g : A * istream -> res (B * istream)) :
  follows b w c ->
  (forall x s1 s2, pending s1 = pending s2 ++ b -> follows b (f (x, s1)) (g (x, s2))) ->
  (forall y s2, pending s2 = [] -> stuck (g (y, s2))) ->
  follows b (bind w f) (bind c g).
Proof.
  intros H K E. destruct w as [[x s1]| | |]; cbn [bind]; try exact I. cbn [follows] in H.
  destruct H as [(s2 & -> & P)|[(y & s2 & -> & P)| ->]]; cbn [bind].
  - apply K. exact P.
  - specialize (E y s2 P). destruct (f (x, s1)) as [[z t]| | |]; cbn [follows]; try exact I.
    destruct E as [E|(v & t2 & E & Q)]; rewrite E; eauto 10.
  - destruct (f (x, s1)) as [[z t]| | |]; cbn [follows]; auto.
Qed.
Lemma follows_same {A B} b (w : res A) (f g : A -> res (B * istream)) :
  (forall x, follows b (f x) (g x)) -> follows b (bind w f) (bind w g).
Proof. intros H. destruct w; cbn; auto. Qed.
Lemma follows_ok {A} b (x : A) s1 s2 : pending s1 = pending s2 ++ b -> follows b (Ok (x, s1)) (Ok (x, s2)).
Proof. intros H. left. eauto. Qed.
Lemma stuck_bind {A B} (c : res (A * istream)) (g : A * istream -> res (B * istream)) :
  stuck c -> (forall y s, pending s = [] -> stuck (g (y, s))) -> stuck (bind c g).
Proof. intros [-> |(y & s & -> & P)] H; cbn [bind]; [now left|now apply H]. Qed.

(** The readers that search a line fail at the end of the file *)
Definition tight {A} (b : list bytes) (whole cut : res (A * istream)) : Prop :=
  match whole with Ok (x, s1) => (exists s2, cut = Ok (x, s2) /\ pending s1 = pending s2 ++ b) \/ cut = Throw ExData | _ => True end.
Lemma tight_follows {A} b (w c : res (A * istream)) : tight b w c -> follows b w c.
Proof. destruct w as [[x s]| | |]; cbn; tauto. Qed.
Lemma tight_bind {A B} b (w c : res (A * istream)) (f g : A * istream -> res (B * istream)) :
  tight b w c -> (forall x s1 s2, pending s1 = pending s2 ++ b -> tight b (f (x, s1)) (g (x, s2))) -> tight b (bind w f) (bind c g).
Proof.
  intros H K. destruct w as [[x s1]| | |]; cbn [bind]; try exact I. cbn [tight] in H. destruct H as [(s2 & -> & P)| ->]; cbn [bind].
  - apply K. exact P.
  - destruct (f (x, s1)) as [[z t]| | |]; cbn; auto.
Qed.
Lemma tight_follows_bind {A B} b (w c : res (A * istream)) (f g : A * istream -> res (B * istream)) :
  tight b w c -> (forall x s1 s2, pending s1 = pending s2 ++ b -> follows b (f (x, s1)) (g (x, s2))) -> follows b (bind w f) (bind c g).
Proof.
  intros H K. destruct w as [[x s1]| | |]; cbn [bind]; try exact I. cbn [tight] in H. destruct H as [(s2 & -> & P)| ->]; cbn [bind].
  - apply K. exact P.
  - destruct (f (x, s1)) as [[z t]| | |]; cbn; auto.
Qed.
Lemma tight_same {A B} b (w : res A) (f g : A -> res (B * istream)) :
  (forall x, tight b (f x) (g x)) -> tight b (bind w f) (bind w g).
Proof. intros H. destruct w; cbn; auto. Qed.
Lemma tight_ok {A} b (x : A) s1 s2 : pending s1 = pending s2 ++ b -> tight b (Ok (x, s1)) (Ok (x, s2)).
Proof. intros H. left. eauto. Qed.

Lemma scan_cut p a b : scan p (a ++ b) = match scan p a with Some (l, r) => Some (l, r ++ b) | None => scan p b end.
Proof. induction a as [|x a IH]; cbn [app scan]; [reflexivity|]. destruct (p x); auto. Qed.
Lemma goto_cut kw b s t : pending s = pending t ++ b -> tight b (goto_keyword kw s) (goto_keyword kw t).
Proof.
  intros H. unfold goto_keyword, goto_if. rewrite H, scan_cut. destruct (scan _ (pending t)) as [[l r]|]; cbn.
  - left. eexists. split; [reflexivity|reflexivity].
  - destruct (scan _ b) as [[l r]|]; cbn; auto.
Qed.
Lemma goto_stuck kw s : pending s = [] -> goto_keyword kw s = Throw ExData.
Proof. intros H. unfold goto_keyword, goto_if. now rewrite H. Qed.
Lemma gotos_cut kws b s t : pending s = pending t ++ b -> tight b (goto_keywords kws s) (goto_keywords kws t).
Proof.
  intros H. unfold goto_keywords. rewrite H, scan_cut. destruct (scan _ (pending t)) as [[l r]|]; cbn.
  - left. eexists. split; [reflexivity|reflexivity].
  - destruct (scan _ b) as [[l r]|]; cbn; auto.
Qed.
Lemma gotos_stuck kws s : pending s = [] -> goto_keywords kws s = Throw ExData.
Proof. intros H. unfold goto_keywords. now rewrite H. Qed.

(** A loop over the lines *)
Definition follows_l {A} (b : list bytes) (whole cut : res (A * list bytes)) : Prop :=
  match whole with Ok (x, r1) => (exists r2, cut = Ok (x, r2) /\ r1 = r2 ++ b) \/ cut = Throw ExData | _ => True end.
Lemma follows_loop {A} b (w c : res (A * list bytes)) n1 n2 :
  follows_l b w c -> tight b (do '(x, r) <- w; Ok (x, mkStream r n1)) (do '(x, r) <- c; Ok (x, mkStream r n2)).
Proof.
  intros H. destruct w as [[x r]| | |]; cbn; auto. destruct H as [(r2 & -> & ->)| ->]; cbn; [|auto].
  left. eexists. split; [reflexivity|reflexivity].
Qed.
Lemma header_loop_cut b a : forall n, follows_l b (header_loop n (a ++ b)) (header_loop n a).
Proof.
  induction a as [|l a IH]; intros n; cbn [app].
  - cbn [header_loop]. destruct (header_loop n b) as [[? ?]| | |]; cbn; auto.
  - cbn [header_loop]. destruct (starts_with l "}"); [left; eauto|]. destruct (after_first _ l); apply IH.
Qed.
Lemma crs_loop_cut b a : forall d, follows_l b (crs_loop d (a ++ b)) (crs_loop d a).
Proof.
  induction a as [|l a IH]; intros d; cbn [app].
  - cbn [crs_loop]. destruct (crs_loop d b) as [[? ?]| | |]; cbn; auto.
  - cbn [crs_loop]. destruct (starts_with l _); [left; eauto|]. destruct (crs_line d l); cbn [bind]; try exact I. apply IH.
Qed.
Lemma header_cut b s t : pending s = pending t ++ b -> tight b (read_header s) (read_header t).
Proof.
  intros H. unfold read_header, check_keyword. rewrite H. destruct (pending t) as [|l r]; cbn [app].
  - destruct b as [|x b]; [cbn; auto|]. destruct (starts_with x "HEADER"); [|exact I]. cbn [bind].
    unfold tight. destruct (bind _ _) as [[? ?]| | |]; auto.
  - destruct (starts_with l "HEADER"); [|exact I]. cbn [bind pending nl]. apply follows_loop, header_loop_cut.
Qed.
Lemma header_stuck s : pending s = [] -> read_header s = Throw ExData.
Proof. intros H. unfold read_header, check_keyword. now rewrite H. Qed.
Lemma next_stuck kw s : pending s = [] -> next_if kw s = (None, mkStream [] false).
Proof. intros H. unfold next_if. now rewrite H. Qed.
Lemma crs_stuck s : pending s = [] -> stuck (read_CRS s).
Proof. intros H. unfold read_CRS. rewrite (next_stuck _ _ H). right. eauto. Qed.
Lemma crs_cut b s t : pending s = pending t ++ b -> follows b (read_CRS s) (read_CRS t).
Proof.
  intros H. destruct (pending t) as [|l r] eqn:E.
  - destruct (crs_stuck t E) as [K|(y & s2 & K & P)]; rewrite K; destruct (read_CRS s) as [[? ?]| | |]; cbn; eauto 10.
  - unfold read_CRS, next_if. rewrite H, E. cbn [app]. destruct (starts_with l _).
    + apply tight_follows, follows_loop, crs_loop_cut.
    + apply follows_ok. rewrite H, E. reflexivity.
Qed.
Lemma two_cut kw n b s t : pending s = pending t ++ b -> tight b (kw_two_strings kw n s) (kw_two_strings kw n t).
Proof.
  intros H. unfold kw_two_strings. apply tight_bind; [now apply goto_cut|]. intros x s1 s2 P. apply tight_same. intros y. now apply tight_ok.
Qed.
Lemma double_cut F kw n b s t : pending s = pending t ++ b -> tight b (kw_one_double F kw n s) (kw_one_double F kw n t).
Proof.
  intros H. unfold kw_one_double. apply tight_bind; [now apply goto_cut|]. intros x s1 s2 P. apply tight_same. intros y. now apply tight_ok.
Qed.
Lemma index_cut kw n b s t : pending s = pending t ++ b -> tight b (kw_one_index kw n s) (kw_one_index kw n t).
Proof.
  intros H. unfold kw_one_index. apply tight_bind; [now apply goto_cut|]. intros x s1 s2 P. apply tight_same. intros y. now apply tight_ok.
Qed.
Lemma string_cut kw n b s t : pending s = pending t ++ b -> tight b (kw_one_string kw n s) (kw_one_string kw n t).
Proof.
  intros H. unfold kw_one_string. apply tight_bind; [now apply goto_cut|]. intros x s1 s2 P. apply tight_same. intros y.
  apply tight_same. intros z. now apply tight_ok.
Qed.
Lemma prop_stuck F s : pending s = [] -> stuck (read_prop_header F [] s).
Proof. intros H. unfold read_prop_header. rewrite (next_stuck _ _ H). right. eauto. Qed.
Lemma prop_cut F b s t : pending s = pending t ++ b -> follows b (read_prop_header F [] s) (read_prop_header F [] t).
Proof.
  intros H. destruct (pending t) as [|l r] eqn:E.
  - destruct (prop_stuck F t E) as [K|(y & s2 & K & P)]; rewrite K; destruct (read_prop_header F [] s) as [[? ?]| | |]; cbn; eauto 10.
  - unfold read_prop_header, next_if. rewrite H, E. cbn [app]. destruct (starts_with l _).
    2: { apply follows_ok. rewrite H, E. reflexivity. }
    apply tight_follows, tight_same. intros sl. cbv zeta. destruct (Nat.eqb _ 0); [now apply tight_ok|].
    apply tight_same. intros names.
    apply tight_bind; [now apply two_cut|]. intros ranges r1 q1 K1.
    apply tight_bind; [now apply double_cut|]. intros ndvs r2 q2 K2.
    apply tight_bind; [now apply string_cut|]. intros classes r3 q3 K3.
    apply tight_bind; [now apply string_cut|]. intros kinds r4 q4 K4.
    apply tight_bind; [now apply two_cut|]. intros subs r5 q5 K5.
    apply tight_bind; [now apply index_cut|]. intros esizes r6 q6 K6.
    apply tight_bind; [now apply string_cut|]. intros units r7 q7 K7. now apply tight_ok.
Qed.

(** ** The data of the object: without END line the end of the file is met *)
Lemma line_loop_unfinished {A} (step : A -> bytes -> res (A * bool)) a b :
  (forall x l y, step x l = Ok (y, true) -> end_line l) -> (forall l, In l a -> ~ end_line l) ->
  forall x, (exists r, line_loop step (fun _ => Throw ExData) x (a ++ b) = Ok r) -> line_loop step (fun _ => Throw ExData) x a = Throw ExData.
Proof.
  intros Hs. induction a as [|l a IH]; intros Ha x [r H]; [reflexivity|]. cbn [app line_loop] in *.
  destruct (step x l) as [[y [|]]| | |] eqn:E; cbn [bind] in *; try discriminate.
  - exfalso. apply Hs in E. exact (Ha l (or_introl eq_refl) E).
  - apply IH; [intros k Hk; apply Ha; now right|]. now exists r.
Qed.
Lemma line_loop_never {A} (step : A -> bytes -> res (A * bool)) a :
  (forall x l y, step x l = Ok (y, true) -> end_line l) -> (forall l, In l a -> ~ end_line l) ->
  forall x r, line_loop step (fun _ => Throw ExData) x a <> Ok r.
Proof.
  intros Hs. induction a as [|l a IH]; intros Ha x r H; [discriminate|]. cbn [line_loop] in H.
  destruct (step x l) as [[y [|]]| | |] eqn:E; cbn [bind] in H; try discriminate.
  - apply Hs in E. exact (Ha l (or_introl eq_refl) E).
  - apply IH in H; [assumption|]. intros k Hk. apply Ha. now right.
Qed.

Lemma beq_split k l ts : string_split l = k :: ts -> beq k "END" = true -> end_line l.
Proof. intros H E. apply beq_eq in E. subst k. now exists ts. Qed.
Lemma front_of l k : front (string_split l) = Ok k -> exists ts, string_split l = k :: ts.
Proof. destruct (string_split l) as [|x ts]; [discriminate|]. intros H. injection H as ->. now exists ts. Qed.
Lemma tface_stops F (x : TSurf F) l y : tface_line F x l = Ok (y, true) -> end_line l.
Proof.
  unfold tface_line. intros H. apply bind_ok in H as (k & Hk & H). apply front_of in Hk as (ts & Hk). destruct x.
  destruct (is_vrtx k). { repeat (apply bind_ok in H as (? & _ & H)). discriminate. }
  destruct (is_atom k). { repeat (apply bind_ok in H as (? & _ & H)). discriminate. }
  destruct (beq k "TRGL"). { repeat (apply bind_ok in H as (? & _ & H)). discriminate. }
  destruct (beq k "BSTONE"). { repeat (apply bind_ok in H as (? & _ & H)). discriminate. }
  destruct (beq k "BORDER"). { repeat (apply bind_ok in H as (? & _ & H)). discriminate. }
  destruct (beq k "TFACE"); [discriminate|]. destruct (beq k "END") eqn:E; [|discriminate]. now apply (beq_split k l ts).
Qed.
Lemma vset_stops F (x : VSet F) l y : vset_line F x l = Ok (y, true) -> end_line l.
Proof.
  unfold vset_line. intros H. apply bind_ok in H as (k & Hk & H). apply front_of in Hk as (ts & Hk). destruct x.
  destruct (beq k "END") eqn:E; [now apply (beq_split k l ts)|]. destruct (negb _); [discriminate|].
  repeat (apply bind_ok in H as (? & _ & H)). discriminate.
Qed.
Lemma suffix_no_end a b : suffix b a -> (forall l, In l a -> ~ end_line l) -> forall l, In l b -> ~ end_line l.
Proof. intros [p ->] H l Hl. apply H, in_or_app. now right. Qed.
Lemma tfaces_unfinished F ts b s t : pending s = pending t ++ b -> (forall l, In l (pending t) -> ~ end_line l) ->
  (exists r, read_tfaces F ts s = Ok r) -> read_tfaces F ts t = Throw ExData.
Proof.
  intros H Hn (r & R). unfold read_tfaces in *. pose proof (goto_cut "TFACE" b s t H) as G.
  destruct (goto_keyword "TFACE" s) as [[l s1]| | |]; cbn [bind] in R; try discriminate.
  destruct G as [(s2 & E & P)| ->]; [|reflexivity]. rewrite E. apply goto_keyword_suffix, suffix_tl in E. cbn [bind]. rewrite tfaces_is in *.
  rewrite P in R. apply bind_ok in R as (q & R & _).
  rewrite (line_loop_unfinished (tface_line F) (pending s2) b (tface_stops F)); [reflexivity|now apply (suffix_no_end _ _ E)|eauto].
Qed.
Lemma vset_unfinished F vs b s t : pending s = pending t ++ b -> (forall l, In l (pending t) -> ~ end_line l) ->
  (exists r, read_VSet_vertices F vs s = Ok r) -> read_VSet_vertices F vs t = Throw ExData.
Proof.
  intros H Hn (r & R). unfold read_VSet_vertices in *. pose proof (gotos_cut [lit "VRTX"; lit "PVRTX"] b s t H) as G.
  destruct (goto_keywords _ s) as [[l s1]| | |]; cbn [bind] in R; try discriminate.
  destruct G as [(s2 & E & P)| ->]; [|reflexivity]. rewrite E. apply goto_keywords_suffix in E. cbn [bind]. rewrite vset_is in *.
  rewrite P in R. apply bind_ok in R as (q & R & _). rewrite app_comm_cons in R.
  rewrite (line_loop_unfinished (vset_line F) (l :: pending s2) b (vset_stops F)); [reflexivity|now apply (suffix_no_end _ _ E)|eauto].
Qed.
(** The sections before the data *)
Lemma object_unfinished {X Y} F (b : list bytes) s t (mk : option bytes -> CRS -> PropHeader (num F) -> Y) (data : Y -> istream -> res (X * istream)) :
  (forall y s t, pending s = pending t ++ b -> (forall l, In l (pending t) -> ~ end_line l) ->
    (exists r, data y s = Ok r) -> data y t = Throw ExData) ->
  (forall y t, pending t = [] -> data y t = Throw ExData) ->
  pending s = pending t ++ b -> (forall l, In l (pending t) -> ~ end_line l) ->
  let read u := do '(name, s2) <- read_header u; do '(crs, s3) <- read_CRS s2; do '(props, s4) <- read_prop_header F [] s3;
                data (mk name crs props) s4 in
  (exists r, read s = Ok r) -> read t = Throw ExData.
Proof.
  intros Hd Hs H Hn read (r & R). unfold read in *.
  apply bind_ok in R as ((name & s2) & R1 & R). apply bind_ok in R as ((crs & s3) & R2 & R). apply bind_ok in R as ((props & s4) & R3 & R).
  pose proof (header_cut b s t H) as K1. rewrite R1 in K1. destruct K1 as [(t2 & E1 & P1)|E1]; rewrite E1; [|reflexivity]. cbn [bind].
  pose proof (read_header_suffix _ _ E1) as S1. cbn [snd] in S1. pose proof (suffix_no_end _ _ S1 Hn) as N1.
  assert (End : forall crs' t3, pending t3 = [] -> bind (read_prop_header F [] t3) (fun '(props, s4) => data (mk name crs' props) s4) = Throw ExData).
  { intros crs' t3 P. destruct (prop_stuck F t3 P) as [-> |(y & t4 & -> & Q)]; [reflexivity|]. cbn [bind]. now apply Hs. }
  pose proof (crs_cut b s2 t2 P1) as K2. rewrite R2 in K2. destruct K2 as [(t3 & E2 & P2)|[(y & t3 & E2 & P2)|E2]]; rewrite E2; [|now apply End|reflexivity]. cbn [bind].
  pose proof (read_CRS_suffix _ _ E2) as S2. cbn [snd] in S2. pose proof (suffix_no_end _ _ S2 N1) as N2.
  pose proof (prop_cut F b s3 t3 P2) as K3. rewrite R3 in K3. destruct K3 as [(t4 & E3 & P3)|[(y & t4 & E3 & P3)|E3]]; rewrite E3; [|now apply Hs|reflexivity]. cbn [bind].
  pose proof (read_prop_header_suffix _ _ _ _ E3) as S3. cbn [snd] in S3.
  apply (Hd _ s4 t4 P3 (suffix_no_end _ _ S3 N2)). now exists r.
Qed.
Lemma goto_in kw t : (exists l, In l (pending t) /\ starts_with l kw = true) -> exists l t', goto_if kw t = (Some l, t').
Proof.
  intros (l & Hl & K). unfold goto_if. destruct (scan _ (pending t)) as [[k r]|] eqn:E; [eauto|]. exfalso.
  revert E. clear -Hl K. induction (pending t) as [|x r IH]; [now destruct Hl|]. cbn [scan]. destruct (starts_with x kw) eqn:Ex; [discriminate|].
  destruct Hl as [-> |Hl]; [congruence|auto].
Qed.
Lemma tsurf_unfinished F b s t : pending s = pending t ++ b -> unfinished "GOCAD TSurf" (pending t) ->
  (exists r, read_tsurf F s = Ok r) -> read_tsurf F t = Throw ExData.
Proof.
  intros H [Hk Hn] (r & R). destruct (goto_in _ _ Hk) as (l & t1 & E). unfold read_tsurf in *. rewrite E.
  unfold goto_if in R. rewrite H, scan_cut in R. pose proof (goto_if_suffix _ _ _ _ E) as Hx. apply suffix_tl in Hx.
  unfold goto_if in E. destruct (scan _ (pending t)) as [[k q]|]; [|discriminate]. injection E as <- <-. cbn [pending] in Hx.
  pose proof (object_unfinished F b (mkStream (q ++ b) (nl s)) (mkStream q (nl t))
    (fun name crs props => mkTSurf 1 name crs props [] [] [0] [0] [] [] (map (fun _ => []) (p_names props)))
    (fun y u => do '(ts, s5) <- read_tfaces F y u; Ok (Some ts, s5))) as O.
  cbn [pending] in O. apply O; clear O.
  - intros y u v P N (z & Z). apply bind_ok in Z as (z' & Z & _). rewrite (tfaces_unfinished F y b u v P N); [reflexivity|eauto].
  - intros y v P. unfold read_tfaces. now rewrite goto_stuck.
  - reflexivity.
  - now apply (suffix_no_end _ _ Hx).
  - now exists r.
Qed.
Lemma vs_unfinished F b s t : pending s = pending t ++ b -> unfinished "GOCAD VSet" (pending t) ->
  (exists r, read_vs_points F s = Ok r) -> read_vs_points F t = Throw ExData.
Proof.
  intros H [Hk Hn] (r & R). destruct (goto_in _ _ Hk) as (l & t1 & E). unfold read_vs_points in *. rewrite E.
  unfold goto_if in R. rewrite H, scan_cut in R. pose proof (goto_if_suffix _ _ _ _ E) as Hx. apply suffix_tl in Hx.
  unfold goto_if in E. destruct (scan _ (pending t)) as [[k q]|]; [|discriminate]. injection E as <- <-. cbn [pending] in Hx.
  pose proof (object_unfinished F b (mkStream (q ++ b) (nl s)) (mkStream q (nl t))
    (fun name crs props => mkVSet 1 name crs props [] (map (fun _ => []) (p_names props)))
    (fun y u => do '(ts, s5) <- read_VSet_vertices F y u; Ok (Some ts, s5))) as O.
  cbn [pending] in O. apply O; clear O.
  - intros y u v P N (z & Z). apply bind_ok in Z as (z' & Z & _). rewrite (vset_unfinished F y b u v P N); [reflexivity|eauto].
  - intros y v P. unfold read_VSet_vertices. now rewrite gotos_stuck.
  - reflexivity.
  - now apply (suffix_no_end _ _ Hx).
  - now exists r.
Qed.
(** Whatever the rest of the file: never loaded *)
Lemma tsurf_never F t x : unfinished "GOCAD TSurf" (pending t) -> read_tsurf F t <> Ok x.
Proof.
  intros [Hk Hn] R. destruct (goto_in _ _ Hk) as (l & t1 & E). unfold read_tsurf in R. rewrite E in R.
  apply goto_if_suffix, suffix_tl in E.
  apply bind_ok in R as ((name & s2) & R1 & R). apply bind_ok in R as ((crs & s3) & R2 & R). apply bind_ok in R as ((props & s4) & R3 & R).
  apply bind_ok in R as ((ts & s5) & R4 & R). unfold read_tfaces in R4. apply bind_ok in R4 as ((k & s6) & R5 & R4). apply bind_ok in R4 as (q & R6 & _).
  apply read_header_suffix in R1. apply read_CRS_suffix in R2. apply read_prop_header_suffix in R3. apply goto_keyword_suffix, suffix_tl in R5. cbn [fst snd] in *.
  assert (N : forall l, In l (pending s6) -> ~ end_line l).
  { apply (suffix_no_end (pending t)); [|exact Hn]. repeat (eapply suffix_trans; [eassumption|]). apply suffix_refl. }
  rewrite tfaces_is in R6. exact (line_loop_never (tface_line F) (pending s6) (tface_stops F) N _ _ R6).
Qed.
Lemma vs_never F t x : unfinished "GOCAD VSet" (pending t) -> read_vs_points F t <> Ok x.
Proof.
  intros [Hk Hn] R. destruct (goto_in _ _ Hk) as (l & t1 & E). unfold read_vs_points in R. rewrite E in R.
  apply goto_if_suffix, suffix_tl in E.
  apply bind_ok in R as ((name & s2) & R1 & R). apply bind_ok in R as ((crs & s3) & R2 & R). apply bind_ok in R as ((props & s4) & R3 & R).
  apply bind_ok in R as ((ts & s5) & R4 & R). unfold read_VSet_vertices in R4. apply bind_ok in R4 as ((k & s6) & R5 & R4). apply bind_ok in R4 as (q & R6 & _).
  apply read_header_suffix in R1. apply read_CRS_suffix in R2. apply read_prop_header_suffix in R3. apply goto_keywords_suffix in R5. cbn [fst snd] in *.
  assert (N : forall l, In l (k :: pending s6) -> ~ end_line l).
  { apply (suffix_no_end (pending t)); [|exact Hn]. repeat (eapply suffix_trans; [eassumption|]). apply suffix_refl. }
  rewrite vset_is in R6. exact (line_loop_never (vset_line F) (k :: pending s6) (vset_stops F) N _ _ R6).
Qed.

(** ** C132 *)

(** Surfaces.  [pre]: complete objects before.  An object without END is never loaded; when it is the beginning of a file that can be
    loaded, the exception is thrown. *)
Theorem C132_surface_cut : forall (F : Num) pre a b m0,
  Forall is_line pre -> Forall is_line a -> Forall is_line b ->
  read_ts F (unlines pre) = Ok m0 -> unfinished "GOCAD TSurf" a ->
  (forall m, read_ts F (unlines (pre ++ a)) <> Ok m) /\
  ((exists m, read_ts F (unlines (pre ++ a ++ b)) = Ok m) -> read_ts F (unlines (pre ++ a)) = Throw ExData).
Proof.
  intros F pre a b m0 Lp La Lb R U. unfold read_ts in *.
  assert (L1 : Forall is_line (pre ++ a)) by now (apply Forall_app; split).
  assert (L2 : Forall is_line (pre ++ a ++ b)) by now (rewrite app_assoc; apply Forall_app; split).
  rewrite open_unlines in R by assumption. rewrite !open_unlines by assumption.
  cbn [pending] in *. cbv zeta in *.
  assert (P1 : forall f more, (List.length (pre ++ more) < f)%nat -> read_ts_loop f empty_mesh (mkStream (pre ++ more) true) = read_ts_loop (S (List.length more)) m0 (mkStream more true)).
  { intros f more L. exact (read_ts_loop_app F _ _ _ _ more true R f L). }
  rewrite !P1 by lia. split.
  - intros m. cbn [read_ts_loop]. intros E. apply bind_ok in E as (x & E & _). now apply tsurf_never in E.
  - intros (m & E). cbn [read_ts_loop] in *. apply bind_ok in E as (x & E & _).
    rewrite (tsurf_unfinished F b (mkStream (a ++ b) true) (mkStream a true)); [reflexivity|reflexivity|exact U|eauto].
Qed.
Print Assumptions C132_surface_cut.
Theorem C132_point_set_cut : forall (F : Num) pre a b m0,
  Forall is_line pre -> Forall is_line a -> Forall is_line b ->
  read_vs F (unlines pre) = Ok m0 -> unfinished "GOCAD VSet" a ->
  (forall m, read_vs F (unlines (pre ++ a)) <> Ok m) /\
  ((exists m, read_vs F (unlines (pre ++ a ++ b)) = Ok m) -> read_vs F (unlines (pre ++ a)) = Throw ExData).
Proof.
  intros F pre a b m0 Lp La Lb R U. unfold read_vs in *.
  assert (L1 : Forall is_line (pre ++ a)) by now (apply Forall_app; split).
  assert (L2 : Forall is_line (pre ++ a ++ b)) by now (rewrite app_assoc; apply Forall_app; split).
  rewrite open_unlines in R by assumption. rewrite !open_unlines by assumption.
  cbn [pending] in *. cbv zeta in *.
  assert (P1 : forall f more, (List.length (pre ++ more) < f)%nat -> read_vs_loop f empty_mesh (mkStream (pre ++ more) true) = read_vs_loop (S (List.length more)) m0 (mkStream more true)).
  { intros f more L. exact (read_vs_loop_app F _ _ _ _ more true R f L). }
  rewrite !P1 by lia. split.
  - intros m. cbn [read_vs_loop]. intros E. apply bind_ok in E as (x & E & _). now apply vs_never in E.
  - intros (m & E). cbn [read_vs_loop] in *. apply bind_ok in E as (x & E & _).
    rewrite (vs_unfinished F b (mkStream (a ++ b) true) (mkStream a true)); [reflexivity|reflexivity|exact U|eauto].
Qed.
Print Assumptions C132_point_set_cut.

(** A text that ends inside a line *)
Lemma cut_part part : ~ In LF part -> forall cur, cur ++ part <> [] -> cut cur part = ([cur ++ part], false).
Proof.
  induction part as [|c r IH]; intros Hc cur Hn; cbn [cut].
  - rewrite app_nil_r in *. destruct cur; [congruence|reflexivity].
  - destruct (Ascii.eqb c LF) eqn:E; [exfalso; apply Ascii.eqb_eq in E; subst c; apply Hc; now left|].
    rewrite IH; [now rewrite <- app_assoc|intros H; apply Hc; now right|now destruct cur].
Qed.
Lemma cut_line l t : ~ In LF l -> forall cur, cut cur (l ++ LF :: t) = let '(ls, b) := cut [] t in ((cur ++ l) :: ls, b).
Proof.
  induction l as [|c r IH]; intros Hc cur; cbn [app cut].
  - change (Ascii.eqb LF LF) with true. cbv iota. now rewrite app_nil_r.
  - destruct (Ascii.eqb c LF) eqn:E; [exfalso; apply Ascii.eqb_eq in E; subst c; apply Hc; now left|].
    rewrite IH by (intros H; apply Hc; now right). destruct (cut [] t). now rewrite <- app_assoc.
Qed.
Lemma open_part a part : Forall is_line a -> ~ In LF part -> part <> [] -> open_text (unlines a ++ part) = mkStream (a ++ [part]) false.
Proof.
  intros Ha Hp Hn. unfold open_text. enough (E : cut [] (unlines a ++ part) = (a ++ [part], false)) by now rewrite E.
  induction Ha as [|l r Hl _ IH]; cbn [unlines app]; [now apply (cut_part part Hp [])|].
  rewrite <- app_assoc. cbn [app]. rewrite cut_line by exact Hl. now rewrite IH.
Qed.
(** Cut inside a line, an object without END is not loaded either; but the failure may be undefined behaviour
    (C132_inside_line_refuted). *)
Theorem C132_never_loaded : forall (F : Num) a part, Forall is_line a -> ~ In LF part -> part <> [] ->
  (unfinished "GOCAD TSurf" (a ++ [part]) -> forall m, read_ts F (unlines a ++ part) <> Ok m) /\
  (unfinished "GOCAD VSet" (a ++ [part]) -> forall m, read_vs F (unlines a ++ part) <> Ok m).
Proof.
  intros F a part Ha Hp Hn. unfold read_ts, read_vs. rewrite open_part by assumption. cbn [pending]. cbv zeta.
  split; intros U m; cbn [read_ts_loop read_vs_loop]; intros E; apply bind_ok in E as (x & E & _).
  - now apply tsurf_never in E.
  - now apply vs_never in E.
Qed.
Print Assumptions C132_never_loaded.

(** ** Curves *)
Lemma iline_stops F (x : ECurve F) l y : iline_line F x l = Ok (y, true) -> end_line l.
Proof.
  unfold iline_line. intros H. apply bind_ok in H as (k & Hk & H). apply front_of in Hk as (ts & Hk). destruct x.
  destruct (is_vrtx k). { repeat (apply bind_ok in H as (? & _ & H)). discriminate. }
  destruct (beq k "SEG"). { repeat (apply bind_ok in H as (? & _ & H)). discriminate. }
  destruct (beq k "END") eqn:E; [|discriminate]. now apply (beq_split k l ts).
Qed.
(** [x] with more points and segments *)
Definition longer {F} (x y : ECurve F) : Prop :=
  e_name y = e_name x /\ (exists ps, e_points y = e_points x ++ ps) /\ (exists es, e_edges y = e_edges x ++ es).
Lemma longer_refl {F} (x : ECurve F) : longer x x.
Proof. split; [reflexivity|]. split; exists []; now rewrite app_nil_r. Qed.
Lemma longer_trans {F} (x y z : ECurve F) : longer x y -> longer y z -> longer x z.
Proof.
  intros (A1 & (p & A2) & (q & A3)) (B1 & (p' & B2) & (q' & B3)). split; [congruence|].
  split; [exists (p ++ p')|exists (q ++ q')]; rewrite app_assoc; congruence.
Qed.
Lemma iline_longer F (x : ECurve F) l y : iline_line F x l = Ok y -> longer x (fst y).
Proof.
  unfold iline_line. intros H. apply bind_ok in H as (k & Hk & H). destruct x as [off name crs pts edges].
  destruct (is_vrtx k).
  { apply bind_ok in H as (? & _ & H). apply bind_ok in H as (p & _ & H). injection H as <-. cbn. split; [reflexivity|]. cbn. split; [now exists [p]|exists []; now rewrite app_nil_r]. }
  destruct (beq k "SEG").
  { apply bind_ok in H as (c & _ & H). apply bind_ok in H as (d & _ & H). injection H as <-. cbn. split; [reflexivity|]. cbn. split; [exists []; now rewrite app_nil_r|now exists [(c, d)]]. }
  destruct (beq k "END"); injection H as <-; apply longer_refl.
Qed.
Lemma ilines_longer F ls : forall (x : ECurve F) y, ilines_loop F x ls = Ok y -> longer x (fst y).
Proof.
  induction ls as [|l r IH]; intros x y H; cbn [ilines_loop] in H; [injection H as <-; apply longer_refl|].
  apply bind_ok in H as ([z stop] & H1 & H). apply iline_longer in H1. cbn [fst] in H1. destruct stop.
  - injection H as <-. exact H1.
  - apply IH in H. exact (longer_trans _ _ _ H1 H).
Qed.
Lemma ilines_unfinished F a b : (forall l, In l a -> ~ end_line l) ->
  forall (x : ECurve F) y, ilines_loop F x (a ++ b) = Ok y -> exists z, ilines_loop F x a = Ok (z, []) /\ longer z (fst y).
Proof.
  induction a as [|l a IH]; intros Hn x y H; cbn [app ilines_loop] in *.
  - exists x. split; [reflexivity|]. exact (ilines_longer F b x y H).
  - destruct (iline_line F x l) as [[z [|]]| | |] eqn:E; cbn [bind] in *; try discriminate.
    + exfalso. apply iline_stops in E. exact (Hn l (or_introl eq_refl) E).
    + apply IH; [intros k Hk; apply Hn; now right|assumption].
Qed.
Lemma ecurve_unfinished F b s t : pending s = pending t ++ b -> unfinished "GOCAD PLine" (pending t) ->
  forall o s', read_ecurve F s = Ok (o, s') ->
  read_ecurve F t = Throw ExData \/
  exists x y t', o = Some y /\ read_ecurve F t = Ok (Some x, t') /\ pending t' = [] /\ longer x y.
Proof.
  intros H [Hk Hn] o s' R. destruct (goto_in _ _ Hk) as (l & t1 & E). unfold read_ecurve in *. rewrite E.
  unfold goto_if in R. rewrite H, scan_cut in R. pose proof (goto_if_suffix _ _ _ _ E) as Hx. apply suffix_tl in Hx.
  unfold goto_if in E. destruct (scan _ (pending t)) as [[k q]|]; [|discriminate]. injection E as <- <-. cbn [pending] in Hx.
  pose proof (suffix_no_end _ _ Hx Hn) as Nq.
  apply bind_ok in R as ((name & s2) & R1 & R). apply bind_ok in R as ((crs & s3) & R2 & R). apply bind_ok in R as ((ec & s4) & R3 & R). injection R as <- <-.
  pose proof (header_cut b (mkStream (q ++ b) (nl s)) (mkStream q (nl t)) eq_refl) as K1. rewrite R1 in K1.
  destruct K1 as [(t2 & E1 & P1)|E1]; rewrite E1; [|now left]. cbn [bind].
  pose proof (read_header_suffix _ _ E1) as S1. cbn [snd pending] in S1. pose proof (suffix_no_end _ _ S1 Nq) as N1.
  pose proof (crs_cut b s2 t2 P1) as K2. rewrite R2 in K2.
  destruct K2 as [(t3 & E2 & P2)|[(y & t3 & E2 & P2)|E2]]; rewrite E2; [|left; cbn [bind]; unfold read_ilines; now rewrite goto_stuck|now left]. cbn [bind].
  pose proof (read_CRS_suffix _ _ E2) as S2. cbn [snd] in S2. pose proof (suffix_no_end _ _ S2 N1) as N2.
  unfold read_ilines in *. pose proof (goto_cut "ILINE" b s3 t3 P2) as K3.
  destruct (goto_keyword "ILINE" s3) as [[l1 s5]| | |]; cbn [bind] in R3; try discriminate.
  destruct K3 as [(t5 & E3 & P3)|E3]; rewrite E3; [|now left]. apply goto_keyword_suffix, suffix_tl in E3. cbn [bind].
  rewrite P3 in R3. apply bind_ok in R3 as ([ec' r] & R3 & R4). injection R4 as <- <-.
  destruct (ilines_unfinished F (pending t5) b (suffix_no_end _ _ E3 N2) _ _ R3) as (z & Z & L). rewrite Z. cbn [bind]. right.
  exists z, ec', (mkStream [] (nl t5)). auto.
Qed.
(** [m] with more points and cells *)
Definition extends {F C} (m m' : mesh F C) : Prop :=
  (exists ps, m_points m' = m_points m ++ ps) /\ (exists cs, m_cells m' = m_cells m ++ cs).
Lemma extends_trans {F C} (x y z : mesh F C) : extends x y -> extends y z -> extends x z.
Proof.
  intros ((p & A2) & (q & A3)) ((p' & B2) & (q' & B3)).
  split; [exists (p ++ p')|exists (q ++ q')]; rewrite app_assoc; congruence.
Qed.
Lemma build_extends F (m m' : mesh F edge) ec : build_curve m ec = Ok m' -> extends m m'.
Proof. intros H. apply build_curve_fields in H as (_ & E1 & E2 & _). split; eauto. Qed.
Lemma read_pl_extends F f : forall (m : mesh F edge) s m', read_pl_loop f m s = Ok m' -> extends m m'.
Proof.
  induction f as [|f IH]; intros m s m' H; [discriminate|]. cbn [read_pl_loop] in H. apply bind_ok in H as ([[ec|] s1] & _ & H).
  - apply bind_ok in H as (m1 & H1 & H). apply IH in H. apply build_extends in H1. exact (extends_trans _ _ _ H1 H).
  - injection H as <-. split; exists []; now rewrite app_nil_r.
Qed.
Lemma foldM_edges F es : forall (m : mesh F edge), foldM create_edge es m = UB \/ exists m', foldM create_edge es m = Ok m'.
Proof.
  induction es as [|[a b] r IH]; intros m; cbn [foldM]; [eauto|]. unfold create_edge. destruct (_ && _); cbn [bind]; auto.
Qed.
(** A curve cut before its first ILINE is refused; after it, it is loaded without notice as the beginning of the curve (or, when a
    segment comes before one of its vertices, with undefined behaviour). *)
Theorem C132_curve_cut : forall (F : Num) pre a b m0 m,
  Forall is_line pre -> Forall is_line a -> Forall is_line b ->
  pre = [] \/ ends_with_END pre ->
  read_pl F (unlines pre) = Ok m0 -> unfinished "GOCAD PLine" a -> read_pl F (unlines (pre ++ a ++ b)) = Ok m ->
  read_pl F (unlines (pre ++ a)) = Throw ExData \/ read_pl F (unlines (pre ++ a)) = UB \/
  exists m', read_pl F (unlines (pre ++ a)) = Ok m' /\ extends m' m.
Proof.
  intros F pre a b m0 m Lp La Lb He R U W. unfold read_pl in *.
  assert (L1 : Forall is_line (pre ++ a)) by now (apply Forall_app; split).
  assert (L2 : Forall is_line (pre ++ a ++ b)) by now (rewrite app_assoc; apply Forall_app; split).
  rewrite open_unlines in R, W by assumption. rewrite !open_unlines by assumption. cbn [pending] in *. cbv zeta in *.
  assert (P1 : forall f more, (List.length (pre ++ more) < f)%nat -> read_pl_loop f empty_mesh (mkStream (pre ++ more) true) = read_pl_loop (S (List.length more)) m0 (mkStream more true)).
  { intros f more L. destruct He as [-> |He].
    - cbn in R. injection R as <-. cbn [app] in *. apply read_pl_loop_fuel; cbn [pending]; lia.
    - exact (read_pl_loop_app F _ _ _ (mkStream pre true) more true (or_intror He) R f L). }
  rewrite P1 in W by lia. rewrite P1 by lia. cbn [read_pl_loop] in *. apply bind_ok in W as ([o s'] & W1 & W).
  destruct (ecurve_unfinished F b (mkStream (a ++ b) true) (mkStream a true) eq_refl U o s' W1) as [E|(x & y & t' & -> & E & P & L)]; rewrite E; [now left|].
  cbn [bind]. apply bind_ok in W as (m1 & B1 & W). apply read_pl_extends in W.
  apply build_curve_fields in B1 as (_ & B1 & B2 & _). destruct L as (_ & (ps & L1') & (es & L2')).
  destruct (build_curve m0 x) as [m2| | |] eqn:B; cbn [bind].
  - right; right. exists m2. split.
    + destruct (List.length a) as [|n] eqn:En; [destruct a; [destruct U as [(l & [] & _) _]|discriminate]|]. cbn [read_pl_loop]. unfold read_ecurve, goto_if. rewrite P. reflexivity.
    + apply build_curve_fields in B as (_ & B3 & B4 & _). apply (extends_trans _ m1); [|exact W].
      split; [exists ps; rewrite B1, B3, L1'; now rewrite app_assoc|].
      exists (map (fun e => (add32 (fst e) (nb_vertices m0), add32 (snd e) (nb_vertices m0))) es).
      rewrite B2, B4. unfold pl_placed. rewrite L2', map_app. now rewrite app_assoc.
  - exfalso. unfold build_curve in B. destruct (foldM_edges F (map (fun e => (add32 (fst e) (nb_vertices m0), add32 (snd e) (nb_vertices m0))) (e_edges x)) (create_points (e_points x) (set_name (e_name x) m0))) as [K|[? K]]; congruence.
  - auto.
  - exfalso. unfold build_curve in B. destruct (foldM_edges F (map (fun e => (add32 (fst e) (nb_vertices m0), add32 (snd e) (nb_vertices m0))) (e_edges x)) (create_points (e_points x) (set_name (e_name x) m0))) as [K|[? K]]; congruence.
Qed.
Print Assumptions C132_curve_cut.

(** ** Findings and examples *)
Definition no_end_b (l : bytes) : bool := match string_split l with t :: _ => negb (beq t "END") | [] => true end.
Lemma unfinished_ok kw a : existsb (fun l => starts_with l kw) a = true -> forallb no_end_b a = true -> unfinished kw a.
Proof.
  intros H K. split.
  - apply existsb_exists in H as (l & Hl & E). eauto.
  - intros l Hl (ts & E). rewrite forallb_forall in K. specialize (K l Hl). unfold no_end_b in K. rewrite E in K. discriminate.
Qed.
Lemma lines_ok ls : forallb (fun l => forallb (fun c => negb (Ascii.eqb c LF)) l) ls = true -> Forall is_line ls.
Proof.
  intros H. apply Forall_forall. intros l Hl. rewrite forallb_forall in H. specialize (H l Hl).
  intros Hc. rewrite forallb_forall in H. specialize (H _ Hc). rewrite Ascii.eqb_refl in H. discriminate.
Qed.
(** Full property, false of curves: a file that ends before its last segment is loaded, with one segment less *)
Theorem C132_curve_refuted : exists (F : Num) a b (m m' : mesh F edge), num_ok F /\
  Forall is_line a /\ unfinished "GOCAD PLine" a /\ read_pl F (unlines (a ++ b)) = Ok m /\ read_pl F (unlines a) = Ok m' /\
  m_cells m = [(0, 1); (1, 2)] /\ m_cells m' = [(0, 1)].
Proof.
  assert (A1 : mesh_is zz_eqb (read_pl ExNum (unlines (ex_pl "a"))) (Some (lit "a")) [(0, 0, 0); (1, 0, 0); (2, 0, 7)] [(0, 1); (1, 2)] [] = true) by (vm_compute; reflexivity).
  assert (A2 : mesh_is zz_eqb (read_pl ExNum (unlines (firstn 9 (ex_pl "a")))) (Some (lit "a")) [(0, 0, 0); (1, 0, 0); (2, 0, 7)] [(0, 1)] [] = true) by (vm_compute; reflexivity).
  destruct (mesh_is_ok _ _ _ _ _ _ zz_eqb_ok A1) as [m1 [R1 [_ [_ [C1 _]]]]].
  destruct (mesh_is_ok _ _ _ _ _ _ zz_eqb_ok A2) as [m2 [R2 [_ [_ [C2 _]]]]].
  exists ExNum, (firstn 9 (ex_pl "a")), (skipn 9 (ex_pl "a")), m1, m2. split; [apply ExNum_ok|].
  split; [apply lines_ok; reflexivity|]. split; [apply unfinished_ok; reflexivity|]. rewrite firstn_skipn. auto.
Qed.
Print Assumptions C132_curve_refuted.
(** False of files cut inside a line: the words of the line are read without looking at their number *)
Theorem C132_inside_line_refuted : exists (F : Num) (w : wmesh F tri) p q, num_ok F /\ names_ok w /\ triangles_ok w /\
  write_ts w = p ++ q /\ read_ts F p = UB.
Proof.
  exists ExNum, ex_surface, (firstn 650 (write_ts ex_surface)), (skipn 650 (write_ts ex_surface)).
  split; [apply ExNum_ok|]. split; [apply ex_surface_names|]. split; [apply ex_surface_triangles|].
  split; [now rewrite firstn_skipn|]. apply is_UB_ok. vm_compute. reflexivity.
Qed.
Print Assumptions C132_inside_line_refuted.
(** False when another object follows: the two surfaces are loaded as one, and the triangles of the second join vertices of the first *)
Theorem C132_next_object_refuted : exists (F : Num) (w1 w2 : wmesh F tri) (m : mesh F tri), num_ok F /\
  names_ok w1 /\ triangles_ok w1 /\ names_ok w2 /\ triangles_ok w2 /\
  unfinished "GOCAD TSurf" (removelast (ts_lines w1)) /\
  read_ts F (unlines (removelast (ts_lines w1) ++ ts_lines w2)) = Ok m /\
  m_points m = wm_points w1 ++ wm_points w2 /\ m_cells m = wm_cells w1 ++ wm_cells w2 /\
  wm_points w1 <> [] /\ wm_cells w2 <> [].
Proof.
  assert (A : mesh_is zzz_eqb (read_ts ExNum (unlines (removelast (ts_lines ex_surface) ++ ts_lines ex_small))) (Some (lit "my surface"))
    [(0, 0, 0); (10, 0, -5); (0, 10, 7); (10, 10, 1); (5, 5, 5); (6, 5, 5); (5, 6, 5)] [(0, 1, 2); (2, 1, 3); (2, 0, 1)]
    [(lit "my prop", [[0]; [3]; [6]; [9]; [100]; [101]; [102]])] = true) by (vm_compute; reflexivity).
  destruct (mesh_is_ok _ _ _ _ _ _ zzz_eqb_ok A) as [m [R [_ [P [C _]]]]].
  exists ExNum, ex_surface, ex_small, m. split; [apply ExNum_ok|].
  split; [apply ex_surface_names|]. split; [apply ex_surface_triangles|]. split; [apply ex_small_names|]. split; [apply ex_small_triangles|].
  split; [apply unfinished_ok; vm_compute; reflexivity|]. split; [exact R|]. split; [exact P|]. split; [exact C|]. split; discriminate.
Qed.
Print Assumptions C132_next_object_refuted.

(** A saved surface cut before its END line, after another surface: the hypotheses of C132_surface_cut *)
Example C132_example :
  Forall is_line (ts_lines ex_small) /\ Forall is_line (removelast (ts_lines ex_surface)) /\
  (exists m, read_ts ExNum (unlines (ts_lines ex_small)) = Ok m) /\ unfinished "GOCAD TSurf" (removelast (ts_lines ex_surface)) /\
  (exists m, read_ts ExNum (unlines (ts_lines ex_small ++ removelast (ts_lines ex_surface) ++ [lit "END"])) = Ok m) /\
  read_ts ExNum (unlines (ts_lines ex_small ++ removelast (ts_lines ex_surface))) = Throw ExData.
Proof.
  assert (L1 : Forall is_line (ts_lines ex_small)) by (apply lines_ok; vm_compute; reflexivity).
  assert (L2 : Forall is_line (removelast (ts_lines ex_surface))) by (apply lines_ok; vm_compute; reflexivity).
  assert (U : unfinished "GOCAD TSurf" (removelast (ts_lines ex_surface))) by (apply unfinished_ok; vm_compute; reflexivity).
  assert (ok : forall t, match read_ts ExNum t with Ok _ => true | _ => false end = true -> exists m, read_ts ExNum t = Ok m).
  { intros t H. destruct (read_ts ExNum t) as [m| | |]; try discriminate. now exists m. }
  assert (R1 : exists m, read_ts ExNum (unlines (ts_lines ex_small)) = Ok m) by (apply ok; vm_compute; reflexivity).
  assert (R2 : exists m, read_ts ExNum (unlines (ts_lines ex_small ++ removelast (ts_lines ex_surface) ++ [lit "END"])) = Ok m) by (apply ok; vm_compute; reflexivity).
  split; [exact L1|]. split; [exact L2|]. split; [exact R1|]. split; [exact U|]. split; [exact R2|].
  destruct R1 as (m0 & R1).
  refine (proj2 (C132_surface_cut ExNum _ _ [lit "END"] m0 L1 L2 _ R1 U) R2). apply lines_ok. reflexivity.
Qed.
