(** C151: an element type that no stratum uses. *)
From Coq Require Import List ZArith Bool Ascii String Lia Reals.
From Verif Require Import Base Num ParseModel ParseSpec SectionSpec SectionProofs ConfigModel ConfigSpec ConfigProofs
  ConfigProofs2 DeprecatedModel DeprecatedProofs LinkModel HydroLinkModel SurfaceModel StrataModel FullModel HydraulicsModel WarnProps
  FileOrderSpec FileOrderProofs FileOrderProofs2 UnusedSpec.
Import ListNotations.
Local Open Scope string_scope.
Local Open Scope list_scope.

(** ** If both calls succeed, their results are related. *)
Definition both {A B} (R : A -> B -> Prop) (r : res A) (r' : res B) : Prop :=
  forall a b, r = Ok a -> r' = Ok b -> R a b.
Lemma both_bind {A B C D} (R : A -> B -> Prop) (S : C -> D -> Prop) r r' f g :
  both R r r' -> (forall a b, R a b -> both S (f a) (g b)) -> both S (bind r f) (bind r' g).
Proof.
  intros H Hf c d E E'. destruct r as [a|]; [|discriminate]. destruct r' as [b|]; [|discriminate].
  exact (Hf a b (H a b eq_refl eq_refl) c d E E').
Qed.
Lemma both_eq {A C D} (S : C -> D -> Prop) (r r' : res A) f g :
  r = r' -> (forall a, both S (f a) (g a)) -> both S (bind r f) (bind r' g).
Proof. intros <- H. destruct r; [exact (H a)|]. intros c d E. discriminate. Qed.
Lemma both_any {A B} (r : res A) (r' : res B) : both (fun _ _ => True) r r'.
Proof. easy. Qed.
Lemma both_ok {A B} (R : A -> B -> Prop) a b : R a b -> both R (Ok a) (Ok b).
Proof. intros H c d E E'. injection E as <-. now injection E' as <-. Qed.

(** ** Sections with another value of one option *)
Section Values.
Context {F : Type}.
Implicit Types d : dict F.
Definition but (k : pystr) d d' : Prop := forall x, x <> k -> dget d x = dget d' x.
Lemma but_dset k d d' x v : but k d d' -> but k (dset d x v) (dset d' x v).
Proof. intros H y Hy. rewrite !dget_dset. destruct (pystr_eqb y x); [reflexivity|]. auto. Qed.
Lemma but_set k d d' v v' : but k d d' -> but k (dset d k v) (dset d' k v').
Proof. intros H y Hy. rewrite !dget_dset. replace (pystr_eqb y k) with false by (symmetry; now apply pystr_eqb_neq). auto. Qed.
Lemma but_lookup k d d' x : but k d d' -> S_ x <> k -> lookup d x = lookup d' x.
Proof. intros H Hx. unfold lookup. now rewrite (H _ Hx). Qed.

Definition free_of (k : pystr) (os : list (option_ F)) : bool :=
  forallb (fun o => match o_alts o with [] => true | _ => false end && forallb (fun n => negb (pystr_eqb n k)) (shape_refs (o_shape o))) os.
Lemma section_but c k (os : list (option_ F)) : free_of k os = true -> forall d d', but k d d' ->
  both (but k) (section_parse c os d) (section_parse c os d').
Proof.
  unfold section_parse. induction os as [|o os IH]; intros Hf d d' H; [now apply both_ok|]. cbn [foldM].
  cbn in Hf. apply andb_true_iff in Hf as [Ho Hf]. apply andb_true_iff in Ho as [Ha Hs].
  apply (both_bind (but k)); [|now apply IH].
  intros e e' E E'. apply bind_Ok in E as ([d1 v] & E1 & E2). injection E2 as <-. apply bind_Ok in E' as ([d2 v'] & E1' & E2'). injection E2' as <-.
  destruct (pystr_eqb (o_name o) k) eqn:Ek.
  - apply pystr_eqb_eq in Ek. subst k.
    assert (Q : forall d d1 v, option_parse c o d = Ok (d1, v) -> d1 = d).
    { intros d0 d3 w E0. pose proof (option_parse_on c o (o_name o :: shape_refs (o_shape o)) d0 d0 (on_refl _ _)) as K.
      rewrite E0 in K. apply K; [now destruct (o_alts o)|now left|]. intros x Hx. now right. }
    apply Q in E1, E1'. subst d1 d2.
    now apply but_set.
  - apply pystr_eqb_neq in Ek.
    assert (K := option_parse_on c o (o_name o :: shape_refs (o_shape o)) d d').
    rewrite E1, E1' in K. destruct K as (K1 & K2 & K3).
    + intros x [<-|Hx]; apply H; [exact Ek|]. intros ->. apply (proj1 (forallb_forall _ _) Hs) in Hx.
      rewrite pystr_eqb_refl in Hx. discriminate.
    + now destruct (o_alts o).
    + now left.
    + intros n Hn. now right.
    + cbn in K1, K2, K3. subst. now apply but_dset.
Qed.
End Values.

Lemma raw_text {F} t k : dget (raw_dict (F := F) t) k = match option_text t k with Some v => Some (Leaf (AStr v)) | None => None end.
Proof. induction t as [|[k' v] t IH]; [reflexivity|]. cbn. destruct (pystr_eqb k k'); [reflexivity|exact IH]. Qed.

Lemma remove_last x n l : x <> n -> remove_name x (l ++ [n]) = remove_name x l ++ [n].
Proof.
  intros H. induction l as [|y l IH]; cbn; [|destruct (pystr_eqb x y); [reflexivity|now rewrite IH]].
  replace (pystr_eqb x n) with false; [reflexivity|]. symmetry. now apply pystr_eqb_neq.
Qed.
Lemma mem_last x n l : x <> n -> mem x (l ++ [n]) = mem x l.
Proof.
  intros H. unfold mem. rewrite existsb_app. cbn. replace (pystr_eqb x n) with false; [now rewrite !orb_false_r|].
  symmetry. now apply pystr_eqb_neq.
Qed.
Lemma mapM_app_inv {A B} (f : A -> res B) l m r : mapM f (l ++ m) = Ok r ->
  exists a b, mapM f l = Ok a /\ mapM f m = Ok b /\ r = a ++ b.
Proof.
  revert r. induction l as [|x l IH]; intros r H; cbn in *; [exists [], r; auto|].
  apply bind_Ok in H as (y & E & H). apply bind_Ok in H as (ys & Es & H). injection H as <-.
  destruct (IH ys Es) as (a & b & E1 & E2 & ->). rewrite E, E1. cbn. exists (y :: a), b. auto.
Qed.
Lemma mapM_app_ok {A B} (f : A -> res B) l m a b : mapM f l = Ok a -> mapM f m = Ok b -> mapM f (l ++ m) = Ok (a ++ b).
Proof.
  revert a. induction l as [|x l IH]; intros a H H'; cbn in *; [injection H as <-; exact H'|].
  apply bind_Ok in H as (y & E & H). apply bind_Ok in H as (ys & Es & H). injection H as <-.
  rewrite E. cbn. rewrite (IH ys Es H'). reflexivity.
Qed.

(** ** The settings *)
Definition more_config {F} (n : pystr) (cf cf' : config F) : Prop :=
  cf_run cf = cf_run cf' /\ cf_model cf = cf_model cf' /\ but (S_ "ae") (cf_strata cf) (cf_strata cf') /\
  cf_contacts cf = cf_contacts cf' /\ cf_hydraulics cf = cf_hydraulics cf' /\ cf_flowtrans cf = cf_flowtrans cf' /\
  exists e, cf_elements cf' = cf_elements cf ++ [(n, e)].

Section Config.
Context {F : Type} (fo : fops F).

Lemma more_texts p n t p' s : one_more p n t p' -> s <> n -> s <> S_ "strata" -> section_texts p s = section_texts p' s.
Proof.
  intros (_ & _ & q & -> & H) Hn Hs. induction H as [|[k u] [k' u'] p q (E1 & E2 & _) _ IH]; cbn in *.
  - replace (pystr_eqb s n) with false; [reflexivity|]. symmetry. now apply pystr_eqb_neq.
  - subst k'. destruct (pystr_eqb s k) eqn:E; [|exact IH]. apply pystr_eqb_eq in E. subst k. now rewrite E2.
Qed.
Lemma more_strata p n t p' : one_more p n t p' ->
  both (fun u u' => but (F := F) (S_ "ae") (raw_dict u) (raw_dict u')) (sec p "strata") (sec p' "strata").
Proof.
  intros (_ & Hr & q & -> & H). unfold sec. induction H as [|[k u] [k' u'] p q (E1 & _ & E3) _ IH]; cbn [section_texts app] in *.
  - intros a b Ea. discriminate.
  - cbn in E1, E3. subst k'. destruct (pystr_eqb (S_ "strata") k) eqn:E; [|exact IH].
    apply both_ok. intros x Hx. now rewrite !raw_text, E3.
Qed.
Lemma more_names p n t p' : one_more p n t p' -> section_names p' = section_names p ++ [n].
Proof.
  intros (_ & _ & q & -> & H). unfold section_names. rewrite map_app. f_equal.
  induction H as [|s s' p q (E & _) _ IH]; [reflexivity|]. cbn. congruence.
Qed.
Lemma sec_more p n t p' name : one_more p n t p' -> S_ name <> S_ "strata" -> S_ name <> n -> sec p name = sec p' name.
Proof. intros H H1 H2. unfold sec. now rewrite (more_texts p n t p' _ H H2 H1). Qed.

Lemma parse_more p n t p' : NoDup (map fst p) -> one_more p n t p' ->
  both (more_config n) (parse_inifile fo p) (parse_inifile fo p').
Proof.
  intros Hnd H. pose proof (more_names p n t p' H) as En. destruct (H) as (Hn & Hr & _).
  assert (N : forall s, In s ["run"; "model"; "strata"; "hydraulics"; "flowtrans"] -> S_ s <> n).
  { intros s Hs <-. apply Hr. now apply in_map. }
  unfold parse_inifile. cbv zeta. rewrite En.
  apply both_eq. { cbn [foldM]. rewrite !mem_last by (apply N; cbn; tauto). reflexivity. } intros _.
  apply both_eq; [apply (sec_more p n t p' _ H); [discriminate|apply N; cbn; tauto]|]. intros t1.
  apply both_eq; [reflexivity|]. intros run.
  apply both_eq; [apply (sec_more p n t p' _ H); [discriminate|apply N; cbn; tauto]|]. intros t2.
  apply both_eq; [reflexivity|]. intros hyd.
  apply both_eq; [apply (sec_more p n t p' _ H); [discriminate|apply N; cbn; tauto]|]. intros t3.
  apply both_eq; [reflexivity|]. intros m0.
  apply both_eq; [reflexivity|]. intros m1. apply both_eq; [reflexivity|]. intros m2.
  apply (both_bind _ _ _ _ _ _ (more_strata p n t p' H)). intros t4 t4' S4.
  apply (both_bind _ _ _ _ _ _ (section_but (f_conv fo) (S_ "ae") strata_options eq_refl _ _ S4)). intros st st' R6.
  do 2 (apply both_eq; [apply (but_lookup _ _ _ _ R6); discriminate|]; intros ?).
  do 5 (apply both_eq; [reflexivity|]; intros ?).
  apply both_eq; [apply (but_lookup _ _ _ _ R6); discriminate|]. intros bg.
  do 4 (apply both_eq; [reflexivity|]; intros ?).
  repeat (rewrite remove_last by (apply N; cbn; tauto)). set (l4 := remove_name (S_ "strata") _).
  assert (I4 : forall y, In y l4 -> In y (map fst p)) by (unfold l4; intros y Hy; repeat apply remove_name_In in Hy; exact Hy).
  assert (St4 : ~ In (S_ "strata") l4).
  { unfold l4. apply remove_name_not. repeat apply WarnProps.remove_name_NoDup. exact Hnd. }
  clearbody l4. rewrite mem_last by (apply N; cbn; tauto).
  apply both_eq; [reflexivity|]. intros _.
  apply (both_bind (fun a b => fst a = fst b /\ snd b = snd a ++ [n] /\ (forall y, In y (snd a) -> In y (map fst p)) /\ ~ In (S_ "strata") (snd a))).
  { destruct (mem (S_ "flowtrans") l4).
    - apply both_eq; [apply (sec_more p n t p' _ H); [discriminate|apply N; cbn; tauto]|]. intros t5.
      apply both_eq; [reflexivity|]. intros ft. cbn beta. apply both_ok.
      split; [reflexivity|]. split; [reflexivity|]. cbn. split.
      + intros y Hy. apply I4. now apply remove_name_In in Hy.
      + intros Hy. apply remove_name_In in Hy. tauto.
    - apply both_ok. auto. }
  intros [ft secs] [ft' secs'] (E & Es & I5 & St5). cbn in E, Es, I5, St5. subst ft' secs'.
  apply (both_bind (fun els els' => exists e, els' = els ++ [(n, e)])).
  - intros els els' E1 E2. apply mapM_app_inv in E2 as (la & lb & E2 & E3 & ->).
    assert (la = els) as ->.
    { assert (K : forall l, (forall y, In y l -> In y (map fst p)) -> ~ In (S_ "strata") l ->
        mapM (fun s => match section_texts p' s with None => Err KeyError | Some t => let* e := parse_element fo hyd t in Ok (s, e) end) l =
        mapM (fun s => match section_texts p s with None => Err KeyError | Some t => let* e := parse_element fo hyd t in Ok (s, e) end) l).
      { induction l as [|s l IH]; intros Hi Hs; [reflexivity|]. cbn [mapM].
        rewrite IH; [|intros y Hy; apply Hi; now right|intros Hy; apply Hs; now right].
        rewrite (more_texts p n t p' s H); [reflexivity| |].
        - intros ->. apply Hn, Hi. now left.
        - intros ->. apply Hs. now left. }
      rewrite K in E2 by assumption. congruence. }
    cbn in E3. destruct (section_texts p' n); [|discriminate]. apply bind_Ok in E3 as (y & E3 & E4).
    apply bind_Ok in E3 as (e & _ & E3). injection E3 as <-. injection E4 as <-. eauto.
  - intros els els' HE. apply both_ok. unfold more_config. cbn. repeat (split; [first [reflexivity|now apply but_dset]|]). exact HE.
Qed.
End Config.
