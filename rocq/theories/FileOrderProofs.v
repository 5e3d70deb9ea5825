(** C150: the order of the sections and of the options in a section. *)
From Coq Require Import List Permutation ZArith Bool Ascii String Lia Reals.
From Verif Require Import Base Num ParseModel ParseSpec SectionSpec SectionProofs ConfigModel ConfigSpec ConfigProofs
  ConfigProofs2 ParseProps ConfigProps DeprecatedModel DeprecatedSpec DeprecatedProofs DeprecatedProps
  WarnModel WarnSpec WarnProps FileOrderSpec LinkModel HydroLinkModel
  SurfaceModel StrataModel FullModel HydraulicsModel.
Import ListNotations.
Local Open Scope string_scope.
Local Open Scope list_scope.

(** ** If the first call succeeds, so does the second. *)
Definition fw {A B} (R : A -> B -> Prop) (r : res A) (r' : res B) : Prop :=
  forall a, r = Ok a -> exists b, r' = Ok b /\ R a b.
Lemma fw_bind {A B C D} (R : A -> B -> Prop) (S : C -> D -> Prop) r r' f g :
  fw R r r' -> (forall a b, R a b -> fw S (f a) (g b)) -> fw S (bind r f) (bind r' g).
Proof.
  intros H Hf c E. destruct r as [a|]; [|discriminate]. destruct (H a eq_refl) as (b & -> & K). exact (Hf a b K c E).
Qed.
Lemma fw_eq {A C D} (S : C -> D -> Prop) (r r' : res A) f g :
  r = r' -> (forall a, r = Ok a -> fw S (f a) (g a)) -> fw S (bind r f) (bind r' g).
Proof. intros <- H. destruct r; [exact (H a eq_refl)|]. intros c E. discriminate. Qed.
Lemma fw_refl {A} (r : res A) : fw eq r r.
Proof. intros a ->. eauto. Qed.
Lemma fw_ok {A B} (R : A -> B -> Prop) a b : R a b -> fw R (Ok a) (Ok b).
Proof. intros H c E. injection E as <-. eauto. Qed.
Lemma fw_mapM {A B C D} (R : A -> B -> Prop) (S : C -> D -> Prop) f g l l' :
  Forall2 R l l' -> (forall a b, R a b -> fw S (f a) (g b)) -> fw (Forall2 S) (mapM f l) (mapM g l').
Proof.
  intros H Hf. induction H as [|a b l l' H _ IH]; cbn; [apply fw_ok; constructor|].
  apply (fw_bind S); [auto|]. intros c d Hcd. apply (fw_bind (Forall2 S)); [exact IH|].
  intros cs ds Hs. apply fw_ok. now constructor.
Qed.
Lemma Forall2_eq {A} (l : list A) : Forall2 eq l l.
Proof. induction l; auto. Qed.
Lemma Forall2_eq_inv {A} (l m : list A) : Forall2 eq l m -> l = m.
Proof. induction 1; congruence. Qed.
Lemma mapM_perm {A B} (f : A -> res B) l l' : Permutation l l' -> fw (@Permutation B) (mapM f l) (mapM f l').
Proof.
  induction 1 as [|x l l' _ IH|x y l|l l' l'' _ IH1 _ IH2].
  - apply fw_ok. constructor.
  - cbn. apply fw_eq; [reflexivity|]. intros a _. apply (fw_bind _ _ _ _ _ _ IH). intros r r' H. apply fw_ok. now constructor.
  - intros r. cbn. destruct (f y) as [b|]; [|discriminate]. cbn. destruct (f x) as [a|]; [|discriminate]. cbn.
    destruct (mapM f l) as [c|]; [|discriminate]. cbn. intros E. injection E as <-. eexists. split; [reflexivity|]. constructor.
  - intros r E. destruct (IH1 r E) as (r1 & E1 & H1). destruct (IH2 r1 E1) as (r2 & E2 & H2).
    exists r2. split; [exact E2|]. now transitivity r1.
Qed.

(** ** Dictionaries *)
Section Values.
Context {F : Type}.
Implicit Types d : dict F.
Lemma same_refl d : same_values d d. Proof. now intros k. Qed.
Lemma same_sym d d' : same_values d d' -> same_values d' d. Proof. intros H k. symmetry. apply H. Qed.
Lemma same_on names d d' : same_values d d' -> on names d d'. Proof. intros H k _. apply H. Qed.
Lemma same_dset d d' k v : same_values d d' -> same_values (dset d k v) (dset d' k v).
Proof. intros H k'. rewrite !dget_dset. now rewrite (H k'). Qed.
Lemma same_lookup d d' k : same_values d d' -> lookup d k = lookup d' k.
Proof. intros H. unfold lookup. now rewrite (H (S_ k)). Qed.
Lemma same_dmem d d' k : same_values d d' -> dmem d k = dmem d' k.
Proof. intros H. unfold dmem. now rewrite (H k). Qed.

Lemma closed_more (os : list (option_ F)) names k : closed os names = true -> closed os (k :: names) = true.
Proof.
  unfold closed. intros H. apply forallb_forall. intros o Ho.
  apply (proj1 (forallb_forall _ _) H) in Ho. apply andb_true_iff in Ho as [Ho H3]. apply andb_true_iff in Ho as [H1 H2].
  assert (M : forall n, mem n names = true -> mem n (k :: names) = true).
  { intros n Hn. unfold mem in *. cbn. rewrite Hn. apply orb_true_r. }
  rewrite H1, (M _ H2). cbn. apply forallb_forall. intros n Hn. apply M. exact (proj1 (forallb_forall _ _) H3 n Hn).
Qed.
Lemma section_parse_same c (os : list (option_ F)) d d' :
  closed os (own os) = true -> same_values d d' -> fw same_values (section_parse c os d) (section_parse c os d').
Proof.
  intros Hc H a Ha.
  pose proof (section_parse_on c os _ d d' Hc (same_on _ _ _ H)) as K. rewrite Ha in K.
  destruct (section_parse c os d') as [b|] eqn:Eb; [|easy]. exists b. split; [reflexivity|]. intros k.
  pose proof (section_parse_on c os _ d d' (closed_more os _ k Hc) (same_on _ _ _ H)) as K2. rewrite Ha, Eb in K2.
  apply K2. now left.
Qed.
End Values.

(** ** Texts *)
Lemma dget_perm {F} (d d' : dict F) : NoDup (map fst d) -> Permutation d d' -> same_values d d'.
Proof.
  intros Hn H. induction H as [|[k v] l l' H IH|[k v] [k' v'] l|l l' l'' H1 IH1 H2 IH2].
  - apply same_refl.
  - inversion_clear Hn as [|? ? N1 N2]. intros x. cbn. destruct (pystr_eqb x k); [reflexivity|]. now apply IH.
  - intros x. cbn. destruct (pystr_eqb x k) eqn:E1, (pystr_eqb x k') eqn:E2; auto.
    apply pystr_eqb_eq in E1, E2. subst. inversion_clear Hn as [|? ? N1 N2]. exfalso. apply N1. now left.
  - intros x. rewrite (IH1 Hn x). apply IH2.
    apply (Permutation_NoDup (l := map fst l)); [now apply Permutation_map|exact Hn].
Qed.
Lemma raw_perm {F} t t' : NoDup (map fst t) -> Permutation t t' -> same_values (F := F) (raw_dict t) (raw_dict t').
Proof.
  intros Hn H. apply dget_perm; [|now apply Permutation_map].
  unfold raw_dict. rewrite map_map. exact Hn.
Qed.
Lemma texts_perm p q : NoDup (map fst p) -> Permutation p q -> forall n, section_texts p n = section_texts q n.
Proof.
  intros Hn H. induction H as [|[k v] l l' H IH|[k v] [k' v'] l|l l' l'' H1 IH1 H2 IH2]; intros x.
  - reflexivity.
  - inversion_clear Hn as [|? ? N1 N2]. cbn. destruct (pystr_eqb x k); [reflexivity|]. now apply IH.
  - cbn. destruct (pystr_eqb x k) eqn:E1, (pystr_eqb x k') eqn:E2; auto.
    apply pystr_eqb_eq in E1, E2. subst. inversion_clear Hn as [|? ? N1 N2]. exfalso. apply N1. now left.
  - rewrite (IH1 Hn x). apply IH2.
    apply (Permutation_NoDup (l := map fst l)); [now apply Permutation_map|exact Hn].
Qed.

Definition alike F (p p' : inifile) : Prop :=
  Permutation (section_names p) (section_names p') /\
  forall n, match section_texts p n, section_texts p' n with
            | Some t, Some t' => same_values (F := F) (raw_dict t) (raw_dict t')
            | None, None => True
            | _, _ => False
            end.
Lemma alike_sym F p p' : alike F p p' -> alike F p' p.
Proof.
  intros [H1 H2]. split; [now symmetry|]. intros n. specialize (H2 n).
  destruct (section_texts p n), (section_texts p' n); auto. now apply same_sym.
Qed.
Lemma reordered_alike F p p' : each_once p -> reordered p p' -> alike F p p'.
Proof.
  intros [H1 H2] (q & Hq & H). split.
  - transitivity (section_names q); [now apply Permutation_map|].
    replace (section_names p') with (section_names q); [reflexivity|].
    clear - H. induction H as [|s s' q p' [E _] _ IH]; [reflexivity|]. cbn. unfold section_names in IH. congruence.
  - intros n. rewrite (texts_perm p q H1 Hq n).
    assert (H3 : Forall (fun s => NoDup (map fst (snd s))) q) by now apply (Permutation_Forall Hq).
    clear - H H3. induction H as [|[k t] [k' t'] q p' [E Ht] _ IH]; [exact I|]. inversion_clear H3 as [|? ? N1 N2].
    cbn in *. subst k'. destruct (pystr_eqb n k); [now apply raw_perm|exact (IH N2)].
Qed.

Lemma remove_perm x l l' : Permutation l l' -> Permutation (remove_name x l) (remove_name x l').
Proof.
  induction 1 as [|y l l' H IH|y z l|l l' l'' H1 IH1 H2 IH2]; cbn.
  - constructor.
  - destruct (pystr_eqb x y); [exact H|now constructor].
  - destruct (pystr_eqb x z) eqn:E1, (pystr_eqb x y) eqn:E2; try reflexivity.
    + apply pystr_eqb_eq in E1, E2. now subst.
    + constructor.
  - now transitivity (remove_name x l').
Qed.
Lemma mem_perm x l l' : Permutation l l' -> mem x l = mem x l'.
Proof.
  intros H. destruct (mem x l) eqn:E1, (mem x l') eqn:E2; try reflexivity.
  - apply mem_In in E1. apply (Permutation_in _ H) in E1. apply mem_In in E1. congruence.
  - apply mem_In in E2. apply Permutation_sym in H. apply (Permutation_in _ H) in E2. apply mem_In in E2. congruence.
Qed.

(** ** parse_inifile *)
Section Config.
Context {F : Type} (fo : fops F).

Definition same_entry (e e' : dict F * contact F) : Prop := same_values (fst e) (fst e') /\ snd e = snd e'.

Ltac same_step H := apply fw_eq; [first [reflexivity|now apply (same_lookup _ _ _ H)]|intros ? _].

Lemma parse_element_same h h' t t' :
  same_values h h' -> same_values (F := F) (raw_dict t) (raw_dict t') ->
  fw same_entry (parse_element fo h t) (parse_element fo h' t').
Proof.
  intros Hh Ht. unfold parse_element. rewrite <- (Ht (S_ "geometry")).
  destruct (dget (raw_dict (F := F) t) (S_ "geometry")) as [[[g| | | |]|]|]; try (intros a E; discriminate).
  destruct (mem g (map S_ ["trough"; "channel"; "sheet"])); [|intros a E; discriminate]. cbn [negb].
  apply (fw_bind _ _ _ _ _ _ (section_parse_same (f_conv fo) _ _ _ (closed_geometry fo g) Ht)). intros e e' He.
  same_step He. apply fw_eq; [reflexivity|]. intros cm _. same_step Hh. same_step He. same_step He. cbv zeta.
  match goal with |- context [dset e (S_ "facies") ?f] => pose proof (same_dset _ _ (S_ "facies") f He) as H1 end.
  same_step H1.
  apply (fw_bind same_values).
  { destruct (is_none _); [now apply fw_ok|]. apply fw_eq; [reflexivity|]. intros x _. apply fw_ok. now apply same_dset. }
  intros e2 e2' H2. same_step H2. apply fw_eq; [reflexivity|]. intros bgi _. cbv zeta.
  pose proof (same_dset _ _ (S_ "bg_facies") (Leaf (AInt bgi)) H2) as H3.
  same_step H3.
  apply fw_eq; [now rewrite (same_dmem _ _ (S_ "dipset_dist") Ht)|]. intros _ _.
  apply fw_eq; [now rewrite (same_dmem _ _ (S_ "bulbset_dist") Ht)|]. intros _ _.
  destruct (mem g _).
  - same_step H3. same_step H3. apply fw_eq; [reflexivity|]. intros k _. apply fw_ok. split; [now apply same_dset|reflexivity].
  - apply fw_ok. now split.
Qed.

Lemma sec_same p p' name : alike F p p' ->
  fw (fun t t' => same_values (F := F) (raw_dict t) (raw_dict t')) (sec p name) (sec p' name).
Proof.
  intros [_ H]. specialize (H (S_ name)). unfold sec.
  destruct (section_texts p (S_ name)), (section_texts p' (S_ name)); try easy; now apply fw_ok.
Qed.
Lemma default_same (m m' : dict F) k : same_values m m' -> fw same_values (default_to_dx m k) (default_to_dx m' k).
Proof.
  intros H. unfold default_to_dx. same_step H. destruct (is_none _); [|now apply fw_ok].
  same_step H. apply fw_ok. now apply same_dset.
Qed.

Lemma parse_alike p p' : alike F p p' -> fw same_config (parse_inifile fo p) (parse_inifile fo p').
Proof.
  intros H. destruct (H) as [HP HT]. unfold parse_inifile. cbv zeta.
  apply fw_eq. { cbn. now rewrite !(mem_perm _ _ _ HP). } intros _ _.
  apply (fw_bind _ _ _ _ _ _ (sec_same p p' "run" H)). intros t1 t1' S1.
  apply (fw_bind _ _ _ _ _ _ (section_parse_same (f_conv fo) _ _ _ closed_run S1)). intros run run' R1.
  apply (fw_bind _ _ _ _ _ _ (sec_same p p' "hydraulics" H)). intros t2 t2' S2.
  apply (fw_bind _ _ _ _ _ _ (section_parse_same (f_conv fo) _ _ _ closed_hydraulics S2)). intros hyd hyd' R2.
  apply (fw_bind _ _ _ _ _ _ (sec_same p p' "model" H)). intros t3 t3' S3.
  apply (fw_bind _ _ _ _ _ _ (section_parse_same (f_conv fo) _ _ _ (closed_model fo) S3)). intros m0 m0' R3.
  apply (fw_bind _ _ _ _ _ _ (default_same m0 m0' "dy" R3)). intros m1 m1' R4.
  apply (fw_bind _ _ _ _ _ _ (default_same m1 m1' "dz" R4)). intros m2 m2' R5.
  apply (fw_bind _ _ _ _ _ _ (sec_same p p' "strata" H)). intros t4 t4' S4.
  apply (fw_bind _ _ _ _ _ _ (section_parse_same (f_conv fo) _ _ _ closed_strata S4)). intros st st' R6.
  do 2 same_step R6.
  apply fw_eq; [reflexivity|]. intros ncm _.
  apply fw_eq; [reflexivity|]. intros nst _.
  apply fw_eq; [reflexivity|]. intros _ _.
  apply fw_eq; [reflexivity|]. intros l _.
  apply fw_eq; [reflexivity|]. intros contacts _.
  same_step R6. same_step R2. apply fw_eq; [reflexivity|]. intros bgi _.
  same_step R1. apply fw_eq; [reflexivity|]. intros outl _.
  set (l4 := remove_name (S_ "strata") _). set (l4' := remove_name (S_ "strata") (remove_name _ (remove_name _ (remove_name _ (section_names p'))))).
  assert (HP4 : Permutation l4 l4') by (unfold l4, l4'; now repeat apply remove_perm).
  clearbody l4 l4'. rewrite <- (mem_perm (S_ "flowtrans") _ _ HP4).
  apply fw_eq; [reflexivity|]. intros _ _.
  apply (fw_bind (fun a b => same_values (fst a) (fst b) /\ Permutation (snd a) (snd b))).
  { destruct (mem (S_ "flowtrans") l4).
    - apply (fw_bind _ _ _ _ _ _ (sec_same p p' "flowtrans" H)). intros t5 t5' S5.
      apply (fw_bind _ _ _ _ _ _ (section_parse_same (f_conv fo) _ _ _ closed_flowtrans S5)). intros ft ft' R7.
      apply fw_ok. split; [exact R7|]. now apply remove_perm.
    - apply fw_ok. split; [apply same_refl|exact HP4]. }
  intros [ft secs] [ft' secs'] [R7 HP5]. cbn [fst snd] in R7, HP5.
  apply (fw_bind (fun els els' => exists l, Permutation els l /\ Forall2 (fun e e' => fst e = fst e' /\ same_entry (snd e) (snd e')) l els')).
  - intros els E. apply (mapM_perm _ _ _ HP5) in E as (els1 & E1 & P1).
    assert (K : fw (Forall2 (fun e e' => fst e = fst e' /\ same_entry (snd e) (snd e')))
      (mapM (fun s => match section_texts p s with None => Err KeyError | Some t => let* e := parse_element fo hyd t in Ok (s, e) end) secs')
      (mapM (fun s => match section_texts p' s with None => Err KeyError | Some t => let* e := parse_element fo hyd' t in Ok (s, e) end) secs')).
    { apply (fw_mapM eq); [apply Forall2_eq|]. intros s s' <-. specialize (HT s).
      destruct (section_texts p s) as [t|], (section_texts p' s) as [t'|]; try easy.
      apply (fw_bind _ _ _ _ _ _ (parse_element_same hyd hyd' t t' R2 HT)). intros e e' He. apply fw_ok. now split. }
    destruct (K els1 E1) as (els' & E' & HF). exists els'. split; [exact E'|]. eauto.
  - intros els els' (l0 & P0 & HF). apply fw_ok. unfold same_config. cbn.
    repeat (split; [first [assumption|reflexivity|now apply same_dset]|]). exists l0. split; [exact P0|].
    apply (Forall2_imp' _ _ _ _ HF). intros x y [E [K1 K2]]. auto.
Qed.
End Config.
