(** C150 for the old format. *)
From Coq Require Import List Permutation ZArith Bool Ascii String Lia.
From Verif Require Import Base ParseModel ParseSpec SectionSpec SectionProofs ConfigModel ConfigSpec ConfigProofs
  ConfigProofs2 DeprecatedModel WarnProps FileOrderSpec FileOrderProofs.
Import ListNotations.
Local Open Scope string_scope.
Local Open Scope list_scope.

Section Values.
Context {F : Type}.
Implicit Types d : dict F.

Lemma same_ddel d d' k : same_values d d' -> same_values (ddel d k) (ddel d' k).
Proof.
  intros H x. destruct (pystr_eqb x k) eqn:E.
  - apply pystr_eqb_eq in E. subst. now rewrite !dget_ddel_same.
  - apply pystr_eqb_neq in E. rewrite !dget_ddel_other by exact E. apply H.
Qed.
Lemma same_alternative name alts : forall d d', same_values d d' ->
  same_values (find_alternative d name alts) (find_alternative d' name alts).
Proof.
  induction alts as [|a r IH]; intros d d' H; [exact H|]. cbn. rewrite <- (same_dmem _ _ name H), <- (H a).
  destruct (dmem d name); [exact H|]. destruct (dget d a); [|now apply IH]. now apply same_ddel, same_dset.
Qed.
Lemma same_shape d d' sh v : same_values d d' -> apply_shape d sh v = apply_shape d' sh v.
Proof. intros H. apply (apply_shape_on (shape_refs sh)); [now apply same_on|auto]. Qed.
Lemma option_same c (o : option_ F) d d' : same_values d d' ->
  fw (fun r r' => same_values (fst r) (fst r') /\ snd r = snd r') (option_parse c o d) (option_parse c o d').
Proof.
  intros H. apply (same_alternative (o_name o) (o_alts o)) in H. unfold option_parse. cbv zeta.
  set (e := find_alternative d _ _) in *. set (e' := find_alternative d' _ _) in *. clearbody e e'.
  rewrite <- (H (o_name o)). destruct (dget e (o_name o)) as [raw|].
  - destruct (o_type o) as [|t|t].
    + apply fw_eq; [reflexivity|]. intros b _. destruct (o_valid o _); [now apply fw_ok|intros x Ex; discriminate].
    + destruct raw as [[]|]; try (intros x Ex; discriminate). apply fw_eq; [reflexivity|]. intros b _.
      destruct (o_valid o _); [now apply fw_ok|intros x Ex; discriminate].
    + destruct raw as [[]|]; try (intros x Ex; discriminate). apply fw_eq; [reflexivity|]. intros b _.
      destruct (all_true _ _); [|intros x Ex; discriminate]. apply fw_eq; [now apply same_shape|]. intros w _. now apply fw_ok.
  - destruct (o_optional o); [now apply fw_ok|intros x Ex; discriminate].
Qed.
Lemma section_same c (os : list (option_ F)) : forall d d', same_values d d' ->
  fw same_values (section_parse c os d) (section_parse c os d').
Proof.
  unfold section_parse. induction os as [|o os IH]; intros d d' H; [now apply fw_ok|]. cbn [foldM].
  apply (fw_bind same_values); [|exact IH]. apply (fw_bind _ _ _ _ _ _ (option_same c o d d' H)).
  intros [d1 v] [d2 v'] [K E]. cbn in *. subst v'. apply fw_ok. now apply same_dset.
Qed.
End Values.

Section Old.
Context {F : Type} (fo : fops F) (trunc : F -> res Z).

Ltac same_step H := apply fw_eq; [first [reflexivity|now apply (same_lookup _ _ _ H)]|intros ? _].

Lemma copy_same (d d' : dict F) a b : same_values d d' -> fw same_values (copy a b d) (copy a b d').
Proof. intros H. unfold copy. same_step H. apply fw_ok. now apply same_dset. Qed.

Lemma old_element_same t t' : same_values (F := F) (raw_dict t) (raw_dict t') ->
  fw same_values (parse_old_element fo t) (parse_old_element fo t').
Proof.
  intros H. unfold parse_old_element. cbv zeta. rewrite <- (H (S_ "geometry")).
  destruct (dget (raw_dict (F := F) t) (S_ "geometry")) as [[[g| | | |]|]|]; try (intros x Ex; discriminate).
  apply fw_eq; [reflexivity|]. intros os _. now apply section_same.
Qed.

Lemma convert_element_same (e e' : dict F) : same_values e e' ->
  fw same_entry (convert_element fo e) (convert_element fo e').
Proof.
  intros H. unfold convert_element.
  apply (fw_bind _ _ _ _ _ _ (copy_same e e' _ _ H)). intros e1 e1' H1. same_step H1.
  apply (fw_bind same_values).
  { destruct (is_none _); [apply fw_ok; now repeat apply same_dset|]. cbv zeta.
    apply fw_eq; [reflexivity|]. intros b0 _. apply fw_eq; [reflexivity|]. intros b1 _. apply fw_eq; [reflexivity|]. intros b2 _.
    apply fw_ok. now repeat apply same_dset. }
  intros e2 e2' H2. apply (fw_bind _ _ _ _ _ _ (copy_same e2 e2' _ _ H2)). intros e3 e3' H3.
  apply (fw_bind same_values).
  { rewrite <- (same_dmem _ _ (S_ "bulbset_d") H3). destruct (dmem e3 _); [now apply copy_same|now apply fw_ok]. }
  intros e4 e4' H4. same_step H4. apply (fw_bind same_values).
  { destruct (is_str _ _); [now apply copy_same, same_dset|now apply fw_ok]. }
  intros e5 e5' H5. same_step H5. rewrite <- (same_lookup _ _ "contact_model" H5).
  apply fw_eq; [reflexivity|]. intros cm _. same_step H5.
  apply (fw_bind same_values).
  { destruct (_ || _)%bool; [|now apply fw_ok]. same_step H5.
    destruct (is_none _); [apply fw_ok; now repeat apply same_dset|]. cbv zeta.
    apply fw_eq; [reflexivity|]. intros l0 _. apply fw_eq; [reflexivity|]. intros l1 _. apply fw_ok. now repeat apply same_dset. }
  intros e6 e6' H6. apply fw_ok. now split.
Qed.

Lemma convert_run_same (d d' : dict F) : same_values d d' -> fw same_values (convert_run d) (convert_run d').
Proof. intros H. unfold convert_run. do 2 same_step H. apply fw_eq; [reflexivity|]. intros o _. now apply copy_same, same_dset. Qed.
Lemma convert_model_same (r r' m m' h h' : dict F) : same_values r r' -> same_values m m' -> same_values h h' ->
  fw same_values (convert_model r m h) (convert_model r' m' h').
Proof.
  intros Hr Hm Hh. unfold convert_model. same_step Hr. same_step Hh. same_step Hr. cbv zeta.
  eapply fw_bind; [apply copy_same; repeat apply same_dset; exact Hm|]. intros m1 m1' H1. same_step H1.
  apply fw_eq; [reflexivity|]. intros b _. destruct b; [intros x Ex; discriminate|now apply fw_ok].
Qed.
Lemma convert_strata_same (d d' : dict F) : same_values d d' ->
  fw (fun a b => same_values (fst a) (fst b) /\ snd a = snd b) (convert_strata fo trunc d) (convert_strata fo trunc d').
Proof.
  intros H. unfold convert_strata. same_step H. apply fw_eq; [reflexivity|]. intros nz _. cbv zeta. same_step H.
  apply fw_eq; [reflexivity|]. intros b0 _. apply fw_eq; [reflexivity|]. intros f _.
  apply fw_eq; [reflexivity|]. intros b1 _. apply fw_eq; [reflexivity|]. intros b2 _.
  set (s := dset (dset (dset (dset d _ _) _ _) _ _) _ _). set (s' := dset (dset (dset (dset d' _ _) _ _) _ _) _ _).
  assert (Hs : same_values s s') by (unfold s, s'; now repeat apply same_dset). clearbody s s'.
  same_step Hs. apply fw_eq; [reflexivity|]. intros _ _. same_step Hs. apply fw_eq; [reflexivity|]. intros sb _.
  apply fw_eq; [reflexivity|]. intros _ _.
  rewrite <- (same_lookup _ _ "ssm_contact" Hs), <- (same_lookup _ _ "ssm_top" Hs), <- (same_lookup _ _ "ssm_contact_model" Hs).
  apply fw_eq; [reflexivity|]. intros contacts _.
  apply (fw_bind _ _ _ _ _ _ (copy_same s s' _ _ Hs)). intros x x' Hx. apply fw_ok. now split.
Qed.

Lemma default_same' (m m' : dict F) k : same_values m m' -> fw same_values (default_to_dx m k) (default_to_dx m' k).
Proof. exact (default_same m m' k). Qed.

Lemma fold_remove_perm names : forall l l', Permutation l l' ->
  Permutation (fold_left (fun l s => remove_name (S_ s) l) names l) (fold_left (fun l s => remove_name (S_ s) l) names l').
Proof. induction names as [|n r IH]; intros l l' H; [exact H|]. cbn. now apply IH, remove_perm. Qed.

Lemma read_alike p p' : alike F p p' -> fw same_config (read_config fo trunc p) (read_config fo trunc p').
Proof.
  intros H. destruct (H) as [HP HT]. unfold read_config.
  apply (fw_bind _ _ _ _ _ _ (sec_same p p' "run" H)). intros t t' S0.
  rewrite <- (same_dmem _ _ (S_ "dataoutputs") S0). destruct (dmem _ _); [|now apply parse_alike].
  apply (fw_bind (fun a b => same_values (oc_run a) (oc_run b) /\ same_values (oc_model a) (oc_model b) /\
     same_values (oc_strata a) (oc_strata b) /\ same_values (oc_hydraulics a) (oc_hydraulics b) /\
     same_values (oc_flowtrans a) (oc_flowtrans b) /\
     exists l, Permutation (oc_elements a) l /\ Forall2 (fun e e' => fst e = fst e' /\ same_values (snd e) (snd e')) l (oc_elements b))).
  - unfold parse_deprecated_inifile. cbv zeta.
    apply fw_eq. { cbn [foldM]. now rewrite !(mem_perm _ _ _ HP). } intros _ _.
    apply (fw_bind _ _ _ _ _ _ (sec_same p p' "run" H)). intros t1 t1' S1.
    apply (fw_bind _ _ _ _ _ _ (section_same (f_conv fo) _ _ _ S1)). intros run run' R1.
    apply (fw_bind _ _ _ _ _ _ (sec_same p p' "model" H)). intros t3 t3' S3.
    apply (fw_bind _ _ _ _ _ _ (section_same (f_conv fo) _ _ _ S3)). intros m0 m0' R3.
    apply (fw_bind _ _ _ _ _ _ (default_same' m0 m0' "dy" R3)). intros m1 m1' R4.
    apply (fw_bind _ _ _ _ _ _ (default_same' m1 m1' "dz" R4)). intros m2 m2' R5.
    apply (fw_bind _ _ _ _ _ _ (sec_same p p' "strata" H)). intros t4 t4' S4.
    apply (fw_bind _ _ _ _ _ _ (section_same (f_conv fo) _ _ _ S4)). intros st st' R6.
    same_step R6. apply fw_eq; [reflexivity|]. intros _ _.
    apply (fw_bind _ _ _ _ _ _ (sec_same p p' "hydraulics" H)). intros t2 t2' S2.
    apply (fw_bind _ _ _ _ _ _ (section_same (f_conv fo) _ _ _ S2)). intros hyd hyd' R2.
    apply (fw_bind _ _ _ _ _ _ (sec_same p p' "flowtrans" H)). intros t5 t5' S5.
    apply (fw_bind _ _ _ _ _ _ (section_same (f_conv fo) _ _ _ S5)). intros ft ft' R7.
    pose proof (fold_remove_perm ["run"; "model"; "strata"; "hydraulics"; "flowtrans"] _ _ HP) as HP5.
    set (secs := fold_left _ _ (section_names p)) in *. set (secs' := fold_left _ _ (section_names p')) in *. clearbody secs secs'.
    apply (fw_bind (fun els els' => exists l, Permutation els l /\ Forall2 (fun e e' => fst e = fst e' /\ same_values (snd e) (snd e')) l els')).
    + intros els E. apply (mapM_perm _ _ _ HP5) in E as (els1 & E1 & P1).
      assert (K : fw (Forall2 (fun e e' => fst e = fst e' /\ same_values (snd e) (snd e')))
        (mapM (fun s => match section_texts p s with None => Err KeyError | Some t => let* e := parse_old_element fo t in Ok (s, e) end) secs')
        (mapM (fun s => match section_texts p' s with None => Err KeyError | Some t => let* e := parse_old_element fo t in Ok (s, e) end) secs')).
      { apply (fw_mapM eq); [apply Forall2_eq|]. intros s s' <-. specialize (HT s).
        destruct (section_texts p s) as [t0|], (section_texts p' s) as [t0'|]; try easy.
        apply (fw_bind _ _ _ _ _ _ (old_element_same t0 t0' HT)). intros e e' He. apply fw_ok. now split. }
      destruct (K els1 E1) as (els' & E' & HF). exists els'. split; [exact E'|]. eauto.
    + intros els els' HE. apply fw_ok. cbn. auto 10.
  - intros oc oc' (H1 & H2 & H3 & H4 & H5 & l & P & HF). unfold get_new_parameters.
    apply (fw_bind _ _ _ _ _ _ (convert_run_same _ _ H1)). intros run run' R1.
    apply (fw_bind _ _ _ _ _ _ (copy_same _ _ "hydro" "hydrofacies" H4)). intros hyd hyd' R4.
    apply (fw_bind _ _ _ _ _ _ (convert_model_same _ _ _ _ _ _ R1 H2 R4)). intros m m' R2.
    apply (fw_bind _ _ _ _ _ _ (convert_strata_same _ _ H3)). intros [s c] [s' c'] [R3 Ec]. cbn in R3, Ec. subst c'.
    apply (fw_bind (fun els els' => exists l, Permutation els l /\ Forall2 (fun e e' => fst e = fst e' /\ same_entry (snd e) (snd e')) l els')).
    + intros els E. apply (mapM_perm _ _ _ P) in E as (els1 & E1 & P1).
      assert (K : fw (Forall2 (fun e e' => fst e = fst e' /\ same_entry (snd e) (snd e')))
        (mapM (fun ne => let* ec := convert_element fo (snd ne) in Ok (fst ne, ec)) l)
        (mapM (fun ne => let* ec := convert_element fo (snd ne) in Ok (fst ne, ec)) (oc_elements oc'))).
      { apply (fw_mapM _ _ _ _ _ _ HF). intros [n e] [n' e'] [En He]. cbn in En, He. subst n'. cbn [fst snd].
        apply (fw_bind _ _ _ _ _ _ (convert_element_same e e' He)). intros x x' Hx. apply fw_ok. now split. }
      destruct (K els1 E1) as (els' & E' & HF'). exists els'. split; [exact E'|]. eauto.
    + intros els els' (l0 & P0 & HF0). apply fw_ok. unfold same_config. cbn.
      repeat (split; [first [assumption|reflexivity]|]). exists l0. split; [exact P0|].
      apply (Forall2_imp' _ _ _ _ HF0). intros x y [E [K1 K2]]. auto.
Qed.

(** Each element type once *)
Lemma mapM_names {A B} (f : A -> res (pystr * B)) (nm : A -> pystr) l r :
  (forall a b, f a = Ok b -> fst b = nm a) -> mapM f l = Ok r -> map fst r = map nm l.
Proof.
  intros H. revert r. induction l as [|a l IH]; cbn; intros r E; [now injection E as <-|].
  destruct (f a) as [b|] eqn:Ea; [|discriminate]. cbn in E. destruct (mapM f l) as [r0|]; [|discriminate]. cbn in E.
  injection E as <-. cbn. f_equal; [now apply H|]. now apply IH.
Qed.
Lemma fold_remove_NoDup names : forall l, NoDup l -> NoDup (fold_left (fun l s => remove_name (S_ s) l) names l).
Proof. induction names as [|n r IH]; intros l H; [exact H|]. cbn. now apply IH, WarnProps.remove_name_NoDup. Qed.

Lemma read_names p (cf : config F) : NoDup (section_names p) -> read_config fo trunc p = Ok cf -> NoDup (map fst (cf_elements cf)).
Proof.
  intros Hn H. unfold read_config in H. apply bind_Ok in H as (t & _ & H).
  destruct (dmem _ _) eqn:Em; [|exact (proj1 (fs_elements fo p cf (parse_inifile_inv fo p cf H) Hn))].
  apply bind_Ok in H as (oc & Ho & H). unfold parse_deprecated_inifile in Ho. cbv zeta in Ho.
  repeat (apply bind_Ok in Ho as (? & _ & Ho); match type of Ho with bind (mapM _ (fold_left _ _ _)) _ = _ => fail 1 | _ => idtac end).
  apply bind_Ok in Ho as (? & _ & Ho). apply bind_Ok in Ho as (els & Hels & Ho). injection Ho as <-.
  unfold get_new_parameters in H. cbn [oc_run oc_model oc_strata oc_hydraulics oc_flowtrans oc_elements] in H.
  apply bind_Ok in H as (run & _ & H). apply bind_Ok in H as (hy & _ & H). apply bind_Ok in H as (m & _ & H).
  apply bind_Ok in H as (sc & _ & H). apply bind_Ok in H as (es & Hes & H). injection H as <-. cbn [cf_elements].
  apply (mapM_names _ (fst (B := dict F))) in Hes.
  - rewrite Hes. apply (mapM_names _ (fun s => s)) in Hels.
    + rewrite Hels, map_id. now apply fold_remove_NoDup.
    + intros s b Hb. destruct (section_texts p s); [|discriminate]. apply bind_Ok in Hb as (e & _ & Hb). now injection Hb as <-.
  - intros a b Hb. apply bind_Ok in Hb as (e & _ & Hb). now injection Hb as <-.
Qed.
End Old.
