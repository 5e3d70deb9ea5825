(** C139: options left out of a file of the old format. *)
From Coq Require Import List ZArith Bool Ascii String Lia.
From Verif Require Import Base ParseModel SectionSpec SectionProofs ConfigModel ConfigSpec ConfigProofs ConfigProofs2 ParseProps ConfigProps DefaultsProps
  DeprecatedModel DeprecatedProofs DeprecatedProps OldSpec.
From Verif Require DeprecatedSpec HydroLinkProps.
Import ListNotations.
Local Open Scope string_scope.
Local Open Scope list_scope.

Section Left_out.
Context {F : Type} (fo : fops F).

(** Options before [o] do not touch the names of [o]. *)
Lemma prefix_kept c pre : forall d d' k, section_parse (F := F) c pre d = Ok d' -> ~ In k (flat_map names pre) -> dget d' k = dget d k.
Proof.
  induction pre as [|o pre IH]; intros d d' k H Hk; [injection H as <-; reflexivity|].
  unfold section_parse in H. cbn [foldM] in H. apply bind_Ok in H as (d2 & H1 & H2). apply bind_Ok in H1 as ([d1 v] & H1 & [= <-]).
  change (foldM _ _ _) with (section_parse c pre (dset d1 (o_name o) v)) in H2.
  cbn [flat_map] in Hk. rewrite in_app_iff in Hk. unfold names in Hk at 1. cbn [In] in Hk.
  rewrite (IH _ _ k H2) by tauto. rewrite dget_dset_other by (intros ->; tauto).
  rewrite (option_parse_dict c o d d1 v H1). apply find_alternative_other; [intros ->; tauto|tauto].
Qed.
(** Position of the first option with these names, looked through by computation. *)
Fixpoint split_at (os : list (option_ F)) (ks : list pystr) : option (list (option_ F) * option_ F) :=
  match os with
  | [] => None
  | o :: os => if forallb (fun k => mem k ks) (names o) && forallb (fun k => mem k (names o)) ks then Some ([], o)
               else match split_at os ks with Some (pre, o') => Some (o :: pre, o') | None => None end
  end.
Lemma split_at_spec os ks pre o : split_at os ks = Some (pre, o) ->
  (exists post, os = pre ++ o :: post) /\ (forall k, In k (names o) <-> In k ks).
Proof.
  revert pre. induction os as [|o' os IH]; intros pre H; [discriminate H|]. cbn [split_at] in H.
  destruct (forallb _ (names o') && forallb _ ks) eqn:E.
  - injection H as <- <-. apply andb_prop in E as [E1 E2]. rewrite forallb_forall in E1, E2. split; [now exists os|].
    intros k. split; intros Hk; apply mem_In; auto.
  - destruct (split_at os ks) as [[pre' o'']|]; [|discriminate H]. injection H as <- <-. destruct (IH pre' eq_refl) as [(post & ->) Hk]. split; [|exact Hk].
    now exists post.
Qed.
Definition table_has (os : list (option_ F)) (ks : list string) (p : option_ F -> Prop) : Prop :=
  match split_at os (map S_ ks) with
  | Some (pre, o) => forallb (fun k => negb (mem (S_ k) (flat_map names pre))) ks = true /\ mem (o_name o) (o_alts o) = false /\ p o
  | None => False
  end.
Lemma missing_names os t d ks p : section_parse (f_conv fo) os (raw_dict t) = Ok d -> table_has os ks p -> ~ given_as t ks ->
  exists pre o post, os = pre ++ o :: post /\ p o /\ In (o_name o) (map S_ ks) /\ o_optional o = true /\
    exists d2, section_parse (f_conv fo) post (dset d2 (o_name o) (o_default o)) = Ok d.
Proof.
  intros H Ht Hg. unfold table_has in Ht. destruct (split_at os (map S_ ks)) as [[pre o]|] eqn:Es; [|contradiction].
  destruct Ht as (Hd & Hna & Hp). destruct (split_at_spec _ _ _ _ Es) as [(post & ->) Hk].
  exists pre, o, post. split; [reflexivity|]. split; [exact Hp|]. split; [apply Hk; now left|].
  unfold section_parse in H. rewrite foldM_app in H. apply bind_Ok in H as (d1 & H1 & H). cbn [foldM] in H.
  change (foldM _ _ _) with (section_parse (f_conv fo) pre (raw_dict t)) in H1.
  apply bind_Ok in H as (d3 & H3 & H). apply bind_Ok in H3 as ([d2 v] & H2 & [= <-]).
  assert (Hf : first_of d1 (names o) = None).
  { rewrite (first_of_ext d1 (raw_dict t)).
    - apply first_of_none. intros k Hi. apply Hk in Hi. apply raw_none. intros Hin. apply in_map_iff in Hi as (k0 & <- & Hi). apply Hg. now exists k0.
    - intros k Hi. apply (prefix_kept (f_conv fo) pre); [exact H1|]. apply Hk in Hi. apply in_map_iff in Hi as (k0 & <- & Hi).
      rewrite forallb_forall in Hd. specialize (Hd k0 Hi). intros Hin. apply mem_In in Hin. rewrite Hin in Hd. discriminate Hd. }
  rewrite (option_parse_missing (f_conv fo) o d1) in H2; [|intros Hin; apply mem_In in Hin; congruence|exact Hf].
  destruct (o_optional o); [|discriminate H2]. injection H2 as _ <-. split; [reflexivity|]. now exists d2.
Qed.
Lemma old_required os t d ks : section_parse (f_conv fo) os (raw_dict t) = Ok d -> table_has os ks (fun o => o_optional o = false) -> given_as t ks.
Proof.
  intros H Ht.
  assert (D : given_as t ks \/ ~ given_as t ks).
  { clear. unfold given_as. induction ks as [|k ks IH]; [right; intros (k & [] & _)|].
    destruct (in_dec pystr_dec (S_ k) (map fst t)) as [Hi|Hi]; [left; exists k; split; [now left|exact Hi]|].
    destruct IH as [(k' & H1 & H2)|IH]; [left; exists k'; split; [now right|exact H2]|].
    right. intros (k' & [->|H1] & H2); [tauto|]. apply IH. eauto. }
  destruct D as [D|D]; [exact D|exfalso]. destruct (missing_names _ _ _ _ _ H Ht D) as (? & o & ? & _ & E1 & _ & E2 & _). congruence.
Qed.
Lemma old_default os t d k ks v : section_parse (f_conv fo) os (raw_dict t) = Ok d ->
  NoDup (flat_map names os) -> table_has os (k :: ks) (fun o => o_default o = v /\ o_name o = S_ k) -> ~ given_as t (k :: ks) -> DeprecatedSpec.has d k v.
Proof.
  intros H Hn Ht Hg. destruct (missing_names _ _ _ _ _ H Ht Hg) as (pre & o & post & -> & [<- E] & _ & _ & d2 & Hd).
  unfold DeprecatedSpec.has. rewrite <- E. rewrite (prefix_kept _ _ _ _ (o_name o) Hd); [apply dget_dset_same|].
  rewrite flat_map_app in Hn. apply NoDup_app_r in Hn. cbn [flat_map] in Hn. intros Hi. apply (NoDup_app_disj _ _ Hn (o_name o)); [now left|exact Hi].
Qed.
End Left_out.

(** The sections of an accepted file of the old format. *)
Lemma old_sections {F} (fo : fops F) (trunc : F -> res Z) p cf run :
  section_texts p (S_ "run") = Some run -> In (S_ "dataoutputs") (map fst run) -> read_config fo trunc p = Ok cf ->
  exists oc model strata hyd m0,
    section_texts p (S_ "model") = Some model /\ section_texts p (S_ "strata") = Some strata /\ section_texts p (S_ "hydraulics") = Some hyd /\
    section_parse (f_conv fo) old_run_options (raw_dict run) = Ok (oc_run oc) /\
    section_parse (f_conv fo) (old_model_options fo) (raw_dict model) = Ok m0 /\
    section_parse (f_conv fo) old_strata_options (raw_dict strata) = Ok (oc_strata oc) /\
    section_parse (f_conv fo) old_hydraulics_options (raw_dict hyd) = Ok (oc_hydraulics oc) /\
    convert_run (oc_run oc) = Ok (cf_run cf) /\
    (exists m1 m2, default_to_dx m0 "dy" = Ok m1 /\ default_to_dx m1 "dz" = Ok m2 /\ convert_model (cf_run cf) m2 (cf_hydraulics cf) = Ok (cf_model cf)) /\
    (exists c, convert_strata fo trunc (oc_strata oc) = Ok (cf_strata cf, c)) /\
    copy "hydro" "hydrofacies" (oc_hydraulics oc) = Ok (cf_hydraulics cf) /\
    (forall n t g, In n (map fst (cf_elements cf)) -> section_texts p n = Some t ->
       find (fun l => pystr_eqb (fst l) (S_ "geometry")) t = Some (S_ "geometry", S_ g) ->
       exists os d, old_options fo (S_ g) = Ok os /\ section_parse (f_conv fo) os (raw_dict t) = Ok d).
Proof.
  intros Hrun Hdo H. unfold read_config in H. apply bind_Ok in H as (t & Ht & H).
  assert (t = run) by (unfold sec in Ht; rewrite Hrun in Ht; congruence). subst t.
  assert (Em : dmem (raw_dict (F := F) run) (S_ "dataoutputs") = true).
  { unfold dmem. destruct (raw_some (F := F) run _ Hdo) as (s & ->). reflexivity. }
  rewrite Em in H. apply bind_Ok in H as (oc & Hoc & H). exists oc.
  unfold parse_deprecated_inifile in Hoc.
  apply bind_Ok in Hoc as (u0 & _ & Hoc).
  apply bind_Ok in Hoc as (trun & Htrun & Hoc). apply bind_Ok in Hoc as (r & Hr & Hoc).
  apply bind_Ok in Hoc as (tmod & Htmod & Hoc). apply bind_Ok in Hoc as (m0 & Hm0 & Hoc).
  apply bind_Ok in Hoc as (m1 & Hm1 & Hoc). apply bind_Ok in Hoc as (m2 & Hm2 & Hoc).
  apply bind_Ok in Hoc as (tstr & Htstr & Hoc). apply bind_Ok in Hoc as (st & Hst & Hoc).
  apply bind_Ok in Hoc as (tab & _ & Hoc). apply bind_Ok in Hoc as (u1 & _ & Hoc).
  apply bind_Ok in Hoc as (thyd & Hthyd & Hoc). apply bind_Ok in Hoc as (hy & Hhy & Hoc).
  apply bind_Ok in Hoc as (tfl & _ & Hoc). apply bind_Ok in Hoc as (fl & _ & Hoc).
  apply bind_Ok in Hoc as (els & Hels & Hoc). injection Hoc as <-.
  unfold get_new_parameters in H. cbn [oc_run oc_model oc_strata oc_hydraulics oc_elements oc_flowtrans] in *.
  apply bind_Ok in H as (run' & Hrun' & H). apply bind_Ok in H as (hyd' & Hhyd' & H). apply bind_Ok in H as (mod' & Hmod' & H).
  apply bind_Ok in H as ([str' cts] & Hstr' & H). apply bind_Ok in H as (els' & Hels' & H). injection H as <-.
  cbn [cf_run cf_model cf_strata cf_hydraulics cf_elements fst snd] in *.
  assert (Hsec : forall k t, sec p k = Ok t -> section_texts p (S_ k) = Some t) by (unfold sec; intros k t E; destruct (section_texts p (S_ k)); congruence).
  assert (trun = run) by (apply Hsec in Htrun; congruence). subst trun.
  exists tmod, tstr, thyd, m0. do 3 (split; [auto|]).
  do 5 (split; [assumption|]). split; [now exists m1, m2|]. split; [now exists cts|]. split; [assumption|].
  intros n t g Hn Htn Hf.
  assert (Hin : exists e, In (n, e) els).
  { apply mapM_Ok in Hels'. clear -Hels' Hn. induction Hels' as [|[a b] y l l' E _ IH]; [destruct Hn|].
    cbn [map In] in Hn. destruct Hn as [Hn|Hn].
    - cbn in E. apply bind_Ok in E as (z & _ & [= <-]). cbn in Hn. subst a. exists b. now left.
    - destruct (IH Hn) as (e & He). exists e. now right. }
  destruct Hin as (e & Hin). apply mapM_Ok in Hels.
  assert (Hpe : parse_old_element fo t = Ok e).
  { clear -Hels Hin Htn. induction Hels as [|s y l l' E _ IH]; [destruct Hin|]. destruct Hin as [->|Hin]; [|now apply IH].
    destruct (section_texts p s) as [t'|] eqn:Es; [|discriminate E]. apply bind_Ok in E as (z & Hz & [= -> ->]). rewrite Es in Htn. injection Htn as ->. exact Hz. }
  unfold parse_old_element in Hpe.
  assert (Eg : dget (raw_dict (F := F) t) (S_ "geometry") = Some (Leaf (AStr (S_ g)))).
  { clear -Hf. induction t as [|[k v] t IH]; [discriminate Hf|]. cbn [find fst] in Hf. cbn [raw_dict map fst snd dget].
    destruct (pystr_eqb k (S_ "geometry")) eqn:E.
    - apply pystr_eqb_eq in E. subst k. rewrite pystr_eqb_refl. injection Hf as ->. reflexivity.
    - destruct (pystr_eqb (S_ "geometry") k) eqn:E2; [apply pystr_eqb_eq in E2; subst k; now rewrite pystr_eqb_refl in E|now apply IH]. }
  rewrite Eg in Hpe. apply bind_Ok in Hpe as (os & Hos & Hpe). now exists os, e.
Qed.
Ltac looks Hk := cbn [In] in Hk; repeat destruct Hk as [Hk|Hk]; try contradiction; subst; cbv; auto.

(** C139.  In an accepted file of the old format every required option is given
    under one of its names, and options that are left out have the default of
    the table. *)
Theorem C139_required :
  forall (F : Type) (fo : fops F) (trunc : F -> res Z) (p : inifile) (cf : config F) (run : list (pystr * pystr)),
  section_texts p (S_ "run") = Some run -> In (S_ "dataoutputs") (map fst run) -> read_config fo trunc p = Ok cf ->
  exists model strata hydraulics,
    section_texts p (S_ "model") = Some model /\ section_texts p (S_ "strata") = Some strata /\ section_texts p (S_ "hydraulics") = Some hydraulics /\
    (forall ks, In ks old_model_required -> given_as model ks) /\ (forall ks, In ks old_strata_required -> given_as strata ks) /\
    (forall ks, In ks old_hydraulics_required -> given_as hydraulics ks) /\
    (forall n t g, In n (map fst (cf_elements cf)) -> section_texts p n = Some t -> In g ["trunc_ellip"; "ext_par"; "sheet"] ->
       find (fun l => pystr_eqb (fst l) (S_ "geometry")) t = Some (S_ "geometry", S_ g) ->
       forall ks, In ks (old_required_of g) -> given_as t ks).
Proof.
  intros F fo trunc p cf run Hrun Hdo H. destruct (old_sections fo trunc p cf run Hrun Hdo H) as (oc & model & strata & hyd & m0 & S).
  destruct S as (Hm & Hs & Hh & _ & Pm & Ps & Ph & _ & _ & _ & _ & Pe). exists model, strata, hyd. repeat (split; [assumption|]). split; [|split; [|split]].
  - intros ks Hk. apply (old_required fo _ _ _ _ Pm). looks Hk.
  - intros ks Hk. apply (old_required fo _ _ _ _ Ps). looks Hk.
  - intros ks Hk. apply (old_required fo _ _ _ _ Ph). looks Hk.
  - intros n t g Hn Ht Hg Hf ks Hk. destruct (Pe n t g Hn Ht Hf) as (os & d & Ho & Hp). apply (old_required fo os t d ks Hp).
    destruct Hg as [<-|[<-|[<-|[]]]]; cbv in Ho; injection Ho as <-; looks Hk.
Qed.
Print Assumptions C139_required.

Theorem C139_defaults :
  forall (F : Type) (fo : fops F) (trunc : F -> res Z) (p : inifile) (cf : config F) (run : list (pystr * pystr)),
  section_texts p (S_ "run") = Some run -> In (S_ "dataoutputs") (map fst run) -> read_config fo trunc p = Ok cf ->
  exists model strata hydraulics,
    section_texts p (S_ "model") = Some model /\ section_texts p (S_ "strata") = Some strata /\ section_texts p (S_ "hydraulics") = Some hydraulics /\
    (forall k ks v, In (k :: ks, v) old_run_defaults -> ~ given_as run (k :: ks) -> DeprecatedSpec.has (cf_run cf) k v) /\
    (forall k ks v, In (k :: ks, v) (old_model_defaults (f_zero fo)) -> ~ given_as model (k :: ks) -> DeprecatedSpec.has (cf_model cf) k v) /\
    (forall k, k = "dy" \/ k = "dz" -> ~ given_as model [k] -> exists dx, DeprecatedSpec.has (cf_model cf) "dx" dx /\ DeprecatedSpec.has (cf_model cf) k dx) /\
    (forall k ks v, In (k :: ks, v) old_strata_defaults -> ~ given_as strata (k :: ks) -> DeprecatedSpec.has (cf_strata cf) k v) /\
    (forall k ks v, In (k :: ks, v) old_hydraulics_defaults -> ~ given_as hydraulics (k :: ks) -> DeprecatedSpec.has (cf_hydraulics cf) k v).
Proof.
  intros F fo trunc p cf run Hrun Hdo H. destruct (old_sections fo trunc p cf run Hrun Hdo H) as (oc & model & strata & hyd & m0 & S).
  destruct S as (Hm & Hs & Hh & Pr & Pm & Ps & Ph & Kr & Km & Ks & Kh & _). exists model, strata, hyd. do 3 (split; [assumption|]).
  assert (Nr : NoDup (flat_map names (old_run_options (F := F)))) by (apply nodupb_NoDup; vm_compute; reflexivity).
  assert (Nm : NoDup (flat_map names (old_model_options fo))) by (apply nodupb_NoDup; vm_compute; reflexivity).
  assert (Ns : NoDup (flat_map names (old_strata_options (F := F)))) by (apply nodupb_NoDup; vm_compute; reflexivity).
  assert (Nh : NoDup (flat_map names (old_hydraulics_options (F := F)))) by (apply nodupb_NoDup; vm_compute; reflexivity).
  destruct Km as (m1 & m2 & D1 & D2 & Km).
  assert (Km' : forall k, ~ In k ["anisotropy"; "hydraulics"; "heterogeneity"; "heterogeneity_level"] -> dget (cf_model cf) (S_ k) = dget m2 (S_ k)).
  { intros k Hk. unfold convert_model in Km. HydroLinkProps.steps Km. apply copy_spec in E2 as (w & _ & ->).
    destruct v4; [discriminate Km|]. apply Ok_inj' in Km. rewrite <- Km. rewrite !dget_S. cbn [In] in Hk.
    repeat match goal with |- context [String.eqb ?a ?b] => destruct (String.eqb_spec a b); [subst; tauto|] end. reflexivity. }
  split; [|split; [|split; [|split]]].
  - intros k ks v Hk Hg. assert (D : DeprecatedSpec.has (oc_run oc) k v).
    { revert Hg. apply (old_default fo _ _ _ k ks v Pr Nr). cbn [old_run_defaults In] in Hk.
      repeat destruct Hk as [Hk|Hk]; try contradiction; injection Hk as <- <- <-; cbv; auto. }
    unfold convert_run in Kr. HydroLinkProps.steps Kr. apply copy_spec in Kr as (w & _ & ->). unfold DeprecatedSpec.has in *. rewrite !dget_S.
    cbn [old_run_defaults In] in Hk. repeat destruct Hk as [Hk|Hk]; try contradiction; injection Hk as <- <- <-; exact D.
  - intros k ks v Hk Hg. assert (D : DeprecatedSpec.has m0 k v).
    { revert Hg. apply (old_default fo _ _ _ k ks v Pm Nm). cbn [old_model_defaults In] in Hk.
      repeat destruct Hk as [Hk|Hk]; try contradiction; injection Hk as <- <- <-; cbv; auto. }
    unfold DeprecatedSpec.has in *.
    cbn [old_model_defaults In] in Hk. repeat destruct Hk as [Hk|Hk]; try contradiction; injection Hk as <- <- <-;
      (rewrite Km' by (cbn [In]; intuition discriminate); rewrite (HydroLinkProps.default_to_dx_other _ _ _ _ D2) by discriminate;
       rewrite (HydroLinkProps.default_to_dx_other _ _ _ _ D1) by discriminate; exact D).
  - intros k Hk Hg.
    assert (Hdd : forall (m m' : dict F) k, default_to_dx m k = Ok m' -> dget m (S_ k) = Some (Leaf ANone) -> dget m' (S_ k) = dget m (S_ "dx") /\ dget m (S_ "dx") <> None).
    { intros m m' k0 D Hv. unfold default_to_dx, lookup in D. rewrite Hv in D. cbn [bind is_none] in D.
      destruct (dget m (S_ "dx")) as [dx|]; cbn [bind] in D; [|discriminate D]. injection D as <-. rewrite dget_dset_same. now split. }
    assert (Dk : dget m0 (S_ k) = Some (Leaf ANone)).
    { revert Hg. apply (old_default fo _ _ _ k [] (Leaf ANone) Pm Nm). destruct Hk as [->| ->]; cbv; auto. }
    assert (Edx : dget m2 (S_ "dx") = dget m0 (S_ "dx")).
    { rewrite (HydroLinkProps.default_to_dx_other _ _ _ _ D2) by discriminate. now rewrite (HydroLinkProps.default_to_dx_other _ _ _ _ D1) by discriminate. }
    unfold DeprecatedSpec.has. rewrite (Km' "dx") by (cbn [In]; intuition discriminate).
    rewrite (Km' k) by (destruct Hk as [->| ->]; cbn [In]; intuition discriminate). rewrite Edx. destruct Hk as [->| ->].
    + rewrite (HydroLinkProps.default_to_dx_other _ _ _ _ D2) by discriminate. destruct (Hdd _ _ _ D1 Dk) as [-> Hne].
      destruct (dget m0 (S_ "dx")) as [dx|]; [now exists dx|congruence].
    + assert (Dk' : dget m1 (S_ "dz") = Some (Leaf ANone)) by (rewrite (HydroLinkProps.default_to_dx_other _ _ _ _ D1) by discriminate; exact Dk).
      destruct (Hdd _ _ _ D2 Dk') as [-> Hne]. rewrite (HydroLinkProps.default_to_dx_other _ _ _ _ D1) in * by discriminate.
      destruct (dget m0 (S_ "dx")) as [dx|]; [now exists dx|congruence].
  - intros k ks v [Hk|[]] Hg. injection Hk as <- <- <-. assert (D : DeprecatedSpec.has (oc_strata oc) "ssm_contact" (Leaf (AStr (S_ "flat")))).
    { revert Hg. apply (old_default fo _ _ _ "ssm_contact" [] _ Ps Ns). cbv. auto. }
    destruct Ks as (c & Ks). unfold convert_strata in Ks. HydroLinkProps.steps Ks. cbn [fst snd] in Ks. apply Ok_pair in Ks as [-> _].
    match goal with E : copy _ _ _ = Ok _ |- _ => apply copy_spec in E as (w & _ & ->) end. unfold DeprecatedSpec.has in *. rewrite !dget_S. exact D.
  - intros k ks v [Hk|[]] Hg. injection Hk as <- <- <-. assert (D : DeprecatedSpec.has (oc_hydraulics oc) "gen" (Leaf (ABool true))).
    { revert Hg. apply (old_default fo _ _ _ "gen" ["flag_gen"] _ Ph Nh). cbv. auto. }
    apply copy_spec in Kh as (w & _ & ->). unfold DeprecatedSpec.has in *. rewrite !dget_S. exact D.
Qed.
Print Assumptions C139_defaults.

(** The old file of the examples, which uses old names, and the same file
    without the line r_ssm_top. *)
Example C139_example :
  (exists cf, read_config toyf ztrunc (old_ini old_run [] old_elements) = Ok cf /\ map fst (cf_elements cf) = map S_ ["scour"; "sheets"; "channels"] /\
    DeprecatedSpec.has (cf_strata cf) "ssm_contact" (Leaf (AStr (S_ "flat"))) /\ DeprecatedSpec.has (cf_model cf) "dz" (Leaf (AFlt 1%Z))) /\
  read_config toyf ztrunc (map (fun s => (fst s, filter (fun l => negb (pystr_eqb (fst l) (S_ "r_ssm_top"))) (snd s))) (old_ini old_run [] old_elements))
    = Err MissingOptionError.
Proof. split; [eexists; split; [vm_compute; reflexivity|]; repeat split; vm_compute; reflexivity|vm_compute; reflexivity]. Qed.

