(** C124: warnings about unknown options. *)
From Coq Require Import List ZArith Bool Ascii String Lia.
From Verif Require Import Base ParseModel ParseSpec SectionSpec SectionProofs ConfigModel ConfigSpec ConfigProofs
  ConfigProofs2 ParseProps ConfigProps DeprecatedModel DeprecatedSpec DeprecatedProofs DeprecatedProps
  WarnModel WarnSpec.
Import ListNotations.
Local Open Scope string_scope.
Local Open Scope list_scope.

(** ** Outcomes *)
Lemma outcome_bind {A B C D} (R : A -> B -> Prop) (S : C -> D -> Prop) r r' f g :
  same_outcome R r r' -> (forall a b, R a b -> same_outcome S (f a) (g b)) ->
  same_outcome S (bind r f) (bind r' g).
Proof. destruct r, r'; cbn; auto; tauto. Qed.
Lemma outcome_eq {A C D} (S : C -> D -> Prop) (r r' : res A) f g :
  r = r' -> (forall a, r = Ok a -> same_outcome S (f a) (g a)) -> same_outcome S (bind r f) (bind r' g).
Proof. intros <- H. destruct r; cbn; auto. Qed.
Lemma outcome_refl {A} (R : A -> A -> Prop) r : (forall a, R a a) -> same_outcome R r r.
Proof. destruct r; cbn; auto. Qed.
Lemma outcome_mapM {A B C D} (R : A -> B -> Prop) (S : C -> D -> Prop) f g l l' :
  Forall2 R l l' -> (forall a b, R a b -> same_outcome S (f a) (g b)) ->
  same_outcome (Forall2 S) (mapM f l) (mapM g l').
Proof.
  intros H Hf. induction H as [|a b l l' H _ IH]; cbn; [constructor|].
  apply (outcome_bind S); [auto|]. intros c d Hcd. apply (outcome_bind (Forall2 S)); [exact IH|].
  intros cs ds Hs. now constructor.
Qed.

Section Agree.
Context {F : Type}.
Implicit Types d : dict F.

Definition on (names : list pystr) d d' : Prop := forall k, In k names -> dget d k = dget d' k.

Lemma on_refl names d : on names d d.
Proof. now intros k _. Qed.
Lemma on_dset names d d' k v : on names d d' -> on names (dset d k v) (dset d' k v).
Proof. intros H k' Hk. rewrite !dget_dset. destruct (pystr_eqb k' k); [reflexivity|]. auto. Qed.
Lemma on_dmem names d d' k : on names d d' -> In k names -> dmem d k = dmem d' k.
Proof. intros H Hk. unfold dmem. now rewrite (H k Hk). Qed.
Lemma on_lookup names d d' k : on names d d' -> In (S_ k) names -> lookup d k = lookup d' k.
Proof. intros H Hk. unfold lookup. now rewrite (H _ Hk). Qed.

(** Tables without alternative names whose shapes refer to their own options *)
Definition dim_refs (x : dim) : list pystr := match x with DName n => [n] | DVal _ => [] end.
Definition shape_refs (s : oshape) : list pystr :=
  match s with ShInt _ => [] | ShName n => [n] | ShList l => flat_map dim_refs l end.
Definition closed (os : list (option_ F)) (names : list pystr) : bool :=
  forallb (fun o => match o_alts o with [] => true | _ => false end
                    && mem (o_name o) names
                    && forallb (fun n => mem n names) (shape_refs (o_shape o))) os.

Lemma resolve_dim_on names d d' x : on names d d' -> (forall n, In n (dim_refs x) -> In n names) ->
  resolve_dim d x = resolve_dim d' x.
Proof. intros H Hx. destruct x as [v|n]; [reflexivity|]. cbn. now rewrite (H n) by (apply Hx; now left). Qed.
Lemma apply_shape_on names d d' sh v : on names d d' -> (forall n, In n (shape_refs sh) -> In n names) ->
  apply_shape d sh v = apply_shape d' sh v.
Proof.
  intros H Hx. destruct sh as [z|n|l]; [reflexivity| |].
  - cbn. now rewrite (H n) by (apply Hx; now left).
  - unfold apply_shape. replace (mapM (resolve_dim d) l) with (mapM (resolve_dim d') l); [reflexivity|].
    cbn in Hx. induction l as [|x l IH]; [reflexivity|]. cbn [mapM flat_map] in *.
    rewrite IH by (intros n Hn; apply Hx, in_or_app; now right).
    rewrite (resolve_dim_on names d d' x H); [reflexivity|]. intros n Hn. apply Hx, in_or_app. now left.
Qed.

Lemma option_parse_on c o names d d' :
  on names d d' -> o_alts o = [] -> In (o_name o) names ->
  (forall n, In n (shape_refs (o_shape o)) -> In n names) ->
  same_outcome (fun r r' => fst r = d /\ fst r' = d' /\ snd r = snd r') (option_parse c o d) (option_parse c o d').
Proof.
  intros H Ha Hn Hs. unfold option_parse. rewrite Ha. cbn [find_alternative]. rewrite <- (H _ Hn).
  destruct (dget d (o_name o)) as [raw|].
  - destruct (o_type o) as [|t|t].
    + destruct (parse_bool raw); cbn; [|reflexivity]. destruct (o_valid o (ABool a)); cbn; auto.
    + destruct raw as [[]|]; try exact eq_refl. destruct (convert c t s); cbn; [|reflexivity].
      destruct (o_valid o a); cbn; auto.
    + destruct raw as [[]|]; try exact eq_refl. destruct (parse_list (convert c t) s); cbn [bind]; [|exact eq_refl].
      destruct (all_true (o_valid o) a); [|exact eq_refl].
      rewrite (apply_shape_on names d d') by assumption.
      destruct (apply_shape d' (o_shape o) a); cbn; auto.
  - destruct (o_optional o); cbn; auto.
Qed.

Lemma section_parse_on c os names d d' :
  closed os names = true -> on names d d' ->
  same_outcome (on names) (section_parse c os d) (section_parse c os d').
Proof.
  unfold section_parse. revert d d'. induction os as [|o os IH]; intros d d' Hc H; [exact H|].
  cbn in Hc. apply andb_true_iff in Hc as [Ho Hc]. apply andb_true_iff in Ho as [Ho H3].
  apply andb_true_iff in Ho as [H1 H2]. apply mem_In in H2.
  cbn [foldM]. eapply (outcome_bind (on names)).
  - eapply outcome_bind.
    + apply (option_parse_on c o names d d' H); [now destruct (o_alts o)|exact H2|].
      intros n Hin. apply mem_In. now apply (proj1 (forallb_forall _ _) H3).
    + intros [d1 v] [d2 v'] (E1 & E2 & E3). cbn in *. subst. now apply on_dset.
  - intros a b Hab. now apply IH.
Qed.

Lemma raw_on (drop : pystr -> Prop) names t t' :
  less drop t t' -> (forall k, drop k -> ~ In k names) -> on names (raw_dict t) (raw_dict t').
Proof.
  intros H Hd k Hk. induction H as [|k0 v l l' H0 H IH|k0 v l l' H IH]; [reflexivity| |].
  - cbn. destruct (pystr_eqb k k0) eqn:E; [|exact IH].
    apply pystr_eqb_eq in E. subst. now contradiction (Hd k0 H0).
  - cbn. destruct (pystr_eqb k k0); [reflexivity|exact IH].
Qed.
End Agree.

Section Config.
Context {F : Type} (fo : fops F).
Notation dic := (dict F).

Definition own (os : list (option_ F)) : list pystr := map o_name os.

(** Sections [t] and [t'] that differ in options outside of the table only *)
Definition similar (name : pystr) (t t' : list (pystr * pystr)) : Prop :=
  exists drop, less drop t t' /\
    (forall k, drop k -> exists os, table_of fo name t = Some os /\ ~ In k (own os)).

Lemma closed_run : closed (F := F) run_options (own run_options) = true. Proof. reflexivity. Qed.
Lemma closed_model : closed (model_options fo) (own (model_options fo)) = true. Proof. reflexivity. Qed.
Lemma closed_strata : closed (F := F) strata_options (own strata_options) = true. Proof. reflexivity. Qed.
Lemma closed_hydraulics : closed (F := F) hydraulics_options (own hydraulics_options) = true. Proof. reflexivity. Qed.
Lemma closed_flowtrans : closed (F := F) flowtrans_options (own flowtrans_options) = true. Proof. reflexivity. Qed.
Lemma closed_geometry g : closed (geometry_options fo g) (own (geometry_options fo g)) = true.
Proof.
  unfold geometry_options. destruct (pystr_eqb g (S_ "trough")); [reflexivity|].
  destruct (pystr_eqb g (S_ "channel")); reflexivity.
Qed.

Lemma similar_on name os t t' :
  similar name t t' -> table_of fo name t = Some os -> on (F := F) (own os) (raw_dict t) (raw_dict t').
Proof.
  intros (drop & H & Hd) Ht. apply (raw_on drop); [exact H|]. intros k Hk. destruct (Hd k Hk) as (os' & E & Hn).
  rewrite Ht in E. now injection E as <-.
Qed.

Lemma texts_similar p p' name :
  Forall2 (fun s s' => fst s = fst s' /\ similar (fst s) (snd s) (snd s')) p p' ->
  match section_texts p name, section_texts p' name with
  | Some t, Some t' => similar name t t'
  | None, None => True
  | _, _ => False
  end.
Proof.
  induction 1 as [|[n t] [n' t'] p p' [H1 H2] _ IH]; [exact I|]. cbn in *. subst n'.
  destruct (pystr_eqb name n) eqn:E; [|exact IH]. apply pystr_eqb_eq in E. now subst.
Qed.

Lemma geometry_own g : In g (map S_ ["trough"; "channel"; "sheet"]) ->
  forall k, In k (map S_ ["geometry"; "contact_model"; "facies"; "altfacies"; "bg_facies"; "structure"; "dipset_dist"]) ->
  In k (own (geometry_options fo g)).
Proof.
  intros Hg k Hk. apply mem_In.
  assert (A : forallb (fun k => mem k (own (geometry_options fo g)))
            (map S_ ["geometry"; "contact_model"; "facies"; "altfacies"; "bg_facies"; "structure"; "dipset_dist"]) = true).
  { cbn [map In] in Hg. destruct Hg as [<-|[<-|[<-|[]]]]; reflexivity. }
  now apply (proj1 (forallb_forall _ _) A).
Qed.
Lemma erosive_own g : In g (map S_ ["trough"; "channel"]) ->
  In (S_ "lag_height") (own (geometry_options fo g)) /\ In (S_ "lag_facies") (own (geometry_options fo g)).
Proof. cbn [map In]. intros [<-|[<-|[]]]; split; apply mem_In; reflexivity. Qed.

(** Only troughs can have bulbs. *)
Lemma structure_bulb g d d' st :
  In g (map S_ ["trough"; "channel"; "sheet"]) ->
  section_parse (f_conv fo) (geometry_options fo g) d = Ok d' -> lookup d' "structure" = Ok st ->
  is_str st "bulb" || is_str st "random" = true -> g = S_ "trough".
Proof.
  cbn [map In]. intros [<-|[<-|[<-|[]]]] H Hl Hs; [reflexivity|exfalso ..].
  - assert (V : exists s, st = Leaf (AStr (S_ s)) /\ (s = "bulb" \/ s = "random")).
    { apply orb_true_iff in Hs as [E|E]; apply is_str_eq in E; eauto. }
    destruct V as (s & -> & V). apply lookup_dget in Hl.
    change (geometry_options fo (S_ "channel")) with
      ((element_options fo ++ erosive_options fo) ++ structure_opt (F := F) ["massive"; "dip"] ::
        skipn 20 (channel_options fo)) in H.
    apply (string_option_last (f_conv fo) (S_ "structure")) with (s := S_ s) in H; [| | |exact Hl|now left].
    + destruct V as [-> | ->]; discriminate H.
    + cbn. intuition discriminate.
    + cbn. intuition.
  - assert (V : exists s, st = Leaf (AStr (S_ s)) /\ (s = "bulb" \/ s = "random")).
    { apply orb_true_iff in Hs as [E|E]; apply is_str_eq in E; eauto. }
    destruct V as (s & -> & V). apply lookup_dget in Hl.
    change (geometry_options fo (S_ "sheet")) with
      (element_options fo ++ structure_opt (F := F) ["massive"; "dip"] :: skipn 15 (sheet_options fo)) in H.
    apply (string_option_last (f_conv fo) (S_ "structure")) with (s := S_ s) in H; [| | |exact Hl|now left].
    + destruct V as [-> | ->]; discriminate H.
    + cbn. intuition discriminate.
    + cbn. intuition.
Qed.

Definition element_rel (g : pystr) (e e' : dic * contact F) : Prop :=
  snd e = snd e' /\ on (own (geometry_options fo g)) (fst e) (fst e') /\
  dget (fst e) (S_ "geometry") = Some (Leaf (AStr g)).

Definition reserved : list pystr := map S_ ["run"; "model"; "strata"; "hydraulics"; "flowtrans"].
Lemma table_element name t : ~ In name reserved ->
  table_of fo name t =
    match dget (raw_dict (F := F) t) (S_ "geometry") with
    | Some (Leaf (AStr g)) =>
        if mem g (map S_ ["trough"; "channel"; "sheet"]) then Some (geometry_options fo g) else None
    | _ => None
    end.
Proof.
  intros H. unfold table_of. cbn [reserved map In] in H.
  repeat match goal with |- context [pystr_eqb name ?x] =>
    replace (pystr_eqb name x) with false
      by (symmetry; apply pystr_eqb_neq; intros ->; apply H; tauto) end.
  reflexivity.
Qed.

(** The geometry of an accepted section is the text. *)
Lemma geometry_kept g d d' :
  In g (map S_ ["trough"; "channel"; "sheet"]) -> dget d (S_ "geometry") = Some (Leaf (AStr g)) ->
  section_parse (f_conv fo) (geometry_options fo g) d = Ok d' ->
  dget d' (S_ "geometry") = Some (Leaf (AStr g)).
Proof.
  intros Hg Hd H.
  assert (E : exists rest, geometry_options fo g =
     mkOption (S_ "geometry") (OScalar TStr) false (Leaf none) (ShInt (-1)%Z)
      (one_of ["trough"; "channel"; "sheet"]) [] :: rest /\
     ~ In (S_ "geometry") (map o_name rest) /\ ~ In (S_ "geometry") (flat_map o_alts rest)).
  { cbn [map In] in Hg. destruct Hg as [<-|[<-|[<-|[]]]];
      (eexists; split; [reflexivity|]; split; [cbn; intuition discriminate|cbn; tauto]). }
  destruct E as (rest & E & H1 & H2). rewrite E in H. unfold section_parse in H. cbn [foldM o_name] in H.
  destruct (option_parse _ _ d) as [[d1 v]|] eqn:Eo; [|discriminate]. cbn [bind] in H.
  rewrite (foldM_other _ _ _ H1 H2 _ _ H), dget_dset_same.
  unfold option_parse in Eo. cbn [o_alts o_name o_type o_valid find_alternative] in Eo. rewrite Hd in Eo.
  cbn [convert bind] in Eo. destruct (one_of _ _); [|discriminate]. now injection Eo as _ <-.
Qed.

Lemma parse_element_similar name h h' t t' :
  ~ In name reserved -> on (own hydraulics_options) h h' -> similar name t t' ->
  same_outcome (fun e e' => exists g, In g (map S_ ["trough"; "channel"; "sheet"]) /\ element_rel g e e')
    (parse_element fo h t) (parse_element fo h' t').
Proof.
  intros Hr Hh Hs. unfold parse_element.
  assert (Hg : dget (raw_dict (F := F) t) (S_ "geometry") = dget (raw_dict (F := F) t') (S_ "geometry")).
  { destruct (table_of fo name t) as [os|] eqn:E.
    - apply (similar_on name os t t' Hs E).
      rewrite table_element in E by exact Hr. destruct (dget _ _) as [[[]|]|]; try discriminate.
      destruct (mem s _) eqn:Em; [|discriminate]. injection E as <-. apply mem_In in Em.
      apply geometry_own; [exact Em|]. now left.
    - destruct Hs as (drop & Hl & Hd). apply (raw_on drop [S_ "geometry"] t t' Hl); [|now left].
      intros k Hk. destruct (Hd k Hk) as (os & E2 & _). congruence. }
  rewrite <- Hg. destruct (dget (raw_dict (F := F) t) (S_ "geometry")) as [[[g| | | |]|]|] eqn:Eg; try exact eq_refl.
  destruct (mem g (map S_ ["trough"; "channel"; "sheet"])) eqn:Em; [|exact eq_refl]. cbn [negb].
  assert (Ht : table_of fo name t = Some (geometry_options fo g)).
  { rewrite table_element by exact Hr. now rewrite Eg, Em. }
  apply mem_In in Em.
  pose proof (similar_on name _ t t' Hs Ht) as Hon.
  pose proof (section_parse_on (f_conv fo) _ _ _ _ (closed_geometry g) Hon) as Hsp.
  destruct (section_parse (f_conv fo) (geometry_options fo g) (raw_dict t)) as [e|] eqn:Ee;
    destruct (section_parse (f_conv fo) (geometry_options fo g) (raw_dict t')) as [e'|] eqn:Ee'; cbn in Hsp; try easy.
  assert (Hgeo : dget e (S_ "geometry") = Some (Leaf (AStr g))) by exact (geometry_kept g _ _ Em Eg Ee).
  cbn [bind].
  assert (In1 : forall k, In k ["geometry"; "contact_model"; "facies"; "altfacies"; "bg_facies"; "structure"; "dipset_dist"] ->
                In (S_ k) (own (geometry_options fo g))).
  { intros k Hkk. apply geometry_own; [exact Em|]. now apply in_map. }
  assert (Hhf : lookup h "hydrofacies" = lookup h' "hydrofacies") by (apply (on_lookup (own hydraulics_options)); [exact Hh|now left]).
  apply outcome_eq; [apply (on_lookup _ _ _ _ Hsp), In1; cbn; tauto|]. intros cmv _.
  apply outcome_eq; [reflexivity|]. intros cm _.
  apply outcome_eq; [exact Hhf|]. intros hf _.
  apply outcome_eq; [apply (on_lookup _ _ _ _ Hsp), In1; cbn; tauto|]. intros fac _.
  apply outcome_eq; [reflexivity|]. intros facies _. cbv zeta.
  set (e1 := dset e (S_ "facies") facies). set (e1' := dset e' (S_ "facies") facies).
  assert (H1 : on (own (geometry_options fo g)) e1 e1') by now apply on_dset.
  assert (Hg1 : dget e1 (S_ "geometry") = Some (Leaf (AStr g))) by (unfold e1; rewrite dget_S; exact Hgeo).
  assert (Hst1 : dget e1 (S_ "structure") = dget e (S_ "structure")) by (unfold e1; now rewrite dget_S).
  clearbody e1 e1'.
  apply outcome_eq; [apply (on_lookup _ _ _ _ H1), In1; cbn; tauto|]. intros alt _.
  apply (outcome_bind (fun a b => on (own (geometry_options fo g)) a b /\
     dget a (S_ "geometry") = Some (Leaf (AStr g)) /\ dget a (S_ "structure") = dget e (S_ "structure"))).
  { destruct (is_none alt); [cbn; auto|]. apply outcome_eq; [reflexivity|]. intros a _. cbn [same_outcome].
    split; [now apply on_dset|]. now rewrite !dget_S. }
  intros e2 e2' (H2 & Hg2 & Hst2).
  apply outcome_eq; [apply (on_lookup _ _ _ _ H2), In1; cbn; tauto|]. intros bg _.
  apply outcome_eq; [reflexivity|]. intros bgi _. cbv zeta.
  set (e3 := dset e2 (S_ "bg_facies") _). set (e3' := dset e2' (S_ "bg_facies") _).
  assert (H3 : on (own (geometry_options fo g)) e3 e3') by now apply on_dset.
  assert (Hg3 : dget e3 (S_ "geometry") = Some (Leaf (AStr g))) by (unfold e3; now rewrite dget_S).
  assert (Hst3 : lookup e3 "structure" = lookup e "structure").
  { unfold lookup, e3. rewrite dget_S. cbn [String.eqb Ascii.eqb Bool.eqb]. now rewrite Hst2. }
  clearbody e3 e3'.
  apply outcome_eq; [apply (on_lookup _ _ _ _ H3), In1; cbn; tauto|]. intros st Hst. rewrite Hst3 in Hst.
  apply outcome_eq.
  { destruct (is_str st "dip" || is_str st "random"); [|reflexivity].
    rewrite (on_dmem _ _ _ (S_ "dipset_dist") Hon); [reflexivity|]. apply In1. cbn; tauto. }
  intros _ _. apply outcome_eq.
  { destruct (is_str st "bulb" || is_str st "random") eqn:Eb; [|reflexivity].
    pose proof (structure_bulb g _ _ st Em Ee Hst Eb) as ->.
    rewrite (on_dmem _ _ _ (S_ "bulbset_dist") Hon); [reflexivity|]. apply mem_In. reflexivity. }
  intros _ _. destruct (mem g (map S_ ["trough"; "channel"])) eqn:Eer.
  - apply mem_In in Eer. destruct (erosive_own g Eer) as [L1 L2].
    apply outcome_eq; [now apply (on_lookup _ _ _ _ H3)|]. intros lh _.
    apply outcome_eq; [now apply (on_lookup _ _ _ _ H3)|]. intros lf _.
    apply outcome_eq; [reflexivity|]. intros k _. cbn [same_outcome]. exists g. split; [exact Em|]. split; [reflexivity|].
    split; [now apply on_dset|]. cbn [fst snd]. now rewrite dget_S.
  - cbn. exists g. split; [exact Em|]. split; [reflexivity|]. auto.
Qed.

(** ** The whole file *)
Definition config_rel (cf cf' : config F) : Prop :=
  on (own run_options) (cf_run cf) (cf_run cf') /\ on (own (model_options fo)) (cf_model cf) (cf_model cf') /\
  on (own strata_options) (cf_strata cf) (cf_strata cf') /\ cf_contacts cf = cf_contacts cf' /\
  on (own hydraulics_options) (cf_hydraulics cf) (cf_hydraulics cf') /\
  on (own flowtrans_options) (cf_flowtrans cf) (cf_flowtrans cf') /\
  Forall2 (fun e e' => fst e = fst e' /\ exists g, In g (map S_ ["trough"; "channel"; "sheet"]) /\ element_rel g (snd e) (snd e'))
    (cf_elements cf) (cf_elements cf').

Lemma sec_similar p p' name :
  Forall2 (fun s s' => fst s = fst s' /\ similar (fst s) (snd s) (snd s')) p p' ->
  same_outcome (fun t t' => similar (S_ name) t t') (sec p name) (sec p' name).
Proof.
  intros H. apply (texts_similar p p' (S_ name)) in H. unfold sec.
  destruct (section_texts p (S_ name)), (section_texts p' (S_ name)); cbn; auto; easy.
Qed.

Lemma default_on (m m' : dic) k : on (own (model_options fo)) m m' -> In (S_ k) (own (model_options fo)) ->
  same_outcome (on (own (model_options fo))) (default_to_dx m k) (default_to_dx m' k).
Proof.
  intros H Hk. unfold default_to_dx. apply outcome_eq; [now apply (on_lookup _ _ _ _ H)|]. intros v _.
  destruct (is_none v); [|exact H]. apply outcome_eq; [apply (on_lookup _ _ _ _ H), mem_In; reflexivity|].
  intros dx _. now apply on_dset.
Qed.

Lemma remove_name_In x y l : In y (remove_name x l) -> In y l.
Proof.
  induction l as [|z l IH]; cbn; [easy|]. destruct (pystr_eqb x z); cbn; tauto.
Qed.
Lemma remove_name_not x l : NoDup l -> ~ In x (remove_name x l).
Proof.
  induction 1 as [|z l Hz Hl IH]; cbn; [easy|]. destruct (pystr_eqb x z) eqn:E.
  - apply pystr_eqb_eq in E. now subst.
  - apply pystr_eqb_neq in E. intros [H|H]; [congruence|tauto].
Qed.
Lemma remove_name_NoDup x l : NoDup l -> NoDup (remove_name x l).
Proof.
  induction 1 as [|z l Hz Hl IH]; cbn; [constructor|]. destruct (pystr_eqb x z); [exact Hl|].
  constructor; [|exact IH]. intros H. apply Hz. now apply (remove_name_In x).
Qed.

Lemma mem_remove_not x l : NoDup l -> mem x l = false -> ~ In x l.
Proof. intros _ H Hin. apply mem_In in Hin. congruence. Qed.

Lemma parse_similar p p' :
  NoDup (section_names p) ->
  Forall2 (fun s s' => fst s = fst s' /\ similar (fst s) (snd s) (snd s')) p p' ->
  same_outcome config_rel (parse_inifile fo p) (parse_inifile fo p').
Proof.
  intros Hnd H. unfold parse_inifile.
  assert (En : section_names p' = section_names p).
  { clear Hnd. induction H as [|s s' p p' [E _] _ IH]; [reflexivity|]. cbn. unfold section_names in IH. now rewrite IH, E. }
  rewrite En. cbv zeta.
  apply outcome_eq; [reflexivity|]. intros _ _.
  apply (outcome_bind _ _ _ _ _ _ (sec_similar p p' "run" H)). intros t1 t1' S1.
  apply (outcome_bind _ _ _ _ _ _ (section_parse_on (f_conv fo) _ _ _ _ closed_run (similar_on (S_ "run") run_options t1 t1' S1 eq_refl))).
  intros run run' R1.
  apply (outcome_bind _ _ _ _ _ _ (sec_similar p p' "hydraulics" H)). intros t2 t2' S2.
  apply (outcome_bind _ _ _ _ _ _ (section_parse_on (f_conv fo) _ _ _ _ closed_hydraulics (similar_on (S_ "hydraulics") hydraulics_options t2 t2' S2 eq_refl))).
  intros hyd hyd' R2.
  apply (outcome_bind _ _ _ _ _ _ (sec_similar p p' "model" H)). intros t3 t3' S3.
  apply (outcome_bind _ _ _ _ _ _ (section_parse_on (f_conv fo) _ _ _ _ closed_model (similar_on (S_ "model") (model_options fo) t3 t3' S3 eq_refl))).
  intros m0 m0' R3.
  apply (outcome_bind _ _ _ _ _ _ (default_on m0 m0' "dy" R3 ltac:(apply mem_In; reflexivity))). intros m1 m1' R4.
  apply (outcome_bind _ _ _ _ _ _ (default_on m1 m1' "dz" R4 ltac:(apply mem_In; reflexivity))). intros m2 m2' R5.
  apply (outcome_bind _ _ _ _ _ _ (sec_similar p p' "strata" H)). intros t4 t4' S4.
  apply (outcome_bind _ _ _ _ _ _ (section_parse_on (f_conv fo) _ _ _ _ closed_strata (similar_on (S_ "strata") strata_options t4 t4' S4 eq_refl))).
  intros st st' R6.
  apply outcome_eq; [apply (on_lookup _ _ _ _ R6), mem_In; reflexivity|]. intros cmv _.
  apply outcome_eq; [apply (on_lookup _ _ _ _ R6), mem_In; reflexivity|]. intros stv _.
  apply outcome_eq; [reflexivity|]. intros ncm _.
  apply outcome_eq; [reflexivity|]. intros nst _.
  apply outcome_eq; [reflexivity|]. intros _ _.
  apply outcome_eq; [reflexivity|]. intros l _.
  apply outcome_eq; [reflexivity|]. intros contacts _.
  apply outcome_eq; [apply (on_lookup _ _ _ _ R6), mem_In; reflexivity|]. intros bg _.
  apply outcome_eq; [apply (on_lookup _ _ _ _ R2), mem_In; reflexivity|]. intros hf _.
  apply outcome_eq; [reflexivity|]. intros bgi _. cbv zeta.
  apply outcome_eq; [apply (on_lookup _ _ _ _ R1), mem_In; reflexivity|]. intros outv _.
  apply outcome_eq; [reflexivity|]. intros outl _.
  apply outcome_eq; [reflexivity|]. intros _ _.
  set (l4 := remove_name (S_ "strata") _).
  assert (N4 : NoDup l4) by (repeat apply remove_name_NoDup; exact Hnd).
  assert (I4 : forall y, In y l4 -> ~ In y (map S_ ["run"; "hydraulics"; "model"; "strata"])).
  { intros y Hy Hin. unfold l4 in Hy. cbn [map In] in Hin.
    assert (G : forall x l, NoDup l -> In x (remove_name x l) -> False) by (intros x l0 Hl0 Hx; exact (remove_name_not x l0 Hl0 Hx)).
    destruct Hin as [<-|[<-|[<-|[<-|[]]]]]; repeat match goal with
      | HH : In ?x (remove_name ?x ?l) |- _ => exfalso; revert HH; apply remove_name_not; repeat apply remove_name_NoDup; exact Hnd
      | HH : In ?x (remove_name ?y ?l) |- _ => apply remove_name_In in HH
      end. }
  clearbody l4.
  apply (outcome_bind (fun a b => on (own flowtrans_options) (fst a) (fst b) /\ snd a = snd b /\
           forall y, In y (snd a) -> ~ In y reserved)).
  { destruct (mem (S_ "flowtrans") l4) eqn:Em.
    - apply (outcome_bind _ _ _ _ _ _ (sec_similar p p' "flowtrans" H)). intros t5 t5' S5.
      apply (outcome_bind _ _ _ _ _ _ (section_parse_on (f_conv fo) _ _ _ _ closed_flowtrans (similar_on (S_ "flowtrans") flowtrans_options t5 t5' S5 eq_refl))).
      intros ft ft' R7. cbn. split; [exact R7|]. split; [reflexivity|].
      intros y Hy Hin. pose proof (remove_name_In _ _ _ Hy) as Hy'. specialize (I4 y Hy').
      cbn [reserved map In] in Hin, I4. destruct Hin as [<-|[<-|[<-|[<-|[<-|[]]]]]]; try tauto.
      now apply (remove_name_not (S_ "flowtrans") l4 N4).
    - cbn. split; [apply on_refl|]. split; [reflexivity|]. intros y Hy Hin. specialize (I4 y Hy).
      cbn [reserved map In] in Hin, I4. destruct Hin as [<-|[<-|[<-|[<-|[<-|[]]]]]]; try tauto.
      apply mem_In in Hy. exact (eq_true_false_abs _ Hy Em). }
  intros [ft secs] [ft' secs'] (R7 & E & I5). cbn in R7, E, I5. subst secs'.
  apply (outcome_bind (Forall2 (fun e e' => fst e = fst e' /\
      exists g, In g (map S_ ["trough"; "channel"; "sheet"]) /\ element_rel g (snd e) (snd e')))).
  - apply (outcome_mapM (fun a b => a = b /\ ~ In a reserved)).
    + clear - I5. induction secs as [|s secs IH]; constructor; [split; [reflexivity|apply I5; now left]|].
      apply IH. intros y Hy. apply I5. now right.
    + intros s s' [<- Hs]. pose proof (texts_similar p p' s H) as Ht.
      destruct (section_texts p s) as [t|], (section_texts p' s) as [t'|]; cbn; try easy.
      apply (outcome_bind _ _ _ _ _ _ (parse_element_similar s hyd hyd' t t' Hs R2 Ht)).
      intros e e' He. cbn. auto.
  - intros els els' Hels. cbn. unfold config_rel. cbn. repeat split; auto. now apply on_dset.
Qed.
End Config.

Lemma Forall2_imp' {A B} (R S : A -> B -> Prop) l m : Forall2 R l m -> (forall a b, R a b -> S a b) -> Forall2 S l m.
Proof. intros H Hi. induction H; constructor; auto. Qed.

Lemma In_S_inj k l : In (S_ k) (map S_ l) <-> In k l.
Proof.
  rewrite in_map_iff. split; [|eauto]. intros (y & E & Hy).
  assert (y = k) as <-; [|exact Hy]. rewrite <- (string_of_list_ascii_of_string y), <- (string_of_list_ascii_of_string k).
  unfold S_ in E. now rewrite E.
Qed.

Lemma on_agree {F} (os : list (option_ F)) names (d d' : dict F) :
  forallb (fun k => mem (S_ k) (own os)) names = true -> on (own os) d d' -> agree names d d'.
Proof.
  intros Hn H k Hk. apply H. apply mem_In. now apply (proj1 (forallb_forall _ _) Hn).
Qed.

Lemma warned_similar {F} (fo : fops F) p p' :
  NoDup (section_names p) -> without (new_warnings fo p) p p' ->
  Forall2 (fun s s' => fst s = fst s' /\ similar fo (fst s) (snd s) (snd s')) p p'.
Proof.
  intros Hnd Hw. unfold without in Hw.
  assert (G : forall q q', Forall2 (fun s s' => fst s = fst s' /\ less (fun k => In (fst s, k) (new_warnings fo p)) (snd s) (snd s')) q q' ->
    (forall s, In s q -> In s p) ->
    Forall2 (fun s s' => fst s = fst s' /\ similar fo (fst s) (snd s) (snd s')) q q').
  { intros q q' H. induction H as [|s s' q q' [E Hl] _ IH]; intros Hin; constructor.
    - split; [exact E|]. exists (fun k => In (fst s, k) (new_warnings fo p)). split; [exact Hl|].
      intros k Hk. unfold new_warnings, warnings_with in Hk. apply in_flat_map in Hk as ([n t] & Hnt & Hk). cbn [fst snd] in Hk.
      destruct (table_of fo n t) as [os|] eqn:Et; [|easy]. apply in_map_iff in Hk as (k' & Ek & Hk).
      injection Ek as E1 ->. subst n.
      assert (snd s = t) as <-.
      { assert (Hs : In s p) by (apply Hin; now left). clear - Hnd Hs Hnt. unfold section_names in Hnd.
        induction p as [|a p IH]; [easy|]. cbn in Hnd. inversion_clear Hnd as [|? ? N1 N2].
        destruct Hs as [->|Hs], Hnt as [Hnt|Hnt].
        - now apply (f_equal snd) in Hnt.
        - exfalso. apply N1. apply in_map_iff. exists (fst s, t). auto.
        - exfalso. apply N1. subst a. cbn. now apply in_map.
        - now apply IH. }
      exists os. split; [exact Et|]. unfold section_warnings in Hk. apply filter_In in Hk as [_ Hk].
      intros Hin2. apply mem_In in Hin2. unfold own in Hin2. rewrite Hin2 in Hk. discriminate.
    - apply IH. intros x Hx. apply Hin. now right. }
  apply (G p p' Hw). auto.
Qed.

(** An option that is warned about has no influence: without some or all of
    these options the outcome of reading the file is the same. *)
Theorem C124_no_influence : forall F (fo : fops F) p p',
  NoDup (section_names p) -> without (new_warnings fo p) p p' ->
  same_outcome same_settings (parse_inifile fo p) (parse_inifile fo p').
Proof.
  intros F fo p p' Hnd Hw. pose proof (parse_similar fo p p' Hnd (warned_similar fo p p' Hnd Hw)) as H.
  destruct (parse_inifile fo p) as [cf|], (parse_inifile fo p') as [cf'|]; cbn in *; auto.
  destruct H as (H1 & H2 & H3 & H4 & H5 & H6 & H7).
  split; [now apply (on_agree run_options)|]. split; [now apply (on_agree (model_options fo))|].
  split; [now apply (on_agree strata_options)|]. split; [exact H4|].
  split; [now apply (on_agree hydraulics_options)|]. split; [now apply (on_agree flowtrans_options)|].
  apply (Forall2_imp' _ _ _ _ H7).
  intros e e' (E & g & Hg & H8 & H9 & H10). split; [exact E|]. split; [exact H8|].
  cbn [map In] in Hg. destruct Hg as [<-|[<-|[<-|[]]]].
  - exists "trough". split; [cbn; tauto|]. split; [exact H10|]. now apply (on_agree (trough_options fo)).
  - exists "channel". split; [cbn; tauto|]. split; [exact H10|]. now apply (on_agree (channel_options fo)).
  - exists "sheet". split; [cbn; tauto|]. split; [exact H10|]. now apply (on_agree (sheet_options fo)).
Qed.
Print Assumptions C124_no_influence.

Lemma raw_get {F} (t : list (pystr * pystr)) k v :
  NoDup (map fst t) -> In (k, v) t -> dget (raw_dict (F := F) t) k = Some (Leaf (AStr v)).
Proof.
  induction t as [|[k' v'] t IH]; cbn; [easy|]. intros Hn [H|H]; inversion_clear Hn as [|? ? N1 N2].
  - injection H as -> ->. now rewrite pystr_eqb_refl.
  - destruct (pystr_eqb k k') eqn:E; [|auto]. apply pystr_eqb_eq in E. subst k'. exfalso. apply N1.
    apply in_map_iff. now exists (k, v).
Qed.

Lemma same_names (os l : list pystr) : forallb (fun k => mem k l) os && forallb (fun k => mem k os) l = true ->
  forall k : pystr, In k os <-> In k l.
Proof.
  intros H k. apply andb_true_iff in H as [H1 H2].
  rewrite forallb_forall in H1, H2. split; intros Hk; apply mem_In; auto.
Qed.
Lemma options_table {F} (fo : fops F) name t names : options_of name t names ->
  exists os, table_of fo name t = Some os /\ forall k, In k (own os) <-> In k (map S_ names).
Proof.
  intros H. destruct H as [t|t|t|t|t|name t g Hr Hn Hg Hin]; try (eexists; split; [reflexivity|]; apply same_names; reflexivity).
  pose proof (raw_get (F := F) t _ _ Hn Hg) as E.
  rewrite table_element by exact Hr. rewrite E. cbn [In] in Hin.
  destruct Hin as [<-|[<-|[<-|[]]]]; (eexists; split; [reflexivity|]; apply same_names; reflexivity).
Qed.
Lemma old_options_table {F} (fo : fops F) name t names : old_options_of name t names ->
  exists os, old_table_of fo name t = Some os /\ forall k, In k (own os) <-> In k (map S_ names).
Proof.
  intros H. destruct H as [t|t|t|t|t|name t g Hr Hn Hg Hin]; try (eexists; split; [reflexivity|]; apply same_names; reflexivity).
  pose proof (raw_get (F := F) t _ _ Hn Hg) as E. unfold old_table_of. cbn [map In] in Hr.
  repeat match goal with |- context [pystr_eqb name ?x] =>
    replace (pystr_eqb name x) with false by (symmetry; apply pystr_eqb_neq; intros ->; apply Hr; tauto) end.
  rewrite E. cbn [In] in Hin.
  destruct Hin as [<-|[<-|[<-|[]]]]; (eexists; split; [reflexivity|]; apply same_names; reflexivity).
Qed.

Lemma warned_with {F} (table : pystr -> list (pystr * pystr) -> option (list (option_ F))) p name t names k os :
  NoDup (section_names p) -> In (name, t) p -> table name t = Some os -> (forall k, In k (own os) <-> In k (map S_ names)) ->
  (In (name, k) (warnings_with table p) <-> In k (map fst t) /\ ~ In k (map S_ names)).
Proof.
  intros Hnd Hin Et Hos. unfold warnings_with. rewrite in_flat_map. split.
  - intros ([n t'] & Hnt & Hk). cbn [fst snd] in Hk.
    assert (Hn : name = n).
    { destruct (table n t'); [|easy]. apply in_map_iff in Hk as (? & E & _). now injection E. }
    subst n. assert (t' = t) as ->.
    { clear - Hnd Hin Hnt. unfold section_names in Hnd. induction p as [|[n x] p IH]; [easy|].
      cbn in Hnd. inversion_clear Hnd as [|? ? N1 N2]. destruct Hin as [H|Hin], Hnt as [H'|Hnt].
      - congruence.
      - injection H as -> ->. exfalso. apply N1. apply in_map_iff. now exists (name, t').
      - injection H' as -> ->. exfalso. apply N1. apply in_map_iff. now exists (name, t).
      - now apply IH. }
    rewrite Et in Hk. apply in_map_iff in Hk as (k' & E & Hk). injection E as ->.
    unfold section_warnings in Hk. apply filter_In in Hk as [H1 H2]. split; [exact H1|].
    rewrite <- Hos. intros H. apply mem_In in H. unfold own in H. rewrite H in H2. discriminate.
  - intros [H1 H2]. exists (name, t). split; [exact Hin|]. cbn [fst snd]. rewrite Et.
    apply in_map_iff. exists k. split; [reflexivity|]. apply filter_In. split; [exact H1|].
    destruct (mem k (map o_name os)) eqn:E; [|reflexivity]. apply mem_In in E. apply Hos in E. tauto.
Qed.

(** Warned is exactly what is not among the options of the section. *)
Theorem C124_warned : forall F (fo : fops F) p name t names k,
  NoDup (section_names p) -> In (name, t) p -> options_of name t names ->
  (In (name, k) (new_warnings fo p) <-> In k (map fst t) /\ ~ In k (map S_ names)).
Proof.
  intros F fo p name t names k Hnd Hin Ho. destruct (options_table fo name t names Ho) as (os & Et & Hos).
  now apply (warned_with _ p name t names k os).
Qed.
Print Assumptions C124_warned.
(** The same in the old format. *)
Theorem C124_old_warned : forall F (fo : fops F) p name t names k,
  NoDup (section_names p) -> In (name, t) p -> old_options_of name t names ->
  (In (name, k) (old_warnings fo p) <-> In k (map fst t) /\ ~ In k (map S_ names)).
Proof.
  intros F fo p name t names k Hnd Hin Ho. destruct (old_options_table fo name t names Ho) as (os & Et & Hos).
  now apply (warned_with _ p name t names k os).
Qed.
Print Assumptions C124_old_warned.


(** In the old format this is not so: an option given under one of its
    alternative names is used although it is called unknown. *)
Definition old_flag : inifile := old_ini (old_run ++ [kv "flag_anisotropy" "no"]) [] old_elements.
Definition old_no_flag : inifile := old_ini old_run [] old_elements.

Theorem C124_old_refuted :
  ~ (forall p p', NoDup (section_names p) -> without (old_warnings toyf p) p p' ->
     same_outcome same_settings (read_config toyf ztrunc p) (read_config toyf ztrunc p')).
Proof.
  intros H. specialize (H old_flag old_no_flag).
  assert (Hn : NoDup (section_names old_flag)) by (apply nodupb_NoDup; vm_compute; reflexivity).
  assert (Hw : without (old_warnings toyf old_flag) old_flag old_no_flag).
  { unfold without, old_flag, old_no_flag, old_ini.
    assert (L : forall d l, less d l l) by (induction l as [|[a b] l IH]; constructor; auto).
    constructor; [|repeat (constructor; [split; [reflexivity|apply L]|]); constructor].
    split; [reflexivity|]. cbn [snd]. unfold old_run. cbn [app].
    do 2 apply less_keep. apply less_drop; [|constructor]. cbn [fst].
    apply in_flat_map. eexists. split; [left; reflexivity|]. vm_compute. tauto. }
  specialize (H Hn Hw).
  assert (E : exists cf, read_config toyf ztrunc old_flag = Ok cf /\ dget (cf_model cf) (S_ "anisotropy") = Some (Leaf (ABool false)))
    by (eexists; split; [vm_compute; reflexivity|vm_compute; reflexivity]).
  assert (E' : exists cf, read_config toyf ztrunc old_no_flag = Ok cf /\ dget (cf_model cf) (S_ "anisotropy") = Some (Leaf (ABool true)))
    by (eexists; split; [vm_compute; reflexivity|vm_compute; reflexivity]).
  destruct E as (cf & E1 & E2), E' as (cf' & E1' & E2'). rewrite E1, E1' in H. cbn [same_outcome] in H.
  destruct H as (_ & H & _). specialize (H "anisotropy"). rewrite E2, E2' in H.
  assert (Hi : In "anisotropy" model_names) by (cbn; tauto). specialize (H Hi). discriminate H.
Qed.
Print Assumptions C124_old_refuted.
Example C124_old_example : old_options_of (S_ "hydraulics") (snd (nth 3 old_no_flag (S_ "", []))) old_hydraulics_names /\
  In (S_ "hydraulics", S_ "l_hydro") (old_warnings toyf old_no_flag) /\ ~ In (S_ "scour", S_ "width") (old_warnings toyf old_no_flag).
Proof.
  split; [constructor|]. split; [vm_compute; tauto|].
  assert (H : forallb (fun w => negb (pystr_eqb (fst w) (S_ "scour") && pystr_eqb (snd w) (S_ "width"))) (old_warnings toyf old_no_flag) = true)
    by (vm_compute; reflexivity).
  intros Hi. rewrite forallb_forall in H. apply H in Hi. discriminate.
Qed.

(** *** Example: a misspelled option *)
Definition misspelled : inifile := ex_ini "massive" [kv "bulbset_d" "1"].
Example C124_example :
  new_warnings toyf misspelled = [(S_ "scour", S_ "bulbset_d")] /\
  without (new_warnings toyf misspelled) misspelled (ex_ini "massive" []) /\
  NoDup (section_names misspelled) /\ accepted toyf misspelled.
Proof.
  split; [vm_compute; reflexivity|]. split; [|split].
  - assert (E : new_warnings toyf misspelled = [(S_ "scour", S_ "bulbset_d")]) by (vm_compute; reflexivity).
    rewrite E. clear E. unfold without, misspelled, ex_ini.
    assert (L : forall d l, less d l l) by (induction l as [|[a b] l IH]; constructor; auto).
    do 4 (constructor; [split; [reflexivity|apply L]|]).
    constructor; [|constructor; [split; [reflexivity|apply L]|constructor]].
    split; [reflexivity|]. unfold ex_trough. cbn [snd fst app]. do 14 apply less_keep.
    apply less_drop; [now left|constructor].
  - apply nodupb_NoDup. vm_compute. reflexivity.
  - eexists. vm_compute. reflexivity.
Qed.
Example C124_example_options : options_of (S_ "scour") (snd (ex_trough "massive" [kv "bulbset_d" "1"])) (geometry_names "trough").
Proof.
  apply (of_element _ _ "trough").
  - cbn [map In]. intuition discriminate.
  - apply nodupb_NoDup. vm_compute. reflexivity.
  - now left.
  - now left.
Qed.
