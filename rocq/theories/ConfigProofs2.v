(** Lemmas about reading configurations: elements and whole files. *)
From Coq Require Import List ZArith Bool Ascii String Lia.
From Verif Require Import Base ParseModel ParseSpec SectionSpec ParseProofs ShapeProofs ShapeProofs2 ShapeProofs3
  SectionProofs OptionProofs ConfigModel ConfigSpec ConfigProofs.
Import ListNotations.
Local Open Scope string_scope.

Fixpoint nodupb (l : list pystr) : bool :=
  match l with [] => true | x :: r => negb (mem x r) && nodupb r end.

Lemma mem_In x l : mem x l = true <-> In x l.
Proof.
  unfold mem. rewrite existsb_exists. split.
  - intros (y & H & E). apply pystr_eqb_eq in E. now subst.
  - intros H. exists x. split; [assumption|]. apply pystr_eqb_refl.
Qed.

Lemma nodupb_NoDup l : nodupb l = true -> NoDup l.
Proof.
  induction l as [|x l IH]; simpl; [constructor|]. intros H. apply andb_true_iff in H as [H1 H2].
  constructor; [|auto]. rewrite <- mem_In. now destruct (mem x l).
Qed.

Section Sections.
Context {F : Type} (c : converters F).
Implicit Types (os : list (option_ F)) (d : dict F).

Lemma section_entry os d d' o :
  NoDup (flat_map names os) -> section_parse c os d = Ok d' -> In o os ->
  exists d1 v,
    match first_of d (names o) with
    | None => o_optional o = true /\ v = o_default o
    | Some raw => dget d1 (o_name o) = Some raw /\ option_parse c o d1 = Ok (d1, v)
    end /\ dget d' (o_name o) = Some v.
Proof.
  intros Hnd H Hin. apply in_split in Hin as (pre & post & ->).
  destruct (section_parse_spec c _ d d' Hnd H) as [_ He].
  destruct (He pre o post eq_refl) as (d1 & v & Hm & Hg & _). eauto.
Qed.

Lemma option_parse_list d1 o v t raw :
  dget d1 (o_name o) = Some raw -> option_parse c o d1 = Ok (d1, v) -> o_type o = OList t ->
  o_shape o <> ShInt (-1)%Z -> exists x l, v = Node (x :: l).
Proof.
  intros Hg H Ht Hs. unfold option_parse in H. rewrite (find_alternative_id d1 _ _ raw Hg), Hg, Ht in H.
  destruct raw as [[s| | | |]|]; try discriminate.
  apply bind_Ok in H as (pv & Hpv & H). destruct (all_true _ _); [|discriminate].
  apply bind_Ok in H as (w & Hw & [= ->]).
  unfold apply_shape in Hw. destruct (o_shape o) as [z|n|l].
  - destruct (Z.eqb_spec z (-1)); [congruence|]. now apply fit_shape_node in Hw.
  - destruct (dget d1 n) as [w|]; [|discriminate]. apply bind_Ok in Hw as (sh & _ & Hw).
    destruct sh; now apply fit_shape_node in Hw.
  - apply bind_Ok in Hw as (sh & _ & Hw). now apply fit_shape_node in Hw.
Qed.

(** A list option of a parsed section is a non-empty list, or the default. *)
Lemma section_list os d d' o t :
  NoDup (flat_map names os) -> section_parse c os d = Ok d' -> In o os ->
  o_type o = OList t -> o_shape o <> ShInt (-1)%Z ->
  (exists x l, dget d' (o_name o) = Some (Node (x :: l))) \/
  (o_optional o = true /\ dget d' (o_name o) = Some (o_default o)).
Proof.
  intros Hnd H Hin Ht Hs. destruct (section_entry os d d' o Hnd H Hin) as (d1 & v & Hm & Hg).
  destruct (first_of d (names o)) as [raw|].
  - left. destruct Hm as [H1 H2]. destruct (option_parse_list d1 o v t raw H1 H2 Ht Hs) as (x & l & ->). eauto.
  - right. destruct Hm as [H1 ->]. auto.
Qed.

(** A float option that is given is a number. *)
Lemma section_float os d d' o :
  NoDup (flat_map names os) -> section_parse c os d = Ok d' -> In o os ->
  o_type o = OScalar TFloat -> dmem d (o_name o) = true ->
  exists f, dget d' (o_name o) = Some (Leaf (AFlt f)).
Proof.
  intros Hnd H Hin Ht Hd. destruct (section_entry os d d' o Hnd H Hin) as (d1 & v & Hm & Hg).
  unfold dmem in Hd. unfold names in Hm. cbn [first_of] in Hm. destruct (dget d (o_name o)) as [raw|] eqn:E; [|discriminate].
  destruct Hm as [H1 H2]. unfold option_parse in H2. rewrite (find_alternative_id d1 _ _ raw H1), H1, Ht in H2.
  destruct raw as [[s| | | |]|]; try discriminate. apply bind_Ok in H2 as (a & Ha & H2).
  cbn [convert] in Ha. apply bind_Ok in Ha as (f & _ & [= <-]).
  destruct (o_valid o _); [|discriminate]. injection H2 as <-. eauto.
Qed.

(** A string option is a string, or the default. *)
Lemma section_str os d d' o :
  NoDup (flat_map names os) -> section_parse c os d = Ok d' -> In o os -> o_type o = OScalar TStr ->
  (exists s, dget d' (o_name o) = Some (Leaf (AStr s)) /\ o_valid o (AStr s) = true) \/
  (o_optional o = true /\ dget d' (o_name o) = Some (o_default o)).
Proof.
  intros Hnd H Hin Ht. destruct (section_entry os d d' o Hnd H Hin) as (d1 & v & Hm & Hg).
  destruct (first_of d (names o)) as [raw|].
  - left. destruct Hm as [H1 H2]. unfold option_parse in H2. rewrite (find_alternative_id d1 _ _ raw H1), H1, Ht in H2.
    destruct raw as [[s| | | |]|]; try discriminate. cbn [convert bind] in H2.
    destruct (o_valid o (AStr s)) eqn:E; [|discriminate]. injection H2 as <-. eauto.
  - right. destruct Hm as [H1 ->]. auto.
Qed.
End Sections.

Ltac kneq := let H := fresh in intros H; vm_compute in H; discriminate.

(** ** Elements *)
Section Element.
Context {F : Type} (fo : fops F).
Notation value := (val (atom F)).

Lemma geometry_NoDup g : NoDup (flat_map names (geometry_options fo g)).
Proof.
  unfold geometry_options. destruct (pystr_eqb g _); [|destruct (pystr_eqb g _)];
    apply nodupb_NoDup; vm_compute; reflexivity.
Qed.

Lemma in_geometry o g : In o (element_options fo) -> In o (geometry_options fo g).
Proof.
  intros H. unfold geometry_options, trough_options, channel_options, sheet_options.
  destruct (pystr_eqb g _); [|destruct (pystr_eqb g _)]; apply in_or_app; now left.
Qed.

Definition facies_number (hf : list value) (v : value) : Prop :=
  exists i, v = Leaf (AInt i) /\ (0 <= i < Z.of_nat (List.length hf))%Z.

Lemma parse_facies_range fac hf idx : parse_facies fac (Node hf) = Ok idx ->
  exists ks, idx = Node ks /\ Forall (facies_number hf) ks.
Proof.
  unfold parse_facies. intros H. apply bind_Ok in H as (l & _ & H). apply bind_Ok in H as (ks & H & [= <-]).
  eexists. split; [reflexivity|]. apply mapM_Ok in H. induction H as [|x k l ks Hk H IH]; simpl; constructor; auto.
  apply list_index_Ok in Hk as (l' & [= <-] & Hp). exists k. split; [reflexivity|]. now apply position_bound in Hp.
Qed.

Lemma or_raise_Ok {A} e (r : res A) a : or_raise e r = Ok a -> r = Ok a.
Proof. destruct r; simpl; congruence. Qed.

(** Everything about one accepted element section. *)
Record element_spec (hf : list value) (texts : list (pystr * pystr)) (g : pystr) (e0 e : dict F) (cm : contact F)
  : Prop := {
  es_geometry : In g (map S_ ["trough"; "channel"; "sheet"]);
  es_text : dget (raw_dict texts) (S_ "geometry") = Some (@Leaf (atom F) (AStr g));
  es_parse : section_parse (f_conv fo) (geometry_options fo g) (raw_dict texts) = Ok e0;
  es_contact : exists v, dget e0 (S_ "contact_model") = Some v /\ parse_contact_model (f_conv fo) v false = Ok cm;
  es_facies : exists v idx, dget e0 (S_ "facies") = Some v /\ dget e (S_ "facies") = Some idx /\ positions hf v idx;
  es_altfacies : exists v w, dget e0 (S_ "altfacies") = Some v /\ dget e (S_ "altfacies") = Some w /\
      ((v = Leaf ANone /\ w = Leaf ANone) \/
       exists vs ws, v = Node vs /\ w = Node ws /\
         Forall2 (fun x y => (forall s, x <> Leaf (AStr s)) -> positions hf x y) vs ws /\
         Forall (fun y => exists ks, y = Node ks /\ Forall (facies_number hf) ks) ws);
  es_bg : exists v i, dget e0 (S_ "bg_facies") = Some v /\ dget e (S_ "bg_facies") = Some (Leaf (AInt i)) /\
      ((v = Leaf ANone /\ i = (-1)%Z) \/ position hf v i);
  es_lag : g <> S_ "sheet" -> exists h v i,
      dget e0 (S_ "lag_height") = Some h /\ dget e0 (S_ "lag_facies") = Some v /\
      dget e (S_ "lag_facies") = Some (Leaf (AInt i)) /\
      ((nonzero fo h = false /\ i = (-1)%Z) \/ (nonzero fo h = true /\ position hf v i));
  es_dipset : forall s, dget e0 (S_ "structure") = Some s -> is_str s "dip" || is_str s "random" = true ->
      dmem (raw_dict (F := F) texts) (S_ "dipset_dist") = true;
  es_bulbset : forall s, dget e0 (S_ "structure") = Some s -> is_str s "bulb" || is_str s "random" = true ->
      dmem (raw_dict (F := F) texts) (S_ "bulbset_dist") = true;
  es_rest : forall k, ~ In k (map S_ ["facies"; "altfacies"; "bg_facies"; "lag_facies"]) -> dget e k = dget e0 k }.

Lemma lookup_Ok (d : dict F) k v : lookup d k = Ok v -> dget d (S_ k) = Some v.
Proof. unfold lookup. destruct (dget d (S_ k)); congruence. Qed.

Lemma is_none_true (v : value) : is_none v = true -> v = Leaf ANone.
Proof. destruct v as [[]|]; simpl; congruence. Qed.

Lemma parse_element_inv hyd texts e cm hf :
  dget hyd (S_ "hydrofacies") = Some (Node hf) ->
  parse_element fo hyd texts = Ok (e, cm) ->
  exists g e0, element_spec hf texts g e0 e cm.
Proof.
  intros Hhf H. unfold parse_element in H.
  destruct (dget (raw_dict texts) (S_ "geometry")) as [graw|] eqn:Hg; [|discriminate].
  destruct graw as [[g| | | |]|]; try discriminate.
  destruct (mem g _) eqn:Hmem; [|discriminate]. cbn [negb] in H. apply mem_In in Hmem.
  apply bind_Ok in H as (e0 & Hp & H). apply bind_Ok in H as (cmv & Hcv & H). apply bind_Ok in H as (cm' & Hc & H).
  apply bind_Ok in H as (hf' & Hh & H). apply lookup_Ok in Hh. rewrite Hhf in Hh. injection Hh as <-.
  apply bind_Ok in H as (fac & Hfac & H). apply bind_Ok in H as (facies & Hfacies & H). apply or_raise_Ok in Hfacies.
  apply bind_Ok in H as (alt & Halt & H). apply bind_Ok in H as (e2 & He2 & H).
  apply bind_Ok in H as (bg & Hbg & H). apply bind_Ok in H as (bgi & Hbgi & H).
  apply bind_Ok in H as (st & Hst & H). apply bind_Ok in H as (u1 & Hu1 & H). apply bind_Ok in H as (u2 & Hu2 & H).
  apply lookup_Ok in Hcv, Hfac, Halt, Hbg, Hst.
  assert (Hnd := geometry_NoDup g).
  rewrite dget_dset_other in Halt by kneq.
  (* e2: facies and perhaps altfacies set *)
  assert (He2' : (forall k, k <> S_ "facies" -> k <> S_ "altfacies" -> dget e2 k = dget e0 k) /\
                 dget e2 (S_ "facies") = Some facies /\
                 exists w, dget e2 (S_ "altfacies") = Some w /\
      ((alt = Leaf ANone /\ w = Leaf ANone) \/
       exists vs ws, alt = Node vs /\ w = Node ws /\
         Forall2 (fun x y => (forall s, x <> Leaf (AStr s)) -> positions hf x y) vs ws /\
         Forall (fun y => exists ks, y = Node ks /\ Forall (facies_number hf) ks) ws)).
  { destruct (is_none alt) eqn:En.
    - injection He2 as <-. apply is_none_true in En. subst alt. repeat split.
      + intros k H1 H2. now rewrite dget_dset_other.
      + apply dget_dset_same.
      + exists (Leaf ANone). rewrite dget_dset_other by kneq. auto.
    - apply bind_Ok in He2 as (a & Ha & [= <-]). apply or_raise_Ok in Ha. repeat split.
      + intros k H1 H2. now rewrite !dget_dset_other.
      + rewrite dget_dset_other by kneq. apply dget_dset_same.
      + exists a. split; [apply dget_dset_same|]. right.
        assert (Hnode : exists vs, alt = Node vs).
        { destruct (section_list (f_conv fo) _ _ _ (listo "altfacies" TStr true (Leaf none)
             (ShList [DName (S_ "facies"); DVal (Leaf (-1)%Z)])) TStr Hnd Hp) as [(x & l & E)|[_ E]].
          - apply in_geometry. simpl. tauto.
          - reflexivity.
          - discriminate.
          - cbn [o_name listo] in E. rewrite Halt in E. injection E as ->. eauto.
          - cbn [o_name listo o_default] in E. rewrite Halt in E. injection E as ->. discriminate. }
        destruct Hnode as (vs & ->). cbn [items bind] in Ha. apply bind_Ok in Ha as (ws & Hws & [= <-]).
        exists vs, ws. repeat split; auto.
        * apply mapM_Ok in Hws. clear -Hws. induction Hws as [|x y vs ws Hx H IH]; constructor; auto.
          intros Hs. now apply parse_facies_Ok.
        * apply mapM_Ok in Hws. clear -Hws. induction Hws as [|x y vs ws Hx H IH]; constructor; auto.
          eapply parse_facies_range; eauto. }
  destruct He2' as (He2k & He2f & w & He2w & Hw).
  rewrite He2k in Hbg by kneq.
  assert (Hbgs : (bg = Leaf ANone /\ bgi = (-1)%Z) \/ position hf bg bgi).
  { destruct (is_none bg) eqn:En.
    - left. injection Hbgi as <-. now apply is_none_true in En.
    - right. apply or_raise_Ok in Hbgi. apply list_index_Ok in Hbgi as (l & [= <-] & Hpos). exact Hpos. }
  set (e3 := dset e2 (S_ "bg_facies") (Leaf (AInt bgi))) in *.
  assert (Hst0 : dget e0 (S_ "structure") = Some st).
  { unfold e3 in Hst. rewrite dget_dset_other in Hst by kneq. rewrite He2k in Hst by kneq. exact Hst. }
  assert (He3k : forall k, k <> S_ "facies" -> k <> S_ "altfacies" -> k <> S_ "bg_facies" -> dget e3 k = dget e0 k).
  { intros k H1 H2 H3. unfold e3. rewrite dget_dset_other by assumption. auto. }
  assert (Hfin : cm' = cm /\
     (forall k, k <> S_ "lag_facies" -> dget e k = dget e3 k) /\
     (g = S_ "sheet" -> dget e (S_ "lag_facies") = dget e3 (S_ "lag_facies")) /\
     (g <> S_ "sheet" -> exists h v i,
      dget e0 (S_ "lag_height") = Some h /\ dget e0 (S_ "lag_facies") = Some v /\
      dget e (S_ "lag_facies") = Some (Leaf (AInt i)) /\
      ((nonzero fo h = false /\ i = (-1)%Z) \/ (nonzero fo h = true /\ position hf v i)))).
  { destruct (mem g (map S_ ["trough"; "channel"])) eqn:Hm2.
    - apply bind_Ok in H as (lh & Hlh & H). apply bind_Ok in H as (lf & Hlf & H). apply bind_Ok in H as (k & Hk & [= <- <-]).
      apply lookup_Ok in Hlh, Hlf. rewrite He3k in Hlh by kneq. rewrite He3k in Hlf by kneq.
      split; [reflexivity|]. split; [intros k' Hk'; now rewrite dget_dset_other|]. split.
      + intros ->. vm_compute in Hm2. discriminate.
      + intros _. exists lh, lf, k. rewrite dget_dset_same. repeat split; auto.
        destruct (nonzero fo lh); [right|left].
        * split; [reflexivity|]. apply or_raise_Ok in Hk. apply list_index_Ok in Hk as (l & [= <-] & Hpos). exact Hpos.
        * split; [reflexivity|]. congruence.
    - injection H as <- <-. split; [reflexivity|]. split; [auto|]. split; [auto|].
      intros Hn. exfalso. cbn [map In] in Hmem. unfold mem in Hm2. cbn [map existsb] in Hm2.
      destruct Hmem as [<-|[<-|[<-|[]]]]; [vm_compute in Hm2; discriminate..|congruence]. }
  destruct Hfin as (-> & Hek & _ & Hlag).
  exists g, e0. constructor; try assumption.
  - exists cmv. auto.
  - exists fac, facies. split; [assumption|]. split.
    + rewrite Hek by kneq. unfold e3. rewrite dget_dset_other by kneq. exact He2f.
    + apply parse_facies_Ok; [|exact Hfacies].
      intros s ->. destruct (section_list (f_conv fo) _ _ _ (listo "facies" TStr false (Leaf none) free1) TStr Hnd Hp)
        as [(x & l & E)|[E _]]; [apply in_geometry; simpl; tauto|reflexivity|discriminate| |discriminate].
      cbn [o_name listo] in E. congruence.
  - exists alt, w. split; [assumption|]. split; [|exact Hw].
    rewrite Hek by kneq. unfold e3. rewrite dget_dset_other by kneq. exact He2w.
  - exists bg, bgi. split; [assumption|]. split; [|exact Hbgs].
    rewrite Hek by kneq. unfold e3. apply dget_dset_same.
  - intros s Hs Hb. rewrite Hst0 in Hs. injection Hs as <-. rewrite Hb in Hu1.
    destruct (dmem _ (S_ "dipset_dist")); [reflexivity|discriminate].
  - intros s Hs Hb. rewrite Hst0 in Hs. injection Hs as <-. rewrite Hb in Hu2.
    destruct (dmem _ (S_ "bulbset_dist")); [reflexivity|discriminate].
  - intros k Hk. cbn [map In] in Hk. rewrite Hek by (intros ->; tauto). apply He3k; intros ->; tauto.
Qed.
End Element.

(** ** The whole file *)
Section File.
Context {F : Type} (fo : fops F).
Notation value := (val (atom F)).

Lemma remove_name_incl x l y : In y (remove_name x l) -> In y l.
Proof.
  induction l as [|z l IH]; simpl; [tauto|]. destruct (pystr_eqb x z); [now right|].
  intros [H|H]; [now left|right; auto].
Qed.

Lemma remove_name_NoDup x l : NoDup l -> NoDup (remove_name x l) /\ ~ In x (remove_name x l).
Proof.
  induction l as [|z l IH]; simpl; intros H; [split; [constructor|tauto]|].
  inversion H; subst. destruct (IH H3) as [I1 I2]. destruct (pystr_eqb x z) eqn:E.
  - apply pystr_eqb_eq in E. subst. auto.
  - split.
    + constructor; [|assumption]. intros Hin. now apply remove_name_incl in Hin.
    + simpl. intros [->|Hin]; [now rewrite pystr_eqb_refl in E|]. tauto.
Qed.

Definition core_names : list pystr := map S_ ["run"; "hydraulics"; "model"; "strata"].

Record file_spec (p : inifile) (cf : config F) : Prop := {
  fs_hydro : exists t, section_texts p (S_ "hydraulics") = Some t /\
     section_parse (f_conv fo) hydraulics_options (raw_dict t) = Ok (cf_hydraulics cf);
  fs_run : exists t, section_texts p (S_ "run") = Some t /\
     section_parse (f_conv fo) run_options (raw_dict t) = Ok (cf_run cf);
  fs_hf : exists x l, dget (cf_hydraulics cf) (S_ "hydrofacies") = Some (Node (x :: l));
  fs_strata : exists t s0, section_texts p (S_ "strata") = Some t /\
     section_parse (f_conv fo) strata_options (raw_dict t) = Ok s0 /\
     (forall k, k <> S_ "bg_facies" -> dget (cf_strata cf) k = dget s0 k) /\
     exists cms sts, dget s0 (S_ "strata_contact_models") = Some (Node cms) /\ dget s0 (S_ "strata") = Some (Node sts) /\
       cms <> [] /\ sts <> [] /\
       S (List.length cms) = List.length sts /\
       Forall2 (fun v cm => parse_contact_model (f_conv fo) v true = Ok cm) cms (cf_contacts cf) /\
       (forall hf, dget (cf_hydraulics cf) (S_ "hydrofacies") = Some (Node hf) ->
          exists v idx, dget s0 (S_ "bg_facies") = Some v /\ dget (cf_strata cf) (S_ "bg_facies") = Some idx /\
            positions hf v idx);
  fs_elements : NoDup (section_names p) -> NoDup (map fst (cf_elements cf)) /\
     (forall n, In n (map fst (cf_elements cf)) -> In n (section_names p) /\ ~ In n core_names);
  fs_element : forall n e cm, In (n, (e, cm)) (cf_elements cf) ->
     exists t, section_texts p n = Some t /\ parse_element fo (cf_hydraulics cf) t = Ok (e, cm) }.

Lemma strata_NoDup : NoDup (flat_map names (strata_options (F := F))).
Proof. apply nodupb_NoDup. vm_compute. reflexivity. Qed.
Lemma hydraulics_NoDup : NoDup (flat_map names (hydraulics_options (F := F))).
Proof. apply nodupb_NoDup. vm_compute. reflexivity. Qed.
Lemma run_NoDup : NoDup (flat_map names (run_options (F := F))).
Proof. apply nodupb_NoDup. vm_compute. reflexivity. Qed.

Lemma section_req os (d d' : dict F) n t sh :
  NoDup (flat_map names os) -> section_parse (f_conv fo) os d = Ok d' ->
  In (listo n t false (Leaf none) sh) os -> sh <> ShInt (-1)%Z ->
  exists x l, dget d' (S_ n) = Some (Node (x :: l)).
Proof.
  intros Hnd H Hin Hsh.
  destruct (section_list (f_conv fo) os d d' _ t Hnd H Hin eq_refl Hsh) as [Hx|[Hx _]]; [exact Hx|discriminate].
Qed.

Lemma parse_inifile_inv p cf : parse_inifile fo p = Ok cf -> file_spec p cf.
Proof.
  intros H. unfold parse_inifile in H.
  apply bind_Ok in H as (u0 & Hu0 & H).
  apply bind_Ok in H as (trun & Htrun & H). apply bind_Ok in H as (run & Hrun & H).
  apply bind_Ok in H as (thyd & Hthyd & H). apply bind_Ok in H as (hyd & Hhyd & H).
  apply bind_Ok in H as (tmod & Htmod & H). apply bind_Ok in H as (m0 & Hm0 & H).
  apply bind_Ok in H as (m1 & Hm1 & H). apply bind_Ok in H as (m2 & Hm2 & H).
  apply bind_Ok in H as (tstr & Htstr & H). apply bind_Ok in H as (s0 & Hs0 & H).
  apply bind_Ok in H as (cmv & Hcmv & H). apply bind_Ok in H as (stv & Hstv & H).
  apply bind_Ok in H as (ncm & Hncm & H). apply bind_Ok in H as (nst & Hnst & H).
  apply bind_Ok in H as (u1 & Hu1 & H). apply bind_Ok in H as (l & Hl & H).
  apply bind_Ok in H as (contacts & Hcon & H). apply bind_Ok in H as (bg & Hbg & H).
  apply bind_Ok in H as (hf & Hhf & H). apply bind_Ok in H as (bgi & Hbgi & H).
  apply bind_Ok in H as (outv & Houtv & H). apply bind_Ok in H as (outl & Houtl & H).
  apply bind_Ok in H as (u2 & Hu2 & H). apply bind_Ok in H as ([ft secs] & Hft & H).
  apply bind_Ok in H as (elems & Hel & [= <-]).
  apply lookup_Ok in Hcmv, Hstv, Hbg, Hhf. apply or_raise_Ok in Hbgi.
  assert (Hsec : forall n t, sec p n = Ok t -> section_texts p (S_ n) = Some t).
  { intros n t. unfold sec. destruct (section_texts p (S_ n)); congruence. }
  destruct (section_req _ _ _ "hydrofacies" TStr free1 hydraulics_NoDup Hhyd) as (x & hl & Ehf); [simpl; tauto|discriminate|].
  destruct (section_req _ _ _ "strata_contact_models" TStr (ShList [DVal (Leaf (-1)%Z); DVal (Leaf (-1)%Z)]) strata_NoDup Hs0) as (xc & cl & Ecm);
    [right; left; reflexivity|discriminate|].
  destruct (section_req _ _ _ "strata" TStr free1 strata_NoDup Hs0) as (xs & sl & Est); [left; reflexivity|discriminate|].
  destruct (section_req _ _ _ "bg_facies" TStr (ShName (S_ "strata")) strata_NoDup Hs0) as (xb & bl & Ebg);
    [simpl; tauto|discriminate|].
  rewrite Hcmv in Ecm. injection Ecm as ->. rewrite Hstv in Est. injection Est as ->.
  rewrite Hbg in Ebg. injection Ebg as ->. rewrite Hhf in Ehf. injection Ehf as ->.
  cbn [py_len] in Hncm, Hnst. injection Hncm as <-. injection Hnst as <-. cbn [items] in Hl. injection Hl as <-.
  constructor; cbn [cf_hydraulics cf_run cf_strata cf_contacts cf_elements].
  - exists thyd. auto.
  - exists trun. auto.
  - eauto.
  - exists tstr, s0. split; [auto|]. split; [assumption|]. split; [intros k Hk; now rewrite dget_dset_other|].
    exists (xc :: cl), (xs :: sl). repeat split; try assumption; try discriminate.
    + revert Hu1. match goal with |- context [Z.eqb ?a ?b] => destruct (Z.eqb_spec a b) as [E|E] end;
        [intros _|discriminate]. cbn [List.length] in *. lia.
    + now apply mapM_Ok in Hcon.
    + intros hf' E. rewrite Hhf in E. injection E as <-. exists (Node (xb :: bl)), bgi. rewrite dget_dset_same.
      repeat split; auto. apply parse_facies_Ok; [discriminate|assumption].
  - intros Hnd.
    assert (Hnames : map fst elems = secs).
    { apply mapM_Ok in Hel. clear -Hel. induction Hel as [|s e secs elems He H IH]; [reflexivity|].
      simpl. f_equal; [|assumption]. destruct (section_texts p s); [|discriminate].
      apply bind_Ok in He as (e' & _ & [= <-]). reflexivity. }
    rewrite Hnames.
    destruct (remove_name_NoDup (S_ "run") _ Hnd) as [N1 M1].
    destruct (remove_name_NoDup (S_ "hydraulics") _ N1) as [N2 M2].
    destruct (remove_name_NoDup (S_ "model") _ N2) as [N3 M3].
    destruct (remove_name_NoDup (S_ "strata") _ N3) as [N4 M4].
    set (rem := remove_name (S_ "strata") _) in *.
    assert (Hsecs : NoDup secs /\ (forall n, In n secs -> In n rem)).
    { destruct (mem (S_ "flowtrans") rem).
      - apply bind_Ok in Hft as (t & _ & Hft). apply bind_Ok in Hft as (ft' & _ & [= <- <-]).
        destruct (remove_name_NoDup (S_ "flowtrans") _ N4) as [N5 _]. split; [assumption|].
        intros n. apply remove_name_incl.
      - injection Hft as <- <-. auto. }
    destruct Hsecs as [N5 Hin]. split; [assumption|]. intros n Hn. apply Hin in Hn.
    split.
    + unfold rem in Hn. repeat apply remove_name_incl in Hn. exact Hn.
    + unfold core_names. cbn [map In]. unfold rem in *. intros [<-|[<-|[<-|[<-|[]]]]].
      * apply remove_name_incl in Hn. apply remove_name_incl in Hn. apply remove_name_incl in Hn. tauto.
      * apply remove_name_incl in Hn. apply remove_name_incl in Hn. tauto.
      * apply remove_name_incl in Hn. tauto.
      * tauto.
  - intros n e cm Hin. apply mapM_Ok in Hel. clear -Hel Hin.
    induction Hel as [|s e' secs elems He H IH]; [destruct Hin|].
    destruct Hin as [->|Hin]; [|auto]. destruct (section_texts p s) as [t|] eqn:E; [|discriminate].
    apply bind_Ok in He as (ec & Hec & [= <- ->]). eauto.
Qed.

(** Identifiers. *)
Lemma ae_ids_inv p cf ids : parse_inifile fo p = Ok cf -> ae_ids cf = Ok ids ->
  exists ae, dget (cf_strata cf) (S_ "ae") = Some (Node ae) /\ map fst ids = map fst (cf_elements cf) /\
    Forall (fun ni => position ae (Leaf (AStr (fst ni))) (snd ni)) ids.
Proof.
  intros Hp H. apply parse_inifile_inv in Hp. destruct Hp as [_ _ _ (t & s0 & _ & Hs0 & Hk & _) _ _].
  destruct (section_req _ _ _ "ae" TStr free1 strata_NoDup Hs0) as (x & l & E); [simpl; tauto|discriminate|].
  rewrite <- Hk in E by kneq. unfold ae_ids, lookup in H. rewrite E in H. cbn [bind] in H.
  exists (x :: l). split; [exact E|]. apply mapM_Ok in H. clear -H.
  induction H as [|e i es ids He H [IH1 IH2]]; [split; constructor|].
  apply bind_Ok in He as (k & Hk & [= <-]). apply list_index_Ok in Hk as (l' & [= <-] & Hpos).
  simpl. split; [now f_equal|]. constructor; assumption.
Qed.

Lemma ae_ids_unlisted p cf : parse_inifile fo p = Ok cf ->
  forall ae n e, dget (cf_strata cf) (S_ "ae") = Some (Node ae) -> In (n, e) (cf_elements cf) ->
  ~ In (Leaf (AStr n)) ae -> ae_ids cf = Err ValueError.
Proof.
  intros Hp ae n e Hae Hin Hn. unfold ae_ids, lookup. rewrite Hae. cbn [bind].
  revert Hin. generalize (cf_elements cf). intros l. induction l as [|x l IH]; [intros []|].
  intros [->|Hin]; cbn [mapM fst].
  - unfold list_index at 1. destruct (index_in _ ae) as [k|] eqn:E.
    + exfalso. apply Hn. apply index_in_some in E as [E _]. now apply nth_error_In in E.
    + reflexivity.
  - specialize (IH Hin). destruct (list_index (Node ae) (Leaf (AStr (fst x)))) eqn:E; cbn [bind].
    + now rewrite IH.
    + unfold list_index in E. destruct (index_in _ _); congruence.
Qed.
End File.
