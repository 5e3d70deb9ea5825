(** C107, C108: from the ini-file to the cells. *)
From Coq Require Import List ZArith Bool Ascii String Reals Lia Lra.
From Verif Require Import Base Num ParseModel SectionSpec SectionProofs ConfigModel ConfigSpec ConfigProofs ConfigProofs2 ConfigProps DeprecatedModel DeprecatedSpec DeprecatedProofs DeprecatedProps
  SurfaceModel StrataModel AssignModel FaciesModel TroughModel SheetModel ChannelModel FullModel FullSpec FullProps LinkModel LinkSpec LinkProofs.
Import ListNotations.
Local Open Scope string_scope.

Lemma full_model_length g fuel contacts params n draws : forall si st top strata st' strata',
  full_model_loop g fuel contacts params n draws si st top strata = Ok (st', strata') -> List.length strata = si -> List.length strata' = n.
Proof.
  induction draws as [|sd draws IH]; intros si st top strata st' strata' H Hl; cbn [full_model_loop] in H.
  - destruct (Nat.eqb_spec si n); [|discriminate]. injection H as _ <-. lia.
  - apply bind_Ok in H as (s & _ & H). destruct (alloc st s) as [st1 b]. apply bind_Ok in H as (st2 & _ & H). apply bind_Ok in H as (fp & _ & H). apply bind_Ok in H as ([st3 str] & _ & H).
    apply IH in H; [exact H|]. rewrite app_length. cbn. lia.
Qed.
Lemma full_generate_length g fuel contacts params draws st strata : full_generate g fuel contacts params draws = Ok (st, strata) -> List.length strata = List.length params.
Proof.
  unfold full_generate. intros H. apply bind_Ok in H as (s & _ & H). destruct (alloc [] s) as [st1 b]. eapply full_model_length; eauto.
Qed.

(** C107.  Both ini formats: a cell reports the number, in the list ae, of a type
    that ae_in_strata lists for its stratum, and a facies that stands in the
    section of this type, or the background of the stratum if the section has
    none.  Only types with layers may give something else. *)
Theorem C107_cells_of_configuration :
  forall (F : Type) (fin : F -> option R) is_nan (cf : config F) lk fuel draws st strata wild,
  link fin is_nan cf = Ok lk ->
  Forall (fsd_ok (columns (lk_grid lk))) draws -> generate lk fuel draws = Ok (st, strata) ->
  forall xi yi zi x y z, nth_error (g_x (lk_grid lk)) xi = Some x -> nth_error (g_y (lk_grid lk)) yi = Some y -> nth_error (g_z (lk_grid lk)) zi = Some z ->
  exists v, arrays lk wild st strata xi yi zi = Some v /\
  (v = mkCell 0 0 (-1) (-1) (-1) (Some 0%R) (Some 0%R) \/
   c_facies v <> (-1)%Z /\
   exists si n e cm ae t names,
     c_strata v = Z.of_nat si /\ entry (cf_strata cf) "ae_in_strata" si t /\ items t = Ok names /\ In (Leaf (AStr n)) names /\
     In (n, (e, cm)) (cf_elements cf) /\ has (cf_strata cf) "ae" (Node ae) /\ ConfigSpec.position ae (Leaf (AStr n)) (c_hat v) /\
     (mentions e (c_facies v) \/
      has e "bg_facies" (Leaf (AInt (-1))) /\ ~ geometry_is e "sheet" /\ entry (cf_strata cf) "bg_facies" si (Leaf (AInt (c_facies v))) \/
      has_layers e /\ (geometry_is e "sheet" /\ c_facies v = 0%Z \/ exists num oi, c_facies v = wild num oi (mkPoint x y z xi yi)))).
Proof.
  intros F fin is_nan cf lk fuel draws st strata wild Hlk Hd Hg xi yi zi x y z Ex Ey Ez.
  destruct (C106_facies_of_type _ _ _ _ _ _ _ (lk_domain lk) (mkCGrid (List.length (g_x (lk_grid lk))) (List.length (g_y (lk_grid lk))) (g_dx (lk_grid lk))) wild _ _ _ Hd Hg xi yi zi x y z Ex Ey Ez)
    as (v & Ev & Hv).
  exists v. split; [exact Ev|]. destruct Hv as [Hv|(Hf & si & fs & ea & fp & ft & H1 & H2 & H3 & H4 & H5 & H6 & H7)]; [now left|right]. split; [exact Hf|].
  destruct (link_inv _ _ _ _ Hlk) as (ids & sts & Hids & Hsts & Hlen & Hstr).
  assert (Hsi : (si < List.length (lk_params lk))%nat).
  { assert (List.length strata = List.length (lk_params lk)) as <- by (eapply full_generate_length; eauto). now apply nth_error_Some; congruence. }
  specialize (Hstr si fp H4 Hsi).
  destruct (link_stratum_inv _ _ _ _ _ _ Hstr) as [(ls & w & B1 & B2 & ->) (ls' & t & names & T1 & T2 & T3 & T4)].
  destruct (Forall2_nth_r _ _ _ T4 _ _ H5) as (nv & Hnv & Hnt).
  assert (Ent : forall k l w, has (cf_strata cf) k l -> py_item l (-1 - Z.of_nat si) = Ok w -> entry (cf_strata cf) k si w).
  { intros k l w K1 K2. unfold py_item in K2. apply bind_Ok in K2 as (l' & K2 & K3). apply pyget_neg in K3 as [K3 K4]. exists l, l'. auto. }
  unfold named_type in Hnt. destruct nv as [[n| | | |]|]; try discriminate.
  apply bind_Ok in Hnt as (ec & Hec & Hnt). apply bind_Ok in Hnt as (id & Hid & Hnt). apply link_type_from in Hnt as [Q1 Q2 Q3 Q4 Q5].
  destruct ec as [e cm]. cbn [fst] in *. apply assoc_In in Hec, Hid.
  unfold ae_ids in Hids. apply bind_Ok in Hids as (aev & Hae & Hids). apply lookup_Ok in Hae. apply mapM_Ok in Hids.
  destruct (Forall2_in_r _ _ _ _ Hids Hid) as ([n' ec'] & Hin & Hk). cbn [fst] in Hk. apply bind_Ok in Hk as (k & Hk & Hk'). injection Hk' as -> ->.
  apply list_index_Ok in Hk as (ae & -> & Hpos).
  exists si, n, e, cm, ae, t, names. split; [assumption|]. split; [eauto|]. split; [assumption|]. split; [eapply nth_error_In; eauto|]. split; [assumption|]. split; [exact Hae|].
  split; [rewrite H6, Q1; exact Hpos|].
  destruct H7 as [H7|[[N H7]|[L H7]]]; [left; auto| |].
  - unfold own_background in H7. destruct Q3 as (f & Q3 & Q3'). rewrite Q3' in H7. destruct (f =? -1)%Z eqn:Ef.
    + apply Z.eqb_eq in Ef. rewrite Ef in Q3. right. left. split; [exact Q3|]. split; [tauto|]. rewrite H7. eauto.
    + left. rewrite H7. now apply is_bg.
  - right. right. split; [auto|]. destruct H7 as [[H7 H8]|H7]; [left; tauto|right; exact H7].
Qed.
Print Assumptions C107_cells_of_configuration.

(** The numbers in accepted sections are those of hydrofacies. *)
Lemma element_geometry (F : Type) (fo : fops F) hf texts g (e0 e : dict F) cm :
  element_spec fo hf texts g e0 e cm -> has e "geometry" (Leaf (AStr g)).
Proof.
  intros H. unfold has. rewrite (es_rest _ _ _ _ _ _ _ H) by (cbn [map In]; intros K; repeat (destruct K as [K|K]; [vm_compute in K; discriminate|]); exact K).
  pose proof (es_text _ _ _ _ _ _ _ H) as Ht. pose proof (es_parse _ _ _ _ _ _ _ H) as Hp.
  destruct (section_entry (f_conv fo) _ _ _ (mkOption (S_ "geometry") (OScalar TStr) false (Leaf none) (ShInt (-1)%Z) (one_of ["trough"; "channel"; "sheet"]) [])
    (geometry_NoDup fo g) Hp) as (d1 & v & Hm & Hg).
  { apply in_geometry. now left. }
  cbn [o_name] in Hg. rewrite Hg. f_equal. unfold SectionSpec.names in Hm. cbn [o_name o_alts first_of] in Hm. rewrite Ht in Hm. destruct Hm as [Hd Ho].
  unfold option_parse in Ho. rewrite (find_alternative_id d1 _ _ _ Hd) in Ho. cbn [o_name] in Hd, Ho. rewrite Hd in Ho. cbn [o_type convert bind o_valid] in Ho.
  destruct (one_of _ _); congruence.
Qed.
Lemma mentions_valid (F : Type) (fo : fops F) hf texts g (e0 e : dict F) cm f :
  element_spec fo hf texts g e0 e cm -> mentions e f -> f <> (-1)%Z -> (0 <= f < Z.of_nat (List.length hf))%Z.
Proof.
  intros H M Hf. destruct M as [l H1 H2|l k H1 H2 H3|H1 H2|H1].
  - destruct (es_facies _ _ _ _ _ _ _ H) as (v & idx & _ & E & (ns & ks & _ & -> & Hp)). unfold has in H1. rewrite E in H1. injection H1 as <-.
    apply in_map_iff in H2 as (i & [= ->] & Hi). destruct (Forall2_in_r _ _ _ _ Hp Hi) as (a & _ & P). now apply position_bound in P.
  - destruct (es_altfacies _ _ _ _ _ _ _ H) as (v & w & _ & E & [[_ ->]|(vs & ws & _ & -> & _ & Hw)]); unfold has in H1; rewrite E in H1; [discriminate|]. injection H1 as <-.
    rewrite Forall_forall in Hw. destruct (Hw _ H2) as (ks & [= <-] & Hk). rewrite Forall_forall in Hk. destruct (Hk _ H3) as (i & [= <-] & Hi). exact Hi.
  - destruct (es_lag _ _ _ _ _ _ _ H) as (h & v & i & _ & _ & E & Hi).
    { intros ->. apply H1. exact (element_geometry _ _ _ _ _ _ _ _ H). }
    unfold has in H2. rewrite E in H2. injection H2 as <-. destruct Hi as [[_ Hi]|[_ Hi]]; [contradiction|now apply position_bound in Hi].
  - destruct (es_bg _ _ _ _ _ _ _ H) as (v & i & _ & E & Hi). unfold has in H1. rewrite E in H1. injection H1 as <-. destruct Hi as [[_ Hi]|Hi]; [contradiction|now apply position_bound in Hi].
Qed.

(** C107.  New ini format: every facies number in the arrays is the position of a
    facies in the list hydrofacies. *)
Theorem C107_valid_facies :
  forall (F : Type) (fo : fops F) (fin : F -> option R) is_nan p (cf : config F) lk fuel draws st strata wild,
  parse_inifile fo p = Ok cf -> link fin is_nan cf = Ok lk ->
  Forall (fsd_ok (columns (lk_grid lk))) draws -> generate lk fuel draws = Ok (st, strata) ->
  forall xi yi zi x y z, nth_error (g_x (lk_grid lk)) xi = Some x -> nth_error (g_y (lk_grid lk)) yi = Some y -> nth_error (g_z (lk_grid lk)) zi = Some z ->
  exists v hf, arrays lk wild st strata xi yi zi = Some v /\ has (cf_hydraulics cf) "hydrofacies" (Node hf) /\
  ((0 <= c_facies v < Z.of_nat (List.length hf))%Z \/
   exists n e cm num oi, In (n, (e, cm)) (cf_elements cf) /\ has_layers e /\ c_facies v = wild num oi (mkPoint x y z xi yi)).
Proof.
  intros F fo fin is_nan p cf lk fuel draws st strata wild Hp Hlk Hd Hg xi yi zi x y z Ex Ey Ez.
  destruct (C107_cells_of_configuration _ _ _ _ _ _ _ _ _ wild Hlk Hd Hg xi yi zi x y z Ex Ey Ez) as (v & Ev & Hv).
  apply parse_inifile_inv in Hp. destruct Hp as [_ _ (hx & hl & Hhf) (t0 & s0 & _ & _ & _ & cms & sts & _ & _ & _ & _ & _ & _ & Hbg) _ Hel].
  exists v, (hx :: hl). split; [exact Ev|]. split; [exact Hhf|].
  destruct Hv as [->|(Hf & si & n & e & cm & ae & t & names & H1 & H2 & H3 & H4 & H5 & H6 & H7 & H8)]; [left; cbn; lia|].
  destruct (Hel _ _ _ H5) as (tx & _ & Hpe). destruct (parse_element_inv fo _ _ _ _ _ Hhf Hpe) as (g & e0 & Hes).
  destruct H8 as [H8|[(H8 & H9 & H10)|(H8 & [[_ H9]|(num & oi & H9)])]].
  - left. eapply mentions_valid; eauto.
  - left. destruct (Hbg _ Hhf) as (v0 & idx & _ & E & (ns & ks & _ & -> & Hpos)). destruct H10 as (w & l & K1 & K2 & K3 & K4). unfold has in K1. rewrite E in K1. injection K1 as <-.
    cbn in K2. injection K2 as <-. apply nth_error_In, in_map_iff in K4 as (i & [= Hi] & Hin). destruct (Forall2_in_r _ _ _ _ Hpos Hin) as (a & _ & P). apply position_bound in P. lia.
  - left. rewrite H9. cbn. lia.
  - right. exists n, e, cm, num, oi. auto.
Qed.
Print Assumptions C107_valid_facies.

(** ** C108 *)
Lemma is_str_S (F : Type) a b : is_str (Leaf (AStr (F := F) (S_ a))) b = String.eqb a b.
Proof. rewrite <- eqb_S. reflexivity. Qed.
Lemma S_inj a b : S_ a = S_ b -> a = b.
Proof. intros H. apply String.eqb_eq. rewrite <- eqb_S, H. apply pystr_eqb_refl. Qed.
Lemma section_number (F : Type) (c : converters F) os (d d' : dict F) o :
  NoDup (flat_map SectionSpec.names os) -> section_parse c os d = Ok d' -> In o os -> o_type o = OScalar TFloat ->
  o_optional o = false \/ (exists f, o_default o = Leaf (AFlt f)) ->
  exists f, dget d' (o_name o) = Some (Leaf (AFlt f)).
Proof.
  intros Hnd H Hin Ht Ho. destruct (section_entry c os d d' o Hnd H Hin) as (d1 & v & Hm & Hg).
  destruct (first_of d (SectionSpec.names o)) as [raw|].
  - destruct Hm as [H1 H2]. unfold option_parse in H2. rewrite (find_alternative_id d1 _ _ raw H1), H1, Ht in H2.
    destruct raw as [[s| | | |]|]; try discriminate. apply bind_Ok in H2 as (a & Ha & H2).
    cbn [convert] in Ha. apply bind_Ok in Ha as (f & _ & [= <-]).
    destruct (o_valid o _); [|discriminate]. injection H2 as <-. eauto.
  - destruct Hm as [H1 ->]. destruct Ho as [Ho|(f & Ho)]; [congruence|]. rewrite Ho in Hg. eauto.
Qed.
Definition number_option {F} (k : string) (o : option_ F) : bool :=
  pystr_eqb (S_ k) (o_name o) && (match o_type o with OScalar TFloat => true | _ => false end) &&
  (negb (o_optional o) || match o_default o with Leaf (AFlt _) => true | _ => false end).
Lemma section_number_b (F : Type) (c : converters F) os (d d' : dict F) k :
  NoDup (flat_map SectionSpec.names os) -> section_parse c os d = Ok d' -> existsb (number_option k) os = true -> exists f, dget d' (S_ k) = Some (Leaf (AFlt f)).
Proof.
  intros Hnd H Hk. apply existsb_exists in Hk as (o & Hin & Hk). apply andb_prop in Hk as [Hk H3]. apply andb_prop in Hk as [H1 H2]. apply pystr_eqb_eq in H1. rewrite H1.
  eapply section_number; eauto.
  - repeat match type of H2 with context [match ?x with _ => _ end] => destruct x end; congruence.
  - apply orb_prop in H3 as [H3|H3]; [left; now destruct (o_optional o)|right]. destruct (o_default o) as [[]|]; try discriminate. eauto.
Qed.
Lemma section_has (F : Type) (c : converters F) os (d d' : dict F) k :
  NoDup (flat_map SectionSpec.names os) -> section_parse c os d = Ok d' -> mem k (map o_name os) = true -> exists v, dget d' k = Some v.
Proof.
  intros Hnd H Hk. apply mem_In in Hk. apply in_map_iff in Hk as (o & <- & Hin). destruct (section_entry c os d d' o Hnd H Hin) as (d1 & v & _ & Hg). eauto.
Qed.
Lemma forallb_In {A} (f : A -> bool) l x : forallb f l = true -> In x l -> f x = true.
Proof. intros H Hx. rewrite forallb_forall in H. auto. Qed.

(** C108.  New ini format: an accepted element section has every option that the
    elements of its geometry are made from, its numbers are numbers, and it gives
    the kind of elements of this geometry. *)
Theorem C108_section_complete :
  forall (F : Type) (fo : fops F) p (cf : config F) n e cm, parse_inifile fo p = Ok cf -> In (n, (e, cm)) (cf_elements cf) ->
  exists q g k s, type_params e = Ok q /\ In (g, k) [("trough", KTrough); ("channel", KChannel); ("sheet", KSheet)] /\
    geometry_is q g /\ realization_kind q = Ok k /\ complete q (keys_of g) /\
    (forall k, In k (numbers_of g) -> exists f, has q k (Leaf (AFlt f))) /\
    has q "structure" (Leaf (AStr (S_ s))) /\ In s (structures_of g).
Proof.
  intros F fo p cf n e cm Hp He. apply parse_inifile_inv in Hp. destruct Hp as [_ _ (hx & hl & Hhf) _ _ Hel].
  destruct (Hel _ _ _ He) as (tx & _ & Hpe). destruct (parse_element_inv fo _ _ _ _ _ Hhf Hpe) as (g0 & e0 & Hes).
  assert (G := element_geometry _ _ _ _ _ _ _ _ Hes). assert (Hpa := es_parse _ _ _ _ _ _ _ Hes).
  assert (Hgeo : exists g k, g0 = S_ g /\ In (g, k) [("trough", KTrough); ("channel", KChannel); ("sheet", KSheet)]).
  { destruct (es_geometry _ _ _ _ _ _ _ Hes) as [<-|[<-|[<-|[]]]]; eexists; eexists; (split; [reflexivity|]); cbn; eauto. }
  destruct Hgeo as (g & k & -> & Hk).
  assert (A : forall k, In k (keys_of g) -> exists v, has e k v).
  { intros k0 K0.
    assert (A0 : exists v, dget e0 (S_ k0) = Some v).
    { eapply section_has; [apply (geometry_NoDup fo)|exact Hpa|]. revert k0 K0.
      assert (B : forallb (fun k0 => mem (S_ k0) (map o_name (geometry_options fo (S_ g)))) (keys_of g) = true).
      { destruct Hk as [[= <- <-]|[[= <- <-]|[[= <- <-]|[]]]]; vm_compute; reflexivity. }
      intros k0 K0. exact (forallb_In _ _ _ B K0). }
    unfold has.
    destruct (in_dec string_dec k0 ["facies"; "altfacies"; "bg_facies"; "lag_facies"]) as [K|K].
    2: { rewrite (es_rest _ _ _ _ _ _ _ Hes); [exact A0|]. intros K'. apply K. apply in_map_iff in K' as (y & Hy & K'). apply S_inj in Hy. now subst. }
    destruct K as [<-|[<-|[<-|[<-|[]]]]].
    - destruct (es_facies _ _ _ _ _ _ _ Hes) as (v & idx & _ & E & _). eauto.
    - destruct (es_altfacies _ _ _ _ _ _ _ Hes) as (v & w & _ & E & _). eauto.
    - destruct (es_bg _ _ _ _ _ _ _ Hes) as (v & i & _ & E & _). eauto.
    - destruct (es_lag _ _ _ _ _ _ _ Hes) as (h & v & i & _ & _ & E & _); eauto.
      intros Hg. apply S_inj in Hg. subst g. cbn [keys_of] in K0. vm_compute in K0. repeat (destruct K0 as [K0|K0]; [discriminate|]). exact K0. }
  assert (B : forall k, In k (numbers_of g) -> exists f, has e k (Leaf (AFlt f))).
  { intros k0 K0. unfold has. rewrite (es_rest _ _ _ _ _ _ _ Hes).
    - eapply section_number_b; [apply (geometry_NoDup fo)|exact Hpa|]. revert k0 K0.
      assert (B : forallb (fun k0 => existsb (number_option k0) (geometry_options fo (S_ g))) (numbers_of g) = true).
      { destruct Hk as [[= <- <-]|[[= <- <-]|[[= <- <-]|[]]]]; vm_compute; reflexivity. }
      intros k0 K0. exact (forallb_In _ _ _ B K0).
    - intros K. apply in_map_iff in K as (y & Hy & K). apply S_inj in Hy. subst y.
      destruct Hk as [[= <- <-]|[[= <- <-]|[[= <- <-]|[]]]]; vm_compute in K0;
        repeat (destruct K0 as [<-|K0]; [cbn in K; repeat (destruct K as [K|K]; [discriminate|]); exact K|]); exact K0. }
  pose (allowed := if String.eqb g "trough" then ["massive"; "dip"; "bulb"; "bulb_sets"; "random"; "flat"] else ["massive"; "dip"]).
  assert (C : exists s, has e "structure" (Leaf (AStr (S_ s))) /\ In s allowed).
  { assert (Hst : In (structure_opt (F := F) allowed) (geometry_options fo (S_ g))).
    { destruct Hk as [[= <- <-]|[[= <- <-]|[[= <- <-]|[]]]]; unfold geometry_options, allowed; cbn [String.eqb Ascii.eqb Bool.eqb].
      - rewrite pystr_eqb_refl. unfold trough_options. do 2 (apply in_or_app; right). now left.
      - rewrite eqb_S. cbn [String.eqb Ascii.eqb Bool.eqb]. rewrite pystr_eqb_refl. unfold channel_options. do 2 (apply in_or_app; right). now left.
      - rewrite !eqb_S. cbn [String.eqb Ascii.eqb Bool.eqb]. unfold sheet_options. apply in_or_app; right. now left. }
    destruct (section_str (f_conv fo) _ _ _ _ (geometry_NoDup fo _) Hpa Hst eq_refl) as [(s & E & Hv)|[E _]]; [|discriminate].
    cbn [structure_opt o_name o_valid] in E, Hv. unfold one_of in Hv. apply mem_In in Hv. apply in_map_iff in Hv as (y & <- & Hy).
    exists y. split; [|exact Hy]. unfold has. rewrite (es_rest _ _ _ _ _ _ _ Hes); [exact E|].
    cbn [map In]. intros K. repeat (destruct K as [K|K]; [vm_compute in K; discriminate|]). exact K. }
  destruct C as (s & Hs & Hin).
  set (q := if is_str (Leaf (AStr (F := F) (S_ s))) "flat" then dset e (S_ "structure") (Leaf (AStr (S_ "massive"))) else e).
  assert (Hq : type_params e = Ok q).
  { unfold type_params, lookup. unfold has in Hs. rewrite Hs. reflexivity. }
  exists q, g, k, (if String.eqb s "flat" then "massive" else s).
  assert (Hs' : has q "structure" (Leaf (AStr (S_ (if String.eqb s "flat" then "massive" else s))))).
  { unfold q. rewrite is_str_S. destruct (String.eqb s "flat"); [|exact Hs]. unfold has. rewrite dget_dset, eqb_S. reflexivity. }
  assert (Gq : geometry_is q g). { apply (type_params_has e q "geometry" _ Hq); [discriminate|exact G]. }
  split; [exact Hq|]. split; [exact Hk|]. split; [exact Gq|]. split; [|split; [|split; [|split; [exact Hs'|]]]].
  - unfold realization_kind, lookup. unfold geometry_is, has in Gq. rewrite Gq. cbn [bind]. rewrite !is_str_S.
    destruct Hk as [[= <- <-]|[[= <- <-]|[[= <- <-]|[]]]]; reflexivity.
  - intros k0 K0. destruct (string_dec k0 "structure") as [->|N]; [eauto|]. destruct (A k0 K0) as (v & Hv). exists v. now apply (type_params_has e q).
  - intros k0 K0. destruct (B k0 K0) as (f & Hf). exists f. apply (type_params_has e q); auto. intros ->.
    destruct Hk as [[= <- <-]|[[= <- <-]|[[= <- <-]|[]]]]; vm_compute in K0; repeat (destruct K0 as [K0|K0]; [discriminate|]); exact K0.
  - destruct Hk as [[= <- <-]|[[= <- <-]|[[= <- <-]|[]]]]; vm_compute in Hin; repeat (destruct Hin as [<-|Hin]; [vm_compute; tauto|]); contradiction.
Qed.
Print Assumptions C108_section_complete.
