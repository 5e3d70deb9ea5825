(** C129: options left out of the ini-file. *)
From Coq Require Import List ZArith Bool Ascii String Lia.
From Verif Require Import Base ParseModel SectionSpec SectionProofs ConfigModel ConfigSpec ConfigProofs ConfigProofs2 ParseProps ConfigProps DefaultsSpec.
From Verif Require DeprecatedSpec HydroLinkProps.
Import ListNotations.
Local Open Scope string_scope.
Local Open Scope list_scope.

Section Left_out.
Context {F : Type} (fo : fops F).
Notation value := (val (atom F)).

Lemma raw_none t k : ~ In k (map fst t) -> dget (raw_dict (F := F) t) k = None.
Proof.
  induction t as [|[k' v] t IH]; intros H; [reflexivity|]. cbn [raw_dict map fst snd dget] in *.
  destruct (pystr_eqb k k') eqn:E; [apply pystr_eqb_eq in E; subst; exfalso; apply H; now left|]. apply IH. intros Hi. apply H. now right.
Qed.
Lemma raw_some t k : In k (map fst t) -> exists s, dget (raw_dict (F := F) t) k = Some (Leaf (AStr s)).
Proof.
  induction t as [|[k' v] t IH]; intros H; [destruct H|]. cbn [raw_dict map fst snd dget] in *.
  destruct (pystr_eqb k k') eqn:E; [eauto|]. destruct H as [->|H]; [now rewrite pystr_eqb_refl in E|]. now apply IH.
Qed.
Lemma left_out os t d o : NoDup (flat_map names os) -> section_parse (f_conv fo) os (raw_dict t) = Ok d -> In o os -> o_alts o = [] ->
  ~ In (o_name o) (map fst t) -> o_optional o = true /\ dget d (o_name o) = Some (o_default o).
Proof.
  intros Hn H Hi Ha Hk. destruct (section_entry (f_conv fo) os _ _ o Hn H Hi) as (d1 & v & Hm & Hd).
  unfold names in Hm. rewrite Ha in Hm. cbn [first_of] in Hm. rewrite (raw_none _ _ Hk) in Hm. destruct Hm as [H1 ->]. auto.
Qed.
(** Tables, looked through by computation. *)
Definition finds (os : list (option_ F)) (k : string) (p : option_ F -> Prop) : Prop := exists o, In o os /\ o_name o = S_ k /\ o_alts o = [] /\ p o.
Definition named (os : list (option_ F)) (k : string) : option (option_ F) := find (fun o => pystr_eqb (o_name o) (S_ k)) os.
Lemma named_finds os k (p : option_ F -> Prop) o : named os k = Some o -> o_alts o = [] -> p o -> finds os k p.
Proof. intros H Ha Hp. apply find_some in H as [H1 H2]. apply pystr_eqb_eq in H2. exists o. auto. Qed.
Lemma default_ok os t d k v : NoDup (flat_map names os) -> section_parse (f_conv fo) os (raw_dict t) = Ok d ->
  finds os k (fun o => o_default o = v) -> ~ given t k -> DeprecatedSpec.has d k v.
Proof.
  intros Hn H (o & H1 & H2 & H3 & H4) Hg. unfold DeprecatedSpec.has. rewrite <- H2, <- H4. eapply left_out; eauto. now rewrite H2.
Qed.
Lemma required_ok os t d k : NoDup (flat_map names os) -> section_parse (f_conv fo) os (raw_dict t) = Ok d ->
  finds os k (fun o => o_optional o = false) -> given t k.
Proof.
  intros Hn H (o & H1 & H2 & H3 & H4). unfold given. rewrite <- H2. destruct (in_dec pystr_dec (o_name o) (map fst t)) as [Hi|Hi]; [exact Hi|].
  destruct (left_out os t d o Hn H H1 H3 Hi) as [E _]. congruence.
Qed.
Lemma model_section p (cf : config F) : parse_inifile fo p = Ok cf -> exists t m0, section_texts p (S_ "model") = Some t /\
  section_parse (f_conv fo) (model_options fo) (raw_dict t) = Ok m0 /\
  (forall k, k <> "dy" -> k <> "dz" -> dget (cf_model cf) (S_ k) = dget m0 (S_ k)) /\
  (forall k, k = "dy" \/ k = "dz" -> forall v, dget m0 (S_ k) = Some v -> dget (cf_model cf) (S_ k) = if is_none v then dget m0 (S_ "dx") else Some v).
Proof.
  intros H. unfold parse_inifile in H.
  apply bind_Ok in H as (u0 & Hu0 & H).
  apply bind_Ok in H as (trun & Htrun & H). apply bind_Ok in H as (run & Hrun & H).
  apply bind_Ok in H as (thyd & Hthyd & H). apply bind_Ok in H as (hyd & Hhyd & H).
  apply bind_Ok in H as (tmod & Htmod & H). apply bind_Ok in H as (m0 & Hm0 & H).
  apply bind_Ok in H as (m1 & Hm1 & H). apply bind_Ok in H as (m2 & Hm2 & H).
  assert (E : cf_model cf = m2) by (HydroLinkProps.steps H; injection H as <-; reflexivity).
  exists tmod, m0. split; [unfold sec in Htmod; destruct (section_texts p (S_ "model")); congruence|]. split; [exact Hm0|]. rewrite E. split.
  - intros k K1 K2. rewrite (HydroLinkProps.default_to_dx_other _ _ _ _ Hm2) by assumption. now apply (HydroLinkProps.default_to_dx_other _ _ _ _ Hm1).
  - assert (Hdd : forall (m m' : dict F) k v, default_to_dx m k = Ok m' -> dget m (S_ k) = Some v -> dget m' (S_ k) = if is_none v then dget m (S_ "dx") else Some v).
    { intros m m' k v D Hv. unfold default_to_dx, lookup in D. rewrite Hv in D. cbn [bind] in D. destruct (is_none v); [|congruence].
      destruct (dget m (S_ "dx")) as [dx|]; cbn [bind] in D; [|discriminate D]. injection D as <-. apply dget_dset_same. }
    intros k [->| ->] v Hv.
    + rewrite (HydroLinkProps.default_to_dx_other _ _ _ _ Hm2) by discriminate. now apply (Hdd _ _ _ _ Hm1).
    + rewrite <- (HydroLinkProps.default_to_dx_other _ _ _ "dz" Hm1) in Hv by discriminate.
      rewrite (Hdd _ _ _ _ Hm2 Hv). now rewrite (HydroLinkProps.default_to_dx_other _ _ _ "dx" Hm1) by discriminate.
Qed.
Lemma element_section p (cf : config F) n e cm : parse_inifile fo p = Ok cf -> In (n, (e, cm)) (cf_elements cf) ->
  exists t g e0, section_texts p n = Some t /\ In g ["trough"; "channel"; "sheet"] /\ In (S_ "geometry", S_ g) t /\
    section_parse (f_conv fo) (geometry_options fo (S_ g)) (raw_dict t) = Ok e0 /\
    (exists v, dget e0 (S_ "contact_model") = Some v /\ parse_contact_model (f_conv fo) v false = Ok cm) /\
    (forall k, ~ In k (map S_ ["facies"; "altfacies"; "bg_facies"; "lag_facies"]) -> dget e k = dget e0 k).
Proof.
  intros Hp He. pose proof (parse_inifile_inv fo p cf Hp) as Q.
  destruct (fs_hf _ _ _ Q) as (hx & hl & Hhf). destruct (fs_element _ _ _ Q _ _ _ He) as (t & Ht & Hpe).
  destruct (parse_element_inv fo _ _ _ _ _ Hhf Hpe) as (g0 & e0 & Hes).
  assert (Hg0 : exists g, g0 = S_ g /\ In g ["trough"; "channel"; "sheet"]).
  { destruct (es_geometry _ _ _ _ _ _ _ Hes) as [<-|[<-|[<-|[]]]]; eexists; (split; [reflexivity|]); cbn; tauto. }
  destruct Hg0 as (g & -> & Hg). exists t, g, e0. split; [exact Ht|]. split; [exact Hg|]. split.
  { pose proof (es_text _ _ _ _ _ _ _ Hes) as E. clear -E. induction t as [|[k v] t IH]; [discriminate E|].
    cbn [raw_dict map fst snd dget] in E. destruct (pystr_eqb (S_ "geometry") k) eqn:Ek; [|right; now apply IH].
    left. apply pystr_eqb_eq in Ek. congruence. }
  split; [exact (es_parse _ _ _ _ _ _ _ Hes)|]. split; [exact (es_contact _ _ _ _ _ _ _ Hes)|exact (es_rest _ _ _ _ _ _ _ Hes)].
Qed.
End Left_out.

(** C129.  In an accepted file every documented default is the value of the
    option wherever it is left out, and every required option is given. *)
Theorem C129_defaults :
  forall (F : Type) (fo : fops F) (p : inifile) (cf : config F), parse_inifile fo p = Ok cf ->
  exists run model,
    section_texts p (S_ "run") = Some run /\ section_texts p (S_ "model") = Some model /\
    (forall k v, In (k, v) run_defaults -> ~ given run k -> DeprecatedSpec.has (cf_run cf) k v) /\
    (forall k v, In (k, v) (model_defaults (f_zero fo)) -> ~ given model k -> DeprecatedSpec.has (cf_model cf) k v) /\
    (forall k, k = "dy" \/ k = "dz" -> ~ given model k -> exists dx, DeprecatedSpec.has (cf_model cf) "dx" dx /\ DeprecatedSpec.has (cf_model cf) k dx) /\
    (forall n e cm, In (n, (e, cm)) (cf_elements cf) ->
       exists t g, section_texts p n = Some t /\ In g ["trough"; "channel"; "sheet"] /\ In (S_ "geometry", S_ g) t /\
         forall k v, In (k, v) (defaults_of (f_zero fo) g) -> ~ given t k -> DeprecatedSpec.has e k v).
Proof.
  intros F fo p cf Hp. pose proof (parse_inifile_inv fo p cf Hp) as Q.
  destruct (fs_run _ _ _ Q) as (run & Hrun & Prun). destruct (model_section fo p cf Hp) as (model & m0 & Hmodel & Pm & Km & Kd).
  exists run, model. split; [exact Hrun|]. split; [exact Hmodel|]. split; [|split; [|split]].
  - intros k v Hk. apply (default_ok fo run_options); [apply run_NoDup|exact Prun|].
    cbn [run_defaults In] in Hk. repeat destruct Hk as [Hk|Hk]; try contradiction; injection Hk as <- <-; (eapply named_finds; [cbv; reflexivity|reflexivity|reflexivity]).
  - intros k v Hk Hg. unfold DeprecatedSpec.has. rewrite Km.
    + revert Hg. apply (default_ok fo (model_options fo)); [apply HydroLinkProps.model_NoDup|exact Pm|].
      cbn [model_defaults In] in Hk. repeat destruct Hk as [Hk|Hk]; try contradiction; injection Hk as <- <-; (eapply named_finds; [cbv; reflexivity|reflexivity|reflexivity]).
    + intros ->. cbn [model_defaults In] in Hk. repeat destruct Hk as [Hk|Hk]; try contradiction; discriminate Hk.
    + intros ->. cbn [model_defaults In] in Hk. repeat destruct Hk as [Hk|Hk]; try contradiction; discriminate Hk.
  - intros k Hk Hg.
    assert (Hdx : exists dx, dget m0 (S_ "dx") = Some dx).
    { destruct (section_entry (f_conv fo) _ _ _ (scalar "dx" TFloat false none) (HydroLinkProps.model_NoDup fo) Pm) as (d1 & v & _ & Hv); [cbn [model_options In]; tauto|]. eauto. }
    destruct Hdx as (dx & Hdx). exists dx. split; [unfold DeprecatedSpec.has; rewrite Km by discriminate; exact Hdx|].
    assert (Hn : dget m0 (S_ k) = Some (Leaf none)).
    { apply (default_ok fo (model_options fo) model m0 k (Leaf none)); [apply HydroLinkProps.model_NoDup|exact Pm| |exact Hg].
      destruct Hk as [->| ->]; (eapply named_finds; [cbv; reflexivity|reflexivity|reflexivity]). }
    unfold DeprecatedSpec.has. rewrite (Kd k Hk _ Hn). exact Hdx.
  - intros n e cm He. destruct (element_section fo p cf n e cm Hp He) as (t & g & e0 & Ht & Hg & Hgt & Pe & _ & Hrest).
    exists t, g. split; [exact Ht|]. split; [exact Hg|]. split; [exact Hgt|].
    intros k v Hk Hgv. unfold DeprecatedSpec.has.
    assert (Hnot : ~ In (S_ k) (map S_ ["facies"; "altfacies"; "bg_facies"; "lag_facies"])).
    { destruct Hg as [<-|[<-|[<-|[]]]]; cbn in Hk; repeat destruct Hk as [Hk|Hk]; try contradiction; injection Hk as <- <-;
        intros [H|[H|[H|[H|[]]]]]; discriminate H. }
    rewrite Hrest by exact Hnot. revert Hgv.
    apply (default_ok fo (geometry_options fo (S_ g)) t e0 k v); [apply (geometry_NoDup fo)|exact Pe|].
    destruct Hg as [<-|[<-|[<-|[]]]]; cbn in Hk; repeat destruct Hk as [Hk|Hk]; try contradiction; injection Hk as <- <-; (eapply named_finds; [cbv; reflexivity|reflexivity|reflexivity]).
Qed.
Print Assumptions C129_defaults.

Lemma contact_given {F} (fo : fops F) g t e0 (v : val (atom F)) cm : section_parse (f_conv fo) (geometry_options fo (S_ g)) (raw_dict t) = Ok e0 ->
  In g ["trough"; "channel"; "sheet"] -> dget e0 (S_ "contact_model") = Some v -> parse_contact_model (f_conv fo) v false = Ok cm -> given t "contact_model".
Proof.
  intros Hp Hg Hv Hc. unfold given. destruct (in_dec pystr_dec (S_ "contact_model") (map fst t)) as [Hi|Hi]; [exact Hi|exfalso].
  assert (E : dget e0 (S_ "contact_model") = Some (Leaf none)).
  { apply (default_ok fo (geometry_options fo (S_ g)) t e0 "contact_model" (Leaf none)); [apply geometry_NoDup|exact Hp| |exact Hi].
    destruct Hg as [<-|[<-|[<-|[]]]]; (eapply named_finds; [cbv; reflexivity|reflexivity|reflexivity]). }
  rewrite Hv in E. injection E as ->. cbn in Hc. discriminate Hc.
Qed.

Theorem C129_required :
  forall (F : Type) (fo : fops F) (p : inifile) (cf : config F), parse_inifile fo p = Ok cf ->
  exists model strata hydraulics,
    section_texts p (S_ "model") = Some model /\ section_texts p (S_ "strata") = Some strata /\ section_texts p (S_ "hydraulics") = Some hydraulics /\
    (forall k, In k model_required -> given model k) /\ (forall k, In k strata_required -> given strata k) /\
    (forall k, In k hydraulics_required -> given hydraulics k) /\
    (forall n e cm, In (n, (e, cm)) (cf_elements cf) ->
       exists t g, section_texts p n = Some t /\ In g ["trough"; "channel"; "sheet"] /\ In (S_ "geometry", S_ g) t /\
         forall k, In k (required_of g) -> given t k).
Proof.
  intros F fo p cf Hp. pose proof (parse_inifile_inv fo p cf Hp) as Q.
  destruct (model_section fo p cf Hp) as (model & m0 & Hmodel & Pm & _). destruct (fs_hydro _ _ _ Q) as (hyd & Hhyd & Ph).
  destruct (fs_strata _ _ _ Q) as (strata & s0 & Hstrata & Ps & _).
  exists model, strata, hyd. repeat (split; [assumption|]). split; [|split; [|split]].
  - intros k Hk. apply (required_ok fo (model_options fo) model m0); [apply HydroLinkProps.model_NoDup|exact Pm|].
    cbn [model_required In] in Hk. repeat destruct Hk as [Hk|Hk]; try contradiction; subst k; (eapply named_finds; [cbv; reflexivity|reflexivity|reflexivity]).
  - intros k Hk. apply (required_ok fo strata_options strata s0); [apply strata_NoDup|exact Ps|].
    cbn [strata_required In] in Hk. repeat destruct Hk as [Hk|Hk]; try contradiction; subst k; (eapply named_finds; [cbv; reflexivity|reflexivity|reflexivity]).
  - intros k Hk. apply (required_ok fo hydraulics_options hyd (cf_hydraulics cf)); [apply hydraulics_NoDup|exact Ph|].
    cbn [hydraulics_required In] in Hk. repeat destruct Hk as [Hk|Hk]; try contradiction; subst k; (eapply named_finds; [cbv; reflexivity|reflexivity|reflexivity]).
  - intros n e cm He. destruct (element_section fo p cf n e cm Hp He) as (t & g & e0 & Ht & Hg & Hgt & Pe & (v & Hv & Hc) & _).
    exists t, g. repeat (split; [assumption|]). intros k Hk.
    destruct (string_dec k "contact_model") as [->|Hne]; [now apply (contact_given fo g t e0 v cm)|].
    apply (required_ok fo (geometry_options fo (S_ g)) t e0); [apply geometry_NoDup|exact Pe|].
    destruct Hg as [<-|[<-|[<-|[]]]]; cbn in Hk; repeat destruct Hk as [Hk|Hk]; try contradiction; subst k; try (exfalso; now apply Hne);
      (eapply named_finds; [cbv; reflexivity|reflexivity|reflexivity]).
Qed.
Print Assumptions C129_required.

(** "avul_prob: (required) List of floats with the same length as strata":
    such a list is not accepted.  It has to be a list of lists of length 1. *)
Definition avul_ini (avul_prob : string) : inifile :=
  [ex_run; ex_model;
   (S_ "strata", [kv "strata" "[lower, upper]"; kv "strata_contact_models" "[[flat, 2]]"; kv "ae" "[scour, sheets]";
     kv "ae_in_strata" "[[scour, sheets],[sheets]]"; kv "ae_prob" "[[3,7],[10]]"; kv "ae_z_mean" "[[1,1],[1]]";
     kv "avul_prob" avul_prob; kv "avul" "[[0,0],[0,0]]"; kv "bg_facies" "[sand, clay]"; kv "bg_azim" "0"; kv "bg_dip" "0"]);
   ex_hydraulics; ex_trough "massive" []; ex_sheet].
Theorem C129_avul_prob_refuted :
  parse_inifile toyf (avul_ini "[0, 0]") = Err ShapeError /\ accepted toyf (avul_ini "[[0], [0]]").
Proof. split; [vm_compute; reflexivity|]. eexists; vm_compute; reflexivity. Qed.
Print Assumptions C129_avul_prob_refuted.

(** The file of the examples leaves out most of the options with defaults. *)
Example C129_example :
  exists cf e cm, parse_inifile toyf (ex_ini "massive" []) = Ok cf /\ In (S_ "scour", (e, cm)) (cf_elements cf) /\
    ~ given (snd ex_run) "numsim" /\ DeprecatedSpec.has (cf_run cf) "numsim" (Leaf (AInt 1%Z)) /\
    ~ given (snd ex_model) "dz" /\ DeprecatedSpec.has (cf_model cf) "dz" (Leaf (AFlt 1%Z)) /\
    ~ given (snd (ex_trough "massive" [])) "dip" /\ DeprecatedSpec.has e "dip" (Node [Leaf (AFlt 0%Z); Leaf (AFlt 0%Z)]).
Proof.
  eexists. eexists. eexists. split; [vm_compute; reflexivity|]. split; [left; reflexivity|].
  repeat split; try (vm_compute; reflexivity); unfold given; intros H; apply mem_In in H; vm_compute in H; discriminate H.
Qed.
