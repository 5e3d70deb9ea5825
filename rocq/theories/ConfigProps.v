(** Properties C08, C10-C12 and C71: reading a configuration. *)
From Coq Require Import List ZArith Bool Ascii String Lia.
From Verif Require Import Base ParseModel ParseSpec SectionSpec SectionProofs ConfigModel ConfigSpec ConfigProofs
  ConfigProofs2 ParseProps.
Import ListNotations.
Local Open Scope string_scope.

(** ** A sample file for the examples *)
Definition toyf : fops Z := mkFops toy 0%Z (-1)%Z (fun z => Z.eqb z 0).
Definition kv (k v : string) : pystr * pystr := (S_ k, S_ v).

Definition ex_run := (S_ "run", [kv "outputs" "[npz, vtr]"]).
Definition ex_model := (S_ "model", [kv "dx" "1"; kv "lx" "10"; kv "ly" "10"; kv "lz" "5"]).
Definition ex_strata_sec :=
  (S_ "strata", [kv "strata" "[lower, upper]"; kv "strata_contact_models" "[[flat, 2]]"; kv "ae" "[scour, sheets]";
     kv "ae_in_strata" "[[scour, sheets],[sheets]]"; kv "ae_prob" "[[3,7],[10]]"; kv "ae_z_mean" "[[1,1],[1]]";
     kv "avul_prob" "[[0],[0]]"; kv "avul" "[[0,0],[0,0]]"; kv "bg_facies" "[sand, clay]"; kv "bg_azim" "0"; kv "bg_dip" "0"]).
Definition ex_hydraulics :=
  (S_ "hydraulics", [kv "hydrofacies" "[clay, sand]"; kv "k_h" "[1,2]"; kv "sig_y" "1"; kv "k_ratio" "1"; kv "n" "1";
     kv "sig_n" "1"; kv "ycorlengths" "[1,1,1]"; kv "ncorlengths" "[1,1,1]"]).
Definition ex_trough (structure : string) (more : list (pystr * pystr)) :=
  (S_ "scour", [kv "geometry" "trough"; kv "structure" structure; kv "contact_model" "[flat]"; kv "facies" "[sand]";
     kv "altfacies" "[[clay]]"; kv "bg_facies" "clay"; kv "agg" "1"; kv "length" "4"; kv "width" "2"; kv "depth" "1";
     kv "trough_density" "1"; kv "paleoflow" "[0,0]"; kv "lag_height" "1"; kv "lag_facies" "clay"] ++ more)%list.
Definition ex_sheet :=
  (S_ "sheets", [kv "geometry" "sheet"; kv "structure" "dip"; kv "dipset_dist" "1"; kv "contact_model" "[random, 1, 2, 3]";
     kv "facies" "[clay, sand]"; kv "lens_thickness" "1"]).
Definition ex_ini (structure : string) (more : list (pystr * pystr)) : inifile :=
  [ex_run; ex_model; ex_strata_sec; ex_hydraulics; ex_trough structure more; ex_sheet].

Definition accepted {F} (fo : fops F) (p : inifile) : Prop := exists cf, parse_inifile fo p = Ok cf.

Example ex_accepted :
  accepted toyf (ex_ini "random" [kv "dipset_dist" "1"; kv "bulbset_dist" "1"]) /\
  accepted toyf (ex_ini "massive" []) /\
  NoDup (section_names (ex_ini "massive" [])).
Proof.
  split; [|split].
  - eexists. vm_compute. reflexivity.
  - eexists. vm_compute. reflexivity.
  - apply nodupb_NoDup. vm_compute. reflexivity.
Qed.

(** C08.  Which contact models are accepted, and what they mean. *)
Theorem C08_contact_model :
  forall (F : Type) (c : converters F) (depth : bool) (ts : list pystr) (cm : contact F),
  parse_contact_model c (Node (map (fun s => Leaf (AStr s)) ts)) depth = Ok cm <->
  contact_spec (to_float c) depth ts cm.
Proof. exact @parse_contact_spec. Qed.
Print Assumptions C08_contact_model.

Theorem C08_contact_model_rejected :
  forall (F : Type) (c : converters F) (depth : bool) (ts : list pystr) (e : exn),
  ts <> [] -> (forall s e', to_float c s = Err e' -> e' = ValueError) ->
  parse_contact_model c (Node (map (fun s => Leaf (AStr s)) ts)) depth = Err e -> e = ValueError.
Proof. exact @parse_contact_error. Qed.
Print Assumptions C08_contact_model_rejected.

(** A file that is accepted has all its contact models of this form. *)
Theorem C08_file_contact_models :
  forall (F : Type) (fo : fops F) (p : inifile) (cf : config F),
  parse_inifile fo p = Ok cf ->
  (exists t s0 cms, section_texts p (S_ "strata") = Some t /\
     section_parse (f_conv fo) strata_options (raw_dict t) = Ok s0 /\
     dget s0 (S_ "strata_contact_models") = Some (Node cms) /\
     Forall2 (fun v cm => parse_contact_model (f_conv fo) v true = Ok cm) cms (cf_contacts cf)) /\
  (forall n e cm, In (n, (e, cm)) (cf_elements cf) ->
     exists v, dget e (S_ "contact_model") = Some v /\ parse_contact_model (f_conv fo) v false = Ok cm).
Proof.
  intros F fo p cf H. apply parse_inifile_inv in H. destruct H as [_ _ (x & l & Hhf) Hs _ Hel]. split.
  - destruct Hs as (t & s0 & H1 & H2 & _ & cms & sts & H3 & _ & _ & _ & _ & H4 & _). eauto 10.
  - intros n e cm Hin. destruct (Hel n e cm Hin) as (t & _ & He).
    destruct (parse_element_inv fo _ t e cm _ Hhf He) as (g & e0 & He0).
    destruct (es_contact _ _ _ _ _ _ _ He0) as (v & Hv & Hc). exists v. split; [|exact Hc].
    rewrite (es_rest _ _ _ _ _ _ _ He0); [exact Hv|].
    cbn [map In]. intros [H|[H|[H|[H|[]]]]]; vm_compute in H; discriminate.
Qed.
Print Assumptions C08_file_contact_models.

Example C08_example :
  contact_spec (to_float toy) true [S_ """rAndom'"; S_ "7"; S_ "1"; S_ "2"; S_ "3"]
    (mkContact (S_ "rAndom") (Some 7%Z) (Some (1, 2, 3)%Z)).
Proof. apply parse_contact_spec. vm_compute. reflexivity. Qed.

(** C10.  Facies names become positions in the list of hydrofacies. *)
Theorem C10_facies_positions :
  forall (F : Type) (fo : fops F) (p : inifile) (cf : config F),
  parse_inifile fo p = Ok cf ->
  exists hf, hf <> [] /\ dget (cf_hydraulics cf) (S_ "hydrofacies") = Some (Node hf) /\
  (* the strata *)
  (exists t s0 v idx, section_texts p (S_ "strata") = Some t /\
     section_parse (f_conv fo) strata_options (raw_dict t) = Ok s0 /\
     dget s0 (S_ "bg_facies") = Some v /\ dget (cf_strata cf) (S_ "bg_facies") = Some idx /\ positions hf v idx) /\
  (* the elements: [e0] holds the names, [e] the numbers *)
  (forall n e cm, In (n, (e, cm)) (cf_elements cf) ->
     exists t g e0, section_texts p n = Some t /\ dget (raw_dict t) (S_ "geometry") = Some (@Leaf (atom F) (AStr g)) /\
       section_parse (f_conv fo) (geometry_options fo g) (raw_dict t) = Ok e0 /\
       (exists v idx, dget e0 (S_ "facies") = Some v /\ dget e (S_ "facies") = Some idx /\ positions hf v idx) /\
       (exists v w, dget e0 (S_ "altfacies") = Some v /\ dget e (S_ "altfacies") = Some w /\
          ((v = Leaf ANone /\ w = Leaf ANone) \/
           exists vs ws, v = Node vs /\ w = Node ws /\
             Forall2 (fun x y => (forall s, x <> Leaf (AStr s)) -> positions hf x y) vs ws /\
             Forall (fun y => exists ks, y = Node ks /\
               Forall (fun k => exists i, k = Leaf (AInt i) /\ (0 <= i < Z.of_nat (List.length hf))%Z) ks) ws)) /\
       (exists v i, dget e0 (S_ "bg_facies") = Some v /\ dget e (S_ "bg_facies") = Some (Leaf (AInt i)) /\
          ((v = Leaf ANone /\ i = (-1)%Z) \/ position hf v i)) /\
       (g <> S_ "sheet" -> exists h v i,
          dget e0 (S_ "lag_height") = Some h /\ dget e0 (S_ "lag_facies") = Some v /\
          dget e (S_ "lag_facies") = Some (Leaf (AInt i)) /\
          ((nonzero fo h = false /\ i = (-1)%Z) \/ (nonzero fo h = true /\ position hf v i)))).
Proof.
  intros F fo p cf H. apply parse_inifile_inv in H. destruct H as [_ _ (x & l & Hhf) Hs _ Hel].
  exists (x :: l). split; [discriminate|]. split; [exact Hhf|]. split.
  - destruct Hs as (t & s0 & H1 & H2 & _ & cms & sts & _ & _ & _ & _ & _ & _ & H3).
    destruct (H3 _ Hhf) as (v & idx & H4 & H5 & H6). exists t, s0, v, idx. auto.
  - intros n e cm Hin. destruct (Hel n e cm Hin) as (t & Ht & He).
    destruct (parse_element_inv fo _ t e cm _ Hhf He) as (g & e0 & He0).
    exists t, g, e0. destruct He0. unfold facies_number in *. auto 10.
Qed.
Print Assumptions C10_facies_positions.

(** Positions are smaller than the number of hydrofacies and determine the
    name. *)
Theorem C10_position_bounds :
  forall (F : Type) (hf : list (val (atom F))) x i,
  position hf x i -> (0 <= i < Z.of_nat (List.length hf))%Z /\ nth_error hf (Z.to_nat i) = Some x.
Proof.
  intros F hf x i H. split; [now apply position_bound in H|]. destruct H as (k & -> & H & _). now rewrite Nat2Z.id.
Qed.
Print Assumptions C10_position_bounds.

(** An unknown facies name is rejected. *)
Theorem C10_unknown_rejected :
  forall (F : Type) (hf : list (val (atom F))) (names : list (val (atom F))) s,
  In (Leaf (AStr s)) names -> ~ In (Leaf (AStr s)) hf ->
  parse_facies (Node names) (Node hf) = Err ValueError.
Proof.
  intros F hf ns s Hin Hn. unfold parse_facies. cbn [items bind].
  replace (mapM (list_index (Node hf)) ns) with (@Err (list Z) ValueError); [reflexivity|].
  symmetry. induction ns as [|x ns IH]; [destruct Hin|]. cbn [mapM].
  destruct Hin as [->|Hin].
  - unfold list_index at 1. destruct (index_in _ hf) as [k|] eqn:E; [|reflexivity].
    exfalso. apply Hn. apply index_in_some in E as [E _]. now apply nth_error_In in E.
  - rewrite (IH Hin). unfold list_index. destruct (index_in x hf); reflexivity.
Qed.
Print Assumptions C10_unknown_rejected.

(** C11.  Layer thicknesses: the part that holds. *)
Theorem C11_dipset_present_partial :
  forall (F : Type) (fo : fops F) (p : inifile) (cf : config F) n e cm,
  parse_inifile fo p = Ok cf -> In (n, (e, cm)) (cf_elements cf) ->
  (dget e (S_ "structure") = Some (text "dip") \/ dget e (S_ "structure") = Some (text "random") ->
     exists f, dget e (S_ "dipset_dist") = Some (Leaf (AFlt f))) /\
  (dget e (S_ "structure") = Some (text "bulb") \/ dget e (S_ "structure") = Some (text "random") ->
     exists f, dget e (S_ "bulbset_dist") = Some (Leaf (AFlt f))).
Proof.
  intros F fo p cf n e cm H Hin. apply parse_inifile_inv in H. destruct H as [_ _ (x & l & Hhf) _ _ Hel].
  destruct (Hel n e cm Hin) as (t & Ht & He).
  destruct (parse_element_inv fo _ t e cm _ Hhf He) as (g & e0 & He0).
  assert (Hk : forall k, In k ["structure"; "dipset_dist"; "bulbset_dist"] -> dget e (S_ k) = dget e0 (S_ k)).
  { intros k Hk. apply (es_rest _ _ _ _ _ _ _ He0). cbn [map In] in *.
    destruct Hk as [<-|[<-|[<-|[]]]]; intros [H|[H|[H|[H|[]]]]]; vm_compute in H; discriminate. }
  rewrite !Hk by (simpl; tauto).
  assert (Hnd := geometry_NoDup fo g). pose proof (es_parse _ _ _ _ _ _ _ He0) as Hp. split.
  - intros Hs. assert (Hd : dmem (raw_dict (F := F) t) (S_ "dipset_dist") = true).
    { destruct Hs as [Hs|Hs]; apply (es_dipset _ _ _ _ _ _ _ He0 _ Hs); vm_compute; reflexivity. }
    apply (section_float (f_conv fo) _ _ _ (scalar "dipset_dist" TFloat true none) Hnd Hp); [|reflexivity|exact Hd].
    unfold geometry_options, trough_options, channel_options, sheet_options.
    destruct (pystr_eqb g _); [|destruct (pystr_eqb g _)]; simpl; tauto.
  - intros Hs. assert (Hd : dmem (raw_dict (F := F) t) (S_ "bulbset_dist") = true).
    { destruct Hs as [Hs|Hs]; apply (es_bulbset _ _ _ _ _ _ _ He0 _ Hs); vm_compute; reflexivity. }
    destruct (pystr_eqb g (S_ "trough")) eqn:Eg.
    + apply (section_float (f_conv fo) _ _ _ (scalar "bulbset_dist" TFloat true none) Hnd Hp); [|reflexivity|exact Hd].
      unfold geometry_options. rewrite Eg. unfold trough_options. simpl. tauto.
    + (* only troughs may have these structures *)
      exfalso.
      assert (Hst : In (structure_opt (F := F) ["massive"; "dip"]) (geometry_options fo g)).
      { unfold geometry_options. rewrite Eg. destruct (pystr_eqb g (S_ "channel"));
          [unfold channel_options; do 2 (apply in_or_app; right)|unfold sheet_options; apply in_or_app; right];
          left; reflexivity. }
      destruct (section_str (f_conv fo) _ _ _ _ Hnd Hp Hst eq_refl) as [(s & E & Hv)|[E _]]; [|discriminate].
      cbn [structure_opt o_name] in E. cbn [structure_opt o_valid] in Hv.
      destruct Hs as [Hs|Hs]; rewrite Hs in E; injection E as <-; vm_compute in Hv; discriminate.
Qed.
Print Assumptions C11_dipset_present_partial.

(** The structure that needs bulbset_dist is bulb_sets, and it is accepted
    without. *)
Theorem C11_bulbset_refuted :
  exists (cf : config Z) (e : dict Z) (cm : contact Z),
    parse_inifile toyf (ex_ini "bulb_sets" []) = Ok cf /\ In (S_ "scour", (e, cm)) (cf_elements cf) /\
    dget e (S_ "structure") = Some (text "bulb_sets") /\ dget e (S_ "bulbset_dist") = Some (Leaf ANone).
Proof.
  eexists. eexists. eexists. split; [vm_compute; reflexivity|]. split; [left; reflexivity|].
  split; vm_compute; reflexivity.
Qed.
Print Assumptions C11_bulbset_refuted.

(** C12.  Identifiers of the element types. *)
Theorem C12_type_identifiers :
  forall (F : Type) (fo : fops F) (p : inifile) (cf : config F) (ids : list (pystr * Z)),
  NoDup (section_names p) -> parse_inifile fo p = Ok cf -> ae_ids cf = Ok ids ->
  exists ae, dget (cf_strata cf) (S_ "ae") = Some (Node ae) /\ map fst ids = map fst (cf_elements cf) /\
    Forall (fun ni => position ae (Leaf (AStr (fst ni))) (snd ni)) ids /\ NoDup (map snd ids).
Proof.
  intros F fo p cf ids Hnd Hp H. destruct (ae_ids_inv fo p cf ids Hp H) as (ae & H1 & H2 & H3).
  exists ae. repeat split; auto.
  assert (Hn : NoDup (map fst ids)).
  { rewrite H2. apply parse_inifile_inv in Hp. now apply (fs_elements _ _ _ Hp). }
  clear -H3 Hn. induction H3 as [|[n i] ids Hni H3 IH]; simpl in *; [constructor|].
  inversion Hn as [|? ? Hn1 Hn2]; subst. constructor; [|auto].
  intros Hin. apply Hn1. apply in_map_iff in Hin as ([n' i'] & E & Hin). simpl in E. subst i'.
  rewrite Forall_forall in H3. specialize (H3 _ Hin). simpl in H3.
  pose proof (position_inj _ _ _ _ Hni H3) as [= ->]. apply in_map_iff. exists (n', i). auto.
Qed.
Print Assumptions C12_type_identifiers.

Theorem C12_unlisted_rejected :
  forall (F : Type) (fo : fops F) (p : inifile) (cf : config F) ae n e,
  parse_inifile fo p = Ok cf -> dget (cf_strata cf) (S_ "ae") = Some (Node ae) ->
  In (n, e) (cf_elements cf) -> ~ In (Leaf (AStr n)) ae -> ae_ids cf = Err ValueError.
Proof. intros F fo p cf ae n e H1 H2 H3 H4. exact (ae_ids_unlisted fo p cf H1 ae n e H2 H3 H4). Qed.
Print Assumptions C12_unlisted_rejected.

Example C12_example :
  exists cf, parse_inifile toyf (ex_ini "massive" []) = Ok cf /\
    ae_ids cf = Ok [(S_ "scour", 0%Z); (S_ "sheets", 1%Z)].
Proof. eexists. split; vm_compute; reflexivity. Qed.

(** C71.  No accepted file has a single stratum. *)
Theorem C71_single_stratum_refuted :
  forall (F : Type) (fo : fops F) (p : inifile) (cf : config F),
  parse_inifile fo p = Ok cf ->
  exists sts, dget (cf_strata cf) (S_ "strata") = Some (Node sts) /\ (2 <= List.length sts)%nat.
Proof.
  intros F fo p cf H. apply parse_inifile_inv in H. destruct H as [_ _ _ Hs _ _].
  destruct Hs as (t & s0 & _ & _ & Hk & cms & sts & _ & H2 & H3 & _ & H4 & _).
  exists sts. split; [rewrite Hk; [exact H2|intros H; vm_compute in H; discriminate]|].
  destruct cms; [congruence|]. cbn [List.length] in H4. lia.
Qed.
Print Assumptions C71_single_stratum_refuted.
