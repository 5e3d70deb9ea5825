(** C65, C66, C98-C104: the old ini format. *)
From Coq Require Import List ZArith Bool Ascii String Reals Lia.
From Verif Require Import Base Num TroughModel ArrayModel TensorModel SpecsimModel HydraulicsModel HydraulicsProps ParseModel ConfigModel ConfigProps DeprecatedModel DeprecatedSpec DeprecatedProofs.
Import ListNotations.
Local Open Scope string_scope.
Local Open Scope list_scope.

(** ** An old file *)
Definition old_ini (run strata : list (pystr * pystr)) (elements : list (pystr * list (pystr * pystr))) : inifile :=
  [(S_ "run", run);
   (S_ "model", [kv "dx" "1"; kv "lx" "9"; kv "ly" "8"; kv "lz" "7"; kv "hetlev" "internal"]);
   (S_ "strata", ([kv "l_ssm" "[lower, upper]"; kv "r_ssm_top" "[2, 5]"; kv "ll_ssm_contact_model" "[[1,2,3],[1,2,3]]"; kv "l_ae" "[scour, sheets]";
     kv "ll_ssm_ae" "[[scour],[scour, sheets]]"; kv "ll_ae_prob" "[[1],[1,1]]"; kv "ll_ae_z_mean" "[[1],[1,1]]"; kv "ll_avul_prob" "[[0],[0]]";
     kv "ll_avul" "[[0,0],[0,0]]"; kv "bg" "[1,2,3]"] ++ strata));
   (S_ "hydraulics", [kv "l_hydro" "[clay, sand]"; kv "r_k_h" "[1,2]"; kv "r_sig_y" "[1,1]"; kv "r_k_ratio" "[1,1]"; kv "r_n" "[1,1]"; kv "r_sig_n" "[1,1]";
     kv "ll_ycorlengths" "[[1,1,1],[1,1,1]]"; kv "ll_ncorlengths" "[[1,1,1],[1,1,1]]"]);
   (S_ "flowtrans", [kv "gradh" "1"; kv "hin" "[1,2,3]"; kv "hout" "[1,2,3]"])] ++ elements.
Definition old_common (geometry structure : string) : list (pystr * pystr) :=
  [kv "geometry" geometry; kv "structure" structure; kv "contact" "flat"; kv "l_facies" "[1]"; kv "bg" "[1,2,3]"].
Definition old_trough (structure : string) := old_common "trunc_ellip" structure ++
  [kv "agg" "1"; kv "r_dip" "[0,0]"; kv "length" "4"; kv "width" "2"; kv "depth" "1"; kv "el_z" "1"; kv "r_paleoflow" "[0,0]"; kv "r_azimuth" "[0,0]"; kv "r_lag" "[1,1]"].
Definition old_sheet := old_common "sheet" "massive" ++ [kv "lens_thickness" "1"].
Definition old_channel := old_common "ext_par" "massive" ++
  [kv "agg" "1"; kv "r_dip" "[0,0]"; kv "width" "2"; kv "depth" "1"; kv "h" "1"; kv "k" "1"; kv "ds" "1"; kv "eps_factor" "1"; kv "channel_no" "1"].
Definition old_run := [kv "dataoutputs" "[vtr, npz]"; kv "l_modeloutputs" "[mf6]"].
Definition old_elements := [(S_ "scour", old_trough "bulb"); (S_ "sheets", old_sheet); (S_ "channels", old_channel)].
Definition ztrunc (z : Z) : res Z := Ok z.

Example old_file_accepted : exists cf, read_config toyf ztrunc (old_ini old_run [] old_elements) = Ok cf /\ List.length (cf_elements cf) = 3%nat.
Proof. eexists. split; [vm_compute; reflexivity|reflexivity]. Qed.

(** C65.  An old background [facies, azimuth, dip]: what the code makes of it. *)
Theorem C65_element_background_partial :
  forall (F : Type) (fo : fops F) (e e' : dict F) (cm : contact F) (g : string) f a p,
  In g ["trunc_ellip"; "sheet"; "ext_par"] -> has e "geometry" (Leaf (AStr (S_ g))) ->
  convert_element fo e = Ok (e', cm) -> has e "bg" (triple f a p) ->
  has e' "bg_facies" f /\ has e' "bg_azim" a /\ (has e' "bg_dip" p <-> p = a).
Proof.
  intros F fo e e' cm g f a p Hi Hg H Hb.
  assert (Q : forall f0 a0 p0, bg_values fo e f0 a0 p0 -> f0 = f /\ a0 = a /\ p0 = a).
  { intros f0 a0 p0 [(Hu & _)|(bg & Hbg & _ & H0 & H1 & ->)]; unfold unset, has in *; rewrite Hb in *; [discriminate|].
    injection Hbg as <-. change (Ok f = Ok f0) in H0. change (Ok a = Ok a0) in H1. split; [congruence|]. split; congruence. }
  unfold has in *. cbn [In] in Hi. destruct Hi as [<-|Hi].
  - destruct (trough_view fo e e' cm Hg H) as (z & f0 & a0 & p0 & dd & t & h & l & _ & Hv & _ & _ & _ & V).
    destruct (Q _ _ _ Hv) as (-> & -> & ->). rewrite !V. cbn. split; [reflexivity|]. split; [reflexivity|]. split; congruence.
  - destruct (other_view fo e e' cm g Hg ltac:(cbn [In]; intuition (subst; discriminate)) H) as (z & f0 & a0 & p0 & dd & _ & Hv & _ & V).
    destruct (Q _ _ _ Hv) as (-> & -> & ->). rewrite !V. cbn. split; [reflexivity|]. split; [reflexivity|]. split; congruence.
Qed.
Print Assumptions C65_element_background_partial.

Theorem C65_element_background_refuted :
  exists cf e cm, read_config toyf ztrunc (old_ini old_run [] old_elements) = Ok cf /\ In (S_ "scour", (e, cm)) (cf_elements cf) /\
  has e "bg" (triple (Leaf (AFlt 1%Z)) (Leaf (AFlt 2%Z)) (Leaf (AFlt 3%Z))) /\ ~ has e "bg_dip" (Leaf (AFlt 3%Z)).
Proof.
  eexists _, _, _. split; [vm_compute; reflexivity|]. split; [left; reflexivity|]. split; [vm_compute; reflexivity|].
  unfold has. vm_compute. discriminate.
Qed.
Print Assumptions C65_element_background_refuted.

(** The background of the strata is right: one entry per stratum. *)
Theorem C65_strata_background :
  forall (F : Type) (fo : fops F) (trunc : F -> res Z) (s s' : dict F) cms ssm f a p,
  convert_strata fo trunc s = Ok (s', cms) -> has s "ssm" (Node ssm) -> has s "bg" (triple (Leaf (AFlt f)) a p) ->
  exists i, trunc f = Ok i /\ let n := List.length ssm in
  has s' "bg_facies" (Node (repeat (Leaf (AInt i)) n)) /\ has s' "bg_azim" (Node (repeat a n)) /\ has s' "bg_dip" (Node (repeat p n)) /\
  has s' "strata" (Node ssm) /\ List.length cms = (n - 1)%nat.
Proof.
  intros F fo trunc s s' cms ssm f a p H Hs Hb. unfold convert_strata in H. unfold has in *.
  rewrite (proj2 (lookup_dget _ _ _) Hs) in H. cbn [bind py_len] in H. rewrite (proj2 (lookup_dget _ _ _) Hb) in H. cbn [bind] in H.
  unfold py_item in H. cbn [items triple bind] in H. change (pyget [Leaf (AFlt f); a; p] 0) with (@Ok (val (atom F)) (Leaf (AFlt f))) in H.
  change (pyget [Leaf (AFlt f); a; p] 1) with (Ok a) in H. change (pyget [Leaf (AFlt f); a; p] 2) with (Ok p) in H. cbn [bind py_int] in H.
  step H. rename a0 into i. exists i. split; [reflexivity|]. rewrite Nat2Z.id in H.
  step H. step H. step H. step H. step H. step H. step H. apply Ok_pair in H. destruct H as [-> ->].
  apply copy_spec in E6. destruct E6 as (v & Hv & ->). cbn zeta. rewrite !dget_S. cbn [String.eqb Ascii.eqb Bool.eqb].
  repeat (split; [reflexivity|]). apply mapM_length in E5. rewrite seq_length in E5. exact E5.
Qed.
Print Assumptions C65_strata_background.

Example C65_strata_example :
  exists cf, read_config toyf ztrunc (old_ini old_run [] old_elements) = Ok cf /\
  has (cf_strata cf) "bg_dip" (Node [Leaf (AFlt 3%Z); Leaf (AFlt 3%Z)]) /\ has (cf_strata cf) "bg_facies" (Node [Leaf (AInt 1%Z); Leaf (AInt 1%Z)]).
Proof. eexists. split; [vm_compute; reflexivity|]. split; vm_compute; reflexivity. Qed.

(** C66.  Geometries. *)
Theorem C66_old_geometries_partial :
  forall (F : Type) (fo : fops F) (e e' p : dict F) (cm : contact F),
  convert_element fo e = Ok (e', cm) -> type_params e' = Ok p ->
  (has e "geometry" (Leaf (AStr (S_ "trunc_ellip"))) -> realization_kind p = Ok KTrough) /\
  (has e "geometry" (Leaf (AStr (S_ "sheet"))) -> realization_kind p = Ok KSheet) /\
  (has e "geometry" (Leaf (AStr (S_ "ext_par"))) -> realization_kind p = Err ValueError).
Proof.
  intros F fo e e' p cm H Ht.
  assert (T : forall g, has e' "geometry" g -> lookup p "geometry" = Ok g).
  { intros g Hg. apply lookup_dget. unfold type_params in Ht. step Ht. apply Ok_inj' in Ht. subst p. destruct (is_str a "flat"); [rewrite dget_S|]; exact Hg. }
  unfold realization_kind. split; [|split]; intros Hg.
  - destruct (trough_view fo e e' cm Hg H) as (z & f0 & a0 & p0 & dd & t & h & l & _ & _ & _ & _ & _ & V).
    rewrite (T (Leaf (AStr (S_ "trough")))) by (unfold has; now rewrite V). reflexivity.
  - destruct (other_view fo e e' cm "sheet" Hg ltac:(cbn [In]; intuition discriminate) H) as (z & f0 & a0 & p0 & dd & _ & _ & _ & V).
    rewrite (T (Leaf (AStr (S_ "sheet")))) by (unfold has; now rewrite V). reflexivity.
  - destruct (other_view fo e e' cm "ext_par" Hg ltac:(cbn [In]; intuition discriminate) H) as (z & f0 & a0 & p0 & dd & _ & _ & _ & V).
    rewrite (T (Leaf (AStr (S_ "ext_par")))) by (unfold has; now rewrite V). reflexivity.
Qed.
Print Assumptions C66_old_geometries_partial.

(** Channels of old files are accepted and cannot be generated. *)
Theorem C66_old_channels_refuted :
  exists cf e cm p, read_config toyf ztrunc (old_ini old_run [] old_elements) = Ok cf /\ In (S_ "channels", (e, cm)) (cf_elements cf) /\
  type_params e = Ok p /\ realization_kind p = Err ValueError.
Proof.
  eexists _, _, _, _. split; [vm_compute; reflexivity|]. split; [right; right; left; reflexivity|]. split; [vm_compute; reflexivity|vm_compute; reflexivity].
Qed.
Print Assumptions C66_old_channels_refuted.

(** C98.  Every option needed for troughs and sheets is there. *)
Lemma parsed_keys (F : Type) (fo : fops F) (os : list (option_ F)) d e : disjointb os = true -> section_parse (f_conv fo) os d = Ok e ->
  forall k, mem (S_ k) (map o_name os) = true -> exists v, has e k v.
Proof.
  intros Hd H k Hk. apply mem_In in Hk. apply in_map_iff in Hk. destruct Hk as (o & Ho & Hi).
  pose proof (section_parse_keys _ _ _ _ (disjointb_spec _ Hd) H o Hi) as Q. rewrite Ho in Q. unfold dmem, has in *. destruct (dget e (S_ k)); [eauto|discriminate].
Qed.

Lemma parsed_geometry (F : Type) (fo : fops F) t e g os : old_options fo (S_ g) = Ok (hd (scalar "geometry" TStr true none) os :: tl os) ->
  (exists v, hd (scalar "geometry" TStr true none) os = alt_scalar "geometry" TStr false none v) ->
  mem (S_ "geometry") (map o_name (tl os)) = false -> mem (S_ "geometry") (flat_map o_alts (tl os)) = false ->
  dget (raw_dict (F := F) t) (S_ "geometry") = Some (Leaf (AStr (S_ g))) -> parse_old_element fo t = Ok e ->
  has e "geometry" (Leaf (AStr (S_ g))).
Proof.
  intros Ho (v & Hv) Hn Ha Hg H. unfold parse_old_element in H. rewrite Hg, Ho in H. cbn [bind] in H. rewrite Hv in H.
  unfold section_parse in H. cbn [foldM] in H.
  destruct (option_parse _ _ (raw_dict t)) as [[d2 v2]|] eqn:E; [|discriminate]. cbn [bind o_name alt_scalar] in H.
  unfold has. rewrite (foldM_other (f_conv fo) (tl os) (S_ "geometry")
      ltac:(intros Q; apply mem_In in Q; congruence) ltac:(intros Q; apply mem_In in Q; congruence) _ _ H).
  rewrite dget_dset, pystr_eqb_refl. unfold option_parse in E. cbn [alt_scalar o_name o_alts o_type o_valid o_optional o_default find_alternative] in E.
  rewrite Hg in E. cbn [convert bind] in E. destruct (v _); [injection E as _ <-; reflexivity|discriminate].
Qed.

Theorem C98_troughs_complete :
  forall (F : Type) (fo : fops F) t (e e' p : dict F) (cm : contact F),
  dget (raw_dict (F := F) t) (S_ "geometry") = Some (Leaf (AStr (S_ "trunc_ellip"))) ->
  parse_old_element fo t = Ok e -> convert_element fo e = Ok (e', cm) -> type_params e' = Ok p ->
  complete p (common_keys ++ trough_keys).
Proof.
  intros F fo t e e' p cm Hg H Hc Ht.
  assert (He : has e "geometry" (Leaf (AStr (S_ "trunc_ellip")))).
  { refine (parsed_geometry F fo t e "trunc_ellip" (old_trough_options fo) _ _ _ _ Hg H); [reflexivity|eexists; reflexivity|reflexivity|reflexivity]. }
  assert (K : forall k, mem (S_ k) (map o_name (old_trough_options fo)) = true -> exists v, has e k v).
  { unfold parse_old_element in H. rewrite Hg in H. apply (parsed_keys F fo (old_trough_options fo) (raw_dict t) e); [vm_compute; reflexivity|exact H]. }
  destruct (trough_view fo e e' cm He Hc) as (z & f0 & a0 & p0 & dd & t0 & h & l & _ & _ & _ & _ & _ & V).
  assert (T : forall k v, has e' k v -> exists v', has p k v').
  { intros k v Hk. unfold type_params in Ht. step Ht. apply Ok_inj' in Ht. subst p. unfold has in *. destruct (is_str a "flat"); [rewrite dget_S; destruct (String.eqb _ _); eauto|eauto]. }
  intros k Hk. assert (E : exists v, has e' k v); [|destruct E as (v & E); exact (T k v E)].
  unfold has. rewrite V. unfold common_keys, trough_keys in Hk. cbn [List.app In] in Hk.
  repeat (destruct Hk as [<-|Hk]; [cbn [String.eqb Ascii.eqb Bool.eqb]; first [eexists; reflexivity|apply K; vm_compute; reflexivity|
      destruct (K "bulbset_d" ltac:(vm_compute; reflexivity)) as (v & Hv); unfold has in Hv; rewrite Hv; eexists; reflexivity]|]). contradiction.
Qed.
Print Assumptions C98_troughs_complete.

Theorem C98_sheets_complete :
  forall (F : Type) (fo : fops F) t (e e' p : dict F) (cm : contact F),
  dget (raw_dict (F := F) t) (S_ "geometry") = Some (Leaf (AStr (S_ "sheet"))) ->
  parse_old_element fo t = Ok e -> convert_element fo e = Ok (e', cm) -> type_params e' = Ok p ->
  complete p (common_keys ++ sheet_keys).
Proof.
  intros F fo t e e' p cm Hg H Hc Ht.
  assert (He : has e "geometry" (Leaf (AStr (S_ "sheet")))).
  { refine (parsed_geometry F fo t e "sheet" (old_sheet_options fo) _ _ _ _ Hg H); [reflexivity|eexists; reflexivity|reflexivity|reflexivity]. }
  assert (K : forall k, mem (S_ k) (map o_name (old_sheet_options fo)) = true -> exists v, has e k v).
  { unfold parse_old_element in H. rewrite Hg in H. apply (parsed_keys F fo (old_sheet_options fo) (raw_dict t) e); [vm_compute; reflexivity|exact H]. }
  destruct (other_view fo e e' cm "sheet" He ltac:(cbn [In]; intuition discriminate) Hc) as (z & f0 & a0 & p0 & dd & _ & _ & _ & V).
  assert (T : forall k v, has e' k v -> exists v', has p k v').
  { intros k v Hk. unfold type_params in Ht. step Ht. apply Ok_inj' in Ht. subst p. unfold has in *. destruct (is_str a "flat"); [rewrite dget_S; destruct (String.eqb _ _); eauto|eauto]. }
  intros k Hk. assert (E : exists v, has e' k v); [|destruct E as (v & E); exact (T k v E)].
  unfold has. rewrite V. unfold common_keys, sheet_keys in Hk. cbn [List.app In] in Hk.
  repeat (destruct Hk as [<-|Hk]; [cbn [String.eqb Ascii.eqb Bool.eqb]; first [eexists; reflexivity|apply K; vm_compute; reflexivity]|]). contradiction.
Qed.
Print Assumptions C98_sheets_complete.

Example C98_example : exists e e' p cm, parse_old_element toyf (old_trough "flat") = Ok e /\ convert_element toyf e = Ok (e', cm) /\ type_params e' = Ok p /\
  has p "structure" (Leaf (AStr (S_ "massive"))) /\ has p "lag_height" (Leaf (AFlt 1%Z)).
Proof. do 4 eexists. split; [vm_compute; reflexivity|]. split; [vm_compute; reflexivity|]. split; [vm_compute; reflexivity|]. split; vm_compute; reflexivity. Qed.

(** C99.  An element table is to be refused with a message; the message is not
    reached. *)
Theorem C99_ae_table_refuted :
  exists p, read_config toyf ztrunc p = Err NameError /\ exists q, p = old_ini old_run q old_elements /\ q = [kv "ae_table" "table.txt"].
Proof. eexists. split; [|eexists; split; reflexivity]. vm_compute. reflexivity. Qed.
Print Assumptions C99_ae_table_refuted.

(** No accepted old file has one. *)
Theorem C99_no_table_partial :
  forall (F : Type) (fo : fops F) p oc, parse_deprecated_inifile fo p = Ok oc -> unset (oc_strata oc) "ae_table".
Proof.
  intros F fo p oc H. unfold parse_deprecated_inifile in H.
  step H. step H. step H. step H. step H. step H. step H. step H. step H. step H.
  step H. step H. step H. step H. step H. step H. apply Ok_inj' in H. subst oc. cbn [oc_strata].
  apply lookup_dget in E8. destruct (is_none a8) eqn:En; [|discriminate]. apply is_none_eq in En. subst a8. exact E8.
Qed.
Print Assumptions C99_no_table_partial.

(** C100.  Structures of old troughs. *)
Lemma one_of_In {F : Type} l s : one_of (F := F) l (AStr s) = true -> exists x, In x l /\ s = S_ x.
Proof.
  unfold one_of. intros H. apply existsb_exists in H. destruct H as (x & Hx & H). apply pystr_eqb_eq in H. subst x. apply in_map_iff in Hx. destruct Hx as (x & <- & Hx). eauto.
Qed.

Theorem C100_structures_partial :
  forall (F : Type) (fo : fops F) t (e e' p : dict F) (cm : contact F) s (u : nat),
  dget (raw_dict (F := F) t) (S_ "geometry") = Some (Leaf (AStr (S_ "trunc_ellip"))) ->
  parse_old_element fo t = Ok e -> convert_element fo e = Ok (e', cm) -> type_params e' = Ok p ->
  has p "structure" (Leaf (AStr s)) ->
  (s = S_ "bulb_l" /\ structure_code s u = Err ValueError) \/
  (In s (map S_ ["massive"; "dip"; "bulb"; "random"]) /\ exists code, structure_code s u = Ok code).
Proof.
  intros F fo t e e' p cm s u Hg H Hc Ht Hs.
  assert (He : has e "geometry" (Leaf (AStr (S_ "trunc_ellip")))).
  { refine (parsed_geometry F fo t e "trunc_ellip" (old_trough_options fo) _ _ _ _ Hg H); [reflexivity|eexists; reflexivity|reflexivity|reflexivity]. }
  destruct (trough_view fo e e' cm He Hc) as (z & f0 & a0 & p0 & dd & t0 & h & l & _ & _ & _ & _ & _ & V).
  assert (Q : forall s0, has e "structure" (Leaf (AStr s0)) -> exists x, In x ["massive"; "dip"; "bulb"; "bulb_l"; "random"; "flat"] /\ s0 = S_ x).
  { intros s0 H0. apply (one_of_In (F := F)). unfold parse_old_element in H. rewrite Hg in H. cbn [bind] in H.
    change (old_options fo (S_ "trunc_ellip")) with (Ok (old_trough_options fo)) in H. cbn [bind] in H. unfold old_trough_options in H. rewrite app_assoc in H.
    eapply (string_option_last (f_conv fo) (S_ "structure") _ false (Leaf none) _ _ _ _ s0); [| |exact H|exact H0|left; reflexivity];
    intros Q; apply mem_In in Q; vm_compute in Q; discriminate. }
  unfold type_params in Ht. step Ht. apply lookup_dget in E. apply Ok_inj' in Ht. rewrite V in E. cbn [String.eqb Ascii.eqb Bool.eqb] in E.
  unfold has in Hs. destruct (is_str a "flat") eqn:Ef.
  - subst p. rewrite dget_S in Hs. cbn [String.eqb Ascii.eqb Bool.eqb] in Hs. right. assert (s = S_ "massive") by congruence. subst s. split; [left; reflexivity|].
    eexists. vm_compute. reflexivity.
  - subst p. rewrite V in Hs. cbn [String.eqb Ascii.eqb Bool.eqb] in Hs. destruct (Q _ Hs) as (x & Hx & ->). cbn [In] in Hx.
    assert (a = Leaf (AStr (S_ x))) by congruence. subst a.
    destruct Hx as [<-|[<-|[<-|[<-|[<-|[<-|[]]]]]]].
    + right. split; [left; reflexivity|eexists; vm_compute; reflexivity].
    + right. split; [right; left; reflexivity|eexists; vm_compute; reflexivity].
    + right. split; [right; right; left; reflexivity|eexists; vm_compute; reflexivity].
    + left. split; [reflexivity|vm_compute; reflexivity].
    + right. split; [right; right; right; left; reflexivity|eexists; reflexivity].
    + vm_compute in Ef. discriminate.
Qed.
Print Assumptions C100_structures_partial.

Theorem C100_bulb_l_refuted :
  exists cf e cm p, read_config toyf ztrunc (old_ini old_run [] [(S_ "scour", old_trough "bulb_l")]) = Ok cf /\
  In (S_ "scour", (e, cm)) (cf_elements cf) /\ type_params e = Ok p /\
  has p "structure" (Leaf (AStr (S_ "bulb_l"))) /\ forall u, structure_code (S_ "bulb_l") u = Err ValueError.
Proof.
  eexists _, _, _, _. split; [vm_compute; reflexivity|]. split; [left; reflexivity|]. split; [vm_compute; reflexivity|]. split; [vm_compute; reflexivity|reflexivity].
Qed.
Print Assumptions C100_bulb_l_refuted.

(** C101.  The background facies of an old element is a float and cannot be
    used to look up its parameters. *)
Theorem C101_background_facies_refuted :
  forall (F : Type) (fo : fops F) (e e' : dict F) (cm : contact F) (g : string) f a p,
  In g ["trunc_ellip"; "sheet"] -> has e "geometry" (Leaf (AStr (S_ g))) ->
  convert_element fo e = Ok (e', cm) -> has e "bg" (triple (Leaf (AFlt f)) a p) ->
  exists b, has e' "bg_facies" b /\ forall (l : list R), index_list l b = Err TypeError.
Proof.
  intros F fo e e' cm g f a p Hi Hg H Hb.
  destruct (C65_element_background_partial F fo e e' cm g _ _ _ ltac:(cbn [In] in *; tauto) Hg H Hb) as (H1 & _).
  exists (Leaf (AFlt f)). split; [assumption|reflexivity].
Qed.
Print Assumptions C101_background_facies_refuted.

(** Without a background of its own the element has number -1 (background of
    the stratum). *)
Theorem C101_no_background_partial :
  forall (F : Type) (fo : fops F) (e e' : dict F) (cm : contact F) (g : string),
  In g ["trunc_ellip"; "sheet"] -> has e "geometry" (Leaf (AStr (S_ g))) ->
  convert_element fo e = Ok (e', cm) -> unset e "bg" ->
  has e' "bg_facies" (Leaf (AInt (-1)%Z)) /\ has e' "bg_azim" (Leaf (AFlt (f_nan fo))) /\ has e' "bg_dip" (Leaf (AFlt (f_nan fo))).
Proof.
  intros F fo e e' cm g Hi Hg H Hb.
  assert (Q : forall f0 a0 p0, bg_values fo e f0 a0 p0 -> f0 = Leaf (AInt (-1)%Z) /\ a0 = Leaf (AFlt (f_nan fo)) /\ p0 = Leaf (AFlt (f_nan fo))).
  { intros f0 a0 p0 [(_ & -> & -> & ->)|(bg & Hbg & Hn & _)]; [repeat split|]. unfold unset, has in *. rewrite Hb in Hbg. injection Hbg as <-. discriminate. }
  unfold has in *. cbn [In] in Hi. destruct Hi as [<-|[<-|[]]].
  - destruct (trough_view fo e e' cm Hg H) as (z & f0 & a0 & p0 & dd & t & h & l & _ & Hv & _ & _ & _ & V).
    destruct (Q _ _ _ Hv) as (-> & -> & ->). rewrite !V. repeat split.
  - destruct (other_view fo e e' cm "sheet" Hg ltac:(cbn [In]; intuition (subst; discriminate)) H) as (z & f0 & a0 & p0 & dd & _ & Hv & _ & V).
    destruct (Q _ _ _ Hv) as (-> & -> & ->). rewrite !V. repeat split.
Qed.
Print Assumptions C101_no_background_partial.

(** C102.  Recognition of old files. *)
Theorem C102_recognised_partial :
  forall (F : Type) (fo : fops F) trunc p t v, sec p "run" = Ok t -> dget (raw_dict (F := F) t) (S_ "dataoutputs") = Some v ->
  read_config fo trunc p = (let* oc := parse_deprecated_inifile fo p in get_new_parameters fo trunc oc).
Proof. intros F fo trunc p t v H Hd. unfold read_config. rewrite H. cbn [bind]. unfold dmem. rewrite Hd. reflexivity. Qed.
Print Assumptions C102_recognised_partial.

(** The same file with the other name of the option, or without it, is read as
    a new file and refused. *)
Theorem C102_recognised_refuted :
  exists run1 run2 run3 oc cf,
  run1 = old_run /\ run2 = [kv "l_dataoutputs" "[vtr, npz]"; kv "l_modeloutputs" "[mf6]"] /\ run3 = [kv "l_modeloutputs" "[mf6]"] /\
  read_config toyf ztrunc (old_ini run1 [] old_elements) = Ok cf /\
  parse_deprecated_inifile toyf (old_ini run2 [] old_elements) = Ok oc /\ (exists cf2, get_new_parameters toyf ztrunc oc = Ok cf2 /\ dget (cf_run cf2) (S_ "outputs") = dget (cf_run cf) (S_ "outputs")) /\
  read_config toyf ztrunc (old_ini run2 [] old_elements) = Err MissingOptionError /\
  read_config toyf ztrunc (old_ini run3 [] old_elements) = Err MissingOptionError.
Proof.
  eexists _, _, _, _, _. split; [reflexivity|]. split; [reflexivity|]. split; [reflexivity|]. split; [vm_compute; reflexivity|]. split; [vm_compute; reflexivity|].
  split; [eexists; split; [vm_compute; reflexivity|reflexivity]|]. split; vm_compute; reflexivity.
Qed.
Print Assumptions C102_recognised_refuted.

(** C103.  The level 'ae' of old files: accepted, and all conductivities and
    porosities are zero. *)
Theorem C103_level_ae_refuted :
  forall (F : Type) s co h g draw ae_draw an aes p,
  assign_parameters s co h g draw ae_draw (mkSettings true (level_of (F := F) (Leaf (AStr (S_ "ae")))) an) aes = Ok p ->
  forall c, p_stored_k p c = 0%R /\ p_stored_n p c = 0%R.
Proof.
  intros F s co h g draw ae_draw an aes p H. change (level_of (F := F) (Leaf (AStr (S_ "ae")))) with OtherLevel in H.
  unfold assign_parameters in H. cbn [s_het s_level] in H. step H. injection H as ->.
  assert (G : forall l p0 p1, foldM (object_step s co h g draw OtherLevel) p0 l = Ok p1 -> p_stored_k p1 = p_stored_k p0 /\ p_stored_n p1 = p_stored_n p0).
  { induction l as [|[mi fi] r IH]; intros p0 p1 Hf; cbn [foldM] in Hf; [injection Hf as <-; split; reflexivity|].
    unfold object_step at 1 in Hf. cbn [bind] in Hf. destruct (pyget (h_ratio h) fi); [|discriminate]. cbn [bind] in Hf.
    destruct (IH _ _ Hf) as [-> ->]. split; reflexivity. }
  destruct (G _ _ _ E) as [-> ->]. intros c. split; reflexivity.
Qed.
Print Assumptions C103_level_ae_refuted.

Example C103_example : exists m p, section_parse (f_conv toyf) (old_model_options toyf)
    (raw_dict [kv "dx" "1"; kv "lx" "9"; kv "ly" "8"; kv "lz" "7"; kv "hetlev" "ae"]) = Ok m /\ has m "hetlev" (Leaf (AStr (S_ "ae"))) /\
  forall co ns1 ns2, assign_parameters (1, 1, 1)%nat co (mkHydro [1%R] [1%R] [1%R] [1%R] [1%R] [] [] (mkTrends None None None None) None)
    (mkGeology (fun _ => 0%Z) (fun _ => 0%Z) (fun _ => 0%Z) (fun _ => 0%R) (fun _ => 0%R)) ns1 ns2
    (mkSettings true (level_of (F := Z) (Leaf (AStr (S_ "ae")))) true) [] = Ok p.
Proof. eexists _, _. split; [vm_compute; reflexivity|]. split; [vm_compute; reflexivity|]. intros co ns1 ns2. reflexivity. Qed.

(** The other levels are the ones of new files. *)
Theorem C103_levels_partial : forall (F : Type) (fo : fops F) d m v,
  section_parse (f_conv fo) (old_model_options fo) d = Ok m -> has m "hetlev" (Leaf (AStr v)) ->
  level_of (F := F) (Leaf (AStr v)) = Internal \/ level_of (F := F) (Leaf (AStr v)) = FaciesLevel \/ v = S_ "ae".
Proof.
  intros F fo d m v H Hv.
  assert (Q : one_of (F := F) ["ae"; "facies"; "internal"] (AStr v) = true).
  { eapply (string_option_last (f_conv fo) (S_ "hetlev") _ false (Leaf none) (firstn 11 (old_model_options fo)) []); [cbn; tauto|cbn; tauto| |exact Hv|left; reflexivity].
    exact H. }
  apply one_of_In in Q. destruct Q as (x & Hx & ->). cbn [In] in Hx. destruct Hx as [<-|[<-|[<-|[]]]]; vm_compute; tauto.
Qed.
Print Assumptions C103_levels_partial.

(** C104.  Settings of old files. *)
Theorem C104_run_settings :
  forall (F : Type) (run run' : dict F) m d ow,
  has run "modeloutputs" (Node m) -> has run "dataoutputs" (Node d) -> has run "flag_ow" ow ->
  convert_run run = Ok run' -> has run' "outputs" (Node (m ++ d)) /\ has run' "overwrite_old_output" ow /\
  (forall k, k <> "outputs" -> k <> "overwrite_old_output" -> dget run' (S_ k) = dget run (S_ k)).
Proof.
  intros F run run' m d ow Hm Hd Ho H. unfold convert_run in H. unfold has in *.
  rewrite (proj2 (lookup_dget _ _ _) Hm), (proj2 (lookup_dget _ _ _) Hd) in H. cbn [bind py_concat] in H.
  apply copy_spec in H. destruct H as (v & Hv & ->). unfold has in Hv. rewrite dget_S in Hv. cbn [String.eqb Ascii.eqb Bool.eqb] in Hv.
  rewrite !dget_S. cbn [String.eqb Ascii.eqb Bool.eqb]. split; [reflexivity|]. split; [congruence|].
  intros k H1 H2. rewrite !dget_S. apply String.eqb_neq in H1, H2. now rewrite H1, H2.
Qed.
Print Assumptions C104_run_settings.

Theorem C104_model_settings :
  forall (F : Type) (run model hyd : dict F) an het gen lv,
  has run "anisotropy" an -> has run "het" het -> has hyd "gen" gen -> has model "hetlev" lv -> has model "display" (Leaf (ABool false)) ->
  exists model', convert_model run model hyd = Ok model' /\
  has model' "anisotropy" an /\ has model' "heterogeneity" het /\ has model' "hydraulics" gen /\ has model' "heterogeneity_level" lv /\
  (forall k, ~ In k ["anisotropy"; "heterogeneity"; "hydraulics"; "heterogeneity_level"] -> dget model' (S_ k) = dget model (S_ k)).
Proof.
  intros F run model hyd an het gen lv Ha Hh Hg Hl Hd. unfold convert_model. unfold has in *.
  rewrite (proj2 (lookup_dget _ _ _) Ha), (proj2 (lookup_dget _ _ _) Hg), (proj2 (lookup_dget _ _ _) Hh). cbn [bind].
  unfold copy, lookup. rewrite !dget_S. cbn [String.eqb Ascii.eqb Bool.eqb]. rewrite Hl. cbn [bind]. rewrite !dget_S. cbn [String.eqb Ascii.eqb Bool.eqb]. rewrite Hd. cbn [bind truth].
  eexists. split; [reflexivity|]. rewrite !dget_S. cbn [String.eqb Ascii.eqb Bool.eqb]. repeat (split; [reflexivity|]).
  intros k Hk. cbn [In] in Hk. rewrite !dget_S.
  repeat match goal with |- context [String.eqb k ?x] => destruct (String.eqb_spec k x) as [->|_]; [tauto|] end. reflexivity.
Qed.
Print Assumptions C104_model_settings.

Example C104_example : exists cf, read_config toyf ztrunc (old_ini old_run [] old_elements) = Ok cf /\
  has (cf_run cf) "outputs" (Node [Leaf (AStr (S_ "mf6")); Leaf (AStr (S_ "vtr")); Leaf (AStr (S_ "npz"))]) /\
  has (cf_model cf) "heterogeneity_level" (Leaf (AStr (S_ "internal"))) /\ has (cf_model cf) "anisotropy" (Leaf (ABool true)).
Proof. eexists. split; [vm_compute; reflexivity|]. split; [|split]; vm_compute; reflexivity. Qed.
