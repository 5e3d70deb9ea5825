(** Specification: a file without some of its options, and settings that are the
    same as far as they are used. *)
From Coq Require Import List ZArith Bool Ascii String.
From Verif Require Import Base ParseModel ConfigModel.
Import ListNotations.
Local Open Scope string_scope.

(** [less drop l l']: [l'] is [l] without the options with [drop] *)
Inductive less (drop : pystr -> Prop) : list (pystr * pystr) -> list (pystr * pystr) -> Prop :=
  | less_nil : less drop [] []
  | less_drop k v l l' : drop k -> less drop l l' -> less drop ((k, v) :: l) l'
  | less_keep k v l l' : less drop l l' -> less drop ((k, v) :: l) ((k, v) :: l').

(** Some of the options [ws] (section and option) are removed. *)
Definition without (ws : list (pystr * pystr)) (p p' : inifile) : Prop :=
  Forall2 (fun s s' => fst s = fst s' /\ less (fun k => In (fst s, k) ws) (snd s) (snd s')) p p'.

(** The options that HyVR has, as documented (docs/inout.rst, options.py) *)
Definition run_names := ["runname"; "modeldir"; "numsim"; "outputs"; "overwrite_old_output"].
Definition model_names :=
  ["x0"; "y0"; "z0"; "dx"; "dy"; "dz"; "lx"; "ly"; "lz"; "periodic"; "hydraulics"; "anisotropy"; "heterogeneity";
   "heterogeneity_level"].
Definition strata_names :=
  ["strata"; "strata_contact_models"; "ae"; "ae_in_strata"; "ae_prob"; "ae_z_mean"; "avul_prob"; "avul"; "bg_facies";
   "bg_azim"; "bg_dip"].
Definition hydraulics_names :=
  ["hydrofacies"; "k_h"; "sig_y"; "k_ratio"; "n"; "sig_n"; "ycorlengths"; "ncorlengths"; "k_ztrend"; "k_xtrend"; "n_ztrend";
   "n_xtrend"].
Definition flowtrans_names := ["hin"; "hout"; "gradh"; "q_in"; "kw_gradh"; "kw_q_in"].
Definition element_names :=
  ["geometry"; "contact_model"; "facies"; "altfacies"; "size_ztrend"; "k_ztrend"; "k_xtrend"; "n_xtrend"; "n_ztrend"; "dip";
   "azimuth"; "bg_facies"; "bg_azim"; "bg_dip"; "structure"; "dipset_dist"].
Definition erosive_names := ["agg"; "buffer"; "lag"; "lag_height"; "lag_facies"].
Definition geometry_names (g : string) : list string :=
  (element_names ++
   (if String.eqb g "trough" then
      erosive_names ++ ["bulbset_dist"; "length"; "width"; "depth"; "trough_density"; "paleoflow"; "te_xyz"; "migrate"]
    else if String.eqb g "channel" then
      erosive_names ++ ["width"; "depth"; "h"; "k"; "ds"; "eps_factor"; "channel_no"; "mig"; "flow_angle"]
    else ["lens_thickness"]))%list.

(** The options [names] belong to the section [name] with the text [t]. *)
Inductive options_of : pystr -> list (pystr * pystr) -> list string -> Prop :=
  | of_run t : options_of (S_ "run") t run_names
  | of_model t : options_of (S_ "model") t model_names
  | of_strata t : options_of (S_ "strata") t strata_names
  | of_hydraulics t : options_of (S_ "hydraulics") t hydraulics_names
  | of_flowtrans t : options_of (S_ "flowtrans") t flowtrans_names
  | of_element name t g :
      ~ In name (map S_ ["run"; "model"; "strata"; "hydraulics"; "flowtrans"]) -> NoDup (map fst t) ->
      In (S_ "geometry", S_ g) t -> In g ["trough"; "channel"; "sheet"] ->
      options_of name t (geometry_names g).

(** The options of the old format under their first names (options_deprecated.py,
    without the alternatives with l_, ll_, r_ and flag_). *)
Definition old_run_names := ["runname"; "modeldir"; "numsim"; "anisotropy"; "het"; "dataoutputs"; "modeloutputs"; "flag_ow"].
Definition old_model_names :=
  ["x0"; "y0"; "z0"; "dx"; "dy"; "dz"; "lx"; "ly"; "lz"; "periodic"; "display"; "hetlev"].
Definition old_strata_names :=
  ["ssm"; "ssm_top"; "ssm_contact_model"; "ssm_contact"; "ae_table"; "save_aelu"; "ae"; "ssm_ae"; "ae_prob"; "ae_z_mean";
   "avul_prob"; "avul"; "bg"].
Definition old_hydraulics_names :=
  ["gen"; "hydro"; "k_h"; "sig_y"; "k_ratio"; "n"; "sig_n"; "ycorlengths"; "ncorlengths"; "k_ztrend"; "k_xtrend"; "n_ztrend";
   "n_xtrend"].
Definition old_element_names :=
  ["geometry"; "structure"; "contact"; "contact_model"; "facies"; "altfacies"; "geo_ztrend"; "k_ztrend"; "k_xtrend"; "n_xtrend";
   "n_ztrend"; "bg"; "dip"; "dipset_d"].
Definition old_geometry_names (g : string) : list string :=
  (old_element_names ++
   (if String.eqb g "trunc_ellip" then
      ["agg"; "buffer"; "migrate"; "lag"; "length"; "width"; "depth"; "el_z"; "paleoflow"; "azimuth"; "bulbset_d"; "te_xyz"]
    else if String.eqb g "ext_par" then
      ["agg"; "buffer"; "migrate"; "lag"; "width"; "depth"; "h"; "k"; "ds"; "eps_factor"; "channel_no"]
    else ["lens_thickness"; "azimuth"]))%list.
Inductive old_options_of : pystr -> list (pystr * pystr) -> list string -> Prop :=
  | old_of_run t : old_options_of (S_ "run") t old_run_names
  | old_of_model t : old_options_of (S_ "model") t old_model_names
  | old_of_strata t : old_options_of (S_ "strata") t old_strata_names
  | old_of_hydraulics t : old_options_of (S_ "hydraulics") t old_hydraulics_names
  | old_of_flowtrans t : old_options_of (S_ "flowtrans") t flowtrans_names
  | old_of_element name t g :
      ~ In name (map S_ ["run"; "model"; "strata"; "hydraulics"; "flowtrans"]) -> NoDup (map fst t) ->
      In (S_ "geometry", S_ g) t -> In g ["trunc_ellip"; "ext_par"; "sheet"] ->
      old_options_of name t (old_geometry_names g).

(** The same values of the options [names] *)
Definition agree {F} (names : list string) (d d' : dict F) : Prop :=
  forall k, In k names -> dget d (S_ k) = dget d' (S_ k).

Definition same_element {F} (e e' : pystr * (dict F * contact F)) : Prop :=
  fst e = fst e' /\ snd (snd e) = snd (snd e') /\
  exists g, In g ["trough"; "channel"; "sheet"] /\
    dget (fst (snd e)) (S_ "geometry") = Some (Leaf (AStr (S_ g))) /\
    agree (geometry_names g) (fst (snd e)) (fst (snd e')).

Definition same_settings {F} (cf cf' : config F) : Prop :=
  agree run_names (cf_run cf) (cf_run cf') /\ agree model_names (cf_model cf) (cf_model cf') /\
  agree strata_names (cf_strata cf) (cf_strata cf') /\ cf_contacts cf = cf_contacts cf' /\
  agree hydraulics_names (cf_hydraulics cf) (cf_hydraulics cf') /\
  agree flowtrans_names (cf_flowtrans cf) (cf_flowtrans cf') /\
  Forall2 same_element (cf_elements cf) (cf_elements cf').

(** Both calls fail with the same exception, or both succeed with related
    results. *)
Definition same_outcome {A B} (R : A -> B -> Prop) (r : res A) (r' : res B) : Prop :=
  match r, r' with
  | Ok a, Ok b => R a b
  | Err e, Err e' => e = e'
  | _, _ => False
  end.
