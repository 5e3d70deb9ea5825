(** Model of reading the old ini format: hyvr/input/options_deprecated.py,
    parse_deprecated_inifile, get_new_parameters_from_deprecated, the choice of
    the format in parameters() (hyvr/input/parameters.py) and the choice of the
    class of an element (hyvr/geo/ae_types.py).  No proofs here. *)
From Coq Require Import List ZArith Bool Ascii String.
From Verif Require Import Base ParseModel ConfigModel HydraulicsModel.
Import ListNotations.
Local Open Scope string_scope.

Section Deprecated.
(** [trunc] is int(x) of a float. *)
Context {F : Type} (fo : fops F) (trunc : F -> res Z).
Notation optn := (option_ F).
Notation dic := (dict F).
Notation value := (val (atom F)).

(** ** Tables (options_deprecated.py) *)
Definition alt_scalar (n : string) (t : scalar_type) (optional : bool) (dflt : atom F) (valid : atom F -> bool) : optn :=
  mkOption (S_ n) (OScalar t) optional (Leaf dflt) (ShInt (-1)%Z) valid [].
Definition alt_bool (n : string) (dflt : bool) (alts : list string) : optn :=
  mkOption (S_ n) OBool true (Leaf (ABool dflt)) (ShInt (-1)%Z) any (map S_ alts).
Definition alt_list (n : string) (t : scalar_type) (optional : bool) (dflt : value) (sh : oshape) (alts : list string) : optn :=
  mkOption (S_ n) (OList t) optional dflt sh any (map S_ alts).
Definition nolist : value := Leaf none.
Definition fixed (n : Z) : oshape := ShInt n.
Definition like (s : string) : oshape := ShName (S_ s).
Definition per (s : string) (n : Z) : oshape := ShList [DName (S_ s); DVal (Leaf n)].

(** l. 17-32 *)
Definition old_run_options : list optn :=
  [ scalar "runname" TStr true none;
    scalar "modeldir" TStr true none;
    scalar "numsim" TInt true (AInt 1%Z);
    alt_bool "anisotropy" true ["flag_anisotropy"];
    alt_bool "het" true ["flag_het"];
    mkOption (S_ "dataoutputs") (OList TStr) true (Node []) free1 (one_of ["vtr"; "py"; "mat"; "npz"; "h5"]) [S_ "l_dataoutputs"];
    mkOption (S_ "modeloutputs") (OList TStr) true (Node []) free1 (one_of ["mf"; "mf6"; "hgs"]) [S_ "l_modeloutputs"];
    bool_opt "flag_ow" false ].

(** l. 37-53 *)
Definition old_model_options : list optn :=
  [ scalar "x0" TFloat true (flt (f_zero fo));
    scalar "y0" TFloat true (flt (f_zero fo));
    scalar "z0" TFloat true (flt (f_zero fo));
    scalar "dx" TFloat false none;
    scalar "dy" TFloat true none;
    scalar "dz" TFloat true none;
    scalar "lx" TFloat false none;
    scalar "ly" TFloat false none;
    scalar "lz" TFloat false none;
    alt_bool "periodic" false ["flag_periodic"];
    alt_bool "display" false ["flag_display"];
    alt_scalar "hetlev" TStr false none (one_of ["ae"; "facies"; "internal"]) ].

(** l. 58-82 *)
Definition old_strata_options : list optn :=
  [ alt_list "ssm" TStr false nolist free1 ["l_ssm"; "l_seq"];
    alt_list "ssm_top" TFloat false nolist (like "ssm") ["r_ssm_top"];
    alt_list "ssm_contact_model" TFloat true nolist (per "ssm" 3) ["ll_ssm_contact_model"];
    alt_scalar "ssm_contact" TStr true (AStr (S_ "flat")) (one_of ["flat"; "random"; "user"]);
    scalar "ae_table" TStr true none;
    bool_opt "save_aelu" false;
    alt_list "ae" TStr false nolist free1 ["l_ae"];
    alt_list "ssm_ae" TStr false nolist (per "ssm" (-1)) ["ll_ssm_ae"];
    alt_list "ae_prob" TFloat false nolist (like "ssm_ae") ["ll_ae_prob"];
    alt_list "ae_z_mean" TFloat false nolist (like "ssm_ae") ["ll_ae_z_mean"];
    alt_list "avul_prob" TFloat false nolist (per "ssm" 1) ["ll_avul_prob"];
    alt_list "avul" TFloat false nolist (per "ssm" 2) ["ll_avul"];
    alt_list "bg" TFloat false nolist (fixed 3) [] ].

(** l. 87-110 *)
Definition old_element_options : list optn :=
  [ alt_scalar "geometry" TStr false none (one_of ["trunc_ellip"; "ext_par"; "sheet"]);
    scalar "structure" TStr false none;
    alt_scalar "contact" TStr false none (one_of ["flat"; "random"]);
    alt_list "contact_model" TFloat true nolist (ShList [DVal (Leaf 3%Z)]) ["r_contact_model"];
    alt_list "facies" TInt false nolist free1 ["l_facies"];
    alt_list "altfacies" TInt true nolist (per "facies" (-1)) ["ll_altfacies"];
    alt_list "geo_ztrend" TFloat true nolist (fixed 2) ["r_geo_ztrend"];
    alt_list "k_ztrend" TFloat true nolist (fixed 2) ["r_k_ztrend"];
    alt_list "k_xtrend" TFloat true nolist (fixed 2) ["r_k_xtrend"];
    alt_list "n_xtrend" TFloat true nolist (fixed 2) ["r_n_xtrend"];
    alt_list "n_ztrend" TFloat true nolist (fixed 2) ["r_n_ztrend"];
    alt_list "bg" TFloat true nolist (fixed 3) [] ].

(** l. 112-123 *)
Definition old_erosive_options : list optn :=
  [ scalar "agg" TFloat false none;
    scalar "buffer" TFloat true (flt (f_zero fo));
    scalar "dipset_d" TFloat true none;
    alt_list "migrate" TFloat true nolist (fixed 4) ["r_migrate"];
    alt_list "lag" TFloat true nolist (fixed 2) ["r_lag"];
    alt_list "dip" TFloat false nolist (fixed 2) ["r_dip"] ].

(** l. 125-134 *)
Definition old_sheet_options : list optn :=
  old_element_options ++
  [ structure_opt ["massive"; "dip"];
    scalar "lens_thickness" TFloat false none;
    scalar "dipset_d" TFloat true none;
    alt_list "dip" TFloat true (two_zeros fo) (fixed 2) ["r_dip"];
    alt_list "azimuth" TFloat true (two_zeros fo) (fixed 2) ["r_azimuth"] ].

(** l. 137-151 *)
Definition old_trough_options : list optn :=
  old_element_options ++ old_erosive_options ++
  [ structure_opt ["massive"; "dip"; "bulb"; "bulb_l"; "random"; "flat"];
    scalar "length" TFloat false none;
    scalar "width" TFloat false none;
    scalar "depth" TFloat false none;
    scalar "el_z" TFloat false none;
    alt_list "paleoflow" TFloat false nolist (fixed 2) ["r_paleoflow"];
    alt_list "azimuth" TFloat false nolist (fixed 2) ["r_azimuth"];
    scalar "bulbset_d" TFloat true none;
    alt_list "te_xyz" TFloat true nolist (ShList [DVal (Leaf (-1)%Z); DVal (Leaf 3%Z)]) ["ll_te_xyz"] ].

(** l. 154-164 *)
Definition old_channel_options : list optn :=
  old_element_options ++ old_erosive_options ++
  [ structure_opt ["massive"; "dip"];
    scalar "width" TFloat false none;
    scalar "depth" TFloat false none;
    scalar "h" TFloat false none;
    scalar "k" TFloat false none;
    scalar "ds" TFloat false none;
    scalar "eps_factor" TFloat false none;
    scalar "channel_no" TFloat false none ].

(** l. 169-195 *)
Definition old_hydraulics_options : list optn :=
  [ alt_bool "gen" true ["flag_gen"];
    alt_list "hydro" TStr false nolist free1 ["l_hydro"];
    alt_list "k_h" TFloat false nolist (like "hydro") ["r_k_h"];
    alt_list "sig_y" TFloat false nolist (like "hydro") ["r_sig_y"];
    alt_list "k_ratio" TFloat false nolist (like "hydro") ["r_k_ratio"];
    alt_list "n" TFloat false nolist (like "hydro") ["r_n"];
    alt_list "sig_n" TFloat false nolist (like "hydro") ["r_sig_n"];
    alt_list "ycorlengths" TFloat false nolist (per "hydro" 3) ["ll_ycorlengths"];
    alt_list "ncorlengths" TFloat false nolist (per "hydro" 3) ["ll_ncorlengths"];
    alt_list "k_ztrend" TFloat true nolist (fixed 2) ["r_k_ztrend"];
    alt_list "k_xtrend" TFloat true nolist (fixed 2) ["r_k_xtrend"];
    alt_list "n_ztrend" TFloat true nolist (fixed 2) ["r_n_ztrend"];
    alt_list "n_xtrend" TFloat true nolist (fixed 2) ["r_n_xtrend"] ].

(** old_options[geometry].  The names of the other tables are keys as well. *)
Definition old_options (g : pystr) : res (list optn) :=
  if pystr_eqb g (S_ "sheet") then Ok old_sheet_options
  else if pystr_eqb g (S_ "trunc_ellip") then Ok old_trough_options
  else if pystr_eqb g (S_ "ext_par") then Ok old_channel_options
  else if pystr_eqb g (S_ "run") then Ok old_run_options
  else if pystr_eqb g (S_ "model") then Ok old_model_options
  else if pystr_eqb g (S_ "strata") then Ok old_strata_options
  else if pystr_eqb g (S_ "hydraulics") then Ok old_hydraulics_options
  else if pystr_eqb g (S_ "flowtrans") then Ok flowtrans_options
  else Err KeyError.

(** ** parse_deprecated_inifile (parameters.py l. 412-464) *)
Record old_config := mkOld {
  oc_run : dic; oc_model : dic; oc_strata : dic; oc_hydraulics : dic; oc_flowtrans : dic; oc_elements : list (pystr * dic) }.

(** l. 457-461 *)
Definition parse_old_element (texts : list (pystr * pystr)) : res dic :=
  let dictionary : dic := raw_dict texts in
  match dget dictionary (S_ "geometry") with
  | None => Err MissingOptionError
  | Some (Leaf (AStr geometry)) =>
      let* os := old_options geometry in
      section_parse (f_conv fo) os dictionary
  | Some _ => Err OutOfModel
  end.

Definition parse_deprecated_inifile (p : inifile) : res old_config :=
  let sections := section_names p in
  let* _ := foldM (fun _ s => if mem (S_ s) sections then Ok tt else Err MissingSectionError)
                  tt ["run"; "model"; "strata"; "hydraulics"; "flowtrans"] in
  let* t := sec p "run" in
  let* run := section_parse (f_conv fo) old_run_options (raw_dict t) in
  let* t := sec p "model" in
  let* model := section_parse (f_conv fo) old_model_options (raw_dict t) in
  let* model := default_to_dx model "dy" in
  let* model := default_to_dx model "dz" in
  let* t := sec p "strata" in
  let* strata := section_parse (f_conv fo) old_strata_options (raw_dict t) in
  let* tab := lookup strata "ae_table" in
  (* l. 445: the name inifile is not defined *)
  let* _ := (if is_none tab then Ok tt else Err NameError) in
  let* t := sec p "hydraulics" in
  let* hydraulics := section_parse (f_conv fo) old_hydraulics_options (raw_dict t) in
  let* t := sec p "flowtrans" in
  let* flowtrans := section_parse (f_conv fo) flowtrans_options (raw_dict t) in
  let sections := fold_left (fun l s => remove_name (S_ s) l) ["run"; "model"; "strata"; "hydraulics"; "flowtrans"] sections in
  let* elements := mapM (fun s =>
      match section_texts p s with
      | None => Err KeyError
      | Some t => let* e := parse_old_element t in Ok (s, e)
      end) sections in
  Ok (mkOld run model strata hydraulics flowtrans elements).

(** ** get_new_parameters_from_deprecated (l. 300-368) *)

(** l + m for lists *)
Definition py_concat (a b : value) : res value :=
  match a, b with Node l, Node m => Ok (Node (l ++ m)) | _, _ => Err TypeError end.
(** int(x) *)
Definition py_int (v : value) : res Z :=
  match v with
  | Leaf (AFlt f) => trunc f
  | Leaf (AInt z) => Ok z
  | Leaf (AStr s) => to_int (f_conv fo) s
  | Leaf (ABool _) => Err OutOfModel
  | _ => Err TypeError
  end.
(** v[i] for a list v *)
Definition py_item (v : value) (i : Z) : res value := let* l := items v in pyget l i.
(** A number stored in a contact model. *)
Definition number (v : value) : res F := match v with Leaf (AFlt f) => Ok f | _ => Err OutOfModel end.
Definition truth (v : value) : res bool := match v with Leaf (ABool b) => Ok b | _ => Err OutOfModel end.
Definition copy (from to : string) (d : dic) : res dic := let* v := lookup d from in Ok (dset d (S_ to) v).

(** parse_old_elem_contact_model (l. 397-408) and, for stratum contact i,
    parse_old_strata_contact_model (l. 384-395).  The arguments are the mode,
    the depth and the list of three parameters. *)
Definition old_contact (mode : value) (z : option F) (params : res value) : res (contact F) :=
  match mode with
  | Leaf (AStr m) =>
      if pystr_eqb (str_lower m) (S_ "flat") then Ok (mkContact m z None)
      else if pystr_eqb (str_lower m) (S_ "random") then
        let* p := params in
        let* v0 := py_item p 0 in let* var := number v0 in
        let* v1 := py_item p 1 in let* corlx := number v1 in
        let* v2 := py_item p 2 in let* corly := number v2 in
        Ok (mkContact m z (Some (var, corlx, corly)))
      else Err ValueError
  | _ => Err AttributeError
  end.

(** l. 340-364: one element *)
Definition convert_element (e : dic) : res (dic * contact F) :=
  let* e := copy "geo_ztrend" "size_ztrend" e in
  let* bg := lookup e "bg" in
  let* e := (if is_none bg then
               Ok (dset (dset (dset e (S_ "bg_facies") (Leaf (AInt (-1)%Z))) (S_ "bg_azim") (Leaf (AFlt (f_nan fo)))) (S_ "bg_dip") (Leaf (AFlt (f_nan fo))))
             else
               let* b0 := py_item bg 0 in
               let e := dset e (S_ "bg_facies") b0 in
               let* b1 := py_item bg 1 in
               let e := dset e (S_ "bg_azim") b1 in
               let* b2 := py_item bg 1 in
               Ok (dset e (S_ "bg_dip") b2)) in
  let* e := copy "dipset_d" "dipset_dist" e in
  let* e := (if dmem e (S_ "bulbset_d") then copy "bulbset_d" "bulbset_dist" e else Ok e) in
  let* g := lookup e "geometry" in
  let* e := (if is_str g "trunc_ellip" then copy "el_z" "trough_density" (dset e (S_ "geometry") (Leaf (AStr (S_ "trough")))) else Ok e) in
  let* mode := lookup e "contact" in
  let* cm := old_contact mode None (lookup e "contact_model") in
  let* g := lookup e "geometry" in
  let* e := (if is_str g "trough" || is_str g "channel" then
               let* lag := lookup e "lag" in
               if is_none lag then Ok (dset (dset e (S_ "lag_height") (Leaf (AFlt (f_zero fo)))) (S_ "lag_facies") (Leaf (AInt (-1)%Z)))
               else
                 let* l0 := py_item lag 0 in
                 let e := dset e (S_ "lag_height") l0 in
                 let* l1 := py_item lag 1 in
                 Ok (dset e (S_ "lag_facies") l1)
             else Ok e) in
  Ok (e, cm).

(** l. 305-337: run, model, strata *)
Definition convert_run (run : dic) : res dic :=
  let* m := lookup run "modeloutputs" in
  let* d := lookup run "dataoutputs" in
  let* o := py_concat m d in
  copy "flag_ow" "overwrite_old_output" (dset run (S_ "outputs") o).
Definition convert_model (run model hydraulics : dic) : res dic :=
  let* a := lookup run "anisotropy" in
  let model := dset model (S_ "anisotropy") a in
  let* g := lookup hydraulics "gen" in
  let model := dset model (S_ "hydraulics") g in
  let* h := lookup run "het" in
  let model := dset model (S_ "heterogeneity") h in
  let* model := copy "hetlev" "heterogeneity_level" model in
  let* dv := lookup model "display" in
  let* d := truth dv in
  if d then Err ValueError else Ok model.
Definition convert_strata (strata : dic) : res (dic * list (contact F)) :=
  let* ssm := lookup strata "ssm" in
  let* nz := py_len ssm in
  let n := Z.to_nat nz in
  let* bg := lookup strata "bg" in
  let* b0 := py_item bg 0 in
  let* f := py_int b0 in
  let* b1 := py_item bg 1 in
  let* b2 := py_item bg 2 in
  let strata := dset strata (S_ "bg_facies") (Node (repeat (Leaf (AInt f)) n)) in
  let strata := dset strata (S_ "bg_azim") (Node (repeat b1 n)) in
  let strata := dset strata (S_ "bg_dip") (Node (repeat b2 n)) in
  let strata := dset strata (S_ "strata") ssm in
  let* tab := lookup strata "ae_table" in
  let* _ := (if is_none tab then Ok tt else Err ValueError) in
  let* sv := lookup strata "save_aelu" in
  let* sb := truth sv in
  let* _ := (if sb then Err ValueError else Ok tt) in
  let* contacts := mapM (fun i =>
      let* mode := lookup strata "ssm_contact" in
      let* tops := lookup strata "ssm_top" in
      let* t := py_item tops (Z.of_nat i) in
      let* z := number t in
      old_contact mode (Some z) (let* cms := lookup strata "ssm_contact_model" in py_item cms (Z.of_nat i))) (seq 0 (n - 1)) in
  let* strata := copy "ssm_ae" "ae_in_strata" strata in
  Ok (strata, contacts).

Definition get_new_parameters (oc : old_config) : res (config F) :=
  let* run := convert_run (oc_run oc) in
  let* hydraulics := copy "hydro" "hydrofacies" (oc_hydraulics oc) in
  let* model := convert_model run (oc_model oc) hydraulics in
  let* sc := convert_strata (oc_strata oc) in
  let* elements := mapM (fun ne => let* ec := convert_element (snd ne) in Ok (fst ne, ec)) (oc_elements oc) in
  Ok (mkConfig run model (fst sc) (snd sc) hydraulics (oc_flowtrans oc) elements).

(** l. 106-112: the format is old if the section run has the key dataoutputs *)
Definition read_config (p : inifile) : res (config F) :=
  let* t := sec p "run" in
  if dmem (raw_dict (F := F) t) (S_ "dataoutputs") then
    let* oc := parse_deprecated_inifile p in get_new_parameters oc
  else parse_inifile fo p.

(** ** AEType (ae_types.py l. 25-42) and the class of a realization (l. 61-68) *)
Inductive kind := KTrough | KChannel | KSheet.
Definition type_params (e : dic) : res dic :=
  let* s := lookup e "structure" in
  Ok (if is_str s "flat" then dset e (S_ "structure") (Leaf (AStr (S_ "massive"))) else e).
Definition realization_kind (e : dic) : res kind :=
  let* g := lookup e "geometry" in
  if is_str g "trough" then Ok KTrough
  else if is_str g "channel" then Ok KChannel
  else if is_str g "sheet" then Ok KSheet
  else Err ValueError.

(** hydraulics['sig_y'][ae_bg_facies] and similar (model.py l. 240-257): the
    background facies as an index of a list. *)
Definition index_list {A} (l : list A) (v : value) : res A :=
  match v with Leaf (AInt z) => pyget l z | _ => Err TypeError end.

(** self.heterogeneity_level == 'internal', == 'facies' (model.py l. 196-220) *)
Definition level_of (v : value) : level :=
  if is_str v "internal" then Internal else if is_str v "facies" then FaciesLevel else OtherLevel.
End Deprecated.
Arguments old_config F : clear implicits.
