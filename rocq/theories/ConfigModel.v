(** Model of reading a configuration in the new ini format:
    hyvr/input/options.py (option tables), hyvr/input/parameters.py
    (parse_inifile, l. 161-298, and the identifiers of setup_from_inifile,
    l. 49-51) and hyvr/geo/contact_surface_utils.py.  No proofs here.

    The file itself is what configparser returns: a list of sections with
    distinct names, each a list of keys and texts (entries of the DEFAULT
    section are part of every section). *)
From Coq Require Import List ZArith Bool Ascii String.
From Verif Require Import Base ParseModel.
Import ListNotations.
Local Open Scope string_scope.

(** What is needed of floating point numbers: conversion from text, 0.0, NaN
    and comparison with 0.0. *)
Record fops (F : Type) := mkFops {
  f_conv : converters F;
  f_zero : F;
  f_nan : F;
  f_is_zero : F -> bool }.
Arguments f_conv {F}. Arguments f_zero {F}. Arguments f_nan {F}. Arguments f_is_zero {F}. Arguments mkFops {F}.

Definition inifile := list (pystr * list (pystr * pystr)).

(** [p.sections()] and [dict(p[name])]. *)
Definition section_names (p : inifile) : list pystr := map fst p.
Fixpoint section_texts (p : inifile) (name : pystr) : option (list (pystr * pystr)) :=
  match p with
  | [] => None
  | (n, t) :: r => if pystr_eqb name n then Some t else section_texts r name
  end.
Definition raw_dict {F} (t : list (pystr * pystr)) : dict F :=
  map (fun kv => (fst kv, Leaf (AStr (snd kv)))) t.

Definition mem (x : pystr) (l : list pystr) : bool := existsb (pystr_eqb x) l.

(** ** Option tables (options.py) *)
Section Tables.
Context {F : Type} (fo : fops F).
Notation optn := (option_ F).

Definition any : atom F -> bool := fun _ => true.
(** [lambda x: x in [...]] for strings. *)
Definition one_of (l : list string) (a : atom F) : bool :=
  match a with AStr s => mem s (map S_ l) | _ => false end.

Definition scalar (n : string) (t : scalar_type) (optional : bool) (dflt : atom F) : optn :=
  mkOption (S_ n) (OScalar t) optional (Leaf dflt) (ShInt (-1)%Z) any [].
Definition bool_opt (n : string) (dflt : bool) : optn :=
  mkOption (S_ n) OBool true (Leaf (ABool dflt)) (ShInt (-1)%Z) any [].
Definition listo (n : string) (t : scalar_type) (optional : bool) (dflt : val (atom F)) (sh : oshape) : optn :=
  mkOption (S_ n) (OList t) optional dflt sh any [].
Definition none : atom F := ANone.
Definition flt (f : F) : atom F := AFlt f.
Definition free1 : oshape := ShList [DVal (Leaf (-1)%Z)].

(** l. 28-35 *)
Definition run_options : list optn :=
  [ scalar "runname" TStr true none;
    scalar "modeldir" TStr true none;
    scalar "numsim" TInt true (AInt 1%Z);
    mkOption (S_ "outputs") (OList TStr) true (Node []) free1
      (one_of ["vtr"; "py"; "mat"; "npz"; "h5"; "mf"; "mf6"; "hgs"]) [];
    bool_opt "overwrite_old_output" false ].

(** l. 40-56 *)
Definition model_options : list optn :=
  [ scalar "x0" TFloat true (flt (f_zero fo));
    scalar "y0" TFloat true (flt (f_zero fo));
    scalar "z0" TFloat true (flt (f_zero fo));
    scalar "dx" TFloat false none;
    scalar "dy" TFloat true none;
    scalar "dz" TFloat true none;
    scalar "lx" TFloat false none;
    scalar "ly" TFloat false none;
    scalar "lz" TFloat false none;
    bool_opt "periodic" false;
    bool_opt "hydraulics" true;
    bool_opt "anisotropy" true;
    bool_opt "heterogeneity" true;
    mkOption (S_ "heterogeneity_level") (OScalar TStr) true (Leaf (AStr (S_ "internal"))) (ShInt (-1)%Z)
      (one_of ["facies"; "internal"]) [] ].

(** l. 61-73 *)
Definition strata_options : list optn :=
  [ listo "strata" TStr false (Leaf none) free1;
    listo "strata_contact_models" TStr false (Leaf none) (ShList [DVal (Leaf (-1)%Z); DVal (Leaf (-1)%Z)]);
    listo "ae" TStr false (Leaf none) free1;
    listo "ae_in_strata" TStr false (Leaf none) (ShList [DName (S_ "strata"); DVal (Leaf (-1)%Z)]);
    listo "ae_prob" TFloat false (Leaf none) (ShName (S_ "ae_in_strata"));
    listo "ae_z_mean" TFloat false (Leaf none) (ShName (S_ "ae_in_strata"));
    listo "avul_prob" TFloat false (Leaf none) (ShList [DName (S_ "strata"); DVal (Leaf 1%Z)]);
    listo "avul" TFloat false (Leaf none) (ShList [DName (S_ "strata"); DVal (Leaf 2%Z)]);
    listo "bg_facies" TStr false (Leaf none) (ShName (S_ "strata"));
    listo "bg_azim" TFloat false (Leaf none) (ShName (S_ "strata"));
    listo "bg_dip" TFloat false (Leaf none) (ShName (S_ "strata")) ].

Definition two_zeros : val (atom F) := Node [Leaf (flt (f_zero fo)); Leaf (flt (f_zero fo))].

(** l. 78-95 *)
Definition element_options : list optn :=
  [ mkOption (S_ "geometry") (OScalar TStr) false (Leaf none) (ShInt (-1)%Z)
      (one_of ["trough"; "channel"; "sheet"]) [];
    listo "contact_model" TStr true (Leaf none) free1;
    listo "facies" TStr false (Leaf none) free1;
    listo "altfacies" TStr true (Leaf none) (ShList [DName (S_ "facies"); DVal (Leaf (-1)%Z)]);
    listo "size_ztrend" TFloat true (Leaf none) (ShInt 2%Z);
    listo "k_ztrend" TFloat true (Leaf none) (ShInt 2%Z);
    listo "k_xtrend" TFloat true (Leaf none) (ShInt 2%Z);
    listo "n_xtrend" TFloat true (Leaf none) (ShInt 2%Z);
    listo "n_ztrend" TFloat true (Leaf none) (ShInt 2%Z);
    listo "dip" TFloat true two_zeros (ShInt 2%Z);
    listo "azimuth" TFloat true two_zeros (ShInt 2%Z);
    scalar "bg_facies" TStr true none;
    scalar "bg_azim" TFloat true (flt (f_nan fo));
    scalar "bg_dip" TFloat true (flt (f_nan fo)) ].

(** l. 97-103 *)
Definition erosive_options : list optn :=
  [ scalar "agg" TFloat false none;
    scalar "buffer" TFloat true (flt (f_zero fo));
    listo "lag" TFloat true (Leaf none) (ShInt 2%Z);
    scalar "lag_height" TFloat true (flt (f_zero fo));
    scalar "lag_facies" TStr true none ].

Definition structure_opt (l : list string) : optn :=
  mkOption (S_ "structure") (OScalar TStr) false (Leaf none) (ShInt (-1)%Z) (one_of l) [].

(** l. 105-110 *)
Definition sheet_options : list optn :=
  element_options ++
  [ structure_opt ["massive"; "dip"];
    scalar "dipset_dist" TFloat true none;
    scalar "lens_thickness" TFloat false none ].

(** l. 113-125 *)
Definition trough_options : list optn :=
  element_options ++ erosive_options ++
  [ structure_opt ["massive"; "dip"; "bulb"; "bulb_sets"; "random"; "flat"];
    scalar "dipset_dist" TFloat true none;
    scalar "bulbset_dist" TFloat true none;
    scalar "length" TFloat false none;
    scalar "width" TFloat false none;
    scalar "depth" TFloat false none;
    scalar "trough_density" TFloat false none;
    listo "paleoflow" TFloat false (Leaf none) (ShInt 2%Z);
    listo "te_xyz" TFloat true (Leaf none) (ShList [DVal (Leaf (-1)%Z); DVal (Leaf 3%Z)]);
    listo "migrate" TFloat true (Leaf none) (ShInt 4%Z) ].

(** l. 128-141 *)
Definition channel_options : list optn :=
  element_options ++ erosive_options ++
  [ structure_opt ["massive"; "dip"];
    scalar "dipset_dist" TFloat true none;
    scalar "width" TFloat false none;
    scalar "depth" TFloat false none;
    scalar "h" TFloat false none;
    scalar "k" TFloat false none;
    scalar "ds" TFloat false none;
    scalar "eps_factor" TFloat false none;
    scalar "channel_no" TInt false none;
    scalar "mig" TFloat true (flt (f_zero fo));
    scalar "flow_angle" TFloat true (flt (f_zero fo)) ].

(** l. 146-159 *)
Definition hydraulics_options : list optn :=
  let hf := ShName (S_ "hydrofacies") in
  let hf3 := ShList [DName (S_ "hydrofacies"); DVal (Leaf 3%Z)] in
  [ listo "hydrofacies" TStr false (Leaf none) free1;
    listo "k_h" TFloat false (Leaf none) hf;
    listo "sig_y" TFloat false (Leaf none) hf;
    listo "k_ratio" TFloat false (Leaf none) hf;
    listo "n" TFloat false (Leaf none) hf;
    listo "sig_n" TFloat false (Leaf none) hf;
    listo "ycorlengths" TFloat false (Leaf none) hf3;
    listo "ncorlengths" TFloat false (Leaf none) hf3;
    listo "k_ztrend" TFloat true (Leaf none) (ShInt 2%Z);
    listo "k_xtrend" TFloat true (Leaf none) (ShInt 2%Z);
    listo "n_ztrend" TFloat true (Leaf none) (ShInt 2%Z);
    listo "n_xtrend" TFloat true (Leaf none) (ShInt 2%Z) ].

(** l. 164-171 *)
Definition flowtrans_options : list optn :=
  [ listo "hin" TFloat true (Leaf none) (ShInt 3%Z);
    listo "hout" TFloat true (Leaf none) (ShInt 3%Z);
    scalar "gradh" TFloat true none;
    scalar "q_in" TFloat true none;
    scalar "kw_gradh" TFloat true none;
    scalar "kw_q_in" TFloat true none ].

(** [options[geometry]]; only called for the three names. *)
Definition geometry_options (g : pystr) : list optn :=
  if pystr_eqb g (S_ "trough") then trough_options
  else if pystr_eqb g (S_ "channel") then channel_options
  else sheet_options.
End Tables.

(** ** Contact models (contact_surface_utils.py l. 3-22) *)

(** The dictionary returned by [parse_contact_model]: mode, z (only with
    depth), var/corlx/corly (only for random). *)
Record contact (F : Type) := mkContact {
  cm_mode : pystr;
  cm_z : option F;
  cm_random : option (F * F * F) }.
Arguments cm_mode {F}. Arguments cm_z {F}. Arguments cm_random {F}. Arguments mkContact {F}.

Definition is_quote (a : ascii) : bool := Ascii.eqb a """"%char || Ascii.eqb a "'"%char.
Fixpoint lstrip (s : pystr) : pystr :=
  match s with
  | [] => []
  | a :: r => if is_quote a then lstrip r else s
  end.
(** [s.strip] of the double and the single quote character *)
Definition strip_quotes (s : pystr) : pystr := rev (lstrip (rev (lstrip s))).

Section Contact.
Context {F : Type} (c : converters F).

(** The elements of [param_list] for indexing: a string is indexed by
    character; None has no elements. *)
Definition items (v : val (atom F)) : res (list (val (atom F))) :=
  match v with
  | Node l => Ok l
  | Leaf (AStr s) => Ok (map (fun a => Leaf (AStr [a])) s)
  | Leaf _ => Err TypeError
  end.

(** [float(x)] *)
Definition py_float (v : val (atom F)) : res F :=
  match v with
  | Leaf (AStr s) => to_float c s
  | Leaf (AFlt f) => Ok f
  | Leaf ANone | Node _ => Err TypeError
  | Leaf (AInt _) | Leaf (ABool _) => Err OutOfModel
  end.

(** [x.strip(...)] *)
Definition py_strip (v : val (atom F)) : res pystr :=
  match v with
  | Leaf (AStr s) => Ok (strip_quotes s)
  | _ => Err AttributeError
  end.

Definition parse_contact_model (param_list : val (atom F)) (depth : bool) : res (contact F) :=
  let* l := items param_list in
  let* first := pyget l 0 in
  let* mode := py_strip first in
  let* (z, rest) :=
    (if depth then
       if (List.length l <? 2)%nat then Err ValueError
       else let* z1 := pyget l 1 in let* z := py_float z1 in Ok (Some z, skipn 2 l)
     else Ok (None, skipn 1 l)) in
  if pystr_eqb (str_lower mode) (S_ "flat") && (List.length rest =? 0)%nat
  then Ok (mkContact mode z None)
  else if pystr_eqb (str_lower mode) (S_ "random") && (List.length rest =? 3)%nat
  then let* p0 := pyget rest 0 in let* var := py_float p0 in
       let* p1 := pyget rest 1 in let* corlx := py_float p1 in
       let* p2 := pyget rest 2 in let* corly := py_float p2 in
       Ok (mkContact mode z (Some (var, corlx, corly)))
  else Err ValueError.
End Contact.

(** ** parse_inifile (parameters.py l. 161-298) *)
Section Config.
Context {F : Type} (fo : fops F).
Notation dic := (dict F).
Notation value := (val (atom F)).

(** Equality of the values that are compared here: strings and lists of
    strings. *)
Definition atom_str_eqb (a b : atom F) : bool :=
  match a, b with AStr s, AStr t => pystr_eqb s t | _, _ => false end.
Fixpoint value_eqb (a b : value) : bool :=
  match a, b with
  | Leaf x, Leaf y => atom_str_eqb x y
  | Node l, Node m =>
      (fix go (l m : list value) : bool :=
         match l, m with
         | [], [] => true
         | x :: l, y :: m => value_eqb x y && go l m
         | _, _ => false
         end) l m
  | _, _ => false
  end.

Fixpoint index_in (x : value) (l : list value) : option nat :=
  match l with
  | [] => None
  | y :: r => if value_eqb x y then Some 0%nat
              else match index_in x r with Some k => Some (S k) | None => None end
  end.

(** [hydrofacies.index(x)]; ValueError if not found.  [hydrofacies] is a list
    whenever its section was accepted. *)
Definition list_index (hf : value) (x : value) : res Z :=
  match hf with
  | Node l => match index_in x l with Some k => Ok (Z.of_nat k) | None => Err ValueError end
  | Leaf _ => Err OutOfModel
  end.

(** [parse_facies] (l. 371-378). *)
Definition parse_facies (facies hf : value) : res value :=
  let* l := items facies in
  let* ks := mapM (list_index hf) l in
  Ok (Node (map (fun k => Leaf (AInt k)) ks)).

(** [d[key]] *)
Definition lookup (d : dic) (k : string) : res value :=
  match dget d (S_ k) with Some v => Ok v | None => Err KeyError end.

(** [try: ... except: raise e] *)
Definition or_raise {A} (e : exn) (r : res A) : res A :=
  match r with Ok a => Ok a | Err _ => Err e end.

Definition is_str (v : value) (s : string) : bool := value_eqb v (Leaf (AStr (S_ s))).
Definition is_none (v : value) : bool := match v with Leaf ANone => true | _ => false end.

(** [lag_height != 0.0] *)
Definition nonzero (v : value) : bool :=
  match v with Leaf (AFlt f) => negb (f_is_zero fo f) | _ => true end.

(** Removal of a name from the list of sections, [del l[l.index(x)]]. *)
Fixpoint remove_name (x : pystr) (l : list pystr) : list pystr :=
  match l with
  | [] => []
  | y :: r => if pystr_eqb x y then r else y :: remove_name x r
  end.

(** The loop body over the element sections, l. 248-294. *)
Definition parse_element (hydraulics : dic) (texts : list (pystr * pystr)) : res (dic * contact F) :=
  let dictionary : dic := raw_dict texts in
  match dget dictionary (S_ "geometry") with
  | None => Err MissingOptionError
  | Some graw =>
      match graw with
      | Leaf (AStr geometry) =>
          if negb (mem geometry (map S_ ["trough"; "channel"; "sheet"])) then Err ValueError
          else
            let* e := section_parse (f_conv fo) (geometry_options fo geometry) dictionary in
            let* cmv := lookup e "contact_model" in
            let* cm := parse_contact_model (f_conv fo) cmv false in
            let* hf := lookup hydraulics "hydrofacies" in
            let* fac := lookup e "facies" in
            let* facies := or_raise ValueError (parse_facies fac hf) in
            let e := dset e (S_ "facies") facies in
            let* alt := lookup e "altfacies" in
            let* e := (if is_none alt then Ok e
                       else let* a := or_raise ValueError
                                        (let* l := items alt in
                                         let* ks := mapM (fun x => parse_facies x hf) l in
                                         Ok (Node ks)) in
                            Ok (dset e (S_ "altfacies") a)) in
            let* bg := lookup e "bg_facies" in
            let* bgi := (if is_none bg then Ok (-1)%Z else or_raise ValueError (list_index hf bg)) in
            let e := dset e (S_ "bg_facies") (Leaf (AInt bgi)) in
            let* st := lookup e "structure" in
            let* _ := (if is_str st "dip" || is_str st "random"
                       then if dmem dictionary (S_ "dipset_dist") then Ok tt else Err MissingOptionError
                       else Ok tt) in
            let* _ := (if is_str st "bulb" || is_str st "random"
                       then if dmem dictionary (S_ "bulbset_dist") then Ok tt else Err MissingOptionError
                       else Ok tt) in
            if mem geometry (map S_ ["trough"; "channel"]) then
              let* lh := lookup e "lag_height" in
              let* lf := lookup e "lag_facies" in
              let* k := (if nonzero lh then or_raise ValueError (list_index hf lf) else Ok (-1)%Z) in
              Ok (dset e (S_ "lag_facies") (Leaf (AInt k)), cm)
            else Ok (e, cm)
      | _ => Err OutOfModel
      end
  end.

(** What parse_inifile returns.  The contact models, which the code stores in
    the dictionaries under 'contact_models' and 'contact_model', are kept
    apart because they are dictionaries themselves. *)
Record config := mkConfig {
  cf_run : dic;
  cf_model : dic;
  cf_strata : dic;
  cf_contacts : list (contact F);
  cf_hydraulics : dic;
  cf_flowtrans : dic;
  cf_elements : list (pystr * (dic * contact F)) }.

Definition sec (p : inifile) (name : string) : res (list (pystr * pystr)) :=
  match section_texts p (S_ name) with Some t => Ok t | None => Err KeyError end.

(** [if model['dy'] == None: model['dy'] = model['dx']] *)
Definition default_to_dx (m : dic) (k : string) : res dic :=
  let* v := lookup m k in
  if is_none v then let* dx := lookup m "dx" in Ok (dset m (S_ k) dx) else Ok m.

Definition parse_inifile (p : inifile) : res config :=
  let sections := section_names p in
  let* _ := foldM (fun _ s => if mem (S_ s) sections then Ok tt else Err MissingSectionError)
                  tt ["run"; "model"; "strata"; "hydraulics"] in
  let* t := sec p "run" in
  let* run := section_parse (f_conv fo) run_options (raw_dict t) in
  let sections := remove_name (S_ "run") sections in
  let* t := sec p "hydraulics" in
  let* hydraulics := section_parse (f_conv fo) hydraulics_options (raw_dict t) in
  let sections := remove_name (S_ "hydraulics") sections in
  let* t := sec p "model" in
  let* model := section_parse (f_conv fo) (model_options fo) (raw_dict t) in
  let sections := remove_name (S_ "model") sections in
  let* model := default_to_dx model "dy" in
  let* model := default_to_dx model "dz" in
  let* t := sec p "strata" in
  let* strata := section_parse (f_conv fo) strata_options (raw_dict t) in
  let sections := remove_name (S_ "strata") sections in
  let* cmv := lookup strata "strata_contact_models" in
  let* stv := lookup strata "strata" in
  let* ncm := py_len cmv in
  let* nst := py_len stv in
  let* _ := (if Z.eqb ncm (nst - 1) then Ok tt else Err ShapeError) in
  let* l := items cmv in
  let* contacts := mapM (fun m => parse_contact_model (f_conv fo) m true) l in
  let* bg := lookup strata "bg_facies" in
  let* hf := lookup hydraulics "hydrofacies" in
  (* the except branch adds a string and a list: TypeError *)
  let* bgi := or_raise TypeError (parse_facies bg hf) in
  let strata := dset strata (S_ "bg_facies") bgi in
  let* outv := lookup run "outputs" in
  let* outl := items outv in
  let* _ := (if existsb (fun o => match index_in (Leaf (AStr (S_ o))) outl with Some _ => true | None => false end)
                        ["mf"; "mf6"; "hgs"]
             then if mem (S_ "flowtrans") sections then Ok tt else Err MissingSectionError
             else Ok tt) in
  let* (flowtrans, sections) :=
    (if mem (S_ "flowtrans") sections
     then let* t := sec p "flowtrans" in
          let* ft := section_parse (f_conv fo) flowtrans_options (raw_dict t) in
          Ok (ft, remove_name (S_ "flowtrans") sections)
     else Ok ([], sections)) in
  let* elements := mapM (fun s =>
      match section_texts p s with
      | None => Err KeyError
      | Some t => let* e := parse_element hydraulics t in Ok (s, e)
      end) sections in
  Ok (mkConfig run model strata contacts hydraulics flowtrans elements).

(** Identifiers of the element types (setup_from_inifile l. 49-51):
    [elements[e]['ae_id'] = strata_dict['ae'].index(e)]. *)
Definition ae_ids (cf : config) : res (list (pystr * Z)) :=
  let* ae := lookup (cf_strata cf) "ae" in
  mapM (fun e => let* k := list_index ae (Leaf (AStr (fst e))) in Ok (fst e, k)) (cf_elements cf).
End Config.
Arguments config F : clear implicits.
