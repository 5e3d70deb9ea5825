(** From the parsed configuration to the model that is generated: the constructor
    of Model (hyvr/geo/model.py l. 39-64), AEType (hyvr/geo/ae_types.py
    l. 25-42) and the parameters of the strata (model.py l. 95-121), with the
    places where the options of an element section are read.  No proofs here.

    Floating point numbers are real numbers where they are finite: [fin].  The
    options of the types of a stratum are read here before the stratum is made;
    the code reads them when an element of this type is made. *)
From Coq Require Import List ZArith Bool Ascii String Reals.
From Verif Require Import Base Num ParseModel ConfigModel DeprecatedModel SurfaceModel StrataModel AssignModel FaciesModel
  TroughModel SheetModel ChannelModel FullModel.
Import ListNotations.
Local Open Scope string_scope.

Section Link.
Context {F : Type} (fin : F -> option R) (is_nan : F -> bool).
Notation value := (val (atom F)).
Notation dic := (dict F).

(** ** Values *)
Definition finite (f : F) : res R := match fin f with Some r => Ok r | None => Err OutOfModel end.
Definition real (v : value) : res R :=
  match v with
  | Leaf (AFlt f) => finite f
  | Leaf ANone | Node _ => Err TypeError
  | _ => Err OutOfModel
  end.
(** Two numbers, as in np.random.uniform of both. *)
Definition range2 (v : value) : res (R * R) :=
  match v with
  | Node [a; b] => let* a := real a in let* b := real b in Ok (a, b)
  | Leaf ANone | Node _ => Err TypeError
  | _ => Err OutOfModel
  end.
Definition trend (v : value) : res (option (R * R)) :=
  if is_none v then Ok None else let* r := range2 v in Ok (Some r).
(** A list of facies numbers. *)
Definition facies_number (v : value) : res Z := match v with Leaf (AInt z) => Ok z | _ => Err OutOfModel end.
Definition facies_list (v : value) : res (list Z) :=
  match v with Node l => mapM facies_number l | Leaf _ => Err OutOfModel end.
Definition facies_lists (v : value) : res (option (list (list Z))) :=
  match v with
  | Leaf ANone => Ok None
  | Node l => let* r := mapM facies_list l in Ok (Some r)
  | _ => Err OutOfModel
  end.
(** np.isnan(x), ae_realization.py l. 91-98 *)
Definition angle (v : value) : res (option R) :=
  match v with
  | Leaf (AFlt f) => if is_nan f then Ok None else let* r := finite f in Ok (Some r)
  | Leaf ANone => Err TypeError
  | _ => Err OutOfModel
  end.
(** A distance of layers, used only if [needed]. *)
Definition layer_dist (needed : bool) (v : value) : res R := if needed then real v else Ok 0%R.
(** An entry of te_xyz. *)
Definition position_of (v : value) : res (position R) :=
  match v with
  | Node [x; y; z] => let* x := real x in let* y := real y in let* z := real z in Ok (x, y, z)
  | Leaf ANone | Node _ => Err TypeError
  | _ => Err OutOfModel
  end.
Definition positions_of (v : value) : res (option (list (position R))) :=
  match v with
  | Leaf ANone => Ok None
  | Node l => let* r := mapM position_of l in Ok (Some r)
  | _ => Err OutOfModel
  end.
Definition count (v : value) : res nat :=
  match v with
  | Leaf (AInt z) => if (z <? 0)%Z then Err ValueError else Ok (Z.to_nat z)
  | _ => Err OutOfModel
  end.
Definition link_contact (cm : contact F) : res (contact R) :=
  let* z := (match cm_z cm with Some f => let* r := finite f in Ok (Some r) | None => Ok None end) in
  let* rd := (match cm_random cm with
              | Some (v, cx, cy) => let* v := finite v in let* cx := finite cx in let* cy := finite cy in Ok (Some (v, cx, cy))
              | None => Ok None
              end) in
  Ok (mkContact (cm_mode cm) z rd).

(** ** Element types *)
Definition get {A} (conv : value -> res A) (e : dic) (k : string) : res A := let* v := lookup e k in conv v.
Definition structure_name (v : value) : res pystr := match v with Leaf (AStr s) => Ok s | _ => Err OutOfModel end.
(** ae_realization.py l. 88-100 *)
Definition link_background (e : dic) : res (background (T := R)) :=
  let* f := get facies_number e "bg_facies" in
  let* a := get angle e "bg_azim" in
  let* d := get angle e "bg_dip" in
  Ok (mkBg (if (f =? -1)%Z then None else Some f) a d).
(** sheet_ae.py l. 62-71, sheet.py l. 38-84, utils.py l. 390-405 *)
Definition link_sheets (e : dic) : res kind_params :=
  let* lens := get real e "lens_thickness" in
  let* tr := get trend e "size_ztrend" in
  let* s := get structure_name e "structure" in
  let* fac := get facies_list e "facies" in
  let* alt := get facies_lists e "altfacies" in
  let* az := get range2 e "azimuth" in
  let* dp := get range2 e "dip" in
  let* dist := get (layer_dist (pystr_eqb s (S_ "dip"))) e "dipset_dist" in
  Ok (PSheets lens tr (mkSheetType s fac alt az dp dist)).
(** trough_ae.pyx l. 68-73, trough_utils.py l. 28-70, trough.pyx l. 98-187 *)
Definition link_troughs (e : dic) : res kind_params :=
  let* len := get real e "length" in
  let* width := get real e "width" in
  let* depth := get real e "depth" in
  let* tr := get trend e "size_ztrend" in
  let* flow := get range2 e "paleoflow" in
  let* s := get structure_name e "structure" in
  let* fac := get facies_list e "facies" in
  let* alt := get facies_lists e "altfacies" in
  let* az := get range2 e "azimuth" in
  let* dp := get range2 e "dip" in
  let* lagh := get real e "lag_height" in
  let* lagf := get facies_number e "lag_facies" in
  let* dd := get (layer_dist (pystr_eqb s (S_ "dip") || pystr_eqb s (S_ "random"))) e "dipset_dist" in
  let* bd := get (layer_dist (pystr_eqb s (S_ "bulb_sets") || pystr_eqb s (S_ "random"))) e "bulbset_dist" in
  let* buffer := get real e "buffer" in
  let* agg := get real e "agg" in
  let* mig := lookup e "migrate" in
  let* te := get positions_of e "te_xyz" in
  Ok (PTroughs (mkTP len width depth tr flow (mkTType s fac alt az dp lagh lagf dd bd)) buffer agg (negb (is_none mig)) te).
(** channel_ae.pyx l. 103-157, channel.pyx l. 69-108; the options of the
    centreline belong to the draws.  Without mig no number is drawn, which is
    as migration by 0. *)
Definition link_channels (e : dic) : res kind_params :=
  let* no := get count e "channel_no" in
  let* flow := get real e "flow_angle" in
  let* agg := get real e "agg" in
  let* width := get real e "width" in
  let* depth := get real e "depth" in
  let* buffer := get real e "buffer" in
  let* tr := get trend e "size_ztrend" in
  let* mig := lookup e "mig" in
  let* m := (if is_none mig then Ok 0%R else real mig) in
  let* s := get structure_name e "structure" in
  let* fac := get facies_list e "facies" in
  let* alt := get facies_lists e "altfacies" in
  let* dp := get range2 e "dip" in
  let* lagh := get real e "lag_height" in
  let* lagf := get facies_number e "lag_facies" in
  let* dd := get (layer_dist (pystr_eqb s (S_ "dip"))) e "dipset_dist" in
  Ok (PChannels (mkCParams no flow agg width depth buffer tr m (mkCType s fac alt dp lagh lagf dd))).
(** ae_types.py; [id] is ae_id *)
Definition link_type (id : Z) (ec : dic * contact F) : res full_type :=
  let* e := type_params (fst ec) in
  let* k := realization_kind e in
  let* cm := link_contact (snd ec) in
  let* bg := link_background e in
  let* kp := (match k with KTrough => link_troughs e | KChannel => link_channels e | KSheet => link_sheets e end) in
  Ok (mkFT id cm bg kp).

(** ** Strata (model.py l. 95-121) *)

(** d[k][i] *)
Definition item (d : dic) (k : string) (i : Z) : res value := let* v := lookup d k in py_item v i.
Fixpoint assoc {A} (l : list (pystr * A)) (n : pystr) : res A :=
  match l with
  | [] => Err KeyError
  | (m, a) :: r => if pystr_eqb n m then Ok a else assoc r n
  end.
(** self.ae_types[ae_type], l. 121 *)
Definition named_type (cf : config F) (ids : list (pystr * Z)) (v : value) : res full_type :=
  match v with
  | Leaf (AStr n) =>
      let* ec := assoc (cf_elements cf) n in
      let* id := assoc ids n in
      link_type id ec
  | Leaf _ => Err KeyError
  | Node _ => Err TypeError
  end.
(** l. 120-121; ae_prob, ae_z_mean and avul only matter for the draws. *)
Definition link_stratum (cf : config F) (ids : list (pystr * Z)) (i : Z) : res full_params :=
  let s := cf_strata cf in
  let* f := item s "bg_facies" i in
  let* f := facies_number f in
  let* a := item s "bg_azim" i in
  let* a := angle a in
  let* d := item s "bg_dip" i in
  let* d := angle d in
  let* p := item s "avul_prob" i in
  let* p := py_item p 0 in
  let* p := real p in
  let* t := item s "ae_in_strata" i in
  let* names := items t in
  let* types := mapM (named_type cf ids) names in
  Ok (mkFP types p (mkSbg f a d)).

(** ** The model *)
Record linked := mkLinked { lk_grid : grid R; lk_domain : domain; lk_contacts : list (contact R); lk_params : list full_params }.
Definition link (cf : config F) : res linked :=
  let* ids := ae_ids cf in
  let m := cf_model cf in
  let* x0 := get real m "x0" in
  let* y0 := get real m "y0" in
  let* z0 := get real m "z0" in
  let* dx := get real m "dx" in
  let* dy := get real m "dy" in
  let* dz := get real m "dz" in
  let* lx := get real m "lx" in
  let* ly := get real m "ly" in
  let* lz := get real m "lz" in
  let* per := get truth m "periodic" in
  let* g := grid_init x0 y0 z0 dx dy dz lx ly lz in
  let* contacts := mapM link_contact (cf_contacts cf) in
  let* sv := lookup (cf_strata cf) "strata" in
  let* n := py_len sv in
  (* stratum si uses the entries at -1-si *)
  let* params := mapM (fun i => link_stratum cf ids (Z.of_nat i - n)) (seq 0 (Z.to_nat n)) in
  Ok (mkLinked g (mkDomain per lx ly) contacts params).

(** One realization of the model and its arrays. *)
Definition generate (lk : linked) (fuel : nat) (draws : list full_stratum_draws) : res (store R * list full_stratum) :=
  full_generate (lk_grid lk) fuel (lk_contacts lk) (lk_params lk) draws.
Definition arrays (lk : linked) (wild : nat -> nat -> point R -> Z) (st : store R) (strata : list full_stratum) :=
  let g := lk_grid lk in
  full_arrays (lk_domain lk) (mkCGrid (List.length (g_x g)) (List.length (g_y g)) (g_dx g)) wild (lk_params lk) st strata (g_x g) (g_y g) (g_z g).
End Link.
