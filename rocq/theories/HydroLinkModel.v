(** From the parsed configuration and the arrays of a generated model to the
    hydraulic parameters: what Model.generate_hydraulic_parameters
    (hyvr/geo/model.py l. 154-293) reads.  No proofs here.

    As in LinkModel the options are read here before they are used; the code
    reads the trends of an element when it comes to this element. *)
From Coq Require Import List ZArith Bool Ascii String Reals.
From Verif Require Import Base Num ParseModel ConfigModel DeprecatedModel SurfaceModel StrataModel AssignModel FullModel LinkModel
  ArrayModel SpecsimModel HydraulicsModel.
Import ListNotations.
Local Open Scope string_scope.

Section Link.
Context {F : Type} (fin : F -> option R).
Notation value := (val (atom F)).
Notation dic := (dict F).

(** A list of numbers and a list of three numbers for each facies. *)
Definition reals (v : value) : res (list R) := match v with Node l => mapM (real fin) l | Leaf _ => Err TypeError end.
Definition triple_of (v : value) : res (R * R * R) :=
  match v with
  | Node [a; b; c] => let* a := real fin a in let* b := real fin b in let* c := real fin c in Ok (a, b, c)
  | _ => Err OutOfModel
  end.
Definition triples (v : value) : res (list (R * R * R)) := match v with Node l => mapM triple_of l | Leaf _ => Err TypeError end.

(** l. 268-281 *)
Definition link_trends (d : dic) : res trends :=
  let* kz := get (trend fin) d "k_ztrend" in
  let* kx := get (trend fin) d "k_xtrend" in
  let* nz := get (trend fin) d "n_ztrend" in
  let* nx := get (trend fin) d "n_xtrend" in
  Ok (mkTrends kz kx nz nx).
(** l. 194-289 *)
Definition link_hydraulics (cf : config F) : res hydro :=
  let d := cf_hydraulics cf in
  let* k := get reals d "k_h" in
  let* r := get reals d "k_ratio" in
  let* n := get reals d "n" in
  let* sy := get reals d "sig_y" in
  let* sn := get reals d "sig_n" in
  let* yc := get triples d "ycorlengths" in
  let* nc := get triples d "ncorlengths" in
  let* t := link_trends d in
  let* hy := (match dget d (S_ "hydro") with
              | Some v => let* z := py_len v in Ok (Some (Z.to_nat z))
              | None => Ok None
              end) in
  Ok (mkHydro k r n sy sn yc nc t hy).
(** l. 56-59, 194-219 *)
Definition link_settings (cf : config F) : res settings :=
  let m := cf_model cf in
  let* an := get truth m "anisotropy" in
  let* het := get truth m "heterogeneity" in
  let* lv := get structure_name m "heterogeneity_level" in
  Ok (mkSettings het (if pystr_eqb lv (S_ "internal") then Internal else if pystr_eqb lv (S_ "facies") then FaciesLevel else OtherLevel) an).

(** The architectural elements in order (l. 228-229), with the trends of the
    section of their type; [si] and [num] count strata and elements. *)
Definition hydro_element (cf : config F) (si : nat) (num : nat) (e : ae R) : res element :=
  let* t := item (cf_strata cf) "ae_in_strata" (-1 - Z.of_nat si) in
  let* names := items t in
  match nth_error names (ae_kind e) with
  | Some (Leaf (AStr n)) =>
      let* ec := assoc (cf_elements cf) n in
      let* kz := get (trend fin) (fst ec) "k_ztrend" in
      let* kx := get (trend fin) (fst ec) "k_xtrend" in
      Ok (mkElement (Z.of_nat num) (ae_bg_facies e) (mkTrends kz kx None None))
  | _ => Err OutOfModel
  end.
Fixpoint stratum_elements (cf : config F) (si num : nat) (l : list (ae R)) : res (list element) :=
  match l with
  | [] => Ok []
  | e :: l => let* a := hydro_element cf si num e in let* r := stratum_elements cf si (S num) l in Ok (a :: r)
  end.
Fixpoint hydro_elements (cf : config F) (si num : nat) (strata : list full_stratum) : res (list element) :=
  match strata with
  | [] => Ok []
  | s :: r =>
      let* a := stratum_elements cf si num (s_aes (fst s)) in
      let* b := hydro_elements cf (S si) (num + List.length (s_aes (fst s))) r in
      Ok (a ++ b)%list
  end.
End Link.

(** The arrays (l. 169-173).  An angle that is not a number counts as 0 here;
    only the tensors depend on it. *)
Definition the_cell (a : nat -> nat -> nat -> option (cell_values (T := R))) (c : cell) : cell_values (T := R) :=
  match a (cx c) (cy c) (cz c) with Some v => v | None => mkCell 0 0 (-1) (-1) (-1) (Some 0%R) (Some 0%R) end.
Definition geology_of (a : nat -> nat -> nat -> option (cell_values (T := R))) : geology :=
  mkGeology (fun c => c_ha (the_cell a c)) (fun c => c_facies (the_cell a c)) (fun c => c_ae (the_cell a c))
    (fun c => match c_azim (the_cell a c) with Some v => v | None => 0%R end)
    (fun c => match c_dip (the_cell a c) with Some v => v | None => 0%R end).
Definition shape_of (g : grid R) : shape := (List.length (g_x g), List.length (g_y g), List.length (g_z g)).
Definition coords_of (g : grid R) : coords := mkCoords (fun i => nth i (g_x g) 0%R) (fun i => nth i (g_y g) 0%R) (fun i => nth i (g_z g) 0%R).

(** generate_hydraulic_parameters on the arrays of a generated model, up to the
    tensors. *)
Definition run_hydraulics {F} (fin : F -> option R) (cf : config F) (lk : linked) (wild : nat -> nat -> point R -> Z)
  (st : store R) (strata : list full_stratum) (draw : Z -> Z -> bool -> noise) (ae_draw : nat -> bool -> noise) : res params :=
  let* h := link_hydraulics fin cf in
  let* se := link_settings cf in
  let* aes := hydro_elements fin cf 0 0 strata in
  assign_parameters (shape_of (lk_grid lk)) (coords_of (lk_grid lk)) h (geology_of (arrays lk wild st strata)) draw ae_draw se aes.
