(** Model of Model.generate_hydraulic_parameters, hyvr/geo/model.py l. 154-293.
    No proofs here.

    [np.float], which recent versions of numpy do not define, is taken as
    float. *)
From Coq Require Import List ZArith Bool Reals.
From Verif Require Import Base Num ArrayModel TensorModel SpecsimModel.
Import ListNotations.
Local Open Scope R_scope.

(** k_ztrend, k_xtrend, n_ztrend, n_xtrend of the hydraulics section or of an
    element *)
Record trends := mkTrends { tr_kz : option (R * R); tr_kx : option (R * R); tr_nz : option (R * R); tr_nx : option (R * R) }.

(** The hydraulics section.  [h_hydro] is the number of entries of the key
    'hydro', which only the old format has (options.py l. 146-159,
    options_deprecated.py l. 169-195). *)
Record hydro := mkHydro {
  h_k : list R; h_ratio : list R; h_n : list R; h_sigy : list R; h_sign : list R;
  h_ycorl : list (R * R * R); h_ncorl : list (R * R * R); h_trends : trends; h_hydro : option nat }.

(** What is used of an architectural element: num, bg_facies, type_params. *)
Record element := mkElement { a_num : Z; a_bg : Z; a_trends : trends }.

(** The arrays written by assign_points. *)
Record geology := mkGeology { g_ha : array Z; g_fac : array Z; g_ae : array Z; g_azim : array R; g_dip : array R }.

(** heterogeneity, heterogeneity_level ('internal', 'facies', else), anisotropy *)
Inductive level := Internal | FaciesLevel | OtherLevel.
Record settings := mkSettings { s_het : bool; s_level : level; s_anisotropy : bool }.

(** The arrays.  The local names k_iso and poros first denote the arrays stored
    in self.data; after [k_iso = ...] they denote new arrays, and the stored
    ones are no longer changed. *)
Record params := mkParams {
  p_stored_k : array R; p_k : array R; p_k_shared : bool;
  p_stored_n : array R; p_n : array R; p_n_shared : bool;
  p_anirat : array R }.
Definition change_k (p : params) (a : array R) : params :=
  mkParams (if p_k_shared p then a else p_stored_k p) a (p_k_shared p) (p_stored_n p) (p_n p) (p_n_shared p) (p_anirat p).
Definition rebind_k (p : params) (a : array R) : params :=
  mkParams (p_stored_k p) a false (p_stored_n p) (p_n p) (p_n_shared p) (p_anirat p).
Definition change_n (p : params) (a : array R) : params :=
  mkParams (p_stored_k p) (p_k p) (p_k_shared p) (if p_n_shared p then a else p_stored_n p) a (p_n_shared p) (p_anirat p).
Definition rebind_n (p : params) (a : array R) : params :=
  mkParams (p_stored_k p) (p_k p) (p_k_shared p) (p_stored_n p) a false (p_anirat p).
Definition change_ratio (p : params) (a : array R) : params :=
  mkParams (p_stored_k p) (p_k p) (p_k_shared p) (p_stored_n p) (p_n p) (p_n_shared p) a.

(** l. 176-188 *)
Definition initial : params := mkParams (fun _ => 0) (fun _ => 0) true (fun _ => 0) (fun _ => 0) true (fun _ => 1).

Section Parameters.
Variables (s : shape) (co : coords) (h : hydro) (g : geology).
(** The draws of specsim for an object and facies and for an element, for the
    conductivity (true) and the porosity (false). *)
Variable (draw : Z -> Z -> bool -> noise).
Variable (ae_draw : nat -> bool -> noise).

(** l. 199-206 and 239-245: a conductivity field for a mask; l. 209-214 and
    248-254: a porosity field. *)
Definition internal_k (m : mask) (fi : Z) (e : noise) (p : params) : res params :=
  let* sy := pyget (h_sigy h) fi in
  let* cl := pyget (h_ycorl h) fi in
  let* y := specsim s co Exponential sy cl m e in
  let* k := pyget (h_k h) fi in
  let* a := put s m (map (fun v => exp v * k) y) (p_k p) in
  Ok (change_k p a).
Definition internal_n (m : mask) (fi : Z) (e : noise) (p : params) : res params :=
  let* sn := pyget (h_sign h) fi in
  let* cl := pyget (h_ncorl h) fi in
  let* y := specsim s co Exponential sn cl m e in
  let* n := pyget (h_n h) fi in
  let* a := put s m (map (fun v => v + n) y) (p_n p) in
  Ok (change_n p a).

(** l. 194-222: one pair of object number and facies *)
Definition mifi (mi fi : Z) : mask := fun c => (g_ha g c =? mi)%Z && (g_fac g c =? fi)%Z.
Definition object_step (lv : level) (p : params) (q : Z * Z) : res params :=
  let '(mi, fi) := q in
  let m := mifi mi fi in
  let* p :=
    match lv with
    | Internal =>
        let* p := internal_k m fi (draw mi fi true) p in
        internal_n m fi (draw mi fi false) p
    | FaciesLevel =>
        let* k := pyget (h_k h) fi in
        let p := change_k p (fill m k (p_k p)) in
        let* n := pyget (h_n h) fi in
        Ok (change_n p (fill m n (p_n p)))
    | OtherLevel => Ok p
    end in
  let* r := pyget (h_ratio h) fi in
  Ok (change_ratio p (fill m r (p_anirat p))).

(** l. 192-193: the order of the pairs *)
Definition pairs : list (Z * Z) :=
  flat_map (fun mi => map (pair mi) (unique (select s (fun c => (g_ha g c =? mi)%Z) (g_fac g))))
           (unique (map (g_ha g) (cells s))).

(** l. 260-266 and 268-281: trends.  Factors in z change the array, factors in
    x create a new one. *)
Definition k_ztrend (t : option (R * R)) (p : params) : params :=
  match t with
  | Some (a, b) => change_k p (fun c => p_k p c * linspace a b (cz s) (cz c))
  | None => p
  end.
Definition k_xtrend (t : option (R * R)) (p : params) : params :=
  match t with
  | Some (a, b) => rebind_k p (fun c => p_k p c * linspace a b (cx s) (cx c))
  | None => p
  end.
Definition n_ztrend (t : option (R * R)) (p : params) : params :=
  match t with
  | Some (a, b) => change_n p (fun c => p_n p c * linspace a b (cz s) (cz c))
  | None => p
  end.
Definition n_xtrend (t : option (R * R)) (p : params) : params :=
  match t with
  | Some (a, b) => rebind_n p (fun c => p_n p c * linspace a b (cx s) (cx c))
  | None => p
  end.

(** l. 229-266: one architectural element; [i] counts them.  The mask is
    ha == 0, the number of the first object. *)
Definition ae_mask (e : element) : mask := fun c => (g_ha g c =? 0)%Z && (g_ae g c =? a_num e)%Z.
Definition element_step (p : params) (ie : nat * element) : res params :=
  let '(i, e) := ie in
  let m := ae_mask e in
  if existsb m (cells s) then
    let* p := internal_k m (a_bg e) (ae_draw i true) p in
    let* p := internal_n m (a_bg e) (ae_draw i false) p in
    let* r := pyget (h_ratio h) (a_bg e) in
    let p := change_ratio p (fill m r (p_anirat p)) in
    Ok (k_xtrend (tr_kx (a_trends e)) (k_ztrend (tr_kz (a_trends e)) p))
  else Ok p.

(** l. 268-281 *)
Definition global_trends (p : params) : params :=
  let t := h_trends h in
  n_xtrend (tr_nx t) (n_ztrend (tr_nz t) (k_xtrend (tr_kx t) (k_ztrend (tr_kz t) p))).

(** l. 285-289: homogeneous *)
Definition homogeneous_step (p : params) (i : nat) : res params :=
  let fi := Z.of_nat i in
  let m := fun c => (g_fac g c =? fi)%Z in
  let* k := pyget (h_k h) fi in
  let p := change_k p (fill m k (p_k p)) in
  let* n := pyget (h_n h) fi in
  let p := change_n p (fill m n (p_n p)) in
  let* r := pyget (h_ratio h) fi in
  Ok (change_ratio p (fill m r (p_anirat p))).

(** l. 164-289: everything before the tensors *)
Definition assign_parameters (st : settings) (aes : list element) : res params :=
  if s_het st then
    let* p := foldM (object_step (s_level st)) initial pairs in
    match s_level st with
    | Internal =>
        let* p := foldM element_step p (combine (seq 0 (List.length aes)) aes) in
        Ok (global_trends p)
    | _ => Ok p
    end
  else
    match h_hydro h with
    | None => Err KeyError
    | Some n => foldM homogeneous_step initial (seq 0 n)
    end.

(** The data stored in the end: k_iso, poros, anirat, ktensors. *)
Record data := mkData { d_k : array R; d_n : array R; d_ratio : array R; d_tensors : array tensor }.
(** l. 291-293 *)
Definition generate_hydraulic_parameters (nm : names) (st : settings) (aes : list element) : res data :=
  let* p := assign_parameters st aes in
  let* kt := set_anisotropic_ktensor nm s (fun _ _ _ => 0) (p_k p) (fun c => g_azim g c * PI / 180) (fun c => g_dip g c * PI / 180) (p_anirat p) in
  Ok (mkData (p_stored_k p) (p_stored_n p) (p_anirat p) kt).

End Parameters.
