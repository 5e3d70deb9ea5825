(** Model of hyvr/geo/sheet.py (the same code as sheet.pyx) and of the facies
    lookup in sheet_ae.py l. 107-160.  No proofs here. *)
From Coq Require Import List ZArith Bool Ascii String Reals.
From Verif Require Import Base Num FaciesModel SurfaceModel AssignModel TroughModel.
Import ListNotations.
Local Open Scope R_scope.

(** type_params *)
Record sheet_type := mkSheetType {
  st_structure : pystr; st_facies : list Z; st_altfacies : option (list (list Z));
  st_azimuth : R * R; st_dip : R * R; st_dipset_dist : R }.
(** The draws of one sheet, in the order of the code: azimuth, dip, shift,
    facies (sequence). *)
Record sheet_draw := mkShD { shd_azim : R; shd_dip : R; shd_shift : R; shd_facies : nat; shd_array : nat -> nat }.
(** Attributes that are not set are 0, as in the Cython class. *)
Record sheet := mkSheet {
  sh_dipsets : bool; sh_layer_dist : R; sh_shift : R; sh_nx : R; sh_ny : R; sh_nz : R;
  sh_azim : R; sh_dip : R; sh_facies : Z; sh_num : Z; sh_array : list Z }.

(** Sheet.__init__ (l. 31-84); [zc] is bottom_surface.zmean.  The maximum
    l. 78 takes ly twice. *)
Definition new_sheet (tt : sheet_type) (g : grid R) (zc : R) (d : sheet_draw) : res sheet :=
  let azim := uniform (fst (st_azimuth tt)) (snd (st_azimuth tt)) (shd_azim d) in
  let dip := uniform (fst (st_dip tt)) (snd (st_dip tt)) (shd_dip d) in
  if pystr_eqb (st_structure tt) (S_ "dip") then
    let ld := st_dipset_dist tt in
    let nx := - sin (deg dip) * cos (deg azim) in
    let ny := sin (deg dip) * sin (deg azim) in
    let nz := cos (deg dip) in
    let xc := g_x0 g + g_lx g / 2 in
    let yc := g_y0 g + g_ly g / 2 in
    let shift := nx * xc + ny * yc + nz * zc + shd_shift d * ld in
    let num := (nceil ((max3 (g_ly g) (g_ly g) (g_lz g) + shift) / ld)%R + 10)%Z in
    let* arr := alternating_facies num (st_facies tt) (st_altfacies tt) (shd_array d) in
    Ok (mkSheet true ld shift nx ny nz azim dip 0%Z num arr)
  else
    let* f := choice (st_facies tt) (shd_facies d) in
    Ok (mkSheet false 0 0 0 0 0 azim dip f 0%Z []).

(** The row of object_facies_array (ae_realization.py l. 136-140): as long as
    the longest sequence of the element. *)
Definition facies_row (width : Z) (sh : sheet) : list Z :=
  (sh_array sh ++ repeat 0%Z (Z.to_nat (width - sh_num sh)))%list.

(** sheet_ae.py l. 153-160: layer number, and what is written for a point of
    the sheet.  Negative indices count from the end of the row. *)
Definition sheet_layer (sh : sheet) (p : point R) : Z :=
  (ntrunc ((sh_nx sh * p_x p + sh_ny sh * p_y p + sh_nz sh * p_z p - sh_shift sh) / sh_layer_dist sh)%R + sh_num sh / 2)%Z.
Definition sheet_write (width : Z) (sh : sheet) (ha : Z) (p : point R) : res (write R) :=
  if sh_dipsets sh then
    let* f := pyget (facies_row width sh) (sheet_layer sh p) in
    Ok (mkWrite f (Some (sh_azim sh)) (Some (sh_dip sh)) ha)
  else Ok (mkWrite (sh_facies sh) (Some (sh_azim sh)) (Some (sh_dip sh)) ha).

(** ** The class of sheet.py as a Python class

    The annotations l. 13-28 create no attributes.  Names assigned by __init__
    (l. 33-84): *)
Local Open Scope string_scope.
Definition sheet_attributes (dipsets : bool) : list string :=
  ["bottom_surface"; "top_surface"; "zmin"; "zmax"; "dipsets"] ++
  (if dipsets then ["layer_dist"; "azim"; "dip"; "normvec_x"; "normvec_y"; "normvec_z"; "shift"; "num_facies"; "facies_array"]
   else ["azim"; "dip"; "facies"])%list.
(** Names read for every object by _create_common_object_arrays
    (ae_realization.py l. 125-130) and create_object_arrays (sheet_ae.py
    l. 32-41). *)
Definition common_reads : list string := ["azim"; "dip"; "facies"; "num_ha"; "num_facies"].
Definition sheet_reads : list string :=
  ["shift"; "layer_dist"; "normvec_x"; "normvec_y"; "normvec_z"; "bottom_surface"; "dipsets"; "top_surface"].
Definition getattr (attrs : list string) (name : string) : res unit :=
  if existsb (String.eqb name) attrs then Ok tt else Err AttributeError.
Definition read_sheet (dipsets : bool) : res unit :=
  foldM (fun _ a => getattr (sheet_attributes dipsets) a) tt (common_reads ++ sheet_reads)%list.
