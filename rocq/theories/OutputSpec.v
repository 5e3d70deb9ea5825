(** What users rely on for output files: the formats (docs/inout.rst, "HyVR
    outputs") and the conventions of MODFLOW for the position of cells and the
    orientation of conductivity tensors (MODFLOW-2005 and MODFLOW 6 manuals). *)
From Coq Require Import List ZArith Ascii String Reals.
From Verif Require Import Base Num ParseModel SurfaceModel TroughSpec SheetSpec TensorSpec OutputModel.
Import ListNotations.
Local Open Scope R_scope.

(** ** Formats *)

(** The formats of the documentation and the optional library each one needs. *)
Inductive documented : pystr -> option pystr -> Prop :=
  | doc_mat : documented (S_ "mat") None
  | doc_py : documented (S_ "py") None
  | doc_npz : documented (S_ "npz") None
  | doc_h5 : documented (S_ "h5") (Some (S_ "h5py"))
  | doc_vtr : documented (S_ "vtr") (Some (S_ "pyevtk"))
  | doc_mf : documented (S_ "mf") (Some (S_ "flopy"))
  | doc_mf6 : documented (S_ "mf6") (Some (S_ "flopy"))
  | doc_hgs : documented (S_ "hgs") None.
(** The library is there. *)
Definition available (installed : pystr -> bool) (l : option pystr) : Prop :=
  match l with Some n => installed n = true | None => True end.
(** Log of a list of formats that are handled without a fatal error. *)
Inductive handled (installed : pystr -> bool) (write : pystr -> res unit) : list pystr -> list event -> Prop :=
  | h_nil : handled installed write [] []
  | h_written f l r es : documented f l -> available installed l -> write f = Ok tt -> handled installed write r es ->
      handled installed write (f :: r) (Written f :: Said_saved f :: es)
  | h_missing f n r es : documented f (Some n) -> installed n = false -> handled installed write r es ->
      handled installed write (f :: r) (Warned f :: Said_saved f :: es).

(** ** Grids *)

(** A grid of i, j, k whole cells. *)
Definition whole_grid (g : grid R) (x0 y0 z0 dx dy dz : R) (i j k : nat) : Prop :=
  0 < dx /\ 0 < dy /\ 0 < dz /\ grid_init x0 y0 z0 dx dy dz (INR i * dx) (INR j * dy) (INR k * dz) = Ok g.

(** ** MODFLOW *)

(** Columns are numbered along the x-axis and are delr wide; rows are numbered
    against the y-axis and are delc wide; layers are numbered downwards, the
    first one begins at top and layer l ends at its entry of botm.  Positions
    relative to the lower left corner. *)
Definition mf_x (delr : R) (c : nat) : R := (INR c + 1 / 2) * delr.
Definition mf_y (nrow : nat) (delc : R) (r : nat) : R := (INR nrow - INR r - 1 / 2) * delc.
Definition layer_top (top : R) (botm : list R) (l : nat) : R := match l with O => top | S l => nth l botm 0 end.
Definition layer_bottom (botm : list R) (l : nat) : R := nth l botm 0.
Definition layer_centre (top : R) (botm : list R) (l : nat) : R := (layer_top top botm l + layer_bottom botm l) / 2.

(** MODFLOW 6, npf package: rotation of the conductivity ellipsoid by angle1
    and angle2 (degrees) for angle3 = 0; K = R diag(k, k, k33) R^T. *)
Definition mf6_rotation (a1 a2 : R) : matrix := fun i j =>
  let c1 := cos (radians a1) in let s1 := sin (radians a1) in
  let c2 := cos (radians a2) in let s2 := sin (radians a2) in
  match i, j with
  | 0%nat, 0%nat => c1 * c2 | 0%nat, 1%nat => - s1 | 0%nat, _ => - c1 * s2
  | 1%nat, 0%nat => s1 * c2 | 1%nat, 1%nat => c1 | 1%nat, _ => - s1 * s2
  | _, 0%nat => s2 | _, 1%nat => 0 | _, _ => c2
  end.
Definition mf6_tensor (k k33 a1 a2 : R) : matrix := fun i j =>
  times (times (mf6_rotation a1 a2) (diagonal k k k33)) (transposed (mf6_rotation a1 a2)) i j.
(** Rotation by 180 degrees around the x-axis. *)
Definition half_turn : matrix := diagonal 1 (-1) (-1).
