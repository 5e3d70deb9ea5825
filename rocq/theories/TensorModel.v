(** Model of set_anisotropic_ktensor, hyvr/optimized.py l. 11-69.  No proofs
    here. *)
From Coq Require Import List ZArith Bool Reals.
From Verif Require Import Base Num ArrayModel.
Import ListNotations.
Local Open Scope R_scope.

(** ktensors[i, j, k]: rows and columns 0, 1, 2 *)
Definition tensor : Type := nat -> nat -> R.
Definition mk_tensor (a00 a01 a02 a11 a12 a22 : R) : tensor := fun i j =>
  match i, j with
  | 0%nat, 0%nat => a00 | 0%nat, 1%nat => a01 | 0%nat, 2%nat => a02
  | 1%nat, 0%nat => a01 | 1%nat, 1%nat => a11 | 1%nat, 2%nat => a12
  | 2%nat, 0%nat => a02 | 2%nat, 1%nat => a12 | 2%nat, 2%nat => a22
  | _, _ => 0
  end.

(** The global names [sin] and [cos] as seen by optimized.py.  The module only
    imports numpy as np (l. 7-8): both are undefined. *)
Record names := mkNames { nm_sin : option (R -> R); nm_cos : option (R -> R); nm_sqrt : option (R -> R) }.
Definition optimized_names : names := mkNames None None None.
(** A module that imports them. *)
Definition imported_names : names := mkNames (Some sin) (Some cos) (Some sqrt).
Definition lookup (f : option (R -> R)) : res (R -> R) := match f with Some f => Ok f | None => Err NameError end.

(** l. 46-59: one cell.  1/0 is inf in numpy; here it is some real number
    (theorems that depend on it assume a ratio that is not 0). *)
Definition cell_tensor (nm : names) (kappa psi anirat kiso : R) : res tensor :=
  let a := 1 / anirat in
  let sink := sin kappa in
  let cosk := cos kappa in
  let sinp := sin psi in
  let cosp := cos psi in
  let a00 := kiso * (sink ^ 2 + cosk ^ 2 * (cosp ^ 2 + a * sinp ^ 2)) in
  let a01 := kiso * (1 - a) * sink * cosk * sinp ^ 2 in
  let* bsin := lookup (nm_sin nm) in
  let a02 := kiso * ((a - 1) * (bsin (kappa + 2 * psi) - bsin (kappa - 2 * psi))) / 4 in
  let a11 := kiso * ((a - 1) * sink ^ 2 * sinp ^ 2 + 1) in
  let* bcos := lookup (nm_cos nm) in
  let a12 := kiso * ((1 - a) * (bcos (kappa - 2 * psi) - bcos (kappa + 2 * psi))) / 4 in
  let a22 := kiso * (a * cosp ^ 2 + sinp ^ 2) in
  Ok (mk_tensor a00 a01 a02 a11 a12 a22).

(** l. 40-69: all cells, in place *)
Definition set_anisotropic_ktensor (nm : names) (s : shape) (kt : array tensor) (k_iso azim dip anirat : array R) : res (array tensor) :=
  foldM (fun kt c => let* t := cell_tensor nm (azim c) (dip c) (anirat c) (k_iso c) in Ok (set1 kt c t)) kt (cells s).
