(** What users rely on for conductivity tensors (docs/methods.rst,
    "Hydraulic-conductivity tensors"). *)
From Coq Require Import List ZArith Reals.
From Verif Require Import Base Num TroughSpec SheetSpec.
Import ListNotations.
Local Open Scope R_scope.

Definition sum3 (f : nat -> R) : R := f 0%nat + f 1%nat + f 2%nat.
Definition matrix : Type := nat -> nat -> R.
Definition times (a b : matrix) : matrix := fun i j => sum3 (fun k => a i k * b k j).
Definition transposed (a : matrix) : matrix := fun i j => a j i.
Definition diagonal (a b c : R) : matrix := fun i j =>
  if Nat.eqb i j then match i with 0%nat => a | 1%nat => b | _ => c end else 0.
(** The rotation matrix of the documentation. *)
Definition rotation (k p : R) : matrix := fun i j =>
  match i, j with
  | 0%nat, 0%nat => cos k * cos p | 0%nat, 1%nat => sin k | 0%nat, _ => cos k * sin p
  | 1%nat, 0%nat => - sin k * cos p | 1%nat, 1%nat => cos k | 1%nat, _ => - sin k * sin p
  | _, 0%nat => - sin p | _, 1%nat => 0 | _, _ => cos p
  end.
(** K = k R M R^T *)
Definition documented_tensor (k r kappa psi : R) : matrix := fun i j =>
  k * times (times (rotation kappa psi) (diagonal 1 1 (1 / r))) (transposed (rotation kappa psi)) i j.

Definition vector : Type := nat -> R.
Definition apply (a : matrix) (v : vector) : vector := fun i => sum3 (fun j => a i j * v j).
Definition inner (u v : vector) : R := sum3 (fun i => u i * v i).
Definition same3 (u v : vector) : Prop := forall i, (i < 3)%nat -> u i = v i.
Definition scale (c : R) (v : vector) : vector := fun i => c * v i.

(** The direction of the reduced conductivity for angles in degrees. *)
Definition tensor_normal (az dip : R) : vector := fun i => rotation (radians az) (radians dip) i 2%nat.
