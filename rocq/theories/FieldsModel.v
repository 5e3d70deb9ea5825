(** Model of what stands in model.data after a realization: the arrays of
    assign_points (assign_points.py l. 149-155) and of
    generate_hydraulic_parameters (geo/model.py l. 177-183, 292) in the order
    in which RunModel stores them.  No proofs here. *)
From Coq Require Import List ZArith Bool String Reals.
From Verif Require Import Base Num AssignModel ArrayModel TensorModel HydraulicsModel.
Import ListNotations.

(** The arrays of the output: whole numbers (-1 without a value), numbers
    ([None] for NaN), tensors.  The geological arrays are addressed by x, y, z,
    the parameters by the cells of HydraulicsModel. *)
Inductive field {T : Type} :=
| Ints (a : nat -> nat -> nat -> option Z)
| Floats (a : nat -> nat -> nat -> option (option T))
| Values (a : ArrayModel.array R)
| Tensors (a : ArrayModel.array tensor).
Arguments field T : clear implicits.

Section Stored.
Context {T : Type}.
Definition cells := nat -> nat -> nat -> option (cell_values (T := T)).
Definition ints (f : cell_values (T := T) -> Z) (c : cells) : field T := Ints (fun x y z => option_map f (c x y z)).
Definition floats (f : cell_values (T := T) -> option T) (c : cells) : field T := Floats (fun x y z => option_map f (c x y z)).

(** assign_points.py l. 149-155 *)
Definition geology_fields (c : cells) : list (field T) :=
  [ints c_facies c; floats c_azim c; floats c_dip c; ints c_strata c; ints c_ae c; ints c_ha c; ints c_hat c].
(** model.py l. 177-183, 292 *)
Definition parameter_fields (d : HydraulicsModel.data) : list (field T) :=
  [Values (d_k d); Values (d_n d); Values (d_ratio d); Tensors (d_tensors d)].
End Stored.
