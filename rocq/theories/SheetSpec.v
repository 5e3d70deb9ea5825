(** What users rely on for sheets. *)
From Coq Require Import List ZArith Reals.
From Verif Require Import Base Num AssignModel SurfaceModel TroughSpec.
Import ListNotations.
Local Open Scope R_scope.

(** The normal of the layers that the code documents (sheet.py l. 46-54). *)
Definition sheet_normal (az dip : R) : R * R * R :=
  (- sin (radians dip) * cos (radians az), sin (radians dip) * sin (radians az), cos (radians dip)).
Definition dot (u v : R * R * R) : R :=
  let '(u1, u2, u3) := u in let '(v1, v2, v3) := v in u1 * v1 + u2 * v2 + u3 * v3.

(** The middle of the bottom of a sheet in the domain. *)
Definition middle (g : grid R) (zc : R) : R * R * R := (g_x0 g + g_lx g / 2, g_y0 g + g_ly g / 2, zc).

(** A cell of the domain. *)
Definition in_grid (g : grid R) (p : point R) : Prop :=
  g_x0 g <= p_x p <= g_x0 g + g_lx g /\ g_y0 g <= p_y p <= g_y0 g + g_ly g /\ g_z0 g <= p_z p <= g_z0 g + g_lz g.
