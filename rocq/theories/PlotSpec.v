(** Vocabulary for "the picture of a cross section shows the cells at the
    position in its title". *)
From Coq Require Import List ZArith Reals.
From Verif Require Import Num SurfaceModel PlotModel.
Import ListNotations.
Local Open Scope R_scope.

Definition at3 {A} (field : list (list (list A))) (i j k : nat) : option A :=
  match nth_error field i with
  | Some plane => match nth_error plane j with Some column => nth_error column k | None => None end
  | None => None
  end.
Definition entry2 {A} (table : list (list A)) (i k : nat) : option A :=
  match nth_error table i with Some row => nth_error row k | None => None end.

(** [cells] is the section through the row of cells that contains y = v. *)
Definition shows_y {A} (g : grid R) (field : list (list (list A))) (v : R) (cells : list (list (R * R * A))) : Prop :=
  exists j c, nth_error (g_y g) j = Some c /\ c - g_dy g / 2 <= v <= c + g_dy g / 2 /\
    forall i k x z a, entry2 cells i k = Some (x, z, a) <->
      nth_error (g_x g) i = Some x /\ nth_error (g_z g) k = Some z /\ at3 field i j k = Some a.
(** The same for x = v. *)
Definition shows_x {A} (g : grid R) (field : list (list (list A))) (v : R) (cells : list (list (R * R * A))) : Prop :=
  exists i c, nth_error (g_x g) i = Some c /\ c - g_dx g / 2 <= v <= c + g_dx g / 2 /\
    forall j k y z a, entry2 cells j k = Some (y, z, a) <->
      nth_error (g_y g) j = Some y /\ nth_error (g_z g) k = Some z /\ at3 field i j k = Some a.
(** The domain in one direction, without its ends. *)
Definition inside (x0 dx : R) (n : nat) (v : R) : Prop := x0 < v < x0 + INR n * dx.
Definition outside (x0 dx : R) (n : nat) (v : R) : Prop := v < x0 \/ x0 + INR n * dx < v.
