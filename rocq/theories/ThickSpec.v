(** What users rely on for the thickness of layers. *)
From Coq Require Import List ZArith Reals.
From Verif Require Import Base Num.
Local Open Scope R_scope.

(** [u] is the height of a place above some plane, [n] the number of its layer.
    Layers of thickness [t] parallel to this plane: places of one layer are less
    than [t] apart. *)
Definition thickness_below {P : Type} (t : R) (u : P -> R) (n : P -> Z) : Prop :=
  forall p q, n p = n q -> Rabs (u p - u q) < t.

(** What the layers are instead: one layer reaches from -t to t, all others
    have the thickness t. *)
Definition double_layer {P : Type} (t : R) (u : P -> R) (n : P -> Z) (mid : Z) : Prop :=
  forall p,
    (n p = mid <-> - t < u p < t) /\
    (forall k, (0 < k)%Z -> (n p = mid + k)%Z <-> IZR k * t <= u p < (IZR k + 1) * t) /\
    (forall k, (0 < k)%Z -> (n p = mid - k)%Z <-> - (IZR k + 1) * t < u p <= - IZR k * t).

(** Nested layers of thickness [t]: the layer k holds the places between (k-1)t
    and kt. *)
Definition even_layers {P : Type} (t : R) (u : P -> R) (n : P -> Z) : Prop :=
  forall p k, n p = k <-> (IZR k - 1) * t < u p <= IZR k * t.
