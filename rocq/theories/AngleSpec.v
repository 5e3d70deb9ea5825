(** C122: the angles a cell may report, in terms of the options of the section of
    its element. *)
From Coq Require Import List ZArith String Reals.
From Verif Require Import Base ParseModel ConfigModel ConfigSpec DeprecatedModel DeprecatedSpec LinkModel LinkSpec SizeSpec.
Import ListNotations.
Local Open Scope string_scope.
Local Open Scope R_scope.

Section Spec.
Context {F : Type} (fin : F -> option R).
Notation dic := (dict F).

(** Option structure is one of [l]. *)
Definition structure_in (e : dic) (l : list string) : Prop := exists s, In s l /\ has e "structure" (Leaf (AStr (S_ s))).
(** A cell of facies [f] in the lag of an object. *)
Definition lag_cell (e : dic) (f : Z) : Prop :=
  has e "lag_facies" (Leaf (AInt f)) /\ exists h, number_at fin e "lag_height" h /\ 0 < h.

Definition sheet_angles (e : dic) (a d : R) : Prop := from_range fin e "azimuth" a /\ from_range fin e "dip" d.
Definition trough_angles (e : dic) (f : Z) (a d : R) : Prop :=
  lag_cell e f /\ a = 0 /\ d = 0 \/
  structure_in e ["massive"; "flat"; "dip"; "random"] /\ from_range fin e "dip" d /\
    (exists alpha, from_range fin e "paleoflow" alpha /\ from_range fin e "azimuth" (a - alpha)) \/
  structure_in e ["bulb"; "bulb_sets"; "random"] /\ -90 <= a <= 90 /\ exists m, from_range fin e "dip" m /\ Rabs d <= Rabs m.
(** The option azimuth does not occur. *)
Definition channel_angles (e : dic) (f : Z) (a d : R) : Prop :=
  lag_cell e f /\ a = 0 /\ d = 0 \/
  from_range fin e "dip" d /\
    (structure_in e ["dip"] /\ -180 <= a <= 180 \/ ~ structure_in e ["dip"] /\ a = 0).

(** What is written for the background of an element: its own value if there is
    one, otherwise that of the stratum; [None] is NaN. *)
Definition background_angle (is_nan : F -> bool) (cf : config F) (si : nat) (sec : dic) (k : string) (a : option R) : Prop :=
  exists f, has sec k (Leaf (AFlt f)) /\
    (if is_nan f then exists f', entry (cf_strata cf) k si (Leaf (AFlt f')) /\ angle_is fin is_nan f' a else angle_is fin is_nan f a).
End Spec.
