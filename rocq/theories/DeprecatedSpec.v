(** What users of the old ini format rely on: every old option has its meaning
    in the new format (names of the options from the two option tables,
    hyvr/input/options_deprecated.py and hyvr/input/options.py). *)
From Coq Require Import List ZArith Bool Ascii String.
From Verif Require Import Base ParseModel.
Import ListNotations.
Local Open Scope string_scope.

Section Spec.
Context {F : Type}.

(** The value of an option. *)
Definition has (d : dict F) (k : string) (v : val (atom F)) : Prop := dget d (S_ k) = Some v.
Definition unset (d : dict F) (k : string) : Prop := has d k (Leaf ANone).
Definition triple (f a d : val (atom F)) : val (atom F) := Node [f; a; d].

(** Options that the generation of elements reads (ae_realization.py,
    trough_ae.pyx, trough_utils.py, trough.pyx, sheet_ae.pyx, sheet.pyx,
    utils.py, model.py, ae_types.py). *)
Definition common_keys : list string :=
  ["geometry"; "structure"; "facies"; "altfacies"; "bg_facies"; "bg_azim"; "bg_dip"; "k_ztrend"; "k_xtrend"; "size_ztrend"; "dip"; "azimuth"; "dipset_dist"].
Definition trough_keys : list string :=
  ["lag_height"; "lag_facies"; "bulbset_dist"; "te_xyz"; "depth"; "buffer"; "agg"; "migrate"; "trough_density"; "length"; "width"; "paleoflow"].
Definition sheet_keys : list string := ["lens_thickness"].
Definition complete (d : dict F) (ks : list string) : Prop := forall k, In k ks -> exists v, has d k v.
End Spec.
