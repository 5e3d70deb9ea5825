(** What docs/inout.rst says about options that may, or must not, be left out
    (l. 112-330), and about the names of the output fields (l. 383-402). *)
From Coq Require Import List ZArith Bool Ascii String.
From Verif Require Import Base ParseModel ConfigModel.
Import ListNotations.
Local Open Scope string_scope.

Section Documented.
Context {F : Type} (zero : F).
Definition number (f : F) : val (atom F) := Leaf (AFlt f).
Definition truth (b : bool) : val (atom F) := Leaf (ABool b).

(** "(optional, default: ...)" *)
Definition run_defaults : list (string * val (atom F)) :=
  [ ("numsim", Leaf (AInt 1%Z)); ("overwrite_old_output", truth false) ].
Definition model_defaults : list (string * val (atom F)) :=
  [ ("x0", number zero); ("y0", number zero); ("z0", number zero); ("periodic", truth false); ("anisotropy", truth true);
    ("hydraulics", truth true); ("heterogeneity", truth true); ("heterogeneity_level", Leaf (AStr (S_ "internal"))) ].
Definition element_defaults : list (string * val (atom F)) :=
  [ ("dip", Node [number zero; number zero]); ("azimuth", Node [number zero; number zero]) ].
Definition erosive_defaults : list (string * val (atom F)) :=
  (element_defaults ++ [ ("buffer", number zero); ("lag_height", number zero) ])%list.
Definition defaults_of (geometry : string) : list (string * val (atom F)) :=
  if String.eqb geometry "channel" then (erosive_defaults ++ [ ("flow_angle", number zero) ])%list
  else if String.eqb geometry "trough" then erosive_defaults
  else element_defaults.
End Documented.

(** "(required)" *)
Definition model_required : list string := [ "dx"; "lx"; "ly"; "lz" ].
Definition strata_required : list string :=
  [ "strata"; "strata_contact_models"; "ae"; "ae_in_strata"; "ae_prob"; "ae_z_mean"; "avul_prob"; "avul"; "bg_facies"; "bg_azim"; "bg_dip" ].
Definition hydraulics_required : list string :=
  [ "hydrofacies"; "ycorlengths"; "k_ratio"; "n"; "sig_n"; "ncorlengths" ].
Definition element_required : list string := [ "geometry"; "structure"; "contact_model"; "facies" ].
Definition required_of (geometry : string) : list string :=
  if String.eqb geometry "channel" then (element_required ++ [ "agg"; "width"; "depth"; "h"; "k"; "ds"; "eps_factor"; "channel_no" ])%list
  else if String.eqb geometry "trough" then (element_required ++ [ "agg"; "trough_density"; "length"; "width"; "depth"; "paleoflow" ])%list
  else element_required.

(** The option [k] stands in the section with these lines. *)
Definition given (t : list (pystr * pystr)) (k : string) : Prop := In (S_ k) (map fst t).

(** The fields of the output. *)
Definition documented_fields : list string :=
  [ "strata"; "ae"; "ha"; "hat"; "fac"; "k_iso"; "dip"; "azim"; "ani_rat"; "poros"; "ktensors" ].
