(** What the tables of the old format ask for (options_deprecated.py): names
    under which a required option may be written, first its own name. *)
From Coq Require Import List ZArith Bool Ascii String.
From Verif Require Import Base ParseModel.
Import ListNotations.
Local Open Scope string_scope.

Definition old_model_required : list (list string) := [["dx"]; ["lx"]; ["ly"]; ["lz"]; ["hetlev"]].
Definition old_strata_required : list (list string) :=
  [ ["ssm"; "l_ssm"; "l_seq"]; ["ssm_top"; "r_ssm_top"]; ["ae"; "l_ae"]; ["ssm_ae"; "ll_ssm_ae"]; ["ae_prob"; "ll_ae_prob"];
    ["ae_z_mean"; "ll_ae_z_mean"]; ["avul_prob"; "ll_avul_prob"]; ["avul"; "ll_avul"]; ["bg"] ].
Definition old_hydraulics_required : list (list string) :=
  [ ["hydro"; "l_hydro"]; ["k_h"; "r_k_h"]; ["sig_y"; "r_sig_y"]; ["k_ratio"; "r_k_ratio"]; ["n"; "r_n"]; ["sig_n"; "r_sig_n"];
    ["ycorlengths"; "ll_ycorlengths"]; ["ncorlengths"; "ll_ncorlengths"] ].
Definition old_common_required : list (list string) := [ ["geometry"]; ["structure"]; ["contact"]; ["facies"; "l_facies"] ].
Definition old_erosive_required : list (list string) := [ ["agg"]; ["dip"; "r_dip"] ].
Definition old_required_of (geometry : string) : list (list string) :=
  (old_common_required ++
   if String.eqb geometry "trunc_ellip" then
     old_erosive_required ++ [ ["length"]; ["width"]; ["depth"]; ["el_z"]; ["paleoflow"; "r_paleoflow"]; ["azimuth"; "r_azimuth"] ]
   else if String.eqb geometry "ext_par" then
     old_erosive_required ++ [ ["width"]; ["depth"]; ["h"]; ["k"]; ["ds"]; ["eps_factor"]; ["channel_no"] ]
   else [ ["lens_thickness"] ])%list.

(** The section has a line with one of these names. *)
Definition given_as (t : list (pystr * pystr)) (ks : list string) : Prop := exists k, In k ks /\ In (S_ k) (map fst t).

(** Values of options that are left out, with all their names. *)
Section Defaults.
Context {F : Type} (zero : F).
Definition old_run_defaults : list (list string * val (atom F)) :=
  [ (["numsim"], Leaf (AInt 1%Z)); (["anisotropy"; "flag_anisotropy"], Leaf (ABool true)); (["het"; "flag_het"], Leaf (ABool true));
    (["modeloutputs"; "l_modeloutputs"], Node []); (["flag_ow"], Leaf (ABool false)) ].
Definition old_model_defaults : list (list string * val (atom F)) :=
  [ (["x0"], Leaf (AFlt zero)); (["y0"], Leaf (AFlt zero)); (["z0"], Leaf (AFlt zero)); (["periodic"; "flag_periodic"], Leaf (ABool false)) ].
Definition old_strata_defaults : list (list string * val (atom F)) := [ (["ssm_contact"], Leaf (AStr (S_ "flat"))) ].
Definition old_hydraulics_defaults : list (list string * val (atom F)) := [ (["gen"; "flag_gen"], Leaf (ABool true)) ].
End Defaults.
