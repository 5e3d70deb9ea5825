(** Vocabulary for statements that go from the ini-file to the cells of the
    generated model. *)
From Coq Require Import List ZArith Bool Ascii String.
From Verif Require Import Base ParseModel ConfigModel DeprecatedSpec.
Import ListNotations.
Local Open Scope string_scope.

Section Spec.
Context {F : Type}.

Definition geometry_is (e : dict F) (g : string) : Prop := has e "geometry" (Leaf (AStr (S_ g))).
(** The facies number [f] stands in the options of the element section [e]. *)
Inductive mentions (e : dict F) (f : Z) : Prop :=
  | in_facies l : has e "facies" (Node l) -> In (Leaf (AInt f)) l -> mentions e f
  | in_altfacies l k : has e "altfacies" (Node l) -> In (Node k) l -> In (Leaf (AInt f)) k -> mentions e f
  | is_lag : ~ geometry_is e "sheet" -> has e "lag_facies" (Leaf (AInt f)) -> mentions e f
  | is_bg : has e "bg_facies" (Leaf (AInt f)) -> mentions e f.
(** The structure of the section is a sequence of layers. *)
Definition has_layers (e : dict F) : Prop :=
  exists s, has e "structure" (Leaf (AStr s)) /\ ~ In s (map S_ ["massive"; "flat"; "bulb"]).

(** Entry of the list [k] for the stratum with number [si] in the results: they
    count from the top, the ini-file from the bottom. *)
Definition entry (d : dict F) (k : string) (si : nat) (v : val (atom F)) : Prop :=
  exists w l, has d k w /\ items w = Ok l /\ (si < List.length l)%nat /\ nth_error l (List.length l - 1 - si) = Some v.

(** Options read for channels (channel_ae.pyx, channel.pyx). *)
Definition channel_keys : list string :=
  ["lag_height"; "lag_facies"; "depth"; "width"; "buffer"; "agg"; "h"; "k"; "ds"; "eps_factor"; "channel_no"; "mig"; "flow_angle"].

(** By geometry: the options that are read, those of them that are numbers, and
    the structures. *)
Definition keys_of (g : string) : list string :=
  common_keys ++ (if String.eqb g "trough" then trough_keys else if String.eqb g "channel" then channel_keys else sheet_keys).
Definition numbers_of (g : string) : list string :=
  ["bg_azim"; "bg_dip"] ++
  (if String.eqb g "trough" then ["lag_height"; "depth"; "buffer"; "agg"; "trough_density"; "length"; "width"]
   else if String.eqb g "channel" then ["lag_height"; "depth"; "width"; "buffer"; "agg"; "h"; "k"; "ds"; "eps_factor"; "mig"; "flow_angle"]
   else ["lens_thickness"]).
Definition structures_of (g : string) : list string :=
  if String.eqb g "trough" then ["massive"; "dip"; "bulb"; "bulb_sets"; "random"] else ["massive"; "dip"].
End Spec.
