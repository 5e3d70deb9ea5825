(** Vocabulary for statements about troughs placed by hand (te_xyz) and about
    cells inside objects. *)
From Coq Require Import List ZArith Bool Ascii String Reals.
From Verif Require Import Base Num ParseModel ConfigModel DeprecatedSpec LinkSpec StrataModel AssignModel TroughModel TroughSpec SheetModel ChannelModel ChannelSpec FullModel SizeSpec.
Import ListNotations.
Local Open Scope string_scope.
Local Open Scope R_scope.

(** Option te_xyz lists the centres of the troughs [ts], in this order. *)
Definition centre_is {F} (fin : F -> option R) (v : val (atom F)) (t : trough) : Prop :=
  exists x y z, v = Node [Leaf (AFlt x); Leaf (AFlt y); Leaf (AFlt z)] /\
    fin x = Some (tr_x t) /\ fin y = Some (tr_y t) /\ fin z = Some (tr_z t).
Definition centres_are {F} (fin : F -> option R) (sec : dict F) (ts : list trough) : Prop :=
  exists l, has sec "te_xyz" (Node l) /\ Forall2 (centre_is fin) l ts.

(** The point lies in a trough or channel of the element. *)
Definition in_trough (t : trough) (p : point R) : Prop :=
  exists alpha, tr_sin t = sin (radians alpha) /\ tr_cos t = cos (radians alpha) /\
    half_ellipsoid (tr_x t) (tr_y t) (tr_z t) (tr_a t) (tr_b t) (tr_c t) alpha (p_x p) (p_y p) (p_z p).
Definition in_channel (c : channel) (p : point R) : Prop :=
  in_parabola (ch_line c) (ch_width c) (ch_depth c) (ch_ztop c) (p_x p) (p_y p) (p_z p).
Definition lies_in (o : objects) (p : point R) : Prop :=
  match o with
  | OTroughs l => exists t, In t l /\ in_trough t p
  | OChannels l => exists c, In c l /\ in_channel c p
  | OSheets _ => False
  end.
