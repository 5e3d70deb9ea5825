(** Vocabulary for statements about channels. *)
From Coq Require Import List ZArith Reals.
From Verif Require Import Base Num AssignModel ChannelModel.
Import ListNotations.
Local Open Scope R_scope.

(** docs/methods.rst, "Extruded parabolas": D^2 <= w^2/4 + w^2 (z-z_ch) / (4 d)
    and z <= z_ch, where D is the distance to the nearest centreline point. *)
Definition in_parabola (line : list cpoint) (width depth ztop x y z : R) : Prop :=
  z <= ztop /\
  exists q, In q line /\
    (forall q', In q' line -> (x - cp_x q) ^ 2 + (y - cp_y q) ^ 2 <= (x - cp_x q') ^ 2 + (y - cp_y q') ^ 2) /\
    (x - cp_x q) ^ 2 + (y - cp_y q) ^ 2 <= width ^ 2 / 4 + width ^ 2 * (z - ztop) / (4 * depth).

(** A cell centre of the grid whose first centre is (x0, y0). *)
Definition on_grid (x0 y0 dx dy : R) (nx ny : nat) (p : point R) : Prop :=
  p_x p = x0 + INR (p_xi p) * dx /\ p_y p = y0 + INR (p_yi p) * dy /\ (p_xi p < nx)%nat /\ (p_yi p < ny)%nat.

(** Objects without state, or channels with their own marks: [chan] says which
    channel uses which marks. *)
Definition stateless {D} (o : aobj R D) : Prop := exists h, forall d p, o_check o d p = (d, h p).
Definition channels_keyed (cg : cgrid) (chan : nat -> option (channel * Z)) (o : aobj R marks) : Prop :=
  stateless o \/ exists key c ha report, chan key = Some (c, ha) /\
    forall d p, o_check o d p = (fst (channel_assign cg key c ha d p), report p (snd (channel_assign cg key c ha d p))).
