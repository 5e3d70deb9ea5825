(** Vocabulary for cells inside several channels or troughs. *)
From Coq Require Import List ZArith Reals.
From Verif Require Import Base Num AssignModel TroughModel ChannelModel PlaceSpec.
Import ListNotations.
Local Open Scope R_scope.

(** [c] is channel number [k] of the list, contains the point, and no earlier
    channel of the list does. *)
Definition first_containing (l : list channel) (p : point R) (k : nat) (c : channel) : Prop :=
  nth_error l k = Some c /\ in_channel c p /\
  forall j c', (j < k)%nat -> nth_error l j = Some c' -> ~ in_channel c' p.

(** The cell [v] at [p] shows channel [c]: the lag, the facies of a channel
    without layers, or the direction of one with layers. *)
Definition shows (c : channel) (p : point R) (v : cell_values (T := R)) : Prop :=
  (p_z p < ch_ztop c - ch_depth c + ch_lag c /\ c_facies v = ch_lag_facies c /\ c_azim v = Some 0 /\ c_dip v = Some 0) \/
  (ch_ztop c - ch_depth c + ch_lag c <= p_z p /\ ch_dipsets c = false /\
     c_facies v = ch_facies c /\ c_azim v = Some (ch_azim c) /\ c_dip v = Some (ch_dip c)) \/
  (ch_ztop c - ch_depth c + ch_lag c <= p_z p /\ ch_dipsets c = true /\
     c_azim v = Some (channel_azimuth c (p_x p) (p_y p)) /\ c_dip v = Some (ch_dip c)).

(** [t] is trough number [k] of the list, contains the point, and no earlier
    trough of the list does. *)
Definition first_trough (l : list trough) (p : point R) (k : nat) (t : trough) : Prop :=
  nth_error l k = Some t /\ in_trough t p /\
  forall j t', (j < k)%nat -> nth_error l j = Some t' -> ~ in_trough t' p.

(** The same with periodic boundaries: a copy of the point, moved by a multiple
    of the domain, lies in the trough. *)
Definition in_periodic_trough (lx ly : R) (t : trough) (p : point R) : Prop :=
  exists i j : Z, in_trough t (mkPoint (p_x p + IZR i * lx) (p_y p + IZR j * ly) (p_z p) (p_xi p) (p_yi p)).
Definition first_trough_periodic (lx ly : R) (l : list trough) (p : point R) (k : nat) (t : trough) : Prop :=
  nth_error l k = Some t /\ in_periodic_trough lx ly t p /\
  forall j t', (j < k)%nat -> nth_error l j = Some t' -> ~ in_periodic_trough lx ly t' p.

(** The cell [v] at [p] shows trough [t]: the lag; the facies, azimuth and dip
    of a homogeneous trough; a layer with the direction of the trough; a trough
    or a layer that follows the bulb, no steeper than the dip of the trough. *)
Definition shows_trough (t : trough) (p : point R) (v : cell_values (T := R)) : Prop :=
  (p_z p < tr_z t - tr_c t + tr_lag t /\ c_facies v = tr_lag_facies t /\ c_azim v = Some 0 /\ c_dip v = Some 0) \/
  (tr_z t - tr_c t + tr_lag t <= p_z p /\
   ((tr_structure t = 0%Z /\ c_facies v = tr_facies t /\ c_azim v = Some (tr_azim t) /\ c_dip v = Some (tr_dip t)) \/
    (tr_structure t = 1%Z /\ In (c_facies v) (tr_array t) /\ c_azim v = Some (tr_azim t) /\ c_dip v = Some (tr_dip t)) \/
    (tr_structure t = 2%Z /\ c_facies v = tr_facies t /\ exists d, c_dip v = Some d /\ Rabs d <= Rabs (tr_dip t)) \/
    (tr_structure t = 3%Z /\ In (c_facies v) (tr_array t) /\ exists d, c_dip v = Some d /\ Rabs d <= Rabs (tr_dip t)))).
