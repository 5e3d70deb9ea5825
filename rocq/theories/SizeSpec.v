(** Vocabulary for "the objects of a model have the sizes and directions that
    are written in the section of their element type". *)
From Coq Require Import List ZArith Bool Ascii String Reals.
From Verif Require Import Base ParseModel ConfigModel DeprecatedSpec LinkSpec StrataModel TroughModel SheetModel ChannelModel FullModel.
Import ListNotations.
Local Open Scope string_scope.
Local Open Scope R_scope.

Section Spec.
(** [fin] gives the real number a float stands for. *)
Context {F : Type} (fin : F -> option R).

(** Option [k] is the number [r]. *)
Definition number_at (e : dict F) (k : string) (r : R) : Prop := exists f, has e k (Leaf (AFlt f)) /\ fin f = Some r.
(** Option [k] is the list [lo, hi]. *)
Definition range_at (e : dict F) (k : string) (lo hi : R) : Prop :=
  exists a b, has e k (Node [Leaf (AFlt a); Leaf (AFlt b)]) /\ fin a = Some lo /\ fin b = Some hi.
(** [x] lies in the range given by option [k]. *)
Definition from_range (e : dict F) (k : string) (x : R) : Prop :=
  exists lo hi, range_at e k lo hi /\ Rmin lo hi <= x <= Rmax lo hi.
(** The size at elevation [z] relative to the one written down: size_ztrend
    gives the factors at the bottom and at the top of a model [m]. *)
Definition size_factor (m e : dict F) (z f : R) : Prop :=
  has e "size_ztrend" (Leaf ANone) /\ f = 1 \/
  exists t0 t1 z0 lz, range_at e "size_ztrend" t0 t1 /\ number_at m "z0" z0 /\ number_at m "lz" lz /\
    f = t0 + (t1 - t0) * ((z - z0) / lz).

(** [sec] is the section of the type of element [e] in the stratum with number
    [si] in the results; the type is one of those in ae_in_strata. *)
Definition section_of (cf : config F) (si : nat) (e : ae R) (sec : dict F) : Prop :=
  exists n cm t names,
    entry (cf_strata cf) "ae_in_strata" si t /\ items t = Ok names /\ nth_error names (ae_kind e) = Some (Leaf (AStr n)) /\
    In (n, (sec, cm)) (cf_elements cf).

(** [f] is NaN and [a] is missing, or [a] is the number [f]. *)
Definition angle_is (is_nan : F -> bool) (f : F) (a : option R) : Prop :=
  if is_nan f then a = None else exists r, fin f = Some r /\ a = Some r.

(** Elevation in column [k] of a surface according to its contact model, with
    the values [field] of a random field. *)
Definition contact_height (cm : contact F) (field : list R) (k : nat) (u : R) : Prop :=
  exists f z, cm_z cm = Some f /\ fin f = Some z /\
    (cm_mode cm = S_ "flat" /\ u = z \/ cm_mode cm = S_ "random" /\ exists x, nth_error field k = Some x /\ u = z + x).

(** A trough: half axes, position, direction, angles of the layers, lag. *)
Record trough_as_written (m e : dict F) (t : trough) : Prop := {
  ta_axes : exists len width depth f, number_at e "length" len /\ number_at e "width" width /\ number_at e "depth" depth /\
    size_factor m e (tr_z t) f /\ 2 * tr_a t = len * f /\ 2 * tr_b t = width * f /\ tr_c t = depth * f;
  ta_extent : tr_zmax t = tr_z t /\ tr_zmin t = tr_z t - tr_c t;
  ta_position : has e "te_xyz" (Leaf ANone) \/
    exists l x y z, has e "te_xyz" (Node l) /\ In (Node [Leaf (AFlt x); Leaf (AFlt y); Leaf (AFlt z)]) l /\
      fin x = Some (tr_x t) /\ fin y = Some (tr_y t) /\ fin z = Some (tr_z t);
  ta_angles : exists alpha, from_range e "paleoflow" alpha /\ tr_sin t = sin (alpha * PI / 180) /\ tr_cos t = cos (alpha * PI / 180) /\
    (tr_structure t = 0%Z \/ tr_structure t = 1%Z -> from_range e "azimuth" (tr_azim t - alpha));
  ta_dip : from_range e "dip" (tr_dip t);
  ta_lag : number_at e "lag_height" (tr_lag t) /\ has e "lag_facies" (Leaf (AInt (tr_lag_facies t)));
  ta_dipsets : tr_structure t = 1%Z -> number_at e "dipset_dist" (tr_layer_dist t);
  ta_bulbsets : tr_structure t = 3%Z -> number_at e "bulbset_dist" (tr_layer_dist t) }.

(** A channel. *)
Record channel_as_written (e : dict F) (c : channel) : Prop := {
  ca_size : number_at e "width" (ch_width c) /\ number_at e "depth" (ch_depth c);
  ca_extent : ch_zmax c = ch_ztop c /\ ch_zmin c = ch_ztop c - ch_depth c;
  ca_dip : from_range e "dip" (ch_dip c);
  ca_lag : number_at e "lag_height" (ch_lag c) /\ has e "lag_facies" (Leaf (AInt (ch_lag_facies c)));
  ca_dipsets : ch_dipsets c = true -> has e "structure" (Leaf (AStr (S_ "dip"))) /\ number_at e "dipset_dist" (ch_layer_dist c) }.

(** A sheet. *)
Record sheet_as_written (e : dict F) (s : sheet) : Prop := {
  sa_azim : from_range e "azimuth" (sh_azim s);
  sa_dip : from_range e "dip" (sh_dip s);
  sa_dipsets : sh_dipsets s = true -> has e "structure" (Leaf (AStr (S_ "dip"))) /\ number_at e "dipset_dist" (sh_layer_dist s) }.
End Spec.

(** All random numbers for directions and angles are those of
    np.random.uniform. *)
Definition unit_draw (u : R) : Prop := 0 <= u <= 1.
Definition unit_draws (od : object_draws) : Prop :=
  Forall (fun d => unit_draw (shd_azim d) /\ unit_draw (shd_dip d)) (od_sheets od) /\
  Forall (fun d => unit_draw (fst d) /\ unit_draw (td_azim (snd d)) /\ unit_draw (td_dip (snd d))) (od_troughs od) /\
  forall n, Forall (fun d => unit_draw (cd_dip (ld_channel d))) (od_levels od n).
