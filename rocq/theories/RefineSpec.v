(** What it means to change the resolution of a grid: the same settings with
    other dx, dy, dz. *)
From Coq Require Import List ZArith Bool Ascii String Reals.
From Verif Require Import Base Num ParseModel ConfigModel SurfaceModel StrataModel AssignModel ChannelModel FullModel.
Import ListNotations.
Local Open Scope R_scope.

(** The contact surfaces are not random fields. *)
Definition even_type (ft : full_type) : Prop := cm_mode (ft_contact ft) <> S_ "random".
Definition even_settings (contacts : list (contact R)) (params : list full_params) : Prop :=
  Forall (fun cm => cm_mode cm <> S_ "random") contacts /\ Forall (fun fp => Forall even_type (fp_types fp)) params.

(** The same draws; the fields have one value per column, so they differ, and
    are used by random contact surfaces only. *)
Definition without_field (d : full_draw) : full_draw := mkFD (fd_height d) (fd_u d) (fd_avul d) (fd_next d) [] (fd_objects d).
Definition without_fields (sd : full_stratum_draws) : full_stratum_draws :=
  mkFSD [] (fsd_first sd) (map without_field (fsd_draws sd)).
Definition same_draws (draws draws' : list full_stratum_draws) : Prop := map without_fields draws' = map without_fields draws.

(** The same horizontal plane over n and over n' columns. *)
Definition same_plane (n n' : nat) (s s' : surface R) : Prop :=
  zmean s' = zmean s /\ zmin s' = zmin s /\ zmax s' = zmax s /\ exists v, vals s = repeat v n /\ vals s' = repeat v n'.

(** The same objects; a channel also holds the smaller of dx and dy. *)
Definition with_cells (m : R) (h : channel) : channel :=
  mkChannel (ch_line h) (ch_ztop h) (ch_zmin h) (ch_zmax h) (ch_depth h) (ch_width h) (ch_a h) m
    (ch_lag h) (ch_lag_facies h) (ch_dipsets h) (ch_layer_dist h) (ch_shift h) (ch_dip h) (ch_azim h) (ch_sin h) (ch_cos h)
    (ch_facies h) (ch_num_facies h) (ch_array h).
Definition same_objects (m : R) (o o' : objects) : Prop :=
  o' = match o with OChannels l => OChannels (map (with_cells m) l) | o => o end.

(** Elements that differ in the number of columns of their surfaces only. *)
Definition same_element (e e' : ae R) : Prop :=
  ae_bottom e' = ae_bottom e /\ ae_top e' = ae_top e /\ ae_zmin e' = ae_zmin e /\ ae_zmax e' = ae_zmax e /\
  ae_objects e' = ae_objects e /\ ae_bg_facies e' = ae_bg_facies e /\ ae_bg_azim e' = ae_bg_azim e /\ ae_bg_dip e' = ae_bg_dip e /\
  ae_kind e' = ae_kind e.
Definition same_stratum (m : R) (s s' : full_stratum) : Prop :=
  s_bottom (fst s') = s_bottom (fst s) /\ s_top (fst s') = s_top (fst s) /\ s_zmin (fst s') = s_zmin (fst s) /\ s_zmax (fst s') = s_zmax (fst s) /\
  Forall2 same_element (s_aes (fst s)) (s_aes (fst s')) /\ Forall2 (same_objects m) (snd s) (snd s').

(** Two points at the same place; their cells have other numbers. *)
Definition same_place (p p' : point R) : Prop := p_x p' = p_x p /\ p_y p' = p_y p /\ p_z p' = p_z p.
